(** Programs of /repo/examples which make one motion: generate_joint_position_motion.rs,
    generate_joint_velocity_motion.rs, generate_cartesian_pose_motion.rs, generate_cartesian_velocity_motion.rs and
    generate_elbow_motion.rs, as a whole. *)
From Coq Require Import List ZArith NArith Bool.
From Flocq Require Import IEEE754.BinarySingleNaN IEEE754.Binary IEEE754.Bits.
From Verif Require Import NumOps NumFloat RateModel WireModel RobotModel LoopModel TypedModel MotionModel JointMotionModel ExampleMotions
  ProgramModel.
Import ListNotations.
Open Scope N_scope.

(** What the programs differ in: the settings after the defaults, the closure with its captured variables and the kind
    of motion. *)
Record motion_example := MotionExample {
  e_settings : list robot_request;
  e_user : user_control;
  e_start : u_cb e_user
}.
Definition float_bits (l : list Z) : list N := map (fun z => bits (f_int float z)) l.
(** generate_joint_position_motion.rs 29-38, generate_joint_velocity_motion.rs 32-41, generate_cartesian_pose_motion.rs
    31-40 and generate_elbow_motion.rs 28-37 *)
Definition usual_collision : robot_request :=
  let joints := float_bits [20; 20; 18; 18; 16; 14; 12]%Z in
  let forces := float_bits [20; 20; 20; 25; 25; 25]%Z in
  ReqSetCollisionBehavior joints joints joints joints forces forces forces forces.
(** generate_cartesian_velocity_motion.rs 29 *)
Definition twist_impedance : robot_request := ReqSetJointImpedance (float_bits [3000; 3000; 3000; 2500; 2500; 2000; 2000]%Z).
(** generate_cartesian_velocity_motion.rs 30-48 *)
Definition twist_collision : robot_request :=
  let lower := float_bits [25; 25; 22; 20; 19; 17; 14]%Z in
  let upper := float_bits [35; 35; 32; 30; 29; 27; 24]%Z in
  let lower_force := float_bits [30; 30; 30; 25; 25; 25]%Z in
  let upper_force := float_bits [40; 40; 40; 35; 35; 35]%Z in
  ReqSetCollisionBehavior lower upper lower upper lower_force upper_force lower_force upper_force.

Section Programs.
  Variable rots : rotations.
  (** the functions of ExampleMotions.v *)
  Variables f_cos f_sin f_floor : F float -> F float.
  Variables f_powf f_fmod : F float -> F float -> F float.

  (** A closure which returns this output without elbow *)
  Definition plain {S} (p : S * (list (F float) * bool)) : option (S * motion_out) :=
    Some (fst p, MotionOut (map bits (fst (snd p))) None (snd (snd p))).
  (** generate_joint_position_motion.rs 29-38, 43-61 *)
  Definition position_example : motion_example :=
    MotionExample [usual_collision]
      (UserControl (F float * list (F float)) MmJointPosition
        (fun s x dt => plain (position_step float f_cos as_secs_f64 s (map of_bits (rs_q_d x)) dt)) None None None None)
      (position_start float).
  (** generate_joint_velocity_motion.rs 32-41, 46-65 *)
  Definition velocity_example : motion_example :=
    MotionExample [usual_collision]
      (UserControl (F float) MmJointVelocity
        (fun s x dt => plain (velocity_motion float f_cos f_floor f_powf f_fmod as_secs_f64 s tt dt)) None None None None)
      (f_int float 0).
  (** generate_cartesian_pose_motion.rs 31-40, 45-66 *)
  Definition pose_example : motion_example :=
    MotionExample [usual_collision]
      (UserControl (F float * list (F float)) MmCartesianPosition
        (fun s x dt => plain (pose_step float f_cos f_sin as_secs_f64 s (map of_bits (rs_O_T_EE_c x)) dt)) None None None None)
      (pose_start float).
  (** generate_cartesian_velocity_motion.rs 29-48, 53-75 *)
  Definition twist_example : motion_example :=
    MotionExample [twist_impedance; twist_collision]
      (UserControl (F float) MmCartesianVelocity
        (fun s x dt => plain (twist_step float f_cos f_sin f_floor f_powf f_fmod as_secs_f64 s tt dt)) None None None None)
      (f_int float 0).
  (** generate_elbow_motion.rs 28-37, 42-61; elbow_c has two elements by its type *)
  Definition elbow_example : motion_example :=
    MotionExample [usual_collision]
      (UserControl (F float * (list (F float) * (F float * F float))) MmCartesianPosition
        (fun s x dt =>
           let read := (map of_bits (rs_O_T_EE_c x), (of_bits (nth 0 (rs_elbow_c x) 0), of_bits (nth 1 (rs_elbow_c x) 0))) in
           let p := elbow_step float f_cos as_secs_f64 s read dt in
           let '(pose, (elbow, sign)) := fst (snd p) in
           Some (fst p, MotionOut (map bits pose) (Some (bits elbow, bits sign)) (snd (snd p)))) None None None None)
      (elbow_start float).

  (** The settings one after the other *)
  Fixpoint settings (rs : list robot_request) : M unit :=
    match rs with [] => ret tt | r :: rs => setter r ;;; settings rs end.
  (** [main]: generate_joint_position_motion.rs 19-62 and likewise; waiting for the Enter key and printing are left out.
      The goal and its speed are those of [consecutive_goal] (generate_joint_position_motion.rs 40-41). *)
  Definition run_example (e : motion_example) (port : N) : M unit :=
    robot_new port ;;;
    set_default_behavior ;;;
    settings (e_settings e) ;;;
    control (controller_of rots joint_motion) (joint_motion_start (bits (f_lit float 1 2)) consecutive_goal) ;;;
    control (controller_of rots (e_user e)) (e_start e).
End Programs.
