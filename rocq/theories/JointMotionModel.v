(** [Robot::joint_motion]: the motion generator run by the control loop. *)
From Coq Require Import List ZArith NArith Bool.
From Flocq Require Import IEEE754.BinarySingleNaN IEEE754.Binary IEEE754.Bits.
From Verif Require Import NumOps NumFloat RateModel WireModel RobotModel LoopModel TypedModel MotionModel.
Import ListNotations.
Open Scope N_scope.

(** [u64 as f64] of Rust: rounded to nearest even *)
Definition of_u64 (n : N) : F float := binary_normalize 53 1024 eq_refl eq_refl mode_NE (Z.of_N n) 0 false.
(** Duration::as_secs_f64 of a duration of whole milliseconds (standard library: seconds plus nanoseconds / 10^9) *)
Definition as_secs_f64 (ms : N) : F float :=
  f_add float (of_u64 (ms / 1000)) (f_div float (of_u64 (ms mod 1000 * 1000000)) (of_u64 1000000000)).

(** robot.rs 1040-1048: the callback is [generate_motion] of utils.rs 172-190 on a generator made by
    MotionGenerator::new; rate limiting on, filter at the highest frequency, joint impedance *)
Definition joint_motion : user_control :=
  UserControl (generator float) MmJointPosition
    (fun g x dt => let p := generate_motion float g (map of_bits (rs_q_d x)) (as_secs_f64 dt) in
                   Some (fst p, MotionOut (map bits (fst (snd p))) None (snd (snd p))))
    None (Some JointImpedance) (Some true) (Some (bits (MAX_CUTOFF_FREQUENCY float))).
Definition joint_motion_start (speed_factor : N) (q_goal : list N) : u_cb joint_motion :=
  generator_new float (of_bits speed_factor) (map of_bits q_goal).
