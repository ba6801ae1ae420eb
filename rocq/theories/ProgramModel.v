(** Whole programs of /repo/examples: grasp_object.rs and generate_consecutive_motions.rs. *)
From Coq Require Import List ZArith NArith Bool.
From Flocq Require Import IEEE754.BinarySingleNaN IEEE754.Binary IEEE754.Bits.
From Verif Require Import NumOps NumFloat RateModel WireModel RobotModel LoopModel TypedModel MotionModel JointMotionModel ExampleMotions
  GripperModel.
Import ListNotations.
Open Scope N_scope.

(** * examples/grasp_object.rs *)
(** How [main] ends if no call fails: 40 returns [Ok], 28-29 and 35-36 end the process *)
Inductive grasp_end := Released | TooLarge | ObjectLost.
(** [?] *)
Definition g_try {A B} (r : outcome A * gst) (f : A -> gst -> outcome B * gst) : outcome B * gst :=
  match r with
  | (Ok a, s) => f a s
  | (Err e, s) => (Err e, s)
  | (Panic p, s) => (Panic p, s)
  | (Blocked, s) => (Blocked, s)
  | (OutOfFuel, s) => (OutOfFuel, s)
  end.
(** examples/grasp_object.rs 20-41.  The port is that of the UDP socket (gripper.rs 47-49); [width] are the bits of
    the third argument.  Printing and sleeping are left out. *)
Definition grasp_object (port : N) (home : bool) (width : N) (s : gst) : outcome grasp_end * gst :=
  g_try (connect_gripper port s) (fun _ s =>
  g_try (if home then homing s else (Ok true, s)) (fun _ s =>
  g_try (g_read_once s) (fun state s =>
  if f_lt float (of_bits (gr_max_width state)) (of_bits width) then (Ok TooLarge, s) else
  g_try (grasp width (bits (f_lit float 1 10)) (bits (f_int float 60)) None None s) (fun _ s =>
  g_try (g_read_once s) (fun state s =>
  if negb (gr_is_grasped state) then (Ok ObjectLost, s) else
  g_try (gripper_stop s) (fun _ s => (Ok Released, s))))))).

(** * examples/generate_consecutive_motions.rs *)
(** 31-40 *)
Definition consecutive_collision : robot_request :=
  let joints := map bits (map (f_int float) [10; 10; 9; 9; 6; 7; 6]%Z) in
  let forces := map bits [f_int float 10; f_int float 10; f_int float 10; f_lit float 25 2; f_lit float 25 2; f_lit float 25 2] in
  ReqSetCollisionBehavior joints joints joints joints forces forces forces forces.
(** 42 *)
Definition consecutive_goal : list N :=
  let zero := f_int float 0 in
  let quarter := f_div float (f_pi float) (f_int float 4) in
  map bits [zero; f_div float (f_neg float (f_pi float)) (f_int float 4); zero;
            f_div float (f_mul float (f_int float (-3)) (f_pi float)) (f_int float 4); zero;
            f_div float (f_pi float) (f_int float 2); quarter].

Section Consecutive.
  Variable rots : rotations.
  (** the functions of ExampleMotions.v *)
  Variables f_cos f_floor : F float -> F float.
  Variables f_powf f_fmod : F float -> F float -> F float.

  (** 48-63, the options of 65; the only captured variable which changes is [time] *)
  Definition consecutive_user : user_control :=
    UserControl (F float) MmJointVelocity
      (fun time _ dt => let p := consecutive_motion float f_cos f_floor f_powf f_fmod as_secs_f64 time tt dt in
                        Some (fst p, MotionOut (map bits (fst (snd p))) None (snd (snd p))))
      None None None None.
  (** 45 *)
  Definition consecutive_start : u_cb consecutive_user := f_int float 0.

  (** 64-79, [n] rounds left.  The closure captures numbers by value, so it is copied: every call gets one
      with the values of 45-47. *)
  Fixpoint consecutive_rounds (n : nat) : M unit :=
    match n with
    | O => ret tt
    | S n => fun s =>
        match control (controller_of rots consecutive_user) consecutive_start s with
        | (Ok _, s) => consecutive_rounds n s
        | (Err (ControlException _ _), s) => (automatic_error_recovery ;;; consecutive_rounds n) s
        | r => r
        end
    end.

  (** 21-81; 26-27 (waiting for the Enter key) and printing are left out *)
  Definition consecutive_motions (port : N) : M unit :=
    robot_new port ;;;
    set_default_behavior ;;;
    setter consecutive_collision ;;;
    control (controller_of rots joint_motion) (joint_motion_start (bits (f_lit float 1 2)) consecutive_goal) ;;;
    consecutive_rounds 5.
End Consecutive.
