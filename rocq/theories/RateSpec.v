(** Limits of the robot and sequences of limited commands, in real numbers. *)
From Coq Require Import List Reals.
Import ListNotations.
Open Scope R_scope.

(** Documented limits of the seven joints: velocity (rad/s), acceleration, jerk, torque rate (Nm/s). *)
Definition robot_velocity : list R := [2175/1000; 2175/1000; 2175/1000; 2175/1000; 2610/1000; 2610/1000; 2610/1000].
Definition robot_acceleration : list R := [15; 15/2; 10; 25/2; 15; 20; 20].
Definition robot_jerk : list R := [7500; 3750; 5000; 6250; 7500; 10000; 10000].
Definition robot_torque_rate : R := 1000.
(** Translation (m/s) and rotation (rad/s): velocity, acceleration. *)
Definition robot_translation_velocity : R := 2.
Definition robot_translation_acceleration : R := 13.
Definition robot_rotation_velocity : R := 5/2.
Definition robot_rotation_acceleration : R := 25.
Definition cycle : R := 1/1000.

(** |x_i| <= m_i for every i, and the lists have equal length. *)
Definition bounded (m x : list R) : Prop := Forall2 (fun m x => Rabs x <= m) m x.
(** (y - x) / cycle, elementwise *)
Fixpoint rate (x y : list R) : list R :=
  match x, y with a :: x, b :: y => (b - a) / cycle :: rate x y | _, _ => [] end.
Definition joints (x : list R) : Prop := length x = 7%nat.

(** A sequence of outputs [ys] from the start [x] such that [P] holds of each output and its
    predecessor. *)
Fixpoint steps {A} (P : A -> A -> Prop) (x : A) (ys : list A) : Prop :=
  match ys with [] => True | y :: ys => P x y /\ steps P y ys end.

(** Euclidean length of the first and of the last three of six numbers. *)
Definition first3 (l : list R) : R := match l with [a; b; c; _; _; _] => sqrt (a * a + b * b + c * c) | _ => 0 end.
Definition last3 (l : list R) : R := match l with [_; _; _; a; b; c] => sqrt (a * a + b * b + c * c) | _ => 0 end.
