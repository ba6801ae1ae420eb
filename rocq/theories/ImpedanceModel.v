(** The controllers of /repo/examples/cartesian_impedance_control.rs and /repo/examples/mirror_robot.rs
    in exact arithmetic, and the channel between the two robots of the second one.

    Simplifications: matrices of nalgebra are lists of columns; the matrices [stiffness] and
    [damping], which are diagonal, are applied to the two halves of a vector; real numbers instead of
    binary64; the pseudo-inverse is a parameter. *)
From Coq Require Import List ZArith Reals Bool.
From Verif Require Import NumOps NumReal RateModel ConvertModel IsometryModel.
Import ListNotations.
Open Scope R_scope.

(** nalgebra: sums of products, sums of vectors, a matrix times a vector, its transpose times a vector *)
Fixpoint dotl (a b : list R) : R := match a, b with x :: a, y :: b => x * y + dotl a b | _, _ => 0 end.
Definition addl : list R -> list R -> list R := map2 Rplus.
Definition subl : list R -> list R -> list R := map2 Rminus.
Definition scalel (k : R) : list R -> list R := map (Rmult k).
Fixpoint mulv (rows : nat) (cols : list (list R)) (x : list R) : list R :=
  match cols, x with c :: cols, k :: x => addl (scalel k c) (mulv rows cols x) | _, _ => repeat 0 rows end.
Definition mult (cols : list (list R)) (f : list R) : list R := map (fun c => dotl c f) cols.
(** [Matrix6x7::from_column_slice]: seven columns of six elements *)
Definition columns6 (l : list R) : list (list R) :=
  map (fun k => firstn 6 (skipn (6 * k) l)) (seq 0 7).

(** nalgebra: product, conjugate, normalisation and components of quaternions *)
Definition q_mul (p q : quat real) : quat real :=
  let a := qw _ p in let b := qi _ p in let c := qj _ p in let d := qk _ p in
  let w := qw _ q in let x := qi _ q in let y := qj _ q in let z := qk _ q in
  Quat real (a*w - b*x - c*y - d*z) (a*x + b*w + c*z - d*y) (a*y - b*z + c*w + d*x) (a*z + b*y - c*x + d*w).
Definition q_conj (q : quat real) : quat real := Quat real (qw _ q) (- qi _ q) (- qj _ q) (- qk _ q).
Definition q_neg (q : quat real) : quat real := Quat real (- qw _ q) (- qi _ q) (- qj _ q) (- qk _ q).
Definition q_dot (p q : quat real) : R := qi _ p * qi _ q + qj _ p * qj _ q + qk _ p * qk _ q + qw _ p * qw _ q.
Definition q_normalize (q : quat real) : quat real :=
  let n := sqrt (q_dot q q) in Quat real (qw _ q / n) (qi _ q / n) (qj _ q / n) (qk _ q / n).
(** nalgebra: a rotation matrix times a vector *)
Definition r_apply (r : rot real) (v : vec real) : vec real :=
  let '(a, b, c) := r in
  Vec real (vx _ a * vx _ v + vx _ b * vy _ v + vx _ c * vz _ v) (vy _ a * vx _ v + vy _ b * vy _ v + vy _ c * vz _ v)
           (vz _ a * vx _ v + vz _ b * vy _ v + vz _ c * vz _ v).

(** cartesian_impedance_control.rs 77, 85-96 and mirror_robot.rs 111, 133-144 *)
Definition orientation_error (q q_d : quat real) : list R :=
  let o := if Rlt_dec (q_dot q_d q) 0 then q_neg q else q in
  let e := q_mul (q_conj (q_normalize o)) q_d in
  let v := r_apply (rot_of real q) (Vec real (qi _ e) (qj _ e) (qk _ e)) in
  [- vx _ v; - vy _ v; - vz _ v].
(** cartesian_impedance_control.rs 79-83 and mirror_robot.rs 127-131 *)
Definition position_error (p p_d : vec real) : list R := [vx _ p - vx _ p_d; vy _ p - vy _ p_d; vz _ p - vz _ p_d].
(** The diagonal matrices [stiffness] and [damping]: cartesian_impedance_control.rs 31-45 and mirror_robot.rs 38-52 *)
Definition diagonal (t r : R) : list R := [t; t; t; r; r; r].
Definition apply_diagonal (d x : list R) : list R := map2 Rmult d x.
Definition stiffness (kt kr : R) : list R := diagonal kt kr.
Definition damping (kt kr : R) : list R := diagonal (2 * sqrt kt) (2 * sqrt kr).
(** -stiffness * error - damping * (jacobian * dq): cartesian_impedance_control.rs 98 and mirror_robot.rs 149 *)
Definition task_wrench (kt kr : R) (pose pose_d : quat real * vec real) (twist : list R) : list R :=
  let error := position_error (snd pose) (snd pose_d) ++ orientation_error (fst pose) (fst pose_d) in
  subl (map Ropp (apply_diagonal (stiffness kt kr) error)) (apply_diagonal (damping kt kr) twist).
(** cartesian_impedance_control.rs 97-98 and mirror_robot.rs 148-149 *)
Definition task_torques (kt kr : R) (jacobian : list R) (pose pose_d : quat real * vec real) (dq : list R) : list R :=
  let j := columns6 jacobian in mult j (task_wrench kt kr pose pose_d (mulv 6 j dq)).
(** cartesian_impedance_control.rs 28-29, 69-102: the closure, given the results of the model queries for the state; the
    desired pose is that of the state read before (56-59) *)
Definition impedance_torques (coriolis jacobian O_T_EE dq initial : list R) : list R :=
  addl (task_torques 150 10 jacobian (array_to_isometry real cos sin O_T_EE) (array_to_isometry real cos sin initial) dq) coriolis.

(** mirror_robot.rs 116-126: the desired pose *)
Definition mirrored (pose : quat real * vec real) : quat real * vec real :=
  let (q, p) := pose in
  (q_normalize (Quat real (qw _ q) (- qi _ q) (qj _ q) (- qk _ q)), Vec real (vx _ p) (- vy _ p) (vz _ p)).
(** mirror_robot.rs 32, 145-147: nullspace_projection * NULLSPACE_TORQUE_SCALING * (home - q); [pinv] is the pseudo-inverse of
    the transposed Jacobian, by its columns (seven of six elements) *)
Definition nullspace_torques (jacobian : list R) (pinv : list (list R)) (home q : list R) : list R :=
  let x := scalel 5 (subl home q) in
  subl x (mult (columns6 jacobian) (mulv 6 pinv x)).
(** mirror_robot.rs 35-36, 102-153: the closure of the mirroring robot, given the pose taken from the channel *)
Definition mirror_torques (coriolis jacobian : list R) (pinv : list (list R)) (O_T_EE q dq home desired : list R) : list R :=
  addl (addl (task_torques 400 50 jacobian (array_to_isometry real cos sin O_T_EE) (mirrored (array_to_isometry real cos sin desired)) dq)
             (nullspace_torques jacobian pinv home q)) coriolis.

(** The channel of mirror_robot.rs 68, 71, 92-95 and 113-115: the guided robot's callback sends its pose; the mirroring
    robot's callback receives one pose, or keeps the last one if none comes within 100 microseconds (or none will come
    any more). *)
Section Channel.
  Context {A : Type}.
  Inductive channel_event := Sent (pose : A) | Taken.
  (** what is in the channel, the last pose taken, and the poses used so far, newest first *)
  Definition channel_step (s : list A * A * list A) (e : channel_event) : list A * A * list A :=
    let '(queue, last, used) := s in
    match e with
    | Sent p => (queue ++ [p], last, used)
    | Taken => match queue with
               | p :: queue => (queue, p, p :: used)
               | [] => ([], last, last :: used)
               end
    end.
  Definition channel_run (initial : A) (l : list channel_event) : list A * A * list A :=
    fold_left channel_step l ([], initial, []).
End Channel.
