(** The rotation parts of the pose functions with the conversion to quaternions and back, in exact
    arithmetic (PoseReal.v takes that conversion to be exact). *)
From Coq Require Import List ZArith Reals.
From Verif Require Import NumOps NumReal RateModel ConvertModel PoseReal IsometryModel.
Open Scope R_scope.

(** A matrix by rows. *)
Definition matrix_of (r : rot real) : mat3 :=
  let '(a, b, c) := r in Mat3 (vx _ a) (vx _ b) (vx _ c) (vy _ a) (vy _ b) (vy _ c) (vz _ a) (vz _ b) (vz _ c).
(** utils.rs 11-21 and [to_rotation_matrix] *)
Definition attitude (y : list R) : mat3 := matrix_of (orientation real cos sin y).
(** rate_limiting.rs 310-317; [renormalize] is the identity on rotation matrices in exact arithmetic, [scaled_axis] as in PoseReal.v *)
Definition rot_log_iso (y y_last : list R) : vec real := scaled_axis (mat_mul (attitude y) (transpose (attitude y_last))).
(** rate_limiting.rs 356-360 *)
Definition rot_exp_iso (tail : vec real) (y_last : list R) : rot real :=
  rot_of real (quat_of real (from_matrix real cos sin (columns (mat_mul (rodrigues tail) (attitude y_last))))).
(** rate_limiting.rs 340 and [to_homogeneous] *)
Definition rot_keep_iso (y_last : list R) : rot real := orientation real cos sin y_last.
(** low_pass_filter.rs 69, as in PoseReal.v *)
Definition slerp_iso (y_last y : list R) (share : R) : rot real :=
  columns (mat_mul (rodrigues (v_scale real (rot_log_iso y y_last) (share / DELTA_T real))) (attitude y_last)).
