(** The rotation part of the pose limiter in exact arithmetic.

    /repo/src/robot/rate_limiting.rs 340-361 builds the rotation matrix of the limited angular
    velocity by the formula of Rodrigues and multiplies it with the rotation of the last pose.
    Simplification: the conversions of nalgebra between rotation matrices and unit quaternions
    (utils.rs 11-21 [array_to_isometry], [UnitQuaternion::from_matrix], [to_rotation_matrix],
    [to_homogeneous]) are the identity on matrices, as they are on rotation matrices in exact
    arithmetic; what they do with other matrices is not modelled. *)
From Coq Require Import List ZArith Reals.
From Verif Require Import NumOps NumReal RateModel ConvertModel.
Import ListNotations.
Open Scope R_scope.

(** Three by three matrices by rows: rows of [Matrix3::new]. *)
Record mat3 := Mat3 { m00 : R; m01 : R; m02 : R; m10 : R; m11 : R; m12 : R; m20 : R; m21 : R; m22 : R }.
Definition mat_mul (a b : mat3) : mat3 :=
  Mat3 (m00 a * m00 b + m01 a * m10 b + m02 a * m20 b) (m00 a * m01 b + m01 a * m11 b + m02 a * m21 b)
       (m00 a * m02 b + m01 a * m12 b + m02 a * m22 b)
       (m10 a * m00 b + m11 a * m10 b + m12 a * m20 b) (m10 a * m01 b + m11 a * m11 b + m12 a * m21 b)
       (m10 a * m02 b + m11 a * m12 b + m12 a * m22 b)
       (m20 a * m00 b + m21 a * m10 b + m22 a * m20 b) (m20 a * m01 b + m21 a * m11 b + m22 a * m21 b)
       (m20 a * m02 b + m21 a * m12 b + m22 a * m22 b).
Definition mat_add (a b : mat3) : mat3 :=
  Mat3 (m00 a + m00 b) (m01 a + m01 b) (m02 a + m02 b) (m10 a + m10 b) (m11 a + m11 b) (m12 a + m12 b)
       (m20 a + m20 b) (m21 a + m21 b) (m22 a + m22 b).
Definition mat_scale (k : R) (a : mat3) : mat3 :=
  Mat3 (k * m00 a) (k * m01 a) (k * m02 a) (k * m10 a) (k * m11 a) (k * m12 a) (k * m20 a) (k * m21 a) (k * m22 a).
Definition mat_one : mat3 := Mat3 1 0 0 0 1 0 0 0 1.
(** rate_limiting.rs 345-355 [omega_skew] *)
Definition skew (w : vec real) : mat3 := Mat3 0 (- vz _ w) (vy _ w) (vz _ w) 0 (- vx _ w) (- vy _ w) (vx _ w) 0.
(** rate_limiting.rs 343-344, 356-358 *)
Definition rodrigues (tail : vec real) : mat3 :=
  let w_norm := v_normalize real tail in
  let theta := DELTA_T real * v_norm real tail in
  let k := skew w_norm in
  mat_add (mat_add mat_one (mat_scale (sin theta) k)) (mat_scale (1 - cos theta) (mat_mul k k)).
(** utils.rs 11-16: the upper left part of a column-major array *)
Definition rotation_of (t : list R) : mat3 :=
  let e i := nth i t 0 in
  Mat3 (e 0%nat) (e 4%nat) (e 8%nat) (e 1%nat) (e 5%nat) (e 9%nat) (e 2%nat) (e 6%nat) (e 10%nat).
Definition columns (m : mat3) : rot real :=
  (Vec real (m00 m) (m10 m) (m20 m), Vec real (m01 m) (m11 m) (m21 m), Vec real (m02 m) (m12 m) (m22 m)).
(** rate_limiting.rs 359-360 *)
Definition rot_exp_real (tail : vec real) (y_last : list R) : rot real :=
  columns (mat_mul (rodrigues tail) (rotation_of y_last)).
(** rate_limiting.rs 340 *)
Definition rot_keep_real (y_last : list R) : rot real := columns (rotation_of y_last).
(** rate_limiting.rs 310-317: the rotation from the last pose to the requested one as axis times angle.  Simplification:
    [renormalize] is the identity on rotation matrices; nalgebra's [Rotation3::scaled_axis] is the normalised skew part
    (zero if there is none) times the arc cosine of (trace - 1) / 2. *)
Definition transpose (m : mat3) : mat3 := Mat3 (m00 m) (m10 m) (m20 m) (m01 m) (m11 m) (m21 m) (m02 m) (m12 m) (m22 m).
Definition scaled_axis (m : mat3) : vec real :=
  let a := Vec real (m21 m - m12 m) (m02 m - m20 m) (m10 m - m01 m) in
  if f_gt real (v_norm real a) 0 then v_scale real (v_normalize real a) (acos ((m00 m + m11 m + m22 m - 1) / 2)) else Vec real 0 0 0.
Definition rot_log_real (y y_last : list R) : vec real := scaled_axis (mat_mul (rotation_of y) (transpose (rotation_of y_last))).
(** low_pass_filter.rs 69: nalgebra's [UnitQuaternion::slerp] turns the first rotation by a share of the rotation to the second
    one.  Simplification: written with axis and angle instead of the two quaternions. *)
Definition slerp_real (y_last y : list R) (share : R) : rot real :=
  columns (mat_mul (rodrigues (v_scale real (rot_log_real y y_last) (share / DELTA_T real))) (rotation_of y_last)).
