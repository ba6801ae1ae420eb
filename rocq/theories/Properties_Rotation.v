(** C54: rotations of limited poses, in exact arithmetic. *)
From Coq Require Import List ZArith NArith Bool Reals Lra Lia Psatz.
From Verif Require Import NumOps NumReal RateModel ConvertModel RateSpec RateReal RateCart PoseReal Properties_Rate Properties_Pose.
Import ListNotations.
Open Scope R_scope.

(** * Specification *)
(** The rotation leading from the orientation of [e] to that of [e'] (column-major poses): R' R^T. *)
Definition between (e e' : nat -> R) (i j : nat) : R :=
  e' i * e j + e' (4 + i)%nat * e (4 + j)%nat + e' (8 + i)%nat * e (8 + j)%nat.
(** [e'] is oriented as [e] turned with the angular velocity [w] for one cycle: the axis is kept, the angle is
    given by the trace, the sense by the skew part. *)
Definition turned (w : list R) (e e' : nat -> R) : Prop :=
  let x := nth 0 w 0 in let y := nth 1 w 0 in let z := nth 2 w 0 in
  let theta := norm_of w * cycle in let q := between e e' in
  (q 0%nat 0%nat + q 1%nat 1%nat + q 2%nat 2%nat = 1 + 2 * cos theta) /\
  (forall i, (i < 3)%nat -> q i 0%nat * x + q i 1%nat * y + q i 2%nat * z = nth i w 0) /\
  (q 2%nat 1%nat - q 1%nat 2%nat) * norm_of w = 2 * sin theta * x /\
  (q 0%nat 2%nat - q 2%nat 0%nat) * norm_of w = 2 * sin theta * y /\
  (q 1%nat 0%nat - q 0%nat 1%nat) * norm_of w = 2 * sin theta * z.
Definition same_orientation (e e' : nat -> R) : Prop := forall i, (i < 3)%nat -> forall j, (j < 3)%nat -> e' (4 * j + i)%nat = e (4 * j + i)%nat.
(** Documented limits of poses: 99 percent of those of angular velocities. *)
Definition pose_rotation_velocity : R := 99/100 * robot_rotation_velocity.
Definition pose_rotation_acceleration : R := 99/100 * robot_rotation_acceleration.

(** * Rotation matrices *)
Definition mdot (m : mat3) (j k : nat) : R :=
  let col j := match j with O => (m00 m, m10 m, m20 m) | 1%nat => (m01 m, m11 m, m21 m) | _ => (m02 m, m12 m, m22 m) end in
  let '(a0, a1, a2) := col j in let '(b0, b1, b2) := col k in a0 * b0 + a1 * b1 + a2 * b2.
Definition mdet (m : mat3) : R :=
  m00 m * (m11 m * m22 m - m21 m * m12 m) - m01 m * (m10 m * m22 m - m20 m * m12 m) + m02 m * (m10 m * m21 m - m20 m * m11 m).
Definition proper (m : mat3) : Prop :=
  mdot m 0 0 = 1 /\ mdot m 1 1 = 1 /\ mdot m 2 2 = 1 /\ mdot m 0 1 = 0 /\ mdot m 0 2 = 0 /\ mdot m 1 2 = 0 /\ mdet m = 1.
Ltac entries := cbn [m00 m01 m02 m10 m11 m12 m20 m21 m22 vx vy vz].
(** The other product: R R^T = 1. *)
Lemma rows_ortho : forall m, proper m ->
  m00 m * m00 m + m01 m * m01 m + m02 m * m02 m = 1 /\ m10 m * m00 m + m11 m * m01 m + m12 m * m02 m = 0 /\
  m20 m * m00 m + m21 m * m01 m + m22 m * m02 m = 0 /\ m10 m * m10 m + m11 m * m11 m + m12 m * m12 m = 1 /\
  m20 m * m10 m + m21 m * m11 m + m22 m * m12 m = 0 /\ m20 m * m20 m + m21 m * m21 m + m22 m * m22 m = 1.
Proof.
  intros [a0 b0 c0 a1 b1 c1 a2 b2 c2] (A & B & C & AB & AC & BC & D). unfold mdot, mdet in *. cbn [m00 m01 m02 m10 m11 m12 m20 m21 m22] in *.
  (* a vector orthogonal to all columns is zero *)
  assert (Z : forall v0 v1 v2, a0*v0 + a1*v1 + a2*v2 = 0 -> b0*v0 + b1*v1 + b2*v2 = 0 -> c0*v0 + c1*v1 + c2*v2 = 0 -> v0 = 0 /\ v1 = 0 /\ v2 = 0).
  { intros v0 v1 v2 Va Vb Vc. set (d := a0 * (b1 * c2 - b2 * c1) - b0 * (a1 * c2 - a2 * c1) + c0 * (a1 * b2 - a2 * b1)) in D.
    assert (E : forall v e, d * v = e -> e = 0 -> v = 0) by (intros v e E0 E1; rewrite D in E0; lra).
    split; [|split].
    - apply (E _ ((a0*v0 + a1*v1 + a2*v2) * (b1*c2 - b2*c1) + (b0*v0 + b1*v1 + b2*v2) * (c1*a2 - c2*a1) + (c0*v0 + c1*v1 + c2*v2) * (a1*b2 - a2*b1)));
        [unfold d; ring|rewrite Va, Vb, Vc; ring].
    - apply (E _ ((a0*v0 + a1*v1 + a2*v2) * (b2*c0 - b0*c2) + (b0*v0 + b1*v1 + b2*v2) * (c2*a0 - c0*a2) + (c0*v0 + c1*v1 + c2*v2) * (a2*b0 - a0*b2)));
        [unfold d; ring|rewrite Va, Vb, Vc; ring].
    - apply (E _ ((a0*v0 + a1*v1 + a2*v2) * (b0*c1 - b1*c0) + (b0*v0 + b1*v1 + b2*v2) * (c0*a1 - c1*a0) + (c0*v0 + c1*v1 + c2*v2) * (a0*b1 - a1*b0)));
        [unfold d; ring|rewrite Va, Vb, Vc; ring]. }
  (* columns of R R^T - 1 *)
  assert (Col : forall r0 r1 r2 f0 f1 f2, r0 = a0*f0 + a1*f1 + a2*f2 -> r1 = b0*f0 + b1*f1 + b2*f2 -> r2 = c0*f0 + c1*f1 + c2*f2 ->
    a0*r0 + b0*r1 + c0*r2 - f0 = 0 /\ a1*r0 + b1*r1 + c1*r2 - f1 = 0 /\ a2*r0 + b2*r1 + c2*r2 - f2 = 0).
  { intros r0 r1 r2 f0 f1 f2 R0 R1 R2. apply Z.
    - replace (a0 * (a0*r0 + b0*r1 + c0*r2 - f0) + a1 * (a1*r0 + b1*r1 + c1*r2 - f1) + a2 * (a2*r0 + b2*r1 + c2*r2 - f2))
        with ((a0*a0 + a1*a1 + a2*a2) * r0 + (a0*b0 + a1*b1 + a2*b2) * r1 + (a0*c0 + a1*c1 + a2*c2) * r2 - (a0*f0 + a1*f1 + a2*f2)) by ring.
      rewrite A, AB, AC, <- R0. ring.
    - replace (b0 * (a0*r0 + b0*r1 + c0*r2 - f0) + b1 * (a1*r0 + b1*r1 + c1*r2 - f1) + b2 * (a2*r0 + b2*r1 + c2*r2 - f2))
        with ((a0*b0 + a1*b1 + a2*b2) * r0 + (b0*b0 + b1*b1 + b2*b2) * r1 + (b0*c0 + b1*c1 + b2*c2) * r2 - (b0*f0 + b1*f1 + b2*f2)) by ring.
      rewrite B, AB, BC, <- R1. ring.
    - replace (c0 * (a0*r0 + b0*r1 + c0*r2 - f0) + c1 * (a1*r0 + b1*r1 + c1*r2 - f1) + c2 * (a2*r0 + b2*r1 + c2*r2 - f2))
        with ((a0*c0 + a1*c1 + a2*c2) * r0 + (b0*c0 + b1*c1 + b2*c2) * r1 + (c0*c0 + c1*c1 + c2*c2) * r2 - (c0*f0 + c1*f1 + c2*f2)) by ring.
      rewrite C, AC, BC, <- R2. ring. }
  destruct (Col a0 b0 c0 1 0 0) as (X1 & X2 & X3); try ring.
  destruct (Col a1 b1 c1 0 1 0) as (Y1 & Y2 & Y3); try ring.
  destruct (Col a2 b2 c2 0 0 1) as (Z1 & Z2 & Z3); try ring.
  repeat split; lra.
Qed.

(** The matrix of Rodrigues, written out; [d] is 1 - cos. *)
Definition rodm (x y z s d : R) : mat3 :=
  Mat3 (1 - d * (y*y + z*z)) (d * (x*y) - s*z) (d * (x*z) + s*y)
       (d * (x*y) + s*z) (1 - d * (x*x + z*z)) (d * (y*z) - s*x)
       (d * (x*z) - s*y) (d * (y*z) + s*x) (1 - d * (x*x + y*y)).
Lemma rodm_eq : forall x y z s d, let k := skew (Vec real x y z) in
  mat_add (mat_add mat_one (mat_scale s k)) (mat_scale d (mat_mul k k)) = rodm x y z s d.
Proof. intros. unfold k, mat_add, mat_scale, mat_mul, mat_one, skew, rodm. entries. f_equal; ring. Qed.
Section Rodrigues.
  Variables x y z s c : R.
  Hypothesis U : x * x + y * y + z * z = 1.
  Hypothesis P : s * s + c * c = 1.
  Let d := 1 - c.
  Let m := rodm x y z s d.
  Lemma factor : 2 * d - s * s - (x * x + y * y + z * z) * (d * d) = 0.
  Proof. unfold d. rewrite U. replace (s * s) with (1 - c * c) by lra. ring. Qed.
  Lemma rod_self : proper m.
  Proof.
    pose proof factor as F. unfold proper. clearbody d. subst m. unfold mdot, mdet, rodm. entries.
    split; [|split; [|split; [|split; [|split; [|split]]]]].
    - transitivity (1 + (2 * d - s * s - (x * x + y * y + z * z) * (d * d)) * (- (y*y + z*z))); [ring|rewrite F; ring].
    - transitivity (1 + (2 * d - s * s - (x * x + y * y + z * z) * (d * d)) * (- (x*x + z*z))); [ring|rewrite F; ring].
    - transitivity (1 + (2 * d - s * s - (x * x + y * y + z * z) * (d * d)) * (- (x*x + y*y))); [ring|rewrite F; ring].
    - transitivity ((2 * d - s * s - (x * x + y * y + z * z) * (d * d)) * (x * y)); [ring|rewrite F; ring].
    - transitivity ((2 * d - s * s - (x * x + y * y + z * z) * (d * d)) * (x * z)); [ring|rewrite F; ring].
    - transitivity ((2 * d - s * s - (x * x + y * y + z * z) * (d * d)) * (y * z)); [ring|rewrite F; ring].
    - transitivity (1 - (2 * d - s * s - (x * x + y * y + z * z) * (d * d)) * (x * x + y * y + z * z)); [ring|rewrite F; ring].
  Qed.
  (** Trace, axis and skew part. *)
  Lemma rod_trace : m00 m + m11 m + m22 m = 1 + 2 * c.
  Proof.
    transitivity (3 - 2 * d * (x*x + y*y + z*z)); [|rewrite U; unfold d; ring]. clearbody d. subst m. unfold rodm. entries. ring.
  Qed.
  Lemma rod_axis : m00 m * x + m01 m * y + m02 m * z = x /\ m10 m * x + m11 m * y + m12 m * z = y /\
    m20 m * x + m21 m * y + m22 m * z = z.
  Proof. clearbody d. subst m. unfold rodm. entries. split; [|split]; ring. Qed.
  Lemma rod_skew : m21 m - m12 m = 2 * s * x /\ m02 m - m20 m = 2 * s * y /\ m10 m - m01 m = 2 * s * z.
  Proof. clearbody d. subst m. unfold rodm. entries. split; [|split]; ring. Qed.
End Rodrigues.
(** Products. *)
Lemma dot_mul : forall a00 a01 a02 a10 a11 a12 a20 a21 a22 x y z u v w : R,
  a00*a00 + a10*a10 + a20*a20 = 1 -> a01*a01 + a11*a11 + a21*a21 = 1 -> a02*a02 + a12*a12 + a22*a22 = 1 ->
  a00*a01 + a10*a11 + a20*a21 = 0 -> a00*a02 + a10*a12 + a20*a22 = 0 -> a01*a02 + a11*a12 + a21*a22 = 0 ->
  (a00*x + a01*y + a02*z) * (a00*u + a01*v + a02*w) + (a10*x + a11*y + a12*z) * (a10*u + a11*v + a12*w) +
  (a20*x + a21*y + a22*z) * (a20*u + a21*v + a22*w) = x*u + y*v + z*w.
Proof.
  intros until w. intros A B C AB AC BC.
  transitivity ((a00*a00 + a10*a10 + a20*a20) * (x*u) + (a01*a01 + a11*a11 + a21*a21) * (y*v) + (a02*a02 + a12*a12 + a22*a22) * (z*w) +
    (a00*a01 + a10*a11 + a20*a21) * (x*v + y*u) + (a00*a02 + a10*a12 + a20*a22) * (x*w + z*u) + (a01*a02 + a11*a12 + a21*a22) * (y*w + z*v)); [ring|].
  rewrite A, B, C, AB, AC, BC. ring.
Qed.
Lemma det_mul : forall a b, mdet (mat_mul a b) = mdet a * mdet b.
Proof. intros [a1 a2 a3 a4 a5 a6 a7 a8 a9] [b1 b2 b3 b4 b5 b6 b7 b8 b9]. unfold mdet, mat_mul. entries. ring. Qed.
Lemma proper_mul : forall a b, proper a -> proper b -> proper (mat_mul a b).
Proof.
  intros a b (A & B & C & AB & AC & BC & D) (A' & B' & C' & AB' & AC' & BC' & D'). unfold proper. rewrite det_mul, D, D'.
  clear D D'. destruct a as [a1 a2 a3 a4 a5 a6 a7 a8 a9], b as [b1 b2 b3 b4 b5 b6 b7 b8 b9]. unfold mdot, mat_mul in *. cbn [m00 m01 m02 m10 m11 m12 m20 m21 m22] in *.
  rewrite !dot_mul by assumption. split; [exact A'|]. split; [exact B'|]. split; [exact C'|]. split; [exact AB'|]. split; [exact AC'|]. split; [exact BC'|ring].
Qed.

(** * Poses *)
Definition mat_of (e : nat -> R) : mat3 :=
  Mat3 (e 0%nat) (e 4%nat) (e 8%nat) (e 1%nat) (e 5%nat) (e 9%nat) (e 2%nat) (e 6%nat) (e 10%nat).
Lemma rigid_proper : forall e, rigid e -> proper (mat_of e).
Proof.
  intros e (_ & D & T). unfold proper, mat_of, mdot, mdet. entries.
  split; [exact (D 0 0 ltac:(lia) ltac:(lia))%nat|]. split; [exact (D 1 1 ltac:(lia) ltac:(lia))%nat|].
  split; [exact (D 2 2 ltac:(lia) ltac:(lia))%nat|]. split; [exact (D 0 1 ltac:(lia) ltac:(lia))%nat|].
  split; [exact (D 0 2 ltac:(lia) ltac:(lia))%nat|]. split; [exact (D 1 2 ltac:(lia) ltac:(lia))%nat|]. exact T.
Qed.
Lemma proper_rigid : forall e, last_row e -> proper (mat_of e) -> rigid e.
Proof.
  intros e L (A & B & C & AB & AC & BC & D). split; [exact L|]. split; [|exact D].
  unfold mat_of, mdot in *. cbn [m00 m01 m02 m10 m11 m12 m20 m21 m22] in *.
  intros [|[|[|j]]] [|[|[|k]]] Hj Hk; try lia; unfold dot; cbn [Nat.mul Nat.add Nat.eqb]; lra.
Qed.
(** R' = M R gives R' R^T = M. *)
Lemma between_mul : forall e e' m, proper (mat_of e) -> mat_of e' = mat_mul m (mat_of e) ->
  between e e' 0 0 = m00 m /\ between e e' 0 1 = m01 m /\ between e e' 0 2 = m02 m /\
  between e e' 1 0 = m10 m /\ between e e' 1 1 = m11 m /\ between e e' 1 2 = m12 m /\
  between e e' 2 0 = m20 m /\ between e e' 2 1 = m21 m /\ between e e' 2 2 = m22 m.
Proof.
  intros e e' m Pe E. apply rows_ortho in Pe. unfold mat_of, mat_mul in E. unfold mat_of in Pe. cbn [m00 m01 m02 m10 m11 m12 m20 m21 m22] in *.
  injection E as E1 E2 E3 E4 E5 E6 E7 E8 E9. destruct Pe as (P1 & P2 & P3 & P4 & P5 & P6).
  unfold between. cbn [Nat.add]. rewrite E1, E2, E3, E4, E5, E6, E7, E8, E9. clear E1 E2 E3 E4 E5 E6 E7 E8 E9.
  set (r0 := e 0%nat) in *. set (r1 := e 1%nat) in *. set (r2 := e 2%nat) in *. set (r4 := e 4%nat) in *. set (r5 := e 5%nat) in *.
  set (r6 := e 6%nat) in *. set (r8 := e 8%nat) in *. set (r9 := e 9%nat) in *. set (r10 := e 10%nat) in *. clearbody r0 r1 r2 r4 r5 r6 r8 r9 r10.
  assert (G : forall a b c x y z, (a * r0 + b * r1 + c * r2) * x + (a * r4 + b * r5 + c * r6) * y + (a * r8 + b * r9 + c * r10) * z =
    a * (r0 * x + r4 * y + r8 * z) + b * (r1 * x + r5 * y + r9 * z) + c * (r2 * x + r6 * y + r10 * z)) by (intros; ring).
  assert (Q2 : r0 * r1 + r4 * r5 + r8 * r9 = 0) by lra. assert (Q3 : r0 * r2 + r4 * r6 + r8 * r10 = 0) by lra. assert (Q5 : r1 * r2 + r5 * r6 + r9 * r10 = 0) by lra.
  rewrite !G, P1, P2, P3, P4, P5, P6, Q2, Q3, Q5. repeat split; ring.
Qed.
Lemma turned_rod : forall e e' w1 w2 w3, proper (mat_of e) -> 0 < norm_of [w1; w2; w3] ->
  mat_of e' = mat_mul (rodrigues (Vec real w1 w2 w3)) (mat_of e) -> turned [w1; w2; w3] e e' /\ proper (mat_of e').
Proof.
  intros e e' w1 w2 w3 Pe N E. unfold rodrigues in E. rewrite delta_real in E. unfold v_normalize, v_norm, v_norm2, v_dot, v_unscale, v_map in E.
  cbn [f_sqrt f_add f_mul f_div real vx vy vz] in E. unfold norm_of in N. set (n := sqrt (w1 * w1 + w2 * w2 + w3 * w3)) in *.
  assert (Hn : n * n = w1 * w1 + w2 * w2 + w3 * w3) by (apply sqrt_sqrt; nra).
  rewrite rodm_eq in E. assert (U : w1 / n * (w1 / n) + w2 / n * (w2 / n) + w3 / n * (w3 / n) = 1).
  { transitivity ((w1 * w1 + w2 * w2 + w3 * w3) / (n * n)); [field; lra|]. rewrite <- Hn. field. lra. }
  set (th := T * n) in *. pose proof (sin2_cos2 th) as SC. unfold Rsqr in SC.
  set (m := rodm (w1 / n) (w2 / n) (w3 / n) (sin th) (1 - cos th)) in *.
  pose proof (rod_self _ _ _ _ _ U SC) as Pm. pose proof (rod_trace _ _ _ (sin th) (cos th) U) as Tm.
  pose proof (rod_axis (w1 / n) (w2 / n) (w3 / n) (sin th) (cos th)) as Am.
  pose proof (rod_skew (w1 / n) (w2 / n) (w3 / n) (sin th) (cos th)) as Sm. fold m in Pm, Tm, Am, Sm. clearbody m.
  split; [|rewrite E; apply proper_mul; [exact Pm|exact Pe]].
  destruct (between_mul _ _ _ Pe E) as (B00 & B01 & B02 & B10 & B11 & B12 & B20 & B21 & B22).
  unfold turned. cbn [nth norm_of]. fold n. rewrite cycle_T. replace (n * T) with th by (unfold th; ring).
  rewrite B00, B01, B02, B10, B11, B12, B20, B21, B22.
  split; [exact Tm|]. split.
  - destruct Am as (A1 & A2 & A3).
    assert (G : forall a b c r, a * (w1 / n) + b * (w2 / n) + c * (w3 / n) = r / n -> a * w1 + b * w2 + c * w3 = r).
    { intros a b c r H. transitivity ((a * (w1 / n) + b * (w2 / n) + c * (w3 / n)) * n); [field; lra|]. rewrite H. field. lra. }
    intros [|[|[|i]]] Hi; try lia; rewrite ?B00, ?B01, ?B02, ?B10, ?B11, ?B12, ?B20, ?B21, ?B22; apply G; assumption.
  - destruct Sm as (S1 & S2 & S3). rewrite S1, S2, S3. repeat split; field; lra.
Qed.

(** What the limiter does with one request. *)
Definition epsilon : R := 1 / 4503599627370496.   (* f64::EPSILON *)
Definition turns_slowly (w p p' : list R) : Prop :=
  exists w', length w' = 3%nat /\ norm_of w' <= pose_rotation_velocity /\ norm_of (rate w w') <= pose_rotation_acceleration /\
    (turned w' (entry p) (entry p') \/ (norm_of w' <= epsilon /\ same_orientation (entry p) (entry p'))).
Definition reported_in_range (w : list R) : Prop := norm_of w <= 99/100 * MAX_ROTATIONAL_VELOCITY real.
Fixpoint rotation_bounded (p : list R) (inputs : list (list R * list R * list R)) (out : list (list R)) : Prop :=
  match inputs, out with
  | (_, w, _) :: inputs, p' :: out => rigid (entry p') /\ turns_slowly w p p' /\ rotation_bounded p' inputs out
  | _, _ => True
  end.
Lemma factor_real : FACTOR_CARTESIAN_ROTATION_POSE_INTERFACE real = 99/100.
Proof. reflexivity. Qed.
Lemma pose_rotation_limits : limits (99/100 * MAX_ROTATIONAL_VELOCITY real) (99/100 * MAX_ROTATIONAL_ACCELERATION real) (99/100 * MAX_ROTATIONAL_JERK real).
Proof.
  unfold limits, MAX_ROTATIONAL_VELOCITY, MAX_ROTATIONAL_ACCELERATION, MAX_ROTATIONAL_JERK, LIMIT_EPS, TOL_NUMBER_PACKETS_LOST, f_lit.
  cbn [f_sub f_div f_int f_mul real]. rewrite delta_real. unfold T. repeat split; lra.
Qed.
Lemma rotation_step : forall rl y p v1 v2 v3 w1 w2 w3 a1 a2 a3 a4 a5 a6,
  check_matrix real y = true -> rigid (entry p) -> reported_in_range [w1; w2; w3] ->
  exists p', pose_limit rl rot_exp_real rot_keep_real y p [v1; v2; v3; w1; w2; w3] [a1; a2; a3; a4; a5; a6] = Some p' /\
    rigid (entry p') /\ turns_slowly [w1; w2; w3] p p'.
Proof.
  intros rl y p v1 v2 v3 w1 w2 w3 a1 a2 a3 a4 a5 a6 C Rp W.
  unfold pose_limit, limit_rate_cartesian_pose. unfold check_matrix in C. apply andb_prop in C. destruct C as [C1 C2]. rewrite C1, C2.
  rewrite factor_real. cbn [f_mul real].
  unfold limit_rate_cartesian_velocity. rewrite real_all_finite. unfold of_vecs at 1. cbn [to_vecs].
  match goal with |- context [limit_rate_single_cartesian_velocity real (99/100 * MAX_ROTATIONAL_VELOCITY real) _ _ ?x ?l ?a] =>
    pose proof (single_velocity _ _ _ pose_rotation_limits x l a W) as V1;
    pose proof (single_acceleration _ _ _ pose_rotation_limits x l a W) as A1;
    set (r2 := limit_rate_single_cartesian_velocity real (99/100 * MAX_ROTATIONAL_VELOCITY real) _ _ x l a) in * end.
  clearbody r2. match goal with |- context [of_vecs real ?r r2] => set (r1 := r) end. clearbody r1.
  destruct r1 as [b1 b2 b3], r2 as [b4 b5 b6]. unfold of_vecs. cbn [to_vecs vx vy vz].
  eexists. split; [reflexivity|].
  match goal with |- context [to_homogeneous real _ ?t] => set (tt := t) end. clearbody tt.
  assert (Nb : norm_of [b4; b5; b6] <= pose_rotation_velocity).
  { eapply Rle_trans; [exact V1|]. unfold pose_rotation_velocity, MAX_ROTATIONAL_VELOCITY, MAX_ROTATIONAL_ACCELERATION, LIMIT_EPS, TOL_NUMBER_PACKETS_LOST, f_lit, robot_rotation_velocity.
    cbn [f_sub f_div f_int f_mul real]. rewrite delta_real. unfold T. lra. }
  assert (Na : norm_of (rate [w1; w2; w3] [b4; b5; b6]) <= pose_rotation_acceleration).
  { eapply Rle_trans; [|apply (Rle_trans _ (99/100 * MAX_ROTATIONAL_ACCELERATION real) _)].
    - cbn [rate norm_of]. apply rate_len; [|exact A1]. destruct pose_rotation_limits as (_ & HA & _). lra.
    - apply Rle_refl.
    - unfold pose_rotation_acceleration, MAX_ROTATIONAL_ACCELERATION, LIMIT_EPS, f_lit, robot_rotation_acceleration. cbn [f_sub f_div f_int f_mul real]. lra. }
  pose proof (rigid_proper _ Rp) as Pp.
  assert (Lr : forall r, last_row (entry (to_homogeneous real r tt))).
  { intros [[ra rb] rc]. unfold last_row, entry, to_homogeneous. cbn [nth]. repeat split; reflexivity. }
  assert (Mo : forall m, mat_of (entry (to_homogeneous real (columns m) tt)) = m).
  { intros [m1 m2 m3 m4 m5 m6 m7 m8 m9]. reflexivity. }
  destruct (f_gt real (v_norm real (Vec real b4 b5 b6)) (NORM_EPS real)) eqn:G.
  - assert (N : 0 < norm_of [b4; b5; b6]).
    { cbn [f_lt f_gt real] in G. unfold f_gt in G. cbn [f_lt real] in G. destruct (Rlt_dec _ _) as [H|]; [|discriminate]. pose proof norm_eps_pos. eapply Rlt_trans; [eassumption|exact H]. }
    destruct (turned_rod (entry p) (entry (to_homogeneous real (rot_exp_real (Vec real b4 b5 b6) p) tt)) b4 b5 b6 Pp N) as [T1 T2].
    { unfold rot_exp_real. rewrite Mo. reflexivity. }
    split; [apply proper_rigid; [apply Lr|exact T2]|]. exists [b4; b5; b6]. auto.
  - assert (N : norm_of [b4; b5; b6] <= epsilon).
    { unfold f_gt in G. cbn [f_lt real] in G. destruct (Rlt_dec _ _) as [|H]; [discriminate|]. apply Rnot_lt_le in H. exact H. }
    split; [apply proper_rigid; [apply Lr|unfold rot_keep_real; rewrite Mo; exact Pp]|].
    exists [b4; b5; b6]. split; [reflexivity|]. split; [exact Nb|]. split; [exact Na|]. right. split; [exact N|].
    intros [|[|[|i]]] Hi [|[|[|j]]] Hj; try lia; reflexivity.
Qed.

(** C54: limited poses are rotations and translations, and the orientation turns with an angular velocity
    within 99 percent of the limits of the robot, whatever rotation is requested. *)
Theorem C54_pose_rotation : forall rl inputs p v, length v = 3%nat -> rigid (entry p) ->
  Forall (fun '(y, w, ddP) => last_row (entry y) /\ unit_lines (1 / 100000) (entry y) /\ length w = 3%nat /\ reported_in_range w /\ length ddP = 6%nat) inputs ->
  exists out, pose_run rl rot_exp_real rot_keep_real p v inputs = Some out /\ length out = length inputs /\ rotation_bounded p inputs out.
Proof.
  intros rl. induction inputs as [|[[y w] a] inputs IH]; intros p v Lv Rp Hi; [exists []; repeat split|].
  inversion Hi as [|? ? H0 Hi']; subst. cbv beta iota in H0. destruct H0 as (H1 & H2 & Hw & Wr & Ha). destruct (three _ _ Lv) as (v1 & v2 & v3 & ->).
  destruct (three _ _ Hw) as (w1 & w2 & w3 & ->). destruct (six _ _ Ha) as (a1 & a2 & a3 & a4 & a5 & a6 & ->).
  destruct (rotation_step rl y p v1 v2 v3 w1 w2 w3 a1 a2 a3 a4 a5 a6) as (p' & E & R' & N'); [apply C36_accepted; auto|exact Rp|exact Wr|].
  destruct (IH p' (shift p p')) as (out & E1 & E2 & E3); [reflexivity|exact R'|exact Hi'|].
  exists (p' :: out). cbn [pose_run app]. rewrite E, E1. split; [reflexivity|]. split; [cbn; auto|].
  cbn [rotation_bounded]. auto.
Qed.
Print Assumptions C54_pose_rotation.
(** A turned start pose, a request turned the other way, and a robot which is turning. *)
Example C54_ex_rotation :
  let p := [3/5; 4/5; 0; 0; -4/5; 3/5; 0; 0; 0; 0; 1; 0; 1/2; 0; 1/2; 1] in
  let y := [1; 0; 0; 0; 0; 3/5; -4/5; 0; 0; 4/5; 3/5; 0; 1/2; 0; 1/2; 1] in
  rigid (entry p) /\ last_row (entry y) /\ unit_lines (1 / 100000) (entry y) /\ reported_in_range [1; 2; 0].
Proof.
  cbn zeta. split; [|split; [|split]].
  - split; [unfold last_row, entry; cbn [nth]; repeat split|]. split; [|unfold det, entry; cbn [nth]; lra].
    intros [|[|[|j]]] [|[|[|k]]] Hj Hk; try lia; unfold dot, entry; cbn [Nat.mul Nat.add Nat.eqb nth]; lra.
  - unfold last_row, entry; cbn [nth]; repeat split.
  - assert (U : forall x, x = 1 -> Rabs (sqrt x - 1) <= 1 / 100000).
    { intros x ->. rewrite sqrt_1. unfold Rminus. rewrite Rplus_opp_r, Rabs_R0. lra. }
    unfold unit_lines, entry, length3. split; intros [|[|[|j]]] Hj; try lia; cbn [Nat.mul Nat.add nth]; apply U; lra.
  - unfold reported_in_range, norm_of, MAX_ROTATIONAL_VELOCITY, MAX_ROTATIONAL_ACCELERATION, LIMIT_EPS, TOL_NUMBER_PACKETS_LOST, f_lit.
    cbn [f_sub f_div f_int f_mul real]. rewrite delta_real. unfold T.
    apply Rle_trans with (sqrt (9/4 * (9/4))); [apply sqrt_le_1_alt; lra|rewrite sqrt_square; lra].
Qed.
