(** C72: what [array_to_isometry] makes of a pose. *)
From Flocq Require Import IEEE754.Binary IEEE754.Bits.
From Coq Require Import Classical List ZArith NArith Bool Reals Lra Lia Psatz.
From Verif Require Import NumOps NumReal NumFloat RateModel ConvertModel RateSpec RateReal RateCart PiBounds PoseReal Properties_Rate Properties_Pose Properties_Rotation
  IsometryModel IsometryReal IsometryPose.
Import ListNotations.
Open Scope R_scope.

(** * Specification *)
Notation triple := (R * R * R)%type.
(** A pose turns a direction. *)
Definition turns (e : nat -> R) (v : triple) : triple :=
  let '(x, y, z) := v in
  (e 0%nat * x + e 4%nat * y + e 8%nat * z, e 1%nat * x + e 5%nat * y + e 9%nat * z, e 2%nat * x + e 6%nat * y + e 10%nat * z).
(** The product of quaternions, and the vector part of q v q*. *)
Definition hamilton (p q : R * R * R * R) : R * R * R * R :=
  let '(a, b, c, d) := p in let '(w, x, y, z) := q in
  (a*w - b*x - c*y - d*z, a*x + b*w + c*z - d*y, a*y - b*z + c*w + d*x, a*z + b*y - c*x + d*w).
Definition conjugate (q : R * R * R * R) : R * R * R * R := let '(w, x, y, z) := q in (w, - x, - y, - z).
Definition components (q : quat real) : R * R * R * R := (qw _ q, qi _ q, qj _ q, qk _ q).
Definition unit_quaternion (q : quat real) : Prop := qw _ q * qw _ q + qi _ q * qi _ q + qj _ q * qj _ q + qk _ q * qk _ q = 1.
Definition quaternion_turns (q : quat real) (v v' : triple) : Prop :=
  let '(x, y, z) := v in let '(x', y', z') := v' in
  hamilton (hamilton (components q) (0, x, y, z)) (conjugate (components q)) = (0, x', y', z').
(** Turning a direction about a unit axis by an angle (Rodrigues). *)
Definition turned_about (n : triple) (a : R) (v : triple) : triple :=
  let '(n1, n2, n3) := n in let '(x, y, z) := v in
  let p := (n1 * x + n2 * y + n3 * z) * (1 - cos a) in
  (x * cos a + (n2 * z - n3 * y) * sin a + n1 * p, y * cos a + (n3 * x - n1 * z) * sin a + n2 * p, z * cos a + (n1 * y - n2 * x) * sin a + n3 * p).
Definition unit_axis (n : triple) : Prop := let '(n1, n2, n3) := n in n1 * n1 + n2 * n2 + n3 * n3 = 1.
(** The pose is oriented as the reference frame turned by half a turn (a rotation equal to its inverse, not the identity). *)
Definition symmetric (e : nat -> R) : Prop := e 1%nat = e 4%nat /\ e 2%nat = e 8%nat /\ e 6%nat = e 9%nat.
Definition no_rotation (t : triple) : list R := let '(x, y, z) := t in [1; 0; 0; 0; 0; 1; 0; 0; 0; 0; 1; 0; x; y; z; 1].
Definition place_of (e : nat -> R) : triple := (e 12%nat, e 13%nat, e 14%nat).

(** * Proofs *)
Lemma columns_of_pose : forall a, rotation_columns real a = columns (mat_of (entry a)).
Proof. reflexivity. Qed.
Lemma products_unit : forall m w i j k, products m w i j k -> unit_quaternion (Quat real w i j k).
Proof. intros m w i j k [ww ii jj kk _ _ _ _ _ _]. unfold unit_quaternion. cbn [qw qi qj qk]. rewrite ww, ii, jj, kk. field. Qed.
Definition mat_turns (m : mat3) (v : triple) : triple :=
  let '(x, y, z) := v in (m00 m * x + m01 m * y + m02 m * z, m10 m * x + m11 m * y + m12 m * z, m20 m * x + m21 m * y + m22 m * z).
Lemma products_turns : forall m w i j k v, products m w i j k -> quaternion_turns (Quat real w i j k) v (mat_turns m v).
Proof.
  intros m w i j k [[x y] z] [ww ii jj kk wi wj wk ij ik jk]. unfold quaternion_turns, mat_turns, components, conjugate, hamilton. cbn [qw qi qj qk].
  assert (E0 : m00 m = w*w + i*i - j*j - k*k) by (rewrite ww, ii, jj, kk; field). assert (E1 : m01 m = 2*(i*j) - 2*(w*k)) by (rewrite ij, wk; field).
  assert (E2 : m02 m = 2*(i*k) + 2*(w*j)) by (rewrite ik, wj; field). assert (E3 : m10 m = 2*(i*j) + 2*(w*k)) by (rewrite ij, wk; field).
  assert (E4 : m11 m = w*w - i*i + j*j - k*k) by (rewrite ww, ii, jj, kk; field). assert (E5 : m12 m = 2*(j*k) - 2*(w*i)) by (rewrite jk, wi; field).
  assert (E6 : m20 m = 2*(i*k) - 2*(w*j)) by (rewrite ik, wj; field). assert (E7 : m21 m = 2*(j*k) + 2*(w*i)) by (rewrite jk, wi; field).
  assert (E8 : m22 m = w*w - i*i - j*j + k*k) by (rewrite ww, ii, jj, kk; field).
  rewrite E0, E1, E2, E3, E4, E5, E6, E7, E8. f_equal; [f_equal; [f_equal|]|]; ring.
Qed.
Lemma quat_turns : forall m v, proper m -> unit_quaternion (quat_of real (columns m)) /\ quaternion_turns (quat_of real (columns m)) v (mat_turns m v).
Proof.
  intros m v P. pose proof (quat_products m P) as H. destruct (quat_of real (columns m)) as [w i j k]. cbn [qw qi qj qk] in H.
  split; [exact (products_unit _ _ _ _ _ H)|exact (products_turns _ _ _ _ _ _ H)].
Qed.
(** The quaternion of a rotation matrix is the right one (in exact arithmetic). *)
Theorem C72_quaternion : forall a v, rigid (entry a) ->
  unit_quaternion (quat_of real (rotation_columns real a)) /\ quaternion_turns (quat_of real (rotation_columns real a)) v (turns (entry a) v).
Proof. intros a [[x y] z] P. rewrite columns_of_pose. exact (quat_turns _ (x, y, z) (rigid_proper _ P)). Qed.
Print Assumptions C72_quaternion.

Lemma turn_turns : forall n1 n2 n3 a v, unit_axis (n1, n2, n3) -> mat_turns (turn n1 n2 n3 a) v = turned_about (n1, n2, n3) a v.
Proof.
  intros n1 n2 n3 a [[x y] z] U. cbn [unit_axis] in U. unfold mat_turns, turned_about, turn, rodm. entries.
  assert (X : n2 * n2 + n3 * n3 = 1 - n1 * n1) by lra. assert (Y : n1 * n1 + n3 * n3 = 1 - n2 * n2) by lra. assert (Z : n1 * n1 + n2 * n2 = 1 - n3 * n3) by lra.
  rewrite X, Y, Z. f_equal; [f_equal|]; ring.
Qed.
Lemma turn_proper : forall n1 n2 n3 a, unit_axis (n1, n2, n3) -> proper (turn n1 n2 n3 a).
Proof. intros n1 n2 n3 a U. apply rod_self; [exact U|]. pose proof (sin2_cos2 a) as S. unfold Rsqr in S. exact S. Qed.
(** Equal effects on directions are equal matrices. *)
Lemma mat_ext : forall m m', (forall v, mat_turns m v = mat_turns m' v) -> m = m'.
Proof.
  intros [a1 a2 a3 a4 a5 a6 a7 a8 a9] [b1 b2 b3 b4 b5 b6 b7 b8 b9] H. pose proof (H (1, 0, 0)) as A. pose proof (H (0, 1, 0)) as B. pose proof (H (0, 0, 1)) as C.
  unfold mat_turns in A, B, C. cbn [m00 m01 m02 m10 m11 m12 m20 m21 m22] in A, B, C.
  injection A as X1 X2 X3. injection B as X4 X5 X6. injection C as X7 X8 X9. f_equal; lra.
Qed.
(** Orientations at most 1.8 rad away from the reference frame are taken over up to 2^-51.
    Missing: larger angles, for which it is false in general (an angle below 1.82 rad, and half turns: below). *)
Theorem C72_orientation_partial : forall a n t, unit_axis n -> (forall v, turns (entry a) v = turned_about n t v) -> Rabs t <= 18 / 10 ->
  let (q, p) := array_to_isometry real cos sin a in
  (vx _ p, vy _ p, vz _ p) = place_of (entry a) /\ unit_quaternion q /\
  exists t', Rabs (t - t') <= / 2 ^ 51 /\ forall v, quaternion_turns q v (turned_about n t' v).
Proof.
  intros a [[n1 n2] n3] t U H B. unfold array_to_isometry. rewrite columns_of_pose.
  assert (E : mat_of (entry a) = turn n1 n2 n3 t).
  { apply mat_ext. intros v. rewrite turn_turns by exact U. rewrite <- H. destruct v as [[x y] z]. reflexivity. }
  rewrite E. destruct (from_matrix_turn n1 n2 n3 U t B) as (t' & F & D). rewrite F. split; [reflexivity|].
  split; [exact (proj1 (quat_turns _ (0, 0, 0) (turn_proper n1 n2 n3 t' U)))|]. exists t'. split.
  - rewrite eps_val in D. replace (/ 2 ^ 51) with (2 * / 4503599627370496); [exact D|]. cbn [pow]. lra.
  - intros v. rewrite <- turn_turns by exact U. apply quat_turns. apply turn_proper. exact U.
Qed.
Print Assumptions C72_orientation_partial.
Example C72_ex : let a := [0; 1; 0; 0; -1; 0; 0; 0; 0; 0; 1; 0; 1/2; 1/3; 1/4; 1] in
  rigid (entry a) /\ unit_axis (0, 0, 1) /\ (forall v, turns (entry a) v = turned_about (0, 0, 1) (PI / 2) v) /\ Rabs (PI / 2) <= 18 / 10.
Proof.
  cbv zeta. split; [|split; [|split]].
  - split; [repeat split; unfold entry; cbn [nth]; lra|]. split.
    + intros [|[|[|j]]] [|[|[|k]]] Hj Hk; try lia; unfold dot, entry; cbn [nth Nat.mul Nat.add Nat.eqb]; lra.
    + unfold det, entry. cbn [nth]. lra.
  - cbn [unit_axis]. lra.
  - intros [[x y] z]. unfold turns, turned_about, entry. cbn [nth]. rewrite sin_PI2, cos_PI2. f_equal; [f_equal|]; ring.
  - rewrite Rabs_pos_eq; pose proof pi_bounds; lra.
Qed.
(** For an angle between 1.8 and 1.82 rad the iteration goes to and fro between no rotation and twice the rotation, and returns the latter. *)
Theorem C72_cycle_refuted : exists t, 18 / 10 <= t <= 182 / 100 /\ forall a n, unit_axis n -> (forall v, turns (entry a) v = turned_about n t v) ->
  let q := fst (array_to_isometry real cos sin a) in
  (forall v, quaternion_turns q v (turned_about n (2 * t) v)) /\ exists v, ~ quaternion_turns q v (turns (entry a) v).
Proof.
  destruct from_matrix_cycle as (t & B & H). exists t. split; [exact B|]. intros a [[n1 n2] n3] U T. unfold array_to_isometry. cbn [fst]. rewrite columns_of_pose.
  assert (E : mat_of (entry a) = turn n1 n2 n3 t).
  { apply mat_ext. intros v. rewrite turn_turns by exact U. rewrite <- T. destruct v as [[x y] z]. reflexivity. }
  rewrite E, (H n1 n2 n3 U). cbv zeta. set (q := quat_of real (columns (turn n1 n2 n3 (2 * t)))).
  assert (A : forall v, quaternion_turns q v (turned_about (n1, n2, n3) (2 * t) v)).
  { intros v. rewrite <- turn_turns by exact U. apply quat_turns. apply turn_proper. exact U. }
  split; [exact A|].
  assert (Un : forall v w w', quaternion_turns q v w -> quaternion_turns q v w' -> w = w').
  { intros [[x y] z] [[w1 w2] w3] [[u1 u2] u3] Q1 Q2. unfold quaternion_turns in Q1, Q2. rewrite Q1 in Q2. injection Q2 as -> -> ->. reflexivity. }
  (* if all directions were right, the two matrices and so their traces would be equal *)
  apply NNPP. intros N. assert (All : forall v, turned_about (n1, n2, n3) t v = turned_about (n1, n2, n3) (2 * t) v).
  { intros v. apply (Un v); [|apply A]. rewrite <- T. apply NNPP. intros X. apply N. exists v. exact X. }
  assert (M : turn n1 n2 n3 t = turn n1 n2 n3 (2 * t)) by (apply mat_ext; intros v; rewrite !turn_turns by exact U; apply All).
  assert (Tr : cos t = cos (2 * t)).
  { pose proof (rod_trace n1 n2 n3 (sin t) (cos t) U) as T1. pose proof (rod_trace n1 n2 n3 (sin (2 * t)) (cos (2 * t)) U) as T2.
    fold (turn n1 n2 n3 t) in T1. fold (turn n1 n2 n3 (2 * t)) in T2. rewrite M in T1. rewrite T2 in T1. lra. }
  rewrite cos_2a_cos in Tr. pose proof pi_bounds as P. assert (C1 : cos t <= 0) by (rewrite <- cos_PI2; apply cos_decr_1; lra).
  assert (C2 : -1 / 2 < cos t).
  { pose proof (cos_close (182 / 100) ltac:(lra)) as L. cbn [pow] in L. assert (cos (182 / 100) <= cos t) by (apply cos_decr_1; lra). lra. }
  nra.
Qed.
Print Assumptions C72_cycle_refuted.
(** There are such poses for every axis; here the z axis. *)
Example C72_ex_cycle : forall t, let a := [cos t; sin t; 0; 0; - sin t; cos t; 0; 0; 0; 0; 1; 0; 1/2; 1/3; 1/4; 1] in
  unit_axis (0, 0, 1) /\ forall v, turns (entry a) v = turned_about (0, 0, 1) t v.
Proof.
  intros t. cbv zeta. split; [cbn [unit_axis]; lra|]. intros [[x y] z]. unfold turns, turned_about, entry. cbn [nth]. f_equal; [f_equal|]; ring.
Qed.

(** Half turns are lost: every pose with a symmetric rotation becomes a pose without rotation. *)
Lemma sqrt_four : sqrt 4 = 2.
Proof. replace 4 with (2 * 2) by lra. apply sqrt_square. lra. Qed.
Lemma quat_one : quat_of real (r_one real) = Quat real 1 0 0 0.
Proof.
  unfold quat_of, r_one, f_gt, f_lit. reals. destruct (Rlt_dec 0 (1 + 1 + 1)) as [_|N]; [|lra].
  replace (1 + 1 + 1 + 1) with 4 by lra. rewrite sqrt_four. f_equal; field.
Qed.
Lemma rot_one : rot_of real (Quat real 1 0 0 0) = r_one real.
Proof. unfold rot_of, r_one. cbn [qw qi qj qk]. reals. cbv zeta. f_equal; [f_equal|]; f_equal; ring. Qed.
Lemma half_turn : forall a, symmetric (entry a) -> from_matrix real cos sin (rotation_columns real a) = r_one real.
Proof. intros a (A & B & C). rewrite columns_of_pose. unfold from_matrix. apply extract_symmetric; unfold mat_of; entries; congruence. Qed.
Theorem C72_half_turn : forall a, symmetric (entry a) ->
  let (q, p) := array_to_isometry real cos sin a in
  (vx _ p, vy _ p, vz _ p) = place_of (entry a) /\ forall v, quaternion_turns q v v.
Proof.
  intros a S. unfold array_to_isometry. rewrite (half_turn a S), quat_one. split; [reflexivity|]. intros [[x y] z].
  unfold quaternion_turns, components, conjugate, hamilton. cbn [qw qi qj qk]. f_equal; [f_equal; [f_equal|]|]; ring.
Qed.
Print Assumptions C72_half_turn.
(** A gripper pointing straight down: half a turn about the x axis. *)
Definition downwards : list R := [1; 0; 0; 0; 0; -1; 0; 0; 0; 0; -1; 0; 3/10; 0; 1/2; 1].
Lemma downwards_rigid : rigid (entry downwards) /\ symmetric (entry downwards).
Proof.
  split; [|repeat split]. split; [repeat split; unfold entry, downwards; cbn [nth]; lra|]. split.
  - intros [|[|[|j]]] [|[|[|k]]] Hj Hk; try lia; unfold dot, entry, downwards; cbn [nth Nat.mul Nat.add Nat.eqb]; lra.
  - unfold det, entry, downwards. cbn [nth]. lra.
Qed.
Theorem C72_orientation_refuted : exists a v, rigid (entry a) /\ ~ quaternion_turns (fst (array_to_isometry real cos sin a)) v (turns (entry a) v).
Proof.
  exists downwards, (0, 1, 0). destruct downwards_rigid as [Rg S]. split; [exact Rg|]. pose proof (C72_half_turn _ S) as H.
  destruct (array_to_isometry real cos sin downwards) as [q p]. destruct H as [_ H]. pose proof (H (0, 1, 0)) as H1. cbn [fst].
  unfold quaternion_turns, turns in *. destruct (hamilton _ _) as [[[h0 h1] h2] h3]. injection H1 as -> -> -> ->. intros Q. injection Q as _ Q _.
  unfold entry, downwards in Q. cbn [nth] in Q. lra.
Qed.
Print Assumptions C72_orientation_refuted.

(** The limiter and the filter ask for half a turn within one millisecond when an arm at rest with such an orientation is
    told to stay. *)
Definition v0 : vec real := Vec real 0 0 0.
Definition zeros : list R := [0; 0; 0; 0; 0; 0].
Lemma norm_zero : v_norm real v0 = 0 :> R.
Proof. unfold v_norm, v_norm2, v_dot, v0. reals. replace (0 * 0 + 0 * 0 + 0 * 0) with 0 by ring. apply sqrt_0. Qed.
Lemma zero_small : f_gt real (v_norm real v0) (NORM_EPS real) = false.
Proof. rewrite norm_zero. unfold f_gt, NORM_EPS, f_lit. reals. destruct (Rlt_dec _ _) as [L|]; [|reflexivity]. exfalso. revert L. apply Rle_not_lt.
  apply Rmult_le_pos; [lra|]. left. apply Rinv_0_lt_compat. apply IZR_lt. reflexivity. Qed.
Lemma rest_single : forall mv ma mj, limit_rate_single_cartesian_velocity real mv ma mj v0 v0 v0 = v0.
Proof.
  intros. assert (A : limited_acceleration real mj v0 v0 v0 = v0).
  { unfold limited_acceleration. assert (E : v_unscale real (v_sub real (v_unscale real (v_sub real v0 v0) (DELTA_T real)) v0) (DELTA_T real) = v0).
    { rewrite delta_real. pose proof T_pos. unfold v_unscale, v_sub, v_map, v_map2, v0. reals. f_equal; field; lra. }
    rewrite E, zero_small. reflexivity. }
  unfold limit_rate_single_cartesian_velocity. rewrite A, zero_small. reflexivity.
Qed.
Lemma rest_velocity : forall a b c d e f, limit_rate_cartesian_velocity real a b c d e f zeros zeros zeros = Some zeros.
Proof. intros. unfold limit_rate_cartesian_velocity. rewrite real_all_finite. cbn [to_vecs zeros]. fold v0. rewrite !rest_single. reflexivity. Qed.
Lemma attitude_one : forall y, symmetric (entry y) -> orientation real cos sin y = r_one real.
Proof. intros y S. unfold orientation, array_to_isometry. rewrite (half_turn y S). cbn [fst]. rewrite quat_one. apply rot_one. Qed.
Lemma log_one : forall y, symmetric (entry y) -> rot_log_iso y y = v0.
Proof.
  intros y S. unfold rot_log_iso, attitude. rewrite (attitude_one y S). unfold scaled_axis.
  assert (E : Vec real (m21 (mat_mul (matrix_of (r_one real)) (transpose (matrix_of (r_one real)))) - m12 (mat_mul (matrix_of (r_one real)) (transpose (matrix_of (r_one real)))))
     (m02 (mat_mul (matrix_of (r_one real)) (transpose (matrix_of (r_one real)))) - m20 (mat_mul (matrix_of (r_one real)) (transpose (matrix_of (r_one real)))))
     (m10 (mat_mul (matrix_of (r_one real)) (transpose (matrix_of (r_one real)))) - m01 (mat_mul (matrix_of (r_one real)) (transpose (matrix_of (r_one real))))) = v0).
  { unfold matrix_of, r_one, mat_mul, transpose, v0. entries. reals. f_equal; ring. }
  rewrite E, norm_zero. unfold f_gt. reals. destruct (Rlt_dec 0 0) as [L|]; [lra|reflexivity].
Qed.
Theorem C72_limiter_half_turn : forall y, rigid (entry y) -> symmetric (entry y) ->
  pose_limit rot_log_iso rot_exp_iso rot_keep_iso y y zeros zeros = Some (no_rotation (place_of (entry y))).
Proof.
  intros y Rg S. pose proof (C36_rigid_accepted _ Rg) as C. unfold check_matrix in C. apply andb_prop in C. destruct C as [C1 C2].
  unfold pose_limit, limit_rate_cartesian_pose. rewrite C1, C2. rewrite (log_one y S).
  assert (H : v_unscale real (v_sub real (translation real y) (translation real y)) (DELTA_T real) = v0).
  { rewrite delta_real. pose proof T_pos. unfold v_unscale, v_sub, v_map, v_map2, translation, v0. reals. f_equal; field; lra. }
  assert (W : v_unscale real v0 (DELTA_T real) = v0) by (rewrite delta_real; pose proof T_pos; unfold v_unscale, v_map, v0; reals; f_equal; field; lra).
  rewrite H, W. change (of_vecs real v0 v0) with zeros. rewrite rest_velocity. cbn [to_vecs zeros]. fold v0. rewrite zero_small.
  unfold rot_keep_iso. rewrite (attitude_one y S). unfold to_homogeneous, r_one, no_rotation, place_of, translation, v_add, v_scale, v_map, v_map2, v0, zero, entry. reals.
  rewrite !Rmult_0_l, !Rplus_0_r. reflexivity.
Qed.
Print Assumptions C72_limiter_half_turn.
Theorem C72_limiter_refuted : exists y, rigid (entry y) /\ exists z, pose_limit rot_log_iso rot_exp_iso rot_keep_iso y y zeros zeros = Some z /\
  between (entry y) (entry z) 0 0 = 1 /\ between (entry y) (entry z) 1 1 = -1 /\ between (entry y) (entry z) 2 2 = -1.
Proof.
  exists downwards. destruct downwards_rigid as [Rg S]. split; [exact Rg|]. eexists. split; [exact (C72_limiter_half_turn _ Rg S)|].
  unfold between, entry, no_rotation, place_of, downwards. cbn [nth Nat.add]. repeat split; lra.
Qed.
Print Assumptions C72_limiter_refuted.
Theorem C72_filter_half_turn : forall y f, rigid (entry y) -> symmetric (entry y) -> 0 < f ->
  cartesian_low_pass_filter real slerp_iso (DELTA_T real) y y f = Some (no_rotation (place_of (entry y))).
Proof.
  intros y f Rg S Hf. unfold cartesian_low_pass_filter. rewrite !real_all_finite.
  assert (S1 : f_sign_positive real (DELTA_T real) = true) by (rewrite delta_real; cbn [f_sign_positive real]; destruct (Rle_dec 0 T) as [|N]; [reflexivity|pose proof T_pos; lra]).
  assert (S2 : f_sign_positive real f = true) by (cbn [f_sign_positive real]; destruct (Rle_dec 0 f); [reflexivity|lra]).
  rewrite S1, S2. cbn [f_finite real andb]. set (g := filter_gain real (DELTA_T real) f).
  assert (Sl : slerp_iso y y g = r_one real).
  { unfold slerp_iso, attitude. rewrite (log_one y S), (attitude_one y S).
    assert (Z : v_scale real v0 (g / DELTA_T real) = v0) by (unfold v_scale, v_map, v0; reals; f_equal; ring). rewrite Z.
    unfold rodrigues. rewrite norm_zero, delta_real. replace (T * 0) with 0 by ring. rewrite sin_0, cos_0.
    unfold matrix_of, r_one, mat_mul, mat_add, mat_scale, mat_one, columns. entries. reals. f_equal; [f_equal|]; f_equal; ring. }
  rewrite Sl. unfold to_homogeneous, r_one, no_rotation, place_of, translation, v_add, v_map, v_map2, zero, entry. reals.
  assert (G : forall x : R, (g : R) * x + (1 - (g : R)) * x = x :> R) by (intros; ring). rewrite !G. reflexivity.
Qed.
Print Assumptions C72_filter_half_turn.

(** The same in binary64, for whatever the library's other functions on rotations do. *)
Definition downwards64 : list binary64 := map b64_int [1; 0; 0; 0; 0; -1; 0; 0; 0; 0; -1; 0; 0; 0; 1; 1]%Z.
Definition zeros64 : list binary64 := repeat (b64_int 0) 6.
Lemma step64 : forall co si, extract_step float co si (rotation_columns float downwards64) (r_one float) = None.
Proof.
  intros. assert (H : match extract_step float co si (rotation_columns float downwards64) (r_one float) with None => true | Some _ => false end = true) by (vm_compute; reflexivity).
  destruct (extract_step float co si (rotation_columns float downwards64) (r_one float)); [discriminate|reflexivity].
Qed.
Lemma orientation64 : forall co si, orientation float co si downwards64 = rot_of float (quat_of float (r_one float)).
Proof.
  intros. unfold orientation, array_to_isometry, from_matrix. destruct (N.to_nat (2 ^ 64 - 1)) as [|n]; [reflexivity|].
  cbn [extract]. rewrite step64. reflexivity.
Qed.
Theorem C72_limiter_binary64_refuted : exists y, check_matrix float y = true /\
  map bits (firstn 12 y) = map bits (map b64_int [1; 0; 0; 0; 0; -1; 0; 0; 0; 0; -1; 0]%Z) /\
  forall co si log exp, log y y = Vec float (b64_int 0) (b64_int 0) (b64_int 0) ->
  exists z, limit_rate_cartesian_pose float log exp (orientation float co si) (MAX_TRANSLATIONAL_VELOCITY float) (MAX_TRANSLATIONAL_ACCELERATION float)
    (MAX_TRANSLATIONAL_JERK float) (MAX_ROTATIONAL_VELOCITY float) (MAX_ROTATIONAL_ACCELERATION float) (MAX_ROTATIONAL_JERK float)
    y y zeros64 zeros64 = Some z /\ check_matrix float z = true /\
    map bits (firstn 12 z) = map bits (map b64_int [1; 0; 0; 0; 0; 1; 0; 0; 0; 0; 1; 0]%Z).
Proof.
  exists downwards64. split; [vm_compute; reflexivity|]. split; [vm_compute; reflexivity|]. intros co si log exp L.
  set (o := limit_rate_cartesian_pose _ _ _ _ _ _ _ _ _ _ _ _ _ _).
  assert (E : match o with Some z => check_matrix float z = true /\ map bits (firstn 12 z) = map bits (map b64_int [1; 0; 0; 0; 0; 1; 0; 0; 0; 0; 1; 0]%Z) | None => False end).
  { unfold o, limit_rate_cartesian_pose. rewrite L, orientation64. clear. vm_compute. split; reflexivity. }
  destruct o as [z|]; [|contradiction]. exists z. split; [reflexivity|exact E].
Qed.
Print Assumptions C72_limiter_binary64_refuted.
