(** C32, C33 for poses in exact arithmetic: what the limiter and the filter do with rotations. *)
From Coq Require Import List ZArith NArith Bool Reals Lra Lia Psatz.
From Verif Require Import NumOps NumReal RateModel ConvertModel RateSpec RateReal RateCart PoseReal Properties_Rate Properties_Pose Properties_Rotation.
Import ListNotations.
Open Scope R_scope.

(** * Rotation matrices are determined by axis and angle *)
Lemma proper_cross : forall m, proper m ->
  (m00 m = m11 m * m22 m - m21 m * m12 m /\ m10 m = m21 m * m02 m - m01 m * m22 m /\ m20 m = m01 m * m12 m - m11 m * m02 m) /\
  (m01 m = m12 m * m20 m - m22 m * m10 m /\ m11 m = m22 m * m00 m - m02 m * m20 m /\ m21 m = m02 m * m10 m - m12 m * m00 m) /\
  (m02 m = m10 m * m21 m - m20 m * m11 m /\ m12 m = m20 m * m01 m - m00 m * m21 m /\ m22 m = m00 m * m11 m - m10 m * m01 m).
Proof.
  intros [a0 b0 c0 a1 b1 c1 a2 b2 c2] (A & B & C & AB & AC & BC & D). unfold mdot, mdet in *. cbn [m00 m01 m02 m10 m11 m12 m20 m21 m22] in *.
  assert (Z : forall v0 v1 v2, a0*v0 + a1*v1 + a2*v2 = 0 -> b0*v0 + b1*v1 + b2*v2 = 0 -> c0*v0 + c1*v1 + c2*v2 = 0 -> v0 = 0 /\ v1 = 0 /\ v2 = 0).
  { intros v0 v1 v2 Va Vb Vc. set (d := a0 * (b1 * c2 - b2 * c1) - b0 * (a1 * c2 - a2 * c1) + c0 * (a1 * b2 - a2 * b1)) in D.
    assert (E : forall v e, d * v = e -> e = 0 -> v = 0) by (intros v e E0 E1; rewrite D in E0; lra).
    split; [|split].
    - apply (E _ ((a0*v0 + a1*v1 + a2*v2) * (b1*c2 - b2*c1) + (b0*v0 + b1*v1 + b2*v2) * (c1*a2 - c2*a1) + (c0*v0 + c1*v1 + c2*v2) * (a1*b2 - a2*b1)));
        [unfold d; ring|rewrite Va, Vb, Vc; ring].
    - apply (E _ ((a0*v0 + a1*v1 + a2*v2) * (b2*c0 - b0*c2) + (b0*v0 + b1*v1 + b2*v2) * (c2*a0 - c0*a2) + (c0*v0 + c1*v1 + c2*v2) * (a2*b0 - a0*b2)));
        [unfold d; ring|rewrite Va, Vb, Vc; ring].
    - apply (E _ ((a0*v0 + a1*v1 + a2*v2) * (b0*c1 - b1*c0) + (b0*v0 + b1*v1 + b2*v2) * (c0*a1 - c1*a0) + (c0*v0 + c1*v1 + c2*v2) * (a0*b1 - a1*b0)));
        [unfold d; ring|rewrite Va, Vb, Vc; ring]. }
  split; [|split].
  - destruct (Z (b1*c2 - b2*c1 - a0) (b2*c0 - b0*c2 - a1) (b0*c1 - b1*c0 - a2)) as (X & Y & W); [lra..|]. repeat split; lra.
  - destruct (Z (c1*a2 - c2*a1 - b0) (c2*a0 - c0*a2 - b1) (c0*a1 - c1*a0 - b2)) as (X & Y & W); [lra..|]. repeat split; lra.
  - destruct (Z (a1*b2 - a2*b1 - c0) (a2*b0 - a0*b2 - c1) (a0*b1 - a1*b0 - c2)) as (X & Y & W); [lra..|]. repeat split; lra.
Qed.
Lemma rod_unique : forall q x y z s c, proper q -> s * s + c * c = 1 -> x * x + y * y + z * z = 1 -> 0 < 1 + c ->
  m00 q + m11 q + m22 q = 1 + 2 * c ->
  m21 q - m12 q = 2 * s * x -> m02 q - m20 q = 2 * s * y -> m10 q - m01 q = 2 * s * z ->
  q = rodm x y z s (1 - c).
Proof.
  intros q x y z s c P S U C Tr X Y Z. pose proof (rows_ortho _ P) as Ro. pose proof (proper_cross _ P) as Cr.
  destruct q as [a0 b0 c0 a1 b1 c1 a2 b2 c2]. destruct P as (A & B & C0 & AB & AC & BC & _). unfold mdot in *. cbn [m00 m01 m02 m10 m11 m12 m20 m21 m22] in *.
  destruct Ro as (R1 & R2 & R3 & R4 & R5 & R6). destruct Cr as ((K1 & K2 & K3) & (K4 & K5 & K6) & K7 & K8 & K9).
  set (t := a0 + b1 + c2) in *.
  assert (D0 : (b2 - c1) * (b2 - c1) = (1 + t) * (1 + 2 * a0 - t)) by (unfold t; lra).
  assert (D1 : (c0 - a2) * (c0 - a2) = (1 + t) * (1 + 2 * b1 - t)) by (unfold t; lra).
  assert (D2 : (a1 - b0) * (a1 - b0) = (1 + t) * (1 + 2 * c2 - t)) by (unfold t; lra).
  assert (O1 : (b2 - c1) * (c0 - a2) = (1 + t) * (a1 + b0)) by (unfold t; lra).
  assert (O2 : (b2 - c1) * (a1 - b0) = (1 + t) * (a2 + c0)) by (unfold t; lra).
  assert (O3 : (c0 - a2) * (a1 - b0) = (1 + t) * (b2 + c1)) by (unfold t; lra).
  rewrite Tr, X in D0. rewrite Tr, Y in D1. rewrite Tr, Z in D2. rewrite Tr, X, Y in O1. rewrite Tr, X, Z in O2. rewrite Tr, Y, Z in O3.
  assert (E : forall u v, (1 + c) * u = (1 + c) * v -> u = v) by (intros u v H; apply Rmult_eq_reg_l with (1 + c); lra).
  assert (SS : forall u, 4 * (s * s) * u = (1 + c) * (4 * (1 - c) * u)).
  { intros u. replace (s * s) with (1 - c * c) by lra. ring. }
  assert (A0 : a0 = c + (1 - c) * (x * x)).
  { apply E. pose proof (SS (x * x)). lra. }
  assert (B1 : b1 = c + (1 - c) * (y * y)).
  { apply E. pose proof (SS (y * y)). lra. }
  assert (C2 : c2 = c + (1 - c) * (z * z)).
  { apply E. pose proof (SS (z * z)). lra. }
  assert (Q1 : a1 + b0 = 2 * (1 - c) * (x * y)).
  { apply E. pose proof (SS (x * y)). lra. }
  assert (Q2 : a2 + c0 = 2 * (1 - c) * (x * z)).
  { apply E. pose proof (SS (x * z)). lra. }
  assert (Q3 : b2 + c1 = 2 * (1 - c) * (y * z)).
  { apply E. pose proof (SS (y * z)). lra. }
  assert (G : forall u v w, u + v + w = 1 -> c + (1 - c) * u = 1 - (1 - c) * (v + w)) by (intros u v w H; replace u with (1 - v - w) by lra; ring).
  unfold rodm. f_equal; try lra.
  - rewrite A0. apply G. lra.
  - rewrite B1. apply G. lra.
  - rewrite C2. apply G. lra.
Qed.

(** * Poses *)
Lemma between_product : forall e e', let q := mat_mul (mat_of e') (transpose (mat_of e)) in
  m00 q = between e e' 0 0 /\ m01 q = between e e' 0 1 /\ m02 q = between e e' 0 2 /\
  m10 q = between e e' 1 0 /\ m11 q = between e e' 1 1 /\ m12 q = between e e' 1 2 /\
  m20 q = between e e' 2 0 /\ m21 q = between e e' 2 1 /\ m22 q = between e e' 2 2.
Proof. intros e e'. cbn zeta. unfold mat_mul, transpose, mat_of, between. entries. cbn [Nat.add]. repeat split; ring. Qed.
Lemma proper_transpose : forall m, proper m -> proper (transpose m).
Proof.
  intros m P. pose proof (rows_ortho _ P) as (R1 & R2 & R3 & R4 & R5 & R6). destruct P as (_ & _ & _ & _ & _ & _ & D).
  destruct m as [a0 b0 c0 a1 b1 c1 a2 b2 c2]. unfold proper, transpose, mdot, mdet in *. cbn [m00 m01 m02 m10 m11 m12 m20 m21 m22] in *.
  repeat split; lra.
Qed.
Lemma between_back : forall e e', proper (mat_of e) -> mat_of e' = mat_mul (mat_mul (mat_of e') (transpose (mat_of e))) (mat_of e).
Proof.
  intros e e' (A & B & C & AB & AC & BC & _). unfold mdot in *. unfold mat_of in *. unfold mat_mul, transpose. cbn [m00 m01 m02 m10 m11 m12 m20 m21 m22] in *.
  set (r0 := e 0%nat) in *. set (r1 := e 1%nat) in *. set (r2 := e 2%nat) in *. set (r4 := e 4%nat) in *. set (r5 := e 5%nat) in *.
  set (r6 := e 6%nat) in *. set (r8 := e 8%nat) in *. set (r9 := e 9%nat) in *. set (r10 := e 10%nat) in *. clearbody r0 r1 r2 r4 r5 r6 r8 r9 r10.
  assert (G : forall f g h x y z, (f * r0 + g * r4 + h * r8) * x + (f * r1 + g * r5 + h * r9) * y + (f * r2 + g * r6 + h * r10) * z =
    f * (r0 * x + r1 * y + r2 * z) + g * (r4 * x + r5 * y + r6 * z) + h * (r8 * x + r9 * y + r10 * z)) by (intros; ring).
  assert (AB' : r4 * r0 + r5 * r1 + r6 * r2 = 0) by lra. assert (AC' : r8 * r0 + r9 * r1 + r10 * r2 = 0) by lra. assert (BC' : r8 * r4 + r9 * r5 + r10 * r6 = 0) by lra.
  rewrite !G, A, B, C, AB, AC, BC, AB', AC', BC'. f_equal; ring.
Qed.
Lemma angle_facts : forall th, 0 < th < PI -> 0 < sin th /\ 0 < 1 + cos th /\ sin th * sin th + cos th * cos th = 1.
Proof.
  intros th H. assert (S := sin_gt_0 th (proj1 H) (proj2 H)). pose proof (sin2_cos2 th) as E. unfold Rsqr in E.
  split; [exact S|]. split; [|exact E]. destruct (Rlt_le_dec 0 (1 + cos th)) as [|L]; [assumption|exfalso].
  pose proof (COS_bound th) as [B _]. assert (cos th = -1) by lra. rewrite H0 in E. nra.
Qed.
Lemma norm_sqr : forall a b c, norm_of [a; b; c] * norm_of [a; b; c] = a * a + b * b + c * c.
Proof. intros. unfold norm_of. apply sqrt_sqrt. nra. Qed.
(** A pose turned with [w] is the one given by the formula of Rodrigues; axis times angle of the rotation is [w] times one cycle. *)
Lemma turned_is : forall e e' w1 w2 w3, proper (mat_of e) -> proper (mat_of e') -> turned [w1; w2; w3] e e' ->
  0 < norm_of [w1; w2; w3] * cycle < PI ->
  mat_of e' = mat_mul (rodrigues (Vec real w1 w2 w3)) (mat_of e) /\
  scaled_axis (mat_mul (mat_of e') (transpose (mat_of e))) = Vec real (w1 * T) (w2 * T) (w3 * T).
Proof.
  intros e e' w1 w2 w3 Pe Pe' Tu B. destruct (angle_facts _ B) as (Sp & Cp & SC).
  pose proof (between_product e e') as Q. cbn zeta in Q.
  pose proof (proper_mul _ _ Pe' (proper_transpose _ Pe)) as Pq. pose proof (between_back e e' Pe) as Bk.
  set (q := mat_mul (mat_of e') (transpose (mat_of e))) in *. clearbody q.
  destruct Q as (Q00 & Q01 & Q02 & Q10 & Q11 & Q12 & Q20 & Q21 & Q22).
  unfold turned in Tu. cbv zeta in Tu. rewrite <- Q00, <- Q01, <- Q02, <- Q10, <- Q11, <- Q12, <- Q20, <- Q21, <- Q22 in Tu.
  destruct Tu as (Tr & _ & X & Y & Z). cbn [nth] in X, Y, Z. pose proof (norm_sqr w1 w2 w3) as N2.
  rewrite cycle_T in *. pose proof T_pos as HT.
  set (n := norm_of [w1; w2; w3]) in *. assert (Hn : 0 < n) by (apply Rmult_lt_reg_r with T; lra). set (th := n * T) in *.
  assert (X' : m21 q - m12 q = 2 * sin th * (w1 / n)) by (apply Rmult_eq_reg_r with n; [rewrite X; field; lra|lra]).
  assert (Y' : m02 q - m20 q = 2 * sin th * (w2 / n)) by (apply Rmult_eq_reg_r with n; [rewrite Y; field; lra|lra]).
  assert (Z' : m10 q - m01 q = 2 * sin th * (w3 / n)) by (apply Rmult_eq_reg_r with n; [rewrite Z; field; lra|lra]).
  assert (U : w1 / n * (w1 / n) + w2 / n * (w2 / n) + w3 / n * (w3 / n) = 1).
  { transitivity ((w1 * w1 + w2 * w2 + w3 * w3) / (n * n)); [field; lra|]. rewrite <- N2. field. lra. }
  split.
  - rewrite Bk. f_equal. rewrite (rod_unique q (w1 / n) (w2 / n) (w3 / n) (sin th) (cos th) Pq SC U Cp Tr X' Y' Z').
    unfold rodrigues. rewrite delta_real. unfold v_normalize, v_norm, v_norm2, v_dot, v_unscale, v_map. cbn [f_sqrt f_add f_mul f_div real vx vy vz].
    rewrite rodm_eq. change (sqrt (w1 * w1 + w2 * w2 + w3 * w3)) with n. replace (T * n) with th by (unfold th; ring). reflexivity.
  - unfold scaled_axis. rewrite X', Y', Z', Tr. replace ((1 + 2 * cos th - 1) / 2) with (cos th) by lra. rewrite acos_cos by lra.
    set (s := sin th) in *. unfold v_normalize, v_norm, v_norm2, v_dot, v_unscale, v_scale, v_map, f_gt. cbn [f_sqrt f_add f_mul f_div f_lt real vx vy vz].
    replace (2 * s * (w1 / n) * (2 * s * (w1 / n)) + 2 * s * (w2 / n) * (2 * s * (w2 / n)) + 2 * s * (w3 / n) * (2 * s * (w3 / n)))
      with (2 * s * (2 * s) * (w1 / n * (w1 / n) + w2 / n * (w2 / n) + w3 / n * (w3 / n))) by ring.
    rewrite U, Rmult_1_r, sqrt_square by lra. destruct (Rlt_dec 0 (2 * s)) as [_|N]; [|lra].
    f_equal; unfold th; field; lra.
Qed.
Lemma rotation_mat : forall t, rotation_of t = mat_of (entry t).
Proof. reflexivity. Qed.
Lemma sixteen : forall A (l : list A), length l = 16%nat -> exists a b c d e f g h i j k m n o p q, l = [a; b; c; d; e; f; g; h; i; j; k; m; n; o; p; q].
Proof. intros A l H. do 16 (destruct l as [|? l]; [discriminate|]). destruct l; [|discriminate]. repeat eexists. Qed.

(** C32: a requested pose which asks for a velocity, an acceleration and a jerk within the limits (in the sense of
    [C32_cartesian_velocities_partial]) is the limited pose, for the translation and for the rotation. *)
Theorem C32_poses_partial : forall p y w1 w2 w3 l1 l2 l3 l4 l5 l6 a1 a2 a3 a4 a5 a6,
  length y = 16%nat -> rigid (entry p) -> rigid (entry y) ->
  turned [w1; w2; w3] (entry p) (entry y) -> epsilon < norm_of [w1; w2; w3] < PI / cycle ->
  half_respects (MAX_TRANSLATIONAL_VELOCITY real) (MAX_TRANSLATIONAL_ACCELERATION real) (MAX_TRANSLATIONAL_JERK real)
    (nth 0 (shift p y) 0, nth 1 (shift p y) 0, nth 2 (shift p y) 0) (l1, l2, l3) (a1, a2, a3) ->
  half_respects (99/100 * MAX_ROTATIONAL_VELOCITY real) (99/100 * MAX_ROTATIONAL_ACCELERATION real) (99/100 * MAX_ROTATIONAL_JERK real)
    (w1, w2, w3) (l4, l5, l6) (a4, a5, a6) ->
  pose_limit rot_log_real rot_exp_real rot_keep_real y p [l1; l2; l3; l4; l5; l6] [a1; a2; a3; a4; a5; a6] = Some y.
Proof.
  intros p y w1 w2 w3 l1 l2 l3 l4 l5 l6 a1 a2 a3 a4 a5 a6 Ly Rp Ry Tu Bw H1 H2.
  pose proof (C36_rigid_accepted _ Ry) as C. unfold check_matrix in C. apply andb_prop in C. destruct C as [C1 C2].
  assert (He : 0 < epsilon) by (unfold epsilon; lra).
  assert (B : 0 < norm_of [w1; w2; w3] * cycle < PI).
  { unfold cycle in *. split; [apply Rmult_lt_0_compat; lra|]. apply Rmult_lt_reg_r with (/ (1 / 1000)); [lra|]. rewrite Rmult_assoc, Rinv_r by lra. unfold Rdiv in Bw at 2. lra. }
  destruct (turned_is _ _ _ _ _ (rigid_proper _ Rp) (rigid_proper _ Ry) Tu B) as [Em El].
  unfold pose_limit, limit_rate_cartesian_pose. rewrite C1, C2, factor_real. cbn [f_mul real].
  unfold rot_log_real. rewrite !rotation_mat, El. unfold limit_rate_cartesian_velocity. rewrite real_all_finite.
  unfold translation, v_sub, v_unscale, v_map, v_map2. cbn [f_div f_sub real vx vy vz]. change (zero real) with 0. rewrite delta_real.
  pose proof T_pos as HT. assert (ET : forall x, x * T / T = x) by (intros; field; lra). rewrite !ET.
  unfold of_vecs at 1. cbn [to_vecs vx vy vz]. unfold shift in H1. cbn [nth] in H1. rewrite cycle_T in H1.
  match goal with |- context [of_vecs real ?a _] => set (m1 := a) end.
  assert (E1 : m1 = Vec real ((nth 12 y 0 - nth 12 p 0) / T) ((nth 13 y 0 - nth 13 p 0) / T) ((nth 14 y 0 - nth 14 p 0) / T))
    by exact (half_same _ _ _ _ _ _ _ _ _ _ _ _ translation_limits H1).
  rewrite E1, (half_same _ _ _ _ _ _ _ _ _ _ _ _ pose_rotation_limits H2).
  unfold of_vecs. cbn [to_vecs vx vy vz].
  assert (G : f_gt real (v_norm real (Vec real w1 w2 w3)) (NORM_EPS real) = true).
  { unfold f_gt. cbn [f_lt real]. destruct (Rlt_dec _ _) as [|N]; [reflexivity|]. exfalso. apply N. exact (proj1 Bw). }
  rewrite G. unfold rot_exp_real. rewrite rotation_mat, <- Em. f_equal.
  destruct Ry as ((L1 & L2 & L3 & L4) & _). destruct (sixteen _ _ Ly) as (y0 & y1 & y2 & y3 & y4 & y5 & y6 & y7 & y8 & y9 & y10 & y11 & y12 & y13 & y14 & y15 & ->).
  unfold entry in *. cbn [nth] in *. unfold columns, mat_of, to_homogeneous, v_add, v_scale, v_map, v_map2. entries. cbn [f_add f_mul real f_int nth].
  change (zero real) with 0. subst y3 y7 y11 y15.
  assert (EP : forall q b, q + (b - q) / T * T = b) by (intros; field; lra). rewrite !EP. reflexivity.
Qed.
Print Assumptions C32_poses_partial.

(** C33: the filter turns the last pose towards the requested one by the share of the angle which the filter formula gives,
    about the same axis and in the same sense, and the result is a pose. *)
Definition share (f : R) : R := cycle / (cycle + 1 / (2 * PI * f)).
Lemma share_range : forall f, 0 < f -> 0 < share f < 1.
Proof.
  intros f H. pose proof PI_RGT_0 as P. unfold share, cycle. assert (0 < 2 * PI * f) by (apply Rmult_lt_0_compat; lra).
  assert (0 < 1 / (2 * PI * f)) by (apply Rdiv_lt_0_compat; lra). split; [apply Rdiv_lt_0_compat; lra|].
  apply Rmult_lt_reg_r with (1 / 1000 + 1 / (2 * PI * f)); [lra|]. unfold Rdiv at 1. rewrite Rmult_assoc, Rinv_l by lra. lra.
Qed.
Theorem C33_pose_rotation : forall p y w f, length w = 3%nat -> rigid (entry p) -> rigid (entry y) ->
  turned w (entry p) (entry y) -> 0 < norm_of w * cycle < PI -> 0 < f ->
  exists out, cartesian_low_pass_filter real slerp_real (DELTA_T real) y p f = Some out /\ rigid (entry out) /\
    turned (map (Rmult (share f)) w) (entry p) (entry out) /\
    forall i, (12 <= i <= 14)%nat -> entry out i = share f * entry y i + (1 - share f) * entry p i.
Proof.
  intros p y w f Lw Rp Ry Tu B Hf. destruct (three _ _ Lw) as (w1 & w2 & w3 & ->).
  destruct (turned_is _ _ _ _ _ (rigid_proper _ Rp) (rigid_proper _ Ry) Tu B) as [_ El]. pose proof (share_range f Hf) as Hs.
  unfold cartesian_low_pass_filter. rewrite !real_all_finite.
  assert (S1 : f_sign_positive real (DELTA_T real) = true) by (rewrite delta_real; cbn [f_sign_positive real]; destruct (Rle_dec 0 T) as [|N]; [reflexivity|pose proof T_pos; lra]).
  assert (S2 : f_sign_positive real f = true) by (cbn [f_sign_positive real]; destruct (Rle_dec 0 f); [reflexivity|lra]).
  rewrite S1, S2. cbn [f_finite real andb]. change (filter_gain real (DELTA_T real) f) with (share f). set (g := share f) in *.
  assert (Es : slerp_real p y g = columns (mat_mul (rodrigues (Vec real (g * w1) (g * w2) (g * w3))) (mat_of (entry p)))).
  { unfold slerp_real, rot_log_real. rewrite !rotation_mat, El, delta_real. unfold v_scale, v_map. cbn [vx vy vz f_mul real].
    assert (ET : forall x, x * T * (g / T) = g * x) by (intros; pose proof T_pos; field; lra). rewrite !ET. reflexivity. }
  rewrite Es. eexists. split; [reflexivity|]. match goal with |- context [to_homogeneous real _ ?t] => set (tt := t) end.
  assert (Lr : forall r, last_row (entry (to_homogeneous real r tt))).
  { intros [[ra rb] rc]. unfold last_row, entry, to_homogeneous. cbn [nth]. repeat split; reflexivity. }
  assert (Mo : forall m, mat_of (entry (to_homogeneous real (columns m) tt)) = m).
  { intros [m1 m2 m3 m4 m5 m6 m7 m8 m9]. reflexivity. }
  assert (Np : 0 < norm_of [w1; w2; w3]) by (apply Rmult_lt_reg_r with cycle; unfold cycle in *; lra).
  assert (N : 0 < norm_of [g * w1; g * w2; g * w3]).
  { unfold norm_of in *. replace (g * w1 * (g * w1) + g * w2 * (g * w2) + g * w3 * (g * w3)) with (g * g * (w1 * w1 + w2 * w2 + w3 * w3)) by ring.
    rewrite sqrt_mult_alt, sqrt_square by nra. apply Rmult_lt_0_compat; lra. }
  match goal with |- rigid (entry ?o) /\ _ => set (out := o) end.
  destruct (turned_rod (entry p) (entry out) (g * w1) (g * w2) (g * w3) (rigid_proper _ Rp) N (Mo _)) as [T1 T2].
  split; [apply proper_rigid; [apply Lr|exact T2]|]. split; [exact T1|].
  intros i Hi. assert (i = 12 \/ i = 13 \/ i = 14)%nat as [-> | [-> | ->]] by lia; reflexivity.
Qed.
Print Assumptions C33_pose_rotation.
(** A quarter turn about the vertical axis is such a request. *)
Definition upright : list R := [1; 0; 0; 0; 0; 1; 0; 0; 0; 0; 1; 0; 0; 0; 0; 1].
Definition quarter : list R := [0; 1; 0; 0; -1; 0; 0; 0; 0; 0; 1; 0; 1/2; 0; 0; 1].
Lemma upright_rigid : rigid (entry upright).
Proof.
  split; [unfold last_row, entry; cbn [upright nth]; repeat split|]. split; [|unfold det, entry; cbn [upright nth]; lra].
  intros [|[|[|j]]] [|[|[|k]]] Hj Hk; try lia; unfold dot, entry; cbn [Nat.mul Nat.add Nat.eqb upright nth]; lra.
Qed.
Example C33_ex_rotation : rigid (entry upright) /\ rigid (entry quarter) /\
  turned [0; 0; 500 * PI] (entry upright) (entry quarter) /\ 0 < norm_of [0; 0; 500 * PI] * cycle < PI.
Proof.
  pose proof PI_RGT_0 as P. assert (N : norm_of [0; 0; 500 * PI] = 500 * PI).
  { unfold norm_of. replace (0 * 0 + 0 * 0 + 500 * PI * (500 * PI)) with (500 * PI * (500 * PI)) by ring. apply sqrt_square. lra. }
  split; [exact upright_rigid|]. split.
  { split; [unfold last_row, entry; cbn [quarter nth]; repeat split|]. split; [|unfold det, entry; cbn [quarter nth]; lra].
    intros [|[|[|j]]] [|[|[|k]]] Hj Hk; try lia; unfold dot, entry; cbn [Nat.mul Nat.add Nat.eqb quarter nth]; lra. }
  unfold turned. rewrite N. unfold cycle. split; [|split; lra]. cbv zeta. replace (500 * PI * (1 / 1000)) with (PI / 2) by lra.
  rewrite cos_PI2, sin_PI2. unfold between, entry. cbn [Nat.add upright quarter nth].
  split; [lra|]. split; [|repeat split; lra]. intros [|[|[|i]]] Hi; try lia; cbn [Nat.add nth]; lra.
Qed.
(** A turn of a microradian and a shift of a micrometre from rest respect the limits. *)
Definition nudged : list R :=
  let t := 1/1000000 in [1; 0; 0; 0; 0; cos t; sin t; 0; 0; - sin t; cos t; 0; 1/1000000; 0; 0; 1].
Example C32_ex_poses : rigid (entry upright) /\ rigid (entry nudged) /\
  turned [1/1000; 0; 0] (entry upright) (entry nudged) /\ epsilon < norm_of [1/1000; 0; 0] < PI / cycle /\
  half_respects (MAX_TRANSLATIONAL_VELOCITY real) (MAX_TRANSLATIONAL_ACCELERATION real) (MAX_TRANSLATIONAL_JERK real)
    (nth 0 (shift upright nudged) 0, nth 1 (shift upright nudged) 0, nth 2 (shift upright nudged) 0) (0, 0, 0) (0, 0, 0) /\
  half_respects (99/100 * MAX_ROTATIONAL_VELOCITY real) (99/100 * MAX_ROTATIONAL_ACCELERATION real) (99/100 * MAX_ROTATIONAL_JERK real)
    (1/1000, 0, 0) (0, 0, 0) (0, 0, 0).
Proof.
  assert (N : norm_of [1/1000; 0; 0] = 1/1000) by (apply (norm3_first (1/1000)); lra).
  destruct (turned_rod (entry upright) (entry nudged) (1/1000) 0 0 (rigid_proper _ upright_rigid)) as [T1 T2].
  { rewrite N. lra. }
  { unfold rodrigues, v_normalize. change (v_norm real (Vec real (1/1000) 0 0)) with (norm_of [1/1000; 0; 0]). rewrite N, delta_real. unfold T, v_unscale, v_map. cbn [vx vy vz f_div real].
    rewrite rodm_eq. replace (1 / 1000 * (1 / 1000)) with (1 / 1000000) by lra. unfold nudged, entry, mat_of, mat_mul, rodm, upright. entries. cbn [nth].
    f_equal; field. }
  split; [exact upright_rigid|]. split.
  { apply proper_rigid; [|exact T2]. unfold last_row, entry; cbn [nudged nth]; repeat split. }
  split; [exact T1|]. rewrite N. split.
  { unfold epsilon, cycle. split; [lra|]. pose proof PI2_1. unfold PI in *. lra. }
  destruct C32_ex_cartesian as [H _]. split.
  - unfold shift, nudged, upright. cbn [nth]. unfold cycle at 1 2 3. replace ((1 / 1000000 - 0) / (1 / 1000)) with (1/1000) by lra.
    replace ((0 - 0) / (1 / 1000)) with 0 by lra. exact H.
  - clear. unfold half_respects, cycle, MAX_ROTATIONAL_VELOCITY, MAX_ROTATIONAL_ACCELERATION, MAX_ROTATIONAL_JERK, LIMIT_EPS, TOL_NUMBER_PACKETS_LOST, f_lit.
    cbn [f_sub f_div f_int f_mul real]. rewrite delta_real. unfold T.
    replace ((0 - 0) / (1/1000)) with 0 by lra. replace (0 - 0) with 0 by lra. replace ((1 / 1000 - 0) / (1/1000)) with 1 by lra. replace (1 - 0) with 1 by lra.
    rewrite !norm3_first by lra. replace (1 / 2 ^ 52) with (1 / 4503599627370496) by lra. lra.
Qed.
