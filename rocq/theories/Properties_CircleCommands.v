(** C70: what is sent for the Cartesian pose example after the filter and the rate limiter.
    The conversions between rotation matrices and quaternions are idealised (PoseReal.v). *)
From Coq Require Import List ZArith NArith Bool Reals Lra Lia.
From Verif Require Import NumOps NumReal RateModel RateReal RateCart RateSpec PiBounds Waves ConvertModel ExampleMotions PoseReal Properties_Rate Properties_Filter Properties_Pose Properties_Rotation Properties_Turn
  Properties_ExampleMotions Properties_ExampleCommands Properties_TwistCommands PoseArc.
Import ListNotations.
Open Scope R_scope.

(** * Vectors in the plane of x and z *)
Definition flat (x z : R) : rvec := Vec real x 0 z.
Lemma len_flat : forall x z B, 0 <= B -> Rabs x <= B -> Rabs z <= B -> len (flat x z) <= 3 / 2 * B.
Proof.
  intros x z B HB X Z. unfold len, flat, RateCart.dot. cbn [vx vy vz]. apply abs_range in X, Z.
  replace (3 / 2 * B) with (sqrt ((3 / 2 * B) * (3 / 2 * B))) by (apply sqrt_square; lra). apply sqrt_le_1_alt. nra.
Qed.
Lemma flat_len : forall x z, Rabs x <= len (flat x z) /\ Rabs z <= len (flat x z).
Proof.
  intros x z. unfold len, flat, RateCart.dot. cbn [vx vy vz].
  rewrite <- (sqrt_Rsqr_abs x), <- (sqrt_Rsqr_abs z). unfold Rsqr. split; apply sqrt_le_1_alt; nra.
Qed.
Lemma limited_flat : forall J y1 y3 x1 x3 a1 a3,
  let j1 := ((y1 - x1) / T - a1) / T in let j3 := ((y3 - x3) / T - a3) / T in
  len (flat j1 j3) <= J ->
  limited_acceleration real J (flat y1 y3) (flat x1 x3) (flat a1 a3) =
  if Rlt_dec (NORM_EPS real) (len (flat j1 j3)) then flat ((y1 - x1) / T) ((y3 - x3) / T) else flat a1 a3.
Proof.
  intros J y1 y3 x1 x3 a1 a3 j1 j3 Hj. pose proof T_pos as HT. pose proof norm_eps_pos as He.
  unfold limited_acceleration.
  set (jv := v_unscale real (v_sub real (v_unscale real (v_sub real (flat y1 y3) (flat x1 x3)) (DELTA_T real)) (flat a1 a3)) (DELTA_T real)).
  assert (Ej : jv = flat j1 j3).
  { unfold jv, flat, j1, j3, v_unscale, v_sub, v_map, v_map2. cbn [vx vy vz f_sub f_div real]. rewrite delta_real. f_equal; field; lra. }
  change (v_norm real jv) with (len jv). rewrite Ej. unfold f_gt. cbn [f_lt real].
  destruct (Rlt_dec (NORM_EPS real) (len (flat j1 j3))) as [L|L]; [|reflexivity].
  cbn [f_min f_max f_neg real]. rewrite Rmin_left by exact Hj. rewrite Rmax_left by lra.
  unfold v_add, v_map2, v_scale, v_map, v_normalize, v_unscale. change (v_norm real (flat j1 j3)) with (len (flat j1 j3)).
  set (n := len (flat j1 j3)) in *. clearbody n.
  cbn [f_add f_mul f_div real]. rewrite delta_real. unfold flat, v_map. cbn [vx vy vz f_add f_mul f_div real].
  f_equal; [unfold j1|unfold j3|unfold j3]; field; lra.
Qed.
(** One step of the rate limiter, well inside of the limits for translations. *)
Lemma step_flat : forall y1 y3 x1 x3 a1 a3,
  Rabs (((y1 - x1) / T - a1) / T) <= 4000 -> Rabs (((y3 - x3) / T - a3) / T) <= 4000 ->
  Rabs ((y1 - x1) / T) <= 8 -> Rabs ((y3 - x3) / T) <= 8 -> Rabs x1 <= 11 / 10 -> Rabs x3 <= 11 / 10 ->
  exists z1 z3, limit_rate_single_cartesian_velocity real (MAX_TRANSLATIONAL_VELOCITY real) (MAX_TRANSLATIONAL_ACCELERATION real) (MAX_TRANSLATIONAL_JERK real)
      (flat y1 y3) (flat x1 x3) (flat a1 a3) = flat z1 z3 /\
    Rabs (z1 - y1) <= 2 * T * NORM_EPS real /\ Rabs (z3 - y3) <= 2 * T * NORM_EPS real.
Proof.
  intros y1 y3 x1 x3 a1 a3 J1 J3 A1 A3 X1 X3. pose proof T_pos as HT. pose proof norm_eps_pos as He.
  assert (Eps : NORM_EPS real <= 1 / 10) by (unfold NORM_EPS, f_lit; cbn [f_div f_int real]; lra).
  pose proof translation_limits as L. set (V := MAX_TRANSLATIONAL_VELOCITY real) in *. set (A := MAX_TRANSLATIONAL_ACCELERATION real) in *. set (J := MAX_TRANSLATIONAL_JERK real) in *.
  assert (HV : 1.99 <= V /\ A = 13 - 1 / 1000 /\ J = 6500 - 1 / 1000).
  { unfold V, A, J, MAX_TRANSLATIONAL_VELOCITY, MAX_TRANSLATIONAL_ACCELERATION, MAX_TRANSLATIONAL_JERK, LIMIT_EPS, TOL_NUMBER_PACKETS_LOST, f_lit.
    cbn [f_sub f_div f_int f_mul real]. rewrite ?delta_real. unfold T. lra. }
  clearbody V A J. destruct HV as (HV & HA & HJ).
  set (j1 := ((y1 - x1) / T - a1) / T) in *. set (j3 := ((y3 - x3) / T - a3) / T) in *.
  assert (LJ : len (flat j1 j3) <= J) by (eapply Rle_trans; [apply (len_flat _ _ 4000); [lra|exact J1|exact J3]|lra]).
  pose proof (limited_flat J y1 y3 x1 x3 a1 a3 LJ) as E. fold j1 j3 in E.
  assert (Q : exists b1 b3, limited_acceleration real J (flat y1 y3) (flat x1 x3) (flat a1 a3) = flat b1 b3 /\ Rabs b1 <= 85 / 10 /\ Rabs b3 <= 85 / 10 /\
     Rabs (x1 + b1 * T - y1) <= T * NORM_EPS real /\ Rabs (x3 + b3 * T - y3) <= T * NORM_EPS real).
  { destruct (Rlt_dec (NORM_EPS real) (len (flat j1 j3))) as [G|G].
    - exists ((y1 - x1) / T), ((y3 - x3) / T). split; [exact E|]. split; [lra|]. split; [lra|].
      assert (Z : forall x y, x + (y - x) / T * T - y = 0) by (intros; field; lra). rewrite !Z, Rabs_R0.
      assert (0 <= T * NORM_EPS real) by (apply Rmult_le_pos; lra). lra.
    - exists a1, a3. split; [exact E|]. destruct (flat_len j1 j3) as [F1 F3].
      assert (Small : forall x y a j, j = ((y - x) / T - a) / T -> Rabs j <= NORM_EPS real -> Rabs ((y - x) / T) <= 8 -> Rabs a <= 85 / 10 /\ Rabs (x + a * T - y) <= T * NORM_EPS real).
      { intros x y a j Ej Sj Hy. split.
        - replace a with ((y - x) / T + - (j * T)) by (rewrite Ej; field; lra). eapply Rle_trans; [apply Rabs_triang|].
          rewrite Rabs_Ropp, Rabs_mult, (Rabs_pos_eq T) by lra. assert (Rabs j * T <= 1 / 10 * 1) by (apply Rmult_le_compat; try apply Rabs_pos; unfold T; lra). lra.
        - replace (x + a * T - y) with (- (T * T * j)) by (rewrite Ej; field; lra).
          rewrite Rabs_Ropp, Rabs_mult, Rabs_pos_eq by (apply Rmult_le_pos; lra).
          assert (T * T * Rabs j <= T * T * NORM_EPS real) by (apply Rmult_le_compat_l; [apply Rmult_le_pos; lra|lra]).
          assert (T * (T * NORM_EPS real) <= 1 * (T * NORM_EPS real)).
          { apply Rmult_le_compat_r; [apply Rmult_le_pos; lra|unfold T; lra]. } lra. }
      destruct (Small x1 y1 a1 j1 eq_refl ltac:(lra) A1) as [S1 S2]. destruct (Small x3 y3 a3 j3 eq_refl ltac:(lra) A3) as [S3 S4]. auto. }
  clear E. destruct Q as (b1 & b3 & E & B1 & B3 & T1 & T3).
  assert (LB : len (flat b1 b3) <= A) by (eapply Rle_trans; [apply (len_flat _ _ (85 / 10)); [lra|exact B1|exact B3]|lra]).
  assert (LX : len (flat x1 x3) <= 165 / 100) by (eapply Rle_trans; [apply (len_flat _ _ (11 / 10)); [lra|exact X1|exact X3]|lra]).
  assert (Pe : 0 <= T * NORM_EPS real) by (apply Rmult_le_pos; lra).
  destruct (single_cases V A J (flat y1 y3) (flat x1 x3) (flat a1 a3)) as [[Hn R]|[Hn R]]; rewrite E in Hn; try rewrite E in R; rewrite R.
  - exists x1, x3. split; [reflexivity|]. destruct (flat_len b1 b3) as [F1 F3].
    assert (Stay : forall x y b, Rabs b <= NORM_EPS real -> Rabs (x + b * T - y) <= T * NORM_EPS real -> Rabs (x - y) <= 2 * T * NORM_EPS real).
    { intros x y b Hb Hx. replace (x - y) with ((x + b * T - y) + - (b * T)) by ring. eapply Rle_trans; [apply Rabs_triang|].
      rewrite Rabs_Ropp, Rabs_mult, (Rabs_pos_eq T) by lra. assert (Rabs b * T <= NORM_EPS real * T) by (apply Rmult_le_compat_r; lra). lra. }
    split; eapply Stay; try eassumption; lra.
  - exists (x1 + b1 * T), (x3 + b3 * T). split; [|lra]. rewrite Rmin_left.
    2:{ apply Rmin_glb; [|exact LB]. destruct (limits_ratio V A J L) as (K1 & _ & _).
        apply Rle_trans with (J / A * (V - len (flat x1 x3))).
        - assert (500 <= J / A) by (rewrite HA, HJ; apply Rmult_le_reg_r with (13 - 1 / 1000); [lra|]; unfold Rdiv; rewrite Rmult_assoc, Rinv_l by lra; lra).
          apply Rle_trans with (500 * (3 / 10)); [lra|]. apply Rmult_le_compat; lra.
        - apply Rmult_le_compat_l; [lra|]. apply distance_ge; lra. }
    unfold along. set (n := len (flat b1 b3)) in *. clearbody n. unfold flat. cbn [vx vy vz]. f_equal; field; lra.
Qed.

(** * Poses with one orientation *)
Lemma no_turn : forall m, scaled_axis (mat_mul m (transpose m)) = Vec real 0 0 0.
Proof.
  intros m. unfold scaled_axis.
  assert (E1 : m21 (mat_mul m (transpose m)) - m12 (mat_mul m (transpose m)) = 0) by (unfold mat_mul, transpose; entries; ring).
  assert (E2 : m02 (mat_mul m (transpose m)) - m20 (mat_mul m (transpose m)) = 0) by (unfold mat_mul, transpose; entries; ring).
  assert (E3 : m10 (mat_mul m (transpose m)) - m01 (mat_mul m (transpose m)) = 0) by (unfold mat_mul, transpose; entries; ring).
  cbv zeta. rewrite E1, E2, E3. clear E1 E2 E3. unfold f_gt, v_norm, v_norm2, v_dot. cbn [f_sqrt f_add f_mul f_lt real vx vy vz].
  replace (0 * 0 + 0 * 0 + 0 * 0) with 0 by ring. rewrite sqrt_0. destruct (Rlt_dec 0 0); [exfalso; lra|reflexivity].
Qed.
Lemma rodrigues_0 : forall m, mat_mul (rodrigues (Vec real 0 0 0)) m = m.
Proof.
  intros m. unfold rodrigues. assert (E : v_normalize real (Vec real 0 0 0) = Vec real 0 0 0).
  { unfold v_normalize. generalize (v_norm real (Vec real 0 0 0)). intros n. unfold v_unscale, v_map. cbn [f_div real vx vy vz]. unfold Rdiv. rewrite Rmult_0_l. reflexivity. }
  rewrite E. clear E. match goal with |- context [sin ?x] => generalize x end. intros th. cbv zeta. rewrite rodm_eq. generalize (sin th), (1 - cos th). intros s d.
  assert (E : rodm 0 0 0 s d = mat_one) by (unfold rodm, mat_one; f_equal; ring). rewrite E.
  destruct m. unfold mat_mul, mat_one. entries. f_equal; ring.
Qed.
Lemma moved_rotation : forall x z p, rotation_of (moved x z p) = rotation_of p.
Proof. intros x z p. do 17 (destruct p as [|? p]; [reflexivity|]). reflexivity. Qed.
Lemma moved_rigid : forall x z p, pose16 p -> rigid (entry p) -> rigid (entry (moved x z p)).
Proof.
  intros x z p L. destruct (Properties_Turn.sixteen _ _ L) as (a & b & c & d & e & f & g & h & i & j & k & l & m & n & o & q & ->). intros (R & D & E).
  split; [exact R|]. split; [|exact E]. intros r s Hr Hs. rewrite <- (D r s Hr Hs).
  destruct r as [|[|[|r]]]; [| | |lia]; (destruct s as [|[|[|s]]]; [| | |lia]); reflexivity.
Qed.
Lemma moved_homogeneous : forall p x z, pose16 p -> rigid (entry p) ->
  to_homogeneous real (columns (rotation_of p)) (Vec real (nth 12 p 0 + x) (nth 13 p 0) (nth 14 p 0 + z)) = moved x z p.
Proof.
  intros p x z L ((L1 & L2 & L3 & L4) & _). destruct (Properties_Turn.sixteen _ _ L) as (a & b & c & d & e & f & g & h & i & j & k & l & m & n & o & q & ->).
  unfold entry in *. cbn [nth] in *. subst. unfold columns, rotation_of, to_homogeneous. cbn [nth moved]. entries. reflexivity.
Qed.
Lemma moved_translation : forall p x z, pose16 p -> translation real (moved x z p) = Vec real (nth 12 p 0 + x) (nth 13 p 0) (nth 14 p 0 + z).
Proof. intros p x z L. destruct (Properties_Turn.sixteen _ _ L) as (a & b & c & d & e & f & g & h & i & j & k & l & m & n & o & q & ->). reflexivity. Qed.
(** The filter: only the translation changes. *)
Lemma pose_filtered : forall c p s1 s3 z1 z3, 0 < c -> pose16 p -> rigid (entry p) ->
  (if f_lt real c (MAX_CUTOFF_FREQUENCY real) then cartesian_low_pass_filter real slerp_real (DELTA_T real) (moved s1 s3 p) (moved z1 z3 p) c else Some (moved s1 s3 p)) =
  Some (moved (gain c * s1 + (1 - gain c) * z1) (gain c * s3 + (1 - gain c) * z3) p).
Proof.
  intros c p s1 s3 z1 z3 Hc L Rg. cbn [f_lt real]. unfold MAX_CUTOFF_FREQUENCY. cbn [f_int real]. unfold gain. destruct (Rlt_dec c 1000) as [C|C].
  - unfold cartesian_low_pass_filter. rewrite delta_real. unfold T.
    assert (S1 : f_sign_positive real (1 / 1000) && f_finite real (1 / 1000) = true) by (cbn [f_sign_positive f_finite real andb]; repeat (destruct (Rle_dec _ _) || destruct (Rlt_dec _ _)); try reflexivity; lra).
    assert (S2 : f_sign_positive real c && f_finite real c = true) by (cbn [f_sign_positive f_finite real andb]; repeat (destruct (Rle_dec _ _) || destruct (Rlt_dec _ _)); try reflexivity; lra).
    rewrite S1, S2, !real_all_finite. cbn [andb]. cbv zeta. rewrite model_gain. set (g := 1 / 1000 / (1 / 1000 + 1 / (2 * PI * c))). clearbody g.
    unfold slerp_real, rot_log_real. rewrite !moved_rotation, no_turn.
    unfold v_scale at 1. unfold v_map at 1. cbn [vx vy vz f_mul real]. rewrite !Rmult_0_l, rodrigues_0, !moved_translation by exact L.
    rewrite <- moved_homogeneous by assumption. f_equal. f_equal. unfold v_add, v_map2, v_map. cbn [vx vy vz f_add f_mul f_sub f_int real]. f_equal; ring.
  - f_equal. f_equal; ring.
Qed.
(** The limiter. *)
Definition still6 (v1 v3 : R) : list R := [v1; 0; v3; 0; 0; 0].
Lemma pose_limited : forall p f1 f3 z1 z3 v1 v3 a1 a3, pose16 p -> rigid (entry p) ->
  Rabs ((((f1 - z1) / cycle - v1) / cycle - a1) / cycle) <= 4000 -> Rabs ((((f3 - z3) / cycle - v3) / cycle - a3) / cycle) <= 4000 ->
  Rabs (((f1 - z1) / cycle - v1) / cycle) <= 8 -> Rabs (((f3 - z3) / cycle - v3) / cycle) <= 8 -> Rabs v1 <= 11 / 10 -> Rabs v3 <= 11 / 10 ->
  exists u1 u3, pose_limit rot_log_real rot_exp_real rot_keep_real (moved f1 f3 p) (moved z1 z3 p) (still6 v1 v3) (still6 a1 a3) = Some (moved u1 u3 p) /\
    Rabs (u1 - f1) <= slip /\ Rabs (u3 - f3) <= slip.
Proof.
  intros p f1 f3 z1 z3 v1 v3 a1 a3 L Rg J1 J3 A1 A3 V1 V3. rewrite cycle_T in *. pose proof T_pos as HT. pose proof norm_eps_pos as He.
  destruct (step_flat ((f1 - z1) / T) ((f3 - z3) / T) v1 v3 a1 a3 J1 J3 A1 A3 V1 V3) as (w1 & w3 & E & D1 & D3).
  exists (z1 + w1 * T), (z3 + w3 * T). split.
  - pose proof (C36_rigid_accepted _ (moved_rigid f1 f3 p L Rg)) as C. unfold check_matrix in C. apply andb_prop in C. destruct C as [C1 C2].
    unfold pose_limit, limit_rate_cartesian_pose. rewrite C1, C2. unfold rot_log_real. rewrite !moved_rotation, no_turn, !moved_translation by exact L.
    cbv zeta. unfold limit_rate_cartesian_velocity. rewrite real_all_finite. unfold v_unscale, v_sub, v_map, v_map2. cbn [f_div f_sub real vx vy vz]. rewrite delta_real.
    replace (nth 12 p 0 + f1 - (nth 12 p 0 + z1)) with (f1 - z1) by ring. replace (nth 14 p 0 + f3 - (nth 14 p 0 + z3)) with (f3 - z3) by ring.
    replace ((nth 13 p 0 - nth 13 p 0) / T) with 0 by (field; lra). replace (0 / T) with 0 by (field; lra).
    unfold of_vecs at 1. unfold still6. cbn [to_vecs vx vy vz].
    change (Vec real ((f1 - z1) / T) 0 ((f3 - z3) / T)) with (flat ((f1 - z1) / T) ((f3 - z3) / T)).
    change (Vec real v1 0 v3) with (flat v1 v3). change (Vec real a1 0 a3) with (flat a1 a3). rewrite E, step_rest.
    2:{ unfold FACTOR_CARTESIAN_ROTATION_POSE_INTERFACE, MAX_ROTATIONAL_JERK, LIMIT_EPS, f_lit. cbn [f_mul f_sub f_div f_int real]. lra. }
    unfold of_vecs, flat. cbn [to_vecs vx vy vz].
    assert (G : f_gt real (v_norm real (Vec real 0 0 0)) (NORM_EPS real) = false).
    { unfold f_gt, v_norm, v_norm2, v_dot. cbn [f_lt f_sqrt f_add f_mul real vx vy vz]. replace (0 * 0 + 0 * 0 + 0 * 0) with 0 by ring. rewrite sqrt_0. destruct (Rlt_dec _ _); [lra|reflexivity]. }
    rewrite G. unfold rot_keep_real. rewrite moved_rotation. rewrite <- moved_homogeneous by assumption. f_equal. f_equal.
    unfold v_add, v_scale, v_map2, v_map. cbn [vx vy vz f_add f_mul real]. f_equal; ring.
  - assert (En : NORM_EPS real = 1 / 2 ^ 52) by (unfold NORM_EPS, f_lit; cbn [f_div f_int real]; lra).
    assert (Q : forall z w f, Rabs (w - (f - z) / T) <= 2 * T * NORM_EPS real -> Rabs (z + w * T - f) <= slip).
    { intros z w f H. replace (z + w * T - f) with ((w - (f - z) / T) * T) by (field; lra). rewrite Rabs_mult, (Rabs_pos_eq T) by lra.
      apply Rle_trans with (2 * T * NORM_EPS real * 1); [apply Rmult_le_compat; try apply Rabs_pos; [lra|exact H|unfold T; lra]|]. rewrite En. unfold slip, T. lra. }
    split; apply Q; assumption.
Qed.

(** * The commands *)
(** The robot reports what it was told: the pose, the velocity and the acceleration of the hand.  The angular
    velocity reported is 0, since none of the commands has another orientation (see the theorem). *)
Fixpoint sent_poses (b : reported real) (c : R) (lp lv la : list R) (requests : list (list R)) : option (list (list R)) :=
  match requests with
  | [] => Some []
  | p :: r =>
      match convert_pose real slerp_real rot_log_real rot_exp_real rot_keep_real c true p
        (Reported real (p_q_d real b) (p_dq_d real b) (p_ddq_d real b) lp lv la (p_elbow_c real b) (p_delbow_c real b) (p_ddelbow_c real b) (p_tau_J_d real b)) with
      | Some p' => let v := shift lp p' ++ [0; 0; 0] in option_map (cons p') (sent_poses b c p' v (rate lv v) r)
      | None => None
      end
  end.
Lemma moved_shift : forall p x z u v, pose16 p -> shift (moved x z p) (moved u v p) ++ [0; 0; 0] = still6 ((u - x) / cycle) ((v - z) / cycle).
Proof.
  intros p x z u v L. destruct (Properties_Turn.sixteen _ _ L) as (a & b & c & d & e & f & g & h & i & j & k & l & m & n & o & q & ->).
  unfold shift, still6. cbn [moved nth app]. unfold cycle. repeat (f_equal; try field).
Qed.
Lemma still_rate : forall a b c d, rate (still6 a b) (still6 c d) = still6 ((c - a) / cycle) ((d - b) / cycle).
Proof. intros. unfold still6. cbn [rate]. unfold cycle. repeat (f_equal; try field). Qed.
Definition within (z : R * R) (x y : R) : Prop := Rabs (fst z - x) <= TINY /\ Rabs (snd z - y) <= TINY.
(** One coordinate of one step. *)
Lemma near_step : forall y k z0 z1 z2 f, calm y k -> Rabs (z0 - y k) <= TINY -> Rabs (z1 - y (S k)) <= TINY -> Rabs (z2 - y (S (S k))) <= TINY -> Rabs (f - y (S (S (S k)))) <= TINY ->
  Rabs ((((f - z2) / cycle - (z2 - z1) / cycle) / cycle - ((z2 - z1) / cycle - (z1 - z0) / cycle) / cycle) / cycle) <= 4000 /\
  Rabs (((f - z2) / cycle - (z2 - z1) / cycle) / cycle) <= 8 /\ Rabs ((z2 - z1) / cycle) <= 11 / 10.
Proof.
  intros y k z0 z1 z2 f (C1 & C2 & C3) H0 H1 H2 H3. unfold TINY, cycle in *.
  set (y0 := y k) in *. set (y1 := y (S k)) in *. set (y2 := y (S (S k))) in *. set (y3 := y (S (S (S k)))) in *. clearbody y0 y1 y2 y3.
  apply abs_range in C1, C2, C3, H0, H1, H2, H3. split; [|split]; apply Rabs_le; lra.
Qed.
Lemma poses_sent : forall bs c p s t m k z0 z1 z2, pose16 p -> rigid (entry p) -> 1 / 1000 <= c ->
  let y := lagging (gain c) s in let w := lagging (gain c) t in
  (forall j, calm y j) -> (forall j, calm w j) ->
  within z0 (y k) (w k) -> within z1 (y (S k)) (w (S k)) -> within z2 (y (S (S k))) (w (S (S k))) ->
  exists zs, sent_poses bs c (moved (fst z2) (snd z2) p)
      (still6 ((fst z2 - fst z1) / cycle) ((snd z2 - snd z1) / cycle))
      (still6 (((fst z2 - fst z1) / cycle - (fst z1 - fst z0) / cycle) / cycle) (((snd z2 - snd z1) / cycle - (snd z1 - snd z0) / cycle) / cycle))
      (map (fun j => moved (s (S (S (S j)))) (t (S (S (S j)))) p) (seq k m)) = Some (map (fun z => moved (fst z) (snd z) p) zs) /\
    Forall2 (fun z j => within z (y (S (S (S j)))) (w (S (S (S j))))) zs (seq k m).
Proof.
  intros bs c p s t m k z0 z1 z2 L Rg Hc y w Cy Cw. assert (C0 : 0 < c) by lra. pose proof (gain_low c Hc) as GL. pose proof (gain_range c C0) as GR.
  revert k z0 z1 z2. induction m as [|m IH]; intros k z0 z1 z2 [H0 H0'] [H1 H1'] [H2 H2']; [exists []; split; [reflexivity|constructor]|].
  cbn [seq map sent_poses]. unfold convert_pose. cbn [p_O_T_EE_c p_O_dP_EE_c p_O_ddP_EE_c].
  rewrite pose_filtered by assumption. cbn [then_]. unfold limited.
  assert (Step : forall (s : nat -> R) z, Rabs (z - lagging (gain c) s (S (S k))) <= TINY ->
    Rabs (gain c * s (S (S (S k))) + (1 - gain c) * z - lagging (gain c) s (S (S (S k)))) <= (1 - 5 / 1000000) * TINY).
  { intros q z H. replace (gain c * q (S (S (S k))) + (1 - gain c) * z - lagging (gain c) q (S (S (S k)))) with ((1 - gain c) * (z - lagging (gain c) q (S (S k)))).
    2:{ change (lagging (gain c) q (S (S (S k)))) with (gain c * q (S (S (S k))) + (1 - gain c) * lagging (gain c) q (S (S k))). ring. }
    rewrite Rabs_mult, Rabs_pos_eq by lra. apply Rmult_le_compat; [lra|apply Rabs_pos|lra|exact H]. }
  pose proof (Step s (fst z2) H2) as S1. pose proof (Step t (snd z2) H2') as S3. fold y in S1. fold w in S3. clear Step.
  set (f1 := gain c * s (S (S (S k))) + (1 - gain c) * fst z2) in *. set (f3 := gain c * t (S (S (S k))) + (1 - gain c) * snd z2) in *. clearbody f1 f3.
  assert (S1' : Rabs (f1 - y (S (S (S k)))) <= TINY) by (unfold TINY in *; lra). assert (S3' : Rabs (f3 - w (S (S (S k)))) <= TINY) by (unfold TINY in *; lra).
  destruct (near_step y k _ _ _ _ (Cy k) H0 H1 H2 S1') as (N1 & N2 & N3). destruct (near_step w k _ _ _ _ (Cw k) H0' H1' H2' S3') as (M1 & M2 & M3).
  destruct (pose_limited p f1 f3 (fst z2) (snd z2) _ _ _ _ L Rg N1 M1 N2 M2 N3 M3) as (u1 & u3 & E & D1 & D3). unfold pose_limit in E. rewrite E. cbn [then_].
  rewrite C36_rigid_accepted by (apply moved_rigid; assumption). rewrite moved_shift by exact L. cbv zeta. rewrite still_rate.
  assert (Z : within (u1, u3) (y (S (S (S k)))) (w (S (S (S k))))).
  { split; cbn [fst snd].
    - replace (u1 - y (S (S (S k)))) with ((u1 - f1) + (f1 - y (S (S (S k))))) by ring. eapply Rle_trans; [apply Rabs_triang|]. unfold slip, TINY in *. lra.
    - replace (u3 - w (S (S (S k)))) with ((u3 - f3) + (f3 - w (S (S (S k))))) by ring. eapply Rle_trans; [apply Rabs_triang|]. unfold slip, TINY in *. lra. }
  destruct (IH (S k) z1 z2 (u1, u3) (conj H1 H1') (conj H2 H2') Z) as (zs & Ez & F). cbn [fst snd] in Ez.
  exists ((u1, u3) :: zs). rewrite Ez. split; [reflexivity|]. constructor; assumption.
Qed.

(** With a state every millisecond, a first pose with a proper orientation and a cutoff frequency from a thousandth of
    a hertz on, every pose sent has the orientation of the first one, and its origin is on the
    filtered circle up to 10^-12 m. *)
Theorem C70_pose_commands : forall bs c p0 (ps : list (list R)), pose16 p0 -> rigid (entry p0) -> 1 / 1000 <= c ->
  let forwards j := 3 / 10 * sin (arc (N.of_nat j)) in let sinks j := 3 / 10 * (cos (arc (N.of_nat j)) - 1) in
  exists m zs, map fst (pose_outputs (every_ms p0 ps)) = map (fun j => moved (forwards j) (sinks j) p0) (seq 0 m) /\
    sent_poses bs c p0 (repeat 0 6) (repeat 0 6) (map fst (pose_outputs (every_ms p0 ps))) = Some (map (fun z => moved (fst z) (snd z) p0) zs) /\
    Forall2 (fun z j => Rabs (fst z - lagging (gain c) forwards j) <= 1 / 10 ^ 12 /\ Rabs (snd z - lagging (gain c) sinks j) <= 1 / 10 ^ 12) zs (seq 0 m).
Proof.
  intros bs c p0 ps L Rg Hc forwards sinks. unfold every_ms. rewrite C70_pose by apply every_positive. rewrite every_steps, map_map. cbn [fst].
  destruct (instants_start 10000 (length ps)) as (m & E & _); [lia|]. exists m. rewrite E, map_map.
  set (u := fun ms : N => 3 / 10 * sin (arc ms)). set (v := fun ms : N => 3 / 10 * (cos (arc ms) - 1)). assert (C0 : 0 < c) by lra.
  assert (Z : forall w k, (k <= 2)%nat -> lagging (gain c) (sample w) k = 0).
  { intros w k Hk. destruct k as [|[|[|k]]]; [| | |lia]; cbn [lagging sample]; ring. }
  destruct (poses_sent bs c p0 (sample u) (sample v) m 0 (0, 0) (0, 0) (0, 0) L Rg Hc) as (zs & Ez & F).
  - intros j. apply lagging_calm; [apply gain_range, C0|reflexivity|reflexivity|reflexivity|intros; apply forwards_gentle].
  - intros j. apply lagging_calm; [apply gain_range, C0|reflexivity|reflexivity|reflexivity|intros; apply sinks_gentle].
  - split; cbn [fst snd]; rewrite Z, Rminus_0_r, Rabs_R0 by lia; unfold TINY; lra.
  - split; cbn [fst snd]; rewrite Z, Rminus_0_r, Rabs_R0 by lia; unfold TINY; lra.
  - split; cbn [fst snd]; rewrite Z, Rminus_0_r, Rabs_R0 by lia; unfold TINY; lra.
  - exists zs. split; [reflexivity|]. cbn [fst snd] in Ez.
    replace ((0 - 0) / cycle) with 0 in Ez by (unfold cycle; field). replace ((0 - 0) / cycle) with 0 in Ez by (unfold cycle; field).
    assert (M : moved 0 0 p0 = p0). { destruct (Properties_Turn.sixteen _ _ L) as (a & b & c' & d & e & f & g & h & i & j & k & l & x & n & o & q & ->). cbn [moved]. rewrite !Rplus_0_r. reflexivity. }
    rewrite M in Ez. split; [exact Ez|].
    clear E Ez. revert F. generalize (seq 0 m). intros l F. induction F as [|z j zs' js H F IHF]; constructor; [|exact IHF].
    destruct H as [H1 H2]. rewrite !lagging_sample in H1, H2. split; assumption.
Qed.
Print Assumptions C70_pose_commands.

(** The default cutoff frequency and the upright pose; after five seconds the hand has moved by 0.3 m in both coordinates. *)
Example C70_ex_pose_commands : let upright := [1; 0; 0; 0; 0; 1; 0; 0; 0; 0; 1; 0; 3 / 10; 0; 1 / 2; 1] in
  1 / 1000 <= DEFAULT_CUTOFF_FREQUENCY real /\ pose16 upright /\ rigid (entry upright) /\
  3 / 10 * sin (arc 5000) = 3 / 10 /\ 3 / 10 * (cos (arc 5000) - 1) = - (3 / 10).
Proof.
  cbv zeta. unfold DEFAULT_CUTOFF_FREQUENCY. cbn [f_int real]. split; [lra|]. split; [reflexivity|]. split.
  - split; [repeat split|]. split; [|unfold Properties_Pose.det, entry; cbn [nth]; ring].
    intros r s Hr Hs. destruct r as [|[|[|r]]]; [| | |lia]; (destruct s as [|[|[|s]]]; [| | |lia]); unfold Properties_Pose.dot, entry; cbn [nth Nat.mul Nat.add Nat.eqb]; ring.
  - assert (A : arc 5000 = PI / 2).
    { unfold arc. change (Z.of_N 5000) with 5000%Z. replace (PI / 5 * (5000 / 1000)) with PI by field. rewrite cos_PI. field. }
    rewrite A, sin_PI2, cos_PI2. lra.
Qed.
