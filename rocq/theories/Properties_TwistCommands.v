(** C70: what is sent for the Cartesian velocity example after the filter and the rate limiter.
    The rate limiter takes a jerk or an acceleration up to 2^-52 for none, so that the commands are
    the filtered curve up to an error far below what a binary64 number shows. *)
From Coq Require Import List ZArith NArith Bool Reals Lra Lia.
From Verif Require Import NumOps NumReal RateModel RateReal RateCart RateSpec PiBounds Waves ConvertModel ExampleMotions Properties_Rate Properties_Filter Properties_ExampleMotions Properties_ExampleCommands.
Import ListNotations.
Open Scope R_scope.

(** * Vectors on one line *)
Definition on (p q : R) (x : R) : rvec := Vec real (p * x) 0 (q * x).
Lemma len_on : forall p q x, p * p + q * q = 1 -> len (on p q x) = Rabs x.
Proof.
  intros p q x H. unfold len, on, dot. cbn [vx vy vz].
  replace (p * x * (p * x) + 0 * 0 + q * x * (q * x)) with (Rabs x * Rabs x); [apply sqrt_square, Rabs_pos|].
  rewrite <- Rabs_mult, Rabs_pos_eq by apply Rle_0_sqr. replace (x * x) with ((p * p + q * q) * (x * x)) by (rewrite H; ring). ring.
Qed.
Lemma sign_abs : forall x k, x <> 0 -> x / Rabs x * (Rabs x * k) = x * k.
Proof. intros x k H. field. apply Rabs_no_R0, H. Qed.
Lemma limited_on : forall p q J y x a, p * p + q * q = 1 ->
  let j := ((y - x) / T - a) / T in
  Rabs j <= J ->
  limited_acceleration real J (on p q y) (on p q x) (on p q a) =
  on p q (if Rlt_dec (NORM_EPS real) (Rabs j) then (y - x) / T else a).
Proof.
  intros p q J y x a H j Hj. pose proof T_pos as HT. pose proof norm_eps_pos as He.
  unfold limited_acceleration.
  set (jv := v_unscale real (v_sub real (v_unscale real (v_sub real (on p q y) (on p q x)) (DELTA_T real)) (on p q a)) (DELTA_T real)).
  assert (Ej : jv = on p q j).
  { unfold jv, on, j, v_unscale, v_sub, v_map, v_map2. cbn [vx vy vz f_sub f_div real]. rewrite delta_real. f_equal; field; lra. }
  change (v_norm real jv) with (len jv). rewrite Ej, len_on by exact H. unfold f_gt. cbn [f_lt real].
  destruct (Rlt_dec (NORM_EPS real) (Rabs j)) as [L|L]; [|reflexivity].
  cbn [f_min f_max f_neg real]. pose proof (Rabs_pos j) as Pj. rewrite Rmin_left by exact Hj. rewrite Rmax_left by lra.
  unfold v_add, v_map2, v_scale, v_map, v_normalize, v_unscale. change (v_norm real (on p q j)) with (len (on p q j)).
  rewrite len_on by exact H. cbn [f_add f_mul f_div real]. rewrite delta_real. unfold on, v_map. cbn [vx vy vz f_add f_mul f_div real].
  assert (Nj : j <> 0) by (intro N; rewrite N, Rabs_R0 in L; lra). pose proof (Rabs_no_R0 j Nj) as Na.
  assert (C : forall r, r * a + r * j / Rabs j * Rabs j * T = r * ((y - x) / T)).
  { intros r. replace ((y - x) / T) with (a + j * T) by (unfold j; field; lra). field. exact Na. }
  rewrite !C. f_equal. field. exact Na.
Qed.
(** One step of the rate limiter, well inside of the limits. *)
Lemma step_on : forall p q V A J y x a, limits V A J -> p * p + q * q = 1 ->
  Rabs (((y - x) / T - a) / T) <= J -> Rabs ((y - x) / T) <= A -> Rabs a <= A -> A <= J / A * (V - Rabs x) -> Rabs x <= V ->
  exists z, limit_rate_single_cartesian_velocity real V A J (on p q y) (on p q x) (on p q a) = on p q z /\
    Rabs (z - y) <= 2 * T * NORM_EPS real.
Proof.
  intros p q V A J y x a L H Hj Ha La Hd Hx. pose proof T_pos as HT. pose proof norm_eps_pos as He.
  pose proof (limited_on p q J y x a H Hj) as E. set (j := ((y - x) / T - a) / T) in *.
  set (b := if Rlt_dec (NORM_EPS real) (Rabs j) then (y - x) / T else a) in E.
  assert (Hb : Rabs b <= A) by (unfold b; destruct (Rlt_dec _ _); assumption).
  assert (Tb : Rabs (x + b * T - y) <= T * NORM_EPS real).
  { unfold b. destruct (Rlt_dec _ _) as [G|G].
    - replace (x + (y - x) / T * T - y) with 0 by (field; lra). rewrite Rabs_R0. apply Rmult_le_pos; lra.
    - replace (x + a * T - y) with (- (T * T * j)) by (unfold j; field; lra).
      rewrite Rabs_Ropp, Rabs_mult, Rabs_pos_eq by (apply Rmult_le_pos; lra).
      assert (T * T * Rabs j <= T * T * NORM_EPS real) by (apply Rmult_le_compat_l; [apply Rmult_le_pos; lra|lra]).
      assert (T * (T * NORM_EPS real) <= 1 * (T * NORM_EPS real)).
      { apply Rmult_le_compat_r; [apply Rmult_le_pos; lra|unfold T; lra]. } lra. }
  destruct (single_cases V A J (on p q y) (on p q x) (on p q a)) as [[Hn R]|[Hn R]]; rewrite E in Hn; try rewrite E in R; rewrite len_on in Hn by exact H; rewrite R.
  - exists x. split; [reflexivity|].
    replace (x - y) with ((x + b * T - y) - b * T) by ring.
    pose proof (Rabs_triang (x + b * T - y) (- (b * T))) as Tr. rewrite Rabs_Ropp, Rabs_mult, (Rabs_pos_eq T) in Tr by lra.
    assert (Rabs b * T <= NORM_EPS real * T) by (apply Rmult_le_compat_r; lra). unfold Rminus at 1. lra.
  - exists (x + b * T). split.
    + rewrite len_on by exact H. assert (Nb : b <> 0) by (intro N; rewrite N, Rabs_R0 in Hn; lra). pose proof (Rabs_no_R0 b Nb) as Na.
      rewrite Rmin_left.
      2:{ apply Rmin_glb; [|exact Hb]. eapply Rle_trans; [exact Hb|]. eapply Rle_trans; [exact Hd|].
          destruct (limits_ratio V A J L) as (K1 & _ & _). apply Rmult_le_compat_l; [lra|].
          rewrite <- (len_on p q x H). apply distance_ge; rewrite len_on by exact H; lra. }
      unfold along. rewrite len_on by exact H. unfold on. cbn [vx vy vz].
      f_equal; field; exact Na.
    + eapply Rle_trans; [exact Tb|]. assert (0 <= T * NORM_EPS real) by (apply Rmult_le_pos; lra). lra.
Qed.
(** At rest nothing happens. *)
Lemma step_rest : forall V A J, 0 <= J ->
  limit_rate_single_cartesian_velocity real V A J (Vec real 0 0 0) (Vec real 0 0 0) (Vec real 0 0 0) = Vec real 0 0 0.
Proof.
  intros V A J HJ. pose proof norm_eps_pos as He. pose proof T_pos as HT.
  assert (Z : Vec real 0 0 0 = on 1 0 0) by (unfold on; f_equal; lra).
  assert (E : limited_acceleration real J (Vec real 0 0 0) (Vec real 0 0 0) (Vec real 0 0 0) = Vec real 0 0 0).
  { rewrite Z, limited_on; [|lra|].
    - replace ((0 - 0) / T) with 0 by (field; lra). destruct (Rlt_dec _ _); reflexivity.
    - replace (((0 - 0) / T - 0) / T) with 0 by (field; lra). rewrite Rabs_R0. exact HJ. }
  destruct (single_cases V A J (Vec real 0 0 0) (Vec real 0 0 0) (Vec real 0 0 0)) as [[_ R]|[Hn _]]; [exact R|].
  rewrite E, Z, len_on, Rabs_R0 in Hn by lra. lra.
Qed.

(** * The commands *)
(** The robot reports what it was told: velocities and accelerations of the hand. *)
Fixpoint sent_twists (b : reported real) (c : R) (lv la : list R) (requests : list (list R)) : option (list (list R)) :=
  match requests with
  | [] => Some []
  | v :: r =>
      match convert_twist real c true v
        (Reported real (p_q_d real b) (p_dq_d real b) (p_ddq_d real b) (p_O_T_EE_c real b) lv la (p_elbow_c real b) (p_delbow_c real b) (p_ddelbow_c real b) (p_tau_J_d real b)) with
      | Some v' => option_map (cons v') (sent_twists b c v' (rate lv v') r)
      | None => None
      end
  end.
Lemma downwards_mixed : forall g x y, map (fun p => g * fst p + (1 - g) * snd p) (combine (downwards x) (downwards y)) = downwards (g * x + (1 - g) * y).
Proof. intros g x y. unfold downwards. cbn [combine map fst snd]. repeat (f_equal; try ring). Qed.
Lemma downwards_rate : forall x y, rate (downwards x) (downwards y) = downwards ((y - x) / cycle).
Proof. intros x y. unfold downwards. cbn [rate]. unfold cycle. repeat (f_equal; try field). Qed.
Lemma diagonal : cos (PI / 4) * cos (PI / 4) + - sin (PI / 4) * - sin (PI / 4) = 1.
Proof. pose proof (sin2_cos2 (PI / 4)) as Q. unfold Rsqr in Q. lra. Qed.

(** The error of one step. *)
Definition slip : R := 2 * (1 / 1000) * (1 / 2 ^ 52).
Lemma twist_step_sent : forall y x a, Rabs x <= 3 / 2 -> Rabs ((y - x) / cycle) <= 8 -> Rabs a <= 12 ->
  Rabs (((y - x) / cycle - a) / cycle) <= 4000 ->
  exists z, limit_rate_cartesian_velocity real (MAX_TRANSLATIONAL_VELOCITY real)
             (MAX_TRANSLATIONAL_ACCELERATION real) (MAX_TRANSLATIONAL_JERK real) (MAX_ROTATIONAL_VELOCITY real)
             (MAX_ROTATIONAL_ACCELERATION real) (MAX_ROTATIONAL_JERK real) (downwards y) (downwards x) (downwards a) = Some (downwards z) /\
    Rabs (z - y) <= slip.
Proof.
  intros y x a Hx Hy Ha Hj. change cycle with T in *.
  destruct (step_on (cos (PI / 4)) (- sin (PI / 4)) _ _ _ y x a translation_limits diagonal) as (z & E & D).
  1-5: unfold MAX_TRANSLATIONAL_VELOCITY, MAX_TRANSLATIONAL_ACCELERATION, MAX_TRANSLATIONAL_JERK, LIMIT_EPS, TOL_NUMBER_PACKETS_LOST, f_lit;
       cbn [f_sub f_div f_int f_mul real]; rewrite ?delta_real.
  - lra.
  - lra.
  - lra.
  - unfold T. assert (500 <= (6500 - 1 / 1000) / (13 - 1 / 1000)).
    { apply Rmult_le_reg_r with (13 - 1 / 1000); [lra|]. unfold Rdiv at 2. rewrite Rmult_assoc, Rinv_l by lra. lra. }
    set (k := (6500 - 1 / 1000) / (13 - 1 / 1000)) in *. clearbody k.
    apply Rle_trans with (500 * (3 / 10)); [lra|]. apply Rmult_le_compat; lra.
  - unfold T. lra.
  - exists z. split.
    + unfold limit_rate_cartesian_velocity. rewrite real_all_finite. unfold downwards at 1 2 3. cbn [to_vecs].
      change (Vec real (cos (PI / 4) * y) 0 (- sin (PI / 4) * y)) with (on (cos (PI / 4)) (- sin (PI / 4)) y).
      change (Vec real (cos (PI / 4) * x) 0 (- sin (PI / 4) * x)) with (on (cos (PI / 4)) (- sin (PI / 4)) x).
      change (Vec real (cos (PI / 4) * a) 0 (- sin (PI / 4) * a)) with (on (cos (PI / 4)) (- sin (PI / 4)) a).
      rewrite E, step_rest; [reflexivity|].
      unfold MAX_ROTATIONAL_JERK, LIMIT_EPS, f_lit. cbn [f_sub f_div f_int f_mul real]. lra.
    + assert (En : NORM_EPS real = 1 / 2 ^ 52) by (unfold NORM_EPS, f_lit; cbn [f_div f_int real]; lra).
      rewrite En in D. exact D.
Qed.

Lemma gain_low : forall c, 1 / 1000 <= c -> 5 / 1000000 <= gain c.
Proof.
  intros c H. unfold gain. destruct (Rlt_dec c 1000); [|lra]. pose proof pi_bounds as P.
  assert (Q : 0 < 2 * PI * c) by (apply Rmult_lt_0_compat; lra).
  assert (Q2 : 6 / 1000 <= 2 * PI * c). { apply Rle_trans with (6 * (1 / 1000)); [lra|]. apply Rmult_le_compat; lra. }
  set (d := 2 * PI * c) in *. clearbody d.
  assert (D : 1 / d <= 1000 / 6). { apply Rmult_le_reg_r with d; [lra|]. unfold Rdiv at 1. rewrite Rmult_assoc, Rinv_l by lra. lra. }
  assert (D0 : 0 < 1 / d) by (apply Rdiv_lt_0_compat; lra). set (e := 1 / d) in *. clearbody e.
  apply Rmult_le_reg_r with (1 / 1000 + e); [lra|].
  replace (1 / 1000 / (1 / 1000 + e) * (1 / 1000 + e)) with (1 / 1000) by (field; lra). lra.
Qed.
(** The error of all steps together. *)
Definition TINY : R := 1 / 10 ^ 12.
Lemma twist_sent : forall bs c s m k n z1 z2, 1 / 1000 <= c -> s 0%nat = 0 -> s 1%nat = 0 ->
  (forall j, (j <= n)%nat -> easy (s (S (S j))) (s (S j)) ((s (S j) - s j) / cycle)) -> (k + m <= n + 1)%nat ->
  let y := lagging (gain c) s in
  Rabs (z1 - y k) <= TINY -> Rabs (z2 - y (S k)) <= TINY ->
  exists zs, sent_twists bs c (downwards z2) (downwards ((z2 - z1) / cycle)) (map (fun j => downwards (s (S (S j)))) (seq k m)) = Some (map downwards zs) /\
    Forall2 (fun z j => Rabs (z - y (S (S j))) <= TINY) zs (seq k m).
Proof.
  intros bs c s m k n z1 z2 Hc S0 S1 G B y. assert (C0 : 0 < c) by lra. pose proof (gain_low c Hc) as GL. pose proof (gain_range c C0) as GR.
  revert k z1 z2 B. induction m as [|m IH]; intros k z1 z2 B H1 H2; [exists []; split; [reflexivity|constructor]|].
  cbn [seq map sent_twists]. unfold convert_twist. cbn [p_O_dP_EE_c p_O_ddP_EE_c].
  rewrite filtered_real; [|exact C0|reflexivity]. cbn [then_]. rewrite downwards_mixed. unfold limited.
  assert (Es : easy (y (S (S k))) (y (S k)) ((y (S k) - y k) / cycle)).
  { apply lagging_easy; [exact GR|exact S0|exact S1|]. intros j Hj. apply G. lia. }
  set (f := gain c * s (S (S k)) + (1 - gain c) * z2).
  assert (Ef : f - y (S (S k)) = (1 - gain c) * (z2 - y (S k))).
  { unfold f. change (y (S (S k))) with (gain c * s (S (S k)) + (1 - gain c) * y (S k)). ring. }
  assert (Df : Rabs (f - y (S (S k))) <= (1 - 5 / 1000000) * TINY).
  { rewrite Ef, Rabs_mult, Rabs_pos_eq by lra. apply Rmult_le_compat; [lra|apply Rabs_pos|lra|exact H2]. }
  destruct (twist_step_sent f z2 ((z2 - z1) / cycle)) as (z & E & D).
  1-4: clear IH Ef; destruct Es as (A1 & A2 & A3); unfold TINY, cycle in *; clearbody f;
    set (y0 := y k) in *; set (y1 := y (S k)) in *; set (y2 := y (S (S k))) in *; clearbody y0 y1 y2;
    apply abs_range in H1, H2, Df, A1, A2, A3; apply Rabs_le; lra.
  rewrite E. cbn [then_]. rewrite finite_real. rewrite downwards_rate.
  assert (Dz : Rabs (z - y (S (S k))) <= TINY).
  { replace (z - y (S (S k))) with ((z - f) + (f - y (S (S k)))) by ring.
    pose proof (Rabs_triang (z - f) (f - y (S (S k)))) as Tr. unfold slip, TINY in *. lra. }
  destruct (IH (S k) z2 z) as (zs & Es' & F); [lia|exact H2|exact Dz|].
  exists (z :: zs). rewrite Es'. split; [reflexivity|]. constructor; assumption.
Qed.

(** For each state every millisecond and each cutoff frequency from a thousandth of a hertz on,
    the commands are along the same line, and their speeds are those of the filtered curve up to
    10^-12 m/s. *)
Theorem C70_twist_commands : forall bs c (xs : list unit), 1 / 1000 <= c ->
  exists m zs, map fst (twist_outputs (every_ms tt xs)) = map (fun j => downwards (velocity_wave (1 / 10) 4000 (N.of_nat j))) (seq 0 m) /\
    sent_twists bs c (repeat 0 6) (repeat 0 6) (map fst (twist_outputs (every_ms tt xs))) = Some (map downwards zs) /\
    Forall2 (fun z j => Rabs (z - lagging (gain c) (fun k => velocity_wave (1 / 10) 4000 (N.of_nat k)) j) <= 1 / 10 ^ 12) zs (seq 0 m).
Proof.
  intros bs c xs Hc. rewrite C70_twist. unfold every_ms. cbn [map snd]. rewrite every_steps.
  destruct (instants_start 8000 (length xs)) as (m & E & B); [lia|]. rewrite E, !map_map. cbn [fst].
  set (s := velocity_sample (1 / 10) (N.to_nat 4000)).
  assert (L : forall j, s (S (S j)) = velocity_wave (1 / 10) 4000 (N.of_nat j)).
  { intros j. unfold s, velocity_sample. rewrite N2Nat.id. reflexivity. }
  assert (L1 : lagging (gain c) s 1 = 0) by (unfold s; cbn [lagging velocity_sample]; ring).
  assert (L0 : lagging (gain c) s 0 = 0) by (unfold s; cbn [lagging velocity_sample]; ring).
  assert (LL : forall j, lagging (gain c) s (S (S j)) = lagging (gain c) (fun k => velocity_wave (1 / 10) 4000 (N.of_nat k)) j).
  { induction j as [|j IH].
    - change (lagging (gain c) s 2) with (gain c * s 2%nat + (1 - gain c) * lagging (gain c) s 1). rewrite L1, L. cbn [lagging]. ring.
    - change (lagging (gain c) s (S (S (S j)))) with (gain c * s (S (S (S j))) + (1 - gain c) * lagging (gain c) s (S (S j))).
      rewrite IH, L. reflexivity. }
  pose proof pi_bounds as P. assert (Q : PI * PI <= 3.2 * 3.2) by (apply Rmult_le_compat; lra).
  destruct (twist_sent bs c s m 0 (N.to_nat 4000 + N.to_nat 4000) 0 0 Hc eq_refl eq_refl) as (zs & Ez & Fz).
  - intros j Hj. unfold s. apply velocity_easy; [lra|lia| | |exact Hj]; rewrite big_INR; change (Z.of_N 4000) with 4000%Z; [lra|].
    replace (1 / 10 / 2 * (2 * PI / 4000) * (2 * PI / 4000)) with (PI * PI / 80000000) by field. lra.
  - lia.
  - rewrite L0. unfold TINY. rewrite Rminus_0_r, Rabs_R0. lra.
  - rewrite L1. unfold TINY. rewrite Rminus_0_r, Rabs_R0. lra.
  - exists m, zs. split; [reflexivity|].
    assert (Z : downwards 0 = repeat 0 6) by (unfold downwards; cbn [repeat]; rewrite !Rmult_0_r; reflexivity).
    replace ((0 - 0) / cycle) with 0 in Ez by (unfold cycle; field). rewrite Z in Ez. split.
    + exact Ez.
    + clear E Ez B. revert Fz. generalize (seq 0 m). intros l Fz. induction Fz as [|z j zs' js H F IHF]; constructor; [rewrite <- LL; exact H|exact IHF].
Qed.
Print Assumptions C70_twist_commands.

(** The default cutoff frequency; half a period into the motion the filtered curve has moved. *)
Example C70_ex_twist_commands : 1 / 1000 <= DEFAULT_CUTOFF_FREQUENCY real /\ velocity_wave (1 / 10) 4000 2000 = 1 / 10 /\ downwards (1 / 10) <> downwards 0.
Proof.
  unfold DEFAULT_CUTOFF_FREQUENCY. cbn [f_int real]. split; [lra|]. split.
  - unfold velocity_wave. change (N.even (2000 / 4000)) with true. cbn iota. change (Z.of_N 2000) with 2000%Z. change (Z.of_N 4000) with 4000%Z.
    replace (2 * PI * (2000 / 4000)) with PI by field. rewrite cos_PI. lra.
  - unfold downwards. intro H. injection H as H _. rewrite cos_PI4 in H.
    pose proof (sqrt_lt_R0 2 ltac:(lra)) as S2. assert (0 < 1 / sqrt 2) by (apply Rdiv_lt_0_compat; lra). lra.
Qed.
