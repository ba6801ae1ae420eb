(** C70: what is sent for the example motions after the filter and the rate limiter. *)
From Coq Require Import List ZArith NArith Bool Reals Lra Lia.
From Verif Require Import NumOps NumReal RateModel RateReal RateSpec PiBounds Waves ConvertModel ExampleMotions Properties_Rate Properties_Filter Properties_ExampleMotions.
Import ListNotations.
Open Scope R_scope.

(** The gain of the first-order filter with the cutoff frequency [c] at 1000 Hz; from 1000 Hz on
    there is no filter. *)
Definition gain (c : R) : R := if Rlt_dec c 1000 then (1 / 1000) / (1 / 1000 + 1 / (2 * PI * c)) else 1.
Lemma gain_range : forall c, 0 < c -> 0 < gain c <= 1.
Proof.
  intros c H. unfold gain. destruct (Rlt_dec c 1000); [|lra]. pose proof pi_bounds as P.
  assert (Q : 0 < 1 / (2 * PI * c)). { apply Rdiv_lt_0_compat; [lra|]. apply Rmult_lt_0_compat; lra. }
  set (d := 1 / (2 * PI * c)) in *. clearbody d. split.
  - apply Rdiv_lt_0_compat; lra.
  - apply Rmult_le_reg_r with (1 / 1000 + d); [lra|]. unfold Rdiv at 1. rewrite Rmult_assoc, Rinv_l by lra. lra.
Qed.
Lemma model_gain : forall c, filter_gain real (1 / 1000) c = (1 / 1000) / (1 / 1000 + 1 / (2 * PI * c)).
Proof. intros c. unfold filter_gain. cbn [f_add f_div f_mul f_int f_pi real]. reflexivity. Qed.
Lemma one_filtered : forall c y l, 0 < c ->
  (if f_lt real c (MAX_CUTOFF_FREQUENCY real) then low_pass_filter real (DELTA_T real) y l c else Some y) = Some (gain c * y + (1 - gain c) * l).
Proof.
  intros c y l H. cbn [f_lt real]. unfold MAX_CUTOFF_FREQUENCY. cbn [f_int real]. unfold gain. destruct (Rlt_dec c 1000) as [C|C].
  - rewrite delta_real. unfold T. rewrite filter_real, model_gain by lra. reflexivity.
  - f_equal. lra.
Qed.
Lemma filtered_real : forall c y last, 0 < c -> length y = length last ->
  filtered real c y last = Some (map (fun p => gain c * fst p + (1 - gain c) * snd p) (combine y last)).
Proof.
  intros c y last H L. pose proof (fun a b => one_filtered c a b H) as O1. revert O1. unfold filtered. destruct (f_lt real c (MAX_CUTOFF_FREQUENCY real)); intros O1.
  - revert last L. induction y as [|a y IH]; intros [|b last] L; try discriminate L; [reflexivity|]. cbn [map2 combine map fst snd sequence].
    rewrite O1. rewrite IH by (injection L; auto). reflexivity.
  - f_equal. revert last L. induction y as [|a y IH]; intros [|b last] L; try discriminate L; [reflexivity|]. cbn [combine map fst snd].
    specialize (O1 a b). injection O1 as E. f_equal; [exact E|]. apply IH. injection L; auto.
Qed.

(** The filtered curve. *)
Fixpoint lagging (g : R) (w : nat -> R) (n : nat) : R :=
  match n with
  | O => g * w O
  | S k => g * w (S k) + (1 - g) * lagging g w k
  end.
(** It is behind by at most (1-g)/g times the greatest step of the curve. *)
Lemma lagging_behind : forall g w B n, 0 < g <= 1 -> 0 <= B -> Rabs (w O) <= B -> (forall k, (S k <= n)%nat -> Rabs (w (S k) - w k) <= B) ->
  Rabs (w n - lagging g w n) <= (1 - g) / g * B.
Proof.
  intros g w B n Hg HB H0 H. assert (E : (1 - g) * B + (1 - g) * ((1 - g) / g * B) = (1 - g) / g * B) by (field; lra).
  assert (P : 0 <= (1 - g) / g). { apply Rmult_le_pos; [lra|]. left. apply Rinv_0_lt_compat. lra. }
  assert (PB : 0 <= (1 - g) / g * B) by (apply Rmult_le_pos; assumption).
  induction n as [|n IH]; cbn [lagging].
  - replace (w 0%nat - g * w 0%nat) with ((1 - g) * w 0%nat) by ring. rewrite Rabs_mult, Rabs_pos_eq by lra.
    assert (M : (1 - g) * Rabs (w 0%nat) <= (1 - g) * B) by (apply Rmult_le_compat_l; lra).
    assert (0 <= (1 - g) * ((1 - g) / g * B)) by (apply Rmult_le_pos; lra). lra.
  - replace (w (S n) - (g * w (S n) + (1 - g) * lagging g w n)) with ((1 - g) * ((w (S n) - w n) + (w n - lagging g w n))) by ring.
    rewrite Rabs_mult, (Rabs_pos_eq (1 - g)) by lra.
    assert (I : Rabs (w n - lagging g w n) <= (1 - g) / g * B) by (apply IH; intros; apply H; lia).
    pose proof (H n (le_n _)) as D. pose proof (Rabs_triang (w (S n) - w n) (w n - lagging g w n)) as Tr.
    assert (M : (1 - g) * Rabs (w (S n) - w n + (w n - lagging g w n)) <= (1 - g) * (B + (1 - g) / g * B)) by (apply Rmult_le_compat_l; lra). lra.
Qed.

(** Filtering keeps the bounds of the differences. *)
Definition calm (s : nat -> R) (n : nat) : Prop :=
  Rabs (s (S (S n)) - s (S n)) <= 1 / 1000 /\
  Rabs (s (S (S (S n))) - 2 * s (S (S n)) + s (S n)) <= 7 / 1000000 /\
  Rabs (s (S (S (S n))) - 3 * s (S (S n)) + 3 * s (S n) - s n) <= 3000 / 1000000000.
Lemma mix : forall g a b B, 0 < g <= 1 -> Rabs a <= B -> Rabs b <= B -> Rabs (g * a + (1 - g) * b) <= B.
Proof.
  intros g a b B Hg Ha Hb. apply abs_range in Ha, Hb.
  assert (g * a <= g * B) by (apply Rmult_le_compat_l; lra). assert (g * (- B) <= g * a) by (apply Rmult_le_compat_l; lra).
  assert ((1 - g) * b <= (1 - g) * B) by (apply Rmult_le_compat_l; lra). assert ((1 - g) * (- B) <= (1 - g) * b) by (apply Rmult_le_compat_l; lra).
  apply Rabs_le. lra.
Qed.
Lemma lagging_calm : forall g s n, 0 < g <= 1 -> s 0%nat = 0 -> s 1%nat = 0 -> s 2%nat = 0 -> (forall k, (k <= n)%nat -> calm s k) -> calm (lagging g s) n.
Proof.
  intros g s n Hg S0 S1 S2. induction n as [|n IH]; intros C.
  - destruct (C 0%nat (le_n _)) as (C1 & C2 & C3). unfold calm. cbn [lagging]. rewrite S0, S1, S2 in *. set (x := s 3%nat) in *. clearbody x.
    assert (M2 : Rabs (g * (x - 2 * 0 + 0) + (1 - g) * 0) <= 7 / 1000000) by (apply mix; [exact Hg|exact C2|rewrite Rabs_R0; lra]).
    assert (M3 : Rabs (g * (x - 3 * 0 + 3 * 0 - 0) + (1 - g) * 0) <= 3000 / 1000000000) by (apply mix; [exact Hg|exact C3|rewrite Rabs_R0; lra]).
    apply abs_range in M2, M3. split; [apply Rabs_le; lra|]. split; apply Rabs_le; lra.
  - destruct (C (S n) (le_n _)) as (C1 & C2 & C3). destruct IH as (D1 & D2 & D3); [intros; apply C; lia|].
    assert (U : forall m, lagging g s (S m) = g * s (S m) + (1 - g) * lagging g s m) by reflexivity.
    unfold calm. split; [|split].
    + replace (lagging g s (S (S (S n))) - lagging g s (S (S n)))
        with (g * (s (S (S (S n))) - s (S (S n))) + (1 - g) * (lagging g s (S (S n)) - lagging g s (S n))).
      { apply mix; assumption. } rewrite (U (S (S n))), (U (S n)) at 1. ring_simplify. rewrite (U (S n)). ring.
    + replace (lagging g s (S (S (S (S n)))) - 2 * lagging g s (S (S (S n))) + lagging g s (S (S n)))
        with (g * (s (S (S (S (S n)))) - 2 * s (S (S (S n))) + s (S (S n))) +
              (1 - g) * (lagging g s (S (S (S n))) - 2 * lagging g s (S (S n)) + lagging g s (S n))).
      { apply mix; assumption. } rewrite (U (S (S (S n)))), (U (S (S n))), (U (S n)). ring.
    + replace (lagging g s (S (S (S (S n)))) - 3 * lagging g s (S (S (S n))) + 3 * lagging g s (S (S n)) - lagging g s (S n))
        with (g * (s (S (S (S (S n)))) - 3 * s (S (S (S n))) + 3 * s (S (S n)) - s (S n)) +
              (1 - g) * (lagging g s (S (S (S n))) - 3 * lagging g s (S (S n)) + 3 * lagging g s (S n) - lagging g s n)).
      { apply mix; assumption. } rewrite (U (S (S (S n)))), (U (S (S n))), (U (S n)), (U n). ring.
Qed.
Lemma calm_easy : forall s n, calm s n ->
  easy ((s (S (S (S n))) - s (S (S n))) / cycle) ((s (S (S n)) - s (S n)) / cycle)
    (((s (S (S n)) - s (S n)) / cycle - (s (S n) - s n) / cycle) / cycle).
Proof.
  intros s n (H1 & H2 & H3). unfold easy, cycle. set (a := s n) in *. set (b := s (S n)) in *. set (c := s (S (S n))) in *. set (d := s (S (S (S n)))) in *.
  clearbody a b c d. apply abs_range in H1, H2, H3. split; [|split]; apply Rabs_le; lra.
Qed.
(** Behind three zeros. *)
Lemma lagging_sample : forall g w k, lagging g (sample w) (S (S (S k))) = lagging g (fun j => w (N.of_nat j)) k.
Proof.
  intros g w k. induction k as [|k IH].
  - cbn [lagging sample]. change (N.of_nat 0) with 0%N. ring.
  - change (lagging g (sample w) (S (S (S (S k))))) with (g * sample w (S (S (S (S k)))) + (1 - g) * lagging g (sample w) (S (S (S k)))).
    rewrite IH. reflexivity.
Qed.
Lemma sample_calm : forall w n, gentle w n -> calm (sample w) n.
Proof. intros w n H. exact H. Qed.

(** * Joint positions *)
(** The robot reports what it was told: positions, velocities and accelerations. *)
Fixpoint sent_positions (b : reported real) (c : R) (lp lv la : list R) (requests : list (list R)) : option (list (list R)) :=
  match requests with
  | [] => Some []
  | p :: r =>
      match convert_joint_positions real c true p
        (Reported real lp lv la (p_O_T_EE_c real b) (p_O_dP_EE_c real b) (p_O_ddP_EE_c real b) (p_elbow_c real b) (p_delbow_c real b) (p_ddelbow_c real b) (p_tau_J_d real b)) with
      | Some p' => option_map (cons p') (sent_positions b c p' (rate lp p') (rate lv (rate lp p')) r)
      | None => None
      end
  end.
Lemma finite_real : forall l : list R, finite real l = Some l.
Proof. intros l. unfold finite. rewrite real_all_finite. reflexivity. Qed.
Lemma raise_mixed : forall g x y q0, joints q0 ->
  map (fun p => g * fst p + (1 - g) * snd p) (combine (raise x q0) (raise y q0)) = raise (g * x + (1 - g) * y) q0.
Proof.
  intros g x y q0 H. destruct (seven q0 H) as (a & b & c & d & e & f & h & ->). cbn [raise combine map fst snd].
  assert (E : forall z, g * z + (1 - g) * z = z) by (intros; ring). rewrite !E.
  assert (E2 : forall z, g * (z + x) + (1 - g) * (z + y) = z + (g * x + (1 - g) * y)) by (intros; ring). rewrite !E2. reflexivity.
Qed.
Lemma raise_length : forall x q0, joints q0 -> length (raise x q0) = 7%nat.
Proof. intros x q0 H. destruct (seven q0 H) as (a & b & c & d & e & f & h & ->). reflexivity. Qed.
Lemma raise_sent : forall bs c w q0 m k, joints q0 -> 0 < c -> (forall j, gentle w j) ->
  let y := lagging (gain c) (sample w) in
  sent_positions bs c (raise (y (S (S k))) q0) (rate (raise (y (S k)) q0) (raise (y (S (S k))) q0))
    (rate (rate (raise (y k) q0) (raise (y (S k)) q0)) (rate (raise (y (S k)) q0) (raise (y (S (S k))) q0)))
    (map (fun j => raise (sample w (S (S (S j)))) q0) (seq k m)) = Some (map (fun j => raise (y (S (S (S j)))) q0) (seq k m)).
Proof.
  intros bs c w q0 m k Hq Hc G y. revert k. induction m as [|m IH]; intros k; [reflexivity|]. cbn [seq map sent_positions].
  unfold convert_joint_positions. cbn [p_q_d p_dq_d p_ddq_d]. rewrite filtered_real; [|exact Hc|rewrite !raise_length by exact Hq; reflexivity].
  cbn [then_]. rewrite raise_mixed by exact Hq.
  change (gain c * sample w (S (S (S k))) + (1 - gain c) * y (S (S k))) with (y (S (S (S k)))). unfold limited.
  change (MAX_JOINT_VELOCITY real) with MV. change (MAX_JOINT_ACCELERATION real) with MA. change (MAX_JOINT_JERK real) with MJ.
  rewrite C32_joint_positions_partial.
  - cbn [then_]. rewrite finite_real. rewrite (IH (S k)). reflexivity.
  - destruct (seven q0 Hq) as (a & b & c0 & d & e & f & g & ->). reflexivity.
  - destruct (seven q0 Hq) as (a & b & c0 & d & e & f & g & ->). cbn [raise rate].
    assert (Z : forall x, (x - x) / cycle = 0) by (intros; unfold cycle; lra). rewrite !Z.
    assert (D : forall x y z, ((x + y) - (x + z)) / cycle = (y - z) / cycle) by (intros; unfold cycle; lra). rewrite !D.
    assert (Ca : calm y k). { apply lagging_calm; [apply gain_range, Hc|reflexivity|reflexivity|reflexivity|intros; apply sample_calm, G]. }
    pose proof (calm_easy y k Ca) as Ea. apply joint_respects; first [exact Ea|exact easy_rest].
Qed.
(** The commands are the filtered curve: the rate limiter changes nothing, with any cutoff
    frequency.  They are behind the curve by at most (1-g)/g times what it moves in a millisecond
    (0.4 mrad). *)
Theorem C70_joint_position_commands : forall bs c q0 qs, joints q0 -> 0 < c ->
  exists m, map fst (position_outputs (every_ms q0 qs)) = map (fun j => raise (position_wave (N.of_nat j)) q0) (seq 0 m) /\
    sent_positions bs c q0 (repeat 0 7) (repeat 0 7) (map fst (position_outputs (every_ms q0 qs))) =
    Some (map (fun j => raise (lagging (gain c) (fun k => position_wave (N.of_nat k)) j) q0) (seq 0 m)) /\
    forall j, Rabs (position_wave (N.of_nat j) - lagging (gain c) (fun k => position_wave (N.of_nat k)) j) <= (1 - gain c) / gain c * (5 / 10000).
Proof.
  intros bs c q0 qs Hq Hc. unfold every_ms. rewrite C70_joint_positions; [|exact Hq|apply every_positive].
  rewrite every_steps. destruct (instants_start 5000 (length qs)) as (m & E & _); [lia|]. exists m. rewrite E, !map_map. cbn [fst].
  assert (Q : map (fun j => position_curve q0 (N.of_nat j)) (seq 0 m) = map (fun j => raise (sample position_wave (S (S (S j)))) q0) (seq 0 m)) by reflexivity.
  split; [reflexivity|]. split.
  - rewrite Q. pose proof (raise_sent bs c position_wave q0 m 0 Hq Hc position_gentle) as R. cbv zeta in R.
    assert (L0 : lagging (gain c) (sample position_wave) 0 = 0) by (cbn [lagging sample]; ring).
    assert (L1 : lagging (gain c) (sample position_wave) 1 = 0) by (cbn [lagging sample]; ring).
    assert (L2 : lagging (gain c) (sample position_wave) 2 = 0) by (cbn [lagging sample]; ring).
    rewrite L0, L1, L2, raise_0, (rate_self q0 Hq), (rate_self (repeat 0 7) eq_refl) in R.
    rewrite R. f_equal. apply map_ext. intros j. rewrite lagging_sample. reflexivity.
  - intros j. apply (lagging_behind (gain c) (fun k => position_wave (N.of_nat k))); [apply gain_range, Hc|lra| |].
    + unfold position_wave. change (Z.of_N (N.of_nat 0)) with 0%Z. replace (PI / (5 / 2) * (0 / 1000)) with 0 by field. rewrite cos_0. 
      replace (PI / 8 * (1 - 1)) with 0 by ring. rewrite Rabs_R0. lra.
    + intros k _. pose proof pi_bounds as P. pose proof (wave_d1 (PI / 8) (PI / 2500) ltac:(lra) ltac:(lra) (INR k * (PI / 2500))) as D.
      replace (position_wave (N.of_nat (S k))) with (wave (PI / 8) (INR k * (PI / 2500) + PI / 2500)).
      2:{ unfold position_wave, wave. rewrite nat_N_Z, <- INR_IZR_INZ, S_INR. do 3 f_equal. field. }
      replace (position_wave (N.of_nat k)) with (wave (PI / 8) (INR k * (PI / 2500))).
      2:{ unfold position_wave, wave. rewrite nat_N_Z, <- INR_IZR_INZ. do 3 f_equal. field. }
      assert (Q2 : PI * PI <= (315 / 100) * (315 / 100)) by (apply Rmult_le_compat; lra). lra.
Qed.
Print Assumptions C70_joint_position_commands.

(** * Joint velocities *)
Fixpoint sent_velocities (b : reported real) (c : R) (lv la : list R) (requests : list (list R)) : option (list (list R)) :=
  match requests with
  | [] => Some []
  | v :: r =>
      match convert_joint_velocities real c true v
        (Reported real (p_q_d real b) lv la (p_O_T_EE_c real b) (p_O_dP_EE_c real b) (p_O_ddP_EE_c real b) (p_elbow_c real b) (p_delbow_c real b) (p_ddelbow_c real b) (p_tau_J_d real b)) with
      | Some v' => option_map (cons v') (sent_velocities b c v' (rate lv v') r)
      | None => None
      end
  end.
Lemma easy_mix : forall g v lv la v' lv' la', 0 < g <= 1 -> easy v lv la -> easy v' lv' la' ->
  easy (g * v + (1 - g) * v') (g * lv + (1 - g) * lv') (g * la + (1 - g) * la').
Proof.
  intros g v lv la v' lv' la' Hg (A1 & A2 & A3) (B1 & B2 & B3). unfold easy. split; [|split].
  - apply mix; assumption.
  - replace ((g * v + (1 - g) * v' - (g * lv + (1 - g) * lv')) / cycle) with (g * ((v - lv) / cycle) + (1 - g) * ((v' - lv') / cycle)) by (unfold cycle; field).
    apply mix; assumption.
  - replace (((g * v + (1 - g) * v' - (g * lv + (1 - g) * lv')) / cycle - (g * la + (1 - g) * la')) / cycle)
      with (g * (((v - lv) / cycle - la) / cycle) + (1 - g) * (((v' - lv') / cycle - la') / cycle)) by (unfold cycle; field).
    apply mix; assumption.
Qed.
Lemma lagging_easy : forall g s n, 0 < g <= 1 -> s 0%nat = 0 -> s 1%nat = 0 ->
  (forall k, (k <= n)%nat -> easy (s (S (S k))) (s (S k)) ((s (S k) - s k) / cycle)) ->
  easy (lagging g s (S (S n))) (lagging g s (S n)) ((lagging g s (S n) - lagging g s n) / cycle).
Proof.
  intros g s n Hg S0 S1. induction n as [|n IH]; intros C.
  - pose proof (easy_mix g _ _ _ _ _ _ Hg (C 0%nat (le_n _)) easy_rest) as M. cbn [lagging]. rewrite S0, S1 in *. set (x := s 2%nat) in *. clearbody x.
    replace (g * x + (1 - g) * (g * 0 + (1 - g) * (g * 0))) with (g * x + (1 - g) * 0) by ring.
    replace (g * 0 + (1 - g) * (g * 0)) with (g * 0 + (1 - g) * 0) by ring.
    replace ((g * 0 + (1 - g) * 0 - g * 0) / cycle) with (g * ((0 - 0) / cycle) + (1 - g) * 0) by (unfold cycle; field). exact M.
  - assert (I : easy (lagging g s (S (S n))) (lagging g s (S n)) ((lagging g s (S n) - lagging g s n) / cycle)) by (apply IH; intros; apply C; lia).
    pose proof (easy_mix g _ _ _ _ _ _ Hg (C (S n) (le_n _)) I) as M.
    assert (U : forall m, lagging g s (S m) = g * s (S m) + (1 - g) * lagging g s m) by reflexivity.
    rewrite <- !U in M.
    replace ((lagging g s (S (S n)) - lagging g s (S n)) / cycle) with (g * ((s (S (S n)) - s (S n)) / cycle) + (1 - g) * ((lagging g s (S n) - lagging g s n) / cycle)); [exact M|].
    rewrite (U (S n)), (U n). unfold cycle. field.
Qed.
Lemma four_mixed : forall g x y, map (fun p => g * fst p + (1 - g) * snd p) (combine (four x) (four y)) = four (g * x + (1 - g) * y).
Proof. intros g x y. unfold four. cbn [combine map fst snd]. replace (g * 0 + (1 - g) * 0) with 0 by ring. reflexivity. Qed.
Lemma four_sent : forall bs c s m k n, 0 < c -> s 0%nat = 0 -> s 1%nat = 0 ->
  (forall j, (j <= n)%nat -> easy (s (S (S j))) (s (S j)) ((s (S j) - s j) / cycle)) -> (k + m <= n + 1)%nat ->
  let y := lagging (gain c) s in
  sent_velocities bs c (four (y (S k))) (rate (four (y k)) (four (y (S k)))) (map (fun j => four (s (S (S j)))) (seq k m)) =
  Some (map (fun j => four (y (S (S j)))) (seq k m)).
Proof.
  intros bs c s m k n Hc S0 S1 G B y. revert k B. induction m as [|m IH]; intros k B; [reflexivity|]. cbn [seq map sent_velocities].
  unfold convert_joint_velocities. cbn [p_dq_d p_ddq_d]. rewrite filtered_real; [|exact Hc|reflexivity].
  cbn [then_]. rewrite four_mixed. change (gain c * s (S (S k)) + (1 - gain c) * y (S k)) with (y (S (S k))). unfold limited.
  change (MAX_JOINT_VELOCITY real) with MV. change (MAX_JOINT_ACCELERATION real) with MA. change (MAX_JOINT_JERK real) with MJ.
  rewrite C32_joint_velocities_partial.
  - cbn [then_]. rewrite finite_real. rewrite (IH (S k)) by lia. reflexivity.
  - unfold four. cbn [rate]. replace ((0 - 0) / cycle) with 0 by (unfold cycle; lra).
    assert (E : easy (y (S (S k))) (y (S k)) ((y (S k) - y k) / cycle)).
    { apply lagging_easy; [apply gain_range, Hc|exact S0|exact S1|]. intros j Hj. apply G. lia. }
    apply joint_respects; first [exact E|exact easy_rest].
Qed.
Lemma velocity_sent : forall bs c max (period : N) n, 0 < c -> 0 <= max <= 1 -> (10 <= period)%N ->
  let th := 2 * PI / IZR (Z.of_N period) in max / 2 * th <= 7 / 1000 -> max / 2 * th * th <= 3 / 1000 ->
  let out := map (fun ms => velocity_curve max period ms) (instants (2 * period) 0 (0%N :: repeat 1%N n)) in
  exists m, out = map (fun j => velocity_curve max period (N.of_nat j)) (seq 0 m) /\
    sent_velocities bs c (repeat 0 7) (repeat 0 7) out =
    Some (map (fun j => four (lagging (gain c) (fun k => velocity_wave max period (N.of_nat k)) j)) (seq 0 m)).
Proof.
  intros bs c max period n Hc Hm Hp th H1 H2 out. unfold out.
  destruct (instants_start (2 * period) n) as (m & E & B); [lia|]. exists m. rewrite E, map_map. split; [reflexivity|].
  pose proof (four_sent bs c (velocity_sample max (N.to_nat period)) m 0 (N.to_nat period + N.to_nat period) Hc eq_refl eq_refl) as V.
  cbv zeta in V.
  assert (L0 : lagging (gain c) (velocity_sample max (N.to_nat period)) 0 = 0) by (cbn [lagging velocity_sample]; ring).
  assert (L1 : lagging (gain c) (velocity_sample max (N.to_nat period)) 1 = 0) by (cbn [lagging velocity_sample]; ring).
  rewrite L0, L1, rate_self in V by reflexivity. change (four 0) with (repeat 0 7) in V.
  assert (V' : sent_velocities bs c (repeat 0 7) (repeat 0 7) (map (fun j => four (velocity_sample max (N.to_nat period) (S (S j)))) (seq 0 m)) =
    Some (map (fun j => four (lagging (gain c) (velocity_sample max (N.to_nat period)) (S (S j)))) (seq 0 m))).
  { apply V; [|lia]. intros j Hj. apply velocity_easy; [exact Hm|lia| | |exact Hj]; rewrite big_INR; assumption. }
  assert (L : forall j, velocity_sample max (N.to_nat period) (S (S j)) = velocity_wave max period (N.of_nat j)).
  { intros j. unfold velocity_sample. rewrite N2Nat.id. reflexivity. }
  assert (LL : forall j, lagging (gain c) (velocity_sample max (N.to_nat period)) (S (S j)) = lagging (gain c) (fun k => velocity_wave max period (N.of_nat k)) j).
  { induction j as [|j IH].
    - change (lagging (gain c) (velocity_sample max (N.to_nat period)) 2) with
        (gain c * velocity_sample max (N.to_nat period) 2 + (1 - gain c) * lagging (gain c) (velocity_sample max (N.to_nat period)) 1).
      rewrite L1, L. cbn [lagging]. ring.
    - change (lagging (gain c) (velocity_sample max (N.to_nat period)) (S (S (S j)))) with
        (gain c * velocity_sample max (N.to_nat period) (S (S (S j))) + (1 - gain c) * lagging (gain c) (velocity_sample max (N.to_nat period)) (S (S j))).
      rewrite IH, L. reflexivity. }
  transitivity (sent_velocities bs c (repeat 0 7) (repeat 0 7) (map (fun j => four (velocity_sample max (N.to_nat period) (S (S j)))) (seq 0 m))).
  { f_equal. apply map_ext. intros j. rewrite L. reflexivity. }
  rewrite V'. f_equal. apply map_ext. intros j. rewrite LL. reflexivity.
Qed.
(** For both examples the commands are the filtered curve; the rate limiter changes nothing. *)
Theorem C70_joint_velocity_commands : forall bs c (xs : list unit), 0 < c ->
  (exists m, map fst (velocity_outputs (every_ms tt xs)) = map (fun j => velocity_curve 1 1000 (N.of_nat j)) (seq 0 m) /\
    sent_velocities bs c (repeat 0 7) (repeat 0 7) (map fst (velocity_outputs (every_ms tt xs))) =
    Some (map (fun j => four (lagging (gain c) (fun k => velocity_wave 1 1000 (N.of_nat k)) j)) (seq 0 m))) /\
  (exists m, map fst (consecutive_outputs (every_ms tt xs)) = map (fun j => velocity_curve (2 / 10) 4000 (N.of_nat j)) (seq 0 m) /\
    sent_velocities bs c (repeat 0 7) (repeat 0 7) (map fst (consecutive_outputs (every_ms tt xs))) =
    Some (map (fun j => four (lagging (gain c) (fun k => velocity_wave (2 / 10) 4000 (N.of_nat k)) j)) (seq 0 m))).
Proof.
  intros bs c xs Hc. destruct (C70_joint_velocities (every_ms tt xs)) as [E1 E2]. rewrite E1, E2. unfold every_ms. cbn [map snd]. rewrite every_steps.
  rewrite !map_map. cbn [fst]. pose proof pi_bounds as P. assert (Q : PI * PI <= 3.2 * 3.2) by (apply Rmult_le_compat; lra).
  split.
  - apply (velocity_sent bs c 1 1000); [exact Hc|lra|lia| |]; change (Z.of_N 1000) with 1000%Z; [lra|].
    replace (1 / 2 * (2 * PI / 1000) * (2 * PI / 1000)) with (PI * PI / 500000) by field. lra.
  - apply (velocity_sent bs c (2 / 10) 4000); [exact Hc|lra|lia| |]; change (Z.of_N 4000) with 4000%Z; [lra|].
    replace (2 / 10 / 2 * (2 * PI / 4000) * (2 * PI / 4000)) with (PI * PI / 40000000) by field. lra.
Qed.
Print Assumptions C70_joint_velocity_commands.

(** * Elbow *)
Fixpoint sent_elbows (b : reported real) (c : R) (lp lv la : R) (requests : list (R * R)) : option (list (bool * list R)) :=
  match requests with
  | [] => Some []
  | e :: r =>
      match convert_elbow real c true (Some e)
        (Reported real (p_q_d real b) (p_dq_d real b) (p_ddq_d real b) (p_O_T_EE_c real b) (p_O_dP_EE_c real b) (p_O_ddP_EE_c real b) lp lv la (p_tau_J_d real b)) with
      | Some o => let p' := nth 0 (snd o) 0 in option_map (cons o) (sent_elbows b c p' ((p' - lp) / cycle) (((p' - lp) / cycle - lv) / cycle) r)
      | None => None
      end
  end.
Lemma elbow_sent : forall bs c w e sign m k, Rabs sign = 1 -> 0 < c -> (forall j, gentle w j) ->
  let y := lagging (gain c) (sample w) in
  sent_elbows bs c (e + y (S (S k))) ((y (S (S k)) - y (S k)) / cycle) (((y (S (S k)) - y (S k)) / cycle - (y (S k) - y k) / cycle) / cycle)
    (map (fun j => (e + sample w (S (S (S j))), sign)) (seq k m)) = Some (map (fun j => (true, [e + y (S (S (S j))); sign])) (seq k m)).
Proof.
  intros bs c w e sign m k Hs Hc G y. revert k. induction m as [|m IH]; intros k; [reflexivity|]. cbn [seq map sent_elbows].
  unfold convert_elbow. cbn [p_elbow_c p_delbow_c p_ddelbow_c]. rewrite one_filtered by exact Hc. cbn [then_].
  replace (gain c * (e + sample w (S (S (S k)))) + (1 - gain c) * (e + y (S (S k)))) with (e + y (S (S (S k)))).
  2:{ change (y (S (S (S k)))) with (gain c * sample w (S (S (S k))) + (1 - gain c) * y (S (S k))). ring. }
  rewrite position_clamped, respects_same.
  - cbn [then_]. replace (e + y (S (S k)) + (e + y (S (S (S k))) - (e + y (S (S k)))) / T * T) with (e + y (S (S (S k)))) by (unfold T; field).
    assert (V : check_elbow real (e + y (S (S (S k)))) sign = true).
    { unfold check_elbow, is_valid_elbow. rewrite real_all_finite. cbn [f_eq f_abs f_int real andb]. destruct (Req_EM_T _ _) as [_|N]; [reflexivity|contradiction]. }
    rewrite V. cbn [snd nth].
    replace ((e + y (S (S (S k))) - (e + y (S (S k)))) / cycle) with ((y (S (S (S k))) - y (S (S k))) / cycle) by (unfold cycle; field).
    rewrite (IH (S k)). reflexivity.
  - unfold MAX_ELBOW_ACCELERATION, LIMIT_EPS, f_lit. cbn [f_sub f_div f_int real]. lra.
  - replace ((e + y (S (S (S k))) - (e + y (S (S k)))) / T) with ((y (S (S (S k))) - y (S (S k))) / cycle) by (rewrite cycle_T; unfold T; field).
    assert (Ca : calm y k). { apply lagging_calm; [apply gain_range, Hc|reflexivity|reflexivity|reflexivity|intros; apply sample_calm, G]. }
    pose proof (calm_easy y k Ca) as Ea. revert Ea.
    unfold MAX_ELBOW_VELOCITY, MAX_ELBOW_ACCELERATION, MAX_ELBOW_JERK, LIMIT_EPS, TOL_NUMBER_PACKETS_LOST, f_lit.
    cbn [f_sub f_div f_int f_mul real]. rewrite delta_real. unfold T. intros Ea. apply easy_respects; [lra|lra|lra|lra|exact Ea].
Qed.
(** The elbow which is sent is the filtered curve, marked valid. *)
Theorem C70_elbow_commands : forall bs c pose elbow sign xs, Rabs sign = 1 -> 0 < c ->
  exists m, map (fun o => snd (fst o)) (elbow_outputs (every_ms (pose, (elbow, sign)) xs)) =
      map (fun j => (elbow + elbow_wave (N.of_nat j), sign)) (seq 0 m) /\
    sent_elbows bs c elbow 0 0 (map (fun o => snd (fst o)) (elbow_outputs (every_ms (pose, (elbow, sign)) xs))) =
    Some (map (fun j => (true, [elbow + lagging (gain c) (fun k => elbow_wave (N.of_nat k)) j; sign])) (seq 0 m)).
Proof.
  intros bs c pose elbow sign xs Hs Hc. unfold every_ms. rewrite C70_elbow by apply every_positive. rewrite every_steps, map_map. cbn [fst snd].
  destruct (instants_start 10000 (length xs)) as (m & E & _); [lia|]. exists m. rewrite E, map_map. split; [reflexivity|].
  pose proof (elbow_sent bs c elbow_wave elbow sign m 0 Hs Hc elbow_gentle) as R. cbv zeta in R.
  assert (L0 : lagging (gain c) (sample elbow_wave) 0 = 0) by (cbn [lagging sample]; ring).
  assert (L1 : lagging (gain c) (sample elbow_wave) 1 = 0) by (cbn [lagging sample]; ring).
  assert (L2 : lagging (gain c) (sample elbow_wave) 2 = 0) by (cbn [lagging sample]; ring).
  rewrite L0, L1, L2 in R. replace ((0 - 0) / cycle) with 0 in R by (unfold cycle; field). replace ((0 - 0) / cycle) with 0 in R by (unfold cycle; field).
  rewrite Rplus_0_r in R. cbn [sample] in R. rewrite R. f_equal. apply map_ext. intros j. rewrite lagging_sample. reflexivity.
Qed.
Print Assumptions C70_elbow_commands.

(** The default cutoff frequency; a motion that does something. *)
Example C70_ex_commands : 0 < DEFAULT_CUTOFF_FREQUENCY real /\ gain (DEFAULT_CUTOFF_FREQUENCY real) < 1 /\ joints (repeat (PI / 4) 7) /\ Rabs (-1) = 1.
Proof.
  unfold DEFAULT_CUTOFF_FREQUENCY. cbn [f_int real]. pose proof pi_bounds as P. split; [lra|]. split.
  - unfold gain. destruct (Rlt_dec 100 1000); [|lra]. assert (Q : 0 < 1 / (2 * PI * 100)) by (apply Rdiv_lt_0_compat; lra).
    set (d := 1 / (2 * PI * 100)) in *. clearbody d. apply Rmult_lt_reg_r with (1 / 1000 + d); [lra|]. unfold Rdiv at 1. rewrite Rmult_assoc, Rinv_l by lra. lra.
  - split; [reflexivity|]. rewrite Rabs_left; lra.
Qed.
