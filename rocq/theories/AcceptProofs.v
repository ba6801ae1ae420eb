(** Conversions of moderate values give finite results. *)
From Coq Require Import List ZArith NArith Bool Reals Lra Lia Arith.
From Flocq Require Import Core IEEE754.BinarySingleNaN IEEE754.Binary IEEE754.Bits.
From Verif Require Import NumOps NumFloat FloatFacts SizeFacts RateModel RateSpec ConvertModel TypedSpec ConvertFacts Properties_Rate Properties_Rate64 Properties_Filter.
Import ListNotations.
Open Scope R_scope.

Definition sized (e : Z) (l : list binary64) : Prop := Forall (size e) l.
Lemma b10 : bpow radix2 10 = 1024. Proof. reflexivity. Qed.
Lemma near_sized : forall l, near l -> sized 10 l.
Proof. intros l H. eapply Forall_impl; [|exact H]. intros x [F V]. split; [exact F|]. rewrite b10. exact V. Qed.
Lemma sized_finite : forall e l, sized e l -> finite64 l.
Proof. intros e l H. eapply Forall_impl; [|exact H]. intros x [F _]. exact F. Qed.
Lemma sized_le : forall e e' l, sized e l -> (e <= e')%Z -> sized e' l.
Proof. intros e e' l H L. eapply Forall_impl; [|exact H]. intros x S. exact (size_le _ _ _ S L). Qed.
Lemma finite_all : forall l, finite64 l -> finite float l = Some l.
Proof. intros l H. unfold finite. apply finite64_iff in H. rewrite H. reflexivity. Qed.

(** * The filter *)
Definition usable (c : binary64) : Prop := b64_fin c = true /\ bpow radix2 (-900) <= val c.
Lemma positive_sign : forall x, 0 < val x -> Bsign 53 1024 x = false.
Proof.
  intros [s|s|s pl e|[|] m e B] H; try (cbn in H; lra); [|reflexivity].
  exfalso. assert (N : F2R (Float radix2 (Z.neg m) e) < 0) by (apply F2R_lt_0; reflexivity).
  change (val (Binary.B754_finite 53 1024 true m e B)) with (F2R (Float radix2 (Z.neg m) e)) in H. lra.
Qed.
Lemma max_cutoff : b64_fin (MAX_CUTOFF_FREQUENCY float) = true /\ val (MAX_CUTOFF_FREQUENCY float) = 1000.
Proof.
  destruct (val_finite (MAX_CUTOFF_FREQUENCY float) false 8796093022208000 (-43)) as [F V]; [vm_compute; reflexivity|]. split; [exact F|].
  rewrite V. cbn [cond_Zopp]. change (bpow radix2 (-43)) with (/ 8796093022208). lra.
Qed.
Definition filtered1 (c y l : binary64) : option binary64 :=
  if f_lt float c (MAX_CUTOFF_FREQUENCY float) then low_pass_filter float (DELTA_T float) y l c else Some y.
Lemma filter_one : forall c y l, usable c -> size 10 y -> size 10 l -> exists r, filtered1 c y l = Some r /\ size 11 r.
Proof.
  intros c y l [Fc Vc] Sy Sl. unfold filtered1. destruct (f_lt float c (MAX_CUTOFF_FREQUENCY float)) eqn:L.
  - destruct max_cutoff as [Fm Vm]. cbn [f_lt float] in L. rewrite lt_fin in L by assumption. rewrite Vm in L.
    destruct (Rlt_bool_spec (val c) 1000) as [L'|L']; [|discriminate L]. pose proof (bpow_gt_0 radix2 (-900)) as P.
    destruct Sy as [Fy Vy], Sl as [Fl Vl]. rewrite b10 in Vy, Vl.
    destruct (C33_between_float_partial y l c Fy Fl Fc) as (r & E & Fr & B); [lra|apply positive_sign; lra|exact Vy|exact Vl|].
    exists r. split; [exact E|]. split; [exact Fr|]. change (bpow radix2 11) with 2048. change (bpow radix2 (-40)) with (/ 1099511627776) in B.
    apply abs_range in Vy, Vl. apply abs_range. unfold Rmin, Rmax in B. destruct (Rle_dec (val y) (val l)); lra.
  - exists y. split; [reflexivity|]. eapply size_le; [exact Sy|lia].
Qed.
Lemma filter_all : forall c y l, usable c -> sized 10 y -> sized 10 l -> length l = length y ->
  exists r, filtered float c y l = Some r /\ sized 11 r /\ length r = length y.
Proof.
  intros c y l U Sy Sl L.
  assert (G : exists r, sequence (map2 (fun a b => filtered1 c a b) y l) = Some r /\ sized 11 r /\ length r = length y).
  { revert l Sl L. induction Sy as [|a y Sa Sy IH]; intros [|b l] Sl L; try discriminate L; [exists []; repeat split; constructor|].
    inversion Sl as [|? ? Sb Sl']; subst. destruct (filter_one c a b U Sa Sb) as (r & E & Sr). destruct (IH l Sl' ltac:(injection L; auto)) as (rs & Es & Srs & Ls).
    exists (r :: rs). cbn [map2 sequence]. rewrite E, Es. split; [reflexivity|]. split; [constructor; assumption|cbn; congruence]. }
  destruct G as (r & E & Sr & Lr). exists r. split; [|split; assumption]. unfold filtered. unfold filtered1 in E.
  destruct (f_lt float c (MAX_CUTOFF_FREQUENCY float)); [exact E|]. f_equal.
  assert (K : sequence (map2 (fun a _ : binary64 => Some a) y l) = Some y).
  { clear - L. revert l L. induction y as [|a y IH]; intros [|b l] L; try discriminate L; [reflexivity|]. cbn [map2 sequence]. rewrite IH by (injection L; auto). reflexivity. }
  rewrite K in E. congruence.
Qed.

(** * The limiters *)
Lemma position_one : forall V A J w a p lp lv la, joint_limits V A J w a -> size 11 p -> size 10 lp -> b64_fin lv = true -> Rabs (val lv) <= w ->
  exists q, limit_rate_position float V A J p lp lv la = Some q /\ b64_fin q = true.
Proof.
  intros V A J w a p lp lv la L Sp Sl Fv Hv. destruct delta_size as [T1 T2].
  assert (Sd : size 22 (b64_div mode_NE (b64_minus mode_NE p lp) (DELTA_T float))).
  { apply (size_div 12 (-10)); [|apply T1|exact T2|lia]. apply (size_sub 11); [exact Sp|eapply size_le; [exact Sl|lia]|lia]. }
  destruct (velocity_step V A J w a _ lv la L (size_fin _ _ Sd) Fv Hv) as (r & E & _).
  assert (X : exists q, limit_rate_position float V A J p lp lv la = Some q).
  { unfold limit_rate_position. cbn [f_finite float]. rewrite (size_fin _ _ Sp). cbn [f_div f_sub float]. rewrite E. eexists. reflexivity. }
  destruct X as [q Q]. exists q. split; [exact Q|]. destruct Sl as [Fl Vl]. rewrite b10 in Vl.
  exact (proj1 (position_step V A J w a p lp lv la q L Fl Vl Fv Hv Q)).
Qed.
Lemma positions_some : forall vs as_ js ws as', limits64 vs as_ js ws as' -> forall ps lps lvs las,
  length ps = length vs -> length lps = length vs -> length las = length vs -> sized 11 ps -> sized 10 lps -> finite64 lvs -> bounded ws (vals lvs) ->
  exists qs, sequence (per_joint float (limit_rate_position float) vs as_ js ps lps lvs las) = Some qs /\ finite64 qs.
Proof.
  induction 1 as [|V A J w a vs as_ js ws as' L Ls IH]; intros ps lps lvs las Np Nl Na Sp Sl Fl B.
  - exists []. split; [reflexivity|constructor].
  - destruct ps as [|p ps]; [discriminate Np|]. destruct lps as [|lp lps]; [discriminate Nl|].
    destruct las as [|la las]; [discriminate Na|]. destruct lvs as [|lv lvs]; [inversion B|].
    inversion B as [|? ? ? ? B1 B2]; subst. injection Np as Np. injection Nl as Nl. injection Na as Na.
    inversion Sp as [|? ? P1 P2]; subst. inversion Sl as [|? ? S1 S2]; subst. inversion Fl as [|? ? G1 G2]; subst.
    destruct (position_one V A J w a p lp lv la L P1 S1 G1 B1) as (q & E & Fq). destruct (IH ps lps lvs las Np Nl Na P2 S2 G2 B2) as (qs & Es & Fqs).
    exists (q :: qs). cbn [per_joint sequence]. rewrite E, Es. split; [reflexivity|constructor; assumption].
Qed.
Lemma torque_one : forall m x l, size 10 m -> size 11 x -> size 10 l -> b64_fin (limit_torque float m x l) = true.
Proof.
  intros m x l Sm Sx Sl. unfold limit_torque. cbn [f_add f_mul f_sub f_div f_neg float]. destruct delta_size as [T1 T2].
  assert (Sd : size 22 (b64_div mode_NE (b64_minus mode_NE x l) (DELTA_T float))).
  { apply (size_div 12 (-10)); [|apply T1|exact T2|lia]. apply (size_sub 11); [exact Sx|eapply size_le; [exact Sl|lia]|lia]. }
  assert (Sc : size 22 (f_max float (f_min float (b64_div mode_NE (b64_minus mode_NE x l) (DELTA_T float)) m) (b64_opp m))).
  { apply max_size; [apply min_any; [right; exact Sd|]|apply size_opp]; exact (size_le _ 22 _ Sm ltac:(lia)). }
  eapply size_fin, (size_add 22); [eapply size_le; [exact Sl|lia]|eapply size_le; [eapply size_mul; [exact Sc|exact T1|lia]|lia]|lia].
Qed.
Lemma torques_some : forall ms xs ls, sized 10 ms -> sized 11 xs -> sized 10 ls -> finite64 (limit_torques float ms xs ls).
Proof.
  intros ms xs ls Sm. revert xs ls. induction Sm as [|m ms S1 Sm IH]; intros [|x xs] [|l ls] Sx Sl; try constructor.
  - inversion Sx; inversion Sl; subst. apply torque_one; assumption.
  - inversion Sx; inversion Sl; subst. apply IH; assumption.
Qed.
Ltac number_of x s m e := let F := fresh in let V := fresh in
  destruct (val_finite x s m e) as [F V]; [vm_compute; reflexivity|]; unfold size; rewrite V; cbn [cond_Zopp];
  change (bpow radix2 (-43)) with (/ 8796093022208); change (bpow radix2 (-52)) with (/ 4503599627370496);
  change (bpow radix2 (-51)) with (/ 2251799813685248); change (bpow radix2 (-49)) with (/ 562949953421312);
  change (bpow radix2 (-48)) with (/ 281474976710656); change (bpow radix2 (-40)) with (/ 1099511627776); change (bpow radix2 (-39)) with (/ 549755813888);
  change (bpow radix2 0) with 1; change (bpow radix2 1) with 2; change (bpow radix2 2) with 4; change (bpow radix2 5) with 32; change (bpow radix2 10) with 1024;
  change (bpow radix2 14) with 16384; rewrite ?Rabs_pos_eq by lra; repeat split; try exact F; lra.
Lemma torque_rates : sized 10 (MAX_TORQUE_RATE float).
Proof.
  assert (S : size 10 (f_sub float (f_int float 1000) (LIMIT_EPS float))) by (number_of (f_sub float (f_int float 1000) (LIMIT_EPS float)) false 8796084226114978%positive (-43)%Z).
  unfold MAX_TORQUE_RATE. apply Forall_forall. intros x H. apply repeat_spec in H. subst x. exact S.
Qed.
Lemma translational : size 2 (MAX_TRANSLATIONAL_VELOCITY float) /\ size 5 (MAX_TRANSLATIONAL_ACCELERATION float) /\
  bpow radix2 0 <= Rabs (val (MAX_TRANSLATIONAL_ACCELERATION float)) /\ size 14 (MAX_TRANSLATIONAL_JERK float).
Proof.
  split; [number_of (MAX_TRANSLATIONAL_VELOCITY float) false 9002637112822066%positive (-52)%Z|].
  split; [number_of (MAX_TRANSLATIONAL_ACCELERATION float) false 7317786444523635%positive (-49)%Z|].
  split; [number_of (MAX_TRANSLATIONAL_ACCELERATION float) false 7317786444523635%positive (-49)%Z|].
  number_of (MAX_TRANSLATIONAL_JERK float) false 7146824481032372%positive (-40)%Z.
Qed.
Lemma rotational : size 2 (MAX_ROTATIONAL_VELOCITY float) /\ size 5 (MAX_ROTATIONAL_ACCELERATION float) /\
  bpow radix2 0 <= Rabs (val (MAX_ROTATIONAL_ACCELERATION float)) /\ size 14 (MAX_ROTATIONAL_JERK float).
Proof.
  split; [number_of (MAX_ROTATIONAL_VELOCITY float) false 5627191441655893%positive (-51)%Z|].
  split; [number_of (MAX_ROTATIONAL_ACCELERATION float) false 7036592942789689%positive (-48)%Z|].
  split; [number_of (MAX_ROTATIONAL_ACCELERATION float) false 7036592942789689%positive (-48)%Z|].
  number_of (MAX_ROTATIONAL_JERK float) false 6871947123844186%positive (-39)%Z.
Qed.
Lemma twist_some : forall x l a, length x = 6%nat -> length l = 6%nat -> length a = 6%nat -> sized 11 x -> sized 10 l -> sized 10 a ->
  exists r, limit_rate_cartesian_velocity float (MAX_TRANSLATIONAL_VELOCITY float) (MAX_TRANSLATIONAL_ACCELERATION float) (MAX_TRANSLATIONAL_JERK float)
    (MAX_ROTATIONAL_VELOCITY float) (MAX_ROTATIONAL_ACCELERATION float) (MAX_ROTATIONAL_JERK float) x l a = Some r /\ finite64 r.
Proof.
  intros x l a Lx Ll La Sx Sl Sa. unfold limit_rate_cartesian_velocity.
  replace (all_finite float x) with true by (symmetry; apply finite64_iff, (sized_finite _ _ Sx)).
  destruct (six _ _ Lx) as (x1 & x2 & x3 & x4 & x5 & x6 & ->). destruct (six _ _ Ll) as (l1 & l2 & l3 & l4 & l5 & l6 & ->). destruct (six _ _ La) as (a1 & a2 & a3 & a4 & a5 & a6 & ->).
  unfold sized in *. repeat match goal with H : Forall (size _) (_ :: _) |- _ => let H1 := fresh in let H2 := fresh in pose proof (Forall_inv H) as H1; pose proof (Forall_inv_tail H) as H2; clear H end.
  cbn [to_vecs]. eexists. split; [reflexivity|].
  destruct translational as (V1 & A1 & N1 & J1). destruct rotational as (V2 & A2 & N2 & J2).
  match goal with |- finite64 (of_vecs float ?u ?v) => assert (U : vsize 900 u); [|assert (W : vsize 900 v); [|set (uu := u) in *; set (vv := v) in *; clearbody uu vv]] end.
  - apply twist_size; try assumption; (split; [|split]; assumption).
  - apply twist_size; try assumption; (split; [|split]; assumption).
  - destruct U as (U1 & U2 & U3), W as (W1 & W2 & W3). unfold of_vecs. repeat constructor; eapply size_fin; eassumption.
Qed.
(** * The conversions *)
Section Conversions.
  Variable c : binary64.
  Hypothesis U : usable c.
  Variable s : reported float.
  Lemma then_finite : forall o : option (list binary64), (exists r, o = Some r /\ finite64 r) -> exists r, then_ o (finite float) = Some r.
  Proof. intros o (r & -> & F). exists r. apply finite_all, F. Qed.
  Lemma accept_positions : forall b q, length q = 7%nat -> length (p_q_d _ s) = 7%nat -> length (p_ddq_d _ s) = 7%nat ->
    sized 10 q -> sized 10 (p_q_d _ s) -> finite64 (p_dq_d _ s) -> bounded robot_velocity (vals (p_dq_d _ s)) ->
    exists r, convert_joint_positions float c b q s = Some r.
  Proof.
    intros b q Lq L1 L3 Sq S1 F2 B2. unfold convert_joint_positions. destruct (filter_all c q (p_q_d float s) U Sq S1 (eq_trans L1 (eq_sym Lq))) as (y & E & Sy & Ly). rewrite E.
    cbn [then_]. apply then_finite. destruct b; cbn [limited]; [|exists y; split; [reflexivity|exact (sized_finite _ _ Sy)]].
    unfold limit_rate_joint_positions. replace (all_finite float y) with true by (symmetry; apply finite64_iff, (sized_finite _ _ Sy)).
    eapply (positions_some _ _ _ _ _ joints_limits); try assumption; change (length (MAX_JOINT_VELOCITY float)) with 7%nat; first [exact (eq_trans Ly Lq)|exact L1|exact L3].
  Qed.
  Lemma accept_velocities : forall b q, length q = 7%nat -> length (p_dq_d _ s) = 7%nat -> length (p_ddq_d _ s) = 7%nat ->
    sized 10 q -> sized 10 (p_dq_d _ s) -> bounded robot_velocity (vals (p_dq_d _ s)) ->
    exists r, convert_joint_velocities float c b q s = Some r.
  Proof.
    intros b q Lq L1 L3 Sq S1 B2. unfold convert_joint_velocities. destruct (filter_all c q (p_dq_d float s) U Sq S1 (eq_trans L1 (eq_sym Lq))) as (y & E & Sy & Ly). rewrite E.
    cbn [then_]. apply then_finite. destruct b; cbn [limited]; [|exists y; split; [reflexivity|exact (sized_finite _ _ Sy)]].
    unfold limit_rate_joint_velocities. replace (all_finite float y) with true by (symmetry; apply finite64_iff, (sized_finite _ _ Sy)).
    destruct (velocities_step _ _ _ _ _ joints_limits y (p_dq_d _ s) (p_ddq_d _ s)) as (r & R & Fr & _); try assumption;
      try (change (length (MAX_JOINT_VELOCITY float)) with 7%nat; first [exact (eq_trans Ly Lq)|exact L1|exact L3]); try exact (sized_finite _ _ Sy); try exact (sized_finite _ _ S1).
    exists r. split; assumption.
  Qed.
  Lemma accept_twist : forall b q, length q = 6%nat -> length (p_O_dP_EE_c _ s) = 6%nat -> length (p_O_ddP_EE_c _ s) = 6%nat ->
    sized 10 q -> sized 10 (p_O_dP_EE_c _ s) -> sized 10 (p_O_ddP_EE_c _ s) -> exists r, convert_twist float c b q s = Some r.
  Proof.
    intros b q Lq L1 L2 Sq S1 S2. unfold convert_twist. destruct (filter_all c q (p_O_dP_EE_c float s) U Sq S1 (eq_trans L1 (eq_sym Lq))) as (y & E & Sy & Ly). rewrite E.
    cbn [then_]. apply then_finite. destruct b; cbn [limited]; [|exists y; split; [reflexivity|exact (sized_finite _ _ Sy)]].
    apply twist_some; try assumption; exact (eq_trans Ly Lq).
  Qed.
  Lemma accept_torques : forall b q, length q = 7%nat -> length (p_tau_J_d _ s) = 7%nat -> sized 10 q -> sized 10 (p_tau_J_d _ s) ->
    exists r, convert_torques float c b q s = Some r.
  Proof.
    intros b q Lq L1 Sq S1. unfold convert_torques. destruct (filter_all c q (p_tau_J_d float s) U Sq S1 (eq_trans L1 (eq_sym Lq))) as (y & E & Sy & Ly). rewrite E.
    cbn [then_]. apply then_finite. destruct b; cbn [limited]; [|exists y; split; [reflexivity|exact (sized_finite _ _ Sy)]].
    unfold limit_rate_torques. replace (all_finite float y) with true by (symmetry; apply finite64_iff, (sized_finite _ _ Sy)).
    eexists. split; [reflexivity|]. apply torques_some; [exact torque_rates|exact Sy|exact S1].
  Qed.
  Lemma accept_elbow : forall b e, (forall e0 e1, e = Some (e0, e1) -> size 10 e0 /\ b64_fin e1 = true /\ is_valid_elbow float e1 = true) ->
    size 10 (p_elbow_c _ s) -> b64_fin (p_delbow_c _ s) = true -> Rabs (val (p_delbow_c _ s)) <= 2175/1000 ->
    exists f l, convert_elbow float c b e s = Some (f, l).
  Proof.
    intros b [[e0 e1]|] He Se Fd Bd; [|do 2 eexists; reflexivity]. destruct (He e0 e1 eq_refl) as (S0 & F1 & V1). unfold convert_elbow.
    destruct (filter_one c e0 _ U S0 Se) as (y & E & Sy). 
    match goal with |- context [then_ ?o _] => replace o with (Some y) by (symmetry; exact E) end. cbn [then_].
    assert (X : exists z, (if b then limit_rate_position float (MAX_ELBOW_VELOCITY float) (MAX_ELBOW_ACCELERATION float) (MAX_ELBOW_JERK float) y
        (p_elbow_c float s) (p_delbow_c float s) (p_ddelbow_c float s) else Some y) = Some z /\ b64_fin z = true).
    { destruct b; [|exists y; split; [reflexivity|exact (size_fin _ _ Sy)]]. exact (position_one _ _ _ _ _ _ _ _ _ elbow_limits Sy Se Fd Bd). }
    destruct X as (z & Ez & Fz).
    match goal with |- context [then_ ?o _] => replace o with (Some z) by (symmetry; exact Ez) end. cbn [then_]. unfold check_elbow, all_finite. cbn [forallb f_finite float]. rewrite Fz, F1, V1. do 2 eexists. reflexivity.
  Qed.
End Conversions.
