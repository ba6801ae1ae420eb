(** C71: the joint rate limiters alter a request as little as the limits allow (exact arithmetic). *)
From Coq Require Import List ZArith Bool Reals Lra Lia.
From Verif Require Import NumOps NumReal RateModel RateReal RateSpec Properties_Rate.
Import ListNotations.
Open Scope R_scope.

Definition distances (a b : list R) : list R := map (fun p => Rabs (fst p - snd p)) (combine a b).
Definition nowhere_farther (r w v : list R) : Prop := Forall2 Rle (distances r v) (distances w v).

(** One joint. *)
Lemma respects_acceleration : forall V A J v lv la, respects V A J v lv la <->
  let a := (v - lv) / T in la - J * T <= a <= la + J * T /\ Rmax (J / A * (- V - lv)) (- A) <= a <= Rmin (J / A * (V - lv)) A.
Proof.
  intros V A J v lv la. unfold respects. rewrite cycle_T. cbv zeta. set (a := (v - lv) / T). clearbody a. pose proof T_pos as HT.
  assert (E : Rabs ((a - la) / T) <= J <-> la - J * T <= a <= la + J * T).
  { unfold Rdiv. rewrite Rabs_mult, (Rabs_pos_eq (/ T)) by (left; apply Rinv_0_lt_compat; lra). split; intros H.
    - assert (Rabs (a - la) <= J * T).
      { apply Rmult_le_reg_r with (/ T); [apply Rinv_0_lt_compat; lra|]. rewrite (Rmult_assoc J), Rinv_r by lra. lra. }
      apply abs_range in H0. lra.
    - apply Rmult_le_reg_r with T; [lra|]. rewrite Rmult_assoc, Rinv_l, Rmult_1_r by lra. apply Rabs_le. lra. }
  rewrite E. split.
  - intros (H1 & H2 & H3). apply abs_range in H2. split; [exact H1|]. split; [apply Rmax_lub; lra|apply Rmin_glb; lra].
  - intros (H1 & H2 & H3). split; [exact H1|].
    pose proof (Rmax_l (J / A * (- V - lv)) (- A)). pose proof (Rmax_r (J / A * (- V - lv)) (- A)).
    pose proof (Rmin_l (J / A * (V - lv)) A). pose proof (Rmin_r (J / A * (V - lv)) A). split; [apply Rabs_le; lra|lra].
Qed.
Lemma two_clamps : forall p q lo hi a b, p <= b <= q -> lo <= b <= hi ->
  let r := Rmax (Rmin (Rmax (Rmin a q) p) hi) lo in p <= r <= q /\ lo <= r <= hi /\ Rabs (r - a) <= Rabs (b - a).
Proof.
  intros p q lo hi a b H1 H2. cbv zeta. unfold Rabs. minmax; repeat (destruct (Rcase_abs _)); lra.
Qed.
Lemma jerk_clamp : forall a la J, la + Rmax (Rmin ((a - la) / T) J) (- J) * T = Rmax (Rmin a (la + J * T)) (la - J * T).
Proof.
  intros a la J. pose proof T_pos as HT.
  assert (E : a = la + (a - la) / T * T) by (field; lra). set (j := (a - la) / T) in *. clearbody j. rewrite E. clear E.
  assert (M1 : forall x y, x <= y -> la + x * T <= la + y * T).
  { intros x y H. assert (x * T <= y * T) by (apply Rmult_le_compat_r; lra). lra. }
  assert (M2 : forall x y, la + x * T <= la + y * T -> x <= y).
  { intros x y H. apply Rmult_le_reg_r with T; lra. }
  replace (la - J * T) with (la + (- J) * T) by ring.
  assert (E1 : la + Rmin j J * T = Rmin (la + j * T) (la + J * T)).
  { unfold Rmin. destruct (Rle_dec j J) as [A1|A1], (Rle_dec (la + j * T) (la + J * T)) as [A2|A2]; try reflexivity; exfalso;
      [apply A2, M1, A1|apply A1, M2, A2]. }
  rewrite <- E1. set (m := Rmin j J). clearbody m.
  unfold Rmax. destruct (Rle_dec m (- J)) as [A1|A1], (Rle_dec (la + m * T) (la + - J * T)) as [A2|A2]; try reflexivity; exfalso;
    [apply A2, M1, A1|apply A1, M2, A2].
Qed.
Lemma one_nearest : forall V A J v lv la w, respects V A J w lv la ->
  let r := lv + clamped V A J v lv la * T in respects V A J r lv la /\ Rabs (r - v) <= Rabs (w - v).
Proof.
  intros V A J v lv la w H r. apply respects_acceleration in H. cbv zeta in H. pose proof T_pos as HT.
  assert (Ev : v = lv + (v - lv) / T * T) by (field; lra). assert (Ew : w = lv + (w - lv) / T * T) by (field; lra).
  unfold r, clamped. rewrite jerk_clamp. set (a := (v - lv) / T) in *. set (b := (w - lv) / T) in *. clearbody a b. subst v w. clear r.
  destruct H as [H1 H2]. pose proof (two_clamps _ _ _ _ a b H1 H2) as (R1 & R2 & R3). cbv zeta in R1, R2, R3.
  set (c := Rmax (Rmin (Rmax (Rmin a _) _) _) _) in *. clearbody c. split.
  - apply respects_acceleration. cbv zeta. replace ((lv + c * T - lv) / T) with c by (field; lra). split; assumption.
  - replace (lv + c * T - (lv + a * T)) with ((c - a) * T) by ring. replace (lv + b * T - (lv + a * T)) with ((b - a) * T) by ring.
    rewrite !Rabs_mult. apply Rmult_le_compat_r; [apply Rabs_pos|exact R3].
Qed.
Lemma one_monotone : forall V A J v v' lv la, v <= v' -> lv + clamped V A J v lv la * T <= lv + clamped V A J v' lv la * T.
Proof.
  intros V A J v v' lv la H. pose proof T_pos as HT.
  assert (C : clamped V A J v lv la <= clamped V A J v' lv la).
  { unfold clamped. rewrite !jerk_clamp. assert (D : (v - lv) / T <= (v' - lv) / T).
    { unfold Rdiv. apply Rmult_le_compat_r; [left; apply Rinv_0_lt_compat; lra|lra]. }
    set (a := (v - lv) / T) in *. set (b := (v' - lv) / T) in *. clearbody a b.
    set (hi := Rmin (J / A * (V - lv)) A). set (lo := Rmax (J / A * (- V - lv)) (- A)). clearbody hi lo. minmax; lra. }
  assert (clamped V A J v lv la * T <= clamped V A J v' lv la * T) by (apply Rmult_le_compat_r; lra). lra.
Qed.

(** All joints. *)
Lemma rel_nearest : forall vs as_ js xs lvs las rs, velocity_rel vs as_ js xs lvs las rs ->
  forall ws, all_respect vs as_ js ws lvs las -> all_respect vs as_ js rs lvs las /\ nowhere_farther rs ws xs.
Proof.
  unfold nowhere_farther. induction 1 as [|V A J v lv la vs as_ js xs lvs las rs Rl IH]; intros ws W; inversion W; subst; [split; constructor|].
  match goal with H : all_respect vs as_ js _ lvs las |- _ => destruct (IH _ H) as [I1 I2] end. match goal with H : respects _ _ _ _ _ _ |- _ => destruct (one_nearest _ _ _ v _ _ _ H) as [R1 R2] end.
  split; [constructor; assumption|]. unfold distances. cbn [combine map fst snd]. constructor; assumption.
Qed.
Lemma respect_lengths : forall vs as_ js xs lvs las, all_respect vs as_ js xs lvs las ->
  length xs = length vs /\ length lvs = length vs /\ length las = length vs.
Proof. induction 1; cbn; intuition auto. Qed.
(** If any command meets the limits, the one sent does, and for no joint is any such command nearer
    to the request. *)
Theorem C71_nearest_velocity : forall v lv la w, joints v -> all_respect MV MA MJ w lv la ->
  exists r, limit_rate_joint_velocities real MV MA MJ v lv la = Some r /\ all_respect MV MA MJ r lv la /\
    forall w', all_respect MV MA MJ w' lv la -> nowhere_farther r w' v.
Proof.
  intros v lv la w Hv W. destruct (respect_lengths _ _ _ _ _ _ W) as (_ & L2 & L3).
  destruct (velocities_rel MV MA MJ v lv la 7) as (r & E & Rl); try assumption; try reflexivity.
  exists r. split; [exact E|]. split; [apply (rel_nearest _ _ _ _ _ _ _ Rl _ W)|].
  intros w' W'. apply (rel_nearest _ _ _ _ _ _ _ Rl _ W').
Qed.
Print Assumptions C71_nearest_velocity.
(** So a request is left alone exactly if it meets the limits, provided that any command does. *)
Theorem C71_unaltered : forall v lv la w, joints v -> all_respect MV MA MJ w lv la ->
  (limit_rate_joint_velocities real MV MA MJ v lv la = Some v <-> all_respect MV MA MJ v lv la).
Proof.
  intros v lv la w Hv W. split; [|apply C32_joint_velocities_partial].
  intros E. destruct (C71_nearest_velocity v lv la w Hv W) as (r & E' & R & _). rewrite E in E'. injection E' as ->. exact R.
Qed.
Print Assumptions C71_unaltered.
(** A greater request never gives a smaller command, whatever was reported. *)
Theorem C71_monotone : forall v v' lv la, joints v -> joints lv -> joints la -> Forall2 Rle v v' ->
  exists r r', limit_rate_joint_velocities real MV MA MJ v lv la = Some r /\ limit_rate_joint_velocities real MV MA MJ v' lv la = Some r' /\
    Forall2 Rle r r'.
Proof.
  intros v v' lv la Hv Hl Ha H. assert (Hv' : joints v') by (unfold joints in *; rewrite <- Hv; clear -H; induction H; cbn; auto).
  destruct (velocities_rel MV MA MJ v lv la 7) as (r & E & Rl); try assumption; try reflexivity.
  destruct (velocities_rel MV MA MJ v' lv la 7) as (r' & E' & Rl'); try assumption; try reflexivity.
  exists r, r'. split; [exact E|]. split; [exact E'|]. clear -H Rl Rl'. revert r' v' H Rl'.
  induction Rl; intros r' v' H Rl'; inversion H; subst; inversion Rl'; subst; constructor; [apply one_monotone; assumption|eauto].
Qed.
Print Assumptions C71_monotone.

(** Position commands. *)
Lemma position_nearest : forall vs as_ js ps lps lvs las ws qs n, length vs = n -> length ps = n -> length lps = n -> length qs = n -> length ws = n ->
  velocity_rel vs as_ js (rate lps ps) lvs las (rate lps qs) -> all_respect vs as_ js (rate lps ws) lvs las ->
  all_respect vs as_ js (rate lps qs) lvs las /\ nowhere_farther qs ws ps.
Proof.
  intros vs as_ js ps lps lvs las ws qs n L1 L2 L3 L4 L5 Rl W. destruct (rel_nearest _ _ _ _ _ _ _ Rl _ W) as [R1 R2]. split; [exact R1|].
  clear -R2 L2 L3 L4 L5. unfold nowhere_farther, distances in *. revert n ps lps ws L2 L3 L4 L5 R2. induction qs as [|q qs IH]; intros n [|p ps] [|l lps] [|w ws] L2 L3 L4 L5 R2;
    cbn in *; try (subst; discriminate); [constructor|]. destruct n as [|n]; [discriminate|]. inversion R2; subst. constructor.
  - rewrite cycle_T in *. pose proof T_pos as HT.
    replace ((q - l) / T - (p - l) / T) with ((q - p) * / T) in * by (field; lra). replace ((w - l) / T - (p - l) / T) with ((w - p) * / T) in * by (field; lra).
    rewrite !Rabs_mult in *. apply Rmult_le_reg_r with (Rabs (/ T)); [apply Rabs_pos_lt, Rinv_neq_0_compat; lra|assumption].
  - apply (IH n ps lps ws); first [assumption|injection L2; injection L3; injection L4; injection L5; auto].
Qed.
Theorem C71_nearest_position : forall p lp lv la w, joints p -> joints lp -> joints w -> all_respect MV MA MJ (rate lp w) lv la ->
  exists r, limit_rate_joint_positions real MV MA MJ p lp lv la = Some r /\ all_respect MV MA MJ (rate lp r) lv la /\
    forall w', joints w' -> all_respect MV MA MJ (rate lp w') lv la -> nowhere_farther r w' p.
Proof.
  intros p lp lv la w Hp Hl Hw W. destruct (respect_lengths _ _ _ _ _ _ W) as (_ & L2 & L3).
  destruct (positions_rel MV MA MJ p lp lv la 7) as (r & E & Rl & Lr); try assumption; try reflexivity.
  exists r. split; [exact E|]. split.
  - exact (proj1 (position_nearest MV MA MJ p lp lv la w r 7 eq_refl Hp Hl Lr Hw Rl W)).
  - intros w' Hw' W'. exact (proj2 (position_nearest MV MA MJ p lp lv la w' r 7 eq_refl Hp Hl Lr Hw' Rl W')).
Qed.
Print Assumptions C71_nearest_position.

(** A motion which starts with constant velocity: there always is a command which meets the
    limits, so every command is the nearest one. *)
Fixpoint nearest_steps (lv la : list R) (requests out : list (list R)) : Prop :=
  match requests, out with
  | [], [] => True
  | v :: requests, r :: out =>
      all_respect MV MA MJ r lv la /\ (forall w, all_respect MV MA MJ w lv la -> nowhere_farther r w v) /\
      nearest_steps r (rate lv r) requests out
  | _, _ => False
  end.
Lemma rel_feasible : forall vs as_ js xs lvs las rs, velocity_rel vs as_ js xs lvs las rs ->
  forall ws as' js', all_compatible vs as_ js ws as' js' -> bounded ws lvs -> all_smooth vs as_ js lvs las -> all_respect vs as_ js rs lvs las.
Proof.
  induction 1 as [|V A J v lv la vs as_ js xs lvs las rs Rl IH]; intros ws as' js' C B S;
    inversion C as [|? ? ? w a j ? ? ? ws0 as0 js0 (Hl & HVW & HWA & _ & HA & HJ) C']; subst; [constructor|].
  inversion B as [|? ? ? ? B1 B2]; subst. inversion S as [|? ? ? ? ? ? ? ? ? ? S1 S2]; subst. constructor; [|eapply IH; eassumption].
  apply respects_acceleration. cbv zeta. pose proof T_pos as HT. replace ((lv + clamped V A J v lv la * T - lv) / T) with (clamped V A J v lv la) by (field; lra).
  split; [|apply (clamped_range w V A J); assumption].
  pose proof (clamped_jerk V A J Hl v lv la S1) as Q. apply abs_range in Q. lra.
Qed.
Theorem C71_closed_loop : forall requests lv, joints lv -> Forall joints requests -> bounded MV lv ->
  exists out, smooth_run lv (repeat 0 7) requests = Some out /\ nearest_steps lv (repeat 0 7) requests out.
Proof.
  intros requests lv Hj Hr B.
  assert (B' : bounded robot_velocity lv).
  { clear -B. pose proof constants_compatible as C. revert C B.
    generalize robot_velocity, robot_acceleration, robot_jerk, MV, MA, MJ. intros ws as' js' vs as_ js C. revert lv.
    induction C as [|? ? ? ? ? ? ? ? ? ? ? ? (_ & H & _) C IH]; intros lv B; inversion B; subst; constructor; [lra|].
    apply IH. assumption. }
  assert (S : all_smooth MV MA MJ lv (repeat 0 7)).
  { unfold joints in Hj. pose proof constants_compatible as C. clear -B C Hj.
    assert (N : forall vs as_ js ws as' js', all_compatible vs as_ js ws as' js' -> forall lv, bounded vs lv ->
      all_smooth vs as_ js lv (repeat 0 (length lv))).
    { clear. induction 1 as [|? ? ? ? ? ? ? ? ? ? ? ? (Hl & _) C IH]; intros lv B; inversion B; subst; cbn [length repeat]; constructor.
      - apply smooth_rest; assumption.
      - apply IH. assumption. }
    specialize (N _ _ _ _ _ _ C lv B). rewrite Hj in N. exact N. }
  assert (G : forall requests lv la, joints lv -> joints la -> Forall joints requests -> bounded robot_velocity lv ->
    all_smooth MV MA MJ lv la -> exists out, smooth_run lv la requests = Some out /\ nearest_steps lv la requests out).
  { clear. induction requests as [|v rq IH]; intros lv la Hj Ha Hr B S; [exists []; split; constructor|].
    inversion Hr as [|? ? Hv Hr']; subst.
    destruct (velocities_rel MV MA MJ v lv la 7) as (rs & E & Rl); try assumption; try reflexivity.
    destruct (rel_bounded _ _ _ _ _ _ _ Rl _ _ _ constants_compatible B) as [B1 _].
    destruct (rel_smooth _ _ _ _ _ _ _ Rl _ _ _ constants_compatible B S) as [J1 S1].
    pose proof (rel_feasible _ _ _ _ _ _ _ Rl _ _ _ constants_compatible B S) as F.
    assert (Lr : joints rs) by (unfold joints in *; rewrite (rel_length _ _ _ _ _ _ _ Rl); exact Hj).
    assert (La : joints (rate lv rs)).
    { unfold joints in *. revert Hj Lr. clear. generalize 7%nat as n. revert rs.
      induction lv as [|a lv IH]; intros [|b rs] n H1 H2; cbn in *; try congruence. destruct n; [discriminate|].
      f_equal. apply IH; congruence. }
    destruct (IH rs (rate lv rs) Lr La Hr' B1 S1) as (out & E1 & E2). exists (rs :: out). cbn [smooth_run nearest_steps]. rewrite E, E1.
    split; [reflexivity|]. split; [exact F|]. split; [|exact E2]. intros w W. apply (rel_nearest _ _ _ _ _ _ _ Rl _ W). }
  apply G; auto. reflexivity.
Qed.
Print Assumptions C71_closed_loop.

(** Torques: within the permitted rate of the last ones, and none such is nearer to the request. *)
Definition within_rate (l x : list R) : Prop := bounded (repeat (robot_torque_rate - 1/1000) 7) (rate l x).
Lemma torque_nearest : forall m x l w : R, 0 <= m -> Rabs ((w - l) / T) <= m ->
  Rabs ((limit_torque real m x l - l) / T) <= m /\ Rabs (limit_torque real m x l - x) <= Rabs (w - x).
Proof.
  intros m x l w Hm H. unfold limit_torque. cbn [f_add f_sub f_mul f_div f_neg f_min f_max real]. rewrite delta_real. pose proof T_pos as HT.
  change (Rabs ((l + Rmax (Rmin ((x - l) / T) m) (- m) * T - l) / T) <= m /\
    Rabs (l + Rmax (Rmin ((x - l) / T) m) (- m) * T - x) <= Rabs (w - x)).
  assert (Ex : x = l + (x - l) / T * T) by (field; lra). assert (Ew : w = l + (w - l) / T * T) by (field; lra).
  set (a := (x - l) / T) in *. set (b := (w - l) / T) in *. clearbody a b. subst x w.
  replace ((l + Rmax (Rmin a m) (- m) * T - l) / T) with (Rmax (Rmin a m) (- m)) by (field; lra).
  replace (l + Rmax (Rmin a m) (- m) * T - (l + a * T)) with ((Rmax (Rmin a m) (- m) - a) * T) by ring.
  replace (l + b * T - (l + a * T)) with ((b - a) * T) by ring. rewrite !Rabs_mult. apply abs_range in H. split.
  - apply Rabs_le. minmax; lra.
  - apply Rmult_le_compat_r; [apply Rabs_pos|]. unfold Rabs. minmax; repeat destruct (Rcase_abs _); lra.
Qed.
Theorem C71_nearest_torques : forall x l, joints x -> joints l ->
  exists r, limit_rate_torques real (MAX_TORQUE_RATE real) x l = Some r /\ within_rate l r /\
    forall w, joints w -> within_rate l w -> nowhere_farther r w x.
Proof.
  intros x l Hx Hl. unfold limit_rate_torques. rewrite real_all_finite. eexists. split; [reflexivity|].
  unfold MAX_TORQUE_RATE, LIMIT_EPS, f_lit, within_rate, nowhere_farther, distances. cbn [f_sub f_int f_div real]. unfold joints, robot_torque_rate in *.
  set (m := 1000 - 1/1000) in *. assert (Hm : 0 <= m) by (unfold m; lra). clearbody m.
  revert l Hx Hl. generalize 7%nat. induction x as [|a x IH]; intros [|n] l Hx Hl; try discriminate;
    destruct l as [|b l]; try discriminate.
  - cbn [repeat limit_torques rate]. split; [constructor|]. intros w _ _. destruct w; constructor.
  - destruct (IH n l) as [I1 I2]; [injection Hx; auto|injection Hl; auto|]. cbn [repeat limit_torques rate]. split.
    + constructor; [|exact I1]. rewrite cycle_T.
      assert (Z0 : Rabs ((b - b) / T) <= m). { replace ((b - b) / T) with 0 by (unfold Rdiv; ring). rewrite Rabs_R0. exact Hm. }
      apply (torque_nearest m a b b Hm Z0).
    + intros [|c w] Hw B; [discriminate|]. cbn [rate] in B. inversion B as [|? ? ? ? B1 B2]; subst. cbn [combine map fst snd]. constructor.
      * rewrite cycle_T in B1. apply (torque_nearest m a b c Hm B1).
      * apply I2; [injection Hw; auto|exact B2].
Qed.
Print Assumptions C71_nearest_torques.

(** Requests far outside the limits, from rest: standing still meets the limits. *)
Example C71_ex : joints (repeat 100 7) /\ all_respect MV MA MJ (repeat 0 7) (repeat 0 7) (repeat 0 7) /\
  ~ all_respect MV MA MJ (repeat 100 7) (repeat 0 7) (repeat 0 7).
Proof.
  unfold MV, MA, MJ, MAX_JOINT_VELOCITY, MAX_JOINT_ACCELERATION, MAX_JOINT_JERK, LIMIT_EPS, TOL_NUMBER_PACKETS_LOST, f_lit.
  cbn [map map2 f_sub f_div f_int f_mul real repeat]. rewrite delta_real. unfold T.
  split; [reflexivity|]. split.
  - repeat (apply respect_cons; [apply respects_acceleration; cbv zeta; unfold T; split; [lra|split; [apply Rmax_lub; lra|apply Rmin_glb; lra]]|]). apply respect_nil.
  - intros H. inversion H as [|? ? ? ? ? ? ? ? ? ? ? ? (_ & R & _) _]; subst. unfold cycle in R. apply abs_range in R. lra.
Qed.
Example C71_ex_run : joints (repeat 0 7) /\ Forall joints [repeat 100 7; repeat (-100) 7; repeat 0 7] /\ bounded MV (repeat 0 7).
Proof.
  split; [reflexivity|]. split; [repeat constructor|].
  unfold bounded, MV, MAX_JOINT_VELOCITY, MAX_JOINT_ACCELERATION, LIMIT_EPS, TOL_NUMBER_PACKETS_LOST, f_lit.
  cbn [map map2 f_sub f_div f_int f_mul real repeat]. rewrite delta_real. unfold T.
  repeat constructor; rewrite Rabs_R0; lra.
Qed.
