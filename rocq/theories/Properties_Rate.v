(** C27-C32: the rate limiters. *)
From Coq Require Import List ZArith NArith Bool Reals Lra Lia Psatz.
From Flocq Require Import Core IEEE754.BinarySingleNaN IEEE754.Binary IEEE754.Bits.
From Verif Require Import NumOps NumReal NumFloat RateModel RateReal RateCart RateSpec FloatFacts.
Import ListNotations.
Open Scope R_scope.

(** * C27, in IEEE-754 double arithmetic *)
Definition torque_rate : binary64 := f_sub float (f_int float 1000) (LIMIT_EPS float).
Lemma torque_rate_val : b64_fin torque_rate = true /\ 999 <= val torque_rate <= 9999990000001 / 10000000000.
Proof.
  destruct (val_finite torque_rate false 8796084226114978 (-43)) as [F V]; [vm_compute; reflexivity|].
  split; [exact F|]. rewrite V. cbn [cond_Zopp]. change (bpow radix2 (-43)) with (/ 8796093022208). lra.
Qed.
Lemma delta_val : b64_fin (DELTA_T float) = true /\ 9/10000 <= val (DELTA_T float) <= 10000000000001 / 10000000000000000.
Proof.
  destruct (val_finite (DELTA_T float) false 4611686018427388 (-62)) as [F V]; [vm_compute; reflexivity|].
  split; [exact F|]. rewrite V. cbn [cond_Zopp]. change (bpow radix2 (-62)) with (/ 4611686018427387904). lra.
Qed.
Lemma torque_step : forall x l, b64_fin l = true -> Rabs (val l) <= bpow radix2 32 ->
  let r := limit_torque float torque_rate x l in
  b64_fin r = true /\ Rabs (val r - val l) <= robot_torque_rate * cycle.
Proof.
  intros x l Fl Hl r. destruct torque_rate_val as [Fm Vm]. destruct delta_val as [Fd Vd].
  unfold r, limit_torque. cbn [f_add f_sub f_mul f_div f_neg float].
  set (d := b64_div mode_NE _ _). clearbody d.
  destruct (clamp_any d (b64_opp torque_rate) torque_rate) as [Fc Vc].
  { rewrite opp_fin. exact Fm. } { exact Fm. } { rewrite opp_val. lra. }
  rewrite opp_val in Vc. set (c := f_max float _ _) in *. clearbody c.
  assert (B : Rabs (val c * val (DELTA_T float)) <= 9999991 / 10000000).
  { apply Rabs_le. set (m := val torque_rate) in *. set (t := val (DELTA_T float)) in *. set (k := val c) in *.
    clearbody m t k. assert (m * t <= 9999991 / 10000000) by nra. split; nra. }
  destruct (mult_ok c (DELTA_T float) 0 Fc Fd) as [Fp Vp]; [lia|change (bpow radix2 0) with 1; lra|].
  assert (Ep : Rabs (rnd (val c * val (DELTA_T float)) - val c * val (DELTA_T float)) <= / 18014398509481984).
  { apply (rnd_error _ 0); [lia|]. change (bpow radix2 0) with 1. lra. }
  rewrite <- Vp in Ep. set (p := b64_mult mode_NE c (DELTA_T float)) in *. clearbody p.
  assert (Bp : Rabs (val p) <= 9999992 / 10000000).
  { pose proof (Rabs_triang_inv (val p) (val c * val (DELTA_T float))). lra. }
  change (bpow radix2 32) with 4294967296 in Hl.
  destruct (plus_ok l p 33 Fl Fp) as [Fr Vr]; [lia| |].
  { change (bpow radix2 33) with 8589934592. pose proof (Rabs_triang (val l) (val p)). lra. }
  split; [exact Fr|]. rewrite Vr.
  assert (Er : Rabs (rnd (val l + val p) - (val l + val p)) <= / 2097152).
  { apply (rnd_error _ 33); [lia|]. change (bpow radix2 33) with 8589934592. pose proof (Rabs_triang (val l) (val p)). lra. }
  pose proof (Rabs_triang (rnd (val l + val p) - (val l + val p)) (val p)).
  replace (rnd (val l + val p) - (val l + val p) + val p) with (rnd (val l + val p) - val l) in H by ring.
  unfold robot_torque_rate, cycle. lra.
Qed.

(** Whatever finite torques are requested (the quotient may overflow): the limiter returns finite
    torques, each at most 1 Nm away from the last one. *)
Theorem C27_torque_rate : forall xs ls : list binary64,
  length xs = 7%nat -> length ls = 7%nat ->
  Forall (fun x => b64_fin x = true) xs ->
  Forall (fun l => b64_fin l = true /\ Rabs (val l) <= bpow radix2 32) ls ->
  exists rs, limit_rate_torques float (MAX_TORQUE_RATE float) xs ls = Some rs /\
    Forall2 (fun l r => b64_fin r = true /\ Rabs (val r - val l) <= robot_torque_rate * cycle) ls rs.
Proof.
  intros xs ls Lx Ll Fx Fl. exists (limit_torques float (MAX_TORQUE_RATE float) xs ls). split.
  - unfold limit_rate_torques. assert (A : all_finite float xs = true).
    { apply forallb_forall. rewrite Forall_forall in Fx. exact Fx. }
    rewrite A. reflexivity.
  - unfold MAX_TORQUE_RATE. change (f_sub float (f_int float 1000) (LIMIT_EPS float)) with torque_rate.
    rewrite <- Lx. rewrite <- Lx in Ll. clear Lx Fx. revert ls Ll Fl.
    induction xs as [|x xs IH]; intros [|l ls] Ll Fl; try discriminate Ll; cbn [repeat length limit_torques]; constructor.
    + inversion Fl as [|? ? [F1 F2] F3]; subst. apply torque_step; assumption.
    + inversion Fl; subst. apply IH; [injection Ll; auto|assumption].
Qed.
Print Assumptions C27_torque_rate.
(** Requests of the largest finite number, of minus that number and of 5 Nm; the last torque is 5
    Nm each time: 6 Nm (below by one millionth), 4 Nm and 5 Nm. *)
Example C27_ex :
  let big := of_bits 0x7FEFFFFFFFFFFFFF in let five := f_int float 5 in
  option_map (map bits) (limit_rate_torques float (MAX_TORQUE_RATE float)
     [big; b64_opp big; five; five; five; five; five] (repeat five 7)) =
  Some (map bits [of_bits 0x4017ffffbce4217d; of_bits 0x40100000431bde83; five; five; five; five; five]).
Proof. vm_compute. reflexivity. Qed.

(** * C28-C30, C32 in exact arithmetic: joints *)
Definition MV : list R := MAX_JOINT_VELOCITY real.
Definition MA : list R := MAX_JOINT_ACCELERATION real.
Definition MJ : list R := MAX_JOINT_JERK real.
(** The constants of the source against the limits of the robot. *)
Definition compatible (W V A J w a j : R) : Prop :=
  limits V A J /\ V <= W /\ J * (W - V) <= A * A /\ W = w /\ A <= a /\ J <= j.
Inductive all_compatible : list R -> list R -> list R -> list R -> list R -> list R -> Prop :=
| compatible_nil : all_compatible [] [] [] [] [] []
| compatible_cons : forall V A J w a j vs as_ js ws as' js',
    compatible w V A J w a j -> all_compatible vs as_ js ws as' js' ->
    all_compatible (V :: vs) (A :: as_) (J :: js) (w :: ws) (a :: as') (j :: js').
Lemma constants_compatible : all_compatible MV MA MJ robot_velocity robot_acceleration robot_jerk.
Proof.
  unfold MV, MA, MJ, MAX_JOINT_VELOCITY, MAX_JOINT_ACCELERATION, MAX_JOINT_JERK, LIMIT_EPS, TOL_NUMBER_PACKETS_LOST, f_lit.
  cbn [map map2 f_sub f_div f_int f_mul real]. rewrite delta_real. unfold T, robot_velocity, robot_acceleration, robot_jerk.
  repeat (apply compatible_cons; [unfold compatible, limits, T; repeat split; lra|]). apply compatible_nil.
Qed.

(** The velocity limiter on vectors: a relation between requests and result. *)
Inductive velocity_rel : list R -> list R -> list R -> list R -> list R -> list R -> list R -> Prop :=
| velocity_nil : velocity_rel [] [] [] [] [] [] []
| velocity_cons : forall V A J v lv la vs as_ js xs lvs las rs,
    velocity_rel vs as_ js xs lvs las rs ->
    velocity_rel (V :: vs) (A :: as_) (J :: js) (v :: xs) (lv :: lvs) (la :: las)
                 (lv + clamped V A J v lv la * T :: rs).
Lemma velocities_rel : forall vs as_ js xs lvs las n,
  length vs = n -> length as_ = n -> length js = n -> length xs = n -> length lvs = n -> length las = n ->
  exists rs, limit_rate_joint_velocities real vs as_ js xs lvs las = Some rs /\ velocity_rel vs as_ js xs lvs las rs.
Proof.
  intros vs as_ js xs lvs las n H1 H2 H3 H4 H5 H6. unfold limit_rate_joint_velocities. rewrite real_all_finite.
  revert vs as_ js xs lvs las H1 H2 H3 H4 H5 H6. induction n as [|n IH]; intros vs as_ js xs lvs las H1 H2 H3 H4 H5 H6;
    destruct vs as [|V vs], as_ as [|A as_], js as [|J js], xs as [|v xs], lvs as [|lv lvs], las as [|la las]; try discriminate.
  - exists []. split; [reflexivity|constructor].
  - destruct (IH vs as_ js xs lvs las) as (rs & E & Rl); try (injection H1; injection H2; injection H3; injection H4; injection H5; injection H6; auto; fail).
    exists (lv + clamped V A J v lv la * T :: rs). split; [|constructor; exact Rl].
    cbn [per_joint]. rewrite velocity_clamped. cbn [sequence]. rewrite E. reflexivity.
Qed.
Lemma cycle_T : cycle = T. Proof. reflexivity. Qed.
Lemma rel_bounded : forall vs as_ js xs lvs las rs, velocity_rel vs as_ js xs lvs las rs ->
  forall ws as' js', all_compatible vs as_ js ws as' js' -> bounded ws lvs ->
  bounded ws rs /\ bounded as' (rate lvs rs).
Proof.
  induction 1 as [|V A J v lv la vs as_ js xs lvs las rs Rl IH]; intros ws as' js' C B;
    inversion C as [|? ? ? w a j ? ? ? ws0 as0 js0 (Hl & HVW & HWA & _ & HA & _) C']; subst; [split; constructor|].
  inversion B as [|? ? ? ? B1 B2]; subst. destruct (IH _ _ _ C' B2) as [I1 I2]. split; constructor; auto.
  - apply (clamped_velocity w V A J); assumption.
  - rewrite cycle_T. replace ((lv + clamped V A J v lv la * T - lv) / T) with (clamped V A J v lv la)
      by (field; pose proof T_pos; lra).
    eapply Rle_trans; [apply (clamped_acceleration w V A J); assumption|exact HA].
Qed.

(** The commands of a joint velocity motion.  Each element of the input is the request of the
    callback and the acceleration reported by the robot; the last commanded velocity is the
    previous command. *)
Fixpoint velocity_run (lv : list R) (inputs : list (list R * list R)) : option (list (list R)) :=
  match inputs with
  | [] => Some []
  | (v, la) :: r =>
      match limit_rate_joint_velocities real MV MA MJ v lv la with
      | Some v' => option_map (cons v') (velocity_run v' r)
      | None => None
      end
  end.
Lemma rel_length : forall vs as_ js xs lvs las rs, velocity_rel vs as_ js xs lvs las rs -> length rs = length lvs.
Proof. induction 1; cbn; auto. Qed.
Theorem C28_joint_velocity : forall inputs lv,
  joints lv -> Forall (fun i => joints (fst i) /\ joints (snd i)) inputs -> bounded robot_velocity lv ->
  exists out, velocity_run lv inputs = Some out /\ length out = length inputs /\
    Forall (bounded robot_velocity) out /\
    steps (fun x y => bounded robot_acceleration (rate x y)) lv out.
Proof.
  induction inputs as [|[v la] inputs IH]; intros lv Hj Hi B; [exists []; repeat split; constructor|].
  inversion Hi as [|? ? [Hv Ha] Hi']; subst. cbn [fst snd] in *.
  destruct (velocities_rel MV MA MJ v lv la 7) as (rs & E & Rl); try assumption; try reflexivity.
  destruct (rel_bounded _ _ _ _ _ _ _ Rl _ _ _ constants_compatible B) as [B1 B2].
  destruct (IH rs) as (out & E1 & E2 & E3 & E4); [unfold joints in *; rewrite (rel_length _ _ _ _ _ _ _ Rl); exact Hj|exact Hi'|exact B1|].
  exists (rs :: out). cbn [velocity_run]. rewrite E, E1. repeat split; [cbn; auto|constructor; assumption|exact B2|exact E4].
Qed.
Print Assumptions C28_joint_velocity.
Definition jerky : list (list R * list R) := [(repeat 100 7, repeat 0 7); (repeat (-100) 7, repeat 3 7)].
Example C28_ex : joints (repeat 1 7) /\ Forall (fun i => joints (fst i) /\ joints (snd i)) jerky /\
  bounded robot_velocity (repeat 1 7).
Proof.
  split; [reflexivity|]. split; [repeat constructor|].
  unfold bounded, robot_velocity. repeat constructor; rewrite Rabs_R1; lra.
Qed.

(** * C29 *)
(** The acceleration reported is the one of the previous command: the closed loop. *)
Fixpoint smooth_run (lv la : list R) (requests : list (list R)) : option (list (list R)) :=
  match requests with
  | [] => Some []
  | v :: r =>
      match limit_rate_joint_velocities real MV MA MJ v lv la with
      | Some v' => option_map (cons v') (smooth_run v' (rate lv v') r)
      | None => None
      end
  end.
(** Consecutive triples. *)
Fixpoint jerks_bounded (lv la : list R) (out : list (list R)) : Prop :=
  match out with
  | [] => True
  | v :: out => bounded robot_jerk (rate la (rate lv v)) /\ jerks_bounded v (rate lv v) out
  end.
Inductive all_smooth : list R -> list R -> list R -> list R -> list R -> Prop :=
| smooth_nil : all_smooth [] [] [] [] []
| smooth_cons : forall V A J lv la vs as_ js lvs las,
    smooth V A J lv la -> all_smooth vs as_ js lvs las -> all_smooth (V :: vs) (A :: as_) (J :: js) (lv :: lvs) (la :: las).
Lemma rel_smooth : forall vs as_ js xs lvs las rs, velocity_rel vs as_ js xs lvs las rs ->
  forall ws as' js', all_compatible vs as_ js ws as' js' -> bounded ws lvs -> all_smooth vs as_ js lvs las ->
  bounded js' (rate las (rate lvs rs)) /\ all_smooth vs as_ js rs (rate lvs rs).
Proof.
  induction 1 as [|V A J v lv la vs as_ js xs lvs las rs Rl IH]; intros ws as' js' C B S;
    inversion C as [|? ? ? w a j ? ? ? ws0 as0 js0 (Hl & HVW & HWA & _ & HA & HJ) C']; subst; [split; constructor|].
  inversion B as [|? ? ? ? B1 B2]; subst. inversion S as [|? ? ? ? ? ? ? ? ? ? S1 S2]; subst.
  destruct (IH _ _ _ C' B2 S2) as [I1 I2]. pose proof T_pos as HT. cbn [rate]. rewrite cycle_T.
  assert (E : (lv + clamped V A J v lv la * T - lv) / T = clamped V A J v lv la) by (field; lra). rewrite E.
  split; constructor; auto.
  - pose proof (clamped_jerk V A J Hl v lv la S1) as Q. unfold Rdiv. rewrite Rabs_mult.
    rewrite (Rabs_pos_eq (/ T)) by (left; apply Rinv_0_lt_compat; lra).
    apply Rmult_le_reg_r with T; [exact HT|]. rewrite Rmult_assoc, Rinv_l by lra.
    rewrite Rmult_1_r. eapply Rle_trans; [exact Q|]. apply Rmult_le_compat_r; lra.
  - apply (clamped_smooth w V A J); assumption.
Qed.
(** Moving with constant velocity within the limits (in particular at rest) the robot gets a
    sequence of velocities whose jerk stays within the limits. *)
Theorem C29_jerk_partial : forall requests lv,
  joints lv -> Forall joints requests -> bounded MV lv ->
  exists out, smooth_run lv (repeat 0 7) requests = Some out /\ length out = length requests /\
    jerks_bounded lv (repeat 0 7) out.
Proof.
  intros requests lv Hj Hr B.
  assert (B' : bounded robot_velocity lv).
  { clear -B. pose proof constants_compatible as C. revert C B.
    generalize robot_velocity, robot_acceleration, robot_jerk, MV, MA, MJ. intros ws as' js' vs as_ js C. revert lv.
    induction C as [|? ? ? ? ? ? ? ? ? ? ? ? (_ & H & _) C IH]; intros lv B; inversion B; subst; constructor; [lra|].
    apply IH. assumption. }
  assert (S : all_smooth MV MA MJ lv (repeat 0 7)).
  { unfold joints in Hj. pose proof constants_compatible as C. clear -B C Hj.
    assert (N : forall vs as_ js ws as' js', all_compatible vs as_ js ws as' js' -> forall lv, bounded vs lv ->
      all_smooth vs as_ js lv (repeat 0 (length lv))).
    { induction 1 as [|? ? ? ? ? ? ? ? ? ? ? ? (Hl & _) C' IH]; intros l B'; inversion B'; subst; cbn; constructor; [|auto].
      apply smooth_rest; assumption. }
    specialize (N _ _ _ _ _ _ C lv B). rewrite Hj in N. exact N. }
  assert (G : forall requests lv la, joints lv -> joints la -> Forall joints requests -> bounded robot_velocity lv ->
    all_smooth MV MA MJ lv la ->
    exists out, smooth_run lv la requests = Some out /\ length out = length requests /\ jerks_bounded lv la out).
  { clear. induction requests as [|v rq IH]; intros lv la Hj Ha Hr B S; [exists []; repeat split; constructor|].
    inversion Hr as [|? ? Hv Hr']; subst.
    destruct (velocities_rel MV MA MJ v lv la 7) as (rs & E & Rl); try assumption; try reflexivity.
    destruct (rel_bounded _ _ _ _ _ _ _ Rl _ _ _ constants_compatible B) as [B1 _].
    destruct (rel_smooth _ _ _ _ _ _ _ Rl _ _ _ constants_compatible B S) as [J1 S1].
    assert (Lr : joints rs) by (unfold joints in *; rewrite (rel_length _ _ _ _ _ _ _ Rl); exact Hj).
    assert (La : joints (rate lv rs)).
    { unfold joints in *. revert Hj Lr. clear. generalize 7%nat as n. revert rs.
      induction lv as [|a lv IH]; intros [|b rs] n H1 H2; cbn in *; try congruence. destruct n; [discriminate|].
      f_equal. apply IH; congruence. }
    destruct (IH rs (rate lv rs) Lr La Hr' B1 S1) as (out & E1 & E2 & E3).
    exists (rs :: out). cbn [smooth_run]. rewrite E, E1. repeat split; [cbn; auto|exact J1|exact E3]. }
  apply G; auto. reflexivity.
Qed.
Print Assumptions C29_jerk_partial.
Example C29_ex : joints (repeat 0 7) /\ Forall joints [repeat 100 7; repeat (-100) 7] /\ bounded MV (repeat 0 7).
Proof.
  split; [reflexivity|]. split; [repeat constructor|].
  unfold bounded, MV, MAX_JOINT_VELOCITY, MAX_JOINT_ACCELERATION, LIMIT_EPS, TOL_NUMBER_PACKETS_LOST, f_lit.
  cbn [map map2 f_sub f_div f_int f_mul real repeat]. rewrite delta_real. unfold T.
  repeat constructor; rewrite Rabs_R0; lra.
Qed.
(** From the velocity limit and with the greatest acceleration reported, both in range, the
    first command breaks the jerk limit whatever is requested. *)
Theorem C29_jerk_refuted :
  exists lv la, joints lv /\ joints la /\ bounded robot_velocity lv /\ bounded robot_acceleration la /\
    forall v, joints v -> exists out, smooth_run lv la [v] = Some [out] /\
      ~ bounded robot_jerk (rate la (rate lv out)).
Proof.
  exists MV, robot_acceleration. split; [reflexivity|]. split; [reflexivity|].
  split.
  { unfold bounded, MV, MAX_JOINT_VELOCITY, MAX_JOINT_ACCELERATION, LIMIT_EPS, TOL_NUMBER_PACKETS_LOST, f_lit, robot_velocity.
    cbn [map map2 f_sub f_div f_int f_mul real]. rewrite delta_real. unfold T.
    repeat (apply Forall2_cons; [apply Rabs_le; lra|]). apply Forall2_nil. }
  split.
  { unfold bounded, robot_acceleration. repeat (apply Forall2_cons; [apply Rabs_le; lra|]). apply Forall2_nil. }
  intros v Hv. destruct (velocities_rel MV MA MJ v MV robot_acceleration 7) as (rs & E & Rl); try assumption; try reflexivity.
  exists rs. cbn [smooth_run]. rewrite E. split; [reflexivity|].
  destruct v as [|v0 v]; [discriminate|]. unfold MV, MA, MJ, MAX_JOINT_VELOCITY, MAX_JOINT_ACCELERATION, MAX_JOINT_JERK in *.
  cbn [map map2] in Rl. inversion Rl; subst. unfold robot_acceleration, robot_jerk. cbn [rate]. intro B.
  inversion B as [|? ? ? ? B1 _]; subst. clear -B1. rewrite cycle_T in B1.
  match type of B1 with Rabs ((((?V + clamped ?V ?A ?J v0 ?V ?la * T - ?V) / T) - _) / T) <= _ =>
    set (c := clamped V A J v0 V la) in *;
    assert (Hc : c <= 0) end.
  { unfold c, clamped. apply Rmax_lub.
    - eapply Rle_trans; [apply Rmin_r|]. eapply Rle_trans; [apply Rmin_l|]. match goal with |- context [Rminus ?x ?x] => replace (Rminus x x) with 0 by ring end. lra.
    - apply Rmax_lub.
      + unfold LIMIT_EPS, TOL_NUMBER_PACKETS_LOST, f_lit. cbn [f_sub f_div f_int f_mul real]. change (DELTA_T real) with (1/1000).
        match goal with |- ?k * ?x <= 0 => assert (0 <= k) by (left; apply Rdiv_lt_0_compat; lra); assert (x <= 0) by lra end. nra.
      + unfold LIMIT_EPS, f_lit. cbn [f_sub f_div f_int real]. lra. }
  clearbody c.
  match type of B1 with context [(?V + c * T - ?V) / T] =>
    replace ((V + c * T - V) / T) with c in B1 by (field; pose proof T_pos; lra) end.
  rewrite Rabs_left in B1; unfold T in *; lra.
Qed.
Print Assumptions C29_jerk_refuted.

(** * C30 *)
Lemma position_clamped : forall V A J p lp lv la,
  limit_rate_position real V A J p lp lv la = Some (lp + (lv + clamped V A J ((p - lp) / T) lv la * T) * T).
Proof. reflexivity. Qed.
(** The positions commanded are those reached with the velocities of the velocity limiter. *)
Lemma positions_rel : forall vs as_ js xs lps lvs las n,
  length vs = n -> length as_ = n -> length js = n -> length xs = n -> length lps = n -> length lvs = n -> length las = n ->
  exists ps, limit_rate_joint_positions real vs as_ js xs lps lvs las = Some ps /\
    velocity_rel vs as_ js (rate lps xs) lvs las (rate lps ps) /\ length ps = n.
Proof.
  intros vs as_ js xs lps lvs las n H1 H2 H3 H4 H5 H6 H7. unfold limit_rate_joint_positions. rewrite real_all_finite.
  revert vs as_ js xs lps lvs las H1 H2 H3 H4 H5 H6 H7.
  induction n as [|n IH]; intros vs as_ js xs lps lvs las H1 H2 H3 H4 H5 H6 H7;
    destruct vs as [|V vs], as_ as [|A as_], js as [|J js], xs as [|p xs], lps as [|lp lps], lvs as [|lv lvs], las as [|la las]; try discriminate.
  - exists []. repeat split. constructor.
  - destruct (IH vs as_ js xs lps lvs las) as (ps & E & Rl & Le);
      try (injection H1; injection H2; injection H3; injection H4; injection H5; injection H6; injection H7; auto; fail).
    set (v := lv + clamped V A J ((p - lp) / T) lv la * T).
    exists (lp + v * T :: ps). split; [|split; [|cbn; auto]].
    + cbn [per_joint]. rewrite position_clamped. fold v. cbn [sequence]. rewrite E. reflexivity.
    + cbn [rate]. rewrite cycle_T. replace ((lp + v * T - lp) / T) with v by (field; pose proof T_pos; lra).
      constructor. exact Rl.
Qed.
(** The commands of a joint position motion: the robot reports the last command and its rate. *)
Fixpoint position_run (lp lv : list R) (inputs : list (list R * list R)) : option (list (list R)) :=
  match inputs with
  | [] => Some []
  | (p, la) :: r =>
      match limit_rate_joint_positions real MV MA MJ p lp lv la with
      | Some p' => option_map (cons p') (position_run p' (rate lp p') r)
      | None => None
      end
  end.
(** Velocity and acceleration of a sequence of positions. *)
Fixpoint motion_bounded (lp lv : list R) (out : list (list R)) : Prop :=
  match out with
  | [] => True
  | p :: out => bounded robot_velocity (rate lp p) /\ bounded robot_acceleration (rate lv (rate lp p)) /\
      motion_bounded p (rate lp p) out
  end.
Lemma rate_length : forall x y n, length x = n -> length y = n -> length (rate x y) = n.
Proof.
  induction x as [|a x IH]; intros [|b y] n H1 H2; cbn in *; try congruence. destruct n; [discriminate|].
  f_equal. apply IH; congruence.
Qed.
Theorem C30_joint_position : forall inputs lp lv,
  joints lp -> joints lv -> Forall (fun i => joints (fst i) /\ joints (snd i)) inputs -> bounded robot_velocity lv ->
  exists out, position_run lp lv inputs = Some out /\ length out = length inputs /\ motion_bounded lp lv out.
Proof.
  induction inputs as [|[p la] inputs IH]; intros lp lv Hp Hv Hi B; [exists []; repeat split; constructor|].
  inversion Hi as [|? ? [H1 H2] Hi']; subst. cbn [fst snd] in *.
  destruct (positions_rel MV MA MJ p lp lv la 7) as (ps & E & Rl & Le); try assumption; try reflexivity.
  destruct (rel_bounded _ _ _ _ _ _ _ Rl _ _ _ constants_compatible B) as [B1 B2].
  destruct (IH ps (rate lp ps)) as (out & E1 & E2 & E3); [exact Le|apply rate_length; assumption|exact Hi'|exact B1|].
  exists (ps :: out). cbn [position_run]. rewrite E, E1. repeat split; [cbn; auto|exact B1|exact B2|exact E3].
Qed.
Print Assumptions C30_joint_position.
(** from rest the jerk is within the limit too *)
Fixpoint position_smooth_run (lp lv la : list R) (requests : list (list R)) : option (list (list R)) :=
  match requests with
  | [] => Some []
  | p :: r =>
      match limit_rate_joint_positions real MV MA MJ p lp lv la with
      | Some p' => option_map (cons p') (position_smooth_run p' (rate lp p') (rate lv (rate lp p')) r)
      | None => None
      end
  end.
Fixpoint position_jerks_bounded (lp lv la : list R) (out : list (list R)) : Prop :=
  match out with
  | [] => True
  | p :: out => bounded robot_jerk (rate la (rate lv (rate lp p))) /\
      position_jerks_bounded p (rate lp p) (rate lv (rate lp p)) out
  end.
Lemma smooth_zero : all_smooth MV MA MJ (repeat 0 7) (repeat 0 7).
Proof.
  assert (N : forall vs as_ js ws as' js', all_compatible vs as_ js ws as' js' ->
    all_smooth vs as_ js (repeat 0 (length vs)) (repeat 0 (length vs))).
  { induction 1 as [|? ? ? ? ? ? ? ? ? ? ? ? (Hl & _) C' IH]; cbn; constructor; auto.
    apply smooth_rest; [exact Hl|]. rewrite Rabs_R0. destruct Hl. lra. }
  exact (N _ _ _ _ _ _ constants_compatible).
Qed.
Lemma zero_bounded : bounded robot_velocity (repeat 0 7).
Proof. unfold bounded, robot_velocity. repeat constructor; rewrite Rabs_R0; lra. Qed.
Theorem C29_position_jerk : forall requests lp, joints lp -> Forall joints requests ->
  exists out, position_smooth_run lp (repeat 0 7) (repeat 0 7) requests = Some out /\ length out = length requests /\
    position_jerks_bounded lp (repeat 0 7) (repeat 0 7) out.
Proof.
  assert (G : forall requests lp lv la, joints lp -> joints lv -> joints la -> Forall joints requests ->
    bounded robot_velocity lv -> all_smooth MV MA MJ lv la ->
    exists out, position_smooth_run lp lv la requests = Some out /\ length out = length requests /\
      position_jerks_bounded lp lv la out).
  { induction requests as [|p rq IH]; intros lp lv la Hp Hv Ha Hr B S; [exists []; repeat split; constructor|].
    inversion Hr as [|? ? H1 Hr']; subst.
    destruct (positions_rel MV MA MJ p lp lv la 7) as (ps & E & Rl & Le); try assumption; try reflexivity.
    destruct (rel_bounded _ _ _ _ _ _ _ Rl _ _ _ constants_compatible B) as [B1 _].
    destruct (rel_smooth _ _ _ _ _ _ _ Rl _ _ _ constants_compatible B S) as [J1 S1].
    destruct (IH ps (rate lp ps) (rate lv (rate lp ps))) as (out & E1 & E2 & E3); auto;
      [apply rate_length; assumption|apply rate_length; [assumption|apply rate_length; assumption]|].
    exists (ps :: out). cbn [position_smooth_run]. rewrite E, E1. repeat split; [cbn; auto|exact J1|exact E3]. }
  intros. apply G; auto; try reflexivity; [exact zero_bounded|exact smooth_zero].
Qed.
Print Assumptions C29_position_jerk.
Example C30_ex : joints (repeat 5 7) /\ joints (repeat 0 7) /\
  Forall (fun i => joints (fst i) /\ joints (snd i)) jerky /\ bounded robot_velocity (repeat 0 7).
Proof. repeat split; [repeat constructor|exact zero_bounded]. Qed.

(** * C31 *)
Definition twist_limit (x lx la : list R) : option (list R) :=
  limit_rate_cartesian_velocity real
    (MAX_TRANSLATIONAL_VELOCITY real) (MAX_TRANSLATIONAL_ACCELERATION real) (MAX_TRANSLATIONAL_JERK real)
    (MAX_ROTATIONAL_VELOCITY real) (MAX_ROTATIONAL_ACCELERATION real) (MAX_ROTATIONAL_JERK real) x lx la.
Fixpoint twist_run (lx : list R) (inputs : list (list R * list R)) : option (list (list R)) :=
  match inputs with
  | [] => Some []
  | (x, la) :: r =>
      match twist_limit x lx la with
      | Some x' => option_map (cons x') (twist_run x' r)
      | None => None
      end
  end.
Definition twist (x : list R) : Prop := length x = 6%nat.
Lemma six : forall A (l : list A), length l = 6%nat -> exists a b c d e f, l = [a; b; c; d; e; f].
Proof.
  intros A l H. do 6 (destruct l as [|? l]; [discriminate|]). destruct l; [|discriminate]. repeat eexists.
Qed.
Lemma translation_limits : limits (MAX_TRANSLATIONAL_VELOCITY real) (MAX_TRANSLATIONAL_ACCELERATION real) (MAX_TRANSLATIONAL_JERK real).
Proof.
  unfold limits, MAX_TRANSLATIONAL_VELOCITY, MAX_TRANSLATIONAL_ACCELERATION, MAX_TRANSLATIONAL_JERK, LIMIT_EPS, TOL_NUMBER_PACKETS_LOST, f_lit.
  cbn [f_sub f_div f_int f_mul real]. rewrite delta_real. unfold T. repeat split; lra.
Qed.
Lemma rotation_limits : limits (MAX_ROTATIONAL_VELOCITY real) (MAX_ROTATIONAL_ACCELERATION real) (MAX_ROTATIONAL_JERK real).
Proof.
  unfold limits, MAX_ROTATIONAL_VELOCITY, MAX_ROTATIONAL_ACCELERATION, MAX_ROTATIONAL_JERK, LIMIT_EPS, TOL_NUMBER_PACKETS_LOST, f_lit.
  cbn [f_sub f_div f_int f_mul real]. rewrite delta_real. unfold T. repeat split; lra.
Qed.
Definition twist_in_range (x : list R) : Prop :=
  first3 x <= MAX_TRANSLATIONAL_VELOCITY real /\ last3 x <= MAX_ROTATIONAL_VELOCITY real.
Definition twist_rate_ok (x y : list R) : Prop :=
  first3 (rate x y) <= robot_translation_acceleration /\ last3 (rate x y) <= robot_rotation_acceleration.
Lemma rate_len : forall a b c d e f A, 0 <= A ->
  len (diff (Vec real d e f) (Vec real a b c)) <= A * T ->
  sqrt ((d - a) / cycle * ((d - a) / cycle) + (e - b) / cycle * ((e - b) / cycle) + (f - c) / cycle * ((f - c) / cycle)) <= A.
Proof.
  intros a b c d e f A HA H. rewrite cycle_T. pose proof T_pos as HT.
  assert (0 <= A * T) by (apply Rmult_le_pos; lra).
  pose proof (dot_le _ _ H0 H) as Q. unfold dot, diff, v_sub, v_map2 in Q. cbn [vx vy vz f_sub real] in Q.
  rewrite <- (sqrt_square A HA). apply sqrt_le_1_alt.
  apply Rmult_le_reg_r with (T * T); [nra|].
  match goal with |- ?l * _ <= _ => replace (l * (T * T)) with ((d - a) * (d - a) + (e - b) * (e - b) + (f - c) * (f - c)) by (field; lra) end.
  lra.
Qed.
Theorem C31_cartesian_velocity : forall inputs lx,
  twist lx -> Forall (fun i => twist (fst i) /\ twist (snd i)) inputs -> twist_in_range lx ->
  exists out, twist_run lx inputs = Some out /\ length out = length inputs /\
    Forall (fun x => first3 x <= robot_translation_velocity /\ last3 x <= robot_rotation_velocity) out /\
    steps twist_rate_ok lx out.
Proof.
  induction inputs as [|[x la] inputs IH]; intros lx Hl Hi R0; [exists []; repeat split; constructor|].
  inversion Hi as [|? ? [Hx Ha] Hi']; subst. cbn [fst snd] in *.
  destruct (six _ _ Hl) as (l1 & l2 & l3 & l4 & l5 & l6 & ->).
  destruct (six _ _ Hx) as (x1 & x2 & x3 & x4 & x5 & x6 & ->).
  destruct (six _ _ Ha) as (a1 & a2 & a3 & a4 & a5 & a6 & ->).
  cbn [twist_run]. unfold twist_limit, limit_rate_cartesian_velocity. rewrite real_all_finite. cbn [to_vecs].
  destruct R0 as [R1 R2]. cbn [first3 last3] in R1, R2.
  pose proof (single_velocity _ _ _ translation_limits (Vec real x1 x2 x3) (Vec real l1 l2 l3) (Vec real a1 a2 a3) R1) as V1.
  pose proof (single_velocity _ _ _ rotation_limits (Vec real x4 x5 x6) (Vec real l4 l5 l6) (Vec real a4 a5 a6) R2) as V2.
  pose proof (single_acceleration _ _ _ translation_limits (Vec real x1 x2 x3) (Vec real l1 l2 l3) (Vec real a1 a2 a3) R1) as A1.
  pose proof (single_acceleration _ _ _ rotation_limits (Vec real x4 x5 x6) (Vec real l4 l5 l6) (Vec real a4 a5 a6) R2) as A2.
  set (r1 := limit_rate_single_cartesian_velocity real _ _ _ (Vec real x1 x2 x3) _ _) in *.
  set (r2 := limit_rate_single_cartesian_velocity real _ _ _ (Vec real x4 x5 x6) _ _) in *.
  clearbody r1 r2. destruct r1 as [b1 b2 b3], r2 as [b4 b5 b6]. unfold of_vecs. cbn [vx vy vz].
  destruct (IH [b1; b2; b3; b4; b5; b6]) as (out & E1 & E2 & E3 & E4); [reflexivity|exact Hi'|split; assumption|].
  exists ([b1; b2; b3; b4; b5; b6] :: out). unfold twist_limit, limit_rate_cartesian_velocity in E1.
  unfold twist_limit, limit_rate_cartesian_velocity. rewrite E1. split; [reflexivity|]. split; [cbn; auto|].
  assert (Kt : MAX_TRANSLATIONAL_VELOCITY real <= robot_translation_velocity /\ MAX_ROTATIONAL_VELOCITY real <= robot_rotation_velocity /\
    0 <= MAX_TRANSLATIONAL_ACCELERATION real <= robot_translation_acceleration /\ 0 <= MAX_ROTATIONAL_ACCELERATION real <= robot_rotation_acceleration).
  { unfold MAX_TRANSLATIONAL_VELOCITY, MAX_ROTATIONAL_VELOCITY, MAX_TRANSLATIONAL_ACCELERATION, MAX_ROTATIONAL_ACCELERATION,
      LIMIT_EPS, TOL_NUMBER_PACKETS_LOST, f_lit, robot_translation_velocity, robot_rotation_velocity,
      robot_translation_acceleration, robot_rotation_acceleration.
    cbn [f_sub f_div f_int f_mul real]. rewrite delta_real. unfold T. repeat split; lra. }
  destruct Kt as (K1 & K2 & K3 & K4).
  split; [constructor; [|exact E3]; split; cbn [first3 last3]; eapply Rle_trans; [exact V1|exact K1|exact V2|exact K2]|].
  cbn [steps]. split; [|exact E4]. split; cbn [rate first3 last3].
  - eapply Rle_trans; [apply rate_len; [apply K3|exact A1]|apply K3].
  - eapply Rle_trans; [apply rate_len; [apply K4|exact A2]|apply K4].
Qed.
Print Assumptions C31_cartesian_velocity.
Example C31_ex : twist (repeat 1 6) /\
  Forall (fun i => twist (fst i) /\ twist (snd i)) [(repeat 50 6, repeat 0 6); (repeat (-50) 6, repeat 7 6)] /\
  twist_in_range (repeat 1 6).
Proof.
  split; [reflexivity|]. split; [repeat constructor|].
  unfold twist_in_range, MAX_TRANSLATIONAL_VELOCITY, MAX_ROTATIONAL_VELOCITY, MAX_TRANSLATIONAL_ACCELERATION,
    MAX_ROTATIONAL_ACCELERATION, LIMIT_EPS, TOL_NUMBER_PACKETS_LOST, f_lit.
  cbn [repeat first3 last3 f_sub f_div f_int f_mul real]. rewrite delta_real. unfold T.
  assert (sqrt (1 * 1 + 1 * 1 + 1 * 1) <= 1.9).
  { rewrite <- (sqrt_square 1.9) by lra. apply sqrt_le_1_alt. lra. }
  split; lra.
Qed.
(** A start over the limit: with a last velocity of 3 m/s along x and a request to accelerate
    sideways the distance to the limit is not a number, and the limiter lets the speed grow. *)
Definition b64_vec (x y z : Z) : vec float := Vec float (f_int float x) (f_int float y) (f_int float z).
Definition over_limit : vec float :=
  limit_rate_single_cartesian_velocity float (MAX_TRANSLATIONAL_VELOCITY float)
    (MAX_TRANSLATIONAL_ACCELERATION float) (MAX_TRANSLATIONAL_JERK float)
    (b64_vec 3 1 0) (b64_vec 3 0 0) (b64_vec 0 0 0).
Example C31_over_limit :
  f_lt float (f_int float 3) (v_norm float over_limit) = true /\
  f_lt float (f_int float 0) (vy _ over_limit) = true.
Proof. vm_compute. split; reflexivity. Qed.

(** * C32 *)
Lemma torque_same : forall m x l, 0 <= m -> Rabs ((x - l) / T) <= m -> limit_torque real m x l = x.
Proof.
  intros m x l Hm H. unfold limit_torque. cbn [f_add f_sub f_mul f_div f_neg f_min f_max real]. rewrite delta_real.
  assert (B : - m <= (x - l) / T <= m) by (revert H; unfold Rabs; destruct (Rcase_abs ((x - l) / T)); intros; lra).
  rewrite (Rmin_left ((x - l) / T)) by lra. rewrite Rmax_left by lra.
  change (@eq R (l + (x - l) / T * T) x). field. pose proof T_pos. lra.
Qed.
(** A torque request whose rate is at most 999.999 Nm/s is passed on. *)
Theorem C32_torques : forall x l, joints x -> joints l -> bounded (repeat (robot_torque_rate - 1/1000) 7) (rate l x) ->
  limit_rate_torques real (MAX_TORQUE_RATE real) x l = Some x.
Proof.
  intros x l Hx Hl B. unfold limit_rate_torques. rewrite real_all_finite. f_equal.
  unfold MAX_TORQUE_RATE, LIMIT_EPS, f_lit. cbn [f_sub f_int f_div real]. unfold joints, robot_torque_rate in *.
  set (m := 1000 - 1/1000) in *. assert (Hm : 0 <= m) by (unfold m; lra). clearbody m.
  revert Hx Hl B. generalize 7%nat. induction x as [|a x IH] in l |- *; intros [|n] Hx Hl B; try discriminate;
    destruct l as [|b l]; try discriminate; [reflexivity|]. cbn [repeat rate] in B. inversion B as [|? ? ? ? B1 B2]; subst.
  cbn [repeat limit_torques]. rewrite torque_same; [|exact Hm|exact B1]. f_equal. apply IH; auto.
Qed.
Print Assumptions C32_torques.
Example C32_ex_torques : joints (repeat (1/2) 7) /\ joints (repeat 0 7) /\
  bounded (repeat (robot_torque_rate - 1/1000) 7) (rate (repeat 0 7) (repeat (1/2) 7)).
Proof.
  split; [reflexivity|]. split; [reflexivity|]. unfold bounded, robot_torque_rate, cycle. cbn [repeat rate].
  repeat (apply Forall2_cons; [apply Rabs_le; unfold cycle; lra|]). apply Forall2_nil.
Qed.

(** A joint velocity request within the limits and far enough from the velocity limit: the
    acceleration is at most J/A times the distance of the last velocity to the limit. *)
Definition respects (V A J v lv la : R) : Prop :=
  Rabs (((v - lv) / cycle - la) / cycle) <= J /\ Rabs ((v - lv) / cycle) <= A /\
  J / A * (- V - lv) <= (v - lv) / cycle <= J / A * (V - lv).
Inductive all_respect : list R -> list R -> list R -> list R -> list R -> list R -> Prop :=
| respect_nil : all_respect [] [] [] [] [] []
| respect_cons : forall V A J v lv la vs as_ js xs lvs las, respects V A J v lv la ->
    all_respect vs as_ js xs lvs las -> all_respect (V :: vs) (A :: as_) (J :: js) (v :: xs) (lv :: lvs) (la :: las).
Lemma respects_same : forall V A J v lv la, 0 < A -> respects V A J v lv la -> lv + clamped V A J v lv la * T = v.
Proof.
  intros V A J v lv la HA (H1 & H2 & H3). rewrite cycle_T in *. apply clamped_transparent; [|exact H3|exact H2].
  pose proof T_pos as HT. unfold Rdiv in H1 at 1. rewrite Rabs_mult, (Rabs_pos_eq (/ T)) in H1 by (left; apply Rinv_0_lt_compat; lra).
  apply Rmult_le_reg_r with (/ T); [apply Rinv_0_lt_compat; lra|]. rewrite Rmult_assoc, Rinv_r by lra. lra.
Qed.
Theorem C32_joint_velocities_partial : forall v lv la, all_respect MV MA MJ v lv la ->
  limit_rate_joint_velocities real MV MA MJ v lv la = Some v.
Proof.
  intros v lv la H.
  assert (G : forall vs as_ js xs lvs las, all_respect vs as_ js xs lvs las ->
    forall ws as' js', all_compatible vs as_ js ws as' js' -> forall rs, velocity_rel vs as_ js xs lvs las rs -> rs = xs).
  { induction 1 as [|V A J w lw lb vs as_ js xs lvs las R1 R2 IH]; intros ws as' js' C rs Rl;
      inversion Rl; subst; [reflexivity|]. inversion C as [|? ? ? ? ? ? ? ? ? ? ? ? ((_ & HA & _) & _) C']; subst.
    rewrite respects_same by assumption. f_equal. eapply IH; eauto. }
  assert (Le : forall vs as_ js xs lvs las, all_respect vs as_ js xs lvs las ->
     length xs = length vs /\ length lvs = length vs /\ length las = length vs).
  { induction 1; cbn; intuition auto. }
  destruct (Le _ _ _ _ _ _ H) as (L1 & L2 & L3).
  destruct (velocities_rel MV MA MJ v lv la 7) as (rs & E & Rl); try assumption; try reflexivity.
  rewrite E. f_equal. eapply G; eauto. exact constants_compatible.
Qed.
Print Assumptions C32_joint_velocities_partial.
Lemma rel_fun : forall vs as_ js xs lvs las rs, velocity_rel vs as_ js xs lvs las rs ->
  forall qs, velocity_rel vs as_ js xs lvs las qs -> rs = qs.
Proof. induction 1; intros qs Q; inversion Q; subst; [reflexivity|]. f_equal. auto. Qed.
Theorem C32_joint_positions_partial : forall p lp lv la, length p = length lp -> all_respect MV MA MJ (rate lp p) lv la ->
  limit_rate_joint_positions real MV MA MJ p lp lv la = Some p.
Proof.
  intros p lp lv la Hl H.
  assert (Le : forall vs as_ js xs lvs las, all_respect vs as_ js xs lvs las ->
     length xs = length vs /\ length lvs = length vs /\ length las = length vs).
  { induction 1; cbn; intuition auto. }
  destruct (Le _ _ _ _ _ _ H) as (L1 & L2 & L3).
  assert (Lp : length p = 7%nat /\ length lp = 7%nat).
  { change (length MV) with 7%nat in L1. clear -Hl L1. revert lp Hl L1. generalize 7%nat.
    induction p as [|a p IH]; intros n [|b lp] Hl L1; cbn in *; try congruence; [auto|].
    destruct n; [discriminate|]. destruct (IH n lp); [congruence|congruence|]. split; congruence. }
  destruct Lp as [Lp1 Lp2].
  destruct (positions_rel MV MA MJ p lp lv la 7) as (ps & E & Rl & Lq); try assumption; try reflexivity.
  pose proof (C32_joint_velocities_partial _ _ _ H) as Ev.
  destruct (velocities_rel MV MA MJ (rate lp p) lv la 7) as (rs & E' & Rl'); try assumption; try reflexivity.
  assert (Er : rate lp ps = rate lp p).
  { rewrite Ev in E'. injection E' as <-. exact (rel_fun _ _ _ _ _ _ _ Rl _ Rl'). }
  rewrite E. f_equal. clear -Er Lp1 Lp2 Lq. revert lp p Er Lp1 Lp2 Lq. generalize 7%nat.
  induction ps as [|a ps IH]; intros n [|b lp] [|c p] Er L1 L2 L3; cbn in *; try congruence.
  destruct n; [discriminate|]. injection Er as E1 E2. f_equal.
  - rewrite cycle_T in E1. pose proof T_pos as HT.
    assert ((a - b) / T * T = (c - b) / T * T) by (rewrite E1; reflexivity).
    unfold Rdiv in H. rewrite !Rmult_assoc, Rinv_l in H by lra. lra.
  - eapply (IH n); eauto; congruence.
Qed.
Print Assumptions C32_joint_positions_partial.
(** A joint velocity request within velocity, acceleration and jerk limits which is altered:
    close to the velocity limit the acceleration is limited further. *)
Definition near_v : list R := map (fun v => v - 1/1000) MV.
Lemma rel_head : forall V vs A as_ J js v xs lv lvs la las r rs,
  velocity_rel (V :: vs) (A :: as_) (J :: js) (v :: xs) (lv :: lvs) (la :: las) (r :: rs) ->
  r = lv + clamped V A J v lv la * T.
Proof. intros. inversion H; subst. reflexivity. Qed.
Theorem C32_joint_velocities_refuted :
  exists v lv la, joints v /\ joints lv /\ joints la /\ bounded MV v /\ bounded MV lv /\
    bounded MA (rate lv v) /\ bounded MA la /\ bounded MJ (rate la (rate lv v)) /\
    limit_rate_joint_velocities real MV MA MJ v lv la <> Some v.
Proof.
  exists MV, near_v, (repeat 1 7).
  assert (EV : MV = [2.174 - 14.999/1000000; 2.174 - 7.499/1000000; 2.174 - 9.999/1000000; 2.174 - 12.499/1000000;
                     2.609 - 14.999/1000000; 2.609 - 19.999/1000000; 2.609 - 19.999/1000000]).
  { unfold MV, MAX_JOINT_VELOCITY, MAX_JOINT_ACCELERATION, LIMIT_EPS, TOL_NUMBER_PACKETS_LOST, f_lit.
    cbn [map map2 f_sub f_div f_int f_mul real]. rewrite delta_real. unfold T. repeat (f_equal; try lra). }
  assert (EA : MA = [14.999; 7.499; 9.999; 12.499; 14.999; 19.999; 19.999]).
  { unfold MA, MAX_JOINT_ACCELERATION, LIMIT_EPS, f_lit. cbn [map f_sub f_div f_int real]. repeat (f_equal; try lra). }
  assert (EJ : MJ = [7499.999; 3749.999; 4999.999; 6249.999; 7499.999; 9999.999; 9999.999]).
  { unfold MJ, MAX_JOINT_JERK, LIMIT_EPS, f_lit. cbn [map f_sub f_div f_int real]. repeat (f_equal; try lra). }
  assert (ER : rate near_v MV = repeat 1 7).
  { unfold near_v. rewrite EV. cbn [map rate repeat]. unfold cycle. repeat (f_equal; try field). }
  split; [reflexivity|]. split; [reflexivity|]. split; [reflexivity|].
  rewrite ER. unfold near_v. split; [|split; [|split; [|split; [|split]]]].
  - rewrite EV. repeat (apply Forall2_cons; [apply Rabs_le; lra|]). apply Forall2_nil.
  - rewrite EV. cbn [map]. repeat (apply Forall2_cons; [apply Rabs_le; lra|]). apply Forall2_nil.
  - rewrite EA. cbn [repeat]. repeat (apply Forall2_cons; [apply Rabs_le; lra|]). apply Forall2_nil.
  - rewrite EA. cbn [repeat]. repeat (apply Forall2_cons; [apply Rabs_le; lra|]). apply Forall2_nil.
  - rewrite EJ. cbn [repeat rate]. unfold cycle. repeat (apply Forall2_cons; [apply Rabs_le; lra|]). apply Forall2_nil.
  - intro H. destruct (velocities_rel MV MA MJ MV near_v (repeat 1 7) 7) as (rs & E & Rl); try reflexivity.
    unfold near_v in E. rewrite H in E. injection E as <-. unfold near_v in Rl. rewrite EV, EA, EJ in Rl.
    cbn [map repeat] in Rl. apply rel_head in Rl. rename Rl into H9. clear - H9.
    match type of H9 with _ = _ + clamped ?V ?A ?J ?v ?lv ?la * T =>
      assert (C : clamped V A J v lv la <= 0.9) end.
    { unfold clamped. apply Rmax_lub.
      - eapply Rle_trans; [apply Rmin_r|]. eapply Rle_trans; [apply Rmin_l|]. lra.
      - apply Rmax_lub; lra. }
    set (c := clamped _ _ _ _ _ _) in *. clearbody c. unfold T in *. lra.
Qed.
Print Assumptions C32_joint_velocities_refuted.

(** Half of a twist: the limits are respected, jerk and acceleration are not negligible, and the
    acceleration is at most J/A times the distance of the last speed to the limit. *)
Definition norm3 (a b c : R) : R := sqrt (a * a + b * b + c * c).
Definition half_respects (V A J : R) (v lv la : R * R * R) : Prop :=
  let '(x, y, z) := v in let '(lx, ly, lz) := lv in let '(ax, ay, az) := la in
  let ex := (x - lx) / cycle in let ey := (y - ly) / cycle in let ez := (z - lz) / cycle in
  1 / 2 ^ 52 < norm3 (ex - ax) (ey - ay) (ez - az) / cycle <= J /\
  1 / 2 ^ 52 < norm3 ex ey ez <= A /\
  norm3 lx ly lz <= V /\ norm3 ex ey ez <= J / A * (V - norm3 lx ly lz).
Lemma dot_len : forall u w : rvec, dot u u = 1 -> dot u w <= len w.
Proof.
  intros [a b c] [x y z] H. unfold len, dot in *. cbn [vx vy vz] in *. cbn [F real] in a, b, c, x, y, z.
  destruct (Rle_dec (a * x + b * y + c * z) 0) as [N|N].
  { eapply Rle_trans; [exact N|apply sqrt_pos]. }
  rewrite <- (sqrt_square (a * x + b * y + c * z)) by lra. apply sqrt_le_1_alt.
  assert (CS : 0 <= (a * y - b * x) * (a * y - b * x) + (a * z - c * x) * (a * z - c * x) + (b * z - c * y) * (b * z - c * y))
    by (repeat apply Rplus_le_le_0_compat; apply Rle_0_sqr).
  assert (I : (a * x + b * y + c * z) * (a * x + b * y + c * z) =
    (a * a + b * b + c * c) * (x * x + y * y + z * z) -
    ((a * y - b * x) * (a * y - b * x) + (a * z - c * x) * (a * z - c * x) + (b * z - c * y) * (b * z - c * y))) by ring.
  change (@eq R (a * a + b * b + c * c) 1) in H. rewrite I, H. lra.
Qed.
Lemma distance_ge : forall V lv a, 0 < len a -> len lv <= V -> V - len lv <= distance V lv a.
Proof.
  intros V lv a Ha Hl. unfold distance. set (p := dot (v_normalize real a) lv).
  assert (Hp : p <= len lv) by (apply dot_len, unit_dot, Ha). pose proof (len_sqr lv) as E. pose proof (len_pos lv) as P.
  set (q := len lv) in *. clearbody q p. rewrite <- E.
  destruct (Rle_dec (V - q + p) 0) as [N|N].
  - pose proof (sqrt_pos (p * p - q * q + V * V)). lra.
  - enough (V - q + p <= sqrt (p * p - q * q + V * V)) by lra.
    rewrite <- (sqrt_square (V - q + p)) by lra. apply sqrt_le_1_alt. nra.
Qed.
Lemma half_same : forall V A J v1 v2 v3 l1 l2 l3 a1 a2 a3, limits V A J ->
  half_respects V A J (v1, v2, v3) (l1, l2, l3) (a1, a2, a3) ->
  limit_rate_single_cartesian_velocity real V A J (Vec real v1 v2 v3) (Vec real l1 l2 l3) (Vec real a1 a2 a3) = Vec real v1 v2 v3.
Proof.
  intros V A J v1 v2 v3 l1 l2 l3 a1 a2 a3 L (H1 & H2 & H3 & H4). rewrite cycle_T in *.
  assert (En : NORM_EPS real = 1 / 2 ^ 52) by (unfold NORM_EPS, f_lit; cbn [f_div f_int real]; lra).
  pose proof T_pos as HT. pose proof norm_eps_pos as He. rewrite <- En in *.
  destruct (limits_ratio V A J L) as (K1 & _ & _).
  assert (Hj : norm3 ((v1 - l1) / T - a1) ((v2 - l2) / T - a2) ((v3 - l3) / T - a3) <= J * T).
  { destruct H1 as [_ H1]. apply Rmult_le_reg_r with (/ T); [apply Rinv_0_lt_compat; lra|].
    rewrite Rmult_assoc, Rinv_r by lra. unfold Rdiv in H1 at 1. lra. }
  eapply (single_transparent V A J _ _ _ (Vec real ((v1 - l1) / T) ((v2 - l2) / T) ((v3 - l3) / T))).
  - reflexivity.
  - exact (proj1 H1).
  - exact Hj.
  - exact (proj1 H2).
  - exact (proj2 H2).
  - eapply Rle_trans; [exact H4|]. apply Rmult_le_compat_l; [lra|].
    apply (distance_ge V (Vec real l1 l2 l3)); [|exact H3]. eapply Rlt_trans; [exact He|exact (proj1 H2)].
Qed.
Theorem C32_cartesian_velocities_partial : forall v1 v2 v3 v4 v5 v6 l1 l2 l3 l4 l5 l6 a1 a2 a3 a4 a5 a6,
  half_respects (MAX_TRANSLATIONAL_VELOCITY real) (MAX_TRANSLATIONAL_ACCELERATION real) (MAX_TRANSLATIONAL_JERK real)
    (v1, v2, v3) (l1, l2, l3) (a1, a2, a3) ->
  half_respects (MAX_ROTATIONAL_VELOCITY real) (MAX_ROTATIONAL_ACCELERATION real) (MAX_ROTATIONAL_JERK real)
    (v4, v5, v6) (l4, l5, l6) (a4, a5, a6) ->
  twist_limit [v1; v2; v3; v4; v5; v6] [l1; l2; l3; l4; l5; l6] [a1; a2; a3; a4; a5; a6] =
  Some [v1; v2; v3; v4; v5; v6].
Proof.
  intros v1 v2 v3 v4 v5 v6 l1 l2 l3 l4 l5 l6 a1 a2 a3 a4 a5 a6 H1 H2.
  unfold twist_limit, limit_rate_cartesian_velocity. rewrite real_all_finite. cbn [to_vecs].
  rewrite (half_same _ _ _ _ _ _ _ _ _ _ _ _ translation_limits H1).
  rewrite (half_same _ _ _ _ _ _ _ _ _ _ _ _ rotation_limits H2). reflexivity.
Qed.
Print Assumptions C32_cartesian_velocities_partial.
Lemma norm3_first : forall a, 0 <= a -> norm3 a 0 0 = a.
Proof. intros a H. unfold norm3. replace (a * a + 0 * 0 + 0 * 0) with (a * a) by ring. apply sqrt_square, H. Qed.
Example C32_ex_cartesian :
  half_respects (MAX_TRANSLATIONAL_VELOCITY real) (MAX_TRANSLATIONAL_ACCELERATION real) (MAX_TRANSLATIONAL_JERK real)
    (1/1000, 0, 0) (0, 0, 0) (0, 0, 0) /\
  half_respects (MAX_ROTATIONAL_VELOCITY real) (MAX_ROTATIONAL_ACCELERATION real) (MAX_ROTATIONAL_JERK real)
    (1/1000, 0, 0) (0, 0, 0) (0, 0, 0).
Proof.
  unfold half_respects, cycle, MAX_TRANSLATIONAL_VELOCITY, MAX_ROTATIONAL_VELOCITY, MAX_TRANSLATIONAL_ACCELERATION,
    MAX_TRANSLATIONAL_JERK, MAX_ROTATIONAL_JERK,
    MAX_ROTATIONAL_ACCELERATION, LIMIT_EPS, TOL_NUMBER_PACKETS_LOST, f_lit.
  cbn [f_sub f_div f_int f_mul real]. rewrite delta_real. unfold T.
  replace ((0 - 0) / (1 / 1000) - 0) with 0 by lra. replace ((0 - 0) / (1 / 1000)) with 0 by lra.
  replace ((1 / 1000 - 0) / (1 / 1000) - 0) with 1 by lra. replace ((1 / 1000 - 0) / (1 / 1000)) with 1 by lra.
  rewrite !norm3_first by lra. repeat split; lra.
Qed.
Example C32_ex_velocities : all_respect MV MA MJ (repeat (1/1000) 7) (repeat 0 7) (repeat 1 7).
Proof.
  unfold MV, MA, MJ, MAX_JOINT_VELOCITY, MAX_JOINT_ACCELERATION, MAX_JOINT_JERK, LIMIT_EPS, TOL_NUMBER_PACKETS_LOST, f_lit.
  cbn [map map2 f_sub f_div f_int f_mul real repeat]. rewrite delta_real.
  repeat (apply respect_cons; [unfold respects, cycle, T; repeat split; try (apply Rabs_le; lra); lra|]). apply respect_nil.
Qed.
Example C32_ex_positions : length (repeat (1/1000000) 7) = length (repeat 0 7) /\
  all_respect MV MA MJ (rate (repeat 0 7) (repeat (1/1000000) 7)) (repeat 0 7) (repeat 1 7).
Proof.
  split; [reflexivity|]. replace (rate (repeat 0 7) (repeat (1/1000000) 7)) with (repeat (1/1000) 7); [exact C32_ex_velocities|].
  cbn [repeat rate]. unfold cycle. repeat (f_equal; try lra).
Qed.
(** C31 in binary64, from a start between the constant of the library (1.998987 m/s) and the
    limit of the robot (2 m/s): the commands leave the range.  The reported acceleration is the
    one of the previous command. *)
Fixpoint b64_run (lv la : vec float) (requests : list (vec float)) : list (vec float) :=
  match requests with
  | [] => []
  | v :: r =>
      let v' := limit_rate_single_cartesian_velocity float (MAX_TRANSLATIONAL_VELOCITY float)
        (MAX_TRANSLATIONAL_ACCELERATION float) (MAX_TRANSLATIONAL_JERK float) v lv la in
      v' :: b64_run v' (v_unscale float (v_sub float v' lv) (DELTA_T float)) r
  end.
Theorem C31_range_refuted :
  exists lv requests, f_lt float (v_norm float lv) (f_int float 2) = true /\
    exists v, In v (b64_run lv (b64_vec 0 0 0) requests) /\ f_lt float (f_int float 2) (v_norm float v) = true.
Proof.
  exists (Vec float (f_lit float 19995 10000) (f_int float 0) (f_int float 0)), (repeat (b64_vec 2 1 0) 10).
  split; [vm_compute; reflexivity|].
  assert (E : existsb (fun v => f_lt float (f_int float 2) (v_norm float v))
    (b64_run (Vec float (f_lit float 19995 10000) (f_int float 0) (f_int float 0)) (b64_vec 0 0 0) (repeat (b64_vec 2 1 0) 10)) = true)
    by (vm_compute; reflexivity).
  apply existsb_exists in E. destruct E as (v & H1 & H2). exists v. split; assumption.
Qed.
Print Assumptions C31_range_refuted.
