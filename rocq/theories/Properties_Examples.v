(** C69: the example programs communication_test and echo_robot_state. *)
From Coq Require Import List NArith ZArith Bool Lia Lra Arith Reals String.
From Flocq Require Import Core IEEE754.BinarySingleNaN IEEE754.Binary IEEE754.Bits.
From Verif Require Import Bytes Codec NumOps NumFloat FloatFacts SizeFacts RateModel ConvertModel WireModel WireSpec UdpModel RobotModel LoopModel
  RobotSpec RobotProofs RobotWp LoopProofs Effects RobotMore RobotCalls Outputs TypedModel TypedSpec TypedProofs ConvertFacts MotionModel
  JointMotionModel RobotScenario ReplaySpec ReplayProofs CallFacts LiveUdp LiveSpec Properties_Live Properties_Robot Properties_Convert Properties_Replay Properties_Time ExampleModel.
Import ListNotations.
Open Scope list_scope.
Open Scope N_scope.

(** C18 for one control call: the motion callback's first time step is zero, every later one is the (positive) number of
    milliseconds since the state of the call before. *)
Theorem C18_one_call : forall k cb s r s', reachable s -> control k cb s = (r, s') ->
  exists d, trace s' = d ++ trace s /\ spaced (rev (motion_calls d)).
Proof. intros k cb s r s' R E. exact (control_spaced k cb s r s' (reachable_I s R) E). Qed.
Print Assumptions C18_one_call.
Example C18_ex_one : let s := after_new ex_env_good in
  map (fun p => (rs_message_id (fst p), snd p)) (rev (motion_calls (trace (snd (control (ex_control 2) 0 s))))) = [(4, 0); (5, 1); (8, 3)].
Proof. vm_compute. reflexivity. Qed.

(** * What the statistics should be *)
Definition ids (calls : list (robot_state_intern * N)) : list N := map (fun c => rs_message_id (fst c)) calls.
Definition rates (calls : list (robot_state_intern * N)) : list (F float) := map (fun c => of_bits (rs_control_command_success_rate (fst c))) calls.
(** The milliseconds after [a] up to [b]. *)
Definition between (a b : N) : list N := map N.of_nat (seq (S (N.to_nat a)) (N.to_nat (b - a))).
(** Those of them for which the callback was not called. *)
Definition missed (a b : N) (called : list N) : list N := filter (fun n => negb (existsb (N.eqb n) called)) (between a b).
Definition rate_ok (r : F float) : Prop := b64_fin r = true /\ (0 <= val r <= 1)%R.

Fixpoint run (c : comm) (calls : list (robot_state_intern * N)) : option comm :=
  match calls with
  | [] => Some c
  | (x, dt) :: r => match comm_callback c x dt with Some (c', _) => run c' r | None => None end
  end.
Lemma run_app : forall a b c, run c (a ++ b) = match run c a with Some c' => run c' b | None => None end.
Proof.
  induction a as [|[x dt] a IH]; intros b c; [reflexivity|]. cbn [app run]. destruct (comm_callback c x dt) as [[c' o]|]; [apply IH|reflexivity].
Qed.

(** One counted call. *)
Lemma counted : forall c x dt c' o, 1 <= dt -> comm_callback c x dt = Some (c', o) ->
  c_time c' = c_time c + dt /\ c_counter c' = c_counter c + 1 /\ snd o = (10000 <=? c_time c') /\
  let rate := of_bits (rs_control_command_success_rate x) in
  c_sum c' = f_add float (c_sum c) rate /\
  c_max c' = (if f_lt float (c_max c) rate then rate else c_max c) /\ c_min c' = (if f_lt float rate (c_min c) then rate else c_min c).
Proof.
  intros c x dt c' o D. unfold comm_callback, u64_add. destruct (c_time c + dt <? 2 ^ 64); [|discriminate].
  assert (Z : c_time c + dt =? 0 = false) by (apply N.eqb_neq; lia). rewrite Z.
  destruct (c_counter c + 1 <? 2 ^ 64); [|discriminate]. intros H.
  assert (Hc : c' = Comm (c_time c + dt) (c_counter c + 1) (f_add float (c_sum c) (of_bits (rs_control_command_success_rate x)))
    (if f_lt float (of_bits (rs_control_command_success_rate x)) (c_min c) then of_bits (rs_control_command_success_rate x) else c_min c)
    (if f_gt float (of_bits (rs_control_command_success_rate x)) (c_max c) then of_bits (rs_control_command_success_rate x) else c_max c) /\
    snd o = (10000 <=? c_time c + dt)) by (injection H as <- <-; auto).
  destruct Hc as [-> E]. cbn [c_time c_counter c_sum c_min c_max]. auto 10.
Qed.
Lemma first_call : forall x, comm_callback comm_start x 0 = Some (comm_start, (no_torques, false)).
Proof. intros x. reflexivity. Qed.

Lemma run_counts : forall l b c c', spaced_from b l -> run c l = Some c' ->
  c_time c' = c_time c + (newest_id l b - b) /\ b <= newest_id l b /\ c_counter c' = c_counter c + N.of_nat (List.length l) /\
  N.of_nat (List.length l) <= newest_id l b - b /\
  c_sum c' = fold_left (f_add float) (rates l) (c_sum c) /\
  c_max c' = fold_left (fun m r => if f_lt float m r then r else m) (rates l) (c_max c) /\
  c_min c' = fold_left (fun m r => if f_lt float r m then r else m) (rates l) (c_min c).
Proof.
  induction l as [|[x dt] l IH]; intros b c c' S R.
  - cbn [run] in R. injection R as <-. cbn. repeat split; lia.
  - cbn [spaced_from] in S. destruct S as (S1 & S2 & S3). cbn [run] in R.
    destruct (comm_callback c x dt) as [[c1 o]|] eqn:E; [|discriminate].
    destruct (counted _ _ _ _ _ S1 E) as (E1 & E2 & _ & E3 & E4 & E5).
    destruct (IH _ _ _ S3 R) as (I1 & I2 & I3 & I4 & I5 & I6 & I7).
    rewrite newest_id_cons. cbn [fst List.length rates map fold_left]. rewrite <- E3, <- E4, <- E5.
    rewrite I1, I3, E1, E2. repeat split; try assumption; lia.
Qed.

(** * Missed milliseconds *)
Lemma between_split : forall a b c, a <= b -> b <= c -> between a c = between a b ++ between b c.
Proof.
  intros a b c H1 H2. unfold between. replace (N.to_nat (c - a)) with (N.to_nat (b - a) + N.to_nat (c - b))%nat by lia.
  rewrite seq_app, map_app. do 3 f_equal. lia.
Qed.
Lemma between_in : forall a b n, In n (between a b) -> a < n <= b.
Proof.
  intros a b n H. unfold between in H. apply in_map_iff in H. destruct H as (i & <- & H). apply in_seq in H. lia.
Qed.
Lemma between_last : forall a b, a < b -> between a b = between a (b - 1) ++ [b].
Proof.
  intros a b H. rewrite (between_split a (b - 1) b) by lia. f_equal. unfold between.
  replace (N.to_nat (b - (b - 1))) with 1%nat by lia. cbn [seq map]. f_equal. lia.
Qed.
Lemma between_length : forall a b, List.length (between a b) = N.to_nat (b - a).
Proof. intros a b. unfold between. rewrite map_length, seq_length. reflexivity. Qed.
Lemma filter_all : forall A (f : A -> bool) l, (forall x, In x l -> f x = true) -> filter f l = l.
Proof.
  induction l as [|x l IH]; intros H; [reflexivity|]. cbn [filter]. rewrite H by (left; reflexivity). f_equal. apply IH. intros y I. apply H. right. exact I.
Qed.
Lemma filter_none : forall A (f : A -> bool) l, (forall x, In x l -> f x = false) -> filter f l = [].
Proof.
  induction l as [|x l IH]; intros H; [reflexivity|]. cbn [filter]. rewrite H by (left; reflexivity). apply IH. intros y I. apply H. right. exact I.
Qed.
Lemma filter_same : forall A (f g : A -> bool) l, (forall x, In x l -> f x = g x) -> filter f l = filter g l.
Proof.
  induction l as [|x l IH]; intros H; [reflexivity|]. cbn [filter]. rewrite H by (left; reflexivity).
  rewrite IH; [reflexivity|]. intros y I. apply H. right. exact I.
Qed.
Lemma spaced_above : forall l b n, spaced_from b l -> In n (ids l) -> b < n.
Proof.
  induction l as [|[x dt] l IH]; intros b n S I; [contradiction I|]. cbn [spaced_from] in S. destruct S as (S1 & S2 & S3).
  destruct I as [<-|I]; cbn [fst]; [lia|]. specialize (IH _ _ S3 I). lia.
Qed.
Lemma newest_le : forall l b, spaced_from b l -> b <= newest_id l b.
Proof.
  induction l as [|[x dt] l IH]; intros b S; [cbn; lia|]. cbn [spaced_from] in S. destruct S as (S1 & S2 & S3).
  rewrite newest_id_cons. cbn [fst]. specialize (IH _ S3). lia.
Qed.
Lemma not_called : forall l n, negb (existsb (N.eqb n) l) = true <-> ~ In n l.
Proof.
  intros l n. rewrite negb_true_iff. split.
  - intros H I. assert (T : existsb (N.eqb n) l = true) by (apply existsb_exists; exists n; split; [exact I|apply N.eqb_refl]). congruence.
  - intros H. apply not_true_is_false. intros T. apply existsb_exists in T. destruct T as (m & I & E). apply N.eqb_eq in E. subst. contradiction.
Qed.
(** The lost states counted by the program are the milliseconds without a call. *)
Lemma missed_count : forall l b, spaced_from b l ->
  N.of_nat (List.length (missed b (newest_id l b) (ids l))) + N.of_nat (List.length l) = newest_id l b - b.
Proof.
  induction l as [|[x dt] l IH]; intros b S.
  - unfold missed, newest_id. cbn [rev]. unfold between. rewrite N.sub_diag. reflexivity.
  - cbn [spaced_from] in S. destruct S as (S1 & S2 & S3). specialize (IH _ S3). pose proof (newest_le _ _ S3) as L.
    rewrite newest_id_cons. cbn [fst List.length]. set (n := newest_id l (rs_message_id x)) in *.
    unfold missed in *. rewrite (between_split b (rs_message_id x) n) by lia. rewrite (between_last b) by lia.
    rewrite !filter_app, !app_length.
    rewrite (filter_all _ _ (between b (rs_message_id x - 1))), between_length.
    2:{ intros y I. apply between_in in I. apply not_called. intros C. destruct C as [C|C]; [cbn [fst] in C; lia|].
        pose proof (spaced_above _ _ _ S3 C). lia. }
    rewrite (filter_none _ _ [rs_message_id x]).
    2:{ intros y [<-|[]]. apply negb_false_iff. cbn [ids map fst existsb]. rewrite N.eqb_refl. reflexivity. }
    rewrite (filter_same _ _ (fun m => negb (existsb (N.eqb m) (ids l))) (between (rs_message_id x) n)).
    2:{ intros y I. apply between_in in I. cbn [ids map fst existsb]. assert (Ne : y =? rs_message_id x = false) by (apply N.eqb_neq; lia).
        rewrite Ne. reflexivity. }
    cbn [List.length]. lia.
Qed.

(** * Greatest and least *)
Definition greater (m r : F float) : F float := if f_lt float m r then r else m.
Definition smaller (m r : F float) : F float := if f_lt float r m then r else m.
Lemma greatest : forall l m, rate_ok m -> Forall rate_ok l ->
  let g := fold_left greater l m in rate_ok g /\ (val m <= val g)%R /\ Forall (fun r => (val r <= val g)%R) l /\ (g = m \/ In g l).
Proof.
  induction l as [|r l IH]; intros m M F; cbn [fold_left]; cbv zeta.
  - repeat split; try apply M; try lra; auto.
  - inversion F as [|? ? Hr Hl]; subst. destruct M as [M1 M2]. destruct Hr as [R1 R2].
    assert (G : rate_ok (greater m r) /\ (val m <= val (greater m r))%R /\ (val r <= val (greater m r))%R /\ (greater m r = m \/ greater m r = r)).
    { unfold greater. change (f_lt float) with b64_lt. rewrite lt_fin by assumption. destruct (Rlt_bool_spec (val m) (val r));
        repeat split; try tauto; try lra. }
    destruct G as (G1 & G2 & G3 & G4). destruct (IH (greater m r) G1 Hl) as (I1 & I2 & I3 & I4). cbv zeta in *.
    set (g := fold_left greater l (greater m r)) in *. clearbody g. split; [exact I1|]. split; [lra|].
    split; [constructor; [lra|exact I3]|]. destruct I4 as [->|I4]; [|right; right; exact I4].
    destruct G4 as [->| ->]; [left; reflexivity|right; left; reflexivity].
Qed.
Lemma least : forall l m, rate_ok m -> Forall rate_ok l ->
  let g := fold_left smaller l m in rate_ok g /\ (val g <= val m)%R /\ Forall (fun r => (val g <= val r)%R) l /\ (g = m \/ In g l).
Proof.
  induction l as [|r l IH]; intros m M F; cbn [fold_left]; cbv zeta.
  - repeat split; try apply M; try lra; auto.
  - inversion F as [|? ? Hr Hl]; subst. destruct M as [M1 M2]. destruct Hr as [R1 R2].
    assert (G : rate_ok (smaller m r) /\ (val (smaller m r) <= val m)%R /\ (val (smaller m r) <= val r)%R /\ (smaller m r = m \/ smaller m r = r)).
    { unfold smaller. change (f_lt float) with b64_lt. rewrite lt_fin by assumption. destruct (Rlt_bool_spec (val r) (val m));
        repeat split; try tauto; try lra. }
    destruct G as (G1 & G2 & G3 & G4). destruct (IH (smaller m r) G1 Hl) as (I1 & I2 & I3 & I4). cbv zeta in *.
    set (g := fold_left smaller l (smaller m r)) in *. clearbody g. split; [exact I1|]. split; [lra|].
    split; [constructor; [lra|exact I3]|]. destruct I4 as [->|I4]; [|right; right; exact I4].
    destruct G4 as [->| ->]; [left; reflexivity|right; left; reflexivity].
Qed.

(** * The average *)
Lemma rnd_int : forall z, (0 <= z <= 2 ^ 53)%Z -> rnd (IZR z) = IZR z.
Proof.
  intros z H. unfold rnd. apply round_generic; [apply valid_rnd_N|].
  destruct (Z.eq_dec z (2 ^ 53)) as [->|N].
  - change (IZR (2 ^ 53)) with (bpow radix2 53). apply generic_format_bpow. cbn. lia.
  - replace (IZR z) with (F2R (Float radix2 z 0)) by (unfold F2R; cbn; ring).
    apply generic_format_F2R. intros Nz. unfold cexp. rewrite fexp_flt. unfold FLT_exp.
    assert (M : (mag radix2 (F2R (Float radix2 z 0)) <= 53)%Z).
    { apply mag_le_bpow.
      - intros E. apply Nz. replace (F2R (Float radix2 z 0)) with (IZR z) in E by (unfold F2R; cbn; ring). apply eq_IZR in E. exact E.
      - replace (F2R (Float radix2 z 0)) with (IZR z) by (unfold F2R; cbn; ring). rewrite Rabs_pos_eq by (apply IZR_le; lia).
        change (bpow radix2 53) with (IZR (2 ^ 53)). apply IZR_lt. lia. }
    cbn [Fexp]. lia.
Qed.
Lemma sum_step : forall x r k, b64_fin x = true -> (0 <= val x <= IZR k)%R -> (0 <= k < 2 ^ 53)%Z -> rate_ok r ->
  b64_fin (f_add float x r) = true /\ (0 <= val (f_add float x r) <= IZR (k + 1))%R /\ val (f_add float x r) = rnd (val x + val r).
Proof.
  intros x r k Fx Bx K [Fr Br]. destruct (plus_ok x r 54 Fx Fr) as [F V]; [lia| |].
  - assert (B : (IZR k < 9007199254740992)%R) by (apply IZR_lt; lia). change (bpow radix2 54) with 18014398509481984%R.
    rewrite Rabs_pos_eq by lra. lra.
  - change (f_add float) with (b64_plus mode_NE). rewrite V. split; [exact F|]. split; [|reflexivity]. split.
    + rewrite <- rnd_0. apply rnd_le. lra.
    + rewrite <- (rnd_int (k + 1)) by lia. apply rnd_le. rewrite plus_IZR. lra.
Qed.
Lemma sum_range : forall l x k, b64_fin x = true -> (0 <= val x <= IZR k)%R -> (0 <= k)%Z -> (k + Z.of_nat (List.length l) <= 2 ^ 53)%Z -> Forall rate_ok l ->
  b64_fin (fold_left (f_add float) l x) = true /\ (0 <= val (fold_left (f_add float) l x) <= IZR (k + Z.of_nat (List.length l)))%R.
Proof.
  induction l as [|r l IH]; intros x k Fx Bx K L R.
  - cbn [fold_left List.length Z.of_nat]. rewrite Z.add_0_r. auto.
  - inversion R; subst. cbn [fold_left]. cbn [List.length] in *. destruct (sum_step x r k) as (F & B & _); [assumption|assumption|lia|assumption|].
    replace (k + Z.of_nat (S (List.length l)))%Z with ((k + 1) + Z.of_nat (List.length l))%Z by lia.
    apply IH; [exact F|exact B|lia|lia|assumption].
Qed.
Lemma sum_ones : forall l x k, b64_fin x = true -> val x = IZR k -> (0 <= k)%Z -> (k + Z.of_nat (List.length l) <= 2 ^ 53)%Z ->
  Forall rate_ok l -> Forall (fun r => val r = 1%R) l ->
  val (fold_left (f_add float) l x) = IZR (k + Z.of_nat (List.length l)).
Proof.
  induction l as [|r l IH]; intros x k Fx Bx K L R One.
  - cbn [fold_left List.length Z.of_nat]. rewrite Z.add_0_r. auto.
  - inversion R; subst. inversion One; subst. cbn [fold_left]. cbn [List.length] in *.
    destruct (sum_step x r k) as (F & B & V); [assumption|rewrite Bx; split; [apply IZR_le; lia|lra]|lia|assumption|].
    replace (k + Z.of_nat (S (List.length l)))%Z with ((k + 1) + Z.of_nat (List.length l))%Z by lia.
    apply IH; [exact F| |lia|lia|assumption|assumption]. rewrite V, Bx, H3. rewrite <- plus_IZR. apply rnd_int. lia.
Qed.
Lemma start_values : b64_fin (f_int float 0) = true /\ val (f_int float 0) = 0%R /\ b64_fin (f_int float 1) = true /\ val (f_int float 1) = 1%R.
Proof.
  split; [reflexivity|]. split; [reflexivity|]. split; [reflexivity|]. change (f_int float 1) with (b64_int 1).
  assert (E : Binary.B2FF 53 1024 (b64_int 1) = F754_finite false 4503599627370496 (-52)) by (vm_compute; reflexivity).
  destruct (val_finite _ _ _ _ E) as [_ V]. rewrite V. unfold F2R. cbn. lra.
Qed.
Lemma average : forall l, l <> [] -> (Z.of_nat (List.length l) <= 2 ^ 53)%Z -> Forall rate_ok l ->
  let avg := f_div float (fold_left (f_add float) l (f_int float 0)) (of_u64 (N.of_nat (List.length l))) in
  rate_ok avg /\ (Forall (fun r => val r = 1%R) l -> val avg = 1%R).
Proof.
  intros l Ne L R avg. destruct start_values as (F0 & V0 & _).
  assert (Pos : (1 <= Z.of_nat (List.length l))%Z) by (destruct l; [contradiction Ne; reflexivity|cbn [List.length]; lia]).
  destruct (sum_range l (f_int float 0) 0 F0 ltac:(rewrite V0; lra) ltac:(lia) ltac:(lia) R) as [F B].
  pose proof (sum_ones l (f_int float 0) 0 F0 V0 ltac:(lia) ltac:(lia) R) as One.
  destruct (of_u64_ok (N.of_nat (List.length l))) as [Fn Vn]; [lia|]. rewrite nat_N_Z in Vn. rewrite rnd_int in Vn by lia.
  rewrite Z.add_0_l in *. set (n := Z.of_nat (List.length l)) in *. clearbody n.
  assert (Pn : (1 <= IZR n)%R) by (apply IZR_le; lia).
  change (f_div float) with (b64_div mode_NE) in avg. unfold avg. clear avg.
  set (sum := fold_left (f_add float) l (f_int float 0)) in *. clearbody sum. set (m := of_u64 (N.of_nat (List.length l))) in *. clearbody m.
  assert (Q : (0 <= val sum / val m <= 1)%R).
  { rewrite Vn. split; [apply Rmult_le_pos; [lra|left; apply Rinv_0_lt_compat; lra]|]. apply Rmult_le_reg_r with (IZR n); [lra|].
    unfold Rdiv. rewrite Rmult_assoc, Rinv_l by lra. lra. }
  destruct (div_ok sum m 0 F Fn) as [Fd Vd]; [lra|lia| |].
  { rewrite Rabs_pos_eq by lra. change (bpow radix2 0) with 1%R. lra. }
  assert (One1 : rnd 1 = 1%R) by (apply (rnd_int 1); lia).
  split; [split; [exact Fd|]|].
  - rewrite Vd. split; [rewrite <- rnd_0|rewrite <- One1]; apply rnd_le; lra.
  - intros Ones. rewrite Vd, (One Ones), Vn. unfold Rdiv. rewrite Rinv_r by lra. exact One1.
Qed.

(** * The run *)
Lemma comm_endless : forall rots cb x dt cb' out, k_motion (controller_of rots communication) cb x dt = Some (cb', out) ->
  k_finished (controller_of rots communication) out = false.
Proof. intros rots cb x dt cb' out H. cbn in H. injection H as <- <-. reflexivity. Qed.
Lemma calls_cons : forall x dt d, rev (torque_calls (EvTorque x dt :: d)) = rev (torque_calls d) ++ [(x, dt)].
Proof. reflexivity. Qed.
(** The closure was called one after the other; no call came after ten seconds had passed. *)
Lemma comm_run : forall rots t d c m, replays (controller_of rots communication) comm_start d c m -> parted d -> lawful (d ++ t) ->
  run comm_start (rev (torque_calls d)) = Some c /\
  (forall pre p post c', rev (torque_calls d) = pre ++ p :: post -> run comm_start pre = Some c' -> c_time c' < 10000) /\
  (10000 <= c_time c -> exists q, In (EvTorqueOut q true) d) /\
  (forall q f, In (EvTorqueOut q f) d -> f = true -> 10000 <= c_time c).
Proof.
  intros rots t d c m H.
  induction H as [|e d cb m Q H IH|d cb m x dt cb' out m' H IH E C|torque d cb m x dt cb' q fin q' H IH T]; intros P L.
  - split; [reflexivity|]. split; [intros pre p post c' X; destruct pre; discriminate X|]. split; [cbn; lia|intros ? ? []].
  - pose proof (parted_tail _ _ P) as P'. destruct (IH P' (proj2 L)) as (I1 & I2 & I3 & I4).
    assert (K : torque_calls (e :: d) = torque_calls d) by (destruct e; try contradiction Q; reflexivity). rewrite K.
    split; [exact I1|]. split; [exact I2|]. split; [intros B; destruct (I3 B) as [q Hq]; exists q; right; exact Hq|].
    intros q f [X|X]; [subst e; contradiction Q|exact (I4 q f X)].
  - pose proof (parted_tail _ _ (parted_tail _ _ P)) as P'. destruct (IH P' (proj2 (proj2 L))) as (I1 & I2 & I3 & I4).
    cbn in E. injection E as <- <-. change (torque_calls (EvMotionOut _ _ :: EvMotion x dt :: d)) with (torque_calls d).
    split; [exact I1|]. split; [exact I2|]. split; [intros B; destruct (I3 B) as [q Hq]; exists q; right; right; exact Hq|].
    intros q f [X|[X|X]]; [discriminate X|discriminate X|exact (I4 q f X)].
  - pose proof (parted_tail _ _ (parted_tail _ _ P)) as P'. destruct (IH P' (proj2 (proj2 L))) as (I1 & I2 & I3 & I4).
    rename H0 into Ec. cbn in T. injection T as <-.
    change (torque_calls (EvTorqueOut q' fin :: EvTorque x dt :: d)) with (torque_calls (EvTorque x dt :: d)). rewrite calls_cons.
    assert (Before : c_time cb < 10000).
    { destruct (N.lt_ge_cases (c_time cb) 10000) as [B|B]; [exact B|]. destruct (I3 B) as [q0 Hq].
      destruct L as [_ [(_ & m0 & t' & Et) L]].
      assert (Cf : completed (d ++ t) = true).
      { unfold completed. apply existsb_exists. exists (EvTorqueOut q0 true). split; [|reflexivity]. apply parted_final; [exact P'|exact Hq|].
        intros X. exact X. }
      rewrite Et in Cf, L. destruct L as [_ [(_ & Cf' & _) _]]. cbn [completed this_motion existsb final] in Cf.
      unfold completed in Cf, Cf'. cbn [this_motion existsb final orb] in Cf. congruence. }
    split; [rewrite run_app, I1; cbn [run]; rewrite Ec; reflexivity|]. split; [|split].
    + intros pre p post c' X R. destruct post as [|p' post] using rev_ind.
      * apply app_inj_tail in X. destruct X as [<- _]. rewrite I1 in R. injection R as <-. exact Before.
      * rewrite app_comm_cons, app_assoc in X. apply app_inj_tail in X. destruct X as [X _]. exact (I2 _ _ _ _ X R).
    + intros B. exists q'. left. f_equal.
      unfold comm_callback, u64_add in Ec. destruct (c_time cb + dt <? 2 ^ 64); [|discriminate].
      destruct (c_time cb + dt =? 0) eqn:Z; [apply N.eqb_eq in Z; injection Ec as <- _ _; cbn [c_time] in B; lia|].
      destruct (c_counter cb + 1 <? 2 ^ 64); [|discriminate]. injection Ec as <- _ <-. cbn [c_time] in B. apply N.leb_le. exact B.
    + intros q0 f [X|[X|X]] Ef; [injection X as -> ->|discriminate X|specialize (I4 _ _ X Ef); lia].
      unfold comm_callback, u64_add in Ec. destruct (c_time cb + dt <? 2 ^ 64); [|discriminate].
      destruct (c_time cb + dt =? 0) eqn:Z; [injection Ec as _ _ Y; congruence|].
      destruct (c_counter cb + 1 <? 2 ^ 64); [|discriminate]. injection Ec as <- _ Y. cbn [c_time]. apply N.leb_le. congruence.
Qed.
(** The calls of a control call of the program. *)
Lemma comm_calls : forall rots s r s', reachable s -> control (controller_of rots communication) comm_start s = (r, s') ->
  exists d, trace s' = d ++ trace s /\ parted d /\ lawful (d ++ trace s) /\ Forall proper d /\ spaced (rev (motion_calls d)) /\
    (torque_calls d = motion_calls d \/ r = Panic PCallback /\ exists x dt d', d = EvMotion x dt :: d').
Proof.
  intros rots s r s' R E. pose proof (reachable_I s R) as HI. set (k := controller_of rots communication) in *.
  destruct (control_parted k comm_start s) as (d & T & P). pose proof (control_I k comm_start s HI) as L.
  destruct (control_proper k comm_start s) as (d1 & T1 & P1). destruct (control_spaced k _ _ _ _ HI E) as (d2 & T2 & S2).
  destruct (paired_control k comm_start s ltac:(discriminate) (comm_endless rots)) as (d3 & T3 & S3).
  rewrite E in *. cbn [fst snd] in *. rewrite T in T1, T2, T3, L.
  apply app_inv_tail in T1. apply app_inv_tail in T2. apply app_inv_tail in T3. subst d1 d2 d3.
  exists d. repeat (split; [assumption|]). destruct S3 as [S3|[S3 (x & dt & d' & Ed & _)]]; [left; exact S3|right]. split; [exact S3|]. eauto.
Qed.
Lemma spaced_run : forall l c, spaced l -> run comm_start l = Some c ->
  c = comm_start \/ exists first counted, l = (first, 0) :: counted /\ spaced_from (rs_message_id first) counted /\ run comm_start counted = Some c.
Proof.
  intros [|[x dt] l] c S R; [left; injection R as <-; reflexivity|]. right. cbn [spaced] in S. destruct S as [-> S].
  exists x, l. split; [reflexivity|]. split; [exact S|]. cbn [run] in R. rewrite first_call in R. exact R.
Qed.

(** The mean of at most 10000 rates: one rounding below 2^14 per addition. *)
Definition mean (l : list R) : R := (fold_right Rplus 0 l / INR (List.length l))%R.
Lemma sum_close : forall l x k, b64_fin x = true -> (0 <= val x <= IZR k)%R -> (0 <= k)%Z -> (k + Z.of_nat (List.length l) <= 10000)%Z -> Forall rate_ok l ->
  (Rabs (val (fold_left (f_add float) l x) - (val x + fold_right Rplus 0 (map val l))) <= INR (List.length l) * bpow radix2 (-40))%R.
Proof.
  induction l as [|r l IH]; intros x k Fx Bx K L Rt.
  - cbn [fold_left map fold_right List.length INR]. rewrite Rplus_0_r, Rminus_diag_eq by reflexivity. rewrite Rabs_R0. lra.
  - inversion Rt as [|? ? R1 R2]; subst. cbn [fold_left map fold_right]. cbn [List.length] in L.
    destruct (sum_step x r k) as (F & B & V); [assumption|assumption|lia|assumption|].
    specialize (IH (f_add float x r) (k + 1)%Z F B ltac:(lia) ltac:(lia) R2).
    assert (E : (Rabs (val (f_add float x r) - (val x + val r)) <= bpow radix2 (-40))%R).
    { rewrite V. apply (rnd_error (val x + val r) 14); [lia|]. destruct R1 as [_ R1]. change (bpow radix2 14) with 16384%R.
      assert (IZR k <= 10000)%R by (apply IZR_le; lia). rewrite Rabs_pos_eq by lra. lra. }
    change (List.length (r :: l)) with (S (List.length l)). rewrite S_INR. set (t := fold_left (f_add float) l (f_add float x r)) in *.
    set (y := val (f_add float x r)) in *. set (b := bpow radix2 (-40)) in *. clearbody t y b. 
    apply Rabs_le_inv in IH. apply Rabs_le_inv in E. apply Rabs_le. lra.
Qed.
Lemma average_close : forall l, l <> [] -> (Z.of_nat (List.length l) <= 10000)%Z -> Forall rate_ok l ->
  (Rabs (val (f_div float (fold_left (f_add float) l (f_int float 0)) (of_u64 (N.of_nat (List.length l)))) - mean (map val l)) <= / 1000000000000)%R.
Proof.
  intros l Ne L Rt. destruct start_values as (F0 & V0 & _).
  assert (Pos : (1 <= Z.of_nat (List.length l))%Z) by (destruct l; [contradiction Ne; reflexivity|cbn [List.length]; lia]).
  destruct (sum_range l (f_int float 0) 0 F0 ltac:(rewrite V0; lra) ltac:(lia) ltac:(lia) Rt) as [F B].
  pose proof (sum_close l (f_int float 0) 0 F0 ltac:(rewrite V0; lra) ltac:(lia) ltac:(lia) Rt) as C. rewrite V0, Rplus_0_l in C.
  destruct (of_u64_ok (N.of_nat (List.length l))) as [Fn Vn]; [lia|]. rewrite nat_N_Z in Vn. rewrite rnd_int in Vn by lia.
  unfold mean. rewrite map_length. change (@List.length Bits.binary64 l) with (@List.length (NumOps.F float) l). rewrite INR_IZR_INZ in *. rewrite Z.add_0_l in *. set (n := Z.of_nat (List.length l)) in *.
  assert (Pn : (1 <= IZR n)%R) by (apply IZR_le; lia).
  set (sum := fold_left (f_add float) l (f_int float 0)) in *. set (m := of_u64 (N.of_nat (List.length l))) in *.
  set (total := fold_right Rplus 0%R (map val l)) in *. clearbody n sum m total.
  assert (Q : (0 <= val sum / val m <= 1)%R).
  { rewrite Vn. split; [apply Rmult_le_pos; [lra|left; apply Rinv_0_lt_compat; lra]|]. apply Rmult_le_reg_r with (IZR n); [lra|].
    unfold Rdiv. rewrite Rmult_assoc, Rinv_l by lra. lra. }
  destruct (div_ok sum m 0 F Fn) as [Fd Vd]; [lra|lia| |].
  { rewrite Rabs_pos_eq by lra. change (bpow radix2 0) with 1%R. lra. }
  change (f_div float) with (b64_div mode_NE). rewrite Vd.
  assert (E : (Rabs (rnd (val sum / val m) - val sum / val m) <= bpow radix2 (1 - 54))%R).
  { apply (rnd_error (val sum / val m) 1); [lia|]. change (bpow radix2 1) with 2%R. rewrite Rabs_pos_eq by lra. lra. }
  assert (D : (Rabs (val sum / val m - total / IZR n) <= bpow radix2 (-40))%R).
  { rewrite Vn. replace (val sum / IZR n - total / IZR n)%R with ((val sum - total) / IZR n)%R by (field; lra).
    unfold Rdiv. rewrite Rabs_mult, (Rabs_pos_eq (/ IZR n)) by (left; apply Rinv_0_lt_compat; lra).
    apply Rmult_le_reg_r with (IZR n); [lra|]. rewrite Rmult_assoc, Rinv_l, Rmult_1_r by lra. rewrite (Rmult_comm (bpow _ _)). exact C. }
  assert (B1 : (bpow radix2 (-40) = / 1099511627776)%R) by reflexivity. assert (B2 : (bpow radix2 (1 - 54) = / 9007199254740992)%R) by reflexivity.
  rewrite B1 in D. rewrite B2 in E. apply Rabs_le_inv in D. apply Rabs_le_inv in E. apply Rabs_le.
  set (a := rnd (val sum / val m)) in *. set (b := (val sum / val m)%R) in *. set (c := (total / IZR n)%R) in *. clearbody a b c.
  lra.
Qed.
(** The binary64 numbers next to 0.9 and 0.95. *)
Definition nine_tenths : R := (8106479329266893 / 9007199254740992)%R.
Definition nineteen_twentieths : R := (8556839292003942 / 9007199254740992)%R.
Definition deserved (average : R) (a : advice) : Prop :=
  match a with
  | NotSufficient => (average < nine_tenths)%R
  | ManyLost => (nine_tenths <= average < nineteen_twentieths)%R
  | GoodSetup => (nineteen_twentieths <= average)%R
  end.
Lemma lit_values : b64_fin (f_lit float 9 10) = true /\ val (f_lit float 9 10) = nine_tenths /\
  b64_fin (f_lit float 95 100) = true /\ val (f_lit float 95 100) = nineteen_twentieths.
Proof.
  assert (E1 : Binary.B2FF 53 1024 (f_lit float 9 10) = F754_finite false 8106479329266893 (-53)) by (vm_compute; reflexivity).
  assert (E2 : Binary.B2FF 53 1024 (f_lit float 95 100) = F754_finite false 8556839292003942 (-53)) by (vm_compute; reflexivity).
  apply val_finite in E1. apply val_finite in E2. destruct E1 as [F1 V1]. destruct E2 as [F2 V2]. rewrite V1, V2.
  split; [exact F1|]. split; [reflexivity|]. split; [exact F2|]. reflexivity.
Qed.
(** What the report should say: [first] is the state of the first call, which starts the clock, [counted] are the later calls. *)
Record faithful (first : robot_state_intern) (counted : list (robot_state_intern * N)) (r : report) : Prop := {
  fa_samples : rp_samples r = N.of_nat (List.length counted);
  fa_lost : rp_lost r = N.of_nat (List.length (missed (rs_message_id first) (newest_id counted (rs_message_id first)) (ids counted)));
  fa_max : Forall rate_ok (rates counted) -> In (val (rp_max r)) (map val (rates counted)) /\ Forall (fun x => (val x <= val (rp_max r))%R) (rates counted);
  fa_min : Forall rate_ok (rates counted) -> In (val (rp_min r)) (map val (rates counted)) /\ Forall (fun x => (val (rp_min r) <= val x)%R) (rates counted);
  fa_avg : Forall rate_ok (rates counted) -> rate_ok (rp_avg r);
  fa_mean : Forall rate_ok (rates counted) -> N.of_nat (List.length counted) <= 10000 ->
    (Rabs (val (rp_avg r) - mean (map val (rates counted))) <= / 1000000000000)%R;
  fa_advice : Forall rate_ok (rates counted) -> deserved (val (rp_avg r)) (rp_advice r);
  fa_good : Forall rate_ok (rates counted) -> Forall (fun x => val x = 1%R) (rates counted) -> val (rp_avg r) = 1%R /\ rp_advice r = GoodSetup
}.
Lemma lits : b64_fin (f_lit float 9 10) = true /\ (val (f_lit float 9 10) < 1)%R /\ b64_fin (f_lit float 95 100) = true /\ (val (f_lit float 95 100) < 1)%R.
Proof.
  assert (E1 : Binary.B2FF 53 1024 (f_lit float 9 10) = F754_finite false 8106479329266893 (-53)) by (vm_compute; reflexivity).
  assert (E2 : Binary.B2FF 53 1024 (f_lit float 95 100) = F754_finite false 8556839292003942 (-53)) by (vm_compute; reflexivity).
  apply val_finite in E1. apply val_finite in E2. destruct E1 as [F1 V1]. destruct E2 as [F2 V2]. rewrite V1, V2.
  split; [exact F1|]. split; [cbn; lra|]. split; [exact F2|]. cbn. lra.
Qed.
Lemma report_faithful : forall first counted c, spaced_from (rs_message_id first) counted -> run comm_start counted = Some c ->
  counted <> [] -> (Z.of_nat (List.length counted) <= 2 ^ 53)%Z -> exists r, comm_report c = Some r /\ faithful first counted r.
Proof.
  intros first counted c S R Ne Len. destruct (run_counts _ _ _ _ S R) as (C1 & C2 & C3 & C4 & C5 & C6 & C7).
  pose proof (missed_count _ _ S) as Mi. set (b := rs_message_id first) in *. cbn [comm_start c_time c_counter c_sum c_max c_min] in *.
  rewrite N.add_0_l in C1, C3. unfold comm_report, u64_sub.
  assert (Le : c_counter c <=? c_time c = true) by (apply N.leb_le; lia). rewrite Le. eexists. split; [reflexivity|].
  assert (NeR : rates counted <> []) by (destruct counted; [contradiction Ne; reflexivity|discriminate]).
  assert (LenR : List.length (rates counted) = List.length counted) by apply map_length.
  pose proof (average (rates counted) NeR) as A. rewrite LenR in A. specialize (A Len). destruct start_values as (F0 & V0 & F1 & V1).
  rewrite <- C3, <- C5 in A.
  assert (R0 : rate_ok (f_int float 0)) by (split; [exact F0|rewrite V0; lra]).
  assert (R1 : rate_ok (f_int float 1)) by (split; [exact F1|rewrite V1; lra]).
  split; cbn [rp_samples rp_lost rp_max rp_min rp_avg rp_advice].
  - exact C3.
  - rewrite C1, C3. fold b. lia.
  - intros Ok. destruct (greatest (rates counted) (f_int float 0) R0 Ok) as (G1 & G2 & G3 & G4). unfold greater in *. rewrite <- C6 in *.
    split; [|exact G3]. destruct G4 as [G4|G4]; [|apply in_map; exact G4].
    destruct (rates counted) as [|x l] eqn:Er; [contradiction NeR; reflexivity|]. left. apply Forall_inv in G3. apply Forall_inv in Ok.
    destruct Ok as [_ Ok]. rewrite G4, V0 in *. lra.
  - intros Ok. destruct (least (rates counted) (f_int float 1) R1 Ok) as (G1 & G2 & G3 & G4). unfold smaller in *. rewrite <- C7 in *.
    split; [|exact G3]. destruct G4 as [G4|G4]; [|apply in_map; exact G4].
    destruct (rates counted) as [|x l] eqn:Er; [contradiction NeR; reflexivity|]. left. apply Forall_inv in G3. apply Forall_inv in Ok.
    destruct Ok as [_ Ok]. rewrite G4, V1 in *. lra.
  - intros Ok. apply A, Ok.
  - intros Ok Few. rewrite C3, C5. rewrite <- LenR. apply average_close; [exact NeR|rewrite LenR; lia|exact Ok].
  - intros Ok. destruct (A Ok) as [[Fa _] _].
    set (avg := f_div float (c_sum c) (of_u64 (c_counter c))) in *. clearbody avg.
    destruct lit_values as (L1 & L2 & L3 & L4). change (f_lt float) with b64_lt. rewrite !lt_fin by assumption. rewrite L2, L4. unfold deserved.
    destruct (Rlt_bool_spec (val avg) nine_tenths); [assumption|]. destruct (Rlt_bool_spec (val avg) nineteen_twentieths); [split|]; assumption.
  - intros Ok Ones. destruct (A Ok) as [[Fa _] A1]. specialize (A1 Ones).
    set (avg := f_div float (c_sum c) (of_u64 (c_counter c))) in *. clearbody avg. split; [exact A1|].
    destruct lits as (L1 & L2 & L3 & L4). change (f_lt float) with b64_lt. rewrite !lt_fin by assumption. rewrite A1.
    rewrite !Rlt_bool_false by lra. reflexivity.
Qed.

(** C69: if the torque motion of communication_test succeeds it ended with the first call ten seconds after the first one, and the
    report is right: the samples are the calls after the first, the lost states are the milliseconds without a call, the
    greatest and least rates are those seen, the average is a rate, and a perfect connection gets no warning. *)
Theorem C69_statistics : forall rots s u s', reachable s -> control (controller_of rots communication) comm_start s = (Ok u, s') ->
  exists d c m first counted r, trace s' = d ++ trace s /\
    replays (controller_of rots communication) comm_start d c m /\
    rev (torque_calls d) = (first, 0) :: counted /\ rev (motion_calls d) = (first, 0) :: counted /\
    spaced_from (rs_message_id first) counted /\
    10000 <= newest_id counted (rs_message_id first) - rs_message_id first /\
    (forall pre p post, counted = pre ++ p :: post -> newest_id pre (rs_message_id first) - rs_message_id first < 10000) /\
    (1 <= List.length counted)%nat /\ N.of_nat (List.length counted) <= 10000 /\
    comm_report c = Some r /\ faithful first counted r.
Proof.
  intros rots s u s' R E. set (k := controller_of rots communication) in *.
  destruct (comm_calls rots s _ _ R E) as (d & T & P & L & _ & S & [C|[X _]]); [|discriminate X].
  destruct (C56_threaded k _ _ _ _ E) as (d1 & T1 & [(c & m & H)|[X _]]); [|discriminate X].
  rewrite T in T1. apply app_inv_tail in T1. subst d1.
  destruct (comm_run rots (trace s) d c m H P L) as (R1 & R2 & R3 & R4). rewrite <- C in S.
  destruct (C17_until_stopped k _ _ _ _ R E) as [Cm _]. rewrite T in Cm.
  assert (Late : 10000 <= c_time c).
  { pose proof (control_requests k comm_start s R) as Rq. rewrite E in Rq. rewrite T, requests_app in Rq.
    assert (Rd : requests d = [ReqMove (wanted_ctrl k) (k_mode k) default_deviation default_deviation]).
    { apply (app_inv_tail (requests (trace s))). exact Rq. }
    unfold completed in Cm. apply existsb_exists in Cm. destruct Cm as (e & Ie & Fe). apply this_motion_prefix in Ie.
    2:{ rewrite Rd. discriminate. }
    2:{ intros r Hr. rewrite Rd in Hr. destruct Hr as [<-|[]]. do 4 eexists. reflexivity. }
    destruct e as [| | | | | |m0 f| |q f|]; try discriminate Fe.
    - exfalso. cbn [final] in Fe. subst f. clear - H Ie. subst k.
      induction H as [|e d cb m Q H IH|d cb m x dt cb' out m' H IH E C|torque d cb m x dt cb' q fin q' H IH T].
      + contradiction.
      + destruct Ie as [->|Ie]; [contradiction Q|exact (IH Ie)].
      + destruct Ie as [Ie|[Ie|Ie]]; [|discriminate Ie|exact (IH Ie)].
        rewrite (comm_endless rots _ _ _ _ _ E) in Ie. discriminate Ie.
      + destruct Ie as [Ie|[Ie|Ie]]; [discriminate Ie|discriminate Ie|exact (IH Ie)].
    - exact (R4 q f Ie Fe). }
  destruct (spaced_run _ _ S R1) as [->|(first & counted & El & Sc & Rc)]; [cbn in Late; lia|].
  destruct (run_counts _ _ _ _ Sc Rc) as (C1 & C2 & C3 & C4 & _). cbn [comm_start c_time c_counter] in C1, C3. rewrite N.add_0_l in C1, C3.
  assert (Early : forall pre p post, counted = pre ++ p :: post -> newest_id pre (rs_message_id first) - rs_message_id first < 10000).
  { intros pre p post Ep. rewrite Ep in Rc, Sc. rewrite run_app in Rc. destruct (run comm_start pre) as [c'|] eqn:Rp; [|discriminate Rc].
    assert (Sp : spaced_from (rs_message_id first) pre).
    { clear - Sc. revert Sc. generalize (rs_message_id first). induction pre as [|[x dt] pre IH]; intros b Sc; [exact Logic.I|].
      cbn [app spaced_from] in *. destruct Sc as (A & B & D). auto. }
    destruct (run_counts _ _ _ _ Sp Rp) as (D1 & _). cbn [comm_start c_time] in D1. rewrite N.add_0_l in D1. rewrite <- D1.
    apply (R2 ((first, 0) :: pre) p post c'); [rewrite El, Ep; reflexivity|]. cbn [run]. rewrite first_call. exact Rp. }
  assert (Ne : counted <> []) by (intros ->; cbn in C1; unfold newest_id in C1; cbn in C1; lia).
  assert (Len : N.of_nat (List.length counted) <= 10000).
  { destruct counted as [|p l] using rev_ind; [contradiction Ne; reflexivity|]. clear IHl. specialize (Early l p [] eq_refl).
    assert (Sp : spaced_from (rs_message_id first) l).
    { clear - Sc. revert Sc. generalize (rs_message_id first). induction l as [|[x dt] pre IH]; intros b Sc; [exact Logic.I|].
      cbn [app spaced_from] in *. destruct Sc as (A & B & D). auto. }
    pose proof (missed_count _ _ Sp) as Mi. rewrite app_length. cbn [List.length]. lia. }
  destruct (report_faithful first counted c Sc Rc Ne) as (r & Er & Fr).
  { apply Z.le_trans with 10000%Z; [lia|]. change (10000 <= 9007199254740992)%Z. lia. }
  exists d, c, m, first, counted, r. rewrite <- C. split; [exact T|]. split; [exact H|]. split; [exact El|]. split; [exact El|].
  split; [exact Sc|]. split; [lia|]. split; [exact Early|]. split; [destruct counted; [contradiction Ne; reflexivity|cbn; lia]|]. auto.
Qed.
Print Assumptions C69_statistics.

(** The callback never panics: the counters do not overflow and the zeros it returns are accepted. *)
Lemma comm_convert : forall rots x m, k_convert (controller_of rots communication) (MotionOut (repeat 0 7) None false) x m <> None.
Proof.
  intros rots x m. cbn [controller_of k_convert]. unfold convert_motion. change (u_generator communication) with MmJointVelocity. cbv iota.
  unfold convert_joint_velocities.
  assert (Fl : forall l, filtered float (of_bits (cutoff_of communication)) (map of_bits (o_values (MotionOut (repeat 0 7) None false))) l =
    Some (map of_bits (repeat 0 7))).
  { intros l. unfold filtered. assert (E : f_lt float (of_bits (cutoff_of communication)) (MAX_CUTOFF_FREQUENCY float) = false) by (vm_compute; reflexivity).
    rewrite E. reflexivity. }
  rewrite Fl. cbn [then_]. change (limit_of communication) with false. unfold limited. cbn [then_].
  assert (Fi : finite float (map of_bits (repeat 0 7)) = Some (map of_bits (repeat 0 7))) by (vm_compute; reflexivity).
  rewrite Fi. discriminate.
Qed.
Lemma comm_filter : forall rots x, k_filter (controller_of rots communication) no_torques x <> None.
Proof.
  intros rots x. cbn [controller_of k_filter]. unfold filter_torques, convert_torques.
  assert (Fl : forall l, filtered float (of_bits (cutoff_of communication)) (map of_bits no_torques) l = Some (map of_bits no_torques)).
  { intros l. unfold filtered. assert (E : f_lt float (of_bits (cutoff_of communication)) (MAX_CUTOFF_FREQUENCY float) = false) by (vm_compute; reflexivity).
    rewrite E. reflexivity. }
  rewrite Fl. cbn [then_]. change (limit_of communication) with false. unfold limited. cbn [then_].
  assert (Fi : finite float (map of_bits no_torques) = Some (map of_bits no_torques)) by (vm_compute; reflexivity).
  rewrite Fi. discriminate.
Qed.
Lemma comm_returns : forall c x dt, c_time c + dt < 2 ^ 64 -> c_counter c <= c_time c -> (c_time c = 0 \/ 1 <= dt) ->
  exists c' fin, comm_callback c x dt = Some (c', (no_torques, fin)).
Proof.
  intros c x dt H1 H2 H3. unfold comm_callback, u64_add. assert (A : c_time c + dt <? 2 ^ 64 = true) by (apply N.ltb_lt; exact H1). rewrite A.
  destruct (c_time c + dt =? 0) eqn:Z; [eauto|]. apply N.eqb_neq in Z.
  assert (B : c_counter c + 1 <? 2 ^ 64 = true) by (apply N.ltb_lt; lia). rewrite B. eauto.
Qed.
Lemma spaced_before : forall l x dt, spaced (l ++ [(x, dt)]) -> spaced l /\
  match l with [] => dt = 0 | (first, _) :: r => 1 <= dt /\ rs_message_id x = newest_id r (rs_message_id first) + dt end.
Proof.
  intros [|[f df] l] x dt S; cbn [app spaced] in *; [split; [exact Logic.I|apply S]|]. destruct S as [D S].
  assert (A : spaced_from (rs_message_id f) l /\ 1 <= dt /\ rs_message_id x = newest_id l (rs_message_id f) + dt).
  { revert S. generalize (rs_message_id f). induction l as [|[y dy] l IH]; intros b S; cbn [app spaced_from] in *.
    - unfold newest_id. cbn [rev]. tauto.
    - destruct S as (S1 & S2 & S3). rewrite newest_id_cons. cbn [fst]. destruct (IH _ S3) as (I1 & I2 & I3). tauto. }
  split; [split; [exact D|apply A]|apply A].
Qed.
Theorem C69_no_panic : forall rots s s', reachable s -> control (controller_of rots communication) comm_start s <> (Panic PCallback, s').
Proof.
  intros rots s s' R E. set (k := controller_of rots communication) in *.
  destruct (comm_calls rots s _ _ R E) as (d & T & P & L & Pr & S & C).
  destruct (C56_callback_panic k _ _ _ _ E) as (d1 & T1 & H). rewrite T in T1. apply app_inv_tail in T1. subst d1.
  apply proj1 in H. destruct (H eq_refl) as [(d' & c & m & x & dt & -> & Q & F)|(torque & d' & c & m & x & dt & -> & Q & Et & F)].
  - refine (comm_convert rots x m _). apply (F c). reflexivity.
  - assert (torque = comm_callback) by (injection Et as <-; reflexivity). subst torque.
    destruct C as [C|[_ (x1 & dt1 & d1 & X)]]; [|discriminate X]. rewrite <- C in S.
    cbn [torque_calls flat_map app rev] in S. change (flat_map _ d') with (torque_calls d') in S.
    destruct (comm_run rots (trace s) d' c m Q (parted_tail _ _ P) (proj2 L)) as (R1 & _).
    (* the state of the call *)
    assert (Ok : state_ok x).
    { destruct L as [(_ & m1 & t1 & Ed) L]. rewrite Ed in L. destruct L as (_ & (_ & _ & t2 & Ex & _) & _).
      assert (In (EvState x) (d' ++ trace s)) by (rewrite Ed, Ex; right; right; left; reflexivity).
      apply in_app_iff in H0. destruct H0 as [I|I]; [|exact (reachable_states s R x I)].
      inversion Pr as [|? ? _ Pr']. rewrite Forall_forall in Pr'. exact (Pr' _ I). }
    assert (Id : rs_message_id x < 2 ^ 64) by apply Ok. clear Ok.
    destruct (spaced_before _ _ _ S) as [S1 S2].
    assert (Ret : exists c' fin, comm_callback c x dt = Some (c', (no_torques, fin))).
    { destruct (spaced_run _ _ S1 R1) as [->|(first & counted & El & Sc & Rc)].
      - destruct (rev (torque_calls d')) as [|[f df] l] eqn:El.
        + subst dt. apply comm_returns; cbn; lia.
        + destruct S2 as [S2 S3]. apply comm_returns; cbn [comm_start c_time c_counter]; [lia|lia|left; reflexivity].
      - rewrite El in S2. destruct S2 as [S2 S3]. destruct (run_counts _ _ _ _ Sc Rc) as (C1 & C2 & C3 & C4 & _).
        pose proof (missed_count _ _ Sc) as Mi. cbn [comm_start c_time c_counter] in *. apply comm_returns; lia. }
    destruct Ret as (c' & fin & Ret). exact (comm_filter rots x (F _ _ _ Ret)).
Qed.
Print Assumptions C69_no_panic.
(** The callbacks end with the first state ten seconds after the first one. *)
Lemma comm_cycle : forall rots c x dt m c' fin, comm_callback c x dt = Some (c', (no_torques, fin)) ->
  exists m', cycle (controller_of rots communication) c x dt m = Some (c', m', negb fin).
Proof.
  intros rots c x dt m c' fin E. unfold cycle. change (k_motion (controller_of rots communication) c x dt) with (Some (c, MotionOut (repeat 0 7) None false)).
  cbv iota. pose proof (comm_convert rots x m) as Nc. destruct (k_convert _ _ x m) as [m'|]; [|contradiction Nc; reflexivity].
  change (k_torque (controller_of rots communication)) with (Some comm_callback). change (k_finished (controller_of rots communication) _) with false.
  cbv iota. rewrite E. pose proof (comm_filter rots x) as Nf. destruct (k_filter _ no_torques x) as [q|]; [|contradiction Nf; reflexivity]. eauto.
Qed.
Lemma comm_finishes : forall rots b xs lst c before m, c_time c = before - b -> b <= before -> c_counter c <= c_time c ->
  newer before (xs ++ [lst]) -> Forall (fun x => rs_message_id x < b + 10000) xs -> b + 10000 <= rs_message_id lst < 2 ^ 64 ->
  finishes (controller_of rots communication) c before m (xs ++ [lst]).
Proof.
  intros rots b. induction xs as [|x xs IH]; intros lst c before m Ht Hb Hc Nw F L.
  - cbn [app newer finishes] in *. destruct Nw as [Nw _].
    assert (E : exists c', comm_callback c lst (rs_message_id lst - before) = Some (c', (no_torques, true))).
    { unfold comm_callback, u64_add. assert (A : c_time c + (rs_message_id lst - before) <? 2 ^ 64 = true) by (apply N.ltb_lt; lia). rewrite A.
      assert (Z : c_time c + (rs_message_id lst - before) =? 0 = false) by (apply N.eqb_neq; lia). rewrite Z.
      assert (B : c_counter c + 1 <? 2 ^ 64 = true) by (apply N.ltb_lt; lia). rewrite B. eexists. do 3 f_equal. apply N.leb_le. lia. }
    destruct E as [c' E]. destruct (comm_cycle rots c lst _ m c' true E) as [m' ->]. reflexivity.
  - cbn [app newer finishes] in *. destruct Nw as [N1 Nw]. inversion F as [|? ? Fx F']; subst.
    assert (E : exists c', comm_callback c x (rs_message_id x - before) = Some (c', (no_torques, false)) /\ c_time c' = rs_message_id x - b /\ c_counter c' <= c_time c').
    { unfold comm_callback, u64_add. assert (A : c_time c + (rs_message_id x - before) <? 2 ^ 64 = true) by (apply N.ltb_lt; lia). rewrite A.
      assert (Z : c_time c + (rs_message_id x - before) =? 0 = false) by (apply N.eqb_neq; lia). rewrite Z.
      assert (B : c_counter c + 1 <? 2 ^ 64 = true) by (apply N.ltb_lt; lia). rewrite B. eexists. split; [do 3 f_equal; apply N.leb_gt; lia|cbn [c_time c_counter]; split; lia]. }
    destruct E as (c' & E & Ec1 & Ec2). destruct (comm_cycle rots c x _ m c' false E) as [m' ->]. cbn [negb].
    apply IH; try assumption. lia.
Qed.
(** With a robot which does its part for ten seconds the test succeeds and prints a report which is right, whatever states are lost. *)
Theorem C69_succeeds : forall rots o calls lst us urest ts trest s, reachable s -> ready (us ++ urest) (ts ++ trest) s ->
  let k := controller_of rots communication in let b := rs_message_id (mo_first o) in
  feeds (r_message_id s) (all_states o) us ->
  (exists t1 t2, answer (n_id s) MsMotionStarted t1 /\ answer (n_id s) MsSuccess t2 /\
     ts = t1 ++ repeat None (S (List.length (mo_before o))) ++ t2) ->
  Forall (fun x => ~ as_requested k x) (mo_before o) -> as_requested k (mo_shown o) ->
  Forall (fun x => rs_robot_mode x = RmMove /\ as_requested k x) (run_states o) ->
  Forall in_motion (mo_ending o) -> stopped (mo_last o) ->
  mo_during o = calls ++ [lst] -> newer b (mo_during o) -> Forall (fun x => rs_message_id x < b + 10000) calls ->
  b + 10000 <= rs_message_id lst < 2 ^ 64 ->
  exists s' d c m r, control k comm_start s = (Ok tt, s') /\ trace s' = d ++ trace s /\ replays k comm_start d c m /\
    comm_report c = Some r /\ faithful (mo_first o) (steps b (mo_during o)) r.
Proof.
  intros rots o calls lst us urest ts trest s R Rd k b Fe Ts Be Sh Ru En La Du Nw Ca Li.
  assert (Co : cooperates k comm_start (n_id s) (r_message_id s) o us ts).
  { split; try assumption. unfold run_states. cbn [finishes]. rewrite N.sub_diag.
    assert (E : comm_callback comm_start (mo_first o) 0 = Some (comm_start, (no_torques, false))) by reflexivity.
    destruct (comm_cycle rots _ _ _ zero_motion _ _ E) as [m' Em]. fold k in Em. rewrite Em. cbn [negb]. rewrite Du.
    apply (comm_finishes rots b); cbn [comm_start c_time c_counter]; try assumption; try lia. fold b. rewrite <- Du. exact Nw. }
  destruct (C61_control k comm_start o us urest ts trest s Rd Co) as (s' & E & _ & _ & _ & d & T & _ & Mc & _).
  destruct (C69_statistics rots s tt s' R E) as (d1 & c & m & first & counted & r & T1 & Rp & _ & Mc1 & _ & _ & _ & _ & _ & Er & Fr).
  rewrite T in T1. apply app_inv_tail in T1. subst d1. exists s', d, c, m, r. repeat (split; [assumption|]).
  unfold run_states in Mc. cbn [steps] in Mc. rewrite Mc in Mc1. injection Mc1 as M1 _ M2. subst first counted. exact Fr.
Qed.
Print Assumptions C69_succeeds.
(** echo_robot_state: if it succeeds 101 states, all new ones, have been given to the callback; it never sends anything. *)
Lemma echo_feed : forall xs n n', feed echo_callback n xs n' -> n' = n + N.of_nat (List.length xs) /\ (xs <> [] -> n' <= 100).
Proof.
  intros xs n n' H. induction H as [n|n x n1 xs n2 E H [I1 I2]]; [split; [cbn; lia|intros X; contradiction X; reflexivity]|].
  unfold echo_callback in E. injection E as <- E. apply N.leb_le in E. cbn [List.length]. split; [lia|]. intros _. destruct xs; [|apply I2; discriminate].
  cbn in I1. lia.
Qed.
Theorem C69_echo : forall s, reachable s ->
  match echo_robot_state s with
  | (Ok n, s') => exists xs, trace s' = given xs ++ trace s /\ List.length xs = 101%nat /\ n = 101
  | (Err e, s') => exists xs, trace s' = given xs ++ trace s /\ (List.length xs <= 100)%nat /\ exists x, e = NetworkException x
  | (Panic p, s') => p = PDecodeUdp /\ exists xs, trace s' = given xs ++ trace s /\ (List.length xs <= 100)%nat
  | _ => False
  end.
Proof.
  intros s R. pose proof (C48_read_loop N echo_callback 0 s R) as H. unfold echo_robot_state.
  assert (Len : forall xs n', feed echo_callback 0 xs n' -> (List.length xs <= 100)%nat).
  { intros xs n' F. destruct (echo_feed _ _ _ F) as [A B]. destruct xs as [|x xs]; [cbn; lia|]. specialize (B ltac:(discriminate)). lia. }
  destruct (robot_read echo_callback 0 s) as [[n|e|p| |] s'].
  - destruct H as (xs & x & k1 & T & F & E). exists (xs ++ [x]). split; [exact T|].
    pose proof (Len _ _ F) as L. destruct (echo_feed _ _ _ F) as [A B]. unfold echo_callback in E. injection E as E1 E2. apply N.leb_gt in E2.
    rewrite app_length. cbn [List.length]. split; lia.
  - destruct H as (xs & k1 & T & F & E). exists xs. split; [exact T|]. split; [exact (Len _ _ F)|exact E].
  - destruct H as [(-> & xs & k1 & T & F)|(_ & xs & x & k1 & _ & _ & E)]; [|discriminate E]. split; [reflexivity|]. exists xs. split; [exact T|exact (Len _ _ F)].
  - exact H.
  - exact H.
Qed.
Print Assumptions C69_echo.

(** A run with a robot which sends few states: four calls counted, ten thousand milliseconds lost. *)
Definition ex_mv (id : N) : robot_state_intern := ex_moving (repeat 0 7) id.
Definition ex_test : motion :=
  Motion [ex_idle 3] (ex_mv 4) (ex_mv 6) [ex_mv 7; ex_mv 5004; ex_mv 10005; ex_mv 10010] [ex_mv 10011] (ex_idle 10012).
Definition ex_env_test : st :=
  st_init 10 RtIgnore (ex_first (ex_idle 1) ++ ex_states (all_states ex_test))
    [ex_connected 0; ex_move 1 MsMotionStarted; None; None; ex_move 1 MsSuccess] [] true true.
Example C69_ex_run : match control (controller_of ex_rots communication) comm_start (after_new ex_env_test) with
  | (Ok _, s') => map (fun p => (rs_message_id (fst p), snd p)) (rev (torque_calls (trace s'))) = [(6, 0); (7, 1); (5004, 4997); (10005, 5001); (10010, 5)]
  | _ => False
  end.
Proof. vm_compute. reflexivity. Qed.
Example C69_ex_report : match run comm_start (steps 6 (run_states ex_test)) with
  | Some c => match comm_report c with
              | Some r => rp_lost r = 10000 /\ rp_samples r = 4 /\ rp_advice r = GoodSetup /\ bits (rp_avg r) = 0x3FF0000000000000
              | None => False
              end
  | None => False
  end.
Proof. vm_compute. auto. Qed.
Example C69_ex_succeeds : exists us ts s, reachable s /\ ready (us ++ []) (ts ++ []) s /\
  let o := ex_test in let k := controller_of ex_rots communication in let b := rs_message_id (mo_first o) in
  feeds (r_message_id s) (all_states o) us /\
  (exists t1 t2, answer (n_id s) MsMotionStarted t1 /\ answer (n_id s) MsSuccess t2 /\
     ts = t1 ++ repeat None (S (List.length (mo_before o))) ++ t2) /\
  Forall (fun x => ~ as_requested k x) (mo_before o) /\ as_requested k (mo_shown o) /\
  Forall (fun x => rs_robot_mode x = RmMove /\ as_requested k x) (run_states o) /\
  Forall in_motion (mo_ending o) /\ stopped (mo_last o) /\
  newer b (mo_during o) /\ Forall (fun x => rs_message_id x < b + 10000) [ex_mv 7; ex_mv 5004; ex_mv 10005] /\
  b + 10000 <= rs_message_id (ex_mv 10010) < 2 ^ 64.
Proof.
  pose (us := ex_states (all_states ex_test)). pose (ts := [ex_move 1 MsMotionStarted; None; None; ex_move 1 MsSuccess]).
  destruct (C61_connect 1337 10 RtIgnore (ex_idle 1) (ex_first (ex_idle 1)) 5 [ex_connected 0] us ts true true) as (s & E & R & Id & Ms).
  - lia.
  - left. reflexivity.
  - first_brought.
  - split; [reflexivity|discriminate].
  - eapply (ex_answered _ _ _ 0). reflexivity.
  - exists us, ts, s. rewrite !app_nil_r. split; [eapply reach_new; exact E|]. split; [exact R|]. cbv zeta. rewrite Id, Ms.
    split; [apply ex_feeds; [cbn; repeat split|repeat constructor; decodes]|].
    split.
    { exists [ex_move 1 MsMotionStarted], [ex_move 1 MsSuccess].
      split; [eapply (ex_answered _ _ _ 0); reflexivity|]. split; [eapply (ex_answered _ _ _ 0); reflexivity|reflexivity]. }
    split; [repeat constructor; intros [X _]; discriminate X|]. split; [split; reflexivity|].
    split; [repeat constructor|]. split; [repeat constructor; left; discriminate|]. split; [split; [reflexivity|discriminate]|].
    split; [cbn; repeat split|]. split; [repeat constructor|]. split; [discriminate|reflexivity].
Qed.
(** 101 states and the rest is left. *)
Example C69_ex_echo : let s := after_new (st_init 10 RtIgnore (ex_first (ex_idle 1) ++ ex_states (map (fun n => ex_idle (N.of_nat n)) (seq 2 103)))
             [ex_connected 0] [] true true) in
  match echo_robot_state s with
  | (Ok n, s') => n = 101 /\ List.length (shown (trace s')) = 101%nat /\ List.length (n_usched s') = 8%nat
  | _ => False
  end.
Proof. vm_compute. auto. Qed.
