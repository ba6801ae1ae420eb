(** C56: callbacks keep their state between calls; C57: torque control; C58: joint motions. *)
From Coq Require Import List NArith ZArith Bool Arith Lia String.
From Flocq Require Import IEEE754.BinarySingleNaN IEEE754.Binary IEEE754.Bits.
From Verif Require Import Bytes Codec NumOps NumFloat FloatFacts RateModel ConvertModel WireModel WireSpec UdpModel RobotModel LoopModel
  RobotSpec RobotProofs RobotWp LoopProofs Effects RobotMore RobotCalls Outputs TypedModel TypedSpec TypedProofs ConvertFacts MotionModel
  JointMotionModel RobotScenario ReplaySpec ReplayProofs Properties_Robot Properties_Convert.
Import ListNotations.
Open Scope list_scope.
Open Scope N_scope.

(** * C56 *)
Theorem C56_threaded : forall k cb s r s', control k cb s = (r, s') -> exists d, trace s' = d ++ trace s /\
  ((exists cb' m, replays k cb d cb' m) \/ (r = Panic PCallback /\ (motion_panics k cb d \/ torque_panics k cb d))).
Proof. intros k cb s r s' E. pose proof (told_control k cb s) as T. rewrite E in T.
  destruct T as (d & T & [[_ H]|H]); exists d; split; [exact T|left; exact H|exact T|right; exact H].
Qed.
Print Assumptions C56_threaded.
(** The call panics on behalf of a callback exactly if the newest event is a call which did not return or whose output was
    refused; every call before it returned. *)
Theorem C56_callback_panic : forall k cb s r s', control k cb s = (r, s') -> exists d, trace s' = d ++ trace s /\
  (r = Panic PCallback <-> motion_panics k cb d \/ torque_panics k cb d).
Proof.
  intros k cb s r s' E. pose proof (told_control k cb s) as T. rewrite E in T. destruct T as (d & T & H). exists d. split; [exact T|].
  cbn [fst] in H. destruct H as [(N & c & m & H)|[-> H]]; [|tauto]. split; [intros X; contradiction (N X)|].
  intros [(d' & cb' & m' & x & dt & -> & _)|(torque & d' & cb' & m' & x & dt & -> & _)]; inversion H; subst; contradiction.
Qed.
Print Assumptions C56_callback_panic.

(** Without torque callback the outputs are a function of the states and time steps given to the callback. *)
Fixpoint answers (k : controller) (cb : k_cb k) (m : motion_command) (calls : list (robot_state_intern * N)) :
  list (motion_command * bool) :=
  match calls with
  | [] => []
  | (x, dt) :: rest =>
      match k_motion k cb x dt with
      | None => []
      | Some (cb', out) =>
          match k_convert k out x m with
          | None => []
          | Some m' => (marked (mc_finished m) m', k_finished k out) :: answers k cb' (marked (mc_finished m) m') rest
          end
      end
  end.
Lemma outputs_app : forall a b, motion_outputs (a ++ b) = motion_outputs a ++ motion_outputs b.
Proof. intros. apply flat_map_app. Qed.
Lemma replays_answers : forall k cb0 d cb m, k_torque k = None -> replays k cb0 d cb m -> forall l,
  answers k cb0 zero_motion (rev (motion_calls d) ++ l) = rev (motion_outputs d) ++ answers k cb m l.
Proof.
  intros k cb0 d cb m NT H. induction H as [|e d cb m Q H IH|d cb m x dt cb' out m' H IH E C|torque d cb m x dt cb' q fin q' H IH T]; intros l.
  - reflexivity.
  - destruct e; cbn in Q; try contradiction; exact (IH l).
  - cbn [motion_calls motion_outputs flat_map app rev]. rewrite <- !app_assoc.
    etransitivity; [apply (IH ([(x, dt)] ++ l))|]. f_equal. cbn [app answers]. rewrite E, C. reflexivity.
  - congruence.
Qed.
Theorem C56_function_of_states : forall k cb s r s', k_torque k = None -> control k cb s = (r, s') ->
  exists d, trace s' = d ++ trace s /\ rev (motion_outputs d) = answers k cb zero_motion (rev (motion_calls d)) /\
    (r <> Panic PCallback -> List.length (motion_outputs d) = List.length (motion_calls d)).
Proof.
  intros k cb s r s' NT E. destruct (C56_threaded _ _ _ _ _ E) as (d & T & H). exists d. split; [exact T|].
  assert (Len : forall d cb' m, replays k cb d cb' m -> List.length (motion_outputs d) = List.length (motion_calls d)).
  { clear. intros d cb' m H. induction H as [|e d cb1 m Q H IH|d cb1 m x dt cb' out m' H IH E C|torque d cb1 m x dt cb' q fin q' H IH T];
      cbn; auto. destruct e; cbn in Q; try contradiction; exact IH. }
  destruct H as [(cb' & m & R)|[P [(d' & cb' & m & x & dt & -> & R & N)|(torque & ? & ? & ? & ? & ? & _ & _ & T' & _)]]].
  - split; [|intros _; eapply Len; exact R]. pose proof (replays_answers _ _ _ _ _ NT R []) as A. rewrite !app_nil_r in A. symmetry. exact A.
  - split; [|contradiction]. cbn [motion_calls motion_outputs flat_map app rev].
    etransitivity; [|symmetry; apply (replays_answers _ _ _ _ _ NT R [(x, dt)])].
    cbn [answers]. destruct (k_motion k cb' x dt) as [[cb2 out]|] eqn:Em; [rewrite (N _ _ eq_refl)|]; symmetry; apply app_nil_r.
  - congruence.
Qed.
Print Assumptions C56_function_of_states.

(** Three calls of a counting callback: the third reports completion. *)
Example C56_ex : let d := trace (snd (control (controller_of ex_rots ex_twist) 0 (after_new ex_env_twist))) in
  map (fun p => (rs_message_id (fst p), snd p)) (rev (motion_calls d)) = [(4, 0); (5, 1); (8, 3)] /\
  map snd (rev (motion_outputs d)) = [false; false; true] /\
  fst (control (controller_of ex_rots ex_twist) 0 (after_new ex_env_twist)) = Ok tt.
Proof. vm_compute. auto. Qed.

(** * C57 *)
(** Control calls which only give torques. *)
Definition torque_only (u : user_control) : Prop := exists K torque limit cutoff, u = control_torques K torque limit cutoff.
(** +0 or -0 *)
Definition zero_bits (b : N) : Prop := b = 0 \/ b = 2 ^ 63.
(** No joint is supposed to move. *)
Definition at_rest (x : robot_state_intern) : Prop := rs_dq_d x = repeat 0 7 /\ rs_ddq_d x = repeat 0 7.
Definition still (m : motion_command) : Prop :=
  mc_q_c m = repeat 0 7 /\ List.length (mc_dq_c m) = 7%nat /\ Forall zero_bits (mc_dq_c m) /\
  mc_O_T_EE_c m = repeat 0 16 /\ mc_O_dP_EE_c m = repeat 0 6 /\ mc_elbow_c m = [0; 0] /\ mc_valid_elbow m = false.

Definition zeroish (x : F float) : Prop := match (x : binary64) with B754_zero _ _ _ | B754_nan _ _ _ _ _ => True | _ => False end.
Lemma zeroish_mult : forall x y : F float, zeroish y -> zeroish (f_mul float x y).
Proof. intros x y. destruct x, y; try (intros []; fail); intros _; exact Logic.I. Qed.
Lemma zeroish_plus : forall x y : F float, zeroish x -> zeroish y -> zeroish (f_add float x y).
Proof.
  intros x y. destruct x, y; try (intros []; fail); try (intros _ []; fail); intros _ _; try exact Logic.I.
  destruct s, s0; exact Logic.I.
Qed.
Lemma zeroish_zero : forall x : F float, zeroish x -> f_finite float x = true -> exists s, x = B754_zero 53 1024 s.
Proof. intros x. destruct x; cbn; try contradiction; try discriminate. intros _ _. eexists. reflexivity. Qed.
Definition fz : F float := of_bits 0.
Lemma zero_zeroish : zeroish fz.
Proof. exact Logic.I. Qed.
Lemma filter_zero : forall c y, low_pass_filter float (DELTA_T float) fz fz c = Some y -> zeroish y.
Proof.
  intros c y. unfold low_pass_filter. do 3 match goal with |- (if ?b then _ else _) = _ -> _ => destruct b; [|discriminate] end.
  cbv zeta. generalize (filter_gain float (DELTA_T float) c). intros g E.
  assert (Y : y = f_add float (f_mul float g fz) (f_mul float (f_sub float (f_int float 1) g) fz)) by congruence.
  rewrite Y. exact (zeroish_plus _ _ (zeroish_mult _ _ zero_zeroish) (zeroish_mult _ _ zero_zeroish)).
Qed.
Lemma filtered_zero : forall c y, filtered float c (repeat fz 7) (repeat fz 7) = Some y -> List.length y = 7%nat /\ Forall zeroish y.
Proof.
  intros c y. unfold filtered. destruct (f_lt float c _).
  - cbn [repeat map2 sequence].
    destruct (low_pass_filter float (DELTA_T float) fz fz c) as [r|] eqn:E; [|discriminate]. apply filter_zero in E. cbn [sequence].
    intros H. injection H as <-. split; [reflexivity|]. repeat (apply Forall_cons; [exact E|]). constructor.
  - intros H. injection H as <-. split; [reflexivity|]. repeat (apply Forall_cons; [exact zero_zeroish|]). constructor.
Qed.
Definition limits : list (F float * (F float * F float)) :=
  map2 pair (MAX_JOINT_VELOCITY float) (map2 pair (MAX_JOINT_ACCELERATION float) (MAX_JOINT_JERK float)).
Definition stays_zero (p : F float * (F float * F float)) : bool :=
  forallb (fun s => match limit_rate_velocity float (fst p) (fst (snd p)) (snd (snd p)) (B754_zero 53 1024 s) fz fz with
                    | Some y => match (y : binary64) with B754_zero _ _ _ => true | _ => false end
                    | None => false
                    end) [true; false].
Lemma limits_zero : forallb stays_zero limits = true.
Proof. vm_compute. reflexivity. Qed.
Lemma limit_zero : forall v a j x r, In (v, (a, j)) limits ->
  zeroish x -> limit_rate_velocity float v a j x fz fz = Some r -> zeroish r.
Proof.
  intros v a j x r I Z H. assert (Fx : f_finite float x = true) by (unfold limit_rate_velocity in H; destruct (f_finite float x); [reflexivity|discriminate]).
  destruct (zeroish_zero x Z Fx) as [s ->]. pose proof limits_zero as L. rewrite forallb_forall in L. specialize (L _ I).
  unfold stays_zero in L. rewrite forallb_forall in L. cbn [fst snd] in L. specialize (L s).
  rewrite H in L. destruct (r : binary64); try exact Logic.I; destruct s; discriminate (L ltac:(cbn; auto)).
Qed.
Lemma per_joint_zero : forall n vs as_ js ys r, List.length vs = n -> List.length as_ = n -> List.length js = n -> List.length ys = n ->
  incl (map2 pair vs (map2 pair as_ js)) limits -> Forall zeroish ys ->
  sequence (per_joint float (fun v a j x _ lv la => limit_rate_velocity float v a j x lv la) vs as_ js ys (repeat fz n) (repeat fz n) (repeat fz n)) = Some r ->
  List.length r = n /\ Forall zeroish r.
Proof.
  induction n as [|n IH]; intros vs as_ js ys r L1 L2 L3 L4 I Z H;
    destruct vs as [|v vs], as_ as [|a as_], js as [|j js], ys as [|y ys]; try discriminate.
  - cbn [repeat per_joint sequence] in H. injection H as <-. split; [reflexivity|constructor].
  - cbn [repeat per_joint sequence] in H. inversion Z as [|? ? Zy Zys]; subst.
    destruct (limit_rate_velocity float v a j y fz fz) as [x|] eqn:E; [|discriminate].
    destruct (sequence _) as [l|] eqn:El; [|discriminate]. injection H as <-.
    cbn [map2] in I. destruct (IH vs as_ js ys l) as [Ll Zl]; try assumption; try (apply Nat.succ_inj; assumption).
    { intros p Hp. apply I. right. exact Hp. } split; [exact (f_equal S Ll)|]. constructor; [|exact Zl].
    eapply limit_zero; [apply I; left; reflexivity|exact Zy|exact E].
Qed.
Lemma convert_still : forall c b x q, at_rest x ->
  convert_joint_velocities float c b (map of_bits (repeat 0 7)) (reported_of x) = Some q ->
  List.length q = 7%nat /\ Forall (fun y => exists s, y = (B754_zero 53 1024 s : F float)) q.
Proof.
  intros c b x q (V & A). unfold convert_joint_velocities, reported_of. cbn [p_dq_d p_ddq_d]. rewrite V, A.
  change (map of_bits (repeat 0 7)) with (repeat fz 7).
  destruct (filtered float c (repeat fz 7) (repeat fz 7)) as [y|] eqn:E; [|discriminate]. cbn [then_].
  apply filtered_zero in E. destruct E as [L Z].
  assert (K : forall r, List.length r = 7%nat -> Forall zeroish r -> finite float r = Some q ->
    List.length q = 7%nat /\ Forall (fun y => exists s, y = (B754_zero 53 1024 s : F float)) q).
  { intros r Lr Zr Hr. unfold finite in Hr. destruct (all_finite float r) eqn:Fr; [|discriminate]. injection Hr as <-.
    split; [exact Lr|]. unfold all_finite in Fr. rewrite forallb_forall in Fr. rewrite Forall_forall in Zr |- *.
    intros v Hv. apply zeroish_zero; [apply Zr|apply Fr]; exact Hv. }
  unfold limited. destruct b; [|cbn [then_]; apply K; assumption].
  destruct (limit_rate_joint_velocities _ _ _ _ _ _ _) as [r|] eqn:E2; [|discriminate]. cbn [then_].
  unfold limit_rate_joint_velocities in E2. destruct (all_finite float y); [|discriminate].
  destruct (per_joint_zero 7 (MAX_JOINT_VELOCITY float) (MAX_JOINT_ACCELERATION float) (MAX_JOINT_JERK float) y r eq_refl eq_refl eq_refl L (incl_refl limits) Z E2) as [Lr Zr].
  apply K; assumption.
Qed.

Lemma still_outs : forall t, typed_history torque_only t ->
  outs_ok (fun g x m => g = MmJointVelocity /\ (at_rest x -> still m)) (fun _ _ => True) t.
Proof.
  intros t H. apply (typed_outs torque_only _ _ (fun _ m => mc_q_c m = repeat 0 7 /\ mc_O_T_EE_c m = repeat 0 16 /\
    mc_O_dP_EE_c m = repeat 0 6 /\ mc_elbow_c m = [0; 0] /\ mc_valid_elbow m = false)); auto.
  intros rots u k x dt k' o m m' (K & torque & limit & cutoff & ->) E (I1 & I2 & I3 & I4 & I5) _ C.
    cbn in E. injection E as <- <-. cbn [control_torques u_generator convert_motion o_values] in C.
    destruct (convert_joint_velocities float _ _ _ _) as [q|] eqn:Eq; [|discriminate]. injection C as <-.
    unfold keep_finished. cbn [mc_q_c mc_dq_c mc_O_T_EE_c mc_O_dP_EE_c mc_elbow_c mc_valid_elbow].
    split; [split; [reflexivity|]|auto]. intros Rest. apply convert_still in Eq; [|exact Rest]. destruct Eq as [L Z].
    unfold still. cbn [mc_q_c mc_dq_c mc_O_T_EE_c mc_O_dP_EE_c mc_elbow_c mc_valid_elbow].
    rewrite map_length. repeat (split; [assumption|]). split; [|auto]. apply Forall_map.
    eapply Forall_impl; [|exact Z]. intros y [s ->]. destruct s; [right|left]; reflexivity.
Qed.
(** A motion which only gives torques commands no motion to an arm at rest: whatever cutoff frequency and with or
    without rate limiting, every velocity sent is zero, and so are the fields of other kinds of motion. *)
Theorem C57_no_motion : forall t1 a c t2, typed_history torque_only (t1 ++ EvCommand a c :: t2) ->
  (forall x, In (EvState x) t2 -> at_rest x) -> motion_mode t2 = Some MmJointVelocity /\ still (rc_motion c).
Proof.
  intros t1 a c t2 H Rest. pose proof (still_outs _ H) as O. pose proof (typed_is_history _ _ H) as Hh.
  destruct (command_output _ _ _ _ _ _ Hh O) as (x & m & g & _ & (-> & S) & G & I & ->). split; [exact G|].
  exact (S (Rest x I)).
Qed.
Print Assumptions C57_no_motion.
(** The same for one command answering a state at rest, whatever came before. *)
Theorem C57_no_motion_once : forall t1 a c t2 x, typed_history torque_only (t1 ++ EvCommand a c :: t2) ->
  completed t2 = false -> last_state t2 = Some x -> at_rest x -> still (rc_motion c).
Proof.
  intros t1 a c t2 x H C L Rest. pose proof (still_outs _ H) as O. pose proof (typed_is_history _ _ H) as Hh.
  destruct (command_fresh _ _ _ _ _ _ Hh O C) as (y & m & g & Ly & (_ & S) & _ & ->).
  rewrite L in Ly. injection Ly as <-. exact (S Rest).
Qed.
Print Assumptions C57_no_motion_once.
(** The call asks for external control of joint velocities. *)
Theorem C57_request : forall rots K torque limit cutoff k s u s', reachable s ->
  control (controller_of rots (control_torques K torque limit cutoff)) k s = (Ok u, s') ->
  requests (trace s') = ReqMove McExternalController MmJointVelocity default_deviation default_deviation :: requests (trace s).
Proof.
  intros rots K torque limit cutoff k s u s' R E.
  pose proof (control_requests (controller_of rots (control_torques K torque limit cutoff)) k s R) as C. rewrite E in C. exact C.
Qed.
Print Assumptions C57_request.

Definition ex_torques : user_control := control_torques N (fun k _ _ => Some (k + 1, (repeat fifty 7, k =? 2))) None None.
Definition ex_moving (dq : list N) (id : N) : robot_state_intern :=
  let z n := repeat 0 n in
  RobotStateIntern id (z 16%nat) (z 16%nat) (z 16%nat) (z 16%nat) (z 16%nat) (z 16%nat) 0 (z 9%nat) (z 3%nat) 0
    (z 9%nat) (z 3%nat) (z 2%nat) (z 2%nat) (z 7%nat) (z 7%nat) (z 7%nat) (z 7%nat) (z 7%nat) (z 7%nat) dq
    (z 7%nat) (z 7%nat) (z 6%nat) (z 7%nat) (z 6%nat) (z 7%nat) (z 6%nat) (z 6%nat) (z 6%nat) (z 3%nat) (z 2%nat)
    (z 2%nat) (z 2%nat) (z 16%nat) (z 6%nat) (z 6%nat) (z 7%nat) (z 7%nat) MgJointVelocity CmExternalController
    (repeat false 32) (repeat false 9) (repeat false 32) (repeat false 9) RmMove 0x3FF0000000000000.
Definition ex_env_torque (dq : list N) : st :=
  let r id := ex_moving dq id in
  st_init 10 RtIgnore (ex_first (ex_idle 1) ++ ex_states [r 2; r 4; r 5; r 8; r 9; ex_idle 10])
    [ex_connected 0; ex_move 1 MsMotionStarted; None; ex_move 1 MsSuccess] [] true true.
Definition ex_torque_run (dq : list N) : list event := trace (program 1337 [AControl (controller_of ex_rots ex_torques) 0] (ex_env_torque dq)).
Lemma ex_torque_ok : forall dq, typed_history torque_only (ex_torque_run dq).
Proof.
  intros dq. unfold typed_history, history, ex_torque_run, ex_env_torque. exists 1337, [AControl (controller_of ex_rots ex_torques) 0]. do 7 eexists. split.
  - repeat (apply Forall_cons || apply Forall_nil). exists ex_rots, ex_torques. split; [reflexivity|]. do 4 eexists. reflexivity.
  - reflexivity.
Qed.
(** Torques of 50 Nm: limited to just below 1 Nm, no velocity. *)
Example C57_ex : let t := ex_torque_run (repeat 0 7) in
  Forall (fun e => match e with EvState x => at_rest x | _ => True end) t /\
  map (fun c => (mc_dq_c (rc_motion c), hd 0 (rc_tau c), mc_finished (rc_motion c))) (commands t) =
  [(repeat 0 7, 4607182409792818154, true); (repeat 0 7, 4607182409792818154, true);
   (repeat 0 7, 4607182409792818154, false); (repeat 0 7, 4607182409792818154, false)].
Proof.
  split; [|vm_compute; reflexivity].
  match goal with |- Forall ?P ?t => let v := eval vm_compute in t in assert (E : t = v) by (vm_compute; reflexivity); rewrite E; clear E end.
  repeat (apply Forall_cons; [exact Logic.I || (split; reflexivity)|]). apply Forall_nil.
Qed.
Lemma commands_split : forall t c, In c (commands t) -> exists t1 a t2, t = t1 ++ EvCommand a c :: t2.
Proof.
  intros t c I. apply in_flat_map in I. destruct I as (e & I & Ec). apply in_split in I. destruct I as (t1 & t2 & Et).
  destruct e as [| | | | | | | |a c'|]; try contradiction Ec. destruct Ec as [->|[]]. exists t1, a, t2. exact Et.
Qed.
(** The velocity sent is not always zero: while the arm reports desired velocities the filter and the limiter send others. *)
Theorem C57_moving_refuted : exists t1 a c t2, typed_history torque_only (t1 ++ EvCommand a c :: t2) /\
  Exists (fun v => ~ zero_bits v) (mc_dq_c (rc_motion c)).
Proof.
  pose proof (ex_torque_ok (repeat (bits (f_lit float 1 2)) 7)) as H.
  assert (V : existsb (fun c => negb (hd 0 (mc_dq_c (rc_motion c)) mod 2 ^ 63 =? 0)) (commands (ex_torque_run (repeat (bits (f_lit float 1 2)) 7))) = true)
    by (vm_compute; reflexivity).
  apply existsb_exists in V. destruct V as (c & I & V). destruct (commands_split _ _ I) as (t1 & a & t2 & Et).
  exists t1, a, c, t2. rewrite <- Et. split; [exact H|].
  destruct (mc_dq_c (rc_motion c)) as [|v l]; [discriminate V|]. cbn [hd] in V. apply Exists_cons_hd.
  intros [Ez|Ez]; rewrite Ez in V; discriminate V.
Qed.
Print Assumptions C57_moving_refuted.

(** * C58 *)
(** What the rate limiter makes of requested positions, given the state. *)
Definition limited_positions (q : list (F float)) (x : robot_state_intern) (sent : list N) : Prop :=
  exists r, limit_rate_joint_positions float (MAX_JOINT_VELOCITY float) (MAX_JOINT_ACCELERATION float) (MAX_JOINT_JERK float)
    q (map of_bits (rs_q_d x)) (map of_bits (rs_dq_d x)) (map of_bits (rs_ddq_d x)) = Some r /\ sent = map bits r.
Definition as_call (c : robot_state_intern * N) : list (F float) * F float := (map of_bits (rs_q_d (fst c)), as_secs_f64 (snd c)).
Lemma filter_off : forall y l, filtered float (of_bits (cutoff_of joint_motion)) y l = Some y.
Proof.
  intros y l. unfold filtered.
  assert (E : f_lt float (of_bits (cutoff_of joint_motion)) (MAX_CUTOFF_FREQUENCY float) = false) by (vm_compute; reflexivity).
  rewrite E. reflexivity.
Qed.
Lemma convert_limited : forall rots q fin x m m',
  convert_motion rots MmJointPosition (cutoff_of joint_motion) true (MotionOut (map bits q) None fin) x m = Some m' ->
  limited_positions q x (mc_q_c m').
Proof.
  intros rots q fin x m m' C. unfold convert_motion in C. cbn [o_values] in C.
  assert (B : map of_bits (map bits q) = q) by (rewrite map_map; rewrite <- (map_id q) at 2; apply map_ext; exact of_bits_bits).
  rewrite B in C. clear B. unfold convert_joint_positions in C. rewrite filter_off in C. cbn [then_ limited] in C.
  unfold limited_positions. unfold reported_of in C. cbn [p_q_d p_dq_d p_ddq_d] in C.
  destruct (limit_rate_joint_positions float _ _ _ q _ _ _) as [r|]; [|discriminate]. cbn [then_] in C. unfold finite in C.
  destruct (all_finite float r); [|discriminate]. injection C as <-. exists r. auto.
Qed.
Lemma joint_motion_call : forall rots g x dt g' q fin,
  generate_motion float g (map of_bits (rs_q_d x)) (as_secs_f64 dt) = (g', (q, fin)) ->
  k_motion (controller_of rots joint_motion) g x dt = Some (g', MotionOut (map bits q) None fin).
Proof. intros rots g x dt g' q fin E. cbn [controller_of k_motion joint_motion u_motion]. cbv zeta. rewrite E. reflexivity. Qed.
Lemma joint_motion_convert : forall rots, k_convert (controller_of rots joint_motion) = convert_motion rots MmJointPosition (cutoff_of joint_motion) true.
Proof. reflexivity. Qed.
Lemma joint_motion_finished : forall rots o, k_finished (controller_of rots joint_motion) o = o_finished o.
Proof. reflexivity. Qed.
Lemma answers_step : forall k cb m x dt rest cb' out, k_motion k cb x dt = Some (cb', out) ->
  answers k cb m ((x, dt) :: rest) = match k_convert k out x m with
    | None => []
    | Some m' => (marked (mc_finished m) m', k_finished k out) :: answers k cb' (marked (mc_finished m) m') rest
    end.
Proof. intros k cb m x dt rest cb' out E. cbn [answers]. rewrite E. reflexivity. Qed.
Lemma generate_step : forall g q p rest g' o, generate_motion float g q p = (g', o) ->
  generate float g ((q, p) :: rest) = o :: generate float g' rest.
Proof. intros g q p rest g' o E. cbn [generate]. cbv zeta. rewrite E. reflexivity. Qed.
Lemma answers_generate : forall rots calls g m i p, nth_error (answers (controller_of rots joint_motion) g m calls) i = Some p ->
  exists x dt q, nth_error calls i = Some (x, dt) /\ nth_error (generate float g (map as_call calls)) i = Some (q, snd p) /\
    limited_positions q x (mc_q_c (fst p)).
Proof.
  intros rots. induction calls as [|[x dt] calls IH]; intros g m i p H; [destruct i; discriminate H|].
  destruct (generate_motion float g (map of_bits (rs_q_d x)) (as_secs_f64 dt)) as [g' [q fin]] eqn:E.
  rewrite (answers_step _ _ _ _ _ _ _ _ (joint_motion_call rots _ _ _ _ _ _ E)) in H. rewrite joint_motion_convert in H.
  cbn [map]. change (as_call (x, dt)) with (map of_bits (rs_q_d x), as_secs_f64 dt).
  rewrite (generate_step _ _ _ _ _ _ E).
  destruct (convert_motion rots MmJointPosition (cutoff_of joint_motion) true (MotionOut (map bits q) None fin) x m) as [m'|] eqn:C;
    [|destruct i; discriminate H].
  destruct i as [|i].
  - cbn [nth_error] in H |- *. rewrite joint_motion_finished in H. cbn [o_finished] in H. injection H as <-.
    exists x, dt, q. split; [reflexivity|]. split; [reflexivity|]. cbn [fst marked mc_q_c]. exact (convert_limited _ _ _ _ _ _ C).
  - cbn [nth_error] in H |- *. exact (IH _ _ _ _ H).
Qed.
(** The positions sent are those of the generator, called with the states and time steps of the loop, after rate limiting; nothing is
    filtered; the motion ends when the generator says so. *)
Theorem C58_samples : forall rots speed goal s r s', control (controller_of rots joint_motion) (joint_motion_start speed goal) s = (r, s') ->
  exists d, trace s' = d ++ trace s /\
    let calls := rev (motion_calls d) in
    let outs := rev (motion_outputs d) in
    (r <> Panic PCallback -> List.length outs = List.length calls) /\
    forall i m fin, nth_error outs i = Some (m, fin) -> exists x dt q,
      nth_error calls i = Some (x, dt) /\
      nth_error (generate float (generator_new float (of_bits speed) (map of_bits goal)) (map as_call calls)) i = Some (q, fin) /\
      limited_positions q x (mc_q_c m).
Proof.
  intros rots speed goal s r s' E.
  destruct (C56_function_of_states (controller_of rots joint_motion) _ _ _ _ eq_refl E) as (d & T & A & L).
  exists d. split; [exact T|]. cbv zeta. split; [rewrite !rev_length; exact L|].
  intros i m fin H. rewrite A in H. destruct (answers_generate _ _ _ _ _ _ H) as (x & dt & q & E1 & E2 & E3).
  exists x, dt, q. auto.
Qed.
Print Assumptions C58_samples.
(** The call succeeds only if the generator has reported the end of the motion. *)
Lemma replays_no_torque : forall k cb0 d cb m q f, k_torque k = None -> replays k cb0 d cb m -> ~ In (EvTorqueOut q f) d.
Proof.
  intros k cb0 d cb m q f NT H. induction H as [|e d cb m Q H IH|d cb m x dt cb' out m' H IH E C|torque d cb m x dt cb' q0 fin q' H IH T]; intros I.
  - contradiction.
  - destruct I as [->|I]; [contradiction Q|exact (IH I)].
  - destruct I as [I|[I|I]]; [discriminate I|discriminate I|exact (IH I)].
  - congruence.
Qed.
Lemma this_motion_prefix : forall d t, requests d <> [] -> (forall r, In r (requests d) -> exists c g p q, r = ReqMove c g p q) ->
  forall e, In e (this_motion (d ++ t)) -> In e d.
Proof.
  induction d as [|e d IH]; intros t N M e0 I; [contradiction N; reflexivity|].
  destruct e as [id r| | | | | | | | |];
    try (destruct I as [I|I]; [left; exact I|right; exact (IH t N M e0 I)]).
  destruct (M r (or_introl eq_refl)) as (c & g & p & q & ->). contradiction I.
Qed.
Theorem C58_ends : forall rots speed goal s u s', reachable s ->
  control (controller_of rots joint_motion) (joint_motion_start speed goal) s = (Ok u, s') ->
  exists d i q, trace s' = d ++ trace s /\
    nth_error (generate float (generator_new float (of_bits speed) (map of_bits goal)) (map as_call (rev (motion_calls d)))) i = Some (q, true).
Proof.
  intros rots speed goal s u s' R E. set (k := controller_of rots joint_motion) in E.
  pose proof (control_requests k (joint_motion_start speed goal) s R) as Rq. rewrite E in Rq.
  destruct (C17_until_stopped k _ _ _ _ R E) as [C _].
  destruct (C56_threaded k _ _ _ _ E) as (d & T & [(cb' & m & H)|[X _]]); [|discriminate X].
  assert (A : rev (motion_outputs d) = answers k (joint_motion_start speed goal) zero_motion (rev (motion_calls d))).
  { pose proof (replays_answers k _ _ _ _ eq_refl H []) as A. rewrite !app_nil_r in A. symmetry. exact A. }
  rewrite T in C, Rq. unfold requests in Rq. rewrite flat_map_app in Rq. fold (requests d) (requests (trace s)) in Rq.
  assert (Rd : requests d = [ReqMove (wanted_ctrl k) (k_mode k) default_deviation default_deviation]).
  { apply (app_inv_tail (requests (trace s))). exact Rq. }
  unfold completed in C. apply existsb_exists in C. destruct C as (e & Ie & Fe). apply this_motion_prefix in Ie.
  2:{ rewrite Rd. discriminate. }
  2:{ intros r Hr. rewrite Rd in Hr. destruct Hr as [<-|[]]. do 4 eexists. reflexivity. }
  destruct e as [| | | | | |m0 f| |q f|]; try discriminate Fe.
  - cbn [final] in Fe. subst f. assert (Io : In (m0, true) (rev (motion_outputs d))).
    { apply in_rev. rewrite rev_involutive. unfold motion_outputs. apply in_flat_map. eexists. split; [exact Ie|left; reflexivity]. }
    apply In_nth_error in Io. destruct Io as [i Hi]. rewrite A in Hi. destruct (answers_generate _ _ _ _ _ _ Hi) as (x & dt & q & _ & G & _).
    exists d, i, q. split; [exact T|exact G].
  - exfalso. eapply replays_no_torque; [|exact H|exact Ie]. reflexivity.
Qed.
Print Assumptions C58_ends.
Theorem C58_request : forall rots speed goal s u s', reachable s ->
  control (controller_of rots joint_motion) (joint_motion_start speed goal) s = (Ok u, s') ->
  requests (trace s') = ReqMove McJointImpedance MmJointPosition default_deviation default_deviation :: requests (trace s).
Proof.
  intros rots speed goal s u s' R E.
  pose proof (control_requests (controller_of rots joint_motion) (joint_motion_start speed goal) s R) as C. rewrite E in C. exact C.
Qed.
Print Assumptions C58_request.

(** The generator at full speed, all joints to go from 0 to 1e-5 rad; states with ids 4, 5, 8.  The third sample is the goal itself. *)
Definition ex_goal : list N := repeat (bits (f_lit float 1 100000)) 7.
Lemma reach_after : forall ls rt us ts se rk pr, fst (robot_new 1337 (st_init ls rt us ts se rk pr)) = Ok tt ->
  reachable (after_new (st_init ls rt us ts se rk pr)).
Proof.
  intros ls rt us ts se rk pr H. eapply reach_new with (u := tt) (port := 1337).
  unfold after_new. rewrite <- H. apply surjective_pairing.
Qed.
Example C58_ex :
  let '(r, s) := control (controller_of ex_rots joint_motion) (joint_motion_start (bits (f_int float 1)) ex_goal) (after_new ex_env_joint) in
  (map (fun p => (rs_message_id (fst p), snd p)) (rev (motion_calls (trace s))), map snd (rev (motion_outputs (trace s)))) =
    ([(4, 0); (5, 1); (8, 3)], [false; false; true]) /\ r = Ok tt /\ reachable (after_new ex_env_joint).
Proof.
  match goal with |- let '(r, s) := ?c in _ => set (run := c) end.
  assert (A : (fst run, map (fun p => (rs_message_id (fst p), snd p)) (rev (motion_calls (trace (snd run)))), map snd (rev (motion_outputs (trace (snd run))))) =
    (Ok tt, [(4, 0); (5, 1); (8, 3)], [false; false; true])) by (vm_compute; reflexivity).
  clearbody run. destruct run as [r s]. cbn [fst snd] in A. injection A as A1 A2 A3. rewrite A1, A2, A3.
  split; [reflexivity|]. split; [reflexivity|].
  unfold ex_env_joint. cbv zeta. apply reach_after.
  vm_compute. reflexivity.
Qed.
