(** C77: communication_test and echo_robot_state as a whole. *)
From Coq Require Import List NArith ZArith Bool Arith Lia String Reals Lra Sorted.
From Coq Require Import Init.Byte.
From Flocq Require Import Core IEEE754.BinarySingleNaN IEEE754.Binary IEEE754.Bits.
From Verif Require Import Bytes Codec NumOps NumFloat FloatFacts SizeFacts RateModel ConvertModel WireModel WireSpec TcpModel TcpProofs UdpModel UdpSpec UdpProofs
  RobotModel LoopModel RobotSpec RobotProofs RobotWp LoopProofs Effects RobotMore RobotCalls CallFacts TypedModel TypedSpec ConvertFacts MotionModel
  JointMotionModel ExampleModel ExampleMotions ProgramModel MotionPrograms CommPrograms LiveUdp LiveSpec LiveProofs RobotScenario
  Properties_Commands Properties_Live ReplaySpec ReplayProofs Outputs Properties_Convert Properties_Replay Properties_Time MotionRun ClockFacts
  Properties_Accept Properties_JointMotion Properties_Examples Properties_Programs Properties_MotionPrograms Properties_MotionEnds.
Import ListNotations.
Open Scope list_scope.
Open Scope N_scope.

(** * What the programs are meant to do *)
(** communication_test prepares the robot and goes to the start as the position program does ([opened], [approached]). Then ten seconds of
    zero torques; the report counts the calls, the milliseconds without a call, and the success rates seen ([faithful]). *)
Definition torque_motion (q : robot_request) : Prop := exists d1 d2, q = ReqMove McExternalController MmJointVelocity d1 d2.
Definition measured (m : list event) (rep : report) : Prop := exists first counted,
  rev (torque_calls m) = (first, 0) :: counted /\ spaced_from (rs_message_id first) counted /\
  10000 <= newest_id counted (rs_message_id first) - rs_message_id first /\
  (forall pre p post, counted = pre ++ p :: post -> newest_id pre (rs_message_id first) - rs_message_id first < 10000) /\
  faithful first counted rep.
Definition comm_spec (port : N) (r : outcome (option report)) (t : list event) : Prop :=
  r <> OutOfFuel /\ r <> Ok None /\
  (((forall u, r <> Ok u) /\ exists l, opened port ExPosition l /\ (prefix_of (in_order_asked t) l \/ in_order_asked t = l ++ [ReqStopMove])) \/
   (exists m before q, t = m ++ before /\ opened port ExPosition (in_order_asked before) /\ approached before /\ torque_motion q /\
    (forall tau fin, In (EvTorqueOut tau fin) m -> tau = repeat 0 7) /\
    (forall c fin, In (EvMotionOut c fin) m -> mc_dq_c c = repeat 0 7 /\ fin = false) /\
    match r with
    | Ok (Some rep) => in_order_asked m = [q] /\ measured m rep
    | _ => In (in_order_asked m) [[]; [q]; [q; ReqStopMove]]
    end)).

(** * Proofs *)
(** The part all these programs begin with. *)
Lemma prepared : forall rots e port s0 r s, fresh_handle s0 -> (forall u s, robot_new port s0 = (Ok u, s) -> reachable s) -> trace s0 = [] ->
  (robot_new port ;;; set_default_behavior ;;; settings (prior e) ;;;
   control (controller_of rots joint_motion) (joint_motion_start (bits (f_lit float 1 2)) consecutive_goal)) s0 = (r, s) ->
  r <> OutOfFuel /\ (forall u, r = Ok u -> reachable s /\ opened port e (in_order_asked (trace s)) /\ approached (trace s)) /\
  ((forall u, r <> Ok u) -> exists l, opened port e l /\ (prefix_of (in_order_asked (trace s)) l \/ in_order_asked (trace s) = l ++ [ReqStopMove])).
Proof.
  intros rots e port s0 r s' Fh Rn T0 E. unfold bind at 1 in E.
  set (a := [ReqSetCollisionBehavior (repeat f64_20 7) (repeat f64_20 7) (repeat f64_10 7) (repeat f64_10 7) (repeat f64_20 6) (repeat f64_20 6) (repeat f64_10 6) (repeat f64_10 6);
       ReqSetJointImpedance [f64_3000; f64_3000; f64_3000; f64_2500; f64_2500; f64_2000; f64_2000];
       ReqSetCartesianImpedance [f64_3000; f64_3000; f64_3000; f64_300; f64_300; f64_300]]).
  set (mv := ReqMove McJointImpedance MmJointPosition default_deviation default_deviation).
  set (b := prior e) in *.
  assert (P : opened port e (ReqConnect port :: a ++ b ++ [mv])) by (exists default_deviation, default_deviation; reflexivity). clearbody b.
  destruct (robot_new port s0) as [r1 s1] eqn:E1. destruct (connect_asked _ _ _ _ E1) as [Q1 O1]. specialize (O1 Fh).
  rewrite T0 in Q1. change (requests []) with (@nil robot_request) in Q1.
  set (goal := r <> OutOfFuel /\ _).
  assert (Early : forall sent rest, r <> OutOfFuel -> (forall u, r <> Ok u) -> requests (trace s') = sent -> ReqConnect port :: a ++ b ++ [mv] = rev sent ++ rest -> goal).
  { intros sent rest O N Q S. split; [exact O|]. split; [intros u X; contradiction (N u X)|]. intros _. eexists. split; [exact P|]. left. exists rest. unfold in_order_asked. rewrite Q. exact S. }
  destruct r1 as [u1|er|p| |]; [|injection E as <- <-; eapply (Early _ (a ++ b ++ [mv])); [discriminate|intros; discriminate|exact Q1|reflexivity]..|contradiction (O1 eq_refl)].
  assert (R1 : reachable s1) by (apply (Rn u1); reflexivity).
  unfold bind at 1 in E. destruct (set_default_behavior s1) as [r2 s2] eqn:E2. pose proof E2 as E2'. rewrite defaults_setters in E2'.
  destruct (setters_asked _ _ _ _ E2') as (O2 & sent & rest & S2 & Q2 & N2). fold a in S2. rewrite Q1 in Q2.
  destruct r2 as [u2|er|p| |]; [|injection E as <- <-; eapply (Early _ (rest ++ b ++ [mv])); [discriminate|intros; discriminate|exact Q2|rewrite S2, rev_app_distr, rev_involutive; cbn [rev app]; rewrite <- app_assoc; reflexivity]..|contradiction (O2 eq_refl)].
  rewrite (N2 u2 eq_refl), app_nil_r in S2. subst sent. clear N2 E2'.
  assert (R2 : reachable s2) by (apply (reach_ok s1 ADefaults u2 s2 R1 E2)).
  unfold bind at 1 in E. destruct (settings b s2) as [r3 s3] eqn:E3. pose proof E3 as E3'. rewrite settings_setters in E3'.
  destruct (setters_asked _ _ _ _ E3') as (O3 & sent & rest' & S3 & Q3 & N3). rewrite Q2 in Q3.
  destruct r3 as [u3|er|p| |]; [|injection E as <- <-; eapply (Early _ (rest' ++ [mv])); [discriminate|intros; discriminate|exact Q3|rewrite S3, !rev_app_distr, !rev_involutive; cbn [rev app]; rewrite <- !app_assoc; reflexivity]..|contradiction (O3 eq_refl)].
  rewrite (N3 u3 eq_refl), app_nil_r in S3. subst sent. clear N3 E3'.
  assert (R3 : reachable s3) by (apply (settings_reachable b s2 u3 s3 R2 E3)).
  destruct goal_numbers as [Gn Hn]. rewrite Gn, Hn in E. clear Gn Hn.
  assert (Ap : requests (trace s') = mv :: requests (trace s3) -> approached (trace s')).
  { intros C. destruct (C58_samples _ _ _ _ _ _ E) as (m & T & _ & H). exists m, (trace s3). split; [exact T|]. split; [|exact H].
    exists default_deviation, default_deviation. rewrite T, requests_app in C. apply (app_inv_tail (requests (trace s3))). exact C. }
  set (kj := controller_of rots joint_motion) in E. set (gj := joint_motion_start 0x3FE0000000000000 start_position) in E. change (u_cb joint_motion) with (k_cb kj) in gj. clearbody gj.
  pose proof (control_requests kj gj s3 R3) as C. rewrite E in C.
  change (ReqMove (wanted_ctrl kj) (k_mode kj) default_deviation default_deviation) with mv in C.
  assert (W4 : r <> OutOfFuel).
  { pose proof (wp_api (AControl kj gj) s3 (reachable_I s3 R3)) as W. unfold wp in W. cbn [run_api] in W. rewrite E in W. destruct r; try discriminate. contradiction. }
  assert (Q3' : rev (requests (trace s3)) = ReqConnect port :: a ++ b) by (rewrite Q3; cbn [rev]; rewrite !rev_app_distr, !rev_involutive; reflexivity).
  assert (Late : requests (trace s') = requests (trace s3) \/ requests (trace s') = mv :: requests (trace s3) \/ requests (trace s') = ReqStopMove :: mv :: requests (trace s3) -> (forall u, r <> Ok u) -> goal).
  { intros H N. split; [exact W4|]. split; [intros u X; contradiction (N u X)|]. intros _. exists (ReqConnect port :: a ++ b ++ [mv]). split; [exact P|].
    unfold in_order_asked, prefix_of. destruct H as [H|[H|H]]; rewrite H; cbn [rev]; rewrite Q3'.
    - left. exists [mv]. cbn [app]. rewrite <- app_assoc. reflexivity.
    - left. exists []. cbn [app]. rewrite app_nil_r, <- app_assoc. reflexivity.
    - right. cbn [app]. rewrite <- !app_assoc. reflexivity. }
  destruct r as [u4|er|p| |]; try (apply Late; [exact C|discriminate]).
  split; [discriminate|]. split; [|intros X; contradiction (X u4 eq_refl)]. intros u _. split; [apply (reach_ok s3 (AControl kj gj) u4 s' R3 E)|].
  split; [|exact (Ap C)]. unfold in_order_asked. rewrite C. cbn [rev]. rewrite Q3'. cbn [app]. rewrite <- app_assoc. exact P.
Qed.
Lemma after_run : forall calls c, comm_after c calls = run c calls.
Proof. induction calls as [|[x dt] calls IH]; intros c; [reflexivity|]. cbn [comm_after run]. destruct (comm_callback c x dt) as [[c' o]|]; [apply IH|reflexivity]. Qed.
Lemma called_since : forall d t, torques_called t (d ++ t) = rev (torque_calls d).
Proof.
  intros d t. unfold torques_called, torque_calls. rewrite app_length. replace (List.length d + List.length t - List.length t)%nat with (List.length d + 0)%nat by lia.
  rewrite firstn_app_2. cbn [firstn]. rewrite app_nil_r. reflexivity.
Qed.
(** Neither low-pass filter nor limits change the zeros. *)
Lemma zero_filter : forall rots x q, k_filter (controller_of rots communication) no_torques x = Some q -> q = repeat 0 7.
Proof.
  intros rots x q. cbn [controller_of k_filter]. unfold filter_torques, convert_torques.
  assert (Fl : forall l, filtered float (of_bits (cutoff_of communication)) (map of_bits no_torques) l = Some (map of_bits no_torques)).
  { intros l. unfold filtered. assert (E : f_lt float (of_bits (cutoff_of communication)) (MAX_CUTOFF_FREQUENCY float) = false) by (vm_compute; reflexivity).
    rewrite E. reflexivity. }
  rewrite Fl. cbn [then_]. change (limit_of communication) with false. unfold limited. cbn [then_].
  assert (Fi : option_map (map bits) (finite float (map of_bits no_torques)) = Some (repeat 0 7)) by (vm_compute; reflexivity).
  rewrite Fi. intros H. injection H as <-. reflexivity.
Qed.
Lemma zero_speed : forall rots x m m', k_convert (controller_of rots communication) (MotionOut (repeat 0 7) None false) x m = Some m' -> mc_dq_c m' = repeat 0 7.
Proof.
  intros rots x m m'. cbn [controller_of k_convert]. unfold convert_motion. cbn [u_generator communication control_torques o_values o_elbow]. unfold convert_joint_velocities.
  assert (Fl : forall l, filtered float (of_bits (cutoff_of communication)) (map of_bits (repeat 0 7)) l = Some (map of_bits (repeat 0 7))).
  { intros l. unfold filtered. assert (E : f_lt float (of_bits (cutoff_of communication)) (MAX_CUTOFF_FREQUENCY float) = false) by (vm_compute; reflexivity).
    rewrite E. reflexivity. }
  change (limit_of communication) with false. rewrite Fl. cbn [then_]. unfold limited. cbn [then_].
  assert (Fi : finite float (map of_bits (repeat 0 7)) = Some (map of_bits (repeat 0 7))) by (vm_compute; reflexivity).
  rewrite Fi. intros H. injection H as <-. vm_compute. reflexivity.
Qed.
Lemma comm_zero : forall rots d c m, replays (controller_of rots communication) comm_start d c m ->
  (forall tau fin, In (EvTorqueOut tau fin) d -> tau = repeat 0 7) /\ (forall o fin, In (EvMotionOut o fin) d -> mc_dq_c o = repeat 0 7 /\ fin = false).
Proof.
  intros rots d c m H. induction H as [|e d cb m Q H [I1 I2]|d cb m x dt cb' out m' H [I1 I2] E C|torque d cb m x dt cb' q fin q' H [I1 I2] T Ec Ef].
  - split; intros ? ? [].
  - split; intros a f [X|X]; [subst e; contradiction Q|eauto|subst e; contradiction Q|eauto].
  - split; intros a f [X|[X|X]]; try discriminate X; [eauto| |eauto]. injection X as <- <-. cbn in E. injection E as _ <-. split; [|reflexivity].
    rewrite <- (zero_speed rots x m m' C). unfold keep_finished. reflexivity.
  - split; intros a f [X|[X|X]]; try discriminate X; [|eauto|eauto]. injection X as <- <-. cbn in T. injection T as <-.
    assert (q = no_torques).
    { clear - Ec. unfold comm_callback, u64_add in Ec. destruct (c_time cb + dt <? 2 ^ 64); [|discriminate]. destruct (c_time cb + dt =? 0); [injection Ec as _ <- _; reflexivity|].
      destruct (c_counter cb + 1 <? 2 ^ 64); [|discriminate]. injection Ec as _ <- _. reflexivity. }
    subst q. exact (zero_filter rots x q' Ef).
Qed.
Theorem C77_communication : forall rots port size rt us ts sends realtime priority r s',
  communication_test rots port (st_init size rt us ts sends realtime priority) = (r, s') -> comm_spec port r (trace s').
Proof.
  intros rots port size rt us ts sends realtime priority r s' E. set (s0 := st_init size rt us ts sends realtime priority) in *.
  destruct ((robot_new port ;;; set_default_behavior ;;; settings (prior ExPosition) ;;;
    control (controller_of rots joint_motion) (joint_motion_start (bits (f_lit float 1 2)) consecutive_goal)) s0) as [r1 s1] eqn:E1.
  assert (Split : communication_test rots port s0 =
    match r1 with Ok _ => measure rots s1 | Err e => (Err e, s1) | Panic p => (Panic p, s1) | Blocked => (Blocked, s1) | OutOfFuel => (OutOfFuel, s1) end).
  { assert (Pn : prior ExPosition = [usual_collision]) by (vm_compute; reflexivity). rewrite Pn in E1.
    unfold communication_test. unfold bind in E1 |- *. destruct (robot_new port s0) as [[?|?|?| |] sa]; try (injection E1 as <- <-; reflexivity).
    destruct (set_default_behavior sa) as [[?|?|?| |] sb]; try (injection E1 as <- <-; reflexivity).
    destruct (settings [usual_collision] sb) as [[?|?|?| |] sc]; try (injection E1 as <- <-; reflexivity).
    rewrite E1. destruct r1; reflexivity. }
  rewrite Split in E. clear Split.
  destruct (prepared rots ExPosition port s0 r1 s1 (init_fresh _ _ _ _ _ _ _)) as (Of & Good & Bad); [intros u s H; eapply reach_new; exact H|reflexivity|exact E1|]. clear E1.
  destruct r1 as [u1|e|p| |]; try (injection E as <- <-; split; [discriminate|]; split; [discriminate|]; left; split; [discriminate|apply Bad; discriminate]); [|contradiction Of; reflexivity].
  destruct (Good u1 eq_refl) as (R1 & Op & Ap). clear Good Bad Of. unfold measure in E.
  set (k := controller_of rots communication) in *. destruct (control k comm_start s1) as [r2 s2] eqn:E2.
  pose proof (control_requests k comm_start s1 R1) as C. pose proof (wp_api (AControl k comm_start) s1 (reachable_I s1 R1)) as W. unfold wp in W. cbn [run_api] in W. rewrite E2 in C, W.
  set (q := ReqMove (wanted_ctrl k) (k_mode k) default_deviation default_deviation) in C.
  assert (Tq : torque_motion q) by (exists default_deviation, default_deviation; reflexivity). clearbody q.
  destruct (comm_calls rots s1 _ _ R1 E2) as (d & T & P & L & Pr & S & Cl). rewrite T in C. rewrite requests_app in C.
  assert (One : forall l, requests d ++ requests (trace s1) = l ++ requests (trace s1) -> requests d = l) by (intros l H; apply (app_inv_tail (requests (trace s1))); exact H).
  assert (Any : requests d ++ requests (trace s1) = requests (trace s1) \/ requests d ++ requests (trace s1) = q :: requests (trace s1) \/
    requests d ++ requests (trace s1) = ReqStopMove :: q :: requests (trace s1) -> In (in_order_asked d) [[]; [q]; [q; ReqStopMove]]).
  { unfold in_order_asked. intros [H|[H|H]]; [rewrite (One [] H)|rewrite (One [q] H)|rewrite (One [ReqStopMove; q] H)]; cbn; tauto. }
  destruct (C56_threaded k _ _ _ _ E2) as (d1 & T1 & Th). rewrite T in T1. apply app_inv_tail in T1. subst d1.
  assert (Zero : (forall tau fin, In (EvTorqueOut tau fin) d -> tau = repeat 0 7) /\ (forall o fin, In (EvMotionOut o fin) d -> mc_dq_c o = repeat 0 7 /\ fin = false)).
  { destruct Th as [(c & m & H)|[_ [(d' & c & m & x & dt & -> & H & _)|(tq & d' & c & m & x & dt & -> & H & _)]]].
    - exact (comm_zero rots d c m H).
    - destruct (comm_zero rots d' c m H) as [Z1 Z2]. split; intros a f [X|X]; try discriminate X; eauto.
    - destruct (comm_zero rots d' c m H) as [Z1 Z2]. split; intros a f [X|X]; try discriminate X; eauto. }
  destruct Zero as [Z1 Z2].
  assert (Rest : forall r0, r0 <> OutOfFuel -> (forall u, r0 <> Ok u) -> (r0, s2) = (r, s') -> In (in_order_asked d) [[]; [q]; [q; ReqStopMove]] -> comm_spec port r (trace s')).
  { intros r0 N1 N2 X H. injection X as <- <-. split; [exact N1|]. split; [apply N2|]. right. exists d, (trace s1), q. repeat (split; [assumption|]). destruct r0 as [u|e|p| |]; try exact H. contradiction (N2 u eq_refl). }
  destruct r2 as [u2|e|p| |]; try (refine (Rest _ _ _ E _); [discriminate|discriminate|apply Any; exact C]); [|contradiction W].
  destruct (C69_statistics rots s1 u2 s2 R1 E2) as (d1 & c & m & first & counted & rep & T1 & Rp & Tc & _ & Sp & Lo & Up & _ & _ & Er & Fr).
  rewrite T in T1. apply app_inv_tail in T1. subst d1. destruct (comm_run rots (trace s1) d c m Rp P L) as (Rn & _).
  rewrite T, called_since, after_run, Rn, Er in E. injection E as <- <-. split; [discriminate|]. split; [discriminate|]. right. exists d, (trace s1), q. repeat (split; [assumption|]).
  split; [unfold in_order_asked; rewrite (One [q] C); reflexivity|]. exists first, counted. auto.
Qed.
Print Assumptions C77_communication.

(** With a robot which answers, moves to the start and then shows states for ten seconds, the program reports on exactly these states. *)
Theorem C77_communication_live : forall rots x1 xs1, reports x1 xs1 -> (exists z, In z xs1 /\ rs_message_id x1 + 14002 <= rs_message_id z) ->
  exists n1, (n1 <= List.length xs1)%nat /\
  forall port size rt x ch v t tset o1 us1 ts1 o2 calls lst us2 ts2 urest trest realtime priority,
  let k := controller_of rots communication in let b := rs_message_id (mo_first o2) in
  (0 < size)%nat -> rt = RtIgnore \/ (realtime = true /\ priority = true) ->
  burst state_size state_decode x ch -> stopped x -> answered c_connect_response 0 (CsSuccess, v) t -> accepted 1 4 tset ->
  plays (controller_of rots joint_motion) 5 (rs_message_id x) o1 us1 ts1 -> run_states o1 = x1 :: firstn n1 xs1 ->
  plays k 6 (rs_message_id (mo_last o1)) o2 us2 ts2 ->
  mo_during o2 = calls ++ [lst] -> newer b (mo_during o2) -> Forall (fun x => rs_message_id x < b + 10000) calls -> b + 10000 <= rs_message_id lst < 2 ^ 64 ->
  exists s' rep, communication_test rots port (st_init size rt (ch ++ (us1 ++ us2) ++ urest) (t ++ (tset ++ ts1 ++ ts2) ++ trest) [] realtime priority) = (Ok (Some rep), s') /\
    faithful (mo_first o2) (steps b (mo_during o2)) rep.
Proof.
  intros rots x1 xs1 [So1 Nw1 Re1] (z1 & I1 & Z1).
  assert (Fi1 : exists pre y post, x1 :: xs1 = pre ++ y :: post /\
    finishes (controller_of rots joint_motion) (joint_motion_start 0x3FE0000000000000 start_position) (rs_message_id x1) zero_motion (pre ++ [y])) by (apply start_reached; try assumption; eauto).
  destruct Fi1 as (pre1 & y1 & post1 & E1 & F1). destruct (cut_at _ _ _ _ _ E1) as [C1 K1].
  exists (List.length pre1). split; [exact C1|].
  intros port size rt x ch v t tset o1 us1 ts1 o2 calls lst us2 ts2 urest trest realtime priority k b Sz Rt B St An Ac P1 R1 P2 Du Nw Ca Li.
  rewrite K1 in R1. assert (M1 : mo_first o1 = x1) by (rewrite <- K1 in R1; injection R1 as -> _; reflexivity).
  destruct (C61_connect port size rt x ch v t ((us1 ++ us2) ++ urest) ((tset ++ ts1 ++ ts2) ++ trest) realtime priority Sz Rt B St An) as (s0 & E0 & R0 & I0 & M0).
  pose proof (reach_new _ _ _ _ _ _ _ _ _ _ E0) as H0.
  cbn [accepted] in Ac. destruct Ac as (a1 & r1 & -> & A1 & a2 & r2 & -> & A2 & a3 & r3 & -> & A3 & a4 & r4 & -> & A4 & ->).
  assert (Step : forall a us ts us' ts' id' last' s, reachable s -> serves (n_id s) (r_message_id s) a us ts id' last' -> ready (us ++ us') (ts ++ ts') s ->
    exists s', run_api a s = (Ok tt, s') /\ reachable s' /\ n_id s' = id' /\ r_message_id s' = last' /\ ready us' ts' s').
  { clear. intros a us ts us' ts' id' last' s H S R. destruct (serves_ok _ _ _ _ _ _ _ s R S) as (s' & E & R' & I' & M'). exists s'. split; [exact E|]. split; [exact (reach_ok s a tt s' H E)|]. auto. }
  rewrite app_nil_r in R0. rewrite <- !app_assoc in R0. replace (a1 ++ a2 ++ a3 ++ a4 ++ ts1 ++ ts2 ++ trest) with ((a1 ++ a2 ++ a3) ++ a4 ++ ts1 ++ ts2 ++ trest) in R0 by (rewrite <- !app_assoc; reflexivity).
  destruct (Step ADefaults [] (a1 ++ a2 ++ a3) (us1 ++ us2 ++ urest) (a4 ++ ts1 ++ ts2 ++ trest) 4 (rs_message_id x) s0 H0) as (s1 & E2 & H1 & J1 & L1 & Q1); [rewrite I0, M0; apply (serves_defaults 1); assumption|exact R0|].
  destruct (Step (ASetter usual_collision) [] a4 (us1 ++ us2 ++ urest) (ts1 ++ ts2 ++ trest) 5 (rs_message_id x) s1 H1) as (s2 & E3 & H2 & J2 & L2 & Q2); [rewrite J1, L1; apply (serves_setter 4); assumption|exact Q1|].
  destruct (Step (AControl (controller_of rots joint_motion) (joint_motion_start 0x3FE0000000000000 start_position)) us1 ts1 (us2 ++ urest) (ts2 ++ trest) 6 (rs_message_id (mo_last o1)) s2 H2) as (s3 & E4 & H3 & J3 & L3 & Q3);
    [rewrite J2, L2; apply (serves_control 5); destruct P1; constructor; try assumption; rewrite M1, R1; exact F1|exact Q2|].
  destruct P2 as [p1 p2 p3 p4 p5 p6 p7]. rewrite <- L3 in p1. rewrite <- J3 in p2.
  destruct (C69_succeeds rots o2 calls lst us2 urest ts2 trest s3 H3 Q3 p1 p2 p3 p4 p5 p6 p7 Du Nw Ca Li) as (s4 & d & c & m & rep & E5 & T5 & Rp & Er & Fr).
  exists s4, rep. split; [|exact Fr]. unfold communication_test, bind. rewrite app_nil_r, <- !app_assoc in E0 |- *. rewrite E0. cbn [run_api] in E2, E3, E4. rewrite E2. cbn [settings]. unfold bind. rewrite E3. cbn [ret].
  destruct goal_numbers as [Gn Hn]. rewrite Gn, Hn. unfold ret. rewrite E4. unfold measure. rewrite E5, T5, called_since, after_run.
  destruct (comm_calls rots s3 _ _ H3 E5) as (d1 & T1 & P & L & _). rewrite T5 in T1. apply app_inv_tail in T1. subst d1.
  destruct (comm_run rots (trace s3) d c m Rp P L) as (Rn & _). rewrite Rn, Er. reflexivity.
Qed.
Print Assumptions C77_communication_live.

(** echo_robot_state asks nothing but to connect, sends no command, and ends well only after 101 states, each newer than the one before. *)
Definition displayed (t : list event) : list robot_state_intern := flat_map (fun e => match e with EvRead x => [x] | _ => [] end) t.
Definition echo_spec (port : N) (r : outcome unit) (t : list event) : Prop :=
  in_order_asked t = [ReqConnect port] /\ r <> OutOfFuel /\ (forall a c, ~ In (EvCommand a c) t) /\
  StronglySorted (fun later earlier => rs_message_id earlier < rs_message_id later) (displayed t) /\
  match r with Ok _ => List.length (displayed t) = 101%nat | _ => (List.length (displayed t) <= 100)%nat end.
Lemma given_shows : forall xs t, displayed (given xs ++ t) = rev xs ++ displayed t /\ requests (given xs ++ t) = requests t /\
  shown (given xs ++ t) = rev xs ++ shown t /\ forall a c, In (EvCommand a c) (given xs ++ t) -> In (EvCommand a c) t.
Proof.
  intros xs t. unfold given. induction (rev xs) as [|x l (I1 & I2 & I3 & I4)]; [auto|]. cbn [flat_map app].
  split; [change (x :: displayed (flat_map (fun x => [EvRead x; EvState x]) l ++ t) = x :: l ++ displayed t); rewrite I1; reflexivity|]. split; [exact I2|].
  split; [change (x :: shown (flat_map (fun x => [EvRead x; EvState x]) l ++ t) = x :: l ++ shown t); rewrite I3; reflexivity|].
  intros a c [X|[X|X]]; [discriminate X|discriminate X|exact (I4 a c X)].
Qed.
Definition plain_event (e : event) : Prop := match e with EvCommand _ _ | EvRead _ | EvMotion _ _ => False | _ => True end.
Lemma connect_plain : forall port, adds plain_event (robot_new port).
Proof.
  intros port. unfold robot_new. apply adds_bind.
  - unfold connect_robot. apply adds_bind; [intros s0; apply (grew_one _ _ _ (EvRequest (n_id s0) (ReqConnect port))); [reflexivity|exact Logic.I]|].
    intros id. apply adds_bind; [apply adds_response; intros; exact Logic.I|]. intros a. destruct (fst (snd a)); intros s; apply grew_same; reflexivity.
  - intros _ s. pose proof (adds_block plain_event s) as (d & T & F).
    destruct (udp_block s) as [[x|e|p| |] s1]; try (exists d; split; assumption).
    exists (EvState x :: d). split; [cbn [snd] in T; cbn; rewrite T; reflexivity|constructor; [exact Logic.I|exact F]].
Qed.
Lemma plain_shows : forall t, Forall plain_event t -> displayed t = [] /\ shown t = [] /\ forall a c, ~ In (EvCommand a c) t.
Proof.
  intros t H. induction H as [|e t P H (I1 & I2 & I3)]; [repeat split; intros a c X; contradiction X|].
  destruct e; try contradiction P; (split; [exact I1|]; split; [exact I2|]; intros a0 c0 [X|X]; [discriminate X|exact (I3 a0 c0 X)]).
Qed.
Theorem C77_echo : forall port size rt us ts sends realtime priority r s',
  echo_program port (st_init size rt us ts sends realtime priority) = (r, s') -> echo_spec port r (trace s').
Proof.
  intros port size rt us ts sends realtime priority r s' E. set (s0 := st_init size rt us ts sends realtime priority) in *.
  assert (Hs : lawful (trace s')).
  { assert (P : s' = program port [ARead N echo_callback 0] s0).
    { unfold program. unfold echo_program, bind in E. destruct (robot_new port s0) as [[u|e|p| |] s1]; try (injection E as <- <-; reflexivity).
      cbn [run_calls run_api]. unfold echo_robot_state in E. unfold bind. destruct (robot_read echo_callback 0 s1) as [[u2|e|p| |] s2]; injection E as <- <-; reflexivity. }
    rewrite P. apply program_lawful, init_fresh. }
  unfold echo_program, bind in E. destruct (robot_new port s0) as [r1 s1] eqn:E1. destruct (connect_asked _ _ _ _ E1) as [Q1 O1]. specialize (O1 (init_fresh _ _ _ _ _ _ _)).
  change (requests (trace s0)) with (@nil robot_request) in Q1.
  destruct (connect_plain port s0) as (d & T & P). rewrite E1 in T. cbn [snd] in T. change (trace s0) with (@nil event) in T. rewrite app_nil_r in T. rewrite <- T in P. destruct (plain_shows _ P) as (D1 & D2 & D3).
  destruct r1 as [u1|e|p| |]; try (injection E as <- <-; split; [unfold in_order_asked; rewrite Q1; reflexivity|]; split; [discriminate|]; split; [exact D3|]; rewrite D1; split; [constructor|cbn; lia]); [|contradiction (O1 eq_refl)].
  assert (R1 : reachable s1) by (eapply reach_new; exact E1). pose proof (C69_echo s1 R1) as H.
  assert (Out : forall xs, trace s' = given xs ++ trace s1 -> in_order_asked (trace s') = [ReqConnect port] /\ (forall a c, ~ In (EvCommand a c) (trace s')) /\
    StronglySorted (fun later earlier => rs_message_id earlier < rs_message_id later) (displayed (trace s')) /\ List.length (displayed (trace s')) = List.length xs).
  { intros xs Tx. pose proof (shown_sorted _ Hs) as Ss. rewrite Tx in *. destruct (given_shows xs (trace s1)) as (G1 & G2 & G3 & G4). rewrite G1, D1, app_nil_r. rewrite G3, D2, app_nil_r in Ss.
    split; [unfold in_order_asked; rewrite G2, Q1; reflexivity|]. split; [intros a c X; exact (D3 a c (G4 a c X))|]. split; [exact Ss|apply rev_length]. }
  destruct (echo_robot_state s1) as [[n|e|p| |] s2]; try contradiction H; injection E as <- <-.
  - destruct H as (xs & Tx & L & _). destruct (Out xs Tx) as (G1 & G2 & G3 & G4). split; [exact G1|]. split; [discriminate|]. split; [exact G2|]. split; [exact G3|]. rewrite G4. exact L.
  - destruct H as (xs & Tx & L & _). destruct (Out xs Tx) as (G1 & G2 & G3 & G4). split; [exact G1|]. split; [discriminate|]. split; [exact G2|]. split; [exact G3|]. rewrite G4. exact L.
  - destruct H as (_ & xs & Tx & L). destruct (Out xs Tx) as (G1 & G2 & G3 & G4). split; [exact G1|]. split; [discriminate|]. split; [exact G2|]. split; [exact G3|]. rewrite G4. exact L.
Qed.
Print Assumptions C77_echo.
(** What a reading loop shows when the robot sends these states. *)
Lemma update_shows : forall us ts id last s x ch, LiveProofs.quiet (ch ++ us) ts id last s -> brings last x ch ->
  exists s', update None None s = (Ok x, s') /\ LiveProofs.quiet us ts id (rs_message_id x) s' /\ trace s' = EvState x :: trace s.
Proof.
  intros us ts id last s x ch Q B. destruct Q.
  rewrite <- q_last in B. destruct (receive_one s x ch us B q_queue q_udp) as (u & Qu & E).
  exists (received s x u us). unfold update, bind at 1. cbn [send_robot_command]. unfold ret at 1. unfold bind. rewrite E.
  split; [reflexivity|]. split; [constructor; cbn; auto|reflexivity].
Qed.
Lemma loop_shows : forall K (cb : K -> robot_state_intern -> option (K * bool)) xs x us rest ts id last k fuel s,
  feeds last (xs ++ [x]) us -> LiveProofs.quiet (us ++ rest) ts id last s -> reads cb k (xs ++ [x]) -> (List.length xs < fuel)%nat ->
  trace (snd (read_loop fuel cb k s)) = given (xs ++ [x]) ++ trace s.
Proof.
  intros K cb. induction xs as [|y xs IH]; intros x us rest ts id last k fuel s F Q R L;
    (destruct fuel as [|fuel]; [lia|]); cbn [app] in F, R; cbn [reads] in R;
    inversion F as [|x0 xs0 ch us0 Br F' X1 X2]; subst; rewrite <- app_assoc in Q.
  - inversion F'; subst. destruct (cb k x) as [[k' go]|] eqn:Ek; [|contradiction]. destruct go; [contradiction|].
    destruct (update_shows _ _ _ _ s x ch Q Br) as (s1 & E1 & Q1 & T1).
    cbn [read_loop]. unfold bind at 1. rewrite E1. unfold bind at 1, emit, modify. unfold bind at 1. rewrite Ek. unfold unwrap, ret. cbn [fst snd trace add_event]. rewrite T1. reflexivity.
  - destruct (cb k y) as [[k' go]|] eqn:Ek; [|contradiction]. destruct go; [|destruct xs; discriminate R].
    destruct (update_shows _ _ _ _ s y ch Q Br) as (s1 & E1 & Q1 & T1).
    cbn [read_loop]. unfold bind at 1. rewrite E1. unfold bind at 1, emit, modify. unfold bind at 1. rewrite Ek. unfold unwrap, ret. cbn [fst snd].
    rewrite (IH x us0 rest ts id (rs_message_id y) k' fuel (add_event s1 (EvRead y)) F'); auto; [|destruct Q1; constructor; cbn; auto|cbn [List.length] in L; lia].
    cbn [app trace add_event]. rewrite given_cons, T1, <- app_assoc. reflexivity.
Qed.
(** With a robot which sends 101 states it shows exactly these. *)
Theorem C77_echo_live : forall port size rt x ch v t xs us urest trest realtime priority,
  (0 < size)%nat -> rt = RtIgnore \/ (realtime = true /\ priority = true) ->
  burst state_size state_decode x ch -> stopped x -> answered c_connect_response 0 (CsSuccess, v) t ->
  List.length xs = 101%nat -> (exists ys y, xs = ys ++ [y] /\ stopped y) -> feeds (rs_message_id x) xs us ->
  exists s', echo_program port (st_init size rt (ch ++ us ++ urest) (t ++ trest) [] realtime priority) = (Ok tt, s') /\ rev (displayed (trace s')) = xs /\ ready urest trest s'.
Proof.
  intros port size rt x ch v t xs us urest trest realtime priority Sz Rt B St An Ln (ys & y & -> & Sy) Fe.
  destruct (C61_connect port size rt x ch v t (us ++ urest) trest realtime priority Sz Rt B St An) as (s0 & E0 & R0 & I0 & M0).
  assert (Rd : forall l n, (n + N.of_nat (List.length l) = 101)%N -> l <> [] -> reads echo_callback n l).
  { clear. induction l as [|a l IH]; intros n Hn Hl; [contradiction Hl; reflexivity|]. cbn [reads]. unfold echo_callback at 1. cbn [List.length] in Hn.
    destruct l as [|b l]; [cbn [List.length] in Hn; replace (n + 1 <=? 100) with false by (symmetry; apply N.leb_gt; lia); reflexivity|].
    replace (n + 1 <=? 100) with true by (symmetry; apply N.leb_le; cbn [List.length] in Hn; lia). apply IH; [cbn [List.length] in *; lia|discriminate]. }
  assert (Sv : serves (n_id s0) (r_message_id s0) (ARead N echo_callback 0) us [] (n_id s0) (rs_message_id y)).
  { apply (serves_read _ _ N echo_callback 0 ys y us); [rewrite M0; exact Fe|exact Sy|]. apply Rd; [rewrite Ln; reflexivity|destruct ys; discriminate]. }
  destruct (serves_ok _ us [] _ _ urest trest s0 R0 Sv) as (s1 & E1 & R1 & _ & _).
  exists s1. cbn [run_api] in E1. unfold bind in E1. unfold echo_program, bind. rewrite E0. unfold echo_robot_state.
  assert (T1 : trace (snd (robot_read echo_callback 0 s0)) = given (ys ++ [y]) ++ trace s0).
  { unfold robot_read, bind, get. apply (loop_shows _ _ ys y us urest trest (n_id s0) (r_message_id s0)); [rewrite M0; exact Fe|destruct R0; constructor; auto|apply Rd; [rewrite Ln; reflexivity|destruct ys; discriminate]|].
    unfold bound. rewrite (re_udp _ _ _ R0). pose proof (pending_feeds _ _ us urest (n_udp s0) Fe) as P. rewrite app_length in P. cbn in P |- *. lia. }
  destruct (robot_read echo_callback 0 s0) as [[n|e|p| |] s2]; try discriminate E1. injection E1 as <-. split; [reflexivity|]. split; [|exact R1].
  cbn [snd] in T1. rewrite T1. destruct (given_shows (ys ++ [y]) (trace s0)) as (G1 & _). rewrite G1.
  destruct (connect_plain port (st_init size rt (ch ++ us ++ urest) (t ++ trest) [] realtime priority)) as (d & T & P).
  rewrite E0 in T. cbn [snd] in T. change (trace (st_init size rt (ch ++ us ++ urest) (t ++ trest) [] realtime priority)) with (@nil event) in T. rewrite app_nil_r in T.
  rewrite <- T in P. destruct (plain_shows _ P) as (D1 & _). rewrite D1, app_nil_r. apply rev_involutive.
Qed.
Print Assumptions C77_echo_live.

(** * Examples *)
(** A robot which shows few states: two calls counted. *)
Definition ex_measured : motion := Motion [] (ex_mv 60000) (ex_mv 60001) [ex_mv 60002; ex_mv 70002] [] (ex_idle 80000).
Example C77_ex_succeeds : exists n1 s' rep,
  communication_test ex_rots 1337
    (st_init 10 RtIgnore (ex_first (ex_idle 1) ++ (ex_states (all_states (ex_motion76 MgJointPosition 30000 n1)) ++ ex_states (all_states ex_measured)) ++ [])
      ([ex_connected 0] ++ ([ex_set RcSetCollisionBehavior 1 GsSuccess; ex_set RcSetJointImpedance 2 GsSuccess; ex_set RcSetCartesianImpedance 3 GsSuccess; ex_set RcSetCollisionBehavior 4 GsSuccess] ++
        [ex_move 5 MsMotionStarted; None; ex_move 5 MsSuccess] ++ [ex_move 6 MsMotionStarted; None; ex_move 6 MsSuccess]) ++ []) [] true true) = (Ok (Some rep), s') /\
  faithful (ex_mv 60001) [(ex_mv 60002, 1); (ex_mv 70002, 10000)] rep.
Proof.
  destruct (C77_communication_live ex_rots (ex_moving MgJointPosition 30001) [ex_moving MgJointPosition 46000]) as (n1 & L1 & G).
  - constructor; [repeat (apply Forall_cons; [apply moving_sound; reflexivity|]); apply Forall_nil| |exact ex_zeros].
    cbn [newer]. split; [change (30001 < 46000); lia|exact Logic.I].
  - eexists. split; [left; reflexivity|]. change (30001 + 14002 <= 46000). lia.
  - exists n1. apply (G 1337 10%nat RtIgnore (ex_idle 1) (ex_first (ex_idle 1)) 5 [ex_connected 0] _ (ex_motion76 MgJointPosition 30000 n1) _ _ ex_measured [ex_mv 60002] (ex_mv 70002)).
    + lia.
    + left. reflexivity.
    + first_brought.
    + split; [reflexivity|discriminate].
    + eapply (ex_answered _ _ _ 0); decodes.
    + exists [ex_set RcSetCollisionBehavior 1 GsSuccess]. eexists. split; [reflexivity|]. split; [eapply (ex_answered _ _ _ 0); decodes|].
      exists [ex_set RcSetJointImpedance 2 GsSuccess]. eexists. split; [reflexivity|]. split; [eapply (ex_answered _ _ _ 0); decodes|].
      exists [ex_set RcSetCartesianImpedance 3 GsSuccess]. eexists. split; [reflexivity|]. split; [eapply (ex_answered _ _ _ 0); decodes|].
      exists [ex_set RcSetCollisionBehavior 4 GsSuccess]. eexists. split; [reflexivity|]. split; [eapply (ex_answered _ _ _ 0); decodes|reflexivity].
    + apply ex_plays; [left; reflexivity|exact L1|reflexivity|intros x Hm Hc; split; [exact Hm|exact Hc]|eexists; decodes|eexists; decodes].
    + reflexivity.
    + constructor.
      * apply ex_feeds; [cbn; repeat split|repeat constructor; decodes].
      * exists [ex_move 6 MsMotionStarted], [ex_move 6 MsSuccess]. split; [eapply (ex_answered _ _ _ 0); decodes|]. split; [eapply (ex_answered _ _ _ 0); decodes|reflexivity].
      * constructor.
      * split; reflexivity.
      * repeat constructor.
      * constructor.
      * split; [reflexivity|discriminate].
    + reflexivity.
    + cbn; repeat split.
    + repeat constructor.
    + split; [discriminate|reflexivity].
Qed.
(** The robot refuses the second setting of the collision behaviour: the program ends with this error and asks for no motion. *)
Example C77_ex_refused : match communication_test ex_rots 1337
    (st_init 10 RtIgnore (ex_first (ex_idle 1)) [ex_connected 0; ex_set RcSetCollisionBehavior 1 GsSuccess; ex_set RcSetJointImpedance 2 GsSuccess;
       ex_set RcSetCartesianImpedance 3 GsSuccess; ex_set RcSetCollisionBehavior 4 GsCommandNotPossibleRejected] [] true true) with
  | (Err _, s') => List.length (in_order_asked (trace s')) = 5%nat
  | _ => False
  end.
Proof. vm_compute. reflexivity. Qed.
(** 101 of 103 states are shown. *)
Example C77_ex_echo : match echo_program 1337 (st_init 10 RtIgnore (ex_first (ex_idle 1) ++ ex_states (map (fun n => ex_idle (N.of_nat n)) (seq 2 103))) [ex_connected 0] [] true true) with
  | (Ok _, s') => map rs_message_id (rev (displayed (trace s'))) = map N.of_nat (seq 2 101)
  | _ => False
  end.
Proof. vm_compute. reflexivity. Qed.
Example C77_ex_echo_live : exists s', echo_program 1337 (st_init 10 RtIgnore (ex_first (ex_idle 1) ++ ex_states (map (fun n => ex_idle (N.of_nat n)) (seq 2 101)) ++ []) ([ex_connected 0] ++ []) [] true true) = (Ok tt, s') /\
  rev (displayed (trace s')) = map (fun n => ex_idle (N.of_nat n)) (seq 2 101) /\ ready [] [] s'.
Proof.
  apply C77_echo_live with (x := ex_idle 1) (v := 5).
  - lia.
  - left. reflexivity.
  - first_brought.
  - split; [reflexivity|discriminate].
  - eapply (ex_answered _ _ _ 0); decodes.
  - reflexivity.
  - exists (map (fun n => ex_idle (N.of_nat n)) (seq 2 100)), (ex_idle 102). split; [reflexivity|]. split; [reflexivity|discriminate].
  - apply ex_feeds; [vm_compute; repeat split|]. cbn [seq map]. repeat (apply Forall_cons; [split; decodes|]). apply Forall_nil.
Qed.
