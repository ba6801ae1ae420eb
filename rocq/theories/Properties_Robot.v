(** Properties C11, C12, C14-C23, C26, C47, C48 of the robot handle and the control loop. *)
From Coq Require Import List NArith ZArith Bool Arith Lia String Sorting.Sorted.
From Coq Require Import Init.Byte.
From Verif Require Import Bytes Codec WireModel TcpModel UdpModel UdpSpec ErrorsModel LoggerModel
  RobotModel LoopModel RobotSpec RobotProofs RobotWp LoopProofs Effects RobotMore RobotCalls RobotScenario.
Import ListNotations.
Open Scope list_scope.
Open Scope N_scope.

(** What a program (connect, then any calls with any callbacks) does in any environment: log size,
    real-time setting, UDP arrivals, TCP messages, results of sending, kernel. Newest first. *)
Definition history (port : N) (calls : list api) (log_size : nat) (rt : rt_config) (us : sched)
  (ts : list (option (N * list byte))) (sends : list bool) (realtime priority : bool) : list event :=
  trace (program port calls (st_init log_size rt us ts sends realtime priority)).
Definition is_history (t : list event) : Prop :=
  exists port calls n rt us ts se rk pr, t = history port calls n rt us ts se rk pr.
Lemma history_lawful : forall t, is_history t -> lawful t.
Proof. intros t (port & calls & n & rt & us & ts & se & rk & pr & ->). apply program_lawful, init_fresh. Qed.

(** The example history: connect and one torque controlled motion which ends regularly. *)
Definition ex_history : list event := trace (program 1337 [AControl (ex_control 2) 0; AReadOnce] ex_env_good).
Lemma ex_is_history : is_history ex_history.
Proof. unfold is_history, history, ex_history, ex_env_good. do 9 eexists. reflexivity. Qed.

(** * C11 *)
Theorem C11_states_increase : forall t, is_history t ->
  StronglySorted (fun later earlier => rs_message_id earlier < rs_message_id later) (shown t).
Proof. intros t H. exact (shown_sorted t (history_lawful t H)). Qed.
Print Assumptions C11_states_increase.

(** The state a read returns is the one recorded as shown. *)
Theorem C11_read_returns_shown : forall s x s', reachable s -> read_once s = (Ok x, s') ->
  shown (trace s') = x :: shown (trace s).
Proof.
  intros s x s' R E. pose proof (wp_read_once s (reachable_I s R)) as W. unfold wp in W. rewrite E in W.
  destruct W as [_ ->]. reflexivity.
Qed.
Print Assumptions C11_read_returns_shown.

(** Every state given to the torque callback was given to the motion callback just before, so it is
    covered by [shown]. *)
Theorem C11_torque_states_shown : forall t x dt, is_history t -> In (EvTorque x dt) t -> In x (shown t).
Proof.
  intros t x dt H Hin. apply history_lawful in H. apply in_split in Hin. destruct Hin as (t1 & t2 & ->).
  apply lawful_split in H. destruct H as [[_ (m & t' & ->)] _].
  unfold shown. rewrite flat_map_app. apply in_or_app. right. cbn. auto.
Qed.
Print Assumptions C11_torque_states_shown.

Example C11_ex : map rs_message_id (shown ex_history) = [8; 5; 4].
Proof. vm_compute. reflexivity. Qed.

(** * C12 *)
(** Proved if the datagrams are complete states and arrive in the order of their ids. *)
Theorem C12_freshest_partial : forall s x s', noticed (n_udp s) -> in_order (waiting s) ->
  receive_robot_state s = (Ok x, s') ->
  exists used, n_usched s = used ++ n_usched s' /\ u_queue (n_udp s') = [] /\
    (exists z, In z (u_queue (n_udp s) ++ arrived used) /\ state_of z = Some x) /\
    (forall d, In d (u_queue (n_udp s) ++ arrived used) -> id_of d <= rs_message_id x).
Proof. exact receive_greatest. Qed.
Print Assumptions C12_freshest_partial.

Definition ex_waiting (l : list N) : st :=
  after_new (st_init 10 RtIgnore (ex_first (ex_idle 1) ++ [Tick (map (fun i => ex_dg (ex_idle i)) l) false])
               [ex_connected 0] [] true true).
Example C12_ex : waiting (ex_waiting [9; 10]) = map (fun i => ex_dg (ex_idle i)) [9; 10] /\
  match receive_robot_state (ex_waiting [9; 10]) with (Ok x, _) => rs_message_id x = 10 | _ => False end.
Proof. split; vm_compute; reflexivity. Qed.

(** In general it is false: of a reordered pair the older state is returned, because the receive
    drains the socket and keeps the last datagram. *)
Theorem C12_freshest_refuted : exists s x s' d y, reachable s /\ u_queue (n_udp s) = [] /\
  arrived (n_usched s) = [d; ex_dg x] /\ state_of d = Some y /\
  receive_robot_state s = (Ok x, s') /\ rs_message_id x < rs_message_id y.
Proof.
  exists (ex_waiting [10; 9]), (ex_idle 9), (snd (receive_robot_state (ex_waiting [10; 9]))),
         (ex_dg (ex_idle 10)), (ex_idle 10).
  split.
  { apply reach_new with (log_size := 10%nat) (rt := RtIgnore)
      (usched := ex_first (ex_idle 1) ++ [Tick (map (fun i => ex_dg (ex_idle i)) [10; 9]) false])
      (tsched := [ex_connected 0]) (sends := []) (realtime := true) (priority := true) (port := 1337) (u := tt).
    vm_compute. reflexivity. }
  split; [vm_compute; reflexivity|]. split; [vm_compute; reflexivity|]. split; [vm_compute; reflexivity|].
  split; [vm_compute; reflexivity|]. vm_compute; reflexivity.
Qed.
Print Assumptions C12_freshest_refuted.

(** * C14 *)
Theorem C14_command_echoes_newest : forall t t1 a c t2, is_history t -> t = t1 ++ EvCommand a c :: t2 ->
  exists x, last_state t2 = Some x /\ rc_message_id c = rs_message_id x.
Proof. intros t t1 a c t2 H ->. apply history_lawful, lawful_split in H. destruct H as [(_ & H & _) _]. exact H. Qed.
Print Assumptions C14_command_echoes_newest.

(** Ids of commands strictly increase over the whole life of the handle, not just within a motion. *)
Theorem C14_ids_increase : forall t, is_history t ->
  StronglySorted (fun later earlier => rc_message_id earlier < rc_message_id later) (commands t).
Proof. intros t H. exact (commands_sorted t (history_lawful t H)). Qed.
Print Assumptions C14_ids_increase.

Example C14_ex : map rc_message_id (commands ex_history) = [9; 8; 5; 4].
Proof. vm_compute. reflexivity. Qed.

(** * C15 *)
(** All combinations of an active motion, its controller and what is supplied. *)
Theorem C15_admission : forall s motion ctl c, r_cur_ctrl s = Some c ->
  let active := r_cur_motion s <> MgIdle in
  let external := c = CmExternalController in
  (* refused, nothing sent *)
  (forall m, motion = Some m -> ~ active ->
     send_robot_command motion ctl s = (Err NoMotionGeneratorRunningError, s)) /\
  (forall q, (motion = None \/ active) -> ctl = Some q -> ~ external ->
     send_robot_command motion ctl s = (Err NoControllerRunningError, s)) /\
  (active -> external -> (motion = None /\ ctl <> None) \/ (motion <> None /\ ctl = None) ->
     send_robot_command motion ctl s = (Err PartialCommandError, s)) /\
  (motion = None -> ctl = None \/ (~ active /\ external) -> send_robot_command motion ctl s = (Ok None, s)) /\
  (* sent *)
  (forall m, motion = Some m -> active -> (ctl <> None <-> external) ->
     let cmd := RobotCommand (r_message_id s) m (match ctl with Some q => q | None => zero_torques end) in
     match n_sends s with
     | false :: r => send_robot_command motion ctl s = (Err (NetworkException NeSend), set_sends s r)
     | _ => exists s', send_robot_command motion ctl s = (Ok (Some cmd), s') /\
              trace s' = EvCommand (u_server (n_udp s)) cmd :: trace s
     end).
Proof.
  intros s motion ctl c Hc active external.
  assert (Ha : active -> mg_eqb (r_cur_motion s) MgIdle = false).
  { intros H. destruct (mg_eqb _ _) eqn:E; [|reflexivity]. apply mg_eqb_eq in E. contradiction. }
  assert (Hn : ~ active -> mg_eqb (r_cur_motion s) MgIdle = true).
  { intros H. destruct (r_cur_motion s); try reflexivity; exfalso; apply H; discriminate. }
  assert (He : external -> is_ext c = true) by (intros H; unfold external in H; rewrite H; reflexivity).
  assert (Hx : ~ external -> is_ext c = false).
  { intros H. unfold external in H. destruct c; try reflexivity. exfalso. apply H. reflexivity. }
  repeat split.
  - intros m -> N. rewrite (send_table s (Some m) ctl c Hc), (Hn N). destruct ctl; reflexivity.
  - intros q Hm -> N. rewrite (send_table s motion (Some q) c Hc), (Hx N).
    destruct motion as [m|]; [|reflexivity]. destruct Hm as [Hm|Hm]; [discriminate|]. rewrite (Ha Hm). reflexivity.
  - intros Hm E Hp. rewrite (send_table s motion ctl c Hc), (Ha Hm), (He E).
    destruct motion as [m|], ctl as [q|]; try reflexivity; exfalso; destruct Hp as [[? ?]|[? ?]]; congruence.
  - intros -> Hp. rewrite (send_table s None ctl c Hc). destruct ctl as [q|]; [|reflexivity].
    destruct Hp as [Hp|[N E]]; [discriminate|]. rewrite (Hn N), (He E). reflexivity.
  - intros m -> Hm Hp cmd. rewrite (send_table s (Some m) ctl c Hc), (Ha Hm). cbn [has andb].
    assert (E : has ctl && negb (is_ext c) = false /\
                negb false && is_ext c && (negb true || negb (has ctl)) = false).
    { destruct ctl as [q|]; cbn.
      - rewrite He by (apply Hp; discriminate). auto.
      - rewrite Hx by (intros Hy; apply Hp in Hy; congruence). auto. }
    destruct E as [E1 E2]. rewrite E1. destruct ctl as [q|]; cbn [has negb orb andb] in *; rewrite ?E2;
      unfold udp_send, bind; destruct (n_sends s) as [|[] r]; try reflexivity; eexists; (split; [reflexivity|reflexivity]).
Qed.
Print Assumptions C15_admission.

(** Before the first motion the controller is not set; a motion command is refused too. *)
Theorem C15_refused_when_idle : forall s m ctl, r_cur_motion s = MgIdle ->
  send_robot_command (Some m) ctl s = (Err NoMotionGeneratorRunningError, s).
Proof. exact idle_refuses. Qed.
Print Assumptions C15_refused_when_idle.

(** Over whole histories: a motion without external control gets zero torques; with external
    control and before completion the torques are those of the torque callback just called. *)
Theorem C15_torques : forall t t1 a c t2, is_history t -> t = t1 ++ EvCommand a c :: t2 ->
  match motion_ctrl t2 with
  | None => False
  | Some McExternalController => completed t2 = false ->
      exists x dt rest, t2 = EvTorqueOut (rc_tau c) false :: EvTorque x dt :: rest
  | Some _ => rc_tau c = zero_torques
  end.
Proof.
  intros t t1 a c t2 H ->. apply history_lawful, lawful_split in H.
  destruct H as [(_ & _ & (m & Ho & _) & J & Tq & _) L].
  destruct (motion_ctrl t2) as [mc|] eqn:E.
  - assert (Z : mc <> McExternalController -> rc_tau c = zero_torques).
    { intros N. rewrite Tq, torques_only_external; [reflexivity|exact L|congruence]. }
    destruct mc; try (apply Z; discriminate). intros Co. specialize (J Co). unfold just_called in J. rewrite E in J.
    destruct J as (q & x & dt & t' & ->). cbn in Tq. subst q. eauto.
  - apply (motion_has_ctrl t2 L); congruence.
Qed.
Print Assumptions C15_torques.

Definition ex_h1 : list event := (* connect and a motion without external control *)
  trace (program 1337 [AControl (ex_impedance 1) 0]
    (st_init 10 RtIgnore
      (ex_first (ex_idle 1) ++ ex_states (map (fun i => ex_rs i MgJointPosition CmCartesianImpedance RmMove) [2; 4; 5; 6] ++ [ex_idle 9]))
      [ex_connected 0; ex_move 1 MsMotionStarted; None; ex_move 1 MsSuccess] [] true true)).
Example C15_ex : is_history ex_h1 /\ map rc_tau (commands ex_h1) = repeat zero_torques 3 /\
  map rc_tau (commands ex_history) = [repeat 102 7; repeat 102 7; repeat 102 7; repeat 101 7].
Proof. split; [unfold is_history, history, ex_h1; do 9 eexists; reflexivity|]. vm_compute. auto. Qed.
Example C15_ex_table : (* idle handle, then a handle in a motion *)
  send_robot_command (Some (ex_motion 1)) None (ex_waiting []) = (Err NoMotionGeneratorRunningError, ex_waiting []) /\
  let s := set_current (ex_waiting []) MgJointPosition (Some CmExternalController) in
  r_cur_ctrl s = Some CmExternalController /\
  fst (send_robot_command (Some (ex_motion 1)) None s) = Err PartialCommandError /\
  fst (send_robot_command None (Some (repeat 1 7)) s) = Err PartialCommandError /\
  match send_robot_command (Some (ex_motion 1)) (Some (repeat 1 7)) s with
  | (Ok (Some c), s') => commands (trace s') = [c] | _ => False end.
Proof. vm_compute. auto 10. Qed.

(** * C16 *)
(** Between any two commands a new state was accepted, and one before the first. *)
Theorem C16_one_command_per_state : forall t t1 a c mid b d t2, is_history t ->
  t = t1 ++ EvCommand a c :: mid ++ EvCommand b d :: t2 -> exists x, In (EvState x) mid.
Proof.
  intros t t1 a c mid b d t2 H ->. apply history_lawful, lawful_split in H. destruct H as [[U _] _].
  exact (unanswered_mid mid b d t2 U).
Qed.
Print Assumptions C16_one_command_per_state.
Theorem C16_state_before_command : forall t t1 a c t2, is_history t -> t = t1 ++ EvCommand a c :: t2 ->
  exists x, In (EvState x) t2.
Proof.
  intros t t1 a c t2 H ->. apply history_lawful, lawful_split in H. destruct H as [(_ & (x & Hx & _) & _) _].
  exists x. clear - Hx. induction t2 as [|e t2 IH]; [discriminate|].
  destruct e; cbn in *; auto. injection Hx as ->. auto.
Qed.
Print Assumptions C16_state_before_command.

Definition kinds (t : list event) : list (N * N) :=   (* (1, id): state; (2, id): command *)
  flat_map (fun e => match e with EvState x => [(1, rs_message_id x)] | EvCommand _ c => [(2, rc_message_id c)] | _ => [] end) t.
Example C16_ex : rev (kinds ex_history) = [(1, 1); (1, 2); (1, 4); (2, 4); (1, 5); (2, 5); (1, 8); (2, 8); (1, 9); (2, 9); (1, 10)].
Proof. vm_compute. reflexivity. Qed.

(** * C17 *)
(** The flag of a command tells whether a callback of the motion has reported completion, and the
    values are the newest output of the motion callback in this motion. *)
Theorem C17_finished_flag : forall t t1 a c t2, is_history t -> t = t1 ++ EvCommand a c :: t2 ->
  mc_finished (rc_motion c) = completed t2 /\
  exists m, newest_output (this_motion t2) = Some m /\ rc_motion c = marked (completed t2) m.
Proof.
  intros t t1 a c t2 H ->. apply history_lawful, lawful_split in H. destruct H as [(_ & _ & (m & Hm & E) & _) _].
  split; [rewrite E; reflexivity|]. exists m. auto.
Qed.
Print Assumptions C17_finished_flag.

(** Before completion the values were produced for the state answered. *)
Theorem C17_fresh_values : forall t t1 a c t2, is_history t -> t = t1 ++ EvCommand a c :: t2 ->
  completed t2 = false -> just_called t2.
Proof.
  intros t t1 a c t2 H -> C. apply history_lawful, lawful_split in H. destruct H as [(_ & _ & _ & J & _) _]. auto.
Qed.
Print Assumptions C17_fresh_values.

(** A control call succeeds only after a callback reported completion and the robot stopped. *)
Theorem C17_until_stopped : forall k cb s u s', reachable s -> control k cb s = (Ok u, s') ->
  completed (trace s') = true /\
  exists x, last_state (trace s') = Some x /\
    rs_motion_generator_mode x = MgIdle /\ rs_controller_mode x <> CmExternalController.
Proof.
  intros k cb s u s' R E. pose proof (wp_control k cb s (reachable_I s R)) as W. unfold wp in W. rewrite E in W.
  destruct W as (I' & Id & C). split; [exact C|]. exact (idle_last s' I' Id).
Qed.
Print Assumptions C17_until_stopped.

Example C17_ex : map (fun c => (rc_message_id c, mc_finished (rc_motion c), hd 0 (mc_q_c (rc_motion c)))) (commands ex_history) =
  [(9, true, 2); (8, true, 2); (5, false, 1); (4, false, 0)] /\ outcome_of ex_env_good = Ok tt.
Proof. vm_compute. auto. Qed.

(** * C18 *)
Theorem C18_time_step : forall t t1 x dt t2, is_history t -> t = t1 ++ EvMotion x dt :: t2 ->
  match motion_calls (this_motion t2) with
  | [] => dt = 0
  | (y, _) :: _ => 1 <= dt /\ rs_message_id x = rs_message_id y + dt
  end.
Proof.
  intros t t1 x dt t2 H ->. apply history_lawful, lawful_split in H. destruct H as [(_ & _ & t' & -> & E & _) L].
  change (this_motion (EvState x :: t')) with (EvState x :: this_motion t').
  change (motion_calls (EvState x :: this_motion t')) with (motion_calls (this_motion t')).
  rewrite newest_calls in E. destruct (motion_calls (this_motion t')) as [|[y dy] r] eqn:M; [exact E|].
  assert (Hy : rs_message_id y < rs_message_id x).
  { pose proof (shown_below t' x L) as B. rewrite Forall_forall in B. apply B.
    apply shown_incl, newest_motion_call_in. rewrite newest_calls, M. reflexivity. }
  lia.
Qed.
Print Assumptions C18_time_step.

(** The steps of the calls so far in the current motion add up to the elapsed robot time.
    [motion_calls] is newest first, so [first] belongs to the first call. *)
Theorem C18_steps_add_up : forall t x dt l first dt0, is_history t ->
  motion_calls (this_motion t) = (x, dt) :: l -> last ((x, dt) :: l) (x, dt) = (first, dt0) ->
  total ((x, dt) :: l) = rs_message_id x - rs_message_id first /\ rs_message_id first <= rs_message_id x /\ dt0 = 0.
Proof.
  intros t x dt l first dt0 H M E. apply history_lawful, calls_elapsed in H. rewrite M in H.
  assert (Lr : forall (a : robot_state_intern * N) r d, last (a :: r) d = hd d (rev (a :: r))).
  { intros a r d. destruct (rev (a :: r)) as [|b l0] eqn:Er.
    - apply (f_equal (@rev _)) in Er. rewrite rev_involutive in Er. discriminate.
    - apply (f_equal (@rev _)) in Er. rewrite rev_involutive in Er. rewrite Er. cbn [rev hd]. apply last_last. }
  rewrite Lr in E. destruct (rev ((x, dt) :: l)) as [|[f0 d0] r]; [contradiction|]. cbn in E.
  injection E as -> ->. tauto.
Qed.
Print Assumptions C18_steps_add_up.

Theorem C18_step_never_fails : forall k cb s s', reachable s -> control k cb s <> (Panic PTimeStep, s').
Proof.
  intros k cb s s' R E. pose proof (wp_control k cb s (reachable_I s R)) as W. unfold wp in W. rewrite E in W.
  destruct W as [_ W]. congruence.
Qed.
Print Assumptions C18_step_never_fails.

Example C18_ex : map (fun p => (rs_message_id (fst p), snd p)) (motion_calls (this_motion ex_history)) =
  [(8, 3); (5, 1); (4, 0)].
Proof. vm_compute. reflexivity. Qed.

(** * C19 *)
Theorem C19_motion_then_torque : forall t t1 x dt t2, is_history t -> t = t1 ++ EvTorque x dt :: t2 ->
  completed t2 = false /\ exists m rest, t2 = EvMotionOut m false :: EvMotion x dt :: rest.
Proof.
  intros t t1 x dt t2 H ->. apply history_lawful, lawful_split in H.
  destruct H as [(_ & m & t' & ->) L]. split; [|eauto].
  destruct L as [_ [(_ & C & _) _]]. exact C.
Qed.
Print Assumptions C19_motion_then_torque.

(** The motion callback is called on the state just accepted, and not after completion. *)
Theorem C19_none_after_completion : forall t t1 x dt t2, is_history t -> t = t1 ++ EvMotion x dt :: t2 ->
  completed t2 = false /\ exists rest, t2 = EvState x :: rest.
Proof.
  intros t t1 x dt t2 H ->. apply history_lawful, lawful_split in H.
  destruct H as [(_ & C & t' & E & _) _]. eauto.
Qed.
Print Assumptions C19_none_after_completion.

(** With external control every state answered before completion went to both callbacks. *)
Theorem C19_both_called : forall t t1 a c t2, is_history t -> t = t1 ++ EvCommand a c :: t2 ->
  completed t2 = false -> motion_ctrl t2 = Some McExternalController ->
  exists q x dt m rest, t2 = EvTorqueOut q false :: EvTorque x dt :: EvMotionOut m false :: EvMotion x dt :: EvState x :: rest
    /\ rc_motion c = marked false m /\ rc_tau c = q /\ rc_message_id c = rs_message_id x.
Proof.
  intros t t1 a c t2 H -> C E. apply history_lawful, lawful_split in H.
  destruct H as [(_ & (y & Hy & Ei) & (m0 & Hm & Em) & J & Tq & _) L].
  specialize (J C). unfold just_called in J. rewrite E in J. destruct J as (q & x & dt & t' & ->).
  destruct L as [_ [(_ & m & t'' & ->) [_ [(_ & _ & t3 & -> & _) L]]]].
  cbn in Hy, Hm, Tq. rewrite C in Em.
  exists q, x, dt, m, t3. split; [reflexivity|].
  injection Hm as ->. injection Hy as ->. auto.
Qed.
Print Assumptions C19_both_called.

Example C19_ex : rev (flat_map (fun e => match e with
    EvMotion x dt => [(1, rs_message_id x, dt)] | EvTorque x dt => [(2, rs_message_id x, dt)] | _ => [] end) ex_history) =
  [(1, 4, 0); (2, 4, 0); (1, 5, 1); (2, 5, 1); (1, 8, 3)].
Proof. vm_compute. reflexivity. Qed.

(** * C59 *)
(** The motion callback is called only with states that show the robot moving in the requested
    modes. *)
Theorem C59_callbacks : forall t t1 x dt t2, is_history t -> t = t1 ++ EvMotion x dt :: t2 -> under_way x t2.
Proof.
  intros t t1 x dt t2 H ->. apply history_lawful, lawful_split in H.
  destruct H as [(_ & _ & t' & _ & _ & U) _]. exact U.
Qed.
Print Assumptions C59_callbacks.

(** A command sent before completion answers a state which shows the robot moving in the requested
    modes; a finished command answers a state which shows some motion or the external controller
    still running. *)
Theorem C59_commands : forall t t1 a c t2, is_history t -> t = t1 ++ EvCommand a c :: t2 ->
  exists x, last_state t2 = Some x /\ rc_message_id c = rs_message_id x /\
    (mc_finished (rc_motion c) = false -> under_way x t2) /\
    (mc_finished (rc_motion c) = true -> still_running x).
Proof.
  intros t t1 a c t2 H ->. apply history_lawful, lawful_split in H.
  destruct H as [(_ & (x & Hx & Ei) & (m & _ & Em) & J & _ & S) L]. exists x. split; [exact Hx|]. split; [exact Ei|].
  rewrite Em. cbn [marked mc_finished]. split; intros C.
  - specialize (J C). unfold just_called in J.
    destruct (motion_ctrl t2) as [mc|]; [|destruct J]. assert (K : forall m x0 dt t', lawful (EvMotionOut m false :: EvMotion x0 dt :: t') ->
      last_state t' = Some x -> under_way x t').
    { intros m0 x0 dt t' [_ [(_ & _ & t3 & -> & _ & U) _]] La. cbn in La. injection La as ->. exact U. }
    destruct mc; destruct J as (q & x0 & dt & t' & ->).
    + exact (K _ _ _ _ L Hx).
    + exact (K _ _ _ _ L Hx).
    + destruct L as [_ [(_ & m1 & t3 & E) L]]. subst t'. cbn in Hx. exact (K _ _ _ _ L Hx).
  - destruct (S C) as (y & Hy & R). congruence.
Qed.
Print Assumptions C59_commands.

(** A robot which leaves the motion by itself (state 5 shows no motion any more) gets no further
    command: the states 1, 2, 4 and 5 arrive, the only command answers state 4. *)
Definition ex_left (x : robot_state_intern) : list event :=
  trace (program 1337 [AControl (ex_control 99) 0]
    (st_init 10 RtIgnore (ex_first (ex_idle 1) ++ ex_states [ex_run 2; ex_run 4; x; ex_idle 9])
      [ex_connected 0; ex_move 1 MsMotionStarted; None; ex_move 1 MsAborted; ex_stop 2 SsSuccess] [] true true)).
Example C59_ex :
  kinds (ex_left (ex_idle 5)) = [(1, 9); (1, 5); (2, 4); (1, 4); (1, 2); (1, 1)] /\
  kinds (ex_left (ex_rs 5 MgJointPosition CmJointImpedance RmMove)) = [(1, 9); (1, 5); (2, 4); (1, 4); (1, 2); (1, 1)].
Proof. vm_compute. auto. Qed.

(** * C20 *)
(** [id] is the answered move request.  [do_loop] is everything the call does between the start of
    the motion and the decision to stop. *)
Theorem C20_stop_before_error : forall k id cb s,
  match do_loop k id cb s with
  | (Err e, s1) =>
      requests (trace s1) = requests (trace s) /\
      exists d, trace (snd (run_loop k id cb s)) = d ++ EvRequest (n_id s1) ReqStopMove :: trace s1 /\
        Forall (fun ev => match ev with EvState _ | EvReply _ _ => True | _ => False end) d /\
        match fst (run_loop k id cb s) with Err e' => e' = e | Ok _ => False | _ => True end
  | (r, s1) => run_loop k id cb s = (r, s1) /\ requests (trace s1) = requests (trace s)
  end.
Proof. exact run_loop_requests. Qed.
Print Assumptions C20_stop_before_error.

(** What a control call requests over TCP, whatever happens. *)
Theorem C20_requests_of_control : forall k cb s, reachable s ->
  let move := ReqMove (match k_torque k with Some _ => McExternalController
                       | None => match k_impedance k with JointImpedance => McJointImpedance
                                 | CartesianImpedance => McCartesianImpedance end end)
                      (k_mode k) default_deviation default_deviation in
  match control k cb s with
  | (Ok _, s') => requests (trace s') = move :: requests (trace s)
  | (_, s') => exists l, requests (trace s') = l ++ requests (trace s) /\
      (l = [] \/ l = [move] \/ l = [ReqStopMove; move])
  end.
Proof.
  intros k cb s R move. pose proof (control_requests k cb s R) as H.
  change (wanted_ctrl k) with (match k_torque k with Some _ => McExternalController
                       | None => match k_impedance k with JointImpedance => McJointImpedance
                                 | CartesianImpedance => McCartesianImpedance end end) in H.
  fold move in H.
  destruct (control k cb s) as [[u|e|p| |] s']; [exact H| | | |];
    (destruct H as [H|[H|H]]; [exists []|exists [move]|exists [ReqStopMove; move]]; auto).
Qed.
Print Assumptions C20_requests_of_control.

Definition short (r : robot_request) : N := match r with ReqMove _ _ _ _ => 1 | ReqStopMove => 2 | ReqConnect _ => 3 | _ => 4 end.
Example C20_ex : (* a reflex stops the robot, a regular end does not *)
  (match outcome_of ex_env_reflex with Err (ControlException _ (ControlText _ (Some (_, lost)))) => lost = 2 | _ => False end) /\
  map short (requests (trace (program 1337 [AControl (ex_control 2) 0] ex_env_reflex))) = [2; 1; 3] /\
  map short (requests ex_history) = [1; 3].
Proof. vm_compute. auto. Qed.

(** * C21 *)
Theorem C21_enforce : forall k cb s, r_rt s = RtEnforce -> k_realtime s = false ->
  exists m, control k cb s = (Err (RealTimeException m), add_event s EvKernel) /\
            requests (trace (add_event s EvKernel)) = requests (trace s) /\
            commands (trace (add_event s EvKernel)) = commands (trace s).
Proof.
  intros k cb s E K. eexists. split; [|split; reflexivity].
  unfold control, new_intern, bind, get. rewrite E. cbn. rewrite K. reflexivity.
Qed.
Print Assumptions C21_enforce.
(** Refused priority is reported in the same way. *)
Theorem C21_enforce_priority : forall k cb s, r_rt s = RtEnforce -> k_priority s = false ->
  exists m, control k cb s = (Err (RealTimeException m), add_event s EvKernel).
Proof.
  intros k cb s E K. unfold control, new_intern, bind, get. rewrite E. cbn. rewrite K.
  destruct (k_realtime s); eexists; reflexivity.
Qed.
Print Assumptions C21_enforce_priority.
Theorem C21_ignore : forall k cb s, r_rt s = RtIgnore ->
  exists d, trace (snd (control k cb s)) = d ++ trace s /\ ~ In EvKernel d.
Proof.
  intros k cb s E. destruct (control_no_kernel k cb s E) as (d & T & F). exists d. split; [exact T|].
  intros Hin. rewrite Forall_forall in F. exact (F EvKernel Hin).
Qed.
Print Assumptions C21_ignore.
Example C21_ex : r_rt (after_new ex_env_quiet) = RtEnforce /\ k_realtime (after_new ex_env_quiet) = false /\
  outcome_of ex_env_quiet = Err (RealTimeException "libfranka-rs: Running kernel does not have realtime capabilities.") /\
  r_rt (after_new ex_env_good) = RtIgnore.
Proof. vm_compute. auto. Qed.

(** * C22 *)
(** A start with a motion already running panics before anything is sent.  Otherwise exactly one
    request, the move request, is sent and no command; apart from it only states and replies are
    received. *)
Theorem C22_start_sends_one_request : forall c m p g s, reachable s ->
  (running s -> start_motion c m p g s = (Panic PStartWhileRunning, s)) /\
  (~ running s -> exists d, trace (snd (start_motion c m p g s)) = d ++ EvRequest (n_id s) (ReqMove c m p g) :: trace s /\
     Forall (fun ev => match ev with EvState _ | EvReply _ _ => True | _ => False end) d).
Proof. intros c m p g s R. apply start_requests_I, reachable_I, R. Qed.
Print Assumptions C22_start_sends_one_request.

(** A reply to a move request which accepts it. *)
Definition accepts (m : list byte) : Prop := exists h st, deserialize c_move_response m = Some (h, st) /\
  (st = MsMotionStarted \/ st = MsSuccess).

Theorem C22_start_confirmed : forall c m p g s id s', reachable s -> start_motion c m p g s = (Ok id, s') ->
  exists d m1, trace s' = d ++ EvReply id m1 :: EvRequest id (ReqMove c m p g) :: trace s /\ accepts m1 /\
    ((exists x, last_state (trace s') = Some x /\ shows x c m) \/
     (exists m2 d', d = EvReply id m2 :: d' /\ accepts m2)).
Proof.
  intros c m p g s id s' R E. pose proof (wp_start_motion c m p g s (reachable_I s R)) as W. unfold wp in W.
  rewrite E in W. destruct W as ((_ & _ & x & L & _ & Sm & Sc) & _ & _ & _ & d & m1 & r1 & T & D & H & Sh).
  assert (A : forall mm r, deserialize c_move_response mm = Some r -> handle_move (snd r) = None -> accepts mm).
  { intros mm [h st0] Dm Hm. exists h, st0. split; [exact Dm|]. cbn in Hm. destruct st0; try discriminate; auto. }
  exists d, m1. split; [exact T|]. split; [exact (A _ _ D H)|]. destruct Sh as [[S1 S2]|(m2 & r2 & d' & -> & D2 & H2)].
  - left. exists x. split; [exact L|]. rewrite Sm in S1. injection S1 as S1. rewrite Sc in S2.
    split; [rewrite S2; destruct c; reflexivity|rewrite S1; destruct m; reflexivity].
  - right. exists m2, d'. split; [reflexivity|exact (A _ _ D2 H2)].
Qed.
Print Assumptions C22_start_confirmed.

(** A control call which gets past the real-time check starts with the requested modes and the
    default deviations. *)
Theorem C22_control_start : forall k cb s, r_rt s = RtIgnore ->
  control k cb s =
  match start_motion (match k_torque k with Some _ => McExternalController
                      | None => match k_impedance k with JointImpedance => McJointImpedance
                                | CartesianImpedance => McCartesianImpedance end end)
                     (k_mode k) default_deviation default_deviation s with
  | (Ok id, s1) => run_loop k id cb s1
  | (Err e, s1) => (Err e, s1)
  | (Panic p, s1) => (Panic p, s1)
  | (Blocked, s1) => (Blocked, s1)
  | (OutOfFuel, s1) => (OutOfFuel, s1)
  end.
Proof.
  intros k cb s E. unfold control, new_intern. unfold bind at 1 2, get at 1. rewrite E. unfold ret at 1.
  unfold bind at 1. change (match k_torque k with Some _ => McExternalController
                      | None => match k_impedance k with JointImpedance => McJointImpedance
                                | CartesianImpedance => McCartesianImpedance end end) with (wanted_ctrl k).
  destruct (start_motion _ _ _ _ s) as [[] ?]; reflexivity.
Qed.
Print Assumptions C22_control_start.

Example C22_ex :
  let s := after_new ex_env_good in
  match start_motion McExternalController MmJointPosition default_deviation default_deviation s with
  | (Ok id, s') => id = 1 /\ option_map rs_message_id (last_state (trace s')) = Some 2 /\
                   map short (requests (trace s')) = [1; 3] /\ commands (trace s') = []
  | _ => False
  end.
Proof. vm_compute. auto. Qed.

(** * C23 *)
Definition robot_idle (s : st) : Prop := exists x, last_state (trace s) = Some x /\
  rs_motion_generator_mode x = MgIdle /\ rs_controller_mode x <> CmExternalController.
Definition refuses (s : st) : Prop := forall m ctl,
  send_robot_command (Some m) ctl s = (Err NoMotionGeneratorRunningError, s).

(** Success of a control call, with any history before. *)
Theorem C23_after_success : forall k cb s u s', reachable s -> control k cb s = (Ok u, s') ->
  robot_idle s' /\ refuses s'.
Proof.
  intros k cb s u s' R E. pose proof (wp_control k cb s (reachable_I s R)) as W. unfold wp in W. rewrite E in W.
  destruct W as (I' & Id & _). split; [exact (idle_last s' I' Id)|]. intros m ctl. apply idle_refuses, Id.
Qed.
Print Assumptions C23_after_success.

(** Error of the running loop, that is after a successful start. *)
Theorem C23_after_loop_error : forall k cb s id s1 e s',
  reachable s -> start_motion (wanted_ctrl k) (k_mode k) default_deviation default_deviation s = (Ok id, s1) ->
  run_loop k id cb s1 = (Err e, s') -> robot_idle s' /\ refuses s'.
Proof.
  intros k cb s id s1 e s' R E1 E2.
  pose proof (wp_start_motion (wanted_ctrl k) (k_mode k) default_deviation default_deviation s (reachable_I s R)) as W.
  unfold wp in W. rewrite E1 in W. destruct W as (I1 & M1 & S1 & _).
  pose proof (wp_run_loop k id cb s1 I1 M1 S1) as W. unfold wp in W. rewrite E2 in W.
  destruct W as (I' & Id). split; [exact (idle_last s' I' Id)|]. intros m ctl. apply idle_refuses, Id.
Qed.
Print Assumptions C23_after_loop_error.

Example C23_ex :
  (exists x, outcome_of ex_env_reflex = Err x) /\
  fst (send_robot_command (Some (ex_motion 0)) None (snd (control (ex_control 2) 0 (after_new ex_env_reflex))))
    = Err NoMotionGeneratorRunningError /\
  outcome_of ex_env_good = Ok tt.
Proof. vm_compute. split; [eexists; reflexivity|auto]. Qed.
(** A test showing the limit of the claim: after a rejected start commands are not refused. *)
Example C23_rejected_start :
  let s := after_new (st_init 10 RtIgnore (ex_first (ex_idle 1))
             [ex_connected 0; ex_move 1 MsCommandNotPossibleRejected] [] true true) in
  match control (ex_impedance 2) 0 s with
  | (Err _, s') => match send_robot_command (Some (ex_motion 0)) None s' with
                   | (Ok (Some c), s2) => commands (trace s2) = [c] | _ => False end
  | _ => False
  end.
Proof. vm_compute. reflexivity. Qed.

(** * C26 *)
Theorem C26_version : forall port s,
  match connect_robot port s with
  | (Ok _, s') => exists m h v, trace s' = EvReply (n_id s) m :: EvRequest (n_id s) (ReqConnect port) :: trace s /\
      deserialize c_connect_response m = Some (h, (CsSuccess, v)) /\ r_version s' = Some v
  | (Err e, s') => exists m h v, trace s' = EvReply (n_id s) m :: EvRequest (n_id s) (ReqConnect port) :: trace s /\
      deserialize c_connect_response m = Some (h, (CsIncompatibleLibraryVersion, v)) /\
      e = IncompatibleLibraryVersionError v 5 /\ r_version s' = r_version s
  | (Panic p, _) => p = PDecodeTcp
  | (Blocked, _) => True
  | (OutOfFuel, _) => False
  end.
Proof. exact connect_spec. Qed.
Print Assumptions C26_version.

(** Creating a handle: it exists only after success, and then knows the peer's version. *)
Theorem C26_handle : forall port s,
  match robot_new port s with
  | (Ok _, s') => exists m h v, In (EvReply (n_id s) m) (trace s') /\
      deserialize c_connect_response m = Some (h, (CsSuccess, v)) /\ r_version s' = Some v
  | (Err e, s') => exists m h v, trace s' = EvReply (n_id s) m :: EvRequest (n_id s) (ReqConnect port) :: trace s /\
      deserialize c_connect_response m = Some (h, (CsIncompatibleLibraryVersion, v)) /\
      e = IncompatibleLibraryVersionError v 5
  | _ => True
  end.
Proof.
  intros port s. unfold robot_new, bind. pose proof (connect_spec port s) as C.
  destruct (connect_robot port s) as [[u|e|p| |] s1]; auto.
  - destruct C as (m & h & v & T & D & V). unfold udp_block.
    destruct (udp_blocking_receive _ _ _ _) as [[[x| | |n|] u1] sc]; cbn; auto.
    exists m, h, v. rewrite T. cbn. auto.
  - destruct C as (m & h & v & T & D & E & _). exists m, h, v. auto.
Qed.
Print Assumptions C26_handle.
Example C26_ex :
  r_version (after_new ex_env_good) = Some 5 /\
  fst (robot_new 1337 (st_init 10 RtIgnore [] [Some (0, serialize c_connect_response
         ((RcConnect, (0, 16)), (CsIncompatibleLibraryVersion, 4)))] [] true true))
    = Err (IncompatibleLibraryVersionError 4 5).
Proof. vm_compute. auto. Qed.

(** * C47 *)
(** The documented values as IEEE doubles. *)
Definition d20 := 0x4034000000000000. Definition d10 := 0x4024000000000000.
Definition d3000 := 0x40A7700000000000. Definition d2500 := 0x40A3880000000000.
Definition d2000 := 0x409F400000000000. Definition d300 := 0x4072C00000000000.
Definition default_requests : list robot_request :=
  [ReqSetCollisionBehavior [d20; d20; d20; d20; d20; d20; d20] [d20; d20; d20; d20; d20; d20; d20]
     [d10; d10; d10; d10; d10; d10; d10] [d10; d10; d10; d10; d10; d10; d10]
     [d20; d20; d20; d20; d20; d20] [d20; d20; d20; d20; d20; d20]
     [d10; d10; d10; d10; d10; d10] [d10; d10; d10; d10; d10; d10];
   ReqSetJointImpedance [d3000; d3000; d3000; d2500; d2500; d2000; d2000];
   ReqSetCartesianImpedance [d3000; d3000; d3000; d300; d300; d300]].

(** Success: all three requested in this order, each answered with success before the next.
    Error: the requests before the failing one were answered with success, it was answered with the
    status the error stands for, and nothing more was requested.  Panic or no answer: no request
    after the one concerned. *)
Theorem C47_defaults : forall s,
  match set_default_behavior s with
  | (Ok _, s') => accepted default_requests (trace s) (trace s')
  | (Err e, s') => exists done r rest t1 id m h st, default_requests = done ++ r :: rest /\
      accepted done (trace s) t1 /\ trace s' = EvReply id m :: EvRequest id r :: t1 /\
      deserialize c_setter_response m = Some (h, st) /\
      ((st = GsCommandNotPossibleRejected /\
        e = CommandException "libfranka-rs: command rejected: command not possible in current mode") \/
       (st = GsInvalidArgumentRejected /\ e = CommandException "libfranka-rs: command rejected: invalid argument!"))
  | (_, s') => exists done r rest, default_requests = done ++ r :: rest /\
      requests (trace s') = r :: rev done ++ requests (trace s)
  end.
Proof.
  intros s. rewrite defaults_setters. change (_ :: _ :: _ :: []) with default_requests.
  pose proof (setters_spec default_requests s) as H. unfold setters_result in H.
  destruct (setters default_requests s) as [[u|e|p| |] s']; try exact H.
  destruct H as (done & r & rest & t1 & id & m & h & st0 & E & A & T & D & N & He).
  exists done, r, rest, t1, id, m, h, st0. repeat (split; [assumption|]).
  destruct st0; [contradiction N; reflexivity| |]; injection He as <-; auto.
Qed.
Print Assumptions C47_defaults.
Example C47_ex : (* the second setter fails *)
  let s := after_new (st_init 10 RtIgnore (ex_first (ex_idle 1))
             [ex_connected 0; ex_set RcSetCollisionBehavior 1 GsSuccess; ex_set RcSetJointImpedance 2 GsInvalidArgumentRejected] [] true true) in
  match set_default_behavior s with
  | (Err e, s') => e = CommandException "libfranka-rs: command rejected: invalid argument!" /\
                   List.length (requests (trace s')) = 3%nat
  | _ => False
  end.
Proof. vm_compute. auto. Qed.

(** * C48 *)
(** [given xs] are the events of accepting the states [xs] in this order and passing each to the
    callback; [feed cb k xs k'] says that the callback returned true for all of them. *)
Theorem C48_read_loop : forall K (cb : K -> robot_state_intern -> option (K * bool)) k s, reachable s ->
  match robot_read cb k s with
  | (Ok k', s') => exists xs x k1, trace s' = given (xs ++ [x]) ++ trace s /\ feed cb k xs k1 /\
                     cb k1 x = Some (k', false)
  | (Err e, s') => exists xs k1, trace s' = given xs ++ trace s /\ feed cb k xs k1 /\ exists n, e = NetworkException n
  | (Panic p, s') =>
      (p = PDecodeUdp /\ exists xs k1, trace s' = given xs ++ trace s /\ feed cb k xs k1) \/
      (p = PCallback /\ exists xs x k1, trace s' = given (xs ++ [x]) ++ trace s /\ feed cb k xs k1 /\ cb k1 x = None)
  | _ => False
  end.
Proof.
  intros K cb k s R. unfold robot_read, bind, get.
  exact (read_loop_spec K cb (bound s) k s (reachable_I s R) (Nat.lt_succ_diag_r _)).
Qed.
Print Assumptions C48_read_loop.
Example C48_ex : (* the callback counts states and stops at the second; the third is not consumed *)
  let s := after_new (st_init 10 RtIgnore (ex_first (ex_idle 1) ++ ex_states [ex_idle 2; ex_idle 3; ex_idle 4])
             [ex_connected 0] [] true true) in
  match robot_read (fun n x => Some (n + 1, n =? 0)) 0 s with
  | (Ok n, s') => n = 2 /\ map rs_message_id (shown (trace s')) = [3; 2] /\ List.length (n_usched s') = 4%nat
  | _ => False
  end.
Proof. vm_compute. auto. Qed.
