(** A cooperative robot lets a control call return. *)
From Coq Require Import List NArith ZArith Bool Arith Lia.
From Coq Require Import Init.Byte.
From Verif Require Import Bytes Codec WireModel TcpModel UdpModel LoggerModel LoggerProofs RobotModel LoopModel RobotSpec LiveSpec LiveUdp.
Import ListNotations.
Open Scope N_scope.

(** * The log *)
Lemma fine_log : forall l, log_fine l ->
  exists size old base es, (0 < size)%nat /\ holds base size old 0 0 /\ log_all base es = Some l.
Proof.
  induction 1 as [size P|l x c l' H (size & old & base & es & P & Hb & E) L|l H (size & old & base & es & P & Hb & E)].
  - exists size, [], (logger_new size), []. repeat split. exact P.
  - exists size, old, base, (es ++ [(x, c)]). repeat split; [exact P|exact Hb|].
    rewrite log_all_app, E. cbn [log_all]. rewrite L. reflexivity.
  - destruct (flush_spec size old es base l P Hb E) as (l2 & F & H2). rewrite F. cbn [snd].
    exists size, (kept size old es), l2, []. repeat split; assumption.
Qed.
Lemma fine_more : forall l x c, log_fine l -> exists l', logger_log l x c = Some l' /\ log_fine l'.
Proof.
  intros l x c H. destruct (fine_log l H) as (size & old & base & es & P & Hb & E).
  destruct (log_all_spec size old (es ++ [(x, c)]) base P Hb) as (l' & E' & _).
  rewrite log_all_app, E in E'. cbn [log_all] in E'. destruct (logger_log l x c) as [l1|] eqn:L; [|discriminate E'].
  injection E' as <-. exists l1. split; [reflexivity|]. exact (log_more _ _ _ _ H L).
Qed.
Lemma fine_flush : forall l, log_fine l -> exists rs l', logger_flush l = (Some rs, l') /\ log_fine l'.
Proof.
  intros l H. pose proof (log_flushed _ H) as F'. destruct (fine_log l H) as (size & old & base & es & P & Hb & E).
  destruct (flush_spec size old es base l P Hb E) as (l2 & F & _). rewrite F in F'. cbn [snd] in F'. eauto.
Qed.

(** * The state between the calls *)
Record now (us : sched) (ts : list (option (N * list byte))) (m : mg_mode) (c : ctrl_mode) (mid : N) (curm : mg_mode)
  (curc : ctrl_mode) (s : st) : Prop := {
  w_queue : u_queue (n_udp s) = [];
  w_udp : n_usched s = us;
  w_sends : ~ In false (n_sends s);
  w_table : n_table s = [];
  w_tcp : n_tsched s = ts;
  w_motion : r_motion_mode s = Some m;
  w_ctrl : r_ctrl_mode s = c;
  w_mid : r_message_id s = mid;
  w_curm : r_cur_motion s = curm;
  w_curc : r_cur_ctrl s = Some curc;
  w_log : log_fine (r_logger s)
}.
Record did (s s' : st) (xs : list robot_state_intern) (calls : list (robot_state_intern * N)) (n : nat) : Prop := {
  d_id : n_id s' = n_id s;
  d_rt : r_rt s' = r_rt s /\ k_realtime s' = k_realtime s /\ k_priority s' = k_priority s;
  d_trace : exists d, trace s' = d ++ trace s /\ states_seen d = rev xs /\ motion_calls d = rev calls /\
              List.length (commands d) = n
}.
Lemma did_nothing : forall s, did s s [] [] 0.
Proof. intros s. constructor; auto. exists []. auto. Qed.
Lemma did_trans : forall s1 s2 s3 xs ys cs ds n m, did s1 s2 xs cs n -> did s2 s3 ys ds m ->
  did s1 s3 (xs ++ ys) (cs ++ ds) (n + m).
Proof.
  intros s1 s2 s3 xs ys cs ds n m [I1 (R1 & R2 & R3) (d1 & T1 & S1 & C1 & N1)] [I2 (Q1 & Q2 & Q3) (d2 & T2 & S2 & C2 & N2)].
  constructor; [congruence|repeat split; congruence|]. exists (d2 ++ d1). rewrite T2, T1, app_assoc. split; [reflexivity|].
  unfold states_seen, motion_calls, commands in *. rewrite !flat_map_app, app_length, !rev_app_distr.
  rewrite S1, S2, C1, C2, N1, N2. repeat split; lia.
Qed.

(** * Receiving *)
Lemma brings_newer : forall last x ch, brings last x ch -> last < rs_message_id x.
Proof. intros last x ch [ys zs ch0 P L _ _|old older ch1 ch2 ch3 P B1 B2 O L]; exact L. Qed.
Lemma feeds_newer : forall xs last us, feeds last xs us -> newer last xs.
Proof.
  induction xs as [|x xs IH]; intros last us H; [exact I|]. inversion H as [|x0 xs0 ch us0 B F]; subst.
  split; [exact (brings_newer _ _ _ B)|exact (IH _ _ F)].
Qed.
Lemma brings_arrivals : forall last x ch, brings last x ch -> (1 <= List.length (flat_map t_arrivals ch))%nat.
Proof.
  intros last x ch [ys zs ch0 P L _ _|old older ch1 ch2 ch3 P B1 B2 O L].
  - pose proof (polled_arrivals _ _ _ _ P) as A. rewrite app_length in A. cbn in A. lia.
  - pose proof (burst_arrivals _ _ _ _ B2) as A. rewrite !flat_map_app, !app_length. lia.
Qed.
Lemma pending_feeds : forall last xs us rest u, feeds last xs us -> (List.length xs <= pending u (us ++ rest))%nat.
Proof.
  intros last xs us rest u H. unfold pending. rewrite flat_map_app, app_length.
  assert (L : (List.length xs <= List.length (flat_map t_arrivals us))%nat).
  { induction H as [last|last x xs ch us B H IH]; [apply Nat.le_0_l|]. rewrite flat_map_app, app_length. cbn [List.length].
    pose proof (brings_arrivals _ _ _ B). lia. }
  lia.
Qed.
Lemma block_one : forall s x ts rest, burst state_size state_decode x ts -> u_queue (n_udp s) = [] -> n_usched s = ts ++ rest ->
  exists u, u_queue u = [] /\ udp_block s = (Ok x, set_udp s u rest).
Proof.
  intros s x ts rest B Q E. unfold udp_block. rewrite E. destruct (block_burst _ _ (n_udp s) x ts rest Q B) as (u & -> & Qu).
  exists u. split; [exact Qu|reflexivity].
Qed.
Lemma poll_none : forall s sp rest, u_queue (n_udp s) = [] -> n_usched s = Tick [] sp :: rest ->
  exists u, u_queue u = [] /\ udp_poll s = (Ok None, set_udp s u rest).
Proof.
  intros s sp rest Q E. unfold udp_poll. rewrite E. destruct (poll_end state_size state_decode (n_udp s) sp rest Q) as (u & -> & Qu).
  exists u. split; [exact Qu|reflexivity].
Qed.
Lemma poll_one : forall s a sp b sp' ts ds x rest, a <> [] -> emptied (a ++ b) ts ds -> ends_with state_size state_decode ds x ->
  u_queue (n_udp s) = [] -> n_usched s = Tick a sp :: Tick b sp' :: ts ++ rest ->
  exists u, u_queue u = [] /\ udp_poll s = (Ok (Some x), set_udp s u rest).
Proof.
  intros s a sp b sp' ts ds x rest N E X Q Eq. unfold udp_poll. rewrite Eq.
  destruct (poll_next _ _ (n_udp s) a sp b sp' ts ds x rest Q N E X) as (u & -> & Qu).
  exists u. split; [exact Qu|reflexivity].
Qed.
Lemma flush_ok : forall ys ch, polled state_size state_decode ys ch -> forall s rest fuel, u_queue (n_udp s) = [] -> n_usched s = ch ++ rest ->
  (List.length ys < fuel)%nat -> exists u, u_queue u = [] /\ flush_states fuel s = (Ok tt, set_udp s u rest).
Proof.
  intros ys ch H. induction H as [sp|a sp b sp' ts ds x xs ts' N E X H IH]; intros s rest fuel Q Es L;
    (destruct fuel as [|fuel]; [lia|]); cbn [flush_states]; unfold bind at 1.
  - destruct (poll_none s sp rest Q Es) as (u & Qu & ->). exists u. split; [exact Qu|reflexivity].
  - cbn [app] in Es. rewrite <- app_assoc in Es.
    destruct (poll_one s a sp b sp' ts ds x (ts' ++ rest) N E X Q Es) as (u & Qu & ->).
    destruct (IH (set_udp s u (ts' ++ rest)) rest fuel Qu eq_refl) as (u2 & Qu2 & E2); [cbn in L; lia|].
    exists u2. split; [exact Qu2|]. rewrite E2. reflexivity.
Qed.
(** The newest of the states polled. *)
Definition kept (last : N) (l : option robot_state_intern) (ys : list robot_state_intern) : option robot_state_intern :=
  fold_left (fun l y => if (match l with Some z => rs_message_id z | None => last end) <? rs_message_id y then Some y else l) ys l.
Lemma poll_ok : forall ys ch, polled state_size state_decode ys ch -> forall s rest fuel l, u_queue (n_udp s) = [] -> n_usched s = ch ++ rest ->
  (List.length ys < fuel)%nat -> exists u, u_queue u = [] /\ poll_states fuel l s = (Ok (kept (r_message_id s) l ys), set_udp s u rest).
Proof.
  intros ys ch H. induction H as [sp|a sp b sp' ts ds x xs ts' N E X H IH]; intros s rest fuel l Q Es L;
    (destruct fuel as [|fuel]; [lia|]); cbn [poll_states]; unfold bind at 1.
  - destruct (poll_none s sp rest Q Es) as (u & Qu & ->). exists u. split; [exact Qu|reflexivity].
  - cbn [app] in Es. rewrite <- app_assoc in Es.
    destruct (poll_one s a sp b sp' ts ds x (ts' ++ rest) N E X Q Es) as (u & Qu & ->).
    unfold bind at 1, get at 1. cbn [r_message_id set_udp].
    destruct (IH (set_udp s u (ts' ++ rest)) rest fuel
      (if match l with Some l => rs_message_id l | None => r_message_id s end <? rs_message_id x then Some x else l) Qu eq_refl)
      as (u2 & Qu2 & E2); [cbn in L; lia|].
    exists u2. split; [exact Qu2|]. rewrite E2. reflexivity.
Qed.
Lemma kept_old : forall ys last, Forall (fun y => rs_message_id y <= last) ys -> kept last None ys = None.
Proof.
  induction ys as [|y ys IH]; intros last F; [reflexivity|]. inversion_clear F as [|? ? Y F'].
  cbn. apply N.ltb_ge in Y. rewrite Y. exact (IH last F').
Qed.
Lemma kept_same : forall zs last x, Forall (fun z => rs_message_id z <= rs_message_id x) zs -> kept last (Some x) zs = Some x.
Proof.
  induction zs as [|z zs IH]; intros last x F; [reflexivity|]. inversion_clear F as [|? ? Z F'].
  cbn. apply N.ltb_ge in Z. rewrite Z. exact (IH last x F').
Qed.
Lemma kept_newest : forall ys zs last x l, Forall (fun y => rs_message_id y < rs_message_id x) ys ->
  Forall (fun z => rs_message_id z <= rs_message_id x) zs -> last < rs_message_id x ->
  match l with Some z => rs_message_id z < rs_message_id x | None => True end -> kept last l (ys ++ x :: zs) = Some x.
Proof.
  induction ys as [|y ys IH]; intros zs last x l F G L Hl.
  - cbn [app]. unfold kept. cbn [fold_left]. assert (E : (match l with Some z => rs_message_id z | None => last end <? rs_message_id x) = true).
    { apply N.ltb_lt. destruct l; assumption. }
    rewrite E. exact (kept_same zs last x G).
  - inversion_clear F as [|? ? Y F']. cbn [app]. unfold kept. cbn [fold_left]. apply (IH zs last x _ F' G L).
    destruct (_ <? _); [exact Y|exact Hl].
Qed.
Lemma await_ok : forall older ch2, bursts state_size state_decode older ch2 -> forall s x ch3 rest fuel,
  burst state_size state_decode x ch3 -> Forall (fun y => rs_message_id y <= r_message_id s) older -> r_message_id s < rs_message_id x ->
  u_queue (n_udp s) = [] -> n_usched s = ch2 ++ ch3 ++ rest -> (List.length older < fuel)%nat ->
  exists u, u_queue u = [] /\ await_state fuel s = (Ok x, set_udp s u rest).
Proof.
  intros older ch2 H. induction H as [|y ts ys ts' B H IH]; intros s x ch3 rest fuel Bx F I Q Es L;
    (destruct fuel as [|fuel]; [lia|]); cbn [await_state]; unfold bind at 1.
  - cbn [app] in Es. destruct (block_one s x ch3 rest Bx Q Es) as (u & Qu & ->). unfold bind at 1, get at 1.
    cbn [r_message_id set_udp]. apply N.ltb_lt in I. rewrite I. exists u. split; [exact Qu|reflexivity].
  - rewrite <- app_assoc in Es. destruct (block_one s y ts (ts' ++ ch3 ++ rest) B Q Es) as (u & Qu & ->). unfold bind at 1, get at 1.
    cbn [r_message_id set_udp]. inversion_clear F as [|? ? Y F']. apply N.ltb_ge in Y. rewrite Y.
    destruct (IH (set_udp s u (ts' ++ ch3 ++ rest)) x ch3 rest fuel Bx F' I Qu eq_refl) as (u2 & Qu2 & E2); [cbn in L; lia|].
    exists u2. split; [exact Qu2|]. rewrite E2. reflexivity.
Qed.

Definition received (s : st) (x : robot_state_intern) (u : udp) (rest : sched) : st :=
  add_event (set_modes (set_udp s u rest) (Some (rs_motion_generator_mode x)) (rs_controller_mode x) (rs_message_id x)) (EvState x).
Lemma set_udp_twice : forall s u v a b, set_udp (set_udp s u a) v b = set_udp s v b.
Proof. reflexivity. Qed.
Lemma receive_one : forall s x ch rest, brings (r_message_id s) x ch -> u_queue (n_udp s) = [] -> n_usched s = ch ++ rest ->
  exists u, u_queue u = [] /\ receive_robot_state s = (Ok x, received s x u rest).
Proof.
  intros s x ch rest B Q E. unfold receive_robot_state, bind at 1, get at 1.
  assert (Bd : forall ys ch', polled state_size state_decode ys ch' -> forall r, n_usched s = ch' ++ r -> (List.length ys < bound s)%nat).
  { intros ys ch' P r Er. unfold bound, pending. rewrite Er, flat_map_app, app_length. pose proof (polled_arrivals _ _ _ _ P). lia. }
  destruct B as [ys zs ch P L Y Z|old older ch1 ch2 ch3 P B1 B2 O L].
  - destruct (poll_ok _ _ P s rest (bound s) None Q E (Bd _ _ P rest E)) as (u & Qu & Ep).
    rewrite (kept_newest ys zs _ x None Y Z L Logic.I) in Ep. unfold bind at 1. rewrite Ep. unfold bind at 1, get at 1.
    exists u. split; [exact Qu|reflexivity].
  - rewrite <- !app_assoc in E. apply Forall_app in O. destruct O as [O1 O2].
    destruct (poll_ok _ _ P s (ch2 ++ ch3 ++ rest) (bound s) None Q E (Bd _ _ P _ E)) as (u & Qu & Ep).
    rewrite (kept_old old _ O1) in Ep. unfold bind at 1. rewrite Ep. unfold bind at 1, get at 1.
    destruct (await_ok older ch2 B1 (set_udp s u (ch2 ++ ch3 ++ rest)) x ch3 rest (bound (set_udp s u (ch2 ++ ch3 ++ rest))) B2 O2 L Qu eq_refl)
      as (u2 & Qu2 & E2).
    { unfold bound, pending. cbn [n_usched set_udp]. rewrite flat_map_app, app_length. pose proof (bursts_arrivals _ _ _ _ B1). lia. }
    unfold bind at 1. rewrite E2. exists u2. split; [exact Qu2|reflexivity].
Qed.

Lemma mg_eqb_eq : forall a b, mg_eqb a b = true <-> a = b.
Proof. intros [] []; vm_compute; split; congruence. Qed.
Lemma cm_eqb_eq : forall a b, cm_eqb a b = true <-> a = b.
Proof. intros [] []; vm_compute; split; congruence. Qed.
Lemma mg_eqb_neq : forall a b, mg_eqb a b = false <-> a <> b.
Proof. intros [] []; vm_compute; split; congruence. Qed.
Lemma cm_eqb_neq : forall a b, cm_eqb a b = false <-> a <> b.
Proof. intros [] []; vm_compute; split; congruence. Qed.

(** The torques are part of a command exactly with the external controller. *)
Definition fits (c : ctrl_mode) (control : option (list N)) : Prop :=
  match control with Some _ => c = CmExternalController | None => c <> CmExternalController end.

Lemma update_none : forall us ts m c mid curm curc s x ch, now (ch ++ us) ts m c mid curm curc s -> brings mid x ch ->
  exists s', update None None s = (Ok x, s') /\
    now us ts (rs_motion_generator_mode x) (rs_controller_mode x) (rs_message_id x) curm curc s' /\ did s s' [x] [] 0.
Proof.
  intros us ts m c mid curm curc s x ch W B. destruct W. rewrite <- w_mid0 in B.
  destruct (receive_one s x ch us B w_queue0 w_udp0) as (u & Qu & E).
  exists (received s x u us). unfold update, bind at 1. cbn [send_robot_command]. unfold ret at 1. unfold bind. rewrite E.
  split; [reflexivity|]. split.
  - constructor; cbn; auto.
  - constructor; cbn; auto. exists [EvState x]. repeat split.
Qed.
Lemma send_fits : forall us ts m c mid curm curc s cmd control, now us ts m c mid curm curc s -> curm <> MgIdle ->
  fits curc control -> exists q sends, ~ In false sends /\
    send_robot_command (Some cmd) control s =
      (Ok (Some (RobotCommand mid cmd q)), add_event (set_sends s sends) (EvCommand (u_server (n_udp s)) (RobotCommand mid cmd q))).
Proof.
  intros us ts m c mid curm curc s cmd control W G F. destruct W. unfold send_robot_command.
  unfold bind at 1, get at 1. rewrite w_curm0, w_curc0.
  assert (Gi : mg_eqb curm MgIdle = false) by (apply mg_eqb_neq; exact G). rewrite Gi. cbn [andb negb].
  assert (Hs : forall q, exists sends, ~ In false sends /\ udp_send (RobotCommand mid cmd q) s =
    (Ok tt, add_event (set_sends s sends) (EvCommand (u_server (n_udp s)) (RobotCommand mid cmd q)))).
  { intros q. unfold udp_send. destruct (n_sends s) as [|[] r] eqn:En.
    - exists []. split; [exact w_sends0|]. f_equal. destruct s; cbn in *. subst. reflexivity.
    - exists r. split; [intros X; apply w_sends0; right; exact X|reflexivity].
    - exfalso. apply w_sends0. left. reflexivity. }
  destruct control as [t|]; cbn [fits] in F.
  - subst curc. unfold unwrap. change (cm_eqb CmExternalController CmExternalController) with true. cbn [orb andb negb].
    exists t. destruct (Hs t) as (sends & N & E). exists sends. split; [exact N|].
    unfold bind, ret. cbn [andb negb orb]. rewrite w_mid0.
    change (cm_eqb CmExternalController CmExternalController) with true. cbn [andb]. cbv beta iota. rewrite E. reflexivity.
  - apply cm_eqb_neq in F. unfold unwrap. exists zero7. destruct (Hs zero7) as (sends & N & E). exists sends. split; [exact N|].
    unfold bind, ret. cbn [andb negb orb]. rewrite F. cbn [andb negb orb]. cbv beta iota. rewrite w_mid0, E. reflexivity.
Qed.
Lemma update_some : forall us ts m c mid curm curc s x ch cmd control, now (ch ++ us) ts m c mid curm curc s -> brings mid x ch ->
  curm <> MgIdle -> fits curc control ->
  exists s', update (Some cmd) control s = (Ok x, s') /\
    now us ts (rs_motion_generator_mode x) (rs_controller_mode x) (rs_message_id x) curm curc s' /\ did s s' [x] [] 1.
Proof.
  intros us ts m c mid curm curc s x ch cmd control W B G F.
  destruct (send_fits _ _ _ _ _ _ _ s cmd control W G F) as (q & sends & N & E).
  unfold update, bind at 1. rewrite E. clear E. destruct W.
  set (s1 := add_event _ _).
  rewrite <- w_mid0 in B. destruct (receive_one s1 x ch us B) as (u & Qu & E); [exact w_queue0|exact w_udp0|].
  unfold bind at 1. rewrite E. clear E. unfold bind at 1, get at 1.
  destruct (fine_more (r_logger s) x (RobotCommand mid cmd q) w_log0) as (l & L & Fl).
  cbn [r_logger received add_event set_modes set_udp]. change (r_logger s1) with (r_logger s). rewrite L.
  unfold unwrap, bind, ret, modify. eexists. split; [reflexivity|]. split.
  - constructor; cbn; auto.
  - constructor; cbn; auto. eexists [_; _]. repeat split.
Qed.

Lemma running_not : forall s, r_motion_mode s = Some MgIdle -> r_ctrl_mode s <> CmExternalController ->
  motion_or_controller_running s = (Ok false, s).
Proof.
  intros s Hm H. unfold motion_or_controller_running, motion_generator_running, controller_running, bind, get, unwrap, ret.
  rewrite Hm. change (mg_eqb MgIdle MgIdle) with true. cbn [negb]. cbv beta iota.
  apply cm_eqb_neq in H. rewrite H. reflexivity.
Qed.
Lemma running_idle : forall us ts c mid curm curc s, now us ts MgIdle c mid curm curc s -> c <> CmExternalController ->
  motion_or_controller_running s = (Ok false, s).
Proof.
  intros us ts c mid curm curc s W H. apply running_not; [exact (w_motion _ _ _ _ _ _ _ _ W)|].
  rewrite (w_ctrl _ _ _ _ _ _ _ _ W). exact H.
Qed.
Lemma running_moving : forall us ts m c mid curm curc s, now us ts m c mid curm curc s ->
  m <> MgIdle \/ c = CmExternalController -> motion_or_controller_running s = (Ok true, s).
Proof.
  intros us ts m c mid curm curc s W H. destruct W.
  unfold motion_or_controller_running, motion_generator_running, controller_running, bind, get, unwrap, ret.
  rewrite w_motion0. destruct (mg_eqb m MgIdle) eqn:E; cbn [negb]; cbv beta iota.
  - apply mg_eqb_eq in E. destruct H as [H|H]; [contradiction|]. rewrite w_ctrl0, H. reflexivity.
  - reflexivity.
Qed.
Lemma no_motion_error : forall us ts mid curm curc s x id, now us ts curm curc mid curm curc s -> rs_robot_mode x = RmMove ->
  throw_on_motion_error x id s = (Ok tt, s).
Proof.
  intros us ts mid curm curc s x id W R. destruct W. unfold throw_on_motion_error, bind, get, unwrap, ret.
  rewrite R, N.eqb_refl. cbn [negb]. cbv beta iota. rewrite w_motion0, w_curm0. cbv beta iota.
  rewrite (proj2 (mg_eqb_eq curm curm) eq_refl). cbn [negb]. cbv beta iota. rewrite w_curc0, w_ctrl0. cbv beta iota.
  rewrite (proj2 (cm_eqb_eq curc curc) eq_refl). reflexivity.
Qed.

(** * Responses *)
Lemma wait_answer : forall n id b rest, wait_loop id ((repeat None n ++ [Some (id, b)]) ++ rest) [] = (Some b, [], rest).
Proof.
  intros n id b rest. induction n as [|n IH].
  - cbn. rewrite N.eqb_refl. cbn. rewrite ?N.eqb_refl. reflexivity.
  - cbn [repeat app wait_loop store tget]. exact IH.
Qed.
Lemma blocking_answer : forall us ts t m c mid curm curc id status s, now us (t ++ ts) m c mid curm curc s ->
  answer id status t -> exists h s', blocking_response c_move_response id s = (Ok (h, status), s') /\
    now us ts m c mid curm curc s' /\ did s s' [] [] 0.
Proof.
  intros us ts t m c mid curm curc id status s W (n & b & h & -> & D). destruct W. exists h.
  unfold blocking_response, bind, wait_response. rewrite w_tcp0, w_table0, wait_answer. unfold unwrap. rewrite D. unfold ret.
  eexists. split; [reflexivity|]. split; [constructor; cbn; auto|]. constructor; cbn; auto. eexists [_]. repeat split.
Qed.

(** * Starting *)
Lemma feeds_app : forall xs x ys id us, feeds id (xs ++ x :: ys) us ->
  exists u1 u2, us = u1 ++ u2 /\ feeds id (xs ++ [x]) u1 /\ feeds (rs_message_id x) ys u2.
Proof.
  induction xs as [|y xs IH]; intros x ys id us H; cbn [app] in H; inversion H as [|x0 xs0 ch us0 B F]; subst.
  - exists ch, us0. split; [reflexivity|]. split; [|exact F]. cbn [app]. rewrite <- (app_nil_r ch). constructor; [exact B|constructor].
  - destruct (IH _ _ _ _ F) as (u1 & u2 & -> & F1 & F2).
    exists (ch ++ u1), u2. rewrite app_assoc. split; [reflexivity|]. split; [|exact F2]. cbn [app]. constructor; assumption.
Qed.
Lemma differ_spec : forall us ts m c mid curm curc s, now us ts m c mid curm curc s ->
  modes_differ s = (Ok (negb (mg_eqb m curm) || negb (cm_eqb c curc)), s).
Proof.
  intros us ts m c mid curm curc s W. destruct W. unfold modes_differ, bind, get, unwrap, ret.
  rewrite w_motion0. cbv beta iota. rewrite w_curm0, w_curc0, w_ctrl0. reflexivity.
Qed.
Lemma check_nothing : forall us ts m c mid curm curc s id h, now us (None :: ts) m c mid curm curc s ->
  exists s', check_response c_move_response 13 id h s = (Ok false, s') /\ now us ts m c mid curm curc s' /\ did s s' [] [] 0.
Proof.
  intros us ts m c mid curm curc s id h W. destruct W. unfold check_response. rewrite w_tcp0, w_table0. cbn [store n_table set_tcp tget].
  eexists. split; [reflexivity|]. split; constructor; cbn; auto. exists []. repeat split.
Qed.
Lemma start_waits : forall curm curc befores shown us rest ts id fuel s m c mid,
  feeds mid (befores ++ [shown]) us ->
  now (us ++ rest) (repeat None (S (List.length befores)) ++ ts) m c mid curm curc s ->
  ~ (m = curm /\ c = curc) ->
  Forall (fun x => ~ (rs_motion_generator_mode x = curm /\ rs_controller_mode x = curc)) befores ->
  rs_motion_generator_mode shown = curm /\ rs_controller_mode shown = curc ->
  (List.length befores + 1 < fuel)%nat ->
  exists s', start_loop fuel id s = (Ok tt, s') /\ did s s' (befores ++ [shown]) [] 0 /\
    now rest ts curm curc (rs_message_id shown) curm curc s'.
Proof.
  intros curm curc. induction befores as [|x befores IH]; intros shown us rest ts id fuel s m c mid F W D B Sh L.
  - destruct fuel as [|[|fuel]]; [cbn in L; lia|cbn in L; lia|].
    cbn [app] in F. inversion F as [|x0 xs0 ch us0 Br F' E1 E2]; subst. inversion F'; subst. clear F F'. rewrite app_nil_r in W.
    cbn [start_loop]. unfold bind at 1. rewrite (differ_spec _ _ _ _ _ _ _ _ W).
    assert (Df : negb (mg_eqb m curm) || negb (cm_eqb c curc) = true).
    { destruct (mg_eqb m curm) eqn:E1; [|reflexivity]. destruct (cm_eqb c curc) eqn:E2; [|reflexivity].
      apply mg_eqb_eq in E1. apply cm_eqb_eq in E2. exfalso. apply D. auto. }
    rewrite Df. cbn [List.length repeat app] in W.
    destruct (check_nothing _ _ _ _ _ _ _ _ id (fun r => handle_move (snd r)) W) as (s1 & -> & W1 & D1).
    destruct (update_none _ _ _ _ _ _ _ _ shown ch W1 Br) as (s2 & E2 & W2 & D2).
    unfold bind at 1. rewrite E2. unfold bind at 1. rewrite (differ_spec _ _ _ _ _ _ _ _ W2).
    destruct Sh as [Sh1 Sh2].
    rewrite (proj2 (mg_eqb_eq _ _) Sh1), (proj2 (cm_eqb_eq _ _) Sh2). cbn [negb orb]. unfold ret. exists s2.
    split; [reflexivity|]. split; [exact (did_trans _ _ _ _ _ _ _ _ _ D1 D2)|]. rewrite Sh1, Sh2 in W2. exact W2.
  - destruct fuel as [|fuel]; [cbn in L; lia|].
    cbn [app] in F. inversion F as [|x0 xs0 ch us0 Br F' E1 E2]; subst. rewrite <- app_assoc in W.
    cbn [start_loop]. unfold bind at 1. rewrite (differ_spec _ _ _ _ _ _ _ _ W).
    assert (Df : negb (mg_eqb m curm) || negb (cm_eqb c curc) = true).
    { destruct (mg_eqb m curm) eqn:E1; [|reflexivity]. destruct (cm_eqb c curc) eqn:E2; [|reflexivity].
      apply mg_eqb_eq in E1. apply cm_eqb_eq in E2. exfalso. apply D. auto. }
    rewrite Df. cbn [List.length repeat app] in W.
    destruct (check_nothing _ _ _ _ _ _ _ _ id (fun r => handle_move (snd r)) W) as (s1 & -> & W1 & D1).
    destruct (update_none _ _ _ _ _ _ _ _ x ch W1 Br) as (s2 & E2 & W2 & D2).
    unfold bind at 1. rewrite E2. inversion B; subst.
    destruct (IH shown us0 rest ts id fuel s2 _ _ _ F' W2) as (s3 & E3 & D3 & W3); try assumption; [cbn [List.length] in L; lia|].
    exists s3. split; [exact E3|]. split; [|exact W3].
    exact (did_trans _ _ _ _ _ _ _ _ _ (did_trans _ _ _ _ _ _ _ _ _ D1 D2) D3).
Qed.

Lemma mode_not_idle : forall m, mode_of_move m <> MgIdle.
Proof. intros []; discriminate. Qed.
Lemma start_ok : forall k id o us rest t1 ts s mid,
  feeds mid (mo_before o ++ [mo_shown o]) us -> n_id s = id ->
  ready (us ++ rest) (t1 ++ repeat None (S (List.length (mo_before o))) ++ ts) s -> r_message_id s = mid -> answer id MsMotionStarted t1 ->
  Forall (fun x => ~ as_requested k x) (mo_before o) -> as_requested k (mo_shown o) ->
  exists s', start_motion (wanted_ctrl k) (k_mode k) default_deviation default_deviation s = (Ok id, s') /\
    n_id s' = (id + 1) mod 2 ^ 32 /\ (r_rt s' = r_rt s /\ k_realtime s' = k_realtime s /\ k_priority s' = k_priority s) /\
    (exists d, trace s' = d ++ trace s /\ states_seen d = rev (mo_before o ++ [mo_shown o]) /\ motion_calls d = [] /\ commands d = []) /\
    now rest ts (mode_of_move (k_mode k)) (ctrl_of_move (wanted_ctrl k)) (rs_message_id (mo_shown o))
      (mode_of_move (k_mode k)) (ctrl_of_move (wanted_ctrl k)) s'.
Proof.
  intros k id o us rest t1 ts s mid F I W Mid A B Sh. unfold start_motion, bind at 1.
  rewrite (running_not s (re_motion _ _ _ W) (re_ctrl _ _ _ W)). cbv beta iota. unfold bind at 1, modify.
  unfold execute_move. unfold bind at 1, bind at 1. unfold send_request at 1. cbn [n_id set_current].
  rewrite I. set (s1 := set_id _ _).
  assert (W1 : now (us ++ rest) (t1 ++ repeat None (S (List.length (mo_before o))) ++ ts) MgIdle (r_ctrl_mode s) mid
     (mode_of_move (k_mode k)) (ctrl_of_move (wanted_ctrl k)) s1) by (destruct W; constructor; cbn; auto).
  destruct (blocking_answer _ _ _ _ _ _ _ _ _ _ s1 W1 A) as (h & s2 & E2 & W2 & D2).
  unfold bind at 1. rewrite E2. cbn [snd handle_move as_result]. unfold bind at 1, ret at 1, ret at 1. unfold bind at 1, get at 1.
  destruct (start_waits _ _ (mo_before o) (mo_shown o) us rest ts id (bound s2) s2 MgIdle (r_ctrl_mode s) mid F W2) as (s3 & E3 & D3 & W3);
    try assumption.
  { intros [X _]. exact (mode_not_idle _ (eq_sym X)). }
  { unfold bound. rewrite (w_udp _ _ _ _ _ _ _ _ W2). pose proof (pending_feeds _ _ us rest (n_udp s2) F) as P. rewrite app_length in P. cbn in P |- *. lia. }
  unfold bind at 1. rewrite E3. unfold bind at 1, flush_log.
  destruct (fine_flush (r_logger s3) (w_log _ _ _ _ _ _ _ _ W3)) as (rs & l & -> & Fl). unfold ret.
  eexists. split; [reflexivity|]. pose proof (did_trans _ _ _ _ _ _ _ _ _ D2 D3) as D. cbn [app Nat.add] in D. destruct D as [Di Dr (d & T & D1 & D4 & D5)].
  split; [cbn; rewrite Di; reflexivity|]. split; [cbn; destruct Dr as (-> & -> & ->); repeat split|]. split.
  - exists (d ++ [EvRequest id (ReqMove (wanted_ctrl k) (k_mode k) default_deviation default_deviation)]).
    cbn [set_logger trace]. rewrite T. split; [rewrite <- app_assoc; reflexivity|].
    unfold states_seen, motion_calls, commands in *. rewrite !flat_map_app. cbn [flat_map]. rewrite !app_nil_r.
    repeat split; [exact D1|exact D4|]. apply length_zero_iff_nil. exact D5.
  - destruct W3. constructor; cbn; auto.
Qed.

(** * Finishing *)
Lemma finish_waits : forall curm curc cmd control fins last us rest ts fuel s m c mid prev,
  feeds mid (fins ++ [last]) us -> now (us ++ rest) ts m c mid curm curc s ->
  m <> MgIdle \/ c = CmExternalController -> curm <> MgIdle -> fits curc control ->
  Forall in_motion fins -> stopped last -> (List.length fins + 1 < fuel)%nat ->
  exists s', finish_loop fuel cmd control prev s = (Ok (Some last), s') /\ did s s' (fins ++ [last]) [] (List.length fins + 1) /\
    now rest ts (rs_motion_generator_mode last) (rs_controller_mode last) (rs_message_id last) curm curc s'.
Proof.
  intros curm curc cmd control. induction fins as [|x fins IH]; intros last us rest ts fuel s m c mid prev F W R G Ft Mv St L.
  - destruct fuel as [|[|fuel]]; [cbn in L; lia|cbn in L; lia|].
    cbn [app] in F. inversion F as [|x0 xs0 ch us0 Br F' E1 E2]; subst. inversion F'; subst. rewrite app_nil_r in W.
    cbn [finish_loop]. unfold bind at 1. rewrite (running_moving _ _ _ _ _ _ _ _ W R).
    destruct (update_some _ _ _ _ _ _ _ _ last ch cmd control W Br G Ft) as (s1 & E1 & W1 & D1).
    unfold bind at 1. rewrite E1. unfold bind at 1. destruct St as [St1 St2]. rewrite St1 in W1.
    rewrite (running_idle _ _ _ _ _ _ _ W1 St2). unfold ret. exists s1. rewrite St1. auto.
  - destruct fuel as [|fuel]; [cbn in L; lia|].
    cbn [app] in F. inversion F as [|x0 xs0 ch us0 Br F' E1 E2]; subst. rewrite <- app_assoc in W.
    cbn [finish_loop]. unfold bind at 1. rewrite (running_moving _ _ _ _ _ _ _ _ W R).
    destruct (update_some _ _ _ _ _ _ _ _ x ch cmd control W Br G Ft) as (s1 & E1 & W1 & D1).
    unfold bind at 1. rewrite E1. inversion Mv; subst.
    destruct (IH last us0 rest ts fuel s1 _ _ _ (Some x) F' W1) as (s2 & E2 & D2 & W2); try assumption; [cbn [List.length] in L; lia|].
    exists s2. split; [exact E2|]. split; [|exact W2]. exact (did_trans _ _ _ _ _ _ _ _ _ D1 D2).
Qed.

Lemma finish_ok : forall curm curc cmd control fins last us rest t2 ts id s m c mid,
  feeds mid (fins ++ [last]) us -> now (us ++ rest) (t2 ++ ts) m c mid curm curc s ->
  m <> MgIdle \/ c = CmExternalController -> curm <> MgIdle -> fits curc control ->
  Forall in_motion fins -> stopped last -> answer id MsSuccess t2 ->
  exists s', finish_motion id (Some cmd) control s = (Ok tt, s') /\ did s s' (fins ++ [last]) [] (List.length fins + 1) /\
    now rest ts (rs_motion_generator_mode last) (rs_controller_mode last) (rs_message_id last) MgIdle CmOther s'.
Proof.
  intros curm curc cmd control fins last us rest t2 ts id s m c mid F W R G Ft Mv St A.
  unfold finish_motion, bind at 1. rewrite (running_moving _ _ _ _ _ _ _ _ W R). unfold bind at 1, get at 1.
  destruct (finish_waits curm curc (set_finished cmd) control fins last us rest (t2 ++ ts) (bound s) s m c mid None F W)
    as (s1 & E1 & D1 & W1); try assumption.
  { unfold bound. rewrite (w_udp _ _ _ _ _ _ _ _ W). pose proof (pending_feeds _ _ us rest (n_udp s) F) as P.
    rewrite app_length in P. cbn in P |- *. lia. }
  unfold bind at 1. rewrite E1. unfold bind at 1, unwrap at 1, ret at 1.
  destruct (blocking_answer _ _ _ _ _ _ _ _ _ _ s1 W1 A) as (h & s2 & E2 & W2 & D2).
  unfold bind at 1. rewrite E2. cbn [snd handle_move]. unfold reset_current, modify.
  eexists. split; [reflexivity|]. pose proof (did_trans _ _ _ _ _ _ _ _ _ D1 D2) as D. rewrite !app_nil_r, Nat.add_0_r in D. split.
  - destruct D. constructor; cbn; auto.
  - destruct W2. constructor; cbn; auto.
Qed.

(** * The loop *)
Lemma did_emit : forall s e, match e with EvState _ | EvMotion _ _ | EvCommand _ _ => False | _ => True end ->
  did s (add_event s e) [] [] 0.
Proof. intros s e H. constructor; auto. exists [e]. destruct e; try contradiction; repeat split. Qed.
Lemma did_call : forall s x dt, did s (add_event s (EvMotion x dt)) [] [(x, dt)] 0.
Proof. intros s x dt. constructor; auto. exists [EvMotion x dt]. repeat split. Qed.
Lemma now_event : forall us ts m c mid curm curc s e, now us ts m c mid curm curc s -> now us ts m c mid curm curc (add_event s e).
Proof. intros us ts m c mid curm curc s e W. destruct W. constructor; cbn; auto. Qed.

Definition torques_of (k : controller) (control : option (list N)) : Prop :=
  match k_torque k with Some _ => exists t, control = Some t | None => control = None end.
Lemma torques_fit : forall k control, torques_of k control -> fits (ctrl_of_move (wanted_ctrl k)) control.
Proof.
  intros k control H. unfold torques_of, wanted_ctrl in *. destruct (k_torque k); [destruct H as (t & ->); reflexivity|].
  subst control. destruct (k_impedance k); discriminate.
Qed.

(** One cycle of the loop, up to the decision to go on. *)
Lemma cycle_ok : forall k us ts m c mid curm curc s cb x before mc control cb' mc' go fuel id,
  now us ts m c mid curm curc s -> before <= rs_message_id x -> torques_of k control ->
  cycle k cb x (rs_message_id x - before) mc = Some (cb', mc', go) ->
  exists s' control', now us ts m c mid curm curc s' /\ torques_of k control' /\
    did s s' [] [(x, rs_message_id x - before)] 0 /\
    motion_loop k (S fuel) id cb x before mc control s =
      (if go then
         (x' <- update (Some mc') control' ;;
          throw_on_motion_error x' id ;;;
          motion_loop k fuel id cb' x' (rs_message_id x) mc' control') s'
       else finish_motion id (Some mc') control' s').
Proof.
  intros k us ts m c mid curm curc s cb x before mc control cb' mc' go fuel id W I T C.
  apply N.leb_le in I. set (dt := rs_message_id x - before) in *.
  assert (Ts : forall s, time_step (rs_message_id x) before s = (Ok dt, s)) by (intros; unfold time_step; rewrite I; reflexivity).
  cbn [motion_loop]. unfold bind at 1. rewrite Ts. unfold cycle in C.
  destruct (k_motion k cb x dt) as [[cb1 o]|] eqn:Em; [|discriminate C].
  destruct (k_convert k o x mc) as [m1|] eqn:Ec; [|discriminate C].
  set (s1 := add_event s (EvMotion x dt)). set (s2 := add_event s1 (EvMotionOut (keep_finished mc m1) (k_finished k o))).
  assert (Es : spin_motion k cb x dt mc s = (Ok (cb1, keep_finished mc m1, negb (k_finished k o)), s2)).
  { unfold spin_motion, bind, emit, modify, unwrap, ret. rewrite Em. cbv beta iota. cbn [fst snd]. rewrite Ec. reflexivity. }
  assert (W2 : now us ts m c mid curm curc s2) by (do 2 apply now_event; exact W).
  assert (D2 : did s s2 [] [(x, dt)] 0).
  { apply (did_trans s s1 s2 [] [] [(x, dt)] [] 0 0); [apply did_call|apply did_emit; exact Logic.I]. }
  unfold bind at 1. rewrite Es. cbv beta iota. unfold torques_of in *.
  destruct (k_torque k) as [torque|] eqn:Et.
  - destruct (k_finished k o) eqn:Ef; cbn [negb].
    + injection C as <- <- <-. exists s2, control. split; [exact W2|split; [exact T|split; [exact D2|reflexivity]]].
    + destruct (torque cb1 x dt) as [[cb2 [q fin]]|] eqn:Eq; [|discriminate C].
      destruct (k_filter k q x) as [q'|] eqn:Ek; [|discriminate C]. injection C as <- <- <-.
      set (s3 := add_event s2 (EvTorque x dt)). set (s4 := add_event s3 (EvTorqueOut q' fin)).
      exists s4, (Some q'). split; [do 2 apply now_event; exact W2|]. split; [eauto|]. split.
      { apply (did_trans s s2 s4 [] [] [(x, dt)] [] 0 0 D2). apply (did_trans s2 s3 s4 [] [] [] [] 0 0); apply did_emit; exact Logic.I. }
      unfold bind at 1. unfold bind at 1. rewrite Ts. unfold bind at 1, spin_control.
      assert (Et2 : (emit (EvTorque x dt) ;;; r <- unwrap PCallback (torque cb1 x dt) ;; t <- unwrap PCallback (k_filter k (fst (snd r)) x) ;;
                emit (EvTorqueOut t (snd (snd r))) ;;; ret (fst r, t, negb (snd (snd r)))) s2 = (Ok (cb2, q', negb fin), s4)).
      { unfold bind, emit, modify, unwrap, ret. rewrite Eq. cbv beta iota. cbn [fst snd]. rewrite Ek. reflexivity. }
      rewrite Et2. unfold ret. destruct fin; reflexivity.
  - subst control. destruct (k_finished k o) eqn:Ef; injection C as <- <- <-; exists s2, None; (split; [exact W2|split; [reflexivity|split; [exact D2|reflexivity]]]).
Qed.

Lemma loop_ok : forall k fins last rest t2 ts id, Forall in_motion fins -> stopped last -> answer id MsSuccess t2 ->
  forall xs x us cb before m control fuel s,
  feeds (rs_message_id x) (xs ++ fins ++ [last]) us ->
  now (us ++ rest) (t2 ++ ts) (mode_of_move (k_mode k)) (ctrl_of_move (wanted_ctrl k)) (rs_message_id x)
    (mode_of_move (k_mode k)) (ctrl_of_move (wanted_ctrl k)) s ->
  Forall (fun x => rs_robot_mode x = RmMove /\ as_requested k x) xs ->
  before <= rs_message_id x -> torques_of k control -> finishes k cb before m (x :: xs) -> (List.length xs < fuel)%nat ->
  exists s', motion_loop k fuel id cb x before m control s = (Ok tt, s') /\
    did s s' (xs ++ fins ++ [last]) (steps before (x :: xs)) (List.length xs + (List.length fins + 1)) /\
    now rest ts (rs_motion_generator_mode last) (rs_controller_mode last) (rs_message_id last) MgIdle CmOther s'.
Proof.
  intros k fins last rest t2 ts id Mv St A. induction xs as [|y xs IH]; intros x us cb before m control fuel s F W Mo I T Fi L;
    (destruct fuel as [|fuel]; [lia|]); cbn [finishes] in Fi;
    (destruct (cycle k cb x (rs_message_id x - before) m) as [[[cb' m'] go]|] eqn:C; [|contradiction]);
    destruct (cycle_ok k _ _ _ _ _ _ _ s cb x before m control cb' m' go fuel id W I T C) as (s1 & control' & W1 & T1 & D1 & E1);
    rewrite E1; clear E1.
  - destruct go; [contradiction|]. cbn [app] in F.
    destruct (finish_ok _ _ m' control' fins last us rest t2 ts id s1 _ _ _ F W1) as (s2 & E2 & D2 & W2); try assumption.
    { left. apply mode_not_idle. } { apply mode_not_idle. } { apply torques_fit. exact T1. }
    exists s2. split; [exact E2|]. split; [|exact W2]. exact (did_trans _ _ _ _ _ _ _ _ _ D1 D2).
  - destruct go; [|discriminate Fi]. cbn [app] in F. inversion F as [|x0 xs0 ch us0 Br F' E1 E2]; subst. rewrite <- app_assoc in W1.
    destruct (update_some _ _ _ _ _ _ _ s1 y ch m' control' W1 Br) as (s2 & E2 & W2 & D2);
      [apply mode_not_idle|apply torques_fit; exact T1|].
    inversion Mo as [|y0 l0 (Ry & Ay1 & Ay2) Mo']; subst. rewrite Ay1, Ay2 in W2.
    unfold bind at 1. rewrite E2. unfold bind at 1. rewrite (no_motion_error _ _ _ _ _ _ y id W2 Ry).
    destruct (IH y us0 cb' (rs_message_id x) m' control' fuel s2 F' W2 Mo') as (s3 & E3 & D3 & W3);
      [pose proof (brings_newer _ _ _ Br); lia|exact T1|exact Fi|cbn [List.length] in L; lia|].
    exists s3. split; [exact E3|]. split; [|exact W3].
    exact (did_trans _ _ _ _ _ _ _ _ _ D1 (did_trans _ _ _ _ _ _ _ _ _ D2 D3)).
Qed.

Lemma response_ok : forall H A (c : codec (H * A)) id a t us ts s, answered c id a t -> ready us (t ++ ts) s ->
  exists h s', blocking_response c id s = (Ok (h, a), s') /\ ready us ts s' /\ n_id s' = n_id s /\ r_message_id s' = r_message_id s.
Proof.
  intros H A c id a t us ts s (n & b & h & -> & D) R. exists h.
  unfold blocking_response, bind, wait_response. rewrite (re_tcp _ _ _ R), (re_table _ _ _ R), wait_answer. unfold unwrap. rewrite D. unfold ret.
  eexists. split; [reflexivity|]. destruct R. split; [constructor; cbn; auto|]. split; reflexivity.
Qed.
Lemma request_ok : forall r us ts s, ready us ts s -> exists s', send_request r s = (Ok (n_id s), s') /\ ready us ts s' /\
  n_id s' = succ_id (n_id s) /\ r_message_id s' = r_message_id s.
Proof. intros r us ts s R. destruct R. eexists. split; [reflexivity|]. split; [constructor; cbn; auto|]. split; reflexivity. Qed.
Lemma asks_ok : forall H A B (c : codec (H * A)) r (f : H * A -> M B) a b t us ts s,
  ready us (t ++ ts) s -> answered c (n_id s) a t -> (forall h s, f (h, a) s = (Ok b, s)) ->
  exists s', (id <- send_request r ;; x <- blocking_response c id ;; f x) s = (Ok b, s') /\ ready us ts s' /\
    n_id s' = succ_id (n_id s) /\ r_message_id s' = r_message_id s.
Proof.
  intros H A B c r f a b t us ts s R An F. destruct (request_ok r _ _ s R) as (s1 & E1 & R1 & I1 & M1).
  destruct (response_ok _ _ c _ a t us ts s1 An R1) as (h & s2 & E2 & R2 & I2 & M2).
  exists s2. unfold bind at 1. rewrite E1. unfold bind at 1. rewrite E2, F. repeat split; try apply R2; congruence.
Qed.
Lemma receive_ready : forall us ts s x ch, ready (ch ++ us) ts s -> brings (r_message_id s) x ch ->
  exists u, u_queue u = [] /\ receive_robot_state s = (Ok x, received s x u us) /\
    (stopped x -> ready us ts (received s x u us)).
Proof.
  intros us ts s x ch R B. destruct R. destruct (receive_one s x ch us B re_queue re_udp) as (u & Qu & E).
  exists u. split; [exact Qu|]. split; [exact E|]. intros [S1 S2]. constructor; cbn; auto. rewrite S1. reflexivity.
Qed.

Lemma kernel_ok : forall s, r_rt s = RtIgnore \/ (k_realtime s = true /\ k_priority s = true) ->
  exists s', new_intern s = (Ok tt, s') /\ (s' = s \/ s' = add_event s EvKernel).
Proof.
  intros s H. unfold new_intern, bind at 1, get at 1. destruct (r_rt s) eqn:E.
  - destruct H as [H|[H1 H2]]; [discriminate H|]. unfold bind, emit, modify. rewrite H1, H2. eexists. split; [reflexivity|right; reflexivity].
  - exists s. split; [reflexivity|left; reflexivity].
Qed.

Lemma control_ok : forall k cb o us urest ts trest s, ready (us ++ urest) (ts ++ trest) s ->
  cooperates k cb (n_id s) (r_message_id s) o us ts ->
  exists s', control k cb s = (Ok tt, s') /\ ready urest trest s' /\ n_id s' = (n_id s + 1) mod 2 ^ 32 /\
    r_message_id s' = rs_message_id (mo_last o) /\
    exists d, trace s' = d ++ trace s /\ rev (states_seen d) = all_states o /\
      rev (motion_calls d) = steps (rs_message_id (mo_first o)) (run_states o) /\
      List.length (commands d) = (List.length (mo_during o) + List.length (mo_ending o) + 1)%nat.
Proof.
  intros k cb o us urest ts trest s R C. destruct (kernel_ok s (re_rt _ _ _ R)) as (s1 & E1 & Hs1).
  destruct C as [Hu (t1 & t2 & A1 & A2 & ->) Hb Hs Hr He Hl Hf]. unfold all_states in Hu.
  apply feeds_app in Hu. destruct Hu as (u1 & u' & -> & F1 & F'). cbn [run_states app] in F'.
  apply (feeds_app []) in F'. destruct F' as (u2 & u3 & -> & F2 & F3). cbn [app] in F2.
  assert (R1 : ready (u1 ++ u2 ++ u3 ++ urest) (t1 ++ repeat None (S (List.length (mo_before o))) ++ t2 ++ trest) s1 /\ n_id s1 = n_id s /\
     r_message_id s1 = r_message_id s /\ r_rt s1 = r_rt s /\ k_realtime s1 = k_realtime s /\ k_priority s1 = k_priority s).
  { rewrite <- !app_assoc in R. destruct Hs1; subst s1; destruct R; (split; [constructor; cbn; auto|cbn; auto 6]). }
  destruct R1 as (R1 & I1 & M1 & Q1 & Q2 & Q3).
  destruct (start_ok k (n_id s) o u1 (u2 ++ u3 ++ urest) t1 (t2 ++ trest) s1 (r_message_id s) F1 I1 R1 M1 A1 Hb Hs)
    as (s2 & E2 & I2 & (P1 & P2 & P3) & (d1 & T1 & S1 & C1 & O1) & W2).
  unfold control, bind at 1. rewrite E1. unfold bind at 1. rewrite E2. unfold run_loop, do_loop.
  inversion F2 as [|x0 xs0 ch us0 Br Fe X1 X2]; subst. inversion Fe; subst. rewrite app_nil_r in W2.
  destruct (update_none _ _ _ _ _ _ _ _ _ ch W2 Br) as (s3 & E3 & W3 & D3).
  unfold bind at 1. rewrite E3. inversion Hr as [|y0 l0 (Ry & Ay1 & Ay2) Mo]; subst. rewrite Ay1, Ay2 in W3.
  unfold bind at 1. rewrite (no_motion_error _ _ _ _ _ _ _ (n_id s) W3 Ry). unfold bind at 1, get at 1.
  destruct (loop_ok k (mo_ending o) (mo_last o) urest t2 trest (n_id s) He Hl A2 (mo_during o) (mo_first o) u3 cb (rs_message_id (mo_first o))
     zero_motion (match k_torque k with Some _ => Some zero7 | None => None end) (bound s3) s3 F3 W3 Mo) as (s4 & E4 & D4 & W4).
  { apply N.le_refl. } { unfold torques_of. destruct (k_torque k); [eauto|reflexivity]. } { exact Hf. }
  { unfold bound. rewrite (w_udp _ _ _ _ _ _ _ _ W3). pose proof (pending_feeds _ _ u3 urest (n_udp s3) F3) as P. rewrite !app_length in P. cbn [List.length] in P. lia. }
  rewrite E4. exists s4. split; [reflexivity|]. pose proof (did_trans _ _ _ _ _ _ _ _ _ D3 D4) as D.
  destruct D as [Di (Dr1 & Dr2 & Dr3) (d & T & D1 & D2 & D5)]. cbn [app] in D1, D2. split.
  { destruct Hl as [Hl1 Hl2]. rewrite Hl1 in W4. destruct W4. constructor; auto; [congruence|].
    rewrite Dr1, Dr2, Dr3, P1, P2, P3, Q1, Q2, Q3. exact (re_rt _ _ _ R). }
  split; [rewrite Di; exact I2|]. split; [exact (w_mid _ _ _ _ _ _ _ _ W4)|].
  assert (T0 : exists d0, trace s1 = d0 ++ trace s /\ states_seen d0 = [] /\ motion_calls d0 = [] /\ commands d0 = []).
  { destruct Hs1; subst s1; [exists []|exists [EvKernel]]; repeat split. }
  destruct T0 as (d0 & T0 & Z1 & Z2 & Z3). exists (d ++ d1 ++ d0). rewrite T, T1, T0, !app_assoc. split; [reflexivity|].
  unfold states_seen, motion_calls, commands in *. rewrite <- app_assoc, !flat_map_app.
  rewrite S1, C1, O1, Z1, Z2, Z3, D1, D2. rewrite !app_nil_r. split; [|split].
  - rewrite rev_app_distr, !rev_involutive. unfold all_states, run_states. rewrite <- app_assoc. reflexivity.
  - rewrite rev_involutive. reflexivity.
  - rewrite D5. lia.
Qed.

(** * The other calls *)
Lemma setter_ok : forall r t us ts s, ready us (t ++ ts) s -> answered c_setter_response (n_id s) GsSuccess t ->
  exists s', setter r s = (Ok tt, s') /\ ready us ts s' /\ n_id s' = succ_id (n_id s) /\ r_message_id s' = r_message_id s.
Proof. intros r t us ts s R A. unfold setter. exact (asks_ok _ _ _ _ r _ _ tt t us ts s R A (fun h s => eq_refl)). Qed.

(** What [ready] says apart from the modes. *)
Record quiet (us : sched) (ts : list (option (N * list byte))) (id last : N) (s : st) : Prop := {
  q_queue : u_queue (n_udp s) = [];
  q_udp : n_usched s = us;
  q_sends : ~ In false (n_sends s);
  q_table : n_table s = [];
  q_tcp : n_tsched s = ts;
  q_log : log_fine (r_logger s);
  q_rt : r_rt s = RtIgnore \/ (k_realtime s = true /\ k_priority s = true);
  q_id : n_id s = id;
  q_last : r_message_id s = last
}.
Lemma quiet_update : forall us ts id last s x ch, quiet (ch ++ us) ts id last s -> brings last x ch ->
  exists s', update None None s = (Ok x, s') /\ quiet us ts id (rs_message_id x) s' /\
    r_motion_mode s' = Some (rs_motion_generator_mode x) /\ r_ctrl_mode s' = rs_controller_mode x.
Proof.
  intros us ts id last s x ch Q B. destruct Q.
  rewrite <- q_last0 in B. destruct (receive_one s x ch us B q_queue0 q_udp0) as (u & Qu & E).
  exists (received s x u us). unfold update, bind at 1. cbn [send_robot_command]. unfold ret at 1. unfold bind. rewrite E.
  split; [reflexivity|]. split; [constructor; cbn; auto|]. split; reflexivity.
Qed.
Lemma read_ok : forall K (cb : K -> robot_state_intern -> option (K * bool)) xs x us rest ts id last k fuel s,
  feeds last (xs ++ [x]) us -> quiet (us ++ rest) ts id last s -> stopped x ->
  reads cb k (xs ++ [x]) -> (List.length xs < fuel)%nat ->
  exists k' s', read_loop fuel cb k s = (Ok k', s') /\ ready rest ts s' /\ n_id s' = id /\ r_message_id s' = rs_message_id x.
Proof.
  intros K cb. induction xs as [|y xs IH]; intros x us rest ts id last k fuel s F Q St R L;
    (destruct fuel as [|fuel]; [lia|]); cbn [app] in F, R; cbn [reads] in R;
    inversion F as [|x0 xs0 ch us0 Br F' X1 X2]; subst; rewrite <- app_assoc in Q.
  - inversion F'; subst. destruct (cb k x) as [[k' go]|] eqn:Ek; [|contradiction]. destruct go; [contradiction|].
    destruct (quiet_update _ _ _ _ s x ch Q Br) as (s1 & E1 & Q1 & M1 & C1).
    cbn [read_loop]. unfold bind at 1. rewrite E1. unfold bind at 1, emit, modify. unfold bind at 1. rewrite Ek. unfold unwrap, ret. cbn [fst snd].
    eexists k', _. split; [reflexivity|]. destruct Q1, St as [S1 S2]. cbn [app] in q_udp0.
    split; [constructor; cbn; auto; congruence|]. split; cbn; assumption.
  - destruct (cb k y) as [[k' go]|] eqn:Ek; [|contradiction]. destruct go; [|destruct xs; discriminate R].
    destruct (quiet_update _ _ _ _ s y ch Q Br) as (s1 & E1 & Q1 & M1 & C1).
    cbn [read_loop]. unfold bind at 1. rewrite E1. unfold bind at 1, emit, modify. unfold bind at 1. rewrite Ek. unfold unwrap, ret. cbn [fst snd].
    apply (IH x us0 rest ts id (rs_message_id y) k' fuel (add_event s1 (EvRead y)) F'); auto; [|cbn [List.length] in L; lia].
    destruct Q1. constructor; cbn; auto.
Qed.

Lemma serves_ok : forall a us ts id' last' urest trest s, ready (us ++ urest) (ts ++ trest) s ->
  serves (n_id s) (r_message_id s) a us ts id' last' ->
  exists s', run_api a s = (Ok tt, s') /\ ready urest trest s' /\ n_id s' = id' /\ r_message_id s' = last'.
Proof.
  intros a us ts id' last' urest trest s R H.
  destruct H as [k cb o us ts C|r ts A|ts A|ts A|w content ts A|t1 t2 t3 A1 A2 A3|old x ch1 ch2 P B St|K cb k xs x us F St Rd]; cbn [run_api].
  - destruct (control_ok k cb o us urest ts trest s R C) as (s' & E & R' & I & M & _). eauto.
  - exact (setter_ok r _ _ _ s R A).
  - unfold automatic_error_recovery. exact (asks_ok _ _ _ _ _ _ _ tt _ _ _ s R A (fun h s => eq_refl)).
  - unfold user_stop. exact (asks_ok _ _ _ _ _ _ _ tt _ _ _ s R A (fun h s => eq_refl)).
  - unfold get_virtual_wall.
    destruct (asks_ok _ _ _ c_wall_response (ReqGetCartesianLimit w)
      (fun x => as_result (handle_setter (fst (snd x))) ;;; ret (w, snd (snd x))) _ (w, content) _ _ _ s R A (fun h s => eq_refl))
      as (s' & E & R' & I & M).
    exists s'. unfold bind at 1. rewrite E. auto.
  - unfold set_default_behavior. rewrite <- !app_assoc in R.
    destruct (setter_ok (ReqSetCollisionBehavior (repeat f64_20 7) (repeat f64_20 7) (repeat f64_10 7) (repeat f64_10 7)
                                  (repeat f64_20 6) (repeat f64_20 6) (repeat f64_10 6) (repeat f64_10 6)) _ _ _ s R A1) as (s1 & E1 & R1 & I1 & M1).
    rewrite <- I1 in A2.
    destruct (setter_ok (ReqSetJointImpedance [f64_3000; f64_3000; f64_3000; f64_2500; f64_2500; f64_2000; f64_2000]) _ _ _ s1 R1 A2)
      as (s2 & E2 & R2 & I2 & M2).
    rewrite <- I1, <- I2 in A3.
    destruct (setter_ok (ReqSetCartesianImpedance [f64_3000; f64_3000; f64_3000; f64_300; f64_300; f64_300]) _ _ _ s2 R2 A3)
      as (s3 & E3 & R3 & I3 & M3).
    exists s3. unfold bind at 1. rewrite E1. unfold bind at 1. rewrite E2, E3. repeat split; try apply R3; congruence.
  - cbn [app] in R. rewrite <- app_assoc in R. pose proof R as R0. destruct R. unfold bind at 1, read_once. unfold bind at 1, get at 1.
    destruct (flush_ok _ _ P s (ch2 ++ urest) (bound s) re_queue re_udp) as (u & Qu & Eu).
    { unfold bound, pending. rewrite re_udp, flat_map_app, app_length. pose proof (polled_arrivals _ _ _ _ P). lia. }
    assert (R1 : ready (ch2 ++ urest) trest (set_udp s u (ch2 ++ urest))) by (constructor; cbn; auto).
    destruct (receive_ready _ _ _ x ch2 R1 B) as (u2 & Qu2 & E2 & R2).
    unfold bind at 1. rewrite Eu.
    unfold bind at 1. rewrite E2. unfold bind at 1, emit, modify, ret. eexists. split; [reflexivity|].
    destruct (R2 St). split; [constructor; cbn; auto|]. split; reflexivity.
  - unfold robot_read, bind at 1. unfold bind at 1, get at 1.
    destruct (read_ok K cb xs x us urest trest (n_id s) (r_message_id s) k (bound s) s F) as (k' & s' & E & R' & I & M); auto.
    + destruct R. constructor; auto.
    + unfold bound. rewrite (re_udp _ _ _ R). pose proof (pending_feeds _ _ us urest (n_udp s) F) as P. rewrite app_length in P. cbn in P |- *. lia.
    + rewrite E. unfold ret. eauto.
Qed.

Lemma session_ok : forall l id last us ts, session id last l us ts -> forall urest trest s,
  ready (us ++ urest) (ts ++ trest) s -> n_id s = id -> r_message_id s = last ->
  results l s = repeat (Ok tt) (List.length l) /\ ready urest trest (run_calls l s).
Proof.
  induction 1 as [id last|id last a us ts id' last' l us' ts' H S IH]; intros urest trest s R I M.
  - split; [reflexivity|exact R].
  - subst id last. rewrite <- !app_assoc in R. destruct (serves_ok _ _ _ _ _ _ _ s R H) as (s' & E & R' & I' & M').
    cbn [results run_calls List.length repeat]. rewrite E. cbn [fst snd].
    destruct (IH urest trest s' R' I' M') as [E2 R2]. rewrite E2. split; [reflexivity|exact R2].
Qed.

(** * Connecting *)
Lemma connect_ok : forall port size rt x ch v t us ts realtime priority,
  (0 < size)%nat -> rt = RtIgnore \/ (realtime = true /\ priority = true) ->
  burst state_size state_decode x ch -> stopped x ->
  answered c_connect_response 0 (CsSuccess, v) t ->
  exists s', robot_new port (st_init size rt (ch ++ us) (t ++ ts) [] realtime priority) = (Ok tt, s') /\
    ready us ts s' /\ n_id s' = 1 /\ r_message_id s' = rs_message_id x.
Proof.
  intros port size rt x ch v t us ts realtime priority P Rt B [S1 S2] (n & b & h & -> & Db).
  unfold robot_new, connect_robot. unfold bind at 1, bind at 1. unfold send_request at 1. cbn [n_id st_init].
  unfold bind at 1. unfold blocking_response, bind at 1, wait_response. cbn [n_tsched n_table set_id add_event st_init].
  rewrite wait_answer. unfold unwrap. rewrite Db. unfold ret at 1. cbn [fst snd]. unfold modify.
  match goal with |- context [udp_block ?s0] => destruct (block_one s0 x ch us B eq_refl eq_refl) as (u & Qu & Eu) end. rewrite Eu.
  unfold update_state_with, modify. eexists. split; [reflexivity|]. split; [|split; reflexivity].
  constructor; cbn; auto. { rewrite S1. reflexivity. } constructor. exact P.
Qed.
