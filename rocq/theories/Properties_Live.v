(** C61: with a robot which does its part, every call succeeds. *)
From Coq Require Import List NArith ZArith Bool Arith Lia.
From Coq Require Import Init.Byte.
From Verif Require Import Bytes Codec WireModel TcpModel UdpModel LoggerModel RobotModel LoopModel RobotSpec RobotScenario LiveUdp LiveSpec LiveProofs.
Import ListNotations.
Open Scope list_scope.
Open Scope N_scope.

(** A control call returns [Ok] for every controller and every number of cycles before, during and
    after the motion.  The callback sees exactly the states sent for it, with the true time steps;
    every state but those before the motion is asked for with one command. *)
Theorem C61_control : forall k cb o us urest ts trest s, ready (us ++ urest) (ts ++ trest) s ->
  cooperates k cb (n_id s) (r_message_id s) o us ts ->
  exists s', control k cb s = (Ok tt, s') /\ ready urest trest s' /\ n_id s' = succ_id (n_id s) /\
    r_message_id s' = rs_message_id (mo_last o) /\
    exists d, trace s' = d ++ trace s /\ rev (states_seen d) = all_states o /\
      rev (motion_calls d) = steps (rs_message_id (mo_first o)) (run_states o) /\
      List.length (commands d) = (List.length (mo_during o) + List.length (mo_ending o) + 1)%nat.
Proof. exact control_ok. Qed.
Print Assumptions C61_control.

(** So does every sequence of calls of any kind. *)
Theorem C61_session : forall l us ts urest trest s, session (n_id s) (r_message_id s) l us ts ->
  ready (us ++ urest) (ts ++ trest) s ->
  Forall (eq (Ok tt)) (results l s) /\ List.length (results l s) = List.length l /\ ready urest trest (run_calls l s).
Proof.
  intros l us ts urest trest s H R. destruct (session_ok l _ _ us ts H urest trest s R eq_refl eq_refl) as [E R'].
  rewrite E. split; [|split; [apply repeat_length|exact R']]. apply Forall_forall. intros r I. symmetry. exact (repeat_spec _ _ _ I).
Qed.
Print Assumptions C61_session.

(** Connecting gives such a handle if the first state shows a robot at rest. *)
Theorem C61_connect : forall port size rt x ch v t us ts realtime priority,
  (0 < size)%nat -> rt = RtIgnore \/ (realtime = true /\ priority = true) ->
  burst state_size state_decode x ch -> stopped x ->
  answered c_connect_response 0 (CsSuccess, v) t ->
  exists s', robot_new port (st_init size rt (ch ++ us) (t ++ ts) [] realtime priority) = (Ok tt, s') /\
    ready us ts s' /\ n_id s' = 1 /\ r_message_id s' = rs_message_id x.
Proof. exact connect_ok. Qed.
Print Assumptions C61_connect.

Definition ex_o : motion := Motion [ex_idle 3] (ex_run 4) (ex_run 6) [ex_run 7; ex_run 10] [ex_run 11; ex_run 12] (ex_idle 20).
Definition ex_sent (x : robot_state_intern) : Prop :=
  List.length (serialize c_robot_state_intern x) = state_size /\ state_decode (serialize c_robot_state_intern x) = Some x.
Ltac decodes := vm_compute; reflexivity.
(** Several states in one burst: the last is taken. *)
Lemma ex_ends : forall xs x, Forall ex_sent xs -> ex_sent x -> ends_with state_size state_decode (map ex_dg xs ++ [ex_dg x]) x.
Proof.
  intros xs x F [L D]. split.
  - apply Forall_app. split; [|constructor; [exact L|constructor]]. induction F as [|y xs [Ly _] F IH]; constructor; assumption.
  - exists (map ex_dg xs), (ex_dg x). split; [reflexivity|exact D].
Qed.
Lemma ex_burst : forall x, ex_sent x -> burst state_size state_decode x (ex_first x).
Proof.
  intros x H. exists [ex_dg x], false, [Tick [] false; Tick [] false], [ex_dg x]. split; [discriminate|]. split; [reflexivity|].
  split; [eapply emptied_next; [reflexivity|constructor]|]. apply (ex_ends [] x); [constructor|exact H].
Qed.
Ltac first_brought := apply ex_burst; split; decodes.
Lemma ex_brings : forall last x, last < rs_message_id x -> ex_sent x -> brings last x (ex_once x).
Proof.
  intros last x L H. apply (brings_waiting last x [] [] [Tick [] false] [] (ex_first x)); [constructor|constructor|apply ex_burst, H|constructor|exact L].
Qed.
(** Three states at once, a fourth while they are read. *)
Definition ex_many (a b c d : robot_state_intern) : sched :=
  [Tick [ex_dg a; ex_dg b; ex_dg c] false; Tick [] false; Tick [] false; Tick [ex_dg d] false; Tick [] false; Tick [] false; Tick [] false; Tick [] false].
Lemma ex_many_polled : forall a b c d, Forall ex_sent [a; b; c] -> ex_sent d -> polled state_size state_decode [d] (ex_many a b c d).
Proof.
  intros a b c d F H.
  apply (polled_next _ _ [ex_dg a; ex_dg b; ex_dg c] false [] false
    [Tick [] false; Tick [ex_dg d] false; Tick [] false; Tick [] false; Tick [] false] (map ex_dg [a; b; c] ++ [ex_dg d]) d [] [Tick [] false]).
  - discriminate.
  - repeat (eapply emptied_next; [reflexivity|]). constructor.
  - apply ex_ends; assumption.
  - constructor.
Qed.
Example C61_ex_many : brings 5 (ex_idle 9) (ex_many (ex_idle 6) (ex_idle 7) (ex_idle 7) (ex_idle 9)).
Proof.
  apply (brings_queued 5 (ex_idle 9) [] []); [|reflexivity|constructor|constructor].
  apply ex_many_polled; repeat constructor; decodes.
Qed.
(** Outdated states are there and another comes first. *)
Example C61_ex_late : brings 9 (ex_idle 10)
  (ex_many (ex_idle 6) (ex_idle 7) (ex_idle 7) (ex_idle 9) ++ ex_first (ex_idle 8) ++ ex_first (ex_idle 10)).
Proof.
  apply (brings_waiting 9 (ex_idle 10) [ex_idle 9] [ex_idle 8]).
  - apply ex_many_polled; repeat constructor; decodes.
  - rewrite <- (app_nil_r (ex_first (ex_idle 8))). constructor; [first_brought|constructor].
  - first_brought.
  - repeat constructor; cbn; discriminate.
  - reflexivity.
Qed.
Definition ex_calls : list api :=
  [ADefaults; AReadOnce; AControl (ex_control 2) 0; AStop; ARead N (fun k _ => Some (k + 1, k <? 1)) 0].
Definition ex_us : sched := (ex_many (ex_idle 1) (ex_idle 1) (ex_idle 1) (ex_idle 1) ++ ex_once (ex_idle 2)) ++ ex_states (all_states ex_o) ++ ex_states [ex_idle 21; ex_idle 22].
Definition ex_ts : list (option (N * list byte)) :=
  [ex_set RcSetCollisionBehavior 1 GsSuccess; None; ex_set RcSetJointImpedance 2 GsSuccess; ex_set RcSetCartesianImpedance 3 GsSuccess;
   None; ex_move 4 MsMotionStarted; None; None; ex_move 4 MsSuccess; ex_stop 5 SsSuccess].
Lemma ex_feeds : forall l last, newer last l -> Forall ex_sent l -> feeds last l (ex_states l).
Proof.
  induction l as [|x l IH]; intros last N F; [constructor|]. inversion_clear F. destruct N. cbn [ex_states flat_map].
  constructor; [apply ex_brings; assumption|apply IH; assumption].
Qed.
Lemma ex_answered : forall H A (c : codec (H * A)) n id b h a, deserialize c b = Some (h, a) ->
  answered c id a (repeat None n ++ [Some (id, b)]).
Proof. intros H A c n id b h a E. exists n, b, h. auto. Qed.
Example C61_ex_session : session 1 1 ex_calls ex_us ex_ts.
Proof.
  apply (session_call 1 1 ADefaults []
    [ex_set RcSetCollisionBehavior 1 GsSuccess; None; ex_set RcSetJointImpedance 2 GsSuccess; ex_set RcSetCartesianImpedance 3 GsSuccess] 4 1
    _ ex_us [None; ex_move 4 MsMotionStarted; None; None; ex_move 4 MsSuccess; ex_stop 5 SsSuccess]).
  { apply (serves_defaults 1 1 [ex_set RcSetCollisionBehavior 1 GsSuccess] [None; ex_set RcSetJointImpedance 2 GsSuccess]
       [ex_set RcSetCartesianImpedance 3 GsSuccess]).
    - eapply (ex_answered _ _ _ 0). decodes.
    - eapply (ex_answered _ _ _ 1). decodes.
    - eapply (ex_answered _ _ _ 0). decodes. }
  apply (session_call 4 1 AReadOnce (ex_many (ex_idle 1) (ex_idle 1) (ex_idle 1) (ex_idle 1) ++ ex_once (ex_idle 2)) [] 4 2 _
    (ex_states (all_states ex_o) ++ ex_states [ex_idle 21; ex_idle 22])).
  { apply (serves_read_once 4 1 [ex_idle 1] (ex_idle 2)); [|apply ex_brings; [reflexivity|split; decodes]|split; [reflexivity|discriminate]].
    apply ex_many_polled; repeat constructor; decodes. }
  apply (session_call 4 2 (AControl (ex_control 2) 0) (ex_states (all_states ex_o))
    [None; ex_move 4 MsMotionStarted; None; None; ex_move 4 MsSuccess] 5 20 _ (ex_states [ex_idle 21; ex_idle 22]) [ex_stop 5 SsSuccess]).
  { apply (serves_control 4 2 (ex_control 2) 0 ex_o). constructor.
    - apply ex_feeds; [cbn; repeat split|]. repeat constructor; decodes.
    - exists [None; ex_move 4 MsMotionStarted], [ex_move 4 MsSuccess]. repeat split.
      + eapply (ex_answered _ _ _ 1). decodes.
      + eapply (ex_answered _ _ _ 0). decodes.
    - repeat constructor. intros [X _]. discriminate X.
    - split; reflexivity.
    - repeat constructor.
    - repeat constructor; left; discriminate.
    - split; [reflexivity|discriminate].
    - cbn. reflexivity. }
  apply (session_call 5 20 AStop [] [ex_stop 5 SsSuccess] 6 20 _ (ex_states [ex_idle 21; ex_idle 22]) []).
  { apply serves_stop. eapply (ex_answered _ _ _ 0). decodes. }
  rewrite <- (app_nil_r (ex_states [ex_idle 21; ex_idle 22])).
  apply (session_call 6 20 (ARead N (fun k _ => Some (k + 1, k <? 1)) 0) (ex_states [ex_idle 21; ex_idle 22]) [] 6 22 _ [] []); [|constructor].
  apply (serves_read 6 20 N _ 0 [ex_idle 21] (ex_idle 22)).
  - apply ex_feeds; [cbn; repeat split|]. repeat constructor; decodes.
  - split; [reflexivity|discriminate].
  - cbn. reflexivity.
Qed.
(** The whole program, from connecting on. *)
Definition ex_live : st := st_init 5 RtEnforce (ex_first (ex_idle 1) ++ ex_us) (ex_connected 0 :: ex_ts) [] true true.
Example C61_ex : exists s, robot_new 1337 ex_live = (Ok tt, s) /\ results ex_calls s = repeat (Ok tt) 5 /\ ready [] [] (run_calls ex_calls s).
Proof.
  destruct (C61_connect 1337 5 RtEnforce (ex_idle 1) (ex_first (ex_idle 1)) 5 [ex_connected 0] ex_us ex_ts true true) as (s & E & R & I & M);
    [lia|right; split; reflexivity|first_brought|split; [reflexivity|discriminate]|eapply (ex_answered _ _ _ 0); decodes|].
  exists s. split; [exact E|].
  assert (S : session (n_id s) (r_message_id s) ex_calls ex_us ex_ts) by (rewrite I, M; exact C61_ex_session).
  rewrite <- (app_nil_r ex_us), <- (app_nil_r ex_ts) in R.
  destruct (C61_session ex_calls ex_us ex_ts [] [] s S R) as (F & L & R'). split; [|exact R'].
  assert (G : forall l, Forall (eq (Ok tt)) l -> l = repeat (@Ok unit tt) (List.length l)).
  { induction 1 as [|r l <- _ IH]; [reflexivity|]. cbn [List.length repeat]. rewrite <- IH. reflexivity. }
  rewrite (G _ F), L. reflexivity.
Qed.
(** The second response is needed. *)
Example C61_ex_blocks : fst (control (ex_control 2) 0
  (after_new (st_init 10 RtIgnore (ex_first (ex_idle 1) ++ ex_states [ex_run 2; ex_run 4; ex_run 5; ex_run 8; ex_run 9; ex_idle 10])
    [ex_connected 0; ex_move 1 MsMotionStarted; None] [] true true))) = Blocked.
Proof. vm_compute. reflexivity. Qed.
