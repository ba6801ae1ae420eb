(** C25, C26 (gripper), C50 (handle level): the gripper handle. *)
From Coq Require Import List NArith ZArith Bool Arith Lia String.
From Coq Require Import Init.Byte.
From Verif Require Import Bytes Codec WireModel WireSpec TcpModel TcpProofs UdpModel UdpSpec UdpProofs
  RobotModel GripperModel StatusSpec GripperProofs.
Import ListNotations.
Open Scope list_scope.
Open Scope N_scope.

(** What an action which sends [r] has to do.  [used] are the polls of the socket it makes. *)
Definition one_exchange (r : gripper_request) (m : list byte) (s s' : gst) : Prop :=
  g_trace s' = GEvReply (g_id s) m :: GEvRequest (g_id s) r :: g_trace s /\
  g_id s' = (g_id s + 1) mod 2 ^ 32 /\
  g_udp s' = g_udp s /\ g_usched s' = g_usched s /\
  exists used, g_tsched s = used ++ g_tsched s' /\
    (* the response is the one which carries the id of the request, *)
    (latest (g_id s) used = Some m \/ latest (g_id s) used = None /\ tget (g_id s) (g_table s) = Some m) /\
    (* it is consumed, and responses with other ids are kept *)
    tget (g_id s) (g_table s') = None /\
    forall i, i <> g_id s -> tget i (g_table s') = match latest i used with Some x => Some x | None => tget i (g_table s) end.
(** One request, and no response to it ever comes. *)
Definition unanswered (r : gripper_request) (s s' : gst) : Prop :=
  g_trace s' = GEvRequest (g_id s) r :: g_trace s /\ g_tsched s' = [] /\
  latest (g_id s) (g_tsched s) = None /\ tget (g_id s) (g_table s) = None.

Lemma exchange_spec : forall r s,
  match g_exchange r s with
  | (Some m, s') => one_exchange r m s s' /\ g_version s' = g_version s
  | (None, s') => unanswered r s s' /\ g_udp s' = g_udp s
  end.
Proof.
  intros r s. unfold g_exchange. pose proof (wait_loop_spec (g_id s) (g_tsched s) (g_table s)) as W.
  destruct (wait_loop (g_id s) (g_tsched s) (g_table s)) as [[[m|] tb] ts].
  - destruct W as (used & U & T & G & _). split; [|reflexivity]. unfold one_exchange. cbn.
    repeat (split; [reflexivity|]). exists used. split; [exact U|]. rewrite received_get in G.
    split; [destruct (latest (g_id s) used); auto|]. subst tb. rewrite tget_remove, N.eqb_refl. split; [reflexivity|].
    intros i Hi. rewrite tget_remove. replace (i =? g_id s) with false by (symmetry; apply N.eqb_neq; exact Hi).
    apply received_get.
  - destruct W as (-> & T & G). split; [|reflexivity]. unfold unanswered. cbn. subst tb. rewrite received_get in G.
    repeat (split; [reflexivity|]). destruct (latest (g_id s) (g_tsched s)); [discriminate|auto].
Qed.

Lemma action_spec : forall r s,
  match g_action r s with
  | (Blocked, s') => unanswered r s s'
  | (o, s') => exists m, one_exchange r m s s' /\ o = gripper_verdict m
  end.
Proof.
  intros r s. unfold g_action. pose proof (exchange_spec r s) as X.
  destruct (g_exchange r s) as [[m|] s']; [|exact (proj1 X)].
  pose proof (action_verdict m) as V. destruct (deserialize c_gr_response m) as [[h st]|].
  - destruct st; cbn [handle_response_status] in *; exists m; split; try apply X; exact V.
  - exists m. split; [apply X|exact V].
Qed.

Theorem C25_actions : forall s width speed force inner outer,
  let correct (r : gripper_request) (x : outcome bool * gst) :=
    match x with
    | (Blocked, s') => unanswered r s s'
    | (o, s') => exists m, one_exchange r m s s' /\ o = gripper_verdict m
    end in
  correct (GReqMove width speed) (move_gripper width speed s) /\
  correct GReqHoming (homing s) /\
  correct GReqStop (gripper_stop s) /\
  correct (GReqGrasp width speed force inner outer) (grasp width speed force inner outer s).
Proof. intros. repeat split; apply action_spec. Qed.
Print Assumptions C25_actions.

(** Consequence in the words of the property: true, false and errors by status alone. *)
Theorem C25_status : forall m,
  (gripper_verdict m = Ok true <-> gripper_reply 12 m = true /\ byte2_at m 10 = 0) /\
  (gripper_verdict m = Ok false <-> gripper_reply 12 m = true /\ byte2_at m 10 = 2) /\
  ((exists t, gripper_verdict m = Err (CommandException t)) <->
     gripper_reply 12 m = true /\ (byte2_at m 10 = 1 \/ byte2_at m 10 = 3)).
Proof.
  intros m. unfold gripper_verdict.
  destruct (gripper_reply 12 m); destruct (byte2_at m 10) as [|[[p|p|]|[p|p|]|]];
    (split; [|split]); (split; [intros H|intros [H1 H2]]);
    try discriminate; try (destruct H as [t H]; discriminate); auto; try (destruct H2; discriminate); eauto.
Qed.
Print Assumptions C25_status.

Definition greply (cmd id status : N) : list byte := le_bytes 2 cmd ++ le_bytes 4 id ++ le_bytes 4 12 ++ le_bytes 2 status.
Example C25_ex : (* the response to another request arrives first and is kept *)
  let s := GSt udp_init [] [] [None; Some (7, [x01]); Some (4, greply 3 4 2)] 4 (Some 3) [] in
  match move_gripper 1 2 s with
  | (Ok b, s') => b = false /\ g_table s' = [(7, [x01])]
  | _ => False
  end /\
  fst (grasp 1 2 3 None None (GSt udp_init [] [] [Some (4, greply 2 4 3)] 4 (Some 3) []))
    = Err (CommandException "libfranka-rs gripper: Command aborted!") /\
  fst (homing (GSt udp_init [] [] [Some (4, greply 1 4 4)] 4 (Some 3) [])) = Panic PDecodeTcp.
Proof. vm_compute. auto. Qed.

(** Whole programs: requests carry consecutive ids, and each but possibly the last is answered
    by a response with its own id before the next is sent.  [n] exchanges so far. *)
Inductive exchanges : nat -> list gripper_request -> list gevent -> Prop :=
| ex_none : exchanges 0 [] []
| ex_one : forall n rs t r m, exchanges n rs t ->
    exchanges (S n) (rs ++ [r])
              (GEvReply (N.of_nat n mod 2 ^ 32) m :: GEvRequest (N.of_nat n mod 2 ^ 32) r :: t).
Definition request_of (c : gcall) : list gripper_request :=
  match c with
  | GMove w v => [GReqMove w v] | GHoming => [GReqHoming] | GStop => [GReqStop]
  | GGrasp w v f a b => [GReqGrasp w v f a b] | GRead => []
  end.
Definition well_formed (rs : list gripper_request) (t : list gevent) : Prop :=
  exists n done rest, rs = done ++ rest /\
    (exchanges n done t \/
     exists done' r t', done = done' ++ [r] /\ exchanges n done' t' /\ t = GEvRequest (N.of_nat n mod 2 ^ 32) r :: t').

Lemma exchanges_next : forall n rs r m s s', exchanges n rs (g_trace s) -> g_id s = N.of_nat n mod 2 ^ 32 ->
  one_exchange r m s s' -> exchanges (S n) (rs ++ [r]) (g_trace s') /\ g_id s' = N.of_nat (S n) mod 2 ^ 32.
Proof.
  intros n rs r m s s' X Id (T & I & _). rewrite T, I, Id. split; [constructor; exact X|].
  rewrite Nat2N.inj_succ. rewrite N.add_mod_idemp_l by (intros H; vm_compute in H; discriminate). f_equal. lia.
Qed.
Lemma calls_history : forall l n rs s, exchanges n rs (g_trace s) -> g_id s = N.of_nat n mod 2 ^ 32 ->
  well_formed (rs ++ flat_map request_of l) (g_trace (run_gcalls l s)).
Proof.
  induction l as [|c l IH]; intros n rs s X Id.
  - exists n, rs, []. split; [reflexivity|]. left. exact X.
  - assert (Act : forall r x, match x with (Blocked, s') => unanswered r s s'
                              | (o, s') => exists m, one_exchange r m s s' /\ o = gripper_verdict m end ->
      well_formed (rs ++ r :: flat_map request_of l)
        (g_trace (let '(d, s') := (g_dead (fst x), snd x) in if d then s' else run_gcalls l s'))).
    { intros r [o s'] H. cbn [fst snd].
      assert (Go : forall m, one_exchange r m s s' ->
        well_formed (rs ++ r :: flat_map request_of l) (g_trace (if g_dead o then s' else run_gcalls l s'))).
      { intros m O. destruct (exchanges_next n rs r m s s' X Id O) as [X' I'].
        replace (rs ++ r :: flat_map request_of l) with ((rs ++ [r]) ++ flat_map request_of l) by (rewrite <- app_assoc; reflexivity).
        destruct (g_dead o); [|apply (IH (S n)); assumption].
        exists (S n), (rs ++ [r]), (flat_map request_of l). split; [reflexivity|]. left. exact X'. }
      destruct o as [b|e|p| |]; try (destruct H as (m & O & _); exact (Go m O)).
      destruct H as (T & _). cbn [g_dead]. exists n, (rs ++ [r]), (flat_map request_of l).
      split; [rewrite <- app_assoc; reflexivity|]. right. exists rs, r, (g_trace s). rewrite T, Id. auto. }
    destruct c as [w v| | |w v f a b|]; cbn [run_gcalls run_gcall flat_map request_of app].
    + specialize (Act (GReqMove w v) (move_gripper w v s) (action_spec _ s)).
      destruct (move_gripper w v s) as [o s']; exact Act.
    + specialize (Act GReqHoming (homing s) (action_spec _ s)). destruct (homing s) as [o s']; exact Act.
    + specialize (Act GReqStop (gripper_stop s) (action_spec _ s)). destruct (gripper_stop s) as [o s']; exact Act.
    + specialize (Act (GReqGrasp w v f a b) (grasp w v f a b s) (action_spec _ s)).
      destruct (grasp w v f a b s) as [o s']; exact Act.
    + assert (K : g_trace (snd (g_read_once s)) = g_trace s /\ g_id (snd (g_read_once s)) = g_id s).
      { unfold g_read_once. destruct (read_fresh _ _ _ _) as [[[[] u] sc]|]; auto. }
      destruct (g_read_once s) as [o s']. cbn [snd] in K. destruct K as [K1 K2]. destruct (g_dead o).
      * exists n, rs, (flat_map request_of l). split; [reflexivity|]. left. rewrite K1. exact X.
      * apply (IH n); congruence.
Qed.

Theorem C25_history : forall us ts port l,
  well_formed (GReqConnect port :: flat_map request_of l) (g_trace (gripper_program port l (gst_init us ts))).
Proof.
  intros us ts port l. unfold gripper_program, connect_gripper.
  pose proof (exchange_spec (GReqConnect port) (gst_init us ts)) as X.
  destruct (g_exchange (GReqConnect port) (gst_init us ts)) as [[m|] s'].
  - destruct X as [O _].
    destruct (exchanges_next 0 [] (GReqConnect port) m (gst_init us ts) s') as [X' I']; [constructor|reflexivity|exact O|].
    assert (End : well_formed (GReqConnect port :: flat_map request_of l) (g_trace s')).
    { exists 1%nat, [GReqConnect port], (flat_map request_of l). split; [reflexivity|]. left. exact X'. }
    destruct (deserialize c_gr_connect_response m) as [[h [[] v]]|]; try exact End.
    apply (calls_history l 1 [GReqConnect port]); cbn; assumption.
  - destruct X as [(T & _) _]. exists 0%nat, [GReqConnect port], (flat_map request_of l). split; [reflexivity|].
    right. exists [], (GReqConnect port), []. split; [reflexivity|]. split; [constructor|]. rewrite T. reflexivity.
Qed.
Print Assumptions C25_history.
Definition gconnected (status version : N) : list byte :=
  le_bytes 2 0 ++ le_bytes 4 0 ++ le_bytes 4 14 ++ le_bytes 2 status ++ le_bytes 2 version.
Example C25_history_ex :
  g_trace (gripper_program 1339 [GHoming; GMove 1 2; GStop] (gst_init []
    [Some (0, gconnected 0 3); Some (1, greply 1 1 0); Some (2, greply 3 2 1)]))
  = [GEvRequest 3 GReqStop; GEvReply 2 (greply 3 2 1); GEvRequest 2 (GReqMove 1 2); GEvReply 1 (greply 1 1 0);
     GEvRequest 1 GReqHoming; GEvReply 0 (gconnected 0 3); GEvRequest 0 (GReqConnect 1339)].
Proof. vm_compute. reflexivity. Qed.

(** * C26, gripper *)
Theorem C26_gripper : forall port s,
  match connect_gripper port s with
  | (Blocked, s') => unanswered (GReqConnect port) s s'
  | (Ok _, s') => exists m v, one_exchange (GReqConnect port) m s s' /\ gripper_connected m = Some (true, v) /\
                    g_server_version s' = Some v
  | (Err e, s') => exists m v, one_exchange (GReqConnect port) m s s' /\ gripper_connected m = Some (false, v) /\
                    e = IncompatibleLibraryVersionError v 3 /\ g_server_version s' = g_server_version s
  | (Panic p, s') => exists m, one_exchange (GReqConnect port) m s s' /\ gripper_connected m = None
  | (OutOfFuel, _) => False
  end.
Proof.
  intros port s. unfold connect_gripper. pose proof (exchange_spec (GReqConnect port) s) as X.
  destruct (g_exchange (GReqConnect port) s) as [[m|] s']; [|apply X].
  pose proof (connect_verdict m) as V. destruct X as [O Ve].
  destruct (deserialize c_gr_connect_response m) as [[h [st v]]|]; cbn in V.
  - destruct st; exists m, v; (split; [exact O|]); rewrite <- V; auto.
  - exists m. auto.
Qed.
Print Assumptions C26_gripper.
Example C26_gripper_ex :
  (let x := connect_gripper 1339 (gst_init [] [Some (0, gconnected 0 3)]) in fst x = Ok tt /\ g_server_version (snd x) = Some 3) /\
  fst (connect_gripper 1339 (gst_init [] [Some (0, gconnected 3 2)])) = Err (IncompatibleLibraryVersionError 2 3).
Proof. vm_compute. auto. Qed.

(** * C50 on the handle *)
Definition gripper_handle (s : gst) : Prop := exists us ts port l, s = gripper_program port l (gst_init us ts).
Lemma noticed_program : forall s, gripper_handle s -> noticed (g_udp s).
Proof.
  intros s (us & ts & port & l & ->). unfold gripper_program, connect_gripper.
  assert (Run : forall l s, noticed (g_udp s) -> noticed (g_udp (run_gcalls l s))).
  { clear. induction l as [|c l IH]; intros s H; [exact H|].
    assert (A : forall r, noticed (g_udp (snd (g_action r s)))).
    { intros r. unfold g_action. pose proof (exchange_spec r s) as X. destruct (g_exchange r s) as [[m|] s'].
      - destruct X as [(_ & _ & U & _) _]. destruct (deserialize c_gr_response m) as [[h st]|]; cbn [snd]; rewrite U; exact H.
      - destruct X as [_ U]. cbn [snd]. rewrite U. exact H. }
    assert (B : noticed (g_udp (snd (g_read_once s)))).
    { unfold g_read_once. destruct (read_fresh_spec 23 (deserialize c_gripper_state) (g_udp s) (g_usched s) H)
        as (r & u & sc & used & E & _ & N & _). rewrite E. destruct r; exact N. }
    destruct c as [w v| | |w v f a b|]; cbn [run_gcalls run_gcall]; unfold move_gripper, homing, gripper_stop, grasp in *.
    - specialize (A (GReqMove w v)). destruct (g_action _ s) as [o s']. cbn [snd] in A. destruct (g_dead o); auto.
    - specialize (A GReqHoming). destruct (g_action _ s) as [o s']. cbn [snd] in A. destruct (g_dead o); auto.
    - specialize (A GReqStop). destruct (g_action _ s) as [o s']. cbn [snd] in A. destruct (g_dead o); auto.
    - specialize (A (GReqGrasp w v f a b)). destruct (g_action _ s) as [o s']. cbn [snd] in A. destruct (g_dead o); auto.
    - destruct (g_read_once s) as [o s']. cbn [snd] in B. destruct (g_dead o); auto. }
  pose proof (exchange_spec (GReqConnect port) (gst_init us ts)) as X.
  assert (N0 : noticed udp_init) by (intros C; contradiction C; reflexivity).
  destruct (g_exchange (GReqConnect port) (gst_init us ts)) as [[m|] s'].
  - destruct X as [(_ & _ & U & _) _].
    destruct (deserialize c_gr_connect_response m) as [[h [[] v]]|]; try (rewrite U; exact N0).
    apply Run. cbn. rewrite U. exact N0.
  - destruct X as [_ U]. rewrite U. exact N0.
Qed.

(** At any point of any program: the state returned comes from a datagram which arrived during the
    call; all five fields are those of the datagram, the time being its message id. *)
Theorem C50_gripper_handle : forall s g s', gripper_handle s -> g_read_once s = (Ok g, s') ->
  full 23 (arrived (g_usched s)) ->
  exists used d x, g_usched s = used ++ g_usched s' /\ In d (arrived used) /\
    deserialize c_gripper_state (firstn 23 (d_data d)) = Some x /\
    gr_width g = gs_width x /\ gr_max_width g = gs_max_width x /\ gr_is_grasped g = gs_is_grasped x /\
    gr_temperature g = gs_temperature x /\ gr_time g = gs_message_id x /\
    g_trace s' = g_trace s /\ g_tsched s' = g_tsched s /\ g_table s' = g_table s.
Proof.
  intros s g s' H E F. apply noticed_program in H. unfold g_read_once in E.
  destruct (read_fresh 23 (deserialize c_gripper_state) (g_udp s) (g_usched s)) as [[[r u] sc]|] eqn:R; [|discriminate].
  destruct r as [x| | |n|]; try discriminate. injection E as <- <-.
  destruct (read_fresh_single 23 (deserialize c_gripper_state) (g_udp s) (g_usched s) x u sc H R F) as (used & d & U & I & D).
  exists used, d, x. cbn. repeat (split; [assumption || reflexivity|]). reflexivity.
Qed.
Print Assumptions C50_gripper_handle.
Example C50_gripper_handle_ex :
  let d id := Dgram 1 (serialize c_gripper_state (GripperStateIntern id 4 5 true 60)) in
  let us := [Tick [d 7] false; Tick [] false; Tick [] false; Tick [] false; Tick [] false; Tick [d 8] false] in
  let s := gripper_program 1339 [] (gst_init us [Some (0, gconnected 0 3)]) in
  gripper_handle s /\ match g_read_once s with (Ok g, _) => gr_time g = 8 /\ gr_width g = 4 | _ => False end.
Proof. cbn zeta. split; [do 4 eexists; reflexivity|vm_compute; auto]. Qed.
