(** C48, second part: [read_once] returns a state which arrived after the call had begun. *)
From Coq Require Import List NArith ZArith Bool Arith Lia String.
From Coq Require Import Init.Byte.
From Verif Require Import Bytes Codec WireModel TcpModel UdpModel UdpSpec UdpProofs ErrorsModel LoggerModel
  RobotModel LoopModel RobotSpec RobotProofs RobotWp LoopProofs RobotMore RobotScenario.
Import ListNotations.
Open Scope list_scope.
Open Scope N_scope.

(** From [s0] to [s] the datagrams [pre] were removed and nothing else. *)
Definition since (s0 s : st) : Prop := exists used pre, n_usched s0 = used ++ n_usched s /\
  u_queue (n_udp s0) ++ arrived used = pre ++ u_queue (n_udp s).
(** [x] was decoded from datagrams received on the way. *)
Definition decoded (s0 s : st) (x : robot_state_intern) : Prop := exists used pre mid post,
  n_usched s0 = used ++ n_usched s /\ u_queue (n_udp s0) ++ arrived used = pre ++ mid ++ post /\
  mid <> [] /\ state_decode (mixture state_size mid) = Some x.

Lemma since_refl : forall s, since s s.
Proof. intros s. exists [], []. split; [reflexivity|]. cbn. apply app_nil_r. Qed.
Lemma since_trans : forall a b c, since a b -> since b c -> since a c.
Proof.
  intros a b c (u1 & p1 & E1 & Q1) (u2 & p2 & E2 & Q2). exists (u1 ++ u2), (p1 ++ p2).
  rewrite E1, E2, app_assoc. split; [reflexivity|].
  rewrite arrived_app, app_assoc, Q1, <- app_assoc, Q2, app_assoc. reflexivity.
Qed.
Lemma decoded_before : forall a b c x, since a b -> decoded b c x -> decoded a c x.
Proof.
  intros a b c x (u1 & p1 & E1 & Q1) (u2 & p2 & mid & post & E2 & Q2 & N & D).
  exists (u1 ++ u2), (p1 ++ p2), mid, post. rewrite E1, E2, app_assoc. split; [reflexivity|].
  rewrite arrived_app, app_assoc, Q1, <- app_assoc, Q2, app_assoc. auto.
Qed.
Lemma decoded_after : forall a b c x, decoded a b x -> since b c -> decoded a c x.
Proof.
  intros a b c x (u1 & p1 & mid & post & E1 & Q1 & N & D) (u2 & p2 & E2 & Q2).
  exists (u1 ++ u2), p1, mid, (post ++ arrived u2). rewrite E1, E2, app_assoc. split; [reflexivity|].
  rewrite arrived_app, app_assoc, Q1, <- !app_assoc. auto.
Qed.

(** The first datagram waiting, if any, is too short to be a state. *)
Definition stuck (s : st) : Prop :=
  match u_queue (n_udp s) with [] => True | d :: _ => (List.length (d_data d) < state_size)%nat end.

Lemma poll_chunk : forall s o s', good s -> udp_poll s = (Ok o, s') ->
  good s' /\ r_message_id s' = r_message_id s /\ since s s' /\
  match o with Some x => decoded s s' x | None => stuck s' end.
Proof.
  intros s o s' G E. unfold udp_poll in E.
  destruct (udp_receive state_size state_decode (n_udp s) (n_usched s)) as [[r u] sc] eqn:Er.
  destruct (UdpProofs.receive_spec _ _ _ _ _ _ _ G Er) as (used & Es & R & Nu).
  destruct r as [x| |]; [| |discriminate E]; injection E as <- <-; split; try exact Nu; split; try reflexivity.
  - destruct R as (d & ds & All & _ & Q & _ & D). split.
    + exists used, (u_queue (n_udp s) ++ arrived used). cbn. rewrite Q, app_nil_r. auto.
    + exists used, [], (u_queue (n_udp s) ++ arrived used), []. cbn. rewrite app_nil_r.
      split; [auto|]. split; [reflexivity|]. split; [rewrite All; discriminate|exact D].
  - destruct R as (Q & _ & H). split.
    + exists used, []. cbn. auto.
    + unfold stuck. cbn. rewrite Q. exact H.
Qed.

Lemma poll_states_chunk : forall fuel s latest o s', good s -> poll_states fuel latest s = (Ok o, s') ->
  good s' /\ since s s' /\
  match o with
  | Some x => latest = Some x \/ decoded s s' x
  | None => True
  end.
Proof.
  induction fuel as [|fuel IH]; intros s latest o s' G E; [discriminate E|].
  cbn [poll_states] in E. unfold bind at 1 in E.
  destruct (udp_poll s) as [[r|e|p| |] s1] eqn:Ep; try discriminate E.
  destruct (poll_chunk _ _ _ G Ep) as (G1 & _ & S1 & D1). destruct r as [x|].
  - unfold bind, get in E.
    destruct (IH _ _ _ _ G1 E) as (G2 & S2 & D2). split; [exact G2|]. split; [exact (since_trans _ _ _ S1 S2)|].
    destruct o as [y|]; [|exact Logic.I]. destruct D2 as [D2|D2].
    + destruct (_ <? _) in D2.
      * injection D2 as <-. right. exact (decoded_after _ _ _ _ D1 S2).
      * left. exact D2.
    + right. exact (decoded_before _ _ _ _ S1 D2).
  - injection E as <- <-. split; [exact G1|]. split; [exact S1|].
    destruct latest; [left; reflexivity|exact Logic.I].
Qed.

Lemma block_chunk : forall s x s', good s -> udp_block s = (Ok x, s') -> good s' /\ since s s' /\ decoded s s' x.
Proof.
  intros s x s' G E. unfold udp_block in E.
  destruct (udp_blocking_receive state_size state_decode (n_udp s) (n_usched s)) as [[r u] sc] eqn:Eb.
  assert (Nu := block_noticed _ _ _ _ _ _ _ G Eb).
  destruct (block_spec _ _ _ _ _ _ _ G Eb) as (used & Es & Q & R).
  destruct r as [y| | |n|]; try discriminate E. injection E as <- <-. split; [exact Nu|].
  destruct R as (d & ds & All & _ & _ & D). split.
  - exists used, (u_queue (n_udp s) ++ arrived used). cbn. rewrite Q, app_nil_r. auto.
  - exists used, [], (u_queue (n_udp s) ++ arrived used), []. cbn. rewrite app_nil_r.
    split; [auto|]. split; [reflexivity|]. split; [rewrite All; discriminate|exact D].
Qed.
Lemma await_chunk : forall fuel s x s', good s -> await_state fuel s = (Ok x, s') -> decoded s s' x.
Proof.
  induction fuel as [|fuel IH]; intros s x s' G E; [discriminate E|]. cbn [await_state] in E. unfold bind at 1 in E.
  destruct (udp_block s) as [[y|e|p| |] s1] eqn:Eb; try discriminate E.
  destruct (block_chunk _ _ _ G Eb) as (G1 & S1 & D1). unfold bind, get in E. destruct (_ <? _).
  - injection E as <- <-. exact D1.
  - exact (decoded_before _ _ _ _ S1 (IH _ _ _ G1 E)).
Qed.

Lemma receive_chunk : forall s x s', good s -> receive_robot_state s = (Ok x, s') -> decoded s s' x.
Proof.
  intros s x s' G E. unfold receive_robot_state in E. unfold bind at 1, get at 1 in E. unfold bind at 1 in E.
  destruct (poll_states (bound s) None s) as [[o|e|p| |] s1] eqn:Ep; try discriminate E.
  destruct (poll_states_chunk _ _ _ _ _ G Ep) as (G1 & S1 & D1).
  unfold bind at 1, get at 1 in E. unfold bind at 1 in E. destruct o as [y|].
  - cbn in E. injection E as <- <-. destruct D1 as [D1|D1]; [discriminate D1|exact D1].
  - destruct (await_state (bound s1) s1) as [[y|e|p| |] s2] eqn:Ea; try discriminate E.
    cbn in E. injection E as <- <-. exact (decoded_before _ _ _ _ S1 (await_chunk _ _ _ _ G1 Ea)).
Qed.

(** A short datagram in front makes the receive fail. *)
Lemma stuck_fails : forall s x s', good s -> stuck s -> receive_robot_state s = (Ok x, s') -> u_queue (n_udp s) = [].
Proof.
  intros s x s' G H E. destruct (u_queue (n_udp s)) as [|d q] eqn:Q; [reflexivity|exfalso].
  unfold stuck in H. rewrite Q in H.
  unfold receive_robot_state in E. unfold bind at 1, get at 1 in E. unfold bind at 1 in E. unfold bound at 1 in E.
  assert (P : exists s1, poll_states (S (pending (n_udp s) (n_usched s))) None s = (Ok None, s1) /\ good s1 /\
                exists q1, u_queue (n_udp s1) = d :: q1).
  { cbn [poll_states]. unfold bind at 1. unfold udp_poll.
    destruct (udp_receive state_size state_decode (n_udp s) (n_usched s)) as [[r u] sc] eqn:Er.
    destruct (UdpProofs.receive_spec _ _ _ _ _ _ _ G Er) as (used & Es & R & Nu). unfold receive_result in R. rewrite Q in R.
    destruct r as [y| |].
    - destruct R as (d1 & ds & All & L & _). cbn in All. injection All as <- _. exfalso. lia.
    - destruct R as (Qu & _). eexists. split; [reflexivity|]. split; [exact Nu|]. exists (q ++ arrived used). exact Qu.
    - destruct R as (d1 & ds & All & L & _). cbn in All. injection All as <- _. exfalso. lia. }
  destruct P as (s1 & P & G1 & q1 & Q1). rewrite P in E. unfold bind at 1, get at 1 in E. unfold bind at 1 in E.
  unfold bound in E. cbn [await_state] in E. unfold bind at 1 in E. unfold udp_block in E.
  destruct (udp_blocking_receive state_size state_decode (n_udp s1) (n_usched s1)) as [[r u] sc] eqn:Eb.
  destruct (block_spec _ _ _ _ _ _ _ G1 Eb) as (used & Es & _ & R). rewrite Q1 in R.
  destruct r as [y| | |n|]; try discriminate E.
  destruct R as (d1 & ds & All & L & _). cbn in All. injection All as <- _. lia.
Qed.

Lemma flush_chunk : forall fuel s u s', good s -> flush_states fuel s = (Ok u, s') -> good s' /\ since s s' /\ stuck s'.
Proof.
  induction fuel as [|fuel IH]; intros s u s' G E; [discriminate E|]. cbn [flush_states] in E. unfold bind at 1 in E.
  destruct (udp_poll s) as [[r|e|p| |] s1] eqn:Ep; try discriminate E.
  destruct (poll_chunk _ _ _ G Ep) as (G1 & _ & S1 & D1). destruct r as [x|].
  - destruct (IH _ _ _ G1 E) as (G2 & S2 & St). split; [exact G2|]. split; [exact (since_trans _ _ _ S1 S2)|exact St].
  - injection E as <- <-. auto.
Qed.

Lemma decode_meaning : state_size = 2373%nat /\ state_decode = deserialize c_robot_state_intern.
Proof. split; reflexivity. Qed.

(** Whatever was queued before the call: the bytes that were decoded to the state returned are those of
    datagrams which arrived during the call. *)
Theorem C48_read_once_fresh : forall s x s', reachable s -> read_once s = (Ok x, s') ->
  exists used pre fresh post, n_usched s = used ++ n_usched s' /\ arrived used = pre ++ fresh ++ post /\ fresh <> [] /\
    deserialize c_robot_state_intern (mixture 2373 fresh) = Some x.
Proof.
  intros s x s' R E. destruct (reachable_I s R) as (G & _). unfold read_once in E. unfold bind at 1, get at 1 in E. unfold bind at 1 in E.
  destruct (flush_states (bound s) s) as [[u|e|p| |] s1] eqn:Ef; try discriminate E.
  destruct (flush_chunk _ _ _ _ G Ef) as (G1 & S1 & St). unfold bind at 1 in E.
  destruct (receive_robot_state s1) as [[y|e|p| |] s2] eqn:Er; try discriminate E.
  assert (Q := stuck_fails _ _ _ G1 St Er). destruct (receive_chunk _ _ _ G1 Er) as (us2 & pre & mid & post & E2 & Q2 & N & D).
  rewrite Q in Q2. cbn [app] in Q2. destruct S1 as (us1 & p1 & E1 & _).
  assert (n_usched s2 = n_usched s' /\ y = x) as [Eu ->] by (cbn in E; injection E as <- <-; split; reflexivity).
  exists (us1 ++ us2), (arrived us1 ++ pre), mid, post. rewrite <- Eu, E1, E2, app_assoc. split; [reflexivity|].
  rewrite arrived_app, Q2, !app_assoc. split; [reflexivity|]. split; [exact N|].
  destruct decode_meaning as [E3 E4]. rewrite E3, E4 in D. exact D.
Qed.
Print Assumptions C48_read_once_fresh.

(** With datagrams of at least the size of a state: one datagram which arrived during the call. *)
Theorem C48_read_once_one_state : forall s x s', reachable s -> read_once s = (Ok x, s') -> full 2373 (arrived (n_usched s)) ->
  exists used d, n_usched s = used ++ n_usched s' /\ In d (arrived used) /\
    deserialize c_robot_state_intern (firstn 2373 (d_data d)) = Some x.
Proof.
  intros s x s' R E F. destruct (C48_read_once_fresh s x s' R E) as (used & pre & fresh & post & Eu & A & N & D).
  destruct (exists_last N) as (l & d & ->). exists used, d. split; [exact Eu|].
  assert (Hd : In d (arrived used)).
  { rewrite A. apply in_or_app. right. apply in_or_app. left. apply in_or_app. right. left. reflexivity. }
  split; [exact Hd|]. rewrite mixture_last in D; [exact D|].
  rewrite Eu, arrived_app in F. apply Forall_app in F. destruct F as [F _]. rewrite Forall_forall in F. exact (F d Hd).
Qed.
Print Assumptions C48_read_once_one_state.

(** The state 3 was queued before the call, 7 arrives during it. *)
Definition ex_queued : st :=
  let s := after_new (st_init 10 RtIgnore (ex_first (ex_idle 1)) [ex_connected 0] [] true true) in
  set_udp s (Udp [ex_dg (ex_idle 3)] true 0) [Tick [] false; Tick [] false; Tick [] false; Tick [] false; Tick [] false;
                                              Tick [ex_dg (ex_idle 7)] false].
Example C48_ex_fresh : match read_once ex_queued with (Ok x, _) => rs_message_id x = 7 | _ => False end.
Proof. vm_compute. reflexivity. Qed.
