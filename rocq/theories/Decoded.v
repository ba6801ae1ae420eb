(** Every robot state received has the shape of the protocol. *)
From Coq Require Import List NArith ZArith Bool Arith Lia String.
From Coq Require Import Init.Byte.
From Verif Require Import Bytes Codec WireModel WireSpec WireProofs WireProofs2 WireProofs3 TcpModel UdpModel
  ErrorsModel LoggerModel RobotModel.
Import ListNotations.
Open Scope list_scope.
Open Scope N_scope.

Lemma decoded_state : forall b x, state_decode b = Some x -> state_ok x.
Proof.
  intros b x D. unfold state_decode, deserialize in D.
  destruct (dec c_robot_state_intern b) as [[y r]|] eqn:E; [|discriminate]. injection D as ->.
  destruct (law_inv _ _ lawful_robot_state _ _ _ E) as [W _]. apply state_ok_wf in W. exact W.
Qed.
Lemma block_state : forall s x s', udp_block s = (Ok x, s') -> state_ok x.
Proof.
  intros s x s'. unfold udp_block, udp_blocking_receive.
  destruct (next_tick (n_usched s)) as [t sc]. destruct (_ || _); [|discriminate].
  destruct (next_tick sc) as [t2 sc2]. destruct (_ ++ _) as [|d q].
  - destruct (drain _ _ _ _) as [[? ?] ?]. discriminate.
  - destruct (drain _ _ _ _) as [[buf fl] sc3]. destruct (Nat.eqb _ _); [|discriminate].
    destruct (state_decode buf) as [y|] eqn:E; [|discriminate]. intros [= <- _]. apply (decoded_state _ _ E).
Qed.
Lemma poll_state : forall s x s', udp_poll s = (Ok (Some x), s') -> state_ok x.
Proof.
  intros s x s'. unfold udp_poll, udp_receive. destruct (next_tick (n_usched s)) as [t sc].
  destruct (u_queue _); [discriminate|]. destruct (_ <=? _)%nat; [|discriminate].
  set (s0 := set_udp s (arrive (n_udp s) (t_arrivals t)) sc).
  pose proof (block_state s0) as B. unfold udp_block in B. cbn [s0 n_udp n_usched set_udp] in B. subst s0.
  destruct (udp_blocking_receive _ _ _ _) as [[[y| | |n|] u] sc']; try discriminate. intros [= -> _]. eapply B. reflexivity.
Qed.
Lemma polled_state : forall fuel l s x s', (forall y, l = Some y -> state_ok y) ->
  poll_states fuel l s = (Ok (Some x), s') -> state_ok x.
Proof.
  induction fuel as [|fuel IH]; intros l s x s' H; [discriminate|]. cbn [poll_states]. unfold bind at 1.
  destruct (udp_poll s) as [[[y|]|e|p| |] s1] eqn:E; try discriminate.
  - unfold bind, get. apply IH. destruct (_ <? _); [|exact H]. intros z [= <-]. eapply poll_state, E.
  - intros [= -> _]. auto.
Qed.
Lemma awaited_state : forall fuel s x s', await_state fuel s = (Ok x, s') -> state_ok x.
Proof.
  induction fuel as [|fuel IH]; intros s x s'; [discriminate|]. cbn [await_state]. unfold bind at 1.
  destruct (udp_block s) as [[y|e|p| |] s1] eqn:E; try discriminate. unfold bind, get.
  destruct (_ <? _); [|apply IH]. intros [= <- _]. eapply block_state, E.
Qed.
Lemma received_state : forall s x s', receive_robot_state s = (Ok x, s') -> state_ok x.
Proof.
  intros s x s'. unfold receive_robot_state. unfold bind at 1, get at 1. unfold bind at 1.
  pose proof (polled_state (bound s) None s) as W.
  destruct (poll_states (bound s) None s) as [[[y|]|e|p| |] s1]; try discriminate; cbn -[await_state bound].
  - intros [= <- _]. eapply W; [discriminate|reflexivity].
  - pose proof (awaited_state (bound s1) s1) as V. unfold bind at 1.
    destruct (await_state (bound s1) s1) as [[y|e|p| |] s2]; try discriminate.
    intros [= <- _]. eapply V. reflexivity.
Qed.
Lemma updated_state : forall m c s x s', update m c s = (Ok x, s') -> state_ok x.
Proof.
  intros m c s x s'. unfold update. unfold bind at 1.
  destruct (send_robot_command m c s) as [[sent|e|p| |] s1]; try discriminate.
  unfold bind at 1. destruct (receive_robot_state s1) as [[y|e|p| |] s2] eqn:E; try discriminate.
  apply received_state in E. destruct sent as [cmd|].
  - unfold bind, get. destruct (logger_log _ _ _); cbn; [|discriminate]. intros [= <- _]. exact E.
  - intros [= <- _]. exact E.
Qed.
