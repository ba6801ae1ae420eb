(** Proofs about the calls of RobotModel.v: receiving, sending. *)
From Coq Require Import List NArith ZArith Bool Arith Lia String.
From Coq Require Import Init.Byte.
From Verif Require Import Bytes Codec WireModel TcpModel UdpModel UdpSpec UdpProofs ErrorsModel LoggerModel
  RobotModel LoopModel.
Import ListNotations.
Open Scope list_scope.
Open Scope N_scope.
#[global] Opaque state_size state_decode.

Definition upend (s : st) : nat := pending (n_udp s) (n_usched s).
Definition good (s : st) : Prop := noticed (n_udp s).

(** [moved s u sc]: the UDP side went on to [u], [sc]. *)
Definition moved (s : st) (u : udp) (sc : sched) : Prop :=
  noticed u /\ exists used, n_usched s = used ++ sc /\
  (pending u sc <= upend s)%nat.

Lemma pending_app : forall q us sc,
  (List.length q + List.length (flat_map t_arrivals (us ++ sc)) =
   List.length (q ++ arrived us) + List.length (flat_map t_arrivals sc))%nat.
Proof. intros. rewrite flat_map_app, !app_length. unfold arrived. lia. Qed.

Lemma udp_block_spec : forall s, good s -> exists u sc, moved s u sc /\
  match udp_block s with
  | (Ok x, s') => s' = set_udp s u sc /\ (pending u sc < upend s)%nat
  | (Err e, s') => s' = set_udp s u sc /\ exists n, e = NetworkException n
  | (Panic p, s') => s' = set_udp s u sc /\ p = PDecodeUdp
  | _ => False
  end.
Proof.
  intros s Hg. unfold udp_block.
  destruct (udp_blocking_receive state_size state_decode (n_udp s) (n_usched s)) as [[r u] sc] eqn:E.
  assert (Nu := block_noticed _ _ _ _ _ _ _ Hg E).
  destruct (block_spec _ _ _ _ _ _ _ Hg E) as (used & Es & Q & R).
  exists u, sc.
  assert (P : upend s = (List.length (u_queue (n_udp s) ++ arrived used) +
                        List.length (flat_map t_arrivals sc))%nat).
  { unfold upend, pending. rewrite Es. apply pending_app. }
  assert (Mv : moved s u sc).
  { split; [exact Nu|]. exists used. split; [exact Es|]. rewrite P. unfold pending. rewrite Q. cbn. lia. }
  split; [exact Mv|].
  destruct r as [x| | |n|]; (split; [reflexivity|]); eauto.
  destruct R as (d & ds & All & _). rewrite P, All. unfold pending. rewrite Q. cbn. lia.
Qed.

Lemma udp_poll_spec : forall s, good s -> exists u sc, moved s u sc /\
  match udp_poll s with
  | (Ok (Some x), s') => s' = set_udp s u sc /\ (pending u sc < upend s)%nat
  | (Ok None, s') => s' = set_udp s u sc
  | (Panic p, s') => s' = set_udp s u sc /\ p = PDecodeUdp
  | _ => False
  end.
Proof.
  intros s Hg. unfold udp_poll.
  destruct (udp_receive state_size state_decode (n_udp s) (n_usched s)) as [[r u] sc] eqn:E.
  destruct (receive_spec _ _ _ _ _ _ _ Hg E) as (used & Es & R & Nu).
  exists u, sc.
  assert (P : upend s = (List.length (u_queue (n_udp s) ++ arrived used) +
                        List.length (flat_map t_arrivals sc))%nat).
  { unfold upend, pending. rewrite Es. apply pending_app. }
  unfold moved. destruct r as [x| |].
  - destruct R as (d & ds & All & _ & Q & _).
    assert (L : (pending u sc < upend s)%nat)
      by (rewrite P, All; unfold pending; rewrite Q; cbn; lia).
    split; [split; [exact Nu|exists used; split; [exact Es|lia]]|auto].
  - destruct R as (Q & _).
    split; [split; [exact Nu|exists used; split; [exact Es|rewrite P; unfold pending; rewrite Q; lia]]|auto].
  - destruct R as (d & ds & All & _ & Q & _).
    assert (L : (pending u sc < upend s)%nat)
      by (rewrite P, All; unfold pending; rewrite Q; cbn; lia).
    split; [split; [exact Nu|exists used; split; [exact Es|lia]]|auto].
Qed.

Lemma moved_trans : forall s u sc u' sc', moved s u sc -> moved (set_udp s u sc) u' sc' -> moved s u' sc'.
Proof.
  intros s u sc u' sc' (N1 & us1 & E1 & L1) (N2 & us2 & E2 & L2). cbn in E2, L2.
  split; [exact N2|]. exists (us1 ++ us2). rewrite E1, E2, app_assoc. split; [reflexivity|].
  unfold upend in L2. cbn in L2. lia.
Qed.
Lemma moved_refl : forall s, good s -> moved s (n_udp s) (n_usched s).
Proof. intros s H. split; [exact H|]. exists []. split; [reflexivity|]. unfold upend. lia. Qed.
Lemma set_udp_self : forall s, set_udp s (n_udp s) (n_usched s) = s.
Proof. intros []. reflexivity. Qed.

Definition newest (l : option robot_state_intern) (s : st) : N :=
  match l with Some x => rs_message_id x | None => r_message_id s end.

Lemma poll_states_spec : forall fuel s latest, good s -> (upend s < fuel)%nat ->
  exists u sc, moved s u sc /\
  match poll_states fuel latest s with
  | (Ok l, s') => s' = set_udp s u sc /\
      match l with
      | None => latest = None
      | Some x => newest latest s <= rs_message_id x /\
                  (latest = None -> r_message_id s < rs_message_id x /\ (pending u sc < upend s)%nat)
      end
  | (Panic p, s') => s' = set_udp s u sc /\ p = PDecodeUdp
  | _ => False
  end.
Proof.
  induction fuel as [|fuel IH]; intros s latest Hg Hf; [lia|].
  cbn [poll_states]. unfold bind at 1.
  destruct (udp_poll_spec s Hg) as (u & sc & Mv & H).
  destruct (udp_poll s) as [[[x|]|e|p| |] s1]; try contradiction.
  - destruct H as [-> Lt]. cbn [bind get].
    set (l1 := if _ <? _ then Some x else latest).
    assert (G1 : good (set_udp s u sc)) by exact (proj1 Mv).
    assert (F1 : (upend (set_udp s u sc) < fuel)%nat) by (unfold upend; cbn; lia).
    destruct (IH (set_udp s u sc) l1 G1 F1) as (u2 & sc2 & Mv2 & H2).
    exists u2, sc2. split; [exact (moved_trans _ _ _ _ _ Mv Mv2)|].
    unfold bind, get.
    change (match latest with Some l => rs_message_id l | None => r_message_id (set_udp s u sc) end)
      with (newest latest (set_udp s u sc)) in *.
    fold l1. unfold newest in H2. cbn [r_message_id set_udp] in H2.
    assert (Ltot : (pending u2 sc2 < upend s)%nat).
    { destruct Mv2 as (_ & us & _ & L2). unfold upend in *. cbn in *. lia. }
    destruct (poll_states fuel l1 (set_udp s u sc)) as [[l|e|p| |] s2]; try contradiction.
    + destruct H2 as [-> H2]. split; [reflexivity|].
      unfold l1 in H2. destruct (newest latest (set_udp s u sc) <? rs_message_id x) eqn:Ei.
      * apply N.ltb_lt in Ei. destruct l as [y|]; [|discriminate].
        destruct H2 as [H2 _]. cbn in H2. unfold newest in *. cbn [r_message_id set_udp] in Ei.
        split; [lia|]. intros ->. split; [lia|exact Ltot].
      * destruct l as [y|]; [|exact H2]. destruct H2 as [H2 H3]. split; [exact H2|].
        intros ->. specialize (H3 eq_refl). split; [apply H3|exact Ltot].
    + destruct H2 as [-> H2]. auto.
  - subst s1. exists u, sc. split; [exact Mv|]. cbn. split; [reflexivity|].
    destruct latest as [y|]; [|reflexivity]. split; [cbn; lia|discriminate].
  - destruct H as [-> ->]. exists u, sc. split; [exact Mv|]. cbn. auto.
Qed.

Lemma await_state_spec : forall fuel s, good s -> (upend s < fuel)%nat ->
  exists u sc, moved s u sc /\
  match await_state fuel s with
  | (Ok x, s') => s' = set_udp s u sc /\ r_message_id s < rs_message_id x /\ (pending u sc < upend s)%nat
  | (Err e, s') => s' = set_udp s u sc /\ exists n, e = NetworkException n
  | (Panic p, s') => s' = set_udp s u sc /\ p = PDecodeUdp
  | _ => False
  end.
Proof.
  induction fuel as [|fuel IH]; intros s Hg Hf; [lia|].
  cbn [await_state]. unfold bind at 1.
  destruct (udp_block_spec s Hg) as (u & sc & Mv & H).
  destruct (udp_block s) as [[x|e|p| |] s1]; try contradiction.
  - destruct H as [-> Lt]. unfold bind, get. cbn [r_message_id set_udp].
    destruct (r_message_id s <? rs_message_id x) eqn:Ei.
    + apply N.ltb_lt in Ei. exists u, sc. split; [exact Mv|]. cbn. auto.
    + assert (G1 : good (set_udp s u sc)) by exact (proj1 Mv).
      assert (F1 : (upend (set_udp s u sc) < fuel)%nat) by (unfold upend; cbn; lia).
      destruct (IH (set_udp s u sc) G1 F1) as (u2 & sc2 & Mv2 & H2).
      exists u2, sc2. split; [exact (moved_trans _ _ _ _ _ Mv Mv2)|].
      destruct (await_state fuel (set_udp s u sc)) as [[y|e|p| |] s2]; try contradiction; auto.
      destruct H2 as (-> & H2 & H3). split; [reflexivity|]. split; [exact H2|].
      unfold upend in *. cbn in *. lia.
  - exists u, sc. auto.
  - exists u, sc. auto.
Qed.

(** The state after accepting [x]. *)
Definition accept (s : st) (u : udp) (sc : sched) (x : robot_state_intern) : st :=
  add_event (set_modes (set_udp s u sc) (Some (rs_motion_generator_mode x)) (rs_controller_mode x)
                       (rs_message_id x)) (EvState x).

Lemma receive_spec : forall s, good s -> exists u sc, moved s u sc /\
  match receive_robot_state s with
  | (Ok x, s') => s' = accept s u sc x /\ r_message_id s < rs_message_id x /\ (pending u sc < upend s)%nat
  | (Err e, s') => s' = set_udp s u sc /\ exists n, e = NetworkException n
  | (Panic p, s') => s' = set_udp s u sc /\ p = PDecodeUdp
  | _ => False
  end.
Proof.
  intros s Hg. unfold receive_robot_state. unfold bind at 1, get at 1.
  unfold bind at 1.
  destruct (poll_states_spec (bound s) s None Hg) as (u & sc & Mv & H).
  { unfold bound, upend. lia. }
  destruct (poll_states (bound s) None s) as [[l|e|p| |] s1]; try contradiction.
  - destruct H as [-> H]. unfold bind at 1, get at 1. destruct l as [x|].
    + destruct H as [_ H]. destruct (H eq_refl) as [H1 H2]. exists u, sc. split; [exact Mv|]. cbn. auto.
    + assert (G1 : good (set_udp s u sc)) by exact (proj1 Mv).
      assert (F1 : (upend (set_udp s u sc) < bound (set_udp s u sc))%nat) by (unfold upend, bound; lia).
      destruct (await_state_spec _ _ G1 F1) as (u2 & sc2 & Mv2 & H2).
      exists u2, sc2. split; [exact (moved_trans _ _ _ _ _ Mv Mv2)|]. unfold bind at 1.
      destruct (await_state (bound (set_udp s u sc)) (set_udp s u sc)) as [[y|e|p| |] s2];
        try contradiction.
      * destruct H2 as (-> & H2 & H3). cbn. split; [reflexivity|]. split; [exact H2|].
        destruct Mv as (_ & us & _ & L). unfold upend in *. cbn in *. lia.
      * destruct H2 as (-> & H2). auto.
      * destruct H2 as (-> & H2). auto.
  - destruct H as (-> & H). exists u, sc. auto.
Qed.
