(** Datagrams which come in time: arrivals during one receive, and what the receive makes of them. *)
From Coq Require Import List NArith Bool Arith Lia.
From Coq Require Import Init.Byte.
From Verif Require Import UdpModel UdpSpec.
Import ListNotations.

(** [emptied q ts ds]: reads one after the other, with arrivals [ts], take the datagrams [ds] from a
    socket with queue [q] until there are none. *)
Inductive emptied : list dgram -> sched -> list dgram -> Prop :=
| emptied_end : forall sp, emptied [] [Tick [] sp] []
| emptied_next : forall q a sp d q' ts ds, q ++ a = d :: q' -> emptied q' ts ds -> emptied q (Tick a sp :: ts) (d :: ds).

Section Arrivals.
  Context {T : Type} (size : nat) (decode : list byte -> option T).
  (** Datagrams of the right size; the last of them holds [x]. *)
  Definition ends_with (ds : list dgram) (x : T) : Prop :=
    exact size ds /\ exists before d, ds = before ++ [d] /\ decode (d_data d) = Some x.
  (** Datagrams arrive while a blocking receive waits; others may follow while it reads them. *)
  Definition burst (x : T) (ts : sched) : Prop :=
    exists a sp ts' ds, a <> [] /\ ts = Tick a sp :: ts' /\ emptied a ts' ds /\ ends_with ds x.
  (** Several blocking receives. *)
  Inductive bursts : list T -> sched -> Prop :=
  | bursts_none : bursts [] []
  | bursts_one : forall x ts xs ts', burst x ts -> bursts xs ts' -> bursts (x :: xs) (ts ++ ts').
  (** Receives which do not wait, until nothing is there; [xs] are the objects received. *)
  Inductive polled : list T -> sched -> Prop :=
  | polled_end : forall sp, polled [] [Tick [] sp]
  | polled_next : forall a sp b sp' ts ds x xs ts', a <> [] -> emptied (a ++ b) ts ds -> ends_with ds x ->
      polled xs ts' -> polled (x :: xs) (Tick a sp :: Tick b sp' :: ts ++ ts').
End Arrivals.

Lemma overlay_exact : forall n buf d, List.length buf = n -> List.length d = n -> overlay buf d = d.
Proof.
  intros n buf d B D. unfold overlay. rewrite B, <- D, firstn_all. rewrite D, <- B, skipn_all. apply app_nil_r.
Qed.
Lemma drain_emptied : forall n q ts ds, emptied q ts ds -> exact n ds -> forall rest fl buf, List.length buf = n ->
  exists fl', drain (ts ++ rest) q fl buf = (last (map d_data ds) buf, fl', rest).
Proof.
  intros n q ts ds H. induction H as [sp|q a sp d q' ts ds E H IH]; intros X rest fl buf B.
  - eexists. reflexivity.
  - inversion_clear X as [|? ? D X']. cbn [app drain t_arrivals]. rewrite E.
    rewrite (overlay_exact n) by assumption.
    destruct (IH X' rest (fl || negb (is_nil a)) (d_data d) D) as [fl' E']. exists fl'. rewrite E'. f_equal. f_equal.
    cbn [map]. clear. destruct (map d_data ds) as [|z zs]; [reflexivity|].
    change (last (z :: zs) (d_data d) = last (z :: zs) buf). revert z. induction zs as [|z' zs IH]; intros z; [reflexivity|]. exact (IH z').
Qed.
Lemma last_ends : forall T size decode ds (x : T) buf, ends_with size decode ds x -> decode (last (map d_data ds) buf) = Some x.
Proof.
  intros T size decode ds x buf (_ & before & d & -> & D). rewrite map_app. cbn [map]. rewrite last_last. exact D.
Qed.
Lemma emptied_some : forall q ts ds, emptied q ts ds -> q <> [] -> (1 <= List.length ds)%nat.
Proof. intros q ts ds H N. destruct H; [contradiction|cbn; lia]. Qed.

Section Lemmas.
  Context {T : Type} (size : nat) (decode : list byte -> option T).
  Lemma block_any : forall u a sp ts ds x rest, u_queue u ++ a <> [] -> (u_flag u = true \/ a <> []) ->
    emptied (u_queue u ++ a) ts ds -> ends_with size decode ds x ->
    exists u', udp_blocking_receive size decode u (Tick a sp :: ts ++ rest) = (UOk x, u', rest) /\ u_queue u' = [].
  Proof.
    intros u a sp ts ds x rest N F E X. unfold udp_blocking_receive. cbn [next_tick t_arrivals]. unfold arrive.
    cbn [u_queue u_flag u_server t_spurious].
    assert (Fl : u_flag u || negb (is_nil a) = true).
    { destruct F as [->|F]; [reflexivity|]. destruct a; [contradiction|]. apply orb_true_r. }
    rewrite Fl. assert (Nn : is_nil (u_queue u ++ a) = false) by (destruct (u_queue u ++ a); [contradiction|reflexivity]).
    rewrite Nn. cbn [negb andb orb].
    inversion E as [sp0 Q|q a' sp' d q' ts' ds' Eq E' ]; subst; [rewrite <- Q in N; contradiction|].
    cbn [app next_tick t_arrivals]. rewrite Eq. pose proof X as [Xs _]. inversion_clear Xs as [|? ? D Xs'].
    assert (Z : List.length (zeros size) = size) by apply repeat_length.
    rewrite (overlay_exact size) by assumption.
    destruct (drain_emptied size _ _ _ E' Xs' rest (negb (is_nil a')) (d_data d) D) as [fl' ->].
    rewrite D, Nat.min_id, Nat.eqb_refl.
    assert (L : last (map d_data ds') (d_data d) = last (map d_data (d :: ds')) (zeros size)).
    { cbn [map]. clear. destruct (map d_data ds') as [|z zs]; [reflexivity|].
      change (last (z :: zs) (d_data d) = last (z :: zs) (zeros size)). revert z. induction zs as [|z' zs IH]; intros z; [reflexivity|]. exact (IH z'). }
    rewrite L, (last_ends T size decode _ x _ X). eexists. split; [reflexivity|]. reflexivity.
  Qed.
  Lemma block_burst : forall u x ts rest, u_queue u = [] -> burst size decode x ts ->
    exists u', udp_blocking_receive size decode u (ts ++ rest) = (UOk x, u', rest) /\ u_queue u' = [].
  Proof.
    intros u x ts rest Q (a & sp & ts' & ds & N & -> & E & X). cbn [app].
    apply (block_any u a sp ts' ds x rest); rewrite ?Q; cbn [app]; auto.
  Qed.
  Lemma poll_end : forall u sp rest, u_queue u = [] ->
    exists u', udp_receive size decode u (Tick [] sp :: rest) = (RNone, u', rest) /\ u_queue u' = [].
  Proof.
    intros u sp rest Q. unfold udp_receive, arrive. cbn [next_tick t_arrivals u_queue]. rewrite Q. cbn [app].
    eexists. split; reflexivity.
  Qed.
  Lemma poll_next : forall u a sp b sp' ts ds x rest, u_queue u = [] -> a <> [] -> emptied (a ++ b) ts ds ->
    ends_with size decode ds x ->
    exists u', udp_receive size decode u (Tick a sp :: Tick b sp' :: ts ++ rest) = (RSome x, u', rest) /\ u_queue u' = [].
  Proof.
    intros u a sp b sp' ts ds x rest Q N E X. unfold udp_receive. cbn [next_tick t_arrivals].
    destruct (block_any (arrive u a) b sp' ts ds x rest) as (u' & B & Q').
    - unfold arrive. cbn [u_queue]. rewrite Q. cbn [app]. destruct a; [contradiction|discriminate].
    - left. unfold arrive. cbn [u_flag]. destruct a; [contradiction|]. apply orb_true_r.
    - unfold arrive. cbn [u_queue]. rewrite Q. exact E.
    - exact X.
    - destruct a as [|d a]; [contradiction|].
      assert (D : List.length (d_data d) = size).
      { destruct X as [X _]. inversion E as [|q a' sp0 d0 q' ts' ds' Eq E']; subst. cbn [app] in Eq. injection Eq as <- _.
        inversion_clear X. assumption. }
      unfold arrive at 1. cbn [u_queue]. rewrite Q. cbn [app]. rewrite D, Nat.min_id, Nat.leb_refl, B. exists u'. split; [reflexivity|exact Q'].
  Qed.
  Lemma polled_arrivals : forall xs ts, polled size decode xs ts -> (List.length xs <= List.length (flat_map t_arrivals ts))%nat.
  Proof.
    intros xs ts H. induction H as [sp|a sp b sp' ts ds x xs ts' N E X H IH]; [apply Nat.le_0_l|].
    cbn [flat_map t_arrivals List.length]. rewrite !app_length, flat_map_app, app_length.
    destruct a; [contradiction|]. cbn [List.length]. lia.
  Qed.
  Lemma burst_arrivals : forall x ts, burst size decode x ts -> (1 <= List.length (flat_map t_arrivals ts))%nat.
  Proof.
    intros x ts (a & sp & ts' & ds & N & -> & _). cbn [flat_map t_arrivals]. rewrite app_length. destruct a; [contradiction|cbn; lia].
  Qed.
  Lemma bursts_arrivals : forall xs ts, bursts size decode xs ts -> (List.length xs <= List.length (flat_map t_arrivals ts))%nat.
  Proof.
    intros xs ts H. induction H as [|x ts xs ts' B H IH]; [apply Nat.le_0_l|].
    rewrite flat_map_app, app_length. pose proof (burst_arrivals x ts B). cbn [List.length]. lia.
  Qed.
  Lemma flush_polled : forall xs ts, polled size decode xs ts -> forall fuel u rest, u_queue u = [] -> (List.length xs < fuel)%nat ->
    exists u', flush size decode fuel u (ts ++ rest) = FDone u' rest /\ u_queue u' = [].
  Proof.
    intros xs ts H. induction H as [sp|a sp b sp' ts ds x xs ts' N E X H IH]; intros fuel u rest Q L; (destruct fuel as [|fuel]; [lia|]); cbn [flush].
    - cbn [app]. destruct (poll_end u sp rest Q) as (u' & -> & Q'). exists u'. split; [reflexivity|exact Q'].
    - cbn [app]. rewrite <- app_assoc. destruct (poll_next u a sp b sp' ts ds x (ts' ++ rest) Q N E X) as (u' & -> & Q').
      apply IH; [exact Q'|cbn in L; lia].
  Qed.
  Lemma read_burst : forall u xs x t1 t2 rest, u_queue u = [] -> polled size decode xs t1 -> burst size decode x t2 ->
    exists u', read_fresh size decode u ((t1 ++ t2) ++ rest) = Some (UOk x, u', rest) /\ u_queue u' = [].
  Proof.
    intros u xs x t1 t2 rest Q P B. unfold read_fresh, flush_all. rewrite <- app_assoc.
    destruct (flush_polled xs t1 P (S (pending u (t1 ++ t2 ++ rest))) u (t2 ++ rest) Q) as (u1 & -> & Q1).
    { unfold pending. rewrite flat_map_app, app_length. pose proof (polled_arrivals _ _ P). lia. }
    destruct (block_burst u1 x t2 rest Q1 B) as (u2 & -> & Q2). exists u2. split; [reflexivity|exact Q2].
  Qed.
End Lemmas.
