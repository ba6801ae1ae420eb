(** Proofs about the UDP receive functions. *)
From Coq Require Import List NArith Bool Arith Lia.
From Coq Require Import Init.Byte.
From Verif Require Import UdpModel UdpSpec.
Import ListNotations.

Lemma length_overlay : forall b d, length (overlay b d) = length b.
Proof.
  intros. unfold overlay. rewrite app_length, firstn_length, skipn_length. lia.
Qed.

Lemma nth_overlay : forall b d i, i < length b ->
  nth i (overlay b d) x00 = match nth_error d i with Some c => c | None => nth i b x00 end.
Proof.
  intros b d i H. unfold overlay. destruct (nth_error d i) as [c|] eqn:E.
  - assert (Hi : i < length d) by (apply nth_error_Some; congruence).
    rewrite app_nth1 by (rewrite firstn_length; lia).
    assert (F : nth_error (firstn (length b) d ++ skipn (length b) d) i = Some c)
      by (rewrite firstn_skipn; exact E).
    rewrite nth_error_app1 in F by (rewrite firstn_length; lia).
    apply nth_error_nth with (d := x00) in F. exact F.
  - apply nth_error_None in E. rewrite app_nth2 by (rewrite firstn_length; lia).
    rewrite firstn_length, Nat.min_r by lia.
    assert (F : nth i (firstn (length d) b ++ skipn (length d) b) x00 = nth i b x00)
      by (rewrite firstn_skipn; reflexivity).
    rewrite app_nth2 in F by (rewrite firstn_length; lia).
    rewrite firstn_length, Nat.min_l in F by lia. exact F.
Qed.

Definition overlays (ds : list dgram) (b : list byte) : list byte :=
  fold_left (fun b d => overlay b (d_data d)) ds b.

Lemma length_overlays : forall ds b, length (overlays ds b) = length b.
Proof.
  induction ds as [|d r IH]; intros b; [reflexivity|]. cbn. rewrite IH. apply length_overlay.
Qed.

Lemma nth_overlays : forall ds b i, i < length b ->
  nth i (overlays ds b) x00 = byte_at ds i (nth i b x00).
Proof.
  induction ds as [|d r IH]; intros b i H; [reflexivity|]. cbn.
  rewrite IH by (rewrite length_overlay; exact H). rewrite nth_overlay by exact H. reflexivity.
Qed.

Lemma overlays_mixture : forall size ds, overlays ds (zeros size) = mixture size ds.
Proof.
  intros. unfold mixture. apply nth_ext with (d := x00) (d' := x00).
  - rewrite length_overlays, map_length, seq_length. unfold zeros. apply repeat_length.
  - intros i H. rewrite length_overlays in H. unfold zeros in H. rewrite repeat_length in H.
    rewrite nth_overlays by (unfold zeros; rewrite repeat_length; exact H).
    rewrite nth_indep with (l := map _ _) (d' := byte_at ds 0 x00)
      by (rewrite map_length, seq_length; exact H).
    rewrite (map_nth (fun i => byte_at ds i x00)). rewrite seq_nth by exact H. cbn.
    f_equal. unfold zeros. apply nth_repeat.
Qed.

(** A single full last datagram determines the mixture. *)
Lemma byte_at_app : forall a b i x, byte_at (a ++ b) i x = byte_at b i (byte_at a i x).
Proof. induction a as [|d r IH]; intros; [reflexivity|]. cbn. apply IH. Qed.

Lemma mixture_last : forall size ds d, size <= length (d_data d) ->
  mixture size (ds ++ [d]) = firstn size (d_data d).
Proof.
  intros size ds d H. unfold mixture.
  apply nth_ext with (d := x00) (d' := x00).
  - rewrite map_length, seq_length, firstn_length. lia.
  - intros i Hi. rewrite map_length, seq_length in Hi.
    rewrite nth_indep with (l := map _ _) (d' := byte_at (ds ++ [d]) 0 x00)
      by (rewrite map_length, seq_length; exact Hi).
    rewrite (map_nth (fun i => byte_at (ds ++ [d]) i x00)), seq_nth by exact Hi. cbn.
    rewrite byte_at_app. cbn.
    destruct (nth_error (d_data d) i) as [c|] eqn:E.
    + assert (F : nth_error (firstn size (d_data d) ++ skipn size (d_data d)) i = Some c)
        by (rewrite firstn_skipn; exact E).
      rewrite nth_error_app1 in F by (rewrite firstn_length; lia).
      apply nth_error_nth with (d := x00) in F. symmetry. exact F.
    + apply nth_error_None in E. lia.
Qed.

(** The drain loop. *)
Lemma drain_spec : forall sc q fl buf b f sc', drain sc q fl buf = (b, f, sc') ->
  exists used, sc = used ++ sc' /\ b = overlays (q ++ arrived used) buf.
Proof.
  induction sc as [|t r IH]; intros q fl buf b f sc' H; cbn in H.
  - inversion H; subst. exists []. split; [reflexivity|]. cbn. rewrite app_nil_r. reflexivity.
  - destruct (q ++ t_arrivals t) as [|d q'] eqn:E.
    + inversion H; subst. exists [t]. split; [reflexivity|]. unfold arrived. cbn.
      rewrite app_nil_r, E. reflexivity.
    + apply IH in H. destruct H as (used & -> & ->). exists (t :: used). split; [reflexivity|].
      unfold arrived. cbn [flat_map]. rewrite app_assoc, E. reflexivity.
Qed.

Lemma arrived_app : forall a b, arrived (a ++ b) = arrived a ++ arrived b.
Proof. intros. apply flat_map_app. Qed.

Lemma next_tick_spec : forall sc t sc', next_tick sc = (t, sc') ->
  exists used, sc = used ++ sc' /\ t_arrivals t = arrived used /\ length used <= 1.
Proof.
  intros [|t0 r] t sc' H; inversion H; subst.
  - exists []. repeat split; cbn; lia.
  - exists [t]. repeat split; [|cbn; lia]. unfold arrived. cbn. rewrite app_nil_r. reflexivity.
Qed.

Lemma noticed_arrive : forall u ds, noticed u -> noticed (arrive u ds).
Proof.
  intros u ds H. unfold noticed, arrive. cbn. intros Hq.
  destruct ds as [|d r].
  - rewrite app_nil_r in Hq. rewrite (H Hq). reflexivity.
  - cbn. apply orb_true_r.
Qed.

Section Receive.
  Context {T : Type} (size : nat) (decode : list byte -> option T).
  Notation block := (udp_blocking_receive size decode).
  Notation receive := (udp_receive size decode).

  (** Everything about one blocking receive. *)
  Definition block_result (u : udp) (used : sched) (r : ures T) (u' : udp) : Prop :=
    let all := u_queue u ++ arrived used in
    u_queue u' = [] /\
    match r with
    | UTimeout => all = [] /\ length used <= 1 /\ Forall (fun t => t_spurious t = false) used /\
                  u_server u' = u_server u
    | URecvError => u_queue u = [] /\ u_server u' = u_server u /\
                    exists t rest, used = t :: rest /\ t_spurious t = true /\ t_arrivals t = []
    | USizeError n => exists d ds, all = d :: ds /\ n = length (d_data d) /\ n < size /\
                      u_server u' = d_from d
    | UOk x => exists d ds, all = d :: ds /\ size <= length (d_data d) /\
                      u_server u' = d_from d /\ decode (mixture size all) = Some x
    | UPanic => exists d ds, all = d :: ds /\ size <= length (d_data d) /\
                      u_server u' = d_from d /\ decode (mixture size all) = None
    end.

  Lemma block_spec : forall u sc r u' sc', noticed u -> block u sc = (r, u', sc') ->
    exists used, sc = used ++ sc' /\ block_result u used r u'.
  Proof.
    intros u sc r u' sc' Hn H. unfold udp_blocking_receive in H.
    destruct (next_tick sc) as [t1 sc1] eqn:E1.
    assert (N1 := noticed_arrive u (t_arrivals t1) Hn).
    destruct ((u_flag (arrive u (t_arrivals t1)) && negb (is_nil (u_queue (arrive u (t_arrivals t1)))))
              || t_spurious t1) eqn:Ev.
    - destruct (next_tick sc1) as [t2 sc2] eqn:E2.
      cbn [arrive u_queue] in H.
      destruct ((u_queue u ++ t_arrivals t1) ++ t_arrivals t2) as [|d q'] eqn:Eq.
      + destruct (drain sc2 [] (negb (is_nil (t_arrivals t2))) (zeros size)) as [[b f] sc3] eqn:Ed.
        injection H as <- <- <-.
        apply drain_spec in Ed. destruct Ed as (us3 & -> & _).
        apply next_tick_spec in E2. destruct E2 as (us2 & -> & A2 & _).
        apply app_eq_nil in Eq. destruct Eq as [Eq1 Eq2].
        destruct sc as [|t0 r0]; cbn in E1; injection E1 as E1 Esc.
        * subst t1. apply app_eq_nil in Eq1. destruct Eq1 as [Eq1 _].
          cbn in Ev. unfold arrive in Ev. cbn in Ev. rewrite Eq1 in Ev. cbn in Ev.
          rewrite andb_false_r in Ev. discriminate.
        * subst t0 r0. exists (t1 :: us2 ++ us3). split; [cbn; rewrite app_assoc; reflexivity|].
          split; [reflexivity|]. apply app_eq_nil in Eq1 as Eq1'. destruct Eq1' as [Eu Et].
          split; [exact Eu|]. split; [reflexivity|].
          exists t1, (us2 ++ us3). split; [reflexivity|]. split; [|exact Et].
          cbn [arrive u_queue] in Ev. rewrite Eq1 in Ev. cbn in Ev.
          rewrite andb_false_r in Ev. exact Ev.
      + destruct (drain sc2 q' (negb (is_nil (t_arrivals t2))) (overlay (zeros size) (d_data d)))
          as [[b f] sc3] eqn:Ed.
        apply drain_spec in Ed. destruct Ed as (us3 & -> & Eb).
        apply next_tick_spec in E2. destruct E2 as (us2 & -> & A2 & _).
        apply next_tick_spec in E1. destruct E1 as (us1 & -> & A1 & _).
        rewrite A1, A2 in Eq.
        assert (All : u_queue u ++ arrived (us1 ++ us2 ++ us3) = d :: (q' ++ arrived us3)).
        { rewrite !arrived_app. rewrite !app_assoc, Eq. reflexivity. }
        assert (Mix : b = mixture size (u_queue u ++ arrived (us1 ++ us2 ++ us3))).
        { rewrite <- overlays_mixture, All. exact Eb. }
        exists (us1 ++ us2 ++ us3).
        destruct (Nat.eqb (Nat.min (length (d_data d)) size) size) eqn:Es.
        * apply Nat.eqb_eq in Es.
          destruct (decode b) as [x|] eqn:Ex; injection H as <- <- <-;
            (split; [rewrite !app_assoc; reflexivity|]); split; try reflexivity;
            exists d, (q' ++ arrived us3); rewrite <- Mix; repeat split; try assumption; lia.
        * apply Nat.eqb_neq in Es. injection H as <- <- <-.
          split; [rewrite !app_assoc; reflexivity|]. split; [reflexivity|].
          exists d, (q' ++ arrived us3). repeat split; try assumption; lia.
    - apply orb_false_iff in Ev. destruct Ev as [Ev Es]. injection H as <- <- <-.
      assert (Q : u_queue u ++ t_arrivals t1 = []).
      { cbn [arrive u_queue] in *.
        destruct (u_queue u ++ t_arrivals t1) as [|d q] eqn:Eq; [reflexivity|].
        exfalso. unfold noticed in N1. cbn [arrive u_queue] in N1.
        assert (F : u_flag (arrive u (t_arrivals t1)) = true) by (apply N1; rewrite Eq; discriminate).
        rewrite F in Ev. discriminate. }
      destruct sc as [|t0 r0]; cbn in E1; injection E1 as E1 Esc; subst.
      + exists []. split; [reflexivity|]. cbn in Q |- *. split; [exact Q|].
        split; [exact Q|]. split; [cbn; lia|]. split; [constructor|reflexivity].
      + exists [t1]. split; [reflexivity|]. cbn [arrive u_queue].
        split; [exact Q|]. unfold arrived. cbn. rewrite app_nil_r, Q.
        repeat split; try lia. constructor; [exact Es|constructor].
  Qed.

  Lemma block_noticed : forall u sc r u' sc', noticed u -> block u sc = (r, u', sc') -> noticed u'.
  Proof.
    intros u sc r u' sc' Hn H. destruct (block_spec _ _ _ _ _ Hn H) as (used & _ & Q & _).
    intros C. contradiction.
  Qed.

  (** Everything about one non-blocking receive. *)
  Definition receive_result (u : udp) (used : sched) (r : ropt T) (u' : udp) : Prop :=
    let all := u_queue u ++ arrived used in
    match r with
    | RSome x => exists d ds, all = d :: ds /\ size <= length (d_data d) /\ u_queue u' = [] /\
                   u_server u' = d_from d /\ decode (mixture size all) = Some x
    | RPanic => exists d ds, all = d :: ds /\ size <= length (d_data d) /\ u_queue u' = [] /\
                   u_server u' = d_from d /\ decode (mixture size all) = None
    | RNone => u_queue u' = all /\ u_server u' = u_server u /\
               match all with [] => True | d :: _ => length (d_data d) < size end
    end.

  Lemma receive_spec : forall u sc r u' sc', noticed u -> receive u sc = (r, u', sc') ->
    exists used, sc = used ++ sc' /\ receive_result u used r u' /\ noticed u'.
  Proof.
    intros u sc r u' sc' Hn H. unfold udp_receive in H.
    destruct (next_tick sc) as [t1 sc1] eqn:E1.
    assert (N1 := noticed_arrive u (t_arrivals t1) Hn).
    apply next_tick_spec in E1. destruct E1 as (us1 & -> & A1 & _).
    destruct (u_queue (arrive u (t_arrivals t1))) as [|d q] eqn:Eq.
    - injection H as <- <- <-. exists us1. split; [reflexivity|]. split; [|exact N1].
      cbn [arrive u_queue] in Eq. rewrite A1 in Eq. cbn. rewrite A1, Eq. auto.
    - destruct (size <=? Nat.min (length (d_data d)) size) eqn:Es.
      + apply Nat.leb_le in Es.
        destruct (block (arrive u (t_arrivals t1)) sc1) as [[r2 u2] sc2] eqn:Eb.
        assert (Nu2 := block_noticed _ _ _ _ _ N1 Eb).
        apply block_spec in Eb; [|exact N1]. destruct Eb as (us2 & -> & Q2 & R2).
        rewrite Eq in R2.
        assert (All : u_queue u ++ arrived (us1 ++ us2) = d :: q ++ arrived us2).
        { rewrite arrived_app, app_assoc, <- A1.
          change (u_queue u ++ t_arrivals t1) with (u_queue (arrive u (t_arrivals t1))).
          rewrite Eq. reflexivity. }
        destruct r2 as [x| | |n|].
        * injection H as <- <- <-. exists (us1 ++ us2). split; [rewrite app_assoc; reflexivity|].
          split; [|exact Nu2]. destruct R2 as (d' & ds' & E & L & S' & D). cbn. rewrite All.
          exists d, (q ++ arrived us2). cbn [app] in E. injection E as <- <-.
          repeat split; assumption.
        * exfalso. destruct R2 as (E & _). cbn in E. discriminate.
        * exfalso.
          (* the queue is not empty when the poll happens, so the first recv succeeds *)
          destruct R2 as (E & _). discriminate.
        * exfalso. destruct R2 as (d' & ds' & E & L & S' & D). cbn in E. injection E as <- <-. lia.
        * injection H as <- <- <-. exists (us1 ++ us2). split; [rewrite app_assoc; reflexivity|].
          split; [|exact Nu2]. destruct R2 as (d' & ds' & E & L & S' & D). cbn. rewrite All.
          exists d, (q ++ arrived us2). cbn [app] in E. injection E as <- <-.
          repeat split; assumption.
      + apply Nat.leb_gt in Es. injection H as <- <- <-. exists us1. split; [reflexivity|].
        split; [|exact N1]. cbn. rewrite <- A1.
        change (u_queue u ++ t_arrivals t1) with (u_queue (arrive u (t_arrivals t1))).
        rewrite Eq. cbn. repeat split. lia.
  Qed.

  (** The flush loop. *)
  Lemma flush_spec : forall fuel u sc, noticed u -> pending u sc < fuel ->
    match flush size decode fuel u sc with
    | FOutOfFuel => False
    | FDone u' sc' => noticed u' /\ (exists used, sc = used ++ sc' /\
        (exists old, u_queue u ++ arrived used = old ++ u_queue u')) /\
        match u_queue u' with [] => True | d :: _ => length (d_data d) < size end
    | FPanic u' sc' => noticed u' /\ exists used, sc = used ++ sc' /\ exists pre all post,
        u_queue u ++ arrived used = pre ++ all ++ post /\ all <> [] /\
        decode (mixture size all) = None
    end.
  Proof.
    induction fuel as [|fuel IH]; intros u sc Hn Hf; [lia|]. cbn [flush].
    destruct (receive u sc) as [[r u1] sc1] eqn:E.
    destruct (receive_spec _ _ _ _ _ Hn E) as (used & -> & R & N1).
    destruct r as [x| |].
    - destruct R as (d & ds & All & L & Q & S' & D).
      assert (P : pending u1 sc1 < fuel).
      { unfold pending in *. rewrite Q. rewrite flat_map_app in Hf.
        change (flat_map t_arrivals used) with (arrived used) in Hf.
        assert (LA := f_equal (@length _) All). rewrite app_length in LA. cbn in LA.
        rewrite app_length in Hf. cbn. lia. }
      specialize (IH u1 sc1 N1 P). destruct (flush size decode fuel u1 sc1) as [u2 sc2|u2 sc2|].
      + destruct IH as (N2 & (us2 & -> & old & E2) & H2).
        split; [exact N2|]. split; [|exact H2].
        exists (used ++ us2). split; [rewrite app_assoc; reflexivity|].
        rewrite Q in E2. cbn in E2. exists ((d :: ds) ++ old).
        rewrite arrived_app, app_assoc, All, E2, app_assoc. reflexivity.
      + destruct IH as (N2 & us2 & -> & pre & all & post & E2 & Ne & Dn).
        split; [exact N2|]. exists (used ++ us2). split; [rewrite app_assoc; reflexivity|].
        exists ((d :: ds) ++ pre), all, post. rewrite Q in E2. cbn [app] in E2.
        split; [|split; assumption].
        rewrite arrived_app, app_assoc, All, E2. cbn. rewrite <- app_assoc. reflexivity.
      + exact IH.
    - destruct R as (Q & S' & H). split; [exact N1|]. split.
      + exists used. split; [reflexivity|]. exists []. rewrite Q. reflexivity.
      + rewrite Q. exact H.
    - destruct R as (d & ds & All & L & Q & S' & D). split; [exact N1|].
      exists used. split; [reflexivity|]. exists [], (u_queue u ++ arrived used), []. cbn. rewrite app_nil_r.
      split; [reflexivity|]. split; [rewrite All; discriminate|exact D].
  Qed.

  Lemma read_fresh_spec : forall u sc, noticed u -> exists r u' sc' used,
    read_fresh size decode u sc = Some (r, u', sc') /\ sc = used ++ sc' /\ noticed u' /\
    match r with
    | UOk x => exists pre fresh, arrived used = pre ++ fresh /\ fresh <> [] /\
                 decode (mixture size fresh) = Some x
    | UPanic => exists pre all post, u_queue u ++ arrived used = pre ++ all ++ post /\ all <> [] /\
                 decode (mixture size all) = None
    | UTimeout => exists before wait, used = before ++ wait /\ length wait <= 1 /\ arrived wait = []
    | URecvError => exists t, In t used /\ t_spurious t = true
    | USizeError n => n < size /\ exists d, In d (u_queue u ++ arrived used) /\ length (d_data d) = n
    end.
  Proof.
    intros u sc Hn. unfold read_fresh, flush_all.
    assert (F := flush_spec (S (pending u sc)) u sc Hn (Nat.lt_succ_diag_r _)).
    destruct (flush size decode (S (pending u sc)) u sc) as [u1 sc1|u1 sc1|]; [| |contradiction].
    - destruct F as (N1 & (us1 & -> & old & E1) & H1).
      destruct (block u1 sc1) as [[r u2] sc2] eqn:Eb.
      assert (Nu2 := block_noticed _ _ _ _ _ N1 Eb).
      destruct (block_spec _ _ _ _ _ N1 Eb) as (us2 & -> & Q & R).
      exists r, u2, sc2, (us1 ++ us2). split; [reflexivity|].
      split; [rewrite app_assoc; reflexivity|]. split; [exact Nu2|].
      assert (All : u_queue u ++ arrived (us1 ++ us2) = old ++ u_queue u1 ++ arrived us2)
        by (rewrite arrived_app, app_assoc, E1, <- app_assoc; reflexivity).
      destruct r as [x| | |n|].
      + destruct R as (d & ds & Ea & L & S' & D).
        destruct (u_queue u1) as [|d1 q1] eqn:Eq.
        * exists (arrived us1), (arrived us2). rewrite arrived_app. split; [reflexivity|].
          cbn in Ea. split; [rewrite Ea; discriminate|exact D].
        * cbn in Ea. injection Ea as <- <-. lia.
      + destruct R as (Ea & L & _ & _). exists us1, us2. repeat split; [exact L|].
        apply app_eq_nil in Ea. tauto.
      + destruct R as (_ & _ & t & rest & -> & Hs & _). exists t. split; [|exact Hs].
        apply in_or_app. right. left. reflexivity.
      + destruct R as (d & ds & Ea & -> & L & S'). split; [exact L|]. exists d.
        split; [|reflexivity]. rewrite All, Ea. apply in_or_app. right. left. reflexivity.
      + destruct R as (d & ds & Ea & L & S' & D).
        exists old, (u_queue u1 ++ arrived us2), []. rewrite app_nil_r, All.
        split; [reflexivity|]. split; [rewrite Ea; discriminate|exact D].
    - destruct F as (N1 & us1 & -> & pre & all & post & E2 & Ne & D).
      exists UPanic, u1, sc1, us1. split; [reflexivity|]. split; [reflexivity|].
      split; [exact N1|]. exists pre, all, post. auto.
  Qed.

  (** Histories keep the wake-up invariant, and account for every datagram. *)
  Lemma ucalls_noticed : forall cs u sc, noticed u ->
    noticed (fst (ucalls size decode cs u sc)) /\
    exists used gone, sc = used ++ snd (ucalls size decode cs u sc) /\
      u_queue u ++ arrived used = gone ++ u_queue (fst (ucalls size decode cs u sc)).
  Proof.
    induction cs as [|c r IH]; intros u sc Hn.
    - split; [exact Hn|]. exists [], []. split; [reflexivity|]. cbn. apply app_nil_r.
    - assert (Step : forall u1 sc1 used gone, noticed u1 -> sc = used ++ sc1 ->
        u_queue u ++ arrived used = gone ++ u_queue u1 ->
        noticed (fst (ucalls size decode r u1 sc1)) /\
        exists used gone, sc = used ++ snd (ucalls size decode r u1 sc1) /\
          u_queue u ++ arrived used = gone ++ u_queue (fst (ucalls size decode r u1 sc1))).
      { intros u1 sc1 used gone N1 -> Eg. destruct (IH u1 sc1 N1) as (N2 & us2 & g2 & E2 & G2).
        split; [exact N2|]. exists (used ++ us2), (gone ++ g2). split.
        - rewrite E2 at 1. rewrite app_assoc. reflexivity.
        - rewrite arrived_app, app_assoc, Eg, <- app_assoc, G2, app_assoc. reflexivity. }
      destruct c; cbn [ucalls].
      + destruct (receive u sc) as [[x u1] sc1] eqn:E.
        destruct (receive_spec _ _ _ _ _ Hn E) as (used & -> & R & N1).
        destruct x as [x| |].
        * destruct R as (d & ds & All & _ & Q & _). apply (Step u1 sc1 used (d :: ds)); auto.
          rewrite Q, app_nil_r. exact All.
        * destruct R as (Q & _). apply (Step u1 sc1 used []); auto.
        * destruct R as (d & ds & All & _ & Q & _). apply (Step u1 sc1 used (d :: ds)); auto.
          rewrite Q, app_nil_r. exact All.
      + destruct (block u sc) as [[x u1] sc1] eqn:E.
        assert (N1 := block_noticed _ _ _ _ _ Hn E).
        destruct (block_spec _ _ _ _ _ Hn E) as (used & -> & Q & _).
        apply (Step u1 sc1 used (u_queue u ++ arrived used)); auto.
        rewrite Q, app_nil_r. reflexivity.
  Qed.

  (** The timeout error, exactly. *)
  Lemma block_timeout_iff : forall u sc, noticed u ->
    (fst (fst (block u sc)) = UTimeout <->
     u_queue u = [] /\ t_arrivals (fst (next_tick sc)) = [] /\ t_spurious (fst (next_tick sc)) = false).
  Proof.
    intros u sc Hn. destruct (block u sc) as [[r u'] sc'] eqn:E. cbn [fst]. split.
    - intros ->. destruct (block_spec _ _ _ _ _ Hn E) as (used & -> & Q & All & L & Sp & _).
      apply app_eq_nil in All. destruct All as [Qu Au]. split; [exact Qu|].
      destruct used as [|t us].
      + cbn in *. unfold udp_blocking_receive in E.
        destruct sc' as [|t0 r0]; [cbn; auto|]. exfalso.
        cbn [next_tick] in E.
        destruct ((u_flag (arrive u (t_arrivals t0)) && negb (is_nil (u_queue (arrive u (t_arrivals t0)))))
              || t_spurious t0).
        * destruct (next_tick r0) as [t2 sc2] eqn:E2. cbn [arrive u_queue] in E.
          destruct ((u_queue u ++ t_arrivals t0) ++ t_arrivals t2) as [|d q'].
          -- destruct (drain sc2 [] _ _) as [[? ?] ?]. discriminate.
          -- destruct (drain sc2 q' _ _) as [[b ?] ?].
             destruct (Nat.eqb _ _); [destruct (decode b)|]; discriminate.
        * injection E as _ Ec. assert (Lc := f_equal (@length _) Ec). cbn in Lc. lia.
      + inversion Sp; subst. cbn [next_tick fst app].
        unfold arrived in Au. cbn in Au. apply app_eq_nil in Au. tauto.
    - intros (Qu & At & Sp). unfold udp_blocking_receive in E.
      destruct (next_tick sc) as [t sc1]. cbn [fst] in *.
      unfold arrive in E. rewrite Qu, At, Sp in E. cbn in E. rewrite andb_false_r in E. cbn in E.
      injection E as <- _ _. reflexivity.
  Qed.

  Lemma list_last : forall A (x : A) l, exists pre z, x :: l = pre ++ [z].
  Proof. intros A x l. destruct (exists_last (l := x :: l) ltac:(discriminate)) as (p & z & E). eauto. Qed.

  (** With full datagrams only, the object is the decoding of the last one. *)
  Lemma block_single : forall u sc x u' sc', noticed u -> block u sc = (UOk x, u', sc') ->
    full size (u_queue u ++ arrived sc) ->
    exists used first rest last pre, sc = used ++ sc' /\
      u_queue u ++ arrived used = first :: rest /\ first :: rest = pre ++ [last] /\
      decode (firstn size (d_data last)) = Some x /\ u_server u' = d_from first.
  Proof.
    intros u sc x u' sc' Hn E F. destruct (block_spec _ _ _ _ _ Hn E) as (used & -> & Q & R).
    destruct R as (d & ds & All & L & S' & D).
    destruct (list_last _ d ds) as (pre & z & Ez).
    exists used, d, ds, z, pre. repeat split; try assumption.
    rewrite All, Ez in D. rewrite mixture_last in D; [exact D|].
    rewrite arrived_app, app_assoc, All, Ez in F. apply Forall_app in F. destruct F as [F _].
    apply Forall_app in F. destruct F as [_ F]. inversion F. assumption.
  Qed.

  Lemma block_reply_address : forall u sc r u' sc' a, noticed u -> block u sc = (r, u', sc') ->
    all_from a (u_queue u ++ arrived sc) -> r <> UTimeout -> r <> URecvError -> u_server u' = a.
  Proof.
    intros u sc r u' sc' a Hn E F T1 T2. destruct (block_spec _ _ _ _ _ Hn E) as (used & -> & Q & R).
    assert (H : forall d ds, u_queue u ++ arrived used = d :: ds -> d_from d = a).
    { intros d ds Ea. rewrite arrived_app, app_assoc, Ea in F. inversion F. assumption. }
    destruct r; try congruence; destruct R as (d & ds & Ea & R); specialize (H d ds Ea);
      decompose [and] R; congruence.
  Qed.

  (** A fresh read with full datagrams. *)
  Lemma read_fresh_single : forall u sc x u' sc', noticed u ->
    read_fresh size decode u sc = Some (UOk x, u', sc') -> full size (arrived sc) ->
    exists used d, sc = used ++ sc' /\ In d (arrived used) /\ decode (firstn size (d_data d)) = Some x.
  Proof.
    intros u sc x u' sc' Hn E F.
    destruct (read_fresh_spec u sc Hn) as (r & u1 & sc1 & used & E1 & -> & _ & R).
    rewrite E in E1. injection E1 as <- <- <-. destruct R as (pre & fresh & Ea & Ne & D).
    destruct fresh as [|d ds]; [congruence|]. destruct (list_last _ d ds) as (p & z & Ez).
    rewrite Ez in D. exists used, z. split; [reflexivity|]. split.
    - rewrite Ea, Ez. apply in_or_app. right. apply in_or_app. right. left. reflexivity.
    - rewrite mixture_last in D; [exact D|].
      rewrite arrived_app, Ea, Ez in F. apply Forall_app in F. destruct F as [F _].
      apply Forall_app in F. destruct F as [_ F].
      apply Forall_app in F. destruct F as [_ F]. inversion F. assumption.
  Qed.

  (** With decodable full datagrams nothing panics. *)
  Lemma read_fresh_no_panic : forall u sc, noticed u ->
    full size (u_queue u ++ arrived sc) ->
    (forall d, In d (u_queue u ++ arrived sc) -> decode (firstn size (d_data d)) <> None) ->
    forall u' sc', read_fresh size decode u sc <> Some (UPanic, u', sc').
  Proof.
    intros u sc Hn F Hd u' sc' E.
    destruct (read_fresh_spec u sc Hn) as (r & u1 & sc1 & used & E1 & -> & _ & R).
    rewrite E in E1. injection E1 as <- <- <-. destruct R as (pre & all & post & Ea & Ne & D).
    destruct all as [|d ds]; [congruence|]. destruct (list_last _ d ds) as (p & z & Ez).
    rewrite Ez in D, Ea.
    assert (I : In z (u_queue u ++ arrived (used ++ sc'))).
    { rewrite arrived_app, app_assoc, Ea. apply in_or_app. left. apply in_or_app. right.
      apply in_or_app. left. apply in_or_app. right. left. reflexivity. }
    rewrite mixture_last in D.
    - exact (Hd z I D).
    - unfold full in F. rewrite Forall_forall in F. exact (F z I).
  Qed.
End Receive.
