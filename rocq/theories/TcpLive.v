(** Delivery and blocking behaviour of the TCP channel. *)
From Coq Require Import List NArith ZArith Lia Bool Arith.
From Coq Require Import Init.Byte.
From Verif Require Import Bytes Codec WireModel WireSpec WireProofs WireProofs2 TcpModel TcpSpec TcpProofs.
Import ListNotations.

Lemma run_app : forall t ls1 ls2 st,
  run t st (ls1 ++ ls2) =
  (fst (run t (fst (run t st ls1)) ls2), snd (run t st ls1) ++ snd (run t (fst (run t st ls1)) ls2)).
Proof.
  induction ls1 as [|l ls1 IH]; intros ls2 st; cbn [run app fst snd].
  - destruct (run t st ls2); reflexivity.
  - destruct (step t st l) as [st1 o1]. specialize (IH ls2 st1). rewrite IH.
    destruct (run t st1 ls1) as [st2 o2]. cbn [fst snd].
    destruct (run t st2 ls2) as [st3 o3]. cbn [fst snd]. rewrite app_assoc. reflexivity.
Qed.

Lemma run_cons : forall t st l st1 o1 ls st2 o2,
  step t st l = (st1, o1) -> run t st1 ls = (st2, o2) -> run t st (l :: ls) = (st2, o1 ++ o2).
Proof. intros t st l st1 o1 ls st2 o2 H1 H2. cbn [run]. rewrite H1, H2. reflexivity. Qed.

Lemma step_arrive : forall t s p bs, bs <> [] -> closed s = false ->
  step t (s, p) (LArrive bs) = ((set_ready s bs false, p), []).
Proof. intros t s p [|b bs] H Hc; [congruence|]. cbn [step fst]. rewrite Hc. reflexivity. Qed.

Lemma client_read : forall t s c n, (n <= blen (kbuf s))%N ->
  client_step t (s, Reading c n) = ((finish_read n s, Looking c), []).
Proof. intros t s c n H. cbn [client_step]. destruct (N.leb_spec n (blen (kbuf s))); [reflexivity|lia]. Qed.

(** Nothing happens any more once the event is consumed and nothing arrives. *)
Lemma quiet_forever : forall t id n s p,
  ready s = false -> tget id (table s) = None ->
  p = Polling (Wait id) \/ p = Looking (Wait id) ->
  snd (run t (s, p) (repeat LClient n)) = [].
Proof.
  intros t id. induction n; intros s p Hr Ht Hp; [reflexivity|].
  cbn [repeat run]. destruct Hp as [-> | ->]; cbn [step client_step].
  - unfold poll. rewrite Hr. cbn [andb].
    specialize (IHn (Net (kbuf s) false (closed s) (pend s) (poff s) (plen s) (pid s) (table s))
                    (Looking (Wait id)) eq_refl Ht (or_intror eq_refl)).
    destruct (run t _ (repeat LClient n)). exact IHn.
  - rewrite Ht. specialize (IHn s (Polling (Wait id)) Hr Ht (or_introl eq_refl)).
    destruct (run t _ (repeat LClient n)). exact IHn.
Qed.

Lemma firstn_len_app : forall A (a b : list A) n, length a = n -> firstn n (a ++ b) = a.
Proof. intros A a b n <-. rewrite firstn_app, Nat.sub_diag, firstn_all. cbn. apply app_nil_r. Qed.
Lemma skipn_len_app : forall A (a b : list A) n, length a = n -> skipn n (a ++ b) = b.
Proof. intros A a b n <-. rewrite skipn_app, Nat.sub_diag, skipn_all. reflexivity. Qed.

Lemma blen_app : forall a b, blen (a ++ b) = (blen a + blen b)%N.
Proof. intros. unfold blen. rewrite app_length. lia. Qed.
Lemma to_nat_blen : forall l, N.to_nat (blen l) = length l.
Proof. intros. unfold blen. apply Nat2N.id. Qed.
Lemma hbytes_blen : forall t m, blen (hbytes t m) = header_len t.
Proof. intros. unfold blen. rewrite hbytes_length, N2Nat.id. reflexivity. Qed.
Lemma hbytes_ne : forall t m, hbytes t m <> [].
Proof. intros t m E. pose proof (hbytes_length t m) as H. rewrite E in H. destruct t; discriminate. Qed.
Lemma msg_bytes_ne : forall t m, msg_bytes t m <> [].
Proof. intros t m E. rewrite msg_bytes_split in E. apply app_eq_nil in E. exact (hbytes_ne t m (proj1 E)). Qed.
Lemma header_pos : forall t, (0 < header_len t)%N.
Proof. intros []; cbn; lia. Qed.
Lemma header_small : forall t, (header_len t <= 70000)%N.
Proof. intros []; cbn; lia. Qed.
Lemma body_blen : forall t m, blen (m_body m) = (msg_size t m - header_len t)%N.
Proof. intros t m. unfold msg_size, blen. destruct t; cbn [code_width header_len]; lia. Qed.

(** What a poll does at the start of a message whose header is there. *)
Lemma poll_fresh : forall t s m x, msg_ok t m ->
  ready s = true -> pend s = [] -> kbuf s = hbytes t m ++ x ->
  poll t s = PRead (N.min (N.min (header_len t + blen x) 70000) (msg_size t m - header_len t))
                   (Net x false (closed s) (hbytes t m) (header_len t) (msg_size t m) (m_id m) (table s)).
Proof.
  intros t s m x Ok Hr Hp Hk. unfold poll. rewrite Hr, Hp, Hk. cbn [andb].
  rewrite blen_app, hbytes_blen. pose proof (header_pos t) as Hh. pose proof (msg_size_header t m) as Hs.
  destruct (N.eqb_spec (header_len t + blen x) 0) as [E|_]; [lia|]. cbn [negb orb].
  destruct (N.leb_spec (header_len t) (N.min (header_len t + blen x) 70000)) as [_|L].
  2:{ pose proof (header_small t). lia. }
  rewrite firstn_len_app, skipn_len_app by apply hbytes_length.
  rewrite parse_hbytes by exact Ok. cbn [pend plen poff].
  destruct (hbytes t m) eqn:Eh; [destruct (hbytes_ne t m Eh)|].
  destruct (N.eqb_spec (N.min (header_len t + blen x) 70000) 0) as [E|_]; [lia|].
  destruct (N.ltb_spec (msg_size t m) (header_len t)) as [E|_]; [lia|]. reflexivity.
Qed.

Lemma client_fresh : forall t s c m x, msg_ok t m ->
  ready s = true -> pend s = [] -> kbuf s = hbytes t m ++ x ->
  client_step t (s, Polling c) =
  ((Net x false (closed s) (hbytes t m) (header_len t) (msg_size t m) (m_id m) (table s),
    Reading c (N.min (N.min (header_len t + blen x) 70000) (msg_size t m - header_len t))), []).
Proof. intros. cbn [client_step]. erewrite poll_fresh by eassumption. reflexivity. Qed.

Lemma poll_cont : forall t s, pend s <> [] -> ready s = true -> kbuf s <> [] -> (poff s <= plen s)%N ->
  poll t s = PRead (N.min (N.min (blen (kbuf s)) 70000) (plen s - poff s))
                   (Net (kbuf s) false (closed s) (pend s) (poff s) (plen s) (pid s) (table s)).
Proof.
  intros t s Hp Hr Hk Hle. unfold poll. rewrite Hr. cbn [andb].
  destruct (N.eqb_spec (blen (kbuf s)) 0) as [E|E]; [apply blen_0 in E; congruence|]. cbn [negb orb].
  destruct (pend s) eqn:Ep; [congruence|]. cbn [pend plen poff].
  destruct (N.eqb_spec (N.min (blen (kbuf s)) 70000) 0) as [E0|_]; [lia|].
  destruct (N.ltb_spec (plen s) (poff s)); [lia|]. reflexivity.
Qed.

Lemma poll_nothing : forall t s, pend s = [] -> closed s = false -> (blen (kbuf s) < header_len t)%N ->
  poll t s = PDone (Net (kbuf s) false (closed s) (pend s) (poff s) (plen s) (pid s) (table s)).
Proof.
  intros t s Hp Hc Hl. unfold poll. rewrite Hp. cbn [pend].
  destruct (ready s && (negb (N.eqb (blen (kbuf s)) 0) || closed s)); [|reflexivity].
  destruct (N.leb_spec (header_len t) (N.min (blen (kbuf s)) 70000)); [lia|]. reflexivity.
Qed.

(** C03 is false in general: two responses arriving together. *)
Theorem coalesced_lost : forall t m1 m2 n, msg_ok t m1 -> m_id m1 <> m_id m2 -> (msg_size t m1 <= 70000)%N ->
  snd (run t (net_init, Idle)
        ([LArrive (msg_bytes t m1 ++ msg_bytes t m2); LStart (Wait (m_id m1)); LClient; LClient; LClient;
          LStart (Wait (m_id m2))] ++ repeat LClient n))
  = [RWait (m_id m1) (msg_bytes t m1)].
Proof.
  intros t m1 m2 n Ok Hn Hs.
  set (ls := [LArrive _; _; _; _; _; _]).
  set (x := msg_bytes t m2).
  assert (E : run t (net_init, Idle) ls =
    ((Net x false false [] 0 0 0 [], Polling (Wait (m_id m2))),
     [RWait (m_id m1) (msg_bytes t m1)])).
  { pose proof (msg_size_header t m1) as Hh. pose proof (body_blen t m1) as Hb.
    unfold ls. fold x. eapply (run_cons _ _ _ _ []).
    { apply step_arrive; [|reflexivity]. intros E. apply app_eq_nil in E. destruct E as [E _].
      apply (msg_bytes_ne t m1 E). }
    eapply (run_cons _ _ _ _ []); [reflexivity|].
    eapply (run_cons _ _ _ _ []).
    { cbn [step]. apply (client_fresh t _ _ m1 (m_body m1 ++ x) Ok); try reflexivity.
      cbn [kbuf set_ready net_init app fst]. rewrite msg_bytes_split, <- app_assoc. reflexivity. }
    cbn [closed set_ready net_init table orb fst].
    rewrite blen_app.
    replace (N.min (N.min (header_len t + (blen (m_body m1) + blen x)) 70000) (msg_size t m1 - header_len t))
      with (blen (m_body m1)) by lia.
    eapply (run_cons _ _ _ _ []).
    { cbn [step]. apply client_read. cbn [kbuf]. rewrite blen_app. lia. }
    unfold finish_read. cbn [kbuf pend poff plen ready closed pid table].
    rewrite to_nat_blen, firstn_len_app, skipn_len_app by reflexivity.
    destruct (N.eqb_spec (header_len t + blen (m_body m1)) (msg_size t m1)) as [_|L]; [|lia].
    rewrite <- msg_bytes_split.
    eapply (run_cons _ _ _ _ [_]).
    { cbn [step client_step table tinsert tremove tget]. rewrite N.eqb_refl. reflexivity. }
    reflexivity. }
  rewrite run_app, E. cbn [fst snd]. rewrite (quiet_forever t (m_id m2)); auto.
Qed.

(** C03 is false in general: a response longer than the peek window, arrived as a whole. *)
Theorem long_lost : forall t m n, msg_ok t m -> (header_len t + 70000 < msg_size t m)%N ->
  snd (run t (net_init, Idle) ([LArrive (msg_bytes t m); LStart (Wait (m_id m)); LClient; LClient] ++ repeat LClient n))
  = [].
Proof.
  intros t m n Ok Hs.
  set (ls := [LArrive _; _; _; _]).
  assert (E : exists s, ready s = false /\ table s = [] /\ run t (net_init, Idle) ls = ((s, Looking (Wait (m_id m))), [])).
  { pose proof (body_blen t m) as Hb. eexists. split; [|split]; cycle 2.
    { unfold ls. eapply (run_cons _ _ _ _ []).
      { apply step_arrive; [|reflexivity]. apply msg_bytes_ne. }
      eapply (run_cons _ _ _ _ []); [reflexivity|].
      eapply (run_cons _ _ _ _ []).
      { cbn [step]. apply (client_fresh t _ _ m (m_body m) Ok); try reflexivity.
        cbn [kbuf set_ready net_init app fst]. apply msg_bytes_split. }
      cbn [closed set_ready net_init table orb fst].
      replace (N.min (N.min (header_len t + blen (m_body m)) 70000) (msg_size t m - header_len t))
        with 70000%N by lia.
      eapply (run_cons _ _ _ _ []).
      { cbn [step]. apply client_read. cbn [kbuf]. lia. }
      reflexivity. }
    all: unfold finish_read; cbn [kbuf pend poff plen ready closed pid table];
      destruct (N.eqb_spec (header_len t + 70000) (msg_size t m)) as [L|_]; [lia|reflexivity]. }
  destruct E as (s & Hr & Ht & E). rewrite run_app, E. cbn [fst snd].
  rewrite (quiet_forever t (m_id m)); auto. rewrite Ht. reflexivity.
Qed.

Section Deliver.
  Variable t : net_type.
  Variable m : msg.
  Hypothesis Ok : msg_ok t m.
  Hypothesis Small : (msg_size t m <= 70000)%N.
  Variable T0 : table_t.
  Hypothesis T0none : tget (m_id m) T0 = None.
  Let c := Wait (m_id m).
  Let bytes := msg_bytes t m.

  Definition header_got (s : net) : Prop :=
    (header_len t <= blen (pend s))%N /\ poff s = blen (pend s) /\ plen s = msg_size t m /\ pid s = m_id m.

  Inductive J : net * pc -> list ret -> list byte -> Prop :=
  | J_wait : forall s p fut, closed s = false -> table s = T0 ->
      pend s ++ kbuf s ++ fut = bytes ->
      pend s = [] \/ (header_got s /\ (poff s < plen s)%N) ->
      (kbuf s <> [] -> ready s = true \/ (pend s = [] /\ (blen (kbuf s) < header_len t)%N)) ->
      p = Polling c \/ p = Looking c -> J (s, p) [] fut
  | J_read : forall s n fut, closed s = false -> table s = T0 ->
      pend s ++ kbuf s ++ fut = bytes -> header_got s -> (n <= plen s - poff s)%N ->
      (blen (kbuf s) <= n)%N \/ ready s = true -> J (s, Reading c n) [] fut
  | J_got : forall s, closed s = false -> kbuf s = [] -> pend s = [] ->
      (forall k, tget k (table s) = if N.eqb k (m_id m) then Some bytes else tget k T0) ->
      J (s, Looking c) [] []
  | J_done : forall s, closed s = false -> kbuf s = [] -> pend s = [] ->
      (forall k, tget k (table s) = tget k T0) -> J (s, Idle) [RWait (m_id m) bytes] [].

  Lemma hdr_ne : forall s, header_got s -> pend s <> [].
  Proof. intros s (H & _) E. rewrite E in H. pose proof (header_pos t). cbn in H. lia. Qed.

  Lemma hdr_le : forall s fut, header_got s -> pend s ++ kbuf s ++ fut = bytes ->
    (poff s + blen (kbuf s) + blen fut = plen s)%N.
  Proof.
    intros s fut (H1 & H2 & H3 & H4) E. apply (f_equal blen) in E. unfold bytes in E.
    rewrite msg_bytes_length, !blen_app in E. lia.
  Qed.

  Lemma J_client : forall st rs fut, J st rs fut ->
    J (fst (client_step t st)) (rs ++ snd (client_step t st)) fut.
  Proof.
    intros st rs fut H. pose proof (header_pos t) as Hh. destruct H as [s p fut Hc Ht Hb Hp Hk Hpc|s n fut Hc Ht Hb Hg Hn Hk|s Hc Hk Hp Ht|s Hc Hk Hp Ht].
    - destruct Hpc as [-> | ->].
      + (* Polling *)
        cbn [client_step].
        destruct (kbuf s) as [|k0 kr] eqn:Ek.
        { (* nothing there *)
          assert (poll t s = PDone (Net (kbuf s) false (closed s) (pend s) (poff s) (plen s) (pid s) (table s))) as ->.
          { unfold poll. rewrite Ek, Hc. cbn. rewrite andb_false_r. reflexivity. }
          cbn [fst snd app]. apply J_wait; cbn [closed table pend kbuf poff plen ready]; rewrite ?Ek; auto; congruence. }
        rewrite <- Ek in *. assert (Hne : kbuf s <> []) by congruence.
        destruct Hp as [Hp|[Hg Hlt]].
        * destruct (N.ltb_spec (blen (kbuf s)) (header_len t)) as [L|L].
          { rewrite poll_nothing by auto. cbn [fst snd app].
            apply J_wait; cbn [closed table pend kbuf poff plen ready]; auto. }
          destruct (Hk Hne) as [Hr|[_ L']]; [|lia].
          rewrite Hp in Hb. cbn [app] in Hb.
          destruct (header_of_stream t (kbuf s) fut [m]) as (m' & r' & E & Hf & Hsk); auto.
          { unfold stream. cbn [map concat]. rewrite app_nil_r. exact Hb. }
          injection E as <- <-. cbn [stream map concat] in Hsk. rewrite app_nil_r in Hsk.
          assert (Ekb : kbuf s = hbytes t m ++ skipn (N.to_nat (header_len t)) (kbuf s))
            by (rewrite <- Hf, firstn_skipn; reflexivity).
          rewrite (poll_fresh t s m _ Ok Hr Hp Ekb). cbn [fst snd app].
          set (x := skipn (N.to_nat (header_len t)) (kbuf s)) in *.
          assert (Lx : (blen x + blen fut = msg_size t m - header_len t)%N).
          { apply (f_equal blen) in Hsk. rewrite blen_app, (body_blen t) in Hsk. exact Hsk. }
          apply J_read; cbn [closed table pend kbuf poff plen ready]; auto.
          -- rewrite Hsk. unfold bytes. symmetry. apply msg_bytes_split.
          -- unfold header_got; cbn [pend poff plen pid]. rewrite hbytes_blen. repeat split; lia.
          -- lia.
          -- left. pose proof (msg_size_header t m). lia.
        * destruct (Hk Hne) as [Hr|[Hp _]]; [|destruct (hdr_ne s Hg Hp)].
          pose proof (hdr_le s fut Hg Hb) as Hle. pose proof (proj1 (proj2 (proj2 Hg))) as Hpl.
          rewrite poll_cont by (auto using hdr_ne; lia). cbn [fst snd app].
          apply J_read; cbn [closed table pend kbuf poff plen ready]; auto; try lia.
      + (* Looking *)
        cbn [client_step c]. rewrite Ht, T0none. cbn [fst snd app]. apply J_wait; auto.
    - (* Reading *)
      cbn [client_step]. pose proof (hdr_le s fut Hg Hb) as Hle.
      destruct (N.leb_spec n (blen (kbuf s))) as [L|L].
      2:{ rewrite Hc. cbn [fst snd app]. apply J_read; auto. }
      cbn [fst snd app]. unfold finish_read.
      pose proof (firstn_skipn (N.to_nat n) (kbuf s)) as Hfs.
      remember (firstn (N.to_nat n) (kbuf s)) as got eqn:Egot.
      remember (skipn (N.to_nat n) (kbuf s)) as rst eqn:Erst.
      assert (Lg : blen got = n) by (subst got; unfold blen in *; rewrite firstn_length; lia).
      assert (Lr : blen rst = (blen (kbuf s) - n)%N) by (rewrite <- Hfs, blen_app; lia).
      assert (Hb' : (pend s ++ got) ++ rst ++ fut = bytes).
      { rewrite <- app_assoc. rewrite <- Hfs, <- app_assoc in Hb. exact Hb. }
      destruct Hg as (G1 & G2 & G3 & G4).
      destruct (N.eqb_spec (poff s + n) (plen s)) as [Eq|Ne].
      + assert (rst = []) by (apply blen_0; lia). assert (fut = []) by (apply blen_0; lia). subst rst fut.
        rewrite H, app_nil_r in Hb'. cbn [app] in Hb'.
        apply J_got; cbn [closed kbuf pend table]; auto.
        intros k. rewrite tget_insert, Ht, G4, Hb'. reflexivity.
      + apply J_wait; cbn [closed kbuf pend table poff plen ready]; auto.
        * right. split; [|lia]. unfold header_got; cbn [pend poff plen pid]. rewrite blen_app. repeat split; auto; lia.
        * intros Hne. left. destruct Hk as [Hk|Hk]; [|exact Hk].
          destruct Hne. apply blen_0. lia.
    - cbn [client_step c]. rewrite Ht, N.eqb_refl. cbn [fst snd app]. apply J_done; auto.
      intros k. cbn [set_table table]. rewrite tget_remove, Ht.
      destruct (N.eqb_spec k (m_id m)) as [->|]; [symmetry; exact T0none|reflexivity].
    - cbn. apply J_done; auto.
  Qed.

  Lemma J_run : forall ls st rs fut, Forall waiting_label ls -> J st rs (arrivals ls ++ fut) ->
    J (fst (run t st ls)) (rs ++ snd (run t st ls)) fut.
  Proof.
    induction ls as [|l ls IH]; intros st rs fut Hw H.
    { cbn in *. rewrite app_nil_r. exact H. }
    apply Forall_cons_iff in Hw. destruct Hw as [Hl Hw].
    cbn [run]. destruct (step t st l) as [st1 o1] eqn:E1. destruct (run t st1 ls) as [st2 o2] eqn:E2.
    cbn [fst snd]. rewrite app_assoc.
    assert (K : J st1 (rs ++ o1) (arrivals ls ++ fut)).
    { destruct l as [bs| | |cc|]; cbn [waiting_label] in Hl; try contradiction; cbn [step arrivals] in *.
      - destruct bs as [|b0 br]; [injection E1 as <- <-; rewrite app_nil_r; exact H|].
        rewrite <- app_assoc in H.
        inversion H as [s p f Hc Ht Hb Hp Hk Hpc|s n f Hc Ht Hb Hg Hn Hk|s Hc Hk Hp Ht|s Hc Hk Hp Ht]; subst; try discriminate;
          cbn [fst] in E1; rewrite Hc in E1; injection E1 as <- <-; cbn [fst snd app].
        + apply J_wait; cbn [set_ready closed table pend kbuf poff plen ready]; auto.
          * rewrite Hc. reflexivity.
          * rewrite <- app_assoc. exact Hb.
        + apply J_read; cbn [set_ready closed table pend kbuf poff plen ready]; auto.
          * rewrite Hc. reflexivity.
          * rewrite <- app_assoc. exact Hb.
      - injection E1 as <- <-. rewrite app_nil_r.
        inversion H as [s p f Hc Ht Hb Hp Hk Hpc|s n f Hc Ht Hb Hg Hn Hk|s Hc Hk Hp Ht|s Hc Hk Hp Ht]; subst; cbn [fst snd].
        + apply J_wait; cbn [set_ready closed table pend kbuf poff plen ready]; rewrite ?app_nil_r; auto.
          rewrite Hc. reflexivity.
        + apply J_read; cbn [set_ready closed table pend kbuf poff plen ready]; rewrite ?app_nil_r; auto.
          rewrite Hc. reflexivity.
        + apply J_got; cbn [set_ready closed table pend kbuf poff plen ready]; rewrite ?app_nil_r; auto.
          rewrite Hc. reflexivity.
        + apply J_done; cbn [set_ready closed table pend kbuf poff plen ready]; rewrite ?app_nil_r; auto.
          rewrite Hc. reflexivity.
      - pose proof (J_client _ _ _ H) as K. rewrite E1 in K. exact K. }
    pose proof (IH st1 (rs ++ o1) fut Hw K) as R. rewrite E2 in R. exact R.
  Qed.

  (** With everything arrived, every client step gets closer to the end. *)
  Definition rank (st : net * pc) : nat :=
    match snd st with
    | Idle => 0
    | Reading _ n => if N.eqb (poff (fst st) + n) (plen (fst st)) then 2 else 5
    | Looking _ => match tget (m_id m) (table (fst st)) with Some _ => 1 | None => 4 end
    | Polling _ => 3
    | Dead _ => 0
    end.

  Lemma rank_le : forall st, (rank st <= 5)%nat.
  Proof using m.
    clear. intros [s p]. unfold rank. cbn [fst snd]. destruct p as [|c0|c0 n|c0|q]; try lia.
    - destruct (N.eqb (poff s + n) (plen s)); lia.
    - destruct (tget (m_id m) (table s)); lia.
  Qed.

  Lemma J_rank : forall st rs, J st rs [] -> (rank (fst (client_step t st)) <= pred (rank st))%nat.
  Proof.
    intros st rs H. pose proof (header_pos t) as Hh.
    remember [] as fut eqn:Ef in H. destruct H as [s p fut Hc Ht Hb Hp Hk Hpc|s n fut Hc Ht Hb Hg Hn Hk|s Hc Hk Hp Ht|s Hc Hk Hp Ht]; subst; unfold rank at 2; cbn [fst snd].
    - destruct Hpc as [-> | ->].
      + assert (Hne : kbuf s <> []).
        { intros E. rewrite E in Hb. cbn in Hb. rewrite app_nil_r in Hb.
          destruct Hp as [Hp|[(G1 & G2 & G3 & G4) Hlt]].
          - rewrite Hp in Hb. unfold bytes in Hb. rewrite msg_bytes_split in Hb.
            destruct (hbytes t m) eqn:Eh; [destruct (hbytes_ne t m Eh)|discriminate].
          - apply (f_equal blen) in Hb. unfold bytes in Hb. rewrite msg_bytes_length in Hb. lia. }
        cbn [client_step]. destruct Hp as [Hp|[Hg Hlt]].
        * rewrite Hp, app_nil_r in Hb. cbn [app] in Hb.
          assert (Hfull : blen (kbuf s) = msg_size t m) by (rewrite Hb; apply msg_bytes_length).
          pose proof (msg_size_header t m) as Hsz.
          destruct (Hk Hne) as [Hr|[_ L']]; [|lia].
          rewrite (poll_fresh t s m (m_body m) Ok Hr Hp) by (rewrite Hb; apply msg_bytes_split).
          cbn [fst snd rank poff plen]. rewrite (body_blen t).
          destruct (N.eqb_spec (header_len t + N.min (N.min (header_len t + (msg_size t m - header_len t)) 70000)
              (msg_size t m - header_len t)) (msg_size t m)) as [_|Hx]; [cbn; lia|lia].
        * destruct (Hk Hne) as [Hr|[Hp _]]; [|destruct (hdr_ne s Hg Hp)].
          pose proof (hdr_le s [] Hg Hb) as Hle. pose proof (proj1 (proj2 (proj2 Hg))) as Hpl. cbn [blen length N.of_nat] in Hle.
          change (blen []) with 0%N in Hle.
          rewrite poll_cont by (auto using hdr_ne; lia). cbn [fst snd rank poff plen].
          destruct (N.eqb_spec (poff s + N.min (N.min (blen (kbuf s)) 70000) (plen s - poff s)) (plen s)) as [_|Hx]; [cbn; lia|lia].
      + cbn [client_step c]. rewrite T0none. cbn. lia.
    - cbn [client_step]. pose proof (hdr_le s [] Hg Hb) as Hle. change (blen []) with 0%N in Hle.
      destruct (N.leb_spec n (blen (kbuf s))) as [L|L]; [|lia].
      cbn [fst]. unfold finish_read.
      destruct (N.eqb_spec (poff s + n) (plen s)) as [Eq|Ne]; cbn [rank fst snd table].
      + rewrite tget_insert. destruct Hg as (_ & _ & _ & G4). rewrite G4, N.eqb_refl. cbn; lia.
      + rewrite T0none. cbn; lia.
    - cbn [client_step c]. rewrite Ht, N.eqb_refl. cbn. lia.
    - cbn. lia.
  Qed.

  Lemma J_finish : forall n st rs, J st rs [] -> (rank st <= n)%nat ->
    J (fst (run t st (repeat LClient n))) (rs ++ snd (run t st (repeat LClient n))) [] /\
    rank (fst (run t st (repeat LClient n))) = 0%nat.
  Proof.
    induction n; intros st rs H Hr.
    { cbn. rewrite app_nil_r. split; [exact H|lia]. }
    cbn [repeat run step]. destruct (client_step t st) as [st1 o1] eqn:E1.
    destruct (run t st1 (repeat LClient n)) as [st2 o2] eqn:E2. cbn [fst snd].
    pose proof (J_client _ _ _ H) as K. pose proof (J_rank _ _ H) as R. rewrite E1 in K, R. cbn [fst snd] in K, R.
    destruct (IHn st1 (rs ++ o1) K) as [A B]; [lia|]. rewrite E2 in A, B. cbn [fst snd] in A, B.
    rewrite app_assoc. split; assumption.
  Qed.

  Lemma rank_0_done : forall st rs, J st rs [] -> rank st = 0%nat ->
    snd st = Idle /\ rs = [RWait (m_id m) bytes] /\ closed (fst st) = false /\ kbuf (fst st) = [] /\
    pend (fst st) = [] /\ forall k, tget k (table (fst st)) = tget k T0.
  Proof.
    intros st rs H R. remember [] as fut eqn:Ef in H.
    destruct H as [s p fut Hc Ht Hb Hp Hk Hpc|s n fut Hc Ht Hb Hg Hn Hk|s Hc Hk Hp Ht|s Hc Hk Hp Ht]; subst; unfold rank in R; cbn [fst snd] in *.
    - destruct Hpc as [-> | ->]; [discriminate|]. rewrite T0none in R. discriminate.
    - destruct (N.eqb (poff s + n) (plen s)); discriminate.
    - cbn in R. rewrite Ht, N.eqb_refl in R. discriminate.
    - auto 10.
  Qed.
End Deliver.

(** C03, the part that holds: one response in flight, any segmentation. *)
Theorem delivered_alone : forall t m s ls,
  msg_ok t m -> (msg_size t m <= 70000)%N -> quiescent s -> tget (m_id m) (table s) = None ->
  Forall waiting_label ls -> arrivals ls = msg_bytes t m ->
  let r := run t (s, Idle) (LStart (Wait (m_id m)) :: ls ++ repeat LClient 5) in
  snd r = [RWait (m_id m) (msg_bytes t m)] /\ snd (fst r) = Idle /\ quiescent (fst (fst r)) /\
  (forall k, tget k (table (fst (fst r))) = tget k (table s)).
Proof.
  intros t m s ls Ok Small (Qc & Qk & Qp) Ht Hw Ha r.
  assert (Er : r = run t (s, Polling (Wait (m_id m))) (ls ++ repeat LClient 5)).
  { unfold r. cbn [run step fst snd]. destruct (run t _ (ls ++ repeat LClient 5)). reflexivity. }
  assert (J0 : J t m (table s) (s, Polling (Wait (m_id m))) [] (arrivals ls ++ [])).
  { apply J_wait; rewrite ?Qp, ?Qk, ?app_nil_r, ?Ha; auto; congruence. }
  pose proof (J_run t m Ok Small (table s) Ht ls _ _ _ Hw J0) as J1. cbn [app] in J1.
  assert (R : (rank m (fst (run t (s, Polling (Wait (m_id m))) ls)) <= 5)%nat) by apply rank_le.
  destruct (J_finish t m Ok Small (table s) Ht 5 _ _ J1 R) as [J2 R2].
  destruct (rank_0_done t m (table s) Ht _ _ J2 R2) as (A & B & C & D & E & F).
  rewrite Er, run_app. cbn [fst snd]. rewrite B. unfold quiescent. auto 10.
Qed.

(** Any number of request/response exchanges one after the other. *)
Theorem delivered_lockstep : forall t ex s,
  Forall (fun e => msg_ok t (fst e) /\ (msg_size t (fst e) <= 70000)%N /\
                   Forall waiting_label (snd e) /\ arrivals (snd e) = msg_bytes t (fst e)) ex ->
  quiescent s -> (forall e, In e ex -> tget (m_id (fst e)) (table s) = None) ->
  snd (run t (s, Idle)
        (flat_map (fun e => LStart (Wait (m_id (fst e))) :: snd e ++ repeat LClient 5) ex))
  = map (fun e => RWait (m_id (fst e)) (msg_bytes t (fst e))) ex.
Proof.
  intros t ex. induction ex as [|[m ls] ex IH]; intros s Hf Q Ht; [reflexivity|].
  apply Forall_cons_iff in Hf. destruct Hf as [(Ok & Sm & Hw & Ha) Hf]. cbn [fst snd] in *.
  cbn [flat_map map fst snd]. rewrite run_app.
  destruct (delivered_alone t m s ls Ok Sm Q (Ht _ (or_introl eq_refl)) Hw Ha) as (A & B & C & D).
  cbn [snd]. rewrite A. cbn [app]. f_equal.
  destruct (fst (run t (s, Idle) (LStart (Wait (m_id m)) :: ls ++ repeat LClient 5))) as [s' p'].
  cbn [fst snd] in *. subst p'. apply IH; auto.
  intros e He. rewrite D. apply Ht. right. exact He.
Qed.


Lemma stuck_forever : forall t n s c k, closed s = false -> (blen (kbuf s) < k)%N ->
  run t (s, Reading c k) (repeat LClient n) = ((s, Reading c k), []).
Proof.
  intros t n s c k Hc Hk. induction n; [reflexivity|].
  cbn [repeat run step client_step]. destruct (N.leb_spec k (blen (kbuf s))); [lia|].
  rewrite Hc, IHn. reflexivity.
Qed.

Lemma looking_ends : forall t s id n h, ended (snd (fst (run t (s, Looking (Check id n h)) [LClient]))).
Proof.
  intros. cbn. destruct (tget id (table s)); [|exact I].
  destruct (negb (N.eqb (blen l) n)); [exact I|]. destruct (h l) as [[|]|]; exact I.
Qed.

Lemma ended_stays : forall t n s p, ended p -> run t (s, p) (repeat LClient n) = ((s, p), []).
Proof.
  intros t n s p H. induction n; [reflexivity|]. cbn [repeat run step].
  destruct p; try contradiction; cbn [client_step]; rewrite IHn; reflexivity.
Qed.

(** The check on a socket holding the first bytes of the next message [m]. *)
Theorem check_blocks_iff : forall t m s x id n h,
  msg_ok t m -> closed s = false -> ready s = true -> pend s = [] ->
  kbuf s ++ x = msg_bytes t m -> (blen (kbuf s) <= 70000)%N ->
  ((forall k, ~ ended (snd (fst (run t (s, Polling (Check id n h)) (repeat LClient k))))) <->
   (header_len t <= blen (kbuf s))%N /\ x <> []).
Proof.
  intros t m s x id n h Ok Hc Hr Hp Hk Hw. pose proof (header_pos t) as Hh.
  assert (Len : (blen (kbuf s) + blen x = msg_size t m)%N)
    by (rewrite <- msg_bytes_length, <- Hk, blen_app; reflexivity).
  destruct (N.ltb_spec (blen (kbuf s)) (header_len t)) as [L|L].
  - split; [|lia]. intros H. exfalso. apply (H 2%nat). cbn [repeat run step].
    unfold client_step at 1. rewrite poll_nothing by auto.
    match goal with |- context [client_step t ?st] => pose proof (looking_ends t (fst st) id n h) as E end.
    cbn [run step fst] in E. cbn [fst] in *.
    destruct (client_step t _) as [st2 o2]. cbn [fst snd] in *. exact E.
  - destruct (header_of_stream t (kbuf s) x [m]) as (m' & r' & E & Hf & Hsk); auto.
    { unfold stream. cbn [map concat]. rewrite app_nil_r. exact Hk. }
    { intros E. rewrite E in L. cbn in L. lia. }
    injection E as <- <-. cbn [stream map concat] in Hsk. rewrite app_nil_r in Hsk.
    set (y := skipn (N.to_nat (header_len t)) (kbuf s)) in *.
    assert (Ekb : kbuf s = hbytes t m ++ y) by (unfold y; rewrite <- Hf, firstn_skipn; reflexivity).
    assert (Ly : (blen (kbuf s) = header_len t + blen y)%N) by (rewrite Ekb, blen_app, hbytes_blen; reflexivity).
    assert (St : forall k, run t (s, Polling (Check id n h)) (repeat LClient (S k)) =
       run t (Net y false (closed s) (hbytes t m) (header_len t) (msg_size t m) (m_id m) (table s),
              Reading (Check id n h) (N.min (blen (kbuf s)) (msg_size t m - header_len t))) (repeat LClient k)).
    { intros k. cbn [repeat run step]. unfold client_step at 1.
      rewrite (poll_fresh t s m y Ok Hr Hp Ekb).
      replace (N.min (N.min (header_len t + blen y) 70000) (msg_size t m - header_len t))
        with (N.min (blen (kbuf s)) (msg_size t m - header_len t)) by lia.
      destruct (run t _ (repeat LClient k)). reflexivity. }
    split.
    + intros H. split; [exact L|]. intros ->. change (blen []) with 0%N in Len.
      apply (H 3%nat). rewrite St. cbn [repeat run step].
      unfold client_step at 1. cbn [kbuf].
      destruct (N.leb_spec (N.min (blen (kbuf s)) (msg_size t m - header_len t)) (blen y)) as [_|Lx]; [|lia].
      match goal with |- context [client_step t ?st] => pose proof (looking_ends t (fst st) id n h) as E end.
      cbn [run step fst] in E. cbn [fst] in *.
      destruct (client_step t _) as [st2 o2]. cbn [fst snd] in *. exact E.
    + intros [_ Hx] k. destruct k; [cbn; auto|]. rewrite St.
      assert (blen x <> 0%N) by (intros E; apply Hx, blen_0, E).
      rewrite stuck_forever; cbn [closed kbuf]; auto. lia.
Qed.

(** In the middle of a message the check never blocks. *)
Theorem check_continues : forall t s id n h,
  pend s <> [] -> (poff s <= plen s)%N -> closed s = false ->
  ended (snd (fst (run t (s, Polling (Check id n h)) (repeat LClient 3)))).
Proof.
  intros t s id n h Hp Hle Hc.
  assert (Q : forall s' k, ended (snd (fst (run t (s', Looking (Check id n h)) (repeat LClient (S k)))))).
  { intros s' k. change (repeat LClient (S k)) with ([LClient] ++ repeat LClient k). rewrite run_app. cbn [fst].
    pose proof (looking_ends t s' id n h) as E.
    destruct (fst (run t (s', Looking (Check id n h)) [LClient])) as [s2 p2]. cbn [snd] in E.
    rewrite ended_stays by exact E. exact E. }
  change (repeat LClient 3) with (LClient :: repeat LClient 2). cbn [run step]. unfold client_step at 1.
  destruct (ready s) eqn:Hr.
  - destruct (kbuf s) as [|k0 kr] eqn:Ek.
    + assert (poll t s = PDone (Net (kbuf s) false (closed s) (pend s) (poff s) (plen s) (pid s) (table s))) as ->.
      { unfold poll. rewrite Ek, Hc. cbn. rewrite andb_false_r. reflexivity. }
      match goal with |- context [run t (?s', _) _] => specialize (Q s' 1%nat) end.
      destruct (run t _ (repeat LClient 2)). exact Q.
    + rewrite poll_cont by (auto; congruence). change (repeat LClient 2) with (LClient :: repeat LClient 1).
      cbn [run step]. unfold client_step at 1. cbn [kbuf].
      destruct (N.leb_spec (N.min (N.min (blen (kbuf s)) 70000) (plen s - poff s)) (blen (kbuf s))) as [_|L]; [|lia].
      match goal with |- context [run t (?s', _) _] => specialize (Q s' 0%nat) end.
      change (repeat LClient 1) with [LClient] in *.
      destruct (run t _ [LClient]). exact Q.
  - assert (poll t s = PDone (Net (kbuf s) false (closed s) (pend s) (poff s) (plen s) (pid s) (table s))) as ->.
    { unfold poll. rewrite Hr. reflexivity. }
    match goal with |- context [run t (?s', _) _] => specialize (Q s' 1%nat) end.
    destruct (run t _ (repeat LClient 2)). exact Q.
Qed.
