(** Safety of the TCP channel. *)
From Coq Require Import List NArith ZArith Lia Bool Arith.
From Coq Require Import Init.Byte.
From Verif Require Import Bytes Codec WireModel WireSpec WireProofs WireProofs2 TcpModel TcpSpec.
Import ListNotations.

(** Generic facts. *)
Lemma subseq_nil_l : forall A (l : list A), subseq [] l.
Proof. induction l; constructor; auto. Qed.
Lemma subseq_app_r : forall A (a b c : list A), subseq a b -> subseq a (b ++ c).
Proof. induction 1; cbn; [apply subseq_nil_l|apply sub_skip; auto|apply sub_take; auto]. Qed.
Lemma subseq_app : forall A (a b c d : list A), subseq a b -> subseq c d -> subseq (a ++ c) (b ++ d).
Proof. induction 1; cbn; intros; auto; [apply sub_skip|apply sub_take]; auto. Qed.
Lemma subseq_refl : forall A (l : list A), subseq l l.
Proof. induction l; [constructor|apply sub_take; auto]. Qed.
Lemma subseq_trans : forall A (a b c : list A), subseq a b -> subseq b c -> subseq a c.
Proof.
  intros A a b c H1 H2. revert a H1. induction H2; intros a0 H1; auto.
  - apply sub_skip. auto.
  - inversion H1; subst; [apply sub_skip|apply sub_take]; auto.
Qed.
Lemma subseq_drop_r : forall A (a b c : list A), subseq (a ++ b) c -> subseq a c.
Proof.
  intros A a b c H. eapply subseq_trans; [|exact H]. rewrite <- (app_nil_r a) at 1.
  apply subseq_app; [apply subseq_refl|apply subseq_nil_l].
Qed.

Lemma tget_remove : forall k k' t, tget k (tremove k' t) = if N.eqb k k' then None else tget k t.
Proof.
  induction t as [|[a m] t IH]; cbn.
  - destruct (N.eqb k k'); reflexivity.
  - destruct (N.eqb_spec k' a) as [->|Ha]; cbn.
    + rewrite IH. destruct (N.eqb k a); reflexivity.
    + rewrite IH. destruct (N.eqb_spec k a) as [->|Hk]; [|reflexivity].
      destruct (N.eqb_spec a k'); [congruence|reflexivity].
Qed.
Lemma tget_insert : forall k k' m t, tget k (tinsert k' m t) = if N.eqb k k' then Some m else tget k t.
Proof. intros. unfold tinsert. cbn. rewrite tget_remove. destruct (N.eqb k k'); reflexivity. Qed.

(** Message bytes. *)
Definition hbytes (t : net_type) (m : msg) : list byte :=
  le (code_width t) (m_code m) ++ le 4 (m_id m) ++ le 4 (msg_size t m).
Lemma msg_bytes_split : forall t m, msg_bytes t m = hbytes t m ++ m_body m.
Proof. intros. unfold msg_bytes, hbytes. rewrite <- !app_assoc. reflexivity. Qed.
Lemma hbytes_length : forall t m, length (hbytes t m) = N.to_nat (header_len t).
Proof. intros. unfold hbytes. rewrite !app_length, !le_length. destruct t; reflexivity. Qed.
Lemma msg_bytes_length : forall t m, blen (msg_bytes t m) = msg_size t m.
Proof.
  intros. unfold blen, msg_size, msg_bytes. rewrite !app_length, !le_length. f_equal. lia.
Qed.
Lemma msg_size_header : forall t m, (header_len t <= msg_size t m)%N.
Proof. intros. unfold msg_size. destruct t; cbn [code_width header_len]; lia. Qed.

Lemma parse_hbytes : forall t m, msg_ok t m ->
  parse_header t (hbytes t m) = Some (m_id m, msg_size t m).
Proof.
  intros t m (Hc & Hi & Hs). destruct t; cbn [parse_header codes] in *.
  - assert (exists e, enum_of gr_cmds gr_cmd_N (m_code m) = Some e) as [e He].
    { apply (enum_lt _ gr_cmds gr_cmd_N 5); [reflexivity|intros []; cbn; auto 10|exact Hc]. }
    apply enum_of_to in He.
    assert (E : hbytes Gripper m = serialize c_gripper_header (e, (m_id m, msg_size Gripper m))).
    { rewrite gripper_header_bytes, He. reflexivity. }
    rewrite E, (deserialize_serialize _ _ _ _ lawful_gripper_header); [reflexivity|].
    cbn [wf c_gripper_header c_pair fst snd]. repeat split; assumption.
  - assert (exists e, enum_of robot_cmds robot_cmd_N (m_code m) = Some e) as [e He].
    { apply (enum_lt _ robot_cmds robot_cmd_N 14); [reflexivity|intros []; cbn; auto 20|exact Hc]. }
    apply enum_of_to in He.
    assert (E : hbytes Robot m = serialize c_robot_header (e, (m_id m, msg_size Robot m))).
    { rewrite header_bytes, He. reflexivity. }
    rewrite E, (deserialize_serialize _ _ _ _ lawful_robot_header); [reflexivity|].
    cbn [wf c_robot_header c_pair fst snd]. repeat split; assumption.
Qed.

(** Prefix of one message out of a stream. *)
Lemma app_prefix : forall A (a b c d : list A), a ++ b = c ++ d -> (length a <= length c)%nat ->
  exists e, c = a ++ e.
Proof.
  induction a as [|x a IH]; intros b c d H L; [exists c; reflexivity|].
  destruct c as [|y c]; cbn in *; [lia|]. injection H as -> H.
  destruct (IH _ _ _ H) as [e ->]; [lia|]. exists e. reflexivity.
Qed.

Definition in_msg (t : net_type) (s : net) (rest : list msg) : Prop :=
  pend s = [] \/
  exists m rest', rest = m :: rest' /\ (header_len t <= blen (pend s))%N /\
    (exists e, msg_bytes t m = pend s ++ e) /\
    poff s = blen (pend s) /\ plen s = msg_size t m /\ pid s = m_id m.

Definition olist {A} (o : option A) : list A := match o with Some a => [a] | None => [] end.

Definition pc_call (p : pc) : option call :=
  match p with Polling c => Some c | Reading c _ => Some c | Looking c => Some c | _ => None end.

Section Inv.
  Variable t : net_type.
  Variable msgs : list msg.
  Hypothesis msgs_ok : Forall (msg_ok t) msgs.
  Variable cs : list call.
  Variable cl : Prop.

  Record inv (st : net * pc) (fut : list byte) (rs : list ret) (done rest : list msg) : Prop := Inv {
    i_msgs : msgs = done ++ rest;
    i_bytes : pend (fst st) ++ kbuf (fst st) ++ fut = stream t rest;
    i_in : in_msg t (fst st) rest;
    i_read : forall c n, snd st = Reading c n -> pend (fst st) <> [] /\ (poff (fst st) + n <= plen (fst st))%N;
    i_table : forall id b, tget id (table (fst st)) = Some b ->
                exists m, In m done /\ m_id m = id /\ b = msg_bytes t m;
    i_sub : forall id, subseq (taken id rs ++ olist (tget id (table (fst st))))
                              (map (msg_bytes t) (with_id id done));
    i_call : forall c, pc_call (snd st) = Some c -> In c cs;
    i_closed : closed (fst st) = true -> cl;
    i_dead : forall p, snd st = Dead p -> excused t msgs cs cl p;
    i_shown : forall r id b, In r rs -> shown r = Some (id, b) ->
                exists m, In m msgs /\ m_id m = id /\ b = msg_bytes t m
  }.

  Lemma blen_0 : forall l, blen l = 0%N -> l = [].
  Proof. intros [|a l]; cbn; [reflexivity|unfold blen; cbn; lia]. Qed.

  (** The header read of a fresh message. *)
  Lemma header_of_stream : forall k fut rest, k ++ fut = stream t rest -> k <> [] ->
    (header_len t <= blen k)%N -> exists m rest', rest = m :: rest' /\
      firstn (N.to_nat (header_len t)) k = hbytes t m /\
      skipn (N.to_nat (header_len t)) k ++ fut = m_body m ++ stream t rest'.
  Proof.
    intros k fut rest H Hk L. destruct rest as [|m rest'].
    { destruct k; [congruence|discriminate]. }
    exists m, rest'. split; [reflexivity|].
    unfold stream in H. cbn [map concat] in H. rewrite msg_bytes_split, <- app_assoc in H.
    rewrite <- (firstn_skipn (N.to_nat (header_len t)) k), <- app_assoc in H.
    assert (Lf : length (firstn (N.to_nat (header_len t)) k) = length (hbytes t m)).
    { rewrite hbytes_length, firstn_length. unfold blen in L. lia. }
    apply app_inj_len in H; [exact H|exact Lf].
  Qed.

  Lemma shown_app : forall (rs : list ret) (x : ret) (P : N -> list byte -> Prop),
    (forall r id b, In r rs -> shown r = Some (id, b) -> P id b) ->
    (forall id b, shown x = Some (id, b) -> P id b) ->
    forall r id b, In r (rs ++ [x]) -> shown r = Some (id, b) -> P id b.
  Proof. intros rs x P H1 H2 r id b Hi Hs. apply in_app_iff in Hi. destruct Hi as [Hi|[->|[]]]; eauto. Qed.

  Lemma inv_poll : forall s c fut rs done rest,
    inv (s, Polling c) fut rs done rest ->
    match poll t s with
    | PPanic _ => False
    | PDone s' => inv (s', Looking c) fut rs done rest
    | PRead n s' => inv (s', Reading c n) fut rs done rest
    end.
  Proof.
    intros s c fut rs done rest [Hm Hb Hi Hr Ht Hs Hc Hcl Hd Hsh]. cbn [fst snd] in *.
    specialize (Hc c eq_refl).
    assert (Base : inv (Net (kbuf s) false (closed s) (pend s) (poff s) (plen s) (pid s) (table s), Looking c)
                       fut rs done rest).
    { split; cbn [fst snd kbuf pend table closed]; auto.
      - intros; discriminate.
      - intros c' H. injection H as <-. exact Hc.
      - intros; discriminate. }
    unfold poll.
    destruct (ready s && (negb (N.eqb (blen (kbuf s)) 0) || closed s)); [|exact Base].
    destruct Hi as [Hp|(m & rest' & -> & Hl & [e He] & Ho & Hpl & Hpi)].
    - rewrite Hp. cbn [pend].
      destruct (N.leb_spec (header_len t) (N.min (blen (kbuf s)) 70000)) as [L|L].
      2:{ rewrite Hp in Base. exact Base. }
      rewrite Hp in Hb. cbn [app] in Hb.
      destruct (header_of_stream (kbuf s) fut rest Hb) as (m & rest' & -> & Hf & Hk).
      { intros E. rewrite E in L. cbn in L. destruct t; cbn in L; lia. }
      { destruct t; cbn in *; lia. }
      rewrite Hf. assert (Ok : msg_ok t m).
      { rewrite Forall_forall in msgs_ok. apply msgs_ok. rewrite Hm. apply in_app_iff. right. left. reflexivity. }
      rewrite parse_hbytes by exact Ok. cbn [pend plen poff].
      assert (Hh : hbytes t m <> []).
      { intros E. pose proof (hbytes_length t m) as E2. rewrite E in E2. destruct t; discriminate. }
      assert (I : forall p', (forall c' n, p' = Reading c' n -> c' = c /\ (header_len t + n <= msg_size t m)%N) ->
                  (forall c', pc_call p' = Some c' -> c' = c) -> (forall q, p' <> Dead q) ->
                  inv (Net (skipn (N.to_nat (header_len t)) (kbuf s)) false (closed s) (hbytes t m)
                        (header_len t) (msg_size t m) (m_id m) (table s), p') fut rs done (m :: rest')).
      { intros p' R1 R2 R3. split; cbn [fst snd kbuf pend table closed poff plen pid]; auto.
        - rewrite Hk. unfold stream. cbn [map concat]. rewrite msg_bytes_split, <- app_assoc. reflexivity.
        - right. exists m, rest'. split; [reflexivity|]. cbn [pend poff plen pid].
          unfold blen. rewrite hbytes_length, N2Nat.id.
          repeat split; try reflexivity. exists (m_body m). apply msg_bytes_split.
        - intros c' n E. split; [exact Hh|]. destruct (R1 _ _ E) as [_ ?]. assumption.
        - intros c' E. rewrite (R2 _ E). exact Hc.
        - intros q E. destruct (R3 _ E). }
      destruct (hbytes t m) as [|h0 hr] eqn:Eh; [congruence|]. rewrite <- Eh in *.
      destruct (N.eqb_spec (N.min (blen (kbuf s)) 70000) 0) as [E0|E0].
      { apply I; intros; try discriminate; try congruence. cbn in H; congruence. }
      destruct (N.ltb_spec (msg_size t m) (header_len t)) as [L2|L2].
      { pose proof (msg_size_header t m). lia. }
      apply I; intros; try discriminate; try congruence.
      + injection H as -> <-. split; [reflexivity|]. lia.
      + cbn in H; congruence.
    - assert (Hne : pend s <> []).
      { intros E. rewrite E in Hl. cbn in Hl. destruct t; cbn in Hl; lia. }
      destruct (pend s) as [|p0 pr] eqn:Ep; [congruence|]. rewrite <- Ep in *.
      cbn [pend]. destruct (pend s) as [|p0' pr'] eqn:Ep'; [congruence|]. rewrite <- Ep' in *.
      cbn [plen poff].
      destruct (N.eqb_spec (N.min (blen (kbuf s)) 70000) 0) as [E0|E0]; [exact Base|].
      assert (Hle : (poff s <= plen s)%N).
      { rewrite Ho, Hpl, <- msg_bytes_length, He. unfold blen. rewrite app_length. lia. }
      destruct (N.ltb_spec (plen s) (poff s)) as [L2|L2]; [lia|].
      destruct Base as [Bm Bb Bi Br Bt Bs Bc Bcl Bd Bsh].
      split; cbn [fst snd kbuf pend table closed poff plen pid] in *; auto.
      + intros c' n E. injection E as <- <-. split; [exact Hne|]. lia.
      + intros q E. discriminate.
  Qed.

  Lemma inv_read : forall s c n fut rs done rest,
    inv (s, Reading c n) fut rs done rest -> (n <= blen (kbuf s))%N ->
    exists ms rest', inv (finish_read n s, Looking c) fut rs (done ++ ms) rest' /\
      (ms = [] /\ (poff s + n)%N <> plen s \/
       exists m, ms = [m] /\ (poff s + n)%N = plen s /\ pid s = m_id m /\ pend s ++ firstn (N.to_nat n) (kbuf s) = msg_bytes t m).
  Proof.
    intros s c n fut rs done rest [Hm Hb Hi Hr Ht Hs Hc Hcl Hd Hsh] Ln. cbn [fst snd] in *.
    destruct (Hr c n eq_refl) as [Hne Hle]. specialize (Hc c eq_refl).
    destruct Hi as [Hp|(m & rest' & -> & Hl & [e He] & Ho & Hpl & Hpi)]; [congruence|].
    pose proof (firstn_skipn (N.to_nat n) (kbuf s)) as Hk.
    remember (firstn (N.to_nat n) (kbuf s)) as got eqn:Egot.
    remember (skipn (N.to_nat n) (kbuf s)) as rst eqn:Erst.
    assert (Lg : blen got = n).
    { subst got. unfold blen. rewrite firstn_length. unfold blen in Ln. lia. }
    assert (Hb' : (pend s ++ got) ++ rst ++ fut = msg_bytes t m ++ stream t rest').
    { rewrite <- app_assoc. rewrite <- Hk, <- app_assoc in Hb. exact Hb. }
    assert (Lp : blen (pend s ++ got) = (poff s + n)%N).
    { unfold blen in *. rewrite app_length, Nat2N.inj_add, Lg, Ho. reflexivity. }
    assert (Pm : exists e', msg_bytes t m = (pend s ++ got) ++ e').
    { eapply app_prefix; [exact Hb'|]. pose proof (msg_bytes_length t m) as E.
      unfold blen in E, Lp. lia. }
    destruct Pm as [e' He'].
    unfold finish_read. rewrite <- Egot, <- Erst.
    destruct (N.eqb_spec (poff s + n) (plen s)) as [Eq|Ne].
    - (* message complete *)
      assert (e' = []).
      { apply blen_0. pose proof (msg_bytes_length t m) as E. rewrite He' in E.
        unfold blen in *. rewrite app_length in E. lia. }
      subst e'. rewrite app_nil_r in He'. rewrite <- He' in *.
      exists [m], rest'.
      apply app_inv_head in Hb'.
      split; [|right; exists m; auto].
      split; cbn [fst snd kbuf pend table closed poff plen pid]; auto.
      + rewrite <- app_assoc. exact Hm.
      + left. reflexivity.
      + intros; discriminate.
      + intros id b. rewrite tget_insert. destruct (N.eqb_spec id (pid s)) as [->|Hn].
        * intros E. injection E as <-. exists m. split; [apply in_app_iff; right; left; reflexivity|].
          split; [symmetry; exact Hpi|reflexivity].
        * intros E. destruct (Ht _ _ E) as (m' & A & B & C). exists m'. split; [apply in_app_iff; left; exact A|auto].
      + intros id. rewrite tget_insert. unfold with_id in *. rewrite filter_app, map_app. cbn [filter].
        destruct (N.eqb_spec id (pid s)) as [->|Hn].
        * rewrite Hpi, N.eqb_refl. apply subseq_app; [|apply subseq_refl].
          rewrite <- Hpi. eapply subseq_drop_r. apply Hs.
        * destruct (N.eqb_spec (m_id m) id) as [E|E]; [congruence|]. cbn [map]. rewrite app_nil_r. apply Hs.
      + intros c' E. injection E as <-. exact Hc.
      + intros; discriminate.
    - exists [], (m :: rest'). rewrite app_nil_r.
      split; [|left; auto].
      split; cbn [fst snd kbuf pend table closed poff plen pid]; auto.
      + right. exists m, rest'. cbn [pend poff plen pid]. split; [reflexivity|]. repeat split; auto.
        * rewrite Lp, Ho. lia.
        * eauto.
      + intros; discriminate.
      + intros c' E. injection E as <-. exact Hc.
      + intros; discriminate.
  Qed.

  Lemma taken_app : forall id a b, taken id (a ++ b) = taken id a ++ taken id b.
  Proof. intros. unfold taken. apply flat_map_app. Qed.

  (** The messages which a step moves from the stream into the table: only the end of a read does. *)
  Definition delivers (st st' : net * pc) (ms : list msg) : Prop :=
    match snd st, snd st' with
    | Reading _ n, Looking _ =>
        ms = [] /\ (poff (fst st) + n)%N <> plen (fst st) \/
        exists m, ms = [m] /\ (poff (fst st) + n)%N = plen (fst st) /\ pid (fst st) = m_id m /\
          pend (fst st) ++ firstn (N.to_nat n) (kbuf (fst st)) = msg_bytes t m
    | _, _ => ms = []
    end.

  Lemma inv_client : forall st fut rs done rest, inv st fut rs done rest ->
    exists ms rest',
      inv (fst (client_step t st)) fut (rs ++ snd (client_step t st)) (done ++ ms) rest' /\
      delivers st (fst (client_step t st)) ms.
  Proof.
    intros [s p] fut rs done rest H.
    assert (W : forall st' rs', inv st' fut rs' done rest -> delivers (s, p) st' [] ->
              exists ms rest', inv st' fut rs' (done ++ ms) rest' /\ delivers (s, p) st' ms).
    { intros st' rs' A B. exists [], rest. rewrite app_nil_r. auto. }
    unfold client_step.
    destruct p as [|c|c n|[id|id n h]|q].
    - cbn [fst snd]. rewrite app_nil_r. apply W; [exact H|reflexivity].
    - pose proof (inv_poll _ _ _ _ _ _ H) as P. destruct (poll t s) as [n s'|s'|q]; cbn [fst snd];
        rewrite ?app_nil_r; [apply W; [exact P|reflexivity]..|contradiction].
    - destruct (N.leb_spec n (blen (kbuf s))) as [L|L].
      + cbn [fst snd]. rewrite app_nil_r. exact (inv_read _ _ _ _ _ _ _ H L).
      + destruct (closed s) eqn:Ec; cbn [fst snd]; rewrite app_nil_r; [|apply W; [exact H|reflexivity]].
        apply W; [|reflexivity]. destruct H as [Hm Hb Hi Hr Ht Hs Hc Hcl Hd Hsh]. split; cbn [fst snd] in *; auto.
        * intros; discriminate.
        * intros; discriminate.
        * intros q E. injection E as <-. cbn. auto.
    - destruct (tget id (table s)) as [m|] eqn:Et; cbn [fst snd]; rewrite ?app_nil_r.
      + apply W; [|reflexivity]. destruct H as [Hm Hb Hi Hr Ht Hs Hc Hcl Hd Hsh]. cbn [fst snd] in *.
        split; cbn [fst snd set_table kbuf pend table closed poff plen pid] in *; auto.
        * intros; discriminate.
        * intros id' b. rewrite tget_remove. destruct (N.eqb id' id); [discriminate|]. apply Ht.
        * intros id'. rewrite tget_remove, taken_app. cbn.
          destruct (N.eqb_spec id id') as [<-|Hn].
          { rewrite N.eqb_refl. cbn. rewrite !app_nil_r. specialize (Hs id). rewrite Et in Hs. exact Hs. }
          { destruct (N.eqb_spec id' id); [congruence|]. rewrite app_nil_r. apply Hs. }
        * intros; discriminate.
        * intros; discriminate.
        * apply shown_app; [exact Hsh|]. intros i b E. injection E as <- <-.
          destruct (Ht _ _ Et) as (m' & A & B & C). exists m'. rewrite Hm, in_app_iff. auto.
      + apply W; [|reflexivity]. destruct H as [Hm Hb Hi Hr Ht Hs Hc Hcl Hd Hsh]. cbn [fst snd] in *.
        split; cbn [fst snd] in *; auto; intros; discriminate.
    - destruct (tget id (table s)) as [m|] eqn:Et; cbn [fst snd]; rewrite ?app_nil_r.
      + destruct (i_table _ _ _ _ _ H _ _ Et) as (m' & A & B & ->).
        assert (Am : In m' msgs) by (rewrite (i_msgs _ _ _ _ _ H), in_app_iff; auto).
        assert (Ac : In (Check id n h) cs) by (apply (i_call _ _ _ _ _ H); reflexivity).
        rewrite msg_bytes_length.
        destruct (N.eqb_spec (msg_size t m') n) as [En|En]; cbn [negb].
        2:{ apply W; [|reflexivity]. destruct H as [Hm Hb Hi Hr Ht Hs Hc Hcl Hd Hsh]. cbn [fst snd] in *. rewrite app_nil_r.
            split; cbn [fst snd] in *; auto; try (intros; discriminate).
            intros q E. injection E as <-. cbn. exists id, n, h, m'. auto. }
        destruct (h (msg_bytes t m')) as [[|]|] eqn:Eh; cbn [fst snd]; rewrite ?app_nil_r.
        * apply W; [|reflexivity]. destruct H as [Hm Hb Hi Hr Ht Hs Hc Hcl Hd Hsh]. cbn [fst snd] in *.
          split; cbn [fst snd set_table kbuf pend table closed poff plen pid] in *; auto.
          -- intros; discriminate.
          -- intros id' b. rewrite tget_remove. destruct (N.eqb id' id); [discriminate|]. apply Ht.
          -- intros id'. rewrite tget_remove, taken_app. cbn.
             destruct (N.eqb_spec id id') as [<-|Hn].
             { rewrite N.eqb_refl. cbn. rewrite !app_nil_r. specialize (Hs id). rewrite Et in Hs. exact Hs. }
             { destruct (N.eqb_spec id' id); [congruence|]. rewrite app_nil_r. apply Hs. }
          -- intros; discriminate.
          -- intros; discriminate.
          -- apply shown_app; [exact Hsh|]. intros i b E. injection E as <- <-. exists m'. auto.
        * apply W; [|reflexivity]. destruct H as [Hm Hb Hi Hr Ht Hs Hc Hcl Hd Hsh]. cbn [fst snd] in *.
          split; cbn [fst snd] in *; auto; try (intros; discriminate).
          -- intros id'. rewrite taken_app. cbn. rewrite app_nil_r. apply Hs.
          -- apply shown_app; [exact Hsh|]. intros i b E. injection E as <- <-. exists m'. auto.
        * apply W; [|reflexivity]. destruct H as [Hm Hb Hi Hr Ht Hs Hc Hcl Hd Hsh]. cbn [fst snd] in *.
          split; cbn [fst snd] in *; auto; try (intros; discriminate).
          intros q E. injection E as <-. cbn. exists id, n, h, m'. auto 10.
      + apply W; [|reflexivity]. destruct H as [Hm Hb Hi Hr Ht Hs Hc Hcl Hd Hsh]. cbn [fst snd] in *.
        split; cbn [fst snd] in *; auto; try (intros; discriminate).
        * intros id'. rewrite taken_app. cbn. rewrite app_nil_r. apply Hs.
        * apply shown_app; [exact Hsh|]. intros i b E. discriminate.
    - cbn [fst snd]. rewrite app_nil_r. apply W; [exact H|reflexivity].
  Qed.

  Lemma inv_step : forall l ls st st1 o1 fut rs done rest,
    step t st l = (st1, o1) -> inv st fut rs done rest ->
    (closed (fst st) = false -> prefix (arrivals (l :: ls)) fut) ->
    incl (starts [l]) cs -> (l = LClose -> cl) ->
    exists fut1 ms rest1, inv st1 fut1 (rs ++ o1) (done ++ ms) rest1 /\
      (closed (fst st1) = false -> prefix (arrivals ls) fut1) /\
      match l with LClient => delivers st st1 ms | _ => ms = [] end.
  Proof.
    intros l ls st st1 o1 fut rs done rest E1 H Hp Hst Hcl.
    destruct l as [bs| | |c|]; cbn [step] in E1.
      - destruct bs as [|b0 bs'].
        + injection E1 as <- <-. rewrite app_nil_r. exists fut, [], rest; rewrite (app_nil_r done). split; [exact H|]. split; [exact Hp|reflexivity].
        + set (bs := b0 :: bs') in *. destruct (closed (fst st)) eqn:Ec.
          * injection E1 as <- <-. rewrite app_nil_r. exists fut, [], rest; rewrite (app_nil_r done). split; [exact H|]. split; [congruence|reflexivity].
          * injection E1 as <- <-. rewrite app_nil_r. destruct (Hp eq_refl) as [x Hx].
            cbn [arrivals] in Hx. rewrite <- app_assoc in Hx.
            exists (arrivals ls ++ x), [], rest; rewrite (app_nil_r done). split; [|split; [intros _; exists x; reflexivity|reflexivity]].
            destruct H as [Hm Hb Hi Hr Ht Hs Hc Hcl' Hd Hsh].
            split; cbn [fst snd set_ready kbuf pend table closed poff plen pid] in *; auto.
            { rewrite <- Hb, <- Hx, <- app_assoc. reflexivity. }
            { rewrite orb_false_r. exact Hcl'. }
      - injection E1 as <- <-. rewrite app_nil_r. exists fut, [], rest; rewrite (app_nil_r done).
        split; [|split; [cbn; rewrite orb_true_r; discriminate|reflexivity]].
        destruct H as [Hm Hb Hi Hr Ht Hs Hc Hcl' Hd Hsh].
        split; cbn [fst snd set_ready kbuf pend table closed poff plen pid] in *; auto.
        { rewrite app_nil_r. exact Hb. }
      - injection E1 as <- <-. rewrite app_nil_r. exists fut, [], rest; rewrite (app_nil_r done).
        split; [|split; [cbn; rewrite orb_false_r; exact Hp|reflexivity]].
        destruct H as [Hm Hb Hi Hr Ht Hs Hc Hcl' Hd Hsh].
        split; cbn [fst snd set_ready kbuf pend table closed poff plen pid] in *; auto.
        { rewrite app_nil_r. exact Hb. }
        { rewrite orb_false_r. exact Hcl'. }
      - destruct st as [s p]. cbn [fst snd] in *.
        destruct p; injection E1 as <- <-; rewrite app_nil_r; exists fut, [], rest; rewrite (app_nil_r done); (split; [|split; [exact Hp|reflexivity]]);
          try exact H.
        destruct H as [Hm Hb Hi Hr Ht Hs Hc Hcl' Hd Hsh].
        split; cbn [fst snd] in *; auto; try (intros; discriminate).
        intros c' E. injection E as <-. apply Hst. cbn. left. reflexivity.
      - destruct (inv_client _ _ _ _ _ H) as (d & r & I & D). rewrite E1 in I, D. cbn [fst snd] in I, D.
        exists fut, d, r. split; [exact I|]. split; [|exact D].
        assert (closed (fst st1) = closed (fst st)) as ->; [|exact Hp].
        assert (Pc : forall s n s', poll t s = PRead n s' \/ poll t s = PDone s' -> closed s' = closed s).
        { clear. intros s n s'. unfold poll.
          destruct (ready s && (negb (N.eqb (blen (kbuf s)) 0) || closed s));
            [|intros [H|H]; [discriminate|injection H as <-; reflexivity]].
          destruct (pend s) eqn:Ep; cbn [pend].
          - destruct (N.leb (header_len t) (N.min (blen (kbuf s)) 70000)).
            + destruct (parse_header t (firstn (N.to_nat (header_len t)) (kbuf s))) as [[id size]|];
                [|intros [H|H]; discriminate].
              cbn [pend plen poff].
              destruct (firstn (N.to_nat (header_len t)) (kbuf s));
                [intros [H|H]; [discriminate|injection H as <-; reflexivity]|].
              destruct (N.eqb (N.min (blen (kbuf s)) 70000) 0);
                [intros [H|H]; [discriminate|injection H as <-; reflexivity]|].
              destruct (N.ltb size (header_len t)); [intros [H|H]; discriminate|].
              intros [H|H]; [injection H as <- <-; reflexivity|discriminate].
            + intros [H|H]; [discriminate|injection H as <-; reflexivity].
          - cbn [plen poff]. destruct (N.eqb (N.min (blen (kbuf s)) 70000) 0);
                [intros [H|H]; [discriminate|injection H as <-; reflexivity]|].
            destruct (N.ltb (plen s) (poff s)); [intros [H|H]; discriminate|].
            intros [H|H]; [injection H as <- <-; reflexivity|discriminate]. }
        destruct st as [s p]. cbn in E1. destruct p as [|c|c n|[id|id n h]|q]; cbn [fst] in *.
        + injection E1 as <- <-; reflexivity.
        + destruct (poll t s) eqn:Ep; injection E1 as <- <-; try reflexivity; cbn [fst]; [eapply Pc; left; exact Ep|apply (Pc _ 0%N); right; exact Ep].
        + destruct (N.leb n (blen (kbuf s))).
          * injection E1 as <- <-. cbn [fst]. unfold finish_read.
            destruct (N.eqb (poff s + n) (plen s)); reflexivity.
          * destruct (closed s) eqn:Ec; injection E1 as <- <-; cbn; rewrite ?Ec; reflexivity.
        + destruct (tget id (table s)); injection E1 as <- <-; reflexivity.
        + destruct (tget id (table s)) as [m|]; [|injection E1 as <- <-; reflexivity].
          destruct (negb (N.eqb (blen m) n)); [injection E1 as <- <-; reflexivity|].
          destruct (h m) as [[|]|]; injection E1 as <- <-; reflexivity.
        + injection E1 as <- <-; reflexivity.
  Qed.

  Lemma inv_run : forall ls st fut rs done rest,
    inv st fut rs done rest ->
    (closed (fst st) = false -> prefix (arrivals ls) fut) ->
    incl (starts ls) cs -> (In LClose ls -> cl) ->
    exists fut' done' rest', inv (fst (run t st ls)) fut' (rs ++ snd (run t st ls)) done' rest'.
  Proof.
    induction ls as [|l ls IH]; intros st fut rs done rest H Hp Hst Hcl.
    { cbn. rewrite app_nil_r. eauto. }
    cbn [run]. destruct (step t st l) as [st1 o1] eqn:E1.
    destruct (run t st1 ls) as [st2 o2] eqn:E2. cbn [fst snd].
    destruct (inv_step _ ls _ _ _ _ _ _ _ E1 H Hp) as (fut1 & ms & rest1 & I1 & P1 & _).
    { intros c Hc. apply Hst. unfold starts in *. cbn in Hc |- *. rewrite app_nil_r in Hc. apply in_app_iff. left. exact Hc. }
    { intros ->. apply Hcl. left. reflexivity. }
    assert (Hst' : incl (starts ls) cs).
    { intros c Hc. apply Hst. unfold starts in *. cbn. apply in_app_iff. right. exact Hc. }
    destruct (IH st1 fut1 (rs ++ o1) (done ++ ms) rest1 I1 P1 Hst') as (f & d & r & I2).
    { intros Hin. apply Hcl. right. exact Hin. }
    rewrite E2 in I2. cbn [fst snd] in I2. rewrite <- app_assoc in I2. eauto.
  Qed.
End Inv.

Lemma inv_init : forall t msgs cs cl, inv t msgs cs cl (net_init, Idle) (stream t msgs) [] [] msgs.
Proof.
  intros. split; cbn; auto; try (intros; discriminate); try (intros; contradiction).
  - left. reflexivity.
  - intros. constructor.
Qed.

(** C02 *)
Theorem tcp_safe : forall t msgs ls,
  Forall (msg_ok t) msgs -> prefix (arrivals ls) (stream t msgs) ->
  let st := fst (run t (net_init, Idle) ls) in
  let rs := snd (run t (net_init, Idle) ls) in
  (forall r id b, In r rs -> shown r = Some (id, b) ->
     exists m, In m msgs /\ m_id m = id /\ b = msg_bytes t m) /\
  (forall id, subseq (taken id rs) (map (msg_bytes t) (with_id id msgs))) /\
  (forall p, snd st = Dead p -> excused t msgs (starts ls) (In LClose ls) p).
Proof.
  intros t msgs ls Hok Hp st rs.
  destruct (inv_run t msgs Hok (starts ls) (In LClose ls) ls (net_init, Idle) (stream t msgs) [] [] msgs)
    as (f & d & r & I); auto using inv_init, incl_refl.
  cbn [app] in I. split; [|split].
  - apply (i_shown _ _ _ _ _ _ _ _ _ I).
  - intros id. pose proof (i_sub _ _ _ _ _ _ _ _ _ I id) as S. apply subseq_drop_r in S.
    rewrite (i_msgs _ _ _ _ _ _ _ _ _ I). unfold with_id. rewrite filter_app, map_app.
    apply subseq_app_r. exact S.
  - apply (i_dead _ _ _ _ _ _ _ _ _ I).
Qed.
