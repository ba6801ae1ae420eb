(** Codec combinators: the part of bincode/serde the library relies on.

    Mirrors /repo/src/network.rs 392-398: [serialize] = bincode::serialize,
    [deserialize] = bincode::deserialize, both unwrapped.  bincode 1.3 default
    configuration: fixed-width little-endian integers, a bool is one byte which
    must be 0 or 1, an array of fixed length and a struct are the
    concatenation of their parts without prefix, serde_repr enums are
    their integer and unknown integers are errors, trailing bytes are ignored. *)
From Coq Require Import List NArith ZArith Lia Bool Arith.
From Coq Require Import Init.Byte.
From Verif Require Import Bytes.
Import ListNotations.

Record codec (A : Type) : Type := Codec {
  enc : A -> list byte;                              (* serialize *)
  dec : list byte -> option (A * list byte);         (* deserialize, rest of input *)
  wf  : A -> Prop                                    (* values representable in the Rust type *)
}.
Arguments Codec {A}. Arguments enc {A}. Arguments dec {A}. Arguments wf {A}.

(** Unsigned integer of [k] bytes. *)
Definition c_uint (k : nat) : codec N :=
  Codec (le_bytes k)
        (fun bs => if Nat.leb k (length bs)
                   then Some (le_val (firstn k bs), skipn k bs) else None)
        (fun v => (v < 256 ^ N.of_nat k)%N).

(** bool: one byte, 0 or 1. *)
Definition c_bool : codec bool :=
  Codec (fun b : bool => [if b then x01 else x00])
        (fun bs => match bs with
                   | x00 :: t => Some (false, t)
                   | x01 :: t => Some (true, t)
                   | _ => None end)
        (fun _ => True).

(** Struct of two parts (nest for more). *)
Definition c_pair {A B} (ca : codec A) (cb : codec B) : codec (A * B) :=
  Codec (fun p => enc ca (fst p) ++ enc cb (snd p))
        (fun bs => match dec ca bs with
                   | Some (a, r) => match dec cb r with
                                    | Some (b, r') => Some ((a, b), r')
                                    | None => None end
                   | None => None end)
        (fun p => wf ca (fst p) /\ wf cb (snd p)).

(** Array of [n] elements; a Rust [T; n] is a list of length [n]. *)
Fixpoint dec_array {A} (c : codec A) (n : nat) (bs : list byte) : option (list A * list byte) :=
  match n with
  | O => Some ([], bs)
  | S n' => match dec c bs with
            | Some (a, r) => match dec_array c n' r with
                             | Some (l, r') => Some (a :: l, r')
                             | None => None end
            | None => None end
  end.
Definition c_array {A} (n : nat) (c : codec A) : codec (list A) :=
  Codec (fun l => concat (map (enc c) l)) (dec_array c n)
        (fun l => length l = n /\ Forall (wf c) l).

(** Struct with named fields, via its tuple of fields. *)
Definition c_iso {A B} (to : A -> B) (from : B -> A) (c : codec B) : codec A :=
  Codec (fun a => enc c (to a))
        (fun bs => match dec c bs with Some (b, r) => Some (from b, r) | None => None end)
        (fun a => wf c (to a)).

(** serde_repr enum: an integer of [k] bytes restricted to known values. *)
Definition c_enum {E} (k : nat) (to : E -> N) (of : N -> option E) : codec E :=
  Codec (fun e => le_bytes k (to e))
        (fun bs => match dec (c_uint k) bs with
                   | Some (v, r) => match of v with Some e => Some (e, r) | None => None end
                   | None => None end)
        (fun _ => True).

Definition serialize {A} (c : codec A) (a : A) : list byte := enc c a.
(** [None] is the panic of the [unwrap] in network.rs 396-398. *)
Definition deserialize {A} (c : codec A) (bs : list byte) : option A :=
  match dec c bs with Some (a, _) => Some a | None => None end.

(** Laws. *)
Record lawful {A} (c : codec A) (n : nat) : Prop := Lawful {
  law_rt   : forall a rest, wf c a -> dec c (enc c a ++ rest) = Some (a, rest);
  law_inv  : forall bs a rest, dec c bs = Some (a, rest) -> wf c a /\ bs = enc c a ++ rest;
  law_size : forall a, wf c a -> length (enc c a) = n
}.

Lemma lawful_uint : forall k, lawful (c_uint k) k.
Proof.
  intros k. split; cbn.
  - intros a rest H. rewrite app_length, le_bytes_length.
    replace (Nat.leb k (k + length rest)) with true by (symmetry; apply Nat.leb_le; lia).
    rewrite firstn_app, le_bytes_length, Nat.sub_diag, firstn_O, app_nil_r.
    rewrite skipn_app, le_bytes_length, Nat.sub_diag.
    rewrite firstn_all2, skipn_all2 by (rewrite le_bytes_length; lia).
    rewrite le_val_bytes by auto. reflexivity.
  - intros bs a rest H. destruct (Nat.leb k (length bs)) eqn:E; [|discriminate].
    apply Nat.leb_le in E. injection H as <- <-.
    assert (L : length (firstn k bs) = k) by (rewrite firstn_length; lia).
    split.
    + pose proof (le_val_bound (firstn k bs)) as B. rewrite L in B. exact B.
    + rewrite <- L at 1. rewrite le_bytes_val, firstn_skipn. reflexivity.
  - intros. apply le_bytes_length.
Qed.

Lemma lawful_bool : lawful c_bool 1.
Proof.
  split; cbn.
  - intros [] rest _; reflexivity.
  - intros bs a rest H. split; [exact I|].
    destruct bs as [|b t]; [discriminate|].
    destruct b; try discriminate; injection H as <- <-; reflexivity.
  - reflexivity.
Qed.

Lemma lawful_pair : forall A B (ca : codec A) (cb : codec B) n m,
  lawful ca n -> lawful cb m -> lawful (c_pair ca cb) (n + m).
Proof.
  intros A B ca cb n m La Lb. split; cbn.
  - intros [a b] rest [Ha Hb]; cbn in *. rewrite <- app_assoc, (law_rt _ _ La) by auto.
    rewrite (law_rt _ _ Lb) by auto. reflexivity.
  - intros bs [a b] rest H. destruct (dec ca bs) as [[a' r]|] eqn:Ea; [|discriminate].
    destruct (dec cb r) as [[b' r']|] eqn:Eb; [|discriminate].
    injection H as <- <- <-.
    apply (law_inv _ _ La) in Ea. apply (law_inv _ _ Lb) in Eb.
    destruct Ea as [Wa ->], Eb as [Wb ->]. cbn. split; [auto|]. rewrite app_assoc. reflexivity.
  - intros [a b] [Ha Hb]; cbn in *. rewrite app_length, (law_size _ _ La), (law_size _ _ Lb); auto.
Qed.

Lemma lawful_array : forall A (c : codec A) n k, lawful c k -> lawful (c_array n c) (n * k).
Proof.
  intros A c n k L. split; cbn.
  - intros l rest [Hl Hw]. revert n Hl. induction Hw as [|a l Ha Hw IH]; intros n Hl; cbn in Hl; subst n.
    + reflexivity.
    + cbn. rewrite <- app_assoc, (law_rt _ _ L) by auto. rewrite IH; auto.
  - revert n. induction n as [|n IH]; intros bs l rest H; cbn in H.
    + injection H as <- <-. repeat split; constructor.
    + destruct (dec c bs) as [[a r]|] eqn:Ea; [|discriminate].
      destruct (dec_array c n r) as [[l' r']|] eqn:El; [|discriminate].
      injection H as <- <-. apply (law_inv _ _ L) in Ea. apply IH in El.
      destruct Ea as [Wa ->], El as [[Hl Hw] ->]. cbn.
      repeat split; [lia|constructor; auto|]. rewrite app_assoc. reflexivity.
  - intros l [Hl Hw]. revert n Hl. induction Hw as [|a l Ha Hw IH]; intros n Hl; cbn in Hl; subst n.
    + reflexivity.
    + cbn. rewrite app_length, (law_size _ _ L), (IH (length l)) by auto. reflexivity.
Qed.

Lemma lawful_iso : forall A B (to : A -> B) (from : B -> A) (c : codec B) n,
  (forall a, from (to a) = a) -> (forall b, to (from b) = b) ->
  lawful c n -> lawful (c_iso to from c) n.
Proof.
  intros A B to from c n H1 H2 L. split; cbn.
  - intros a rest H. rewrite (law_rt _ _ L) by auto. rewrite H1. reflexivity.
  - intros bs a rest H. destruct (dec c bs) as [[b r]|] eqn:E; [|discriminate].
    injection H as <- <-. apply (law_inv _ _ L) in E. rewrite H2. exact E.
  - intros a H. apply (law_size _ _ L). exact H.
Qed.

Lemma lawful_enum : forall E k (to : E -> N) (of : N -> option E),
  (forall e, of (to e) = Some e) -> (forall v e, of v = Some e -> to e = v) ->
  (forall e, (to e < 256 ^ N.of_nat k)%N) ->
  lawful (c_enum k to of) k.
Proof.
  intros E k to of H1 H2 H3. pose proof (lawful_uint k) as U. split.
  - intros e rest _. cbn -[c_uint].
    change (le_bytes k (to e)) with (enc (c_uint k) (to e)).
    rewrite (law_rt _ _ U) by (cbn; auto). rewrite H1. reflexivity.
  - intros bs e rest H. cbn -[c_uint] in H. split; [exact I|].
    destruct (dec (c_uint k) bs) as [[v r]|] eqn:Ev; [|discriminate].
    destruct (of v) as [e'|] eqn:Eo; [|discriminate].
    injection H as <- <-. apply (law_inv _ _ U) in Ev. destruct Ev as [_ ->].
    apply H2 in Eo. subst v. reflexivity.
  - intros. cbn. apply le_bytes_length.
Qed.

(** Consequences for whole messages. *)
Lemma deserialize_serialize : forall A (c : codec A) n a,
  lawful c n -> wf c a -> deserialize c (serialize c a) = Some a.
Proof.
  intros A c n a L W. unfold deserialize, serialize.
  rewrite <- (app_nil_r (enc c a)), (law_rt _ _ L) by auto. reflexivity.
Qed.

Lemma deserialize_exact : forall A (c : codec A) n bs a,
  lawful c n -> length bs = n -> deserialize c bs = Some a -> wf c a /\ serialize c a = bs.
Proof.
  intros A c n bs a L Hn H. unfold deserialize in H.
  destruct (dec c bs) as [[a' r]|] eqn:E; [|discriminate]. injection H as ->.
  apply (law_inv _ _ L) in E. destruct E as [W Hb]. split; [auto|].
  pose proof (f_equal (@length _) Hb) as HL. rewrite app_length, (law_size _ _ L) in HL by auto.
  assert (r = []) by (destruct r; [auto|cbn in HL; lia]). subst r.
  rewrite app_nil_r in Hb. unfold serialize. congruence.
Qed.

Lemma serialize_inj : forall A (c : codec A) n a b,
  lawful c n -> wf c a -> wf c b -> serialize c a = serialize c b -> a = b.
Proof.
  intros A c n a b L Wa Wb H.
  assert (Some a = Some b) as E; [|injection E; auto].
  rewrite <- (deserialize_serialize _ c n a L Wa), <- (deserialize_serialize _ c n b L Wb), H.
  reflexivity.
Qed.

Lemma deserialize_prefix : forall A (c : codec A) n a rest,
  lawful c n -> wf c a -> deserialize c (serialize c a ++ rest) = Some a.
Proof. intros A c n a rest L W. unfold deserialize, serialize. rewrite (law_rt _ _ L) by auto. reflexivity. Qed.

(** Which inputs are decoded at all. *)
Definition accepts {A} (c : codec A) (bs : list byte) : Prop := exists x, dec c bs = Some x.

Lemma dec_rest : forall A (c : codec A) n bs a r, lawful c n -> dec c bs = Some (a, r) -> r = skipn n bs.
Proof.
  intros A c n bs a r L H. apply (law_inv _ _ L) in H. destruct H as [W ->].
  rewrite skipn_app, (law_size _ _ L), Nat.sub_diag by auto.
  rewrite skipn_all2 by (rewrite (law_size _ _ L); auto). reflexivity.
Qed.

Lemma accepts_uint : forall k bs, accepts (c_uint k) bs <-> (k <= length bs)%nat.
Proof.
  intros k bs. unfold accepts. cbn. destruct (Nat.leb k (length bs)) eqn:E.
  - apply Nat.leb_le in E. split; [auto|]. intros _. eexists. reflexivity.
  - apply Nat.leb_gt in E. split; [intros [x H]; discriminate|lia].
Qed.

Lemma accepts_bool : forall bs, accepts c_bool bs <-> (exists t, bs = x00 :: t \/ bs = x01 :: t).
Proof.
  intros bs. unfold accepts. cbn. split.
  - intros [x H]. destruct bs as [|b t]; [discriminate|]. exists t.
    destruct b; try discriminate; auto.
  - intros [t [-> | ->]]; eexists; reflexivity.
Qed.

Lemma accepts_pair : forall A B (ca : codec A) (cb : codec B) n bs, lawful ca n ->
  (accepts (c_pair ca cb) bs <-> accepts ca bs /\ accepts cb (skipn n bs)).
Proof.
  intros A B ca cb n bs L. unfold accepts. cbn. split.
  - intros [x H]. destruct (dec ca bs) as [[a r]|] eqn:Ea; [|discriminate].
    pose proof (dec_rest _ _ _ _ _ _ L Ea); subst r.
    destruct (dec cb (skipn n bs)) as [[b r']|] eqn:Eb; [|discriminate].
    split; eexists; eauto.
  - intros [[[a r] Ea] [[b r'] Eb]]. rewrite Ea.
    pose proof (dec_rest _ _ _ _ _ _ L Ea); subst r. rewrite Eb. eexists. reflexivity.
Qed.

Lemma accepts_iso : forall A B (to : A -> B) (from : B -> A) (c : codec B) bs,
  accepts (c_iso to from c) bs <-> accepts c bs.
Proof.
  intros. unfold accepts. cbn. split.
  - intros [x H]. destruct (dec c bs) as [p|] eqn:E; [|discriminate]. eauto.
  - intros [[b r] E]. rewrite E. eexists. reflexivity.
Qed.

Lemma accepts_array_uint : forall n k bs,
  accepts (c_array n (c_uint k)) bs <-> (n * k <= length bs)%nat.
Proof.
  induction n; intros k bs.
  - unfold accepts; cbn. split; [lia|]. intros _. eexists. reflexivity.
  - unfold accepts. cbn [dec c_array dec_array].
    split.
    + intros [x H]. destruct (dec (c_uint k) bs) as [[a r]|] eqn:Ea; [|discriminate].
      assert (Hk : (k <= length bs)%nat) by (apply accepts_uint; unfold accepts; eauto).
      pose proof (dec_rest _ _ _ _ _ _ (lawful_uint k) Ea); subst r.
      destruct (dec_array (c_uint k) n (skipn k bs)) as [[l r']|] eqn:El; [|discriminate].
      assert (accepts (c_array n (c_uint k)) (skipn k bs)) as HA by (unfold accepts; cbn; eauto).
      apply IHn in HA. rewrite skipn_length in HA. lia.
    + intros H. assert (accepts (c_uint k) bs) as [[a r] Ea] by (apply accepts_uint; lia).
      rewrite Ea. pose proof (dec_rest _ _ _ _ _ _ (lawful_uint k) Ea); subst r.
      assert (accepts (c_array n (c_uint k)) (skipn k bs)) as [[l r'] El].
      { apply IHn. rewrite skipn_length. lia. }
      cbn [dec c_array] in El. rewrite El. eexists. reflexivity.
Qed.

Definition is_bool_byte (b : byte) : Prop := b = x00 \/ b = x01.

Lemma accepts_array_bool : forall n bs,
  accepts (c_array n c_bool) bs <-> (n <= length bs)%nat /\ Forall is_bool_byte (firstn n bs).
Proof.
  induction n; intros bs.
  - unfold accepts; cbn. split; [intros _; split; [lia|constructor]|]. intros _. eexists. reflexivity.
  - unfold accepts. cbn [dec c_array dec_array]. destruct bs as [|b t].
    + cbn. split; [intros [x H]; discriminate|intros [H _]; lia].
    + split.
      * intros [x H].
        destruct (dec c_bool (b :: t)) as [[a r]|] eqn:Ea; [|discriminate].
        assert (is_bool_byte b /\ r = t) as [Hb ->].
        { cbn in Ea. destruct b; try discriminate; injection Ea as <- <-; unfold is_bool_byte; auto. }
        destruct (dec_array c_bool n t) as [[l r']|] eqn:El; [|discriminate].
        assert (accepts (c_array n c_bool) t) as HA by (unfold accepts; cbn; eauto).
        apply IHn in HA. destruct HA as [H1 H2]. split; [cbn; lia|]. cbn. constructor; auto.
      * intros [H1 H2]. cbn in H1, H2. inversion H2 as [|? ? Hb Ht]; subst.
        assert (exists a, dec c_bool (b :: t) = Some (a, t)) as [a Ea].
        { destruct Hb as [-> | ->]; cbn; eauto. }
        rewrite Ea. assert (accepts (c_array n c_bool) t) as [[l r'] El] by (apply IHn; split; [lia|auto]).
        cbn [dec c_array] in El. rewrite El. eexists. reflexivity.
Qed.

Lemma accepts_enum : forall E k (to : E -> N) (of : N -> option E) bs,
  accepts (c_enum k to of) bs <->
  (k <= length bs)%nat /\ exists e, of (le_val (firstn k bs)) = Some e.
Proof.
  intros. unfold accepts. cbn. destruct (Nat.leb k (length bs)) eqn:L.
  - apply Nat.leb_le in L. split.
    + intros [x H]. split; [auto|]. destruct (of (le_val (firstn k bs))); [eauto|discriminate].
    + intros [_ [e He]]. rewrite He. eexists. reflexivity.
  - apply Nat.leb_gt in L. split; [intros [x H]; discriminate|intros [H _]; lia].
Qed.
