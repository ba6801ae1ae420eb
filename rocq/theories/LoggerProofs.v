(** The command log as a data structure: what [flush] returns after any use. *)
From Coq Require Import List Bool Arith Lia.
From Verif Require Import LoggerModel.
Import ListNotations.

Definition rotate {A} (k : nat) (l : list A) : list A := skipn k l ++ firstn k l.

(** What a flush yields when [old] was in the buffers at the last flush (or creation) and [es]
    were logged since. *)
Definition attached {A} (size : nat) (old es : list A) : list A :=
  let m := length es in
  if m <=? size then firstn m (old ++ es)
  else rotate (m mod size) (firstn size (skipn (m - size) (old ++ es))).
(** What stays in the buffers. *)
Definition kept {A} (size : nat) (old es : list A) : list A := skipn (length es - size) (old ++ es).

Section Logger.
  Context {S C : Type}.
  Notation logger := (@logger S C).

  Definition holds (l : logger) (size : nat) (D : list (S * C)) (front ring : nat) : Prop :=
    l = Logger (map fst D) (map snd D) front ring size.

  Fixpoint log_all (l : logger) (es : list (S * C)) : option logger :=
    match es with
    | [] => Some l
    | (s, c) :: r => match logger_log l s c with Some l => log_all l r | None => None end
    end.

  Lemma log_all_app : forall es es' l, log_all l (es ++ es') =
    match log_all l es with Some l => log_all l es' | None => None end.
  Proof.
    induction es as [|[s c] es IH]; intros es' l; [reflexivity|]. cbn [log_all app].
    destruct (logger_log l s c); auto.
  Qed.

  Lemma map_tl : forall A B (f : A -> B) l, map f (tl l) = tl (map f l).
  Proof. intros A B f [|a l]; reflexivity. Qed.
  Lemma tl_skipn : forall A k (l : list A), tl (skipn k l) = skipn (Datatypes.S k) l.
  Proof. induction k as [|k IH]; intros [|a l]; try reflexivity. cbn [skipn]. rewrite IH. reflexivity. Qed.

  Lemma log_all_spec : forall size old es l, (0 < size)%nat -> holds l size old 0 0 ->
    exists l', log_all l es = Some l' /\
      holds l' size (kept size old es) (length es mod size) (Nat.min (length es) size).
  Proof.
    intros size old es l P H. induction es as [|[s c] es IH] using rev_ind.
    - exists l. split; [reflexivity|]. unfold kept. cbn [length Nat.sub skipn]. rewrite app_nil_r.
      rewrite Nat.mod_0_l by lia. exact H.
    - destruct IH as (l1 & E1 & H1). rewrite log_all_app, E1. cbn [log_all].
      unfold holds in H1. subst l1. unfold logger_log. cbn [lg_states lg_commands lg_front lg_ring lg_size].
      destruct size as [|size']; [lia|]. remember (Datatypes.S size') as size.
      eexists. split; [reflexivity|]. unfold holds. rewrite app_length. cbn [length].
      f_equal.
      + unfold kept. rewrite app_length. cbn [length].
        destruct (Nat.eqb (Nat.min (length es) size) size) eqn:B.
        * apply Nat.eqb_eq in B. replace (length es + 1 - size) with (Datatypes.S (length es - size)) by lia.
          rewrite <- tl_skipn, map_tl. f_equal. rewrite (app_assoc old), (skipn_app _ (old ++ es)), map_app.
          replace (length es - size - length (old ++ es)) with 0 by (rewrite app_length; lia). reflexivity.
        * apply Nat.eqb_neq in B. replace (length es - size) with 0 by lia.
          replace (length es + 1 - size) with 0 by lia. cbn [skipn]. rewrite app_assoc, (map_app _ (old ++ es)). reflexivity.
      + unfold kept. rewrite app_length. cbn [length].
        destruct (Nat.eqb (Nat.min (length es) size) size) eqn:B.
        * apply Nat.eqb_eq in B. replace (length es + 1 - size) with (Datatypes.S (length es - size)) by lia.
          rewrite <- tl_skipn, map_tl. f_equal. rewrite (app_assoc old), (skipn_app _ (old ++ es)), map_app.
          replace (length es - size - length (old ++ es)) with 0 by (rewrite app_length; lia). reflexivity.
        * apply Nat.eqb_neq in B. replace (length es - size) with 0 by lia.
          replace (length es + 1 - size) with 0 by lia. cbn [skipn]. rewrite app_assoc, (map_app _ (old ++ es)). reflexivity.
      + rewrite Nat.add_mod_idemp_l by lia. reflexivity.
      + lia.
  Qed.

  Lemma nth_error_map_pair : forall (D : list (S * C)) i s c, nth_error D i = Some (s, c) ->
    nth_error (map fst D) i = Some s /\ nth_error (map snd D) i = Some c.
  Proof. intros D i s c E. rewrite !nth_error_map, E. split; reflexivity. Qed.

  Lemma flush_from_spec : forall l size D front ring n i, holds l size D front ring -> (0 < ring)%nat ->
    (ring <= length D)%nat ->
    exists r, flush_from l i n = Some r /\ length r = n /\
      forall j, j < n -> nth_error r j = nth_error D ((front + (i + j)) mod ring).
  Proof.
    intros l size D front ring n. induction n as [|n IH]; intros i H P L.
    - exists []. repeat split; auto. intros j Hj. lia.
    - destruct (IH (i + 1) H P L) as (r & E & Ln & N). cbn [flush_from]. rewrite E.
      unfold holds in H. subst l. cbn [lg_states lg_commands lg_front lg_ring].
      assert (B : (front + i) mod ring < length D) by (pose proof (Nat.mod_upper_bound (front + i) ring); lia).
      destruct (nth_error D ((front + i) mod ring)) as [[s c]|] eqn:E1;
        [|apply nth_error_None in E1; lia].
      destruct (nth_error_map_pair _ _ _ _ E1) as [Es Ec]. rewrite Es, Ec.
      exists ((s, c) :: r). split; [reflexivity|]. split; [cbn; lia|].
      intros [|j] Hj; cbn [nth_error].
      + rewrite Nat.add_0_r. symmetry. exact E1.
      + rewrite N by lia. f_equal. f_equal. lia.
  Qed.

  Lemma nth_error_skipn : forall A (l : list A) k j, nth_error (skipn k l) j = nth_error l (k + j).
  Proof. induction l as [|a l IH]; intros [|k] j; try reflexivity; cbn [skipn Nat.add nth_error]; [destruct j; reflexivity|apply IH]. Qed.
  Lemma nth_error_firstn : forall A (l : list A) k j, j < k -> nth_error (firstn k l) j = nth_error l j.
  Proof. induction l as [|a l IH]; intros [|k] [|j] H; try reflexivity; try lia. cbn. apply IH. lia. Qed.
  Lemma nth_error_rotate : forall A (l : list A) k j, k < length l -> j < length l ->
    nth_error (rotate k l) j = nth_error l ((k + j) mod length l).
  Proof.
    intros A l k j K J. unfold rotate. destruct (Nat.lt_ge_cases (k + j) (length l)) as [H|H].
    - rewrite nth_error_app1 by (rewrite skipn_length; lia). rewrite nth_error_skipn, Nat.mod_small by lia. reflexivity.
    - rewrite nth_error_app2 by (rewrite skipn_length; lia). rewrite skipn_length.
      rewrite nth_error_firstn by lia. f_equal.
      replace (k + j) with (k + j - length l + 1 * length l) by lia. rewrite Nat.mod_add by lia.
      rewrite Nat.mod_small by lia. lia.
  Qed.
  Lemma nth_ext_error : forall A (a b : list A), length a = length b ->
    (forall j, j < length a -> nth_error a j = nth_error b j) -> a = b.
  Proof.
    induction a as [|x a IH]; intros [|y b] L H; try discriminate; [reflexivity|].
    pose proof (H 0 ltac:(cbn; lia)) as H0. cbn in H0. injection H0 as ->. f_equal.
    apply IH; [cbn in L; lia|]. intros j Hj. apply (H (Datatypes.S j)). cbn. lia.
  Qed.
  Lemma rotate_length : forall A k (l : list A), length (rotate k l) = length l.
  Proof. intros A k l. unfold rotate. rewrite app_length, Nat.add_comm, <- app_length, firstn_skipn. reflexivity. Qed.
  Lemma rotate_0 : forall A (l : list A), rotate 0 l = l.
  Proof. intros. unfold rotate. cbn. apply app_nil_r. Qed.

  (** Creation or a flush, any number of records, a flush: it yields [attached] and leaves [kept]. *)
  Lemma flush_spec : forall size old es l l', (0 < size)%nat -> holds l size old 0 0 -> log_all l es = Some l' ->
    exists l2, logger_flush l' = (Some (attached size old es), l2) /\ holds l2 size (kept size old es) 0 0.
  Proof.
    intros size old es l l' P H E. destruct (log_all_spec size old es l P H) as (l1 & E1 & H1).
    rewrite E in E1. injection E1 as <-. exists (Logger (lg_states l') (lg_commands l') 0 0 (lg_size l')). unfold logger_flush.
    assert (Hd : length (kept size old es) = length old + Nat.min (length es) size).
    { unfold kept. rewrite skipn_length, app_length. lia. }
    split; [|unfold holds in *; rewrite H1; reflexivity]. apply (f_equal (fun o => (o, _))).
    assert (Rg : lg_ring l' = Nat.min (length es) size) by (rewrite H1; reflexivity). rewrite Rg.
    destruct es as [|e es].
    { unfold attached. cbn [length firstn]. replace (0 <=? size) with true by (symmetry; apply Nat.leb_le; lia). reflexivity. }
    remember (e :: es) as fs. assert (Lf : 0 < length fs) by (subst; cbn; lia). clear Heqfs e es.
    destruct (flush_from_spec l' size (kept size old fs) (length fs mod size) (Nat.min (length fs) size)
                (Nat.min (length fs) size) 0 H1) as (r & Er & Lr & Nr); [lia|lia|].
    rewrite Er. f_equal. unfold attached.
    destruct (length fs <=? size) eqn:B.
    - apply Nat.leb_le in B. apply nth_ext_error.
      + rewrite Lr, firstn_length, app_length. lia.
      + rewrite Lr. intros j Hj. rewrite Nr by lia. rewrite nth_error_firstn by lia.
        unfold kept. replace (length fs - size) with 0 by lia. cbn [skipn]. f_equal.
        replace (Nat.min (length fs) size) with (length fs) in * by lia. cbn [Nat.add].
        destruct (Nat.eq_dec (length fs) size) as [Q|Q].
        * rewrite Q, Nat.mod_same by lia. cbn [Nat.add]. apply Nat.mod_small. lia.
        * rewrite (Nat.mod_small (length fs) size) by lia.
          replace (length fs + j) with (j + 1 * length fs) by lia. rewrite Nat.mod_add by lia. apply Nat.mod_small. lia.
    - apply Nat.leb_gt in B. replace (Nat.min (length fs) size) with size in * by lia.
      assert (Lx : length (firstn size (skipn (length fs - size) (old ++ fs))) = size).
      { rewrite firstn_length, skipn_length, app_length. lia. }
      apply nth_ext_error.
      + rewrite Lr, rotate_length, Lx. reflexivity.
      + rewrite Lr. intros j Hj. rewrite Nr by lia. cbn [Nat.add].
        rewrite nth_error_rotate; rewrite ?Lx; [|apply Nat.mod_upper_bound; lia|lia].
        rewrite nth_error_firstn by (apply Nat.mod_upper_bound; lia). reflexivity.
  Qed.

  Lemma new_holds : forall size, holds (logger_new size) size [] 0 0.
  Proof. reflexivity. Qed.

  Lemma attached_length : forall size old (es : list (S * C)), length (attached size old es) = Nat.min (length es) size.
  Proof.
    intros. unfold attached. destruct (length es <=? size) eqn:B.
    - apply Nat.leb_le in B. rewrite firstn_length, app_length. lia.
    - apply Nat.leb_gt in B. rewrite rotate_length, firstn_length, skipn_length, app_length. lia.
  Qed.
  Lemma attached_in : forall size old (es : list (S * C)) x, In x (attached size old es) -> In x (old ++ es).
  Proof.
    assert (F : forall A k (l : list A) x, In x (firstn k l) -> In x l).
    { intros A k l x H. rewrite <- (firstn_skipn k l). apply in_or_app. auto. }
    assert (K : forall A k (l : list A) x, In x (skipn k l) -> In x l).
    { intros A k l x H. rewrite <- (firstn_skipn k l). apply in_or_app. auto. }
    intros size old es x. unfold attached. destruct (length es <=? size); intros H.
    - eapply F, H.
    - unfold rotate in H. apply in_app_or in H. destruct H as [H|H].
      + apply K in H. apply F in H. apply K in H. exact H.
      + apply F in H. apply F in H. apply K in H. exact H.
  Qed.
  Lemma attached_fresh : forall size (es : list (S * C)), length es <= size -> attached size [] es = es.
  Proof.
    intros size es H. unfold attached. replace (length es <=? size) with true by (symmetry; apply Nat.leb_le; lia).
    cbn [app]. apply firstn_all.
  Qed.
End Logger.
