(** C81: what is printed for an exception. *)
From Coq Require Import List NArith Bool String Ascii Decimal DecimalString DecimalN DecimalPos DecimalNat Arith Lia.
From Verif Require Import WireModel ErrorsModel RobotModel GripperModel ExceptionModel.
Import ListNotations.
Open Scope nat_scope.
Open Scope string_scope.

(** * Specification *)
(** The message of the four kinds of exceptions which print it in Debug format. *)
Definition carries {L} (e : exception L) (m : string) : Prop :=
  e = NetworkError m \/ e = CommandError m \/ e = ModelError m \/ e = RealTimeError m.
Definition in_line (c : ascii) : Prop := 32 <= nat_of_ascii c <= 126.
Fixpoint every (P : ascii -> Prop) (s : string) : Prop := match s with EmptyString => True | String c s => P c /\ every P s end.

(** * Texts *)
Lemma prefix_refl : forall a s, String.prefix a (a ++ s) = true.
Proof. induction a as [|c a IH]; intros s; [destruct s; reflexivity|]. cbn. destruct (ascii_dec c c); [apply IH|contradiction]. Qed.
Lemma prefix_either : forall a b s t, a ++ s = b ++ t -> String.prefix a b = true \/ String.prefix b a = true.
Proof.
  induction a as [|c a IH]; intros b s t H; [left; destruct b; reflexivity|]. destruct b as [|d b]; [right; reflexivity|].
  cbn in H. injection H as -> H. cbn. destruct (ascii_dec d d); [|contradiction]. exact (IH b s t H).
Qed.
Lemma app_same : forall a s t : string, a ++ s = a ++ t -> s = t.
Proof. induction a as [|c a IH]; intros s t H; [exact H|]. cbn in H. injection H as H. exact (IH _ _ H). Qed.
Definition all_ascii : list ascii := map ascii_of_nat (seq 0 256).
Lemma all_ascii_in : forall c, In c all_ascii.
Proof.
  intros c. unfold all_ascii. rewrite <- (ascii_nat_embedding c). apply in_map, in_seq. pose proof (nat_ascii_bounded c). lia.
Qed.
(** No escape is the beginning of another, or of the closing quote. *)
Lemma escape_prefix : forall c d, String.prefix (escape c) (escape d) = true -> c = d.
Proof.
  assert (A : forallb (fun c => forallb (fun d => implb (String.prefix (escape c) (escape d)) (Ascii.eqb c d)) all_ascii) all_ascii = true) by (vm_compute; reflexivity).
  intros c d H. rewrite forallb_forall in A. specialize (A c (all_ascii_in c)). rewrite forallb_forall in A. specialize (A d (all_ascii_in d)).
  rewrite H in A. apply Ascii.eqb_eq. exact A.
Qed.
Lemma escape_quote : forall c s t, escape c ++ s <> char 34 ++ t.
Proof.
  assert (A : forallb (fun c => negb (String.prefix (escape c) (char 34)) && negb (String.prefix (char 34) (escape c))) all_ascii = true) by (vm_compute; reflexivity).
  intros c s t H. rewrite forallb_forall in A. specialize (A c (all_ascii_in c)). apply andb_prop in A. destruct A as [A1 A2].
  destruct (prefix_either _ _ _ _ H) as [P|P]; rewrite P in *; discriminate.
Qed.
Lemma escaped_same : forall m m', escaped m ++ char 34 = escaped m' ++ char 34 -> m = m'.
Proof.
  assert (Ap : forall a b c : string, (a ++ b) ++ c = a ++ (b ++ c)) by (induction a as [|x a IH]; intros; [reflexivity|]; cbn; rewrite IH; reflexivity).
  assert (Z : char 34 = char 34 ++ "") by reflexivity.
  induction m as [|c m IH]; intros [|d m'] H; [reflexivity| | |]; cbn [escaped] in H.
  - rewrite Ap in H. exfalso. eapply (escape_quote d). rewrite <- Z. symmetry. exact H.
  - rewrite Ap in H. exfalso. eapply (escape_quote c). rewrite <- Z. exact H.
  - rewrite !Ap in H. assert (E : c = d).
    { destruct (prefix_either _ _ _ _ H) as [P|P]; apply escape_prefix in P; auto. }
    subst d. f_equal. apply IH. exact (app_same _ _ _ H).
Qed.

(** The text of a network, command, model or real-time exception contains its message: two with the same text have the same message,
    although they may be of different kinds. *)
Theorem C81_message : forall L (e e' : exception L) m m', carries e m -> carries e' m' -> (displayed e = displayed e' <-> m = m').
Proof.
  intros L e e' m m' C C'.
  assert (E : displayed e = debug_text m) by (destruct C as [->|[->|[->| ->]]]; reflexivity).
  assert (E' : displayed e' = debug_text m') by (destruct C' as [->|[->|[->| ->]]]; reflexivity).
  rewrite E, E'. split; [|intros ->; reflexivity]. unfold debug_text. cbn. intros H. injection H as H. exact (escaped_same _ _ H).
Qed.
Print Assumptions C81_message.
(** It is one line of printable characters, whatever ASCII characters the message has. *)
Lemma every_app : forall P a b, every P a -> every P b -> every P (a ++ b).
Proof. induction a as [|c a IH]; intros b A B; [exact B|]. destruct A as [A1 A2]. split; [exact A1|exact (IH b A2 B)]. Qed.
Theorem C81_one_line : forall L (e : exception L) m, carries e m -> every (fun c => nat_of_ascii c <= 127) m -> every in_line (displayed e).
Proof.
  intros L e m C A. assert (E : displayed e = debug_text m) by (destruct C as [->|[->|[->| ->]]]; reflexivity). rewrite E.
  assert (Q : forall c, nat_of_ascii c <= 127 -> every in_line (escape c)).
  { assert (B : forallb (fun c => Nat.ltb 127 (nat_of_ascii c) || forallb (fun d => Nat.leb 32 (nat_of_ascii d) && Nat.leb (nat_of_ascii d) 126) (list_ascii_of_string (escape c))) all_ascii = true)
      by (vm_compute; reflexivity).
    intros c Hc. rewrite forallb_forall in B. specialize (B c (all_ascii_in c)). apply orb_prop in B. destruct B as [B|B]; [apply Nat.ltb_lt in B; lia|].
    revert B. generalize (escape c). induction s as [|d s IH]; [exact (fun _ => Logic.I)|]. cbn [list_ascii_of_string forallb every]. intros B. apply andb_prop in B. destruct B as [B1 B2].
    apply andb_prop in B1. destruct B1 as [B1 B3]. apply Nat.leb_le in B1, B3. split; [split; assumption|exact (IH B2)]. }
  assert (D : every in_line (char 34)) by (split; [unfold in_line; cbn; lia|exact Logic.I]).
  unfold debug_text. apply every_app; [exact D|]. apply every_app; [|exact D]. clear - A Q.
  induction m as [|c m IH]; [exact Logic.I|]. destruct A as [A1 A2]. cbn [escaped]. apply every_app; [exact (Q c A1)|exact (IH A2)].
Qed.
Print Assumptions C81_one_line.

(** A message without quotes, backslashes and control characters stands there as it is, in quotes. *)
Definition plain (c : ascii) : Prop := in_line c /\ nat_of_ascii c <> 34 /\ nat_of_ascii c <> 92.
Lemma escaped_plain : forall m, every plain m -> escaped m = m.
Proof.
  induction m as [|c m IH]; intros A; [reflexivity|]. destruct A as [((A1 & A2) & A3 & A4) B]. cbn [escaped]. rewrite (IH B).
  assert (E : escape c = String c "").
  { unfold escape. repeat (rewrite (proj2 (Nat.eqb_neq _ _)) by lia). rewrite (proj2 (Nat.ltb_ge _ _)) by lia. reflexivity. }
  rewrite E. reflexivity.
Qed.
Theorem C81_plain : forall L (e : exception L) m, carries e m -> every plain m -> displayed e = char 34 ++ m ++ char 34.
Proof.
  intros L e m C A. assert (E : displayed e = debug_text m) by (destruct C as [->|[->|[->| ->]]]; reflexivity). rewrite E. unfold debug_text. rewrite escaped_plain by exact A. reflexivity.
Qed.
Print Assumptions C81_plain.
(** This is the case for every answer of the robot which is made an exception: [quoted] of RobotModel.v is what is printed. *)
Definition plainb (s : string) : bool :=
  forallb (fun c => Nat.leb 32 (nat_of_ascii c) && Nat.leb (nat_of_ascii c) 126 && negb (Nat.eqb (nat_of_ascii c) 34) && negb (Nat.eqb (nat_of_ascii c) 92)) (list_ascii_of_string s).
Lemma plainb_true : forall s, plainb s = true -> every plain s.
Proof.
  induction s as [|c s IH]; [exact (fun _ => Logic.I)|]. unfold plainb. cbn [list_ascii_of_string forallb]. intros B. apply andb_prop in B. destruct B as [B B2].
  apply andb_prop in B. destruct B as [B B4]. apply andb_prop in B. destruct B as [B B3]. apply andb_prop in B. destruct B as [B1 B5].
  apply Nat.leb_le in B1, B5. apply negb_true_iff in B3, B4. apply Nat.eqb_neq in B3, B4. split; [|exact (IH B2)]. repeat split; assumption.
Qed.
Theorem C81_answers : forall L m, (exists a, handle_move a = Some (CommandException m)) \/ (exists a, handle_stop a = Some (CommandException m)) \/
    (exists a, handle_setter a = Some (CommandException m)) \/ (exists a, handle_user_stop a = Some (CommandException m)) \/
    (exists a, handle_recovery a = Some (CommandException m)) ->
  every plain m /\ displayed (@CommandError L m) = quoted m.
Proof.
  intros L m H. assert (P : every plain m).
  { apply plainb_true. destruct H as [[a H]|[[a H]|[[a H]|[[a H]|[a H]]]]]; destruct a; try discriminate H; injection H as <-; vm_compute; reflexivity. }
  split; [exact P|]. exact (C81_plain L _ m (or_intror (or_introl eq_refl)) P).
Qed.
Print Assumptions C81_answers.
(** Of a rejected or aborted motion, of the stop at the end of a motion, of a setter and of the recovery the text tells the answer;
    of the public stop it does not: an aborted stop reads like one that is not possible. *)
Theorem C81_reason : forall L m m', displayed (@CommandError L m) = displayed (@CommandError L m') ->
  (forall a b, handle_move a = Some (CommandException m) -> handle_move b = Some (CommandException m') -> a = b) /\
  (forall a b, handle_stop a = Some (CommandException m) -> handle_stop b = Some (CommandException m') -> a = b) /\
  (forall a b, handle_setter a = Some (CommandException m) -> handle_setter b = Some (CommandException m') -> a = b) /\
  (forall a b, handle_recovery a = Some (CommandException m) -> handle_recovery b = Some (CommandException m') -> a = b).
Proof.
  intros L m m' H. apply (C81_message L _ _ m m') in H; [|right; left; reflexivity|right; left; reflexivity]. subst m'.
  repeat split; intros a b A B; rewrite <- B in A; destruct a, b; try reflexivity; try discriminate A; discriminate B.
Qed.
Print Assumptions C81_reason.
Theorem C81_stop_reason_refuted : exists a b m, a <> b /\ handle_user_stop a = Some (CommandException m) /\ handle_user_stop b = Some (CommandException m).
Proof. exists SsCommandNotPossibleRejected, SsAborted. eexists. repeat split. discriminate. Qed.
Print Assumptions C81_stop_reason_refuted.

(** The same for the gripper: its two failures have plain texts, which tell them apart. *)
Theorem C81_gripper : forall L a b m m', handle_response_status a = Err (CommandException m) -> handle_response_status b = Err (CommandException m') ->
  displayed (@CommandError L m) = char 34 ++ m ++ char 34 /\ (displayed (@CommandError L m) = displayed (@CommandError L m') -> a = b).
Proof.
  intros L a b m m' A B. assert (P : every plain m) by (apply plainb_true; destruct a; try discriminate A; injection A as <-; vm_compute; reflexivity).
  split; [exact (C81_plain L _ m (or_intror (or_introl eq_refl)) P)|]. intros H. apply (C81_message L _ _ m m') in H; [|right; left; reflexivity|right; left; reflexivity]. subst m'.
  rewrite <- B in A. destruct a, b; try reflexivity; try discriminate A; discriminate B.
Qed.
Print Assumptions C81_gripper.
Example C81_ex_gripper : handle_response_status GrFail = Err (CommandException "libfranka-rs gripper: Command failed!") /\
  displayed (@CommandError unit "libfranka-rs gripper: Command failed!") = char 34 ++ "libfranka-rs gripper: Command failed!" ++ char 34.
Proof. split; reflexivity. Qed.

(** * Versions *)
Definition digit (c : ascii) : Prop := nat_of_ascii c <> 32.
Lemma number_digits : forall n, every digit (number_text n).
Proof.
  intros n. unfold number_text. assert (U : forall u, every digit (NilEmpty.string_of_uint u)).
  { induction u; cbn [NilEmpty.string_of_uint every]; try exact Logic.I; (split; [unfold digit; cbn; lia|assumption]). }
  unfold NilZero.string_of_uint. destruct (N.to_uint n); try apply U. split; [unfold digit; cbn; lia|exact Logic.I].
Qed.
Lemma number_same : forall n n', number_text n = number_text n' -> n = n'.
Proof.
  assert (NN : forall n, N.to_uint n <> Nil).
  { intros [|p]; [discriminate|]. apply DecimalPos.Unsigned.to_uint_nonnil. }
  intros n n' H. unfold number_text in H. apply DecimalN.Unsigned.to_uint_inj.
  pose proof (NilZero.usu (N.to_uint n) (NN n)) as A. pose proof (NilZero.usu (N.to_uint n') (NN n')) as B. rewrite H in A. rewrite A in B. injection B as B. exact B.
Qed.
Lemma until_space : forall a b s t, every digit a -> every digit b -> a ++ String " " s = b ++ String " " t -> a = b /\ s = t.
Proof.
  induction a as [|c a IH]; intros [|d b] s t A B H; cbn in H.
  - injection H as H. auto.
  - injection H as H _. subst d. destruct B as [B _]. exfalso. apply B. reflexivity.
  - injection H as H _. subst c. destruct A as [A _]. exfalso. apply A. reflexivity.
  - injection H as -> H. destruct A as [_ A], B as [_ B]. destruct (IH b s t A B H) as [-> ->]. auto.
Qed.
(** The text of a version error tells both versions. *)
Theorem C81_versions : forall L s l s' l', displayed (@IncompatibleVersion L s l) = displayed (@IncompatibleVersion L s' l') -> s = s' /\ l = l'.
Proof.
  intros L s l s' l' H. cbn [displayed] in H. apply app_same in H.
  destruct (until_space (number_text s) (number_text s') ("and libfranka-rs has " ++ number_text l) ("and libfranka-rs has " ++ number_text l') (number_digits s) (number_digits s') H) as [E1 E2].
  apply app_same in E2. split; apply number_same; assumption.
Qed.
Print Assumptions C81_versions.

(** But the text does not tell the kind: a lost connection and a rejected command may print the same, and so may a control exception. *)
Theorem C81_kind_refuted : forall L, exists (a b c : exception L), displayed a = displayed b /\ displayed b = displayed c /\ a <> b /\ b <> c /\ a <> c.
Proof.
  intros L. exists (NetworkError "timeout"), (CommandError "timeout"), (ControlError None (debug_text "timeout")). repeat split; discriminate.
Qed.
Print Assumptions C81_kind_refuted.

(** A message with a quote, a line break and a bell; a version error. *)
Example C81_ex : carries (@ModelError unit ("say " ++ char 34 ++ char 10 ++ char 7)) ("say " ++ char 34 ++ char 10 ++ char 7) /\
  displayed (@ModelError unit ("say " ++ char 34 ++ char 10 ++ char 7)) = char 34 ++ "say " ++ char 92 ++ char 34 ++ char 92 ++ "n" ++ char 92 ++ "u{7}" ++ char 34 /\
  displayed (@IncompatibleVersion unit 5 4) = "Incompatible library version: Robot has version 5 and libfranka-rs has 4" /\
  handle_move MsAborted = Some (CommandException "libfranka-rs: Move command aborted!").
Proof. split; [right; right; left; reflexivity|]. vm_compute. auto. Qed.
