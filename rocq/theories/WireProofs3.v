(** Proofs about the wire formats: decoding against the byte-offset specification. *)
From Coq Require Import List NArith ZArith Lia Bool Arith.
From Coq Require Import Init.Byte Strings.Byte.
From Verif Require Import Bytes Codec WireModel WireSpec WireProofs WireProofs2.
Import ListNotations.

Lemma u64_wf : forall v, u64_ok v <-> wf c_u64 v.
Proof. intros v. reflexivity. Qed.
Lemma arr_wf : forall n l, arr_ok n l <-> wf (c_f64s n) l.
Proof. intros n l. reflexivity. Qed.
Lemma bools_wf : forall n l, length l = n <-> wf (c_array n c_bool) l.
Proof.
  intros n l. cbn. split; [intros H; split; auto; apply Forall_forall; intros; exact I|intros [H _]; auto].
Qed.

Lemma state_ok_wf : forall s, state_ok s <-> wf c_robot_state_intern s.
Proof.
  intros s. unfold state_ok, c_robot_state_intern, robot_state_intern_tup.
  cbn [wf c_iso c_pair fst snd].
  rewrite !Forall_cons_iff, !bools_wf, !u64_wf, !arr_wf.
  change (wf c_mg_mode _) with True. change (wf c_ctrl_mode _) with True. change (wf c_robot_mode _) with True.
  split.
  - intros H. repeat match goal with H : _ /\ _ |- _ => destruct H end.
    repeat match goal with |- _ /\ _ => split end; assumption || exact I.
  - intros H. repeat match goal with H : _ /\ _ |- _ => destruct H end.
    repeat match goal with |- _ /\ _ => split end; try assumption; constructor.
Qed.

Lemma command_ok_wf : forall c, command_ok c <-> wf c_robot_command c.
Proof.
  intros c. unfold command_ok, c_robot_command, c_motion_command. cbn [wf c_iso c_pair fst snd].
  rewrite u64_wf, !arr_wf. change (wf c_bool _) with True. tauto.
Qed.

Lemma gripper_state_ok_wf : forall s, gripper_state_ok s <-> wf c_gripper_state s.
Proof.
  intros s. unfold gripper_state_ok, c_gripper_state. cbn [wf c_iso c_pair fst snd].
  change (wf c_bool _) with True. unfold u64_ok, c_u32, c_f64, c_u16. cbn. tauto.
Qed.

(** A layout whose pieces tile the string determines the string. *)
Lemma slice_tiles : forall segs b o,
  Forall (fun p => slice b (fst p) (length (snd p)) = snd p) (offsets o segs) ->
  slice b o (length (concat segs)) = concat segs.
Proof.
  induction segs as [|s t IH]; intros b o H.
  - cbn. unfold slice. reflexivity.
  - cbn [offsets] in H. apply Forall_cons_iff in H. destruct H as [H1 H2]. cbn [fst snd] in H1.
    cbn [concat]. rewrite app_length, slice_split, H1. f_equal. apply IH in H2. exact H2.
Qed.

Lemma has_layout_unique : forall b total l,
  offsets 0 (map snd l) = l -> has_layout b total l -> b = concat (map snd l).
Proof.
  intros b total l Ho (Hl & Hf & Hs). rewrite <- Ho in Hf at 1. apply slice_tiles in Hf.
  assert (E : length (concat (map snd l)) = length b).
  { rewrite Hl, <- Hs. clear. induction l as [|p l IH]; [reflexivity|].
    cbn. rewrite app_length, IH. reflexivity. }
  rewrite <- Hf, E. unfold slice. cbn. rewrite firstn_all. reflexivity.
Qed.

Lemma layout_det : forall b b' total l,
  offsets 0 (map snd l) = l -> has_layout b total l -> has_layout b' total l -> b = b'.
Proof. intros b b' total l Ho H H'. rewrite (has_layout_unique _ _ _ Ho H), (has_layout_unique _ _ _ Ho H'). reflexivity. Qed.

Lemma state_layout_tiles : forall s, wf c_robot_state_intern s ->
  offsets 0 (map snd (state_layout s)) = state_layout s.
Proof.
  intros s W. unfold c_robot_state_intern, robot_state_intern_tup in W. cbn [wf c_iso c_pair fst snd] in W.
  repeat match goal with H : _ /\ _ |- _ => destruct H end.
  rewrite offsets_psums.
  assert (M : map (@length byte) (map snd (state_layout s)) =
              [8; 128; 128; 128; 128; 128; 128; 8; 72; 24; 8; 72; 24; 16; 16; 56; 56; 56; 56; 56; 56;
               56; 56; 56; 48; 56; 48; 56; 48; 48; 48; 24; 16; 16; 16; 128; 48; 48; 56; 56;
               1; 1; 32; 9; 32; 9; 1; 8]%nat) by (unfold state_layout; cbn [map snd]; lens_tac).
  rewrite M. reflexivity.
Qed.

Lemma command_layout_tiles : forall c, wf c_robot_command c ->
  offsets 0 (map snd (command_layout c)) = command_layout c.
Proof.
  intros c W. cbn [wf c_iso c_robot_command c_motion_command c_pair fst snd] in W.
  repeat match goal with H : _ /\ _ |- _ => destruct H end.
  rewrite offsets_psums.
  assert (M : map (@length byte) (map snd (command_layout c)) = [8; 56; 56; 128; 48; 16; 1; 1; 56]%nat)
    by (unfold command_layout; cbn [map snd]; lens_tac).
  rewrite M. reflexivity.
Qed.

Lemma gripper_state_layout_tiles : forall s,
  offsets 0 (map snd (gripper_state_layout s)) = gripper_state_layout s.
Proof. intros s. reflexivity. Qed.

(** C05: a 2373-byte datagram decodes to [s] iff it is laid out as [s]. *)
Theorem state_decode_iff : forall b s, length b = 2373%nat ->
  (deserialize c_robot_state_intern b = Some s <->
   state_ok s /\ has_layout b 2373 (state_layout s)).
Proof.
  intros b s L. split.
  - intros H. destruct (deserialize_exact _ _ _ _ _ lawful_robot_state L H) as [W <-].
    split; [apply state_ok_wf; exact W|apply state_layout_ok; exact W].
  - intros [W H]. apply state_ok_wf in W.
    rewrite (layout_det _ _ _ _ (state_layout_tiles s W) H (state_layout_ok s W)).
    apply (deserialize_serialize _ _ _ _ lawful_robot_state W).
Qed.

Theorem command_decode_iff : forall b c, length b = 370%nat ->
  (deserialize c_robot_command b = Some c <->
   command_ok c /\ has_layout b 370 (command_layout c)).
Proof.
  intros b s L. split.
  - intros H. destruct (deserialize_exact _ _ _ _ _ lawful_robot_command L H) as [W <-].
    split; [apply command_ok_wf; exact W|apply command_layout_ok; exact W].
  - intros [W H]. apply command_ok_wf in W.
    rewrite (layout_det _ _ _ _ (command_layout_tiles s W) H (command_layout_ok s W)).
    apply (deserialize_serialize _ _ _ _ lawful_robot_command W).
Qed.

Theorem gripper_state_decode_iff : forall b s, length b = 23%nat ->
  (deserialize c_gripper_state b = Some s <->
   gripper_state_ok s /\ has_layout b 23 (gripper_state_layout s)).
Proof.
  intros b s L. split.
  - intros H. destruct (deserialize_exact _ _ _ _ _ lawful_gripper_state L H) as [W <-].
    split; [apply gripper_state_ok_wf; exact W|apply gripper_state_layout_ok; exact W].
  - intros [W H]. apply gripper_state_ok_wf in W.
    rewrite (layout_det _ _ _ _ (gripper_state_layout_tiles s) H (gripper_state_layout_ok s W)).
    apply (deserialize_serialize _ _ _ _ lawful_gripper_state W).
Qed.

Theorem command_encode_ok : forall c, command_ok c ->
  has_layout (serialize c_robot_command c) 370 (command_layout c).
Proof. intros c H. apply command_layout_ok, command_ok_wf, H. Qed.

Theorem command_encode_inj : forall c c', command_ok c -> command_ok c' ->
  serialize c_robot_command c = serialize c_robot_command c' -> c = c'.
Proof.
  intros c c' H H'. apply (serialize_inj _ _ _ _ _ lawful_robot_command); apply command_ok_wf; assumption.
Qed.
