(** Proofs about the wire formats. *)
From Coq Require Import List NArith ZArith Lia Bool Arith.
From Coq Require Import Init.Byte.
From Verif Require Import Bytes Codec WireModel WireSpec.
Import ListNotations.

Lemma lawful_eq : forall A (c : codec A) n m, lawful c n -> n = m -> lawful c m.
Proof. intros; subst; auto. Qed.

Lemma enum_of_to : forall E (l : list E) (to : E -> N) v e, enum_of l to v = Some e -> to e = v.
Proof. intros E l to v e H. apply find_some in H. destruct H as [_ H]. apply N.eqb_eq. exact H. Qed.

Ltac solve_enum :=
  apply lawful_enum; [intros []; reflexivity | intros ? ?; apply enum_of_to | intros []; cbn; lia].

Lemma lawful_mg : lawful c_mg_mode 1. Proof. solve_enum. Qed.
Lemma lawful_ctrl : lawful c_ctrl_mode 1. Proof. solve_enum. Qed.
Lemma lawful_rm : lawful c_robot_mode 1. Proof. solve_enum. Qed.
Lemma lawful_robot_cmd : lawful c_robot_cmd 4. Proof. solve_enum. Qed.
Lemma lawful_move_ctrl : lawful c_move_ctrl 4. Proof. solve_enum. Qed.
Lemma lawful_move_mg : lawful c_move_mg 4. Proof. solve_enum. Qed.
Lemma lawful_move_status : lawful c_move_status 1. Proof. solve_enum. Qed.
Lemma lawful_stop_status : lawful c_stop_status 1. Proof. solve_enum. Qed.
Lemma lawful_recovery_status : lawful c_recovery_status 1. Proof. solve_enum. Qed.
Lemma lawful_gs_status : lawful c_gs_status 1. Proof. solve_enum. Qed.
Lemma lawful_lm_status : lawful c_lm_status 1. Proof. solve_enum. Qed.
Lemma lawful_connect_status : lawful c_connect_status 1. Proof. solve_enum. Qed.
Lemma lawful_gr_cmd : lawful c_gr_cmd 2. Proof. solve_enum. Qed.
Lemma lawful_gr_status : lawful c_gr_status 2. Proof. solve_enum. Qed.

Lemma lawful_i32 : lawful c_i32 4.
Proof.
  pose proof (lawful_uint 4) as U. split.
  - intros z rest H. cbn -[c_uint c_u32 le_bytes] in *. unfold c_u32.
    assert (B : (0 <= z mod 4294967296 < 4294967296)%Z) by (apply Z.mod_pos_bound; lia).
    change (le_bytes 4 (Z.to_N (z mod 4294967296))) with (enc (c_uint 4) (Z.to_N (z mod 4294967296))).
    rewrite (law_rt _ _ U) by (cbn; lia). f_equal. f_equal.
    rewrite Z2N.id by lia.
    destruct (Z.lt_ge_cases z 0) as [Hn | Hp].
    + replace (z mod 4294967296)%Z with (z + 4294967296)%Z.
      2:{ apply (Z.mod_unique_pos _ _ (-1)); lia. }
      replace (Z.to_N (z + 4294967296) <? 2147483648)%N with false; [lia|].
      symmetry. apply N.ltb_ge. lia.
    + rewrite Z.mod_small by lia.
      replace (Z.to_N z <? 2147483648)%N with true; [lia|]. symmetry. apply N.ltb_lt. lia.
  - intros bs z rest H. cbn -[c_uint c_u32 le_bytes] in *. unfold c_u32 in H.
    destruct (dec (c_uint 4) bs) as [[v r]|] eqn:E; [|discriminate].
    injection H as Hz <-. apply (law_inv _ _ U) in E. destruct E as [W ->]. cbn in W.
    destruct (v <? 2147483648)%N eqn:L.
    + apply N.ltb_lt in L. subst z. split; [lia|].
      rewrite Z.mod_small by lia. rewrite N2Z.id. reflexivity.
    + apply N.ltb_ge in L. subst z. split; [lia|].
      replace ((Z.of_N v - 4294967296) mod 4294967296)%Z with (Z.of_N v).
      2:{ apply (Z.mod_unique_pos _ _ (-1)); lia. }
      rewrite N2Z.id. reflexivity.
  - intros. apply le_bytes_length.
Qed.

Create HintDb wire discriminated.
#[export] Hint Resolve lawful_mg lawful_ctrl lawful_rm lawful_robot_cmd lawful_move_ctrl lawful_move_mg
  lawful_move_status lawful_stop_status lawful_recovery_status lawful_gs_status lawful_lm_status
  lawful_connect_status lawful_gr_cmd lawful_gr_status lawful_i32 lawful_bool : wire.

Ltac lawful_tac :=
  lazymatch goal with
  | |- lawful (c_pair _ _) _ => eapply lawful_pair; lawful_tac
  | |- lawful (c_iso _ _ _) _ => eapply lawful_iso; [ | | lawful_tac ]
  | |- lawful (c_array _ _) _ => eapply lawful_array; lawful_tac
  | |- lawful (c_uint _) _ => eapply lawful_uint
  | |- lawful (c_enum _ _ _) _ => eauto with wire
  | |- lawful ?c _ =>
      first [ solve [eauto with wire] |
              let h := (match c with ?f _ => f | _ => c end) in
              unfold h; lawful_tac ]
  end.

Ltac solve_lawful := eapply lawful_eq; [lawful_tac | reflexivity].

Lemma lawful_robot_header : lawful c_robot_header 12. Proof. solve_lawful. Qed.
#[export] Hint Resolve lawful_robot_header : wire.
Lemma lawful_gripper_header : lawful c_gripper_header 10. Proof. solve_lawful. Qed.
#[export] Hint Resolve lawful_gripper_header : wire.
Lemma lawful_f64s : forall n, lawful (c_f64s n) (n * 8). Proof. intros. apply lawful_array, lawful_uint. Qed.
#[export] Hint Resolve lawful_f64s : wire.
Lemma lawful_deviation : lawful c_deviation 24. Proof. solve_lawful. Qed.
#[export] Hint Resolve lawful_deviation : wire.

Lemma lawful_robot_state : lawful c_robot_state_intern 2373.
Proof.
  eapply lawful_eq. unfold c_robot_state_intern. eapply lawful_iso.
  - intros []; reflexivity.
  - intros b. unfold robot_state_intern_untup.
    repeat match goal with |- context [match ?x with pair _ _ => _ end] => destruct x end. reflexivity.
  - lawful_tac.
  - reflexivity.
Qed.

Lemma lawful_motion_command : lawful c_motion_command 306.
Proof.
  eapply lawful_eq. unfold c_motion_command. eapply lawful_iso.
  - intros []; reflexivity.
  - intros (a, (b, (c, (d, (e, (f, g)))))). reflexivity.
  - lawful_tac.
  - reflexivity.
Qed.
#[export] Hint Resolve lawful_motion_command : wire.

Lemma lawful_robot_command : lawful c_robot_command 370.
Proof.
  eapply lawful_eq. unfold c_robot_command. eapply lawful_iso.
  - intros []; reflexivity.
  - intros (a, (b, c)). reflexivity.
  - lawful_tac.
  - reflexivity.
Qed.

Lemma lawful_gripper_state : lawful c_gripper_state 23.
Proof.
  eapply lawful_eq. unfold c_gripper_state. eapply lawful_iso.
  - intros []; reflexivity.
  - intros (a, (b, (c, (d, e)))). reflexivity.
  - lawful_tac.
  - reflexivity.
Qed.

Lemma lawful_connect_response : lawful c_connect_response 15. Proof. solve_lawful. Qed.
Lemma lawful_move_response : lawful c_move_response 13. Proof. solve_lawful. Qed.
Lemma lawful_stop_response : lawful c_stop_response 13. Proof. solve_lawful. Qed.
Lemma lawful_setter_response : lawful c_setter_response 13. Proof. solve_lawful. Qed.
Lemma lawful_recovery_response : lawful c_recovery_response 13. Proof. solve_lawful. Qed.
Lemma lawful_wall_response : lawful c_wall_response 166. Proof. solve_lawful. Qed.
Lemma lawful_lm_response : lawful c_lm_response 13. Proof. solve_lawful. Qed.
Lemma lawful_gr_connect_response : lawful c_gr_connect_response 14. Proof. solve_lawful. Qed.
Lemma lawful_gr_response : lawful c_gr_response 12. Proof. solve_lawful. Qed.

(** The model's integer encoding is the specified one. *)
Lemma le_bytes_le : forall k v, le_bytes k v = le k v.
Proof.
  unfold le. intros k.
  assert (H : forall k j v w, v = (w / 256 ^ N.of_nat j)%N ->
    le_bytes k v = map (fun i => byte_of ((w / 256 ^ N.of_nat i) mod 256)%N) (seq j k)).
  { clear k. induction k; intros j v w Hv; [reflexivity|].
    cbn [le_bytes seq map]. f_equal.
    - subst v. reflexivity.
    - apply IHk. subst v. rewrite N.div_div by (try apply N.pow_nonzero; lia).
      f_equal. rewrite Nat2N.inj_succ, N.pow_succ_r'. lia. }
  intros v. apply H. cbn. rewrite N.div_1_r. reflexivity.
Qed.

Lemma enc_f64s_les : forall n l, enc (c_f64s n) l = les 8 l.
Proof.
  intros n l. unfold les. rewrite flat_map_concat_map. cbn -[le_bytes]. f_equal.
  apply map_ext. intros. apply le_bytes_le.
Qed.

Lemma enc_bools : forall n l, enc (c_array n c_bool) l = map flag l.
Proof.
  intros n l. cbn. induction l as [|b l IH]; [reflexivity|].
  cbn. rewrite <- IH. destruct b; reflexivity.
Qed.

Lemma le_length : forall k v, length (le k v) = k.
Proof. intros. unfold le. rewrite map_length, seq_length. reflexivity. Qed.
Lemma les_length : forall k l, length (les k l) = (length l * k)%nat.
Proof.
  intros k l. unfold les. induction l as [|a l IH]; [reflexivity|].
  cbn. rewrite app_length, le_length, IH. reflexivity.
Qed.

(** Pieces of a concatenation. *)
Lemma slice_concat : forall A (segs : list (list A)) lens i,
  map (@length A) segs = lens -> (i < length segs)%nat ->
  slice (concat segs) (list_sum (firstn i lens)) (nth i lens 0%nat) = nth i segs [].
Proof.
  intros A segs. induction segs as [|a segs IH]; intros lens i Hl Hi; cbn in Hi; [lia|].
  subst lens. destruct i as [|i].
  - cbn. apply slice_0_app. reflexivity.
  - cbn [map firstn list_sum nth concat]. unfold list_sum; cbn [fold_right]; fold (list_sum (firstn i (map (@length A) segs))).
    rewrite (slice_app_r _ a) by reflexivity. apply IH; [reflexivity|lia].
Qed.

(** A concatenation of segments has the layout whose offsets are the partial sums. *)
Fixpoint offsets (o : nat) (segs : list (list byte)) : list (nat * list byte) :=
  match segs with [] => [] | s :: t => (o, s) :: offsets (o + length s) t end.

Lemma layout_concat_gen : forall segs pre,
  Forall (fun p => slice (pre ++ concat segs) (fst p) (length (snd p)) = snd p) (offsets (length pre) segs).
Proof.
  induction segs as [|s t IH]; intros pre; cbn; [constructor|]. constructor.
  - cbn [fst snd]. pose proof (slice_app_r _ pre (s ++ concat t) _ 0 (length s) eq_refl) as H.
    rewrite Nat.add_0_r in H. cbn [concat]. rewrite H. apply slice_0_app. reflexivity.
  - specialize (IH (pre ++ s)). rewrite app_length, <- app_assoc in IH. exact IH.
Qed.

Lemma offsets_sum : forall segs o,
  list_sum (map (fun p => length (snd p)) (offsets o segs)) = length (concat segs).
Proof.
  induction segs as [|s t IH]; intros o; [reflexivity|].
  cbn. fold (list_sum (map (fun p : nat * list byte => length (snd p)) (offsets (o + length s) t))).
  rewrite IH, app_length. reflexivity.
Qed.

Lemma has_layout_concat : forall segs total l,
  length (concat segs) = total -> offsets 0 segs = l -> has_layout (concat segs) total l.
Proof.
  intros segs total l Ht <-. split; [exact Ht|]. split.
  - apply (layout_concat_gen segs []).
  - rewrite offsets_sum. exact Ht.
Qed.

Lemma f64s_len : forall n l, wf (c_f64s n) l -> length (les 8 l) = (n * 8)%nat.
Proof. intros n l [H _]. rewrite les_length, H. reflexivity. Qed.
Lemma flags_len : forall n l, wf (c_array n c_bool) l -> length (map flag l) = n.
Proof. intros n l [H _]. rewrite map_length, H. reflexivity. Qed.

Fixpoint psums (o : nat) (lens : list nat) : list nat :=
  match lens with [] => [] | n :: t => o :: psums (o + n) t end.

Lemma offsets_psums : forall segs o, offsets o segs = combine (psums o (map (@length byte) segs)) segs.
Proof. induction segs as [|s t IH]; intros o; cbn; [reflexivity|]. f_equal. apply IH. Qed.

Lemma cons_eq : forall A (a b : A) l m, a = b -> l = m -> a :: l = b :: m.
Proof. intros; subst; reflexivity. Qed.

Ltac len_tac :=
  first [ apply le_length
        | solve [erewrite f64s_len by eassumption; reflexivity]
        | solve [erewrite flags_len by eassumption; reflexivity]
        | reflexivity ].
Ltac lens_tac := repeat (apply cons_eq; [len_tac|]); reflexivity.

(** C05: layout of the robot state. *)
Theorem state_layout_ok : forall s, wf c_robot_state_intern s ->
  has_layout (serialize c_robot_state_intern s) 2373 (state_layout s).
Proof.
  intros s W. pose proof (law_size _ _ lawful_robot_state s W) as L.
  assert (E : serialize c_robot_state_intern s = concat (map snd (state_layout s))).
  { unfold serialize, c_robot_state_intern, robot_state_intern_tup, state_layout.
    cbn [enc c_iso c_pair fst snd map concat]. rewrite app_nil_r.
    unfold c_u64, c_mg_mode, c_ctrl_mode, c_robot_mode.
    rewrite !enc_f64s_les, !enc_bools. cbn [enc c_uint c_enum]. rewrite !le_bytes_le. reflexivity. }
  fold (serialize c_robot_state_intern s) in L. rewrite E in *.
  apply has_layout_concat; [exact L|].
  unfold c_robot_state_intern, robot_state_intern_tup in W. cbn [wf c_iso c_pair fst snd] in W.
  repeat match goal with H : _ /\ _ |- _ => destruct H end.
  rewrite offsets_psums.
  assert (M : map (@length byte) (map snd (state_layout s)) =
              [8; 128; 128; 128; 128; 128; 128; 8; 72; 24; 8; 72; 24; 16; 16; 56; 56; 56; 56; 56; 56;
               56; 56; 56; 48; 56; 48; 56; 48; 48; 48; 24; 16; 16; 16; 128; 48; 48; 56; 56;
               1; 1; 32; 9; 32; 9; 1; 8]%nat) by (unfold state_layout; cbn [map snd]; lens_tac).
  rewrite M. reflexivity.
Qed.

Theorem command_layout_ok : forall c, wf c_robot_command c ->
  has_layout (serialize c_robot_command c) 370 (command_layout c).
Proof.
  intros c W. pose proof (law_size _ _ lawful_robot_command c W) as L.
  assert (E : serialize c_robot_command c = concat (map snd (command_layout c))).
  { unfold serialize, c_robot_command, c_motion_command, command_layout.
    cbn [enc c_iso c_pair fst snd map concat]. rewrite app_nil_r.
    unfold c_u64. rewrite !enc_f64s_les. cbn [enc c_uint c_bool]. rewrite !le_bytes_le.
    rewrite <- !app_assoc. destruct (rc_motion c) as [? ? ? ? ? [] []]; reflexivity. }
  fold (serialize c_robot_command c) in L. rewrite E in *.
  apply has_layout_concat; [exact L|].
  cbn [wf c_iso c_robot_command c_motion_command c_pair fst snd] in W.
  repeat match goal with H : _ /\ _ |- _ => destruct H end.
  rewrite offsets_psums.
  assert (M : map (@length byte) (map snd (command_layout c)) = [8; 56; 56; 128; 48; 16; 1; 1; 56]%nat)
    by (unfold command_layout; cbn [map snd]; lens_tac).
  rewrite M. reflexivity.
Qed.
