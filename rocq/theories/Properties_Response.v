(** C64: responses are decoded from their own bytes. *)
From Coq Require Import List NArith ZArith Lia Bool Arith.
From Coq Require Import Init.Byte Strings.Byte.
From Verif Require Import Bytes Codec WireModel WireSpec WireProofs WireProofs2 WireProofs3 TcpModel UdpModel ErrorsModel
  RobotModel LoopModel StatusSpec StatusProofs Properties_Status.
Import ListNotations.
Open Scope list_scope.

(** * Specification: numbers of the protocol *)
Definition command_code (c : robot_cmd) : N :=
  match c with
  | RcConnect => 0 | RcMove => 1 | RcStopMove => 2 | RcGetCartesianLimit => 3
  | RcSetCollisionBehavior => 4 | RcSetJointImpedance => 5 | RcSetCartesianImpedance => 6
  | RcSetGuidingMode => 7 | RcSetEeToK => 8 | RcSetNeToEe => 9 | RcSetLoad => 10
  | RcSetFilters => 11 | RcAutomaticErrorRecovery => 12 | RcLoadModelLibrary => 13 end.
Definition gripper_command_code (c : gr_cmd) : N :=
  match c with GcConnect => 0 | GcHoming => 1 | GcGrasp => 2 | GcMove => 3 | GcStop => 4 end.
Definition connect_code (s : connect_status) : N := match s with CsSuccess => 0 | CsIncompatibleLibraryVersion => 1 end.
Definition move_code (s : move_status) : N :=
  match s with
  | MsSuccess => 0 | MsMotionStarted => 1 | MsPreempted => 2 | MsCommandNotPossibleRejected => 3
  | MsStartAtSingularPoseRejected => 4 | MsInvalidArgumentRejected => 5 | MsReflexAborted => 6
  | MsEmergencyAborted => 7 | MsInputErrorAborted => 8 | MsAborted => 9 end.
Definition stop_code (s : stop_status) : N :=
  match s with SsSuccess => 0 | SsCommandNotPossibleRejected => 1 | SsEmergencyAborted => 2
             | SsReflexAborted => 3 | SsAborted => 4 end.
Definition setter_code (s : gs_status) : N :=
  match s with GsSuccess => 0 | GsCommandNotPossibleRejected => 1 | GsInvalidArgumentRejected => 2 end.
Definition recovery_code (s : recovery_status) : N :=
  match s with AsSuccess => 0 | AsCommandNotPossibleRejected => 1 | AsManualErrorRecoveryRequiredRejected => 2
             | AsReflexAborted => 3 | AsEmergencyAborted => 4 | AsAborted => 5 end.
Definition library_code (s : lm_status) : N := match s with LmSuccess => 0 | LmError => 1 end.
Definition gripper_status_code (s : gr_status) : N :=
  match s with GrSuccess => 0 | GrFail => 1 | GrUnsuccessful => 2 | GrAborted => 3 end.

(** Headers: (command, (command id, size)). *)
Definition header_ok {C} (h : C * (N * N)) : Prop := (fst (snd h) < 4294967296 /\ snd (snd h) < 4294967296)%N.
Definition robot_header_layout (h : robot_header) : list (nat * list byte) :=
  [(0%nat, le 4 (command_code (fst h))); (4%nat, le 4 (fst (snd h))); (8%nat, le 4 (snd (snd h)))].
Definition gripper_header_layout (h : gripper_header) : list (nat * list byte) :=
  [(0%nat, le 2 (gripper_command_code (fst h))); (2%nat, le 4 (fst (snd h))); (6%nat, le 4 (snd (snd h)))].
(** A status of one byte behind the header. *)
Definition status_layout {S} (code : S -> N) (r : robot_header * S) : list (nat * list byte) :=
  robot_header_layout (fst r) ++ [(12%nat, le 1 (code (snd r)))].
Definition connect_layout (r : robot_header * (connect_status * N)) : list (nat * list byte) :=
  robot_header_layout (fst r) ++ [(12%nat, le 1 (connect_code (fst (snd r)))); (13%nat, le 2 (snd (snd r)))].
Definition wall_layout (r : robot_header * (gs_status * (list N * (list N * bool)))) : list (nat * list byte) :=
  let '(h, (st, (size, (frame, active)))) := r in
  robot_header_layout h ++ [(12%nat, le 1 (setter_code st)); (13%nat, les 8 size); (37%nat, les 8 frame); (165%nat, [flag active])].
Definition wall_ok (r : robot_header * (gs_status * (list N * (list N * bool)))) : Prop :=
  let '(h, (_, (size, (frame, _)))) := r in header_ok h /\ arr_ok 3 size /\ arr_ok 16 frame.
Definition gripper_status_layout (r : gripper_header * gr_status) : list (nat * list byte) :=
  gripper_header_layout (fst r) ++ [(10%nat, le 2 (gripper_status_code (snd r)))].
Definition gripper_connect_layout (r : gripper_header * (gr_status * N)) : list (nat * list byte) :=
  gripper_header_layout (fst r) ++ [(10%nat, le 2 (gripper_status_code (fst (snd r)))); (12%nat, le 2 (snd (snd r)))].

(** [c] reads [n] bytes, whatever follows them, and yields the values laid out there. *)
Definition decodes {A} (c : codec A) (n : nat) (ok : A -> Prop) (layout : A -> list (nat * list byte)) : Prop :=
  forall b v, deserialize c b = Some v <-> ok v /\ has_layout (firstn n b) n (layout v).

Lemma decodes_codec : forall A (c : codec A) n ok layout, lawful c n -> (forall v, ok v <-> wf c v) ->
  (forall v, serialize c v = concat (map snd (layout v))) ->
  (forall v, wf c v -> offsets 0 (map snd (layout v)) = layout v) -> decodes c n ok layout.
Proof.
  intros A c n ok layout L Ok Con Til.
  assert (Lay : forall v, wf c v -> has_layout (serialize c v) n (layout v)).
  { intros v W. rewrite Con. apply has_layout_concat; [|apply Til, W]. rewrite <- Con. apply (law_size _ _ L), W. }
  intros b v. split.
  - intros H. unfold deserialize in H. destruct (dec c b) as [[a r]|] eqn:D; [|discriminate H]. injection H as ->.
    destruct (law_inv _ _ L _ _ _ D) as [W E]. split; [apply Ok, W|]. pose proof (law_size _ _ L v W) as Ln.
    rewrite E, firstn_app, Ln, Nat.sub_diag, firstn_O, app_nil_r, firstn_all2 by lia. apply Lay, W.
  - intros [O H]. apply Ok in O. pose proof (layout_det _ _ _ _ (Til v O) H (Lay v O)) as E.
    rewrite <- (firstn_skipn n b), E. apply (deserialize_prefix _ _ _ _ _ L O).
Qed.
Lemma header_ok_wf : forall h, header_ok h <-> wf c_robot_header h.
Proof. intros h. unfold header_ok, c_robot_header. cbn. tauto. Qed.
Lemma gripper_header_ok_wf : forall h, header_ok h <-> wf c_gripper_header h.
Proof. intros h. unfold header_ok, c_gripper_header. cbn. tauto. Qed.
Lemma enum_piece : forall E k (to code : E -> N) of e, (forall e, to e = code e) -> enc (c_enum k to of) e = le k (code e).
Proof. intros E k to code of e H. cbn [enc c_enum]. rewrite H. apply le_bytes_le. Qed.
Lemma uint_piece : forall k v, enc (c_uint k) v = le k v.
Proof. intros. apply le_bytes_le. Qed.
Lemma header_pieces : forall h, enc c_robot_header h = concat (map snd (robot_header_layout h)).
Proof.
  intros [c [i n]]. unfold c_robot_header. cbn [enc c_pair fst snd robot_header_layout map concat]. rewrite app_nil_r.
  unfold c_robot_cmd, c_u32. rewrite (enum_piece _ _ _ command_code) by (intros []; reflexivity). rewrite !uint_piece. reflexivity.
Qed.
Lemma gripper_header_pieces : forall h, enc c_gripper_header h = concat (map snd (gripper_header_layout h)).
Proof.
  intros [c [i n]]. unfold c_gripper_header. cbn [enc c_pair fst snd gripper_header_layout map concat]. rewrite app_nil_r.
  unfold c_gr_cmd, c_u32. rewrite (enum_piece _ _ _ gripper_command_code) by (intros []; reflexivity). rewrite !uint_piece. reflexivity.
Qed.
Ltac pieces := unfold serialize; cbn [enc c_pair]; rewrite ?header_pieces, ?gripper_header_pieces, map_app, concat_app; f_equal;
  cbn [map concat fst snd]; rewrite ?app_nil_r.
(** A response consisting of the header and a status byte. *)
Lemma status_decodes : forall S (to code : S -> N) of, lawful (c_enum 1 to of) 1 -> (forall e, to e = code e) ->
  decodes (c_robot_header ** c_enum 1 to of) 13 (fun r => header_ok (fst r)) (status_layout code).
Proof.
  intros S to code of L H. apply decodes_codec.
  - apply (lawful_pair _ _ _ _ 12 1 lawful_robot_header L).
  - intros [h st]. rewrite header_ok_wf. cbn [wf c_pair fst snd c_enum]. tauto.
  - intros [h st]. unfold status_layout. pieces. apply enum_piece, H.
  - intros [h st] _. reflexivity.
Qed.

(** * C64 *)
Theorem C64_move_response : decodes c_move_response 13 (fun r => header_ok (fst r)) (status_layout move_code).
Proof. apply status_decodes; [exact lawful_move_status|]. intros []; reflexivity. Qed.
Print Assumptions C64_move_response.
Theorem C64_stop_response : decodes c_stop_response 13 (fun r => header_ok (fst r)) (status_layout stop_code).
Proof. apply status_decodes; [exact lawful_stop_status|]. intros []; reflexivity. Qed.
Print Assumptions C64_stop_response.
(** All setters. *)
Theorem C64_setter_response : decodes c_setter_response 13 (fun r => header_ok (fst r)) (status_layout setter_code).
Proof. apply status_decodes; [exact lawful_gs_status|]. intros []; reflexivity. Qed.
Print Assumptions C64_setter_response.
Theorem C64_recovery_response : decodes c_recovery_response 13 (fun r => header_ok (fst r)) (status_layout recovery_code).
Proof. apply status_decodes; [exact lawful_recovery_status|]. intros []; reflexivity. Qed.
Print Assumptions C64_recovery_response.
Theorem C64_library_response : decodes c_lm_response 13 (fun r => header_ok (fst r)) (status_layout library_code).
Proof. apply status_decodes; [exact lawful_lm_status|]. intros []; reflexivity. Qed.
Print Assumptions C64_library_response.
Theorem C64_connect_response : decodes c_connect_response 15 (fun r => header_ok (fst r) /\ (snd (snd r) < 65536)%N) connect_layout.
Proof.
  apply decodes_codec.
  - exact lawful_connect_response.
  - intros [h [st v]]. rewrite header_ok_wf. unfold c_connect_response, c_u16. cbn [wf c_pair fst snd c_connect_status c_enum c_uint].
    change (256 ^ N.of_nat 2)%N with 65536%N. tauto.
  - intros [h [st v]]. unfold connect_layout, c_connect_response. pieces. unfold c_connect_status, c_u16.
    rewrite (enum_piece _ _ _ connect_code) by (intros []; reflexivity). rewrite uint_piece. reflexivity.
  - intros [h [st v]] _. reflexivity.
Qed.
Print Assumptions C64_connect_response.
Theorem C64_wall_response : decodes c_wall_response 166 wall_ok wall_layout.
Proof.
  apply decodes_codec.
  - exact lawful_wall_response.
  - intros [h [st [size [frame a]]]]. unfold wall_ok, c_wall_response. cbn [wf c_pair fst snd]. rewrite header_ok_wf, !arr_wf.
    change (wf c_gs_status st) with True. change (wf c_bool a) with True. tauto.
  - intros [h [st [size [frame a]]]]. unfold wall_layout, c_wall_response. pieces. unfold c_gs_status.
    rewrite (enum_piece _ _ _ setter_code) by (intros []; reflexivity). rewrite !enc_f64s_les. reflexivity.
  - intros [h [st [size [frame a]]]] W. unfold c_wall_response in W. cbn [wf c_pair fst snd] in W. destruct W as (_ & _ & W1 & W2 & _).
    rewrite offsets_psums.
    assert (M : map (@length byte) (map snd (wall_layout (h, (st, (size, (frame, a)))))) = [4; 4; 4; 1; 24; 128; 1]%nat)
      by (unfold wall_layout; cbn [map snd app robot_header_layout]; lens_tac).
    rewrite M. reflexivity.
Qed.
Print Assumptions C64_wall_response.
Theorem C64_gripper_response : decodes c_gr_response 12 (fun r => header_ok (fst r)) gripper_status_layout.
Proof.
  apply decodes_codec.
  - exact lawful_gr_response.
  - intros [h st]. rewrite gripper_header_ok_wf. unfold c_gr_response. cbn [wf c_pair fst snd c_gr_status c_enum]. tauto.
  - intros [h st]. unfold gripper_status_layout, c_gr_response. pieces. unfold c_gr_status.
    apply (enum_piece _ _ _ gripper_status_code). intros []; reflexivity.
  - intros [h st] _. reflexivity.
Qed.
Print Assumptions C64_gripper_response.
Theorem C64_gripper_connect_response :
  decodes c_gr_connect_response 14 (fun r => header_ok (fst r) /\ (snd (snd r) < 65536)%N) gripper_connect_layout.
Proof.
  apply decodes_codec.
  - exact lawful_gr_connect_response.
  - intros [h [st v]]. rewrite gripper_header_ok_wf. unfold c_gr_connect_response, c_u16. cbn [wf c_pair fst snd c_gr_status c_enum c_uint].
    change (256 ^ N.of_nat 2)%N with 65536%N. tauto.
  - intros [h [st v]]. unfold gripper_connect_layout, c_gr_connect_response. pieces. unfold c_gr_status, c_u16.
    rewrite (enum_piece _ _ _ gripper_status_code) by (intros []; reflexivity). rewrite uint_piece. reflexivity.
  - intros [h [st v]] _. reflexivity.
Qed.
Print Assumptions C64_gripper_connect_response.

(** A virtual wall is returned as it stands in the reply to the request. *)
Theorem C64_wall_returned : forall w s size frame active w' s',
  get_virtual_wall w s = (Ok (w', (size, (frame, active))), s') ->
  w' = w /\ exists h m, trace s' = EvReply (n_id s) m :: EvRequest (n_id s) (ReqGetCartesianLimit w) :: trace s /\
    has_layout (firstn 166 m) 166 (wall_layout (h, (GsSuccess, (size, (frame, active))))).
Proof.
  intros w s size frame active w' s' H. unfold get_virtual_wall in H. unfold bind at 1, send_request at 1 in H.
  unfold bind at 1, blocking_response at 1 in H. unfold bind at 1, wait_response at 1 in H. cbn [n_id n_tsched n_table set_id add_event] in H.
  destruct (wait_loop (n_id s) (n_tsched s) (n_table s)) as [[[m|] tb] ts]; [|discriminate H].
  unfold unwrap in H. destruct (deserialize c_wall_response m) as [[h [st rest]]|] eqn:D; [|discriminate H].
  cbn [ret fst snd] in H. unfold bind in H. destruct st; try discriminate H. cbn in H. injection H as <- -> <-.
  split; [reflexivity|]. exists h, m. split; [reflexivity|]. apply C64_wall_response in D. apply D.
Qed.
Print Assumptions C64_wall_returned.

(** Replies with distinct values everywhere. *)
Example C64_ex : deserialize c_wall_response (flat_map snd (wall_layout
      ((RcGetCartesianLimit, (7, 166)), (GsSuccess, ([1; 2; 3], (map N.of_nat (seq 10 16), true)))))%N) =
    Some ((RcGetCartesianLimit, (7, 166)), (GsSuccess, ([1; 2; 3], (map N.of_nat (seq 10 16), true))))%N /\
  deserialize c_connect_response [x00; x00; x00; x00; x07; x00; x00; x00; x0f; x00; x00; x00; x01; x05; x00] =
    Some ((RcConnect, (7, 15)), (CsIncompatibleLibraryVersion, 5))%N /\
  deserialize c_gr_response [x02; x00; x07; x00; x00; x00; x0c; x00; x00; x00; x03; x00] = Some ((GcGrasp, (7, 12)), GrAborted)%N /\
  deserialize c_gr_response [x02; x00; x07; x00; x00; x00; x0c; x00; x00; x00; x03] = None.
Proof. vm_compute. auto. Qed.
Example C64_ex_wall : let m := (le_bytes 4 3 ++ le_bytes 4 1 ++ le_bytes 4 166 ++ [x00] ++ le_bytes 8 5 ++ le_bytes 8 6 ++ le_bytes 8 7 ++ repeat x00 128 ++ [x01])%N in
  fst (get_virtual_wall 3 (ask m)) = Ok (3%Z, ([5; 6; 7], (repeat 0 16, true)))%N.
Proof. vm_compute. reflexivity. Qed.
