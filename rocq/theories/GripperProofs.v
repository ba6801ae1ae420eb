(** Proofs about the gripper handle. *)
From Coq Require Import List NArith ZArith Bool Arith Lia String.
From Coq Require Import Init.Byte Strings.Byte.
From Verif Require Import Bytes Codec WireModel WireSpec WireProofs WireProofs2 TcpModel TcpProofs UdpModel UdpSpec UdpProofs
  RobotModel GripperModel StatusSpec StatusProofs.
Import ListNotations.
Open Scope list_scope.
Open Scope N_scope.

Lemma le_val_2 : forall m i, (i + 2 <= List.length m)%nat -> le_val (firstn 2 (skipn i m)) = byte2_at m i.
Proof.
  intros m i H. unfold byte2_at, byte_at. revert m H.
  induction i as [|i IH]; intros [|a m] H; cbn [List.length] in H; try lia.
  - destruct m as [|b m]; cbn [List.length] in H; [lia|]. cbn [skipn firstn le_val nth Nat.add]. lia.
  - cbn [skipn]. rewrite (IH m) by lia. reflexivity.
Qed.
Lemma enum_gcmd_none : forall v, enum_of gr_cmds gr_cmd_N v = None <-> 5 <= v.
Proof.
  intros v. split.
  - intros E. destruct (N.le_gt_cases 5 v) as [H|H]; [exact H|exfalso].
    assert (C : v = 0 \/ v = 1 \/ v = 2 \/ v = 3 \/ v = 4) by lia.
    repeat (destruct C as [->|C]; [discriminate E|]). subst v. discriminate E.
  - intros H. unfold enum_of, gr_cmds. cbn [find gr_cmd_N].
    repeat match goal with |- context [N.eqb ?a v] => replace (N.eqb a v) with false by (symmetry; apply N.eqb_neq; lia) end.
    reflexivity.
Qed.
Lemma gheader_dec : forall m, (10 <= List.length m)%nat ->
  dec c_gripper_header m =
  match enum_of gr_cmds gr_cmd_N (byte2_at m 0) with
  | None => None
  | Some c => Some ((c, (le_val (firstn 4 (skipn 2 m)), le_val (firstn 4 (skipn 6 m)))), skipn 10 m)
  end.
Proof.
  intros m H. unfold c_gripper_header, c_gr_cmd, c_pair, c_enum, c_u32, c_uint. cbn [dec].
  replace (Nat.leb 2 (List.length m)) with true by (symmetry; apply Nat.leb_le; lia).
  rewrite <- (le_val_2 m 0) by lia. change (skipn 0 m) with m.
  destruct (enum_of gr_cmds gr_cmd_N (le_val (firstn 2 m))) as [c|]; [|reflexivity].
  replace (Nat.leb 4 (List.length (skipn 2 m))) with true by (symmetry; apply Nat.leb_le; rewrite skipn_length; lia).
  rewrite !skipn_skipn. cbn [Nat.add].
  replace (Nat.leb 4 (List.length (skipn 6 m))) with true by (symmetry; apply Nat.leb_le; rewrite skipn_length; lia).
  reflexivity.
Qed.
Lemma gheader_short : forall m, (List.length m < 10)%nat -> dec c_gripper_header m = None.
Proof.
  intros m H. unfold c_gripper_header, c_gr_cmd, c_pair, c_enum, c_u32, c_uint. cbn [dec].
  destruct (Nat.leb 2 (List.length m)) eqn:E1; [|reflexivity].
  destruct (enum_of gr_cmds gr_cmd_N (le_val (firstn 2 m))) as [c|]; [|reflexivity].
  destruct (Nat.leb 4 (List.length (skipn 2 m))) eqn:E2; [|reflexivity].
  destruct (Nat.leb 4 (List.length (skipn 4 (skipn 2 m)))) eqn:E3; [|reflexivity].
  apply Nat.leb_le in E1, E2, E3. rewrite !skipn_length in *. lia.
Qed.
Lemma gripper_reply_cmd : forall n m, (n <= List.length m)%nat ->
  gripper_reply n m = match enum_of gr_cmds gr_cmd_N (byte2_at m 0) with Some _ => true | None => false end.
Proof.
  intros n m N2. unfold gripper_reply.
  replace (n <=? List.length m)%nat with true by (symmetry; apply Nat.leb_le; lia). cbn [andb].
  pose proof (enum_gcmd_none (byte2_at m 0)) as E. unfold byte2_at in *. cbn [Nat.add] in *.
  pose proof (byte_at_lt m 0). pose proof (byte_at_lt m 1).
  destruct (enum_of gr_cmds gr_cmd_N _) as [c|].
  - assert (H3 : byte_at m 0 + 256 * byte_at m 1 < 5).
    { destruct (N.lt_ge_cases (byte_at m 0 + 256 * byte_at m 1) 5) as [L|L]; [assumption|]. apply E in L. discriminate. }
    replace (byte_at m 0 <? 5) with true by (symmetry; apply N.ltb_lt; lia).
    replace (byte_at m 1 =? 0) with true by (symmetry; apply N.eqb_eq; lia). reflexivity.
  - assert (H3 : 5 <= byte_at m 0 + 256 * byte_at m 1) by (apply E; reflexivity).
    destruct (byte_at m 0 <? 5) eqn:A0; [|reflexivity]. destruct (byte_at m 1 =? 0) eqn:A1; [|reflexivity].
    apply N.ltb_lt in A0. apply N.eqb_eq in A1. exfalso. lia.
Qed.

(** The status behind the header. *)
Lemma gstatus_dec : forall m, (12 <= List.length m)%nat ->
  dec c_gr_status (skipn 10 m) =
  match enum_of gr_statuses gr_status_N (byte2_at m 10) with Some st => Some (st, skipn 12 m) | None => None end.
Proof.
  intros m H. unfold c_gr_status, c_enum, c_uint. cbn [dec].
  replace (Nat.leb 2 (List.length (skipn 10 m))) with true by (symmetry; apply Nat.leb_le; rewrite skipn_length; lia).
  rewrite skipn_skipn. cbn [Nat.add]. rewrite le_val_2 by lia. reflexivity.
Qed.
Lemma gstatus_short : forall m, (10 <= List.length m < 12)%nat -> dec c_gr_status (skipn 10 m) = None.
Proof.
  intros m H. unfold c_gr_status, c_enum, c_uint. cbn [dec].
  replace (Nat.leb 2 (List.length (skipn 10 m))) with false by (symmetry; apply Nat.leb_gt; rewrite skipn_length; lia).
  reflexivity.
Qed.

Lemma action_verdict : forall m,
  match deserialize c_gr_response m with None => Panic PDecodeTcp | Some (_, st) => handle_response_status st end
  = gripper_verdict m.
Proof.
  intros m. unfold deserialize, c_gr_response, gripper_verdict.
  change (dec (c_gripper_header ** c_gr_status) m) with
    (match dec c_gripper_header m with
     | Some (a, r) => match dec c_gr_status r with Some (b, r') => Some ((a, b), r') | None => None end
     | None => None end).
  destruct (Nat.lt_ge_cases (List.length m) 12) as [L|L].
  - unfold gripper_reply. replace (12 <=? List.length m)%nat with false by (symmetry; apply Nat.leb_gt; lia). cbn [andb].
    destruct (Nat.lt_ge_cases (List.length m) 10) as [L2|L2].
    + rewrite gheader_short by exact L2. reflexivity.
    + rewrite gheader_dec by exact L2. destruct (enum_of gr_cmds _ _); [|reflexivity].
      rewrite gstatus_short by lia. reflexivity.
  - rewrite gripper_reply_cmd by lia. rewrite gheader_dec by lia.
    destruct (enum_of gr_cmds _ _) as [c|]; [|reflexivity]. rewrite gstatus_dec by lia.
    destruct (byte2_at m 10) as [|[[p|p|]|[p|p|]|]]; reflexivity.
Qed.

Lemma connect_verdict : forall m,
  option_map (fun x => (match fst (snd x) with GrSuccess => true | _ => false end, snd (snd x)))
    (deserialize c_gr_connect_response m) = gripper_connected m.
Proof.
  intros m. unfold deserialize, c_gr_connect_response, gripper_connected.
  change (dec (c_gripper_header ** c_gr_status ** c_u16) m) with
    (match dec c_gripper_header m with
     | Some (a, r) => match (match dec c_gr_status r with
                             | Some (b, r') => match dec c_u16 r' with Some (c, r'') => Some ((b, c), r'') | None => None end
                             | None => None end) with Some (b, r') => Some ((a, b), r') | None => None end
     | None => None end).
  destruct (Nat.lt_ge_cases (List.length m) 14) as [L|L].
  - unfold gripper_reply. replace (14 <=? List.length m)%nat with false by (symmetry; apply Nat.leb_gt; lia). cbn [andb].
    destruct (Nat.lt_ge_cases (List.length m) 10) as [L2|L2].
    + rewrite gheader_short by exact L2. reflexivity.
    + rewrite gheader_dec by exact L2. destruct (enum_of gr_cmds _ _); [|reflexivity].
      destruct (Nat.lt_ge_cases (List.length m) 12) as [L3|L3].
      * rewrite gstatus_short by lia. reflexivity.
      * rewrite gstatus_dec by lia. destruct (enum_of gr_statuses _ _); [|reflexivity].
        unfold c_u16, c_uint. cbn [dec].
        replace (Nat.leb 2 (List.length (skipn 12 m))) with false by (symmetry; apply Nat.leb_gt; rewrite skipn_length; lia).
        reflexivity.
  - rewrite gripper_reply_cmd by lia. rewrite gheader_dec by lia.
    destruct (enum_of gr_cmds _ _) as [c|]; [|reflexivity]. rewrite gstatus_dec by lia.
    assert (D : dec c_u16 (skipn 12 m) = Some (byte2_at m 12, skipn 14 m)).
    { unfold c_u16, c_uint. cbn [dec].
      replace (Nat.leb 2 (List.length (skipn 12 m))) with true by (symmetry; apply Nat.leb_le; rewrite skipn_length; lia).
      rewrite skipn_skipn, le_val_2 by lia. reflexivity. }
    unfold enum_of, gr_statuses. cbn [find gr_status_N].
    destruct (byte2_at m 10) as [|[[p|p|]|[p|p|]|]]; cbn -[dec byte2_at skipn N.ltb]; rewrite ?D; try reflexivity;
      match goal with |- context [?a <? 4] => replace (a <? 4) with false by (symmetry; apply N.ltb_ge; lia) end; reflexivity.
Qed.

(** Waiting for a response. *)
Definition received (l : list (option (N * list byte))) (tb : table_t) : table_t := fold_left (fun t o => store o t) l tb.
Lemma store_get : forall o tb id,
  tget id (store o tb) = match o with Some (i, m) => if i =? id then Some m else tget id tb | None => tget id tb end.
Proof. intros [[i m]|] tb id; cbn [store]; [|reflexivity]. rewrite tget_insert. rewrite (N.eqb_sym i id). reflexivity. Qed.
Lemma received_get : forall l tb id, tget id (received l tb) = match latest id l with Some m => Some m | None => tget id tb end.
Proof.
  induction l as [|o l IH]; intros tb id; [reflexivity|]. cbn [received fold_left latest]. change (fold_left _ l ?t) with (received l t).
  rewrite IH, store_get. destruct (latest id l); [reflexivity|]. destruct o as [[i m]|]; [|reflexivity]. destruct (i =? id); reflexivity.
Qed.
Lemma wait_loop_spec : forall id ts tb,
  match wait_loop id ts tb with
  | (Some m, tb', ts') => exists used, ts = used ++ ts' /\ tb' = tremove id (received used tb) /\
      tget id (received used tb) = Some m /\ (used = [] -> ts = []) /\
      forall p t r, used = p ++ t :: r -> p <> [] -> tget id (received p tb) = None
  | (None, tb', ts') => ts' = [] /\ tb' = received ts tb /\ tget id tb' = None
  end.
Proof.
  intros id. induction ts as [|t ts IH]; intros tb; cbn [wait_loop].
  - destruct (tget id tb) as [m|] eqn:E; [|auto]. exists []. repeat split; auto. intros p t r H. destruct p; discriminate.
  - destruct (tget id (store t tb)) as [m|] eqn:E.
    + exists [t]. repeat split; auto; [discriminate|]. intros [|a [|b p]] u r [= -> H] Hp; try contradiction Hp; try reflexivity; destruct p; discriminate.
    + specialize (IH (store t tb)). destruct (wait_loop id ts (store t tb)) as [[[m|] tb'] ts'].
      * destruct IH as (used & -> & -> & G & Hu & P). exists (t :: used). repeat split; auto; [discriminate|].
        intros [|a p] u r [= <- H] Hp; [contradiction Hp; reflexivity|].
        change (received (t :: p) tb) with (received p (store t tb)). destruct p as [|b p]; [exact E|].
        apply (P (b :: p) u r H). discriminate.
      * exact IH.
Qed.
