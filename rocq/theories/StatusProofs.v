From Coq Require Import List NArith ZArith Bool Arith Lia String.
From Coq Require Import Init.Byte Strings.Byte.
From Verif Require Import Bytes Codec WireModel WireSpec WireProofs WireProofs2 TcpModel UdpModel ErrorsModel
  LoggerModel RobotModel StatusSpec.
Import ListNotations.
Open Scope list_scope.
Open Scope N_scope.

Lemma le_val_4 : forall m, (4 <= List.length m)%nat ->
  le_val (firstn 4 m) = byte_at m 0 + 256 * (byte_at m 1 + 256 * (byte_at m 2 + 256 * byte_at m 3)).
Proof.
  intros [|a [|b [|c [|d m]]]] H; cbn [List.length] in H; try lia.
  cbn [firstn le_val byte_at nth]. unfold byte_at. cbn [nth]. lia.
Qed.
Lemma byte_at_lt : forall m i, byte_at m i < 256.
Proof. intros. apply to_N_lt. Qed.

Lemma enum_cmd_none : forall v, enum_of robot_cmds robot_cmd_N v = None <-> 14 <= v.
Proof.
  intros v. split.
  - intros E. destruct (N.le_gt_cases 14 v) as [H|H]; [exact H|exfalso].
    assert (C : v = 0 \/ v = 1 \/ v = 2 \/ v = 3 \/ v = 4 \/ v = 5 \/ v = 6 \/ v = 7 \/ v = 8 \/ v = 9 \/
                v = 10 \/ v = 11 \/ v = 12 \/ v = 13) by lia.
    repeat (destruct C as [->|C]; [discriminate E|]). subst v. discriminate E.
  - intros H. unfold enum_of, robot_cmds. cbn [find robot_cmd_N].
    repeat match goal with |- context [N.eqb ?a v] => replace (N.eqb a v) with false by (symmetry; apply N.eqb_neq; lia) end.
    reflexivity.
Qed.

Lemma header_dec : forall m, (12 <= List.length m)%nat ->
  dec c_robot_header m =
  match enum_of robot_cmds robot_cmd_N (le_val (firstn 4 m)) with
  | None => None
  | Some c => Some ((c, (le_val (firstn 4 (skipn 4 m)), le_val (firstn 4 (skipn 8 m)))), skipn 12 m)
  end.
Proof.
  intros m H. unfold c_robot_header, c_robot_cmd, c_pair, c_enum, c_u32, c_uint. cbn [dec].
  replace (Nat.leb 4 (List.length m)) with true by (symmetry; apply Nat.leb_le; lia).
  destruct (enum_of robot_cmds robot_cmd_N (le_val (firstn 4 m))) as [c|]; [|reflexivity].
  replace (Nat.leb 4 (List.length (skipn 4 m))) with true by (symmetry; apply Nat.leb_le; rewrite skipn_length; lia).
  rewrite !skipn_skipn. cbn [Nat.add].
  replace (Nat.leb 4 (List.length (skipn 8 m))) with true by (symmetry; apply Nat.leb_le; rewrite skipn_length; lia).
  reflexivity.
Qed.
Lemma header_short : forall m, (List.length m < 12)%nat -> dec c_robot_header m = None.
Proof.
  intros m H. unfold c_robot_header, c_robot_cmd, c_pair, c_enum, c_u32, c_uint. cbn [dec].
  destruct (Nat.leb 4 (List.length m)) eqn:E1; [|reflexivity].
  destruct (enum_of robot_cmds robot_cmd_N (le_val (firstn 4 m))) as [c|]; [|reflexivity].
  destruct (Nat.leb 4 (List.length (skipn 4 m))) eqn:E2; [|reflexivity].
  destruct (Nat.leb 4 (List.length (skipn 4 (skipn 4 m)))) eqn:E3; [|reflexivity].
  apply Nat.leb_le in E1, E2, E3. rewrite !skipn_length in *. lia.
Qed.

Lemma robot_reply_cmd : forall n m, (12 <= n)%nat -> (n <= List.length m)%nat ->
  robot_reply n m = match enum_of robot_cmds robot_cmd_N (le_val (firstn 4 m)) with Some _ => true | None => false end.
Proof.
  intros n m N1 N2. unfold robot_reply.
  replace (n <=? List.length m)%nat with true by (symmetry; apply Nat.leb_le; lia). cbn [andb].
  pose proof (enum_cmd_none (le_val (firstn 4 m))) as E. rewrite le_val_4 in * by lia.
  pose proof (byte_at_lt m 0). pose proof (byte_at_lt m 1). pose proof (byte_at_lt m 2).
  destruct (enum_of robot_cmds robot_cmd_N _) as [c|].
  - assert (H3 : byte_at m 0 + 256 * (byte_at m 1 + 256 * (byte_at m 2 + 256 * byte_at m 3)) < 14).
    { destruct (N.lt_ge_cases (byte_at m 0 + 256 * (byte_at m 1 + 256 * (byte_at m 2 + 256 * byte_at m 3))) 14);
        [assumption|]. apply E in H2. discriminate. }
    replace (byte_at m 0 <? 14) with true by (symmetry; apply N.ltb_lt; lia).
    replace (byte_at m 1 =? 0) with true by (symmetry; apply N.eqb_eq; lia).
    replace (byte_at m 2 =? 0) with true by (symmetry; apply N.eqb_eq; lia).
    replace (byte_at m 3 =? 0) with true by (symmetry; apply N.eqb_eq; lia). reflexivity.
  - assert (H3 : 14 <= byte_at m 0 + 256 * (byte_at m 1 + 256 * (byte_at m 2 + 256 * byte_at m 3))) by (apply E; reflexivity).
    destruct (byte_at m 0 <? 14) eqn:A0; [|reflexivity]. destruct (byte_at m 1 =? 0) eqn:A1; [|reflexivity].
    destruct (byte_at m 2 =? 0) eqn:A2; [|reflexivity]. destruct (byte_at m 3 =? 0) eqn:A3; [|reflexivity].
    apply N.ltb_lt in A0. apply N.eqb_eq in A1, A2, A3. exfalso. lia.
Qed.

(** Decoding of a response whose status byte follows the header. *)
Lemma reply_dec : forall A (l : list A) to m,
  option_map snd (deserialize (c_robot_header ** c_enum 1 to (enum_of l to)) m) =
  if robot_reply 13 m then enum_of l to (byte_at m 12) else None.
Proof.
  intros A l to m. unfold deserialize. change (dec (c_robot_header ** c_enum 1 to (enum_of l to)) m) with
    (match dec c_robot_header m with
     | Some (a, r) => match dec (c_enum 1 to (enum_of l to)) r with Some (b, r') => Some ((a, b), r') | None => None end
     | None => None end).
  destruct (Nat.lt_ge_cases (List.length m) 13) as [L|L].
  - unfold robot_reply. replace (13 <=? List.length m)%nat with false by (symmetry; apply Nat.leb_gt; lia). cbn [andb].
    destruct (Nat.lt_ge_cases (List.length m) 12) as [L2|L2].
    + rewrite header_short by exact L2. reflexivity.
    + rewrite header_dec by exact L2. destruct (enum_of robot_cmds _ _) as [c|]; [|reflexivity].
      unfold c_enum, c_uint. cbn [dec].
      replace (Nat.leb 1 (List.length (skipn 12 m))) with false by (symmetry; apply Nat.leb_gt; rewrite skipn_length; lia).
      reflexivity.
  - rewrite robot_reply_cmd by lia. rewrite header_dec by lia.
    destruct (enum_of robot_cmds _ _) as [c|]; [|reflexivity].
    unfold c_enum, c_uint. cbn [dec].
    replace (Nat.leb 1 (List.length (skipn 12 m))) with true by (symmetry; apply Nat.leb_le; rewrite skipn_length; lia).
    rewrite firstn1_nth by lia. cbn [le_val]. rewrite N.mul_0_r, N.add_0_r.
    change (Byte.to_N (nth 12 m x00)) with (byte_at m 12).
    destruct (enum_of l to (byte_at m 12)) as [e|]; reflexivity.
Qed.

(** The status handlers against the tables of the specification. *)
Definition handled (o : option exn) : option string :=
  match o with Some (CommandException t) => Some t | _ => None end.
Ltac tables := intros c; unfold enum_of, lookup; cbn -[N.eqb];
  repeat match goal with |- context [N.eqb ?a c] => destruct (N.eqb a c); [reflexivity|] end; reflexivity.
Lemma setter_table : forall c,
  option_map (fun e => handle_setter e) (enum_of gs_statuses gs_status_N c) =
  option_map (option_map CommandException) (lookup c setter_codes).
Proof. tables. Qed.
Lemma stop_table : forall c,
  option_map (fun e => handle_user_stop e) (enum_of stop_statuses stop_status_N c) =
  option_map (option_map CommandException) (lookup c stop_codes).
Proof. tables. Qed.
Lemma recovery_table : forall c,
  option_map (fun e => handle_recovery e) (enum_of recovery_statuses recovery_status_N c) =
  option_map (option_map CommandException) (lookup c recovery_codes).
Proof. tables. Qed.
Lemma move_table : forall c,
  option_map (fun e => handle_move e) (enum_of move_statuses move_status_N c) =
  option_map (option_map CommandException) (lookup c move_codes).
Proof. tables. Qed.
Lemma cancel_table : forall c,
  option_map (fun e => handle_stop e) (enum_of stop_statuses stop_status_N c) =
  option_map (option_map CommandException) (lookup c cancel_codes).
Proof. tables. Qed.

(** Response bytes to result. *)
Lemma reply_meaning : forall A (l : list A) to (handle : A -> option exn) codes,
  (forall c, option_map handle (enum_of l to c) = option_map (option_map CommandException) (lookup c codes)) ->
  forall m, option_map (fun x => handle (snd x)) (deserialize (c_robot_header ** c_enum 1 to (enum_of l to)) m) =
            option_map (option_map CommandException) (meaning codes m).
Proof.
  intros A l to handle codes T m. pose proof (reply_dec A l to m) as D. unfold meaning.
  destruct (robot_reply 13 m).
  - rewrite <- T, <- D. destruct (deserialize _ m); reflexivity.
  - destruct (deserialize _ m); [discriminate D|reflexivity].
Qed.

Lemma simple_call : forall A (l : list A) to (handle : A -> option exn) codes r s,
  (forall c, option_map handle (enum_of l to c) = option_map (option_map CommandException) (lookup c codes)) ->
  let call := id <- send_request r ;;
              x <- blocking_response (c_robot_header ** c_enum 1 to (enum_of l to)) id ;;
              as_result (handle (snd x)) in
  match call s with
  | (Blocked, s') => trace s' = EvRequest (n_id s) r :: trace s
  | (o, s') => exists m, trace s' = EvReply (n_id s) m :: EvRequest (n_id s) r :: trace s /\
                         o = verdict codes m
  end.
Proof.
  intros A l to handle codes r s T. cbn zeta. unfold bind at 1, send_request at 1. unfold bind at 1, blocking_response at 1.
  unfold bind at 1, wait_response at 1. cbn [n_id n_tsched n_table set_id add_event].
  destruct (wait_loop (n_id s) (n_tsched s) (n_table s)) as [[[m|] tb] ts]; [|reflexivity].
  pose proof (reply_meaning A l to handle codes T m) as R. unfold verdict.
  unfold unwrap. destruct (deserialize _ m) as [[h st]|].
  - cbn [option_map snd] in R. destruct (meaning codes m) as [[t|]|] eqn:E; [| |discriminate R]; cbn [option_map] in R;
      injection R as R; cbn [ret snd as_result]; rewrite R; cbn [as_result throw ret]; exists m; rewrite E; split; reflexivity.
  - destruct (meaning codes m) as [[t|]|] eqn:E; try discriminate R. cbn [panic_with]. exists m. rewrite E. split; reflexivity.
Qed.

(** * Errors which only come from the network *)
Definition net_errors {A} (m : M A) : Prop := forall s, match m s with (Err e, _) => exists n, e = NetworkException n | _ => True end.
Lemma net_bind : forall A B (m : M A) (f : A -> M B), net_errors m -> (forall a, net_errors (f a)) -> net_errors (bind m f).
Proof.
  intros A B m f Hm Hf s. unfold bind. specialize (Hm s). destruct (m s) as [[a|e|p| |] s']; auto. apply Hf.
Qed.
Lemma net_block : net_errors udp_block.
Proof. intros s. unfold udp_block. destruct (udp_blocking_receive _ _ _ _) as [[[] ?] ?]; eauto. Qed.
Lemma net_poll : net_errors udp_poll.
Proof. intros s. unfold udp_poll. destruct (udp_receive _ _ _ _) as [[[] ?] ?]; exact Logic.I. Qed.
Lemma net_receive : net_errors receive_robot_state.
Proof.
  assert (P : forall fuel l, net_errors (poll_states fuel l)).
  { induction fuel as [|fuel IH]; intros l; cbn [poll_states]; [intros s; exact Logic.I|].
    apply net_bind; [apply net_poll|]. intros [x|]; [|intros s; exact Logic.I]. apply net_bind; [intros s; exact Logic.I|]. intros s1. apply IH. }
  assert (W : forall fuel, net_errors (await_state fuel)).
  { induction fuel as [|fuel IH]; cbn [await_state]; [intros s; exact Logic.I|].
    apply net_bind; [apply net_block|]. intros x. apply net_bind; [intros s; exact Logic.I|]. intros s1.
    destruct (_ <? _); [intros s; exact Logic.I|apply IH]. }
  unfold receive_robot_state. apply net_bind; [intros s; exact Logic.I|]. intros s0. apply net_bind; [apply P|].
  intros l. apply net_bind; [intros s; exact Logic.I|]. intros s1. apply net_bind; [|intros x; apply net_bind; intros; intros s; exact Logic.I].
  destruct l; [intros s; exact Logic.I|apply W].
Qed.

(** * Move responses *)
Lemma move_meaning : forall m,
  option_map (fun x => handle_move (snd x)) (deserialize c_move_response m) =
  option_map (option_map CommandException) (meaning move_codes m).
Proof. intros m. apply (reply_meaning move_status move_statuses move_status_N handle_move move_codes move_table). Qed.
Lemma move_decoded : forall m h st, deserialize c_move_response m = Some (h, st) ->
  meaning move_codes m = Some (handled (handle_move st)) /\ byte_at m 12 = move_status_N st.
Proof.
  intros m h st D. pose proof (move_meaning m) as R. rewrite D in R. cbn [option_map snd] in R.
  split.
  - destruct (meaning move_codes m) as [o|]; [|discriminate R]. cbn in R. injection R as R. rewrite R. destruct o; reflexivity.
  - pose proof (reply_dec move_status move_statuses move_status_N m) as E.
    change (deserialize (c_robot_header ** c_enum 1 move_status_N (enum_of move_statuses move_status_N)) m)
      with (deserialize c_move_response m) in E. rewrite D in E. cbn [option_map snd] in E.
    destruct (robot_reply 13 m); [|discriminate E]. symmetry in E.
    unfold enum_of in E. apply find_some in E. destruct E as [_ E]. apply N.eqb_eq in E. congruence.
Qed.
Lemma move_undecoded : forall m, deserialize c_move_response m = None -> meaning move_codes m = None.
Proof.
  intros m D. pose proof (move_meaning m) as R. rewrite D in R. destruct (meaning move_codes m); [discriminate R|reflexivity].
Qed.
Lemma response_cases : forall id s,
  match blocking_response c_move_response id s with
  | (Ok (h, st), s') => exists m, trace s' = EvReply id m :: trace s /\
                          meaning move_codes m = Some (handled (handle_move st)) /\ byte_at m 12 = move_status_N st
  | (Panic p, s') => p = PDecodeTcp /\ exists m, trace s' = EvReply id m :: trace s /\ meaning move_codes m = None
  | (Blocked, s') => trace s' = trace s
  | _ => False
  end.
Proof.
  intros id s. unfold blocking_response, bind, wait_response.
  destruct (wait_loop id (n_tsched s) (n_table s)) as [[[m|] tb] ts]; [|reflexivity].
  unfold unwrap. destruct (deserialize c_move_response m) as [[h st]|] eqn:D.
  - cbn. exists m. split; [reflexivity|]. exact (move_decoded m h st D).
  - cbn. split; [reflexivity|]. exists m. split; [reflexivity|]. exact (move_undecoded m D).
Qed.
Lemma handle_move_command : forall st e, handle_move st = Some e -> exists t, e = CommandException t.
Proof. intros [] e [= <-]; eexists; reflexivity. Qed.

Lemma start_loop_errors : forall id fuel s,
  match start_loop fuel id s with
  | (Err e, s') => (exists n, e = NetworkException n) \/
      exists m t r, trace s' = EvReply id m :: r /\ meaning move_codes m = Some (Some t) /\
                    e = ControlException None (ControlText t None)
  | _ => True
  end.
Proof.
  intros id. induction fuel as [|fuel IH]; intros s; [exact Logic.I|]. cbn [start_loop]. unfold bind at 1.
  unfold modes_differ, bind at 1, get at 1. unfold bind at 1, unwrap at 1.
  destruct (r_motion_mode s) as [mm|]; [|exact Logic.I]. cbn [ret].
  match goal with |- context [if ?b then _ else _] => destruct b end; [|exact Logic.I].
  unfold check_response at 1.
  destruct (match n_tsched s with [] => (None, []) | t :: r => (t, r) end) as [t0 ts].
  cbn [n_table set_tcp]. destruct (tget id (store t0 (n_table s))) as [m|].
  - destruct (N.eqb (blen m) 13); [|exact Logic.I].
    destruct (deserialize c_move_response m) as [[h st]|] eqn:D; [|exact Logic.I].
    destruct (move_decoded m h st D) as [Mm _]. cbn [snd].
    destruct (handle_move st) as [e|] eqn:H; [|exact Logic.I].
    destruct (handle_move_command st e H) as [t ->]. right. exists m, t, (trace s). cbn [handled] in Mm. auto.
  - cbn zeta. unfold bind at 1.
    change (update None None (set_tcp s (store t0 (n_table s)) ts)) with
      (bind receive_robot_state (fun x => ret x) (set_tcp s (store t0 (n_table s)) ts)).
    unfold bind at 1. pose proof (net_receive (set_tcp s (store t0 (n_table s)) ts)) as Nr.
    destruct (receive_robot_state _) as [[x|e|p| |] s1]; auto. cbn [ret]. apply IH.
Qed.

Lemma wall_prefix : forall m x, deserialize c_wall_response m = Some x ->
  exists h, deserialize c_setter_response m = Some (h, fst (snd x)).
Proof.
  intros m x. unfold deserialize, c_wall_response, c_setter_response, c_pair. cbn [dec].
  destruct (dec c_robot_header m) as [[h r]|]; [|discriminate].
  destruct (dec c_gs_status r) as [[st r2]|]; [|discriminate].
  destruct (dec (c_f64s 3) r2) as [[a r3]|]; [|discriminate].
  destruct (dec (c_f64s 16) r3) as [[b r4]|]; [|discriminate].
  destruct (dec c_bool r4) as [[c r5]|]; [|discriminate]. intros [= <-]. exists h. reflexivity.
Qed.
