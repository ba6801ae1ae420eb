(** Request numbering and the model download. *)
From Coq Require Import List NArith ZArith Lia Bool Arith.
From Coq Require Import Init.Byte Strings.Byte.
From Verif Require Import Bytes Codec WireModel WireSpec WireProofs WireProofs2 TcpModel TcpSpec TcpProofs TcpLive.
Import ListNotations.

Lemma send_requests_ids : forall R (encode : N -> R -> list byte) checks rs id,
  (id + N.of_nat (length rs) < 2 ^ 32)%N ->
  snd (send_requests encode checks id rs) = true /\
  length (fst (send_requests encode checks id rs)) = length rs /\
  forall i r, nth_error rs i = Some r ->
    nth_error (fst (send_requests encode checks id rs)) i
    = Some (encode (id + N.of_nat i)%N r, (id + N.of_nat i)%N).
Proof.
  intros R encode checks. induction rs as [|r rs IH]; intros id H.
  - cbn. split; [reflexivity|]. split; [reflexivity|]. intros [|i] r; discriminate.
  - cbn [length] in H. cbn [send_requests]. unfold next_id.
    destruct (N.ltb_spec (id + 1) (2 ^ 32)) as [L|L]; [|lia].
    destruct (IH (id + 1)%N) as (A & B & C); [lia|].
    destruct (send_requests encode checks (id + 1) rs) as [log ok]. cbn [fst snd length] in *.
    split; [exact A|]. split; [lia|].
    intros [|i] r' E; cbn [nth_error] in *.
    + injection E as <-. rewrite N.add_0_r. reflexivity.
    + rewrite (C i r' E). f_equal. replace (id + 1 + N.of_nat i)%N with (id + N.of_nat (S i))%N by lia. reflexivity.
Qed.

Lemma NoDup_indices : forall (log : list (list byte * N)),
  (forall i, (i < length log)%nat -> exists b, nth_error log i = Some (b, N.of_nat i)) -> NoDup (map snd log).
Proof.
  intros log H. apply NoDup_nth_error. intros i j Hi E. rewrite map_length in Hi.
  destruct (H i Hi) as [b Hb]. rewrite !nth_error_map, Hb in E. cbn in E.
  destruct (nth_error log j) as [[b' k]|] eqn:Ej; [|discriminate]. cbn in E. injection E as <-.
  assert (Hj : (j < length log)%nat) by (apply nth_error_Some; congruence).
  destruct (H j Hj) as [b2 Hb2]. rewrite Ej in Hb2. injection Hb2 as _ E. lia.
Qed.

Theorem robot_ids : forall checks rs, Forall request_ok rs -> (N.of_nat (length rs) < 2 ^ 32)%N ->
  snd (robot_send_requests checks 0 rs) = true /\
  ids_in_order (fst (robot_send_requests checks 0 rs)) rs request_total request_layout.
Proof.
  intros checks rs Hok Hl. unfold robot_send_requests.
  destruct (send_requests_ids _ encode_request checks rs 0%N) as (A & B & C); [lia|].
  split; [exact A|]. split; [exact B|]. split.
  - intros i r E. rewrite (C i r E), N.add_0_l. eexists. split; [reflexivity|].
    apply request_layout_ok. rewrite Forall_forall in Hok. apply Hok. eapply nth_error_In; eauto.
  - apply NoDup_indices. intros i Hi. rewrite B in Hi.
    destruct (nth_error rs i) as [r|] eqn:E; [|apply nth_error_None in E; lia].
    rewrite (C i r E), N.add_0_l. eauto.
Qed.

Theorem gripper_ids : forall checks rs, (N.of_nat (length rs) < 2 ^ 32)%N ->
  snd (gripper_send_requests checks 0 rs) = true /\
  ids_in_order (fst (gripper_send_requests checks 0 rs)) rs gripper_total gripper_layout.
Proof.
  intros checks rs Hl. unfold gripper_send_requests.
  destruct (send_requests_ids _ encode_gripper_request checks rs 0%N) as (A & B & C); [lia|].
  split; [exact A|]. split; [exact B|]. split.
  - intros i r E. rewrite (C i r E), N.add_0_l. eexists. split; [reflexivity|]. apply gripper_layout_ok.
  - apply NoDup_indices. intros i Hi. rewrite B in Hi.
    destruct (nth_error rs i) as [r|] eqn:E; [|apply nth_error_None in E; lia].
    rewrite (C i r E), N.add_0_l. eauto.
Qed.

(** After the last id: with overflow checks the next header creation panics,
    without them numbering starts again at 0. *)
Theorem id_exhaustion : forall R (encode : N -> R -> list byte) r1 r2,
  send_requests encode true (2 ^ 32 - 1) [r1; r2] = ([], false) /\
  send_requests encode false (2 ^ 32 - 1) [r1; r2] = ([(encode (2 ^ 32 - 1)%N r1, (2 ^ 32 - 1)%N); (encode 0%N r2, 0%N)], true).
Proof. intros. split; reflexivity. Qed.

(** C49 *)
Lemma lm_response_bytes : forall m b rest, msg_ok Robot m -> m_body m = b :: rest ->
  deserialize c_lm_response (firstn 13 (msg_bytes Robot m)) =
  match enum_of robot_cmds robot_cmd_N (m_code m), enum_of lm_statuses lm_status_N (to_N b) with
  | Some c, Some st => Some ((c, (m_id m, msg_size Robot m)), st)
  | _, _ => None
  end.
Proof.
  intros m b rest (Hc & Hi & Hs) Hb. cbn [codes] in Hc.
  assert (exists e, enum_of robot_cmds robot_cmd_N (m_code m) = Some e) as [e He].
  { apply (enum_lt _ robot_cmds robot_cmd_N 14); [reflexivity|intros []; cbn; auto 20|exact Hc]. }
  rewrite He. pose proof He as He2. apply enum_of_to in He2.
  rewrite msg_bytes_split, Hb.
  assert (E : firstn 13 (hbytes Robot m ++ b :: rest) = hbytes Robot m ++ [b]).
  { change (b :: rest) with ([b] ++ rest). rewrite app_assoc. apply firstn_len_app.
    rewrite app_length, hbytes_length. reflexivity. }
  rewrite E.
  assert (Eh : hbytes Robot m = serialize c_robot_header (e, (m_id m, msg_size Robot m))).
  { rewrite header_bytes, He2. reflexivity. }
  unfold deserialize, c_lm_response. cbn [dec c_pair]. rewrite Eh.
  unfold serialize. rewrite (law_rt _ _ lawful_robot_header)
    by (cbn [wf c_robot_header c_pair fst snd]; repeat split; assumption).
  cbn [dec c_lm_status c_enum c_uint length Nat.leb firstn skipn].
  replace (le_val [b]) with (to_N b) by (cbn [le_val]; lia).
  destruct (enum_of lm_statuses lm_status_N (to_N b)); reflexivity.
Qed.

Theorem load_library_result : forall m, msg_ok Robot m ->
  load_library_response (msg_bytes Robot m) =
  match m_body m with
  | x00 :: ((_ :: _) as payload) => LOk payload
  | x01 :: _ => LError
  | _ => LPanic
  end.
Proof.
  intros m Ok. unfold load_library_response. rewrite msg_bytes_length.
  destruct (m_body m) as [|b rest] eqn:Eb.
  - unfold msg_size. rewrite Eb. reflexivity.
  - destruct (N.ltb_spec (msg_size Robot m) 13) as [L|L].
    { unfold msg_size in L. rewrite Eb in L. cbn [code_width length] in L. lia. }
    rewrite (lm_response_bytes m b rest Ok Eb). destruct Ok as (Hc & _ & _). cbn [codes] in Hc.
    assert (exists e, enum_of robot_cmds robot_cmd_N (m_code m) = Some e) as [e ->].
    { apply (enum_lt _ robot_cmds robot_cmd_N 14); [reflexivity|intros []; cbn; auto 20|exact Hc]. }
    assert (Es : skipn 13 (msg_bytes Robot m) = rest).
    { rewrite msg_bytes_split, Eb. change (b :: rest) with ([b] ++ rest). rewrite app_assoc.
      apply skipn_len_app. rewrite app_length, hbytes_length. reflexivity. }
    assert (Ez : N.eqb (msg_size Robot m) 13 = match rest with [] => true | _ => false end).
    { unfold msg_size. rewrite Eb. destruct rest; [reflexivity|]. apply N.eqb_neq. cbn [code_width length]. lia. }
    destruct b; try reflexivity.
    cbn [to_N enum_of find lm_statuses lm_status_N N.eqb]. rewrite Ez, Es. destruct rest; reflexivity.
Qed.

Theorem download_exact : forall msgs ls id b,
  Forall (msg_ok Robot) msgs -> prefix (arrivals ls) (stream Robot msgs) ->
  In (RWait id b) (snd (run Robot (net_init, Idle) ls)) ->
  exists m, In m msgs /\ m_id m = id /\
    (forall p, load_library_response b = LOk p <-> m_body m = x00 :: p /\ p <> []) /\
    (load_library_response b = LError <-> exists p, m_body m = x01 :: p).
Proof.
  intros msgs ls id b Hok Hp Hin.
  destruct (proj1 (tcp_safe Robot msgs ls Hok Hp) (RWait id b) id b Hin eq_refl) as (m & Hm & Hi & ->).
  exists m. split; [exact Hm|]. split; [exact Hi|].
  rewrite Forall_forall in Hok. rewrite (load_library_result m (Hok m Hm)). split.
  - intros p. destruct (m_body m) as [|c [|d r]].
    + split; [discriminate|intros [H _]; discriminate].
    + destruct c; (split; [try discriminate|]); intros H; try discriminate; destruct H as [H1 H2]; try discriminate.
      injection H1 as <-. congruence.
    + destruct c; (split; [intros H; try discriminate|intros [H1 H2]; try discriminate]).
      * injection H as <-. split; [reflexivity|discriminate].
      * injection H1 as <-. reflexivity.
  - destruct (m_body m) as [|c [|d r]].
    + split; [discriminate|intros [p H]; discriminate].
    + destruct c; (split; [intros H; try discriminate; eauto|intros [p H]; try discriminate; reflexivity]).
    + destruct c; (split; [intros H; try discriminate; eauto|intros [p H]; try discriminate; reflexivity]).
Qed.
