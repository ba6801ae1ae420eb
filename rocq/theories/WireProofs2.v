(** Proofs about the wire formats: requests, gripper, accepted datagrams. *)
From Coq Require Import List NArith ZArith Lia Bool Arith.
From Coq Require Import Init.Byte Strings.Byte.
From Verif Require Import Bytes Codec WireModel WireSpec WireProofs.
Import ListNotations.

Lemma has_layout_of : forall b total lens l,
  b = concat (map snd l) -> map (@length byte) (map snd l) = lens ->
  combine (psums 0 lens) (map snd l) = l -> list_sum lens = total ->
  has_layout b total l.
Proof.
  intros b total lens l -> Hl Hc Hs. apply has_layout_concat.
  - rewrite <- Hs, <- Hl. clear. induction (map snd l) as [|a t IH]; [reflexivity|].
    cbn. rewrite app_length, IH. reflexivity.
  - rewrite offsets_psums, Hl. exact Hc.
Qed.

Lemma header_bytes : forall c id size,
  serialize c_robot_header (c, (id, size)) = le 4 (robot_cmd_N c) ++ le 4 id ++ le 4 size.
Proof. intros. unfold serialize, c_robot_header, c_robot_cmd, c_u32. cbn [enc c_pair c_enum c_uint fst snd].
  rewrite !le_bytes_le. reflexivity. Qed.

Lemma request_size_total : forall r, request_size r = N.of_nat (request_total r).
Proof. intros []; reflexivity. Qed.
Lemma request_cmd_code : forall r, robot_cmd_N (request_cmd r) = request_code r.
Proof. intros []; reflexivity. Qed.

Lemma dev_len : forall d, length (dev_bytes d) = 24%nat.
Proof. intros. unfold dev_bytes. rewrite les_length. reflexivity. Qed.

Lemma enc_dev : forall d, enc c_deviation d = dev_bytes d.
Proof.
  intros [a [b c]]. unfold c_deviation, dev_bytes, les. cbn -[le le_bytes].
  rewrite !le_bytes_le, app_nil_r. reflexivity.
Qed.

Lemma enc_i32 : forall z, wf c_i32 z -> enc c_i32 z = le 4 (twos32 z).
Proof.
  intros z W. cbn -[le_bytes le] in *. rewrite le_bytes_le. f_equal. unfold twos32.
  destruct (z <? 0)%Z eqn:E.
  - apply Z.ltb_lt in E. f_equal. symmetry. apply (Z.mod_unique_pos _ _ (-1)); lia.
  - apply Z.ltb_ge in E. rewrite Z.mod_small by lia. reflexivity.
Qed.

Lemma request_payload_pieces : forall r, request_ok r ->
  request_payload r = concat (map snd (request_pieces r)).
Proof.
  intros r W. destruct r; cbn [request_payload request_pieces map snd concat];
    unfold serialize, c_connect_request, c_move_request, c_collision_request, c_guiding_request,
      c_load_request, c_filters_request, c_load_model_request, c_move_ctrl, c_move_mg, c_u16, c_u8, robot_version;
    cbn [enc c_pair fst snd];
    rewrite ?enc_f64s_les, ?enc_bools, ?app_nil_r, ?enc_dev; try reflexivity.
  - cbn [enc c_uint]. rewrite !le_bytes_le. reflexivity.
  - cbn [enc c_enum]. rewrite !le_bytes_le. destruct c, m; reflexivity.
  - apply enc_i32. exact W.
  - unfold c_f64. cbn [enc c_uint]. rewrite !le_bytes_le. reflexivity.
  - unfold c_f64. cbn [enc c_uint]. rewrite !le_bytes_le. reflexivity.
Qed.

Ltac unfold_ok := unfold f64s_ok in *; repeat match goal with H : _ /\ _ |- _ => destruct H end.
Ltac len_tac2 :=
  first [ apply le_length
        | apply dev_len
        | solve [erewrite f64s_len by eassumption; reflexivity]
        | solve [rewrite map_length; eassumption]
        | reflexivity ].

Definition piece_lens (r : robot_request) : list nat :=
  match r with
  | ReqConnect _ => [2; 2]
  | ReqMove _ _ _ _ => [4; 4; 24; 24]
  | ReqStopMove => []
  | ReqGetCartesianLimit _ => [4]
  | ReqSetCollisionBehavior _ _ _ _ _ _ _ _ => [56; 56; 56; 56; 48; 48; 48; 48]
  | ReqSetJointImpedance _ => [56]
  | ReqSetCartesianImpedance _ => [48]
  | ReqSetGuidingMode _ _ => [6; 1]
  | ReqSetEeToK _ => [128]
  | ReqSetNeToEe _ => [128]
  | ReqSetLoad _ _ _ => [8; 24; 72]
  | ReqSetFilters _ _ _ _ _ => [8; 8; 8; 8; 8]
  | ReqAutomaticErrorRecovery => []
  | ReqLoadModelLibrary => [1; 1]
  end%nat.

(** C06 *)
Theorem request_layout_ok : forall id r, request_ok r ->
  has_layout (encode_request id r) (request_total r) (request_layout id r).
Proof.
  intros id r W. apply (has_layout_of _ _ (4 :: 4 :: 4 :: piece_lens r)%nat).
  - unfold encode_request. rewrite header_bytes, request_payload_pieces by exact W.
    unfold request_layout. cbn [map snd concat]. rewrite request_cmd_code, request_size_total.
    rewrite <- !app_assoc. reflexivity.
  - unfold request_layout. cbn [map snd].
    repeat (apply cons_eq; [apply le_length|]).
    destruct r; cbn [request_ok] in W; unfold_ok; cbn [request_pieces map snd piece_lens];
      repeat (apply cons_eq; [len_tac2|]); reflexivity.
  - destruct r; reflexivity.
  - destruct r; reflexivity.
Qed.

Lemma app_inj_len : forall A (a a' b b' : list A), length a = length a' -> a ++ b = a' ++ b' -> a = a' /\ b = b'.
Proof.
  induction a as [|x a IH]; intros [|y a'] b b' L H; cbn in *; try discriminate; auto.
  injection H as -> H. injection L as L. destruct (IH _ _ _ L H) as [-> ->]. auto.
Qed.

Lemma enc_inj : forall A (c : codec A) n a b, lawful c n -> wf c a -> wf c b -> enc c a = enc c b -> a = b.
Proof. intros A c n a b L. apply (serialize_inj A c n); exact L. Qed.

Lemma lawful_connect_request : lawful c_connect_request 4. Proof. solve_lawful. Qed.
Lemma lawful_move_request : lawful c_move_request 56. Proof. solve_lawful. Qed.
Lemma lawful_collision_request : lawful c_collision_request 416. Proof. solve_lawful. Qed.
Lemma lawful_guiding_request : lawful c_guiding_request 7. Proof. solve_lawful. Qed.
Lemma lawful_load_request : lawful c_load_request 104. Proof. solve_lawful. Qed.
Lemma lawful_filters_request : lawful c_filters_request 40. Proof. solve_lawful. Qed.
Lemma lawful_gr_connect : lawful c_gr_connect 4. Proof. solve_lawful. Qed.
Lemma lawful_gr_move : lawful c_gr_move 16. Proof. solve_lawful. Qed.
Lemma lawful_gr_grasp : lawful c_gr_grasp 40. Proof. solve_lawful. Qed.

Lemma f64s_ok_bool : forall n (l : list bool), length l = n -> wf (c_array n c_bool) l.
Proof. intros n l H. split; [exact H|]. apply Forall_forall. cbn. auto. Qed.

Theorem encode_request_inj : forall id r id' r',
  (id < 2 ^ 32)%N -> (id' < 2 ^ 32)%N -> request_ok r -> request_ok r' ->
  encode_request id r = encode_request id' r' -> id = id' /\ r = r'.
Proof.
  intros id r id' r' Hi Hi' W W' H. unfold encode_request in H.
  assert (forall r, (request_size r < 4294967296)%N) as Hs by (intros []; cbn; lia).
  apply app_inj_len in H.
  2:{ unfold serialize. rewrite !(law_size _ _ lawful_robot_header); auto;
      cbn; repeat split; auto. }
  destruct H as [Hh Hp].
  apply (serialize_inj _ _ _ _ _ lawful_robot_header) in Hh;
    [|cbn; repeat split; auto..].
  injection Hh as Hc Hid _. split; [exact Hid|].
  destruct r, r'; try discriminate Hc; clear Hc; try reflexivity;
    cbn [request_payload] in Hp; cbn [request_ok] in W, W'; unfold_ok.
  - apply (serialize_inj _ _ _ _ _ lawful_connect_request) in Hp; [|cbn in *; repeat split; auto; lia..].
    congruence.
  - apply (serialize_inj _ _ _ _ _ lawful_move_request) in Hp; [|refine (conj I (conj I (conj _ _))); cbn [fst snd]; assumption..].
    congruence.
  - apply (serialize_inj _ _ _ _ _ lawful_i32) in Hp; auto. congruence.
  - apply (serialize_inj _ _ _ _ _ lawful_collision_request) in Hp;
      [|cbn [wf c_collision_request c_pair fst snd]; auto 12..]. congruence.
  - apply (serialize_inj _ _ _ _ _ (lawful_f64s 7)) in Hp; auto. congruence.
  - apply (serialize_inj _ _ _ _ _ (lawful_f64s 6)) in Hp; auto. congruence.
  - apply (serialize_inj _ _ _ _ _ lawful_guiding_request) in Hp;
      [|split; [apply f64s_ok_bool; assumption|exact I]..]. congruence.
  - apply (serialize_inj _ _ _ _ _ (lawful_f64s 16)) in Hp; auto. congruence.
  - apply (serialize_inj _ _ _ _ _ (lawful_f64s 16)) in Hp; auto. congruence.
  - apply (serialize_inj _ _ _ _ _ lawful_load_request) in Hp;
      [|cbn [wf c_load_request c_pair fst snd]; auto..]. congruence.
  - apply (serialize_inj _ _ _ _ _ lawful_filters_request) in Hp;
      [|cbn [wf c_filters_request c_pair fst snd]; auto 12..]. congruence.
Qed.

(** Gripper. *)
Lemma gripper_header_bytes : forall c id size,
  serialize c_gripper_header (c, (id, size)) = le 2 (gr_cmd_N c) ++ le 4 id ++ le 4 size.
Proof. intros. unfold serialize, c_gripper_header, c_gr_cmd, c_u32. cbn [enc c_pair c_enum c_uint fst snd].
  rewrite !le_bytes_le. reflexivity. Qed.

Theorem gripper_layout_ok : forall id r,
  has_layout (encode_gripper_request id r) (gripper_total r) (gripper_layout id r).
Proof.
  intros id r.
  apply (has_layout_of _ _ (2 :: 4 :: 4 :: match r with
     | GReqConnect _ => [2; 2] | GReqMove _ _ => [8; 8] | GReqHoming => [] | GReqStop => []
     | GReqGrasp _ _ _ _ _ => [8; 8; 8; 8; 8] end)%nat).
  - unfold encode_gripper_request. rewrite gripper_header_bytes. unfold gripper_layout.
    cbn [map snd concat]. rewrite <- !app_assoc.
    replace (gr_cmd_N (gripper_request_cmd r)) with (gripper_code r) by (destruct r; reflexivity).
    replace (gripper_request_size r) with (N.of_nat (gripper_total r)) by (destruct r; reflexivity).
    do 3 f_equal.
    destruct r; cbn [gripper_request_payload gripper_pieces map snd concat]; try reflexivity;
      unfold serialize, c_gr_connect, c_gr_move, c_gr_grasp, c_u16, c_f64;
      cbn [enc c_pair c_uint fst snd]; rewrite !le_bytes_le, <- ?app_assoc, ?app_nil_r; try reflexivity.
  - unfold gripper_layout. cbn [map snd]. repeat (apply cons_eq; [apply le_length|]).
    destruct r; cbn [gripper_pieces map snd]; repeat (apply cons_eq; [apply le_length|]); reflexivity.
  - destruct r; reflexivity.
  - destruct r; reflexivity.
Qed.

(** The request with the default epsilons filled in. *)
Definition gripper_effective (r : gripper_request) : gripper_request :=
  match r with
  | GReqGrasp w s f ei eo => GReqGrasp w s f (Some (eps_or_default ei)) (Some (eps_or_default eo))
  | _ => r
  end.

Lemma eps_ok : forall o, opt_ok (wf c_f64) o -> (eps_or_default o < 256 ^ N.of_nat 8)%N.
Proof. intros [e|] H; cbn in *; lia. Qed.
Lemma unwrap_eps : forall o, unwrap_or o f64_0_005 = eps_or_default o.
Proof. intros [e|]; reflexivity. Qed.

Theorem encode_gripper_inj : forall id r id' r',
  (id < 2 ^ 32)%N -> (id' < 2 ^ 32)%N -> gripper_request_ok r -> gripper_request_ok r' ->
  encode_gripper_request id r = encode_gripper_request id' r' ->
  id = id' /\ gripper_effective r = gripper_effective r'.
Proof.
  intros id r id' r' Hi Hi' W W' H. unfold encode_gripper_request in H.
  assert (forall r, (gripper_request_size r < 4294967296)%N) as Hs by (intros []; cbn; lia).
  apply app_inj_len in H.
  2:{ unfold serialize. rewrite !(law_size _ _ lawful_gripper_header); auto; cbn; repeat split; auto. }
  destruct H as [Hh Hp].
  apply (serialize_inj _ _ _ _ _ lawful_gripper_header) in Hh; [|cbn; repeat split; auto..].
  injection Hh as Hc Hid _. split; [exact Hid|].
  destruct r, r'; try discriminate Hc; clear Hc; try reflexivity;
    cbn [gripper_request_payload] in Hp; cbn [gripper_request_ok] in W, W'; unfold_ok.
  - apply (serialize_inj _ _ _ _ _ lawful_gr_connect) in Hp; [|cbn in *; repeat split; auto; lia..]. congruence.
  - apply (serialize_inj _ _ _ _ _ lawful_gr_move) in Hp; [|cbn [wf c_gr_move c_pair fst snd]; auto..]. congruence.
  - rewrite !unwrap_eps in Hp.
    apply (serialize_inj _ _ _ _ _ lawful_gr_grasp) in Hp;
      [|cbn [wf c_gr_grasp c_pair fst snd]; repeat split; auto; apply eps_ok; auto..].
    cbn [gripper_effective]. congruence.
Qed.

Theorem gripper_state_layout_ok : forall s, wf c_gripper_state s ->
  has_layout (serialize c_gripper_state s) 23 (gripper_state_layout s).
Proof.
  intros s W. apply (has_layout_of _ _ [4; 8; 8; 1; 2]%nat); try reflexivity.
  unfold serialize, c_gripper_state, gripper_state_layout, c_u32, c_f64, c_u16.
  cbn [enc c_iso c_pair c_uint c_bool fst snd map concat].
  rewrite !le_bytes_le, app_nil_r. destruct s as [? ? ? [] ?]; reflexivity.
Qed.

(** Acceptance of datagrams. *)
Definition total_codec {A} (c : codec A) (n : nat) : Prop :=
  lawful c n /\ forall bs, (n <= length bs)%nat -> accepts c bs.

Lemma total_uint : forall k, total_codec (c_uint k) k.
Proof. intros k. split; [apply lawful_uint|]. intros bs H. apply accepts_uint. exact H. Qed.
Lemma total_f64s : forall n, total_codec (c_f64s n) (n * 8).
Proof. intros n. split; [apply lawful_f64s|]. intros bs H. apply accepts_array_uint. exact H. Qed.

Lemma accepts_skip : forall A B (c1 : codec A) (c2 : codec B) n o m bs,
  total_codec c1 n -> (o + n = m)%nat -> (m <= length bs)%nat ->
  (accepts (c1 ** c2) (skipn o bs) <-> accepts c2 (skipn m bs)).
Proof.
  intros A B c1 c2 n o m bs [L T] Hm H. subst m. rewrite (accepts_pair _ _ _ _ n) by exact L.
  rewrite skipn_skipn. rewrite (Nat.add_comm n o). split; [tauto|]. intros; split; auto.
  apply T. rewrite skipn_length. lia.
Qed.

Lemma enum_lt : forall E (l : list E) (to : E -> N) k,
  map to l = map N.of_nat (seq 0 k) ->
  (forall e, In e l) ->
  forall v, (exists e, enum_of l to v = Some e) <-> (v < N.of_nat k)%N.
Proof.
  intros E l to k Hm Hall v. split.
  - intros [e He]. apply enum_of_to in He. subst v.
    assert (In (to e) (map to l)) as HI by (apply in_map; apply Hall).
    rewrite Hm in HI. apply in_map_iff in HI. destruct HI as [i [<- Hi]]. apply in_seq in Hi. lia.
  - intros Hv. assert (In v (map N.of_nat (seq 0 k))) as HI.
    { apply in_map_iff. exists (N.to_nat v). split; [lia|]. apply in_seq. lia. }
    rewrite <- Hm in HI. apply in_map_iff in HI. destruct HI as [e [He HI]].
    unfold enum_of. destruct (find (fun e0 => (to e0 =? v)%N) l) as [e'|] eqn:F; [eauto|].
    exfalso. apply (find_none _ _ F) in HI. apply N.eqb_neq in HI. congruence.
Qed.

Lemma firstn1_nth : forall (bs : list byte) o, (o < length bs)%nat -> firstn 1 (skipn o bs) = [nth o bs x00].
Proof.
  induction bs as [|b t IH]; intros o H; cbn in H; [lia|].
  destruct o; [reflexivity|]. cbn [skipn nth]. apply IH. lia.
Qed.

Lemma accepts_enum1 : forall E (l : list E) to k o bs,
  map to l = map N.of_nat (seq 0 k) -> (forall e, In e l) -> (o < length bs)%nat ->
  (accepts (c_enum 1 to (enum_of l to)) (skipn o bs) <-> (to_N (nth o bs x00) < N.of_nat k)%N).
Proof.
  intros E l to k o bs Hm Hall H. rewrite accepts_enum, (enum_lt _ _ _ k) by auto.
  rewrite firstn1_nth by auto. cbn [le_val]. rewrite skipn_length.
  split; intros; [lia|split; [lia|lia]].
Qed.

Lemma slice_split : forall A (b : list A) o n m, slice b o (n + m) = slice b o n ++ slice b (o + n) m.
Proof.
  intros A b o n m. unfold slice.
  rewrite Nat.add_comm with (n := o), <- skipn_skipn.
  generalize (skipn o b). clear. intros l. revert n. induction l as [|a l IH]; intros [|n]; cbn;
    rewrite ?firstn_nil, ?skipn_nil; try reflexivity. f_equal. apply IH.
Qed.

Lemma nth_skipn : forall (l : list byte) o i, nth i (skipn o l) x00 = nth (o + i) l x00.
Proof. induction l as [|a l IH]; intros [|o] i; cbn; auto; destruct i; reflexivity. Qed.

Definition c_state_tail :=
  c_mg_mode ** c_ctrl_mode ** c_array 32 c_bool ** c_array 9 c_bool ** c_array 32 c_bool **
  c_array 9 c_bool ** c_robot_mode ** c_u64.

Lemma tail_accept : forall t, length t = 93%nat ->
  (accepts c_state_tail t <->
   (to_N (nth 0 t x00) < 5)%N /\ (to_N (nth 1 t x00) < 4)%N /\
   Forall is_bool_byte (slice t 2 82) /\ (to_N (nth 84 t x00) < 7)%N).
Proof.
  intros t L. unfold c_state_tail.
  rewrite (accepts_pair _ _ _ _ 1) by apply lawful_mg.
  rewrite (accepts_pair _ _ _ _ 1) by apply lawful_ctrl.
  rewrite (accepts_pair _ _ _ _ 32) by (apply (lawful_array _ _ 32 1), lawful_bool).
  rewrite (accepts_pair _ _ _ _ 9) by (apply (lawful_array _ _ 9 1), lawful_bool).
  rewrite (accepts_pair _ _ _ _ 32) by (apply (lawful_array _ _ 32 1), lawful_bool).
  rewrite (accepts_pair _ _ _ _ 9) by (apply (lawful_array _ _ 9 1), lawful_bool).
  rewrite (accepts_pair _ _ _ _ 1) by apply lawful_rm.
  rewrite !skipn_skipn. cbn [Nat.add].
  unfold c_mg_mode, c_ctrl_mode, c_robot_mode.
  change t with (skipn 0 t) at 1.
  rewrite (accepts_enum1 _ mg_modes mg_mode_N 5) by
    (first [reflexivity | intros []; cbn; auto 10 | rewrite L; lia]).
  rewrite (accepts_enum1 _ ctrl_modes ctrl_mode_N 4) by
    (first [reflexivity | intros []; cbn; auto 10 | rewrite L; lia]).
  rewrite (accepts_enum1 _ robot_modes robot_mode_N 7) by
    (first [reflexivity | intros []; cbn; auto 10 | rewrite L; lia]).
  rewrite !accepts_array_bool. unfold c_u64. rewrite accepts_uint, !skipn_length, L.
  replace (slice t 2 82) with (slice t 2 32 ++ slice t 34 9 ++ slice t 43 32 ++ slice t 75 9).
  2:{ change 82%nat with (32 + (9 + (32 + 9)))%nat. rewrite !slice_split. reflexivity. }
  rewrite !Forall_app. unfold slice.
  change (N.of_nat 5) with 5%N. change (N.of_nat 4) with 4%N. change (N.of_nat 7) with 7%N.
  split.
  - intros (H1 & H2 & (_ & H3) & (_ & H4) & (_ & H5) & (_ & H6) & H7 & _). auto 10.
  - intros (H1 & H2 & (H3 & H4 & H5 & H6) & H7). repeat split; auto; lia.
Qed.

Lemma slice_skipn : forall A (l : list A) o i n, slice (skipn o l) i n = slice l (i + o) n.
Proof. intros. unfold slice. rewrite skipn_skipn. reflexivity. Qed.

(** C05: which 2373-byte datagrams are accepted. *)
Theorem state_accept_iff : forall b, length b = 2373%nat ->
  ((exists s, deserialize c_robot_state_intern b = Some s) <->
   (to_N (nth 2280 b x00) < 5)%N /\ (to_N (nth 2281 b x00) < 4)%N /\
   Forall is_bool_byte (slice b 2282 82) /\ (to_N (nth 2364 b x00) < 7)%N).
Proof.
  intros b L.
  transitivity (accepts c_robot_state_intern b).
  { unfold deserialize, accepts. destruct (dec c_robot_state_intern b) as [[s r]|]; split;
      intros [x H]; try discriminate; eauto. }
  unfold c_robot_state_intern. eapply iff_trans; [apply accepts_iso|].
  assert (B : forall m, Nat.leb m 2373 = true -> (m <= length b)%nat)
    by (intros m Hm; rewrite L; apply Nat.leb_le; exact Hm).
  eapply iff_trans; [apply (accepts_skip _ _ _ _ 8 0 8 b (total_uint 8) eq_refl (B 8%nat eq_refl))|].
  eapply iff_trans; [apply (accepts_skip _ _ _ _ 128 8 136 b (total_f64s 16) eq_refl (B 136%nat eq_refl))|].
  eapply iff_trans; [apply (accepts_skip _ _ _ _ 128 136 264 b (total_f64s 16) eq_refl (B 264%nat eq_refl))|].
  eapply iff_trans; [apply (accepts_skip _ _ _ _ 128 264 392 b (total_f64s 16) eq_refl (B 392%nat eq_refl))|].
  eapply iff_trans; [apply (accepts_skip _ _ _ _ 128 392 520 b (total_f64s 16) eq_refl (B 520%nat eq_refl))|].
  eapply iff_trans; [apply (accepts_skip _ _ _ _ 128 520 648 b (total_f64s 16) eq_refl (B 648%nat eq_refl))|].
  eapply iff_trans; [apply (accepts_skip _ _ _ _ 128 648 776 b (total_f64s 16) eq_refl (B 776%nat eq_refl))|].
  eapply iff_trans; [apply (accepts_skip _ _ _ _ 8 776 784 b (total_uint 8) eq_refl (B 784%nat eq_refl))|].
  eapply iff_trans; [apply (accepts_skip _ _ _ _ 72 784 856 b (total_f64s 9) eq_refl (B 856%nat eq_refl))|].
  eapply iff_trans; [apply (accepts_skip _ _ _ _ 24 856 880 b (total_f64s 3) eq_refl (B 880%nat eq_refl))|].
  eapply iff_trans; [apply (accepts_skip _ _ _ _ 8 880 888 b (total_uint 8) eq_refl (B 888%nat eq_refl))|].
  eapply iff_trans; [apply (accepts_skip _ _ _ _ 72 888 960 b (total_f64s 9) eq_refl (B 960%nat eq_refl))|].
  eapply iff_trans; [apply (accepts_skip _ _ _ _ 24 960 984 b (total_f64s 3) eq_refl (B 984%nat eq_refl))|].
  eapply iff_trans; [apply (accepts_skip _ _ _ _ 16 984 1000 b (total_f64s 2) eq_refl (B 1000%nat eq_refl))|].
  eapply iff_trans; [apply (accepts_skip _ _ _ _ 16 1000 1016 b (total_f64s 2) eq_refl (B 1016%nat eq_refl))|].
  eapply iff_trans; [apply (accepts_skip _ _ _ _ 56 1016 1072 b (total_f64s 7) eq_refl (B 1072%nat eq_refl))|].
  eapply iff_trans; [apply (accepts_skip _ _ _ _ 56 1072 1128 b (total_f64s 7) eq_refl (B 1128%nat eq_refl))|].
  eapply iff_trans; [apply (accepts_skip _ _ _ _ 56 1128 1184 b (total_f64s 7) eq_refl (B 1184%nat eq_refl))|].
  eapply iff_trans; [apply (accepts_skip _ _ _ _ 56 1184 1240 b (total_f64s 7) eq_refl (B 1240%nat eq_refl))|].
  eapply iff_trans; [apply (accepts_skip _ _ _ _ 56 1240 1296 b (total_f64s 7) eq_refl (B 1296%nat eq_refl))|].
  eapply iff_trans; [apply (accepts_skip _ _ _ _ 56 1296 1352 b (total_f64s 7) eq_refl (B 1352%nat eq_refl))|].
  eapply iff_trans; [apply (accepts_skip _ _ _ _ 56 1352 1408 b (total_f64s 7) eq_refl (B 1408%nat eq_refl))|].
  eapply iff_trans; [apply (accepts_skip _ _ _ _ 56 1408 1464 b (total_f64s 7) eq_refl (B 1464%nat eq_refl))|].
  eapply iff_trans; [apply (accepts_skip _ _ _ _ 56 1464 1520 b (total_f64s 7) eq_refl (B 1520%nat eq_refl))|].
  eapply iff_trans; [apply (accepts_skip _ _ _ _ 48 1520 1568 b (total_f64s 6) eq_refl (B 1568%nat eq_refl))|].
  eapply iff_trans; [apply (accepts_skip _ _ _ _ 56 1568 1624 b (total_f64s 7) eq_refl (B 1624%nat eq_refl))|].
  eapply iff_trans; [apply (accepts_skip _ _ _ _ 48 1624 1672 b (total_f64s 6) eq_refl (B 1672%nat eq_refl))|].
  eapply iff_trans; [apply (accepts_skip _ _ _ _ 56 1672 1728 b (total_f64s 7) eq_refl (B 1728%nat eq_refl))|].
  eapply iff_trans; [apply (accepts_skip _ _ _ _ 48 1728 1776 b (total_f64s 6) eq_refl (B 1776%nat eq_refl))|].
  eapply iff_trans; [apply (accepts_skip _ _ _ _ 48 1776 1824 b (total_f64s 6) eq_refl (B 1824%nat eq_refl))|].
  eapply iff_trans; [apply (accepts_skip _ _ _ _ 48 1824 1872 b (total_f64s 6) eq_refl (B 1872%nat eq_refl))|].
  eapply iff_trans; [apply (accepts_skip _ _ _ _ 24 1872 1896 b (total_f64s 3) eq_refl (B 1896%nat eq_refl))|].
  eapply iff_trans; [apply (accepts_skip _ _ _ _ 16 1896 1912 b (total_f64s 2) eq_refl (B 1912%nat eq_refl))|].
  eapply iff_trans; [apply (accepts_skip _ _ _ _ 16 1912 1928 b (total_f64s 2) eq_refl (B 1928%nat eq_refl))|].
  eapply iff_trans; [apply (accepts_skip _ _ _ _ 16 1928 1944 b (total_f64s 2) eq_refl (B 1944%nat eq_refl))|].
  eapply iff_trans; [apply (accepts_skip _ _ _ _ 128 1944 2072 b (total_f64s 16) eq_refl (B 2072%nat eq_refl))|].
  eapply iff_trans; [apply (accepts_skip _ _ _ _ 48 2072 2120 b (total_f64s 6) eq_refl (B 2120%nat eq_refl))|].
  eapply iff_trans; [apply (accepts_skip _ _ _ _ 48 2120 2168 b (total_f64s 6) eq_refl (B 2168%nat eq_refl))|].
  eapply iff_trans; [apply (accepts_skip _ _ _ _ 56 2168 2224 b (total_f64s 7) eq_refl (B 2224%nat eq_refl))|].
  eapply iff_trans; [apply (accepts_skip _ _ _ _ 56 2224 2280 b (total_f64s 7) eq_refl (B 2280%nat eq_refl))|].
  eapply iff_trans; [apply (tail_accept (skipn 2280 b)); rewrite skipn_length, L; reflexivity|].
  rewrite !nth_skipn, slice_skipn. reflexivity.
Qed.
