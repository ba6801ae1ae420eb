(** Headline theorems: TCP channel (C01, C02, C03, C04, C49). *)
From Coq Require Import List NArith ZArith Lia Bool.
From Coq Require Import Init.Byte.
From Verif Require Import Bytes Codec WireModel WireSpec WireProofs WireProofs2 TcpModel TcpSpec TcpProofs TcpLive TcpMore.
Import ListNotations.

(** C01 *)
Theorem C01_robot_ids : forall checks rs, Forall request_ok rs -> (N.of_nat (length rs) < 2 ^ 32)%N ->
  snd (robot_send_requests checks 0 rs) = true /\
  ids_in_order (fst (robot_send_requests checks 0 rs)) rs request_total request_layout.
Proof. exact robot_ids. Qed.
Print Assumptions C01_robot_ids.

Theorem C01_gripper_ids : forall checks rs, (N.of_nat (length rs) < 2 ^ 32)%N ->
  snd (gripper_send_requests checks 0 rs) = true /\
  ids_in_order (fst (gripper_send_requests checks 0 rs)) rs gripper_total gripper_layout.
Proof. exact gripper_ids. Qed.
Print Assumptions C01_gripper_ids.

(** What happens at the wrap-around. *)
Theorem C01_exhaustion : forall R (encode : N -> R -> list byte) r1 r2,
  send_requests encode true (2 ^ 32 - 1) [r1; r2] = ([], false) /\
  send_requests encode false (2 ^ 32 - 1) [r1; r2]
  = ([(encode (2 ^ 32 - 1)%N r1, (2 ^ 32 - 1)%N); (encode 0%N r2, 0%N)], true).
Proof. exact id_exhaustion. Qed.
Print Assumptions C01_exhaustion.

Example C01_ex : Forall request_ok [ReqStopMove; ReqGetCartesianLimit 2; ReqAutomaticErrorRecovery] /\
  map snd (fst (robot_send_requests true 0 [ReqStopMove; ReqGetCartesianLimit 2; ReqAutomaticErrorRecovery]))
  = [0; 1; 2]%N.
Proof. split; [|vm_compute; reflexivity]. repeat constructor; vm_compute; congruence. Qed.

(** C02: (a) what a caller is shown for id k is one whole message with id k; (b) per id, the
    messages handed out form a subsequence of those sent (none twice, none reordered);
    (c) the thread dies only if the peer closed the connection in the middle of a message or the
    caller asked for a response type of another size or content. *)
Theorem C02_responses_exact : forall t msgs ls,
  Forall (msg_ok t) msgs -> prefix (arrivals ls) (stream t msgs) ->
  let st := fst (run t (net_init, Idle) ls) in
  let rs := snd (run t (net_init, Idle) ls) in
  (forall r id b, In r rs -> shown r = Some (id, b) ->
     exists m, In m msgs /\ m_id m = id /\ b = msg_bytes t m) /\
  (forall id, subseq (taken id rs) (map (msg_bytes t) (with_id id msgs))) /\
  (forall p, snd st = Dead p -> excused t msgs (starts ls) (In LClose ls) p).
Proof. exact tcp_safe. Qed.
Print Assumptions C02_responses_exact.

(** Two messages, cut in the middle of headers and bodies; the second is asked for first. *)
Definition ex_m1 := Msg 4 0 [x02].
Definition ex_m2 := Msg 1 1 [x01].
Definition ex_bytes := stream Robot [ex_m1; ex_m2].
Definition ex_ls :=
  [LStart (Wait 1); LArrive (firstn 5 ex_bytes); LClient; LClient; LArrive (firstn 9 (skipn 5 ex_bytes));
   LClient; LClient; LClient; LClient; LArrive (skipn 14 ex_bytes); LClient; LClient; LClient; LClient; LClient;
   LClient; LStart (Wait 0); LClient; LClient; LClient; LClient].
Example C02_ex : Forall (msg_ok Robot) [ex_m1; ex_m2] /\ prefix (arrivals ex_ls) (stream Robot [ex_m1; ex_m2]) /\
  snd (run Robot (net_init, Idle) ex_ls) = [RWait 1 (msg_bytes Robot ex_m2); RWait 0 (msg_bytes Robot ex_m1)].
Proof.
  split; [repeat constructor; vm_compute; reflexivity|]. split; [exists []; vm_compute; reflexivity|].
  vm_compute. reflexivity.
Qed.

(** C02, headers the peer should not send: with a new message at the front of the socket the thread
    panics for an unknown command code, and for a size below that of the header itself (subtraction
    of sizes, in a build with overflow checks); for no other header. *)
Lemma parse_any : forall t code id size, (code < 256 ^ N.of_nat (code_width t))%N -> (id < 2 ^ 32)%N -> (size < 2 ^ 32)%N ->
  parse_header t (le (code_width t) code ++ le 4 id ++ le 4 size) = if (code <? codes t)%N then Some (id, size) else None.
Proof.
  intros t code id size Hc Hi Hs.
  assert (U : forall k v r, (v < 256 ^ N.of_nat k)%N -> dec (c_uint k) (le k v ++ r) = Some (v, r))
    by (intros k v r H; rewrite <- le_bytes_le; exact (law_rt _ _ (lawful_uint k) v r H)).
  assert (Z : forall v, (v < 2 ^ 32)%N -> dec c_u32 (le 4 v) = Some (v, []))
    by (intros v H; rewrite <- (app_nil_r (le 4 v)); exact (U 4%nat v [] H)).
  destruct t; unfold parse_header, deserialize, c_gripper_header, c_robot_header, c_gr_cmd, c_robot_cmd, c_enum, c_pair;
    cbn [dec code_width codes] in *; rewrite (U _ code _ Hc).
  - assert (X := enum_lt _ gr_cmds gr_cmd_N 5 eq_refl ltac:(intros []; cbn; auto 10) code).
    destruct (N.ltb_spec code 5) as [L|L].
    + destruct (proj2 X L) as [e ->]. change c_u32 with (c_uint 4) at 1. rewrite (U 4%nat id _ Hi), (Z size Hs). reflexivity.
    + destruct (enum_of gr_cmds gr_cmd_N code) eqn:E; [|reflexivity].
      assert (code < 5)%N by (apply X; eauto). lia.
  - assert (X := enum_lt _ robot_cmds robot_cmd_N 14 eq_refl ltac:(intros []; cbn; auto 20) code).
    destruct (N.ltb_spec code 14) as [L|L].
    + destruct (proj2 X L) as [e ->]. change c_u32 with (c_uint 4) at 1. rewrite (U 4%nat id _ Hi), (Z size Hs). reflexivity.
    + destruct (enum_of robot_cmds robot_cmd_N code) eqn:E; [|reflexivity].
      assert (code < 14)%N by (apply X; eauto). lia.
Qed.

Theorem C02_bad_header : forall t s c code id size rest,
  (code < 256 ^ N.of_nat (code_width t))%N -> (id < 2 ^ 32)%N -> (size < 2 ^ 32)%N ->
  ready s = true -> pend s = [] -> kbuf s = le (code_width t) code ++ le 4 id ++ le 4 size ++ rest ->
  let after := snd (fst (client_step t (s, Polling c))) in
  (after = Dead PBadHeader <-> (codes t <= code)%N) /\
  (after = Dead PUnderflow <-> (code < codes t)%N /\ (size < N.of_nat (code_width t + 8))%N) /\
  (forall p, after = Dead p -> p = PBadHeader \/ p = PUnderflow).
Proof.
  intros t s c code id size rest Hc Hi Hs Rd Pd K. cbv zeta. cbn [client_step].
  set (h := le (code_width t) code ++ le 4 id ++ le 4 size).
  assert (Lh : length h = N.to_nat (header_len t))
    by (subst h; rewrite !app_length, !le_length; destruct t; reflexivity).
  assert (Kh : kbuf s = h ++ rest) by (rewrite K; subst h; rewrite <- !app_assoc; reflexivity).
  assert (Lk : (header_len t <= N.min (blen (kbuf s)) 70000)%N).
  { unfold blen. rewrite Kh, app_length, Lh. destruct t; cbn [header_len]; lia. }
  assert (H0 : (0 < header_len t)%N) by (destruct t; reflexivity).
  unfold poll. rewrite Rd, Pd.
  replace (blen (kbuf s) =? 0)%N with false by (symmetry; apply N.eqb_neq; lia). cbn [negb andb orb].
  rewrite (proj2 (N.leb_le _ _) Lk).
  assert (Hf : firstn (N.to_nat (header_len t)) (kbuf s) = h).
  { rewrite Kh, firstn_app, Lh, Nat.sub_diag, firstn_O, app_nil_r. apply firstn_all2. lia. }
  rewrite !Hf. assert (P := parse_any t code id size Hc Hi Hs). fold h in P. rewrite !P.
  assert (Hl : header_len t = N.of_nat (code_width t + 8)) by (destruct t; reflexivity). rewrite <- Hl.
  destruct (N.ltb_spec code (codes t)) as [L|L].
  - cbn [pend plen poff].
    replace (N.min (blen (kbuf s)) 70000 =? 0)%N with false by (symmetry; apply N.eqb_neq; lia).
    destruct h as [|b h'] eqn:Eh; [exfalso; cbn in Lh; lia|].
    destruct (N.ltb_spec size (header_len t)) as [S|S]; cbn [fst snd].
    + split; [split; [discriminate|lia]|]. split; [split; auto|]. intros p Hp. inversion Hp; auto.
    + split; [split; [discriminate|lia]|]. split; [split; [discriminate|lia]|]. discriminate.
  - cbn [fst snd]. split; [split; auto|]. split; [split; [discriminate|lia]|]. intros p Hp. inversion Hp; auto.
Qed.
Print Assumptions C02_bad_header.

Example C02_ex_bad : (* size 11 in the header of a robot response *)
  snd (fst (run Robot (net_init, Idle)
    [LStart (Wait 3); LArrive (le 4 1 ++ le 4 3 ++ le 4 11 ++ [x00; x00]); LClient; LClient])) = Dead PUnderflow.
Proof. vm_compute. reflexivity. Qed.

(** C03 is false of the code: two responses which arrive together; the second has
    completely arrived and is waited for, but is never returned. *)
Theorem C03_delivery_refuted : exists t m1 m2 ls,
  msg_ok t m1 /\ msg_ok t m2 /\ arrivals ls = stream t [m1; m2] /\
  (exists pre, ls = pre ++ [LStart (Wait (m_id m2))]) /\
  snd (fst (run t (net_init, Idle) ls)) = Polling (Wait (m_id m2)) /\
  forall n, ~ In (RWait (m_id m2) (msg_bytes t m2)) (snd (run t (net_init, Idle) (ls ++ repeat LClient n))).
Proof.
  exists Robot, ex_m1, ex_m2,
    [LArrive (msg_bytes Robot ex_m1 ++ msg_bytes Robot ex_m2); LStart (Wait 0); LClient; LClient; LClient;
     LStart (Wait 1)].
  split; [repeat split; reflexivity|]. split; [repeat split; reflexivity|].
  split; [reflexivity|]. split; [exists [LArrive (msg_bytes Robot ex_m1 ++ msg_bytes Robot ex_m2); LStart (Wait 0); LClient; LClient; LClient]; reflexivity|].
  split; [vm_compute; reflexivity|].
  intros n H.
  pose proof (coalesced_lost Robot ex_m1 ex_m2 n) as E.
  change (m_id ex_m1) with 0%N in E. change (m_id ex_m2) with 1%N in *. rewrite E in H.
  - destruct H as [H|[]]; discriminate.
  - repeat split; reflexivity.
  - discriminate.
  - vm_compute. discriminate.
Qed.
Print Assumptions C03_delivery_refuted.

(** The same for every pair of messages, and for every single long message. *)
Theorem C03_coalesced_never_delivered : forall t m1 m2 n,
  msg_ok t m1 -> m_id m1 <> m_id m2 -> (msg_size t m1 <= 70000)%N ->
  snd (run t (net_init, Idle)
        ([LArrive (msg_bytes t m1 ++ msg_bytes t m2); LStart (Wait (m_id m1)); LClient; LClient; LClient;
          LStart (Wait (m_id m2))] ++ repeat LClient n))
  = [RWait (m_id m1) (msg_bytes t m1)].
Proof. exact coalesced_lost. Qed.
Print Assumptions C03_coalesced_never_delivered.

Theorem C03_long_never_delivered : forall t m n, msg_ok t m -> (header_len t + 70000 < msg_size t m)%N ->
  snd (run t (net_init, Idle)
        ([LArrive (msg_bytes t m); LStart (Wait (m_id m)); LClient; LClient] ++ repeat LClient n)) = [].
Proof. exact long_lost. Qed.
Print Assumptions C03_long_never_delivered.

(** What does hold: any number of exchanges with one response of at most 70000 bytes in flight,
    each cut into segments in any way and interleaved with the client in any way. *)
Theorem C03_delivery_partial : forall t ex s,
  Forall (fun e => msg_ok t (fst e) /\ (msg_size t (fst e) <= 70000)%N /\
                   Forall waiting_label (snd e) /\ arrivals (snd e) = msg_bytes t (fst e)) ex ->
  quiescent s -> (forall e, In e ex -> tget (m_id (fst e)) (table s) = None) ->
  snd (run t (s, Idle)
        (flat_map (fun e => LStart (Wait (m_id (fst e))) :: snd e ++ repeat LClient 5) ex))
  = map (fun e => RWait (m_id (fst e)) (msg_bytes t (fst e))) ex.
Proof. exact delivered_lockstep. Qed.
Print Assumptions C03_delivery_partial.

Example C03_ex : msg_ok Robot ex_m1 /\ (msg_size Robot ex_m1 <= 70000)%N /\ quiescent net_init /\
  arrivals [LArrive (firstn 3 (msg_bytes Robot ex_m1)); LClient; LArrive (skipn 3 (msg_bytes Robot ex_m1))]
  = msg_bytes Robot ex_m1.
Proof. repeat split; vm_compute; congruence. Qed.
Example C03_ex_long : msg_ok Gripper (Msg 0 7 (repeat x00 (N.to_nat 70001))) /\
  (header_len Gripper + 70000 < msg_size Gripper (Msg 0 7 (repeat x00 (N.to_nat 70001))))%N.
Proof.
  unfold msg_ok, msg_size. cbn [m_body m_code m_id codes code_width header_len]. rewrite repeat_length. lia.
Qed.

(** C04 is false of the code: with a header and a part of the body in the socket, the check
    waits for the peer. *)
Theorem C04_check_nonblocking_refuted : exists t m k id n h,
  msg_ok t m /\
  let ls := [LArrive (firstn k (msg_bytes t m)); LStart (Check id n h)] in
  forall j, ~ ended (snd (fst (run t (net_init, Idle) (ls ++ repeat LClient j)))).
Proof.
  exists Robot, ex_m1, 12%nat, 0%N, 13%N, (fun _ => Some true). split; [repeat split; reflexivity|].
  intros ls j. rewrite run_app. cbn [fst snd].
  set (st := fst (run Robot (net_init, Idle) ls)).
  assert (E : st = (Net (firstn 12 (msg_bytes Robot ex_m1)) true false [] 0 0 0 [], Polling (Check 0 13 (fun _ => Some true))))
    by (vm_compute; reflexivity).
  rewrite E. revert j.
  assert (Ok : msg_ok Robot ex_m1) by (repeat split; reflexivity).
  refine (proj2 (check_blocks_iff Robot ex_m1 (Net (firstn 12 (msg_bytes Robot ex_m1)) true false [] 0 0 0 []) [x02]
            0 13 (fun _ => Some true) Ok eq_refl eq_refl eq_refl _ _) _).
  - vm_compute. reflexivity.
  - vm_compute. discriminate.
  - split; [vm_compute; discriminate|discriminate].
Qed.
Print Assumptions C04_check_nonblocking_refuted.

(** Exactly when it blocks at the start of a message: the header is there, the body is not. *)
Theorem C04_check_blocks_iff : forall t m s x id n h,
  msg_ok t m -> closed s = false -> ready s = true -> pend s = [] ->
  kbuf s ++ x = msg_bytes t m -> (blen (kbuf s) <= 70000)%N ->
  ((forall k, ~ ended (snd (fst (run t (s, Polling (Check id n h)) (repeat LClient k))))) <->
   (header_len t <= blen (kbuf s))%N /\ x <> []).
Proof. exact check_blocks_iff. Qed.
Print Assumptions C04_check_blocks_iff.

(** In the middle of a message it never blocks. *)
Theorem C04_check_nonblocking_partial : forall t s id n h,
  pend s <> [] -> (poff s <= plen s)%N -> closed s = false ->
  ended (snd (fst (run t (s, Polling (Check id n h)) (repeat LClient 3)))).
Proof. exact check_continues. Qed.
Print Assumptions C04_check_nonblocking_partial.

Example C04_ex : let s := Net [x05; x06] true false (msg_bytes Robot (Msg 1 2 [x01])) 13 20 2 [] in
  pend s <> [] /\ (poff s <= plen s)%N /\ closed s = false.
Proof. cbn. repeat split; discriminate. Qed.

(** C49: the library returned is exactly the payload of one message with the caller's id, an error
    status never yields one. *)
Theorem C49_download_exact_partial : forall msgs ls id b,
  Forall (msg_ok Robot) msgs -> prefix (arrivals ls) (stream Robot msgs) ->
  In (RWait id b) (snd (run Robot (net_init, Idle) ls)) ->
  exists m, In m msgs /\ m_id m = id /\
    (forall p, load_library_response b = LOk p <-> m_body m = x00 :: p /\ p <> []) /\
    (load_library_response b = LError <-> exists p, m_body m = x01 :: p).
Proof. exact download_exact. Qed.
Print Assumptions C49_download_exact_partial.

(** A library longer than the window which arrives at once is never returned. *)
Theorem C49_download_refuted : exists m, msg_ok Robot m /\ forall n,
  snd (run Robot (net_init, Idle)
        ([LArrive (msg_bytes Robot m); LStart (Wait (m_id m)); LClient; LClient] ++ repeat LClient n)) = [].
Proof.
  assert (Ok : msg_ok Robot (Msg 13 0 (repeat x00 (N.to_nat 70001)))).
  { unfold msg_ok, msg_size. cbn [m_body m_code m_id codes code_width header_len]. rewrite repeat_length. lia. }
  exists (Msg 13 0 (repeat x00 (N.to_nat 70001))). split; [exact Ok|].
  intros n. apply long_lost; [exact Ok|].
  unfold msg_size. cbn [m_body code_width header_len]. rewrite repeat_length. lia.
Qed.
Print Assumptions C49_download_refuted.

Definition ex_lib := Msg 13 3 [x00; x7f; x45; x4c; x46].
Definition ex_lib_ls := [LStart (Wait 3); LArrive (msg_bytes Robot ex_lib); LClient; LClient; LClient; LClient].
Example C49_ex : msg_ok Robot ex_lib /\ prefix (arrivals ex_lib_ls) (stream Robot [ex_lib]) /\
  snd (run Robot (net_init, Idle) ex_lib_ls) = [RWait 3 (msg_bytes Robot ex_lib)] /\
  load_library_response (msg_bytes Robot ex_lib) = LOk [x7f; x45; x4c; x46].
Proof. split; [repeat split|]. split; [exists []; reflexivity|]. split; vm_compute; reflexivity. Qed.
