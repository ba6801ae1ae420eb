(** Further facts about single calls: requests, starting, stopping, connecting, reading, freshness. *)
From Coq Require Import List NArith ZArith Bool Arith Lia String Sorting.Sorted.
From Coq Require Import Init.Byte.
From Verif Require Import Bytes Codec WireModel TcpModel UdpModel UdpSpec UdpProofs ErrorsModel LoggerModel
  RobotModel LoopModel RobotSpec RobotProofs RobotWp LoopProofs Effects RobotMore.
Import ListNotations.
Open Scope list_scope.
Open Scope N_scope.

Definition no_request (e : event) : Prop := match e with EvRequest _ _ => False | _ => True end.
Definition state_or_reply (e : event) : Prop := match e with EvState _ | EvReply _ _ => True | _ => False end.
Definition no_kernel (e : event) : Prop := match e with EvKernel => False | _ => True end.

Lemma requests_app : forall a b, requests (a ++ b) = requests a ++ requests b.
Proof. intros. apply flat_map_app. Qed.
Lemma no_requests : forall d, Forall no_request d -> requests d = [].
Proof.
  induction d as [|e d IH]; intros F; [reflexivity|]. inversion F; subst. destruct e; cbn in *; auto. contradiction.
Qed.
Lemma grew_requests : forall s s', grew no_request s s' -> requests (trace s') = requests (trace s).
Proof. intros s s' (d & -> & F). rewrite requests_app, no_requests by exact F. reflexivity. Qed.

(** * Stopping *)
Lemma do_loop_no_request : forall k id cb s, grew no_request s (snd (do_loop k id cb s)).
Proof. intros. apply adds_do_loop; intros; exact Logic.I. Qed.

Lemma cancel_requests : forall id s, exists d, trace (snd (cancel_motion id s)) =
  d ++ EvRequest (n_id s) ReqStopMove :: trace s /\ Forall state_or_reply d.
Proof.
  intros id s. unfold cancel_motion, execute_stop. unfold bind at 1, send_request at 1.
  set (s1 := set_id _ _).
  assert (H : adds state_or_reply (r <- blocking_response c_stop_response (n_id s);;
              as_result (handle_stop (snd r)) ;;; ret (n_id s))).
  { apply adds_bind; [apply adds_response; intros; exact Logic.I|intros]. apply adds_bind; [|intros].
    - apply adds_as_result.
    - apply adds_ret. }
  specialize (H s1).
  destruct ((r <- blocking_response c_stop_response (n_id s);;
              as_result (handle_stop (snd r)) ;;; ret (n_id s)) s1) as [[n|e|p| |] s2]; try exact H.
  cbn [snd] in H.
  assert (Rc : grew state_or_reply s1 (snd (receive_robot_state s2))).
  { eapply grew_trans; [exact H|]. apply adds_receive; intros; exact Logic.I. }
  destruct (receive_robot_state s2) as [r s3]. cbn [snd] in Rc.
  assert (Rest : grew state_or_reply s1 (snd ((cancel_loop (S (List.length (n_usched s3) + pending (n_udp s3) (n_usched s3))) ;;;
           check_response c_move_response 13 id (fun _ => None) ;;; reset_current) s3))).
  { eapply grew_trans; [exact Rc|].
    apply adds_bind; [apply adds_cancel_loop; intros; exact Logic.I|intros].
    apply adds_bind; [apply adds_check; intros; exact Logic.I|intros].
    apply adds_modify. reflexivity. }
  destruct r; try exact Rc; exact Rest.
Qed.

Lemma run_loop_requests : forall k id cb s,
  match do_loop k id cb s with
  | (Err e, s1) =>
      requests (trace s1) = requests (trace s) /\
      exists d, trace (snd (run_loop k id cb s)) = d ++ EvRequest (n_id s1) ReqStopMove :: trace s1 /\
        Forall state_or_reply d /\
        match fst (run_loop k id cb s) with Err e' => e' = e | Ok _ => False | _ => True end
  | (r, s1) => run_loop k id cb s = (r, s1) /\ requests (trace s1) = requests (trace s)
  end.
Proof.
  intros k id cb s. pose proof (do_loop_no_request k id cb s) as G. unfold run_loop.
  destruct (do_loop k id cb s) as [[u|e|p| |] s1]; cbn [snd] in G; apply grew_requests in G; auto.
  split; [exact G|].
  destruct (cancel_requests id s1) as (d & T & F). unfold bind at 1 2.
  destruct (cancel_motion id s1) as [[u|e'|p| |] s2] eqn:E; cbn [snd] in T; exists d; cbn; repeat (split; [assumption|]); auto.
  (* cancel_motion itself never returns an error *)
  exfalso. revert E. unfold cancel_motion. destruct (execute_stop s1) as [[]]; try discriminate.
  destruct (receive_robot_state s0) as [r s3].
  assert (N : forall s4, fst ((cancel_loop (S (List.length (n_usched s4) + pending (n_udp s4) (n_usched s4))) ;;;
           check_response c_move_response 13 id (fun _ => None) ;;; reset_current) s4) <> Err e').
  { intros s4. unfold bind.
    assert (Nc : forall fuel s5 e0, fst (cancel_loop fuel s5) <> Err e0).
    { induction fuel as [|fuel IH]; intros s5 e0; [discriminate|]. cbn [cancel_loop].
      unfold bind at 1.
      assert (Nr : forall e1, fst (motion_or_controller_running s5) <> Err e1).
      { intros e1. unfold motion_or_controller_running, motion_generator_running, controller_running, bind, get, unwrap, ret.
        destruct (r_motion_mode s5); cbn; [destruct (negb _); discriminate|discriminate]. }
      destruct (motion_or_controller_running s5) as [[[]|e1|p| |] s6] eqn:Er; try discriminate.
      - destruct (receive_robot_state s6) as [[x|e1|p| |] s7]; try discriminate; [apply IH|].
        destruct (_ && _); [discriminate|apply IH].
      - exfalso. apply (Nr e1). reflexivity. }
    specialize (Nc (S (List.length (n_usched s4) + pending (n_udp s4) (n_usched s4))) s4).
    destruct (cancel_loop _ s4) as [[u|e1|p| |] s5] eqn:Ec; try discriminate.
    - assert (Nk : forall e0, fst (check_response c_move_response 13 id (fun _ => None) s5) <> Err e0).
      { intros e0. unfold check_response.
        destruct (match n_tsched s5 with [] => (None, []) | t :: r => (t, r) end).
        destruct (tget _ _); [|discriminate]. destruct (N.eqb _ _); [|discriminate].
        destruct (deserialize _ _); discriminate. }
      destruct (check_response _ _ _ _ s5) as [[b|e1|p| |] s6] eqn:Ek; try discriminate.
      exfalso. apply (Nk e1). reflexivity.
    - exfalso. apply (Nc e1). reflexivity. }
  destruct r; intros E; try discriminate; specialize (N s3); rewrite E in N; cbn in N; congruence.
Qed.

(** * Starting *)
Lemma start_requests_I : forall c m p g s, I s ->
  (running s -> start_motion c m p g s = (Panic PStartWhileRunning, s)) /\
  (~ running s -> exists d, trace (snd (start_motion c m p g s)) = d ++ EvRequest (n_id s) (ReqMove c m p g) :: trace s /\
     Forall state_or_reply d).
Proof.
  intros c m p g s R. pose proof (wp_running s R) as W. unfold wp in W.
  destruct (motion_or_controller_running s) as [[b|e|q| |] s0] eqn:Em; try contradiction.
  destruct W as [-> Hb]. split.
  - intros Hr. apply Hb in Hr. subst b. unfold start_motion. unfold bind at 1. rewrite Em. reflexivity.
  - intros Hr. destruct b; [exfalso; apply Hr, Hb; reflexivity|].
    set (s1 := set_id (add_event (set_current s (mode_of_move m) (Some (ctrl_of_move c)))
                (EvRequest (n_id s) (ReqMove c m p g))) ((n_id s + 1) mod 2 ^ 32)).
    assert (Eq : start_motion c m p g s =
      (id <- (r <- blocking_response c_move_response (n_id s);; as_result (handle_move (snd r)) ;;; ret (n_id s)) ;;
       s0 <- get;; start_loop (bound s0) id ;;; flush_log ;;; ret id) s1).
    { unfold start_motion. unfold bind at 1. rewrite Em. reflexivity. }
    rewrite Eq. clear Eq.
    assert (A : adds state_or_reply
      (id <- (r <- blocking_response c_move_response (n_id s);; as_result (handle_move (snd r)) ;;; ret (n_id s)) ;;
       s0 <- get;; start_loop (bound s0) id ;;; flush_log ;;; ret id)).
    { apply adds_bind; [apply adds_bind; [apply adds_response; intros; exact Logic.I|intros; apply adds_bind;
        [apply adds_as_result|intros; apply adds_ret]]|intros].
      apply adds_bind; [apply adds_get|intros].
      apply adds_bind; [apply adds_start_loop; intros; exact Logic.I|intros].
      apply adds_bind; [apply adds_flush_log|intros]. apply adds_ret. }
    destruct (A s1) as (d & T & F). exists d. split; [|exact F]. exact T.
Qed.

(** * Connecting *)
Lemma connect_spec : forall port s,
  match connect_robot port s with
  | (Ok _, s') => exists m h v, trace s' = EvReply (n_id s) m :: EvRequest (n_id s) (ReqConnect port) :: trace s /\
      deserialize c_connect_response m = Some (h, (CsSuccess, v)) /\ r_version s' = Some v
  | (Err e, s') => exists m h v, trace s' = EvReply (n_id s) m :: EvRequest (n_id s) (ReqConnect port) :: trace s /\
      deserialize c_connect_response m = Some (h, (CsIncompatibleLibraryVersion, v)) /\
      e = IncompatibleLibraryVersionError v robot_version /\ r_version s' = r_version s
  | (Panic p, _) => p = PDecodeTcp
  | (Blocked, _) => True
  | (OutOfFuel, _) => False
  end.
Proof.
  intros port s. unfold connect_robot. unfold bind at 1, send_request at 1. unfold bind at 1, blocking_response at 1.
  unfold bind at 1, wait_response at 1. cbn [n_id n_tsched n_table set_id add_event].
  destruct (wait_loop (n_id s) (n_tsched s) (n_table s)) as [[[m|] tb] ts]; [|exact Logic.I].
  unfold unwrap. destruct (deserialize c_connect_response m) as [[h [st v]]|] eqn:D; [|reflexivity].
  cbn. destruct st; exists m, h, v; auto.
Qed.

(** * Setters *)
Lemma setter_spec : forall r s,
  match setter r s with
  | (Ok _, s') => exists m h, trace s' = EvReply (n_id s) m :: EvRequest (n_id s) r :: trace s /\
      deserialize c_setter_response m = Some (h, GsSuccess) /\ n_id s' = (n_id s + 1) mod 2 ^ 32
  | (Err e, s') => exists m h st, trace s' = EvReply (n_id s) m :: EvRequest (n_id s) r :: trace s /\
      deserialize c_setter_response m = Some (h, st) /\ st <> GsSuccess /\ handle_setter st = Some e
  | (Panic _, s') | (Blocked, s') => requests (trace s') = r :: requests (trace s)
  | (OutOfFuel, _) => False
  end.
Proof.
  intros r s. unfold setter. unfold bind at 1, send_request at 1. unfold bind at 1, blocking_response at 1.
  unfold bind at 1, wait_response at 1. cbn [n_id n_tsched n_table set_id add_event].
  destruct (wait_loop (n_id s) (n_tsched s) (n_table s)) as [[[m|] tb] ts]; [|reflexivity].
  unfold unwrap. destruct (deserialize c_setter_response m) as [[h st]|] eqn:D; [|reflexivity].
  cbn [panic_with ret as_result snd]. destruct st; cbn [handle_setter as_result].
  - exists m, h. auto.
  - exists m, h, GsCommandNotPossibleRejected. repeat split; auto. discriminate.
  - exists m, h, GsInvalidArgumentRejected. repeat split; auto. discriminate.
Qed.

(** * The read loop *)
(** [feed cb k xs k']: the callback accepts all of [xs], in this order. *)
Inductive feed {K} (cb : K -> robot_state_intern -> option (K * bool)) : K -> list robot_state_intern -> K -> Prop :=
| feed_nil : forall k, feed cb k [] k
| feed_cons : forall k x k1 xs k2, cb k x = Some (k1, true) -> feed cb k1 xs k2 -> feed cb k (x :: xs) k2.

(** The events of giving [xs] (oldest first) to the callback. *)
Definition given (xs : list robot_state_intern) : list event :=
  flat_map (fun x => [EvRead x; EvState x]) (rev xs).
Lemma given_cons : forall x xs, given (x :: xs) = given xs ++ [EvRead x; EvState x].
Proof. intros. unfold given. cbn [rev]. rewrite flat_map_app. reflexivity. Qed.

Definition read_result {K} (cb : K -> robot_state_intern -> option (K * bool)) (k : K) (s : st)
  (r : outcome K * st) : Prop :=
  match r with
  | (Ok k', s') => exists xs x k1, trace s' = given (xs ++ [x]) ++ trace s /\ feed cb k xs k1 /\
                     cb k1 x = Some (k', false)
  | (Err e, s') => exists xs k1, trace s' = given xs ++ trace s /\ feed cb k xs k1 /\ exists n, e = NetworkException n
  | (Panic p, s') =>
      (p = PDecodeUdp /\ exists xs k1, trace s' = given xs ++ trace s /\ feed cb k xs k1) \/
      (p = PCallback /\ exists xs x k1, trace s' = given (xs ++ [x]) ++ trace s /\ feed cb k xs k1 /\ cb k1 x = None)
  | _ => False
  end.

Lemma read_loop_spec : forall K (cb : K -> robot_state_intern -> option (K * bool)) fuel k s, I s ->
  (upend s < fuel)%nat -> read_result cb k s (read_loop fuel cb k s).
Proof.
  intros K cb. induction fuel as [|fuel IH]; intros k s HI Hf; [lia|]. cbn [read_loop].
  unfold bind at 1. pose proof (wp_update_none s HI) as W. unfold wp in W.
  destruct (update None None s) as [[x|e|p| |] s1]; try contradiction.
  - destruct W as (I1 & _ & T1 & _ & Lt). unfold bind at 1, emit, modify.
    set (s2 := add_event s1 (EvRead x)).
    assert (T2 : trace s2 = EvRead x :: EvState x :: trace s) by (cbn; rewrite T1; reflexivity).
    assert (I2 : I s2).
    { apply I_event; [exact I1|exists (trace s); exact T1|discriminate]. }
    unfold bind, unwrap. destruct (cb k x) as [[k1 go]|] eqn:Ec; cbn [ret panic_with fst snd].
    + destruct go; cbn [ret].
      * specialize (IH k1 s2 I2). specialize (IH ltac:(unfold upend in *; cbn; lia)).
        unfold read_result in *. destruct (read_loop fuel cb k1 s2) as [[k2|e|p| |] s3]; try contradiction.
        -- destruct IH as (xs & y & k3 & T3 & F3 & C3). exists (x :: xs), y, k3.
           split; [|split; [econstructor; eauto|exact C3]].
           cbn [app]. rewrite given_cons, T3, T2, <- app_assoc. reflexivity.
        -- destruct IH as (xs & k3 & T3 & F3 & C3). exists (x :: xs), k3.
           split; [|split; [econstructor; eauto|exact C3]].
           rewrite given_cons, T3, T2, <- app_assoc. reflexivity.
        -- destruct IH as [(-> & xs & k3 & T3 & F3)|(-> & xs & y & k3 & T3 & F3 & C3)].
           ++ left. split; [reflexivity|]. exists (x :: xs), k3. split; [|econstructor; eauto].
              rewrite given_cons, T3, T2, <- app_assoc. reflexivity.
           ++ right. split; [reflexivity|]. exists (x :: xs), y, k3.
              split; [|split; [econstructor; eauto|exact C3]].
              cbn [app]. rewrite given_cons, T3, T2, <- app_assoc. reflexivity.
      * exists [], x, k. split; [exact T2|]. split; [constructor|exact Ec].
    + right. split; [reflexivity|]. exists [], x, k. split; [exact T2|]. split; [constructor|exact Ec].
  - destruct W as (I1 & _ & T1 & _ & He). exists [], k. split; [exact T1|]. split; [constructor|exact He].
  - destruct W as (I1 & _ & T1 & E). injection E as ->. left. split; [reflexivity|]. exists [], k.
    split; [exact T1|constructor].
  - destruct W as (_ & _ & _ & E). discriminate.
Qed.

(** * Freshness *)
Definition state_of (d : dgram) : option robot_state_intern := state_decode (firstn state_size (d_data d)).
Definition id_of (d : dgram) : N := match state_of d with Some x => rs_message_id x | None => 0 end.
(** Datagrams are complete states, in the order in which the robot sent them. *)
Definition in_order (ds : list dgram) : Prop :=
  full state_size ds /\ StronglySorted (fun d e => id_of d < id_of e) ds.

Lemma in_order_app : forall a b, in_order (a ++ b) -> in_order a /\ in_order b.
Proof.
  unfold in_order, full. intros a b [F S]. apply Forall_app in F. destruct F as [Fa Fb].
  assert (Sab : StronglySorted (fun d e => id_of d < id_of e) a /\ StronglySorted (fun d e => id_of d < id_of e) b).
  { clear Fa Fb. induction a as [|x a IH]; [split; [constructor|exact S]|].
    inversion S; subst. destruct (IH H1) as [Sa Sb]. split; [|exact Sb].
    constructor; [exact Sa|]. apply Forall_app in H2. tauto. }
  tauto.
Qed.
Lemma last_greatest : forall pre z, in_order (pre ++ [z]) -> Forall (fun d => id_of d <= id_of z) (pre ++ [z]).
Proof.
  induction pre as [|x pre IH]; intros z [F S]; [constructor; [lia|constructor]|].
  inversion F; subst. inversion S; subst. cbn. constructor; [|apply IH; split; assumption].
  apply Forall_app in H4. destruct H4 as [_ H4]. inversion H4; subst. lia.
Qed.

Definition waiting (s : st) : list dgram := u_queue (n_udp s) ++ arrived (n_usched s).

Lemma chunk_last : forall ds, ds <> [] -> in_order ds -> forall x, state_decode (mixture state_size ds) = Some x ->
  exists z, In z ds /\ state_of z = Some x /\ Forall (fun d => id_of d <= rs_message_id x) ds.
Proof.
  intros ds Ne O x D. destruct ds as [|d ds]; [congruence|]. destruct (list_last _ d ds) as (pre & z & Ez).
  rewrite Ez in *. exists z. split; [apply in_or_app; right; left; reflexivity|].
  assert (Sz : state_of z = Some x).
  { unfold state_of. rewrite mixture_last in D; [exact D|].
    destruct O as [F _]. apply Forall_app in F. destruct F as [_ F]. inversion F. assumption. }
  split; [exact Sz|]. pose proof (last_greatest _ _ O) as G. unfold id_of at 2 in G. rewrite Sz in G. exact G.
Qed.

(** [took s c s']: the receive removed exactly [c] and nothing is queued any more. *)
Definition took (s : st) (c : list dgram) (s' : st) : Prop :=
  u_queue (n_udp s') = [] /\ exists used, n_usched s = used ++ n_usched s' /\ c = u_queue (n_udp s) ++ arrived used.
Lemma took_waiting : forall s c s', took s c s' -> waiting s = c ++ waiting s'.
Proof.
  intros s c s' (Q & used & Es & ->). unfold waiting. rewrite Q, Es, arrived_app, app_assoc. reflexivity.
Qed.
Lemma took_trans : forall a c1 b c2 c, took a c1 b -> took b c2 c -> took a (c1 ++ c2) c.
Proof.
  intros a c1 b c2 c (Q1 & u1 & E1 & ->) (Q2 & u2 & E2 & ->). split; [exact Q2|].
  exists (u1 ++ u2). rewrite E1, E2, app_assoc. split; [reflexivity|].
  rewrite Q1, arrived_app, <- app_assoc. reflexivity.
Qed.

Lemma poll_took : forall s o s', good s -> in_order (waiting s) -> udp_poll s = (Ok o, s') ->
  good s' /\ r_message_id s' = r_message_id s /\ exists c, took s c s' /\
  match o with
  | None => c = []
  | Some x => exists z, In z c /\ state_of z = Some x /\ Forall (fun d => id_of d <= rs_message_id x) c
  end.
Proof.
  intros s o s' G O E. unfold udp_poll in E.
  destruct (udp_receive state_size state_decode (n_udp s) (n_usched s)) as [[r u] sc] eqn:Er.
  destruct (UdpProofs.receive_spec _ _ _ _ _ _ _ G Er) as (used & Es & R & Nu).
  assert (Oc : in_order (u_queue (n_udp s) ++ arrived used)).
  { unfold waiting in O. rewrite Es, arrived_app, app_assoc in O. apply in_order_app in O. tauto. }
  destruct r as [x| |]; [| |discriminate]; injection E as <- <-; split; try exact Nu; split; try reflexivity.
  - destruct R as (d & ds & All & _ & Q & _ & D).
    exists (u_queue (n_udp s) ++ arrived used). split; [split; [exact Q|exists used; auto]|].
    apply chunk_last; auto. rewrite All. discriminate.
  - destruct R as (Q & _ & H).
    assert (Em : u_queue (n_udp s) ++ arrived used = []).
    { destruct (u_queue (n_udp s) ++ arrived used) as [|d l]; [reflexivity|]. destruct Oc as [F _].
      inversion F; subst. exfalso. lia. }
    rewrite Em in Q. exists []. split; [|reflexivity]. split; [exact Q|]. exists used. auto.
Qed.

Lemma poll_states_took : forall fuel s latest o s', good s -> in_order (waiting s) ->
  poll_states fuel latest s = (Ok o, s') ->
  good s' /\ r_message_id s' = r_message_id s /\ exists c, took s c s' /\
  match o with
  | None => latest = None /\ Forall (fun d => id_of d <= r_message_id s) c
  | Some x => (latest = Some x \/ exists z, In z c /\ state_of z = Some x) /\
      newest latest s <= rs_message_id x /\ Forall (fun d => id_of d <= rs_message_id x) c
  end.
Proof.
  induction fuel as [|fuel IH]; intros s latest o s' G O E; [discriminate|].
  cbn [poll_states] in E. unfold bind at 1 in E.
  destruct (udp_poll s) as [[r|e|p| |] s1] eqn:Ep; try discriminate.
  destruct (poll_took _ _ _ G O Ep) as (G1 & M1 & c1 & T1 & R1).
  destruct r as [x|].
  - destruct R1 as (z & Hz & Sz & Bz). unfold bind, get in E.
    assert (O1 : in_order (waiting s1)).
    { rewrite (took_waiting _ _ _ T1) in O. apply in_order_app in O. tauto. }
    fold (newest latest s1) in E.
    destruct (IH _ _ _ _ G1 O1 E) as (G2 & M2 & c2 & T2 & R2).
    split; [exact G2|]. split; [congruence|]. exists (c1 ++ c2). split; [exact (took_trans _ _ _ _ _ T1 T2)|].
    assert (Nw : newest latest s1 = newest latest s) by (unfold newest; destruct latest; auto).
    rewrite Nw in *. destruct (newest latest s <? rs_message_id x) eqn:Ei.
    + apply N.ltb_lt in Ei. destruct o as [y|]; [|destruct R2; discriminate].
      destruct R2 as (Fr & Ge & B2). cbn in Ge. split; [|split; [lia|]].
      * right. destruct Fr as [[= <-]|(z2 & Hz2 & Sz2)].
        -- exists z. split; [apply in_or_app; auto|exact Sz].
        -- exists z2. split; [apply in_or_app; auto|exact Sz2].
      * apply Forall_app. split; [|exact B2]. eapply Forall_impl; [|exact Bz]. cbn. intros; lia.
    + apply N.ltb_ge in Ei. destruct o as [y|].
      * destruct R2 as (Fr & Ge & B2). rewrite Nw in Ge. split; [|split; [exact Ge|]].
        -- destruct Fr as [->|(z2 & Hz2 & Sz2)]; [left; reflexivity|right; exists z2; split; [apply in_or_app; auto|exact Sz2]].
        -- apply Forall_app. split; [|exact B2]. eapply Forall_impl; [|exact Bz]. cbn. intros; lia.
      * destruct R2 as (-> & B2). split; [reflexivity|]. unfold newest in Ei. rewrite M1 in B2.
        apply Forall_app. split; [|exact B2]. eapply Forall_impl; [|exact Bz]. cbn. intros; lia.
  - injection E as <- <-. subst c1. split; [exact G1|]. split; [exact M1|]. exists []. split; [exact T1|].
    destruct latest as [y|].
    + split; [left; reflexivity|]. split; [cbn; lia|constructor].
    + split; [reflexivity|constructor].
Qed.

Lemma await_took : forall fuel s x s', good s -> in_order (waiting s) -> await_state fuel s = (Ok x, s') ->
  exists c, took s c s' /\ r_message_id s < rs_message_id x /\
    (exists z, In z c /\ state_of z = Some x) /\ Forall (fun d => id_of d <= rs_message_id x) c.
Proof.
  induction fuel as [|fuel IH]; intros s x s' G O E; [discriminate|]. cbn [await_state] in E.
  unfold bind at 1 in E. unfold udp_block in E.
  destruct (udp_blocking_receive state_size state_decode (n_udp s) (n_usched s)) as [[r u] sc] eqn:Eb.
  assert (Nu := block_noticed _ _ _ _ _ _ _ G Eb).
  destruct (block_spec _ _ _ _ _ _ _ G Eb) as (used & Es & Q & R).
  destruct r as [y| | |n|]; try discriminate.
  destruct R as (d & ds & All & _ & _ & D).
  assert (Oc : in_order (u_queue (n_udp s) ++ arrived used)).
  { unfold waiting in O. rewrite Es, arrived_app, app_assoc in O. apply in_order_app in O. tauto. }
  destruct (chunk_last (u_queue (n_udp s) ++ arrived used)) with (x := y) as (z & Hz & Sz & Bz); auto.
  { rewrite All. discriminate. }
  assert (T1 : took s (u_queue (n_udp s) ++ arrived used) (set_udp s u sc)).
  { split; [exact Q|]. exists used. auto. }
  unfold bind, get in E. cbn [r_message_id set_udp] in E. destruct (r_message_id s <? rs_message_id y) eqn:Ei.
  - injection E as <- <-. apply N.ltb_lt in Ei. eexists. split; [exact T1|]. split; [exact Ei|]. split; eauto.
  - apply N.ltb_ge in Ei.
    assert (O1 : in_order (waiting (set_udp s u sc))).
    { rewrite (took_waiting _ _ _ T1) in O. apply in_order_app in O. tauto. }
    destruct (IH (set_udp s u sc) x s' Nu O1 E) as (c2 & T2 & Gt & (z2 & Hz2 & Sz2) & B2). cbn in Gt.
    eexists. split; [exact (took_trans _ _ _ _ _ T1 T2)|]. split; [exact Gt|]. split.
    + exists z2. split; [apply in_or_app; auto|exact Sz2].
    + apply Forall_app. split; [|exact B2]. eapply Forall_impl; [|exact Bz]. cbn. intros; lia.
Qed.

Lemma receive_greatest : forall s x s', good s -> in_order (waiting s) -> receive_robot_state s = (Ok x, s') ->
  exists used, n_usched s = used ++ n_usched s' /\ u_queue (n_udp s') = [] /\
    (exists z, In z (u_queue (n_udp s) ++ arrived used) /\ state_of z = Some x) /\
    (forall d, In d (u_queue (n_udp s) ++ arrived used) -> id_of d <= rs_message_id x).
Proof.
  intros s x s' G O E. unfold receive_robot_state in E. unfold bind at 1, get at 1 in E. unfold bind at 1 in E.
  destruct (poll_states (bound s) None s) as [[o|e|p| |] s1] eqn:Ep; try discriminate.
  destruct (poll_states_took _ _ _ _ _ G O Ep) as (G1 & M1 & c1 & T1 & R1).
  unfold bind at 1, get at 1 in E. unfold bind at 1 in E. destruct o as [y|].
  - cbn in E. injection E as <- <-. destruct R1 as ([F|F] & _ & B); [discriminate|].
    destruct T1 as (Q & used & Es & ->). exists used. cbn. rewrite Forall_forall in B. auto.
  - destruct R1 as (_ & B1).
    assert (O1 : in_order (waiting s1)).
    { rewrite (took_waiting _ _ _ T1) in O. apply in_order_app in O. tauto. }
    destruct (await_state (bound s1) s1) as [[y|e|p| |] s2] eqn:Ea; try discriminate.
    cbn in E. injection E as <- <-.
    destruct (await_took _ _ _ _ G1 O1 Ea) as (c2 & T2 & Gt & (z & Hz & Sz) & B2).
    assert (T := took_trans _ _ _ _ _ T1 T2). destruct T as (Q & used & Es & Ec).
    exists used. cbn. split; [exact Es|]. split; [exact Q|]. rewrite <- Ec. split.
    + exists z. split; [apply in_or_app; auto|exact Sz].
    + intros d Hd. apply in_app_or in Hd. rewrite Forall_forall in B1, B2. destruct Hd as [Hd|Hd].
      * specialize (B1 d Hd). cbn in B1. lia.
      * exact (B2 d Hd).
Qed.

(** * Torques of motions without external control *)
Lemma torques_only_external : forall t, lawful t -> motion_ctrl t <> Some McExternalController ->
  newest_torques (this_motion t) = None.
Proof.
  induction t as [|e t IH]; [reflexivity|intros [O L] H].
  destruct e as [i r|i m|a c|x|x|x d|m f|x d|q f|]; cbn [motion_ctrl] in H; try exact (IH L H).
  - destruct r; try exact (IH L H). reflexivity.
  - exfalso. destruct O as (x & dt & t' & ->). destruct L as [[O _] _]. cbn [motion_ctrl] in H. exact (H O).
Qed.

Lemma motion_has_ctrl : forall t, lawful t -> newest_output (this_motion t) <> None -> motion_ctrl t <> None.
Proof.
  induction t as [|e t IH]; [intros _ H; exfalso; apply H; reflexivity|intros [O L] H].
  destruct e as [i r|i m|a c|x|x|x d|m f|x d|q f|]; cbn [motion_ctrl]; try exact (IH L H).
  - destruct r; try exact (IH L H). discriminate.
  - destruct O as (x & dt & t' & ->). exact (proj1 (proj1 L)).
Qed.

(** * Kernel *)
Lemma motion_adds : forall k cb, adds no_kernel (id <- start_motion (wanted_ctrl k) (k_mode k) default_deviation default_deviation ;;
    run_loop k id cb).
Proof.
  intros k cb.
  assert (Req : forall r, adds no_kernel (send_request r)).
    { intros r s0. apply (grew_one _ _ _ (EvRequest (n_id s0) r)); [reflexivity|exact Logic.I]. }
    assert (Res : forall A (c : codec A) id, adds no_kernel (blocking_response c id)).
    { intros. apply adds_response. intros; exact Logic.I. }
    apply adds_bind; [|intros id].
    - unfold start_motion. apply adds_bind; [apply adds_running|intros [|]]; [apply adds_panic|].
      apply adds_bind; [apply adds_modify; reflexivity|intros _].
      apply adds_bind.
      { unfold execute_move. apply adds_bind; [apply Req|intros]. apply adds_bind; [apply Res|intros].
        apply adds_bind; [apply adds_as_result|intros]. apply adds_ret. }
      intros id. apply adds_bind; [apply adds_get|intros].
      apply adds_bind; [apply adds_start_loop; intros; exact Logic.I|intros].
      apply adds_bind; [apply adds_flush_log|intros]. apply adds_ret.
    - intros s0. unfold run_loop. pose proof (adds_do_loop no_kernel) as D.
      repeat (specialize (D ltac:(intros; exact Logic.I))). specialize (D k id cb s0).
      destruct (do_loop k id cb s0) as [[u|e|p| |] s1]; try exact D. cbn [snd] in D.
      eapply grew_trans; [exact D|].
      destruct (cancel_requests id s1) as (d & T & F). unfold bind.
      assert (G : grew no_kernel s1 (snd (cancel_motion id s1))).
      { exists (d ++ [EvRequest (n_id s1) ReqStopMove]). rewrite T, <- app_assoc. split; [reflexivity|].
        apply Forall_app. split; [|repeat constructor]. eapply Forall_impl; [|exact F].
        intros []; cbn; auto. }
      destruct (cancel_motion id s1) as [[u|e'|p| |] s2]; exact G.
Qed.
Lemma control_no_kernel : forall k cb s, r_rt s = RtIgnore -> grew no_kernel s (snd (control k cb s)).
Proof.
  intros k cb s Hrt. unfold control, new_intern. unfold bind at 1 2, get at 1. rewrite Hrt. unfold ret at 1.
  exact (motion_adds k cb s).
Qed.
Lemma control_grew : forall k cb s, exists d, trace (snd (control k cb s)) = d ++ trace s.
Proof.
  intros k cb s. unfold control. unfold bind at 1.
  assert (G : exists d, trace (snd (new_intern s)) = d ++ trace s).
  { unfold new_intern, bind, get. destruct (r_rt s); [|exists []; reflexivity]. exists [EvKernel]. cbn.
    destruct (k_realtime s); [destruct (k_priority s)|]; reflexivity. }
  destruct G as [d G]. destruct (new_intern s) as [[u|e|p| |] s1]; cbn [snd] in *; eauto.
  destruct (motion_adds k cb s1) as (d1 & T & _). exists (d1 ++ d). rewrite T, G. apply app_assoc.
Qed.

(** * Requests of a control call *)
Lemma control_requests : forall k cb s, reachable s ->
  match control k cb s with
  | (Ok _, s') => requests (trace s') =
      ReqMove (wanted_ctrl k) (k_mode k) default_deviation default_deviation :: requests (trace s)
  | (_, s') =>
      requests (trace s') = requests (trace s) \/
      requests (trace s') = ReqMove (wanted_ctrl k) (k_mode k) default_deviation default_deviation :: requests (trace s) \/
      requests (trace s') = ReqStopMove ::
        ReqMove (wanted_ctrl k) (k_mode k) default_deviation default_deviation :: requests (trace s)
  end.
Proof.
  intros k cb s R. assert (HI := reachable_I s R). unfold control. unfold bind at 1.
  pose proof (wp_new_intern s HI) as W. unfold wp in W.
  assert (T0 : requests (trace (snd (new_intern s))) = requests (trace s)).
  { unfold new_intern, bind, get. destruct (r_rt s); [|reflexivity]. cbn. destruct (k_realtime s); [destruct (k_priority s)|]; reflexivity. }
  destruct (new_intern s) as [[u|e|p| |] s0]; try contradiction; cbn [snd] in T0; [|auto].
  unfold bind at 1. pose proof (wp_running s0 W) as Wr. unfold wp in Wr.
  assert (S : requests (trace (snd (start_motion (wanted_ctrl k) (k_mode k) default_deviation default_deviation s0))) =
              requests (trace s0) /\ fst (start_motion (wanted_ctrl k) (k_mode k) default_deviation default_deviation s0) = Panic PStartWhileRunning \/
              requests (trace (snd (start_motion (wanted_ctrl k) (k_mode k) default_deviation default_deviation s0))) =
              ReqMove (wanted_ctrl k) (k_mode k) default_deviation default_deviation :: requests (trace s0)).
  { destruct (start_requests_I (wanted_ctrl k) (k_mode k) default_deviation default_deviation s0 W) as [H1 H2].
    destruct (motion_or_controller_running s0) as [[[]|e|q| |] s1]; try contradiction; destruct Wr as [_ Hb].
    - left. rewrite H1 by (apply Hb; reflexivity). auto.
    - right. destruct H2 as (d & T & F); [intros Hr; apply Hb in Hr; discriminate|].
      rewrite T, requests_app, no_requests; [reflexivity|].
      eapply Forall_impl; [|exact F]. intros []; cbn; auto; contradiction. }
  pose proof (wp_start_motion (wanted_ctrl k) (k_mode k) default_deviation default_deviation s0 W) as Ws. unfold wp in Ws.
  destruct (start_motion _ _ _ _ s0) as [[id|e|p| |] s1]; cbn [fst snd] in S.
  - destruct S as [[_ S]|S]; [discriminate|]. rewrite T0 in S.
    pose proof (run_loop_requests k id cb s1) as Q.
    destruct (do_loop k id cb s1) as [[u1|e|p| |] s2].
    + destruct Q as [-> Q]. congruence.
    + destruct Q as [Q (d & T & F & E)]. destruct (run_loop k id cb s1) as [r s3]. cbn [fst snd] in *.
      assert (Q3 : requests (trace s3) = ReqStopMove :: requests (trace s2)).
      { rewrite T, requests_app, no_requests; [reflexivity|].
        eapply Forall_impl; [|exact F]. intros []; cbn; auto; contradiction. }
      destruct r; [contradiction| | | |]; right; right; congruence.
    + destruct Q as [-> Q]. right; left; congruence.
    + destruct Q as [-> Q]. right; left; congruence.
    + destruct Q as [-> Q]. right; left; congruence.
  - destruct S as [[S _]|S]; rewrite S, T0; auto.
  - destruct S as [[S _]|S]; rewrite S, T0; auto.
  - destruct S as [[S _]|S]; rewrite S, T0; auto.
  - contradiction.
Qed.

(** * Default behaviour *)
(** [accepted rs t t']: from [t], each of [rs] was requested in turn and answered with success. *)
Inductive accepted : list robot_request -> list event -> list event -> Prop :=
| acc_nil : forall t, accepted [] t t
| acc_cons : forall r rs id m h t t', deserialize c_setter_response m = Some (h, GsSuccess) ->
    accepted rs (EvReply id m :: EvRequest id r :: t) t' -> accepted (r :: rs) t t'.

(** Setting several things in turn. *)
Fixpoint setters (rs : list robot_request) : M unit :=
  match rs with [] => ret tt | r :: rs => setter r ;;; setters rs end.

Definition setters_result (rs : list robot_request) (t : list event) (r : outcome unit * st) : Prop :=
  match r with
  | (Ok _, s') => accepted rs t (trace s')
  | (Err e, s') => exists done r rest t1 id m h st, rs = done ++ r :: rest /\ accepted done t t1 /\
      trace s' = EvReply id m :: EvRequest id r :: t1 /\ deserialize c_setter_response m = Some (h, st) /\
      st <> GsSuccess /\ handle_setter st = Some e
  | (_, s') => exists done r rest, rs = done ++ r :: rest /\ requests (trace s') = r :: rev done ++ requests t
  end.

Lemma setters_spec : forall rs s, setters_result rs (trace s) (setters rs s).
Proof.
  induction rs as [|r rs IH]; intros s; [apply acc_nil|]. cbn [setters]. unfold bind.
  pose proof (setter_spec r s) as S. destruct (setter r s) as [[u|e|p| |] s1].
  - destruct S as (m & h & T & D & _). specialize (IH s1). rewrite T in IH.
    destruct (setters rs s1) as [[u1|e|p| |] s2]; cbn [setters_result] in *.
    + eapply acc_cons; eassumption.
    + destruct IH as (done & r1 & rest & t1 & id & m1 & h1 & st1 & -> & A & X).
      exists (r :: done), r1, rest, t1, id, m1, h1, st1. split; [reflexivity|]. split; [|exact X].
      eapply acc_cons; eassumption.
    + destruct IH as (done & r1 & rest & -> & E). exists (r :: done), r1, rest. split; [reflexivity|].
      rewrite E. cbn [rev]. rewrite <- app_assoc. reflexivity.
    + destruct IH as (done & r1 & rest & -> & E). exists (r :: done), r1, rest. split; [reflexivity|].
      rewrite E. cbn [rev]. rewrite <- app_assoc. reflexivity.
    + destruct IH as (done & r1 & rest & -> & E). exists (r :: done), r1, rest. split; [reflexivity|].
      rewrite E. cbn [rev]. rewrite <- app_assoc. reflexivity.
  - destruct S as (m & h & st0 & T & D & N & E).
    exists [], r, rs, (trace s), (n_id s), m, h, st0. split; [reflexivity|]. split; [apply acc_nil|]. auto.
  - exists [], r, rs. auto.
  - exists [], r, rs. auto.
  - contradiction.
Qed.

Lemma defaults_setters : forall s, set_default_behavior s =
  setters [ReqSetCollisionBehavior (repeat f64_20 7) (repeat f64_20 7) (repeat f64_10 7) (repeat f64_10 7)
             (repeat f64_20 6) (repeat f64_20 6) (repeat f64_10 6) (repeat f64_10 6);
           ReqSetJointImpedance [f64_3000; f64_3000; f64_3000; f64_2500; f64_2500; f64_2000; f64_2000];
           ReqSetCartesianImpedance [f64_3000; f64_3000; f64_3000; f64_300; f64_300; f64_300]] s.
Proof.
  intros s. unfold set_default_behavior. cbn [setters]. unfold bind.
  destruct (setter _ s) as [[u|e|p| |] s1]; try reflexivity.
  destruct (setter _ s1) as [[u1|e|p| |] s2]; try reflexivity.
  destruct (setter _ s2) as [[[]|e|p| |] s3]; reflexivity.
Qed.

(** * After a motion *)
Lemma idle_refuses : forall s m ctl, r_cur_motion s = MgIdle ->
  send_robot_command (Some m) ctl s = (Err NoMotionGeneratorRunningError, s).
Proof. intros s m ctl H. unfold send_robot_command, bind, get. rewrite H. destruct ctl; reflexivity. Qed.

Lemma idle_last : forall s, I s -> idle s -> exists x, last_state (trace s) = Some x /\
  rs_motion_generator_mode x = MgIdle /\ rs_controller_mode x <> CmExternalController.
Proof.
  intros s (_ & _ & x & L & _ & Sm & Sc) [R _]. exists x. split; [exact L|]. unfold running in R. split.
  - destruct (rs_motion_generator_mode x) eqn:E; [reflexivity|..]; exfalso; apply R; left; rewrite Sm; discriminate.
  - intros E. apply R. right. congruence.
Qed.
