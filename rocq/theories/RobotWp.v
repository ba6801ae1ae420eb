(** Weakest preconditions for the calls of RobotModel.v, and the trace invariant. *)
From Coq Require Import List NArith ZArith Bool Arith Lia String.
From Coq Require Import Init.Byte.
From Verif Require Import Bytes Codec WireModel TcpModel UdpModel UdpSpec UdpProofs ErrorsModel LoggerModel
  RobotModel LoopModel RobotSpec RobotProofs.
Import ListNotations.
Open Scope list_scope.
Open Scope N_scope.

Section Wp.
  Context {A : Type}.
  Definition wp (m : M A) (Q : A -> st -> Prop) (E : exn -> st -> Prop)
    (X : option rpanic -> st -> Prop) (s : st) : Prop :=
    match m s with
    | (Ok a, s') => Q a s'
    | (Err e, s') => E e s'
    | (Panic p, s') => X (Some p) s'
    | (Blocked, s') => X None s'
    | (OutOfFuel, _) => False
    end.
  Lemma wp_mono : forall m Q E X (Q' : A -> st -> Prop) (E' : exn -> st -> Prop)
    (X' : option rpanic -> st -> Prop) s, wp m Q E X s ->
    (forall a s', Q a s' -> Q' a s') -> (forall e s', E e s' -> E' e s') ->
    (forall p s', X p s' -> X' p s') -> wp m Q' E' X' s.
  Proof. unfold wp. intros. destruct (m s) as [[]]; auto. Qed.
  Lemma wp_ret : forall (a : A) (Q : A -> st -> Prop) E X s, Q a s -> wp (ret a) Q E X s.
  Proof. auto. Qed.
  Lemma wp_throw : forall e Q (E : exn -> st -> Prop) X s, E e s -> wp (throw e) Q E X s.
  Proof. auto. Qed.
  Lemma wp_panic : forall p Q E (X : option rpanic -> st -> Prop) s, X (Some p) s -> wp (panic_with p) Q E X s.
  Proof. auto. Qed.
  Lemma wp_unwrap : forall p (o : option A) (Q : A -> st -> Prop) E (X : option rpanic -> st -> Prop) s,
    (forall a, o = Some a -> Q a s) -> (o = None -> X (Some p) s) -> wp (unwrap p o) Q E X s.
  Proof. unfold wp, unwrap. intros. destruct o; cbn; auto. Qed.
End Wp.
Lemma wp_bind : forall A B (m : M A) (f : A -> M B) Q E X s,
  wp m (fun a => wp (f a) Q E X) E X s -> wp (bind m f) Q E X s.
Proof. unfold wp, bind. intros. destruct (m s) as [[]]; auto. Qed.
Lemma wp_get : forall (Q : st -> st -> Prop) E X s, Q s s -> wp get Q E X s.
Proof. auto. Qed.
Lemma wp_modify : forall f (Q : unit -> st -> Prop) E X s, Q tt (f s) -> wp (modify f) Q E X s.
Proof. auto. Qed.
Lemma wp_emit : forall e (Q : unit -> st -> Prop) E X s, Q tt (add_event s e) -> wp (emit e) Q E X s.
Proof. auto. Qed.

(** The fields of the handle agree with the newest accepted state. *)
Definition synced (s : st) : Prop := exists x, last_state (trace s) = Some x /\
  r_message_id s = rs_message_id x /\ r_motion_mode s = Some (rs_motion_generator_mode x) /\
  r_ctrl_mode s = rs_controller_mode x.
Definition I (s : st) : Prop := good s /\ lawful (trace s) /\ synced s.

(** What receiving leaves alone. *)
Definition same (s s' : st) : Prop :=
  n_sends s' = n_sends s /\ n_table s' = n_table s /\ n_tsched s' = n_tsched s /\ n_id s' = n_id s /\
  r_rt s' = r_rt s /\ r_version s' = r_version s /\ r_cur_motion s' = r_cur_motion s /\
  r_cur_ctrl s' = r_cur_ctrl s /\ r_logger s' = r_logger s.
Ltac same := unfold same; cbn; repeat split; reflexivity.

Definition shrinks (s s' : st) : Prop :=
  (exists used, n_usched s = used ++ n_usched s') /\ (upend s' <= upend s)%nat.

Lemma moved_shrinks : forall s u sc s', moved s u sc -> n_udp s' = u -> n_usched s' = sc -> shrinks s s'.
Proof.
  intros s u sc s' (N & us & E & L) <- <-. split; [exists us; exact E|exact L].
Qed.
Lemma shrinks_refl : forall s, shrinks s s.
Proof. split; [exists []; reflexivity|lia]. Qed.
Lemma shrinks_trans : forall a b c, shrinks a b -> shrinks b c -> shrinks a c.
Proof.
  intros a b c ((u1 & E1) & L1) ((u2 & E2) & L2). split; [|lia].
  exists (u1 ++ u2). rewrite E1, E2, app_assoc. reflexivity.
Qed.

Lemma wp_receive : forall s, I s -> wp receive_robot_state
  (fun x s' => I s' /\ same s s' /\ trace s' = EvState x :: trace s /\ shrinks s s' /\ (upend s' < upend s)%nat)
  (fun e s' => I s' /\ same s s' /\ trace s' = trace s /\ shrinks s s' /\ exists n, e = NetworkException n)
  (fun p s' => I s' /\ same s s' /\ trace s' = trace s /\ p = Some PDecodeUdp) s.
Proof.
  intros s (G & L & x0 & S0 & S1 & S2 & S3). unfold wp.
  destruct (receive_spec s G) as (u & sc & Mv & H).
  destruct (receive_robot_state s) as [[x|e|p| |] s']; try contradiction.
  - destruct H as (-> & Lt & Pd).
    split; [|split; [same|split; [reflexivity|split; [|exact Pd]]]].
    + split; [exact (proj1 Mv)|]. split.
      * cbn. split; [|exact L]. intros y Hy. rewrite S0 in Hy. injection Hy as <-. rewrite <- S1. exact Lt.
      * exists x. cbn. auto.
    + eapply moved_shrinks; [exact Mv|reflexivity|reflexivity].
  - destruct H as (-> & n & ->).
    split; [|split; [same|split; [reflexivity|split]]]; [|eapply moved_shrinks; [exact Mv|reflexivity|reflexivity]|eauto].
    split; [exact (proj1 Mv)|]. split; [exact L|]. exists x0. auto.
  - destruct H as (-> & ->). split; [|split; [same|split; reflexivity]].
    split; [exact (proj1 Mv)|]. split; [exact L|]. exists x0. auto.
Qed.

(** Events which change none of: newest state, lawfulness, freshness. *)
Definition neutral (e : event) : Prop :=
  match e with EvRequest _ _ | EvReply _ _ | EvKernel => True | _ => False end.
Lemma lawful_app : forall d t, Forall neutral d -> lawful t -> lawful (d ++ t).
Proof.
  induction d as [|e d IH]; intros t F L; [exact L|]. inversion F; subst. cbn. split; [|auto].
  destruct e; cbn in *; tauto.
Qed.
Lemma last_state_app : forall d t, Forall neutral d -> last_state (d ++ t) = last_state t.
Proof.
  induction d as [|e d IH]; intros t F; [reflexivity|]. inversion F; subst.
  destruct e; cbn in *; try tauto; auto.
Qed.

(** Calls which only use TCP. *)
Definition quiet (s s' : st) : Prop :=
  n_udp s' = n_udp s /\ n_usched s' = n_usched s /\ n_sends s' = n_sends s /\
  r_motion_mode s' = r_motion_mode s /\ r_ctrl_mode s' = r_ctrl_mode s /\
  r_message_id s' = r_message_id s /\ r_cur_motion s' = r_cur_motion s /\ r_cur_ctrl s' = r_cur_ctrl s /\
  r_logger s' = r_logger s /\ exists d, trace s' = d ++ trace s /\ Forall neutral d.

Lemma quiet_refl : forall s, quiet s s.
Proof. intros. repeat split. exists []. auto. Qed.
Lemma quiet_trans : forall a b c, quiet a b -> quiet b c -> quiet a c.
Proof.
  unfold quiet. intros a b c (?&?&?&?&?&?&?&?&?&d1&T1&F1) (?&?&?&?&?&?&?&?&?&d2&T2&F2).
  repeat (split; [congruence|]). exists (d2 ++ d1). split; [rewrite T2, T1, app_assoc; reflexivity|].
  apply Forall_app. auto.
Qed.
Lemma quiet_I : forall s s', quiet s s' -> I s -> I s'.
Proof.
  unfold quiet, I, good, synced. intros s s' (E1&E2&E3&E4&E5&E6&E7&E8&E9&d&T&F) (G & L & x & S).
  rewrite E1, T, E4, E5, E6. split; [exact G|]. split; [apply lawful_app; auto|].
  exists x. rewrite last_state_app; auto.
Qed.
Lemma quiet_upend : forall s s', quiet s s' -> upend s' = upend s.
Proof. unfold quiet, upend. intros s s' (-> & -> & _). reflexivity. Qed.
Lemma quiet_shrinks : forall s s', quiet s s' -> shrinks s s'.
Proof.
  intros s s' Q. split; [|rewrite (quiet_upend _ _ Q); lia].
  destruct Q as (_ & E & _). exists []. rewrite E. reflexivity.
Qed.

Lemma wp_send_request : forall r (Q : N -> st -> Prop) E X s,
  Q (n_id s) (set_id (add_event s (EvRequest (n_id s) r)) ((n_id s + 1) mod 2 ^ 32)) ->
  wp (send_request r) Q E X s.
Proof. auto. Qed.
Lemma quiet_request : forall s r n, quiet s (set_id (add_event s (EvRequest (n_id s) r)) n).
Proof.
  intros. repeat (split; [reflexivity|]). exists [EvRequest (n_id s) r]. split; [reflexivity|].
  repeat constructor.
Qed.

Lemma wp_blocking_response : forall A (c : codec A) id s,
  wp (blocking_response c id)
     (fun a s' => quiet s s' /\ exists m, trace s' = EvReply id m :: trace s /\ deserialize c m = Some a)
     (fun _ _ => False) (fun p s' => quiet s s' /\ (p = None \/ p = Some PDecodeTcp)) s.
Proof.
  intros. unfold blocking_response. apply wp_bind. unfold wp at 1, wait_response.
  destruct (wait_loop id (n_tsched s) (n_table s)) as [[[m|] tb] ts].
  - assert (Q : quiet s (add_event (set_tcp s tb ts) (EvReply id m))).
    { repeat (split; [reflexivity|]). exists [EvReply id m]. split; [reflexivity|]. repeat constructor. }
    apply wp_unwrap.
    + intros a Ha. split; [exact Q|]. exists m. auto.
    + intros _. auto.
  - split; [|auto]. repeat (split; [reflexivity|]). exists []. auto.
Qed.

Lemma wp_check_response : forall A (c : codec A) size id h s,
  wp (check_response c size id h)
     (fun b s' => quiet s s' /\
        if b then exists m a, trace s' = EvReply id m :: trace s /\ deserialize c m = Some a /\ h a = None
        else trace s' = trace s)
     (fun e s' => quiet s s' /\ exists m a, trace s' = EvReply id m :: trace s /\ deserialize c m = Some a /\ h a = Some e)
     (fun p s' => quiet s s' /\ (p = Some PTcpSize \/ p = Some PDecodeTcp)) s.
Proof.
  intros. unfold wp, check_response.
  destruct (match n_tsched s with [] => (None, []) | t :: r => (t, r) end) as [t ts].
  set (tb := store t (n_table s)). cbn [n_table set_tcp].
  assert (Q0 : quiet s (set_tcp s tb ts)).
  { repeat (split; [reflexivity|]). exists []. auto. }
  destruct (tget id tb) as [m|]; [|split; [exact Q0|reflexivity]].
  destruct (blen m =? size); [|auto].
  destruct (deserialize c m) as [a|] eqn:D; [|auto].
  assert (Q1 : forall tb', quiet s (set_tcp (add_event (set_tcp s tb ts) (EvReply id m)) tb' ts)).
  { intros. repeat (split; [reflexivity|]). exists [EvReply id m]. split; [reflexivity|]. repeat constructor. }
  destruct (h a) as [e|] eqn:Hh.
  - split; [apply (Q1 tb)|]. exists m, a. auto.
  - split; [apply Q1|]. exists m, a. auto.
Qed.

(** * The public calls besides control *)
Definition anyI {A} (_ : A) (s : st) : Prop := I s.
Definition anyL (p : option rpanic) (s : st) : Prop := lawful (trace s) /\ p <> Some PTimeStep.
Lemma I_lawful : forall s, I s -> lawful (trace s).
Proof. intros s (_ & L & _). exact L. Qed.
Lemma I_anyL : forall p s, I s -> p <> Some PTimeStep -> anyL p s.
Proof. intros p s HI Hp. split; [apply I_lawful; exact HI|exact Hp]. Qed.

Lemma wp_as_result : forall o (Q : unit -> st -> Prop) (E : exn -> st -> Prop) X s,
  (o = None -> Q tt s) -> (forall e, o = Some e -> E e s) -> wp (as_result o) Q E X s.
Proof. intros. destruct o; cbn; auto. Qed.

(** One request, one answer. *)
Lemma wp_ask : forall A B (c : codec A) r (f : A -> M B) s,
  (forall a s', quiet s s' -> wp (f a) (fun _ => quiet s') (fun _ => quiet s') (fun _ => quiet s') s') ->
  wp (id <- send_request r ;; x <- blocking_response c id ;; f x)
     (fun _ => quiet s) (fun _ => quiet s) (fun _ => quiet s) s.
Proof.
  intros A B c r f s Hf. apply wp_bind, wp_send_request, wp_bind.
  eapply wp_mono; [apply wp_blocking_response| | |].
  - intros a s' [Q _].
    assert (Q1 : quiet s s') by exact (quiet_trans _ _ _ (quiet_request _ _ _) Q).
    eapply wp_mono; [apply Hf; exact Q1| | |]; intros; eapply quiet_trans; eassumption.
  - intros e s' [].
  - intros p s' [Q _]. exact (quiet_trans _ _ _ (quiet_request _ _ _) Q).
Qed.
Lemma wp_setter : forall r s, wp (setter r) (fun _ => quiet s) (fun _ => quiet s) (fun _ => quiet s) s.
Proof. intros. apply wp_ask. intros. apply wp_as_result; intros; apply quiet_refl. Qed.
Lemma wp_recovery : forall s,
  wp automatic_error_recovery (fun _ => quiet s) (fun _ => quiet s) (fun _ => quiet s) s.
Proof. intros. apply wp_ask. intros. apply wp_as_result; intros; apply quiet_refl. Qed.
Lemma wp_user_stop : forall s, wp user_stop (fun _ => quiet s) (fun _ => quiet s) (fun _ => quiet s) s.
Proof. intros. apply wp_ask. intros. apply wp_as_result; intros; apply quiet_refl. Qed.
Lemma wp_wall : forall w s, wp (get_virtual_wall w) (fun _ => quiet s) (fun _ => quiet s) (fun _ => quiet s) s.
Proof.
  intros. apply wp_ask. intros. apply wp_bind, wp_as_result; intros; apply quiet_refl.
Qed.
Lemma wp_defaults : forall s,
  wp set_default_behavior (fun _ => quiet s) (fun _ => quiet s) (fun _ => quiet s) s.
Proof.
  intros. unfold set_default_behavior. apply wp_bind.
  eapply wp_mono; [apply wp_setter| | |]; auto. intros u1 s1 Q1. apply wp_bind.
  eapply wp_mono; [apply wp_setter| | |]; try (intros; exact (quiet_trans _ _ _ Q1 H)). intros u2 s2 Q2.
  assert (Q12 := quiet_trans _ _ _ Q1 Q2).
  eapply wp_mono; [apply wp_setter| | |]; intros; exact (quiet_trans _ _ _ Q12 H).
Qed.

(** Reading. *)
Lemma wp_poll : forall s, I s -> wp udp_poll
  (fun r s' => I s' /\ trace s' = trace s /\ same s s' /\ shrinks s s' /\
               (r <> None -> (upend s' < upend s)%nat))
  (fun _ _ => False) anyL s.
Proof.
  intros s HI. assert (HI' := HI). destruct HI as (G & L & S). unfold wp.
  destruct (udp_poll_spec s G) as (u & sc & Mv & H).
  assert (I1 : I (set_udp s u sc)) by (split; [exact (proj1 Mv)|split; [exact L|exact S]]).
  destruct (udp_poll s) as [[[x|]|e|p| |] s']; try contradiction.
  - destruct H as (-> & Lt). split; [exact I1|]. split; [reflexivity|]. split; [same|].
    split; [eapply moved_shrinks; [exact Mv|reflexivity|reflexivity]|]. intros _. exact Lt.
  - subst s'. split; [exact I1|]. split; [reflexivity|]. split; [same|].
    split; [eapply moved_shrinks; [exact Mv|reflexivity|reflexivity]|]. congruence.
  - destruct H as (-> & ->). split; [exact L|discriminate].
Qed.
Lemma wp_flush_states : forall fuel s, I s -> (upend s < fuel)%nat -> wp (flush_states fuel)
  (fun _ s' => I s' /\ trace s' = trace s /\ shrinks s s') (fun _ _ => False) anyL s.
Proof.
  induction fuel as [|fuel IH]; intros s HI Hf; [lia|]. cbn [flush_states]. apply wp_bind.
  eapply wp_mono; [apply (wp_poll s HI)| | |]; [|intros ? ? []|auto].
  intros r s' (I1 & T1 & _ & Sh & Lt). destruct r as [x|].
  - eapply wp_mono; [apply IH; [exact I1|]| | |]; [|  |intros ? ? []|auto].
    + assert (Some x <> None) by discriminate. specialize (Lt H). lia.
    + intros u2 s2 (I2 & T2 & Sh2). split; [exact I2|]. split; [congruence|].
      eapply shrinks_trans; eassumption.
  - apply wp_ret. auto.
Qed.
Lemma wp_read_once : forall s, I s -> wp read_once
  (fun x s' => I s' /\ trace s' = EvRead x :: EvState x :: trace s) anyI anyL s.
Proof.
  intros s HI. unfold read_once. apply wp_bind, wp_get, wp_bind.
  eapply wp_mono; [apply wp_flush_states; [exact HI|unfold bound, upend; lia]| | |]; [|intros ? ? []|auto].
  intros u1 s1 (I1 & T1 & _). apply wp_bind.
  eapply wp_mono; [apply (wp_receive s1 I1)| | |].
  - intros x s2 (I2 & _ & T2 & _). apply wp_bind, wp_emit, wp_ret.
    rewrite <- T1. split; [|cbn; rewrite T2; reflexivity].
    destruct I2 as (G2 & L2 & y & S2). split; [exact G2|]. split.
    + cbn. split; [exists (trace s1); exact T2|exact L2].
    + exists y. exact S2.
  - intros e s2 (I2 & _). exact I2.
  - intros p s2 (I2 & _ & _ & ->). apply I_anyL; [exact I2|discriminate].
Qed.

Lemma update_none : update None None = bind receive_robot_state (fun x => ret x).
Proof. reflexivity. Qed.
Lemma wp_update_none : forall s, I s -> wp (update None None)
  (fun x s' => I s' /\ same s s' /\ trace s' = EvState x :: trace s /\ shrinks s s' /\ (upend s' < upend s)%nat)
  (fun e s' => I s' /\ same s s' /\ trace s' = trace s /\ shrinks s s' /\ exists n, e = NetworkException n)
  (fun p s' => I s' /\ same s s' /\ trace s' = trace s /\ p = Some PDecodeUdp) s.
Proof.
  intros s HI. rewrite update_none. apply wp_bind.
  eapply wp_mono; [apply (wp_receive s HI)| | |]; auto.
Qed.
Lemma wp_read_loop : forall K (cb : K -> robot_state_intern -> option (K * bool)) fuel k s, I s ->
  (upend s < fuel)%nat -> wp (read_loop fuel cb k) anyI anyI anyL s.
Proof.
  intros K cb. induction fuel as [|fuel IH]; intros k s HI Hf; [lia|]. cbn [read_loop]. apply wp_bind.
  eapply wp_mono; [apply (wp_update_none s HI)| | |].
  - intros x s1 (I1 & _ & T1 & Sh & Lt). apply wp_bind, wp_emit.
    assert (I2 : I (add_event s1 (EvRead x))).
    { destruct I1 as (G & L & y & S). split; [exact G|]. split; [|exists y; exact S].
      cbn. split; [exists (trace s); exact T1|exact L]. }
    apply wp_bind, wp_unwrap.
    + intros [k2 go] _. cbn [fst snd]. destruct go.
      * apply IH; [exact I2|]. unfold upend in *. cbn. lia.
      * apply wp_ret. exact I2.
    + intros _. apply I_anyL; [exact I2|discriminate].
  - intros e s1 (I1 & _). exact I1.
  - intros p s1 (I1 & _ & _ & ->). apply I_anyL; [exact I1|discriminate].
Qed.
