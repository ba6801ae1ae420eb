(** The log along a run: what the records attached to a control exception are. *)
From Coq Require Import List NArith ZArith Bool Arith Lia String.
From Coq Require Import Init.Byte.
From Verif Require Import Bytes Codec WireModel TcpModel UdpModel ErrorsModel LoggerModel LoggerProofs
  RobotModel LoopModel RobotSpec LogSpec WireSpec WireProofs WireProofs3.
Import ListNotations.
Open Scope list_scope.
Open Scope N_scope.

(** Partial correctness: nothing is claimed about runs which do not return. *)
Definition pw {A} (m : M A) (Q : A -> st -> Prop) (E : exn -> st -> Prop) (D : rpanic -> st -> Prop) (s : st) : Prop :=
  match m s with (Ok a, s') => Q a s' | (Err e, s') => E e s' | (Panic p, s') => D p s' | _ => True end.
(** The panics which the log can cause. *)
Definition odd (p : rpanic) : bool := match p with PDuration | PLog | PErrorSet => true | _ => false end.
Lemma pw_bind : forall A B (m : M A) (f : A -> M B) Q E D s,
  pw m (fun a => pw (f a) Q E D) E D s -> pw (bind m f) Q E D s.
Proof. unfold pw, bind. intros. destruct (m s) as [[]]; auto. Qed.
Lemma pw_get_bind : forall B (f : st -> M B) Q E D s, pw (f s) Q E D s -> pw (bind get f) Q E D s.
Proof. auto. Qed.
Lemma pw_mono : forall A (m : M A) (Q Q' : A -> st -> Prop) (E E' : exn -> st -> Prop) (D D' : rpanic -> st -> Prop) s, pw m Q E D s ->
  (forall a s', Q a s' -> Q' a s') -> (forall e s', E e s' -> E' e s') -> (forall p s', D p s' -> D' p s') -> pw m Q' E' D' s.
Proof. unfold pw. intros. destruct (m s) as [[]]; auto. Qed.
Lemma pw_ret : forall A (a : A) (Q : A -> st -> Prop) E D s, Q a s -> pw (ret a) Q E D s.
Proof. auto. Qed.
Lemma pw_unwrap : forall A p (o : option A) (Q : A -> st -> Prop) E (D : rpanic -> st -> Prop) s,
  (forall a, o = Some a -> Q a s) -> (o = None -> D p s) -> pw (unwrap p o) Q E D s.
Proof. unfold pw, unwrap. intros. destruct o; cbn; auto. Qed.

(** Steps which leave the log alone and neither send a command nor request a motion. *)
Definition calm_event (e : event) : Prop :=
  match e with EvCommand _ _ => False | EvRequest _ (ReqMove _ _ _ _) => False | EvRequest _ ReqStopMove => False | _ => True end.
Definition calm (s s' : st) : Prop :=
  r_logger s' = r_logger s /\ exists d, trace s' = d ++ trace s /\ Forall calm_event d.
Lemma calm_refl : forall s, calm s s.
Proof. intros s. split; [reflexivity|]. exists []. auto. Qed.
Lemma calm_trans : forall a b c, calm a b -> calm b c -> calm a c.
Proof.
  intros a b c [L1 (d1 & T1 & F1)] [L2 (d2 & T2 & F2)]. split; [congruence|]. exists (d2 ++ d1).
  rewrite T2, T1, app_assoc. split; [reflexivity|]. apply Forall_app. auto.
Qed.
Definition soft {A} (m : M A) : Prop := forall s, calm s (snd (m s)).
Lemma soft_bind : forall A B (m : M A) (f : A -> M B), soft m -> (forall a, soft (f a)) -> soft (bind m f).
Proof.
  intros A B m f Hm Hf s. unfold bind. specialize (Hm s). destruct (m s) as [[a|e|p| |] s']; try exact Hm.
  eapply calm_trans; [exact Hm|apply Hf].
Qed.
Lemma calm_same : forall s s', r_logger s' = r_logger s -> trace s' = trace s -> calm s s'.
Proof. intros s s' L T. split; [exact L|]. exists []. auto. Qed.
Lemma calm_one : forall s s' e, r_logger s' = r_logger s -> trace s' = e :: trace s -> calm_event e -> calm s s'.
Proof. intros s s' e L T H. split; [exact L|]. exists [e]. auto. Qed.
Lemma soft_ret : forall A (a : A), soft (ret a). Proof. intros A a s. apply calm_refl. Qed.
Lemma soft_throw : forall A e, soft (@throw A e). Proof. intros A a s. apply calm_refl. Qed.
Lemma soft_panic : forall A e, soft (@panic_with A e). Proof. intros A a s. apply calm_refl. Qed.
Lemma soft_fuel : forall A, soft (fun s => (@OutOfFuel A, s)). Proof. intros A s. apply calm_refl. Qed.
Lemma soft_get : soft get. Proof. intros s. apply calm_refl. Qed.
Lemma soft_unwrap : forall A p (o : option A), soft (unwrap p o). Proof. intros A p [a|] s; apply calm_refl. Qed.
Lemma soft_emit : forall e, calm_event e -> soft (emit e).
Proof. intros e H s. apply (calm_one _ _ e); auto. Qed.
Lemma soft_modify : forall f, (forall s, calm s (f s)) -> soft (modify f).
Proof. intros f H s. apply H. Qed.
Lemma soft_as_result : forall o, soft (as_result o). Proof. intros [e|] s; apply calm_refl. Qed.
Lemma soft_block : soft udp_block.
Proof. intros s. unfold udp_block. destruct (udp_blocking_receive _ _ _ _) as [[[] ?] ?]; apply calm_same; reflexivity. Qed.
Lemma soft_poll : soft udp_poll.
Proof. intros s. unfold udp_poll. destruct (udp_receive _ _ _ _) as [[[] ?] ?]; apply calm_same; reflexivity. Qed.
Lemma soft_request : forall r, calm_event (EvRequest 0 r) -> soft (send_request r).
Proof. intros r H s. eapply calm_one; [reflexivity|reflexivity|exact H]. Qed.
Lemma soft_response : forall A (c : codec A) id, soft (blocking_response c id).
Proof.
  intros A c id. unfold blocking_response. apply soft_bind; [|intros; apply soft_unwrap].
  intros s. unfold wait_response. destruct (wait_loop _ _ _) as [[[m|] tb] ts].
  - apply (calm_one _ _ (EvReply id m)); cbn; auto.
  - apply calm_same; reflexivity.
Qed.
Lemma soft_check : forall A (c : codec A) n id h, soft (check_response c n id h).
Proof.
  intros A c n id h s. unfold check_response.
  destruct (match n_tsched s with [] => (None, []) | t :: r => (t, r) end) as [t ts].
  cbn [n_table set_tcp]. destruct (tget id (store t (n_table s))) as [m|]; [|apply calm_same; reflexivity].
  destruct (N.eqb (blen m) n); [|apply calm_same; reflexivity].
  destruct (deserialize c m); [|apply calm_same; reflexivity].
  destruct (h a); apply (calm_one _ _ (EvReply id m)); cbn; auto.
Qed.
Global Hint Resolve soft_ret soft_throw soft_panic soft_fuel soft_get soft_unwrap soft_as_result soft_block soft_poll
  soft_response soft_check : soft.
Ltac soft := repeat first
  [ progress auto with soft
  | apply soft_bind; [|intros]
  | match goal with |- soft (match ?x with _ => _ end) => destruct x end
  | match goal with |- soft (if ?x then _ else _) => destruct x end
  | apply soft_modify; intros; apply calm_same; reflexivity
  | apply soft_emit; exact Logic.I
  | apply soft_request; exact Logic.I ].
Lemma soft_update_state : forall x, soft (update_state_with x).
Proof. intros x s. apply (calm_one _ _ (EvState x)); cbn; auto. Qed.
Global Hint Resolve soft_update_state : soft.
Lemma soft_poll_states : forall fuel l, soft (poll_states fuel l).
Proof. induction fuel; intros l; cbn [poll_states]; soft. Qed.
Lemma soft_await : forall fuel, soft (await_state fuel).
Proof. induction fuel; cbn [await_state]; soft. Qed.
Global Hint Resolve soft_poll_states soft_await : soft.
Lemma soft_receive : soft receive_robot_state.
Proof. unfold receive_robot_state; soft. Qed.
Global Hint Resolve soft_receive : soft.
Lemma soft_flush_states : forall fuel, soft (flush_states fuel).
Proof. induction fuel; cbn [flush_states]; soft. Qed.
Global Hint Resolve soft_flush_states : soft.
Lemma soft_read_once : soft read_once.
Proof. unfold read_once; soft. Qed.
Lemma soft_update_none : soft (update None None).
Proof. change (soft (bind receive_robot_state (fun x => ret x))). soft. Qed.
Lemma soft_running : soft motion_or_controller_running.
Proof. unfold motion_or_controller_running, motion_generator_running, controller_running; soft. Qed.
Global Hint Resolve soft_read_once soft_update_none soft_running : soft.
Lemma soft_read_loop : forall K (cb : K -> robot_state_intern -> option (K * bool)) fuel k, soft (read_loop fuel cb k).
Proof. induction fuel; intros k; cbn [read_loop]; soft. Qed.
Lemma soft_start_loop : forall id fuel, soft (start_loop fuel id).
Proof.
  intros id. induction fuel as [|fuel IH]; cbn [start_loop]; [soft|]. apply soft_bind; [unfold modes_differ; soft|].
  intros []; [|soft]. intros s. pose proof (soft_check _ c_move_response 13 id (fun r => handle_move (snd r)) s) as C.
  destruct (check_response _ _ _ _ s) as [[b|e|p| |] s1]; cbn [snd] in *; try exact C.
  - destruct b; [exact C|]. eapply calm_trans; [exact C|]. apply soft_bind; [soft|intros; apply IH].
  - destruct e; exact C.
Qed.
Lemma soft_cancel_loop : forall fuel, soft (cancel_loop fuel).
Proof.
  induction fuel as [|fuel IH]; cbn [cancel_loop]; [soft|]. apply soft_bind; [soft|]. intros []; [|soft].
  intros s. pose proof (soft_receive s) as R. destruct (receive_robot_state s) as [[x|e|p| |] s1]; cbn [snd] in *; try exact R.
  - eapply calm_trans; [exact R|apply IH].
  - destruct (is_nil _ && is_nil _); [exact R|]. eapply calm_trans; [exact R|apply IH].
Qed.

(** * The log agrees with the history *)
Lemma skipn_twice : forall A a b (l : list A), skipn a (skipn b l) = skipn (a + b) l.
Proof. intros. apply skipn_skipn. Qed.

Definition plain (e : exn) : Prop := match e with ControlException (Some _) _ => False | _ => True end.
(** Errors carry no log and panics do not come from the log. *)
Definition plain_errors {A} (m : M A) : Prop := forall s,
  match m s with (Err e, _) => plain e | (Panic p, _) => odd p = false | _ => True end.
Lemma plain_bind : forall A B (m : M A) (f : A -> M B), plain_errors m -> (forall a, plain_errors (f a)) -> plain_errors (bind m f).
Proof.
  intros A B m f Hm Hf s. unfold bind. specialize (Hm s). destruct (m s) as [[a|e|p| |] s']; auto. apply Hf.
Qed.
Lemma plain_ret : forall A (a : A), plain_errors (ret a). Proof. intros A a s. exact Logic.I. Qed.
Lemma plain_get : plain_errors get. Proof. intros s. exact Logic.I. Qed.
Lemma plain_fuel : forall A, plain_errors (fun s => (@OutOfFuel A, s)). Proof. intros A s. exact Logic.I. Qed.
Lemma plain_unwrap : forall A p (o : option A), odd p = false -> plain_errors (unwrap p o).
Proof. intros A p [a|] H s; [exact Logic.I|exact H]. Qed.
Lemma plain_panic : forall A p, odd p = false -> plain_errors (@panic_with A p). Proof. intros A a H s. exact H. Qed.
Lemma plain_throw : forall A e, plain e -> plain_errors (@throw A e). Proof. intros A e H s. exact H. Qed.
Lemma plain_modify : forall f, plain_errors (modify f). Proof. intros f s. exact Logic.I. Qed.
Lemma plain_emit : forall e, plain_errors (emit e). Proof. intros e s. exact Logic.I. Qed.
Lemma plain_block : plain_errors udp_block.
Proof. intros s. unfold udp_block. destruct (udp_blocking_receive _ _ _ _) as [[[] ?] ?]; try exact Logic.I; reflexivity. Qed.
Lemma plain_poll : plain_errors udp_poll.
Proof. intros s. unfold udp_poll. destruct (udp_receive _ _ _ _) as [[[] ?] ?]; try exact Logic.I; reflexivity. Qed.
Global Hint Resolve plain_ret plain_get plain_fuel plain_unwrap plain_panic plain_modify plain_block plain_poll plain_emit : plain.
Ltac plain := repeat first
  [ progress auto with plain
  | apply plain_bind; [|intros]
  | apply plain_throw; exact Logic.I
  | match goal with |- plain_errors (match ?x with _ => _ end) => destruct x end
  | match goal with |- plain_errors (if ?x then _ else _) => destruct x end ].
Lemma plain_poll_states : forall fuel l, plain_errors (poll_states fuel l).
Proof. induction fuel; intros l; cbn [poll_states]; plain. Qed.
Lemma plain_await : forall fuel, plain_errors (await_state fuel).
Proof. induction fuel; cbn [await_state]; plain. Qed.
Global Hint Resolve plain_poll_states plain_await : plain.
Lemma plain_receive : plain_errors receive_robot_state.
Proof. unfold receive_robot_state, update_state_with; plain. Qed.
Lemma plain_send : forall m c, plain_errors (send_robot_command m c).
Proof.
  assert (U : forall c, plain_errors (udp_send c)).
  { intros c s. unfold udp_send. destruct (n_sends s) as [|[] r]; exact Logic.I. }
  intros m c. unfold send_robot_command. plain.
Qed.
Lemma plain_response : forall A (c : codec A) id, plain_errors (blocking_response c id).
Proof.
  intros A c id. unfold blocking_response. apply plain_bind; [|intros; apply plain_unwrap; reflexivity].
  intros s. unfold wait_response. destruct (wait_loop _ _ _) as [[[m|] tb] ts]; exact Logic.I.
Qed.
Lemma plain_running : plain_errors motion_or_controller_running.
Proof. unfold motion_or_controller_running, motion_generator_running, controller_running; plain. Qed.
Lemma plain_as_result : forall o, (forall e, o = Some e -> plain e) -> plain_errors (as_result o).
Proof. intros [e|] H s; [apply (H e eq_refl)|exact Logic.I]. Qed.
Lemma handle_move_plain : forall m e, handle_move m = Some e -> plain e.
Proof. intros [] e [= <-]; exact Logic.I. Qed.
Lemma handle_stop_plain : forall m e, handle_stop m = Some e -> plain e.
Proof. intros [] e [= <-]; exact Logic.I. Qed.
Lemma plain_check : forall A (c : codec A) n id h, (forall a e, h a = Some e -> plain e) -> plain_errors (check_response c n id h).
Proof.
  intros A c n id h H s. unfold check_response.
  destruct (match n_tsched s with [] => (None, []) | t :: r => (t, r) end) as [t ts].
  cbn [n_table set_tcp]. destruct (tget id (store t (n_table s))) as [m|]; [|exact Logic.I].
  destruct (N.eqb (blen m) n); [|reflexivity]. destruct (deserialize c m) as [a|]; [|reflexivity].
  destruct (h a) as [e|] eqn:E; [apply (H a e E)|exact Logic.I].
Qed.
Lemma plain_time_step : forall a b, plain_errors (time_step a b).
Proof. intros. unfold time_step. plain. Qed.
Lemma soft_time_step : forall a b, soft (time_step a b).
Proof. intros. unfold time_step. soft. Qed.
Global Hint Resolve plain_time_step plain_running plain_response : plain.
Global Hint Resolve soft_time_step : soft.

(** Events of sending and receiving. *)
Lemma send_event : forall m c s,
  match send_robot_command m c s with
  | (Ok (Some cmd), s') => r_logger s' = r_logger s /\ exists a, trace s' = EvCommand a cmd :: trace s
  | (_, s') => r_logger s' = r_logger s /\ trace s' = trace s
  end.
Proof.
  intros m c s. destruct m as [m|], c as [c|]; unfold send_robot_command, bind, get, ret, throw, unwrap, udp_send, panic_with;
  destruct (mg_eqb (r_cur_motion s) MgIdle); destruct (r_cur_ctrl s) as [[]|]; cbn; auto;
    destruct (n_sends s) as [|[] r]; cbn; eauto.
Qed.
Definition still {A} (m : M A) : Prop := forall s, r_logger (snd (m s)) = r_logger s /\ trace (snd (m s)) = trace s.
Lemma still_bind : forall A B (m : M A) (f : A -> M B), still m -> (forall a, still (f a)) -> still (bind m f).
Proof.
  intros A B m f Hm Hf s. unfold bind. destruct (Hm s) as [E1 E2]. destruct (m s) as [[a|e|p| |] s']; cbn [snd] in *; auto.
  destruct (Hf a s') as [E3 E4]. split; congruence.
Qed.
Lemma still_block : still udp_block.
Proof. intros s. unfold udp_block. destruct (udp_blocking_receive _ _ _ _) as [[[] ?] ?]; split; reflexivity. Qed.
Lemma still_poll : still udp_poll.
Proof. intros s. unfold udp_poll. destruct (udp_receive _ _ _ _) as [[[] ?] ?]; split; reflexivity. Qed.
Lemma still_poll_states : forall fuel l, still (poll_states fuel l).
Proof.
  induction fuel as [|fuel IH]; intros l; cbn [poll_states]; [intros s; auto|].
  apply still_bind; [apply still_poll|]. intros [x|]; [|intros s; auto]. apply still_bind; [intros s; auto|]. intros s1. apply IH.
Qed.
Lemma still_await : forall fuel, still (await_state fuel).
Proof.
  induction fuel as [|fuel IH]; cbn [await_state]; [intros s; auto|].
  apply still_bind; [apply still_block|]. intros x. apply still_bind; [intros s; auto|]. intros s1.
  destruct (_ <? _); [intros s; auto|apply IH].
Qed.

(** States received have the flag arrays of the protocol. *)
Definition flags_ok (x : robot_state_intern) : Prop :=
  List.length (rs_reflex_reason1 x) = 32%nat /\ List.length (rs_reflex_reason2 x) = 9%nat.
Lemma decoded_flags : forall b x, state_decode b = Some x -> flags_ok x.
Proof.
  intros b x D. unfold state_decode, deserialize in D.
  destruct (dec c_robot_state_intern b) as [[y r]|] eqn:E; [|discriminate]. injection D as ->.
  destruct (law_inv _ _ lawful_robot_state _ _ _ E) as [W _]. apply state_ok_wf in W.
  unfold state_ok in W. decompose [and] W. split; assumption.
Qed.
Lemma block_decoded : forall s x s', udp_block s = (Ok x, s') -> flags_ok x.
Proof.
  intros s x s'. unfold udp_block, udp_blocking_receive.
  destruct (next_tick (n_usched s)) as [t sc]. destruct (_ || _); [|discriminate].
  destruct (next_tick sc) as [t2 sc2]. destruct (_ ++ _) as [|d q].
  - destruct (drain _ _ _ _) as [[? ?] ?]. discriminate.
  - destruct (drain _ _ _ _) as [[buf fl] sc3]. destruct (Nat.eqb _ _); [|discriminate].
    destruct (state_decode buf) as [y|] eqn:E; [|discriminate]. intros [= <- _]. apply (decoded_flags _ _ E).
Qed.
Lemma poll_decoded : forall s x s', udp_poll s = (Ok (Some x), s') -> flags_ok x.
Proof.
  intros s x s'. unfold udp_poll, udp_receive. destruct (next_tick (n_usched s)) as [t sc].
  destruct (u_queue _); [discriminate|]. destruct (_ <=? _)%nat; [|discriminate].
  set (s0 := set_udp s (arrive (n_udp s) (t_arrivals t)) sc).
  pose proof (block_decoded s0) as B. unfold udp_block in B. cbn [s0 n_udp n_usched set_udp] in B. subst s0.
  destruct (udp_blocking_receive _ _ _ _) as [[[y| | |n|] u] sc']; try discriminate. intros [= -> _]. eapply B. reflexivity.
Qed.
Lemma receive_event : forall s,
  match receive_robot_state s with
  | (Ok x, s') => r_logger s' = r_logger s /\ trace s' = EvState x :: trace s /\ flags_ok x
  | (_, s') => r_logger s' = r_logger s /\ trace s' = trace s
  end.
Proof.
  assert (F1 : forall fuel l s x s', (forall y, l = Some y -> flags_ok y) -> poll_states fuel l s = (Ok (Some x), s') -> flags_ok x).
  { induction fuel as [|fuel IH]; intros l s x s' H; [discriminate|]. cbn [poll_states]. unfold bind at 1.
    destruct (udp_poll s) as [[[y|]|e|p| |] s1] eqn:E; try discriminate.
    - unfold bind, get. apply IH. destruct (_ <? _); [|exact H]. intros z [= <-]. eapply poll_decoded, E.
    - intros [= -> _]. auto. }
  assert (F2 : forall fuel s x s', await_state fuel s = (Ok x, s') -> flags_ok x).
  { induction fuel as [|fuel IH]; intros s x s'; [discriminate|]. cbn [await_state]. unfold bind at 1.
    destruct (udp_block s) as [[y|e|p| |] s1] eqn:E; try discriminate. unfold bind, get.
    destruct (_ <? _); [|apply IH]. intros [= <- _]. eapply block_decoded, E. }
  intros s. unfold receive_robot_state. unfold bind at 1, get at 1. unfold bind at 1.
  pose proof (still_poll_states (bound s) None s) as P. pose proof (F1 (bound s) None s) as G1.
  destruct (poll_states (bound s) None s) as [[l|e|p| |] s1]; cbn [snd] in P; auto.
  unfold bind at 1, get at 1. unfold bind at 1. destruct l as [x|].
  - cbn. destruct P as [P1 P2]. rewrite P1, P2. repeat split; try (eapply G1; [discriminate|reflexivity]).
  - pose proof (still_await (bound s1) s1) as A. pose proof (F2 (bound s1) s1) as G2.
    destruct (await_state (bound s1) s1) as [[x|e|p| |] s2]; cbn [snd] in A;
      destruct A as [A1 A2], P as [P1 P2]; cbn; rewrite ?A1, ?A2, ?P1, ?P2; auto.
    repeat split; try (eapply G2; reflexivity).
Qed.

(** Error sets of states with proper flags always have a text. *)
Lemma errors_from_some : forall flags i, (i + List.length flags <= 41)%nat -> exists es, errors_from i flags = Some es.
Proof.
  induction flags as [|b flags IH]; intros i H; [exists []; reflexivity|]. cbn [List.length errors_from] in *.
  destruct (IH (S i)) as [es E]; [lia|]. rewrite E. destruct b; [|eauto].
  assert (Ei : exists e, error_of_code i = Some e).
  { do 41 (destruct i as [|i]; [eexists; reflexivity|]). lia. }
  destruct Ei as [e ->]. eauto.
Qed.
Lemma reflex_text_some : forall x, flags_ok x -> exists t, reflex_text x = Some t.
Proof.
  intros x [L1 L2]. unfold reflex_text, franka_errors, combine_flags.
  destruct (errors_from_some (rs_reflex_reason1 x ++ rs_reflex_reason2 x) 0) as [es E].
  - rewrite app_length. lia.
  - rewrite E. eexists. reflexivity.
Qed.

Section Log.
  Variable size : nat.

  Definition sound (old es : list record) (s : st) : Prop :=
    exists base p, holds base size old 0 0 /\ log_all base es = Some (r_logger s) /\
      old ++ es = skipn p (exchanged (trace s)) /\ (p <= List.length (exchanged (trace s)))%nat /\
      (p + (List.length es - size) = lost_pairs size (trace s))%nat.
  Definition settled (s : st) : Prop := waiting_command (trace s) = None.

  Lemma calm_events : forall d t, Forall calm_event d -> waiting_command t = None ->
    waiting_command (d ++ t) = None /\ exchanged (d ++ t) = exchanged t /\ motion_pairs (d ++ t) = motion_pairs t /\
    motion_commands (d ++ t) = motion_commands t.
  Proof.
    induction d as [|e d IH]; intros t F W; [auto|]. inversion F as [|? ? E F']; subst.
    destruct (IH t F' W) as (A & B & C & G). cbn [app waiting_command exchanged motion_pairs motion_commands].
    destruct e as [id r| | | | | | | | |]; cbn in E |- *; auto.
    - destruct r; try contradiction; auto.
    - contradiction.
    - rewrite A. auto.
  Qed.

  (** Without commands nothing is lost. *)
  Lemma lost_hush : forall d t, Forall (fun e => forall a c, e <> EvCommand a c) d -> waiting_command t = None ->
    waiting_command (d ++ t) = None /\ exchanged (d ++ t) = exchanged t /\ lost_pairs size (d ++ t) = lost_pairs size t.
  Proof.
    unfold lost_pairs. intros d t F W. induction F as [|e d He F IH]; [auto|]. destruct IH as (A & B & C).
    destruct e; cbn [app waiting_command exchanged motion_pairs lost_before]; auto.
    - destruct r; auto.
    - exfalso. eapply He; reflexivity.
    - rewrite A. auto.
  Qed.
  Lemma calm_lost : forall d t, Forall calm_event d -> waiting_command t = None -> lost_pairs size (d ++ t) = lost_pairs size t.
  Proof.
    intros d t F W. apply lost_hush; [|exact W]. eapply Forall_impl; [|exact F]. intros e H a c ->. exact H.
  Qed.

  (** Inside a motion. *)
  Definition moving (old : list record) (s : st) : Prop :=
    settled s /\ sound old (motion_pairs (trace s)) s /\ map snd (motion_pairs (trace s)) = motion_commands (trace s).
  (** After an error: the log is sound for some split, and an attached log is as described. *)
  Definition failed (old : list record) (e : exn) (s : st) : Prop :=
    (exists o es, sound o es s) /\
    match e with
    | ControlException (Some log) _ => log = attached size old (motion_pairs (trace s)) /\
                                       map snd (motion_pairs (trace s)) = motion_commands (trace s)
    | _ => True
    end.
  (** Panics caused by the log. *)
  Definition died (old : list record) (p : rpanic) (s : st) : Prop :=
    match p with
    | PDuration => disordered (attached size old (motion_pairs (trace s)))
    | PLog => size = O
    | PErrorSet => False
    | _ => True
    end.
  Lemma ordinary_died : forall old p s, odd p = false -> died old p s.
  Proof. intros old [] s; cbn; try discriminate; auto. Qed.

  Lemma calm_moving : forall s s' old, calm s s' -> moving old s -> moving old s'.
  Proof.
    intros s s' old [L (d & T & F)] (W & (base & p & H & E & Sk) & Mc). unfold moving, settled in *. rewrite T.
    destruct (calm_events d (trace s) F W) as (A & B & C & G). rewrite A, C, G. repeat split; auto.
    exists base, p. rewrite L, T, B, (calm_lost d (trace s) F W). auto.
  Qed.
  Lemma moving_failed : forall old e s, moving old s -> plain e -> failed old e s.
  Proof. intros old e s (_ & So & _) P. split; [eauto|]. destruct e as [[l|]| | | | | | |]; cbn in P; try contradiction; exact Logic.I. Qed.

  Lemma pw_plain : forall A (m : M A) old s, soft m -> plain_errors m -> moving old s ->
    pw m (fun _ => moving old) (failed old) (died old) s.
  Proof.
    intros A m old s H P Mv. specialize (P s). specialize (H s). unfold pw.
    destruct (m s) as [[a|e|p| |] s']; cbn [snd] in H; auto.
    - eapply calm_moving; eassumption.
    - apply moving_failed; [eapply calm_moving; eassumption|exact P].
    - apply ordinary_died, P.
  Qed.

  (** robot_impl.rs 416-427 *)
  Lemma log_panics : forall l (x : robot_state_intern) (c : robot_command) base old es, holds base size old 0 0 -> log_all base es = Some l ->
    logger_log l x c = None -> size = O.
  Proof.
    intros l x c base old es H E N. destruct size as [|n]; [reflexivity|].
    destruct (log_all_spec (S n) old es base) as (l1 & E1 & H1); [lia|exact H|]. rewrite E in E1. injection E1 as <-.
    unfold holds in H1. rewrite H1 in N. discriminate N.
  Qed.
  Lemma pw_update : forall m c old s, moving old s ->
    pw (update m c) (fun x s' => moving old s' /\ flags_ok x) (failed old) (died old) s.
  Proof.
    intros m c old s Mv. unfold update. apply pw_bind. unfold pw at 1.
    pose proof (send_event m c s) as S. pose proof (plain_send m c s) as Pl.
    destruct (send_robot_command m c s) as [[o|e|p| |] s1]; auto.
    - destruct o as [cmd|].
      + destruct S as [L1 (a & T1)]. destruct Mv as (W & (base & p & H & E & Sk & Le & Lo) & Mc).
        unfold settled in W. apply pw_bind. unfold pw at 1.
        pose proof (receive_event s1) as R. pose proof (plain_receive s1) as Pr.
        destruct (receive_robot_state s1) as [[x|e|q| |] s2]; auto.
        * destruct R as (L2 & T2 & Fx). apply pw_get_bind. apply pw_bind. apply pw_unwrap.
          2:{ intros El. rewrite L2, L1 in El. exact (log_panics _ _ _ _ _ _ H E El). }
          intros l El. apply pw_bind. cbn. split; [|exact Fx]. unfold moving, settled, sound. cbn. rewrite T2, T1.
          cbn [motion_pairs exchanged waiting_command motion_commands].
          split; [reflexivity|]. split; [|rewrite map_app, Mc; reflexivity].
          exists base, p. rewrite log_all_app, E. cbn [log_all]. rewrite L2, L1 in El. rewrite El.
          repeat split; auto.
          -- rewrite (app_assoc old), Sk, skipn_app. replace (p - List.length (exchanged (trace s)))%nat with O by lia. reflexivity.
          -- rewrite app_length. lia.
          -- unfold lost_pairs in *. cbn [motion_pairs waiting_command lost_before]. rewrite Nat.add_comm. f_equal.
             eapply Nat.add_cancel_r. rewrite Lo. apply Nat.add_comm.
        * destruct R as [L2 T2]. split.
          -- exists old, (motion_pairs (trace s)), base, p. rewrite L2, L1, T2, T1. cbn. auto.
          -- destruct e as [[l|]| | | | | | |]; try exact Logic.I. destruct Pr.
        * apply ordinary_died, Pr.
      + assert (Mv1 : moving old s1).
        { destruct S as [L1 T1]. unfold moving, settled, sound in *. rewrite L1, T1. exact Mv. }
        apply pw_bind. pose proof (receive_event s1) as R.
        pose proof (pw_plain _ receive_robot_state old s1 soft_receive plain_receive Mv1) as Pw. unfold pw in Pw |- *.
        destruct (receive_robot_state s1) as [[x|e|q| |] s2]; auto. cbn. split; [exact Pw|apply R].
    - destruct S as [L1 T1]. apply moving_failed; [|exact Pl].
      unfold moving, settled, sound in *. rewrite L1, T1. exact Mv.
    - apply ordinary_died, Pl.
  Qed.

  Lemma flush_any : forall (old es : list record) base l, holds base size old 0 0 -> log_all base es = Some l ->
    exists l2, logger_flush l = (Some (attached size old es), l2) /\ holds l2 size (kept size old es) 0 0.
  Proof.
    intros old es base l H E. destruct size as [|n] eqn:Z.
    - destruct es as [|[x c] es].
      + cbn in E. injection E as <-. unfold holds in H. subst base. eexists. split; [reflexivity|].
        unfold holds, kept. cbn. rewrite app_nil_r. reflexivity.
      + cbn [log_all] in E. unfold holds in H. subst base. discriminate E.
    - rewrite <- Z in *. apply (flush_spec size old es base l); [lia|exact H|exact E].
  Qed.

  Lemma pw_flush_log : forall old es s, sound old es s -> pw flush_log
    (fun log s' => log = attached size old es /\ sound (kept size old es) [] s' /\ trace s' = trace s)
    (fun _ _ => False) (fun _ _ => False) s.
  Proof.
    intros old es s (base & p & H & E & Sk & Le & Lo). unfold pw, flush_log.
    destruct (flush_any old es base _ H E) as (l2 & F & H2). rewrite F. cbn.
    split; [reflexivity|]. split; [|reflexivity]. unfold sound. cbn.
    exists l2, (p + (List.length es - size))%nat. split; [exact H2|]. split; [reflexivity|].
    rewrite app_nil_r. unfold kept. rewrite Sk. rewrite skipn_twice. split; [f_equal; lia|]. split.
    2:{ etransitivity; [apply Nat.add_0_r|exact Lo]. }
    - assert (L : List.length (old ++ es) = List.length (skipn p (exchanged (trace s)))) by (rewrite Sk; reflexivity).
      rewrite skipn_length, app_length in L. lia.
  Qed.

  Lemma create_spec : forall message status reasons log,
    match create_control_exception message status reasons log with
    | Ok e => exists t, e = ControlException (Some log) t
    | Panic p => p = PDuration /\ disordered log
    | _ => False
    end.
  Proof.
    intros message status reasons log. unfold create_control_exception. destruct status; try (eexists; reflexivity).
    destruct (rev log) as [|[s2 c2] [|[s3 c3] r]] eqn:R; try (eexists; reflexivity).
    assert (X : log = rev r ++ [(s3, c3); (s2, c2)]).
    { rewrite <- (rev_involutive log), R. cbn [rev]. rewrite <- app_assoc. reflexivity. }
    destruct (_ <=? _) eqn:B1; [destruct (1 <=? _) eqn:B2; [eexists; reflexivity|]|].
    - apply N.leb_gt in B2. apply N.leb_le in B1. split; [reflexivity|].
      exists (rev r), s3, c3, s2, c2. split; [exact X|lia].
    - apply N.leb_gt in B1. split; [reflexivity|]. exists (rev r), s3, c3, s2, c2. split; [exact X|lia].
  Qed.

  Lemma pw_throw_control : forall A message status x old s, moving old s -> flags_ok x ->
    pw (@throw_control A message status x) (fun _ _ => False) (failed old) (died old) s.
  Proof.
    intros A message status x old s (W & So & Mc) Fx. unfold throw_control. apply pw_bind. apply pw_unwrap.
    2:{ intros E. destruct (reflex_text_some x Fx) as [t Et]. rewrite Et in E. discriminate. }
    intros r _. apply pw_bind. eapply pw_mono; [apply (pw_flush_log old _ s So)| |intros e s1 []|intros e s1 []].
    intros log s1 (El & So1 & T1). unfold pw.
    pose proof (create_spec message status r log) as K.
    destruct (create_control_exception message status r log) as [e|e|p| |]; try contradiction.
    - destruct K as [t ->]. split; [eauto|]. rewrite T1. auto.
    - destruct K as [-> D]. cbn. rewrite T1, <- El. exact D.
  Qed.

  Lemma pw_throw_on : forall x id old s, moving old s -> flags_ok x ->
    pw (throw_on_motion_error x id) (fun _ => moving old) (failed old) (died old) s.
  Proof.
    intros x id old s Mv Fx. unfold throw_on_motion_error. apply pw_get_bind.
    apply pw_bind. eapply pw_mono; [apply (pw_plain _ _ old); [soft|plain|exact Mv]| |auto|auto].
    intros bad s1 Mv1. cbn beta in Mv1. destruct bad; [|exact Mv1].
    apply pw_bind. eapply pw_mono; [apply (pw_plain _ _ old); [soft|apply plain_response|exact Mv1]| |auto|auto].
    intros r s2 Mv2. cbn beta in Mv2. destruct (handle_move (snd r)) as [[]|]; try exact Logic.I.
    eapply pw_mono; [apply (pw_throw_control unit _ _ x old s2 Mv2 Fx)|intros ? ? []|auto|auto].
  Qed.
  Lemma pw_finish_loop : forall m c old fuel l s, moving old s -> (forall x, l = Some x -> flags_ok x) ->
    pw (finish_loop fuel m c l) (fun l s' => moving old s' /\ forall x, l = Some x -> flags_ok x) (failed old) (died old) s.
  Proof.
    intros m c old. induction fuel as [|fuel IH]; intros l s Mv Fl; [exact Logic.I|]. cbn [finish_loop].
    apply pw_bind. eapply pw_mono; [apply (pw_plain _ _ old); [soft|apply plain_running|exact Mv]| |auto|auto].
    intros b s1 Mv1. cbn beta in Mv1. destruct b; [|split; assumption].
    apply pw_bind. eapply pw_mono; [apply (pw_update _ _ old s1 Mv1)| |auto|auto]. intros x s2 [Mv2 Fx].
    apply IH; [exact Mv2|]. intros y [= <-]. exact Fx.
  Qed.
  Lemma moving_reset : forall old s, moving old s -> pw reset_current (fun _ => moving old) (failed old) (died old) s.
  Proof. intros old s Mv. apply (pw_plain _ _ old); [unfold reset_current; soft|unfold reset_current; plain|exact Mv]. Qed.
  Lemma pw_finish : forall id m c old s, moving old s ->
    pw (finish_motion id m c) (fun _ => moving old) (failed old) (died old) s.
  Proof.
    intros id m c old s Mv. unfold finish_motion.
    apply pw_bind. eapply pw_mono; [apply (pw_plain _ _ old); [soft|apply plain_running|exact Mv]| |auto|auto].
    intros b s1 Mv1. cbn beta in Mv1. destruct b; [|apply moving_reset, Mv1].
    destruct m as [m|]; [|apply moving_failed; [exact Mv1|exact Logic.I]].
    apply pw_get_bind. apply pw_bind. eapply pw_mono; [apply (pw_finish_loop _ _ old _ _ s1 Mv1); discriminate| |auto|auto].
    intros l s2 [Mv2 Fl]. apply pw_bind. apply pw_unwrap; [|intros; exact Logic.I]. intros x Ex.
    apply pw_bind. eapply pw_mono; [apply (pw_plain _ _ old); [soft|apply plain_response|exact Mv2]| |auto|auto].
    intros r s3 Mv3. cbn beta in Mv3. destruct (snd r); cbn [handle_move]; try (apply moving_reset, Mv3);
      (eapply pw_mono; [apply (pw_throw_control unit _ _ x old s3 Mv3 (Fl x Ex))|intros ? ? []|auto|auto]).
  Qed.

  Section Loop.
    Variable k : controller.
    Lemma pw_motion_loop : forall id old fuel cb x p m c s, moving old s ->
      pw (motion_loop k fuel id cb x p m c) (fun _ => moving old) (failed old) (died old) s.
    Proof.
      intros id old. induction fuel as [|fuel IH]; intros cb x p m c s Mv; [exact Logic.I|]. cbn [motion_loop].
      apply pw_bind. eapply pw_mono; [apply (pw_plain _ _ old); [soft|plain|exact Mv]| |auto|auto].
      intros dt s1 Mv1. cbn beta in Mv1.
      apply pw_bind. eapply pw_mono; [apply (pw_plain _ _ old); [unfold spin_motion; soft|unfold spin_motion; plain|exact Mv1]| |auto|auto].
      intros [[cb1 m1] go] s2 Mv2. cbn beta in Mv2.
      apply pw_bind. eapply pw_mono; [apply (pw_plain _ _ old); [| |exact Mv2]| |auto|auto].
      { unfold spin_control. soft. }
      { unfold spin_control. plain. }
      intros [[cb2 c2] go2] s3 Mv3. cbn beta in Mv3. destruct go2; [|apply pw_finish, Mv3].
      apply pw_bind. eapply pw_mono; [apply (pw_update _ _ old s3 Mv3)| |auto|auto]. intros x2 s4 [Mv4 Fx].
      apply pw_bind. eapply pw_mono; [apply (pw_throw_on _ _ old s4 Mv4 Fx)| |auto|auto]. intros u5 s5 Mv5. apply IH, Mv5.
    Qed.
    Lemma pw_do_loop : forall id cb old s, moving old s ->
      pw (do_loop k id cb) (fun _ => moving old) (failed old) (died old) s.
    Proof.
      intros id cb old s Mv. unfold do_loop.
      apply pw_bind. eapply pw_mono; [apply (pw_update _ _ old s Mv)| |auto|auto]. intros x s4 [Mv4 Fx].
      apply pw_bind. eapply pw_mono; [apply (pw_throw_on _ _ old s4 Mv4 Fx)| |auto|auto]. intros u5 s5 Mv5.
      apply pw_get_bind. apply pw_motion_loop, Mv5.
    Qed.
  End Loop.

  (** Stopping: a stop request, then only calm events; no error, no panic from the log. *)
  Lemma cancel_events : forall id s, r_logger (snd (cancel_motion id s)) = r_logger s /\
    (exists d i, trace (snd (cancel_motion id s)) = d ++ EvRequest i ReqStopMove :: trace s /\ Forall calm_event d) /\
    match cancel_motion id s with (Err _, _) => False | (Panic p, _) => odd p = false | _ => True end.
  Proof.
    intros id s.
    assert (X : r_logger (snd (execute_stop s)) = r_logger s /\
      (exists d i, trace (snd (execute_stop s)) = d ++ EvRequest i ReqStopMove :: trace s /\ Forall calm_event d) /\
      match execute_stop s with (Panic p, _) => odd p = false | _ => True end).
    { assert (Sf : forall i, soft (r <- blocking_response c_stop_response i ;; as_result (handle_stop (snd r)) ;;; ret i)) by (intros; soft).
      assert (Pf : forall i, plain_errors (r <- blocking_response c_stop_response i ;; as_result (handle_stop (snd r)) ;;; ret i)).
      { intros i. plain. apply plain_as_result. intros e. apply handle_stop_plain. }
      specialize (Sf (n_id s) (set_id (add_event s (EvRequest (n_id s) ReqStopMove)) ((n_id s + 1) mod 2 ^ 32))).
      specialize (Pf (n_id s) (set_id (add_event s (EvRequest (n_id s) ReqStopMove)) ((n_id s + 1) mod 2 ^ 32))).
      change (execute_stop s) with ((r <- blocking_response c_stop_response (n_id s) ;; as_result (handle_stop (snd r)) ;;; ret (n_id s))
        (set_id (add_event s (EvRequest (n_id s) ReqStopMove)) ((n_id s + 1) mod 2 ^ 32))).
      destruct Sf as [L (d & T & F)]. split; [exact L|]. split; [exists d, (n_id s); split; [exact T|exact F]|].
      revert Pf. match goal with |- context [match ?o with _ => _ end] => destruct o as [[?|?|?| |] ?] end; auto. }
    unfold cancel_motion. destruct (execute_stop s) as [[n|e|p| |] s1]; cbn [snd] in *; try exact X;
      [|destruct X as (X1 & X2 & _); repeat split; assumption].
    assert (Y : forall s2, calm s1 s2 -> r_logger s2 = r_logger s /\
      exists d i, trace s2 = d ++ EvRequest i ReqStopMove :: trace s /\ Forall calm_event d).
    { intros s2 [L (d & T & F)]. destruct X as [L1 [(d1 & i & T1 & F1) _]]. split; [congruence|].
      exists (d ++ d1), i. rewrite T, T1, app_assoc. split; [reflexivity|]. apply Forall_app; auto. }
    assert (K : forall f' s', match cancel_loop f' s' with (Err _, _) => False | (Panic p, _) => odd p = false | _ => True end).
    { induction f' as [|f' IHf]; intros s'; [exact Logic.I|]. cbn [cancel_loop]. unfold bind at 1.
      assert (Nr : match motion_or_controller_running s' with (Err _, _) => False | (Panic p, _) => odd p = false | _ => True end).
      { unfold motion_or_controller_running, motion_generator_running, controller_running, bind, get, unwrap, ret.
        destruct (r_motion_mode s') as [mm|]; cbn; [destruct (mg_eqb mm MgIdle); exact Logic.I|reflexivity]. }
      destruct (motion_or_controller_running s') as [[b|?|?| |] s5]; auto.
      destruct b; [|exact Logic.I]. pose proof (plain_receive s5) as Pr.
      destruct (receive_robot_state s5) as [[?|?|?| |] s6]; [apply IHf| |exact Pr|exact Logic.I|exact Logic.I].
      match goal with |- context [if ?b then _ else _] => destruct b end; [exact Logic.I|apply IHf]. }
    assert (Z : forall s3, match check_response c_move_response 13 id (fun _ => None) s3 with
                           | (Err _, _) => False | (Panic p, _) => odd p = false | _ => True end).
    { intros s3. unfold check_response.
      destruct (match n_tsched s3 with [] => (None, []) | t :: r => (t, r) end) as [t ts].
      cbn [n_table set_tcp]. destruct (tget id (store t (n_table s3))) as [m|]; [|exact Logic.I].
      destruct (N.eqb (blen m) 13); [|reflexivity]. destruct (deserialize c_move_response m); [exact Logic.I|reflexivity]. }
    pose proof (soft_receive s1) as R. pose proof (plain_receive s1) as Pr.
    destruct (receive_robot_state s1) as [r s2]. cbn [snd] in R.
    assert (G : forall f, let m := (cancel_loop f ;;; check_response c_move_response 13 id (fun _ => None) ;;; reset_current) in
      r_logger (snd (m s2)) = r_logger s /\
      (exists d i, trace (snd (m s2)) = d ++ EvRequest i ReqStopMove :: trace s /\ Forall calm_event d) /\
      match m s2 with (Err _, _) => False | (Panic p, _) => odd p = false | _ => True end).
    { intros f m. assert (Sf : soft m).
      { apply soft_bind; [apply soft_cancel_loop|intros; apply soft_bind; [soft|intros; unfold reset_current; soft]]. }
      destruct (Y (snd (m s2))) as [Y1 Y2]; [eapply calm_trans; [exact R|apply Sf]|].
      split; [exact Y1|]. split; [exact Y2|]. unfold m, bind.
      specialize (K f s2). destruct (cancel_loop f s2) as [[?|?|?| |] s4]; auto.
      specialize (Z s4). destruct (check_response _ _ _ _ s4) as [[?|?|?| |] s5]; auto. }
    destruct r; try (apply G); destruct (Y s2 R) as [Y1 Y2]; repeat split; auto.
  Qed.

  Lemma stop_settles : forall d i t, Forall calm_event d ->
    waiting_command (d ++ EvRequest i ReqStopMove :: t) = None /\
    exchanged (d ++ EvRequest i ReqStopMove :: t) = exchanged t /\
    motion_pairs (d ++ EvRequest i ReqStopMove :: t) = motion_pairs t /\
    motion_commands (d ++ EvRequest i ReqStopMove :: t) = motion_commands t.
  Proof. intros d i t F. apply (calm_events d (EvRequest i ReqStopMove :: t) F). reflexivity. Qed.

  (** At the boundary between calls. *)
  Definition quietly (s : st) : Prop := settled s /\ exists old es, sound old es s.

  Lemma run_loop_log : forall k id cb old s, moving old s ->
    match run_loop k id cb s with
    | (Ok _, s') => quietly s'
    | (Err e, s') => quietly s' /\
        match e with
        | ControlException (Some log) _ => log = attached size old (motion_pairs (trace s')) /\
                                           map snd (motion_pairs (trace s')) = motion_commands (trace s')
        | _ => True
        end
    | (Panic p, s') => died old p s'
    | _ => True
    end.
  Proof.
    intros k id cb old s Mv. unfold run_loop. pose proof (pw_do_loop k id cb old s Mv) as D. unfold pw in D.
    destruct (do_loop k id cb s) as [[u|e|p| |] s1]; auto.
    - destruct D as (W & So & _). split; eauto.
    - unfold bind. destruct (cancel_events id s1) as [L [(d & i & T & F) C]].
      destruct (cancel_motion id s1) as [[u|e'|p| |] s2]; cbn [snd] in *; auto; try contradiction.
      + cbn. destruct D as [(o & es & base & p & H & E & Sk) De].
        destruct (stop_settles d i (trace s1) F) as (A & B & Cc & G). rewrite <- T in A, B, Cc, G.
        split; [split; [exact A|]|].
        * exists o, es, base, p. rewrite L, B. rewrite T, (calm_lost d (EvRequest i ReqStopMove :: trace s1) F eq_refl). auto.
        * rewrite Cc, G. exact De.
      + apply ordinary_died, C.
  Qed.

  (** Starting: robot_impl.rs 287-342 *)
  Lemma calm_quietly : forall s s', calm s s' -> settled s -> forall old es, sound old es s -> settled s' /\ sound old es s'.
  Proof.
    intros s s' [L (d & T & F)] W old es (base & p & H & E & Sk). unfold settled in *. rewrite T.
    destruct (calm_events d (trace s) F W) as (A & B & C). rewrite A. repeat split.
    exists base, p. rewrite L, T, B, (calm_lost d (trace s) F W). auto.
  Qed.
  Lemma start_log : forall c m pa go old es s, settled s -> sound old es s ->
    match start_motion c m pa go s with
    | (Ok _, s') => moving (kept size old es) s' /\ exchanged (trace s') = exchanged (trace s) /\ motion_pairs (trace s') = []
    | (Err e, s') => settled s' /\ sound old es s' /\ plain e
    | (Panic p, s') => odd p = false
    | _ => True
    end.
  Proof.
    intros c m pa go old es s W So. unfold start_motion. unfold bind at 1.
    pose proof (soft_running s) as R. pose proof (plain_running s) as Pr.
    destruct (motion_or_controller_running s) as [[b|e|p| |] s1]; cbn [snd] in *; auto.
    2:{ destruct (calm_quietly s s1 R W old es So). auto. }
    destruct (calm_quietly s s1 R W old es So) as [W1 So1].
    assert (X1 : exchanged (trace s1) = exchanged (trace s)).
    { destruct R as [L (d & T & F)]. rewrite T. apply (calm_events d (trace s) F W). }
    destruct b; [reflexivity|]. unfold bind at 1, modify at 1. cbv beta iota.
    set (s2 := set_current s1 (mode_of_move m) (Some (ctrl_of_move c))).
    set (s3 := set_id (add_event s2 (EvRequest (n_id s2) (ReqMove c m pa go))) ((n_id s2 + 1) mod 2 ^ 32)).
    assert (T3 : trace s3 = EvRequest (n_id s2) (ReqMove c m pa go) :: trace s1) by reflexivity.
    assert (L3 : r_logger s3 = r_logger s1) by reflexivity.
    assert (W3 : settled s3) by (unfold settled; rewrite T3; exact W1).
    assert (So3 : sound old es s3).
    { destruct So1 as (base & p & H & E & Sk). exists base, p. rewrite T3, L3. cbn [exchanged]. auto. }
    assert (M3 : motion_pairs (trace s3) = [] /\ motion_commands (trace s3) = [] /\ exchanged (trace s3) = exchanged (trace s)).
    { rewrite T3. cbn. auto. }
    assert (Sf : forall i, soft (x <- blocking_response c_move_response i ;; as_result (handle_move (snd x)) ;;; ret i)) by (intros; soft).
    assert (Pf : forall i, plain_errors (x <- blocking_response c_move_response i ;; as_result (handle_move (snd x)) ;;; ret i)).
    { intros i. plain. apply plain_as_result. intros e. apply handle_move_plain. }
    unfold bind at 1. unfold execute_move. change (bind (send_request (ReqMove c m pa go)) _ s2)
      with ((x <- blocking_response c_move_response (n_id s2) ;; as_result (handle_move (snd x)) ;;; ret (n_id s2)) s3).
    specialize (Sf (n_id s2) s3). specialize (Pf (n_id s2) s3).
    destruct ((x <- blocking_response c_move_response (n_id s2) ;; as_result (handle_move (snd x)) ;;; ret (n_id s2)) s3)
      as [[id|e|p| |] s4]; cbn [snd] in *; auto.
    2:{ destruct (calm_quietly s3 s4 Sf W3 old es So3). auto. }
    unfold bind at 1, get at 1. unfold bind at 1.
    pose proof (soft_start_loop id (bound s4) s4) as S5.
    assert (P5 : plain_errors (start_loop (bound s4) id)).
    { clear. intros s. revert s. generalize (bound s4). intros f. induction f as [|f IH]; intros s; [exact Logic.I|].
      cbn [start_loop]. apply plain_bind; [unfold modes_differ; plain|]. intros [] s0; [|exact Logic.I].
      pose proof (plain_check _ c_move_response 13 id (fun r => handle_move (snd r)) (fun a e => handle_move_plain (snd a) e) s0) as C.
      destruct (check_response _ _ _ _ s0) as [[b|e|p| |] s1]; auto.
      - destruct b; [exact Logic.I|]. 
        change ((update None None ;;; start_loop f id) s1) with ((bind (bind receive_robot_state (fun x => ret x)) (fun _ => start_loop f id)) s1).
        apply plain_bind; [apply plain_bind; [apply plain_receive|intros; plain]|intros ? ?; apply IH].
      - destruct e; try reflexivity; exact Logic.I. }
    specialize (P5 s4). destruct (start_loop (bound s4) id s4) as [[u|e|p| |] s5]; cbn [snd] in *; auto.
    2:{ destruct (calm_quietly s3 s5 (calm_trans _ _ _ Sf S5) W3 old es So3). auto. }
    destruct (calm_quietly s3 s5 (calm_trans _ _ _ Sf S5) W3 old es So3) as [W5 So5].
    assert (M5 : motion_pairs (trace s5) = [] /\ motion_commands (trace s5) = [] /\ exchanged (trace s5) = exchanged (trace s)).
    { destruct (calm_trans _ _ _ Sf S5) as [L (d & T & F)]. rewrite T.
      destruct (calm_events d (trace s3) F W3) as (_ & B & C & G). rewrite B, C, G. exact M3. }
    unfold bind at 1. pose proof (pw_flush_log old es s5 So5) as Fl. unfold pw in Fl.
    destruct (flush_log s5) as [[log|e|p| |] s6]; auto; try contradiction.
    destruct Fl as (_ & So6 & T6). cbn. destruct M5 as (M5 & C5 & X5).
    split; [|rewrite T6; split; [exact X5|exact M5]]. unfold moving, settled. rewrite T6, M5, C5. repeat split; auto.
  Qed.

  (** control_loop.rs 44-129: a whole control call *)
  Lemma control_log : forall k cb s, quietly s ->
    match control k cb s with
    | (Ok _, s') => quietly s'
    | (Err e, s') => quietly s' /\
        match e with
        | ControlException (Some log) _ => (lost_pairs size (trace s) <= List.length (exchanged (trace s)))%nat /\
            log = attached size (skipn (lost_pairs size (trace s)) (exchanged (trace s))) (motion_pairs (trace s')) /\
            map snd (motion_pairs (trace s')) = motion_commands (trace s')
        | _ => True
        end
    | (Panic p, s') => match p with
                       | PDuration => disordered (attached size (skipn (lost_pairs size (trace s)) (exchanged (trace s))) (motion_pairs (trace s')))
                       | PLog => size = O
                       | PErrorSet => False
                       | _ => True
                       end
    | _ => True
    end.
  Proof.
    intros k cb s (W & old & es & So). unfold control. unfold bind at 1.
    assert (Sn : soft new_intern) by (unfold new_intern; soft).
    assert (Pn : plain_errors new_intern) by (unfold new_intern; plain).
    specialize (Sn s). specialize (Pn s). destruct (new_intern s) as [[u|e|p| |] s1]; cbn [snd] in *; auto.
    2:{ destruct (calm_quietly s s1 Sn W old es So) as [W1 So1]. split; [split; eauto|].
        destruct e as [[l|]| | | | | | |]; try exact Logic.I. destruct Pn. }
    2:{ destruct p; try exact Logic.I; discriminate Pn. }
    destruct (calm_quietly s s1 Sn W old es So) as [W1 So1].
    assert (X1 : exchanged (trace s1) = exchanged (trace s) /\ lost_pairs size (trace s1) = lost_pairs size (trace s)).
    { destruct Sn as [L (d & T & F)]. rewrite T. split; [apply (calm_events d (trace s) F W)|apply (calm_lost d (trace s) F W)]. }
    destruct X1 as [X1 Y1].
    unfold bind at 1. pose proof (start_log (wanted_ctrl k) (k_mode k) default_deviation default_deviation old es s1 W1 So1) as St.
    destruct (start_motion _ _ _ _ s1) as [[id|e|p| |] s2]; auto.
    2:{ destruct St as (W2 & So2 & P2). split; [split; eauto|]. destruct e as [[l|]| | | | | | |]; try exact Logic.I. destruct P2. }
    2:{ destruct p; try exact Logic.I; discriminate St. }
    destruct St as [Mv X2].
    destruct So1 as (base & q & H & E & Sk & Le & Lo).
    assert (Kp : kept size old es = skipn (q + (List.length es - size)) (exchanged (trace s)) /\
                 (q + (List.length es - size) <= List.length (exchanged (trace s)))%nat).
    { unfold kept. rewrite Sk, skipn_twice, X1. split; [f_equal; lia|].
      assert (L : List.length (old ++ es) = List.length (skipn q (exchanged (trace s1)))) by (rewrite Sk; reflexivity).
      rewrite skipn_length, app_length, X1 in L. rewrite X1 in Le. lia. }
    destruct Kp as [Kp Kl]. rewrite Lo, Y1 in Kp, Kl. rewrite Kp in Mv.
    pose proof (run_loop_log k id cb _ s2 Mv) as R.
    destruct (run_loop k id cb s2) as [[u2|e|p| |] s3]; auto.
    - destruct R as [Q R]. split; [exact Q|]. destruct e as [[l|]| | | | | | |]; auto.
  Qed.

  (** The other calls. *)
  Definition hush (s s' : st) : Prop := r_logger s' = r_logger s /\
    exists d, trace s' = d ++ trace s /\ Forall (fun e => forall a c, e <> EvCommand a c) d.
  Lemma hush_quietly : forall s s', hush s s' -> quietly s -> quietly s'.
  Proof.
    intros s s' [L (d & T & F)] (W & old & es & base & p & H & E & Sk).
    destruct (lost_hush d (trace s) F W) as (X1 & X2 & X3). split; [unfold settled; rewrite T; exact X1|].
    exists old, es, base, p. rewrite L, T, X2, X3. auto.
  Qed.
  Lemma calm_hush : forall s s', calm s s' -> hush s s'.
  Proof.
    intros s s' [L (d & T & F)]. split; [exact L|]. exists d. split; [exact T|].
    eapply Forall_impl; [|exact F]. intros e H a c ->. exact H.
  Qed.
  Lemma hush_trans : forall a b c, hush a b -> hush b c -> hush a c.
  Proof.
    intros a b c [L1 (d1 & T1 & F1)] [L2 (d2 & T2 & F2)]. split; [congruence|]. exists (d2 ++ d1).
    rewrite T2, T1, app_assoc. split; [reflexivity|]. apply Forall_app. auto.
  Qed.
  Lemma hush_bind : forall A B (m : M A) (f : A -> M B), (forall s, hush s (snd (m s))) ->
    (forall a s, hush s (snd (f a s))) -> forall s, hush s (snd (bind m f s)).
  Proof.
    intros A B m f Hm Hf s. unfold bind. specialize (Hm s). destruct (m s) as [[a|e|p| |] s']; try exact Hm.
    eapply hush_trans; [exact Hm|apply Hf].
  Qed.
  Lemma hush_request : forall r s, hush s (snd (send_request r s)).
  Proof.
    intros r s. split; [reflexivity|]. exists [EvRequest (n_id s) r]. split; [reflexivity|].
    constructor; [discriminate|constructor].
  Qed.
  Lemma hush_soft : forall A (m : M A), soft m -> forall s, hush s (snd (m s)).
  Proof. intros A m H s. apply calm_hush, H. Qed.
  Lemma hush_ask : forall A B (c : codec A) r (f : A -> M B), (forall a, soft (f a)) ->
    forall s, hush s (snd ((id <- send_request r ;; x <- blocking_response c id ;; f x) s)).
  Proof.
    intros A B c r f H s. apply hush_bind; [apply hush_request|]. intros id s1. apply hush_soft. soft.
  Qed.
  Lemma hush_setter : forall r s, hush s (snd (setter r s)).
  Proof. intros r s. apply hush_ask. intros; soft. Qed.

  Lemma api_quietly : forall a s, quietly s ->
    match run_api a s with (Ok _, s') | (Err _, s') => quietly s' | _ => True end.
  Proof.
    assert (G : forall (m : M unit) s, (forall s, hush s (snd (m s))) -> quietly s ->
      match m s with (Ok _, s') | (Err _, s') => quietly s' | _ => True end).
    { intros m s H Q. specialize (H s). destruct (m s) as [[u|e|p| |] s']; cbn [snd] in H; auto; eapply hush_quietly; eassumption. }
    intros a s Q. destruct a as [K cb k| |k cb|r| | |w|]; cbn [run_api].
    - apply G; [|exact Q]. apply hush_soft. unfold robot_read. soft. apply soft_read_loop.
    - apply G; [|exact Q]. apply hush_soft. soft.
    - pose proof (control_log k cb s Q) as C. destruct (control k cb s) as [[u|e|p| |] s']; auto. exact (proj1 C).
    - apply G; [|exact Q]. apply hush_setter.
    - apply G; [|exact Q]. intros s1. apply hush_ask. intros; soft.
    - apply G; [|exact Q]. intros s1. apply hush_ask. intros; soft.
    - apply G; [|exact Q]. intros s1. apply hush_bind; [|intros; apply hush_soft; soft].
      intros s2. apply hush_ask. intros; soft.
    - apply G; [|exact Q]. unfold set_default_behavior.
      repeat (apply hush_bind; [apply hush_setter|intros ?]). apply hush_setter.
  Qed.

  Lemma new_quietly : forall rt us ts se rk pr port u s,
    robot_new port (st_init size rt us ts se rk pr) = (Ok u, s) -> quietly s.
  Proof.
    intros rt us ts se rk pr port u s E.
    assert (Q0 : quietly (st_init size rt us ts se rk pr)).
    { split; [reflexivity|]. exists [], [], (logger_new size), O. repeat split. cbn. lia. }
    assert (H : forall s, hush s (snd (robot_new port s))).
    { unfold robot_new. apply hush_bind.
      - intros s0. unfold connect_robot. apply hush_ask. intros [h [[] v]]; soft.
      - intros u0 s0. pose proof (soft_block s0) as B. destruct (udp_block s0) as [[x|e|p| |] s1]; cbn [snd] in *;
          try (apply calm_hush; exact B). apply calm_hush. eapply calm_trans; [exact B|apply soft_update_state]. }
    specialize (H (st_init size rt us ts se rk pr)). rewrite E in H. eapply hush_quietly; eassumption.
  Qed.
End Log.
