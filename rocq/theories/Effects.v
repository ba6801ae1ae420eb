(** Which kinds of events a call can add to the trace. *)
From Coq Require Import List NArith ZArith Bool Arith Lia String.
From Coq Require Import Init.Byte.
From Verif Require Import Bytes Codec WireModel WireSpec TcpModel UdpModel ErrorsModel LoggerModel
  RobotModel LoopModel RobotSpec Decoded.
Import ListNotations.
Open Scope list_scope.
Open Scope N_scope.

Section Adds.
  Variable P : event -> Prop.
  Definition grew (s s' : st) : Prop := exists d, trace s' = d ++ trace s /\ Forall P d.
  Definition adds {A} (m : M A) : Prop := forall s, grew s (snd (m s)).

  Lemma grew_refl : forall s, grew s s.
  Proof. intros. exists []. auto. Qed.
  Lemma grew_trans : forall a b c, grew a b -> grew b c -> grew a c.
  Proof.
    intros a b c (d1 & T1 & F1) (d2 & T2 & F2). exists (d2 ++ d1). rewrite T2, T1, app_assoc.
    split; [reflexivity|]. apply Forall_app. auto.
  Qed.
  Lemma grew_same : forall s s', trace s' = trace s -> grew s s'.
  Proof. intros s s' E. exists []. auto. Qed.
  Lemma grew_one : forall s s' e, trace s' = e :: trace s -> P e -> grew s s'.
  Proof. intros s s' e E H. exists [e]. auto. Qed.

  Lemma adds_bind : forall A B (m : M A) (f : A -> M B), adds m -> (forall a, adds (f a)) -> adds (bind m f).
  Proof.
    intros A B m f Hm Hf s. unfold bind. specialize (Hm s). destruct (m s) as [[a|e|p| |] s']; try exact Hm.
    eapply grew_trans; [exact Hm|apply Hf].
  Qed.
  Lemma adds_ret : forall A (a : A), adds (ret a).
  Proof. intros A a s. apply grew_refl. Qed.
  Lemma adds_throw : forall A e, adds (@throw A e).
  Proof. intros A a s. apply grew_refl. Qed.
  Lemma adds_panic : forall A e, adds (@panic_with A e).
  Proof. intros A a s. apply grew_refl. Qed.
  Lemma adds_fuel : forall A, adds (fun s => (@OutOfFuel A, s)).
  Proof. intros A s. apply grew_refl. Qed.
  Lemma adds_get : adds get.
  Proof. intros s. apply grew_refl. Qed.
  Lemma adds_unwrap : forall A p (o : option A), adds (unwrap p o).
  Proof. intros A p [a|] s; apply grew_refl. Qed.
  Lemma adds_emit : forall e, P e -> adds (emit e).
  Proof. intros e H s. apply (grew_one _ _ e); auto. Qed.
  Lemma adds_modify : forall f, (forall s, trace (f s) = trace s) -> adds (modify f).
  Proof. intros f H s. apply grew_same. apply H. Qed.
  Lemma adds_as_result : forall o, adds (as_result o).
  Proof. intros [e|] s; apply grew_refl. Qed.
  Lemma adds_block : adds udp_block.
  Proof. intros s. unfold udp_block. destruct (udp_blocking_receive _ _ _ _) as [[[] ?] ?]; apply grew_same; reflexivity. Qed.
  Lemma adds_poll : adds udp_poll.
  Proof. intros s. unfold udp_poll. destruct (udp_receive _ _ _ _) as [[[] ?] ?]; apply grew_same; reflexivity. Qed.
  Lemma adds_flush_log : adds flush_log.
  Proof. intros s. unfold flush_log. destruct (logger_flush _) as [[] ?]; apply grew_same; reflexivity. Qed.
  Hint Resolve adds_ret adds_throw adds_panic adds_fuel adds_get adds_unwrap adds_as_result adds_block adds_poll
    adds_flush_log : adds.
  Ltac adds := repeat first
    [ progress auto with adds
    | apply adds_bind; [|intros]
    | apply adds_modify; intros; reflexivity
    | match goal with
      | |- adds (if ?b then _ else _) => destruct b
      | |- adds (match ?b with _ => _ end) => destruct b
      end ].

  Hypothesis P_state : forall x, state_ok x -> P (EvState x).

  Lemma adds_update_state : forall x, state_ok x -> adds (update_state_with x).
  Proof. intros x W s. apply (grew_one _ _ (EvState x)); auto. Qed.
  Lemma adds_poll_states : forall fuel l, adds (poll_states fuel l).
  Proof. induction fuel; intros l; cbn [poll_states]; adds. Qed.
  Lemma adds_await : forall fuel, adds (await_state fuel).
  Proof. induction fuel; cbn [await_state]; adds. Qed.
  Hint Resolve adds_update_state adds_poll_states adds_await : adds.
  Lemma adds_receive : adds receive_robot_state.
  Proof.
    intros s. unfold receive_robot_state. unfold bind at 1, get at 1. unfold bind at 1.
    pose proof (adds_poll_states (bound s) None s) as A.
    pose proof (polled_state (bound s) None s) as W.
    destruct (poll_states (bound s) None s) as [[l|e|p| |] s1]; cbn [snd] in A; auto.
    eapply grew_trans; [exact A|]. unfold bind at 1, get at 1. unfold bind at 1. destruct l as [x|].
    - cbn [ret]. apply adds_bind; [apply adds_update_state|intros; apply adds_ret].
      eapply W; [discriminate|reflexivity].
    - pose proof (adds_await (bound s1) s1) as B. pose proof (awaited_state (bound s1) s1) as V.
      destruct (await_state (bound s1) s1) as [[x|e|p| |] s2]; cbn [snd] in B; auto.
      eapply grew_trans; [exact B|]. apply adds_bind; [apply adds_update_state|intros; apply adds_ret].
      eapply V. reflexivity.
  Qed.
  Hint Resolve adds_receive : adds.
  Lemma adds_flush_states : forall fuel, adds (flush_states fuel).
  Proof. induction fuel; cbn [flush_states]; adds. Qed.
  Hint Resolve adds_flush_states : adds.
  Lemma adds_update_none : adds (update None None).
  Proof. unfold update, send_robot_command; adds. Qed.
  Hint Resolve adds_update_none : adds.

  Lemma adds_read_once : (forall x, P (EvRead x)) -> adds read_once.
  Proof. intros H. unfold read_once. adds. apply adds_emit; auto. Qed.

  Hypothesis P_reply : forall id m, P (EvReply id m).
  Lemma adds_response : forall A (c : codec A) id, adds (blocking_response c id).
  Proof.
    intros A c id. unfold blocking_response. apply adds_bind; [|intros; adds].
    intros s. unfold wait_response. destruct (wait_loop _ _ _) as [[[m|] tb] ts].
    - apply (grew_one _ _ (EvReply id m)); auto.
    - apply grew_same. reflexivity.
  Qed.
  Lemma adds_check : forall A (c : codec A) n id h, adds (check_response c n id h).
  Proof.
    intros A c n id h s. unfold check_response.
    destruct (match n_tsched s with [] => (None, []) | t :: r => (t, r) end) as [t ts].
    destruct (tget _ _) as [m|]; [|apply grew_same; reflexivity].
    destruct (N.eqb _ _); [|apply grew_same; reflexivity].
    destruct (deserialize c m); [|apply grew_same; reflexivity].
    destruct (h a); apply (grew_one _ _ (EvReply id m)); auto.
  Qed.
  Hint Resolve adds_response adds_check : adds.

  Lemma adds_running : adds motion_or_controller_running.
  Proof. unfold motion_or_controller_running, motion_generator_running, controller_running. adds. Qed.
  Hint Resolve adds_running : adds.
  Lemma adds_throw_control : forall A m st x, adds (@throw_control A m st x).
  Proof.
    intros. unfold throw_control. apply adds_bind; [adds|intros]. apply adds_bind; [adds|intros].
    intros s. destruct (create_control_exception _ _ _ _); apply grew_refl.
  Qed.
  Hint Resolve adds_throw_control : adds.
  Lemma adds_throw_on : forall x id, adds (throw_on_motion_error x id).
  Proof. intros. unfold throw_on_motion_error. adds. Qed.
  Hint Resolve adds_throw_on : adds.
  Lemma adds_start_loop : forall id fuel, adds (start_loop fuel id).
  Proof.
    intros id. induction fuel; cbn [start_loop]; [adds|]. unfold modes_differ. adds.
    intros s. pose proof (adds_check _ c_move_response 13 id (fun r => handle_move (snd r)) s) as H.
    destruct (check_response _ _ _ _ s) as [[[]|e|p| |] s1]; try exact H.
    - eapply grew_trans; [exact H|]. apply (adds_bind _ _ (update None None)); adds.
    - destruct e; exact H.
  Qed.
  Lemma adds_cancel_loop : forall fuel, adds (cancel_loop fuel).
  Proof.
    induction fuel; cbn [cancel_loop]; adds.
    intros s. pose proof (adds_receive s) as H. destruct (receive_robot_state s) as [[x|e|p| |] s1]; try exact H.
    - eapply grew_trans; [exact H|apply IHfuel].
    - destruct (_ && _); [exact H|]. eapply grew_trans; [exact H|apply IHfuel].
  Qed.
  Hint Resolve adds_start_loop adds_cancel_loop : adds.

  (** Parts which send commands and call callbacks. *)
  Hypothesis P_command : forall a c, P (EvCommand a c).
  Lemma adds_udp_send : forall c, adds (udp_send c).
  Proof.
    intros c s. unfold udp_send. destruct (n_sends s) as [|[] l];
      try solve [apply (grew_one _ _ (EvCommand (u_server (n_udp s)) c)); auto]. apply grew_same. reflexivity.
  Qed.
  Hint Resolve adds_udp_send : adds.
  Lemma adds_update : forall m c, adds (update m c).
  Proof. intros. unfold update, send_robot_command. adds. Qed.
  Hint Resolve adds_update : adds.
  Lemma adds_finish_loop : forall m c fuel l, adds (finish_loop fuel m c l).
  Proof. intros m c. induction fuel; intros l; cbn [finish_loop]; adds. Qed.
  Hint Resolve adds_finish_loop : adds.
  Lemma adds_finish : forall id m c, adds (finish_motion id m c).
  Proof. intros. unfold finish_motion, reset_current. adds. Qed.
  Hint Resolve adds_finish : adds.

  Hypothesis P_motion : forall x dt, P (EvMotion x dt).
  Hypothesis P_motion_out : forall m f, P (EvMotionOut m f).
  Hypothesis P_torque : forall x dt, P (EvTorque x dt).
  Hypothesis P_torque_out : forall m f, P (EvTorqueOut m f).
  Lemma adds_motion_loop : forall k id fuel cb x p m c, adds (motion_loop k fuel id cb x p m c).
  Proof.
    intros k id. induction fuel; intros; cbn [motion_loop]; [adds|].
    unfold spin_motion, spin_control, time_step. adds; try (apply adds_emit; auto).
  Qed.
  Hint Resolve adds_motion_loop : adds.
  Lemma adds_do_loop : forall k id cb, adds (do_loop k id cb).
  Proof. intros. unfold do_loop. adds. Qed.
End Adds.
