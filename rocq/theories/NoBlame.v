(** Calls which never panic on behalf of a callback: everything but the callbacks themselves. *)
From Coq Require Import List NArith ZArith Bool.
From Verif Require Import Bytes Codec WireModel TcpModel UdpModel LoggerModel RobotModel LoopModel.
Import ListNotations.
Open Scope N_scope.

Definition blameless {A} (m : M A) : Prop := forall s, fst (m s) <> Panic PCallback.
Ltac bl := intros s; try discriminate.
Lemma bl_ret : forall A (a : A), blameless (ret a).
Proof. intros A a s. discriminate. Qed.
Lemma bl_throw : forall A e, blameless (@throw A e).
Proof. intros A e s. discriminate. Qed.
Lemma bl_panic : forall A p, p <> PCallback -> blameless (@panic_with A p).
Proof. intros A p H s E. injection E as E. exact (H E). Qed.
Lemma bl_bind : forall A B (m : M A) (f : A -> M B), blameless m -> (forall a, blameless (f a)) -> blameless (bind m f).
Proof.
  intros A B m f Hm Hf s. unfold bind. specialize (Hm s). destruct (m s) as [[a|e|p| |] s']; cbn [fst] in *; try discriminate; [apply Hf|].
  intros E. apply Hm. injection E as ->. reflexivity.
Qed.
Lemma bl_get : blameless get.
Proof. intros s. discriminate. Qed.
Lemma bl_modify : forall f, blameless (modify f).
Proof. intros f s. discriminate. Qed.
Lemma bl_emit : forall e, blameless (emit e).
Proof. intros e. apply bl_modify. Qed.
Lemma bl_unwrap : forall A p (o : option A), p <> PCallback -> blameless (unwrap p o).
Proof. intros A p [a|] H; [apply bl_ret|apply bl_panic, H]. Qed.
Lemma bl_if : forall A (b : bool) (m1 m2 : M A), blameless m1 -> blameless m2 -> blameless (if b then m1 else m2).
Proof. intros A [|] m1 m2 H1 H2; assumption. Qed.
Lemma bl_udp_block : blameless udp_block.
Proof. intros s. unfold udp_block. destruct (udp_blocking_receive _ _ _ _) as [[r u] sc]. destruct r; discriminate. Qed.
Lemma bl_udp_poll : blameless udp_poll.
Proof. intros s. unfold udp_poll. destruct (udp_receive _ _ _ _) as [[r u] sc]. destruct r; discriminate. Qed.
Lemma bl_udp_send : forall c, blameless (udp_send c).
Proof. intros c s. unfold udp_send. destruct (n_sends s) as [|[|] r]; discriminate. Qed.
Lemma bl_request : forall r, blameless (send_request r).
Proof. intros r s. discriminate. Qed.
Lemma bl_wait : forall id, blameless (wait_response id).
Proof. intros id s. unfold wait_response. destruct (wait_loop _ _ _) as [[[m|] tb] ts]; discriminate. Qed.
Lemma bl_response : forall A (c : codec A) id, blameless (blocking_response c id).
Proof. intros A c id. apply bl_bind; [apply bl_wait|]. intros m. apply bl_unwrap. discriminate. Qed.
Lemma bl_check : forall A (c : codec A) n id h, blameless (check_response c n id h).
Proof.
  intros A c n id h s. unfold check_response. destruct (match n_tsched s with [] => _ | _ => _ end) as [t ts].
  destruct (tget _ _) as [m|]; [|discriminate]. destruct (blen m =? n); [|discriminate].
  destruct (deserialize c m) as [a|]; [|discriminate]. destruct (h a); discriminate.
Qed.
Lemma bl_as_result : forall o, blameless (as_result o).
Proof. intros [e|]; [apply bl_throw|apply bl_ret]. Qed.
Lemma bl_update_state : forall x, blameless (update_state_with x).
Proof. intros x. apply bl_modify. Qed.
Lemma bl_poll_states : forall fuel l, blameless (poll_states fuel l).
Proof.
  induction fuel as [|fuel IH]; intros l; [intros s; discriminate|]. apply bl_bind; [apply bl_udp_poll|].
  intros [x|]; [|apply bl_ret]. apply bl_bind; [apply bl_get|]. intros s0. apply IH.
Qed.
Lemma bl_await : forall fuel, blameless (await_state fuel).
Proof.
  induction fuel as [|fuel IH]; [intros s; discriminate|]. apply bl_bind; [apply bl_udp_block|]. intros x.
  apply bl_bind; [apply bl_get|]. intros s0. apply bl_if; [apply bl_ret|exact IH].
Qed.
Lemma bl_receive : blameless receive_robot_state.
Proof.
  apply bl_bind; [apply bl_get|]. intros s0. apply bl_bind; [apply bl_poll_states|]. intros l.
  apply bl_bind; [apply bl_get|]. intros s1. apply bl_bind; [destruct l; [apply bl_ret|apply bl_await]|]. intros x.
  apply bl_bind; [apply bl_update_state|]. intros _. apply bl_ret.
Qed.
Lemma bl_running : blameless motion_or_controller_running.
Proof.
  apply bl_bind.
  - apply bl_bind; [apply bl_get|]. intros s0. apply bl_bind; [apply bl_unwrap; discriminate|]. intros m. apply bl_ret.
  - intros b. apply bl_if; [apply bl_ret|]. apply bl_bind; [apply bl_get|]. intros s0. apply bl_ret.
Qed.
Lemma bl_flush_log : blameless flush_log.
Proof. intros s. unfold flush_log. destruct (logger_flush _) as [[rs|] l]; discriminate. Qed.
Lemma bl_send : forall m c, blameless (send_robot_command m c).
Proof.
  intros m c.
  assert (Rest : blameless (s <- get ;;
      let has_motion := match m with Some _ => true | None => false end in
      let has_control := match c with Some _ => true | None => false end in
      if has_motion && mg_eqb (r_cur_motion s) MgIdle then throw NoMotionGeneratorRunningError
      else
        (if has_control then
           c <- unwrap PUnwrap (r_cur_ctrl s) ;;
           if cm_eqb c CmExternalController then ret tt else throw NoControllerRunningError
         else ret tt) ;;;
        (if negb (mg_eqb (r_cur_motion s) MgIdle) then
           c <- unwrap PUnwrap (r_cur_ctrl s) ;;
           if cm_eqb c CmExternalController && (negb has_motion || negb has_control)
           then throw PartialCommandError else ret tt
         else ret tt) ;;;
        match m, c with
        | Some m, Some t =>
            let c := RobotCommand (r_message_id s) m t in udp_send c ;;; ret (Some c)
        | Some m, None =>
            let c := RobotCommand (r_message_id s) m zero7 in udp_send c ;;; ret (Some c)
        | None, _ => ret None
        end)).
  { apply bl_bind; [apply bl_get|]. intros s0. cbv zeta. apply bl_if; [apply bl_throw|].
    apply bl_bind; [apply bl_if; [|apply bl_ret]; apply bl_bind; [apply bl_unwrap; discriminate|]; intros x; apply bl_if; [apply bl_ret|apply bl_throw]|].
    intros _.
    apply bl_bind; [apply bl_if; [|apply bl_ret]; apply bl_bind; [apply bl_unwrap; discriminate|]; intros x; apply bl_if; [apply bl_throw|apply bl_ret]|].
    intros _. destruct m as [m|]; [|apply bl_ret]. destruct c as [t|]; (apply bl_bind; [apply bl_udp_send|]; intros _; apply bl_ret). }
  destruct m as [m|]; [exact Rest|]. destruct c as [t|]; [exact Rest|apply bl_ret].
Qed.
Lemma bl_update : forall m c, blameless (update m c).
Proof.
  intros m c. apply bl_bind; [apply bl_send|]. intros sent. apply bl_bind; [apply bl_receive|]. intros x. destruct sent as [r|]; [|apply bl_ret].
  apply bl_bind; [apply bl_get|]. intros s0. apply bl_bind; [apply bl_unwrap; discriminate|]. intros l.
  apply bl_bind; [apply bl_modify|]. intros _. apply bl_ret.
Qed.
Lemma bl_execute_move : forall c m p g, blameless (execute_move c m p g).
Proof.
  intros c m p g. apply bl_bind; [apply bl_request|]. intros id. apply bl_bind; [apply bl_response|]. intros r.
  apply bl_bind; [apply bl_as_result|]. intros _. apply bl_ret.
Qed.
Lemma bl_execute_stop : blameless execute_stop.
Proof.
  apply bl_bind; [apply bl_request|]. intros id. apply bl_bind; [apply bl_response|]. intros r.
  apply bl_bind; [apply bl_as_result|]. intros _. apply bl_ret.
Qed.
Lemma bl_modes_differ : blameless modes_differ.
Proof. apply bl_bind; [apply bl_get|]. intros s0. apply bl_bind; [apply bl_unwrap; discriminate|]. intros m. apply bl_ret. Qed.
Lemma bl_start_loop : forall fuel id, blameless (start_loop fuel id).
Proof.
  induction fuel as [|fuel IH]; intros id; [intros s; discriminate|]. cbn [start_loop]. apply bl_bind; [apply bl_modes_differ|].
  intros d. apply bl_if; [|apply bl_ret]. intros s. pose proof (bl_check _ c_move_response 13 id (fun r => handle_move (snd r)) s) as C.
  destruct (check_response _ _ _ _ s) as [[[|]|e|p| |] s']; cbn [fst] in *; try discriminate.
  - apply bl_bind; [apply bl_update|]. intros _. apply IH.
  - destruct e; discriminate.
  - intros E. apply C. injection E as ->. reflexivity.
Qed.
Lemma bl_start : forall c m p g, blameless (start_motion c m p g).
Proof.
  intros c m p g. apply bl_bind; [apply bl_running|]. intros b. apply bl_if; [apply bl_panic; discriminate|].
  apply bl_bind; [apply bl_modify|]. intros _. apply bl_bind; [apply bl_execute_move|]. intros id.
  apply bl_bind; [apply bl_get|]. intros s0. apply bl_bind; [apply bl_start_loop|]. intros _.
  apply bl_bind; [apply bl_flush_log|]. intros _. apply bl_ret.
Qed.
Lemma create_blameless : forall m st t log, create_control_exception m st t log <> Panic PCallback.
Proof.
  intros m st t log. unfold create_control_exception. destruct st; try discriminate. destruct (rev log) as [|[s1 c1] [|[s2 c2] r]]; try discriminate.
  destruct (_ <=? _); [|discriminate]. cbv zeta. destruct (1 <=? _); discriminate.
Qed.
Lemma bl_throw_control : forall A m st x, blameless (@throw_control A m st x).
Proof.
  intros A m st x. apply bl_bind; [apply bl_unwrap; discriminate|]. intros t. apply bl_bind; [apply bl_flush_log|]. intros log s.
  pose proof (create_blameless m st t log) as C. destruct (create_control_exception _ _ _ _); cbn [fst]; try discriminate.
  intros E. apply C. injection E as ->. reflexivity.
Qed.
Lemma bl_throw_on : forall x id, blameless (throw_on_motion_error x id).
Proof.
  intros x id. apply bl_bind; [apply bl_get|]. intros s0. apply bl_bind.
  - apply bl_if; [apply bl_ret|]. apply bl_bind; [apply bl_unwrap; discriminate|]. intros m. apply bl_if; [apply bl_ret|].
    apply bl_bind; [apply bl_unwrap; discriminate|]. intros c. apply bl_ret.
  - intros b. apply bl_if; [|apply bl_ret]. apply bl_bind; [apply bl_response|]. intros r.
    destruct (handle_move (snd r)) as [e|]; [|apply bl_panic; discriminate].
    destruct e; try (apply bl_panic; discriminate). apply bl_throw_control.
Qed.
Lemma bl_finish_loop : forall fuel m c l, blameless (finish_loop fuel m c l).
Proof.
  induction fuel as [|fuel IH]; intros m c l; [intros s; discriminate|]. cbn [finish_loop]. apply bl_bind; [apply bl_running|].
  intros b. apply bl_if; [|apply bl_ret]. apply bl_bind; [apply bl_update|]. intros x. apply IH.
Qed.
Lemma bl_finish : forall id m c, blameless (finish_motion id m c).
Proof.
  intros id m c. apply bl_bind; [apply bl_running|]. intros b. apply bl_if; [|apply bl_modify].
  destruct m as [m|]; [|apply bl_throw]. apply bl_bind; [apply bl_get|]. intros s0. apply bl_bind; [apply bl_finish_loop|].
  intros l. apply bl_bind; [apply bl_unwrap; discriminate|]. intros x. apply bl_bind; [apply bl_response|]. intros r.
  destruct (snd r); try apply bl_throw_control; cbn [handle_move]; try apply bl_modify; apply bl_throw_control.
Qed.
Lemma bl_cancel_loop : forall fuel, blameless (cancel_loop fuel).
Proof.
  induction fuel as [|fuel IH]; [intros s; discriminate|]. cbn [cancel_loop]. apply bl_bind; [apply bl_running|].
  intros b. apply bl_if; [|apply bl_ret]. intros s. pose proof (bl_receive s) as R.
  destruct (receive_robot_state s) as [[x|e|p| |] s']; cbn [fst] in *; try discriminate; [apply IH| |].
  - destruct (_ && _); [discriminate|apply IH].
  - intros E. apply R. injection E as ->. reflexivity.
Qed.
Lemma bl_cancel : forall id, blameless (cancel_motion id).
Proof.
  intros id s. unfold cancel_motion. pose proof (bl_execute_stop s) as X.
  destruct (execute_stop s) as [[i|e|p| |] s1]; cbn [fst] in *; try discriminate.
  2:{ intros E. apply X. injection E as ->. reflexivity. }
  pose proof (bl_receive s1) as R. destruct (receive_robot_state s1) as [r s2]. cbn [fst] in R.
  assert (C : blameless (cancel_loop (S (List.length (n_usched s2) + pending (n_udp s2) (n_usched s2))) ;;;
           check_response c_move_response 13 id (fun _ => None) ;;; reset_current)).
  { apply bl_bind; [apply bl_cancel_loop|]. intros _. apply bl_bind; [apply bl_check|]. intros _. apply bl_modify. }
  destruct r; try apply C; try discriminate. intros E. apply R. injection E as ->. reflexivity.
Qed.
Lemma bl_time : forall a b, blameless (time_step a b).
Proof. intros a b s. unfold time_step. destruct (b <=? a); discriminate. Qed.
Lemma bl_intern : blameless new_intern.
Proof.
  intros s. unfold new_intern, bind, get. destruct (r_rt s); [|discriminate]. cbn. destruct (k_realtime s); [destruct (k_priority s)|]; discriminate.
Qed.
