From Coq Require Import List NArith ZArith Bool Arith Lia String.
From Verif Require Import Bytes Codec WireModel WireSpec TcpModel UdpModel ErrorsModel LoggerModel
  RobotModel LoopModel RobotSpec Decoded Effects RobotCalls Outputs NoBlame ReplaySpec.
Import ListNotations.
Open Scope list_scope.
Open Scope N_scope.

Section Replay.
  Variable k : controller.
  Variable cb0 : k_cb k.
  Variable t0 : list event.
  Notation replays := (replays k cb0).
  Definition at_ (cb : k_cb k) (m : motion_command) (s : st) : Prop := exists d, trace s = d ++ t0 /\ replays d cb m.
  Definition told {A} (r : outcome A * st) : Prop := exists d, trace (snd r) = d ++ t0 /\
    ((fst r <> Panic PCallback /\ exists cb m, replays d cb m) \/ (fst r = Panic PCallback /\ (motion_panics k cb0 d \/ torque_panics k cb0 d))).
  Lemma replays_app : forall d d' cb m, Forall no_callback d -> replays d' cb m -> replays (d ++ d') cb m.
  Proof.
    induction d as [|e d IH]; intros d' cb m F H; [exact H|]. inversion F; subst. cbn [app]. apply replays_other; auto.
  Qed.
  Lemma at_quiet : forall A (f : M A) cb m s, adds no_callback f -> at_ cb m s -> at_ cb m (snd (f s)).
  Proof.
    intros A f cb m s H (d & T & R). destruct (H s) as (d' & T' & F). exists (d' ++ d). rewrite T', T, app_assoc.
    split; [reflexivity|]. apply replays_app; assumption.
  Qed.
  Lemma at_told : forall A (r : outcome A) cb m s, r <> Panic PCallback -> at_ cb m s -> told (r, s).
  Proof. intros A r cb m s Q (d & T & R). exists d. split; [exact T|]. left. eauto. Qed.
  (** A step which keeps the callbacks as they are. *)
  Lemma told_quiet : forall A B (f : M A) (g : A -> M B) cb m s, adds no_callback f -> blameless f -> at_ cb m s ->
    (forall a s', at_ cb m s' -> told (g a s')) -> told (bind f g s).
  Proof.
    intros A B f g cb m s H Q R G. pose proof (at_quiet _ _ _ _ _ H R) as R1. specialize (Q s). unfold bind.
    destruct (f s) as [[a|e|p| |] s']; cbn [fst snd] in *; try (eapply at_told; [|exact R1]; congruence). apply G. exact R1.
  Qed.
  Lemma told_end : forall A (f : M A) cb m s, adds no_callback f -> blameless f -> at_ cb m s -> told (f s).
  Proof.
    intros A f cb m s H Q R. pose proof (at_quiet _ _ _ _ _ H R) as R1. specialize (Q s). destruct (f s) as [r s'].
    eapply at_told; [exact Q|exact R1].
  Qed.
  Ltac quiet := intros; exact Logic.I.
  Lemma told_motion : forall B (g : _ -> M B) cb x dt m s, at_ cb m s ->
    (forall cb' m' go s', at_ cb' m' s' -> told (g (cb', m', go) s')) -> told (bind (spin_motion k cb x dt m) g s).
  Proof.
    intros B g cb x dt m s (d & T & R) G. unfold spin_motion, bind, emit.
    destruct (k_motion k cb x dt) as [[cb' out]|] eqn:Em; cbn [unwrap ret panic_with snd fst].
    - destruct (k_convert k out x m) as [m'|] eqn:Ec; cbn [unwrap ret panic_with snd fst].
      + apply G. exists (EvMotionOut (keep_finished m m') (k_finished k out) :: EvMotion x dt :: d).
        cbn. rewrite T. split; [reflexivity|]. econstructor; eassumption.
      + exists (EvMotion x dt :: d). cbn. rewrite T. split; [reflexivity|]. right. split; [reflexivity|]. left.
        exists d, cb, m, x, dt. repeat (split; [reflexivity || assumption|]). intros cb2 o2 E. congruence.
    - exists (EvMotion x dt :: d). cbn. rewrite T. split; [reflexivity|]. right. split; [reflexivity|]. left.
      exists d, cb, m, x, dt. repeat (split; [reflexivity || assumption|]). intros cb2 o2 E. congruence.
  Qed.
  Lemma told_torque : forall B (g : _ -> M B) torque cb x dt m s, k_torque k = Some torque -> at_ cb m s ->
    (forall cb' q go s', at_ cb' m s' -> told (g (cb', q, go) s')) -> told (bind (spin_control k torque cb x dt) g s).
  Proof.
    intros B g torque cb x dt m s Et (d & T & R) G. unfold spin_control, bind, emit.
    destruct (torque cb x dt) as [[cb' [q f]]|] eqn:Em; cbn [unwrap ret panic_with snd fst].
    - destruct (k_filter k q x) as [q'|] eqn:Ec; cbn [unwrap ret panic_with snd fst].
      + apply G. exists (EvTorqueOut q' f :: EvTorque x dt :: d).
        cbn. rewrite T. split; [reflexivity|]. econstructor; eassumption.
      + exists (EvTorque x dt :: d). cbn. rewrite T. split; [reflexivity|]. right. split; [reflexivity|]. right.
        exists torque, d, cb, m, x, dt. repeat (split; [reflexivity || assumption|]). intros cb2 q2 f2 E. congruence.
    - exists (EvTorque x dt :: d). cbn. rewrite T. split; [reflexivity|]. right. split; [reflexivity|]. right.
      exists torque, d, cb, m, x, dt. repeat (split; [reflexivity || assumption|]). intros cb2 q2 f2 E. congruence.
  Qed.
  Lemma time_quiet : forall a b, adds no_callback (time_step a b).
  Proof. intros a b s. unfold time_step. destruct (b <=? a); apply grew_refl. Qed.
  Lemma bind_assoc : forall A B C (a : M A) (b : A -> M B) (c : B -> M C) s, bind (bind a b) c s = bind a (fun x => bind (b x) c) s.
  Proof. intros. unfold bind. destruct (a s) as [[]]; reflexivity. Qed.
  Lemma told_loop : forall id fuel cb x p m c s, at_ cb m s -> told (motion_loop k fuel id cb x p m c s).
  Proof.
    intros id. induction fuel as [|fuel IH]; intros cb x p m c s R; [eapply at_told; [discriminate|exact R]|]. cbn [motion_loop].
    assert (Rest : forall cb m c go s, at_ cb m s -> told ((if go : bool then
          x' <- update (Some m) c ;; throw_on_motion_error x' id ;;; motion_loop k fuel id cb x' (rs_message_id x) m c
        else finish_motion id (Some m) c) s)).
    { clear s R. intros cb1 m1 c1 go s R. destruct go.
      - eapply told_quiet; [apply adds_update; quiet|apply bl_update|exact R|]. intros x' s' R'.
        eapply told_quiet; [apply adds_throw_on; quiet|apply bl_throw_on|exact R'|]. intros [] s'' R''. apply IH. exact R''.
      - eapply told_end; [apply adds_finish; quiet|apply bl_finish|exact R]. }
    eapply told_quiet; [apply time_quiet|apply bl_time|exact R|]. intros dt s1 R1.
    eapply told_motion; [exact R1|]. intros cb' m' go s2 R2.
    pose proof told_torque as TT.
    destruct (k_torque k) as [torque|]; [|exact (Rest cb' m' None go s2 R2)].
    destruct go; [|exact (Rest cb' m' c false s2 R2)].
    rewrite bind_assoc. eapply told_quiet; [apply time_quiet|apply bl_time|exact R2|]. intros dt' s3 R3.
    rewrite bind_assoc. eapply TT; [reflexivity|exact R3|]. intros cb2 q go s4 R4.
    exact (Rest cb2 m' (Some q) go s4 R4).
  Qed.
  Lemma told_do_loop : forall id cb s, at_ cb zero_motion s -> told (do_loop k id cb s).
  Proof.
    intros id cb s R. unfold do_loop.
    eapply told_quiet; [apply adds_update; quiet|apply bl_update|exact R|]. intros x s1 R1.
    eapply told_quiet; [apply adds_throw_on; quiet|apply bl_throw_on|exact R1|]. intros [] s2 R2.
    eapply told_quiet; [apply adds_get|apply bl_get|exact R2|]. intros s' s3 R3. apply told_loop. exact R3.
  Qed.
End Replay.

Lemma cancel_quiet : forall id, adds no_callback (cancel_motion id).
Proof.
  intros id s. destruct (cancel_loop_states id s) as (d & T & F). exists d. split; [exact T|].
  (* states, requests and replies only *)
  assert (Q : grew no_callback s (snd (cancel_motion id s))).
  2:{ destruct Q as (d' & T' & F'). rewrite T in T'. apply app_inv_tail in T'. subst. exact F'. }
  clear d T F. unfold cancel_motion, execute_stop.
  assert (Q : adds no_callback (id <- send_request ReqStopMove ;; r <- blocking_response c_stop_response id ;;
    as_result (handle_stop (snd r)) ;;; ret id)).
  { apply adds_bind.
    - intros s0. apply (grew_one no_callback _ _ (EvRequest (n_id s0) ReqStopMove)); [reflexivity|exact Logic.I].
    - intros a. apply adds_bind; [apply adds_response; intros; exact Logic.I|]. intros r.
      apply adds_bind; [apply adds_as_result|]. intros _. apply adds_ret. }
  specialize (Q s). change (execute_stop s) with ((id <- send_request ReqStopMove ;; r <- blocking_response c_stop_response id ;;
    as_result (handle_stop (snd r)) ;;; ret id) s).
  destruct (bind _ _ s) as [[i|e|p| |] s1]; cbn [snd] in Q; try exact Q.
  pose proof (adds_receive no_callback (fun x H => Logic.I) s1) as R.
  destruct (receive_robot_state s1) as [r s2]; cbn [snd] in R.
  assert (C : adds no_callback (cancel_loop (S (List.length (n_usched s2) + pending (n_udp s2) (n_usched s2))) ;;;
           check_response c_move_response 13 id (fun _ => None) ;;; reset_current)).
  { apply adds_bind; [apply adds_cancel_loop; intros; exact Logic.I|]. intros _.
    apply adds_bind; [apply adds_check; intros; exact Logic.I|]. intros _. apply adds_modify. reflexivity. }
  specialize (C s2). pose proof (grew_trans _ _ _ _ Q R) as QR. destruct r; try exact QR; eapply grew_trans; eassumption.
Qed.
Lemma start_quiet : forall c g d1 d2, adds no_callback (start_motion c g d1 d2).
Proof.
  intros c g d1 d2. unfold start_motion. apply adds_bind; [apply adds_running|]. intros [|]; [intros s; apply grew_refl|].
  apply adds_bind; [apply adds_modify; reflexivity|]. intros _.
  apply adds_bind.
  { unfold execute_move. apply adds_bind.
    - intros s0. apply (grew_one no_callback _ _ (EvRequest (n_id s0) (ReqMove c g d1 d2))); [reflexivity|exact Logic.I].
    - intros a. apply adds_bind; [apply adds_response; intros; exact Logic.I|]. intros r.
      apply adds_bind; [apply adds_as_result|]. intros _. apply adds_ret. }
  intros id. apply adds_bind; [apply adds_get|]. intros s0.
  apply adds_bind; [apply adds_start_loop; intros; exact Logic.I|]. intros _.
  apply adds_bind; [apply adds_flush_log|]. intros _. apply adds_ret.
Qed.
Lemma told_control : forall k cb s, told k cb (trace s) (control k cb s).
Proof.
  intros k cb s. unfold control.
  assert (Z : at_ k cb (trace s) cb zero_motion s) by (exists []; split; [reflexivity|constructor]).
  eapply told_quiet; [|exact bl_intern|exact Z|].
  { intros s1. unfold new_intern, bind, get. destruct (r_rt s1); [|apply grew_refl].
    apply (grew_one _ _ _ EvKernel); [|exact Logic.I]. cbn. destruct (k_realtime s1); [destruct (k_priority s1)|]; reflexivity. }
  intros [] s1 Z1. eapply told_quiet; [apply start_quiet|apply bl_start|exact Z1|]. intros id s2 Z2.
  unfold run_loop. pose proof (told_do_loop _ _ _ id cb s2 Z2) as D.
  destruct (do_loop k id cb s2) as [[u|e|p| |] s3] eqn:E; try exact D.
  destruct D as (d & T & [(_ & cb' & m & R)|[X _]]); [|discriminate]. cbn [snd] in T.
  eapply told_quiet; [apply cancel_quiet|apply bl_cancel|exists d; split; [exact T|exact R]|]. intros [] s4 R4. eapply at_told; [discriminate|exact R4].
Qed.
