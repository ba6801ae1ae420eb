(** The callbacks of one control call: which states and time steps they get. *)
From Coq Require Import List NArith ZArith Bool Arith Lia String.
From Verif Require Import Bytes Codec WireModel WireSpec TcpModel UdpModel ErrorsModel LoggerModel
  RobotModel LoopModel RobotSpec RobotProofs RobotWp LoopProofs Effects RobotMore RobotCalls Outputs ReplaySpec ReplayProofs.
Import ListNotations.
Open Scope list_scope.
Open Scope N_scope.

(** Calls of a callback, oldest first: the first time step is zero, each later one is the positive
    difference of the message ids. *)
Fixpoint spaced_from (before : N) (l : list (robot_state_intern * N)) : Prop :=
  match l with
  | [] => True
  | (x, dt) :: r => 1 <= dt /\ rs_message_id x = before + dt /\ spaced_from (rs_message_id x) r
  end.
Definition spaced (l : list (robot_state_intern * N)) : Prop :=
  match l with
  | [] => True
  | (x, dt) :: r => dt = 0 /\ spaced_from (rs_message_id x) r
  end.
Definition torque_calls (t : list event) : list (robot_state_intern * N) :=
  flat_map (fun e => match e with EvTorque x dt => [(x, dt)] | _ => [] end) t.

Definition newest_id (l : list (robot_state_intern * N)) (d : N) : N := match rev l with [] => d | (x, _) :: _ => rs_message_id x end.
Lemma newest_id_cons : forall p l d, newest_id (p :: l) d = newest_id l (rs_message_id (fst p)).
Proof.
  intros [x dx] l d. unfold newest_id. cbn [rev fst]. destruct (rev l) as [|[y dy] r] eqn:E; [reflexivity|]. cbn [app]. reflexivity.
Qed.
Lemma spaced_from_app : forall l b x dt, spaced_from b l -> 1 <= dt -> rs_message_id x = newest_id l b + dt ->
  spaced_from b (l ++ [(x, dt)]).
Proof.
  induction l as [|[y dy] l IH]; intros b x dt S P E.
  - cbn. auto.
  - cbn [app spaced_from] in *. destruct S as (S1 & S2 & S3). split; [exact S1|]. split; [exact S2|].
    apply IH; [exact S3|exact P|]. rewrite newest_id_cons in E. exact E.
Qed.
Lemma spaced_app : forall l x dt, spaced l ->
  match rev l with [] => dt = 0 | (y, _) :: _ => 1 <= dt /\ rs_message_id x = rs_message_id y + dt end -> spaced (l ++ [(x, dt)]).
Proof.
  intros [|[y dy] l] x dt S E.
  - cbn in *. auto.
  - cbn [app spaced] in *. destruct S as [S1 S2]. split; [exact S1|].
    assert (H : 1 <= dt /\ rs_message_id x = newest_id l (rs_message_id y) + dt).
    { pose proof (newest_id_cons (y, dy) l 0) as N0. cbn [fst] in N0. rewrite <- N0. unfold newest_id.
      destruct (rev ((y, dy) :: l)) as [|[z dz] r] eqn:Er; [|exact E].
      apply (f_equal (@rev _)) in Er. rewrite rev_involutive in Er. discriminate. }
    apply spaced_from_app; [exact S2|apply H|apply H].
Qed.
Lemma lawful_spaced : forall t, lawful t -> spaced (rev (motion_calls (this_motion t))).
Proof.
  induction t as [|e t IH]; intros H; [exact Logic.I|]. pose proof H as [O L]. specialize (IH L).
  destruct e as [i r|i m|a c|x|x|x d|m f|x d|q f|]; try exact IH.
  - destruct r; try exact IH; exact Logic.I.
  - destruct O as (_ & _ & t' & -> & Hd & _). cbn [this_motion motion_calls flat_map app] in *.
    change (flat_map _ (this_motion t')) with (motion_calls (this_motion t')) in *.
    rewrite newest_calls in Hd. cbn [rev]. apply spaced_app; [exact IH|]. rewrite rev_involutive.
    destruct (motion_calls (this_motion t')) as [|[y dy] r] eqn:E; [exact Hd|].
    assert (Hy : rs_message_id y < rs_message_id x).
    { pose proof (shown_below t' x L) as B. rewrite Forall_forall in B. apply B.
      apply shown_incl, newest_motion_call_in. rewrite newest_calls, E. reflexivity. }
    lia.
Qed.

(** Events which start no motion. *)
Definition no_move (e : event) : Prop := match e with EvRequest _ (ReqMove _ _ _ _) => False | _ => True end.
Lemma this_motion_app : forall d t, Forall no_move d -> this_motion (d ++ t) = d ++ this_motion t.
Proof.
  induction d as [|e d IH]; intros t F; [reflexivity|]. inversion F; subst. cbn [app]. specialize (IH t H2).
  destruct e as [id r| | | | | | | | |]; cbn [this_motion]; try (rewrite IH; reflexivity).
  destruct r; try contradiction; rewrite IH; reflexivity.
Qed.
Lemma motion_calls_app : forall a b, motion_calls (a ++ b) = motion_calls a ++ motion_calls b.
Proof. intros. apply flat_map_app. Qed.
Lemma torque_calls_app : forall a b, torque_calls (a ++ b) = torque_calls a ++ torque_calls b.
Proof. intros. apply flat_map_app. Qed.
Lemma quiet_calls : forall d, Forall no_callback d -> motion_calls d = [] /\ torque_calls d = [].
Proof.
  induction d as [|e d IH]; intros F; [auto|]. inversion F; subst. destruct e; try contradiction; apply IH; assumption.
Qed.

Lemma run_loop_no_move : forall k id cb, adds no_move (run_loop k id cb).
Proof.
  intros k id cb s. unfold run_loop. pose proof (adds_do_loop no_move) as D.
  repeat (specialize (D ltac:(intros; exact Logic.I))). specialize (D k id cb s).
  destruct (do_loop k id cb s) as [[u|e|p| |] s1]; try exact D. cbn [snd] in D.
  eapply grew_trans; [exact D|]. destruct (cancel_requests id s1) as (d & T & F). unfold bind.
  assert (G : grew no_move s1 (snd (cancel_motion id s1))).
  { exists (d ++ [EvRequest (n_id s1) ReqStopMove]). rewrite T, <- app_assoc. split; [reflexivity|].
    apply Forall_app. split; [|repeat constructor]. eapply Forall_impl; [|exact F]. intros []; cbn; auto; contradiction. }
  destruct (cancel_motion id s1) as [[u|e'|p| |] s2]; exact G.
Qed.
Lemma intern_quiet : adds no_callback new_intern.
Proof.
  intros s1. unfold new_intern, bind, get. destruct (r_rt s1); [|apply grew_refl].
  apply (grew_one _ _ _ EvKernel); [|exact Logic.I]. cbn. destruct (k_realtime s1); [destruct (k_priority s1)|]; reflexivity.
Qed.
Lemma control_I : forall k cb s, I s -> lawful (trace (snd (control k cb s))).
Proof.
  intros k cb s H. pose proof (wp_control k cb s H) as W. unfold wp in W.
  destruct (control k cb s) as [[u|e|p| |] s']; cbn [snd].
  - destruct W as [(_ & L & _) _]. exact L.
  - destruct W as (_ & L & _). exact L.
  - apply W.
  - apply W.
  - contradiction.
Qed.
(** The motion callbacks called in a control call are those of its own motion. *)
Lemma control_own_calls : forall k cb s, I s -> exists d, trace (snd (control k cb s)) = d ++ trace s /\
  (motion_calls d = [] /\ torque_calls d = [] \/ motion_calls (this_motion (trace (snd (control k cb s)))) = motion_calls d).
Proof.
  intros k cb s HI. unfold control. unfold bind at 1 3.
  pose proof (wp_new_intern s HI) as W. unfold wp in W. destruct (intern_quiet s) as (d0 & T0 & Q0).
  destruct (new_intern s) as [[u|e|p| |] s0]; cbn [snd] in *;
    try (exists d0; split; [exact T0|]; left; apply quiet_calls; exact Q0).
  unfold bind at 1 2.
  pose proof (wp_start_motion (wanted_ctrl k) (k_mode k) default_deviation default_deviation s0 W) as Ws. unfold wp in Ws.
  destruct (start_quiet (wanted_ctrl k) (k_mode k) default_deviation default_deviation s0) as (d1 & T1 & Q1).
  destruct (start_motion _ _ _ _ s0) as [[id|e|p| |] s1]; cbn [snd] in *.
  - destruct Ws as (_ & _ & St & _). destruct St as (_ & _ & _ & _ & _ & St).
    destruct (run_loop_no_move k id cb s1) as (d2 & T2 & Q2). exists (d2 ++ d1 ++ d0).
    split; [rewrite T2, T1, T0, <- !app_assoc; reflexivity|]. right.
    rewrite T2, this_motion_app by exact Q2. rewrite motion_calls_app, (motion_calls_app d2 (d1 ++ d0)), (motion_calls_app d1).
    destruct (quiet_calls d1 Q1) as [-> _]. destruct (quiet_calls d0 Q0) as [-> _].
    rewrite newest_calls in St. destruct (motion_calls (this_motion (trace s1))) as [|[]]; [reflexivity|discriminate].
  - exists (d1 ++ d0). rewrite T1, T0, app_assoc. split; [reflexivity|]. left. apply quiet_calls. apply Forall_app. auto.
  - exists (d1 ++ d0). rewrite T1, T0, app_assoc. split; [reflexivity|]. left. apply quiet_calls. apply Forall_app. auto.
  - exists (d1 ++ d0). rewrite T1, T0, app_assoc. split; [reflexivity|]. left. apply quiet_calls. apply Forall_app. auto.
  - contradiction.
Qed.
Lemma control_spaced : forall k cb s r s', I s -> control k cb s = (r, s') -> exists d, trace s' = d ++ trace s /\ spaced (rev (motion_calls d)).
Proof.
  intros k cb s r s' HI E. pose proof (control_I k cb s HI) as L. destruct (control_own_calls k cb s HI) as (d & T & C).
  rewrite E in *. cbn [snd] in *. exists d. split; [exact T|]. destruct C as [[C _]|C]; [rewrite C; exact Logic.I|].
  rewrite <- C. apply lawful_spaced. exact L.
Qed.

(** * Motions which only give torques: both callbacks get the same calls *)
Section Paired.
  Variable k : controller.
  Hypothesis has_torque : k_torque k <> None.
  Hypothesis endless : forall cb x dt cb' out, k_motion k cb x dt = Some (cb', out) -> k_finished k out = false.
  Variable t0 : list event.
  Definition level (s : st) : Prop := exists d, trace s = d ++ t0 /\ torque_calls d = motion_calls d.
  Definition paired {A} (r : outcome A * st) : Prop := exists d, trace (snd r) = d ++ t0 /\
    (torque_calls d = motion_calls d \/
     fst r = Panic PCallback /\ exists x dt d', d = EvMotion x dt :: d' /\ torque_calls d' = motion_calls d').
  Lemma level_paired : forall A (r : outcome A) s, level s -> paired (r, s).
  Proof. intros A r s (d & T & E). exists d. auto. Qed.
  Lemma level_quiet : forall A (f : M A) s, adds no_callback f -> level s -> level (snd (f s)).
  Proof.
    intros A f s H (d & T & R). destruct (H s) as (d' & T' & F). exists (d' ++ d). rewrite T', T, app_assoc.
    split; [reflexivity|]. rewrite torque_calls_app, motion_calls_app. destruct (quiet_calls _ F) as [-> ->]. exact R.
  Qed.
  Lemma paired_quiet : forall A B (f : M A) (g : A -> M B) s, adds no_callback f -> level s ->
    (forall a s', level s' -> paired (g a s')) -> paired (bind f g s).
  Proof.
    intros A B f g s H R G. pose proof (level_quiet _ _ _ H R) as R1. unfold bind.
    destruct (f s) as [[a|e|p| |] s']; cbn [snd] in R1; try (apply level_paired; exact R1). apply G. exact R1.
  Qed.
  Lemma paired_end : forall A (f : M A) s, adds no_callback f -> level s -> paired (f s).
  Proof.
    intros A f s H R. pose proof (level_quiet _ _ _ H R) as R1. destruct (f s) as [r s']. apply level_paired. exact R1.
  Qed.
  Ltac quiet := intros; exact Logic.I.
  (** One call of the motion callback is ahead. *)
  Definition ahead (x : robot_state_intern) (dt : N) (s : st) : Prop := exists d, trace s = d ++ t0 /\ motion_calls d = (x, dt) :: torque_calls d.
  Lemma paired_motion : forall B (g : _ -> M B) cb x dt m s, level s ->
    (forall cb' m' s', ahead x dt s' -> paired (g (cb', m', true) s')) -> paired (bind (spin_motion k cb x dt m) g s).
  Proof.
    intros B g cb x dt m s (d & T & R) G. unfold spin_motion, bind, emit.
    assert (Half : forall s', trace s' = EvMotion x dt :: trace s -> paired (@Panic B PCallback, s')).
    { intros s' E. exists (EvMotion x dt :: d). cbn [snd fst]. rewrite E, T. split; [reflexivity|]. right. split; [reflexivity|]. eauto. }
    destruct (k_motion k cb x dt) as [[cb' out]|] eqn:Em; cbn [unwrap ret panic_with snd fst]; [|apply Half; reflexivity].
    destruct (k_convert k out x m) as [m'|] eqn:Ec; cbn [unwrap ret panic_with snd fst]; [|apply Half; reflexivity].
    rewrite (endless _ _ _ _ _ Em). cbn [negb modify]. apply G.
    exists (EvMotionOut (keep_finished m m') false :: EvMotion x dt :: d). cbn. rewrite T. split; [reflexivity|].
    f_equal. symmetry. exact R.
  Qed.
  Lemma paired_torque : forall B (g : _ -> M B) torque cb x dt s, ahead x dt s ->
    (forall cb' q go s', level s' -> paired (g (cb', q, go) s')) -> paired (bind (spin_control k torque cb x dt) g s).
  Proof.
    intros B g torque cb x dt s (d & T & R) G. unfold spin_control, bind, emit.
    assert (Here : forall s', trace s' = EvTorque x dt :: trace s -> paired (@Panic B PCallback, s')).
    { intros s' E. apply level_paired. exists (EvTorque x dt :: d). rewrite E, T. split; [reflexivity|]. symmetry. exact R. }
    destruct (torque cb x dt) as [[cb' [q f]]|] eqn:Em; cbn [unwrap ret panic_with snd fst]; [|apply Here; reflexivity].
    destruct (k_filter k q x) as [q'|] eqn:Ec; cbn [unwrap ret panic_with snd fst]; [|apply Here; reflexivity].
    apply G. exists (EvTorqueOut q' f :: EvTorque x dt :: d). cbn. rewrite T. split; [reflexivity|]. symmetry. exact R.
  Qed.
  Lemma paired_loop : forall id fuel cb x p m c s, level s -> paired (motion_loop k fuel id cb x p m c s).
  Proof.
    intros id. induction fuel as [|fuel IH]; intros cb x p m c s R; [apply level_paired; exact R|]. cbn [motion_loop].
    assert (Rest : forall cb m c go s, level s -> paired ((if go : bool then
          x' <- update (Some m) c ;; throw_on_motion_error x' id ;;; motion_loop k fuel id cb x' (rs_message_id x) m c
        else finish_motion id (Some m) c) s)).
    { clear s R. intros cb1 m1 c1 go s R. destruct go.
      - eapply paired_quiet; [apply adds_update; quiet|exact R|]. intros x' s' R'.
        eapply paired_quiet; [apply adds_throw_on; quiet|exact R'|]. intros [] s'' R''. apply IH. exact R''.
      - eapply paired_end; [apply adds_finish; quiet|exact R]. }
    unfold time_step at 1. destruct (p <=? rs_message_id x) eqn:Ep; [|apply level_paired; exact R].
    unfold bind at 1. unfold ret at 1. set (dt := rs_message_id x - p).
    apply paired_motion; [exact R|]. intros cb' m' s1 R1. cbn beta iota zeta.
    pose proof paired_torque as PT. destruct (k_torque k) as [torque|]; [|contradiction has_torque; reflexivity].
    rewrite bind_assoc. unfold time_step. rewrite Ep. unfold bind at 1. unfold ret at 1.
    rewrite bind_assoc. apply PT; [exact R1|]. intros cb2 q go s2 R2. exact (Rest cb2 m' (Some q) go s2 R2).
  Qed.
  Lemma paired_do_loop : forall id cb s, level s -> paired (do_loop k id cb s).
  Proof.
    intros id cb s R. unfold do_loop.
    eapply paired_quiet; [apply adds_update; quiet|exact R|]. intros x s1 R1.
    eapply paired_quiet; [apply adds_throw_on; quiet|exact R1|]. intros [] s2 R2.
    eapply paired_quiet; [apply adds_get|exact R2|]. intros s' s3 R3. apply paired_loop. exact R3.
  Qed.
End Paired.
Lemma paired_control : forall k cb s, k_torque k <> None ->
  (forall cb x dt cb' out, k_motion k cb x dt = Some (cb', out) -> k_finished k out = false) ->
  paired (trace s) (control k cb s).
Proof.
  intros k cb s HT HE. unfold control.
  assert (Z : level (trace s) s) by (exists []; split; reflexivity).
  eapply paired_quiet; [apply intern_quiet|exact Z|].
  intros [] s1 Z1. eapply paired_quiet; [apply start_quiet|exact Z1|]. intros id s2 Z2.
  unfold run_loop. pose proof (paired_do_loop _ HT HE _ id cb s2 Z2) as D.
  destruct (do_loop k id cb s2) as [[u|e|p| |] s3] eqn:E; try exact D.
  destruct D as (d & T & [D|[X _]]); [|discriminate]. cbn [snd] in T.
  eapply paired_quiet; [apply cancel_quiet|exists d; split; [exact T|exact D]|]. intros [] s4 R4. apply level_paired. exact R4.
Qed.

(** * The states of a control call have the shape of the protocol *)
Definition proper (e : event) : Prop := match e with EvState x => state_ok x | _ => True end.
Ltac proper := intros; (exact Logic.I || assumption).
Lemma cancel_proper : forall id, adds proper (cancel_motion id).
Proof.
  intros id s. unfold cancel_motion, execute_stop.
  assert (Q : adds proper (id <- send_request ReqStopMove ;; r <- blocking_response c_stop_response id ;;
    as_result (handle_stop (snd r)) ;;; ret id)).
  { apply adds_bind.
    - intros s0. apply (grew_one proper _ _ (EvRequest (n_id s0) ReqStopMove)); [reflexivity|exact Logic.I].
    - intros a. apply adds_bind; [apply adds_response; proper|]. intros r.
      apply adds_bind; [apply adds_as_result|]. intros _. apply adds_ret. }
  specialize (Q s). change (execute_stop s) with ((id <- send_request ReqStopMove ;; r <- blocking_response c_stop_response id ;;
    as_result (handle_stop (snd r)) ;;; ret id) s).
  destruct (bind _ _ s) as [[i|e|p| |] s1]; cbn [snd] in Q; try exact Q.
  pose proof (adds_receive proper (fun x H => H) s1) as R.
  destruct (receive_robot_state s1) as [r s2]; cbn [snd] in R.
  assert (C : adds proper (cancel_loop (S (List.length (n_usched s2) + pending (n_udp s2) (n_usched s2))) ;;;
           check_response c_move_response 13 id (fun _ => None) ;;; reset_current)).
  { apply adds_bind; [apply adds_cancel_loop; proper|]. intros _.
    apply adds_bind; [apply adds_check; proper|]. intros _. apply adds_modify. reflexivity. }
  specialize (C s2). pose proof (grew_trans _ _ _ _ Q R) as QR. destruct r; try exact QR; eapply grew_trans; eassumption.
Qed.
Lemma start_proper : forall c g d1 d2, adds proper (start_motion c g d1 d2).
Proof.
  intros c g d1 d2. unfold start_motion. apply adds_bind; [apply adds_running|]. intros [|]; [intros s; apply grew_refl|].
  apply adds_bind; [apply adds_modify; reflexivity|]. intros _.
  apply adds_bind.
  { unfold execute_move. apply adds_bind.
    - intros s0. apply (grew_one proper _ _ (EvRequest (n_id s0) (ReqMove c g d1 d2))); [reflexivity|exact Logic.I].
    - intros a. apply adds_bind; [apply adds_response; proper|]. intros r.
      apply adds_bind; [apply adds_as_result|]. intros _. apply adds_ret. }
  intros id. apply adds_bind; [apply adds_get|]. intros s0.
  apply adds_bind; [apply adds_start_loop; proper|]. intros _.
  apply adds_bind; [apply adds_flush_log|]. intros _. apply adds_ret.
Qed.
Lemma control_proper : forall k cb, adds proper (control k cb).
Proof.
  intros k cb. unfold control. apply adds_bind.
  { intros s1. unfold new_intern, bind, get. destruct (r_rt s1); [|apply grew_refl].
    apply (grew_one _ _ _ EvKernel); [|exact Logic.I]. cbn. destruct (k_realtime s1); [destruct (k_priority s1)|]; reflexivity. }
  intros _. apply adds_bind; [apply start_proper|]. intros id s. unfold run_loop.
  pose proof (adds_do_loop proper ltac:(proper) ltac:(proper) ltac:(proper) ltac:(proper) ltac:(proper) ltac:(proper) ltac:(proper) k id cb s) as D.
  destruct (do_loop k id cb s) as [[u|e|p| |] s1]; try exact D. cbn [snd] in D.
  eapply grew_trans; [exact D|]. apply (adds_bind proper _ _ _ _ (cancel_proper id) (fun _ => adds_throw proper _ _)).
Qed.
(** The state of every motion callback was received in the same control call. *)
Lemma lawful_app : forall a b, lawful (a ++ b) -> lawful b.
Proof. induction a as [|e a IH]; intros b H; [exact H|]. apply IH, H. Qed.

(** The events of a control call: a quiet part up to the move request, then a part without requests to move. *)
Definition parted (d : list event) : Prop := exists a b, d = a ++ b /\ Forall no_move a /\ Forall no_callback b.
Lemma parted_tail : forall e d, parted (e :: d) -> parted d.
Proof.
  intros e d (a & b & E & A & B). destruct a as [|e' a].
  - cbn in E. subst b. inversion B; subst. exists [], d. split; [reflexivity|]. split; [constructor|assumption].
  - cbn in E. injection E as -> ->. inversion A; subst. exists a, b. auto.
Qed.
Lemma parted_final : forall d t e, parted d -> In e d -> ~ no_callback e -> In e (this_motion (d ++ t)).
Proof.
  intros d t e (a & b & -> & A & B) I N. rewrite <- app_assoc, this_motion_app by exact A. apply in_or_app. left.
  apply in_app_or in I. destruct I as [I|I]; [exact I|]. rewrite Forall_forall in B. contradiction (N (B _ I)).
Qed.
Lemma control_parted : forall k cb s, exists d, trace (snd (control k cb s)) = d ++ trace s /\ parted d.
Proof.
  intros k cb s. unfold control. unfold bind at 1. destruct (intern_quiet s) as (d0 & T0 & Q0).
  assert (E : forall d, Forall no_callback d -> parted d) by (intros d F; exists [], d; auto).
  destruct (new_intern s) as [[u|e|p| |] s0]; cbn [snd] in *; try (exists d0; split; [exact T0|apply E; exact Q0]).
  unfold bind at 1. destruct (start_quiet (wanted_ctrl k) (k_mode k) default_deviation default_deviation s0) as (d1 & T1 & Q1).
  assert (Q : Forall no_callback (d1 ++ d0)) by (apply Forall_app; auto).
  destruct (start_motion _ _ _ _ s0) as [[id|e|p| |] s1]; cbn [snd] in *;
    try (exists (d1 ++ d0); split; [rewrite T1, T0, app_assoc; reflexivity|apply E; exact Q]).
  destruct (run_loop_no_move k id cb s1) as (d2 & T2 & Q2). exists (d2 ++ d1 ++ d0).
  split; [rewrite T2, T1, T0, <- !app_assoc; reflexivity|]. exists d2, (d1 ++ d0). auto.
Qed.

(** Every state accepted by a handle is well formed. *)
Lemma reachable_states : forall s, reachable s -> forall x, In (EvState x) (trace s) -> state_ok x.
Proof.
  set (ok := outs_ok (fun _ _ _ => True) (fun _ _ => True)).
  assert (K : forall k cb, keeps (fun _ _ _ => True) (fun _ _ => True) (control k cb)).
  { intros k cb. apply (keeps_control _ _ k (fun _ => True)); auto. }
  assert (A : forall a, keeps (fun _ _ _ => True) (fun _ _ => True) (run_api a)).
  { intros a. apply keeps_api. destruct a; cbn [keeping]; auto. }
  intros s R. assert (G : ok (trace s)).
  { induction R as [n rt us ts se rk pr port u s E|s a u s' R IH E|s a e s' R IH E].
    - pose proof (keeps_new (fun _ _ _ => True) (fun _ _ => True) port (st_init n rt us ts se rk pr) Logic.I) as G. rewrite E in G. exact G.
    - pose proof (A a s IH) as G. rewrite E in G. exact G.
    - pose proof (A a s IH) as G. rewrite E in G. exact G. }
  intros x. apply outs_state with (1 := G).
Qed.
