(** C57: torque control runs until the torque callback is done; C63: options of control calls. *)
From Coq Require Import List NArith ZArith Bool Arith Lia Reals Lra.
From Flocq Require Import Core.Core IEEE754.BinarySingleNaN IEEE754.Binary IEEE754.Bits.
From Verif Require Import PiBounds Bytes Codec NumOps NumFloat FloatFacts RateModel ConvertModel WireModel WireSpec UdpModel RobotModel LoopModel
  RobotSpec RobotProofs RobotWp LoopProofs Effects RobotMore RobotCalls Outputs TypedModel TypedSpec TypedProofs
  RobotScenario ReplaySpec ReplayProofs Properties_Robot Properties_Convert Properties_Commands Properties_Replay.
Import ListNotations.
Open Scope list_scope.
Open Scope N_scope.

(** * C57 *)
(** No output of a motion callback ends the motion. *)
Definition no_end (e : event) : Prop := match e with EvMotionOut _ f => f = false | _ => True end.
Lemma replays_no_end : forall rots u k d k' m, torque_only u -> replays (controller_of rots u) k d k' m -> Forall no_end d.
Proof.
  intros rots u k d k' m (K & torque & limit & cutoff & ->) H.
  induction H as [|e d cb m Q H IH|d cb m x dt cb' out m' H IH E C|torque' d cb m x dt cb' q fin q' H IH T E F].
  - constructor.
  - constructor; [|exact IH]. destruct e; cbn in Q |- *; tauto.
  - cbn in E. injection E as <- <-. constructor; [reflexivity|]. constructor; [exact Logic.I|exact IH].
  - constructor; [exact Logic.I|]. constructor; [exact Logic.I|exact IH].
Qed.
Lemma control_no_end : forall rots u k, torque_only u -> adds no_end (control (controller_of rots u) k).
Proof.
  intros rots u k T s. destruct (control (controller_of rots u) k s) as [r s'] eqn:E.
  destruct (C56_threaded _ _ _ _ _ E) as (d & Et & H). exists d. split; [exact Et|].
  destruct H as [(cb' & m & R)|[_ [(d' & cb' & m & x & dt & -> & R & _)|(f & d' & cb' & m & x & dt & -> & R & _)]]];
    apply (replays_no_end _ _ _ _ _ _ T) in R; [exact R|constructor; [exact Logic.I|exact R]|constructor; [exact Logic.I|exact R]].
Qed.

Ltac quiet := intros; exact Logic.I.
Lemma adds_ask : forall A B r (c : codec A) (f : A -> M B), (forall a, adds no_end (f a)) ->
  adds no_end (id <- send_request r ;; x <- blocking_response c id ;; f x).
Proof.
  intros A B r c f H. apply adds_bind.
  - intros s0. apply (grew_one _ _ _ (EvRequest (n_id s0) r)); [reflexivity|exact Logic.I].
  - intros id. apply adds_bind; [apply adds_response; quiet|exact H].
Qed.
Lemma adds_setter : forall r, adds no_end (setter r).
Proof. intros r. unfold setter. apply adds_ask. intros a. apply adds_as_result. Qed.
Lemma adds_read : forall K (cb : K -> robot_state_intern -> option (K * bool)) fuel k, adds no_end (read_loop fuel cb k).
Proof.
  intros K cb. induction fuel as [|fuel IH]; intros k; cbn [read_loop]; [intros s; apply grew_refl|].
  apply adds_bind; [apply adds_update_none; quiet|]. intros x.
  apply adds_bind; [apply adds_emit; quiet|]. intros _.
  apply adds_bind; [apply adds_unwrap|]. intros p. destruct (snd p); [apply IH|apply adds_ret].
Qed.
Lemma adds_new : forall port, adds no_end (robot_new port).
Proof.
  intros port. unfold robot_new. apply adds_bind.
  - unfold connect_robot. apply adds_ask. intros a. destruct (fst (snd a)); intros s; apply grew_same; reflexivity.
  - intros _ s. pose proof (adds_block no_end s) as (d & T & F).
    destruct (udp_block s) as [[x|e|p| |] s1]; try (exists d; split; assumption).
    exists (EvState x :: d). split; [cbn [snd] in T; cbn; rewrite T; reflexivity|constructor; [exact Logic.I|exact F]].
Qed.
Lemma adds_api : forall a, typed torque_only a -> adds no_end (run_api a).
Proof.
  intros [K cb k0| |k cb|r| | |w|] H; cbn [run_api].
  - apply adds_bind; [|intros a; apply adds_ret]. unfold robot_read.
    apply adds_bind; [apply adds_get|]. intros s. apply adds_read.
  - apply adds_bind; [apply adds_read_once; quiet|]. intros a. apply adds_ret.
  - destruct H as (rots & u & -> & T). apply control_no_end. exact T.
  - apply adds_setter.
  - unfold automatic_error_recovery. apply adds_ask. intros a. apply adds_as_result.
  - unfold user_stop. apply adds_ask. intros a. apply adds_as_result.
  - apply adds_bind; [|intros a; apply adds_ret]. unfold get_virtual_wall. apply adds_ask.
    intros a. apply adds_bind; [apply adds_as_result|]. intros _. apply adds_ret.
  - unfold set_default_behavior. apply adds_bind; [apply adds_setter|]. intros _.
    apply adds_bind; [apply adds_setter|]. intros _. apply adds_setter.
Qed.
Lemma history_no_end : forall t, typed_history torque_only t -> Forall no_end t.
Proof.
  intros t (port & calls & n & rt & us & ts & se & rk & pr & F & ->). unfold history, program.
  destruct (adds_new port (st_init n rt us ts se rk pr)) as (d & T & G). cbn [st_init trace] in T. rewrite app_nil_r in T. rewrite <- T in G.
  destruct (robot_new port (st_init n rt us ts se rk pr)) as [[u|e|p| |] s1]; cbn [snd] in G; try exact G.
  clear d T. revert s1 G. induction calls as [|a l IH]; intros s G; [exact G|]. inversion F as [|? ? Ha F']; subst. cbn [run_calls].
  destruct (adds_api a Ha s) as (d & T & Gd). assert (G1 : Forall no_end (trace (snd (run_api a s)))) by (rewrite T; apply Forall_app; auto).
  destruct (run_api a s) as [[u'|e|p| |] s2]; cbn [snd] in G1; auto.
Qed.
Lemma this_motion_in : forall t e, In e (this_motion t) -> In e t.
Proof.
  induction t as [|f t IH]; intros e I; [exact I|]. cbn [this_motion] in I.
  destruct f as [n r| | | | | | | | |]; [destruct r|..]; try contradiction I; (destruct I as [->|I]; [left; reflexivity|right; auto]).
Qed.
(** With torque control alone a command marked as the last one is only sent after the torque callback reported
    that it is done, in the same motion. *)
Theorem C57_until_finished : forall t1 a c t2, typed_history torque_only (t1 ++ EvCommand a c :: t2) ->
  mc_finished (rc_motion c) = true -> exists q, In (EvTorqueOut q true) (this_motion t2).
Proof.
  intros t1 a c t2 H M. pose proof (history_no_end _ H) as N. apply Forall_app in N. destruct N as [_ N].
  apply Forall_inv_tail in N. rewrite Forall_forall in N.
  rewrite (proj1 (C17_finished_flag _ _ _ _ _ (typed_is_history _ _ H) eq_refl)) in M. unfold completed in M. apply existsb_exists in M. destruct M as (e & I & Fe).
  assert (I' : In e t2) by (apply this_motion_in; exact I).
  destruct e; try discriminate Fe; cbn in Fe; subst.
  - specialize (N _ I'). discriminate N.
  - eexists. exact I.
Qed.
Print Assumptions C57_until_finished.
(** It is reached: the first of the commands above marked as the last. *)
Example C57_ex_until : let t := ex_torque_run (repeat 0 7) in typed_history torque_only t /\
  exists t1 a c t2, t = t1 ++ EvCommand a c :: t2 /\ mc_finished (rc_motion c) = true.
Proof.
  split; [apply ex_torque_ok|]. apply (command_in (ex_torque_run (repeat 0 7)) 8 (fun c t2 => mc_finished (rc_motion c) = true)). vm_compute. reflexivity.
Qed.

(** * C63 *)
(** The controller a control call is documented to use: external control with a torque callback, otherwise the
    one asked for, joint impedance by default. *)
Definition documented_controller (torque_callback : bool) (chosen : option impedance) : move_ctrl :=
  match torque_callback, chosen with
  | true, _ => McExternalController
  | false, Some CartesianImpedance => McCartesianImpedance
  | false, _ => McJointImpedance
  end.
Definition given {A} (o : option A) : bool := match o with Some _ => true | None => false end.
(** Allowed deviations from the path and the goal: 10 m, 3.12 rad and a full turn of the elbow, up to 1e-15 and
    1e-14. *)
Definition wide (d : deviation) : Prop :=
  (number (fst d) = 10 /\ Rabs (number (fst (snd d)) - 312/100) <= / 10 ^ 15 /\ Rabs (number (snd (snd d)) - 2 * PI) <= / 10 ^ 14)%R.
Definition asks (u : user_control) (r : robot_request) : Prop := exists d1 d2,
  r = ReqMove (documented_controller (given (u_torque u)) (u_impedance u)) (u_generator u) d1 d2 /\ wide d1 /\ wide d2.
Lemma default_wide : wide default_deviation.
Proof.
  pose proof pi_bounds as B. unfold wide, default_deviation, number. cbn [fst snd].
  destruct (val_finite (of_bits 0x4024000000000000) false 5629499534213120 (-49)) as [_ ->]; [vm_compute; reflexivity|].
  destruct (val_finite (of_bits 0x4008F5C28F5C28F6) false 7025615418697974 (-51)) as [_ ->]; [vm_compute; reflexivity|].
  destruct (val_finite (of_bits 0x401921FB54442D18) false 7074237752028440 (-50)) as [_ ->]; [vm_compute; reflexivity|].
  cbn [cond_Zopp]. change (bpow radix2 (-49)) with (/ 562949953421312)%R. change (bpow radix2 (-51)) with (/ 2251799813685248)%R.
  change (bpow radix2 (-50)) with (/ 1125899906842624)%R. split; [lra|]. split; apply Rabs_le; lra.
Qed.
(** Every control call sends one move request with the documented options and nothing else; only a failing call may
    send none, or a stop request after it. *)
Theorem C63_request : forall rots u k s r s', reachable s -> control (controller_of rots u) k s = (r, s') ->
  match r with
  | Ok _ => exists q, asks u q /\ requests (trace s') = q :: requests (trace s)
  | _ => requests (trace s') = requests (trace s) \/
      exists q, asks u q /\ (requests (trace s') = q :: requests (trace s) \/ requests (trace s') = ReqStopMove :: q :: requests (trace s))
  end.
Proof.
  intros rots u k s r s' R E. pose proof (control_requests (controller_of rots u) k s R) as C. rewrite E in C.
  set (q := ReqMove (wanted_ctrl (controller_of rots u)) (k_mode (controller_of rots u)) default_deviation default_deviation) in C.
  assert (A : asks u q).
  { exists default_deviation, default_deviation. split; [|split; exact default_wide]. unfold q, wanted_ctrl, documented_controller.
    cbn [controller_of k_torque k_impedance k_mode]. destruct (u_torque u); [reflexivity|]. destruct (u_impedance u) as [[]|]; reflexivity. }
  clearbody q. destruct r; [exists q; auto|..]; (destruct C as [C|[C|C]]; [left; exact C|right; exists q; auto|right; exists q; auto]).
Qed.
Print Assumptions C63_request.
(** A joint velocity motion without options uses joint impedance; with torques external control. *)
Example C63_ex : fst (control (controller_of ex_rots ex_fast) 0 (after_new ex_env_velocity)) = Ok tt /\
  requests (trace (snd (control (controller_of ex_rots ex_fast) 0 (after_new ex_env_velocity)))) =
    [ReqMove McJointImpedance MmJointVelocity default_deviation default_deviation; ReqConnect 1337] /\
  fst (control (controller_of ex_rots ex_torques) 0 (after_new (ex_env_torque (repeat 0 7)))) = Ok tt /\
  requests (trace (snd (control (controller_of ex_rots ex_torques) 0 (after_new (ex_env_torque (repeat 0 7)))))) =
    [ReqMove McExternalController MmJointVelocity default_deviation default_deviation; ReqConnect 1337].
Proof. repeat split; vm_compute; reflexivity. Qed.
