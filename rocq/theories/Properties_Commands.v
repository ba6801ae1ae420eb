(** C28, C30 and C62 at the level of the commands sent, in IEEE-754 double arithmetic. *)
From Coq Require Import List NArith ZArith Bool Lia Lra Arith Reals String.
From Flocq Require Import Core IEEE754.BinarySingleNaN IEEE754.Binary IEEE754.Bits.
From Verif Require Import Bytes Codec NumOps NumFloat FloatFacts RateModel RateSpec ConvertModel WireModel WireSpec UdpModel
  RobotModel LoopModel RobotSpec Outputs TypedModel TypedSpec ConvertFacts TypedProofs RobotScenario Properties_Robot Properties_Rate
  Properties_Rate64 Properties_Convert.
Import ListNotations.
Open Scope list_scope.
Open Scope N_scope.

(** The numbers which bit patterns stand for. *)
Definition number (b : N) : R := val (of_bits b).
Definition numbers (l : list N) : list R := map number l.
(** A finite number of at most 1024 in magnitude. *)
Definition angle (b : N) : Prop := finite_bits b /\ (Rabs (number b) <= 1024)%R.
(** Documented limits of the elbow (rad/s, rad/s^2). *)
Definition robot_elbow_velocity : R := 2175/1000.
Definition robot_elbow_acceleration : R := 10.

Lemma vals_of_bits : forall l, vals (map of_bits l) = numbers l.
Proof. intros l. unfold vals, numbers. rewrite map_map. reflexivity. Qed.
Lemma numbers_bits : forall l, numbers (map bits l) = vals l.
Proof. intros l. unfold vals, numbers. rewrite map_map. apply map_ext. intros x. unfold number. rewrite of_bits_bits. reflexivity. Qed.
Lemma finite_of_bits : forall l, Forall finite_bits l -> finite64 (map of_bits l).
Proof. intros l H. apply Forall_map. eapply Forall_impl; [|exact H]. intros b. apply finite_bits_fin. Qed.
Lemma near_of_bits : forall l, Forall angle l -> near (map of_bits l).
Proof. intros l H. apply Forall_map. eapply Forall_impl; [|exact H]. intros b [B1 B2]. split; [apply finite_bits_fin; exact B1|exact B2]. Qed.

(** What a limited conversion gives. *)
Definition velocity_kept (x : robot_state_intern) (q : list N) : Prop :=
  Forall finite_bits (rs_dq_d x) -> bounded robot_velocity (numbers (rs_dq_d x)) ->
  bounded robot_velocity (numbers q) /\ bounded robot_acceleration (rate (numbers (rs_dq_d x)) (numbers q)).
Definition position_kept (x : robot_state_intern) (q : list N) : Prop :=
  Forall angle (rs_q_d x) -> Forall finite_bits (rs_dq_d x) -> bounded robot_velocity (numbers (rs_dq_d x)) ->
  bounded robot_velocity (rate (numbers (rs_q_d x)) (numbers q)) /\
  bounded robot_acceleration (rate (numbers (rs_dq_d x)) (rate (numbers (rs_q_d x)) (numbers q))).
Definition elbow_kept (x : robot_state_intern) (m : motion_command) : Prop :=
  mc_valid_elbow m = true -> forall p v, hd_error (rs_elbow_c x) = Some p -> hd_error (rs_delbow_c x) = Some v ->
  angle p -> finite_bits v -> (Rabs (number v) <= robot_elbow_velocity)%R ->
  exists e s, mc_elbow_c m = [e; s] /\ (Rabs ((number e - number p) / cycle) <= robot_elbow_velocity)%R /\
    (Rabs (((number e - number p) / cycle - number v) / cycle) <= robot_elbow_acceleration)%R.

Lemma velocities_limited : forall c q x r, List.length q = 7%nat -> state_ok x ->
  convert_joint_velocities float c true q (reported_of x) = Some r -> velocity_kept x (map bits r).
Proof.
  intros c q x r L W C F B. apply then_some in C. destruct C as (y & Fl & C). apply then_some in C. destruct C as (z & G & C).
  apply finite_some in C. destruct C as [-> _]. cbn [limited reported_of p_dq_d p_ddq_d] in G. cbn [reported_of p_dq_d] in Fl.
  state_lengths W. apply filtered_length in Fl; [|rewrite map_length; congruence]. rewrite L in Fl.
  destruct (C28_joint_velocity_float (map of_bits (rs_dq_d x)) [(y, map of_bits (rs_ddq_d x))]) as (ys & E & _ & S).
  - apply finite_of_bits, F.
  - rewrite vals_of_bits. exact B.
  - constructor; [|constructor]. cbn [fst snd]. split; [exact Fl|]. split; [rewrite map_length; exact W3|].
    unfold limit_rate_joint_velocities in G. destruct (all_finite float y) eqn:Fy; [|discriminate G]. apply finite64_iff, Fy.
  - cbn [velocities64] in E. rewrite G in E. injection E as <-. cbn [steps] in S. destruct S as [[S1 S2] _].
    rewrite numbers_bits. rewrite vals_of_bits in S2. auto.
Qed.
Lemma positions_limited : forall c q x r, List.length q = 7%nat -> state_ok x ->
  convert_joint_positions float c true q (reported_of x) = Some r -> position_kept x (map bits r).
Proof.
  intros c q x r L W C A F B. apply then_some in C. destruct C as (y & Fl & C). apply then_some in C. destruct C as (z & G & C).
  apply finite_some in C. destruct C as [-> _]. cbn [limited reported_of p_q_d p_dq_d p_ddq_d] in G. cbn [reported_of p_q_d] in Fl.
  state_lengths W. apply filtered_length in Fl; [|rewrite map_length; congruence]. rewrite L in Fl.
  apply C30_joint_position_float in G; [|exact Fl|rewrite map_length; exact W1|rewrite map_length; exact W3|apply near_of_bits, A|
    apply finite_of_bits, F|rewrite vals_of_bits; exact B].
  rewrite !vals_of_bits in G. rewrite numbers_bits. destruct G as (_ & G1 & G2). auto.
Qed.
(** rate_limiting.rs 136-155 for the elbow *)
Lemma elbow_limited : forall c e x f l, convert_elbow float c true e (reported_of x) = Some (f, l) ->
  forall m, mc_valid_elbow m = f -> mc_elbow_c m = map bits l -> elbow_kept x m.
Proof.
  intros c e x f l C m Ef El V p v Hp Hv [Ap1 Ap2] Fv Bv. rewrite <- Ef, V in C. clear f Ef. destruct e as [[e0 e1]|]; [|cbn [convert_elbow] in C; discriminate C].
  cbn [convert_elbow] in C. apply then_some in C. destruct C as (y & _ & C). apply then_some in C. destruct C as (z & G & C).
  destruct (check_elbow float z e1); [|discriminate C]. injection C as <-. rewrite El. exists (bits z), (bits e1). split; [reflexivity|].
  cbn [reported_of p_elbow_c p_delbow_c p_ddelbow_c] in G.
  destruct (rs_elbow_c x) as [|p' ps]; [discriminate Hp|]. destruct (rs_delbow_c x) as [|v' vs]; [discriminate Hv|].
  cbn [hd_error hd] in *. injection Hp as ->. injection Hv as ->.
  destruct (position_step _ _ _ _ _ _ _ _ _ _ elbow_limits (finite_bits_fin _ Ap1) Ap2 (finite_bits_fin _ Fv) Bv G) as (_ & G1 & G2).
  unfold number. rewrite of_bits_bits. split; assumption.
Qed.

Definition kept (g : move_mg) (x : robot_state_intern) (m : motion_command) : Prop :=
  match g with
  | MmJointPosition => position_kept x (mc_q_c m)
  | MmJointVelocity => velocity_kept x (mc_dq_c m)
  | MmCartesianPosition | MmCartesianVelocity => elbow_kept x m
  end.
Lemma convert_kept : forall rots u k x dt k' o m m', limiting u -> u_motion u k x dt = Some (k', o) -> state_ok x ->
  convert_motion rots (u_generator u) (cutoff_of u) (limit_of u) o x m = Some m' -> kept (u_generator u) x m'.
Proof.
  intros rots u k x dt k' o m m' U E W H. rewrite (limiting_on u U) in H. destruct U as [[T _] _].
  apply T in E. destruct E as [[L _] _]. unfold convert_motion in H. destruct (u_generator u); cbn [kept dimension] in *.
  - destruct (convert_joint_positions float _ _ _ _) as [r|] eqn:C; [|discriminate]. injection H as <-. cbn [mc_q_c].
    eapply positions_limited; [|exact W|exact C]. rewrite map_length. exact L.
  - destruct (convert_joint_velocities float _ _ _ _) as [r|] eqn:C; [|discriminate]. injection H as <-. cbn [mc_dq_c].
    eapply velocities_limited; [|exact W|exact C]. rewrite map_length. exact L.
  - destruct (convert_pose float _ _ _ _ _ _ _ _) as [r|] eqn:C; [|discriminate].
    destruct (convert_elbow float _ _ _ _) as [[f e]|] eqn:D; [|discriminate]. injection H as <-.
    eapply elbow_limited; [exact D|reflexivity|reflexivity].
  - destruct (convert_twist float _ _ _ _) as [r|] eqn:C; [|discriminate].
    destruct (convert_elbow float _ _ _ _) as [[f e]|] eqn:D; [|discriminate]. injection H as <-.
    eapply elbow_limited; [exact D|reflexivity|reflexivity].
Qed.
Lemma command_kept : forall t1 a c t2 x g, typed_history limiting (t1 ++ EvCommand a c :: t2) -> completed t2 = false ->
  last_state t2 = Some x -> motion_mode t2 = Some g -> kept g x (rc_motion c).
Proof.
  intros t1 a c t2 x g H C Lx Mx. pose proof (typed_is_history _ _ H) as Hh.
  assert (O : outs_ok kept (fun _ _ => True) (t1 ++ EvCommand a c :: t2)).
  { apply (typed_outs limiting kept (fun _ _ => True) (fun _ _ => True)); auto.
    intros rots u k y dt k' o m m' U E _ W Co. split; [|exact Logic.I]. exact (convert_kept _ _ _ _ _ _ _ _ _ U E W Co). }
  destruct (command_fresh _ _ _ _ _ _ Hh O C) as (y & m & g' & Ly & K & Mo & ->).
  rewrite Lx in Ly. injection Ly as <-. rewrite Mx in Mo. injection Mo as <-. destruct g; exact K.
Qed.

(** C28: joint velocities sent are within the limits of the robot, and so is the acceleration with respect
    to the velocities reported in the state answered. *)
Theorem C28_commands : forall t1 a c t2 x, typed_history limiting (t1 ++ EvCommand a c :: t2) -> completed t2 = false ->
  motion_mode t2 = Some MmJointVelocity -> last_state t2 = Some x ->
  Forall finite_bits (rs_dq_d x) -> bounded robot_velocity (numbers (rs_dq_d x)) ->
  bounded robot_velocity (numbers (mc_dq_c (rc_motion c))) /\
  bounded robot_acceleration (rate (numbers (rs_dq_d x)) (numbers (mc_dq_c (rc_motion c)))).
Proof. intros t1 a c t2 x H C M L. exact (command_kept _ _ _ _ _ _ H C L M). Qed.
Print Assumptions C28_commands.
(** C30: joint positions sent keep velocity and acceleration within the limits of the robot. *)
Theorem C30_commands : forall t1 a c t2 x, typed_history limiting (t1 ++ EvCommand a c :: t2) -> completed t2 = false ->
  motion_mode t2 = Some MmJointPosition -> last_state t2 = Some x ->
  Forall angle (rs_q_d x) -> Forall finite_bits (rs_dq_d x) -> bounded robot_velocity (numbers (rs_dq_d x)) ->
  bounded robot_velocity (rate (numbers (rs_q_d x)) (numbers (mc_q_c (rc_motion c)))) /\
  bounded robot_acceleration (rate (numbers (rs_dq_d x)) (rate (numbers (rs_q_d x)) (numbers (mc_q_c (rc_motion c))))).
Proof. intros t1 a c t2 x H C M L. exact (command_kept _ _ _ _ _ _ H C L M). Qed.
Print Assumptions C30_commands.
(** C62: the elbow of Cartesian motions. *)
Theorem C62_elbow_commands : forall t1 a c t2 x p v, typed_history limiting (t1 ++ EvCommand a c :: t2) -> completed t2 = false ->
  motion_mode t2 = Some MmCartesianPosition \/ motion_mode t2 = Some MmCartesianVelocity -> last_state t2 = Some x ->
  mc_valid_elbow (rc_motion c) = true -> hd_error (rs_elbow_c x) = Some p -> hd_error (rs_delbow_c x) = Some v ->
  angle p -> finite_bits v -> (Rabs (number v) <= robot_elbow_velocity)%R ->
  exists e s, mc_elbow_c (rc_motion c) = [e; s] /\ (Rabs ((number e - number p) / cycle) <= robot_elbow_velocity)%R /\
    (Rabs (((number e - number p) / cycle - number v) / cycle) <= robot_elbow_acceleration)%R.
Proof.
  intros t1 a c t2 x p v H C [M|M] L V Hp Hv A F B; exact (command_kept _ _ _ _ _ _ H C L M V p v Hp Hv A F B).
Qed.
Print Assumptions C62_elbow_commands.

(** * Examples *)
Lemma command_in : forall t n (P : robot_command -> list event -> Prop),
  match first_with (answers n) t with Some (EvCommand _ c :: t2) => P c t2 | _ => False end ->
  exists t1 a c t2, t = t1 ++ EvCommand a c :: t2 /\ P c t2.
Proof.
  intros t n P H. pose proof (first_with_split _ (answers n) t) as S. destruct (first_with (answers n) t) as [[|e t2]|]; try contradiction.
  destruct e as [| | | | | | | |a c|]; try contradiction. destruct (S _ _ eq_refl) as [t1 E]. exists t1, a, c, t2. auto.
Qed.
(** A velocity motion which asks for 1000 rad/s at once, defaults for limiter and filter. *)
Definition ex_fast : user_control :=
  UserControl N MmJointVelocity (fun k _ _ => Some (k + 1, MotionOut (repeat (bits (f_int float 1000)) 7) None (k =? 2))) None None None None.
Definition ex_env_velocity : st :=
  let r id := ex_rs id MgJointVelocity CmJointImpedance RmMove in
  st_init 10 RtIgnore (ex_first (ex_idle 1) ++ ex_states [r 2; r 4; r 5; r 8; r 9; ex_idle 10])
    [ex_connected 0; ex_move 1 MsMotionStarted; None; ex_move 1 MsSuccess] [] true true.
Definition ex_fast_run : list event := trace (program 1337 [AControl (controller_of ex_rots ex_fast) 0] ex_env_velocity).
Lemma zeros_velocity : Forall finite_bits (repeat 0 7) /\ bounded robot_velocity (numbers (repeat 0 7)).
Proof. split; [apply zeros_finite|]. rewrite <- vals_of_bits. apply zeros_within. Qed.
Lemma ex_fast_typed : typed_history limiting ex_fast_run.
Proof.
  unfold typed_history, history, ex_fast_run, ex_env_velocity. exists 1337, [AControl (controller_of ex_rots ex_fast) 0]. do 7 eexists. split.
  - apply Forall_cons; [|apply Forall_nil]. exists ex_rots, ex_fast. split; [reflexivity|]. split; [|discriminate]. split; [|discriminate].
    intros k x dt k' o [= <- <-]. split; [|discriminate]. split; [reflexivity|]. repeat constructor.
  - reflexivity.
Qed.
(** What is sent: 0.007499999 rad/s for joint 1. *)
Example C28_ex_commands : typed_history limiting ex_fast_run /\
  exists t1 a c t2, ex_fast_run = t1 ++ EvCommand a c :: t2 /\ completed t2 = false /\ motion_mode t2 = Some MmJointVelocity /\
    (exists x, last_state t2 = Some x /\ Forall finite_bits (rs_dq_d x) /\ bounded robot_velocity (numbers (rs_dq_d x))) /\
    hd 0 (mc_dq_c (rc_motion c)) = 4575296932285312792.
Proof.
  split; [exact ex_fast_typed|].
  destruct (command_in ex_fast_run 5 (fun c t2 => completed t2 = false /\ motion_mode t2 = Some MmJointVelocity /\
    last_state t2 = Some (ex_rs 5 MgJointVelocity CmJointImpedance RmMove) /\ hd 0 (mc_dq_c (rc_motion c)) = 4575296932285312792))
    as (t1 & a & c & t2 & E & C & M & L & V).
  { vm_compute. auto. }
  exists t1, a, c, t2. split; [exact E|]. split; [exact C|]. split; [exact M|]. split; [|exact V]. eexists. split; [exact L|]. exact zeros_velocity.
Qed.
Example C30_ex_commands : limiting ex_joints /\
  exists t1 a c t2, ex_typed = t1 ++ EvCommand a c :: t2 /\ completed t2 = false /\ motion_mode t2 = Some MmJointPosition /\
    exists x, last_state t2 = Some x /\ Forall angle (rs_q_d x) /\ Forall finite_bits (rs_dq_d x) /\ bounded robot_velocity (numbers (rs_dq_d x)).
Proof.
  split; [apply C27_ex2|].
  destruct (command_in ex_typed 5 (fun c t2 => completed t2 = false /\ motion_mode t2 = Some MmJointPosition /\ last_state t2 = Some (ex_run 5)))
    as (t1 & a & c & t2 & E & C & M & L).
  { vm_compute. auto. }
  exists t1, a, c, t2. split; [exact E|]. split; [exact C|]. split; [exact M|]. exists (ex_run 5). split; [exact L|].
  split; [|exact zeros_velocity]. assert (Z : angle 0).
  { split; [split; vm_compute; [reflexivity|discriminate]|]. change (number 0) with 0%R. rewrite Rabs_R0. lra. }
  repeat (apply Forall_cons; [exact Z|]). apply Forall_nil.
Qed.
(** Cartesian velocities with an elbow that is asked to jump to 1 rad: 0.000004999999 rad are sent. *)
Definition ex_elbow : user_control :=
  UserControl N MmCartesianVelocity (fun k _ _ => Some (k + 1, MotionOut (repeat 0 6) (Some (one_bits, minus_one_bits)) (k =? 2))) None None None None.
Definition ex_elbow_run : list event := trace (program 1337 [AControl (controller_of ex_rots ex_elbow) 0] ex_env_twist).
Lemma ex_elbow_typed : typed_history limiting ex_elbow_run.
Proof.
  unfold typed_history, history, ex_elbow_run, ex_env_twist. exists 1337, [AControl (controller_of ex_rots ex_elbow) 0]. do 7 eexists. split.
  - apply Forall_cons; [|apply Forall_nil]. exists ex_rots, ex_elbow. split; [reflexivity|]. split; [|discriminate]. split; [|discriminate].
    intros k x dt k' o [= <- <-]. split; [split; [reflexivity|repeat constructor]|]. intros e0 e1 [= <- <-]. split; reflexivity.
  - reflexivity.
Qed.
Example C62_ex : typed_history limiting ex_elbow_run /\
  exists t1 a c t2, ex_elbow_run = t1 ++ EvCommand a c :: t2 /\ completed t2 = false /\ motion_mode t2 = Some MmCartesianVelocity /\
    mc_valid_elbow (rc_motion c) = true /\ mc_elbow_c (rc_motion c) = [4527516982802973420; minus_one_bits] /\
    exists x, last_state t2 = Some x /\ hd_error (rs_elbow_c x) = Some 0 /\ hd_error (rs_delbow_c x) = Some 0.
Proof.
  split; [exact ex_elbow_typed|].
  destruct (command_in ex_elbow_run 5 (fun c t2 => completed t2 = false /\ motion_mode t2 = Some MmCartesianVelocity /\
    mc_valid_elbow (rc_motion c) = true /\ mc_elbow_c (rc_motion c) = [4527516982802973420; minus_one_bits] /\ last_state t2 = Some (ex_run_twist 5)))
    as (t1 & a & c & t2 & E & C & M & V & W & L).
  { vm_compute. repeat split. }
  exists t1, a, c, t2. repeat (split; [assumption|]). exists (ex_run_twist 5). split; [exact L|]. split; reflexivity.
Qed.
