(** C27, C33-C36 at the level of the commands sent, and C51-C53. *)
From Coq Require Import List NArith ZArith Bool Lia Lra Arith Reals String.
From Flocq Require Import Core IEEE754.BinarySingleNaN IEEE754.Binary IEEE754.Bits.
From Verif Require Import Bytes Codec NumOps NumFloat FloatFacts RateModel RateSpec ConvertModel WireModel WireSpec UdpModel
  RobotModel LoopModel RobotSpec Outputs TypedModel TypedSpec ConvertFacts TypedProofs RobotScenario Properties_Robot Properties_Rate.
Import ListNotations.
Open Scope list_scope.
Open Scope N_scope.

Definition any (u : user_control) : Prop := True.

(** * What the conversions write *)
Definition good_motion (g : move_mg) (m : motion_command) : Prop :=
  Forall finite_bits (motion_numbers m) /\ elbow_valid m /\ unused_zero g m.
Lemma zeros_finite : forall n, Forall finite_bits (repeat 0 n).
Proof. intros n. apply Forall_forall. intros x H. apply repeat_spec in H. subst x. split; vm_compute; [reflexivity|discriminate]. Qed.
Lemma zero_motion_good : forall g, good_motion g zero_motion.
Proof.
  intros g. split; [|split].
  - unfold motion_numbers, zero_motion. cbn [mc_q_c mc_dq_c mc_O_T_EE_c mc_O_dP_EE_c mc_elbow_c]. rewrite <- !repeat_app. apply zeros_finite.
  - reflexivity.
  - unfold unused_zero. repeat split.
Qed.
Lemma motion_numbers_iff : forall m, Forall finite_bits (motion_numbers m) <->
  Forall finite_bits (mc_q_c m) /\ Forall finite_bits (mc_dq_c m) /\ Forall finite_bits (mc_O_T_EE_c m) /\
  Forall finite_bits (mc_O_dP_EE_c m) /\ Forall finite_bits (mc_elbow_c m).
Proof. intros m. unfold motion_numbers. rewrite !Forall_app. reflexivity. Qed.
Lemma positions_finite : forall c b q s r, convert_joint_positions float c b q s = Some r -> all_finite float r = true.
Proof. intros c b q s r H. apply then_some in H. destruct H as (y & _ & H). apply then_some in H. destruct H as (z & _ & H). apply finite_some in H. apply H. Qed.
Lemma velocities_finite : forall c b q s r, convert_joint_velocities float c b q s = Some r -> all_finite float r = true.
Proof. intros c b q s r H. apply then_some in H. destruct H as (y & _ & H). apply then_some in H. destruct H as (z & _ & H). apply finite_some in H. apply H. Qed.
Lemma twist_finite : forall c b q s r, convert_twist float c b q s = Some r -> all_finite float r = true.
Proof. intros c b q s r H. apply then_some in H. destruct H as (y & _ & H). apply then_some in H. destruct H as (z & _ & H). apply finite_some in H. apply H. Qed.
Lemma torques_finite : forall c b q s r, convert_torques float c b q s = Some r -> all_finite float r = true.
Proof. intros c b q s r H. apply then_some in H. destruct H as (y & _ & H). apply then_some in H. destruct H as (z & _ & H). apply finite_some in H. apply H. Qed.
Lemma pose_checked : forall sl rl re rk c b q s r, convert_pose float sl rl re rk c b q s = Some r -> check_matrix float r = true.
Proof.
  intros sl rl re rk c b q s r H. apply then_some in H. destruct H as (y & _ & H). apply then_some in H.
  destruct H as (z & _ & H). destruct (check_matrix float z) eqn:E; [|discriminate]. injection H as <-. exact E.
Qed.
Lemma elbow_good : forall c b e s f l, convert_elbow float c b e s = Some (f, l) ->
  Forall finite_bits (map bits l) /\
  (if f then exists angle sign, map bits l = [angle; sign] /\ (sign = one_bits \/ sign = minus_one_bits)
   else map bits l = [0; 0]).
Proof.
  intros c b e s f l H. apply elbow_shape in H. destruct e as [[e0 e1]|].
  - destruct H as (-> & z & -> & A & V). split; [apply all_finite_bits, A|]. exists (bits z), (bits e1).
    split; [reflexivity|]. apply unit_bits; [|exact V]. cbn in A. rewrite !andb_true_iff in A. apply A.
  - destruct H as [-> ->]. split; [|vm_compute; reflexivity]. change (Forall finite_bits (repeat 0 2)). apply zeros_finite.
Qed.
Lemma convert_good : forall rots g c b o x m m', good_motion g m -> convert_motion rots g c b o x m = Some m' ->
  good_motion g (keep_finished m m').
Proof.
  intros rots g c b o x m m' (F & E & U) H. apply motion_numbers_iff in F. destruct F as (F1 & F2 & F3 & F4 & F5).
  destruct U as (U1 & U2 & U3 & U4 & U5).
  unfold good_motion. rewrite motion_numbers_iff. unfold elbow_valid, unused_zero in *.
  unfold convert_motion in H. destruct g.
  - destruct (convert_joint_positions float _ _ _ _) as [r|] eqn:C; [|discriminate]. injection H as <-. cbn.
    apply positions_finite, all_finite_bits in C. repeat split; auto; try congruence; try (apply U5; auto).
  - destruct (convert_joint_velocities float _ _ _ _) as [r|] eqn:C; [|discriminate]. injection H as <-. cbn.
    apply velocities_finite, all_finite_bits in C. repeat split; auto; try congruence; try (apply U5; auto).
  - destruct (convert_pose float _ _ _ _ _ _ _ _) as [r|] eqn:C; [|discriminate].
    destruct (convert_elbow float _ _ _ _) as [[f e]|] eqn:D; [|discriminate]. injection H as <-. cbn.
    apply pose_checked in C. unfold check_matrix in C. apply andb_prop in C. destruct C as [C _]. apply all_finite_bits in C.
    apply elbow_good in D. destruct D as [D1 D2]. repeat split; auto; try congruence;
      match goal with H : _ = _ \/ _ = _ |- _ => destruct H; discriminate end.
  - destruct (convert_twist float _ _ _ _) as [r|] eqn:C; [|discriminate].
    destruct (convert_elbow float _ _ _ _) as [[f e]|] eqn:D; [|discriminate]. injection H as <-. cbn.
    apply twist_finite, all_finite_bits in C.
    apply elbow_good in D. destruct D as [D1 D2]. repeat split; auto; try congruence;
      match goal with H : _ = _ \/ _ = _ |- _ => destruct H; discriminate end.
Qed.
Lemma filter_finite : forall c b q x q', filter_torques c b q x = Some q' -> Forall finite_bits q'.
Proof.
  intros c b q x q' H. unfold filter_torques in H. destruct (convert_torques float _ _ _ _) as [r|] eqn:C; [|discriminate].
  injection H as <-. apply all_finite_bits. eapply torques_finite, C.
Qed.
Lemma good_outs : forall t, typed_history any t -> outs_ok (fun g _ m => good_motion g m) (fun _ q => Forall finite_bits q) t.
Proof.
  intros t. apply typed_outs with (Inv := fun u m => good_motion (u_generator u) m).
  - intros. apply zero_motion_good.
  - intros rots u k x dt k' o m m' _ _ G _ C. pose proof (convert_good _ _ _ _ _ _ _ _ G C). auto.
  - intros u f k x dt k' q fin q' _ _ _ _ H. eapply filter_finite, H.
Qed.
Lemma marked_numbers : forall f m, motion_numbers (marked f m) = motion_numbers m.
Proof. reflexivity. Qed.

(** C34: every number of every command sent is finite, whatever callbacks return. *)
Theorem C34_only_finite_numbers : forall t1 a c t2, typed_history any (t1 ++ EvCommand a c :: t2) ->
  Forall finite_bits (motion_numbers (rc_motion c) ++ rc_tau c).
Proof.
  intros t1 a c t2 H. pose proof (good_outs _ H) as O. pose proof (typed_is_history _ _ H) as Hh.
  apply Forall_app. split.
  - destruct (command_output _ _ _ _ _ _ Hh O) as (x & m & g & _ & (F & _) & _ & _ & ->). exact F.
  - destruct (command_torques _ _ _ _ _ _ Hh O) as [->|(x & _ & _ & F)]; [apply (zeros_finite 7)|exact F].
Qed.
Print Assumptions C34_only_finite_numbers.
(** C35: elbow flag and sign of every command sent. *)
Theorem C35_elbow_valid : forall t1 a c t2, typed_history any (t1 ++ EvCommand a c :: t2) ->
  elbow_valid (rc_motion c).
Proof.
  intros t1 a c t2 H. pose proof (good_outs _ H) as O. pose proof (typed_is_history _ _ H) as Hh.
  destruct (command_output _ _ _ _ _ _ Hh O) as (x & m & g & _ & (_ & E & _) & _ & _ & ->). exact E.
Qed.
Print Assumptions C35_elbow_valid.
(** C51: fields which the kind of motion does not use are zero. *)
Theorem C51_unused_fields_zero : forall t1 a c t2, typed_history any (t1 ++ EvCommand a c :: t2) ->
  exists g, motion_mode t2 = Some g /\ unused_zero g (rc_motion c).
Proof.
  intros t1 a c t2 H. pose proof (good_outs _ H) as O. pose proof (typed_is_history _ _ H) as Hh.
  destruct (command_output _ _ _ _ _ _ Hh O) as (x & m & g & _ & (_ & _ & E) & G & _ & ->). exists g. split; [exact G|exact E].
Qed.
Print Assumptions C51_unused_fields_zero.

(** Examples: joint positions with torques of 50 Nm, and Cartesian velocities with an elbow. *)
Definition fifty : N := bits (f_int float 50).
Definition ex_rots : rotations :=
  let r0 := (Vec float (f_int float 1) (f_int float 0) (f_int float 0), Vec float (f_int float 0) (f_int float 1) (f_int float 0),
             Vec float (f_int float 0) (f_int float 0) (f_int float 1)) in
  Rotations (fun _ _ _ => r0) (fun _ _ => Vec float (f_int float 0) (f_int float 0) (f_int float 0)) (fun _ _ => r0) (fun _ => r0).
Definition ex_joints : user_control :=
  UserControl N MmJointPosition (fun k _ _ => Some (k + 1, MotionOut (repeat (bits (f_lit float 1 1000)) 7) None (k =? 2)))
    (Some (fun k _ _ => Some (k, (repeat fifty 7, false)))) None None None.
Definition ex_typed_calls : list api := [AControl (controller_of ex_rots ex_joints) 0; AReadOnce].
Definition ex_typed : list event := trace (program 1337 ex_typed_calls ex_env_good).
Definition ex_twist : user_control :=
  UserControl N MmCartesianVelocity
    (fun k _ _ => Some (k + 1, MotionOut (repeat (bits (f_lit float 1 1000)) 6)
       (if k =? 0 then None else Some (0, minus_one_bits)) (k =? 2)))
    None None (Some false) None.
Definition ex_run_twist (id : N) := ex_rs id MgCartesianVelocity CmJointImpedance RmMove.
Definition ex_env_twist : st :=
  st_init 10 RtIgnore
    (ex_first (ex_idle 1) ++ ex_states [ex_run_twist 2; ex_run_twist 4; ex_run_twist 5; ex_run_twist 8; ex_run_twist 9; ex_idle 10])
    [ex_connected 0; ex_move 1 MsMotionStarted; None; ex_move 1 MsSuccess] [] true true.
Definition ex_typed_twist : list event := trace (program 1337 [AControl (controller_of ex_rots ex_twist) 0] ex_env_twist).
Lemma ex_typed_ok : typed_history any ex_typed.
Proof.
  unfold typed_history, history, ex_typed, ex_typed_calls, ex_env_good. exists 1337, ex_typed_calls. do 7 eexists. split.
  - repeat (apply Forall_cons || apply Forall_nil); try exact Logic.I. exists ex_rots, ex_joints. split; [reflexivity|exact Logic.I].
  - reflexivity.
Qed.
Lemma ex_typed_twist_ok : typed_history any ex_typed_twist.
Proof.
  unfold typed_history, history, ex_typed_twist, ex_env_twist. exists 1337, [AControl (controller_of ex_rots ex_twist) 0]. do 7 eexists. split.
  - repeat (apply Forall_cons || apply Forall_nil); try exact Logic.I. exists ex_rots, ex_twist. split; [reflexivity|exact Logic.I].
  - reflexivity.
Qed.
(** The commands of the first program (joint 1, torque 1, finished), newest first: the torques are
    filtered and limited to just below 1 Nm. *)
Example C34_ex :
  map (fun c => (hd 0 (mc_q_c (rc_motion c)), hd 0 (rc_tau c), mc_finished (rc_motion c))) (commands ex_typed) =
  [(4530468461854766949, 4607182409792818154, true); (4530468461854766949, 4607182409792818154, true);
   (4530468461854766949, 4607182409792818154, false); (4530468461854766949, 4607182409792818154, false)].
Proof. vm_compute. reflexivity. Qed.
(** NaN or infinity from a callback stops the program before anything is sent. *)
Definition ex_nan : user_control :=
  UserControl N MmJointPosition (fun k _ _ => Some (k + 1, MotionOut (repeat 0x7ff8000000000000 7) None false))
    None None None (Some (bits (f_int float 1000))).
Definition ex_env_joint : st :=
  let r id := ex_rs id MgJointPosition CmJointImpedance RmMove in
  st_init 10 RtIgnore (ex_first (ex_idle 1) ++ ex_states [r 2; r 4; r 5; r 8; r 9; ex_idle 10])
    [ex_connected 0; ex_move 1 MsMotionStarted; None; ex_move 1 MsSuccess] [] true true.
Example C34_ex2 : fst (control (controller_of ex_rots ex_nan) 0 (after_new ex_env_joint)) = Panic PCallback /\
  commands (trace (snd (control (controller_of ex_rots ex_nan) 0 (after_new ex_env_joint)))) = [].
Proof. vm_compute. auto. Qed.
Example C35_ex : map (fun c => (mc_elbow_c (rc_motion c), mc_valid_elbow (rc_motion c))) (commands ex_typed_twist) =
  [([0; minus_one_bits], true); ([0; minus_one_bits], true); ([0; minus_one_bits], true); ([0; 0], false)].
Proof. vm_compute. reflexivity. Qed.
Example C51_ex : map (fun c => (mc_q_c (rc_motion c), hd 0 (mc_O_dP_EE_c (rc_motion c)))) (commands ex_typed_twist) =
  repeat (repeat 0 7, 4555753660388407844) 4.
Proof. vm_compute. reflexivity. Qed.

(** C35: what an output with and without elbow becomes. *)
Theorem C35_elbow_follows_output : forall rots g c b o x m m',
  g = MmCartesianPosition \/ g = MmCartesianVelocity -> convert_motion rots g c b o x m = Some m' ->
  match o_elbow o with
  | None => mc_valid_elbow m' = false /\ mc_elbow_c m' = [0; 0]
  | Some (_, sign) => mc_valid_elbow m' = true /\
      (u64_ok sign -> nth 1 (mc_elbow_c m') 0 = sign)
  end.
Proof.
  intros rots g c b o x m m' G H.
  assert (K : exists f e, convert_elbow float (of_bits c) b
    (match o_elbow o with Some (a, b) => Some (of_bits a, of_bits b) | None => None end) (reported_of x) = Some (f, e) /\
    mc_valid_elbow m' = f /\ mc_elbow_c m' = map bits e).
  { unfold convert_motion in H. destruct G as [-> | ->].
    - destruct (convert_pose float _ _ _ _ _ _ _ _) as [r|]; [|discriminate].
      destruct (convert_elbow float _ _ _ _) as [[f e]|]; [|discriminate]. injection H as <-. exists f, e. auto.
    - destruct (convert_twist float _ _ _ _) as [r|]; [|discriminate].
      destruct (convert_elbow float _ _ _ _) as [[f e]|]; [|discriminate]. injection H as <-. exists f, e. auto. }
  destruct K as (f & e & K & -> & ->). apply elbow_shape in K. destruct (o_elbow o) as [[a s]|].
  - destruct K as (-> & z & -> & _). split; [reflexivity|]. intros W. cbn [map nth]. apply bits_of_bits. exact W.
  - destruct K as [-> ->]. split; [reflexivity|]. vm_compute. reflexivity.
Qed.
Print Assumptions C35_elbow_follows_output.

(** * C52: commands of well-typed programs can be encoded *)
Lemma bits_arr : forall l, Forall u64_ok (map bits l).
Proof. intros l. apply Forall_map, Forall_forall. intros x _. apply bits_range. Qed.
Lemma arr_bits : forall n l, List.length l = n -> arr_ok n (map bits l).
Proof. intros n l H. split; [rewrite map_length; exact H|apply bits_arr]. Qed.
Definition motion_shape (m : motion_command) : Prop :=
  arr_ok 7 (mc_q_c m) /\ arr_ok 7 (mc_dq_c m) /\ arr_ok 16 (mc_O_T_EE_c m) /\ arr_ok 6 (mc_O_dP_EE_c m) /\ arr_ok 2 (mc_elbow_c m).
Lemma arr_zero : forall n, arr_ok n (repeat 0 n).
Proof. intros n. split; [apply repeat_length|]. apply Forall_forall. intros x H. apply repeat_spec in H. subst x. reflexivity. Qed.
Lemma state_arrays : forall x, state_ok x ->
  List.length (rs_q_d x) = 7%nat /\ List.length (rs_dq_d x) = 7%nat /\ List.length (rs_ddq_d x) = 7%nat /\
  List.length (rs_tau_J_d x) = 7%nat /\ List.length (rs_O_dP_EE_c x) = 6%nat.
Proof.
  intros x (_ & _ & _ & _ & _ & _ & _ & _ & A7 & A6 & _). rewrite Forall_forall in A7, A6.
  repeat split; first [apply A7|apply A6]; cbn; tauto.
Qed.
Ltac state_lengths W := apply state_arrays in W; destruct W as (W1 & W2 & W3 & W4 & W5).
Lemma elbow_length : forall c b e s f l, convert_elbow float c b e s = Some (f, l) -> List.length l = 2%nat.
Proof.
  intros c b e s f l H. apply elbow_shape in H. destruct e as [[e0 e1]|].
  - destruct H as (_ & z & -> & _). reflexivity.
  - destruct H as [_ ->]. reflexivity.
Qed.
Lemma convert_shape : forall rots g c b o x m m', motion_shape m -> List.length (o_values o) = dimension g -> state_ok x ->
  convert_motion rots g c b o x m = Some m' -> motion_shape (keep_finished m m').
Proof.
  intros rots g c b o x m m' (S1 & S2 & S3 & S4 & S5) L W H. unfold motion_shape.
  unfold convert_motion in H. destruct g; cbn [dimension] in L.
  - destruct (convert_joint_positions float _ _ _ _) as [r|] eqn:C; [|discriminate]. injection H as <-. cbn.
    repeat split; try (apply S2 || apply S3 || apply S4 || apply S5); [|apply bits_arr].
    rewrite map_length. apply (joint_positions_length float _ _ _ _ _ C); [rewrite map_length; exact L|..];
      cbn; rewrite map_length; state_lengths W; assumption.
  - destruct (convert_joint_velocities float _ _ _ _) as [r|] eqn:C; [|discriminate]. injection H as <-. cbn.
    repeat split; try (apply S1 || apply S3 || apply S4 || apply S5); [|apply bits_arr].
    rewrite map_length. apply (joint_velocities_length float _ _ _ _ _ C); [rewrite map_length; exact L|..];
      cbn; rewrite map_length; state_lengths W; assumption.
  - destruct (convert_pose float _ _ _ _ _ _ _ _) as [r|] eqn:C; [|discriminate].
    destruct (convert_elbow float _ _ _ _) as [[f e]|] eqn:D; [|discriminate]. injection H as <-. cbn.
    apply elbow_length in D. apply pose_length in C; [|rewrite map_length; exact L].
    split; [exact S1|]. split; [exact S2|]. split; [apply arr_bits, C|]. split; [exact S4|apply arr_bits, D].
  - destruct (convert_twist float _ _ _ _) as [r|] eqn:C; [|discriminate].
    destruct (convert_elbow float _ _ _ _) as [[f e]|] eqn:D; [|discriminate]. injection H as <-. cbn.
    apply elbow_length in D. apply twist_length in C; [|rewrite map_length; exact L|cbn; rewrite map_length; state_lengths W; assumption].
    split; [exact S1|]. split; [exact S2|]. split; [exact S3|]. split; [apply arr_bits, C|apply arr_bits, D].
Qed.
Lemma filter_shape : forall c b q x q', List.length q = 7%nat -> state_ok x -> filter_torques c b q x = Some q' -> arr_ok 7 q'.
Proof.
  intros c b q x q' L W H. unfold filter_torques in H. destruct (convert_torques float _ _ _ _) as [r|] eqn:C; [|discriminate].
  injection H as <-. apply arr_bits. apply (torques_length float _ _ _ _ _ C); [rewrite map_length; exact L|].
  cbn. rewrite map_length. state_lengths W; assumption.
Qed.
Lemma shape_outs : forall t, typed_history well_typed t -> outs_ok (fun _ _ m => motion_shape m) (fun _ q => arr_ok 7 q) t.
Proof.
  intros t. apply typed_outs with (Inv := fun u m => motion_shape m).
  - intros u _. unfold motion_shape, zero_motion. cbn. repeat (split; [apply arr_zero|]). apply (arr_zero 2).
  - intros rots u k x dt k' o m m' [T _] E S W C. apply T in E. destruct E as [[E _] _].
    pose proof (convert_shape _ _ _ _ _ _ _ _ S E W C). auto.
  - intros u f k x dt k' q fin q' [_ T] Eu E W H. eapply filter_shape; [|exact W|exact H]. eapply T; eassumption.
Qed.
(** Every command sent has the form which Properties_Wire.v (C06) encodes without loss. *)
Theorem C52_commands_encodable : forall t1 a c t2, typed_history well_typed (t1 ++ EvCommand a c :: t2) -> command_ok c.
Proof.
  intros t1 a c t2 H. pose proof (shape_outs _ H) as O. pose proof (typed_is_history _ _ H) as Hh.
  destruct (command_output _ _ _ _ _ _ Hh O) as (x & m & g & _ & (S1 & S2 & S3 & S4 & S5) & _ & _ & E).
  unfold command_ok. rewrite E. cbn [marked mc_q_c mc_dq_c mc_O_T_EE_c mc_O_dP_EE_c mc_elbow_c].
  split; [|repeat (split; [assumption|])].
  - pose proof (history_lawful _ Hh) as L. apply RobotMore.lawful_split in L. destruct L as [(_ & (y & Ey & ->) & _) _].
    assert (I : In (EvState y) t2).
    { clear -Ey. induction t2 as [|e t2 IH]; [discriminate|]. destruct e; cbn in Ey; try (right; apply IH; exact Ey).
      injection Ey as ->. left. reflexivity. }
    apply outs_tail in O. pose proof (outs_state _ _ _ y O (or_intror I)) as W. apply W.
  - destruct (command_torques _ _ _ _ _ _ Hh O) as [->|(x' & _ & _ & F)]; [apply (arr_zero 7)|exact F].
Qed.
Print Assumptions C52_commands_encodable.
Example C52_ex : well_typed ex_joints /\ well_typed ex_twist /\
  map (fun c => List.length (serialize c_robot_command c)) (commands ex_typed) = repeat 370%nat 4.
Proof.
  split; [|split].
  - split.
    + intros k x dt k' o [= <- <-]. split; [|discriminate]. split; [reflexivity|]. repeat constructor.
    + intros f k x dt k' q fin [= <-] [= <- <- <-]. split; [reflexivity|]. repeat constructor.
  - split; [|discriminate]. intros k x dt k' o [= <- <-]. split; [split; [reflexivity|repeat constructor]|].
    cbn. intros e0 e1. destruct (k =? 0); [discriminate|]. intros [= <- <-]. split; reflexivity.
  - vm_compute. reflexivity.
Qed.

(** * C53: with limiter and filter switched off the command is the output *)
Definition plain (u : user_control) : Prop :=
  well_typed u /\ u_limit u = Some false /\ exists c, u_cutoff u = Some c /\ f_lt float (of_bits c) (MAX_CUTOFF_FREQUENCY float) = false.
Lemma bits_of_bits_map : forall l, Forall u64_ok l -> map bits (map of_bits l) = l.
Proof.
  intros l H. rewrite map_map. rewrite <- (map_id l) at 2. apply map_ext_in. intros x Hx. apply bits_of_bits.
  rewrite Forall_forall in H. apply H, Hx.
Qed.
Lemma convert_plain : forall rots u k x dt k' o m m', plain u -> u_motion u k x dt = Some (k', o) ->
  convert_motion rots (u_generator u) (cutoff_of u) (limit_of u) o x m = Some m' ->
  own_values (u_generator u) m' = o_values o /\
  (u_generator u = MmCartesianPosition \/ u_generator u = MmCartesianVelocity ->
   mc_elbow_c m' = match o_elbow o with Some (a, b) => [a; b] | None => [0; 0] end).
Proof.
  intros rots u k x dt k' o m m' ([T _] & Lf & c & Cf & Off) E H. destruct (T _ _ _ _ _ E) as [[_ T1] T2]. clear T E.
  unfold limit_of, cutoff_of in H. rewrite Lf, Cf in H.
  assert (El : forall f e, convert_elbow float (of_bits c) false
      (match o_elbow o with Some (a, b) => Some (of_bits a, of_bits b) | None => None end) (reported_of x) = Some (f, e) ->
      map bits e = match o_elbow o with Some (a, b) => [a; b] | None => [0; 0] end).
  { intros f e C. destruct (o_elbow o) as [[a b]|]; cbn [convert_elbow] in C.
    - rewrite Off in C. cbn [then_] in C. destruct (check_elbow float _ _); [|discriminate]. injection C as _ <-.
      destruct (T2 a b eq_refl). cbn [map]. rewrite !bits_of_bits by assumption. reflexivity.
    - injection C as _ <-. vm_compute. reflexivity. }
  unfold convert_motion in H. destruct (u_generator u); cbn [own_values].
  - destruct (convert_joint_positions float _ _ _ _) as [r|] eqn:C; [|discriminate]. injection H as <-.
    split; [|intros [|]; discriminate]. unfold convert_joint_positions, filtered in C. rewrite Off in C. cbn [then_ limited] in C.
    apply finite_some in C. destruct C as [-> _]. apply bits_of_bits_map, T1.
  - destruct (convert_joint_velocities float _ _ _ _) as [r|] eqn:C; [|discriminate]. injection H as <-.
    split; [|intros [|]; discriminate]. unfold convert_joint_velocities, filtered in C. rewrite Off in C. cbn [then_ limited] in C.
    apply finite_some in C. destruct C as [-> _]. apply bits_of_bits_map, T1.
  - destruct (convert_pose float _ _ _ _ _ _ _ _) as [r|] eqn:C; [|discriminate].
    destruct (convert_elbow float _ _ _ _) as [[f e]|] eqn:D; [|discriminate]. injection H as <-.
    split; [|intros _; eapply El; reflexivity]. unfold convert_pose in C. rewrite Off in C. cbn [then_ limited] in C.
    destruct (check_matrix float _); [|discriminate]. injection C as <-. apply bits_of_bits_map, T1.
  - destruct (convert_twist float _ _ _ _) as [r|] eqn:C; [|discriminate].
    destruct (convert_elbow float _ _ _ _) as [[f e]|] eqn:D; [|discriminate]. injection H as <-.
    split; [|intros _; eapply El; reflexivity]. unfold convert_twist, filtered in C. rewrite Off in C. cbn [then_ limited] in C.
    apply finite_some in C. destruct C as [-> _]. apply bits_of_bits_map, T1.
Qed.
(** A motion callback called with the state answered returned exactly the numbers which are sent;
    with external control the torques as well. *)
Theorem C53_sent_verbatim : forall t1 a c t2, typed_history plain (t1 ++ EvCommand a c :: t2) -> completed t2 = false ->
  exists u x k dt k' o, plain u /\ last_state t2 = Some x /\ motion_mode t2 = Some (u_generator u) /\
    u_motion u k x dt = Some (k', o) /\ own_values (u_generator u) (rc_motion c) = o_values o.
Proof.
  intros t1 a c t2 H C. pose proof (typed_is_history _ _ H) as Hh.
  pose (Pm := fun g x m => exists u k dt k' o, plain u /\ g = u_generator u /\ u_motion u k x dt = Some (k', o) /\
     own_values g m = o_values o).
  assert (O : outs_ok Pm (fun _ _ => True) (t1 ++ EvCommand a c :: t2)).
  { apply (typed_outs plain Pm (fun _ _ => True) (fun _ _ => True)); auto.
    intros rots u k x dt k' o m m' P E _ _ Co. split; [|exact Logic.I]. exists u, k, dt, k', o.
    destruct (convert_plain _ _ _ _ _ _ _ _ _ P E Co) as [V _]. split; [exact P|]. split; [reflexivity|]. split; [exact E|].
    rewrite <- V. destruct (u_generator u); reflexivity. }
  destruct (command_fresh _ _ _ _ _ _ Hh O C) as (x & m & g & L & (u & k & dt & k' & o & P & -> & E & V) & Mo & ->).
  exists u, x, k, dt, k', o. repeat (split; [assumption|]). rewrite <- V. destruct (u_generator u); reflexivity.
Qed.
Print Assumptions C53_sent_verbatim.
Definition ex_plain : user_control :=
  UserControl N MmJointPosition (fun k _ _ => Some (k + 1, MotionOut (repeat (bits (f_lit float 1 1000)) 7) None (k =? 2)))
    None None (Some false) (Some (bits (f_int float 1000))).
Example C53_ex : plain ex_plain /\
  map (fun c => hd 0 (mc_q_c (rc_motion c)))
    (commands (trace (program 1337 [AControl (controller_of ex_rots ex_plain) 0] ex_env_joint))) = repeat (bits (f_lit float 1 1000)) 4.
Proof.
  split; [|vm_compute; reflexivity]. split; [|split; [reflexivity|eexists; split; [reflexivity|vm_compute; reflexivity]]].
  split; [|discriminate]. intros k x dt k' o [= <- <-]. split; [|discriminate]. split; [reflexivity|]. repeat constructor.
Qed.

(** * C27 at the level of commands *)
(** Rate limiting on: the documented default, unless the user passes [Some(false)]. *)
Definition limiting (u : user_control) : Prop := well_typed u /\ u_limit u <> Some false.
Lemma limiting_on : forall u, limiting u -> limit_of u = true.
Proof. intros u [_ L]. unfold limit_of. destruct (u_limit u) as [[|]|]; [reflexivity|exfalso; apply L; reflexivity|reflexivity]. Qed.
Definition moderate (b : N) : Prop := finite_bits b /\ (Rabs (val (of_bits b)) <= bpow radix2 32)%R.
Lemma filter_limited : forall c q x q', List.length q = 7%nat -> state_ok x -> filter_torques c true q x = Some q' ->
  Forall moderate (rs_tau_J_d x) ->
  Forall2 (fun l r => (Rabs (val (of_bits r) - val (of_bits l)) <= robot_torque_rate * cycle)%R) (rs_tau_J_d x) q'.
Proof.
  intros c q x q' L W H M. unfold filter_torques in H. destruct (convert_torques float _ _ _ _) as [r|] eqn:C; [|discriminate].
  injection H as <-. apply then_some in C. destruct C as (y & Fl & C). apply then_some in C. destruct C as (z & G & C).
  apply finite_some in C. destruct C as [-> _]. cbn [limited] in G.
  assert (Lx : List.length (rs_tau_J_d x) = 7%nat) by (state_lengths W; assumption).
  apply filtered_length in Fl; [|cbn; rewrite !map_length; congruence]. rewrite map_length in Fl.
  assert (Fy : all_finite float y = true).
  { unfold limit_rate_torques in G. destruct (all_finite float y); [reflexivity|discriminate]. }
  destruct (C27_torque_rate y (map of_bits (rs_tau_J_d x))) as (rs & E & R).
  - exact (eq_trans Fl L).
  - rewrite map_length. exact Lx.
  - apply Forall_forall. unfold all_finite in Fy. rewrite forallb_forall in Fy. exact Fy.
  - apply Forall_map. eapply Forall_impl; [|exact M]. intros b [B1 B2]. split; [apply finite_bits_fin; exact B1|exact B2].
  - cbn [reported_of p_tau_J_d] in G. rewrite E in G. injection G as ->. clear -R.
    remember (map of_bits (rs_tau_J_d x)) as ls eqn:El. revert El. generalize (rs_tau_J_d x). induction R as [|l z0 ls zs [_ R1] R IH].
    + intros [|a l] E; [constructor|discriminate].
    + intros [|a l0] E; [discriminate|]. cbn in E. injection E as -> E. cbn [map]. constructor; [|apply IH; exact E].
      rewrite of_bits_bits. exact R1.
Qed.
(** With rate limiting on: torques sent differ from the last commanded ones reported in the state
    answered by at most 1 Nm. *)
Theorem C27_commands : forall t1 a c t2 x, typed_history limiting (t1 ++ EvCommand a c :: t2) -> completed t2 = false ->
  motion_ctrl t2 = Some McExternalController -> last_state t2 = Some x -> Forall moderate (rs_tau_J_d x) ->
  Forall2 (fun l r => (Rabs (val (of_bits r) - val (of_bits l)) <= robot_torque_rate * cycle)%R) (rs_tau_J_d x) (rc_tau c).
Proof.
  intros t1 a c t2 x H C X Lx M. pose proof (typed_is_history _ _ H) as Hh.
  pose (Pt := fun x q => Forall moderate (rs_tau_J_d x) ->
    Forall2 (fun l r => (Rabs (val (of_bits r) - val (of_bits l)) <= robot_torque_rate * cycle)%R) (rs_tau_J_d x) q).
  assert (O : outs_ok (fun _ _ _ => True) Pt (t1 ++ EvCommand a c :: t2)).
  { apply (typed_outs limiting (fun _ _ _ => True) Pt (fun _ _ => True)); auto.
    intros u f k y dt k' q fin q' U Eu E W Fi My. rewrite (limiting_on u U) in Fi. destruct U as [[_ T] _]. eapply filter_limited; [|exact W|exact Fi|exact My].
    eapply T; eassumption. }
  destruct (command_torques_fresh _ _ _ _ _ _ Hh O C X) as (y & Ly & P). rewrite Lx in Ly. injection Ly as <-. apply P, M.
Qed.
Print Assumptions C27_commands.
(** The first element which passes a test, with what comes after it. *)
Fixpoint first_with {A} (p : A -> bool) (l : list A) : option (list A) :=
  match l with [] => None | a :: l' => if p a then Some l else first_with p l' end.
Lemma first_with_split : forall A (p : A -> bool) l a r, first_with p l = Some (a :: r) -> exists t1, l = t1 ++ a :: r.
Proof.
  intros A p. induction l as [|b l IH]; intros a r H; [discriminate|]. cbn in H. destruct (p b).
  - injection H as -> ->. exists []. reflexivity.
  - destruct (IH a r H) as [t1 ->]. exists (b :: t1). reflexivity.
Qed.
Definition answers (n : N) (e : event) : bool := match e with EvCommand _ c => rc_message_id c =? n | _ => false end.
Lemma ex_command : forall (P : list event -> Prop), match first_with (answers 5) ex_typed with Some (EvCommand _ _ :: t2) => P t2 | _ => False end ->
  exists t1 a c t2, ex_typed = t1 ++ EvCommand a c :: t2 /\ P t2.
Proof.
  intros P H. pose proof (first_with_split _ (answers 5) ex_typed) as S. destruct (first_with (answers 5) ex_typed) as [[|e t2]|]; try contradiction.
  destruct e as [| | | | | | | |a c|]; try contradiction. destruct (S _ _ eq_refl) as [t1 E]. exists t1, a, c, t2. auto.
Qed.
Example C27_ex2 : limiting ex_joints /\ motion_ctrl (tl ex_typed) = Some McExternalController /\
  exists t1 a c t2 x, ex_typed = t1 ++ EvCommand a c :: t2 /\ completed t2 = false /\
    last_state t2 = Some x /\ Forall moderate (rs_tau_J_d x) /\ rs_message_id x = 5.
Proof.
  split; [|split].
  - split; [|discriminate]. apply C52_ex.
  - vm_compute. reflexivity.
  - assert (Z : moderate 0).
    { split; [split; vm_compute; [reflexivity|discriminate]|]. change (val (of_bits 0)) with 0%R. rewrite Rabs_R0. apply bpow_ge_0. }
    destruct (ex_command (fun t2 => completed t2 = false /\ last_state t2 = Some (ex_run 5))) as (t1 & a & c & t2 & E & C & L).
    { vm_compute. auto. }
    exists t1, a, c, t2, (ex_run 5). split; [exact E|]. split; [exact C|]. split; [exact L|].
    split; [|reflexivity]. repeat (apply Forall_cons; [exact Z|]). apply Forall_nil.
Qed.

(** Torques, likewise. *)
Theorem C53_torques_verbatim : forall t1 a c t2, typed_history plain (t1 ++ EvCommand a c :: t2) -> completed t2 = false ->
  motion_ctrl t2 = Some McExternalController ->
  exists u f x k dt k' fin, plain u /\ last_state t2 = Some x /\ u_torque u = Some f /\ f k x dt = Some (k', (rc_tau c, fin)).
Proof.
  intros t1 a c t2 H C X. pose proof (typed_is_history _ _ H) as Hh.
  pose (Pt := fun x q => exists u f k dt k' fin, plain u /\ u_torque u = Some f /\ f k x dt = Some (k', (q, fin))).
  assert (O : outs_ok (fun _ _ _ => True) Pt (t1 ++ EvCommand a c :: t2)).
  { apply (typed_outs plain (fun _ _ _ => True) Pt (fun _ _ => True)); auto.
    intros u f k y dt k' q fin q' P Eu E W Fi. exists u, f, k, dt, k', fin. split; [exact P|]. split; [exact Eu|].
    destruct P as ([_ T] & Lf & cc & Cf & Off). destruct (T _ _ _ _ _ _ _ Eu E) as [_ T1].
    unfold limit_of, cutoff_of in Fi. rewrite Lf, Cf in Fi. unfold filter_torques, convert_torques, filtered in Fi.
    rewrite Off in Fi. cbn [then_ limited] in Fi. unfold finite in Fi. destruct (all_finite float _); [|discriminate].
    cbn [option_map] in Fi. injection Fi as <-. rewrite bits_of_bits_map by exact T1. exact E. }
  destruct (command_torques_fresh _ _ _ _ _ _ Hh O C X) as (y & Ly & u & f & k & dt & k' & fin & P & Eu & E).
  exists u, f, y, k, dt, k', fin. auto.
Qed.
Print Assumptions C53_torques_verbatim.
Definition ex_plain_torque : user_control :=
  UserControl N MmJointPosition (fun k _ _ => Some (k + 1, MotionOut (repeat (bits (f_lit float 1 1000)) 7) None (k =? 2)))
    (Some (fun k _ _ => Some (k, (repeat fifty 7, false)))) None (Some false) (Some (bits (f_int float 1000))).
Example C53_ex2 : plain ex_plain_torque /\
  map rc_tau (commands (trace (program 1337 [AControl (controller_of ex_rots ex_plain_torque) 0] ex_env_good))) =
  repeat (repeat fifty 7) 4.
Proof.
  split; [|vm_compute; reflexivity]. split; [|split; [reflexivity|eexists; split; [reflexivity|vm_compute; reflexivity]]].
  split.
  - intros k x dt k' o [= <- <-]. split; [|discriminate]. split; [reflexivity|]. repeat constructor.
  - intros f k x dt k' q fin [= <-] [= <- <- <-]. split; [reflexivity|]. repeat constructor.
Qed.
