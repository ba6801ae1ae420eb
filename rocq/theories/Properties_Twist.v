(** C31 in IEEE-754 double arithmetic: Cartesian velocity commands. *)
From Coq Require Import List NArith ZArith Bool Lia Lra Arith Reals String.
From Flocq Require Import Core IEEE754.BinarySingleNaN IEEE754.Binary IEEE754.Bits.
From Verif Require Import Bytes Codec NumOps NumFloat FloatFacts SizeFacts RateModel RateSpec ConvertModel WireModel WireSpec UdpModel
  RobotModel LoopModel RobotSpec Outputs TypedModel TypedSpec ConvertFacts TypedProofs RobotScenario Properties_Robot Properties_Rate
  Properties_Rate64 Properties_Convert Properties_Commands TwistFloats TwistProofs.
Import ListNotations.
Open Scope list_scope.
Open Scope N_scope.

(** The Euclidean norm of a list of numbers is at most c. *)
Definition squares (l : list R) : R := fold_right (fun x s => x * x + s)%R 0%R l.
Definition norm_within (c : R) (l : list R) : Prop := (squares l <= c * c)%R.
(** Documented limits of the robot (m/s, rad/s, m/s^2, rad/s^2). *)
Definition robot_speed : R := 2.
Definition robot_turn : R := 5/2.
Definition robot_speed_rate : R := 13.
Definition robot_turn_rate : R := 25.
(** Reported speeds for which a step is shown to be within the limits: one billionth below the constants of the library. *)
Definition library_speed : R := 1998987/1000000.
Definition library_turn : R := 2498975/1000000.
(** Translation and rotation of a twist. *)
Definition translation (l : list N) : list R := firstn 3 (numbers l).
Definition rotation (l : list N) : list R := skipn 3 (numbers l).

Lemma translational_limits :
  (b64_fin (MAX_TRANSLATIONAL_VELOCITY float) = true /\ 1998987001/1000000000 - /10000000000000 <= val (MAX_TRANSLATIONAL_VELOCITY float) <= 1998987001/1000000000 + /10000000000000)%R /\
  (b64_fin (MAX_TRANSLATIONAL_ACCELERATION float) = true /\ 12999/1000 - /10000000000000 <= val (MAX_TRANSLATIONAL_ACCELERATION float) <= 12999/1000 + /10000000000000)%R /\
  (size 14 (MAX_TRANSLATIONAL_JERK float) /\ 0 <= val (MAX_TRANSLATIONAL_JERK float))%R /\
  (b64_fin (b64_div mode_NE (MAX_TRANSLATIONAL_JERK float) (MAX_TRANSLATIONAL_ACCELERATION float)) = true /\
   0 <= val (b64_div mode_NE (MAX_TRANSLATIONAL_JERK float) (MAX_TRANSLATIONAL_ACCELERATION float)) <= 501)%R.
Proof.
  destruct (val_finite (MAX_TRANSLATIONAL_VELOCITY float) false 9002637112822066 (-52)) as [F1 V1]; [vm_compute; reflexivity|].
  destruct (val_finite (MAX_TRANSLATIONAL_ACCELERATION float) false 7317786444523635 (-49)) as [F2 V2]; [vm_compute; reflexivity|].
  destruct (val_finite (MAX_TRANSLATIONAL_JERK float) false 7146824481032372 (-40)) as [F3 V3]; [vm_compute; reflexivity|].
  destruct (val_finite (b64_div mode_NE (MAX_TRANSLATIONAL_JERK float) (MAX_TRANSLATIONAL_ACCELERATION float)) false 8796768343450877 (-44)) as [F4 V4]; [vm_compute; reflexivity|].
  unfold size. rewrite V1, V2, V3, V4. cbn [cond_Zopp].
  change (bpow radix2 (-52)) with (/ 4503599627370496)%R. change (bpow radix2 (-49)) with (/ 562949953421312)%R.
  change (bpow radix2 (-40)) with (/ 1099511627776)%R. change (bpow radix2 (-44)) with (/ 17592186044416)%R. change (bpow radix2 14) with 16384%R.
  rewrite Rabs_pos_eq by lra. repeat split; try assumption; lra.
Qed.
Lemma rotational_limits :
  (b64_fin (MAX_ROTATIONAL_VELOCITY float) = true /\ 2498975001/1000000000 - /10000000000000 <= val (MAX_ROTATIONAL_VELOCITY float) <= 2498975001/1000000000 + /10000000000000)%R /\
  (b64_fin (MAX_ROTATIONAL_ACCELERATION float) = true /\ 24999/1000 - /10000000000000 <= val (MAX_ROTATIONAL_ACCELERATION float) <= 24999/1000 + /10000000000000)%R /\
  (size 14 (MAX_ROTATIONAL_JERK float) /\ 0 <= val (MAX_ROTATIONAL_JERK float))%R /\
  (b64_fin (b64_div mode_NE (MAX_ROTATIONAL_JERK float) (MAX_ROTATIONAL_ACCELERATION float)) = true /\
   0 <= val (b64_div mode_NE (MAX_ROTATIONAL_JERK float) (MAX_ROTATIONAL_ACCELERATION float)) <= 501)%R.
Proof.
  destruct (val_finite (MAX_ROTATIONAL_VELOCITY float) false 5627191441655893 (-51)) as [F1 V1]; [vm_compute; reflexivity|].
  destruct (val_finite (MAX_ROTATIONAL_ACCELERATION float) false 7036592942789689 (-48)) as [F2 V2]; [vm_compute; reflexivity|].
  destruct (val_finite (MAX_ROTATIONAL_JERK float) false 6871947123844186 (-39)) as [F3 V3]; [vm_compute; reflexivity|].
  destruct (val_finite (b64_div mode_NE (MAX_ROTATIONAL_JERK float) (MAX_ROTATIONAL_ACCELERATION float)) false 8796444176287610 (-44)) as [F4 V4]; [vm_compute; reflexivity|].
  unfold size. rewrite V1, V2, V3, V4. cbn [cond_Zopp].
  change (bpow radix2 (-51)) with (/ 2251799813685248)%R. change (bpow radix2 (-48)) with (/ 281474976710656)%R.
  change (bpow radix2 (-39)) with (/ 549755813888)%R. change (bpow radix2 (-44)) with (/ 17592186044416)%R. change (bpow radix2 14) with 16384%R.
  rewrite Rabs_pos_eq by lra. repeat split; try assumption; lra.
Qed.
Lemma square_le : forall a b : R, (0 <= a <= b -> a * a <= b * b)%R.
Proof. intros a b H. apply Rmult_le_compat; lra. Qed.
Lemma linear_step : forall v l la, vsize 10 la -> vfinite l -> (rnorm2 l <= library_speed * library_speed)%R ->
  let out := limit_rate_single_cartesian_velocity float (MAX_TRANSLATIONAL_VELOCITY float) (MAX_TRANSLATIONAL_ACCELERATION float) (MAX_TRANSLATIONAL_JERK float) v l la in
  vfinite out /\ (rnorm2 out <= robot_speed * robot_speed)%R /\ (rdist2 out l <= (robot_speed_rate / 1000) * (robot_speed_rate / 1000))%R.
Proof.
  intros v l la Ha Hl Hn out. destruct translational_limits as ([FV BV] & [FA BA] & HJ & HK).
  assert (BV' : (1 <= val (MAX_TRANSLATIONAL_VELOCITY float) <= 5 / 2)%R) by lra. assert (BA' : (12 <= val (MAX_TRANSLATIONAL_ACCELERATION float) <= 25)%R) by lra.
  destruct (step_bounds (MAX_TRANSLATIONAL_VELOCITY float) (MAX_TRANSLATIONAL_ACCELERATION float) (MAX_TRANSLATIONAL_JERK float)
    (conj FV BV') (conj FA BA') HJ HK v l la Ha Hl) as (F & S & D).
  - apply Rle_trans with (1 := Hn). change (bpow radix2 (-36)) with (/ 68719476736)%R. unfold library_speed.
    assert (S := square_le (1998987/1000000 + 9/10000000000) (val (MAX_TRANSLATIONAL_VELOCITY float)) ltac:(lra)). lra.
  - split; [exact F|]. split; (eapply Rle_trans; [eassumption|]).
    + assert (S' := square_le (val (MAX_TRANSLATIONAL_VELOCITY float)) (1999/1000) ltac:(lra)). unfold robot_speed. lra.
    + apply square_le. unfold robot_speed_rate. lra.
Qed.
Lemma angular_step : forall v l la, vsize 10 la -> vfinite l -> (rnorm2 l <= library_turn * library_turn)%R ->
  let out := limit_rate_single_cartesian_velocity float (MAX_ROTATIONAL_VELOCITY float) (MAX_ROTATIONAL_ACCELERATION float) (MAX_ROTATIONAL_JERK float) v l la in
  vfinite out /\ (rnorm2 out <= robot_turn * robot_turn)%R /\ (rdist2 out l <= (robot_turn_rate / 1000) * (robot_turn_rate / 1000))%R.
Proof.
  intros v l la Ha Hl Hn out. destruct rotational_limits as ([FV BV] & [FA BA] & HJ & HK).
  assert (BV' : (1 <= val (MAX_ROTATIONAL_VELOCITY float) <= 5 / 2)%R) by lra. assert (BA' : (12 <= val (MAX_ROTATIONAL_ACCELERATION float) <= 25)%R) by lra.
  destruct (step_bounds (MAX_ROTATIONAL_VELOCITY float) (MAX_ROTATIONAL_ACCELERATION float) (MAX_ROTATIONAL_JERK float)
    (conj FV BV') (conj FA BA') HJ HK v l la Ha Hl) as (F & S & D).
  - apply Rle_trans with (1 := Hn). change (bpow radix2 (-36)) with (/ 68719476736)%R. unfold library_turn.
    assert (S := square_le (2498975/1000000 + 9/10000000000) (val (MAX_ROTATIONAL_VELOCITY float)) ltac:(lra)). lra.
  - split; [exact F|]. split; (eapply Rle_trans; [eassumption|]).
    + assert (S' := square_le (val (MAX_ROTATIONAL_VELOCITY float)) (2499/1000) ltac:(lra)). unfold robot_turn. lra.
    + apply square_le. unfold robot_turn_rate. lra.
Qed.

(** What one limited twist satisfies, in the numbers of the bit patterns. *)
Definition twist_within (last out : list N) : Prop :=
  norm_within robot_speed (translation out) /\ norm_within robot_turn (rotation out) /\
  norm_within robot_speed_rate (rate (translation last) (translation out)) /\ norm_within robot_turn_rate (rate (rotation last) (rotation out)).
Definition twist_start (last acc : list N) : Prop :=
  Forall finite_bits last /\ norm_within library_speed (translation last) /\ norm_within library_turn (rotation last) /\ Forall angle acc.
(** C31: the limiter itself.  Nothing is asked of the request. *)
Theorem C31_doubles : forall request last acc, List.length request = 6%nat -> List.length last = 6%nat -> List.length acc = 6%nat ->
  twist_start last acc ->
  forall out, limit_rate_cartesian_velocity float (MAX_TRANSLATIONAL_VELOCITY float) (MAX_TRANSLATIONAL_ACCELERATION float) (MAX_TRANSLATIONAL_JERK float)
    (MAX_ROTATIONAL_VELOCITY float) (MAX_ROTATIONAL_ACCELERATION float) (MAX_ROTATIONAL_JERK float)
    (map of_bits request) (map of_bits last) (map of_bits acc) = Some out ->
  twist_within last (map bits out).
Proof.
  intros request last acc L1 L2 L3 (F & N1 & N2 & An) out H.
  destruct request as [|x1 [|x2 [|x3 [|x4 [|x5 [|x6 [|]]]]]]]; try discriminate L1.
  destruct last as [|l1 [|l2 [|l3 [|l4 [|l5 [|l6 [|]]]]]]]; try discriminate L2.
  destruct acc as [|a1 [|a2 [|a3 [|a4 [|a5 [|a6 [|]]]]]]]; try discriminate L3.
  unfold limit_rate_cartesian_velocity in H. destruct (all_finite float (map of_bits [x1; x2; x3; x4; x5; x6])); [|discriminate H].
  cbn [map to_vecs] in H.
  assert (Fb : forall b, In b [l1; l2; l3; l4; l5; l6] -> b64_fin (of_bits b) = true) by (intros b Hb; rewrite Forall_forall in F; apply finite_bits_fin, F, Hb).
  assert (Ab : forall b, In b [a1; a2; a3; a4; a5; a6] -> size 10 (of_bits b)).
  { intros b Hb. rewrite Forall_forall in An. destruct (An b Hb) as [A1 A2]. split; [apply finite_bits_fin, A1|]. change (bpow radix2 10) with 1024%R. exact A2. }
  destruct (linear_step (Vec float (of_bits x1) (of_bits x2) (of_bits x3)) (Vec float (of_bits l1) (of_bits l2) (of_bits l3)) (Vec float (of_bits a1) (of_bits a2) (of_bits a3))) as (_ & S1 & D1).
  { repeat split; apply Ab; cbn; tauto. }
  { repeat split; apply Fb; cbn; tauto. }
  { unfold norm_within, translation in N1. cbn [numbers map firstn squares fold_right] in N1. unfold rnorm2, rdot. cbn [vx vy vz]. unfold number in N1. lra. }
  destruct (angular_step (Vec float (of_bits x4) (of_bits x5) (of_bits x6)) (Vec float (of_bits l4) (of_bits l5) (of_bits l6)) (Vec float (of_bits a4) (of_bits a5) (of_bits a6))) as (_ & S2 & D2).
  { repeat split; apply Ab; cbn; tauto. }
  { repeat split; apply Fb; cbn; tauto. }
  { unfold norm_within, rotation in N2. cbn [numbers map skipn squares fold_right] in N2. unfold rnorm2, rdot. cbn [vx vy vz]. unfold number in N2. lra. }
  injection H as <-.
  set (o1 := limit_rate_single_cartesian_velocity float _ _ _ (Vec float (of_bits x1) _ _) _ _) in *.
  set (o2 := limit_rate_single_cartesian_velocity float _ _ _ (Vec float (of_bits x4) _ _) _ _) in *. clearbody o1 o2. clear N1 N2 F An Fb Ab.
  unfold rnorm2, rdist2, rdot, twist_within, norm_within, translation, rotation, of_vecs, cycle in *. rewrite numbers_bits.
  cbn [numbers map firstn skipn vals rate squares fold_right vx vy vz] in *. unfold number. 
  split; [lra|]. split; [lra|]. unfold cycle. split; lra.
Qed.
Print Assumptions C31_doubles.

(** At the level of the commands. *)
Lemma twist_limited : forall c v x r, List.length v = 6%nat -> state_ok x -> convert_twist float c true v (reported_of x) = Some r ->
  twist_start (rs_O_dP_EE_c x) (rs_O_ddP_EE_c x) -> twist_within (rs_O_dP_EE_c x) (map bits r).
Proof.
  intros c v x r L W C S.
  assert (W6 : List.length (rs_O_ddP_EE_c x) = 6%nat).
  { destruct W as (_ & _ & _ & _ & _ & _ & _ & _ & _ & A6 & _). rewrite Forall_forall in A6. apply A6. cbn. tauto. }
  apply then_some in C. destruct C as (y & Fl & C). apply then_some in C. destruct C as (z & G & C).
  apply finite_some in C. destruct C as [-> _]. cbn [limited reported_of p_O_dP_EE_c p_O_ddP_EE_c] in G. cbn [reported_of p_O_dP_EE_c] in Fl.
  state_lengths W. apply filtered_length in Fl; [|rewrite map_length; congruence]. rewrite L in Fl.
  assert (Ey : map of_bits (map bits y) = y) by (rewrite map_map; erewrite map_ext; [apply map_id|intros; apply of_bits_bits]).
  rewrite <- Ey in G. eapply C31_doubles; [| | |exact S|exact G]; [rewrite map_length; exact Fl|assumption|exact W6].
Qed.
Definition twist_kept (g : move_mg) (x : robot_state_intern) (m : motion_command) : Prop :=
  g = MmCartesianVelocity -> twist_start (rs_O_dP_EE_c x) (rs_O_ddP_EE_c x) -> twist_within (rs_O_dP_EE_c x) (mc_O_dP_EE_c m).
Lemma convert_twist_kept : forall rots u k x dt k' o m m', limiting u -> u_motion u k x dt = Some (k', o) -> state_ok x ->
  convert_motion rots (u_generator u) (cutoff_of u) (limit_of u) o x m = Some m' -> twist_kept (u_generator u) x m'.
Proof.
  intros rots u k x dt k' o m m' U E W H G S. rewrite (limiting_on u U) in H. destruct U as [[T _] _].
  apply T in E. destruct E as [[L _] _]. unfold convert_motion in H. rewrite G in *. cbn [dimension] in L.
  destruct (convert_twist float _ _ _ _) as [r|] eqn:C; [|discriminate].
  destruct (convert_elbow float _ _ _ _) as [[f e]|] eqn:D; [|discriminate]. injection H as <-. cbn [mc_O_dP_EE_c].
  eapply twist_limited; [|exact W|exact C|exact S]. rewrite map_length. exact L.
Qed.
(** C31: the twist sent is within the limits of the robot, and so is its rate with respect to the twist of the
    state answered, if that one is within the constants of the library. *)
Theorem C31_commands : forall t1 a c t2 x, typed_history limiting (t1 ++ EvCommand a c :: t2) -> completed t2 = false ->
  motion_mode t2 = Some MmCartesianVelocity -> last_state t2 = Some x ->
  twist_start (rs_O_dP_EE_c x) (rs_O_ddP_EE_c x) -> twist_within (rs_O_dP_EE_c x) (mc_O_dP_EE_c (rc_motion c)).
Proof.
  intros t1 a c t2 x H C Mx Lx. pose proof (typed_is_history _ _ H) as Hh.
  assert (O : outs_ok twist_kept (fun _ _ => True) (t1 ++ EvCommand a c :: t2)).
  { apply (typed_outs limiting twist_kept (fun _ _ => True) (fun _ _ => True)); auto.
    intros rots u k y dt k' o m m' U E _ W Co. split; [|exact Logic.I]. exact (convert_twist_kept _ _ _ _ _ _ _ _ _ U E W Co). }
  destruct (command_fresh _ _ _ _ _ _ Hh O C) as (y & m & g' & Ly & K & Mo & ->).
  rewrite Lx in Ly. injection Ly as <-. rewrite Mx in Mo. injection Mo as <-. apply K. reflexivity.
Qed.
Print Assumptions C31_commands.
(** A twist of 1000 m/s is asked for at once: 0.006499999 m/s is sent. *)
Definition ex_dash : user_control :=
  UserControl N MmCartesianVelocity (fun k _ _ => Some (k + 1, MotionOut (bits (f_int float 1000) :: repeat 0 5) None (k =? 2))) None None None None.
Definition ex_dash_run : list event := trace (program 1337 [AControl (controller_of ex_rots ex_dash) 0] ex_env_twist).
Lemma ex_dash_typed : typed_history limiting ex_dash_run.
Proof.
  unfold typed_history, history, ex_dash_run, ex_env_twist. exists 1337, [AControl (controller_of ex_rots ex_dash) 0]. do 7 eexists. split.
  - apply Forall_cons; [|apply Forall_nil]. exists ex_rots, ex_dash. split; [reflexivity|]. split; [|discriminate]. split; [|discriminate].
    intros k x dt k' o [= <- <-]. split; [split; [reflexivity|repeat constructor]|]. intros e0 e1. discriminate.
  - reflexivity.
Qed.
Lemma rest_start : twist_start (repeat 0 6) (repeat 0 6).
Proof.
  assert (Z : angle 0).
  { split; [split; vm_compute; [reflexivity|discriminate]|]. change (number 0) with 0%R. rewrite Rabs_R0. lra. }
  split; [repeat (apply Forall_cons; [apply Z|]); apply Forall_nil|].
  unfold norm_within, translation, rotation. cbn [repeat numbers map firstn skipn squares fold_right]. change (number 0) with 0%R.
  split; [unfold library_speed; lra|]. split; [unfold library_turn; lra|]. repeat (apply Forall_cons; [exact Z|]). apply Forall_nil.
Qed.
Example C31_ex_commands : typed_history limiting ex_dash_run /\
  exists t1 a c t2, ex_dash_run = t1 ++ EvCommand a c :: t2 /\ completed t2 = false /\ motion_mode t2 = Some MmCartesianVelocity /\
    (exists x, last_state t2 = Some x /\ twist_start (rs_O_dP_EE_c x) (rs_O_ddP_EE_c x)) /\
    hd 0 (mc_O_dP_EE_c (rc_motion c)) = 4574144010780705945.
Proof.
  split; [exact ex_dash_typed|].
  destruct (command_in ex_dash_run 5 (fun c t2 => completed t2 = false /\ motion_mode t2 = Some MmCartesianVelocity /\
    last_state t2 = Some (ex_run_twist 5) /\ hd 0 (mc_O_dP_EE_c (rc_motion c)) = 4574144010780705945))
    as (t1 & a & c & t2 & E & C & M & L & V).
  { vm_compute. auto. }
  exists t1, a, c, t2. split; [exact E|]. split; [exact C|]. split; [exact M|]. split; [|exact V]. exists (ex_run_twist 5). split; [exact L|]. exact rest_start.
Qed.

(** C31 is false without the distance to the limit: from rest, with a robot that reports exactly the twist and the
    acceleration sent to it, the speed sent passes 2 m/s.  Saturated, the speed is one unit in the last place above the
    constant of the library; a request across the motion then makes the radicand of rate_limiting.rs 450-454 negative, its
    root is NaN, and [f64::min] drops it. *)
Theorem C31_rest_refuted : exists requests v, In v (b64_run (b64_vec 0 0 0) (b64_vec 0 0 0) requests) /\
  (robot_speed * robot_speed < val (vx _ v) * val (vx _ v) + val (vy _ v) * val (vy _ v) + val (vz _ v) * val (vz _ v))%R /\
  Forall (fun r => vfinite r) requests.
Proof.
  set (r1 := Vec float (f_int float 9) (f_lit float 31 4) (f_int float 0)).
  set (r2 := Vec float (of_bits 4609500736715652407) (of_bits 4608553248168012768) (f_int float 16)).
  exists (repeat r1 199 ++ repeat r2 6).
  assert (E : match nth_error (b64_run (b64_vec 0 0 0) (b64_vec 0 0 0) (repeat r1 199 ++ repeat r2 6)) 204 with
    | Some v => (Binary.B2FF 53 1024 (vx _ v), Binary.B2FF 53 1024 (vy _ v), Binary.B2FF 53 1024 (vz _ v)) =
        (F754_finite false 6821917543005501 (-52), F754_finite false 5874428995365862 (-52), F754_finite false 5151757613684063 (-56))
    | None => False end) by (vm_compute; reflexivity).
  destruct (nth_error (b64_run (b64_vec 0 0 0) (b64_vec 0 0 0) (repeat r1 199 ++ repeat r2 6)) 204) as [v|] eqn:N; [|contradiction].
  injection E as X Y Z. exists v. split; [eapply nth_error_In, N|]. split.
  - destruct (val_finite _ _ _ _ X) as [_ ->]. destruct (val_finite _ _ _ _ Y) as [_ ->]. destruct (val_finite _ _ _ _ Z) as [_ ->]. cbn [cond_Zopp].
    change (bpow radix2 (-52)) with (/ 4503599627370496)%R. change (bpow radix2 (-56)) with (/ 72057594037927936)%R. unfold robot_speed. lra.
  - apply Forall_app. split; apply Forall_forall; intros r H; apply repeat_spec in H; subst r; repeat split; vm_compute; reflexivity.
Qed.
Print Assumptions C31_rest_refuted.
