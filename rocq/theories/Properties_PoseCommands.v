(** C54 in IEEE-754 double arithmetic: Cartesian pose commands. *)
From Coq Require Import List NArith ZArith Bool Lia Lra Arith Reals String.
From Flocq Require Import Core IEEE754.BinarySingleNaN IEEE754.Binary IEEE754.Bits.
From Verif Require Import Bytes Codec NumOps NumFloat FloatFacts SizeFacts RateModel RateSpec ConvertModel WireModel WireSpec UdpModel
  RobotModel LoopModel RobotSpec Outputs TypedModel TypedSpec ConvertFacts TypedProofs RobotScenario Properties_Robot Properties_Rate
  Properties_Rate64 Properties_Convert Properties_Commands Properties_Smooth TwistFloats TwistProofs Properties_Twist Properties_Pose.
Import ListNotations.
Open Scope list_scope.
Open Scope N_scope.

(** The position of a column-major pose. *)
Definition place (l : list N) : list R := firstn 3 (skipn 12 (numbers l)).
(** Reported state for which a step is shown to be within the limits: a pose within 1024 m, a speed one billionth below the
    constants of the library. *)
Definition pose_start (pose twist acc : list N) : Prop :=
  Forall finite_bits twist /\ norm_within library_speed (Properties_Twist.translation twist) /\ Forall angle acc /\ Forall angle (firstn 3 (skipn 12 pose)).
Definition pose_within (pose twist out : list N) : Prop :=
  norm_within robot_speed (rate (place pose) (place out)) /\
  norm_within robot_speed_rate (rate (Properties_Twist.translation twist) (rate (place pose) (place out))).

Lemma linear_margin : forall v l la, vsize 10 la -> vfinite l -> (rnorm2 l <= library_speed * library_speed)%R ->
  let out := limit_rate_single_cartesian_velocity float (MAX_TRANSLATIONAL_VELOCITY float) (MAX_TRANSLATIONAL_ACCELERATION float) (MAX_TRANSLATIONAL_JERK float) v l la in
  vfinite out /\ (rnorm2 out <= 39961/10000)%R /\ (rdist2 out l <= (129991/10000000) * (129991/10000000))%R.
Proof.
  intros v l la Ha Hl Hn out. destruct translational_limits as ([FV BV] & [FA BA] & HJ & HK).
  assert (BV' : (1 <= val (MAX_TRANSLATIONAL_VELOCITY float) <= 5 / 2)%R) by lra. assert (BA' : (12 <= val (MAX_TRANSLATIONAL_ACCELERATION float) <= 25)%R) by lra.
  destruct (step_bounds (MAX_TRANSLATIONAL_VELOCITY float) (MAX_TRANSLATIONAL_ACCELERATION float) (MAX_TRANSLATIONAL_JERK float)
    (conj FV BV') (conj FA BA') HJ HK v l la Ha Hl) as (F & S & D).
  - apply Rle_trans with (1 := Hn). change (bpow radix2 (-36)) with (/ 68719476736)%R. unfold library_speed.
    assert (S := square_le (1998987/1000000 + 9/10000000000) (val (MAX_TRANSLATIONAL_VELOCITY float)) ltac:(lra)). lra.
  - split; [exact F|]. split; (eapply Rle_trans; [eassumption|]).
    + assert (S' := square_le (val (MAX_TRANSLATIONAL_VELOCITY float)) (1999/1000) ltac:(lra)). lra.
    + apply square_le. lra.
Qed.
Local Strategy opaque [b64_plus b64_mult].
(** One coordinate of the new position. *)
Lemma place_near : forall h p, b64_fin h = true -> (Rabs (val h) <= 2)%R -> size 10 p ->
  (Rabs (val (b64_plus mode_NE p (b64_mult mode_NE h (DELTA_T float))) - val p - val h / 1000) <= / 4000000000000)%R.
Proof.
  intros h p Fh Bh Sp. assert (Sh : size 1 h) by (split; [exact Fh|exact Bh]).
  destruct delta_size as [Sd _]. destruct delta_val as [_ Bd].
  pose proof (mul_near 1 (-9) h (DELTA_T float) Sh Sd ltac:(lia)) as M. pose proof (size_mul 1 (-9) h (DELTA_T float) Sh Sd ltac:(lia)) as Sm.
  set (m := b64_mult mode_NE h (DELTA_T float)) in *. clearbody m.
  pose proof (add_near 10 p m Sp (size_le _ 10 _ Sm ltac:(lia)) ltac:(lia)) as A. set (s := val (b64_plus mode_NE p m)) in *. clearbody s.
  change (bpow radix2 (1 + -9 - 53)) with (/ 2305843009213693952)%R in M. change (bpow radix2 (10 - 52)) with (/ 4398046511104)%R in A.
  apply Rabs_le_inv in M. apply Rabs_le_inv in A. apply Rabs_le_inv in Bh.
  assert (E : (Rabs (val h * val (DELTA_T float) - val h / 1000) <= / 100000000000000)%R).
  { replace (val h * val (DELTA_T float) - val h / 1000)%R with (val h * (val (DELTA_T float) - / 1000))%R by lra. rewrite Rabs_mult.
    apply Rle_trans with (2 * / 1000000000000000)%R; [|lra]. apply Rmult_le_compat; try apply Rabs_pos; [apply Rabs_le; lra|]. rewrite Rabs_pos_eq; lra. }
  apply Rabs_le_inv in E. apply Rabs_le. lra.
Qed.
(** Three coordinates: [h] the limited velocity, [l] the reported one, [s] the shift of the position. *)
Lemma place_bounds : forall h1 h2 h3 l1 l2 l3 s1 s2 s3 : R,
  (h1*h1 + h2*h2 + h3*h3 <= 39961/10000 ->
   (h1-l1)*(h1-l1) + (h2-l2)*(h2-l2) + (h3-l3)*(h3-l3) <= (129991/10000000) * (129991/10000000) ->
   Rabs (s1 - h1/1000) <= / 4000000000000 -> Rabs (s2 - h2/1000) <= / 4000000000000 -> Rabs (s3 - h3/1000) <= / 4000000000000 ->
   (s1*1000)*(s1*1000) + (s2*1000)*(s2*1000) + (s3*1000)*(s3*1000) <= 4 /\
   (s1*1000 - l1)*(s1*1000 - l1) + (s2*1000 - l2)*(s2*1000 - l2) + (s3*1000 - l3)*(s3*1000 - l3) <= (13/1000)*(13/1000))%R.
Proof.
  assert (K : forall h e B : R, (Rabs h <= B -> 0 <= B -> Rabs e <= / 4000000000 -> (h + e) * (h + e) <= h * h + B / 1000000000)%R \/ (B < / 1000)%R).
  { intros h e B. destruct (Rlt_le_dec B (/ 1000)) as [|HB]; [right; assumption|left]. intros Hh HB0 He. apply Rabs_le_inv in Hh. apply Rabs_le_inv in He.
    replace ((h + e) * (h + e))%R with (h * h + (2 * (h * e) + e * e))%R by ring. apply Rplus_le_compat_l.
    assert (h * e <= B * / 4000000000)%R.
    { apply Rle_trans with (Rabs h * Rabs e)%R; [rewrite <- Rabs_mult; apply RRle_abs|]. apply Rmult_le_compat; try apply Rabs_pos; apply Rabs_le; lra. }
    assert (e * e <= / 4000000000 * / 4000000000)%R.
    { apply Rle_trans with (Rabs e * Rabs e)%R; [rewrite <- Rabs_mult; apply RRle_abs|]. apply Rmult_le_compat; try apply Rabs_pos; apply Rabs_le; lra. }
    lra. }
  intros h1 h2 h3 l1 l2 l3 s1 s2 s3 Hh Hd E1 E2 E3.
  assert (Sq : forall a B : R, (0 <= B -> a * a <= B * B -> Rabs a <= B)%R).
  { intros a B HB Ha. destruct (Rle_lt_dec (Rabs a) B) as [|L]; [assumption|exfalso]. rewrite <- (Rabs_pos_eq (a * a)) in Ha by apply Rle_0_sqr. rewrite Rabs_mult in Ha.
    assert (B * B < Rabs a * Rabs a)%R by (apply Rmult_le_0_lt_compat; lra). lra. }
  assert (P : forall a : R, (0 <= a * a)%R) by (intros a; apply Rle_0_sqr).
  assert (F1 : (Rabs (s1 * 1000 - h1) <= / 4000000000)%R) by (apply Rabs_le_inv in E1; apply Rabs_le; lra).
  assert (F2 : (Rabs (s2 * 1000 - h2) <= / 4000000000)%R) by (apply Rabs_le_inv in E2; apply Rabs_le; lra).
  assert (F3 : (Rabs (s3 * 1000 - h3) <= / 4000000000)%R) by (apply Rabs_le_inv in E3; apply Rabs_le; lra).
  pose proof (P h1) as P1. pose proof (P h2) as P2. pose proof (P h3) as P3.
  pose proof (P (h1 - l1)%R) as Q1. pose proof (P (h2 - l2)%R) as Q2. pose proof (P (h3 - l3)%R) as Q3.
  set (e1 := (s1 * 1000 - h1)%R) in *. set (e2 := (s2 * 1000 - h2)%R) in *. set (e3 := (s3 * 1000 - h3)%R) in *.
  split.
  - destruct (K h1 e1 2%R) as [G1|?]; [|lra]. destruct (K h2 e2 2%R) as [G2|?]; [|lra]. destruct (K h3 e3 2%R) as [G3|?]; [|lra].
    specialize (G1 (Sq h1 2%R ltac:(lra) ltac:(lra)) ltac:(lra) F1). specialize (G2 (Sq h2 2%R ltac:(lra) ltac:(lra)) ltac:(lra) F2). specialize (G3 (Sq h3 2%R ltac:(lra) ltac:(lra)) ltac:(lra) F3).
    replace (s1 * 1000)%R with (h1 + e1)%R by (unfold e1; ring). replace (s2 * 1000)%R with (h2 + e2)%R by (unfold e2; ring). replace (s3 * 1000)%R with (h3 + e3)%R by (unfold e3; ring). lra.
  - set (B := (13/1000)%R). destruct (K (h1 - l1)%R e1 B) as [G1|?]; [|unfold B in *; lra]. destruct (K (h2 - l2)%R e2 B) as [G2|?]; [|unfold B in *; lra]. destruct (K (h3 - l3)%R e3 B) as [G3|?]; [|unfold B in *; lra].
    unfold B in *.
    specialize (G1 (Sq (h1 - l1)%R (13/1000)%R ltac:(lra) ltac:(lra)) ltac:(lra) F1). specialize (G2 (Sq (h2 - l2)%R (13/1000)%R ltac:(lra) ltac:(lra)) ltac:(lra) F2).
    specialize (G3 (Sq (h3 - l3)%R (13/1000)%R ltac:(lra) ltac:(lra)) ltac:(lra) F3).
    replace (s1 * 1000 - l1)%R with (h1 - l1 + e1)%R by (unfold e1; ring). replace (s2 * 1000 - l2)%R with (h2 - l2 + e2)%R by (unfold e2; ring).
    replace (s3 * 1000 - l3)%R with (h3 - l3 + e3)%R by (unfold e3; ring). lra.
Qed.
Lemma comp_two : forall a : vec float, (rnorm2 a <= 39961/10000 -> Rabs (val (vx _ a)) <= 2 /\ Rabs (val (vy _ a)) <= 2 /\ Rabs (val (vz _ a)) <= 2)%R.
Proof.
  intros [a b c] H. unfold rnorm2, rdot in H. cbn [vx vy vz] in *. set (x := val a) in *. set (y := val b) in *. set (z := val c) in *. clearbody x y z.
  assert (P : forall u : R, (0 <= u * u)%R) by (intros u; apply Rle_0_sqr). pose proof (P x). pose proof (P y). pose proof (P z).
  repeat split; apply Rabs_le; nra.
Qed.
(** C54: the position of a limited pose moves with a speed within the limit of the robot, and the speed changes within the
    limit of the acceleration.  Nothing is asked of the requested pose or of the functions on rotations. *)
Theorem C54_doubles : forall rl re rk y pose twist acc, List.length pose = 16%nat -> List.length twist = 6%nat -> List.length acc = 6%nat ->
  pose_start pose twist acc ->
  forall out, limit_rate_cartesian_pose float rl re rk (MAX_TRANSLATIONAL_VELOCITY float) (MAX_TRANSLATIONAL_ACCELERATION float) (MAX_TRANSLATIONAL_JERK float)
    (MAX_ROTATIONAL_VELOCITY float) (MAX_ROTATIONAL_ACCELERATION float) (MAX_ROTATIONAL_JERK float)
    y (map of_bits pose) (map of_bits twist) (map of_bits acc) = Some out ->
  pose_within pose twist (map bits out).
Proof.
  intros rl re rk y pose last acc L1 L2 L3 (F & N1 & An & Ap) out H. rewrite (last_three _ _ 0 L1) in Ap.
  destruct last as [|l1 [|l2 [|l3 [|l4 [|l5 [|l6 [|]]]]]]]; try discriminate L2.
  destruct acc as [|a1 [|a2 [|a3 [|a4 [|a5 [|a6 [|]]]]]]]; try discriminate L3.
  unfold limit_rate_cartesian_pose in H. destruct (all_finite float y); [|discriminate H]. destruct (is_homogeneous_transformation float y); [|discriminate H].
  unfold limit_rate_cartesian_velocity in H. match type of H with context [all_finite float ?l] => destruct (all_finite float l) end; [|discriminate H].
  unfold of_vecs at 1 in H. cbn [map to_vecs] in H.
  assert (Fb : forall b, In b [l1; l2; l3; l4; l5; l6] -> b64_fin (of_bits b) = true) by (intros b Hb; rewrite Forall_forall in F; apply finite_bits_fin, F, Hb).
  assert (Ab : forall l b, Forall angle l -> In b l -> size 10 (of_bits b)).
  { intros l b Hl Hb. rewrite Forall_forall in Hl. destruct (Hl b Hb) as [A1 A2]. split; [apply finite_bits_fin, A1|]. change (bpow radix2 10) with 1024%R. exact A2. }
  match type of H with context [limit_rate_single_cartesian_velocity float (MAX_TRANSLATIONAL_VELOCITY float) _ _ ?v ?l ?a] =>
    destruct (linear_margin v l a) as (G1 & G2 & G3); [| | |set (o1 := limit_rate_single_cartesian_velocity float (MAX_TRANSLATIONAL_VELOCITY float) _ _ v l a) in *] end.
  { repeat split; apply (Ab [a1; a2; a3; a4; a5; a6]); try assumption; cbn; tauto. }
  { repeat split; apply Fb; cbn; tauto. }
  { unfold norm_within, Properties_Twist.translation in N1. cbn [numbers map firstn squares fold_right] in N1. unfold rnorm2, rdot. cbn [vx vy vz]. unfold number in N1. lra. }
  match type of H with context [of_vecs float o1 ?r] => set (o2 := r) in H end. clearbody o1 o2. destruct o1 as [h1 h2 h3], o2 as [h4 h5 h6].
  unfold of_vecs in H. cbn [to_vecs vx vy vz] in H. match type of H with context [to_homogeneous float ?r _] => set (rr := r) in H end. clearbody rr.
  destruct rr as [[ra rb] rc]. cbn [to_homogeneous] in H. unfold ConvertModel.translation, v_add, v_scale, v_map, v_map2 in H. rewrite !nth_number in H.
  cbn [vx vy vz f_add f_mul float] in H. injection H as <-.
  destruct (comp_two _ G2) as (C1 & C2 & C3). destruct G1 as (K1 & K2 & K3). unfold rnorm2, rdot, rdist2 in *. cbn [vx vy vz] in *.
  pose proof (place_near h1 (of_bits (nth 12 pose 0)) K1 C1 (Ab _ _ Ap (or_introl eq_refl))) as E1.
  pose proof (place_near h2 (of_bits (nth 13 pose 0)) K2 C2 (Ab _ _ Ap (or_intror (or_introl eq_refl)))) as E2.
  pose proof (place_near h3 (of_bits (nth 14 pose 0)) K3 C3 (Ab _ _ Ap (or_intror (or_intror (or_introl eq_refl))))) as E3.
  unfold pose_within, norm_within, place, Properties_Twist.translation. rewrite numbers_bits. rewrite (last_three _ (numbers pose) (number 0)) by (unfold numbers; rewrite map_length; exact L1).
  assert (En : forall i, nth i (numbers pose) (number 0) = number (nth i pose 0)) by (intros i; apply map_nth). rewrite !En. cbn [vals map skipn firstn numbers rate squares fold_right vx vy vz]. unfold number.
  change (b64_div mode_NE (b64_int 1) (b64_int 1000)) with (DELTA_T float).
  set (n1 := val (b64_plus mode_NE (of_bits (nth 12 pose 0)) (b64_mult mode_NE h1 (DELTA_T float)))) in *.
  set (n2 := val (b64_plus mode_NE (of_bits (nth 13 pose 0)) (b64_mult mode_NE h2 (DELTA_T float)))) in *.
  set (n3 := val (b64_plus mode_NE (of_bits (nth 14 pose 0)) (b64_mult mode_NE h3 (DELTA_T float)))) in *. clearbody n1 n2 n3.
  destruct (place_bounds _ _ _ (val (of_bits l1)) (val (of_bits l2)) (val (of_bits l3)) _ _ _ G2 G3 E1 E2 E3) as [Z1 Z2].
  unfold robot_speed, robot_speed_rate, cycle. split; lra.
Qed.
Print Assumptions C54_doubles.

(** At the level of the commands. *)
Lemma pose_limited : forall sl rl re rk c v x r, List.length v = 16%nat -> state_ok x ->
  convert_pose float sl rl re rk c true v (reported_of x) = Some r ->
  pose_start (rs_O_T_EE_c x) (rs_O_dP_EE_c x) (rs_O_ddP_EE_c x) -> pose_within (rs_O_T_EE_c x) (rs_O_dP_EE_c x) (map bits r).
Proof.
  intros sl rl re rk c v x r L W C S.
  assert (W6 : List.length (rs_O_ddP_EE_c x) = 6%nat).
  { destruct W as (_ & _ & _ & _ & _ & _ & _ & _ & _ & A6 & _). rewrite Forall_forall in A6. apply A6. cbn. tauto. }
  pose proof (state_pose x W) as W16.
  apply then_some in C. destruct C as (y & Fl & C). apply then_some in C. destruct C as (z & G & C).
  destruct (check_matrix float z); [|discriminate C]. injection C as <-. cbn [limited reported_of p_O_T_EE_c p_O_dP_EE_c p_O_ddP_EE_c] in G.
  state_lengths W. eapply C54_doubles; [| | |exact S|exact G]; assumption.
Qed.
Definition pose_kept (g : move_mg) (x : robot_state_intern) (m : motion_command) : Prop :=
  g = MmCartesianPosition -> pose_start (rs_O_T_EE_c x) (rs_O_dP_EE_c x) (rs_O_ddP_EE_c x) -> pose_within (rs_O_T_EE_c x) (rs_O_dP_EE_c x) (mc_O_T_EE_c m).
Lemma convert_pose_kept : forall rots u k x dt k' o m m', limiting u -> u_motion u k x dt = Some (k', o) -> state_ok x ->
  convert_motion rots (u_generator u) (cutoff_of u) (limit_of u) o x m = Some m' -> pose_kept (u_generator u) x m'.
Proof.
  intros rots u k x dt k' o m m' U E W H G S. rewrite (limiting_on u U) in H. destruct U as [[T _] _].
  apply T in E. destruct E as [[L _] _]. unfold convert_motion in H. rewrite G in *. cbn [dimension] in L.
  destruct (convert_pose float _ _ _ _ _ _ _ _) as [r|] eqn:C; [|discriminate].
  destruct (convert_elbow float _ _ _ _) as [[f e]|] eqn:D; [|discriminate]. injection H as <-. cbn [mc_O_T_EE_c].
  eapply pose_limited; [|exact W|exact C|exact S]. rewrite map_length. exact L.
Qed.
(** C54: the position sent is reached from the one of the state answered within the limits of speed and acceleration of
    the robot. *)
Theorem C54_commands : forall t1 a c t2 x, typed_history limiting (t1 ++ EvCommand a c :: t2) -> completed t2 = false ->
  motion_mode t2 = Some MmCartesianPosition -> last_state t2 = Some x ->
  pose_start (rs_O_T_EE_c x) (rs_O_dP_EE_c x) (rs_O_ddP_EE_c x) -> pose_within (rs_O_T_EE_c x) (rs_O_dP_EE_c x) (mc_O_T_EE_c (rc_motion c)).
Proof.
  intros t1 a c t2 x H C Mx Lx. pose proof (typed_is_history _ _ H) as Hh.
  assert (O : outs_ok pose_kept (fun _ _ => True) (t1 ++ EvCommand a c :: t2)).
  { apply (typed_outs limiting pose_kept (fun _ _ => True) (fun _ _ => True)); auto.
    intros rots u k y dt k' o m m' U E _ W Co. split; [|exact Logic.I]. exact (convert_pose_kept _ _ _ _ _ _ _ _ _ U E W Co). }
  destruct (command_fresh _ _ _ _ _ _ Hh O C) as (y & m & g' & Ly & K & Mo & ->).
  rewrite Lx in Ly. injection Ly as <-. rewrite Mx in Mo. injection Mo as <-. apply K. reflexivity.
Qed.
Print Assumptions C54_commands.
(** A pose 10 m away is asked for at once: a position 6.5 micrometres away is sent. *)
Definition ex_leap : user_control :=
  UserControl N MmCartesianPosition (fun k _ _ => Some (k + 1, MotionOut
    [one_bits; 0; 0; 0; 0; one_bits; 0; 0; 0; 0; one_bits; 0; bits (f_int float 10); 0; 0; one_bits] None (k =? 2))) None None None None.
Definition ex_leap_run : list event := trace (program 1337 [AControl (controller_of ex_rots ex_leap) 0] ex_env_pose).
Lemma ex_leap_typed : typed_history limiting ex_leap_run.
Proof.
  unfold typed_history, history, ex_leap_run, ex_env_pose. exists 1337, [AControl (controller_of ex_rots ex_leap) 0]. do 7 eexists. split.
  - apply Forall_cons; [|apply Forall_nil]. exists ex_rots, ex_leap. split; [reflexivity|]. split; [|discriminate]. split; [|discriminate].
    intros k x dt k' o [= <- <-]. split; [split; [reflexivity|repeat constructor]|]. intros e0 e1. discriminate.
  - reflexivity.
Qed.
Lemma rest_pose : pose_start (repeat 0 16) (repeat 0 6) (repeat 0 6).
Proof.
  destruct rest_start as (F & N1 & _ & A). split; [exact F|]. split; [exact N1|]. split; [exact A|].
  inversion A as [|? ? Z A']; subst. cbn [repeat skipn firstn]. repeat (apply Forall_cons; [exact Z|]). apply Forall_nil.
Qed.
Example C54_ex_commands : typed_history limiting ex_leap_run /\
  exists t1 a c t2, ex_leap_run = t1 ++ EvCommand a c :: t2 /\ completed t2 = false /\ motion_mode t2 = Some MmCartesianPosition /\
    (exists x, last_state t2 = Some x /\ pose_start (rs_O_T_EE_c x) (rs_O_dP_EE_c x) (rs_O_ddP_EE_c x)) /\
    nth 12 (mc_O_T_EE_c (rc_motion c)) 0 = 4529287870234049537.
Proof.
  split; [exact ex_leap_typed|].
  destruct (command_in ex_leap_run 5 (fun c t2 => completed t2 = false /\ motion_mode t2 = Some MmCartesianPosition /\
    last_state t2 = Some (ex_rs 5 MgCartesianPosition CmJointImpedance RmMove) /\ nth 12 (mc_O_T_EE_c (rc_motion c)) 0 = 4529287870234049537))
    as (t1 & a & c & t2 & E & C & M & L & V).
  { vm_compute. auto. }
  exists t1, a, c, t2. split; [exact E|]. split; [exact C|]. split; [exact M|]. split; [|exact V]. eexists. split; [exact L|]. exact rest_pose.
Qed.
