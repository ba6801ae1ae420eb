(** C67: [Robot::joint_motion] in double arithmetic: it ends in time, at the goal, and the call succeeds. *)
From Coq Require Import List NArith ZArith Bool Lia Lra Arith Reals.
From Flocq Require Import Core IEEE754.BinarySingleNaN IEEE754.Binary IEEE754.Bits.
From Verif Require Import Bytes Codec NumOps NumFloat FloatFacts SizeFacts RateModel RateSpec ConvertModel WireModel WireSpec UdpModel
  RobotModel LoopModel RobotSpec Outputs TypedModel TypedSpec ConvertFacts TypedProofs RobotScenario Properties_Robot Properties_Rate
  Properties_Rate64 Properties_Convert Properties_Commands Properties_Filter Properties_Pose AcceptProofs LiveUdp LiveSpec LiveProofs Properties_Live
  Properties_Accept MotionModel JointMotionModel MotionRun.
Import ListNotations.
Open Scope list_scope.
Open Scope R_scope.

(** * The generator *)
(** A speed factor from 1/1024 to 1; seven joint angles of at most 4 rad (the joint ranges of the robot are smaller). *)
Definition speed_factor_ok (s : F float) : Prop := b64_fin s = true /\ / 1024 <= val s <= 1.
Definition in_reach (q : list (F float)) : Prop := List.length q = 7%nat /\ Forall (fun x => b64_fin x = true /\ Rabs (val x) <= 4) q.
(** Two positions which differ by a micrometre's worth of angle at most (the tolerance of the generator). *)
Definition at_position (p q : list (F float)) : Prop :=
  List.length p = List.length q /\ Forall2 (fun x y => Rabs (val x - val y) <= / 1000000 + / 100000000000000) p q.
(** Calls at whole milliseconds; the time until the [k]th. *)
Definition in_seconds (calls : list (list (F float) * N)) : list (list (F float) * F float) := map (fun c => (fst c, as_secs_f64 (snd c))) calls.
Definition total_ms (calls : list (list (F float) * N)) : R := fold_right (fun c r => IZR (Z.of_N (snd c)) + r) 0 calls.

Lemma reach_range : forall q, in_reach q -> in_range q.
Proof.
  intros q [L A]. split; [exact L|]. intros i H. rewrite Forall_forall in A. apply A. apply nth_In. lia.
Qed.
Lemma total_is : forall l, elapsed_ms l = total_ms l.
Proof. induction l as [|[q p] l IH]; [reflexivity|]. cbn [elapsed_ms total_ms fold_right snd]. rewrite IH. reflexivity. Qed.
Lemma near_all : forall p q, List.length p = 7%nat -> List.length q = 7%nat -> (forall i, (i < 7)%nat -> Rabs (val (joint float p i) - val (joint float q i)) <= miss) -> at_position p q.
Proof.
  intros p q Lp Lq H. split; [lia|]. 
  assert (A : forall n (p q : list (F float)), List.length p = n -> List.length q = n -> (forall i, (i < n)%nat -> Rabs (val (joint float p i) - val (joint float q i)) <= miss) ->
    Forall2 (fun x y => Rabs (val x - val y) <= / 1000000 + / 100000000000000) p q).
  { clear. induction n as [|n IH]; intros [|x p] [|y q] Lp Lq H; try discriminate Lp; try discriminate Lq; [constructor|]. constructor; [apply (H 0%nat); lia|].
    apply IH; [injection Lp; auto|injection Lq; auto|]. intros i Hi. apply (H (S i)). lia. }
  apply (A 7%nat); assumption.
Qed.
Lemma command_facts : forall s goal q0 t o, in_range goal -> in_range q0 -> command_ok s goal q0 t o ->
  List.length (fst o) = 7%nat /\ Forall (fun x => b64_fin x = true /\ Rabs (val x) <= 40) (fst o) /\ (snd o = true -> at_position (fst o) goal) /\ (t = 0 -> at_position (fst o) q0).
Proof.
  intros s goal q0 t o [Lg _] [Lq _] (L & C & _ & _). split; [exact L|]. split; [|split].
  - apply Forall_forall. intros x I. apply (In_nth _ _ (f_int float 0)) in I. destruct I as (i & Hi & <-). destruct (C i ltac:(lia)) as (F & B & _). split; assumption.
  - intros S. apply near_all; [exact L|exact Lg|]. intros i H. apply (C i H), S.
  - intros S. apply near_all; [exact L|exact Lq|]. intros i H. apply (C i H), S.
Qed.
(** C67: the generator in double arithmetic, up to the first finished call. *)
Theorem C67_generator : forall s goal q0 calls, speed_factor_ok s -> in_reach goal -> in_reach q0 -> Forall (fun c => (1 <= snd c < 2 ^ 64)%N) calls ->
  let out := generate float (generator_new float s goal) (in_seconds ((q0, 0%N) :: calls)) in
  forall k o, nth_error out k = Some o -> (forall j o', (j < k)%nat -> nth_error out j = Some o' -> snd o' = false) ->
  List.length (fst o) = 7%nat /\ Forall (fun x => b64_fin x = true /\ Rabs (val x) <= 40) (fst o) /\
  (k = 0%nat -> at_position (fst o) q0) /\ (snd o = true -> at_position (fst o) goal) /\
  (7001 / val s <= total_ms (firstn k calls) -> snd o = true).
Proof.
  intros s goal q0 calls [Fs Bs] G Q St out k o N B. apply reach_range in G. apply reach_range in Q.
  destruct (run_ok s Fs Bs goal q0 G Q calls St k o N B) as (t & T0 & Tp & C & L). destruct (command_facts _ _ _ _ _ G Q C) as (Lo & A & E & S).
  split; [exact Lo|]. split; [exact A|]. split; [auto|]. split; [exact E|].
  intros H. rewrite <- total_is in H. apply C. assert (P : 0 < val s) by lra.
  assert (H' : 7001 <= elapsed_ms (firstn k calls) * val s).
  { apply Rmult_le_compat_r with (r := val s) in H; [|lra]. replace (7001 / val s * val s) with 7001 in H by (field; lra). exact H. }
  destruct L as [L|L].
  - apply Rmult_le_compat_r with (r := val s) in L; [|lra]. lra.
  - apply Rle_trans with (16384 * val s); [lra|]. apply Rmult_le_compat_r; lra.
Qed.
Print Assumptions C67_generator.

(** The greatest speeds (rad/s) of the joints at speed factor 1. *)
Definition motion_speeds : list R := [2; 2; 2; 2; 5 / 2; 5 / 2; 5 / 2].
Definition none_finished (out : list (list (F float) * bool)) (k : nat) : Prop := forall j o, (j < k)%nat -> nth_error out j = Some o -> snd o = false.
Lemma speeds_are : forall i, (i < 7)%nat -> nth i motion_speeds 0 = top_speed i.
Proof. intros i H. do 7 (destruct i as [|i]; [reflexivity|]). lia. Qed.
(** C67: from one call to the next, [p] ms later, no joint moves faster than its greatest speed times the speed factor. *)
Theorem C67_speed : forall s goal q0 calls, speed_factor_ok s -> in_reach goal -> in_reach q0 -> Forall (fun c => (1 <= snd c < 2 ^ 64)%N) calls ->
  let out := generate float (generator_new float s goal) (in_seconds ((q0, 0%N) :: calls)) in
  forall k a b q p, nth_error out k = Some a -> nth_error out (S k) = Some b -> nth_error calls k = Some (q, p) -> none_finished out (S k) ->
  forall i, (i < 7)%nat -> let h := IZR (Z.of_N p) / 1000 in
  Rabs (val (nth i (fst b) (f_int float 0)) - val (nth i (fst a) (f_int float 0))) <= nth i motion_speeds 0 * val s * (1 + / 10000) * h + / 100000000000.
Proof.
  intros s goal q0 calls [Fs Bs] G Q St out k a b q p Na Nb Np B i H h. apply reach_range in G. apply reach_range in Q. rewrite speeds_are by exact H.
  destruct (run_trace s Fs Bs goal q0 G Q calls St) as (f & tau & Sl & _ & R). cbv zeta in R. change (as_calls ((q0, 0%N) :: calls)) with (in_seconds ((q0, 0%N) :: calls)) in R. fold out in R. clearbody out.
  destruct (R k a Na) as [Ca _]; [intros j o Hj; apply B; lia|]. destruct (R (S k) b Nb) as [Cb Tb]; [intros j o Hj; apply B; lia|]. specialize (Ca i H). specialize (Cb i H). specialize (Tb k q p eq_refl Np).
  unfold joint in Ca, Cb. set (x := val (nth i (fst a) (f_int float 0))) in *. set (y := val (nth i (fst b) (f_int float 0))) in *. clearbody x y.
  assert (Pp : 1 <= ms p). { rewrite Forall_forall in St. apply nth_error_In in Np. specialize (St _ Np). cbn [snd] in St. unfold ms. apply (IZR_le 1). lia. }
  unfold ms in Pp. unfold late, ms in Tb. fold h in Tb. assert (Ph : / 1000 <= h) by (unfold h; lra). clearbody h. apply Rabs_le_inv in Tb.
  assert (L : tau k <= tau (S k)) by lra. pose proof (Sl i _ _ H L) as D. set (w := top_speed i * val s) in *.
  assert (W : 0 <= w <= 5 / 2). { unfold w. destruct (top_is i) as [-> | ->]; lra. } clearbody w.
  assert (D' : Rabs (f i (tau (S k)) - f i (tau k)) <= w * (1 + / 20000) * (h + (/ 500000000000 + h * / 100000000000000))) by (eapply Rle_trans; [exact D|]; apply Rmult_le_compat_l; [nra|lra]).
  assert (wh : 0 <= w * h) by (apply Rmult_le_pos; lra).
  replace (w * (1 + / 20000) * (h + (/ 500000000000 + h * / 100000000000000))) with (w * h * ((1 + / 20000) * (1 + / 100000000000000)) + w * ((1 + / 20000) * / 500000000000)) in D' by ring.
  replace (w * (1 + / 10000) * h) with (w * h * (1 + / 10000)) by ring. unfold off, MotionClose.near in *. apply Rabs_le_inv in Ca. apply Rabs_le_inv in Cb. apply Rabs_le_inv in D'. apply Rabs_le. lra.
Qed.
Print Assumptions C67_speed.
(** C67: over three calls, each [p] ms after the other, no joint accelerates more than 5 rad/s^2 times the speed factor. *)
Theorem C67_acceleration : forall s goal q0 calls, speed_factor_ok s -> in_reach goal -> in_reach q0 -> Forall (fun c => (1 <= snd c < 2 ^ 64)%N) calls ->
  let out := generate float (generator_new float s goal) (in_seconds ((q0, 0%N) :: calls)) in
  forall k a b c q q' p, nth_error out k = Some a -> nth_error out (S k) = Some b -> nth_error out (S (S k)) = Some c ->
  nth_error calls k = Some (q, p) -> nth_error calls (S k) = Some (q', p) -> none_finished out (S (S k)) ->
  forall i, (i < 7)%nat -> let h := IZR (Z.of_N p) / 1000 in let at_call o := val (nth i (fst o) (f_int float 0)) in
  Rabs (at_call c - 2 * at_call b + at_call a) <= 5 * val s * (1 + / 1000000) * (h * h) + / 50000000000.
Proof.
  intros s goal q0 calls [Fs Bs] G Q St out k a b c q q' p Na Nb Nc Np Np' B i H h at_call. apply reach_range in G. apply reach_range in Q.
  destruct (run_trace s Fs Bs goal q0 G Q calls St) as (f & tau & Sl & Bd & R). cbv zeta in R. change (as_calls ((q0, 0%N) :: calls)) with (in_seconds ((q0, 0%N) :: calls)) in R. fold out in R. clearbody out.
  destruct (R k a Na) as [Ca _]; [intros j o Hj; apply B; lia|]. destruct (R (S k) b Nb) as [Cb Tb]; [intros j o Hj; apply B; lia|]. destruct (R (S (S k)) c Nc) as [Cc Tc]; [intros j o Hj; apply B; lia|].
  specialize (Ca i H). specialize (Cb i H). specialize (Cc i H). specialize (Tb k q p eq_refl Np). specialize (Tc (S k) q' p eq_refl Np'). unfold joint in Ca, Cb, Cc. unfold at_call. clear at_call.
  set (x := val (nth i (fst a) (f_int float 0))) in *. set (y := val (nth i (fst b) (f_int float 0))) in *. set (z := val (nth i (fst c) (f_int float 0))) in *. clearbody x y z.
  assert (Pp : 1 <= ms p). { rewrite Forall_forall in St. apply nth_error_In in Np. specialize (St _ Np). cbn [snd] in St. unfold ms. apply (IZR_le 1). lia. }
  unfold ms in Pp. unfold late, ms in Tb, Tc. fold h in Tb, Tc. assert (Ph : / 1000 <= h) by (unfold h; lra). clearbody h. apply Rabs_le_inv in Tb. apply Rabs_le_inv in Tc.
  set (w := top_speed i * val s * (1 + / 20000)) in *. assert (W : 0 <= w <= 2501 / 1000). { unfold w. destruct (top_is i) as [-> | ->]; lra. }
  set (e := / 500000000000 + h * / 100000000000000) in *.
  assert (Near : forall r t, Rabs (r - t) <= e -> Rabs (f i r - f i t) <= w * e).
  { intros r t E. destruct (Rle_dec t r) as [L|L].
    - pose proof (Sl i t r H L) as D. fold w in D. eapply Rle_trans; [exact D|]. apply Rmult_le_compat_l; [lra|]. apply Rabs_le_inv in E. lra.
    - pose proof (Sl i r t H ltac:(lra)) as D. fold w in D. rewrite Rabs_minus_sym. eapply Rle_trans; [exact D|]. apply Rmult_le_compat_l; [lra|]. apply Rabs_le_inv in E. lra. }
  pose proof (Near (tau (S (S k))) (tau (S k) + h) ltac:(apply Rabs_le; lra)) as N2. pose proof (Near (tau k) (tau (S k) - h) ltac:(apply Rabs_le; lra)) as N0. pose proof (Bd i (tau (S k)) h H) as N1.
  assert (We : w * e <= 2501 / 1000 * e) by (apply Rmult_le_compat_r; [unfold e; lra|lra]). clearbody w.
  assert (Hh : h * / 100000000000000 <= h * h * / 100000000000). { replace (h * / 100000000000000) with (h * (/ 1000 * / 100000000000)) by field. rewrite Rmult_assoc. apply Rmult_le_compat_l; [lra|]. apply Rmult_le_compat_r; lra. }
  assert (H0 : 0 <= h * h) by apply Rle_0_sqr. assert (Hs : / 1024 * (h * h) <= val s * (h * h)) by (apply Rmult_le_compat_r; lra).
  replace (5 * val s * (1 + / 1000000000000) * (h * h)) with (5 * (1 + / 1000000000000) * (val s * (h * h))) in N1 by ring. replace (5 * val s * (1 + / 1000000) * (h * h)) with (5 * (1 + / 1000000) * (val s * (h * h))) by ring.
  set (sh := val s * (h * h)) in *. set (hh := h * h) in *. clearbody sh hh. unfold e in *. unfold off, MotionClose.near in *.
  apply Rabs_le_inv in Ca. apply Rabs_le_inv in Cb. apply Rabs_le_inv in Cc. apply Rabs_le_inv in N0. apply Rabs_le_inv in N1. apply Rabs_le_inv in N2. apply Rabs_le. lra.
Qed.
Print Assumptions C67_acceleration.

(** * Control calls whose callback gives these outputs *)
(** The motion callback, called with these states one after the other, gives these outputs. *)
Fixpoint gives (u : user_control) (k : u_cb u) (before : N) (xs : list robot_state_intern) (os : list motion_out) : Prop :=
  match xs, os with
  | [], [] => True
  | x :: xs, o :: os => exists k', u_motion u k x (rs_message_id x - before)%N = Some (k', o) /\ gives u k' (rs_message_id x) xs os
  | _, _ => False
  end.
Lemma gives_finishes : forall rots u, u_torque u = None -> usable_cutoff (cutoff_of u) -> modelled (u_generator u) (cutoff_of u) (limit_of u) ->
  forall xs k before m os x o, Forall sound (xs ++ [x]) -> gives u k before (xs ++ [x]) (os ++ [o]) -> Forall (fun o => good_output (u_generator u) o /\ o_finished o = false) os ->
  good_output (u_generator u) o -> o_finished o = true -> finishes (controller_of rots u) k before m (xs ++ [x]).
Proof.
  intros rots u Tn Uc Mo. induction xs as [|y xs IH]; intros k before m os x o Hs G A Go Fo.
  - destruct os as [|o' os]; cbn [app gives] in G.
    + destruct G as (k' & E & _). cbn [app finishes]. unfold cycle. cbn [controller_of k_motion k_convert k_torque k_finished k_filter k_cb]. rewrite E. rewrite Tn.
      inversion Hs; subst. destruct (C65_accepted rots (u_generator u) (cutoff_of u) (limit_of u) o x m Uc H1 Go Mo) as (m' & ->). rewrite Fo. reflexivity.
    + destruct G as (k' & _ & G). destruct os; cbn [app gives] in G; contradiction.
  - destruct os as [|o' os]; cbn [app gives] in G.
    + destruct G as (k' & _ & G). destruct xs; cbn [app gives] in G; contradiction.
    + destruct G as (k' & E & G). inversion A as [|a b [Go' Fo'] A']. subst. cbn [app] in Hs. inversion Hs as [|a b Sy Hs']. subst. cbn [app finishes]. unfold cycle.
      cbn [controller_of k_motion k_convert k_torque k_finished k_filter k_cb]. rewrite E. rewrite Tn.
      destruct (C65_accepted rots (u_generator u) (cutoff_of u) (limit_of u) o' y m Uc Sy Go' Mo) as (m' & ->). rewrite Fo'. apply (IH _ _ _ os x o); assumption.
Qed.
(** C65: a motion without torque callback succeeds if the outputs given in this very call are as documented. *)
Theorem C65_given : forall rots u cb o us urest ts trest s xs x os out, ready (us ++ urest) (ts ++ trest) s ->
  u_torque u = None -> usable_cutoff (cutoff_of u) -> modelled (u_generator u) (cutoff_of u) (limit_of u) ->
  let k := controller_of rots u in
  feeds (r_message_id s) (all_states o) us ->
  (exists t1 t2, answer (n_id s) MsMotionStarted t1 /\ answer (n_id s) MsSuccess t2 /\ ts = t1 ++ repeat None (S (List.length (mo_before o))) ++ t2) ->
  Forall (fun x => ~ as_requested k x) (mo_before o) -> as_requested k (mo_shown o) ->
  Forall (fun x => rs_robot_mode x = RmMove /\ as_requested k x /\ sound x) (run_states o) ->
  Forall in_motion (mo_ending o) -> stopped (mo_last o) ->
  run_states o = xs ++ [x] -> gives u cb (rs_message_id (mo_first o)) (xs ++ [x]) (os ++ [out]) ->
  Forall (fun o => good_output (u_generator u) o /\ o_finished o = false) os -> good_output (u_generator u) out -> o_finished out = true ->
  exists s', control k cb s = (Ok tt, s') /\ ready urest trest s'.
Proof.
  intros rots u cb o us urest ts trest s xs x os out R Tn Uc Mo k F T Be Sh Ru En La Er G A Go Fo.
  assert (Hs : Forall sound (run_states o)) by (eapply Forall_impl; [|exact Ru]; cbn beta; tauto).
  destruct (C61_control k cb o us urest ts trest s R) as (s' & E & R' & _); [|exists s'; auto].
  constructor; auto; [eapply Forall_impl; [|exact Ru]; cbn beta; tauto|].
  rewrite Er in *. apply (gives_finishes rots u Tn Uc Mo xs cb _ _ os x out); assumption.
Qed.
Print Assumptions C65_given.

(** * The motions of [joint_motion] *)
Lemma as_output : forall o, Forall (fun x => b64_fin x = true /\ Rabs (val x) <= 40) (fst o) -> List.length (fst o) = 7%nat ->
  good_output MmJointPosition (MotionOut (map bits (fst o)) None (snd o)).
Proof.
  intros o A L. split; [|discriminate]. cbn [good_values o_values dimension]. split; [rewrite map_length; exact L|]. apply Forall_map. eapply Forall_impl; [|exact A].
  intros x [F B]. split; [apply bits_finite, F|]. unfold number. rewrite of_bits_bits. lra.
Qed.
Definition moment (x : robot_state_intern) : R := IZR (Z.of_N (rs_message_id x)).
Definition ends_at (goal : list N) (o : motion_out) : Prop :=
  Forall2 (fun a b => Rabs (number a - number b) <= / 1000000 + / 100000000000000) (o_values o) goal.
Lemma ends_of : forall goal (o : list (F float) * bool) e f, at_position (fst o) (map of_bits goal) -> ends_at goal (MotionOut (map bits (fst o)) e f).
Proof.
  intros goal o e f [_ A]. unfold ends_at. cbn [o_values]. revert goal A. induction (fst o) as [|x l IH]; intros [|b goal] A; cbn [map] in A |- *; inversion A; subst; constructor.
  - unfold number at 1. rewrite of_bits_bits. exact H2.
  - apply IH. assumption.
Qed.
Lemma motion_step : forall g x p, exists r, r = generate_motion float g (map of_bits (rs_q_d x)) (as_secs_f64 p) /\
  u_motion joint_motion g x p = Some (fst r, MotionOut (map bits (fst (snd r))) None (snd (snd r))).
Proof. intros g x p. eexists. split; reflexivity. Qed.
Lemma first_step : forall speed goal x, exists r, r = generate_motion float (generator_new float (of_bits speed) (map of_bits goal)) (map of_bits (rs_q_d x)) (as_secs_f64 0) /\
  u_motion joint_motion (joint_motion_start speed goal) x (rs_message_id x - rs_message_id x)%N = Some (fst r, MotionOut (map bits (fst (snd r))) None (snd (snd r))).
Proof. intros speed goal x. rewrite N.sub_diag. exact (motion_step (joint_motion_start speed goal) x 0%N). Qed.
Lemma later_states : forall s goal q0 start, b64_fin s = true -> / 1024 <= val s <= 1 -> in_range (map of_bits goal) -> in_range q0 ->
  forall xs g before, set_up s (way (map of_bits goal) q0) (map of_bits goal) q0 g -> b64_fin (g_time float g) = true -> 0 <= val (g_time float g) < 7168 ->
  (IZR (Z.of_N before) - start) / 1000 * (1 - / 1000000) <= val (g_time float g) -> newer before xs -> Forall sound xs ->
  (exists x, In x xs /\ 7001 / val s <= moment x - start) ->
  exists pre x post os o, xs = pre ++ x :: post /\ gives joint_motion g before (pre ++ [x]) (os ++ [o]) /\
    Forall (fun o => good_output MmJointPosition o /\ o_finished o = false) os /\ good_output MmJointPosition o /\ o_finished o = true /\ ends_at goal o /\
    Forall (fun x => moment x - start < 7001 / val s) pre.
Proof.
  intros s goal q0 start Fs Bs G Q. induction xs as [|x xs IH]; intros g before U Ft Bt He Nw Hs Ex; [destruct Ex as (x & [] & _)|].
  cbn [newer] in Nw. destruct Nw as [N1 N2]. inversion Hs as [|a b Sx Hs']. subst. pose proof (so_ok x Sx) as W.
  assert (Id : (rs_message_id x < 2 ^ 64)%N) by (apply W).
  set (p := (rs_message_id x - before)%N). assert (Bp : (1 <= p < 2 ^ 64)%N) by (unfold p; lia).
  destruct (later_call s Bs _ q0 G Q g (map of_bits (rs_q_d x)) p U Ft Bt Bp) as (U' & Et & C). destruct (next_time _ p Ft Bt Bp) as (Fn & Pn & Ln).
  destruct (motion_step g x p) as (r & Er & Um). rewrite <- Er in U', Et, C. clear Er.
  destruct (command_facts _ _ _ _ _ G Q C) as (Lo & A & E & _). pose proof (as_output (snd r) A Lo) as Go.
  assert (Mp : ms p = moment x - IZR (Z.of_N before)).
  { unfold ms, moment, p. rewrite <- minus_IZR. f_equal. lia. }
  assert (Done : 7001 / val s <= moment x - start -> snd (snd r) = true).
  { intros H. apply C. rewrite Et. assert (P : 0 < val s) by lra. assert (H' : 7001 <= (moment x - start) * val s).
    { apply Rmult_le_compat_r with (r := val s) in H; [|lra]. replace (7001 / val s * val s) with 7001 in H by (field; lra). exact H. }
    destruct Ln as [Ln|Ln]; [|apply Rle_trans with (16384 * val s); [lra|]; apply Rmult_le_compat_r; lra].
    assert (L2 : (moment x - start) / 1000 * (1 - / 1000000) <= val (f_add float (g_time float g) (as_secs_f64 p))) by lra.
    apply Rmult_le_compat_r with (r := val s) in L2; [|lra]. lra. }
  destruct (snd (snd r)) eqn:Fin; try (rewrite Fin in Go).
  - exists [], x, xs, [], (MotionOut (map bits (fst (snd r))) None true). split; [reflexivity|]. split; [cbn [app gives]; exists (fst r); auto|].
    split; [constructor|]. split; [exact Go|]. split; [reflexivity|]. split; [apply ends_of, E; reflexivity|constructor].
  - assert (Lx : moment x - start < 7001 / val s) by (apply Rnot_le_lt; intros H; specialize (Done H); discriminate Done).
    assert (Bn : val (f_add float (g_time float g) (as_secs_f64 p)) < 7168) by (rewrite <- Et; apply C; exact Fin).
    destruct (IH (fst r) (rs_message_id x)) as (pre & y & post & os & o & Ey & Gy & Ay & Gy' & Fy & Hy & Py); try assumption.
    + rewrite Et. exact Fn.
    + rewrite Et. lra.
    + rewrite Et. fold (moment x). destruct Ln as [Ln|Ln]; lra.
    + destruct Ex as (z & [<-|I] & Hz); [lra|]. exists z. auto.
    + exists (x :: pre), y, post, (MotionOut (map bits (fst (snd r))) None false :: os), o. split; [rewrite Ey; reflexivity|].
      split; [cbn [app gives]; exists (fst r); split; [exact Um|exact Gy]|]. split; [constructor; [split; [exact Go|reflexivity]|exact Ay]|].
      split; [exact Gy'|]. split; [exact Fy|]. split; [exact Hy|]. constructor; assumption.
Qed.
(** A goal and a speed factor as arguments of [joint_motion], a state in reach. *)
Definition request_ok (speed : N) (goal : list N) : Prop := speed_factor_ok (of_bits speed) /\ in_reach (map of_bits goal).
(** C67: whatever states a robot sends, the callback ends within 7.001 s divided by the speed factor, at the goal. *)
Theorem C67_ends : forall speed goal x xs, request_ok speed goal -> Forall sound (x :: xs) -> in_reach (map of_bits (rs_q_d x)) ->
  newer (rs_message_id x) xs -> (exists y, In y xs /\ 7001 / number speed <= moment y - moment x) ->
  exists pre y post os o, x :: xs = pre ++ y :: post /\
    gives joint_motion (joint_motion_start speed goal) (rs_message_id x) (pre ++ [y]) (os ++ [o]) /\
    Forall (fun o => good_output MmJointPosition o /\ o_finished o = false) os /\ good_output MmJointPosition o /\ o_finished o = true /\ ends_at goal o /\
    Forall (fun z => moment z - moment x < 7001 / number speed) pre.
Proof.
  intros speed goal x xs [[Fs Bs] G] Hs Q Nw Ex. apply reach_range in G. apply reach_range in Q. fold (number speed) in Bs.
  destruct (first_call (of_bits speed) Fs Bs _ _ G Q) as (U & Ft & Vt & C).
  destruct (first_step speed goal x) as (r & Er & Um). rewrite <- Er in U, Ft, Vt, C. clear Er. generalize dependent (joint_motion_start speed goal). intros g0 Um.
  destruct (command_facts _ _ _ _ _ G Q C) as (Lo & A & E & _). pose proof (as_output (snd r) A Lo) as Go. inversion Hs as [|a b Sx Hs']. subst.
  assert (Sp : 0 < 7001 / number speed) by (apply Rdiv_lt_0_compat; lra).
  destruct (snd (snd r)) eqn:Fin; try (rewrite Fin in Go).
  - exists [], x, xs, [], (MotionOut (map bits (fst (snd r))) None true). split; [reflexivity|]. split; [cbn [app gives]; exists (fst r); auto|].
    split; [constructor|]. split; [exact Go|]. split; [reflexivity|]. split; [apply ends_of, E; reflexivity|constructor].
  - destruct (later_states (of_bits speed) goal _ (moment x) Fs Bs G Q xs (fst r) (rs_message_id x) U Ft) as (pre & y & post & os & o & Ey & Gy & Ay & Gy' & Fy & Hy & Py); try assumption.
    + lra.
    + fold (moment x). lra.
    + exists (x :: pre), y, post, (MotionOut (map bits (fst (snd r))) None false :: os), o. split; [rewrite Ey; reflexivity|].
      split; [cbn [app gives]; exists (fst r); split; [exact Um|exact Gy]|]. split; [constructor; [split; [exact Go|reflexivity]|exact Ay]|].
      split; [exact Gy'|]. split; [exact Fy|]. split; [exact Hy|]. constructor; [lra|exact Py].
Qed.
Print Assumptions C67_ends.
Lemma joint_motion_cutoff : usable_cutoff (cutoff_of joint_motion).
Proof.
  destruct max_cutoff as [F V]. change (usable_cutoff (bits (MAX_CUTOFF_FREQUENCY float))). split; [apply bits_finite, F|]. unfold number. rewrite of_bits_bits, V.
  apply Rle_trans with (bpow radix2 0); [apply bpow_le; lia|]. change (bpow radix2 0) with 1. lra.
Qed.
(** C67: [joint_motion] succeeds with a robot which answers and goes on sending states; the callback is done within 7.001 s / speed factor. *)
Theorem C67_joint_motion : forall speed goal x xs, request_ok speed goal -> Forall sound (x :: xs) -> in_reach (map of_bits (rs_q_d x)) ->
  newer (rs_message_id x) xs -> (exists y, In y xs /\ 7001 / number speed <= moment y - moment x) ->
  exists pre y post, x :: xs = pre ++ y :: post /\ Forall (fun z => moment z - moment x < 7001 / number speed) pre /\
  forall rots o us urest ts trest s, ready (us ++ urest) (ts ++ trest) s ->
    let k := controller_of rots joint_motion in
    feeds (r_message_id s) (all_states o) us ->
    (exists t1 t2, answer (n_id s) MsMotionStarted t1 /\ answer (n_id s) MsSuccess t2 /\ ts = t1 ++ repeat None (S (List.length (mo_before o))) ++ t2) ->
    Forall (fun x => ~ as_requested k x) (mo_before o) -> as_requested k (mo_shown o) ->
    run_states o = pre ++ [y] -> Forall (fun x => rs_robot_mode x = RmMove /\ as_requested k x) (run_states o) ->
    Forall in_motion (mo_ending o) -> stopped (mo_last o) ->
    exists s', control k (joint_motion_start speed goal) s = (Ok tt, s') /\ ready urest trest s'.
Proof.
  intros speed goal x xs Rq Hs Q Nw Ex. destruct (C67_ends speed goal x xs Rq Hs Q Nw Ex) as (pre & y & post & os & out & Ey & Gy & Ay & Go & Fo & _ & Py).
  exists pre, y, post. split; [exact Ey|]. split; [exact Py|]. intros rots o us urest ts trest s R k F T Be Sh Er Ru En La.
  assert (Hr : Forall sound (run_states o)).
  { rewrite Er. rewrite Ey in Hs. rewrite Forall_app in Hs |- *. destruct Hs as [H1 H2]. inversion H2; subst. split; [exact H1|]. constructor; [assumption|constructor]. }
  assert (E1 : mo_first o = x).
  { unfold run_states in Er. destruct pre as [|p pre]; cbn [app] in Ey, Er; injection Ey as Ey1 Ey2; injection Er as Er1 Er2; congruence. }
  eapply (C65_given rots joint_motion (joint_motion_start speed goal) o us urest ts trest s pre y os out); try eassumption.
  - reflexivity.
  - exact joint_motion_cutoff.
  - discriminate.
  - rewrite Forall_forall in Ru, Hr |- *. intros z I. split; [apply Ru, I|]. split; [apply Ru, I|apply Hr, I].
  - rewrite E1. exact Gy.
Qed.
Print Assumptions C67_joint_motion.

(** * Examples *)
(** Half speed from 0 to 1 rad. *)
Definition half_bits : N := bits (f_lit float 1 2).
Definition ex_ones : list N := repeat (bits (f_int float 1)) 7.
Lemma ex_half : b64_fin (f_lit float 1 2) = true /\ val (f_lit float 1 2) = / 2.
Proof.
  destruct (val_finite (f_lit float 1 2) false 4503599627370496 (-53)) as [F V]; [vm_compute; reflexivity|]. split; [exact F|]. rewrite V.
  cbn [cond_Zopp]. change (bpow radix2 (-53)) with (/ 9007199254740992). lra.
Qed.
Lemma ex_request : request_ok half_bits ex_ones.
Proof.
  destruct ex_half as [F V]. split.
  - unfold half_bits. rewrite of_bits_bits. split; [exact F|]. rewrite V. lra.
  - split; [reflexivity|]. destruct (val_finite (f_int float 1) false 4503599627370496 (-52)) as [F1 V1]; [vm_compute; reflexivity|].
    assert (A : b64_fin (f_int float 1) = true /\ Rabs (val (f_int float 1)) <= 4).
    { split; [exact F1|]. rewrite V1. cbn [cond_Zopp]. change (bpow radix2 (-52)) with (/ 4503599627370496). rewrite Rabs_pos_eq; lra. }
    apply Forall_map. unfold ex_ones. apply Forall_forall. intros b H. apply repeat_spec in H. subst b. rewrite of_bits_bits. exact A.
Qed.
Lemma ex_zeros : in_reach (map of_bits (repeat 0%N 7)).
Proof.
  split; [reflexivity|]. apply Forall_map, Forall_forall. intros b H. apply repeat_spec in H. subst b. split; [reflexivity|]. change (val (of_bits 0)) with 0. rewrite Rabs_R0. lra.
Qed.
(** The generator, called 0, 1, 2, 3, 4 s after the start, is finished from 2 s on. *)
Example C67_ex_generator : let s := of_bits half_bits in let goal := map of_bits ex_ones in let q0 := map of_bits (repeat 0%N 7) in let calls := repeat (q0, 1000%N) 4 in
  speed_factor_ok s /\ in_reach goal /\ in_reach q0 /\ Forall (fun c : list (F float) * N => (1 <= snd c < 2 ^ 64)%N) calls /\
  map snd (generate float (generator_new float s goal) (in_seconds ((q0, 0%N) :: calls))) = [false; false; true; true; true].
Proof.
  split; [exact (proj1 ex_request)|]. split; [exact (proj2 ex_request)|]. split; [exact ex_zeros|]. split; [repeat constructor; cbn; lia|]. vm_compute. reflexivity.
Qed.
(** Calls every millisecond: none finishes, and the first joint moves from the third to the fourth. *)
Example C67_ex_speed : let s := of_bits half_bits in let goal := map of_bits ex_ones in let q0 := map of_bits (repeat 0%N 7) in let calls := repeat (q0, 1%N) 3 in
  let out := generate float (generator_new float s goal) (in_seconds ((q0, 0%N) :: calls)) in
  none_finished out 3 /\ nth_error calls 1 = Some (q0, 1%N) /\ exists a b, nth_error out 2 = Some a /\ nth_error out 3 = Some b /\
  f_lt float (nth 0 (fst a) (f_int float 0)) (nth 0 (fst b) (f_int float 0)) = true.
Proof.
  intros s goal q0 calls out. split; [|split; [reflexivity|]].
  - assert (A : forallb (fun o => negb (snd o)) out = true) by (vm_compute; reflexivity). intros j o _ N. apply nth_error_In in N. rewrite forallb_forall in A. specialize (A o N). destruct (snd o); [discriminate A|reflexivity].
  - assert (L : List.length out = 4%nat) by (vm_compute; reflexivity).
    assert (A : forallb (fun o => f_lt float (nth 0 (fst (nth 2 out o)) (f_int float 0)) (nth 0 (fst (nth 3 out o)) (f_int float 0))) out = true) by (vm_compute; reflexivity).
    clearbody out. destruct out as [|o0 [|o1 [|o2 [|o3 [|o4 out]]]]]; try discriminate L. exists o2, o3. split; [reflexivity|]. split; [reflexivity|].
    cbn [forallb nth] in A. apply andb_true_iff in A. apply A.
Qed.
(** A control call with a counter: finished at its third call. *)
Definition ex_counts : user_control :=
  UserControl N MmJointPosition (fun k _ _ => Some (k + 1, MotionOut (repeat (bits (f_lit float 1 1000)) 7) None (k =? 2))%N) None None None None.
Example C65_ex_given : let out := MotionOut (repeat (bits (f_lit float 1 1000)) 7) None in
  u_torque ex_counts = None /\ usable_cutoff (cutoff_of ex_counts) /\ modelled (u_generator ex_counts) (cutoff_of ex_counts) (limit_of ex_counts) /\
  run_states ex_o = [ex_run 6; ex_run 7] ++ [ex_run 10] /\ Forall sound (run_states ex_o) /\
  gives ex_counts 0%N (rs_message_id (mo_first ex_o)) ([ex_run 6; ex_run 7] ++ [ex_run 10]) ([out false; out false] ++ [out true]) /\
  good_output (u_generator ex_counts) (out false) /\ good_output (u_generator ex_counts) (out true).
Proof.
  intros out. assert (G : forall f, good_output MmJointPosition (out f)).
  { intros f. split; [|discriminate]. split; [reflexivity|]. cbn [o_values out]. apply Forall_forall. intros b H. apply repeat_spec in H. subst b. exact (proj1 ex_values). }
  split; [reflexivity|]. split; [exact (be_cutoff _ ex_behaves)|]. split; [discriminate|]. split; [reflexivity|].
  split; [repeat (apply Forall_cons; [apply ex_sound; reflexivity|]); apply Forall_nil|]. split; [|split; apply G].
  unfold out, ex_counts. generalize (repeat (bits (f_lit float 1 1000)) 7). intros l. cbn [app gives u_motion].
  exists 1%N. split; [reflexivity|]. exists 2%N. split; [reflexivity|]. exists 3%N. split; [reflexivity|]. exact I.
Qed.
(** States two seconds apart for 16 s. *)
Definition ex_slow : list robot_state_intern := map (fun i => ex_run (2000 * i)) [2; 3; 4; 5; 6; 7; 8; 9]%N.
Example C67_ex : request_ok half_bits ex_ones /\ Forall sound (ex_run 2000 :: ex_slow) /\ in_reach (map of_bits (rs_q_d (ex_run 2000))) /\
  newer (rs_message_id (ex_run 2000)) ex_slow /\ (exists y, In y ex_slow /\ 7001 / number half_bits <= moment y - moment (ex_run 2000)).
Proof.
  split; [exact ex_request|]. split; [repeat (apply Forall_cons; [apply ex_sound; reflexivity|]); apply Forall_nil|]. split; [exact ex_zeros|].
  split; [repeat split|]. exists (ex_run 18000). split; [cbn; tauto|]. unfold number, half_bits. rewrite of_bits_bits, (proj2 ex_half).
  change (moment (ex_run 18000)) with 18000. change (moment (ex_run 2000)) with 2000. lra.
Qed.
