(** C33 in IEEE-754 double arithmetic: the filter follows the first-order formula, and the commands sent. *)
From Coq Require Import List NArith ZArith Bool Lia Lra Arith Reals String.
From Flocq Require Import Core Relative IEEE754.BinarySingleNaN IEEE754.Binary IEEE754.Bits.
From Verif Require Import Bytes Codec NumOps NumFloat FloatFacts PiBounds RateModel RateSpec ConvertModel WireModel WireSpec UdpModel
  RobotModel LoopModel RobotSpec Outputs TypedModel TypedSpec ConvertFacts TypedProofs RobotScenario Properties_Robot Properties_Rate
  Properties_Rate64 Properties_Convert Properties_Filter Properties_Commands.
Import ListNotations.
Open Scope list_scope.
Open Scope R_scope.

(** [x] is [y] up to the relative error [d]. *)
Definition close (d x y : R) : Prop := y * (1 - d) <= x <= y * (1 + d).
Lemma close_weaken : forall d e x y, 0 < y -> d <= e -> close d x y -> close e x y.
Proof. intros d e x y Y D [H1 H2]. split; [eapply Rle_trans; [|exact H1]|eapply Rle_trans; [exact H2|]]; apply Rmult_le_compat_l; lra. Qed.
Lemma close_trans : forall d e x y z, 0 < z -> 0 <= d -> 0 <= e -> e <= 1 -> d <= 1 -> close d x y -> close e y z -> close (d + e + d * e) x z.
Proof.
  intros d e x y z Z D E E1 D1 [H1 H2] [H3 H4]. split.
  - apply Rle_trans with (z * (1 - e) * (1 - d)); [nra|]. eapply Rle_trans; [|exact H1]. apply Rmult_le_compat_r; lra.
  - apply Rle_trans with (z * (1 + e) * (1 + d)); [|lra]. eapply Rle_trans; [exact H2|]. apply Rmult_le_compat_r; lra.
Qed.
Lemma close_scale : forall d x y k, 0 < k -> close d x y -> close d (k * x) (k * y).
Proof. intros d x y k K [H1 H2]. split; rewrite Rmult_assoc; apply Rmult_le_compat_l; lra. Qed.
Lemma close_plus : forall d x y x' y', close d x y -> close d x' y' -> close d (x + x') (y + y').
Proof. intros d x y x' y' [H1 H2] [H3 H4]. split; lra. Qed.
Lemma close_inv : forall d x y, 0 < y -> 0 <= d <= 1/2 -> close d x y -> close (2 * d) (/ x) (/ y).
Proof.
  intros d x y Y D [H1 H2]. assert (X : 0 < x) by nra. assert (I : 0 < / y) by (apply Rinv_0_lt_compat, Y).
  assert (J : 0 < / x) by (apply Rinv_0_lt_compat, X). assert (P : y * / y = 1) by (apply Rinv_r; lra). assert (Q : x * / x = 1) by (apply Rinv_r; lra).
  split.
  - apply (Rmult_le_reg_l x); [exact X|]. rewrite Q. apply Rle_trans with ((y * / y) * ((1 + d) * (1 - 2 * d))); [|rewrite P; nra].
    replace (y * / y * ((1 + d) * (1 - 2 * d))) with ((y * (1 + d)) * (/ y * (1 - 2 * d))) by ring.
    apply Rmult_le_compat_r; [nra|exact H2].
  - apply (Rmult_le_reg_l x); [exact X|]. rewrite Q. apply Rle_trans with ((y * / y) * ((1 - d) * (1 + 2 * d))); [rewrite P; nra|].
    replace (y * / y * ((1 - d) * (1 + 2 * d))) with ((y * (1 - d)) * (/ y * (1 + 2 * d))) by ring.
    apply Rmult_le_compat_r; [nra|exact H1].
Qed.
Definition u53 : R := / 9007199254740992.
Lemma close_rnd : forall x, bpow radix2 (-1022) <= x -> close u53 (rnd x) x.
Proof.
  intros x H. assert (X : 0 < x) by (pose proof (bpow_gt_0 radix2 (-1022)); lra).
  destruct (relative_error_N_FLT_ex radix2 (-1074) 53 eq_refl (fun z => negb (Z.even z)) x) as (e & E & R).
  { change (-1074 + 53 - 1)%Z with (-1022)%Z. rewrite Rabs_right by lra. exact H. }
  change (rnd x) with (round radix2 (FLT_exp (-1074) 53) (Znearest (fun z => negb (Z.even z))) x). rewrite R.
  assert (E' : Rabs e <= / 2 * / 4503599627370496) by exact E. apply abs_range in E'. unfold close, u53. split; apply Rmult_le_compat_l; lra.
Qed.

(** The gain of the filter with the documented sample time. *)
Definition ideal_gain (c : R) : R := (1/1000) / (1/1000 + / (2 * PI * c)).
Lemma gain_close : forall c, b64_fin c = true -> bpow radix2 (-900) <= val c <= 1000 ->
  close (/ 50000000000000) (val (filter_gain float (DELTA_T float) c)) (ideal_gain (val c)).
Proof.
  intros c Fc [Hc1 Hc2]. destruct bpow_num as (B0 & B10 & B13 & B1 & B2). unfold filter_gain. cbn [f_add f_div f_mul float].
  assert (Etp : let p := f_mul float (f_int float 2) (f_pi float) in b64_fin p = true /\ close (/ 1000000000000000) (val p) (2 * PI) /\ 6 <= val p <= 7).
  { intros p. destruct (val_finite p false 7074237752028440 (-50)) as [F V]; [vm_compute; reflexivity|].
    split; [exact F|]. rewrite V. cbn [cond_Zopp]. change (bpow radix2 (-50)) with (/ 1125899906842624). pose proof pi_bounds. split; [split; lra|lra]. }
  cbn [f_mul float] in Etp. destruct Etp as (Fp & Cp & Vp). set (tp := b64_mult mode_NE _ _) in *. clearbody tp.
  destruct one_val as [F1 V1]. destruct delta_exact as [Fd Vd]. set (T := DELTA_T float) in *. clearbody T.
  set (one := f_int float 1) in *. clearbody one.
  assert (C0 : 0 < bpow radix2 (-900)) by apply bpow_gt_0.
  assert (Cmin : bpow radix2 (-1022) <= bpow radix2 (-900)) by (apply bpow_le; lia).
  pose proof pi_bounds as Pi.
  destruct (mult_ok tp c 13 Fp Fc) as [Fm Vm]; [lia| |].
  { rewrite B13. rewrite Rabs_right by nra. nra. }
  set (p := b64_mult mode_NE tp c) in *. clearbody p.
  assert (Pc : close (/ 500000000000000) (val p) (2 * PI * val c)).
  { rewrite Vm. apply close_weaken with (u53 + / 1000000000000000 + u53 * / 1000000000000000); [nra|unfold u53; lra|].
    apply close_trans with (val tp * val c); [nra|unfold u53; lra|lra|lra|unfold u53; lra| |].
    - apply close_rnd. nra.
    - rewrite (Rmult_comm (val tp)), (Rmult_comm (2 * PI)). apply close_scale; [lra|exact Cp]. }
  assert (W0 : 0 < 2 * PI * val c <= 7000) by (split; nra).
  assert (P0 : bpow radix2 (-900) <= val p <= 8000).
  { destruct Pc as [Q1 Q2]. split; [|lra]. apply Rle_trans with (2 * PI * val c * (1 - / 500000000000000)); [|exact Q1]. nra. }
  assert (I : / 8000 <= / val p <= bpow radix2 900).
  { split; [apply Rinv_le; lra|]. replace (bpow radix2 900) with (/ bpow radix2 (-900)); [apply Rinv_le; lra|]. rewrite <- bpow_opp. reflexivity. }
  destruct (div_ok one p 900 F1 Fm) as [Fq Vq]; [lra|lia| |].
  { rewrite V1. unfold Rdiv. rewrite Rmult_1_l, Rabs_right by lra. apply I. }
  set (q := b64_div mode_NE one p) in *. clearbody q.
  assert (W1 : 0 < / (2 * PI * val c)) by (apply Rinv_0_lt_compat; lra).
  assert (Small : bpow radix2 (-1022) <= / 8000).
  { apply Rle_trans with (bpow radix2 (-20)); [apply bpow_le; lia|]. change (bpow radix2 (-20)) with (/ 1048576). lra. }
  assert (Qc : close (/ 200000000000000) (val q) (/ (2 * PI * val c))).
  { rewrite Vq, V1. unfold Rdiv. rewrite Rmult_1_l. apply close_weaken with (u53 + 2 * / 500000000000000 + u53 * (2 * / 500000000000000)); [exact W1|unfold u53; lra|].
    apply close_trans with (/ val p); [exact W1|unfold u53; lra|lra|lra|unfold u53; lra| |].
    - apply close_rnd. lra.
    - apply close_inv; [lra|lra|exact Pc]. }
  assert (Q : 0 <= val q <= bpow radix2 900).
  { rewrite Vq, V1. unfold Rdiv. rewrite Rmult_1_l. split.
    - rewrite <- rnd_0. apply rnd_le. lra.
    - rewrite <- (rnd_bpow 900) by lia. apply rnd_le. apply I. }
  assert (B901 : bpow radix2 901 = bpow radix2 900 * 2) by (rewrite <- B1, <- bpow_plus; reflexivity).
  assert (B900 : 1 <= bpow radix2 900) by (rewrite <- B0; apply bpow_le; lia).
  destruct (plus_ok T q 901 Fd Fq) as [Fs Vs]; [lia| |].
  { rewrite Rabs_right by lra. lra. }
  set (s := b64_plus mode_NE T q) in *. clearbody s.
  assert (Sc : close (/ 150000000000000) (val s) (1/1000 + / (2 * PI * val c))).
  { rewrite Vs. apply close_weaken with (u53 + / 200000000000000 + u53 * / 200000000000000); [lra|unfold u53; lra|].
    apply close_trans with (val T + val q); [lra|unfold u53; lra|lra|lra|unfold u53; lra| |].
    - apply close_rnd. lra.
    - apply close_plus; [split; lra|exact Qc]. }
  set (den := 1/1000 + / (2 * PI * val c)) in *. assert (D0 : 1/1000 <= den) by (unfold den; lra).
  assert (Iden : 0 < / den) by (apply Rinv_0_lt_compat; lra).
  assert (Ic : close (/ 70000000000000) (/ val s) (/ den)).
  { apply close_weaken with (2 * / 150000000000000); [exact Iden|lra|]. apply close_inv; [lra|lra|exact Sc]. }
  assert (S0 : 1/2000 <= val s) by (destruct Sc; lra).
  assert (Tc : close (/ 1000000000000000) (val T) (1/1000)) by (split; lra).
  assert (S : val T <= val s) by (rewrite Vs; rewrite <- (rnd_val T Fd) at 1; apply rnd_le; lra).
  assert (D : 0 < val T / val s <= 1).
  { split; [apply Rdiv_lt_0_compat; lra|]. apply (Rmult_le_reg_r (val s)); [lra|]. unfold Rdiv.
    rewrite Rmult_assoc, Rinv_l by lra. lra. }
  destruct (div_ok T s 0 Fd Fs) as [Fg Vg]; [lra|lia| |].
  { rewrite B0, Rabs_right by lra. lra. }
  rewrite Vg. unfold ideal_gain. fold den.
  assert (G0 : 0 < 1/1000 / den) by (apply Rdiv_lt_0_compat; lra).
  assert (Smax : val s <= bpow radix2 902).
  { rewrite Vs. rewrite <- (rnd_bpow 902) by lia. apply rnd_le. replace (bpow radix2 902) with (bpow radix2 900 * 4) by (rewrite <- B2, <- bpow_plus; reflexivity). lra. }
  assert (Gmin : bpow radix2 (-1022) <= val T / val s).
  { apply Rle_trans with (bpow radix2 (-11) * bpow radix2 (-902)); [rewrite <- bpow_plus; apply bpow_le; lia|].
    unfold Rdiv. apply Rmult_le_compat; try apply bpow_ge_0; [change (bpow radix2 (-11)) with (/ 2048); lra|].
    replace (bpow radix2 (-902)) with (/ bpow radix2 902) by (rewrite <- bpow_opp; reflexivity). apply Rinv_le; lra. }
  apply close_weaken with (u53 + / 60000000000000 + u53 * / 60000000000000); [exact G0|unfold u53; lra|].
  apply close_trans with (val T / val s); [exact G0|unfold u53; lra|lra|lra|unfold u53; lra|apply close_rnd; exact Gmin|].
  apply close_weaken with (/ 1000000000000000 + / 70000000000000 + / 1000000000000000 * / 70000000000000); [exact G0|lra|].
  apply close_trans with (1/1000 * / val s); [exact G0|lra|lra|lra|lra| |].
  - unfold Rdiv. rewrite (Rmult_comm (val T)), (Rmult_comm (1 * / 1000)). apply close_scale; [apply Rinv_0_lt_compat; lra|]. exact Tc.
  - unfold Rdiv. apply close_scale; [lra|exact Ic].
Qed.
(** A step of the filter of documented cutoff frequency [c] from [last] towards [y], up to [1e-10]. *)
Definition smoothed (c last y r : R) : Prop := Rabs (r - (last + ideal_gain c * (y - last))) <= / 10000000000.
Theorem C33_first_order_float : forall y last c, b64_fin y = true -> b64_fin last = true -> b64_fin c = true ->
  bpow radix2 (-900) <= val c <= 1000 -> Rabs (val y) <= 1024 -> Rabs (val last) <= 1024 ->
  exists r, low_pass_filter float (DELTA_T float) y last c = Some r /\ b64_fin r = true /\ smoothed (val c) (val last) (val y) (val r).
Proof.
  intros y l c Fy Fl Fc Hc Hy Hl.
  assert (Sc : Bsign 53 1024 c = false).
  { destruct (Bsign 53 1024 c) eqn:E; [|reflexivity]. exfalso. pose proof (bpow_gt_0 radix2 (-900)).
    destruct c as [s|s|s pl|s m e]; cbn in E; subst; try (cbn in Hc; lra). unfold val in Hc. cbn in Hc.
    assert (F2R (beta := radix2) {| Fnum := Z.neg m; Fexp := e |} < 0) by (apply F2R_lt_0; reflexivity). lra. }
  destruct (filter_mix y l c Fy Fl Fc Hc Sc Hy Hl) as (r & E & Fr & M). exists r. split; [exact E|]. split; [exact Fr|].
  pose proof (gain_close c Fc Hc) as [G1 G2]. set (g := val (filter_gain float (DELTA_T float) c)) in *. clearbody g.
  assert (A : 0 < ideal_gain (val c) < 1).
  { assert (Pc : 0 < / (2 * PI * val c)).
    { apply Rinv_0_lt_compat. pose proof pi_bounds. pose proof (bpow_gt_0 radix2 (-900)). nra. }
    unfold ideal_gain. split; [apply Rdiv_lt_0_compat; lra|]. apply (Rmult_lt_reg_r (1/1000 + / (2 * PI * val c))); [lra|].
    unfold Rdiv. rewrite Rmult_assoc, Rinv_l by lra. lra. }
  unfold smoothed. set (al := ideal_gain (val c)) in *. clearbody al.
  assert (D : Rabs ((g - al) * (val y - val l)) <= / 50000000000000 * 2048).
  { rewrite Rabs_mult. apply Rmult_le_compat; try apply Rabs_pos; apply abs_range; [nra|]. apply abs_range in Hy, Hl. lra. }
  change (bpow radix2 (-40)) with (/ 1099511627776) in M. apply abs_range in D, M. apply abs_range.
  replace (val r - (val l + al * (val y - val l))) with ((val r - (g * val y + (1 - g) * val l)) + (g - al) * (val y - val l)) by ring. lra.
Qed.
Print Assumptions C33_first_order_float.

(** * At the level of commands *)
(** The cutoff frequency which applies: 100 Hz (the double 100.0) unless the user passes another. *)
Definition frequency_bits (u : user_control) : N := match u_cutoff u with Some c => c | None => 0x4059000000000000%N end.
Definition frequency (u : user_control) : R := number (frequency_bits u).
(** Limiter switched off, cutoff frequency below 1000 Hz. *)
Definition smoothing (u : user_control) : Prop :=
  well_typed u /\ u_limit u = Some false /\ finite_bits (frequency_bits u) /\ bpow radix2 (-900) <= frequency u < 1000.
Lemma smoothing_cutoff : forall u, smoothing u -> limit_of u = false /\ b64_fin (of_bits (cutoff_of u)) = true /\
  val (of_bits (cutoff_of u)) = frequency u /\ f_lt float (of_bits (cutoff_of u)) (MAX_CUTOFF_FREQUENCY float) = true.
Proof.
  intros u (_ & L & Fb & R). unfold limit_of. rewrite L. split; [reflexivity|].
  assert (E : cutoff_of u = frequency_bits u).
  { unfold cutoff_of, frequency_bits. destruct (u_cutoff u); [reflexivity|]. vm_compute. reflexivity. }
  rewrite E. apply finite_bits_fin in Fb. split; [exact Fb|]. split; [reflexivity|].
  change (f_lt float) with b64_lt. destruct (val_finite (MAX_CUTOFF_FREQUENCY float) false 8796093022208000 (-43)) as [Fm Vm]; [vm_compute; reflexivity|].
  rewrite lt_fin by assumption. apply Rlt_bool_true. rewrite Vm. cbn [cond_Zopp]. change (bpow radix2 (-43)) with (/ 8796093022208).
  unfold frequency, number in R. lra.
Qed.

(** Each sent number is a step of the filter from the last reported one towards the output. *)
Inductive filtered_by (f : R) : list N -> list N -> list N -> Prop :=
| filtered_nil : filtered_by f [] [] []
| filtered_cons : forall l y r ls ys rs, smoothed f (number l) (number y) (number r) -> filtered_by f ls ys rs ->
    filtered_by f (l :: ls) (y :: ys) (r :: rs).
(** The numbers in the state from which a motion of each kind continues. *)
Definition reported_values (g : move_mg) (x : robot_state_intern) : list N :=
  match g with
  | MmJointPosition => rs_q_d x
  | MmJointVelocity => rs_dq_d x
  | MmCartesianPosition => firstn 3 (skipn 12 (rs_O_T_EE_c x))
  | MmCartesianVelocity => rs_O_dP_EE_c x
  end.
(** All numbers of the motion; of a pose the translation. *)
Definition motion_values (g : move_mg) (l : list N) : list N :=
  match g with MmCartesianPosition => firstn 3 (skipn 12 l) | _ => l end.

Lemma one_filtered : forall c y l r, b64_fin c = true -> bpow radix2 (-900) <= val c < 1000 -> angle y -> angle l ->
  low_pass_filter float (DELTA_T float) (of_bits y) (of_bits l) c = Some r -> smoothed (val c) (number l) (number y) (number (bits r)).
Proof.
  intros c y l r Fc Hc [Y1 Y2] [L1 L2] E.
  destruct (C33_first_order_float (of_bits y) (of_bits l) c) as (r' & E' & _ & S);
    [apply finite_bits_fin; assumption|apply finite_bits_fin; assumption|exact Fc|lra|exact Y2|exact L2|].
  rewrite E in E'. apply (f_equal (fun o => match o with Some z => z | None => r end)) in E'. subst r'. unfold number at 3. rewrite of_bits_bits. exact S.
Qed.
Lemma list_filtered : forall c y l r, b64_fin c = true -> bpow radix2 (-900) <= val c < 1000 ->
  f_lt float c (MAX_CUTOFF_FREQUENCY float) = true -> List.length y = List.length l -> Forall angle y -> Forall angle l ->
  filtered float c (map of_bits y) (map of_bits l) = Some r -> filtered_by (val c) l y (map bits r).
Proof.
  intros c y l r Fc Hc Lc N Hy Hl H. unfold filtered in H. rewrite Lc in H. revert l r N Hl H.
  induction Hy as [|y0 y Y1 Hy IH]; intros l r N Hl H; destruct l as [|l0 l]; try discriminate N.
  - cbn in H. injection H as <-. constructor.
  - inversion Hl as [|? ? L1 Hl']; subst. cbn [map map2 sequence] in H.
    destruct (low_pass_filter float _ _ _ _) as [r0|] eqn:E0 in H; [|discriminate H].
    destruct (sequence _) as [rs|] eqn:Es in H; [|discriminate H].
    apply (f_equal (fun o => match o with Some z => z | None => r end)) in H. subst r. cbn [map].
    constructor; [eapply one_filtered; eassumption|]. apply IH; [injection N as N; exact N|exact Hl'|exact Es].
Qed.
Definition smooth_motion (f : R) (g : move_mg) (x : robot_state_intern) (o : motion_out) (m : motion_command) : Prop :=
  Forall angle (motion_values g (o_values o)) -> Forall angle (reported_values g x) ->
  filtered_by f (reported_values g x) (motion_values g (o_values o)) (motion_values g (own_values g m)).
Definition smooth_elbow (f : R) (x : robot_state_intern) (o : motion_out) (m : motion_command) : Prop :=
  forall e s l, o_elbow o = Some (e, s) -> hd_error (rs_elbow_c x) = Some l -> angle e -> angle l ->
  exists r s', mc_elbow_c m = [r; s'] /\ smoothed f (number l) (number e) (number r).
Lemma state_pose : forall x, state_ok x -> List.length (rs_O_T_EE_c x) = 16%nat.
Proof. intros x (_ & _ & _ & _ & A & _). rewrite Forall_forall in A. apply A. cbn. tauto. Qed.
Lemma last_three : forall A (l : list A) d, List.length l = 16%nat -> firstn 3 (skipn 12 l) = [nth 12 l d; nth 13 l d; nth 14 l d].
Proof. intros A l d H. do 16 (destruct l as [|? l]; [discriminate H|]). destruct l; [reflexivity|discriminate H]. Qed.
Lemma nth_number : forall i l, nth i (map of_bits l) (zero float) = of_bits (nth i l 0%N).
Proof. intros i l. replace (zero float) with (of_bits 0) by (vm_compute; reflexivity). apply map_nth. Qed.
(** The three components of the translation are filtered like any number. *)
Lemma pose_filtered : forall sl c y l r, List.length y = 16%nat -> List.length l = 16%nat ->
  cartesian_low_pass_filter float sl (DELTA_T float) (map of_bits y) (map of_bits l) c = Some r ->
  List.length r = 16%nat /\ forall i, In i [12; 13; 14]%nat ->
    low_pass_filter float (DELTA_T float) (of_bits (nth i y 0%N)) (of_bits (nth i l 0%N)) c = Some (nth i r (zero float)).
Proof.
  intros sl c y l r Ny Nl H. unfold cartesian_low_pass_filter in H.
  destruct (f_sign_positive float (DELTA_T float) && f_finite float (DELTA_T float))%bool eqn:Et; [|discriminate H].
  destruct (f_sign_positive float c && f_finite float c)%bool eqn:Ec; [|discriminate H].
  destruct (all_finite float (map of_bits y) && all_finite float (map of_bits l))%bool eqn:Ef; [|discriminate H].
  apply andb_prop in Ef. destruct Ef as [Fy Fl]. unfold all_finite in Fy, Fl. rewrite forallb_forall in Fy, Fl.
  unfold translation in H. rewrite !nth_number in H. cbv zeta in H.
  apply (f_equal (fun o => match o with Some z => z | None => r end)) in H. subst r.
  unfold to_homogeneous. destruct (sl _ _ _) as [[a b] d]. split; [reflexivity|].
  assert (K : forall i, (i < 16)%nat -> (f_finite float (of_bits (nth i y 0%N)) && f_finite float (of_bits (nth i l 0%N)))%bool = true).
  { intros i Hi. rewrite Fy, Fl; [reflexivity| |]; apply in_map, nth_In; lia. }
  intros i [<-|[<-|[<-|[]]]]; unfold low_pass_filter; rewrite Et, Ec, K by lia; cbn [nth]; reflexivity.
Qed.
Lemma convert_smooth : forall rots u k x dt k' o m m', smoothing u -> u_motion u k x dt = Some (k', o) -> state_ok x ->
  convert_motion rots (u_generator u) (cutoff_of u) (limit_of u) o x m = Some m' ->
  smooth_motion (frequency u) (u_generator u) x o m' /\
  (u_generator u = MmCartesianPosition \/ u_generator u = MmCartesianVelocity -> smooth_elbow (frequency u) x o m').
Proof.
  intros rots u k x dt k' o m m' S E W H. destruct (smoothing_cutoff u S) as (Lo & Fc & Vc & Lc). destruct S as ([T _] & _ & _ & Rc).
  rewrite Lo in H. clear Lo. rewrite <- Vc in Rc |- *. apply T in E. destruct E as [[N _] _].
  pose proof (state_pose x W) as W16. state_lengths W.
  assert (El : forall f l m1, convert_elbow float (of_bits (cutoff_of u)) false
      (match o_elbow o with Some (a, b) => Some (of_bits a, of_bits b) | None => None end) (reported_of x) = Some (f, l) ->
      mc_elbow_c m1 = map bits l -> smooth_elbow (val (of_bits (cutoff_of u))) x o m1).
  { intros f l m1 C M1 e s l0 Eo El Ae Al. rewrite Eo in C. cbn [convert_elbow] in C. rewrite Lc in C.
    apply then_some in C. destruct C as (y & Fl & C). cbn [then_] in C. destruct (check_elbow float y (of_bits s)); [|discriminate C].
    injection C as _ <-. rewrite M1. exists (bits y), (bits (of_bits s)). split; [reflexivity|].
    cbn [reported_of p_elbow_c] in Fl. destruct (rs_elbow_c x) as [|l1 ls]; [discriminate El|]. cbn [hd_error hd] in *. injection El as ->.
    eapply one_filtered; eassumption. }
  unfold convert_motion in H. unfold smooth_motion. destruct (u_generator u); cbn [dimension reported_values motion_values own_values] in *.
  - destruct (convert_joint_positions float _ _ _ _) as [r|] eqn:C; [|discriminate]. injection H as <-. split; [|intros [|]; discriminate].
    intros Ay Al. apply then_some in C. destruct C as (y & Fl & C). cbn [limited then_] in C. apply finite_some in C. destruct C as [-> _].
    cbn [reported_of p_q_d] in Fl. apply (list_filtered _ _ _ _ Fc Rc Lc) in Fl; [exact Fl|congruence|exact Ay|exact Al].
  - destruct (convert_joint_velocities float _ _ _ _) as [r|] eqn:C; [|discriminate]. injection H as <-. split; [|intros [|]; discriminate].
    intros Ay Al. apply then_some in C. destruct C as (y & Fl & C). cbn [limited then_] in C. apply finite_some in C. destruct C as [-> _].
    cbn [reported_of p_dq_d] in Fl. apply (list_filtered _ _ _ _ Fc Rc Lc) in Fl; [exact Fl|congruence|exact Ay|exact Al].
  - destruct (convert_pose float _ _ _ _ _ _ _ _) as [r|] eqn:C; [|discriminate].
    destruct (convert_elbow float _ _ _ _) as [[f e]|] eqn:D; [|discriminate]. injection H as <-.
    split; [|intros _; eapply El; reflexivity].
    intros Ay Al. unfold convert_pose in C. rewrite Lc in C. apply then_some in C. destruct C as (y & Fl & C). cbn [limited then_] in C.
    destruct (check_matrix float y); [|discriminate C]. apply (f_equal (fun o => match o with Some z => z | None => y end)) in C. subst r.
    cbn [reported_of p_O_T_EE_c] in Fl. apply pose_filtered in Fl; [|exact N|exact W16]. destruct Fl as [Nr Fl].
    cbn [mc_O_T_EE_c]. rewrite (last_three _ (rs_O_T_EE_c x) 0%N W16) in *. rewrite (last_three _ (o_values o) 0%N N) in *.
    rewrite (last_three _ (map bits y) (bits (zero float))) by (rewrite map_length; exact Nr). rewrite !map_nth.
    inversion Ay as [|? ? Y1 Ay1]; subst. inversion Ay1 as [|? ? Y2 Ay2]; subst. inversion Ay2 as [|? ? Y3 _]; subst.
    inversion Al as [|? ? L1 Al1]; subst. inversion Al1 as [|? ? L2 Al2]; subst. inversion Al2 as [|? ? L3 _]; subst.
    constructor; [|constructor; [|constructor; [|constructor]]]; (eapply one_filtered; [exact Fc|exact Rc|assumption|assumption|apply Fl; cbn; tauto]).
  - destruct (convert_twist float _ _ _ _) as [r|] eqn:C; [|discriminate].
    destruct (convert_elbow float _ _ _ _) as [[f e]|] eqn:D; [|discriminate]. injection H as <-.
    split; [|intros _; eapply El; reflexivity].
    intros Ay Al. apply then_some in C. destruct C as (y & Fl & C). cbn [limited then_] in C. apply finite_some in C. destruct C as [-> _].
    cbn [reported_of p_O_dP_EE_c] in Fl. apply (list_filtered _ _ _ _ Fc Rc Lc) in Fl; [exact Fl|congruence|exact Ay|exact Al].
Qed.
(** With the limiter switched off: every number sent (of a pose: the translation) is one step of the documented
    first-order filter from the value reported in the state answered towards the output of the callback. *)
Theorem C33_commands : forall t1 a c t2, typed_history smoothing (t1 ++ EvCommand a c :: t2) -> completed t2 = false ->
  exists u x k dt k' o, smoothing u /\ last_state t2 = Some x /\ motion_mode t2 = Some (u_generator u) /\
    u_motion u k x dt = Some (k', o) /\ smooth_motion (frequency u) (u_generator u) x o (rc_motion c) /\
    (u_generator u = MmCartesianPosition \/ u_generator u = MmCartesianVelocity -> smooth_elbow (frequency u) x o (rc_motion c)).
Proof.
  intros t1 a c t2 H C. pose proof (typed_is_history _ _ H) as Hh.
  pose (Pm := fun g x m => exists u k dt k' o, smoothing u /\ g = u_generator u /\ u_motion u k x dt = Some (k', o) /\
     smooth_motion (frequency u) g x o m /\ (g = MmCartesianPosition \/ g = MmCartesianVelocity -> smooth_elbow (frequency u) x o m)).
  assert (O : outs_ok Pm (fun _ _ => True) (t1 ++ EvCommand a c :: t2)).
  { apply (typed_outs smoothing Pm (fun _ _ => True) (fun _ _ => True)); auto.
    intros rots u k x dt k' o m m' P E _ W Co. split; [|exact Logic.I]. exists u, k, dt, k', o.
    destruct (convert_smooth _ _ _ _ _ _ _ _ _ P E W Co) as [V1 V2]. split; [exact P|]. split; [reflexivity|]. split; [exact E|].
    split; [destruct (u_generator u); exact V1|exact V2]. }
  destruct (command_fresh _ _ _ _ _ _ Hh O C) as (x & m & g & L & (u & k & dt & k' & o & P & -> & E & V1 & V2) & Mo & ->).
  exists u, x, k, dt, k', o. split; [exact P|]. split; [exact L|]. split; [exact Mo|]. split; [exact E|].
  split; [destruct (u_generator u); exact V1|exact V2].
Qed.
Print Assumptions C33_commands.
(** Torques likewise. *)
Theorem C33_torques : forall t1 a c t2, typed_history smoothing (t1 ++ EvCommand a c :: t2) -> completed t2 = false ->
  motion_ctrl t2 = Some McExternalController ->
  exists u f x k dt k' q fin, smoothing u /\ last_state t2 = Some x /\ u_torque u = Some f /\ f k x dt = Some (k', (q, fin)) /\
    (Forall angle q -> Forall angle (rs_tau_J_d x) -> filtered_by (frequency u) (rs_tau_J_d x) q (rc_tau c)).
Proof.
  intros t1 a c t2 H C X. pose proof (typed_is_history _ _ H) as Hh.
  pose (Pt := fun x r => exists u f k dt k' q fin, smoothing u /\ u_torque u = Some f /\ f k x dt = Some (k', (q, fin)) /\
    (Forall angle q -> Forall angle (rs_tau_J_d x) -> filtered_by (frequency u) (rs_tau_J_d x) q r)).
  assert (O : outs_ok (fun _ _ _ => True) Pt (t1 ++ EvCommand a c :: t2)).
  { apply (typed_outs smoothing (fun _ _ _ => True) Pt (fun _ _ => True)); auto.
    intros u f k x dt k' q fin q' U Eu E W Fi. exists u, f, k, dt, k', q, fin. repeat (split; [assumption|]). intros Aq Al.
    destruct (smoothing_cutoff u U) as (Lo & Fc & Vc & Lc). destruct U as ([_ T] & _ & _ & Rc). rewrite <- Vc in Rc |- *.
    unfold filter_torques in Fi. rewrite Lo in Fi. destruct (convert_torques float _ _ _ _) as [r|] eqn:Co; [|discriminate Fi].
    injection Fi as <-. apply then_some in Co. destruct Co as (y & Fl & Co). cbn [limited then_] in Co. apply finite_some in Co. destruct Co as [-> _].
    destruct (T _ _ _ _ _ _ _ Eu E) as [N _]. state_lengths W.
    cbn [reported_of p_tau_J_d] in Fl. apply (list_filtered _ _ _ _ Fc Rc Lc) in Fl; [exact Fl|congruence|exact Aq|exact Al]. }
  destruct (command_torques_fresh _ _ _ _ _ _ Hh O C X) as (x & Lx & (u & f & k & dt & k' & q & fin & P)).
  exists u, f, x, k, dt, k', q, fin. tauto.
Qed.
Print Assumptions C33_torques.

(** Velocities of 1 rad/s with the default filter and no limiter, and torques of 50 Nm. *)
Definition ex_smooth : user_control :=
  UserControl N MmJointVelocity (fun k _ _ => Some ((k + 1)%N, MotionOut (repeat one_bits 7) None (k =? 2)%N))
    (Some (fun k _ _ => Some (k, (repeat fifty 7, false)))) None (Some false) None.
Lemma ex_smooth_ok : smoothing ex_smooth.
Proof.
  split; [|split; [reflexivity|split]].
  - split.
    + intros k x dt k' o [= <- <-]. split; [|discriminate]. split; [reflexivity|]. repeat constructor.
    + intros f k x dt k' q fin [= <-] [= <- <- <-]. split; [reflexivity|]. repeat constructor.
  - split; vm_compute; [reflexivity|discriminate].
  - unfold frequency, number. destruct (val_finite (of_bits (frequency_bits ex_smooth)) false 7036874417766400 (-46)) as [_ ->]; [vm_compute; reflexivity|].
    cbn [cond_Zopp]. change (bpow radix2 (-46)) with (/ 70368744177664).
    assert (bpow radix2 (-900) <= bpow radix2 0) by (apply bpow_le; lia). change (bpow radix2 0) with 1 in *. lra.
Qed.
Definition ex_env_smooth : st :=
  let r id := ex_rs id MgJointVelocity CmExternalController RmMove in
  st_init 10 RtIgnore (ex_first (ex_idle 1) ++ ex_states [r 2; r 4; r 5; r 8; r 9; ex_idle 10])%N
    [ex_connected 0; ex_move 1 MsMotionStarted; None; ex_move 1 MsSuccess]%N [] true true.
Definition ex_smooth_run : list event := trace (program 1337 [AControl (controller_of ex_rots ex_smooth) 0%N] ex_env_smooth).
Lemma ex_smooth_typed : typed_history smoothing ex_smooth_run.
Proof.
  unfold typed_history, history, ex_smooth_run, ex_env_smooth. exists 1337%N, [AControl (controller_of ex_rots ex_smooth) 0%N]. do 7 eexists. split.
  - apply Forall_cons; [|apply Forall_nil]. exists ex_rots, ex_smooth. split; [reflexivity|exact ex_smooth_ok].
  - reflexivity.
Qed.
(** Starting from rest the first commands are 0.3859 rad/s and 19.29 Nm. *)
Example C33_ex_commands : typed_history smoothing ex_smooth_run /\
  exists t1 a c t2, ex_smooth_run = t1 ++ EvCommand a c :: t2 /\ completed t2 = false /\ motion_mode t2 = Some MmJointVelocity /\
    motion_ctrl t2 = Some McExternalController /\
    (exists x, last_state t2 = Some x /\ Forall angle (rs_tau_J_d x)) /\ Forall angle (repeat fifty 7) /\
    hd 0%N (mc_dq_c (rc_motion c)) = 4600622827675920455%N /\ hd 0%N (rc_tau c) = 4626123848743077751%N.
Proof.
  split; [exact ex_smooth_typed|].
  destruct (command_in ex_smooth_run 5 (fun c t2 => completed t2 = false /\ motion_mode t2 = Some MmJointVelocity /\
    motion_ctrl t2 = Some McExternalController /\ last_state t2 = Some (ex_rs 5 MgJointVelocity CmExternalController RmMove) /\
    hd 0%N (mc_dq_c (rc_motion c)) = 4600622827675920455%N /\ hd 0%N (rc_tau c) = 4626123848743077751%N))
    as (t1 & a & c & t2 & E & C & M & X & L & V).
  { vm_compute. repeat split. }
  exists t1, a, c, t2. split; [exact E|]. split; [exact C|]. split; [exact M|]. split; [exact X|].
  split; [eexists; split; [exact L|]|split; [|exact V]].
  - change (rs_tau_J_d (ex_rs 5 MgJointVelocity CmExternalController RmMove)) with (repeat 0%N 7). apply Forall_forall. intros b I. apply repeat_spec in I. subst b.
    split; [split; vm_compute; [reflexivity|discriminate]|]. change (number 0) with 0. rewrite Rabs_R0. lra.
  - apply Forall_forall. intros b I. apply repeat_spec in I. subst b.
    split; [split; vm_compute; [reflexivity|discriminate]|]. unfold number.
    destruct (val_finite (of_bits fifty) false 7036874417766400 (-47)) as [_ ->]; [vm_compute; reflexivity|].
    cbn [cond_Zopp]. change (bpow radix2 (-47)) with (/ 140737488355328). apply Rabs_le. lra.
Qed.
