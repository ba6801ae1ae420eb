(** C33: the low-pass filter. *)
From Coq Require Import List ZArith NArith Bool Reals Lra Lia Psatz.
From Flocq Require Import Core IEEE754.BinarySingleNaN IEEE754.Binary IEEE754.Bits.
From Verif Require Import NumOps NumReal NumFloat FloatFacts RateModel ConvertModel Properties_Rate.
Import ListNotations.
Open Scope R_scope.

(** * In exact arithmetic *)
Lemma gain_range : forall t c, 0 < t -> 0 < c -> 0 < filter_gain real t c < 1.
Proof.
  intros t c Ht Hc. unfold filter_gain. cbn [f_add f_div f_mul f_int f_pi real].
  assert (P : 0 < 1 / (2 * PI * c)).
  { apply Rdiv_lt_0_compat; [lra|]. pose proof PI_RGT_0. apply Rmult_lt_0_compat; [lra|exact Hc]. }
  split; [apply Rdiv_lt_0_compat; lra|]. apply (Rmult_lt_reg_r (t + 1 / (2 * PI * c))); [lra|]. unfold Rdiv at 1.
  rewrite Rmult_assoc, Rinv_l by lra. lra.
Qed.
Lemma filter_real : forall t y l c, 0 < t -> 0 < c ->
  low_pass_filter real t y l c = Some (filter_gain real t c * y + (1 - filter_gain real t c) * l).
Proof.
  intros t y l c Ht Hc. unfold low_pass_filter. cbn [f_sign_positive f_finite real].
  destruct (Rle_dec 0 t); [|lra]. destruct (Rle_dec 0 c); [|lra]. reflexivity.
Qed.
(** Between previous value and request; the same if both agree; otherwise strictly towards the
    request without reaching it. *)
Theorem C33_between : forall t y last c, 0 < t -> 0 < c ->
  exists r, low_pass_filter real t y last c = Some r /\
    Rmin y last <= r <= Rmax y last /\
    (y = last -> r = y) /\
    (last < y -> last < r < y) /\ (y < last -> y < r < last).
Proof.
  intros t y l c Ht Hc. destruct (gain_range t c Ht Hc) as [G1 G2]. rewrite filter_real by assumption.
  set (g := filter_gain real t c) in *. clearbody g. cbn [F real] in g. exists (g * y + (1 - g) * l).
  split; [reflexivity|]. unfold Rmin, Rmax. destruct (Rle_dec y l); repeat split; intros; try subst; nra.
Qed.
Print Assumptions C33_between.
(** The documented first-order low-pass: one implicit Euler step of [r' = 2 pi cutoff (y - r)], the
    equation of an RC element with this cutoff frequency; no other output solves it. *)
Theorem C33_first_order : forall t y last c, 0 < t -> 0 < c ->
  exists r, low_pass_filter real t y last c = Some r /\
    (r - last) / t = 2 * PI * c * (y - r) /\
    (forall r', (r' - last) / t = 2 * PI * c * (y - r') -> r' = r).
Proof.
  intros t y l c Ht Hc. rewrite filter_real by assumption. eexists. split; [reflexivity|].
  pose proof PI_RGT_0 as P. assert (W : 0 < 2 * PI * c) by (apply Rmult_lt_0_compat; lra).
  unfold filter_gain. cbn [f_add f_div f_mul f_int f_pi real F]. set (w := 2 * PI * c) in *.
  assert (G : t / (t + 1 / w) = t * w / (1 + t * w)) by (field; split; [nra|lra]).
  replace (IZR 1) with 1 by reflexivity. replace (IZR 2 * PI * c) with w by reflexivity. rewrite G.
  assert (N : 1 + t * w <> 0) by nra. split; [field; lra|].
  intros r' E. apply (f_equal (fun z => z * t)) in E. unfold Rdiv in E at 1. rewrite Rmult_assoc, Rinv_l, Rmult_1_r in E by lra.
  apply (Rmult_eq_reg_r (1 + t * w)); [|exact N]. transitivity (l + w * (y - r') * t + r' * (t * w)); [lra|]. field. exact N.
Qed.
Print Assumptions C33_first_order.
(** A higher cutoff frequency follows the request more closely. *)
Theorem C33_monotone : forall t y last c c' r r', 0 < t -> 0 < c < c' -> 
  low_pass_filter real t y last c = Some r -> low_pass_filter real t y last c' = Some r' ->
  Rabs (y - r') <= Rabs (y - r) /\ (y <> last -> Rabs (y - r') < Rabs (y - r)).
Proof.
  intros t y l c c' r r' Ht Hc. rewrite !filter_real by lra. intros E E'.
  assert (Er : r = filter_gain real t c * y + (1 - filter_gain real t c) * l) by congruence.
  assert (Er' : r' = filter_gain real t c' * y + (1 - filter_gain real t c') * l) by congruence. clear E E'. subst r r'.
  destruct (gain_range t c Ht) as [G1 G2]; [lra|]. destruct (gain_range t c' Ht) as [G1' G2']; [lra|].
  assert (GG : filter_gain real t c < filter_gain real t c').
  { unfold filter_gain. cbn [f_add f_div f_mul f_int f_pi real]. apply Rmult_lt_compat_l; [exact Ht|].
    pose proof PI_RGT_0 as P.
    assert (0 < 1 / (2 * PI * c')) by (apply Rdiv_lt_0_compat; [lra|apply Rmult_lt_0_compat; lra]).
    assert (1 / (2 * PI * c') < 1 / (2 * PI * c)).
    { apply Rmult_lt_compat_l; [lra|]. apply Rinv_lt_contravar; [|apply Rmult_lt_compat_l; lra].
      apply Rmult_lt_0_compat; apply Rmult_lt_0_compat; lra. }
    apply Rinv_lt_contravar; [apply Rmult_lt_0_compat; lra|lra]. }
  set (g := filter_gain real t c) in *. set (g' := filter_gain real t c') in *. clearbody g g'. cbn [F real] in g, g'.
  replace (y - (g * y + (1 - g) * l)) with ((1 - g) * (y - l)) by ring.
  replace (y - (g' * y + (1 - g') * l)) with ((1 - g') * (y - l)) by ring.
  rewrite (Rabs_mult (1 - g)), (Rabs_mult (1 - g')), (Rabs_right (1 - g)), (Rabs_right (1 - g')) by lra. pose proof (Rabs_pos (y - l)). split; [nra|].
  intros N. assert (0 < Rabs (y - l)) by (apply Rabs_pos_lt; lra). nra.
Qed.
Print Assumptions C33_monotone.

(** Filtering a constant request again and again, starting from [l]. *)
Fixpoint filter_steps (t y c : R) (n : nat) (l : R) : option R :=
  match n with
  | O => Some l
  | S n => match low_pass_filter real t y l c with Some l => filter_steps t y c n l | None => None end
  end.
(** The distance to the request shrinks by the same factor below one in every step, so that it
    falls below every bound. *)
Theorem C33_converges : forall t y last c, 0 < t -> 0 < c ->
  exists q, 0 < q < 1 /\
    (forall n, exists r, filter_steps t y c n last = Some r /\ Rabs (y - r) = q ^ n * Rabs (y - last)) /\
    (forall eps, 0 < eps -> exists n0, forall n, (n0 <= n)%nat ->
       exists r, filter_steps t y c n last = Some r /\ Rabs (y - r) < eps).
Proof.
  intros t y l c Ht Hc. destruct (gain_range t c Ht Hc) as [G1 G2]. exists (1 - filter_gain real t c).
  assert (Q : 0 < 1 - filter_gain real t c < 1) by (cbn [F real] in *; lra). split; [exact Q|].
  assert (S : forall n l, exists r, filter_steps t y c n l = Some r /\ Rabs (y - r) = (1 - filter_gain real t c) ^ n * Rabs (y - l)).
  { induction n as [|n IH]; intros l0; cbn [filter_steps pow].
    - exists l0. split; [reflexivity|ring].
    - rewrite filter_real by assumption. destruct (IH (filter_gain real t c * y + (1 - filter_gain real t c) * l0)) as (r & E & D).
      exists r. split; [exact E|]. rewrite D. set (g := filter_gain real t c) in *. clearbody g. cbn [F real] in g.
      replace (y - (g * y + (1 - g) * l0)) with ((1 - g) * (y - l0)) by ring.
      rewrite Rabs_mult, (Rabs_right (1 - g)) by lra. ring. }
  split; [intros n; apply S|]. intros eps He.
  set (d := Rabs (y - l)). assert (Hd : 0 <= d) by apply Rabs_pos.
  destruct (pow_lt_1_zero (1 - filter_gain real t c)) with (y := eps / (d + 1)) as [n0 Hn].
  { rewrite Rabs_right; cbn [F real] in *; lra. } { apply Rdiv_lt_0_compat; lra. }
  exists n0. intros n Hle. destruct (S n l) as (r & E & D). exists r. split; [exact E|]. rewrite D. fold d.
  specialize (Hn n Hle). assert (P : 0 < (1 - filter_gain real t c) ^ n) by (apply pow_lt, Q).
  set (p := (1 - filter_gain real t c) ^ n) in *. cbn [F real] in p. clearbody p. rewrite Rabs_right in Hn by lra.
  apply Rle_lt_trans with (p * (d + 1)); [nra|]. apply (Rmult_lt_compat_r (d + 1)) in Hn; [|lra].
  unfold Rdiv in Hn. rewrite Rmult_assoc, Rinv_l in Hn by lra. lra.
Qed.
Print Assumptions C33_converges.
Example C33_ex : exists r, low_pass_filter real (1/1000) 1 0 100 = Some r /\ 0 < r < 1.
Proof.
  destruct (C33_between (1/1000) 1 0 100) as (r & E & _ & _ & S & _); [lra|lra|]. exists r. split; [exact E|apply S; lra].
Qed.

(** * In IEEE-754 double arithmetic *)
Lemma rnd_val : forall x, b64_fin x = true -> rnd (val x) = val x.
Proof. intros x F. apply round_generic; [apply valid_rnd_N|]. apply Binary.generic_format_B2R. Qed.
Lemma two_pi_val : let p := f_mul float (f_int float 2) (f_pi float) in b64_fin p = true /\ 6 <= val p <= 7.
Proof.
  intros p. destruct (val_finite p false 7074237752028440 (-50)) as [F V]; [vm_compute; reflexivity|].
  split; [exact F|]. rewrite V. cbn [cond_Zopp]. change (bpow radix2 (-50)) with (/ 1125899906842624). lra.
Qed.
Lemma one_val : b64_fin (f_int float 1) = true /\ val (f_int float 1) = 1.
Proof.
  destruct (val_finite (f_int float 1) false 4503599627370496 (-52)) as [F V]; [vm_compute; reflexivity|].
  split; [exact F|]. rewrite V. cbn [cond_Zopp]. change (bpow radix2 (-52)) with (/ 4503599627370496). lra.
Qed.
Lemma bpow_num : bpow radix2 0 = 1 /\ bpow radix2 10 = 1024 /\ bpow radix2 13 = 8192 /\ bpow radix2 1 = 2 /\ bpow radix2 2 = 4.
Proof. repeat split; reflexivity. Qed.
Lemma gain_float : forall c, b64_fin c = true -> bpow radix2 (-900) <= val c <= 1000 ->
  b64_fin (filter_gain float (DELTA_T float) c) = true /\ 0 <= val (filter_gain float (DELTA_T float) c) <= 1.
Proof.
  intros c Fc [Hc1 Hc2]. destruct bpow_num as (B0 & B10 & B13 & B1 & B2). unfold filter_gain. cbn [f_add f_div f_mul float].
  destruct two_pi_val as [Fp Vp]. cbn [f_mul float] in Fp, Vp. set (tp := b64_mult mode_NE _ _) in *. clearbody tp.
  destruct one_val as [F1 V1]. destruct delta_val as [Fd Vd]. set (T := DELTA_T float) in *. clearbody T.
  set (one := f_int float 1) in *. clearbody one.
  assert (C0 : 0 < bpow radix2 (-900)) by apply bpow_gt_0.
  destruct (mult_ok tp c 13 Fp Fc) as [Fm Vm]; [lia| |].
  { rewrite B13. rewrite Rabs_right by nra. nra. }
  set (p := b64_mult mode_NE tp c) in *. clearbody p.
  assert (P : bpow radix2 (-900) <= val p).
  { rewrite Vm. rewrite <- (rnd_bpow (-900)) by lia. apply rnd_le. nra. }
  assert (I : 0 < / val p <= bpow radix2 900).
  { split; [apply Rinv_0_lt_compat; lra|]. replace (bpow radix2 900) with (/ bpow radix2 (-900)).
    - apply Rinv_le; lra.
    - rewrite <- bpow_opp. reflexivity. }
  destruct (div_ok one p 900 F1 Fm) as [Fq Vq]; [lra|lia| |].
  { rewrite V1. unfold Rdiv. rewrite Rmult_1_l, Rabs_right by lra. apply I. }
  set (q := b64_div mode_NE one p) in *. clearbody q.
  assert (Q : 0 <= val q <= bpow radix2 900).
  { rewrite Vq, V1. unfold Rdiv. rewrite Rmult_1_l. split.
    - rewrite <- rnd_0. apply rnd_le. lra.
    - rewrite <- (rnd_bpow 900) by lia. apply rnd_le. apply I. }
  assert (B901 : bpow radix2 901 = bpow radix2 900 * 2) by (rewrite <- B1, <- bpow_plus; reflexivity).
  assert (B900 : 1 <= bpow radix2 900) by (rewrite <- B0; apply bpow_le; lia).
  destruct (plus_ok T q 901 Fd Fq) as [Fs Vs]; [lia| |].
  { rewrite Rabs_right by lra. lra. }
  set (s := b64_plus mode_NE T q) in *. clearbody s.
  assert (S : val T <= val s) by (rewrite Vs; rewrite <- (rnd_val T Fd) at 1; apply rnd_le; lra).
  assert (D : 0 < val T / val s <= 1).
  { split; [apply Rdiv_lt_0_compat; lra|]. apply (Rmult_le_reg_r (val s)); [lra|]. unfold Rdiv.
    rewrite Rmult_assoc, Rinv_l by lra. lra. }
  destruct (div_ok T s 0 Fd Fs) as [Fg Vg]; [lra|lia| |].
  { rewrite B0, Rabs_right by lra. lra. }
  split; [exact Fg|]. rewrite Vg. split.
  - rewrite <- rnd_0. apply rnd_le. lra.
  - rewrite <- B0, <- (rnd_bpow 0) by lia. apply rnd_le. rewrite B0. lra.
Qed.
(** The result as a mixture of request and previous value, up to 2^-40. *)
Lemma filter_mix : forall y last c, b64_fin y = true -> b64_fin last = true -> b64_fin c = true ->
  bpow radix2 (-900) <= val c <= 1000 -> Bsign 53 1024 c = false -> Rabs (val y) <= 1024 -> Rabs (val last) <= 1024 ->
  let g := val (filter_gain float (DELTA_T float) c) in
  exists r, low_pass_filter float (DELTA_T float) y last c = Some r /\ b64_fin r = true /\
    Rabs (val r - (g * val y + (1 - g) * val last)) <= bpow radix2 (-40).
Proof.
  intros y l c Fy Fl Fc Hc Sc Hy Hl gg. destruct (gain_float c Fc Hc) as [Fg Vg]. destruct bpow_num as (B0 & B10 & B13 & B1 & B2).
  unfold low_pass_filter. cbn [f_sign_positive f_finite float]. rewrite Sc, Fy, Fl, Fc.
  replace (negb (Bsign 53 1024 (DELTA_T float)) && b64_fin (DELTA_T float))%bool with true by (vm_compute; reflexivity).
  cbn [negb andb]. eexists. split; [reflexivity|]. cbn [f_add f_mul f_sub float].
  destruct one_val as [F1 V1]. set (one := f_int float 1) in *. clearbody one.
  set (g := filter_gain float (DELTA_T float) c) in *. clearbody g. cbn [F float] in g. subst gg.
  destruct (minus_ok one g 0 F1 Fg) as [Fh Vh]; [lia|rewrite B0; apply Rabs_le; lra|].
  assert (Eh : Rabs (val (b64_minus mode_NE one g) - (1 - val g)) <= bpow radix2 (-53)).
  { rewrite Vh, V1. apply (rnd_error (1 - val g) 1); [lia|]. rewrite B1. apply Rle_lt_trans with 1; [apply Rabs_le; lra|lra]. }
  assert (Rh : 0 <= val (b64_minus mode_NE one g) <= 1).
  { rewrite Vh, V1. split; [rewrite <- rnd_0; apply rnd_le; lra|].
    apply Rle_trans with (rnd (bpow radix2 0)); [apply rnd_le; rewrite B0; lra|rewrite rnd_bpow by lia; lra]. }
  set (h := b64_minus mode_NE one g) in *. clearbody h. clear Vh.
  assert (Y : - 1024 <= val y <= 1024) by (revert Hy; unfold Rabs; destruct (Rcase_abs (val y)); lra).
  assert (L : - 1024 <= val l <= 1024) by (revert Hl; unfold Rabs; destruct (Rcase_abs (val l)); lra).
  destruct (mult_ok g y 10 Fg Fy) as [Fa Va]; [lia|rewrite B10; apply Rabs_le; split; nra|].
  destruct (mult_ok h l 10 Fh Fl) as [Fb Vb]; [lia|rewrite B10; apply Rabs_le; split; nra|].
  assert (B11 : bpow radix2 11 = 2048) by reflexivity. assert (B12 : bpow radix2 12 = 4096) by reflexivity.
  assert (Ea : Rabs (val (b64_mult mode_NE g y) - val g * val y) <= bpow radix2 (-43)).
  { rewrite Va. apply (rnd_error (val g * val y) 11); [lia|]. rewrite B11. apply Rle_lt_trans with 1024; [apply Rabs_le; split; nra|lra]. }
  assert (Eb : Rabs (val (b64_mult mode_NE h l) - val h * val l) <= bpow radix2 (-43)).
  { rewrite Vb. apply (rnd_error (val h * val l) 11); [lia|]. rewrite B11. apply Rle_lt_trans with 1024; [apply Rabs_le; split; nra|lra]. }
  assert (Ra : Rabs (val (b64_mult mode_NE g y)) <= 1024).
  { rewrite Va, <- B10. apply rnd_abs_le; [lia|]. rewrite B10. apply Rabs_le; split; nra. }
  assert (Rb : Rabs (val (b64_mult mode_NE h l)) <= 1024).
  { rewrite Vb, <- B10. apply rnd_abs_le; [lia|]. rewrite B10. apply Rabs_le; split; nra. }
  set (a := b64_mult mode_NE g y) in *. set (b := b64_mult mode_NE h l) in *. clearbody a b. clear Va Vb.
  assert (Sab : Rabs (val a + val b) <= 2048) by (eapply Rle_trans; [apply Rabs_triang|]; lra).
  destruct (plus_ok a b 11 Fa Fb) as [Fr Vr]; [lia|rewrite B11; exact Sab|].
  assert (Er : Rabs (val (b64_plus mode_NE a b) - (val a + val b)) <= bpow radix2 (-42)).
  { rewrite Vr. apply (rnd_error (val a + val b) 12); [lia|]. rewrite B12. lra. }
  split; [exact Fr|]. set (r := b64_plus mode_NE a b) in *. clearbody r. clear Vr.
  change (bpow radix2 (-53)) with (/ 9007199254740992) in Eh. change (bpow radix2 (-43)) with (/ 8796093022208) in Ea, Eb.
  change (bpow radix2 (-42)) with (/ 4398046511104) in Er. change (bpow radix2 (-40)) with (/ 1099511627776).
  assert (Dh : Rabs ((val h - (1 - val g)) * val l) <= / 8796093022208).
  { rewrite Rabs_mult. pose proof (Rabs_pos (val h - (1 - val g))). pose proof (Rabs_pos (val l)). nra. }
  assert (EE : forall u d, Rabs u <= d -> - d <= u <= d) by (intros u d; unfold Rabs; destruct (Rcase_abs u); lra).
  apply EE in Ea, Eb, Er, Dh.
  replace (val r - (val g * val y + (1 - val g) * val l)) with ((val r - (val a + val b)) + (val a - val g * val y) + (val b - val h * val l) +
    (val h - (1 - val g)) * val l) by ring. apply Rabs_le. lra.
Qed.
(** For values up to 1024 and every cutoff frequency from 2^-900 Hz to 1000 Hz: the result is
    finite and between request and previous value up to 2^-40. *)
Theorem C33_between_float_partial : forall y last c, b64_fin y = true -> b64_fin last = true -> b64_fin c = true ->
  bpow radix2 (-900) <= val c <= 1000 -> Bsign 53 1024 c = false -> Rabs (val y) <= 1024 -> Rabs (val last) <= 1024 ->
  exists r, low_pass_filter float (DELTA_T float) y last c = Some r /\ b64_fin r = true /\
    Rmin (val y) (val last) - bpow radix2 (-40) <= val r <= Rmax (val y) (val last) + bpow radix2 (-40).
Proof.
  intros y l c Fy Fl Fc Hc Sc Hy Hl. destruct (filter_mix y l c Fy Fl Fc Hc Sc Hy Hl) as (r & E & Fr & M).
  exists r. split; [exact E|]. split; [exact Fr|]. destruct (gain_float c Fc Hc) as [_ Vg].
  set (g := val (filter_gain float (DELTA_T float) c)) in *. clearbody g.
  assert (Cv : Rmin (val y) (val l) <= g * val y + (1 - g) * val l <= Rmax (val y) (val l)).
  { unfold Rmin, Rmax. destruct (Rle_dec (val y) (val l)); split; nra. }
  revert M. unfold Rabs. destruct (Rcase_abs _); lra.
Qed.
Print Assumptions C33_between_float_partial.

(** The arguments which are refused: cutoff frequencies that are negative, infinite or NaN, and
    values that are not finite. *)
Theorem C33_refuses : forall y last c, 
  (b64_fin c = false \/ Bsign 53 1024 c = true \/ b64_fin y = false \/ b64_fin last = false) ->
  low_pass_filter float (DELTA_T float) y last c = None.
Proof.
  intros y l c H. unfold low_pass_filter. cbn [f_sign_positive f_finite float].
  replace (negb (Bsign 53 1024 (DELTA_T float)) && b64_fin (DELTA_T float))%bool with true by (vm_compute; reflexivity).
  destruct (Bsign 53 1024 c), (b64_fin c), (b64_fin y), (b64_fin l); try reflexivity; exfalso;
    repeat (destruct H as [H|H]; try discriminate H); discriminate H.
Qed.
Print Assumptions C33_refuses.
Lemma same_bits : forall o b, option_map bits o = Some b -> o = Some (of_bits b).
Proof. intros [r|] b H; [|discriminate]. cbn [option_map] in H. injection H as <-. rewrite of_bits_bits. reflexivity. Qed.
(** The documentation also promises a panic for a cutoff frequency of zero. It is accepted, and
    the request is ignored. *)
Theorem C33_zero_cutoff_refuted : exists y last c r, val c = 0 /\ b64_fin c = true /\ y <> last /\
  low_pass_filter float (DELTA_T float) y last c = Some r /\ val r = val last.
Proof.
  exists (f_int float 1), (of_bits 4611686018427387904), (f_int float 0), (of_bits 4611686018427387904).
  split; [reflexivity|]. split; [reflexivity|]. split; [discriminate|].
  split; [apply same_bits; vm_compute; reflexivity|reflexivity].
Qed.
Print Assumptions C33_zero_cutoff_refuted.
(** Rounding: a request equal to the previous value can be changed (1.3, 100 Hz). *)
Theorem C33_equal_refuted : exists y c r, b64_fin y = true /\
  low_pass_filter float (DELTA_T float) y y c = Some r /\ val r <> val y.
Proof.
  exists (of_bits 4608533498688228557), (f_int float 100), (of_bits 4608533498688228556).
  split; [reflexivity|]. split; [apply same_bits; vm_compute; reflexivity|].
  destruct (val_finite (of_bits 4608533498688228557) false 5854679515581645 (-52)) as [_ ->]; [vm_compute; reflexivity|].
  destruct (val_finite (of_bits 4608533498688228556) false 5854679515581644 (-52)) as [_ ->]; [vm_compute; reflexivity|].
  cbn [cond_Zopp]. intros E. apply Rmult_eq_reg_r in E; [apply eq_IZR in E; discriminate E|]. apply Rgt_not_eq, bpow_gt_0.
Qed.
Print Assumptions C33_equal_refuted.
(** The callers ask for filtering only if the cutoff frequency is below 1000 Hz. From there on,
    and also for NaN, arrays are left alone; negative frequencies are refused. *)
Theorem C33_only_below_maximum : forall c y last,
  (f_lt float c (f_int float 1000) = false -> filtered float c y last = Some y) /\
  (f_lt float c (f_int float 1000) = true -> Bsign 53 1024 c = true -> y <> [] -> last <> [] -> filtered float c y last = None).
Proof.
  intros c y l. unfold filtered, MAX_CUTOFF_FREQUENCY. split; intros H; rewrite H; [reflexivity|].
  intros S Hy Hl. destruct y as [|a y]; [contradiction|]. destruct l as [|b l]; [contradiction|].
  cbn [map2 sequence]. rewrite C33_refuses by auto. reflexivity.
Qed.
Print Assumptions C33_only_below_maximum.
Example C33_ex2 : f_lt float (of_bits 9221120237041090560) (f_int float 1000) = false /\
  f_lt float (f_int float (-5)) (f_int float 1000) = true /\ Bsign 53 1024 (f_int float (-5)) = true.
Proof. repeat split; vm_compute; reflexivity. Qed.
Example C33_ex3 : bpow radix2 (-900) <= val (f_int float 100) <= 1000.
Proof.
  destruct (val_finite (f_int float 100) false 7036874417766400 (-46)) as [_ ->]; [vm_compute; reflexivity|].
  cbn [cond_Zopp]. change (bpow radix2 (-46)) with (/ 70368744177664).
  assert (bpow radix2 (-900) <= bpow radix2 0) by (apply bpow_le; lia). change (bpow radix2 0) with 1 in *. lra.
Qed.
