(** A smooth ramp from rest to a constant speed, and the difference of two of them; no calculus, only Taylor bounds. *)
From Coq Require Import Lra Reals Psatz.
Open Scope R_scope.

(** [x^3 - x^4/2] between 0 and 1, then slope 1. *)
Definition up (x : R) : R := if Rle_dec x 0 then 0 else if Rle_dec x 1 then x * x * x - x * x * x * x / 2 else x - 1 / 2.
Definition up' (x : R) : R := if Rle_dec x 0 then 0 else if Rle_dec x 1 then 3 * x * x - 2 * x * x * x else 1.

Lemma slope_range : forall x, 0 <= up' x <= 1.
Proof. intros x. unfold up'. destruct (Rle_dec x 0); [lra|]. destruct (Rle_dec x 1); [|lra]. 
  split.
  - replace (3 * x * x - 2 * x * x * x) with (x * x * (3 - 2 * x)) by ring. apply Rmult_le_pos; nra.
  - assert (0 <= (1 - x) * (1 - x) * (1 + 2 * x)) by (apply Rmult_le_pos; nra). replace ((1 - x) * (1 - x) * (1 + 2 * x)) with (1 - (3 * x * x - 2 * x * x * x)) in H by ring. lra.
Qed.
Lemma inner : forall x y, 0 <= x <= 1 -> 0 <= y <= 1 -> 0 <= y + 2 * x - (y * y + 2 * x * y + 3 * x * x) / 2 <= 3 / 4.
Proof.
  intros x y Hx Hy. split.
  - assert (0 <= (1 - y) * y) by nra. assert (0 <= (1 - x) * (1 - y)) by nra. assert (0 <= x * (1 - x)) by nra. nra.
  - pose proof (Rle_0_sqr (y - 1 + x)). pose proof (Rle_0_sqr (x - / 2)). pose proof (Rle_0_sqr (y - / 2)). unfold Rsqr in *. nra.
Qed.
(** The Taylor bounds of the ramp. *)
Lemma taylor : forall x y, 0 <= up y - up x - up' x * (y - x) <= 3 / 4 * ((y - x) * (y - x)).
Proof.
  intros x y. assert (Sq : 0 <= (y - x) * (y - x)) by apply Rle_0_sqr. unfold up, up'. destruct (Rle_dec x 0) as [X0|X0]; [|destruct (Rle_dec x 1) as [X1|X1]]; (destruct (Rle_dec y 0) as [Y0|Y0]; [|destruct (Rle_dec y 1) as [Y1|Y1]]).
  - lra.
  - assert (A : 0 <= y * y * (y * (1 - y / 2)) <= y * y * (1 / 2)).
    { split; [apply Rmult_le_pos; nra|]. apply Rmult_le_compat_l; [nra|]. pose proof (Rle_0_sqr (y - 1)). unfold Rsqr in *. nra. }
    assert (B : y * y <= (y - x) * (y - x)) by nra. split; [nra|]. nra.
  - assert (B : y * y <= (y - x) * (y - x)) by nra. split; [lra|]. pose proof (Rle_0_sqr (y - 2 / 3)). unfold Rsqr in *. nra.
  - set (z := - y). replace y with (- z) by (unfold z; ring). assert (Z : 0 <= z) by (unfold z; lra). clearbody z. clear Y0 Sq y.
    replace (0 - (x * x * x - x * x * x * x / 2) - (3 * x * x - 2 * x * x * x) * (- z - x)) with (x * x * (x * (2 - 3 / 2 * x)) + x * (x * (3 - 2 * x)) * z) by field.
    replace ((- z - x) * (- z - x)) with (x * x + 2 * (x * z) + z * z) by ring.
    assert (A : 0 <= x * (2 - 3 / 2 * x) <= 2 / 3) by (split; [nra|]; pose proof (Rle_0_sqr (x - 2 / 3)); unfold Rsqr in *; nra).
    assert (B : 0 <= x * (3 - 2 * x) <= 9 / 8) by (split; [nra|]; pose proof (Rle_0_sqr (x - 3 / 4)); unfold Rsqr in *; nra).
    assert (C : 0 <= x * (x * (3 - 2 * x)) * z <= 3 / 2 * (x * z)).
    { split; [apply Rmult_le_pos; [nra|lra]|]. replace (3 / 2 * (x * z)) with (3 / 2 * x * z) by ring. apply Rmult_le_compat_r; [lra|].
      apply Rle_trans with (x * (9 / 8)); [apply Rmult_le_compat_l; lra|lra]. }
    assert (D : 0 <= x * x * (x * (2 - 3 / 2 * x)) <= x * x * (2 / 3)) by (split; [apply Rmult_le_pos; nra|apply Rmult_le_compat_l; nra]).
    assert (0 <= x * x) by nra. assert (0 <= z * z) by nra. lra.
  - replace (y * y * y - y * y * y * y / 2 - (x * x * x - x * x * x * x / 2) - (3 * x * x - 2 * x * x * x) * (y - x)) with
      ((y - x) * (y - x) * (y + 2 * x - (y * y + 2 * x * y + 3 * x * x) / 2)) by field.
    pose proof (inner x y ltac:(lra) ltac:(lra)). assert (0 <= (y - x) * (y - x)) by nra. split; [apply Rmult_le_pos; lra|].
    rewrite Rmult_comm. apply Rmult_le_compat_r; lra.
  - set (s := y - 1). replace y with (1 + s) by (unfold s; ring). assert (S : 0 <= s) by (unfold s; lra). clearbody s. clear Y0 Y1 Sq y.
    replace (1 + s - 1 / 2 - (x * x * x - x * x * x * x / 2) - (3 * x * x - 2 * x * x * x) * (1 + s - x)) with
      ((1 - x) * (1 - x) * (1 + 2 * x - (1 * 1 + 2 * x * 1 + 3 * x * x) / 2) + (1 - x) * ((1 - x) * (1 + 2 * x)) * s) by field.
    replace ((1 + s - x) * (1 + s - x)) with ((1 - x) * (1 - x) + 2 * ((1 - x) * s) + s * s) by ring.
    pose proof (inner x 1 ltac:(lra) ltac:(lra)) as I. assert (0 <= (1 - x) * (1 - x)) by nra. assert (0 <= s * s) by nra.
    assert (B : 0 <= (1 - x) * (1 + 2 * x) <= 9 / 8) by (split; [nra|]; pose proof (Rle_0_sqr (x - / 4)); unfold Rsqr in *; nra).
    assert (C : 0 <= (1 - x) * ((1 - x) * (1 + 2 * x)) * s <= 3 / 2 * ((1 - x) * s)).
    { split; [apply Rmult_le_pos; [nra|lra]|]. replace (3 / 2 * ((1 - x) * s)) with (3 / 2 * (1 - x) * s) by ring. apply Rmult_le_compat_r; [lra|].
      apply Rle_trans with ((1 - x) * (9 / 8)); [apply Rmult_le_compat_l; lra|lra]. }
    assert (D : 0 <= (1 - x) * (1 - x) * (1 + 2 * x - (1 * 1 + 2 * x * 1 + 3 * x * x) / 2) <= (1 - x) * (1 - x) * (3 / 4)) by (split; [apply Rmult_le_pos; lra|apply Rmult_le_compat_l; lra]).
    lra.
  - assert (B : (1 - y) * (1 - y) <= (y - x) * (y - x)) by nra. assert (0 <= (1 - y)) by lra. split; [lra|]. nra.
  - replace (y * y * y - y * y * y * y / 2 - (x - 1 / 2) - 1 * (y - x)) with ((1 - y) * (1 - y) * ((1 - y) * (1 + y) / 2)) by field.
    assert (B : (1 - y) * (1 - y) <= (y - x) * (y - x)) by nra. assert (C : 0 <= (1 - y) * (1 + y) / 2 <= 1 / 2) by (split; nra). assert (0 <= (1 - y) * (1 - y)) by nra.
    split; [apply Rmult_le_pos; lra|]. apply Rle_trans with ((1 - y) * (1 - y) * (1 / 2)); [apply Rmult_le_compat_l; lra|lra].
  - lra.
Qed.
Lemma up_slope : forall x y, x <= y -> 0 <= up y - up x <= y - x.
Proof.
  intros x y H. pose proof (taylor x y) as [A _]. pose proof (taylor y x) as [B _]. pose proof (slope_range x). pose proof (slope_range y).
  assert (0 <= up' x * (y - x)) by (apply Rmult_le_pos; lra). assert (up' y * (y - x) <= 1 * (y - x)) by (apply Rmult_le_compat_r; lra). lra.
Qed.

(** From rest to speed [q] in [t1], at rest again [t1] after [t2]. *)
Section Profile.
  Variables q t1 t2 : R.
  Hypothesis q_pos : 0 < q.
  Hypothesis t1_pos : 0 < t1.
  Definition ramp_up (t : R) : R := q * t1 * up (t / t1).
  Definition profile (t : R) : R := ramp_up t - ramp_up (t - t2).
  Lemma ramp_slope : forall x y, x <= y -> 0 <= ramp_up y - ramp_up x <= q * (y - x).
  Proof.
    intros x y H. assert (I : 0 < / t1) by (apply Rinv_0_lt_compat, t1_pos). assert (L : x / t1 <= y / t1) by (apply Rmult_le_compat_r; lra).
    pose proof (up_slope _ _ L) as [A B]. assert (P : 0 < q * t1) by (apply Rmult_lt_0_compat; lra). unfold ramp_up.
    replace (q * t1 * up (y / t1) - q * t1 * up (x / t1)) with (q * t1 * (up (y / t1) - up (x / t1))) by ring. split; [apply Rmult_le_pos; lra|].
    replace (q * (y - x)) with (q * t1 * (y / t1 - x / t1)) by (field; lra). apply Rmult_le_compat_l; lra.
  Qed.
  Lemma ramp_bend : forall t h, 0 <= ramp_up (t + h) - 2 * ramp_up t + ramp_up (t - h) <= 3 / 2 * (q / t1) * (h * h).
  Proof.
    intros t h. assert (P : 0 < q * t1) by (apply Rmult_lt_0_compat; lra).
    pose proof (taylor (t / t1) ((t + h) / t1)) as A. pose proof (taylor (t / t1) ((t - h) / t1)) as B. unfold ramp_up.
    replace ((t + h) / t1 - t / t1) with (h / t1) in A by (field; lra). replace ((t - h) / t1 - t / t1) with (- (h / t1)) in B by (field; lra).
    replace (q * t1 * up ((t + h) / t1) - 2 * (q * t1 * up (t / t1)) + q * t1 * up ((t - h) / t1)) with
      (q * t1 * (up ((t + h) / t1) - 2 * up (t / t1) + up ((t - h) / t1))) by ring.
    replace (3 / 2 * (q / t1) * (h * h)) with (q * t1 * (3 / 2 * (h / t1 * (h / t1)))) by (field; lra). split; [apply Rmult_le_pos; lra|apply Rmult_le_compat_l; lra].
  Qed.
  Lemma profile_slope : forall x y, x <= y -> Rabs (profile y - profile x) <= q * (y - x).
  Proof.
    intros x y H. pose proof (ramp_slope x y H). pose proof (ramp_slope (x - t2) (y - t2) ltac:(lra)) as B. replace (y - t2 - (x - t2)) with (y - x) in B by ring.
    unfold profile. apply Rabs_le. lra.
  Qed.
  Lemma profile_bend : forall t h, Rabs (profile (t + h) - 2 * profile t + profile (t - h)) <= 3 / 2 * (q / t1) * (h * h).
  Proof.
    intros t h. pose proof (ramp_bend t h). pose proof (ramp_bend (t - t2) h) as B. unfold profile.
    replace (t + h - t2) with (t - t2 + h) by ring. replace (t - h - t2) with (t - t2 - h) by ring. apply Rabs_le. lra.
  Qed.
  Lemma ramp_late : forall t, t1 <= t -> ramp_up t = q * (t - t1 / 2).
  Proof.
    intros t H. unfold ramp_up, up. assert (A : 1 <= t / t1) by (apply (Rmult_le_reg_r t1); [lra|]; replace (t / t1 * t1) with t by (field; lra); lra).
    destruct (Rle_dec (t / t1) 0); [lra|]. destruct (Rle_dec (t / t1) 1) as [E|E]; [|field; lra].
    assert (E1 : t / t1 = 1) by lra. assert (E2 : t = t1) by (replace t with (t / t1 * t1) by (field; lra); rewrite E1; ring). rewrite E1, E2. field.
  Qed.
  Lemma ramp_early : forall t, 0 <= t <= t1 -> ramp_up t = q * (t1 - t / 2) * (t * t * t) / (t1 * t1 * t1).
  Proof.
    intros t H. unfold ramp_up, up. assert (A : 0 <= t / t1 <= 1).
    { split; [apply Rmult_le_pos; [lra|left; apply Rinv_0_lt_compat; lra]|]. apply (Rmult_le_reg_r t1); [lra|]. replace (t / t1 * t1) with t by (field; lra). lra. }
    destruct (Rle_dec (t / t1) 0) as [E|E].
    - assert (E1 : t / t1 = 0) by lra. assert (E2 : t = 0) by (replace t with (t / t1 * t1) by (field; lra); rewrite E1; ring). rewrite E2. field. lra.
    - destruct (Rle_dec (t / t1) 1); [|lra]. field. lra.
  Qed.
  Lemma ramp_before : forall t, t <= 0 -> ramp_up t = 0.
  Proof.
    intros t H. unfold ramp_up, up. destruct (Rle_dec (t / t1) 0) as [E|E]; [ring|]. exfalso. apply E. unfold Rdiv. assert (0 < / t1) by (apply Rinv_0_lt_compat; lra). nra.
  Qed.
End Profile.
