(** The values of the joint motion generator in binary64 follow a smooth profile. *)
From Coq Require Import List NArith ZArith Bool Lia Lra Arith Reals.
From Flocq Require Import Core Relative IEEE754.BinarySingleNaN IEEE754.Binary IEEE754.Bits.
From Verif Require Import NumOps NumFloat FloatFacts SizeFacts TwistFloats MotionFloats MotionModel MotionPlan MotionTune MotionValues MotionProfile.
Import ListNotations.
Open Scope R_scope.

Lemma cube_abs : forall x, b64_fin x = true -> Rabs (val x) <= 4 ->
  b64_fin (cube float x) = true /\ Rabs (val (cube float x) - val x * val x * val x) <= 2 * u * (Rabs (val x) * Rabs (val x) * Rabs (val x)) + bpow radix2 (-1000).
Proof.
  intros x F B. set (a := Rabs (val x)) in *. assert (A0 : 0 <= a) by apply Rabs_pos. assert (A2 : 0 <= a * a <= 16) by nra. assert (A3 : 0 <= a * a * a <= 64) by nra.
  assert (Sq : Rabs (val x * val x) = a * a) by apply Rabs_mult. assert (Tn : 16 * tiny <= bpow radix2 (-1000)).
  { apply Rle_trans with (bpow radix2 4 * bpow radix2 (-1075)); [change (bpow radix2 4) with 16; unfold tiny; lra|]. rewrite <- bpow_plus. apply bpow_le. lia. }
  pose proof tiny_pos as T0. assert (T1 : tiny <= / 1000000) by (apply Rle_trans with (bpow radix2 (-30)); [apply tiny_below; lia|]; change (bpow radix2 (-30)) with (/ 1073741824); lra).
  destruct (mult_ok x x 5 F F ltac:(lia)) as [F1 V1]; [rewrite Sq; change (bpow radix2 5) with 32; lra|].
  pose proof (rnd_rel (val x * val x)) as E1. rewrite Sq in E1. rewrite <- V1 in E1. set (p := b64_mult mode_NE x x) in *.
  assert (P : Rabs (val p) <= a * a * (1 + eps) + tiny).
  { replace (val p) with (val x * val x + (val p - val x * val x)) by ring. eapply Rle_trans; [apply Rabs_triang|]. rewrite Sq. lra. }
  assert (Pm : Rabs (val p * val x) <= (a * a * (1 + eps) + tiny) * a) by (rewrite Rabs_mult; apply Rmult_le_compat_r; [exact A0|exact P]).
  assert (Pb : (a * a * (1 + eps) + tiny) * a <= 128).
  { assert (a * a * (1 + eps) + tiny <= 17) by (unfold eps; lra). assert (0 <= a * a * (1 + eps) + tiny) by (unfold eps; lra). fold a in B. nra. }
  destruct (mult_ok p x 7 F1 F ltac:(lia)) as [F2 V2]; [change (bpow radix2 7) with 128; lra|].
  unfold cube. cbn [f_mul float]. fold p. split; [exact F2|]. rewrite V2. pose proof (rnd_rel (val p * val x)) as E2.
  replace (rnd (val p * val x) - val x * val x * val x) with ((rnd (val p * val x) - val p * val x) + (val p - val x * val x) * val x) by ring.
  eapply Rle_trans; [apply Rabs_triang|]. rewrite (Rabs_mult (val p - _)). fold a.
  assert (E3 : Rabs (val p - val x * val x) * a <= (eps * (a * a) + tiny) * a) by (apply Rmult_le_compat_r; assumption).
  assert (E4 : eps * Rabs (val p * val x) <= eps * ((a * a * (1 + eps) + tiny) * a)) by (apply Rmult_le_compat_l; [unfold eps; lra|exact Pm]).
  set (c := a * a * a) in *. replace ((eps * (a * a) + tiny) * a) with (eps * c + tiny * a) in E3 by (unfold c; ring).
  replace (eps * ((a * a * (1 + eps) + tiny) * a)) with (eps * c * (1 + eps) + eps * tiny * a) in E4 by (unfold c; ring).
  assert (tiny * a <= tiny * 4) by (apply Rmult_le_compat_l; lra). assert (eps * tiny * a <= 1 * tiny * 4).
  { apply Rmult_le_compat; try lra; [apply Rmult_le_pos; unfold eps; lra|]. apply Rmult_le_compat_r; unfold eps; lra. }
  clearbody c. unfold u. unfold eps in *. lra.
Qed.
Lemma cubic_near : forall k t1 x C dl A, 0 <= k -> 500 * k <= t1 -> - k <= x <= t1 -> Rabs (C - x) <= 4 * k -> Rabs (dl - t1) <= 2 * k -> Rabs (A - (x - 2 * t1)) <= 10 * k ->
  Rabs (A * (C * C * C) / (dl * dl * dl) - (x - 2 * t1) * (x * x * x) / (t1 * t1 * t1)) <= 60 * k.
Proof.
  intros k t1 x C dl A K T X HC Hd HA. destruct (Req_dec k 0) as [Zk|Zk].
  - subst k. assert (Rabs (C - x) = 0) by (pose proof (Rabs_pos (C - x)); lra). assert (Rabs (dl - t1) = 0) by (pose proof (Rabs_pos (dl - t1)); lra).
    assert (Rabs (A - (x - 2 * t1)) = 0) by (pose proof (Rabs_pos (A - (x - 2 * t1))); lra).
    assert (Z : forall r, Rabs r = 0 -> r = 0) by (intros r Hr; destruct (Req_dec r 0) as [E|E]; [exact E|apply Rabs_no_R0 in E; contradiction]).
    apply Z in H, H0, H1. replace C with x by lra. replace dl with t1 by lra. replace A with (x - 2 * t1) by lra. rewrite Rminus_diag_eq by reflexivity. rewrite Rabs_R0. lra.
  - assert (P1 : 0 < t1) by lra. apply Rabs_le_inv in HC. apply Rabs_le_inv in Hd. apply Rabs_le_inv in HA. assert (P2 : 0 < dl) by lra.
    set (y := x / t1). set (z := C / dl). assert (Ex : x = y * t1) by (unfold y; field; lra). assert (Ec : C = z * dl) by (unfold z; field; lra).
    assert (Y : - / 500 <= y <= 1) by (split; apply Rmult_le_reg_r with t1; lra).
    assert (D1 : - (6 * k) <= (z - y) * dl <= 6 * k).
    { replace ((z - y) * dl) with (C - x + y * (t1 - dl)) by (rewrite Ec, Ex; ring). assert (- (2 * k) <= y * (t1 - dl) <= 2 * k) by (split; nra). lra. }
    assert (D2 : Rabs (z - y) * t1 <= 7 * k).
    { assert (D3 : Rabs (z - y) * dl <= 6 * k) by (rewrite <- (Rabs_pos_eq dl) by lra; rewrite <- Rabs_mult; apply Rabs_le; lra).
      pose proof (Rabs_pos (z - y)). assert (t1 <= dl * (7 / 6)) by lra. apply Rle_trans with (Rabs (z - y) * (dl * (7 / 6))); [apply Rmult_le_compat_l; lra|]. lra. }
    assert (D4 : Rabs (z - y) <= / 50). { apply Rmult_le_reg_r with t1; [exact P1|]. lra. }
    assert (Z : - / 20 <= z <= 51 / 50) by (apply Rabs_le_inv in D4; lra).
    replace (A * (C * C * C) / (dl * dl * dl)) with (A * (z * z * z)) by (rewrite Ec; field; lra).
    replace ((x - 2 * t1) * (x * x * x) / (t1 * t1 * t1)) with ((x - 2 * t1) * (y * y * y)) by (rewrite Ex; field; lra).
    replace (A * (z * z * z) - (x - 2 * t1) * (y * y * y)) with ((A - (x - 2 * t1)) * (z * z * z) + (x - 2 * t1) * ((z - y) * (z * z + z * y + y * y))) by ring.
    eapply Rle_trans; [apply Rabs_triang|]. rewrite !Rabs_mult.
    assert (Q : Rabs (z * z + z * y + y * y) <= 31 / 10) by (apply Rabs_le; split; nra).
    assert (Z3 : Rabs z <= 51 / 50) by (apply Rabs_le; lra). pose proof (Rabs_pos z).
    assert (Z9 : Rabs z * Rabs z * Rabs z <= 11 / 10). { assert (Rabs z * Rabs z <= 51 / 50 * (51 / 50)) by (apply Rmult_le_compat; lra). assert (0 <= Rabs z * Rabs z) by nra. nra. }
    assert (A9 : Rabs (A - (x - 2 * t1)) <= 10 * k) by (apply Rabs_le; lra).
    assert (S1 : Rabs (A - (x - 2 * t1)) * (Rabs z * Rabs z * Rabs z) <= 10 * k * (11 / 10)).
    { apply Rmult_le_compat; try lra; [apply Rabs_pos|]. apply Rmult_le_pos; [nra|lra]. }
    assert (X2 : Rabs (x - 2 * t1) <= 201 / 100 * t1) by (apply Rabs_le; lra).
    assert (S2 : Rabs (x - 2 * t1) * (Rabs (z - y) * Rabs (z * z + z * y + y * y)) <= 201 / 100 * t1 * (Rabs (z - y) * (31 / 10))).
    { apply Rmult_le_compat; try apply Rabs_pos; [apply Rmult_le_pos; apply Rabs_pos|exact X2|]. apply Rmult_le_compat_l; [apply Rabs_pos|exact Q]. }
    replace (201 / 100 * t1 * (Rabs (z - y) * (31 / 10))) with (201 / 100 * (31 / 10) * (Rabs (z - y) * t1)) in S2 by ring. lra.
Qed.
Lemma cubic_round : forall k T A C D e cc, / 562949953421312 <= k -> 500 * k <= T <= 2 -> / 1000000000 <= T -> Rabs (D - T) <= 2 * k -> Rabs C <= T + 5 * k -> Rabs A <= 2 * T + 11 * k ->
  Rabs e <= 4 * u -> Rabs (cc - C * C * C) <= 2 * u * (Rabs C * Rabs C * Rabs C) + bpow radix2 (-1000) ->
  Rabs (1 / (D * D * D) * A * (1 + e) * cc - A * (C * C * C) / (D * D * D)) <= 4 * k /\ Rabs (A * (C * C * C) / (D * D * D)) <= 5.
Proof.
  intros k T A C D e cc K KT LT HD HC HA He Hc. apply Rabs_le_inv in HD. assert (Dp : 0 < D) by lra. assert (D3 : 0 < D * D * D) by (repeat apply Rmult_lt_0_compat; lra).
  set (g := Rabs A / (D * D * D)). set (c := Rabs C / D). pose proof (Rabs_pos A) as A0. pose proof (Rabs_pos C) as C0.
  assert (Bc : 0 <= c <= 103 / 100) by (unfold c; split; [apply le_div; lra|apply div_le; lra]).
  assert (Ba : Rabs A <= 21 / 10 * D) by lra.
  assert (B3 : 0 <= c * c * c <= 11 / 10). { assert (0 <= c * c <= 10609 / 10000) by (split; [apply Rmult_le_pos; lra|apply Rle_trans with (103 / 100 * (103 / 100)); [apply Rmult_le_compat; lra|lra]]).
    split; [apply Rmult_le_pos; lra|]. apply Rle_trans with (10609 / 10000 * (103 / 100)); [apply Rmult_le_compat; lra|lra]. }
  set (c3 := Rabs C * Rabs C * Rabs C) in *. assert (G3 : g * c3 = Rabs A * (c * c * c)) by (unfold g, c, c3; field; lra).
  assert (g0 : 0 <= g) by (unfold g; apply le_div; lra). assert (c30 : 0 <= c3) by (unfold c3; apply Rmult_le_pos; [apply Rmult_le_pos|]; lra).
  assert (G5 : g * c3 <= 5). { rewrite G3. apply Rle_trans with (21 / 10 * (2 * (1005 / 1000)) * (11 / 10)); [apply Rmult_le_compat; lra|lra]. }
  assert (Gs : g <= 5000000000000000000).
  { unfold g. apply div_le; [lra|]. assert (/ 2000000000000000000 <= D * D). { apply Rle_trans with (99 / 100 * / 1000000000 * (99 / 100 * / 1000000000)); [lra|apply Rmult_le_compat; lra]. }
    replace (5000000000000000000 * (D * D * D)) with (5000000000000000000 * (D * D) * D) by ring. apply Rle_trans with (21 / 10 * D); [exact Ba|]. apply Rmult_le_compat_r; lra. }
  assert (Tn : g * bpow radix2 (-1000) <= / 10000000000000000).
  { apply Rle_trans with (bpow radix2 63 * bpow radix2 (-1000)); [apply Rmult_le_compat_r; [apply bpow_ge_0|]; change (bpow radix2 63) with 9223372036854775808; lra|].
    rewrite <- bpow_plus. apply Rle_trans with (bpow radix2 (-60)); [apply bpow_le; lia|]. change (bpow radix2 (-60)) with (/ 1152921504606846976). lra. }
  assert (EA : Rabs (A * (C * C * C) / (D * D * D)) = g * c3).
  { unfold Rdiv. rewrite !Rabs_mult, Rabs_inv, (Rabs_pos_eq (D * D * D)) by lra. unfold g, c3. field. lra. }
  split; [|rewrite EA; exact G5].
  replace (1 / (D * D * D) * A * (1 + e) * cc - A * (C * C * C) / (D * D * D)) with (A / (D * D * D) * (e * (C * C * C) + (1 + e) * (cc - C * C * C))) by (field; lra).
  rewrite Rabs_mult. replace (Rabs (A / (D * D * D))) with g by (unfold g, Rdiv; rewrite Rabs_mult, Rabs_inv, (Rabs_pos_eq (D * D * D)) by lra; reflexivity).
  assert (In : Rabs (e * (C * C * C) + (1 + e) * (cc - C * C * C)) <= 4 * u * c3 + 1001 / 1000 * (2 * u * c3 + bpow radix2 (-1000))).
  { eapply Rle_trans; [apply Rabs_triang|]. apply Rplus_le_compat.
    - rewrite !Rabs_mult. fold c3. apply Rmult_le_compat_r; [exact c30|exact He].
    - rewrite Rabs_mult. apply Rmult_le_compat; try apply Rabs_pos; [|exact Hc]. apply Rabs_le_inv in He. unfold u in He. apply Rabs_le. lra. }
  eapply Rle_trans; [apply Rmult_le_compat_l; [exact g0|exact In]|].
  replace (g * (4 * u * c3 + 1001 / 1000 * (2 * u * c3 + bpow radix2 (-1000)))) with (6002 / 1000 * u * (g * c3) + 1001 / 1000 * (g * bpow radix2 (-1000))) by field.
  assert (6002 / 1000 * u * (g * c3) <= 6002 / 1000 * u * 5) by (apply Rmult_le_compat_l; [unfold u; lra|exact G5]). unfold u in *. lra.
Qed.
Lemma mult_zero : forall x y, b64_fin x = true -> b64_fin y = true -> val x * val y = 0 -> val (f_mul float x y) = 0.
Proof.
  intros x y Fx Fy H. destruct (mult_ok x y 0 Fx Fy ltac:(lia)) as [_ V]; [rewrite H, Rabs_R0; apply bpow_ge_0|]. cbn [f_mul float]. rewrite V, H. apply rnd_0.
Qed.
Lemma mult_zero_r : forall x y, b64_fin (f_mul float x y) = true -> b64_fin y = true -> val y = 0 -> val (f_mul float x y) = 0.
Proof.
  intros x y F Fy H. apply mult_zero; [|exact Fy|rewrite H; ring].
  destruct x as [b|b|b pl e|b m e B]; try reflexivity; destruct y as [b'|b'|b' pl' e'|b' m' e' B']; try discriminate Fy; try discriminate F.
Qed.
Definition gef (x y : F float) : bool := f_lt float y x || f_eq float x y.
Lemma ge_fin : forall x y, b64_fin x = true -> b64_fin y = true -> gef x y = Rle_bool (val y) (val x).
Proof.
  intros x y Fx Fy. unfold gef. cbn [f_lt f_eq float]. rewrite lt_fin, eq_fin by assumption.
  destruct (Rle_bool_spec (val y) (val x)) as [L|L].
  - destruct (Rlt_bool_spec (val y) (val x)) as [L'|L']; [reflexivity|]. rewrite Req_bool_true by lra. reflexivity.
  - rewrite Rlt_bool_false by lra. rewrite Req_bool_false by lra. reflexivity.
Qed.
Lemma times_unit : forall x y, b64_fin x = true -> b64_fin y = true -> Rabs (val y) = 1 -> Rabs (val x) <= bpow radix2 10 ->
  b64_fin (f_mul float x y) = true /\ val (f_mul float x y) = val x * val y.
Proof.
  intros x y Fx Fy U B. destruct (mult_ok x y 10 Fx Fy ltac:(lia)) as [F V]; [rewrite Rabs_mult, U; lra|]. split; [exact F|]. cbn [f_mul float]. rewrite V.
  assert (E : val y = 1 \/ val y = - (1)) by (revert U; unfold Rabs; destruct (Rcase_abs (val y)); lra). destruct E as [-> | ->].
  - rewrite Rmult_1_r. apply rnd_val.
  - replace (val x * - (1)) with (- val x) by ring. rewrite rnd_opp, rnd_val. reflexivity.
Qed.
Lemma ramp_pos : forall q t1 t, 0 < q -> 0 < t1 -> 0 <= ramp_up q t1 t.
Proof.
  intros q t1 t Q T. destruct (Rle_dec t 0) as [L|L]; [rewrite ramp_before by lra; lra|]. pose proof (ramp_slope q t1 ltac:(lra) T 0 t ltac:(lra)) as H. rewrite (ramp_before q t1 T 0) in H by lra. lra.
Qed.

Section Close.
  Variables S v : R.
  Hypothesis S_range : / 1024 <= S <= 1.
  Hypothesis v_range : 2 <= v <= 5 / 2.
  Variables d q t1 t2 tf q1 t : F float.
  Hypothesis P : planned d q t1 t2 tf q1.
  Hypothesis U : tuned S v d q t1 t2 tf q1.
  Hypothesis t_fin : b64_fin t = true.
  Hypothesis t_from : val t = 0 \/ / 2000 <= val t.
  Definition near : R := / 500000000000.
  Notation k := (/ 562949953421312 / S).
  Notation sg := (val (signum float d)).
  Notation goes := (profile (val q) (val t1) (val tf - val t1) (val t)).
  Lemma k_range : / 562949953421312 <= k /\ 500 * k <= val t1 /\ val q * k <= / 200000000000000 /\ 0 < val q <= 2501 / 1000 /\ 0 < val t1 <= 2.
  Proof.
    destruct (tu_q _ _ _ _ _ _ _ _ U) as (_ & Q). destruct (tu_t1 _ _ _ _ _ _ _ _ U) as (_ & T & _). assert (Sp : 0 < S) by lra.
    assert (I : 1 <= / S <= 1024).
    { split; [apply (Rmult_le_reg_r S); [lra|]; rewrite Rinv_l by lra; lra|]. rewrite <- (Rinv_inv 1024). apply Rinv_le_contravar; lra. }
    assert (vS : v * S <= 5 / 2) by (apply Rle_trans with (5 / 2 * 1); [apply Rmult_le_compat; lra|lra]).
    assert (Q2 : val q <= 5 / 2 * (1 + / 20000) * S).
    { apply Rle_trans with (v * S * (1 + / 20000)); [apply Q|]. replace (5 / 2 * (1 + / 20000) * S) with (5 / 2 * S * (1 + / 20000)) by ring. apply Rmult_le_compat_r; [lra|]. apply Rmult_le_compat_r; lra. }
    unfold Rdiv. split; [lra|]. split; [lra|]. split; [|split; lra].
    replace (val q * (/ 562949953421312 * / S)) with (val q / S * / 562949953421312) by (unfold Rdiv; ring).
    assert (L : val q / S <= 5 / 2 * (1 + / 20000)) by (apply div_le; [lra|exact Q2]). lra.
  Qed.
  Lemma rnd_k : forall y, Rabs y * S <= 15 -> Rabs (rnd y - y) <= k.
  Proof.
    intros y H. pose proof (rnd_rel y) as E. pose proof (Rabs_pos y). assert (Y : Rabs y <= 15 / S) by (apply le_div; lra).
    assert (I : 1 <= / S) by (apply (Rmult_le_reg_r S); [lra|]; rewrite Rinv_l by lra; lra).
    assert (T : tiny <= bpow radix2 (-60)) by (apply tiny_below; lia). change (bpow radix2 (-60)) with (/ 1152921504606846976) in T. unfold Rdiv in *. unfold eps in *. lra.
  Qed.
  Lemma rnd_s : forall y, Rabs y <= 15 -> Rabs (rnd y - y) <= k.
  Proof. intros y H. apply rnd_k. apply Rle_trans with (15 * 1); [|lra]. apply Rmult_le_compat; try apply Rabs_pos; lra. Qed.
  Lemma sub_k : forall x y r i j, b64_fin x = true -> b64_fin y = true -> Rabs (val x - val y) * S <= 15 -> Rabs (val x - val y - r) <= i * k -> j = i + 1 ->
    b64_fin (f_sub float x y) = true /\ Rabs (val (f_sub float x y) - r) <= j * k.
  Proof.
    intros x y r i j Fx Fy B E ->. pose proof (rnd_k _ B) as N. assert (B' : Rabs (val x - val y) <= bpow radix2 14).
    { change (bpow radix2 14) with 16384. apply Rmult_le_reg_r with S; lra. }
    destruct (minus_ok x y 14 Fx Fy ltac:(lia) B') as [F V]. split; [exact F|]. cbn [f_sub float]. rewrite V.
    replace (rnd (val x - val y) - r) with ((rnd (val x - val y) - (val x - val y)) + (val x - val y - r)) by ring. eapply Rle_trans; [apply Rabs_triang|]. lra.
  Qed.
  Lemma two_k : forall x, b64_fin x = true -> 2 * Rabs (val x) * S <= 15 ->
    b64_fin (f_mul float (f_int float 2) x) = true /\ Rabs (val (f_mul float (f_int float 2) x) - 2 * val x) <= k.
  Proof.
    intros x Fx B. destruct two_val as [F2 V2]. assert (A : Rabs (2 * val x) * S <= 15) by (rewrite Rabs_mult, (Rabs_pos_eq 2); lra).
    assert (B' : Rabs (2 * val x) <= bpow radix2 14). { change (bpow radix2 14) with 16384. apply Rmult_le_reg_r with S; lra. }
    destruct (mult_ok (f_int float 2) x 14 F2 Fx ltac:(lia)) as [F V]; [rewrite V2; exact B'|]. split; [exact F|]. cbn [f_mul float]. rewrite V, V2. apply rnd_k, A.
  Qed.
  Lemma t2_near : b64_fin t2 = true /\ Rabs (val t2 - (val tf - val t1)) <= k /\ 0 <= val tf - val t1.
  Proof.
    destruct (tu_tf _ _ _ _ _ _ _ _ U) as (Ff & Pf & Bf). destruct (tu_t1 _ _ _ _ _ _ _ _ U) as (F1 & B1 & _). pose proof (tu_gap _ _ _ _ _ _ _ _ U) as G.
    assert (L : 0 <= val tf - val t1) by lra. rewrite (tu_t2 _ _ _ _ _ _ _ _ U).
    destruct (sub_k tf t1 (val tf - val t1) 0 1 Ff F1) as [F E]; [rewrite Rabs_pos_eq by lra; nra|rewrite Rminus_diag_eq by reflexivity; rewrite Rabs_R0; lra|lra|].
    split; [exact F|]. split; [lra|exact L].
  Qed.
  Lemma start_zero : val t = 0 -> goes = 0.
  Proof.
    intros Z. pose proof k_range as (_ & _ & _ & Q & T). destruct t2_near as (_ & _ & G). unfold profile. rewrite Z, !ramp_before by lra. ring.
  Qed.
  Lemma close_first : val t < val t1 ->
    Rabs (val (f_mul float (f_mul float (f_mul float (f_mul float (f_div float (f_int float (-1)) (cube float t1)) q) (signum float d))
            (f_sub float (f_mul float (f_lit float 1 2) t) t1)) (cube float t)) - sg * goes) <= near.
  Proof.
    intros L. destruct k_range as (K1 & K2 & K3 & Q & T1). destruct (tu_t1 _ _ _ _ _ _ _ _ U) as (F1 & B1 & _). destruct (tu_q _ _ _ _ _ _ _ _ U) as (Fq & Bq).
    destruct (tu_sign _ _ _ _ _ _ _ _ U) as (Fs & As & _). pose proof (tu_gap _ _ _ _ _ _ _ _ U) as G.
    destruct t_from as [Z|Lo].
    - pose proof (first_part d q t1 t2 tf q1 t P t_fin ltac:(lra) L) as [Fi _]. rewrite start_zero by exact Z.
      destruct (cube_le t t1 t_fin F1 ltac:(lra) ltac:(lra)) as [Fc _].
      assert (Zc : val (cube float t) = 0).
      { unfold cube. assert (F0 : b64_fin (f_mul float t t) = true) by (apply (mult_ok t t 0 t_fin t_fin); [lia|rewrite Z, Rmult_0_l, Rabs_R0; apply bpow_ge_0]).
        apply mult_zero; [exact F0|exact t_fin|rewrite Z; ring]. }
      rewrite (mult_zero_r _ _ Fi Fc Zc). rewrite Rmult_0_r, Rminus_0_r, Rabs_R0. unfold near. lra.
    - assert (R1 : relm 0 30 t1 (val t1)) by (apply relm_exact; [exact F1| |lia]; apply mid_of; [|lia]; change (2 ^ 30)%Z with 1073741824%Z; rewrite Rabs_pos_eq; lra).
      assert (Rt : relm 0 11 t (val t)) by (apply relm_exact; [exact t_fin| |lia]; apply mid_of; [|lia]; change (2 ^ 11)%Z with 2048%Z; rewrite Rabs_pos_eq; lra).
      assert (Rq : relm 0 40 q (val q)) by (apply relm_exact; [exact Fq| |lia]; apply mid_of; [|lia]; change (2 ^ 40)%Z with 1099511627776%Z; rewrite Rabs_pos_eq; lra).
      assert (Rs : relm 0 1 (signum float d) sg) by (apply relm_exact; [exact Fs| |lia]; apply mid_of; [|lia]; change (2 ^ 1)%Z with 2%Z; rewrite As; lra).
      pose proof (cube_rel 0 30 t1 _ R1 ltac:(lra) ltac:(lia)) as C1. pose proof (cube_rel 0 11 t _ Rt ltac:(lra) ltac:(lia)) as Ct.
      pose proof (relm_div _ _ _ _ _ _ _ _ int_m1 C1 ltac:(lra) ltac:(lra) ltac:(lia)) as D1.
      pose proof (relm_mul _ _ _ _ _ _ _ _ D1 Rq ltac:(lra) ltac:(lra) ltac:(lia)) as D2.
      pose proof (relm_mul _ _ _ _ _ _ _ _ D2 Rs ltac:(lra) ltac:(lra) ltac:(lia)) as D3.
      assert (D4 : relm 2 31 (f_sub float (f_mul float (f_lit float 1 2) t) t1) (val t / 2 - val t1)).
      { pose proof (relm_mul _ _ _ _ _ _ _ _ lit_12 Rt ltac:(lra) ltac:(lra) ltac:(lia)) as H0. destruct H0 as ((Fh & e & Eh & He) & _).
        assert (M : mid 31 (val t / 2 - val t1)) by (apply mid_of; [|lia]; change (2 ^ 31)%Z with 2147483648%Z; rewrite Rabs_left by lra; lra).
        split; [|split; [exact M|split; [lia|lra]]]. change (f_mul float (f_lit float 1 2) t) with (b64_mult mode_NE (f_lit float 1 2) t). set (h := b64_mult mode_NE (f_lit float 1 2) t) in *. clearbody h.
        set (r := val t / 2 - val t1) in *. assert (Rn : - val t1 <= r <= - (val t1 / 2)) by (unfold r; lra).
        assert (Eh' : val h - val t1 = r * (1 + val t / 2 * e / r)) by (rewrite Eh; unfold r; field; fold r; lra).
        assert (Dn : Rabs (val t / 2 * e / r) <= 1 * u + 0).
        { unfold Rdiv. rewrite !Rabs_mult, !Rabs_inv, (Rabs_pos_eq (val t)), (Rabs_pos_eq 2), (Rabs_left r) by lra.
          apply (div_le (val t * / 2 * Rabs e) (1 * u + 0) (- r)); [lra|]. rewrite Rplus_0_r. apply Rle_trans with (- r * Rabs e); [apply Rmult_le_compat_r; [apply Rabs_pos|lra]|].
          rewrite (Rmult_comm (1 * u)). apply Rmult_le_compat_l; lra. }
        assert (Ds : Rabs (val t / 2 * e / r) <= / 1000) by (unfold u in Dn; lra).
        destruct (rel_round 1 0 r _ (mid_normal _ _ M ltac:(lia)) ltac:(lra) Dn ltac:(unfold u; lra)) as (c & Ec & Hc).
        destruct (minus_ok h t1 10 Fh F1 ltac:(lia)) as [Fm Vm].
        { rewrite Eh', Rabs_mult, (Rabs_left r) by lra. apply Rabs_le_inv in Ds. rewrite Rabs_pos_eq by lra. change (bpow radix2 10) with 1024. nra. }
        split; [exact Fm|]. exists c. split; [cbn [f_sub float]; rewrite Vm, Eh'; exact Ec|]. replace 2 with (1 + 1) by ring. exact Hc. }
      pose proof (relm_mul _ _ _ _ _ _ _ _ D3 D4 ltac:(lra) ltac:(lra) ltac:(lia)) as D5.
      pose proof (relm_mul _ _ _ _ _ _ _ _ D5 Ct ltac:(lra) ltac:(lra) ltac:(lia)) as D6. clear D1 D2 D3 D4 D5 Ct C1.
      destruct D6 as ((_ & e & Ev & He) & _).
      match goal with |- Rabs (val ?z - _) <= _ => change (val z) with (val (b64_mult mode_NE (b64_mult mode_NE (b64_mult mode_NE (b64_mult mode_NE (b64_div mode_NE (f_int float (-1)) (cube float t1)) q) (signum float d)) (f_sub float (f_mul float (f_lit float 1 2) t) t1)) (cube float t))) end.
      rewrite Ev. clear Ev.
      assert (Er : -1 / (val t1 * val t1 * val t1) * val q * sg * (val t / 2 - val t1) * (val t * val t * val t) = sg * ramp_up (val q) (val t1) (val t)).
      { rewrite ramp_early by lra. field. lra. }
      rewrite Er. unfold profile. assert (Rb : 0 <= ramp_up (val q) (val t1) (val t) <= 502 / 100).
      { split; [apply ramp_pos; lra|]. pose proof (ramp_slope (val q) (val t1) ltac:(lra) ltac:(lra) 0 (val t) ltac:(lra)) as H. rewrite (ramp_before _ _ (proj1 T1) 0) in H by lra. nra. }
      assert (Rl : 0 <= ramp_up (val q) (val t1) (val t - (val tf - val t1)) <= / 10000000000000).
      { split; [apply ramp_pos; lra|]. pose proof (ramp_slope (val q) (val t1) ltac:(lra) ltac:(lra) (val t - (val tf - val t1)) (val t1 / 40000) ltac:(lra)) as H.
        rewrite (ramp_early (val q) (val t1) (proj1 T1) (val t1 / 40000)) in H by lra.
        replace (val q * (val t1 - val t1 / 40000 / 2) * (val t1 / 40000 * (val t1 / 40000) * (val t1 / 40000)) / (val t1 * val t1 * val t1)) with (val q * val t1 * ((1 - / 80000) / 64000000000000)) in H by (field; lra).
        assert (val q * val t1 <= 2501 / 1000 * 2) by (apply Rmult_le_compat; lra). lra. }
      set (x := ramp_up (val q) (val t1) (val t)) in *. set (y := ramp_up (val q) (val t1) (val t - (val tf - val t1))) in *. clearbody x y.
      replace (sg * x * (1 + e) - sg * (x - y)) with (sg * (x * e + y)) by ring. rewrite Rabs_mult, As, Rmult_1_l. eapply Rle_trans; [apply Rabs_triang|]. rewrite Rabs_mult, (Rabs_pos_eq x), (Rabs_pos_eq y) by lra.
      assert (He' : Rabs e <= / 100000000000000) by (eapply Rle_trans; [exact He|]; unfold u; lra). pose proof (Rabs_pos e).
      assert (x * Rabs e <= 502 / 100 * / 100000000000000) by (apply Rmult_le_compat; lra). unfold near. lra.
  Qed.
  Lemma close_second : val t1 <= val t -> val t < val t2 ->
    Rabs (val (f_add float q1 (f_mul float (f_mul float (f_sub float t t1) q) (signum float d))) - sg * goes) <= near.
  Proof.
    intros L M. destruct k_range as (K1 & K2 & K3 & Q & T1). destruct (tu_t1 _ _ _ _ _ _ _ _ U) as (F1 & B1 & _). destruct (tu_q _ _ _ _ _ _ _ _ U) as (Fq & Bq).
    destruct (tu_sign _ _ _ _ _ _ _ _ U) as (Fs & As & _). destruct (tu_tf _ _ _ _ _ _ _ _ U) as (Ff & Pf & Bf). destruct t2_near as (F2 & E2 & G2). destruct (tu_q1 _ _ _ _ _ _ _ _ U) as (Fc & Ec).
    apply Rabs_le_inv in E2.
    assert (QT : val q * val tf <= 18).
    { apply Rle_trans with (v * S * (1 + / 20000) * val tf); [apply Rmult_le_compat_r; lra|]. replace (v * S * (1 + / 20000) * val tf) with (v * (val tf * S) * (1 + / 20000)) by ring.
      assert (v * (val tf * S) <= 5 / 2 * 7) by (apply Rmult_le_compat; try lra; apply Rmult_le_pos; lra). lra. }
    assert (Tt : val t <= val tf) by lra.
    destruct (sub_k t t1 (val t - val t1) 0 1 t_fin F1) as [Fa Ea].
    { rewrite Rabs_pos_eq by lra. apply Rle_trans with (val tf * S); [apply Rmult_le_compat_r; lra|lra]. }
    { rewrite Rminus_diag_eq by reflexivity. rewrite Rabs_R0. lra. }
    { lra. }
    set (a := f_sub float t t1) in *. clearbody a. apply Rabs_le_inv in Ea.
    assert (Qa : Rabs (val a * val q - (val t - val t1) * val q) <= / 200000000000000).
    { replace (val a * val q - (val t - val t1) * val q) with (val q * (val a - (val t - val t1))) by ring. rewrite Rabs_mult, (Rabs_pos_eq (val q)) by lra.
      eapply Rle_trans; [apply Rmult_le_compat_l; [lra|apply Rabs_le; exact Ea]|]. rewrite Rmult_1_l. exact K3. }
    assert (Qt : 0 <= (val t - val t1) * val q <= 18).
    { split; [apply Rmult_le_pos; lra|]. apply Rle_trans with (val q * val tf); [|exact QT]. rewrite Rmult_comm. apply Rmult_le_compat_l; lra. }
    apply Rabs_le_inv in Qa. assert (B5 : Rabs (val a * val q) <= bpow radix2 5) by (change (bpow radix2 5) with 32; apply Rabs_le; lra).
    destruct (mult_ok a q 5 Fa Fq ltac:(lia) B5) as [Fb Vb]. pose proof (rnd_near 5 _ ltac:(lia) B5) as Nb. rewrite <- Vb in Nb. change (b64_mult mode_NE a q) with (f_mul float a q) in *.
    set (b := f_mul float a q) in *. clearbody b. change (bpow radix2 (5 - 53)) with (/ 281474976710656) in Nb. apply Rabs_le_inv in Nb. clear Vb B5.
    destruct (times_unit b (signum float d) Fb Fs As) as [Fe Ve]; [change (bpow radix2 10) with 1024; apply Rabs_le; lra|]. set (c := f_mul float b (signum float d)) in *. clearbody c.
    set (w := (val t - val t1) * val q) in *.
    assert (Nc : Rabs (val c - sg * w) <= / 100000000000000) by (rewrite Ve; replace (val b * sg - sg * w) with (sg * (val b - w)) by ring; rewrite Rabs_mult, As, Rmult_1_l; apply Rabs_le; lra).
    set (z := val q * val t1 / 2) in *. assert (Z : 0 <= z <= 3).
    { assert (0 <= val q * val t1) by (apply Rmult_le_pos; lra). assert (val q * val t1 <= 2501 / 1000 * 2) by (apply Rmult_le_compat; lra). unfold z. lra. }
    assert (Az : Rabs (sg * (w + z)) <= 21) by (rewrite Rabs_mult, As, Rabs_pos_eq; lra).
    assert (Sm : Rabs (val q1 + val c - sg * (w + z)) <= / 9000000000000).
    { replace (val q1 + val c - sg * (w + z)) with ((val q1 - sg * z) + (val c - sg * w)) by ring. eapply Rle_trans; [apply Rabs_triang|]. lra. }
    assert (B6 : Rabs (val q1 + val c) <= bpow radix2 5). { change (bpow radix2 5) with 32. apply Rabs_le_inv in Az. apply Rabs_le_inv in Sm. apply Rabs_le. lra. }
    destruct (plus_ok q1 c 5 Fc Fe ltac:(lia) B6) as [Fo Vo]. pose proof (rnd_near 5 _ ltac:(lia) B6) as No. change (bpow radix2 (5 - 53)) with (/ 281474976710656) in No. rewrite <- Vo in No. change (b64_plus mode_NE q1 c) with (f_add float q1 c) in *.
    set (o := f_add float q1 c) in *. clearbody o. clear Vo B6.
    unfold profile. rewrite ramp_late by lra.
    assert (Rl : 0 <= ramp_up (val q) (val t1) (val t - (val tf - val t1)) <= / 200000000000000).
    { split; [apply ramp_pos; lra|]. assert (k0 : 0 <= k) by lra. pose proof (ramp_slope (val q) (val t1) ltac:(lra) ltac:(lra) (val t - (val tf - val t1)) k ltac:(lra)) as H.
      pose proof (ramp_slope (val q) (val t1) ltac:(lra) ltac:(lra) 0 k k0) as H'. rewrite (ramp_before (val q) (val t1) (proj1 T1) 0) in H' by lra. lra. }
    set (y := ramp_up (val q) (val t1) (val t - (val tf - val t1))) in *. clearbody y.
    replace (val o - sg * (val q * (val t - val t1 / 2) - y)) with ((val o - (val q1 + val c)) + (val q1 + val c - sg * (w + z)) + sg * y) by (unfold w, z; field).
    eapply Rle_trans; [apply Rabs_triang|]. rewrite (Rabs_mult sg y), As, (Rabs_pos_eq y) by lra.
    assert (Rabs (val o - (val q1 + val c) + (val q1 + val c - sg * (w + z))) <= / 281474976710656 + / 9000000000000) by (eapply Rle_trans; [apply Rabs_triang|lra]).
    unfold near. lra.
  Qed.
  Lemma close_third : val t2 <= val t -> val t1 <= val t -> val t < val tf ->
    Rabs (val (f_add float d (f_mul float (f_mul float (f_mul float (f_lit float 1 2)
        (f_add float (f_mul float (f_mul float (f_div float (f_int float 1) (cube float (f_sub float tf t2)))
              (f_sub float (f_sub float (f_sub float t t1) (f_mul float (f_int float 2) (f_sub float tf t2))) (f_sub float t2 t1)))
            (cube float (f_sub float (f_sub float t t1) (f_sub float t2 t1))))
          (f_sub float (f_sub float (f_sub float (f_mul float (f_int float 2) t) (f_mul float (f_int float 2) t1)) (f_sub float tf t2)) (f_mul float (f_int float 2) (f_sub float t2 t1))))) q) (signum float d))) - sg * goes) <= near.
  Proof.
    intros M2 M1 M. destruct k_range as (K1 & K2 & K3 & Q & T1). destruct (tu_t1 _ _ _ _ _ _ _ _ U) as (F1 & B1 & _). destruct (tu_q _ _ _ _ _ _ _ _ U) as (Fq & Bq).
    destruct (tu_sign _ _ _ _ _ _ _ _ U) as (Fs & As & Ds). destruct (tu_tf _ _ _ _ _ _ _ _ U) as (Ff & Pf & Bf). destruct t2_near as (F2 & E2 & G2).
    pose proof (tu_way _ _ _ _ _ _ _ _ U) as W. destruct (pl_d _ _ _ _ _ _ P) as (Fd & Bd). apply Rabs_le_inv in E2.
    assert (Tt : 0 < val t) by lra. assert (k0 : 0 < k) by lra.
    assert (Sc : forall y, 0 <= y <= val tf -> y * S <= 7) by (intros y Hy; apply Rle_trans with (val tf * S); [apply Rmult_le_compat_r; lra|lra]).
    assert (kS : k * S = / 562949953421312) by (field; lra). assert (k2 : k <= / 250) by lra.
    assert (Sk : forall y i, Rabs y <= 2 * val tf + i * k -> 0 <= i <= 1000 -> Rabs y * S <= 15).
    { intros y i H I. apply Rle_trans with ((2 * val tf + i * k) * S); [apply Rmult_le_compat_r; lra|]. replace ((2 * val tf + i * k) * S) with (2 * (val tf * S) + i * (k * S)) by ring. rewrite kS. lra. }
    set (x := val t - (val tf - val t1)). assert (X : - k <= x <= val t1) by (unfold x; lra).
    (* the pieces *)
    destruct (sub_k tf t2 (val t1) 1 2 Ff F2) as [F3 E3]; [apply (Sk _ 1); [apply Rabs_le; lra|lra]|apply Rabs_le; lra|lra|]. set (dl := f_sub float tf t2) in *. clearbody dl. apply Rabs_le_inv in E3.
    destruct (sub_k t2 t1 (val tf - 2 * val t1) 1 2 F2 F1) as [F4 E4]; [apply (Sk _ 1); [apply Rabs_le; lra|lra]|apply Rabs_le; lra|lra|]. set (td := f_sub float t2 t1) in *. clearbody td. apply Rabs_le_inv in E4.
    destruct (sub_k t t1 (val t - val t1) 0 1 t_fin F1) as [F5 E5]; [apply (Sk _ 0); [apply Rabs_le; lra|lra]|apply Rabs_le; lra|lra|]. set (a := f_sub float t t1) in *. clearbody a. apply Rabs_le_inv in E5.
    destruct (sub_k a td x 3 4 F5 F4) as [F6 E6]; [apply (Sk _ 3); [apply Rabs_le; lra|lra]|apply Rabs_le; unfold x; lra|lra|]. set (C := f_sub float a td) in *. clearbody C.
    destruct (two_k dl F3) as [F7 E7]; [rewrite Rabs_pos_eq by lra; apply Rle_trans with (7 * 2 + 2 * (2 * k) * S); [pose proof (Sc (val t1) ltac:(lra)); assert (2 * (val dl) * S <= 2 * (val t1 + 2 * k) * S) by (apply Rmult_le_compat_r; lra); lra|rewrite Rmult_assoc, Rmult_assoc, kS; lra]|].
    set (two_dl := f_mul float (f_int float 2) dl) in *. clearbody two_dl. apply Rabs_le_inv in E7.
    destruct (sub_k a two_dl (val t - 3 * val t1) 6 7 F5 F7) as [F8 E8]; [apply (Sk _ 6); [apply Rabs_le; lra|lra]|apply Rabs_le; lra|lra|]. set (a2 := f_sub float a two_dl) in *. clearbody a2. apply Rabs_le_inv in E8.
    destruct (sub_k a2 td (x - 2 * val t1) 9 10 F8 F4) as [F9 E9]; [apply (Sk _ 9); [apply Rabs_le; lra|lra]|apply Rabs_le; unfold x; lra|lra|]. set (A := f_sub float a2 td) in *. clearbody A.
    destruct (two_k t t_fin) as [Fa Ea]; [rewrite Rabs_pos_eq by lra; pose proof (Sc (val t) ltac:(lra)); lra|]. set (tt := f_mul float (f_int float 2) t) in *. clearbody tt. apply Rabs_le_inv in Ea.
    destruct (two_k t1 F1) as [Fb Eb]; [rewrite Rabs_pos_eq by lra; pose proof (Sc (val t1) ltac:(lra)); lra|]. set (tt1 := f_mul float (f_int float 2) t1) in *. clearbody tt1. apply Rabs_le_inv in Eb.
    destruct (two_k td F4) as [Fc Ec].
    { apply Rle_trans with (2 * (val tf + 2 * k) * S); [apply Rmult_le_compat_r; [lra|]; apply Rmult_le_compat_l; [lra|]; apply Rabs_le; lra|]. replace (2 * (val tf + 2 * k) * S) with (2 * (val tf * S) + 4 * (k * S)) by ring. rewrite kS. lra. }
    set (ttd := f_mul float (f_int float 2) td) in *. clearbody ttd. apply Rabs_le_inv in Ec.
    destruct (sub_k tt tt1 (2 * val t - 2 * val t1) 2 3 Fa Fb) as [Fe Ee]; [apply (Sk _ 2); [apply Rabs_le; lra|lra]|apply Rabs_le; lra|lra|]. set (b := f_sub float tt tt1) in *. clearbody b. apply Rabs_le_inv in Ee.
    destruct (sub_k b dl (2 * val t - 3 * val t1) 5 6 Fe F3) as [Fg Eg]; [apply (Sk _ 5); [apply Rabs_le; lra|lra]|apply Rabs_le; lra|lra|]. set (b2 := f_sub float b dl) in *. clearbody b2. apply Rabs_le_inv in Eg.
    destruct (sub_k b2 ttd (2 * x - val t1) 11 12 Fg Fc) as [Fl El]; [apply (Sk _ 11); [apply Rabs_le; lra|lra]|apply Rabs_le; unfold x; lra|lra|]. set (L := f_sub float b2 ttd) in *. clearbody L.
    clear Fe Ee Fg Eg Fa Ea Fb Eb Fc Ec F8 E8 F7 E7 F5 E5 F4 E4 b b2 tt tt1 ttd td a a2 two_dl Sk Sc.
    (* the cubic term *)
    pose proof (cubic_near k (val t1) x (val C) (val dl) (val A) ltac:(lra) K2 X E6 ltac:(apply Rabs_le; exact E3) E9) as Cu.
    apply Rabs_le_inv in E6. apply Rabs_le_inv in E9. apply Rabs_le_inv in El.
    assert (Rd : relm 0 31 dl (val dl)) by (apply relm_exact; [exact F3| |lia]; apply mid_of; [|lia]; change (2 ^ 31)%Z with 2147483648%Z; rewrite Rabs_pos_eq; lra).
    assert (RA : relm 0 31 A (val A)) by (apply relm_exact; [exact F9| |lia]; apply mid_of; [|lia]; change (2 ^ 31)%Z with 2147483648%Z; rewrite Rabs_left; lra).
    pose proof (cube_rel 0 31 dl _ Rd ltac:(lra) ltac:(lia)) as Cd. pose proof (relm_div _ _ _ _ _ _ _ _ int_1 Cd ltac:(lra) ltac:(lra) ltac:(lia)) as D1.
    pose proof (relm_mul _ _ _ _ _ _ _ _ D1 RA ltac:(lra) ltac:(lra) ltac:(lia)) as D2. clear D1 Cd Rd RA. destruct D2 as ((Fm & e & Em & He) & _).
    change (b64_mult mode_NE (b64_div mode_NE (f_int float 1) (cube float dl)) A) with (f_mul float (f_div float (f_int float 1) (cube float dl)) A) in *.
    set (m1 := f_mul float (f_div float (f_int float 1) (cube float dl)) A) in *. clearbody m1.
    destruct (cube_abs C F6) as [Fcc Ecc]; [apply Rabs_le; lra|]. set (cc := cube float C) in *. clearbody cc.
    assert (He4 : Rabs e <= 4 * u) by (eapply Rle_trans; [exact He|]; right; ring).
    destruct (cubic_round k (val t1) (val A) (val C) (val dl) e (val cc) K1 ltac:(lra) ltac:(lra) ltac:(apply Rabs_le; exact E3) ltac:(apply Rabs_le; lra) ltac:(apply Rabs_le; lra) He4 Ecc) as [N1 N2].
    rewrite <- Em in N1. set (G := val A * (val C * val C * val C) / (val dl * val dl * val dl)) in *. clearbody G. set (W1 := (x - 2 * val t1) * (x * x * x) / (val t1 * val t1 * val t1)) in *.
    apply Rabs_le_inv in N1. apply Rabs_le_inv in N2. apply Rabs_le_inv in Cu.
    assert (W1k : Rabs (ramp_up (val q) (val t1) x + val q * W1 / 2) <= / 200000000000000).
    { destruct (Rle_dec 0 x) as [X0|X0].
      - rewrite ramp_early by lra. unfold W1. match goal with |- Rabs ?z <= _ => replace z with 0 by (field; lra) end. rewrite Rabs_R0. lra.
      - rewrite ramp_before by lra. eapply Rle_trans; [|exact K3]. rewrite Rplus_0_l. unfold Rdiv at 1. rewrite !Rabs_mult, (Rabs_pos_eq (val q)), (Rabs_pos_eq (/ 2)) by lra.
        rewrite Rmult_assoc. apply Rmult_le_compat_l; [lra|]. set (y := x / val t1). assert (Y : - 1 <= y <= 0).
        { split; [apply le_div; lra|apply div_le; lra]. }
        replace W1 with ((y - 2) * (y * y) * x) by (unfold W1, y; field; lra). rewrite !Rabs_mult, (Rabs_left1 x) by lra. rewrite (Rabs_left1 (y - 2)), (Rabs_left1 y) by lra.
        assert (Yk : - y <= / 100) by (unfold y; replace (- (x / val t1)) with ((- x) / val t1) by (unfold Rdiv; ring); apply div_le; lra).
        assert ((- (y - 2)) * (- y * - y) <= 1). { assert (0 <= - y * - y <= / 100 * / 100) by (split; [apply Rmult_le_pos; lra|apply Rmult_le_compat; lra]). apply Rle_trans with (3 * (/ 100 * / 100)); [apply Rmult_le_compat; lra|lra]. }
        assert ((- (y - 2)) * (- y * - y) * - x <= 1 * k) by (apply Rmult_le_compat; try lra; apply Rmult_le_pos; [lra|apply Rmult_le_pos; lra]). lra. }
    clearbody W1. set (ru := ramp_up (val q) (val t1) x) in *.
    (* the product and the sum *)
    destruct (mult_ok m1 cc 4 Fm Fcc ltac:(lia)) as [Fp Vp]; [change (bpow radix2 4) with 16; apply Rabs_le; lra|].
    assert (Bp : Rabs (val m1 * val cc) <= 15) by (apply Rabs_le; lra). pose proof (rnd_s _ Bp) as Np. clear Bp. rewrite <- Vp in Np.
    change (b64_mult mode_NE m1 cc) with (f_mul float m1 cc) in *. set (m2 := f_mul float m1 cc) in *. clearbody m2. apply Rabs_le_inv in Np.
    assert (Bs : Rabs (val m2 + val L) <= 14) by (apply Rabs_le; lra).
    destruct (plus_ok m2 L 4 Fp Fl ltac:(lia)) as [Fu Vu]; [change (bpow radix2 4) with 16; lra|]. pose proof (rnd_s (val m2 + val L) ltac:(lra)) as Nu. rewrite <- Vu in Nu. clear Vu Vp.
    change (b64_plus mode_NE m2 L) with (f_add float m2 L) in *. set (su := f_add float m2 L) in *. clearbody su. apply Rabs_le_inv in Nu. apply Rabs_le_inv in Bs.
    assert (Bh : Rabs (/ 2 * val su) <= 8) by (apply Rabs_le; lra). destruct half_val as [Fh Vh].
    destruct (mult_ok (f_lit float 1 2) su 4 Fh Fu ltac:(lia)) as [Fz Vz]; [rewrite Vh; change (bpow radix2 4) with 16; lra|]. pose proof (rnd_s (/ 2 * val su) ltac:(lra)) as Nz. rewrite Vh in Vz. rewrite <- Vz in Nz. clear Vz.
    change (b64_mult mode_NE (f_lit float 1 2) su) with (f_mul float (f_lit float 1 2) su) in *. set (hs := f_mul float (f_lit float 1 2) su) in *. clearbody hs. apply Rabs_le_inv in Nz. apply Rabs_le_inv in Bh.
    set (w := (W1 + (2 * x - val t1)) / 2). assert (Hw : Rabs (val hs - w) <= 40 * k) by (unfold w; apply Rabs_le; lra).
    assert (Bq8 : Rabs (val hs * val q) <= bpow radix2 5).
    { change (bpow radix2 5) with 32. rewrite Rabs_mult, (Rabs_pos_eq (val q)) by lra. apply Rle_trans with (9 * (2501 / 1000)); [|lra]. apply Rmult_le_compat; try apply Rabs_pos; try lra. apply Rabs_le; lra. }
    destruct (mult_ok hs q 5 Fz Fq ltac:(lia) Bq8) as [Fb Vb]. pose proof (rnd_near 5 _ ltac:(lia) Bq8) as Nb. rewrite <- Vb in Nb. change (b64_mult mode_NE hs q) with (f_mul float hs q) in *.
    set (b := f_mul float hs q) in *. clearbody b. change (bpow radix2 (5 - 53)) with (/ 281474976710656) in Nb. clear Vb. change (bpow radix2 5) with 32 in Bq8.
    assert (Nw : Rabs (val hs * val q - w * val q) <= 40 * / 200000000000000).
    { replace (val hs * val q - w * val q) with ((val hs - w) * val q) by ring. rewrite Rabs_mult, (Rabs_pos_eq (val q)) by lra. apply Rle_trans with (40 * k * val q); [apply Rmult_le_compat_r; lra|]. lra. }
    apply Rabs_le_inv in Nb. apply Rabs_le_inv in Nw. apply Rabs_le_inv in Bq8.
    destruct (times_unit b (signum float d) Fb Fs As) as [Fe Ve]; [change (bpow radix2 10) with 1024; apply Rabs_le; lra|]. set (c := f_mul float b (signum float d)) in *. clearbody c.
    assert (B6 : Rabs (val d + val c) <= bpow radix2 6).
    { change (bpow radix2 6) with 64. eapply Rle_trans; [apply Rabs_triang|]. rewrite Ve, Rabs_mult, As, Rmult_1_r. assert (Rabs (val b) <= 33) by (apply Rabs_le; lra). lra. }
    destruct (plus_ok d c 6 Fd Fe ltac:(lia) B6) as [Fo Vo]. pose proof (rnd_near 6 _ ltac:(lia) B6) as No. change (bpow radix2 (6 - 53)) with (/ 140737488355328) in No. rewrite <- Vo in No. change (b64_plus mode_NE d c) with (f_add float d c) in *.
    set (o := f_add float d c) in *. clearbody o. clear Vo B6.
    unfold profile. fold x. fold ru. clearbody ru. rewrite ramp_late by lra.
    assert (Ex : val q * (val t - val t1 / 2) - ru = val q * (val tf - val t1) + w * val q - (ru + val q * W1 / 2)) by (unfold w, x; field).
    rewrite Ex. set (r := ru + val q * W1 / 2) in *. clearbody r. set (wq := w * val q) in *. clearbody wq.
    replace (val o - sg * (val q * (val tf - val t1) + wq - r)) with ((val o - (val d + val c)) + sg * ((val b - wq) + r - (val q * (val tf - val t1) - Rabs (val d)))) by (rewrite Ve, Ds at 1; ring).
    eapply Rle_trans; [apply Rabs_triang|]. rewrite Rabs_mult, As, Rmult_1_l. apply Rabs_le_inv in W. apply Rabs_le_inv in W1k.
    assert (Rabs (val b - wq + r - (val q * (val tf - val t1) - Rabs (val d))) <= / 1000000000000 + 50 * / 200000000000000) by (apply Rabs_le; lra). unfold near. lra.
  Qed.
  Lemma close_end : val t1 <= val t -> val tf <= val t -> Rabs (val d - sg * goes) <= near.
  Proof.
    intros L M. destruct k_range as (K1 & K2 & K3 & Q & T1). destruct t2_near as (F2 & E2 & G2). destruct (tu_sign _ _ _ _ _ _ _ _ U) as (Fs & As & Ds). pose proof (tu_way _ _ _ _ _ _ _ _ U) as W.
    unfold profile. rewrite !ramp_late by lra. rewrite Ds at 1.
    replace (sg * Rabs (val d) - sg * (val q * (val t - val t1 / 2) - val q * (val t - (val tf - val t1) - val t1 / 2))) with (sg * - (val q * (val tf - val t1) - Rabs (val d))) by field.
    rewrite Rabs_mult, As, Rabs_Ropp. unfold near. lra.
  Qed.
  Lemma value_close : f_lt float (f_abs float d) (DELTA_Q_MOTION_FINISHED float) = false -> Rabs (val (fst (desired_value float d q t1 t2 tf q1 t)) - sg * goes) <= near.
  Proof.
    intros Sm. destruct (tu_t1 _ _ _ _ _ _ _ _ U) as (F1 & B1 & _). destruct (tu_tf _ _ _ _ _ _ _ _ U) as (Ff & _). destruct t2_near as (F2 & _).
    unfold desired_value. cbv zeta. fold (gef t t1) (gef t t2). rewrite Sm. rewrite !ge_fin by assumption.
    replace (f_lt float t t1) with (Rlt_bool (val t) (val t1)) by (symmetry; apply lt_fin; assumption).
    replace (f_lt float t t2) with (Rlt_bool (val t) (val t2)) by (symmetry; apply lt_fin; assumption).
    replace (f_lt float t tf) with (Rlt_bool (val t) (val tf)) by (symmetry; apply lt_fin; assumption).
    destruct (Rlt_bool_spec (val t) (val t1)) as [L|L]; [exact (close_first L)|]. rewrite Rle_bool_true by exact L.
    destruct (Rlt_bool_spec (val t) (val t2)) as [M|M]; cbn [andb]; [exact (close_second L M)|]. rewrite Rle_bool_true by exact M. cbn [andb].
    destruct (Rlt_bool_spec (val t) (val tf)) as [N|N]; [exact (close_third M L N)|exact (close_end L N)].
  Qed.
End Close.
