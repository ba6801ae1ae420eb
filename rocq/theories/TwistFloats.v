(** The Cartesian velocity limiter in binary64: norms and unit vectors of arbitrary doubles. *)
From Coq Require Import List NArith ZArith Bool Lia Lra Arith Reals.
From Flocq Require Import Core Relative IEEE754.BinarySingleNaN IEEE754.Binary IEEE754.Bits.
From Verif Require Import NumOps NumFloat FloatFacts SizeFacts RateModel.
Import ListNotations.
Open Scope R_scope.

(** * Rounding with a relative error *)
Definition eps : R := / 9007199254740992.
Definition tiny : R := bpow radix2 (-1075).
Lemma tiny_pos : 0 < tiny.
Proof. apply bpow_gt_0. Qed.
Lemma rnd_rel : forall x, Rabs (rnd x - x) <= eps * Rabs x + tiny.
Proof.
  intros x. destruct (error_N_FLT radix2 (-1074) 53 eq_refl (fun z => negb (Z.even z)) x) as (e & h & E & H & _ & R).
  change (rnd x) with (round radix2 (FLT_exp (-1074) 53) (Znearest (fun z => negb (Z.even z))) x). rewrite R.
  replace (x * (1 + e) + h - x) with (e * x + h) by ring. eapply Rle_trans; [apply Rabs_triang|]. rewrite Rabs_mult.
  apply Rplus_le_compat; [apply Rmult_le_compat_r; [apply Rabs_pos|]|].
  - eapply Rle_trans; [exact E|]. change (bpow radix2 (- (53) + 1)) with (/ 4503599627370496). unfold eps. lra.
  - eapply Rle_trans; [exact H|]. unfold tiny. change (-1074)%Z with (-1075 + 1)%Z. rewrite bpow_plus. change (bpow radix2 1) with 2.
    pose proof (bpow_gt_0 radix2 (-1075)). lra.
Qed.
Lemma tiny_below : forall e, (-1075 <= e)%Z -> tiny <= bpow radix2 e.
Proof. intros e H. apply bpow_le, H. Qed.

(** * Norms of arbitrary floats *)
Notation inf := (B754_infinity 53 1024 false).
Definition up (x : binary64) : Prop := x = inf \/ (b64_fin x = true /\ 0 <= val x).
Lemma nan_plus : forall x y, b64_nan (b64_plus mode_NE x y) = false -> b64_nan x = false /\ b64_nan y = false.
Proof.
  intros [s|s|s pl e|s m e B] [s'|s'|s' pl' e'|s' m' e' B'] H; split; try reflexivity; try discriminate H.
Qed.
Lemma overflowed : forall x s, Binary.B2FF 53 1024 x = binary_overflow 53 1024 mode_NE s -> s = false -> x = inf.
Proof.
  intros x s H ->. cbn in H. destruct x as [s|s|s pl e|s m e B]; cbn in H; try discriminate H. congruence.
Qed.
Lemma square_up : forall x, b64_nan (b64_mult mode_NE x x) = false ->
  up (b64_mult mode_NE x x) /\ (b64_fin (b64_mult mode_NE x x) = true -> b64_fin x = true /\ val (b64_mult mode_NE x x) = rnd (val x * val x)) /\
  b64_nan x = false.
Proof.
  intros x N. destruct (b64_fin x) eqn:F.
  - pose proof (Binary.Bmult_correct 53 1024 eq_refl eq_refl binop_nan_pl64 mode_NE x x) as C.
    destruct (Rlt_bool_spec (Rabs (round radix2 (SpecFloat.fexp 53 1024) (round_mode mode_NE) (Binary.B2R 53 1024 x * Binary.B2R 53 1024 x))) (bpow radix2 1024)) as [L|L].
    + destruct C as (C1 & C2 & _). unfold b64_fin in *. rewrite F in C2. cbn in C2. split; [|split; [intros _; split; [reflexivity|exact C1]|apply fin_not_nan, F]].
      right. split; [exact C2|]. unfold val. change (b64_mult mode_NE x x) with (Binary.Bmult 53 1024 eq_refl eq_refl binop_nan_pl64 mode_NE x x).
      rewrite C1. apply (rnd_pos (val x * val x)). nra.
    + apply overflowed in C; [|apply xorb_nilpotent]. change (b64_mult mode_NE x x) with (Binary.Bmult 53 1024 eq_refl eq_refl binop_nan_pl64 mode_NE x x).
      rewrite C. split; [left; reflexivity|]. split; [discriminate|apply fin_not_nan, F].
  - destruct x as [s|s|s pl e|s m e B]; try discriminate F; [|discriminate N].
    assert (E : b64_mult mode_NE (B754_infinity 53 1024 s) (B754_infinity 53 1024 s) = inf) by (destruct s; reflexivity).
    rewrite E. split; [left; reflexivity|]. split; [discriminate|reflexivity].
Qed.
Lemma plus_up : forall x y, up x -> up y -> up (b64_plus mode_NE x y) /\
  (b64_fin (b64_plus mode_NE x y) = true -> b64_fin x = true /\ b64_fin y = true /\ val (b64_plus mode_NE x y) = rnd (val x + val y)).
Proof.
  intros x y Hx Hy. destruct Hx as [->|[Fx Px]].
  { assert (E : b64_plus mode_NE inf y = inf) by (destruct Hy as [->|[Fy Py]]; [reflexivity|destruct y; try discriminate Fy; reflexivity]).
    rewrite E. split; [left; reflexivity|discriminate]. }
  destruct Hy as [->|[Fy Py]].
  { assert (E : b64_plus mode_NE x inf = inf) by (destruct x; try discriminate Fx; reflexivity). rewrite E. split; [left; reflexivity|discriminate]. }
  pose proof (Binary.Bplus_correct 53 1024 eq_refl eq_refl binop_nan_pl64 mode_NE x y Fx Fy) as C.
  destruct (Rlt_bool_spec (Rabs (round radix2 (SpecFloat.fexp 53 1024) (round_mode mode_NE) (Binary.B2R 53 1024 x + Binary.B2R 53 1024 y))) (bpow radix2 1024)) as [L|L].
  - destruct C as (C1 & C2 & _). split; [|intros _; repeat split; assumption]. right. split; [exact C2|].
    unfold val. change (b64_plus mode_NE x y) with (Binary.Bplus 53 1024 eq_refl eq_refl binop_nan_pl64 mode_NE x y). rewrite C1.
    apply (rnd_pos (val x + val y)). lra.
  - destruct C as (C1 & C2). assert (E : b64_plus mode_NE x y = inf).
    { apply (overflowed _ _ C1). destruct (Bsign 53 1024 x) eqn:S; [|reflexivity]. exfalso.
      assert (Z : forall z, b64_fin z = true -> 0 <= val z -> Bsign 53 1024 z = true -> val z = 0).
      { intros [s|s|s pl e|[|] m e B] F P Sg; try discriminate F; try discriminate Sg; try reflexivity.
        assert (N : F2R (Float radix2 (Z.neg m) e) < 0) by (apply F2R_lt_0; reflexivity).
        change (val (Binary.B754_finite 53 1024 true m e B)) with (F2R (Float radix2 (Z.neg m) e)) in P. lra. }
      fold (val x) (val y) in L. rewrite (Z x Fx Px S), (Z y Fy Py (eq_sym C2)) in L.
      change (round radix2 (SpecFloat.fexp 53 1024) (round_mode mode_NE) (0 + 0)) with (rnd (0 + 0)) in L. rewrite Rplus_0_r, rnd_0, Rabs_R0 in L.
      pose proof (bpow_gt_0 radix2 1024). lra. }
    rewrite E. split; [left; reflexivity|discriminate].
Qed.
Lemma rnd_val : forall x, rnd (val x) = val x.
Proof. intros x. apply round_generic; [apply valid_rnd_N|]. apply generic_format_B2R. Qed.

Definition sum3 (a b c : binary64) : binary64 :=
  b64_plus mode_NE (b64_plus mode_NE (b64_mult mode_NE a a) (b64_mult mode_NE b b)) (b64_mult mode_NE c c).
Lemma sum_up : forall a b c, b64_nan (sum3 a b c) = false ->
  up (sum3 a b c) /\ (b64_fin (sum3 a b c) = true -> (b64_fin a = true /\ b64_fin b = true /\ b64_fin c = true) /\
    val (sum3 a b c) = rnd (rnd (rnd (val a * val a) + rnd (val b * val b)) + rnd (val c * val c))) /\
  (b64_nan a = false /\ b64_nan b = false /\ b64_nan c = false).
Proof.
  intros a b c N. unfold sum3 in *. destruct (nan_plus _ _ N) as [N1 N2]. destruct (nan_plus _ _ N1) as [N3 N4].
  destruct (square_up _ N3) as (U1 & V1 & W1). destruct (square_up _ N4) as (U2 & V2 & W2). destruct (square_up _ N2) as (U3 & V3 & W3).
  destruct (plus_up _ _ U1 U2) as [U4 V4]. destruct (plus_up _ _ U4 U3) as [U5 V5].
  split; [exact U5|]. split; [|auto]. intros F. destruct (V5 F) as (F4 & F3 & E5). destruct (V4 F4) as (F1 & F2 & E4).
  destruct (V1 F1) as [Fa E1]. destruct (V2 F2) as [Fb E2]. destruct (V3 F3) as [Fc E3]. split; [auto|].
  rewrite E5, E4, E1, E2, E3. reflexivity.
Qed.
(** The sum of three rounded squares. *)
Lemma sum_close : forall a b c, let s := a * a + b * b + c * c in
  let r := rnd (rnd (rnd (a * a) + rnd (b * b)) + rnd (c * c)) in
  Rabs (r - s) <= 4 * eps * s + 8 * tiny /\ 0 <= s.
Proof.
  intros a b c s r. assert (S : 0 <= s) by (unfold s; nra). split; [|exact S]. pose proof tiny_pos as T0.
  assert (e0 : 0 < eps < / 1000000) by (unfold eps; lra).
  pose proof (rnd_rel (a * a)) as Ra. pose proof (rnd_rel (b * b)) as Rb. pose proof (rnd_rel (c * c)) as Rc.
  rewrite (Rabs_pos_eq (a * a)) in Ra by nra. rewrite (Rabs_pos_eq (b * b)) in Rb by nra. rewrite (Rabs_pos_eq (c * c)) in Rc by nra.
  assert (P : forall x, 0 <= x * x) by (intros; nra). pose proof (P a) as Pa. pose proof (P b) as Pb. pose proof (P c) as Pc.
  pose proof (rnd_pos _ Pa) as Qa. pose proof (rnd_pos _ Pb) as Qb. pose proof (rnd_pos _ Pc) as Qc.
  unfold s, r in *. clear s r P. set (xa := a * a) in *. set (xb := b * b) in *. set (xc := c * c) in *. clearbody xa xb xc.
  set (ya := rnd xa) in *. set (yb := rnd xb) in *. set (yc := rnd xc) in *. clearbody ya yb yc.
  pose proof (rnd_rel (ya + yb)) as Rd. rewrite (Rabs_pos_eq (ya + yb)) in Rd by lra. pose proof (rnd_pos (ya + yb) ltac:(lra)) as Qd.
  set (yd := rnd (ya + yb)) in *. clearbody yd.
  pose proof (rnd_rel (yd + yc)) as Re. rewrite (Rabs_pos_eq (yd + yc)) in Re by lra. set (ye := rnd (yd + yc)) in *. clearbody ye.
  apply Rabs_le_inv in Ra, Rb, Rc, Rd, Re. apply Rabs_le.
  assert (eps * eps <= eps * / 1000000) by (apply Rmult_le_compat_l; lra).
  assert (eps * tiny <= / 1000000 * tiny) by (apply Rmult_le_compat_r; lra).
  assert (K' : forall x y, - (eps * x + tiny) <= y - x <= eps * x + tiny -> 0 <= x -> eps * y <= (1 + / 1000) * eps * x + / 1000 * tiny).
  { intros x y HH Hx. apply Rle_trans with (eps * (x + (eps * x + tiny))); [apply Rmult_le_compat_l; lra|].
    assert (eps * eps * x <= eps * / 1000000 * x) by (apply Rmult_le_compat_r; assumption). assert (0 <= eps * x) by (apply Rmult_le_pos; lra). lra. }
  pose proof (K' _ _ Ra Pa) as Ka. pose proof (K' _ _ Rb Pb) as Kb. pose proof (K' _ _ Rc Pc) as Kc.
  assert (Kd : eps * yd <= (1 + / 1000) * eps * (ya + yb) + / 1000 * tiny) by (apply K'; [exact Rd|lra]).
  assert (eps * xa >= 0 /\ eps * xb >= 0 /\ eps * xc >= 0) by (repeat split; apply Rle_ge, Rmult_le_pos; lra).
  split; lra.
Qed.

(** * Absolute errors *)
Lemma bpow_double : forall e x, Rabs x <= bpow radix2 e -> Rabs x < bpow radix2 (e + 1).
Proof. intros e x H. rewrite <- double. pose proof (bpow_gt_0 radix2 e). lra. Qed.
Lemma rnd_near : forall e x, (-1000 <= e)%Z -> Rabs x <= bpow radix2 e -> Rabs (rnd x - x) <= bpow radix2 (e - 53).
Proof.
  intros e x He H. replace (e - 53)%Z with (e + 1 - 54)%Z by lia. apply rnd_error; [lia|apply bpow_double, H].
Qed.
Lemma mul_near : forall e f x y, size e x -> size f y -> (-900 <= e + f < 1000)%Z ->
  Rabs (val (b64_mult mode_NE x y) - val x * val y) <= bpow radix2 (e + f - 53).
Proof.
  intros e f x y [Fx Vx] [Fy Vy] He.
  assert (B : Rabs (val x * val y) <= bpow radix2 (e + f)).
  { rewrite Rabs_mult, bpow_plus. apply Rmult_le_compat; try apply Rabs_pos; assumption. }
  destruct (mult_ok x y (e + f) Fx Fy ltac:(lia) B) as [_ V]. rewrite V. apply rnd_near; [lia|exact B].
Qed.
Lemma add_near : forall e x y, size e x -> size e y -> (-900 <= e < 1000)%Z ->
  Rabs (val (b64_plus mode_NE x y) - (val x + val y)) <= bpow radix2 (e - 52).
Proof.
  intros e x y [Fx Vx] [Fy Vy] He.
  assert (B : Rabs (val x + val y) <= bpow radix2 (e + 1)) by (rewrite <- double; eapply Rle_trans; [apply Rabs_triang|lra]).
  destruct (plus_ok x y (e + 1) Fx Fy ltac:(lia) B) as [_ V]. rewrite V. replace (e - 52)%Z with (e + 1 - 53)%Z by lia. apply rnd_near; [lia|exact B].
Qed.
Lemma sub_near : forall e x y, size e x -> size e y -> (-900 <= e < 1000)%Z ->
  Rabs (val (b64_minus mode_NE x y) - (val x - val y)) <= bpow radix2 (e - 52).
Proof.
  intros e x y [Fx Vx] [Fy Vy] He.
  assert (B : Rabs (val x - val y) <= bpow radix2 (e + 1)).
  { rewrite <- double. unfold Rminus. eapply Rle_trans; [apply Rabs_triang|]. rewrite Rabs_Ropp. lra. }
  destruct (minus_ok x y (e + 1) Fx Fy ltac:(lia) B) as [_ V]. rewrite V. replace (e - 52)%Z with (e + 1 - 53)%Z by lia. apply rnd_near; [lia|exact B].
Qed.
Definition rdot (a b : vec float) : R := val (vx _ a) * val (vx _ b) + val (vy _ a) * val (vy _ b) + val (vz _ a) * val (vz _ b).
Lemma dot_near : forall e f a b, vsize e a -> vsize f b -> (-800 <= e + f < 900)%Z ->
  Rabs (val (v_dot float a b) - rdot a b) <= bpow radix2 (e + f - 49).
Proof.
  intros e f a b (A1 & A2 & A3) (B1 & B2 & B3) He. unfold v_dot, rdot. cbn [f_add f_mul float].
  pose proof (size_mul _ _ _ _ A1 B1 ltac:(lia)) as M1. pose proof (size_mul _ _ _ _ A2 B2 ltac:(lia)) as M2. pose proof (size_mul _ _ _ _ A3 B3 ltac:(lia)) as M3.
  pose proof (mul_near _ _ _ _ A1 B1 ltac:(lia)) as N1. pose proof (mul_near _ _ _ _ A2 B2 ltac:(lia)) as N2. pose proof (mul_near _ _ _ _ A3 B3 ltac:(lia)) as N3.
  pose proof (size_add _ _ _ M1 M2 ltac:(lia)) as M4. pose proof (add_near _ _ _ M1 M2 ltac:(lia)) as N4.
  pose proof (add_near _ _ _ M4 (size_le _ (e + f + 1) _ M3 ltac:(lia)) ltac:(lia)) as N5.
  set (p1 := b64_mult mode_NE (vx _ a) (vx _ b)) in *. set (p2 := b64_mult mode_NE (vy _ a) (vy _ b)) in *. set (p3 := b64_mult mode_NE (vz _ a) (vz _ b)) in *.
  replace (e + f - 52)%Z with (e + f - 53 + 1)%Z in N4 by lia. replace (e + f + 1 - 52)%Z with (e + f - 53 + 1 + 1)%Z in N5 by lia.
  replace (e + f - 49)%Z with (e + f - 53 + 1 + 1 + 1 + 1)%Z by lia. repeat rewrite <- double in N4. repeat rewrite <- double in N5. repeat rewrite <- double.
  set (h := bpow radix2 (e + f - 53)) in *. clearbody h. apply Rabs_le. apply Rabs_le_inv in N1, N2, N3, N4, N5. lra.
Qed.

(** * The unit vector *)
Definition rnorm2 (a : vec float) : R := rdot a a.
Lemma over_eps_any : forall a, f_gt float (v_norm float a) (NORM_EPS float) = true ->
  b64_nan (v_norm float a) = false.
Proof.
  intros a H. unfold f_gt in H. cbn [f_lt float] in H. destruct (v_norm float a) as [s|s|s pl e|s m e B]; try reflexivity.
  exfalso. revert H. destruct (NORM_EPS float); discriminate.
Qed.
Lemma sqrt_not_nan : forall x, b64_nan (b64_sqrt mode_NE x) = false -> b64_nan x = false.
Proof. intros [s|s|s pl e|s m e B] H; try reflexivity. discriminate H. Qed.
Lemma v_norm_sum : forall a, v_norm float a = b64_sqrt mode_NE (sum3 (vx _ a) (vy _ a) (vz _ a)).
Proof. reflexivity. Qed.
(** A usable norm: infinite, or within relative error 16 eps of the exact one. *)
Lemma norm_any : forall a, b64_nan (v_norm float a) = false ->
  (b64_nan (vx _ a) = false /\ b64_nan (vy _ a) = false /\ b64_nan (vz _ a) = false) /\
  (v_norm float a = inf \/
   (b64_fin (v_norm float a) = true /\ (b64_fin (vx _ a) = true /\ b64_fin (vy _ a) = true /\ b64_fin (vz _ a) = true) /\ 0 <= val (v_norm float a) /\
    (bpow radix2 (-52) <= val (v_norm float a) ->
     Rabs (val (v_norm float a) * val (v_norm float a) - rnorm2 a) <= 9 * eps * rnorm2 a /\ 0 < rnorm2 a))).
Proof.
  intros a N. rewrite v_norm_sum in *. pose proof (sqrt_not_nan _ N) as N1. destruct (sum_up _ _ _ N1) as (U & V & W). split; [exact W|].
  destruct U as [E|[F P]]; [left; rewrite E; reflexivity|right]. destruct (V F) as [Fa Ea]. destruct (sqrt_of _ F P) as [Fs Vs].
  split; [exact Fs|]. split; [exact Fa|]. rewrite Vs. split; [apply rnd_pos, sqrt_pos|].
  intros L. set (S' := val (sum3 _ _ _)) in *. unfold rnorm2, rdot.
  destruct (sum_close (val (vx _ a)) (val (vy _ a)) (val (vz _ a))) as [C C0]. rewrite <- Ea in C.
  set (S := val (vx _ a) * val (vx _ a) + val (vy _ a) * val (vy _ a) + val (vz _ a) * val (vz _ a)) in *. clearbody S. clear Ea V W.
  clearbody S'. pose proof (sqrt_sqrt _ P) as Q. pose proof (sqrt_pos S') as Q0. set (s := sqrt S') in *. clearbody s. subst S'.
  pose proof (rnd_rel s) as R. rewrite (Rabs_pos_eq s Q0) in R. set (n := rnd s) in *. clearbody n. clear Vs Fs F N N1.
  assert (e0 : eps = / 9007199254740992) by reflexivity.
  assert (T : tiny <= / 1000000 * eps * bpow radix2 (-106)).
  { unfold tiny. replace (-1075)%Z with (-969 + -106)%Z by reflexivity. rewrite bpow_plus. apply Rmult_le_compat_r; [apply bpow_ge_0|].
    apply Rle_trans with (bpow radix2 (-80)); [apply bpow_le; lia|]. change (bpow radix2 (-80)) with (/ 1208925819614629174706176). unfold eps. lra. }
  assert (B2 : bpow radix2 (-106) = / 4 * (bpow radix2 (-52) * bpow radix2 (-52))).
  { rewrite <- bpow_plus. change (-106)%Z with (-2 + (-52 + -52))%Z. rewrite bpow_plus. reflexivity. }
  pose proof tiny_pos as T0. set (b := bpow radix2 (-52)) in *.
  assert (b0 : 0 < b <= / 4503599627370496) by (split; [apply bpow_gt_0|change b with (/ 4503599627370496); lra]). rewrite B2 in T.
  clearbody b. clear B2. apply Rabs_le_inv in R, C.
  assert (bb : b * b <= b * / 4503599627370496) by (apply Rmult_le_compat_l; lra).
  assert (T2 : tiny <= / 1000000 * eps * (/ 4 * b)).
  { apply Rle_trans with (1 := T). apply Rmult_le_compat_l; [unfold eps; lra|]. lra. }
  rewrite e0 in *. clear e0.
  assert (s1 : b <= 2 * s) by lra.
  assert (T3 : tiny <= / 1000000 * / 9007199254740992 * (s * s)).
  { apply Rle_trans with (1 := T). apply Rmult_le_compat_l; [lra|]. assert (b * b <= (2 * s) * (2 * s)) by (apply Rmult_le_compat; lra). lra. }
  assert (T4 : tiny <= / 1000 * / 9007199254740992 * s) by lra.
  assert (Sp : 0 < s * s) by (apply Rmult_lt_0_compat; lra).
  assert (D : - (/ 9007199254740992 * (1 + / 1000) * s) <= n - s <= / 9007199254740992 * (1 + / 1000) * s) by lra.
  assert (N2 : s * s * (1 - 3 * / 9007199254740992) <= n * n <= s * s * (1 + 3 * / 9007199254740992)).
  { split.
    - apply Rle_trans with ((s * (1 - / 9007199254740992 * (1 + / 1000))) * (s * (1 - / 9007199254740992 * (1 + / 1000)))); [|apply Rmult_le_compat; lra].
      replace ((s * (1 - / 9007199254740992 * (1 + / 1000))) * (s * (1 - / 9007199254740992 * (1 + / 1000)))) with
        (s * s * ((1 - / 9007199254740992 * (1 + / 1000)) * (1 - / 9007199254740992 * (1 + / 1000)))) by ring. apply Rmult_le_compat_l; lra.
    - apply Rle_trans with ((s * (1 + / 9007199254740992 * (1 + / 1000))) * (s * (1 + / 9007199254740992 * (1 + / 1000)))); [apply Rmult_le_compat; lra|].
      replace ((s * (1 + / 9007199254740992 * (1 + / 1000))) * (s * (1 + / 9007199254740992 * (1 + / 1000)))) with
        (s * s * ((1 + / 9007199254740992 * (1 + / 1000)) * (1 + / 9007199254740992 * (1 + / 1000)))) by ring. apply Rmult_le_compat_l; lra. }
  set (q := s * s) in *. clearbody q. split; [apply Rabs_le; split; lra|lra].
Qed.
Lemma div_le : forall a b m, 0 < m -> a <= b * m -> a / m <= b.
Proof. intros a b m Hm H. apply Rmult_le_reg_r with m; [exact Hm|]. replace (a / m * m) with a by (field; lra). exact H. Qed.
Lemma le_div : forall a b m, 0 < m -> b * m <= a -> b <= a / m.
Proof. intros a b m Hm H. apply Rmult_le_reg_r with m; [exact Hm|]. replace (a / m * m) with a by (field; lra). exact H. Qed.
Lemma tiny_eps : tiny <= / 1000 * eps.
Proof.
  apply Rle_trans with (bpow radix2 (-80)); [apply tiny_below; lia|]. change (bpow radix2 (-80)) with (/ 1208925819614629174706176). unfold eps. lra.
Qed.
Lemma unit_near : forall a, b64_fin (v_norm float a) = true -> bpow radix2 (-52) <= val (v_norm float a) ->
  vsize 1 (v_normalize float a) /\ Rabs (rnorm2 (v_normalize float a) - 1) <= 64 * eps.
Proof.
  intros a F L. destruct (norm_any a (fin_not_nan _ F)) as [_ [E|(_ & (F1 & F2 & F3) & P & K)]]; [rewrite E in F; discriminate F|].
  destruct (K L) as [C S0]. unfold v_normalize, v_unscale, v_map. cbn [f_div float]. unfold rnorm2, rdot in *. cbn [vx vy vz].
  set (n := v_norm float a) in *. clearbody n. pose proof (bpow_gt_0 radix2 (-52)) as b0.
  set (x := vx float a) in *. set (y := vy float a) in *. set (z := vz float a) in *. clearbody x y z.
  assert (n0 : 0 < val n) by lra. clear K L b0 P. apply Rabs_le_inv in C.
  assert (e0 : 0 < eps < / 1000000000) by (unfold eps; lra). pose proof tiny_eps as t0. pose proof tiny_pos as t1.
  set (S := val x * val x + val y * val y + val z * val z) in *.
  assert (eS : eps * S <= / 1000000000 * S) by (apply Rmult_le_compat_r; lra).
  assert (Q : forall v, b64_fin v = true -> val v * val v <= S ->
     size 1 (b64_div mode_NE v n) /\ Rabs (val (b64_div mode_NE v n) * val (b64_div mode_NE v n) - val v * val v / (val n * val n)) <= 12 * eps).
  { intros v Fv Hv. assert (H1 : (val v / val n) * (val v / val n) <= 1 + / 100).
    { replace ((val v / val n) * (val v / val n)) with (val v * val v / (val n * val n)) by (field; lra).
      apply div_le; [apply Rmult_gt_0_compat; lra|]. lra. }
    assert (H2 : Rabs (val v / val n) <= 1 + / 100). { apply Rabs_le. split; nra. }
    assert (H3 : Rabs (val v / val n) <= bpow radix2 1) by (change (bpow radix2 1) with 2; lra).
    destruct (div_ok v n 1 Fv F ltac:(lra) ltac:(lia) H3) as [Fd Vd]. pose proof (rnd_rel (val v / val n)) as R. rewrite Vd.
    replace (val v * val v / (val n * val n)) with ((val v / val n) * (val v / val n)) by (field; lra).
    set (q := val v / val n) in *. clearbody q. split; [split; [exact Fd|rewrite Vd; apply rnd_abs_le; [lia|exact H3]]|].
    set (u := rnd q) in *. clearbody u. replace (u * u - q * q) with ((u - q) * (u + q)) by ring. rewrite Rabs_mult.
    assert (R1 : Rabs (u - q) <= 2 * eps).
    { apply Rle_trans with (1 := R). apply Rle_trans with (eps * (1 + / 100) + / 1000 * eps); [|lra]. apply Rplus_le_compat; [|exact t0]. apply Rmult_le_compat_l; lra. }
    assert (R2 : Rabs (u + q) <= 3) by (apply Rabs_le; apply Rabs_le_inv in R1, H2; lra).
    apply Rle_trans with (2 * eps * 3); [|lra]. apply Rmult_le_compat; try apply Rabs_pos; assumption. }
  assert (Sq : forall r, 0 <= r * r) by (intros; nra). pose proof (Sq (val x)). pose proof (Sq (val y)). pose proof (Sq (val z)).
  destruct (Q x F1 ltac:(unfold S; lra)) as [Sx Dx]. destruct (Q y F2 ltac:(unfold S; lra)) as [Sy Dy]. destruct (Q z F3 ltac:(unfold S; lra)) as [Sz Dz].
  split; [repeat split; assumption || apply Sx || apply Sy || apply Sz|].
  assert (W : Rabs (S / (val n * val n) - 1) <= 10 * eps).
  { assert (nn : 0 < val n * val n) by (apply Rmult_lt_0_compat; lra). set (m := val n * val n) in *. clearbody m S.
    replace (S / m - 1) with ((S - m) / m) by (field; lra). apply Rabs_le. split.
    - apply le_div; [lra|]. assert (eps * S <= eps * (m * (1 + / 100))) by (apply Rmult_le_compat_l; lra). lra.
    - apply div_le; [lra|]. assert (eps * S <= eps * (m * (1 + / 100))) by (apply Rmult_le_compat_l; lra). lra. }
  replace (S / (val n * val n)) with (val x * val x / (val n * val n) + val y * val y / (val n * val n) + val z * val z / (val n * val n)) in W by (unfold S; field; lra).
  apply Rabs_le_inv in W, Dx, Dy, Dz. apply Rabs_le. lra.
Qed.

(** * The acceleration with limited jerk *)
Lemma gt_eps : forall x, b64_fin x = true -> f_gt float x (NORM_EPS float) = true -> bpow radix2 (-52) <= val x.
Proof.
  intros x F H. destruct norm_eps as [Fn Vn]. unfold f_gt in H. cbn [f_lt float] in H. rewrite lt_fin in H by assumption. rewrite Vn in H.
  destruct (Rlt_bool_spec (bpow radix2 (-52)) (val x)); [lra|discriminate H].
Qed.
Lemma nan_mult_l : forall x y, b64_nan (b64_mult mode_NE x y) = false -> b64_nan x = false.
Proof. intros [s|s|s pl e|s m e B] y H; try reflexivity. destruct y; discriminate H. Qed.
Lemma over_inf : forall x, b64_nan (b64_div mode_NE x inf) = false -> size 1 (b64_div mode_NE x inf).
Proof.
  intros [s|s|s pl e|s m e B] H; try discriminate H; (split; [reflexivity|]);
  change (Rabs 0 <= bpow radix2 1); rewrite Rabs_R0; apply bpow_ge_0.
Qed.
Section Step.
  Variables V A J : binary64.
  Hypothesis HV : b64_fin V = true /\ 1 <= val V <= 5 / 2.
  Hypothesis HA : b64_fin A = true /\ 12 <= val A <= 25.
  Hypothesis HJ : size 14 J /\ 0 <= val J.
  Lemma acc_size : forall v l la, vsize 10 la ->
    let acc := limited_acceleration float J v l la in
    b64_nan (vx _ acc) = false -> b64_nan (vy _ acc) = false -> b64_nan (vz _ acc) = false -> vsize 11 acc.
  Proof.
    intros v l la Hla acc. unfold acc, limited_acceleration. clear acc.
    set (j := v_unscale float (v_sub float (v_unscale float (v_sub float v l) (DELTA_T float)) la) (DELTA_T float)). clearbody j.
    destruct (f_gt float (v_norm float j) (NORM_EPS float)) eqn:G; [|intros; exact (vsize_le _ 11 _ Hla ltac:(lia))].
    pose proof (over_eps_any _ G) as N. destruct (norm_any j N) as [_ K]. destruct HJ as [SJ PJ].
    assert (C : size 14 (f_max float (f_min float (v_norm float j) J) (f_neg float J))).
    { destruct (clamp_any (v_norm float j) (f_neg float J) J) as [F B]; [cbn [f_neg float]; rewrite opp_fin; apply SJ|apply SJ|cbn [f_neg float]; rewrite opp_val; lra|].
      split; [exact F|]. destruct SJ as [_ SJ]. rewrite Rabs_pos_eq in SJ by exact PJ. cbn [f_neg float] in B |- *. rewrite opp_val in B. apply Rabs_le. lra. }
    set (k := f_max float _ _) in *. clearbody k. destruct delta_size as [T1 T2]. destruct Hla as (A1 & A2 & A3).
    assert (Fin : forall a u, size 10 a -> size 1 u -> size 11 (b64_plus mode_NE a (b64_mult mode_NE (b64_mult mode_NE u k) (DELTA_T float)))).
    { intros a u Sa Su. pose proof (size_mul _ _ _ _ Su C ltac:(lia)) as M1. pose proof (size_mul _ _ _ _ M1 T1 ltac:(lia)) as M2.
      apply (size_add 10); [exact Sa|eapply size_le; [exact M2|lia]|lia]. }
    intros N1 N2 N3. unfold v_add, v_map2, v_scale, v_map in *. cbn [f_add f_mul float vx vy vz] in *.
    destruct K as [E|(F & _ & _ & _)].
    - unfold v_normalize, v_unscale, v_map in *. cbn [f_div float vx vy vz] in *. rewrite E in *.
      split; [|split]; cbn [vx vy vz]; (apply Fin; [assumption|]); apply over_inf;
      eapply nan_mult_l, nan_mult_l, nan_plus; eassumption.
    - destruct (unit_near j F (gt_eps _ F G)) as [(U1 & U2 & U3) _]. split; [|split]; cbn [vx vy vz]; apply Fin; assumption.
  Qed.
  Lemma acc_used : forall v l la, vsize 10 la ->
    let acc := limited_acceleration float J v l la in
    f_gt float (v_norm float acc) (NORM_EPS float) = true ->
    b64_fin (v_norm float acc) = true /\ bpow radix2 (-52) <= val (v_norm float acc) /\
    vsize 1 (v_normalize float acc) /\ Rabs (rnorm2 (v_normalize float acc) - 1) <= 64 * eps.
  Proof.
    intros v l la Hla acc G. pose proof (over_eps_any _ G) as N. destruct (norm_any acc N) as [(N1 & N2 & N3) _].
    pose proof (acc_size v l la Hla N1 N2 N3) as S. destruct (v_norm_size 11 _ S ltac:(lia)) as [[F _] _]. fold acc in F.
    pose proof (gt_eps _ F G) as L. destruct (unit_near acc F L) as [U1 U2]. auto.
  Qed.
End Step.
