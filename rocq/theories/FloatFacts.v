(** Facts about binary64 used by the floating point theorems. *)
From Coq Require Import List ZArith NArith Bool Reals Lra Lia Psatz.
From Flocq Require Import Core IEEE754.BinarySingleNaN IEEE754.Binary IEEE754.Bits.
From Verif Require Import NumOps NumFloat.
Open Scope R_scope.

(** The real number represented (0 for infinities and NaN). *)
Definition val (x : binary64) : R := Binary.B2R 53 1024 x.
Definition rnd (r : R) : R := round radix2 (SpecFloat.fexp 53 1024) ZnearestE r.

Lemma fexp_valid : Valid_exp (SpecFloat.fexp 53 1024).
Proof. apply (fexp_correct 53 1024). reflexivity. Qed.
Local Existing Instance fexp_valid.

Lemma rnd_le : forall x y, x <= y -> rnd x <= rnd y.
Proof. intros x y H. apply round_le; try exact fexp_valid; try apply valid_rnd_N. exact H. Qed.
Lemma fexp_flt : forall e, SpecFloat.fexp 53 1024 e = FLT_exp (-1074) 53 e.
Proof. reflexivity. Qed.
Lemma rnd_bpow : forall e, (-1074 <= e)%Z -> rnd (bpow radix2 e) = bpow radix2 e.
Proof.
  intros e H. apply round_generic; [apply valid_rnd_N|]. apply generic_format_bpow.
  rewrite fexp_flt. unfold FLT_exp. lia.
Qed.
Lemma rnd_opp : forall x, rnd (- x) = - rnd x.
Proof. intros. apply round_NE_opp. Qed.
Lemma rnd_0 : rnd 0 = 0.
Proof. apply round_0. apply valid_rnd_N. Qed.
Lemma rnd_abs_le : forall x e, (-1074 <= e)%Z -> Rabs x <= bpow radix2 e -> Rabs (rnd x) <= bpow radix2 e.
Proof.
  intros x e He H. apply Rabs_le. assert (- bpow radix2 e <= x <= bpow radix2 e).
  { revert H. unfold Rabs. destruct (Rcase_abs x); lra. }
  split.
  - rewrite <- (rnd_bpow e He) at 1. rewrite <- rnd_opp. apply rnd_le. lra.
  - rewrite <- (rnd_bpow e He) at 1. apply rnd_le. lra.
Qed.
(** The rounding error of a number below 2^e. *)
Lemma rnd_error : forall x e, (-1021 <= e)%Z -> Rabs x < bpow radix2 e ->
  Rabs (rnd x - x) <= bpow radix2 (e - 54).
Proof.
  intros x e He H. destruct (Req_EM_T x 0) as [->|Hx].
  { rewrite rnd_0, Rminus_0_r, Rabs_R0. apply bpow_ge_0. }
  eapply Rle_trans; [apply error_le_half_ulp; exact fexp_valid|].
  assert (U : ulp radix2 (SpecFloat.fexp 53 1024) x <= bpow radix2 (e - 53)).
  { rewrite ulp_neq_0 by exact Hx. apply bpow_le. unfold cexp. rewrite fexp_flt. unfold FLT_exp.
    pose proof (mag_le_bpow radix2 x e Hx H). lia. }
  replace (bpow radix2 (e - 54)) with (/ 2 * bpow radix2 (e - 53)); [lra|].
  replace (e - 53)%Z with (e - 54 + 1)%Z by lia. rewrite bpow_plus. change (bpow radix2 1) with 2. field.
Qed.

Lemma val_max : forall x, b64_fin x = true -> Rabs (val x) < bpow radix2 1024.
Proof. intros x H. apply Binary.abs_B2R_lt_emax. Qed.

Lemma plus_ok : forall x y e, b64_fin x = true -> b64_fin y = true -> (-1074 <= e < 1024)%Z ->
  Rabs (val x + val y) <= bpow radix2 e ->
  b64_fin (b64_plus mode_NE x y) = true /\ val (b64_plus mode_NE x y) = rnd (val x + val y).
Proof.
  intros x y e Hx Hy He H. pose proof (Binary.Bplus_correct 53 1024 eq_refl eq_refl binop_nan_pl64 mode_NE x y Hx Hy) as C.
  rewrite Rlt_bool_true in C.
  - destruct C as (C1 & C2 & _). split; [exact C2|exact C1].
  - eapply Rle_lt_trans; [apply (rnd_abs_le (val x + val y) e); [lia|exact H]|]. apply bpow_lt. lia.
Qed.
Lemma minus_ok : forall x y e, b64_fin x = true -> b64_fin y = true -> (-1074 <= e < 1024)%Z ->
  Rabs (val x - val y) <= bpow radix2 e ->
  b64_fin (b64_minus mode_NE x y) = true /\ val (b64_minus mode_NE x y) = rnd (val x - val y).
Proof.
  intros x y e Hx Hy He H. pose proof (Binary.Bminus_correct 53 1024 eq_refl eq_refl binop_nan_pl64 mode_NE x y Hx Hy) as C.
  rewrite Rlt_bool_true in C.
  - destruct C as (C1 & C2 & _). split; [exact C2|exact C1].
  - eapply Rle_lt_trans; [apply (rnd_abs_le (val x - val y) e); [lia|exact H]|]. apply bpow_lt. lia.
Qed.
Lemma mult_ok : forall x y e, b64_fin x = true -> b64_fin y = true -> (-1074 <= e < 1024)%Z ->
  Rabs (val x * val y) <= bpow radix2 e ->
  b64_fin (b64_mult mode_NE x y) = true /\ val (b64_mult mode_NE x y) = rnd (val x * val y).
Proof.
  intros x y e Hx Hy He H. pose proof (Binary.Bmult_correct 53 1024 eq_refl eq_refl binop_nan_pl64 mode_NE x y) as C.
  rewrite Rlt_bool_true in C.
  - destruct C as (C1 & C2 & _). unfold b64_fin in *. rewrite Hx, Hy in C2. split; [exact C2|exact C1].
  - eapply Rle_lt_trans; [apply (rnd_abs_le (val x * val y) e); [lia|exact H]|]. apply bpow_lt. lia.
Qed.
Lemma div_ok : forall x y e, b64_fin x = true -> b64_fin y = true -> val y <> 0 -> (-1074 <= e < 1024)%Z ->
  Rabs (val x / val y) <= bpow radix2 e ->
  b64_fin (b64_div mode_NE x y) = true /\ val (b64_div mode_NE x y) = rnd (val x / val y).
Proof.
  intros x y e Hx Hy Hz He H. pose proof (Binary.Bdiv_correct 53 1024 eq_refl eq_refl binop_nan_pl64 mode_NE x y Hz) as C.
  rewrite Rlt_bool_true in C.
  - destruct C as (C1 & C2 & _). unfold b64_fin in *. rewrite Hx in C2. split; [exact C2|exact C1].
  - eapply Rle_lt_trans; [apply (rnd_abs_le (val x / val y) e); [lia|exact H]|]. apply bpow_lt. lia.
Qed.
Lemma opp_val : forall x, val (b64_opp x) = - val x.
Proof. intros x. apply Binary.B2R_Bopp. Qed.
Lemma opp_fin : forall x, b64_fin (b64_opp x) = b64_fin x.
Proof. intros x. apply Binary.is_finite_Bopp. Qed.

Lemma fin_not_nan : forall x, b64_fin x = true -> b64_nan x = false.
Proof. intros [s|s|s pl e|s m e B] H; try reflexivity; discriminate H. Qed.
Lemma lt_fin : forall x y, b64_fin x = true -> b64_fin y = true -> b64_lt x y = Rlt_bool (val x) (val y).
Proof.
  intros x y Hx Hy. unfold b64_lt, b64_compare. rewrite Binary.Bcompare_correct by assumption.
  unfold Rlt_bool, val. destruct (Rcompare _ _); reflexivity.
Qed.
Lemma eq_fin : forall x y, b64_fin x = true -> b64_fin y = true -> b64_eq x y = Req_bool (val x) (val y).
Proof.
  intros x y Hx Hy. unfold b64_eq, b64_compare. rewrite Binary.Bcompare_correct by assumption.
  unfold Req_bool, val. destruct (Rcompare _ _); reflexivity.
Qed.
Lemma min_fin : forall x y, b64_fin x = true -> b64_fin y = true ->
  b64_fin (f_min float x y) = true /\ val (f_min float x y) = Rmin (val x) (val y).
Proof.
  intros x y Hx Hy. cbn [f_min float]. rewrite (fin_not_nan x Hx), (fin_not_nan y Hy), (lt_fin y x Hy Hx).
  unfold Rmin. destruct (Rlt_bool_spec (val y) (val x)); destruct (Rle_dec (val x) (val y)); split; auto; lra.
Qed.
Lemma max_fin : forall x y, b64_fin x = true -> b64_fin y = true ->
  b64_fin (f_max float x y) = true /\ val (f_max float x y) = Rmax (val x) (val y).
Proof.
  intros x y Hx Hy. cbn [f_max float]. rewrite (fin_not_nan x Hx), (fin_not_nan y Hy), (lt_fin x y Hx Hy).
  unfold Rmax. destruct (Rlt_bool_spec (val x) (val y)); destruct (Rle_dec (val x) (val y)); split; auto; lra.
Qed.
(** Clamping tames every value, infinities and NaN included. *)
Lemma clamp_any : forall d lo hi, b64_fin lo = true -> b64_fin hi = true -> val lo <= val hi ->
  let c := f_max float (f_min float d hi) lo in
  b64_fin c = true /\ val lo <= val c <= val hi.
Proof.
  intros d lo hi Hl Hh H c. destruct (b64_fin d) eqn:D.
  - destruct (min_fin d hi D Hh) as [F1 V1]. destruct (max_fin _ lo F1 Hl) as [F2 V2]. split; [exact F2|].
    unfold c. rewrite V2, V1. unfold Rmax, Rmin. destruct (Rle_dec (val d) (val hi)).
    + destruct (Rle_dec (val d) (val lo)); lra.
    + destruct (Rle_dec (val hi) (val lo)); lra.
  - assert (X : f_min float d hi = hi \/ (f_min float d hi = d /\ c = lo)).
    { unfold c. cbn [f_min f_max float]. destruct d as [s|[]|s pl e|s m e B]; try discriminate D; cbn [b64_nan Binary.is_nan].
      - right. rewrite (fin_not_nan hi Hh). assert (E : b64_lt hi (B754_infinity 53 1024 true) = false).
        { destruct hi as [s0|[]|s0 pl0 e0|[] m0 e0 B0]; try discriminate Hh; reflexivity. }
        rewrite E. split; [reflexivity|]. cbn [b64_nan Binary.is_nan]. rewrite (fin_not_nan lo Hl).
        replace (b64_lt (B754_infinity 53 1024 true) lo) with true; [reflexivity|].
        destruct lo as [s0|[]|s0 pl0 e0|[] m0 e0 B0]; try discriminate Hl; reflexivity.
      - left. rewrite (fin_not_nan hi Hh). assert (E : b64_lt hi (B754_infinity 53 1024 false) = true).
        { destruct hi as [s0|[]|s0 pl0 e0|[] m0 e0 B0]; try discriminate Hh; reflexivity. }
        rewrite E. reflexivity.
      - left. reflexivity. }
    destruct X as [X|[_ X]].
    + unfold c. rewrite X. destruct (max_fin hi lo Hh Hl) as [F2 V2]. split; [exact F2|]. rewrite V2.
      unfold Rmax. destruct (Rle_dec (val hi) (val lo)); lra.
    + rewrite X. split; [exact Hl|lra].
Qed.

(** Values of concrete floats. *)
Lemma val_finite : forall x s m e, Binary.B2FF 53 1024 x = F754_finite s m e ->
  b64_fin x = true /\ val x = IZR (cond_Zopp s (Zpos m)) * bpow radix2 e.
Proof.
  intros x s m e H. destruct x as [s0|s0|s0 pl e0|s0 m0 e0 B]; cbn in H; try discriminate H. injection H as -> -> ->.
  split; reflexivity.
Qed.
(** The bit patterns. *)
Lemma of_bits_bits : forall x, of_bits (bits x) = x.
Proof.
  intros x. unfold of_bits, bits. rewrite Z2N.id.
  - apply (binary_float_of_bits_of_binary_float 52 11).
  - apply (bits_of_binary_float_range 52 11); reflexivity.
Qed.
