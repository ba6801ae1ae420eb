(** C58: the time steps given to the joint motion generator, in seconds. *)
From Coq Require Import List NArith ZArith Bool Arith Lia Reals Lra.
From Flocq Require Import Core IEEE754.BinarySingleNaN IEEE754.Binary IEEE754.Bits.
From Verif Require Import NumOps NumFloat FloatFacts JointMotionModel Properties_Smooth.
Import ListNotations.
Open Scope R_scope.

Lemma of_u64_ok : forall n, (n <= 2 ^ 64)%N -> b64_fin (of_u64 n) = true /\ val (of_u64 n) = rnd (IZR (Z.of_N n)).
Proof.
  intros n H. pose proof (Binary.binary_normalize_correct 53 1024 eq_refl eq_refl mode_NE (Z.of_N n) 0 false) as C.
  assert (E : F2R (Float radix2 (Z.of_N n) 0) = IZR (Z.of_N n)) by (unfold F2R; cbn; ring). rewrite E in C.
  rewrite Rlt_bool_true in C.
  - destruct C as (C1 & C2 & _). split; [exact C2|exact C1].
  - apply Rle_lt_trans with (bpow radix2 64); [|apply bpow_lt; lia]. apply (rnd_abs_le _ 64); [lia|].
    change (bpow radix2 64) with (IZR (2 ^ 64)). rewrite <- abs_IZR. apply IZR_le. rewrite Z.abs_eq by lia.
    change (2 ^ 64)%Z with (Z.of_N (2 ^ 64)). lia.
Qed.
(** Rounding a number which is zero or not tiny. *)
Lemma close_rnd0 : forall x, x = 0 \/ bpow radix2 (-1022) <= x -> close u53 (rnd x) x.
Proof. intros x [->|H]; [rewrite rnd_0; split; lra|apply close_rnd, H]. Qed.
Lemma tiny : bpow radix2 (-1022) <= / 16384.
Proof. change (/ 16384) with (bpow radix2 (-14)). apply bpow_le. lia. Qed.

(** A duration of whole milliseconds becomes the number of seconds, up to a relative error of 2^-51, and is never
    infinite or NaN. *)
Theorem C58_seconds : forall ms, (ms < 2 ^ 64)%N -> b64_fin (as_secs_f64 ms) = true /\
  Rabs (val (as_secs_f64 ms) - IZR (Z.of_N ms) / 1000) <= IZR (Z.of_N ms) / 1000 * / 2 ^ 51.
Proof.
  intros ms H. unfold as_secs_f64. cbn [f_add f_div float].
  assert (D : (ms = 1000 * (ms / 1000) + ms mod 1000 /\ ms mod 1000 < 1000)%N) by (split; [apply N.div_mod; lia|apply N.mod_lt; lia]).
  destruct D as [D L]. set (a := (ms / 1000)%N) in *. set (b := (ms mod 1000)%N) in *. clearbody a b.
  destruct (of_u64_ok a) as [Fa Va]; [lia|]. destruct (of_u64_ok (b * 1000000)) as [Fb Vb]; [lia|].
  destruct (of_u64_ok 1000000000) as [Fg _]; [lia|].
  assert (Vg : val (of_u64 1000000000) = 1000000000).
  { destruct (val_finite (of_u64 1000000000) false 8388608000000000 (-23)) as [_ ->]; [vm_compute; reflexivity|].
    cbn [cond_Zopp]. change (bpow radix2 (-23)) with (/ 8388608). lra. }
  set (A := IZR (Z.of_N a)). set (B := IZR (Z.of_N b)).
  assert (Ems : IZR (Z.of_N ms) = 1000 * A + B) by (unfold A, B; rewrite D, N2Z.inj_add, N2Z.inj_mul, plus_IZR, mult_IZR; reflexivity).
  assert (EB : IZR (Z.of_N (b * 1000000)) = 1000000 * B) by (unfold B; rewrite N2Z.inj_mul, mult_IZR; cbn [Z.of_N]; lra).
  assert (HA : A = 0 \/ 1 <= A).
  { destruct (N.eq_dec a 0) as [->|N]; [left; reflexivity|right]. apply IZR_le. lia. }
  assert (HA2 : A <= 18446744073709551616).
  { apply IZR_le. change 18446744073709551616%Z with (Z.of_N (2 ^ 64)). lia. }
  assert (HB : B = 0 \/ 1 <= B).
  { destruct (N.eq_dec b 0) as [->|N]; [left; reflexivity|right]. apply IZR_le. lia. }
  assert (HB2 : B <= 1000) by (apply IZR_le; lia).
  rewrite Ems. change (IZR (Z.of_N a)) with A in Va. clearbody A B. rewrite EB in Vb. clear Ems EB D L H.
  pose proof tiny as T. pose proof (bpow_gt_0 radix2 (-1022)) as T0.
  assert (Ca : close u53 (val (of_u64 a)) A) by (rewrite Va; apply close_rnd0; destruct HA; [left; assumption|right; lra]).
  assert (Cb : close u53 (val (of_u64 (b * 1000000))) (1000000 * B)) by (rewrite Vb; apply close_rnd0; destruct HB; [left|right]; lra).
  set (va := of_u64 a) in *. set (vb := of_u64 (b * 1000000)) in *. set (vg := of_u64 1000000000) in *. clearbody va vb vg. clear Va Vb.
  assert (Rb : val vb = 0 \/ 999999 <= val vb <= 1000000001).
  { destruct Cb as [C1 C2]. unfold u53 in *. destruct HB; [left; lra|right; lra]. }
  assert (Ra : 0 <= val va <= 20000000000000000000).
  { destruct Ca as [C1 C2]. unfold u53 in *. lra. }
  assert (B64 : bpow radix2 65 = 36893488147419103232) by reflexivity.
  destruct (div_ok vb vg 1 Fb Fg) as [Fq Vq]; [lra|lia| |].
  { rewrite Vg. change (bpow radix2 1) with 2. apply Rabs_le. lra. }
  set (q := b64_div mode_NE vb vg) in *. clearbody q. rewrite Vg in Vq.
  assert (Cq : close u53 (val q) (val vb / 1000000000)) by (rewrite Vq; apply close_rnd0; destruct Rb; [left|right]; lra).
  assert (Rq : 0 <= val q <= 2 /\ (val q = 0 \/ / 10000 <= val q)).
  { destruct Cq as [C1 C2]. unfold u53 in *. destruct Rb as [Rb|Rb]; [rewrite Rb in *|]; split; lra. }
  clear Vq.
  destruct (plus_ok va q 65 Fa Fq) as [Fs Vs]; [lia|rewrite B64; apply Rabs_le; lra|].
  split; [exact Fs|]. change (val (b64_plus mode_NE va q)) with (val (b64_plus mode_NE va q)) in Vs. rewrite Vs.
  assert (Cs : close u53 (rnd (val va + val q)) (val va + val q)).
  { apply close_rnd0. destruct Ca as [C1 C2]. unfold u53 in *. destruct HA as [HA|HA]; destruct Rq as [Rq1 [Rq2|Rq2]]; [left|right|right|right]; lra. }
  set (r := rnd (val va + val q)) in *. clearbody r. clear Vs. apply Rabs_le.
  replace (/ 2 ^ 51) with (/ 2251799813685248) by (replace (2 ^ 51) with 2251799813685248 by ring; reflexivity).
  destruct Ca as [Ca1 Ca2], Cb as [Cb1 Cb2], Cq as [Cq1 Cq2], Cs as [Cs1 Cs2]. unfold u53 in *. split; lra.
Qed.
Print Assumptions C58_seconds.
(** Three milliseconds. *)
Example C58_ex_seconds : (3 < 2 ^ 64)%N /\ bits (as_secs_f64 3) = 0x3F689374BC6A7EFA%N.
Proof. split; vm_compute; reflexivity. Qed.
