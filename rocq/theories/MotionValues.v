(** The values of the joint motion generator in binary64. *)
From Coq Require Import List NArith ZArith Bool Lia Lra Arith Reals.
From Flocq Require Import Core Relative IEEE754.BinarySingleNaN IEEE754.Binary IEEE754.Bits.
From Verif Require Import NumOps NumFloat FloatFacts SizeFacts TwistFloats MotionFloats MotionModel.
Import ListNotations.
Open Scope R_scope.

(** * Absolute bounds, with a range *)
Definition abm (n : Z) (M : R) (x : binary64) : Prop := b64_fin x = true /\ Rabs (val x) <= M /\ mid n M /\ 0 < M /\ (0 <= n)%Z.
Lemma mid_u : mid 1 (1 + u).
Proof. apply mid_of; [|lia]. change (2 ^ 1)%Z with 2%Z. unfold u. rewrite Rabs_pos_eq; lra. Qed.
Lemma rnd_up : forall y M, Rabs y <= M -> bpow radix2 (-900) <= M -> Rabs (rnd y) <= M * (1 + u).
Proof.
  intros y M H L. pose proof (rnd_rel y) as E. assert (T : tiny <= eps * M).
  { apply Rle_trans with (eps * bpow radix2 (-900)); [|apply Rmult_le_compat_l; [unfold eps; lra|exact L]].
    apply Rle_trans with (bpow radix2 (-1000)); [apply tiny_below; lia|]. change (-1000)%Z with (-100 + -900)%Z. rewrite bpow_plus. apply Rmult_le_compat_r; [apply bpow_ge_0|].
    change (bpow radix2 (-100)) with (/ 1267650600228229401496703205376). unfold eps. lra. }
  pose proof (bpow_gt_0 radix2 (-900)). replace (rnd y) with (y + (rnd y - y)) by ring. eapply Rle_trans; [apply Rabs_triang|].
  assert (eps * Rabs y <= eps * M) by (apply Rmult_le_compat_l; [unfold eps; lra|exact H]). unfold u. unfold eps in *. lra.
Qed.
Lemma abm_mul : forall n m M N x y, abm n M x -> abm m N y -> (n + m <= 890)%Z -> abm (n + m + 1) (M * N * (1 + u)) (f_mul float x y).
Proof.
  intros n m M N x y (Fx & Bx & Mx & Px & Nx) (Fy & By & My & Py & Ny) E. pose proof (mid_mul _ _ _ _ Mx My) as MM.
  assert (P : 0 < M * N) by (apply Rmult_lt_0_compat; assumption).
  assert (A : Rabs (val x * val y) <= M * N) by (rewrite Rabs_mult; apply Rmult_le_compat; try apply Rabs_pos; assumption).
  destruct (mid_le _ 900 _ MM ltac:(lia)) as [L H]. rewrite Rabs_pos_eq in L, H by lra.
  destruct (mult_ok x y 900 Fx Fy ltac:(lia)) as [F V]; [lra|].
  split; [exact F|]. split; [cbn [f_mul float]; rewrite V; apply rnd_up; assumption|]. split; [apply mid_mul; [exact MM|exact mid_u]|]. split; [|lia].
  apply Rmult_lt_0_compat; [exact P|unfold u; lra].
Qed.
Lemma abm_add : forall n m M N x y, abm n M x -> abm m N y -> (n + m <= 890)%Z -> abm (n + m + 2) ((M + N) * (1 + u)) (f_add float x y).
Proof.
  intros n m M N x y (Fx & Bx & Mx & Px & Nx) (Fy & By & My & Py & Ny) E.
  pose proof (mid_add _ _ _ _ Mx My ltac:(lra) ltac:(lra) Nx Ny) as MM.
  assert (P : 0 < M + N) by lra.
  assert (A : Rabs (val x + val y) <= M + N) by (eapply Rle_trans; [apply Rabs_triang|lra]).
  destruct (mid_le _ 900 _ MM ltac:(lia)) as [L H]. rewrite Rabs_pos_eq in L, H by lra.
  destruct (plus_ok x y 900 Fx Fy ltac:(lia)) as [F V]; [lra|].
  split; [exact F|]. split; [cbn [f_add float]; rewrite V; apply rnd_up; assumption|].
  split; [replace (n + m + 2)%Z with (n + m + 1 + 1)%Z by lia; apply mid_mul; [exact MM|exact mid_u]|]. split; [|lia].
  apply Rmult_lt_0_compat; [exact P|unfold u; lra].
Qed.
Lemma abm_of : forall n M x, b64_fin x = true -> Rabs (val x) <= M -> (0 <= n)%Z -> / IZR (2 ^ n) <= M <= IZR (2 ^ n) -> abm n M x.
Proof.
  intros n M x F B N R. assert (P : 0 < M). { eapply Rlt_le_trans; [|apply R]. apply Rinv_0_lt_compat. apply IZR_lt. apply Z.pow_pos_nonneg; lia. }
  split; [exact F|]. split; [exact B|]. split; [|split; assumption]. apply mid_of; [|exact N]. rewrite Rabs_pos_eq; lra.
Qed.
Lemma abm_le : forall n M N x, abm n M x -> M <= N -> mid n N -> abm n N x.
Proof. intros n M N x (F & B & R & P & Z) H Q. split; [exact F|]. split; [lra|]. split; [exact Q|]. split; [lra|exact Z]. Qed.
(** the sign *)
Lemma signum_unit : forall d, b64_fin d = true -> signum float d = f_int float 1 \/ signum float d = f_int float (-1).
Proof.
  intros d F. unfold signum. cbn [f_eq f_sign_positive float]. rewrite eq_fin by exact F. rewrite Req_bool_true by reflexivity. destruct (negb (Bsign 53 1024 d)); auto.
Qed.
Lemma abm_sign : forall d, b64_fin d = true -> abm 1 1 (signum float d).
Proof.
  intros d F. assert (H : b64_fin (signum float d) = true /\ Rabs (val (signum float d)) = 1).
  { destruct (signum_unit d F) as [-> | ->].
    - destruct (val_finite (f_int float 1) false 4503599627370496 (-52)) as [Fx Vx]; [vm_compute; reflexivity|]. split; [exact Fx|]. rewrite Vx. cbn [cond_Zopp].
      change (bpow radix2 (-52)) with (/ 4503599627370496). rewrite Rabs_pos_eq; lra.
    - destruct (val_finite (f_int float (-1)) true 4503599627370496 (-52)) as [Fx Vx]; [vm_compute; reflexivity|]. split; [exact Fx|]. rewrite Vx. cbn [cond_Zopp Z.opp].
      change (bpow radix2 (-52)) with (/ 4503599627370496). rewrite Rabs_left; lra. }
  apply abm_of; [apply H|lra|lia|]. change (2 ^ 1)%Z with 2%Z. lra.
Qed.

(** * Rounding of sums of times *)
Definition tick : R := / 549755813888.
Lemma rnd_time : forall y, Rabs y <= 16384 -> Rabs (rnd y - y) <= tick.
Proof. intros y H. change tick with (bpow radix2 (14 - 53)). apply rnd_near; [lia|]. change (bpow radix2 14) with 16384. exact H. Qed.
Lemma sub_time : forall x y, b64_fin x = true -> b64_fin y = true -> Rabs (val x - val y) <= 16384 ->
  b64_fin (f_sub float x y) = true /\ - tick <= val (f_sub float x y) - (val x - val y) <= tick.
Proof.
  intros x y Fx Fy H. destruct (minus_ok x y 14 Fx Fy ltac:(lia)) as [F V]; [change (bpow radix2 14) with 16384; exact H|].
  split; [exact F|]. cbn [f_sub float]. rewrite V. apply Rabs_le_inv, rnd_time, H.
Qed.
Lemma two_val : b64_fin (f_int float 2) = true /\ val (f_int float 2) = 2.
Proof. destruct (val_finite (f_int float 2) false 4503599627370496 (-51)) as [F V]; [vm_compute; reflexivity|]. split; [exact F|]. rewrite V. cbn [cond_Zopp].
  change (bpow radix2 (-51)) with (/ 2251799813685248). lra. Qed.
Lemma half_val : b64_fin (f_lit float 1 2) = true /\ val (f_lit float 1 2) = / 2.
Proof. destruct (val_finite (f_lit float 1 2) false 4503599627370496 (-53)) as [F V]; [vm_compute; reflexivity|]. split; [exact F|]. rewrite V. cbn [cond_Zopp].
  change (bpow radix2 (-53)) with (/ 9007199254740992). lra. Qed.
Lemma two_time : forall x, b64_fin x = true -> Rabs (val x) <= 8192 ->
  b64_fin (f_mul float (f_int float 2) x) = true /\ - tick <= val (f_mul float (f_int float 2) x) - 2 * val x <= tick.
Proof.
  intros x Fx H. destruct two_val as [F2 V2]. assert (A : Rabs (2 * val x) <= 16384) by (rewrite Rabs_mult, (Rabs_pos_eq 2); lra).
  destruct (mult_ok (f_int float 2) x 14 F2 Fx ltac:(lia)) as [F V]; [rewrite V2; change (bpow radix2 14) with 16384; exact A|].
  split; [exact F|]. cbn [f_mul float]. rewrite V, V2. apply Rabs_le_inv, rnd_time, A.
Qed.
Lemma half_time : forall x, b64_fin x = true -> 0 <= val x <= 16384 ->
  b64_fin (f_mul float (f_lit float 1 2) x) = true /\ 0 <= val (f_mul float (f_lit float 1 2) x) <= val x.
Proof.
  intros x Fx H. destruct half_val as [F2 V2]. destruct (mult_ok (f_lit float 1 2) x 14 F2 Fx ltac:(lia)) as [F V]; [rewrite V2, Rabs_pos_eq by lra; change (bpow radix2 14) with 16384; lra|].
  split; [exact F|]. cbn [f_mul float]. rewrite V, V2. split; [apply rnd_pos; lra|]. rewrite <- (rnd_val x) at 2. apply rnd_le. lra.
Qed.

(** * What the bounds need to know of a plan *)
Record planned (d q t1 t2 tf q1 : F float) : Prop := {
  pl_d : b64_fin d = true /\ Rabs (val d) <= 8;
  pl_q : b64_fin q = true /\ 0 < val q <= 52 / 10 /\ / 1000000000000 <= val q;
  pl_t1 : b64_fin t1 = true /\ / 1000000000 <= val t1 <= 2;
  pl_tf : b64_fin tf = true /\ val t1 + / 10000000 <= val tf <= 7168 /\ val q * val tf <= 17;
  pl_t2 : t2 = f_sub float tf t1;
  pl_q1 : b64_fin q1 = true /\ Rabs (val q1) <= 5
}.
Section Values.
  Variables d q t1 t2 tf q1 t : F float.
  Hypothesis P : planned d q t1 t2 tf q1.
  Hypothesis t_fin : b64_fin t = true.
  Hypothesis t_pos : 0 <= val t.
  Lemma cube_rel : forall k n x r, relm k n x r -> k <= 100 -> (n <= 100)%Z -> relm (3 * k + 2) (3 * n) (cube float x) (r * r * r).
  Proof.
    intros k n x r R K N. assert (Q : relm (k + k + 1) (n + n) (f_mul float x x) (r * r)) by (apply relm_mul; try assumption; try lra; lia).
    assert (R3 : relm (k + k + 1 + k + 1) (n + n + n) (f_mul float (f_mul float x x) x) (r * r * r)) by (apply relm_mul; try assumption; try lra; lia).
    unfold cube. replace (3 * k + 2) with (k + k + 1 + k + 1) by ring. replace (3 * n)%Z with (n + n + n)%Z by lia. exact R3.
  Qed.
  Lemma cube_le : forall x y, b64_fin x = true -> b64_fin y = true -> 0 <= val x <= val y -> val y <= 16 ->
    b64_fin (cube float x) = true /\ 0 <= val (cube float x) <= val (cube float y).
  Proof.
    intros x y Fx Fy H U. assert (Q : forall z, b64_fin z = true -> 0 <= val z <= 16 -> b64_fin (b64_mult mode_NE z z) = true /\ val (b64_mult mode_NE z z) = rnd (val z * val z) /\
        0 <= val (b64_mult mode_NE z z) <= 256 /\ b64_fin (cube float z) = true /\ val (cube float z) = rnd (val (b64_mult mode_NE z z) * val z)).
    { intros z Fz Hz. destruct (mult_ok z z 8 Fz Fz ltac:(lia)) as [F1 V1]; [rewrite Rabs_pos_eq by nra; change (bpow radix2 8) with 256; nra|].
      split; [exact F1|]. split; [exact V1|]. assert (B : 0 <= val (b64_mult mode_NE z z) <= 256).
      { rewrite V1. split; [apply rnd_pos; nra|]. change 256 with (bpow radix2 8). rewrite <- (rnd_bpow 8) by lia. apply rnd_le. change (bpow radix2 8) with 256. nra. }
      split; [exact B|]. destruct (mult_ok _ z 12 F1 Fz ltac:(lia)) as [F2 V2]; [rewrite Rabs_pos_eq by nra; change (bpow radix2 12) with 4096; nra|]. split; [exact F2|exact V2]. }
    destruct (Q x Fx ltac:(lra)) as (F1 & V1 & B1 & F2 & V2). destruct (Q y Fy ltac:(lra)) as (F1' & V1' & B1' & F2' & V2').
    split; [exact F2|]. rewrite V2, V2'. split; [apply rnd_pos; nra|]. apply rnd_le. apply Rmult_le_compat; try lra. rewrite V1, V1'. apply rnd_le. nra.
  Qed.
  Lemma abm_q : abm 40 (val q) q.
  Proof. destruct (pl_q _ _ _ _ _ _ P) as (F & B & L). apply abm_of; [exact F|rewrite Rabs_pos_eq; lra|lia|]. change (2 ^ 40)%Z with 1099511627776%Z. lra. Qed.
  Lemma t1_rel : relm 0 30 t1 (val t1).
  Proof. destruct (pl_t1 _ _ _ _ _ _ P) as (F & B). apply relm_exact; [exact F| |lia]. apply mid_of; [|lia]. change (2 ^ 30)%Z with 1073741824%Z. rewrite Rabs_pos_eq; lra. Qed.
  Lemma over_cube : forall one k n x r, (one = f_int float 1 \/ one = f_int float (-1)) -> 0 < r -> relm k n x r -> k <= 100 -> (n <= 100)%Z -> abm (3 * n + 5) (/ (r * r * r) * (1 + / 1000000)) (f_div float one (cube float x)).
  Proof.
    intros one k n x r O Rp R K N. pose proof (cube_rel k n x r R K N) as C. set (w := r * r * r) in *. assert (W : 0 < w) by (unfold w; repeat apply Rmult_lt_0_compat; lra).
    assert (Iw : 0 < / w) by (apply Rinv_0_lt_compat, W).
    assert (Q : exists sgn, Rabs sgn = 1 /\ relm (3 * k + 3) (3 * n + 4) (f_div float one (cube float x)) (sgn / w)).
    { destruct R as (_ & _ & Hn & Hk). destruct O as [-> | ->].
      - exists 1. split; [rewrite Rabs_pos_eq; lra|]. replace (3 * k + 3) with (0 + (3 * k + 2) + 1) by ring. replace (3 * n + 4)%Z with (4 + 3 * n)%Z by lia.
        apply relm_div; [exact int_1|exact C|lra|lra|lia].
      - exists (-1). split; [rewrite Rabs_left; lra|]. replace (3 * k + 3) with (0 + (3 * k + 2) + 1) by ring. replace (3 * n + 4)%Z with (4 + 3 * n)%Z by lia.
        apply relm_div; [exact int_m1|exact C|lra|lra|lia]. }
    destruct Q as (sgn & A & (F & e & E & H) & M & Hn & Hk).
    assert (S1 : Rabs (sgn / w) = / w) by (unfold Rdiv; rewrite Rabs_mult, A, Rabs_pos_eq by lra; lra).
    split; [exact F|]. split; [|split; [|split; [apply Rmult_lt_0_compat; lra|lia]]].
    - rewrite E, Rabs_mult, S1. apply Rmult_le_compat_l; [lra|]. assert (Rabs e <= / 1000000) by (unfold u in H; lra). apply Rabs_le_inv in H0. apply Rabs_le. lra.
    - replace (3 * n + 5)%Z with (3 * n + 4 + 1)%Z by lia. apply mid_mul; [unfold mid in *; rewrite S1 in M; rewrite (Rabs_pos_eq (/ w)) by lra; exact M|].
      apply mid_of; [|lia]. change (2 ^ 1)%Z with 2%Z. rewrite Rabs_pos_eq; lra.
  Qed.
  Definition fine (x : F float) : Prop := b64_fin x = true /\ Rabs (val x) <= 30.
  Lemma u_small : 1 + u <= 1 + / 1000000000000000.
  Proof. unfold u. lra. Qed.
  (** speeding up *)
  Lemma first_part : val t < val t1 ->
    fine (f_mul float (f_mul float (f_mul float (f_mul float (f_div float (f_int float (-1)) (cube float t1)) q) (signum float d))
            (f_sub float (f_mul float (f_lit float 1 2) t) t1)) (cube float t)).
  Proof.
    intros H. pose proof t1_rel as R1. destruct (pl_t1 _ _ _ _ _ _ P) as (F1 & B1). destruct (pl_q _ _ _ _ _ _ P) as (Fq & Bq & _). destruct (pl_d _ _ _ _ _ _ P) as (Fd & _).
    pose proof (over_cube (f_int float (-1)) 0 30 t1 (val t1) (or_intror eq_refl) ltac:(lra) R1 ltac:(lra) ltac:(lia)) as A1.
    pose proof abm_q as A2. pose proof (abm_sign d Fd) as A3.
    assert (A4 : abm 30 (val t1) (f_sub float (f_mul float (f_lit float 1 2) t) t1)).
    { destruct (half_time t t_fin) as [Fh Bh]; [lra|]. destruct (minus_ok (f_mul float (f_lit float 1 2) t) t1 14 Fh F1 ltac:(lia)) as [F V].
      { change (bpow radix2 14) with 16384. apply Rabs_le. lra. }
      apply abm_of; [exact F| |lia|change (2 ^ 30)%Z with 1073741824%Z; lra]. cbn [f_sub float]. rewrite V. apply Rabs_le. split.
      - rewrite <- (rnd_val t1), <- rnd_opp. rewrite rnd_val. apply rnd_le. lra.
      - rewrite <- (rnd_val t1) at 2. apply rnd_le. lra. }
    pose proof (cube_rel 0 30 t1 (val t1) R1 ltac:(lra) ltac:(lia)) as (C1 & C2 & _).
    set (w := val t1 * val t1 * val t1) in *. assert (W : 0 < w) by (unfold w; apply Rmult_lt_0_compat; [apply Rmult_lt_0_compat|]; lra).
    assert (A5 : abm 91 (w * (1 + / 1000000)) (cube float t)).
    { destruct (cube_le t t1 t_fin F1 ltac:(lra) ltac:(lra)) as [Fc Bc]. pose proof (rel_bounds _ _ _ C1 ltac:(lra) ltac:(lra)) as Z.
      split; [exact Fc|]. split; [rewrite Rabs_pos_eq; lra|]. split; [|split; [lra|lia]]. change 91%Z with (90 + 1)%Z. apply mid_mul; [exact C2|].
      apply mid_of; [|lia]. change (2 ^ 1)%Z with 2%Z. rewrite Rabs_pos_eq; lra. }
    pose proof (abm_mul _ _ _ _ _ _ (abm_mul _ _ _ _ _ _ (abm_mul _ _ _ _ _ _ (abm_mul _ _ _ _ _ _ A1 A2 ltac:(lia)) A3 ltac:(lia)) A4 ltac:(lia)) A5 ltac:(lia)) as (F & B & _).
    split; [exact F|]. eapply Rle_trans; [exact B|]. clear B F A1 A2 A3 A4 A5 C1 C2 R1.
    replace (/ w * (1 + / 1000000) * val q * (1 + u) * 1 * (1 + u) * val t1 * (1 + u) * (w * (1 + / 1000000)) * (1 + u))
      with (val q * val t1 * ((1 + / 1000000) * (1 + / 1000000) * ((1 + u) * (1 + u) * ((1 + u) * (1 + u))))) by (field; lra).
    assert (val q * val t1 <= 52 / 10 * 2) by (apply Rmult_le_compat; lra). unfold u. nra.
  Qed.
  (** at the greatest speed *)
  Lemma second_part : val t1 <= val t -> val t < val t2 -> b64_fin t2 = true ->
    fine (f_add float q1 (f_mul float (f_mul float (f_sub float t t1) q) (signum float d))).
  Proof.
    intros H H2 _. destruct (pl_t1 _ _ _ _ _ _ P) as (F1 & B1). destruct (pl_q _ _ _ _ _ _ P) as (Fq & Bq & Lq). destruct (pl_d _ _ _ _ _ _ P) as (Fd & _).
    destruct (pl_tf _ _ _ _ _ _ P) as (Ff & Bf & Qf). destruct (pl_q1 _ _ _ _ _ _ P) as (F1' & B1'). pose proof (pl_t2 _ _ _ _ _ _ P) as E2.
    assert (T2 : val t2 <= val tf).
    { rewrite E2. destruct (minus_ok tf t1 14 Ff F1 ltac:(lia)) as [_ V]; [change (bpow radix2 14) with 16384; apply Rabs_le; lra|]. cbn [f_sub float]. rewrite V.
      rewrite <- (rnd_val tf) at 2. apply rnd_le. lra. }
    assert (A1 : abm 30 (val tf) (f_sub float t t1)).
    { destruct (minus_ok t t1 14 t_fin F1 ltac:(lia)) as [F V]; [change (bpow radix2 14) with 16384; apply Rabs_le; lra|].
      apply abm_of; [exact F| |lia|change (2 ^ 30)%Z with 1073741824%Z; lra]. cbn [f_sub float]. rewrite V. rewrite Rabs_pos_eq by (apply rnd_pos; lra).
      rewrite <- (rnd_val tf). apply rnd_le. lra. }
    assert (A0 : abm 10 5 q1) by (apply abm_of; [exact F1'|exact B1'|lia|change (2 ^ 10)%Z with 1024%Z; lra]).
    pose proof abm_q as A2. pose proof (abm_sign d Fd) as A3.
    pose proof (abm_add _ _ _ _ _ _ A0 (abm_mul _ _ _ _ _ _ (abm_mul _ _ _ _ _ _ A1 A2 ltac:(lia)) A3 ltac:(lia)) ltac:(lia)) as (F & B & _).
    split; [exact F|]. eapply Rle_trans; [exact B|]. replace ((5 + val tf * val q * (1 + u) * 1 * (1 + u)) * (1 + u)) with ((5 + (val q * val tf) * ((1 + u) * (1 + u))) * (1 + u)) by ring.
    unfold u. nra.
  Qed.
  (** slowing down *)
  Lemma third_part : b64_fin t2 = true -> val t2 <= val t -> val t < val tf ->
    fine (f_add float d (f_mul float (f_mul float (f_mul float (f_lit float 1 2)
        (f_add float (f_mul float (f_mul float (f_div float (f_int float 1) (cube float (f_sub float tf t2)))
              (f_sub float (f_sub float (f_sub float t t1) (f_mul float (f_int float 2) (f_sub float tf t2))) (f_sub float t2 t1)))
            (cube float (f_sub float (f_sub float t t1) (f_sub float t2 t1))))
          (f_sub float (f_sub float (f_sub float (f_mul float (f_int float 2) t) (f_mul float (f_int float 2) t1)) (f_sub float tf t2)) (f_mul float (f_int float 2) (f_sub float t2 t1))))) q) (signum float d))).
  Proof.
    intros F2 H2 Hf. destruct (pl_t1 _ _ _ _ _ _ P) as (F1 & B1). destruct (pl_q _ _ _ _ _ _ P) as (Fq & Bq & Lq). destruct (pl_d _ _ _ _ _ _ P) as (Fd & Bd).
    destruct (pl_tf _ _ _ _ _ _ P) as (Ff & Bf & Qf). pose proof (pl_t2 _ _ _ _ _ _ P) as E2.
    pose proof (abm_sign d Fd) as A3. pose proof abm_q as A2.
    assert (A0 : abm 10 8 d) by (apply abm_of; [exact Fd|exact Bd|lia|change (2 ^ 10)%Z with 1024%Z; lra]).
    assert (tk : 0 < tick <= / 500000000000) by (unfold tick; lra).
    assert (E2' : - tick <= val t2 - (val tf - val t1) <= tick) by (rewrite E2; apply sub_time; [exact Ff|exact F1|apply Rabs_le; lra]).
    assert (Ra : forall a b, - 16384 <= a - b <= 16384 -> Rabs (a - b) <= 16384) by (intros; apply Rabs_le; lra).
    destruct (sub_time tf t2 Ff F2) as [FD ED]; [apply Ra; lra|]. set (D := f_sub float tf t2) in *. clearbody D.
    destruct (sub_time t2 t1 F2 F1) as [Fd' Ed']; [apply Ra; lra|]. set (td := f_sub float t2 t1) in *. clearbody td.
    destruct (sub_time t t1 t_fin F1) as [Fw Ew]; [apply Ra; lra|]. set (w := f_sub float t t1) in *. clearbody w.
    destruct (two_time D FD) as [FD2 ED2]; [apply Rabs_le; lra|]. set (D2 := f_mul float (f_int float 2) D) in *. clearbody D2.
    destruct (sub_time w D2 Fw FD2) as [Fa Ea]; [apply Ra; lra|]. set (a := f_sub float w D2) in *. clearbody a.
    destruct (sub_time a td Fa Fd') as [Fw1 Ew1]; [apply Ra; lra|]. set (w1 := f_sub float a td) in *. clearbody w1.
    destruct (sub_time w td Fw Fd') as [Fw2 Ew2]; [apply Ra; lra|]. set (w2 := f_sub float w td) in *. clearbody w2.
    destruct (two_time t t_fin) as [Ft2 Et2]; [apply Rabs_le; lra|]. set (tt2 := f_mul float (f_int float 2) t) in *. clearbody tt2.
    destruct (two_time t1 F1) as [Ft12 Et12]; [apply Rabs_le; lra|]. set (tt12 := f_mul float (f_int float 2) t1) in *. clearbody tt12.
    destruct (sub_time tt2 tt12 Ft2 Ft12) as [Fb Eb]; [apply Ra; lra|]. set (b := f_sub float tt2 tt12) in *. clearbody b.
    destruct (sub_time b D Fb FD) as [Fc Ec]; [apply Ra; lra|]. set (c := f_sub float b D) in *. clearbody c.
    destruct (two_time td Fd') as [Ftd2 Etd2]; [apply Rabs_le; lra|]. set (td2 := f_mul float (f_int float 2) td) in *. clearbody td2.
    destruct (sub_time c td2 Fc Ftd2) as [Fw3 Ew3]; [apply Ra; lra|]. set (w3 := f_sub float c td2) in *. clearbody w3.
    set (r := val t1) in *.
    assert (BD : 99 / 100 * r <= val D <= 101 / 100 * r) by lra.
    assert (BW1 : Rabs (val w1) <= 21 / 10 * r) by (apply Rabs_le; lra).
    assert (BW2 : - (102 / 100 * r) <= val w2 <= 102 / 100 * r) by lra.
    assert (BW3 : Rabs (val w3) <= 11 / 10 * r) by (apply Rabs_le; lra).
    clear - A0 A2 A3 FD Fw1 Fw2 Fw3 BD BW1 BW2 BW3 B1 Bq Bd Fd.
    assert (RD : relm 0 31 D (val D)) by (apply relm_exact; [exact FD| |lia]; apply mid_of; [|lia]; change (2 ^ 31)%Z with 2147483648%Z; rewrite Rabs_pos_eq; lra).
    pose proof (over_cube (f_int float 1) 0 31 D (val D) (or_introl eq_refl) ltac:(lra) RD ltac:(lra) ltac:(lia)) as A4.
    assert (A5 : abm 31 (21 / 10 * r) w1) by (apply abm_of; [exact Fw1|exact BW1|lia|change (2 ^ 31)%Z with 2147483648%Z; lra]).
    assert (A6 : abm 31 (102 / 100 * r) w2) by (apply abm_of; [exact Fw2|apply Rabs_le; exact BW2|lia|change (2 ^ 31)%Z with 2147483648%Z; lra]).
    assert (A7 : abm 31 (11 / 10 * r) w3) by (apply abm_of; [exact Fw3|exact BW3|lia|change (2 ^ 31)%Z with 2147483648%Z; lra]).
    assert (A8 : abm 1 (/ 2) (f_lit float 1 2)) by (destruct half_val as [Fh Vh]; apply abm_of; [exact Fh|rewrite Vh, Rabs_pos_eq; lra|lia|change (2 ^ 1)%Z with 2%Z; lra]).
    pose proof (abm_mul _ _ _ _ _ _ (abm_mul _ _ _ _ _ _ A6 A6 ltac:(lia)) A6 ltac:(lia)) as AC. change (f_mul float (f_mul float w2 w2) w2) with (cube float w2) in AC.
    pose proof (abm_add _ _ _ _ _ _ A0 (abm_mul _ _ _ _ _ _ (abm_mul _ _ _ _ _ _ (abm_mul _ _ _ _ _ _ A8 (abm_add _ _ _ _ _ _ (abm_mul _ _ _ _ _ _ (abm_mul _ _ _ _ _ _ A4 A5 ltac:(lia)) AC ltac:(lia)) A7 ltac:(lia)) ltac:(lia)) A2 ltac:(lia)) A3 ltac:(lia)) ltac:(lia)) as (F & B & _).
    split; [exact F|]. eapply Rle_trans; [exact B|]. clear B F A0 A2 A3 A4 A5 A6 A7 A8 AC RD.
    set (x := val D) in *. assert (Px : 0 < x) by lra.
    assert (Ix : / (x * x * x) * (r * r * r) <= 1034 / 1000).
    { replace (/ (x * x * x) * (r * r * r)) with ((r / x) * (r / x) * (r / x)) by (field; lra). assert (r / x <= 1011 / 1000) by (apply div_le; lra).
      assert (0 < r / x) by (apply Rdiv_lt_0_compat; lra). set (y := r / x) in *. clearbody y. assert (y * y <= 1011 / 1000 * (1011 / 1000)) by nra. nra. }
    set (K := 1 + u). assert (HK : 1 <= K <= 1 + / 1000000000) by (unfold K, u; lra). clearbody K.
    set (C := / (x * x * x) * (r * r * r)) in *. assert (PC : 0 <= C) by (unfold C; left; apply Rmult_lt_0_compat; [apply Rinv_0_lt_compat|]; repeat apply Rmult_lt_0_compat; lra).
    set (K3 := K * K * K). assert (HK3 : 1 <= K3 <= 1 + / 100000000) by (unfold K3; nra).
    assert (E : / (x * x * x) * (1 + / 1000000) * (21 / 10 * r) * K * (102 / 100 * r * (102 / 100 * r) * K * (102 / 100 * r) * K) * K =
      C * r * (21 / 10 * (102 / 100) * (102 / 100) * (102 / 100) * (1 + / 1000000)) * (K3 * K)) by (unfold C, K3; field; lra).
    rewrite E. clearbody K3 C. set (G := C * r * (21 / 10 * (102 / 100) * (102 / 100) * (102 / 100) * (1 + / 1000000)) * (K3 * K)).
    assert (HG : 0 <= G <= 24 / 10 * r).
    { assert (HKK : 1 <= K3 * K <= 1 + / 1000000) by nra. assert (HC : 0 <= C * r <= 1034 / 1000 * r) by (split; [apply Rmult_le_pos; lra|apply Rmult_le_compat_r; lra]).
      unfold G. set (cr := C * r) in *. clearbody cr. split; [apply Rmult_le_pos; [apply Rmult_le_pos; lra|lra]|]. nra. }
    clearbody G. assert (HH : 0 <= (G + 11 / 10 * r) * K <= 36 / 10 * r) by (split; [apply Rmult_le_pos; lra|nra]).
    set (H := (G + 11 / 10 * r) * K) in *. clearbody H.
    assert (HQ : 0 <= H * val q <= 36 / 10 * 2 * (52 / 10)) by (split; [apply Rmult_le_pos; lra|apply Rmult_le_compat; lra]).
    replace ((8 + / 2 * H * K * val q * K * 1 * K) * K) with ((8 + / 2 * (H * val q) * (K * K * K)) * K) by ring. set (hq := H * val q) in *. clearbody hq.
    assert (HK2 : 1 <= K * K <= 1 + / 300000000) by nra. assert (HK4 : 1 <= K * K * K <= 1 + / 100000000) by nra. set (KK := K * K * K) in *. clearbody KK.
    assert (hq * KK <= 36 / 10 * 2 * (52 / 10) * (1 + / 100000000)) by (apply Rmult_le_compat; lra). assert (0 <= hq * KK) by (apply Rmult_le_pos; lra).
    apply Rle_trans with (28 * K); [apply Rmult_le_compat_r; lra|lra].
  Qed.
End Values.
