(** The Cartesian velocity limiter in binary64: one step, for every request. *)
From Coq Require Import List NArith ZArith Bool Lia Lra Arith Reals.
From Flocq Require Import Core Relative IEEE754.BinarySingleNaN IEEE754.Binary IEEE754.Bits.
From Verif Require Import NumOps NumFloat FloatFacts SizeFacts RateModel TwistFloats.
Import ListNotations.
Open Scope R_scope.

(** * The reals: a step towards the sphere of radius V *)
Lemma sphere_step : forall n0 d0 q V2 t tau D s, 0 <= s -> s * s = d0 * d0 - n0 + V2 -> D = - d0 + s ->
  n0 <= V2 -> 0 <= tau <= 1 -> - tau <= t <= D + tau -> 0 <= s <= 6 -> 
  n0 + 2 * t * d0 + t * t * q <= V2 + 13 * tau + t * t * (q - 1).
Proof.
  intros n0 d0 q V2 t tau D s H0 Hs HD Hn Ht [T1 T2] Hs6.
  assert (E : n0 + 2 * t * d0 + t * t * q = V2 + (t - D) * (t - (- d0 - s)) + t * t * (q - 1)).
  { subst D. replace ((t - (- d0 + s)) * (t - (- d0 - s))) with (t * t + 2 * t * d0 + d0 * d0 - s * s) by ring. rewrite Hs. ring. }
  assert (D1 : - d0 - s <= 0 <= D). { assert (d0 * d0 <= s * s) by lra. subst D. destruct (Rle_lt_dec 0 d0); split; nra. }
  assert (G : (t - D) * (t - (- d0 - s)) <= 13 * tau).
  { set (D' := - d0 - s) in *. assert (L : D - D' = 2 * s) by (unfold D'; lra). clearbody D'.
    destruct (Rle_lt_dec t D) as [X|X]; [destruct (Rle_lt_dec D' t) as [Y|Y]|].
    - apply Rle_trans with 0; [|lra]. rewrite <- Ropp_0, <- (Ropp_involutive ((t - D) * (t - D'))). apply Ropp_le_contravar.
      replace (- ((t - D) * (t - D'))) with ((D - t) * (t - D')) by ring. apply Rmult_le_pos; lra.
    - replace ((t - D) * (t - D')) with ((D - t) * (D' - t)) by ring.
      apply Rle_trans with (13 * tau); [apply Rmult_le_compat; lra|lra].
    - rewrite Rmult_comm. apply Rmult_le_compat; lra. }
  lra.
Qed.
Lemma sqrt_diff : forall x y m d, 0 < m -> m * m <= x -> m * m <= y -> Rabs (x - y) <= 2 * m * d -> Rabs (sqrt x - sqrt y) <= d.
Proof.
  intros x y m d Hm Hx Hy H. assert (M : 0 <= m * m) by nra.
  assert (X : m <= sqrt x) by (rewrite <- (sqrt_square m) by lra; apply sqrt_le_1_alt, Hx).
  assert (Y : m <= sqrt y) by (rewrite <- (sqrt_square m) by lra; apply sqrt_le_1_alt, Hy).
  rewrite <- (sqrt_sqrt x), <- (sqrt_sqrt y) in H by lra. set (a := sqrt x) in *. set (b := sqrt y) in *. clearbody a b.
  replace (a * a - b * b) with ((a - b) * (a + b)) in H by ring. rewrite Rabs_mult in H. rewrite (Rabs_pos_eq (a + b)) in H by lra.
  pose proof (Rabs_pos (a - b)) as P. set (r := Rabs (a - b)) in *. clearbody r.
  apply Rmult_le_reg_l with (2 * m); [lra|]. apply Rle_trans with (r * (a + b)); [|exact H]. rewrite (Rmult_comm (2 * m)). apply Rmult_le_compat_l; lra.
Qed.
Lemma cauchy : forall a b : vec float, rdot a b * rdot a b <= rnorm2 a * rnorm2 b.
Proof.
  intros [a1 a2 a3] [b1 b2 b3]. unfold rnorm2, rdot. cbn [vx vy vz].
  set (x1 := val a1). set (x2 := val a2). set (x3 := val a3). set (y1 := val b1). set (y2 := val b2). set (y3 := val b3). clearbody x1 x2 x3 y1 y2 y3.
  assert (H : 0 <= (x1 * y2 - x2 * y1) * (x1 * y2 - x2 * y1) + (x1 * y3 - x3 * y1) * (x1 * y3 - x3 * y1) + (x2 * y3 - x3 * y2) * (x2 * y3 - x3 * y2)).
  { assert (P : forall r, 0 <= r * r) by (intros; nra). pose proof (P (x1 * y2 - x2 * y1)). pose proof (P (x1 * y3 - x3 * y1)). pose proof (P (x2 * y3 - x3 * y2)). lra. }
  lra.
Qed.
Lemma delta_val : b64_fin (DELTA_T float) = true /\ / 1000 <= val (DELTA_T float) <= / 1000 + / 1000000000000000.
Proof.
  destruct (val_finite (DELTA_T float) false 4611686018427388 (-62)) as [F V]; [vm_compute; reflexivity|]. split; [exact F|]. rewrite V. cbn [cond_Zopp].
  change (bpow radix2 (-62)) with (/ 4611686018427387904). lra.
Qed.

(** * One step *)
Definition rdist2 (a b : vec float) : R :=
  (val (vx _ a) - val (vx _ b)) * (val (vx _ a) - val (vx _ b)) + (val (vy _ a) - val (vy _ b)) * (val (vy _ a) - val (vy _ b)) +
  (val (vz _ a) - val (vz _ b)) * (val (vz _ a) - val (vz _ b)).
Definition vfinite (a : vec float) : Prop := b64_fin (vx _ a) = true /\ b64_fin (vy _ a) = true /\ b64_fin (vz _ a) = true.
Lemma comp_size : forall a M e, vfinite a -> rnorm2 a <= M * M -> 0 <= M <= bpow radix2 e -> vsize e a.
Proof.
  intros a M e (F1 & F2 & F3) H [M0 M1]. unfold rnorm2, rdot in H. assert (P : forall r, 0 <= r * r) by (intros; nra).
  pose proof (P (val (vx _ a))). pose proof (P (val (vy _ a))). pose proof (P (val (vz _ a))).
  assert (Q : forall r, r * r <= M * M -> Rabs r <= bpow radix2 e).
  { intros r Hr. apply Rle_trans with M; [|exact M1]. rewrite <- (Rabs_pos_eq M M0). apply Rsqr_le_abs_0. exact Hr. }
  repeat split; try assumption; apply Q; lra.
Qed.
Ltac pows := change (bpow radix2 (-36)) with (/ 68719476736) in *; change (bpow radix2 (-49)) with (/ 562949953421312) in *;
  change (bpow radix2 (-46)) with (/ 70368744177664) in *; change (bpow radix2 (-45)) with (/ 35184372088832) in *;
  change (bpow radix2 (-48)) with (/ 281474976710656) in *; change (bpow radix2 (-47)) with (/ 140737488355328) in *;
  change (bpow radix2 (-50)) with (/ 1125899906842624) in *; change (bpow radix2 (-40)) with (/ 1099511627776) in *.
(** Adding one step to one component. *)
Lemma move_near : forall sp x y, size 5 sp -> size 2 x -> size 1 y ->
  b64_fin (b64_plus mode_NE x (b64_mult mode_NE (b64_mult mode_NE y sp) (DELTA_T float))) = true /\
  Rabs (val (b64_plus mode_NE x (b64_mult mode_NE (b64_mult mode_NE y sp) (DELTA_T float))) - (val x + val y * (val sp * val (DELTA_T float)))) <= / 281474976710656.
Proof.
  intros sp x y Ssp Hx Hy. destruct delta_val as [FT BT]. destruct delta_size as [ST _]. set (T := DELTA_T float) in *. clearbody T.
  pose proof (size_mul 1 5 y sp Hy Ssp ltac:(lia)) as M1. pose proof (mul_near 1 5 y sp Hy Ssp ltac:(lia)) as E1. change (1 + 5 - 53)%Z with (-47)%Z in E1.
  set (m1 := b64_mult mode_NE y sp) in *. clearbody m1. change (1 + 5)%Z with 6%Z in M1.
  pose proof (size_mul 6 (-9) m1 T M1 ST ltac:(lia)) as M2. pose proof (mul_near 6 (-9) m1 T M1 ST ltac:(lia)) as E2.
  assert (E2' : Rabs (val (b64_mult mode_NE m1 T) - val m1 * val T) <= bpow radix2 (-50)) by (eapply Rle_trans; [exact E2|apply bpow_le; lia]). clear E2.
  set (m2 := b64_mult mode_NE m1 T) in *. clearbody m2. pose proof (size_le _ 2 _ M2 ltac:(lia)) as M3.
  pose proof (size_add 2 x m2 Hx M3 ltac:(lia)) as [F _]. pose proof (add_near 2 x m2 Hx M3 ltac:(lia)) as E3. change (2 - 52)%Z with (-50)%Z in E3.
  split; [exact F|]. pows. apply Rabs_le_inv in E1, E2', E3. rewrite <- Rmult_assoc.
  assert (- (/ 140737488355328 * val T) <= (val m1 - val y * val sp) * val T <= / 140737488355328 * val T).
  { rewrite Ropp_mult_distr_l. split; apply Rmult_le_compat_r; lra. }
  apply Rabs_le. lra.
Qed.
Lemma near_square : forall o r, Rabs (o - r) <= / 281474976710656 -> -6 <= r <= 6 -> o * o <= r * r + / 10000000000000.
Proof.
  intros o r Ho Hr. replace (o * o) with (r * r + (o - r) * (o + r)) by ring. apply Rplus_le_compat_l.
  apply Rle_trans with (Rabs (o - r) * Rabs (o + r)); [rewrite <- Rabs_mult; apply Rle_abs|].
  apply Rle_trans with (/ 281474976710656 * 13); [|lra]. apply Rmult_le_compat; try apply Rabs_pos; [exact Ho|]. apply Rabs_le_inv in Ho. apply Rabs_le. lra.
Qed.
(** The step in the reals, with its rounding errors. *)
Lemma final_bounds : forall x y z a b c ox oy oz t q V2 A,
  Rabs x <= 4 -> Rabs y <= 4 -> Rabs z <= 4 -> Rabs a <= 2 -> Rabs b <= 2 -> Rabs c <= 2 ->
  Rabs (ox - (x + a * t)) <= / 281474976710656 -> Rabs (oy - (y + b * t)) <= / 281474976710656 -> Rabs (oz - (z + c * t)) <= / 281474976710656 ->
  q = a * a + b * b + c * c -> Rabs (q - 1) <= 64 * eps -> 12 <= A <= 25 ->
  - / 7000000 <= t <= A * (/ 1000 + / 1000000000000000) ->
  (x * x + y * y + z * z) + 2 * t * (a * x + b * y + c * z) + t * t * q <= V2 + 13 * / 7000000 + t * t * (q - 1) ->
  ox * ox + oy * oy + oz * oz <= V2 + / 65536 /\
  (ox - x) * (ox - x) + (oy - y) * (oy - y) + (oz - z) * (oz - z) <= (A / 1000 + / 1000000000) * (A / 1000 + / 1000000000).
Proof.
  intros x y z a b c ox oy oz t q V2 A SL1 SL2 SL3 U1 U2 U3 OX OY OZ Q Nu BA t0 H.
  assert (tt : 0 <= t * t <= / 1000) by (clear - t0 BA; split; nra).
  assert (q1 : Rabs (q - 1) <= / 10000000000000) by (eapply Rle_trans; [exact Nu|unfold eps; lra]). apply Rabs_le_inv in q1.
  assert (H1 : t * t * (q - 1) <= / 1000 * / 1000000) by (apply Rle_trans with (t * t * / 1000000); [apply Rmult_le_compat_l; lra|apply Rmult_le_compat_r; lra]).
  assert (tb : forall w, Rabs w <= 2 -> -1 <= w * t <= 1).
  { clear - t0 BA; intros w Hw; assert (t1 : Rabs t <= / 2) by (apply Rabs_le; lra); apply Rabs_le_inv; rewrite Rabs_mult;
    apply Rle_trans with (2 * / 2); [apply Rmult_le_compat; [apply Rabs_pos|apply Rabs_pos|exact Hw|exact t1]|lra]. }
  pose proof (tb a U1) as ta. pose proof (tb b U2) as tb'. pose proof (tb c U3) as tc. clear tb.
  apply Rabs_le_inv in SL1, SL2, SL3. split.
  - pose proof (near_square ox (x + a * t) OX ltac:(lra)). pose proof (near_square oy (y + b * t) OY ltac:(lra)). pose proof (near_square oz (z + c * t) OZ ltac:(lra)).
    subst q. lra.
  - apply Rabs_le_inv in OX, OY, OZ.
    pose proof (near_square (ox - x) (a * t) ltac:(apply Rabs_le; lra) ltac:(lra)).
    pose proof (near_square (oy - y) (b * t) ltac:(apply Rabs_le; lra) ltac:(lra)).
    pose proof (near_square (oz - z) (c * t) ltac:(apply Rabs_le; lra) ltac:(lra)).
    assert (E : a * t * (a * t) + b * t * (b * t) + c * t * (c * t) = t * t * q) by (subst q; ring).
    assert (t * t * q <= t * t * (1 + / 10000000000000)) by (apply Rmult_le_compat_l; lra).
    assert (t * t <= (A * (/ 1000 + / 1000000000000000)) * (A * (/ 1000 + / 1000000000000000))).
    { apply Rsqr_le_abs_1. rewrite (Rabs_pos_eq (A * _)) by (apply Rmult_le_pos; lra). apply Rabs_le. lra. }
    assert (A2 : 12 * 12 <= A * A <= 25 * 25) by (split; apply Rmult_le_compat; lra). lra.
Qed.
Section Move.
  Variables V A J : binary64.
  Hypothesis HV : b64_fin V = true /\ 1 <= val V <= 5 / 2.
  Hypothesis HA : b64_fin A = true /\ 12 <= val A <= 25.
  Hypothesis HJ : size 14 J /\ 0 <= val J.
  Hypothesis HK : b64_fin (b64_div mode_NE J A) = true /\ 0 <= val (b64_div mode_NE J A) <= 501.
  (** The radicand and its square root. *)
  Definition radicand (u l : vec float) : binary64 :=
    b64_plus mode_NE (b64_minus mode_NE (b64_mult mode_NE (v_dot float u l) (v_dot float u l)) (v_norm2 float l)) (b64_mult mode_NE V V).
  Lemma distance_near : forall u l, vsize 1 u -> Rabs (rnorm2 u - 1) <= 64 * eps -> vfinite l -> rnorm2 l <= val V * val V - bpow radix2 (-36) ->
    let dist := b64_plus mode_NE (b64_opp (v_dot float u l)) (b64_sqrt mode_NE (radicand u l)) in
    let s := sqrt (rdot u l * rdot u l - rnorm2 l + val V * val V) in
    size 4 dist /\ Rabs (val dist - (- rdot u l + s)) <= / 4194304 /\ 0 <= s <= 6 /\ s * s = rdot u l * rdot u l - rnorm2 l + val V * val V.
  Proof.
    intros u l Hu Hq Hl Hn dist s. destruct HV as [FV BV].
    assert (Sl : vsize 2 l). { apply comp_size with (M := val V); [exact Hl|pows; lra|]. change (bpow radix2 2) with 4. lra. }
    assert (q0 : rnorm2 u <= 1 + / 1000000) by (apply Rabs_le_inv in Hq; unfold eps in Hq; lra).
    assert (n0 : 0 <= rnorm2 l <= 25 / 4) by (split; [unfold rnorm2, rdot; nra|pows; nra]).
    assert (D0 : Rabs (rdot u l) <= 3).
    { pose proof (cauchy u l) as C. assert (rnorm2 u * rnorm2 l <= (1 + / 1000000) * (25 / 4)) by (apply Rmult_le_compat; [unfold rnorm2, rdot; nra|lra|lra|lra]).
      apply Rabs_le. split; nra. }
    pose proof (dot_near 1 2 u l Hu Sl ltac:(lia)) as Dn. change (1 + 2 - 49)%Z with (-46)%Z in Dn.
    pose proof (dot_near 2 2 l l Sl Sl ltac:(lia)) as Nn. change (2 + 2 - 49)%Z with (-45)%Z in Nn. fold (rnorm2 l) in Nn. fold (v_norm2 float l) in Nn.
    pose proof (v_dot_size 1 2 u l Hu Sl ltac:(lia)) as [Fd _]. pose proof (v_dot_size 2 2 l l Sl Sl ltac:(lia)) as [Fn _]. fold (v_norm2 float l) in Fn.
    unfold dist, s, radicand in *. clear dist s. set (d := v_dot float u l) in *. set (n := v_norm2 float l) in *.
    set (rd := rdot u l) in *. set (rn := rnorm2 l) in *. clearbody d n rd rn. pows.
    apply Rabs_le_inv in Dn, Nn, D0.
    assert (Sd : size 2 d) by (split; [exact Fd|change (bpow radix2 2) with 4; apply Rabs_le; lra]).
    assert (Sn : size 4 n) by (split; [exact Fn|change (bpow radix2 4) with 16; apply Rabs_le; lra]).
    assert (SV : size 2 V) by (split; [exact FV|change (bpow radix2 2) with 4; apply Rabs_le; lra]).
    pose proof (size_mul 2 2 d d Sd Sd ltac:(lia)) as S1. pose proof (mul_near 2 2 d d Sd Sd ltac:(lia)) as E1. change (2 + 2)%Z with 4%Z in S1, E1. change (4 - 53)%Z with (-49)%Z in E1.
    pose proof (size_mul 2 2 V V SV SV ltac:(lia)) as S2. pose proof (mul_near 2 2 V V SV SV ltac:(lia)) as E2. change (2 + 2)%Z with 4%Z in S2, E2. change (4 - 53)%Z with (-49)%Z in E2.
    set (dd := b64_mult mode_NE d d) in *. set (vv := b64_mult mode_NE V V) in *. clearbody dd vv.
    pose proof (size_sub 4 dd n S1 Sn ltac:(lia)) as S3. pose proof (sub_near 4 dd n S1 Sn ltac:(lia)) as E3. change (4 + 1)%Z with 5%Z in S3. change (4 - 52)%Z with (-48)%Z in E3.
    set (r1 := b64_minus mode_NE dd n) in *. clearbody r1.
    pose proof (size_add 5 r1 vv S3 (size_le _ 5 _ S2 ltac:(lia)) ltac:(lia)) as S4. pose proof (add_near 5 r1 vv S3 (size_le _ 5 _ S2 ltac:(lia)) ltac:(lia)) as E4. change (5 - 52)%Z with (-47)%Z in E4.
    set (r2 := b64_plus mode_NE r1 vv) in *. clearbody r2. pows. apply Rabs_le_inv in E1, E2, E3, E4.
    assert (Q1 : Rabs (val d * val d - rd * rd) <= / 8796093022208).
    { replace (val d * val d - rd * rd) with ((val d - rd) * (val d + rd)) by ring. rewrite Rabs_mult.
      apply Rle_trans with (/ 70368744177664 * 8); [|lra]. apply Rmult_le_compat; try apply Rabs_pos; apply Rabs_le; lra. }
    apply Rabs_le_inv in Q1.
    assert (rr : 0 <= rd * rd <= 9) by (split; nra). assert (VV : 1 <= val V * val V <= 25 / 4) by (split; nra).
    set (R0 := rd * rd - rn + val V * val V) in *.
    assert (Rn : Rabs (val r2 - R0) <= / 4398046511104) by (apply Rabs_le; unfold R0; lra).
    assert (R0p : / 68719476736 <= R0 <= 16) by (unfold R0; lra). apply Rabs_le_inv in Rn.
    destruct (sqrt_of r2 (size_fin _ _ S4) ltac:(lra)) as [Fs Vs].
    assert (Sd2 : Rabs (sqrt (val r2) - sqrt R0) <= / 8388608).
    { apply sqrt_diff with (m := / 524288); [lra|lra|lra|]. apply Rabs_le. lra. }
    pose proof (sqrt_pos R0) as s0. pose proof (sqrt_sqrt R0 ltac:(lra)) as ss.
    assert (s6 : sqrt R0 <= 4) by nra.
    assert (Ss : Rabs (sqrt (val r2)) <= bpow radix2 3) by (change (bpow radix2 3) with 8; apply Rabs_le_inv in Sd2; apply Rabs_le; lra).
    pose proof (rnd_near 3 _ ltac:(lia) Ss) as Es. rewrite <- Vs in Es. change (3 - 53)%Z with (-50)%Z in Es.
    assert (Sq : size 3 (b64_sqrt mode_NE r2)) by (split; [exact Fs|rewrite Vs; apply rnd_abs_le; [lia|exact Ss]]).
    set (sr := b64_sqrt mode_NE r2) in *. clearbody sr. pose proof (size_opp _ _ Sd) as So.
    pose proof (size_add 3 (b64_opp d) sr (size_le _ 3 _ So ltac:(lia)) Sq ltac:(lia)) as S5.
    pose proof (add_near 3 (b64_opp d) sr (size_le _ 3 _ So ltac:(lia)) Sq ltac:(lia)) as E5. change (3 - 52)%Z with (-49)%Z in E5. rewrite opp_val in E5. pows.
    apply Rabs_le_inv in Sd2, Es, E5. split; [exact S5|]. split; [apply Rabs_le; lra|]. split; [lra|exact ss].
  Qed.
  (** The length of the step. *)
  Lemma length_bounds : forall na dist D, b64_fin na = true -> 0 <= val na -> size 4 dist -> 0 <= D -> Rabs (val dist - D) <= / 4194304 ->
    let sp := f_min float na (f_min float (b64_mult mode_NE (b64_div mode_NE J A) dist) A) in
    size 5 sp /\ - / 7000000 <= val sp * val (DELTA_T float) <= D + / 7000000 /\
    val sp * val (DELTA_T float) <= val A * (/ 1000 + / 1000000000000000).
  Proof.
    intros na dist D Fn Ln Sx D0 Ex sp. unfold sp. clear sp. destruct HA as [FA BA]. destruct HK as [FK BK]. set (k := b64_div mode_NE J A) in *. clearbody k.
    assert (Sk : size 9 k) by (split; [exact FK|change (bpow radix2 9) with 512; apply Rabs_le; lra]).
    pose proof (size_mul 9 4 k dist Sk Sx ltac:(lia)) as [Fp _]. pose proof (mul_near 9 4 k dist Sk Sx ltac:(lia)) as Ep. change (9 + 4 - 53)%Z with (-40)%Z in Ep.
    set (p := b64_mult mode_NE k dist) in *. clearbody p. pows.
    destruct (min_fin p A Fp FA) as [Fm Vm]. set (sm := f_min float p A) in *. clearbody sm. destruct (min_fin na sm Fn Fm) as [Fs Vs].
    set (sp := f_min float na sm) in *. clearbody sp. destruct delta_val as [FT BT].
    set (T := DELTA_T float) in *. clearbody T. apply Rabs_le_inv in Ex, Ep.
    assert (P1 : val k * (D - / 4194304) <= val k * val dist <= val k * (D + / 4194304)) by (split; apply Rmult_le_compat_l; lra).
    assert (kD : 0 <= val k * D) by (apply Rmult_le_pos; lra).
    assert (Bs : - / 8000 <= val sp <= val A /\ val sp <= val k * D + / 8000).
    { rewrite Vs, Vm. unfold Rmin. destruct (Rle_dec (val p) (val A)), (Rle_dec _ _); lra. }
    clear Vs Vm Fm Fn Ln P1 Ep Ex Sx Fp. destruct Bs as [Bs Bs2].
    split; [split; [exact Fs|change (bpow radix2 5) with 32; apply Rabs_le; lra]|]. split; [split|].
    - assert (- / 8000 * val T <= val sp * val T) by (apply Rmult_le_compat_r; lra). lra.
    - assert (val sp * val T <= (val k * D + / 8000) * val T) by (apply Rmult_le_compat_r; lra).
      assert (val k * val T <= 1) by (apply Rle_trans with (501 * (/ 999)); [apply Rmult_le_compat; lra|lra]).
      assert (D * (val k * val T) <= D * 1) by (apply Rmult_le_compat_l; lra). lra.
    - apply Rle_trans with (val A * val T); [apply Rmult_le_compat_r; lra|apply Rmult_le_compat_l; lra].
  Qed.
  (** The step along a unit vector. *)
  Lemma unit_step : forall u l na, vsize 1 u -> Rabs (rnorm2 u - 1) <= 64 * eps -> vfinite l -> rnorm2 l <= val V * val V - bpow radix2 (-36) ->
    b64_fin na = true -> 0 <= val na ->
    let dist := b64_plus mode_NE (b64_opp (v_dot float u l)) (b64_sqrt mode_NE (radicand u l)) in
    let sp := f_min float na (f_min float (b64_mult mode_NE (b64_div mode_NE J A) dist) A) in
    let out := v_add float l (v_scale float (v_scale float u sp) (DELTA_T float)) in
    vfinite out /\ rnorm2 out <= val V * val V + / 65536 /\ rdist2 out l <= (val A / 1000 + / 1000000000) * (val A / 1000 + / 1000000000).
  Proof.
    intros u l na Su Nu Hl Hn Fn Pn dist sp out. destruct (distance_near u l Su Nu Hl Hn) as (Sx & Ex & s6 & ss). fold dist in Sx, Ex. clearbody dist.
    set (s := sqrt _) in *. clearbody s.
    assert (D0 : 0 <= - rdot u l + s).
    { pose proof (bpow_gt_0 radix2 (-36)) as P. assert (rdot u l * rdot u l <= s * s) by lra. clear - s6 H. destruct (Rle_lt_dec 0 (rdot u l)); nra. }
    destruct (length_bounds na dist _ Fn Pn Sx D0 Ex) as (Ssp & Bt & Bu). fold sp in Ssp, Bt, Bu. clearbody sp. clear Sx Ex Fn Pn dist na.
    assert (Sl : vsize 2 l).
    { apply comp_size with (M := val V); [exact Hl| |]; [|change (bpow radix2 2) with 4; destruct HV as [_ BV]; lra].
      pose proof (bpow_gt_0 radix2 (-36)). lra. }
    destruct Hl as (L1 & L2 & L3). destruct Sl as (SL1 & SL2 & SL3). destruct Su as (U1 & U2 & U3).
    destruct (move_near sp _ _ Ssp SL1 U1) as [FX OX]. destruct (move_near sp _ _ Ssp SL2 U2) as [FY OY]. destruct (move_near sp _ _ Ssp SL3 U3) as [FZ OZ].
    assert (Hn' : rnorm2 l <= val V * val V) by (pose proof (bpow_gt_0 radix2 (-36)); lra).
    pose proof (sphere_step (rnorm2 l) (rdot u l) (rnorm2 u) (val V * val V) (val sp * val (DELTA_T float)) (/ 7000000) (- rdot u l + s) s
      (proj1 s6) ss eq_refl Hn' ltac:(lra) Bt s6) as H.
    split; [split; [exact FX|split; [exact FY|exact FZ]]|].
    refine (final_bounds (val (vx _ l)) (val (vy _ l)) (val (vz _ l)) (val (vx _ u)) (val (vy _ u)) (val (vz _ u)) _ _ _ (val sp * val (DELTA_T float)) (rnorm2 u) (val V * val V) (val A)
      (proj2 SL1) (proj2 SL2) (proj2 SL3) (proj2 U1) (proj2 U2) (proj2 U3) OX OY OZ eq_refl Nu (proj2 HA) (conj (proj1 Bt) Bu) H).
  Qed.
  Local Strategy opaque [b64_plus b64_mult b64_minus b64_div b64_sqrt b64_opp v_dot v_norm2 v_norm v_normalize f_min f_gt limited_acceleration].
  Lemma step_bounds : forall v l la, vsize 10 la -> vfinite l -> rnorm2 l <= val V * val V - bpow radix2 (-36) ->
    let out := limit_rate_single_cartesian_velocity float V A J v l la in
    vfinite out /\ rnorm2 out <= val V * val V + / 65536 /\ rdist2 out l <= (val A / 1000 + / 1000000000) * (val A / 1000 + / 1000000000).
  Proof.
    intros v l la Hla Hl Hn out. unfold out, limit_rate_single_cartesian_velocity. clear out.
    pose proof (acc_used J HJ v l la Hla) as U. cbv zeta in U. set (acc := limited_acceleration float J v l la) in *. clearbody acc.
    destruct (f_gt float (v_norm float acc) (NORM_EPS float)).
    - destruct (U eq_refl) as (Fn & Ln & Su & Nu). assert (Pn : 0 <= val (v_norm float acc)) by (pose proof (bpow_gt_0 radix2 (-52)); lra).
      pose proof (unit_step (v_normalize float acc) l (v_norm float acc) Su Nu Hl Hn Fn Pn) as G.
      set (u := v_normalize float acc) in *. set (na := v_norm float acc) in *. clearbody u na. unfold radicand in G. cbv zeta in G.
      set (d := v_dot float u l) in *. set (n2 := v_norm2 float l) in *. clearbody d n2.
      unfold f_sqr. cbn [f_add f_sub f_mul f_neg f_div f_sqrt float]. exact G.
    - pose proof (bpow_gt_0 radix2 (-36)). split; [exact Hl|]. split; [lra|]. unfold rdist2. destruct HA as [_ BA]. clear - BA. nra.
  Qed.
End Move.
