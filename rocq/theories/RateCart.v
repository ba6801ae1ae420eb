(** The Cartesian velocity limiter in ideal arithmetic. *)
From Coq Require Import List ZArith Bool Reals Lra Lia Psatz.
From Verif Require Import NumOps NumReal RateModel RateReal.
Import ListNotations.
Open Scope R_scope.

Notation rvec := (vec real).
Definition dot (a b : rvec) : R := vx _ a * vx _ b + vy _ a * vy _ b + vz _ a * vz _ b.
Definition len (a : rvec) : R := sqrt (dot a a).
Definition diff (a b : rvec) : rvec := v_sub real a b.

Lemma dot_pos : forall a, 0 <= dot a a.
Proof. intros [x y z]. unfold dot. cbn. nra. Qed.
Lemma len_pos : forall a, 0 <= len a.
Proof. intros. apply sqrt_pos. Qed.
Lemma len_sqr : forall a, len a * len a = dot a a.
Proof. intros. apply sqrt_sqrt, dot_pos. Qed.
Lemma len_le : forall a m, 0 <= m -> dot a a <= m * m -> len a <= m.
Proof. intros a m Hm H. unfold len. rewrite <- (sqrt_square m Hm). apply sqrt_le_1_alt. exact H. Qed.
Lemma dot_le : forall a m, 0 <= m -> len a <= m -> dot a a <= m * m.
Proof. intros a m Hm H. rewrite <- len_sqr. pose proof (len_pos a). nra. Qed.

(** One step in direction of the acceleration [a]: where the limiter goes. *)
Definition along (lv a : rvec) (s : R) : rvec :=
  Vec real (vx _ lv + vx _ a / len a * s * T) (vy _ lv + vy _ a / len a * s * T) (vz _ lv + vz _ a / len a * s * T).
Lemma norm_eps_pos : 0 < NORM_EPS real.
Proof. unfold NORM_EPS, f_lit. cbn. apply Rdiv_lt_0_compat; lra. Qed.

Definition distance (V : R) (lv a : rvec) : R :=
  let p := dot (v_normalize real a) lv in - p + sqrt (p * p - dot lv lv + V * V).
Lemma single_cases : forall V A J v lv la,
  let r := limit_rate_single_cartesian_velocity real V A J v lv la in
  let a := limited_acceleration real J v lv la in
  (len a <= NORM_EPS real /\ r = lv) \/
  (NORM_EPS real < len a /\ r = along lv a (Rmin (len a) (Rmin ((J / A) * distance V lv a) A))).
Proof.
  intros V A J v lv la r a. unfold r, limit_rate_single_cartesian_velocity. fold a.
  unfold f_gt. cbn [f_lt real]. change (v_norm real a) with (len a).
  destruct (Rlt_dec (NORM_EPS real) (len a)) as [H|H].
  - right. split; [exact H|]. reflexivity.
  - left. split; [lra|reflexivity].
Qed.

Lemma unit_vec : forall a, v_normalize real a = Vec real (vx _ a / len a) (vy _ a / len a) (vz _ a / len a).
Proof. reflexivity. Qed.
Lemma unit_dot : forall a, 0 < len a -> dot (v_normalize real a) (v_normalize real a) = 1.
Proof.
  intros a H. pose proof (len_sqr a) as E. apply Rmult_eq_reg_r with (len a * len a); [|nra].
  transitivity (dot a a); [|lra]. rewrite unit_vec. unfold dot. cbn [vx vy vz]. field. lra.
Qed.
Lemma along_dot : forall lv a s, 0 < len a ->
  dot (along lv a s) (along lv a s) =
  dot lv lv + 2 * (s * T) * dot (v_normalize real a) lv + s * T * (s * T).
Proof.
  intros lv a s H. pose proof (unit_dot a H) as U. rewrite unit_vec in *. unfold along, dot in *. cbn [vx vy vz] in *.
  set (x := vx _ a / len a) in *. set (y := vy _ a / len a) in *. set (z := vz _ a / len a) in *. clearbody x y z.
  destruct lv as [p q r]. cbn [vx vy vz]. set (k := s * T). replace (x * s * T) with (x * k) by (unfold k; ring).
  replace (y * s * T) with (y * k) by (unfold k; ring). replace (z * s * T) with (z * k) by (unfold k; ring).
  replace ((p + x * k) * (p + x * k) + (q + y * k) * (q + y * k) + (r + z * k) * (r + z * k))
    with (p * p + q * q + r * r + 2 * k * (x * p + y * q + z * r) + k * k * (x * x + y * y + z * z)) by ring.
  rewrite U. ring.
Qed.
Lemma along_diff : forall lv a s, 0 < len a -> 0 <= s -> len (diff (along lv a s) lv) = s * T.
Proof.
  intros lv a s H Hs. pose proof (unit_dot a H) as U. pose proof T_pos as HT. unfold len.
  replace (dot (diff (along lv a s) lv) (diff (along lv a s) lv)) with (s * T * (s * T)).
  - apply sqrt_square. nra.
  - rewrite unit_vec in *. unfold diff, v_sub, v_map2, along, dot in *. cbn [vx vy vz f_sub real] in *.
    set (x := vx _ a / len a) in *. set (y := vy _ a / len a) in *. set (z := vz _ a / len a) in *. clearbody x y z.
    rewrite <- (Rmult_1_r (s * T * (s * T))), <- U. ring.
Qed.

Section Cart.
  Variables V A J : R.
  Hypothesis L : limits V A J.
  Let K := J / A.
  Lemma distance_pos : forall lv a, len lv <= V -> 0 <= distance V lv a.
  Proof.
    intros lv a H. destruct L as (HV & _). unfold distance. set (p := dot (v_normalize real a) lv). clearbody p.
    pose proof (dot_le lv V ltac:(lra) H) as H1.
    assert (Rabs p <= sqrt (p * p - dot lv lv + V * V)).
    { rewrite <- sqrt_Rsqr_abs. apply sqrt_le_1_alt. unfold Rsqr. lra. }
    pose proof (Rle_abs p). lra.
  Qed.
  Lemma within : forall p q d t, 0 <= t <= d -> q <= V * V -> (d + p) * (d + p) = p * p - q + V * V ->
    q + 2 * t * p + t * t <= V * V.
  Proof.
    intros p q d t [T0 T1] Hq E. assert (E' : d * (d + 2 * p) = V * V - q) by nra.
    destruct (Rle_dec 0 (d + 2 * p)) as [H|H]; nra.
  Qed.
  Lemma single_velocity : forall v lv la, len lv <= V ->
    len (limit_rate_single_cartesian_velocity real V A J v lv la) <= V.
  Proof.
    intros v lv la H. destruct (single_cases V A J v lv la) as [[_ E]|[Hn E]]; rewrite E; [exact H|].
    set (a := limited_acceleration real J v lv la) in *. clearbody a. pose proof norm_eps_pos as He.
    destruct (limits_ratio V A J L) as (K1 & K2 & K3). fold K in K1, K2, K3. fold K in E |- *.
    pose proof (distance_pos lv a H) as Hd. pose proof T_pos as HT. destruct L as (HV & HA & HJ & HL).
    set (s := Rmin (len a) (Rmin (K * distance V lv a) A)).
    assert (Hs : 0 <= s) by (unfold s; repeat apply Rmin_glb; nra).
    assert (Hs2 : s <= K * distance V lv a).
    { unfold s. eapply Rle_trans; [apply Rmin_r|apply Rmin_l]. }
    clearbody s. apply len_le; [lra|]. rewrite along_dot by lra.
    apply (within _ _ (distance V lv a)).
    - split; [nra|]. assert (K * T * distance V lv a <= distance V lv a) by nra. nra.
    - apply dot_le; [lra|exact H].
    - unfold distance. set (p := dot (v_normalize real a) lv). clearbody p.
      replace (- p + sqrt (p * p - dot lv lv + V * V) + p) with (sqrt (p * p - dot lv lv + V * V)) by ring.
      apply sqrt_sqrt. pose proof (dot_le lv V ltac:(lra) H). nra.
  Qed.
  Lemma single_acceleration : forall v lv la, len lv <= V ->
    len (diff (limit_rate_single_cartesian_velocity real V A J v lv la) lv) <= A * T.
  Proof.
    intros v lv la H. pose proof T_pos as HT. destruct L as (HV & HA & HJ & HL).
    destruct (single_cases V A J v lv la) as [[_ E]|[Hn E]]; rewrite E.
    - unfold len. replace (dot (diff lv lv) (diff lv lv)) with 0 by (unfold dot, diff, v_sub, v_map2; cbn; ring).
      rewrite sqrt_0. nra.
    - set (a := limited_acceleration real J v lv la) in *. clearbody a. pose proof norm_eps_pos as He.
      pose proof (distance_pos lv a H) as Hd. destruct (limits_ratio V A J L) as (K1 & _ & _).
      rewrite along_diff; [| lra|repeat apply Rmin_glb; nra].
      apply Rmult_le_compat_r; [lra|]. eapply Rle_trans; [apply Rmin_r|apply Rmin_r].
  Qed.

  (** Requests which are left alone. *)
  Lemma single_transparent : forall v lv la a : rvec,
    a = Vec real ((vx _ v - vx _ lv) / T) ((vy _ v - vy _ lv) / T) ((vz _ v - vz _ lv) / T) ->
    NORM_EPS real < len (diff a la) / T -> len (diff a la) <= J * T ->
    NORM_EPS real < len a -> len a <= A -> len a <= K * distance V lv a ->
    limit_rate_single_cartesian_velocity real V A J v lv la = v.
  Proof.
    intros v lv la a Ea Hj1 Hj2 Ha1 Ha2 Ha3. pose proof T_pos as HT. pose proof norm_eps_pos as He.
    set (g := diff a la) in *.
    set (jv := v_unscale real (v_sub real (v_unscale real (v_sub real v lv) (DELTA_T real)) la) (DELTA_T real)).
    assert (Ej : jv = Vec real (vx _ g / T) (vy _ g / T) (vz _ g / T)).
    { unfold jv, g. subst a. destruct v, lv, la. reflexivity. }
    assert (Lj : len jv = len g / T).
    { rewrite Ej. unfold len. replace (dot _ _) with (dot g g / (T * T)) by (unfold dot; cbn; field; lra).
      rewrite sqrt_div_alt by nra. rewrite sqrt_square by lra. reflexivity. }
    assert (Lg : 0 < len g).
    { apply Rmult_lt_reg_r with (/ T); [apply Rinv_0_lt_compat; lra|]. unfold Rdiv in Hj1. lra. }
    assert (Lim : limited_acceleration real J v lv la = a).
    { unfold limited_acceleration. fold jv. change (v_norm real jv) with (len jv). unfold f_gt. cbn [f_lt real].
      destruct (Rlt_dec _ _) as [_|N]; [|rewrite Lj in N; lra].
      assert (Hm : len jv <= J).
      { rewrite Lj. apply Rmult_le_reg_r with T; [lra|]. unfold Rdiv. rewrite Rmult_assoc, Rinv_l by lra. lra. }
      pose proof (len_pos jv) as P0. cbn [f_min f_max f_neg real].
      rewrite Rmin_left by exact Hm. rewrite Rmax_left by lra.
      assert (P1 : 0 < len jv) by (rewrite Lj; lra).
      unfold v_add, v_map2, v_scale, v_map, v_normalize, v_unscale. change (v_norm real jv) with (len jv).
      cbn [f_add f_mul f_div real]. rewrite delta_real.
      assert (C : forall p q, p + q / len jv * len jv * T = p + q * T) by (intros; field; lra).
      cbn [v_map vx vy vz]. rewrite !C, Ej. unfold g, diff, v_sub, v_map2. cbn [vx vy vz f_sub real].
      destruct a as [x y z], la as [x' y' z']. cbn [vx vy vz]. f_equal; field; lra. }
    destruct (single_cases V A J v lv la) as [[Hn _]|[_ E]]; rewrite Lim in *; [lra|]. rewrite E.
    fold K. rewrite (Rmin_left (len a)) by (apply Rmin_glb; lra).
    assert (C : forall p q, p + q / len a * len a * T = p + q * T) by (intros; field; lra).
    unfold along. rewrite !C. rewrite Ea. destruct v, lv. cbn. f_equal; field; lra.
  Qed.
End Cart.
