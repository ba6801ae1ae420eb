(** Magnitudes in IEEE-754 double arithmetic: no overflow as long as the operands are moderate. *)
From Coq Require Import List ZArith NArith Bool Reals Lra Lia.
From Flocq Require Import Core IEEE754.BinarySingleNaN IEEE754.Binary IEEE754.Bits.
From Verif Require Import NumOps NumFloat FloatFacts RateModel.
Import ListNotations.
Open Scope R_scope.

(** Finite and of magnitude at most 2^e. *)
Definition size (e : Z) (x : binary64) : Prop := b64_fin x = true /\ Rabs (val x) <= bpow radix2 e.
(** NaN or of this size. *)
Definition nan_or (e : Z) (x : binary64) : Prop := b64_nan x = true \/ size e x.
Lemma size_le : forall e e' x, size e x -> (e <= e')%Z -> size e' x.
Proof. intros e e' x [F V] H. split; [exact F|]. eapply Rle_trans; [exact V|]. apply bpow_le, H. Qed.
Lemma size_fin : forall e x, size e x -> b64_fin x = true.
Proof. intros e x [F _]. exact F. Qed.
Lemma double : forall e, bpow radix2 e + bpow radix2 e = bpow radix2 (e + 1).
Proof. intros e. rewrite bpow_plus. change (bpow radix2 1) with 2. ring. Qed.
Lemma size_add : forall e x y, size e x -> size e y -> (-1074 <= e < 1020)%Z -> size (e + 1) (b64_plus mode_NE x y).
Proof.
  intros e x y [Fx Vx] [Fy Vy] He.
  assert (B : Rabs (val x + val y) <= bpow radix2 (e + 1)) by (rewrite <- double; eapply Rle_trans; [apply Rabs_triang|lra]).
  destruct (plus_ok x y (e + 1) Fx Fy ltac:(lia) B) as [F V]. split; [exact F|]. rewrite V. apply rnd_abs_le; [lia|exact B].
Qed.
Lemma size_sub : forall e x y, size e x -> size e y -> (-1074 <= e < 1020)%Z -> size (e + 1) (b64_minus mode_NE x y).
Proof.
  intros e x y [Fx Vx] [Fy Vy] He.
  assert (B : Rabs (val x - val y) <= bpow radix2 (e + 1)).
  { rewrite <- double. unfold Rminus. eapply Rle_trans; [apply Rabs_triang|]. rewrite Rabs_Ropp. lra. }
  destruct (minus_ok x y (e + 1) Fx Fy ltac:(lia) B) as [F V]. split; [exact F|]. rewrite V. apply rnd_abs_le; [lia|exact B].
Qed.
Lemma size_mul : forall e f x y, size e x -> size f y -> (-1074 <= e + f < 1024)%Z -> size (e + f) (b64_mult mode_NE x y).
Proof.
  intros e f x y [Fx Vx] [Fy Vy] He.
  assert (B : Rabs (val x * val y) <= bpow radix2 (e + f)).
  { rewrite Rabs_mult, bpow_plus. apply Rmult_le_compat; try apply Rabs_pos; assumption. }
  destruct (mult_ok x y (e + f) Fx Fy He B) as [F V]. split; [exact F|]. rewrite V. apply rnd_abs_le; [lia|exact B].
Qed.
Lemma size_div : forall e f x y, size e x -> b64_fin y = true -> bpow radix2 f <= Rabs (val y) -> (-1074 <= e - f < 1024)%Z ->
  size (e - f) (b64_div mode_NE x y).
Proof.
  intros e f x y [Fx Vx] Fy Vy He. pose proof (bpow_gt_0 radix2 f) as P.
  assert (N : val y <> 0) by (intros E; rewrite E, Rabs_R0 in Vy; lra).
  assert (B : Rabs (val x / val y) <= bpow radix2 (e - f)).
  { unfold Rdiv, Zminus. rewrite Rabs_mult, Rabs_inv, bpow_plus, bpow_opp. apply Rmult_le_compat; [apply Rabs_pos| |exact Vx|].
    - apply Rlt_le, Rinv_0_lt_compat. lra.
    - apply Rinv_le; assumption. }
  destruct (div_ok x y (e - f) Fx Fy N He B) as [F V]. split; [exact F|]. rewrite V. apply rnd_abs_le; [lia|exact B].
Qed.
Lemma size_opp : forall e x, size e x -> size e (b64_opp x).
Proof. intros e x [F V]. split; [rewrite opp_fin; exact F|]. rewrite opp_val, Rabs_Ropp. exact V. Qed.
(** Square roots of sums of squares. *)
Lemma rnd_pos : forall x, 0 <= x -> 0 <= rnd x.
Proof. intros x H. rewrite <- rnd_0. apply rnd_le, H. Qed.
Lemma sqrt_of : forall x, b64_fin x = true -> 0 <= val x ->
  b64_fin (b64_sqrt mode_NE x) = true /\ val (b64_sqrt mode_NE x) = rnd (sqrt (val x)).
Proof.
  intros x F H. pose proof (Binary.Bsqrt_correct 53 1024 eq_refl eq_refl unop_nan_pl64 mode_NE x) as (C1 & C2 & _).
  split; [|exact C1]. unfold b64_fin, b64_sqrt. rewrite C2. destruct x as [s|s|s pl e|[|] m e B]; try reflexivity; try discriminate F.
  exfalso. assert (N : F2R (Float radix2 (Z.neg m) e) < 0) by (apply F2R_lt_0; reflexivity).
  change (val (Binary.B754_finite 53 1024 true m e B)) with (F2R (Float radix2 (Z.neg m) e)) in H. lra.
Qed.
Lemma sqrt_size : forall e x, (0 <= e < 1000)%Z -> size e x -> 0 <= val x -> size e (b64_sqrt mode_NE x) /\ 0 <= val (b64_sqrt mode_NE x).
Proof.
  intros e x He [F V] H. destruct (sqrt_of x F H) as [F' V'].
  assert (O1 : 1 <= bpow radix2 e) by (change 1 with (bpow radix2 0); apply bpow_le; lia).
  assert (S : sqrt (val x) <= bpow radix2 e).
  { rewrite Rabs_pos_eq in V by exact H. destruct (Rle_lt_dec (val x) 1) as [L|L].
    - apply Rle_trans with 1; [|exact O1]. rewrite <- sqrt_1. apply sqrt_le_1_alt, L.
    - apply Rle_trans with (val x); [|exact V]. rewrite <- (sqrt_square (val x)) at 2 by lra. apply sqrt_le_1_alt. nra. }
  split; [split; [exact F'|]|]; rewrite V'.
  - apply rnd_abs_le; [lia|]. rewrite Rabs_pos_eq by apply sqrt_pos. exact S.
  - apply rnd_pos, sqrt_pos.
Qed.
Lemma sqrt_nan : forall x, b64_fin x = true -> val x < 0 -> b64_nan (b64_sqrt mode_NE x) = true.
Proof.
  intros [s|s|s pl e|[|] m e B] F H; try discriminate F; try (cbn in H; lra); [reflexivity|].
  exfalso. assert (N : 0 < F2R (Float radix2 (Z.pos m) e)) by (apply F2R_gt_0; reflexivity).
  change (val (Binary.B754_finite 53 1024 false m e B)) with (F2R (Float radix2 (Z.pos m) e)) in H. lra.
Qed.
Lemma sqrt_any : forall e x, (0 <= e < 1000)%Z -> size e x -> nan_or e (b64_sqrt mode_NE x).
Proof.
  intros e x He S. destruct (Rle_lt_dec 0 (val x)) as [H|H]; [right; apply sqrt_size; assumption|left; apply sqrt_nan; [apply S|exact H]].
Qed.
Lemma plus_any : forall e x y, size e x -> nan_or e y -> (-1074 <= e < 1020)%Z -> nan_or (e + 1) (b64_plus mode_NE x y).
Proof.
  intros e x y Sx [N|Sy] He; [left|right; apply size_add; assumption].
  destruct y as [s|s|s pl f|s m f B]; try discriminate N. destruct Sx as [F _]. destruct x as [s'|s'|s' pl' f'|s' m' f' B']; try discriminate F; reflexivity.
Qed.
Lemma mul_any : forall e f x y, size e x -> nan_or f y -> (-1074 <= e + f < 1024)%Z -> nan_or (e + f) (b64_mult mode_NE x y).
Proof.
  intros e f x y Sx [N|Sy] He; [left|right; apply size_mul; assumption].
  destruct y as [s|s|s pl g|s m g B]; try discriminate N. destruct Sx as [F _]. destruct x as [s'|s'|s' pl' f'|s' m' f' B']; try discriminate F; reflexivity.
Qed.
Lemma min_any : forall e x y, nan_or e x -> size e y -> size e (f_min float x y).
Proof.
  intros e x y Hx Hy. cbn [f_min float]. destruct (b64_nan x) eqn:N; [exact Hy|]. destruct Hx as [H|H]; [congruence|].
  destruct (b64_nan y); [exact H|]. destruct (b64_lt y x); assumption.
Qed.
Lemma max_size : forall e x y, size e x -> size e y -> size e (f_max float x y).
Proof. intros e x y Hx Hy. cbn [f_max float]. destruct (b64_nan x); [exact Hy|]. destruct (b64_nan y); [exact Hx|]. destruct (b64_lt x y); assumption. Qed.

(** * Vectors *)
Definition vsize (e : Z) (v : vec float) : Prop := size e (vx _ v) /\ size e (vy _ v) /\ size e (vz _ v).
Lemma vsize_le : forall e e' v, vsize e v -> (e <= e')%Z -> vsize e' v.
Proof. intros e e' v (X & Y & Z) H. repeat split; try (eapply size_le; [eassumption|exact H]); eapply size_fin; eassumption. Qed.
Lemma v_add_size : forall e a b, vsize e a -> vsize e b -> (-1074 <= e < 1020)%Z -> vsize (e + 1) (v_add float a b).
Proof. intros e a b (A1 & A2 & A3) (B1 & B2 & B3) H. unfold v_add, v_map2, vsize. cbn [vx vy vz f_add float]. split; [|split]; apply size_add; assumption. Qed.
Lemma v_sub_size : forall e a b, vsize e a -> vsize e b -> (-1074 <= e < 1020)%Z -> vsize (e + 1) (v_sub float a b).
Proof. intros e a b (A1 & A2 & A3) (B1 & B2 & B3) H. unfold v_sub, v_map2, vsize. cbn [vx vy vz f_sub float]. split; [|split]; apply size_sub; assumption. Qed.
Lemma v_scale_size : forall e f a k, vsize e a -> size f k -> (-1074 <= e + f < 1024)%Z -> vsize (e + f) (v_scale float a k).
Proof. intros e f a k (A1 & A2 & A3) B H. unfold v_scale, v_map, vsize. cbn [vx vy vz f_mul float]. split; [|split]; apply size_mul; assumption. Qed.
Lemma v_unscale_size : forall e f a k, vsize e a -> b64_fin k = true -> bpow radix2 f <= Rabs (val k) -> (-1074 <= e - f < 1024)%Z ->
  vsize (e - f) (v_unscale float a k).
Proof. intros e f a k (A1 & A2 & A3) F B H. unfold v_unscale, v_map, vsize. cbn [vx vy vz f_div float]. split; [|split]; apply size_div; assumption. Qed.
Lemma v_dot_size : forall e f a b, vsize e a -> vsize f b -> (-1074 <= e + f < 1000)%Z -> size (e + f + 2) (v_dot float a b).
Proof.
  intros e f a b (A1 & A2 & A3) (B1 & B2 & B3) H. unfold v_dot. cbn [f_add f_mul float].
  replace (e + f + 2)%Z with (e + f + 1 + 1)%Z by lia. apply size_add; [apply size_add| |]; try lia; try (apply size_mul; [assumption|assumption|lia]).
  eapply size_le; [apply size_mul; [exact A3|exact B3|lia]|lia].
Qed.
Lemma square_pos : forall e x, size e x -> (-500 <= e < 500)%Z -> 0 <= val (b64_mult mode_NE x x).
Proof.
  intros e x S H. pose proof S as [F V]. destruct (mult_ok x x (e + e) F F) as [_ ->]; [lia| |apply rnd_pos; nra].
  rewrite Rabs_mult, bpow_plus. apply Rmult_le_compat; try apply Rabs_pos; assumption.
Qed.
Lemma v_norm_size : forall e a, vsize e a -> (0 <= e < 400)%Z -> size (2 * e + 2) (v_norm float a) /\ 0 <= val (v_norm float a).
Proof.
  intros e a Ha He. pose proof (v_dot_size e e a a Ha Ha ltac:(lia)) as Sd. unfold v_norm, v_norm2. cbn [f_sqrt float].
  apply sqrt_size; [lia|eapply size_le; [exact Sd|lia]|]. destruct Ha as (A1 & A2 & A3). unfold v_dot. cbn [f_add f_mul float].
  pose proof (size_mul e e _ _ A1 A1 ltac:(lia)) as M1. pose proof (size_mul e e _ _ A2 A2 ltac:(lia)) as M2. pose proof (size_mul e e _ _ A3 A3 ltac:(lia)) as M3.
  pose proof (square_pos e _ A1 ltac:(lia)) as P1. pose proof (square_pos e _ A2 ltac:(lia)) as P2. pose proof (square_pos e _ A3 ltac:(lia)) as P3.
  set (x := b64_mult mode_NE (vx _ a) (vx _ a)) in *. set (y := b64_mult mode_NE (vy _ a) (vy _ a)) in *. set (z := b64_mult mode_NE (vz _ a) (vz _ a)) in *.
  clearbody x y z. pose proof (size_add _ _ _ M1 M2 ltac:(lia)) as Sxy.
  assert (Pos : forall f u v, size f u -> size f v -> (0 <= f < 1000)%Z -> 0 <= val u -> 0 <= val v -> 0 <= val (b64_plus mode_NE u v)).
  { intros f u v [Fu Vu] [Fv Vv] Hf Pu Pv. destruct (plus_ok u v (f + 1) Fu Fv) as [_ ->]; [lia| |apply rnd_pos; lra].
    rewrite <- double. eapply Rle_trans; [apply Rabs_triang|lra]. }
  apply (Pos (e + e + 1)%Z); try lia; try assumption; [eapply size_le; [exact M3|lia]|].
  apply (Pos (e + e)%Z); try lia; assumption.
Qed.
Lemma norm_eps : b64_fin (NORM_EPS float) = true /\ val (NORM_EPS float) = bpow radix2 (-52).
Proof.
  destruct (val_finite (NORM_EPS float) false 4503599627370496 (-104)) as [F V]; [vm_compute; reflexivity|]. split; [exact F|].
  rewrite V. cbn [cond_Zopp]. change (IZR 4503599627370496) with (bpow radix2 52). rewrite <- bpow_plus. reflexivity.
Qed.
Lemma delta_size : size (-9) (DELTA_T float) /\ bpow radix2 (-10) <= Rabs (val (DELTA_T float)).
Proof.
  destruct (val_finite (DELTA_T float) false 4611686018427388 (-62)) as [F V]; [vm_compute; reflexivity|]. unfold size. rewrite V. cbn [cond_Zopp].
  change (bpow radix2 (-62)) with (/ 4611686018427387904). change (bpow radix2 (-9)) with (/ 512). change (bpow radix2 (-10)) with (/ 1024).
  rewrite Rabs_pos_eq by lra. repeat split; try exact F; lra.
Qed.
Lemma over_eps : forall e x, size e x -> 0 <= val x -> f_gt float x (NORM_EPS float) = true -> bpow radix2 (-52) <= Rabs (val x).
Proof.
  intros e x [F _] P H. destruct norm_eps as [Fn Vn]. unfold f_gt in H. cbn [f_lt float] in H. rewrite lt_fin in H by assumption.
  rewrite Vn in H. rewrite Rabs_pos_eq by exact P. destruct (Rlt_bool_spec (bpow radix2 (-52)) (val x)); [lra|discriminate H].
Qed.

(** * The Cartesian velocity limiter *)
Section Twist.
  Variables V A J : binary64.
  Hypothesis SV : size 2 V.
  Hypothesis SA : size 5 A.
  Hypothesis NA : bpow radix2 0 <= Rabs (val A).
  Hypothesis SJ : size 14 J.
  Ltac bound := first [eassumption | lia].
  Lemma acceleration_size : forall v lv la, vsize 11 v -> vsize 10 lv -> vsize 10 la -> vsize 154 (limited_acceleration float J v lv la).
  Proof.
    intros v lv la Hv Hl Ha. unfold limited_acceleration. destruct delta_size as [T1 T2].
    pose proof (v_sub_size 11 v lv Hv (vsize_le _ 11 _ Hl ltac:(lia)) ltac:(lia)) as D1.
    pose proof (v_unscale_size (11 + 1) (-10) _ _ D1 (size_fin _ _ T1) T2 ltac:(lia)) as D2.
    pose proof (v_sub_size 22 _ la D2 (vsize_le _ 22 _ Ha ltac:(lia)) ltac:(lia)) as D3.
    pose proof (v_unscale_size (22 + 1) (-10) _ _ D3 (size_fin _ _ T1) T2 ltac:(lia)) as D4.
    set (jerk := v_unscale float _ (DELTA_T float)) in *. set (j2 := v_unscale float (v_sub float jerk la) (DELTA_T float)) in *. clearbody j2.
    change (23 - -10)%Z with 33%Z in D4. destruct (v_norm_size 33 j2) as [N1 N2]; [exact D4|lia|].
    destruct (f_gt float (v_norm float j2) (NORM_EPS float)) eqn:G; [|exact (vsize_le _ 154 _ Ha ltac:(lia))].
    pose proof (over_eps _ _ N1 N2 G) as N3.
    pose proof (v_unscale_size 33 (-52) j2 (v_norm float j2) D4 (size_fin _ _ N1) N3 ltac:(lia)) as U1. fold (v_normalize float j2) in U1.
    assert (M : size 68 (f_max float (f_min float (v_norm float j2) J) (f_neg float J))).
    { apply max_size; [apply min_any; [right; exact N1|]|cbn [f_neg float]; apply size_opp]; exact (size_le _ 68 _ SJ ltac:(lia)). }
    pose proof (v_scale_size _ _ _ _ U1 M ltac:(lia)) as S1. pose proof (v_scale_size _ _ _ _ S1 (size_le _ 0 _ T1 ltac:(lia)) ltac:(lia)) as S2.
    eapply vsize_le; [apply v_add_size; [exact (vsize_le _ 153 _ Ha ltac:(lia))|eapply vsize_le; [exact S2|lia]|lia]|lia].
  Qed.
  Lemma twist_size : forall v lv la, vsize 11 v -> vsize 10 lv -> vsize 10 la ->
    vsize 900 (limit_rate_single_cartesian_velocity float V A J v lv la).
  Proof.
    intros v lv la Hv Hl Ha. pose proof (acceleration_size v lv la Hv Hl Ha) as Sa. unfold limit_rate_single_cartesian_velocity.
    set (acc := limited_acceleration float J v lv la) in *. clearbody acc. destruct delta_size as [T1 T2].
    destruct (v_norm_size 154 acc) as [N1 N2]; [exact Sa|lia|].
    destruct (f_gt float (v_norm float acc) (NORM_EPS float)) eqn:G; [|exact (vsize_le _ 900 _ Hl ltac:(lia))].
    pose proof (over_eps _ _ N1 N2 G) as N3.
    pose proof (v_unscale_size 154 (-52) acc (v_norm float acc) Sa (size_fin _ _ N1) N3 ltac:(lia)) as U1. fold (v_normalize float acc) in U1.
    set (u := v_normalize float acc) in *. clearbody u.
    pose proof (v_dot_size _ _ _ _ U1 Hl ltac:(lia)) as Dt. set (d := v_dot float u lv) in *. clearbody d.
    pose proof (v_dot_size _ _ _ _ Hl Hl ltac:(lia)) as Dl. fold (v_norm2 float lv) in Dl. set (n2 := v_norm2 float lv) in *. clearbody n2.
    unfold f_sqr. cbn [f_add f_sub f_mul f_neg f_div f_sqrt float].
    change (154 - -52 + 10 + 2)%Z with 218%Z in Dt. change (10 + 10 + 2)%Z with 22%Z in Dl.
    pose proof (size_mul _ _ _ _ Dt Dt ltac:(lia)) as Dd. pose proof (size_mul _ _ _ _ SV SV ltac:(lia)) as Vd.
    change (218 + 218)%Z with 436%Z in Dd.
    pose proof (size_sub _ _ _ Dd (size_le _ 436 _ Dl ltac:(lia)) ltac:(lia)) as R1.
    pose proof (size_add _ _ _ R1 (size_le _ (436 + 1) _ Vd ltac:(lia)) ltac:(lia)) as R2.
    pose proof (sqrt_any (436 + 1 + 1) _ ltac:(lia) R2) as R3.
    pose proof (plus_any _ _ _ (size_le _ (436 + 1 + 1) _ (size_opp _ _ Dt) ltac:(lia)) R3 ltac:(lia)) as R4.
    pose proof (size_div 14 0 J A SJ (size_fin _ _ SA) NA ltac:(lia)) as K.
    pose proof (mul_any _ _ _ _ K R4 ltac:(lia)) as R5.
    pose proof (min_any _ _ _ R5 (size_le _ (14 - 0 + (436 + 1 + 1 + 1)) _ SA ltac:(lia))) as R6.
    pose proof (min_any _ _ _ (or_intror (size_le _ (14 - 0 + (436 + 1 + 1 + 1)) _ N1 ltac:(lia))) R6) as R7.
    pose proof (v_scale_size _ _ _ _ U1 R7 ltac:(lia)) as S1. pose proof (v_scale_size _ _ _ _ S1 (size_le _ 0 _ T1 ltac:(lia)) ltac:(lia)) as S2.
    eapply vsize_le; [apply v_add_size; [exact (vsize_le _ 800 _ Hl ltac:(lia))|eapply vsize_le; [exact S2|lia]|lia]|lia].
  Qed.
End Twist.
