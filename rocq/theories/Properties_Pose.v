(** C36: which matrices pass the homogeneity check. *)
From Coq Require Import List ZArith NArith Bool Reals Lra Lia Psatz.
From Flocq Require Import Core IEEE754.BinarySingleNaN IEEE754.Binary IEEE754.Bits.
From Verif Require Import Bytes Codec NumOps NumReal NumFloat FloatFacts RateModel ConvertModel WireModel WireSpec RobotModel LoopModel
  RobotSpec RobotMore Outputs TypedModel TypedSpec ConvertFacts TypedProofs RobotScenario Properties_Robot Properties_Convert RateSpec RateReal RateCart Properties_Rate.
Import ListNotations.
Open Scope R_scope.

(** * Specification *)
(** A matrix is a function from column-major indices to numbers. *)
Definition last_row (e : nat -> R) : Prop := e 3%nat = 0 /\ e 7%nat = 0 /\ e 11%nat = 0 /\ e 15%nat = 1.
Definition length3 (a b c : R) : R := sqrt (a * a + b * b + c * c).
(** Every column and every row of the rotation part has length 1 up to [d]. *)
Definition unit_lines (d : R) (e : nat -> R) : Prop :=
  (forall j, (j < 3)%nat -> Rabs (length3 (e (4 * j)%nat) (e (4 * j + 1)%nat) (e (4 * j + 2)%nat) - 1) <= d) /\
  (forall i, (i < 3)%nat -> Rabs (length3 (e i) (e (4 + i)%nat) (e (8 + i)%nat) - 1) <= d).
Definition dot (e : nat -> R) (j k : nat) : R :=
  e (4 * j)%nat * e (4 * k)%nat + e (4 * j + 1)%nat * e (4 * k + 1)%nat + e (4 * j + 2)%nat * e (4 * k + 2)%nat.
Definition det (e : nat -> R) : R :=
  e 0%nat * (e 5%nat * e 10%nat - e 6%nat * e 9%nat) - e 4%nat * (e 1%nat * e 10%nat - e 2%nat * e 9%nat)
  + e 8%nat * (e 1%nat * e 6%nat - e 2%nat * e 5%nat).
(** Rotation and translation. *)
Definition rigid (e : nat -> R) : Prop :=
  last_row e /\ (forall j k, (j < 3)%nat -> (k < 3)%nat -> dot e j k = if Nat.eqb j k then 1 else 0) /\ det e = 1.
(** The entries of an array. *)
Definition entry (t : list R) (i : nat) : R := nth i t 0.
Definition entry64 (t : list binary64) (i : nat) : R := val (nth i t (b64_int 0)).

(** * In exact arithmetic *)
Lemma rows_unit : forall a0 a1 a2 b0 b1 b2 c0 c1 c2 : R,
  a0*a0 + a1*a1 + a2*a2 = 1 -> b0*b0 + b1*b1 + b2*b2 = 1 -> c0*c0 + c1*c1 + c2*c2 = 1 ->
  a0*b0 + a1*b1 + a2*b2 = 0 -> a0*c0 + a1*c1 + a2*c2 = 0 -> b0*c0 + b1*c1 + b2*c2 = 0 ->
  a0*a0 + b0*b0 + c0*c0 = 1.
Proof.
  intros a0 a1 a2 b0 b1 b2 c0 c1 c2 A B C AB AC BC.
  set (d := a0 * (b1*c2 - b2*c1) - b0 * (a1*c2 - a2*c1) + c0 * (a1*b2 - a2*b1)).
  assert (D : d * d = 1).
  { replace (d * d) with
      ((a0*a0 + a1*a1 + a2*a2) * ((b0*b0 + b1*b1 + b2*b2) * (c0*c0 + c1*c1 + c2*c2) - (b0*c0 + b1*c1 + b2*c2) * (b0*c0 + b1*c1 + b2*c2))
       - (a0*b0 + a1*b1 + a2*b2) * ((a0*b0 + a1*b1 + a2*b2) * (c0*c0 + c1*c1 + c2*c2) - (b0*c0 + b1*c1 + b2*c2) * (a0*c0 + a1*c1 + a2*c2))
       + (a0*c0 + a1*c1 + a2*c2) * ((a0*b0 + a1*b1 + a2*b2) * (b0*c0 + b1*c1 + b2*c2) - (b0*b0 + b1*b1 + b2*b2) * (a0*c0 + a1*c1 + a2*c2)))
      by (unfold d; ring).
    rewrite A, B, C, AB, AC, BC. ring. }
  (* v = (A A^T - 1) e_0 is orthogonal to all columns *)
  set (v0 := a0*a0 + b0*b0 + c0*c0 - 1). set (v1 := a1*a0 + b1*b0 + c1*c0). set (v2 := a2*a0 + b2*b0 + c2*c0).
  assert (Va : a0*v0 + a1*v1 + a2*v2 = 0).
  { replace (a0*v0 + a1*v1 + a2*v2) with (a0 * (a0*a0 + a1*a1 + a2*a2 - 1) + b0 * (a0*b0 + a1*b1 + a2*b2) + c0 * (a0*c0 + a1*c1 + a2*c2))
      by (unfold v0, v1, v2; ring). rewrite A, AB, AC. ring. }
  assert (Vb : b0*v0 + b1*v1 + b2*v2 = 0).
  { replace (b0*v0 + b1*v1 + b2*v2) with (a0 * (a0*b0 + a1*b1 + a2*b2) + b0 * (b0*b0 + b1*b1 + b2*b2 - 1) + c0 * (b0*c0 + b1*c1 + b2*c2))
      by (unfold v0, v1, v2; ring). rewrite B, AB, BC. ring. }
  assert (Vc : c0*v0 + c1*v1 + c2*v2 = 0).
  { replace (c0*v0 + c1*v1 + c2*v2) with (a0 * (a0*c0 + a1*c1 + a2*c2) + b0 * (b0*c0 + b1*c1 + b2*c2) + c0 * (c0*c0 + c1*c1 + c2*c2 - 1))
      by (unfold v0, v1, v2; ring). rewrite C, AC, BC. ring. }
  assert (Z : d * v0 = 0).
  { replace (d * v0) with ((a0*v0 + a1*v1 + a2*v2) * (b1*c2 - b2*c1) + (b0*v0 + b1*v1 + b2*v2) * (c1*a2 - c2*a1) +
      (c0*v0 + c1*v1 + c2*v2) * (a1*b2 - a2*b1)) by (unfold d; ring). rewrite Va, Vb, Vc. ring. }
  assert (v0 = 0) by (apply Rmult_integral in Z; destruct Z as [Z|Z]; [rewrite Z in D; lra|exact Z]).
  unfold v0 in *. lra.
Qed.
Lemma unit_real : forall a b c, not_unit real a b c = false <-> Rabs (length3 a b c - 1) <= 1 / 100000.
Proof.
  intros a b c. unfold not_unit, f_gt, f_sqr, ORTHONORMAL_THRESHOLD, f_lit, length3. cbn [f_lt f_abs f_sqrt f_add f_sub f_mul f_div f_int real].
  destruct (Rlt_dec _ _); split; intros; try discriminate; try reflexivity; cbn [F real] in *; lra.
Qed.
Lemma eq_real : forall a b, f_eq real a b = true <-> a = b.
Proof. intros a b. cbn [f_eq real]. destruct (Req_EM_T a b); split; intros; try discriminate; auto; contradiction. Qed.
(** Exactly what the check accepts. *)
Theorem C36_accepted : forall t : list R,
  check_matrix real t = true <-> last_row (entry t) /\ unit_lines (1 / 100000) (entry t).
Proof.
  intros t. unfold check_matrix. rewrite real_all_finite. cbn [andb]. unfold is_homogeneous_transformation, last_row, unit_lines, entry.
  change (zero real) with 0.
  assert (L : forall P : nat -> Prop, (forall j, (j < 3)%nat -> P j) <-> P 0%nat /\ P 1%nat /\ P 2%nat).
  { intros P. split; [intros H; repeat split; apply H; lia|]. intros (P0 & P1 & P2) j Hj.
    destruct j as [|[|[|j]]]; [exact P0|exact P1|exact P2|lia]. }
  rewrite !L. cbn [Nat.mul Nat.add]. clear L. set (e := fun i => nth i t 0).
  repeat match goal with |- context [nth ?i t 0] => change (nth i t 0) with (e i) end. clearbody e.
  rewrite <- !unit_real, <- !negb_true_iff.
  destruct (f_eq real (e 3%nat) 0) eqn:E3; [apply eq_real in E3|]; cbn [negb orb].
  2: { split; [discriminate|]. intros [(H & _) _]. apply eq_real in H. congruence. }
  destruct (f_eq real (e 7%nat) 0) eqn:E7; [apply eq_real in E7|]; cbn [negb orb].
  2: { split; [discriminate|]. intros [(_ & H & _) _]. apply eq_real in H. congruence. }
  destruct (f_eq real (e 11%nat) 0) eqn:E11; [apply eq_real in E11|]; cbn [negb orb].
  2: { split; [discriminate|]. intros [(_ & _ & H & _) _]. apply eq_real in H. congruence. }
  change (f_int real 1) with 1.
  destruct (f_eq real (e 15%nat) 1) eqn:E15; [apply eq_real in E15|]; cbn [negb orb].
  2: { split; [discriminate|]. intros [(_ & _ & _ & H) _]. apply eq_real in H. congruence. }
  rewrite !andb_true_iff. split; [intros H; split; [exact (conj E3 (conj E7 (conj E11 E15)))|tauto]|intros [_ H]; tauto].
Qed.
Print Assumptions C36_accepted.
(** Every rigid transformation is accepted. *)
Theorem C36_rigid_accepted : forall t : list R, rigid (entry t) -> check_matrix real t = true.
Proof.
  intros t (L & G & _). apply C36_accepted. split; [exact L|]. set (e := entry t) in *. clearbody e.
  pose proof (G 0%nat 0%nat) as G00. pose proof (G 1%nat 1%nat) as G11. pose proof (G 2%nat 2%nat) as G22.
  pose proof (G 0%nat 1%nat) as G01. pose proof (G 0%nat 2%nat) as G02. pose proof (G 1%nat 2%nat) as G12.
  unfold dot in *. cbn [Nat.mul Nat.add Nat.eqb] in *.
  specialize (G00 ltac:(lia) ltac:(lia)). specialize (G11 ltac:(lia) ltac:(lia)). specialize (G22 ltac:(lia) ltac:(lia)).
  specialize (G01 ltac:(lia) ltac:(lia)). specialize (G02 ltac:(lia) ltac:(lia)). specialize (G12 ltac:(lia) ltac:(lia)).
  assert (U : forall a b c, a * a + b * b + c * c = 1 -> Rabs (length3 a b c - 1) <= 1 / 100000).
  { intros a b c H. unfold length3. rewrite H, sqrt_1. unfold Rminus. rewrite Rplus_opp_r, Rabs_R0. lra. }
  split; intros [|[|[|j]]] Hj; try lia; cbn [Nat.mul Nat.add]; apply U; try assumption.
  - exact (rows_unit _ _ _ _ _ _ _ _ _ G00 G11 G22 G01 G02 G12).
  - apply (rows_unit (e 1%nat) (e 0%nat) (e 2%nat) (e 5%nat) (e 4%nat) (e 6%nat) (e 9%nat) (e 8%nat) (e 10%nat)); lra.
  - apply (rows_unit (e 2%nat) (e 0%nat) (e 1%nat) (e 6%nat) (e 4%nat) (e 5%nat) (e 10%nat) (e 8%nat) (e 9%nat)); lra.
Qed.
Print Assumptions C36_rigid_accepted.
(** A rotation by 3-4-5 about the third axis with a translation is rigid. *)
Example C36_ex : rigid (entry [3/5; 4/5; 0; 0; -4/5; 3/5; 0; 0; 0; 0; 1; 0; 1/2; 1/3; 1/4; 1]).
Proof.
  unfold rigid, last_row, dot, det, entry. cbn [nth Nat.mul Nat.add]. repeat split; try lra.
  intros j k Hj Hk. destruct j as [|[|[|j]]]; try lia; destruct k as [|[|[|k]]]; try lia; cbn; lra.
Qed.

(** The check is not sufficient: it accepts reflections and matrices with parallel columns. *)
Theorem C36_reflection_refuted : exists t : list R, check_matrix real t = true /\ det (entry t) = -1.
Proof.
  exists [1; 0; 0; 0; 0; 1; 0; 0; 0; 0; -1; 0; 0; 0; 0; 1]. split; [|unfold det, entry; cbn [nth]; ring].
  apply C36_accepted. unfold last_row, unit_lines, entry, length3. split; [cbn; auto|].
  assert (U : forall x, x = 1 -> Rabs (sqrt x - 1) <= 1 / 100000).
  { intros x ->. rewrite sqrt_1. unfold Rminus. rewrite Rplus_opp_r, Rabs_R0. lra. }
  split; intros [|[|[|j]]] Hj; try lia; cbn [Nat.mul Nat.add nth]; apply U; ring.
Qed.
Print Assumptions C36_reflection_refuted.
Theorem C36_orthogonal_refuted : exists t : list R, check_matrix real t = true /\ dot (entry t) 0 1 = 1 /\ det (entry t) = 0.
Proof.
  set (h := sqrt (1 / 3)). assert (H : h * h = 1 / 3) by (apply sqrt_sqrt; lra).
  exists [h; h; h; 0; h; h; h; 0; h; h; h; 0; 0; 0; 0; 1]. split; [|split; [unfold dot, entry; cbn [nth Nat.mul Nat.add]; lra|unfold det, entry; cbn [nth]; ring]].
  apply C36_accepted. unfold last_row, unit_lines, entry, length3. split; [cbn; auto|].
  assert (U : forall x, x = 1 -> Rabs (sqrt x - 1) <= 1 / 100000).
  { intros x ->. rewrite sqrt_1. unfold Rminus. rewrite Rplus_opp_r, Rabs_R0. lra. }
  split; intros [|[|[|j]]] Hj; try lia; cbn [Nat.mul Nat.add nth]; apply U; lra.
Qed.
Print Assumptions C36_orthogonal_refuted.

(** * In IEEE-754 double arithmetic *)
Local Existing Instance fexp_valid.
Definition infinity : binary64 := B754_infinity 53 1024 false.
Lemma rnd_val : forall x, rnd (val x) = val x.
Proof. intros x. apply round_generic; [apply valid_rnd_N|]. apply Binary.generic_format_B2R. Qed.
Lemma sqr_cases : forall x, b64_fin x = true ->
  (b64_fin (b64_mult mode_NE x x) = true /\ val (b64_mult mode_NE x x) = rnd (val x * val x)) \/
  b64_mult mode_NE x x = infinity.
Proof.
  intros x Hx. pose proof (Binary.Bmult_correct 53 1024 eq_refl eq_refl binop_nan_pl64 mode_NE x x) as C.
  destruct (Rlt_bool _ _) in C.
  - left. destruct C as (C1 & C2 & _). unfold b64_fin in *. rewrite Hx in C2. split; [exact C2|exact C1].
  - right. rewrite xorb_nilpotent in C. apply Binary.B2FF_inj. exact C.
Qed.
Lemma sign_nonneg : forall x, b64_fin x = true -> 0 < val x -> Bsign 53 1024 x = false.
Proof.
  intros [s|s|s pl e|s m e B] H P; try discriminate H; cbn in P; try lra. destruct s; [|reflexivity]. exfalso.
  assert (val (B754_finite 53 1024 true m e B) <= 0); [|unfold val in *; cbn in *; lra].
  unfold val. cbn. apply F2R_le_0. cbn. lia.
Qed.
Lemma add_cases : forall x y, b64_fin x = true -> b64_fin y = true -> 0 <= val x -> 0 <= val y ->
  (b64_fin (b64_plus mode_NE x y) = true /\ val (b64_plus mode_NE x y) = rnd (val x + val y)) \/
  b64_plus mode_NE x y = infinity.
Proof.
  intros x y Hx Hy Px Py. pose proof (Binary.Bplus_correct 53 1024 eq_refl eq_refl binop_nan_pl64 mode_NE x y Hx Hy) as C.
  destruct (Rlt_bool _ _) eqn:L in C.
  - left. destruct C as (C1 & C2 & _). split; [exact C2|exact C1].
  - right. destruct C as [C1 C2]. assert (S : Bsign 53 1024 x = false).
    { destruct (Rle_lt_or_eq_dec _ _ Px) as [P|P]; [apply sign_nonneg; assumption|].
      destruct (Rle_lt_or_eq_dec _ _ Py) as [Q|Q]; [rewrite C2; apply sign_nonneg; assumption|].
      exfalso. unfold Rlt_bool in L. unfold val in P, Q. rewrite <- P, <- Q, Rplus_0_r in L. unfold round_mode in L.
      rewrite round_0, Rabs_R0 in L by apply valid_rnd_N. rewrite Rcompare_Lt in L by apply bpow_gt_0. discriminate L. }
    rewrite S in C1. apply Binary.B2FF_inj. exact C1.
Qed.
Lemma add_infinity : forall x, (b64_fin x = true \/ x = infinity) ->
  b64_plus mode_NE x infinity = infinity /\ b64_plus mode_NE infinity x = infinity.
Proof. intros [s|s|s pl e|s m e B] [H|H]; try discriminate H; try injection H as ->; split; reflexivity. Qed.
(** A squared length as the program computes it. *)
Definition len2 (a b c : binary64) : binary64 :=
  b64_plus mode_NE (b64_plus mode_NE (b64_mult mode_NE a a) (b64_mult mode_NE b b)) (b64_mult mode_NE c c).
Lemma rnd_nonneg : forall x, 0 <= x -> 0 <= rnd x.
Proof. intros x H. rewrite <- rnd_0. apply rnd_le, H. Qed.
Lemma rnd_ge : forall e x, (-1074 <= e)%Z -> bpow radix2 e <= x -> bpow radix2 e <= rnd x.
Proof. intros e x He H. rewrite <- (rnd_bpow e He). apply rnd_le, H. Qed.
Lemma rnd_ge_val : forall y x, val y <= x -> val y <= rnd x.
Proof. intros y x H. rewrite <- (rnd_val y). apply rnd_le, H. Qed.

Lemma len2_cases : forall a b c, b64_fin a = true -> b64_fin b = true -> b64_fin c = true ->
  len2 a b c = infinity \/
  (b64_fin (len2 a b c) = true /\
   val (len2 a b c) = rnd (rnd (rnd (val a * val a) + rnd (val b * val b)) + rnd (val c * val c))).
Proof.
  intros a b c Fa Fb Fc. unfold len2.
  destruct (sqr_cases a Fa) as [[A1 A2]|A]; destruct (sqr_cases b Fb) as [[B1 B2]|B];
  destruct (sqr_cases c Fc) as [[C1 C2]|C]; rewrite ?A, ?B, ?C;
  repeat match goal with
  | H : b64_fin ?x = true |- context [b64_plus mode_NE ?x infinity] => rewrite (proj1 (add_infinity x (or_introl H)))
  | H : b64_fin ?x = true |- context [b64_plus mode_NE infinity ?x] => rewrite (proj2 (add_infinity x (or_introl H)))
  | |- context [b64_plus mode_NE infinity infinity] => rewrite (proj1 (add_infinity infinity (or_intror eq_refl)))
  end; try (left; reflexivity).
  - destruct (add_cases _ _ A1 B1) as [[D1 D2]|D].
    + rewrite A2. apply rnd_nonneg, Rle_0_sqr.
    + rewrite B2. apply rnd_nonneg, Rle_0_sqr.
    + assert (P : 0 <= val (b64_plus mode_NE (b64_mult mode_NE a a) (b64_mult mode_NE b b))).
      { rewrite D2, A2, B2. apply rnd_nonneg. apply Rplus_le_le_0_compat; apply rnd_nonneg, Rle_0_sqr. }
      destruct (add_cases _ _ D1 C1) as [[E1 E2]|E]; [exact P|rewrite C2; apply rnd_nonneg, Rle_0_sqr| |].
      * right. split; [exact E1|]. rewrite E2, D2, A2, B2, C2. reflexivity.
      * left. exact E.
    + rewrite D. left. apply (add_infinity _ (or_introl C1)).
  - destruct (add_cases _ _ A1 B1) as [[D1 D2]|D].
    + rewrite A2. apply rnd_nonneg, Rle_0_sqr.
    + rewrite B2. apply rnd_nonneg, Rle_0_sqr.
    + left. apply (add_infinity _ (or_introl D1)).
    + left. rewrite D. reflexivity.
Qed.

Lemma threshold_val : b64_fin (ORTHONORMAL_THRESHOLD float) = true /\
  Rabs (val (ORTHONORMAL_THRESHOLD float) - 1 / 100000) <= 1 / 10 ^ 18.
Proof.
  destruct (val_finite (ORTHONORMAL_THRESHOLD float) false 5902958103587057 (-69)) as [F V]; [vm_compute; reflexivity|].
  split; [exact F|]. rewrite V. cbn [cond_Zopp]. change (bpow radix2 (-69)) with (/ 590295810358705651712). apply Rabs_le. lra.
Qed.
Lemma one64 : b64_fin (b64_int 1) = true /\ val (b64_int 1) = 1.
Proof.
  destruct (val_finite (b64_int 1) false 4503599627370496 (-52)) as [F V]; [vm_compute; reflexivity|].
  split; [exact F|]. rewrite V. cbn [cond_Zopp]. change (bpow radix2 (-52)) with (/ 4503599627370496). lra.
Qed.
Lemma sqrt_ok : forall x, b64_fin x = true -> 0 <= val x ->
  b64_fin (b64_sqrt mode_NE x) = true /\ val (b64_sqrt mode_NE x) = rnd (sqrt (val x)).
Proof.
  intros x F P. destruct (Binary.Bsqrt_correct 53 1024 eq_refl eq_refl unop_nan_pl64 mode_NE x) as (V & Fi & _).
  split; [|exact V]. unfold b64_fin, b64_sqrt. rewrite Fi. destruct x as [s|s|s pl e|s m e B]; try discriminate F; try reflexivity.
  destruct s; [|reflexivity]. exfalso. unfold val in P. cbn in P.
  assert (F2R (Float radix2 (Zneg m) e) < 0) by (apply F2R_lt_0; cbn; lia). lra.
Qed.
Lemma sqrt_close : forall s S d, 0 <= s -> 0 <= S -> 9 / 10 <= sqrt s \/ 9 / 10 <= sqrt S -> Rabs (s - S) <= d ->
  Rabs (sqrt s - sqrt S) <= 2 * d.
Proof.
  intros s S d Hs HS H D. pose proof (sqrt_pos s). pose proof (sqrt_pos S).
  assert (E : s - S = (sqrt s - sqrt S) * (sqrt s + sqrt S)).
  { replace ((sqrt s - sqrt S) * (sqrt s + sqrt S)) with (sqrt s * sqrt s - sqrt S * sqrt S) by ring.
    rewrite !sqrt_sqrt by assumption. reflexivity. }
  rewrite E, Rabs_mult, (Rabs_right (sqrt s + sqrt S)) in D by lra. pose proof (Rabs_pos (sqrt s - sqrt S)).
  assert (9 / 10 <= sqrt s + sqrt S) by (destruct H; lra). nra.
Qed.
Lemma abs_range : forall u d, Rabs u <= d -> - d <= u <= d.
Proof. intros u d. unfold Rabs. destruct (Rcase_abs u); lra. Qed.
(** Numbers below 2: the computed squared length is close to the exact one. *)
Lemma len2_small : forall a b c, b64_fin a = true -> b64_fin b = true -> b64_fin c = true ->
  Rabs (val a) < 2 -> Rabs (val b) < 2 -> Rabs (val c) < 2 ->
  b64_fin (len2 a b c) = true /\ 0 <= val (len2 a b c) < 16 /\
  Rabs (val (len2 a b c) - (val a * val a + val b * val b + val c * val c)) <= / 281474976710656.
Proof.
  intros a b c Fa Fb Fc Ba Bb Bc.
  assert (Q : forall x, b64_fin x = true -> Rabs (val x) < 2 -> b64_fin (b64_mult mode_NE x x) = true /\
    0 <= val (b64_mult mode_NE x x) <= 4 /\ Rabs (val (b64_mult mode_NE x x) - val x * val x) <= / 4503599627370496).
  { intros x F B. assert (0 <= val x * val x < 4).
    { split; [apply Rle_0_sqr|]. rewrite <- (Rabs_right (val x * val x)) by (apply Rle_ge, Rle_0_sqr). rewrite Rabs_mult.
      pose proof (Rabs_pos (val x)). nra. }
    destruct (mult_ok x x 2 F F) as [F1 V1]; [lia|change (bpow radix2 2) with 4; apply Rabs_le; lra|].
    split; [exact F1|]. rewrite V1. split; [split|].
    - apply rnd_nonneg. lra.
    - change 4 with (bpow radix2 2). rewrite <- (rnd_bpow 2) by lia. apply rnd_le. change (bpow radix2 2) with 4. lra.
    - apply (rnd_error _ 2); [lia|]. change (bpow radix2 2) with 4. rewrite Rabs_right; lra. }
  destruct (Q a Fa Ba) as (A1 & A2 & A3). destruct (Q b Fb Bb) as (B1 & B2 & B3). destruct (Q c Fc Bc) as (C1 & C2 & C3).
  unfold len2. set (x := b64_mult mode_NE a a) in *. set (y := b64_mult mode_NE b b) in *. set (z := b64_mult mode_NE c c) in *.
  clearbody x y z.
  destruct (plus_ok x y 3 A1 B1) as [F1 V1]; [lia|change (bpow radix2 3) with 8; apply Rabs_le; lra|].
  assert (E1 : Rabs (val (b64_plus mode_NE x y) - (val x + val y)) <= / 1125899906842624).
  { rewrite V1. apply (rnd_error _ 4); [lia|]. change (bpow radix2 4) with 16. rewrite Rabs_right; lra. }
  assert (P1 : 0 <= val (b64_plus mode_NE x y)) by (rewrite V1; apply rnd_nonneg; lra).
  set (u := b64_plus mode_NE x y) in *. clearbody u. clear V1. apply abs_range in A3, B3, C3, E1.
  assert (U : 0 <= val x + val y) by lra.
  destruct (plus_ok u z 4 F1 C1) as [F2 V2]; [lia|change (bpow radix2 4) with 16; apply Rabs_le; lra|].
  assert (E2 : Rabs (val (b64_plus mode_NE u z) - (val u + val z)) <= / 1125899906842624).
  { rewrite V2. apply (rnd_error _ 4); [lia|]. change (bpow radix2 4) with 16. apply Rle_lt_trans with 13; [apply Rabs_le|]; lra. }
  split; [exact F2|]. apply abs_range in E2. split; [split|].
  - rewrite V2. apply rnd_nonneg. lra.
  - lra.
  - apply Rabs_le. lra.
Qed.
(** A number of magnitude 2 or more: the computed squared length is infinite or at least 4. *)
Lemma len2_large : forall a b c, b64_fin a = true -> b64_fin b = true -> b64_fin c = true ->
  2 <= Rabs (val a) \/ 2 <= Rabs (val b) \/ 2 <= Rabs (val c) ->
  len2 a b c = infinity \/ (b64_fin (len2 a b c) = true /\ 4 <= val (len2 a b c)).
Proof.
  intros a b c Fa Fb Fc H. destruct (len2_cases a b c Fa Fb Fc) as [E|[F V]]; [left; exact E|right].
  split; [exact F|]. rewrite V.
  assert (S : forall x, 2 <= Rabs x -> 4 <= rnd (x * x)).
  { intros x Hx. apply (rnd_ge 2); [lia|]. change (bpow radix2 2) with 4. rewrite <- (Rabs_right (x * x)) by (apply Rle_ge, Rle_0_sqr).
    rewrite Rabs_mult. nra. }
  assert (T : forall x y, 0 <= x -> 0 <= y -> 4 <= x \/ 4 <= y -> 4 <= rnd (x + y)).
  { intros x y Hx Hy Hxy. apply (rnd_ge 2); [lia|]. change (bpow radix2 2) with 4. destruct Hxy; lra. }
  assert (N : forall x, 0 <= rnd (x * x)) by (intros x; apply rnd_nonneg, Rle_0_sqr).
  assert (M : 0 <= rnd (rnd (val a * val a) + rnd (val b * val b))) by (apply rnd_nonneg, Rplus_le_le_0_compat; apply N).
  destruct H as [H|[H|H]]; apply S in H; apply T; auto.
Qed.
Lemma abs_fin : forall x, b64_fin (b64_abs x) = b64_fin x.
Proof. intros x. apply Binary.is_finite_Babs. Qed.
Lemma abs_val : forall x, val (b64_abs x) = Rabs (val x).
Proof. intros x. apply Binary.B2R_Babs. Qed.
Lemma unit_float : forall a b c, b64_fin a = true -> b64_fin b = true -> b64_fin c = true ->
  (not_unit float a b c = false -> Rabs (length3 (val a) (val b) (val c) - 1) <= 1 / 100000 + 1 / 10 ^ 12) /\
  (Rabs (length3 (val a) (val b) (val c) - 1) <= 1 / 100000 - 1 / 10 ^ 12 -> not_unit float a b c = false).
Proof.
  intros a b c Fa Fb Fc.
  assert (N : not_unit float a b c = b64_lt (ORTHONORMAL_THRESHOLD float) (b64_abs (b64_minus mode_NE (b64_sqrt mode_NE (len2 a b c)) (b64_int 1))))
    by reflexivity.
  destruct one64 as [F1 V1]. destruct threshold_val as [Ft Vt]. apply abs_range in Vt.
  set (one := b64_int 1) in *. set (thr := ORTHONORMAL_THRESHOLD float) in *.
  assert (L : 2 <= Rabs (val a) \/ 2 <= Rabs (val b) \/ 2 <= Rabs (val c) \/ (Rabs (val a) < 2 /\ Rabs (val b) < 2 /\ Rabs (val c) < 2)).
  { destruct (Rle_dec 2 (Rabs (val a))); [auto|]. destruct (Rle_dec 2 (Rabs (val b))); [auto|].
    destruct (Rle_dec 2 (Rabs (val c))); [auto|]. right. right. right. lra. }
  assert (S0 : 0 <= val a * val a + val b * val b + val c * val c)
    by (repeat apply Rplus_le_le_0_compat; apply Rle_0_sqr).
  assert (Small : (Rabs (val a) < 2 /\ Rabs (val b) < 2 /\ Rabs (val c) < 2) \/
    (2 <= Rabs (val a) \/ 2 <= Rabs (val b) \/ 2 <= Rabs (val c))) by tauto.
  clear L. destruct Small as [(Ba & Bb & Bc)|Big].
  - destruct (len2_small a b c Fa Fb Fc Ba Bb Bc) as (Fs & Rs & Ds).
    destruct (sqrt_ok _ Fs (proj1 Rs)) as [Fq Vq].
    unfold length3. set (S := val a * val a + val b * val b + val c * val c) in *. clearbody S.
    set (s := len2 a b c) in *. clearbody s.
    pose proof (sqrt_pos (val s)) as P. pose proof (sqrt_pos S) as PS.
    assert (Q4 : sqrt (val s) < 4).
    { replace 4 with (sqrt 16); [apply sqrt_lt_1; lra|]. replace 16 with (4 * 4) by ring. apply sqrt_square. lra. }
    assert (Eq : Rabs (val (b64_sqrt mode_NE s) - sqrt (val s)) <= / 4503599627370496).
    { rewrite Vq. apply (rnd_error _ 2); [lia|]. change (bpow radix2 2) with 4. rewrite Rabs_right; lra. }
    set (q := b64_sqrt mode_NE s) in *. clearbody q. apply abs_range in Eq.
    destruct (minus_ok q one 3 Fq F1) as [Fd Vd]; [lia|change (bpow radix2 3) with 8; apply Rabs_le; lra|].
    assert (Ed : Rabs (val (b64_minus mode_NE q one) - (val q - val one)) <= / 2251799813685248).
    { rewrite Vd. apply (rnd_error _ 3); [lia|]. change (bpow radix2 3) with 8. apply Rle_lt_trans with 5; [apply Rabs_le|]; lra. }
    set (d := b64_minus mode_NE q one) in *. clearbody d. clear Vd Vq. apply abs_range in Ed.
    rewrite N, (lt_fin _ _ Ft) by (rewrite abs_fin; exact Fd). rewrite abs_val. split.
    + destruct (Rlt_bool_spec (val thr) (Rabs (val d))) as [Hl|Hl]; [discriminate|intros _]. apply abs_range in Hl.
      assert (W9 : 9 / 10 <= sqrt (val s)) by lra.
      pose proof (sqrt_close (val s) S _ (proj1 Rs) S0 (or_introl W9) Ds) as C. apply abs_range in C. apply Rabs_le. lra.
    + intros H. apply abs_range in H. assert (W9 : 9 / 10 <= sqrt S) by lra.
      pose proof (sqrt_close (val s) S _ (proj1 Rs) S0 (or_intror W9) Ds) as C. apply abs_range in C.
      apply Rlt_bool_false. apply Rabs_le. lra.
  - assert (T : not_unit float a b c = true).
    { rewrite N. destruct (len2_large a b c Fa Fb Fc Big) as [->|[Fs Vs]]; [vm_compute; reflexivity|].
      set (s := len2 a b c) in *. clearbody s. destruct (sqrt_ok s Fs) as [Fq Vq]; [lra|].
      assert (H2 : 2 <= sqrt (val s)).
      { replace 2 with (sqrt 4); [apply sqrt_le_1; lra|]. replace 4 with (2 * 2) by ring. apply sqrt_square. lra. }
      assert (Q2 : 2 <= val (b64_sqrt mode_NE s)) by (rewrite Vq; apply (rnd_ge 1); [lia|exact H2]).
      assert (Q512 : val (b64_sqrt mode_NE s) <= bpow radix2 512).
      { rewrite Vq. rewrite <- (rnd_bpow 512) by lia. apply rnd_le.
        replace (bpow radix2 512) with (sqrt (bpow radix2 1024)).
        - apply sqrt_le_1_alt. pose proof (val_max s Fs) as M. apply Rlt_le. eapply Rle_lt_trans; [apply Rle_abs|exact M].
        - change 1024%Z with (512 + 512)%Z. rewrite bpow_plus. apply sqrt_square, bpow_ge_0. }
      set (q := b64_sqrt mode_NE s) in *. clearbody q.
      destruct (minus_ok q one 512 Fq F1) as [Fd Vd]; [lia|rewrite Rabs_right; lra|].
      rewrite (lt_fin _ _ Ft) by (rewrite abs_fin; exact Fd). apply Rlt_bool_true. rewrite abs_val, Vd, V1.
      eapply Rlt_le_trans; [|apply Rle_abs]. apply Rlt_le_trans with (bpow radix2 0); [change (bpow radix2 0) with 1; lra|].
      apply rnd_ge; [lia|]. change (bpow radix2 0) with 1. lra. }
    split; [rewrite T; discriminate|]. intros H. exfalso. apply abs_range in H. unfold length3 in H.
    assert (G : 2 <= sqrt (val a * val a + val b * val b + val c * val c)); [|lra].
    replace 2 with (sqrt 4); [|replace 4 with (2 * 2) by ring; apply sqrt_square; lra]. apply sqrt_le_1_alt.
    assert (W : forall x, 2 <= Rabs x -> 4 <= x * x).
    { intros x Hx. rewrite <- (Rabs_right (x * x)) by (apply Rle_ge, Rle_0_sqr). rewrite Rabs_mult. nra. }
    pose proof (Rle_0_sqr (val a)) as Z1. pose proof (Rle_0_sqr (val b)) as Z2. pose proof (Rle_0_sqr (val c)) as Z3. unfold Rsqr in *.
    destruct Big as [B|[B|B]]; apply W in B; lra.
Qed.

Lemma eq_exact : forall x k, b64_fin x = true -> b64_fin k = true -> (b64_eq x k = true <-> val x = val k).
Proof. intros x k Hx Hk. rewrite eq_fin by assumption. destruct (Req_bool_spec (val x) (val k)); split; intros; congruence. Qed.
(** In binary64: accepted matrices have finite entries, the exact last row, and rows and columns of
    length 1 up to 1e-5 (and rounding); matrices with these properties are accepted. *)
Theorem C36_binary64 : forall t,
  (check_matrix float t = true ->
   forallb b64_fin t = true /\ last_row (entry64 t) /\ unit_lines (1 / 100000 + 1 / 10 ^ 12) (entry64 t)) /\
  (forallb b64_fin t = true -> last_row (entry64 t) -> unit_lines (1 / 100000 - 1 / 10 ^ 12) (entry64 t) ->
   check_matrix float t = true).
Proof.
  intros t. unfold check_matrix. change (all_finite float t) with (forallb b64_fin t).
  destruct (forallb b64_fin t) eqn:F; [|split; [discriminate|intros; discriminate]]. cbn [andb].
  assert (Fi : forall i, b64_fin (nth i t (b64_int 0)) = true).
  { intros i. destruct (nth_in_or_default i t (b64_int 0)) as [H|H]; [|rewrite H; reflexivity].
    rewrite forallb_forall in F. apply F, H. }
  assert (Z0 : b64_fin (b64_int 0) = true /\ val (b64_int 0) = 0) by (split; reflexivity). destruct Z0 as [Z1 Z2].
  destruct one64 as [O1 O2].
  unfold is_homogeneous_transformation, last_row, unit_lines, entry64. change (zero float) with (b64_int 0). change (f_int float 1) with (b64_int 1).
  cbn [f_eq float].
  assert (L : forall P : nat -> Prop, (forall j, (j < 3)%nat -> P j) <-> P 0%nat /\ P 1%nat /\ P 2%nat).
  { intros P. split; [intros H; repeat split; apply H; lia|]. intros (P0 & P1 & P2) j Hj.
    destruct j as [|[|[|j]]]; [exact P0|exact P1|exact P2|lia]. }
  rewrite !L. cbn [Nat.mul Nat.add]. clear L. set (e := fun i => nth i t (b64_int 0)) in *.
  repeat match goal with |- context [nth ?i t (b64_int 0)] => change (nth i t (b64_int 0)) with (e i) end.
  assert (Fe : forall i, b64_fin (e i) = true) by exact Fi. clearbody e. clear Fi.
  pose proof (eq_exact (e 3%nat) (b64_int 0) (Fe _) Z1) as E3. pose proof (eq_exact (e 7%nat) (b64_int 0) (Fe _) Z1) as E7.
  pose proof (eq_exact (e 11%nat) (b64_int 0) (Fe _) Z1) as E11. pose proof (eq_exact (e 15%nat) (b64_int 1) (Fe _) O1) as E15.
  rewrite Z2 in E3, E7, E11. rewrite O2 in E15.
  pose proof (fun i j k => unit_float (e i) (e j) (e k) (Fe i) (Fe j) (Fe k)) as U. split.
  - destruct (b64_eq (e 3%nat) _); [|discriminate]. destruct (b64_eq (e 7%nat) _); [|discriminate].
    destruct (b64_eq (e 11%nat) _); [|discriminate]. destruct (b64_eq (e 15%nat) _); [|discriminate]. cbn [negb orb].
    rewrite !andb_true_iff, !negb_true_iff. intros (((((H0 & H1) & H2) & H3) & H4) & H5).
    split; [reflexivity|]. split; [repeat split; [apply E3|apply E7|apply E11|apply E15]; reflexivity|].
    split; (split; [|split]); apply U; assumption.
  - intros _ (A3 & A7 & A11 & A15) ((H0 & H1 & H2) & H3 & H4 & H5).
    apply E3 in A3. apply E7 in A7. apply E11 in A11. apply E15 in A15. rewrite A3, A7, A11, A15. cbn [negb orb].
    rewrite !andb_true_iff, !negb_true_iff. repeat split; apply U; assumption.
Qed.
Print Assumptions C36_binary64.

(** * Commands *)
(** The entries of the pose of a command. *)
Definition pose_entry (m : motion_command) (i : nat) : R := val (of_bits (nth i (mc_O_T_EE_c m) 0%N)).
(** Every pose sent has the exact last row and rows and columns of unit length, whatever the
    callback returns and whatever filter and limiter do. *)
Theorem C36_commands : forall t1 a c t2, typed_history any (t1 ++ EvCommand a c :: t2) ->
  motion_mode t2 = Some MmCartesianPosition ->
  last_row (pose_entry (rc_motion c)) /\ unit_lines (1 / 100000 + 1 / 10 ^ 12) (pose_entry (rc_motion c)).
Proof.
  intros t1 a c t2 H M. pose proof (typed_is_history _ _ H) as Hh.
  pose (ok := fun m => last_row (pose_entry m) /\ unit_lines (1 / 100000 + 1 / 10 ^ 12) (pose_entry m)).
  assert (O : outs_ok (fun g _ m => g = MmCartesianPosition -> ok m) (fun _ _ => True) (t1 ++ EvCommand a c :: t2)).
  { apply (typed_outs any _ _ (fun _ _ => True)); auto.
    intros rots u k x dt k' o m m' _ _ _ _ Co. split; [|exact Logic.I]. intros G. rewrite G in Co.
    unfold convert_motion in Co. destruct (convert_pose float _ _ _ _ _ _ _ _) as [r|] eqn:C; [|discriminate].
    destruct (convert_elbow float _ _ _ _) as [[f e]|]; [|discriminate]. injection Co as <-.
    apply pose_checked in C. destruct (C36_binary64 r) as [K _]. destruct (K C) as (_ & L & U). unfold ok.
    match goal with |- last_row (pose_entry ?m0) /\ _ => assert (E : forall i, pose_entry m0 i = entry64 r i) end.
    { intros i. unfold pose_entry, entry64. cbn [keep_finished mc_O_T_EE_c].
      change 0%N with (bits (b64_int 0)). rewrite map_nth, of_bits_bits. reflexivity. }
    unfold last_row, unit_lines in *. rewrite !E. split; [exact L|]. split; intros j Hj; rewrite !E; apply U; exact Hj. }
  destruct (command_output _ _ _ _ _ _ Hh O) as (x & m & g & _ & P & G & _ & ->). rewrite M in G. injection G as <-.
  exact (P eq_refl).
Qed.
Print Assumptions C36_commands.
(** A program which commands a reflection: it is sent. *)
Definition reflection : list N := [one_bits; 0; 0; 0; 0; one_bits; 0; 0; 0; 0; minus_one_bits; 0; 0; 0; 0; one_bits]%N.
Definition ex_mirror : user_control :=
  UserControl N MmCartesianPosition (fun k _ _ => Some (k + 1, MotionOut reflection None (k =? 2))%N)
    None None (Some false) (Some (bits (f_int float 1000))).
Definition ex_env_pose : st :=
  let r id := ex_rs id MgCartesianPosition CmJointImpedance RmMove in
  st_init 10 RtIgnore (ex_first (ex_idle 1) ++ ex_states [r 2; r 4; r 5; r 8; r 9; ex_idle 10]%N)
    [ex_connected 0; ex_move 1 MsMotionStarted; None; ex_move 1 MsSuccess]%N [] true true.
Definition ex_typed_mirror : list event := trace (program 1337 [AControl (controller_of ex_rots ex_mirror) 0%N] ex_env_pose).
Lemma ex_mirror_history : typed_history any ex_typed_mirror.
Proof.
  unfold typed_history, history, ex_typed_mirror, ex_env_pose. exists 1337%N, [AControl (controller_of ex_rots ex_mirror) 0%N]. do 7 eexists. split.
  - repeat (apply Forall_cons || apply Forall_nil); try exact Logic.I. exists ex_rots, ex_mirror. split; [reflexivity|exact Logic.I].
  - reflexivity.
Qed.
Theorem C36_commands_refuted : exists t c, typed_history any t /\ In c (commands t) /\ det (pose_entry (rc_motion c)) = -1.
Proof.
  exists ex_typed_mirror.
  assert (E : map (fun c => mc_O_T_EE_c (rc_motion c)) (commands ex_typed_mirror) = repeat reflection 4) by (vm_compute; reflexivity).
  destruct (commands ex_typed_mirror) as [|c l]; [discriminate E|]. exists c. split; [apply ex_mirror_history|]. split; [left; reflexivity|].
  cbn [map repeat] in E. injection E as E _. unfold det, pose_entry. rewrite E. cbn [nth reflection].
  replace (val (of_bits 0)) with 0 by reflexivity.
  assert (O1 : val (of_bits one_bits) = 1).
  { destruct (val_finite (of_bits one_bits) false 4503599627370496 (-52)) as [_ ->]; [vm_compute; reflexivity|].
    cbn [cond_Zopp]. change (bpow radix2 (-52)) with (/ 4503599627370496). lra. }
  assert (O2 : val (of_bits minus_one_bits) = -1).
  { destruct (val_finite (of_bits minus_one_bits) true 4503599627370496 (-52)) as [_ ->]; [vm_compute; reflexivity|].
    cbn [cond_Zopp]. change (bpow radix2 (-52)) with (/ 4503599627370496). rewrite opp_IZR. lra. }
  rewrite O1, O2. ring.
Qed.
Print Assumptions C36_commands_refuted.

(** * C54: translations of limited poses *)
(** Velocity between two poses. *)
Definition shift (p r : list R) : list R :=
  [(nth 12 r 0 - nth 12 p 0) / cycle; (nth 13 r 0 - nth 13 p 0) / cycle; (nth 14 r 0 - nth 14 p 0) / cycle].
Definition norm_of (l : list R) : R := match l with [a; b; c] => sqrt (a * a + b * b + c * c) | _ => 0 end.
Fixpoint translation_bounded (p v : list R) (out : list (list R)) : Prop :=
  match out with
  | [] => True
  | r :: out => norm_of (shift p r) <= robot_translation_velocity /\
      norm_of (rate v (shift p r)) <= robot_translation_acceleration /\ translation_bounded r (shift p r) out
  end.
(** The closed loop of the pose limiter: the reported pose and translational velocity are those of
    the last command.  Rotation is arbitrary: the functions on rotations, the reported angular
    velocity and accelerations are inputs. *)
Section PoseRun.
  Variables (rl : list R -> list R -> vec real) (re : vec real -> list R -> rot real) (rk : list R -> rot real).
  Definition pose_limit (y p dP ddP : list R) : option (list R) :=
    limit_rate_cartesian_pose real rl re rk (MAX_TRANSLATIONAL_VELOCITY real) (MAX_TRANSLATIONAL_ACCELERATION real)
      (MAX_TRANSLATIONAL_JERK real) (MAX_ROTATIONAL_VELOCITY real) (MAX_ROTATIONAL_ACCELERATION real)
      (MAX_ROTATIONAL_JERK real) y p dP ddP.
  Fixpoint pose_run (p v : list R) (inputs : list (list R * list R * list R)) : option (list (list R)) :=
    match inputs with
    | [] => Some []
    | (y, w, ddP) :: r =>
        match pose_limit y p (v ++ w) ddP with
        | Some p' => option_map (cons p') (pose_run p' (shift p p') r)
        | None => None
        end
    end.
End PoseRun.
Lemma three : forall A (l : list A), length l = 3%nat -> exists a b c, l = [a; b; c].
Proof. intros A l H. do 3 (destruct l as [|? l]; [discriminate|]). destruct l; [|discriminate]. repeat eexists. Qed.
Lemma pose_step : forall rl re rk y p v1 v2 v3 w1 w2 w3 a1 a2 a3 a4 a5 a6,
  check_matrix real y = true -> sqrt (v1 * v1 + v2 * v2 + v3 * v3) <= MAX_TRANSLATIONAL_VELOCITY real ->
  exists p', pose_limit rl re rk y p [v1; v2; v3; w1; w2; w3] [a1; a2; a3; a4; a5; a6] = Some p' /\ last_row (entry p') /\
    norm_of (shift p p') <= MAX_TRANSLATIONAL_VELOCITY real /\
    norm_of (rate [v1; v2; v3] (shift p p')) <= MAX_TRANSLATIONAL_ACCELERATION real.
Proof.
  intros rl re rk y p v1 v2 v3 w1 w2 w3 a1 a2 a3 a4 a5 a6 C V.
  unfold pose_limit, limit_rate_cartesian_pose. unfold check_matrix in C. apply andb_prop in C. destruct C as [C1 C2]. rewrite C1, C2.
  unfold limit_rate_cartesian_velocity. rewrite real_all_finite. unfold of_vecs at 1. cbn [to_vecs].
  match goal with |- context [limit_rate_single_cartesian_velocity real (MAX_TRANSLATIONAL_VELOCITY real) _ _ ?x ?l ?a] =>
    pose proof (single_velocity _ _ _ translation_limits x l a V) as V1;
    pose proof (single_acceleration _ _ _ translation_limits x l a V) as A1;
    set (r1 := limit_rate_single_cartesian_velocity real (MAX_TRANSLATIONAL_VELOCITY real) _ _ x l a) in * end.
  clearbody r1. match goal with |- context [of_vecs real r1 ?r] => set (r2 := r) end. clearbody r2.
  destruct r1 as [b1 b2 b3], r2 as [b4 b5 b6]. unfold of_vecs. cbn [to_vecs vx vy vz].
  match goal with |- context [to_homogeneous real ?r _] => set (rr := r) end. clearbody rr. destruct rr as [[ra rb] rc].
  eexists. split; [reflexivity|]. cbn [to_homogeneous]. split; [unfold last_row, entry; cbn [nth]; repeat split; reflexivity|].
  unfold shift. cbn [nth]. unfold translation, v_add, v_scale, v_map, v_map2. cbn [vx vy vz f_add f_mul real]. change (zero real) with 0.
  rewrite delta_real. pose proof T_pos as HT. rewrite cycle_T in *.
  assert (E : forall q b, (q + b * T - q) / T = b) by (intros; field; lra). rewrite !E. cbn [norm_of rate].
  split; [exact V1|]. apply rate_len; [|exact A1].
  destruct translation_limits as (_ & HA & _). lra.
Qed.
Theorem C54_pose_translation : forall rl re rk inputs p v, length v = 3%nat -> norm_of v <= MAX_TRANSLATIONAL_VELOCITY real ->
  Forall (fun '(y, w, ddP) => last_row (entry y) /\ unit_lines (1 / 100000) (entry y) /\ length w = 3%nat /\ length ddP = 6%nat) inputs ->
  exists out, pose_run rl re rk p v inputs = Some out /\ length out = length inputs /\
    Forall (fun r => last_row (entry r)) out /\ translation_bounded p v out.
Proof.
  intros rl re rk. induction inputs as [|[[y w] a] inputs IH]; intros p v Lv Nv Hi; [exists []; repeat split; constructor|].
  inversion Hi as [|? ? H0 Hi']; subst. cbv beta iota in H0. destruct H0 as (H1 & H2 & Hw & Ha). destruct (three _ _ Lv) as (v1 & v2 & v3 & ->).
  destruct (three _ _ Hw) as (w1 & w2 & w3 & ->). destruct (six _ _ Ha) as (a1 & a2 & a3 & a4 & a5 & a6 & ->).
  destruct (pose_step rl re rk y p v1 v2 v3 w1 w2 w3 a1 a2 a3 a4 a5 a6) as (p' & E & L & N1 & N2); [apply C36_accepted; auto|exact Nv|].
  destruct (IH p' (shift p p')) as (out & E1 & E2 & E3 & E4); [reflexivity|exact N1|exact Hi'|].
  exists (p' :: out). cbn [pose_run app]. rewrite E, E1. split; [reflexivity|]. split; [cbn; auto|]. split; [constructor; assumption|].
  cbn [translation_bounded]. split; [|split; [|exact E4]].
  - eapply Rle_trans; [exact N1|]. unfold MAX_TRANSLATIONAL_VELOCITY, MAX_TRANSLATIONAL_ACCELERATION, LIMIT_EPS, TOL_NUMBER_PACKETS_LOST, f_lit, robot_translation_velocity.
    cbn [f_sub f_div f_int f_mul real]. rewrite delta_real. unfold T. lra.
  - eapply Rle_trans; [exact N2|]. unfold MAX_TRANSLATIONAL_ACCELERATION, LIMIT_EPS, f_lit, robot_translation_acceleration.
    cbn [f_sub f_div f_int f_mul real]. lra.
Qed.
Print Assumptions C54_pose_translation.
(** A jump of 10 m is such an input. *)
Example C54_ex : let y := [3/5; 4/5; 0; 0; -4/5; 3/5; 0; 0; 0; 0; 1; 0; 10; 0; 0; 1] in
  last_row (entry y) /\ unit_lines (1 / 100000) (entry y) /\ norm_of [0; 0; 0] <= MAX_TRANSLATIONAL_VELOCITY real.
Proof.
  cbn zeta. split; [unfold last_row, entry; cbn [nth]; repeat split|]. split.
  - assert (U : forall x, x = 1 -> Rabs (sqrt x - 1) <= 1 / 100000).
    { intros x ->. rewrite sqrt_1. unfold Rminus. rewrite Rplus_opp_r, Rabs_R0. lra. }
    unfold unit_lines, entry, length3. split; intros [|[|[|j]]] Hj; try lia; cbn [Nat.mul Nat.add nth]; apply U; lra.
  - unfold norm_of. replace (0 * 0 + 0 * 0 + 0 * 0) with 0 by ring. rewrite sqrt_0. destruct translation_limits as (H & _). apply Rlt_le, H.
Qed.

(** A command of the program above to which [C36_commands] applies. *)
Lemma mirror_command : forall (P : list event -> Prop), match first_with (answers 5) ex_typed_mirror with Some (EvCommand _ _ :: t2) => P t2 | _ => False end ->
  exists t1 a c t2, ex_typed_mirror = t1 ++ EvCommand a c :: t2 /\ P t2.
Proof.
  intros P H. pose proof (first_with_split _ (answers 5) ex_typed_mirror) as S. destruct (first_with (answers 5) ex_typed_mirror) as [[|e t2]|]; try contradiction.
  destruct e as [| | | | | | | |a c|]; try contradiction. destruct (S _ _ eq_refl) as [t1 E]. exists t1, a, c, t2. auto.
Qed.
Example C36_ex2 : exists t1 a c t2, ex_typed_mirror = t1 ++ EvCommand a c :: t2 /\ motion_mode t2 = Some MmCartesianPosition.
Proof. apply mirror_command. vm_compute. reflexivity. Qed.
