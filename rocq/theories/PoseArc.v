(** Curves from rest with bounded slope of the velocity, sampled every millisecond, and the two coordinates
    of the Cartesian pose example (Properties_ExampleMotions.v [arc]). *)
From Coq Require Import List ZArith NArith Reals Lra Lia.
From Verif Require Import NumOps NumReal RateSpec PiBounds Waves MotionProofs JerkShape Properties_Rate Properties_ExampleMotions.
Open Scope R_scope.

Section Rest.
  Variables (f f1 : R -> R) (B L : R).
  Hypotheses (D : forall t, derivable_pt_lim f t (f1 t)) (F0 : f 0 = 0) (F1 : f1 0 = 0).
  Hypotheses (HB : forall t, Rabs (f1 t) <= B) (HL : forall t u, Rabs (f1 t - f1 u) <= L * Rabs (t - u)) (L0 : 0 <= L) (B0 : 0 <= B).
  Definition rest : R -> R := glue 0 (fun _ => 0) f.
  Definition rest1 : R -> R := glue 0 (fun _ => 0) f1.
  Lemma d_rest : forall t, derivable_pt_lim rest t (rest1 t).
  Proof. apply glue_derivable; [symmetry; exact F0|symmetry; exact F1|intros; apply d_const|intros; apply D]. Qed.
  Lemma rest1_bound : forall t, Rabs (rest1 t) <= B.
  Proof. intros t. unfold rest1, glue. destruct (below t 0); [rewrite Rabs_R0; exact B0|apply HB]. Qed.
  Lemma rest1_lip : forall lo hi, lo <= 0 <= hi -> lip L lo hi rest1.
  Proof.
    intros lo hi H. apply lip_glue; [apply lip_const, L0| |symmetry; exact F1]. intros x y _ _. apply HL.
  Qed.
  Lemma rest1_slope : forall x h, 0 <= h -> Rabs (rest1 (x + h) - rest1 x) <= L * h.
  Proof.
    intros x h H. pose proof (rest1_lip (Rmin x 0) (Rmax (x + h) 0)) as Q.
    pose proof (Rmin_l x 0). pose proof (Rmin_r x 0). pose proof (Rmax_l (x + h) 0). pose proof (Rmax_r (x + h) 0).
    specialize (Q ltac:(lra) (x + h) x ltac:(lra) ltac:(lra)). replace (x + h - x) with h in Q by ring. rewrite (Rabs_pos_eq h) in Q by lra. exact Q.
  Qed.
  Variable h : R.
  Hypothesis Hh : 0 < h.
  Lemma rest_1 : forall t, Rabs (rest (t + h) - rest t) <= B * h.
  Proof.
    intros t. destruct (first_difference rest rest1 h Hh d_rest t) as (c & E). rewrite E, Rabs_mult, (Rabs_pos_eq h) by lra.
    apply Rmult_le_compat_r; [lra|apply rest1_bound].
  Qed.
  Lemma rest_2 : forall t, Rabs (rest (t + 2 * h) - 2 * rest (t + h) + rest t) <= L * (h * h).
  Proof.
    intros t. destruct (first_difference (fun y => rest (y - - h) - rest y) (fun y => rest1 (y - - h) - rest1 y) h Hh) with (t := t) as (c & E).
    { intros y. apply later, d_rest. }
    replace (t + h - - h) with (t + 2 * h) in E by ring. replace (t - - h) with (t + h) in E by ring. replace (c - - h) with (c + h) in E by ring.
    replace (rest (t + 2 * h) - 2 * rest (t + h) + rest t) with (rest (t + 2 * h) - rest (t + h) - (rest (t + h) - rest t)) by ring.
    rewrite E, Rabs_mult, (Rabs_pos_eq h), <- Rmult_assoc by lra. apply Rmult_le_compat_r; [lra|]. apply rest1_slope. lra.
  Qed.
End Rest.

Lemma rest_gentle : forall f f1 B L (w : N -> R), (forall t, derivable_pt_lim f t (f1 t)) -> f 0 = 0 -> f1 0 = 0 ->
  (forall t, Rabs (f1 t) <= B) -> (forall t u, Rabs (f1 t - f1 u) <= L * Rabs (t - u)) -> 0 <= L <= 3 / 2 -> 0 <= B <= 1 ->
  (forall ms, w ms = f (IZR (Z.of_N ms) / 1000)) -> forall n, gentle w n.
Proof.
  intros f f1 B L w D F0 F1 HB HL L0 B0 W n.
  assert (S : forall k, sample w k = rest f ((INR k - 3) / 1000)).
  { intros k. unfold rest, glue, below. do 3 (destruct k as [|k]; [cbn [sample INR]; destruct (Rlt_dec _ _); [reflexivity|lra]|]).
    cbn [sample]. rewrite W, !S_INR. pose proof (pos_INR k). destruct (Rlt_dec _ _); [lra|]. f_equal. f_equal.
    rewrite nat_N_Z, <- INR_IZR_INZ. ring. }
  set (t := (INR n - 3) / 1000).
  assert (E : forall j, sample w (j + n) = rest f (t + INR j * (1 / 1000))).
  { intros j. rewrite S, plus_INR. f_equal. unfold t. field. }
  pose proof (E 0%nat) as E0. pose proof (E 1%nat) as E1. pose proof (E 2%nat) as E2. pose proof (E 3%nat) as E3.
  cbn [INR Nat.add] in E0, E1, E2, E3. unfold gentle. rewrite E0, E1, E2, E3.
  pose proof (fun x => rest_1 f f1 B D F0 F1 HB (proj1 B0) (1 / 1000) ltac:(lra) x) as R1.
  pose proof (fun x => rest_2 f f1 L D F0 F1 HL (proj1 L0) (1 / 1000) ltac:(lra) x) as R2.
  specialize (R1 (t + 1 * (1 / 1000))). pose proof (R2 t) as R2a. specialize (R2 (t + 1 * (1 / 1000))).
  replace (t + 1 * (1 / 1000) + 1 / 1000) with (t + (1 + 1) * (1 / 1000)) in R1, R2 by field.
  replace (t + 1 * (1 / 1000) + 2 * (1 / 1000)) with (t + (1 + 1 + 1) * (1 / 1000)) in R2 by field.
  replace (t + 2 * (1 / 1000)) with (t + (1 + 1) * (1 / 1000)) in R2a by field.
  replace (t + 1 / 1000) with (t + 1 * (1 / 1000)) in R2a by field.
  replace (t + 0 * (1 / 1000)) with t by ring.
  set (a := rest f t) in *. set (b := rest f (t + 1 * (1 / 1000))) in *. set (c := rest f (t + (1 + 1) * (1 / 1000))) in *.
  set (d := rest f (t + (1 + 1 + 1) * (1 / 1000))) in *. clearbody a b c d.
  assert (L * (1 / 1000 * (1 / 1000)) <= 3 / 2 * (1 / 1000 * (1 / 1000))) by (apply Rmult_le_compat_r; lra).
  assert (B * (1 / 1000) <= 1 * (1 / 1000)) by (apply Rmult_le_compat_r; lra).
  apply abs_range in R1, R2, R2a. split; [|split]; apply Rabs_le; lra.
Qed.

(** * The two coordinates of the circle *)
Lemma cos_lip : forall a b, Rabs (cos a - cos b) <= Rabs (a - b).
Proof.
  intros a b. destruct (Req_dec a b) as [->|N]; [rewrite !Rminus_diag_eq, Rabs_R0 by reflexivity; lra|].
  assert (Q : forall x y, x < y -> Rabs (cos x - cos y) <= Rabs (x - y)).
  { intros x y H. destruct (MVT_cor2 cos (fun z => - sin z) x y H) as (c & E & _); [intros; apply derivable_pt_lim_cos|].
    rewrite Rabs_minus_sym, E, Rabs_mult, (Rabs_minus_sym x y). rewrite <- (Rmult_1_l (Rabs (y - x))) at 2. apply Rmult_le_compat_r; [apply Rabs_pos|].
    rewrite Rabs_Ropp. apply Rabs_le. apply SIN_bound. }
  destruct (Rtotal_order a b) as [H|[H|H]]; [apply Q, H|contradiction|]. rewrite Rabs_minus_sym, (Rabs_minus_sym a b). apply Q, H.
Qed.
Lemma sin_lip : forall a b, Rabs (sin a - sin b) <= Rabs (a - b).
Proof.
  intros a b. rewrite !sin_cos.
  replace (- cos (PI / 2 + a) - - cos (PI / 2 + b)) with (- (cos (PI / 2 + a) - cos (PI / 2 + b))) by ring. rewrite Rabs_Ropp.
  eapply Rle_trans; [apply cos_lip|]. right. f_equal. ring.
Qed.
Definition bend (t : R) : R := PI / 4 * (1 - cos (PI / 5 * t)).
Definition bend1 (t : R) : R := PI / 4 * (PI / 5 * sin (PI / 5 * t)).
Lemma d_bend : forall t, derivable_pt_lim bend t (bend1 t).
Proof.
  intros t. unfold bend, bend1. apply (derivable_pt_lim_scal (fun t => 1 - cos (PI / 5 * t)) (PI / 4)).
  replace (PI / 5 * sin (PI / 5 * t)) with (0 - - sin (PI / 5 * t) * (PI / 5)) by ring.
  apply (derivable_pt_lim_minus (fun _ => 1) (fun t => cos (PI / 5 * t))); [apply derivable_pt_lim_const|].
  apply (derivable_pt_lim_comp (fun t => PI / 5 * t) cos); [|apply derivable_pt_lim_cos].
  pose proof (derivable_pt_lim_scal (fun t => t) (PI / 5) t 1 (derivable_pt_lim_id t)) as Q. rewrite Rmult_1_r in Q. exact Q.
Qed.
Lemma PI_small : 3 < PI < 3.2 /\ PI * PI <= 10.24 /\ PI * PI * PI <= 32.768.
Proof.
  pose proof pi_bounds as P. assert (Q : 3 < PI < 3.2) by lra. split; [exact Q|].
  assert (Q2 : PI * PI <= 3.2 * 3.2) by (apply Rmult_le_compat; lra). split; [lra|].
  apply Rle_trans with (3.2 * 3.2 * 3.2); [|lra]. apply Rmult_le_compat; try lra. apply Rmult_le_pos; lra.
Qed.
Lemma bend1_bound : forall t, Rabs (bend1 t) <= 6 / 10.
Proof.
  intros t. destruct PI_small as (P & P2 & _). unfold bend1. replace (PI / 4 * (PI / 5 * sin (PI / 5 * t))) with (PI * PI / 20 * sin (PI / 5 * t)) by field.
  rewrite Rabs_mult, (Rabs_pos_eq (PI * PI / 20)) by (assert (0 <= PI * PI) by (apply Rmult_le_pos; lra); lra).
  assert (S : Rabs (sin (PI / 5 * t)) <= 1) by (apply Rabs_le, SIN_bound).
  apply Rle_trans with (PI * PI / 20 * 1); [|lra]. apply Rmult_le_compat_l; [|exact S]. assert (0 <= PI * PI) by (apply Rmult_le_pos; lra). lra.
Qed.
Lemma bend1_lip : forall t u, Rabs (bend1 t - bend1 u) <= 4 / 10 * Rabs (t - u).
Proof.
  intros t u. destruct PI_small as (P & P2 & P3). unfold bend1.
  replace (PI / 4 * (PI / 5 * sin (PI / 5 * t)) - PI / 4 * (PI / 5 * sin (PI / 5 * u))) with (PI * PI / 20 * (sin (PI / 5 * t) - sin (PI / 5 * u))) by field.
  assert (Z : 0 <= PI * PI) by (apply Rmult_le_pos; lra).
  rewrite Rabs_mult, (Rabs_pos_eq (PI * PI / 20)) by lra. pose proof (sin_lip (PI / 5 * t) (PI / 5 * u)) as S.
  replace (PI / 5 * t - PI / 5 * u) with (PI / 5 * (t - u)) in S by ring. rewrite Rabs_mult, (Rabs_pos_eq (PI / 5)) in S by lra.
  pose proof (Rabs_pos (t - u)) as Q. set (x := Rabs (t - u)) in *. clearbody x.
  apply Rle_trans with (PI * PI / 20 * (PI / 5 * x)); [apply Rmult_le_compat_l; [lra|exact S]|].
  replace (PI * PI / 20 * (PI / 5 * x)) with (PI * PI * PI / 100 * x) by field. apply Rmult_le_compat_r; lra.
Qed.
Lemma bend_lip : forall t u, Rabs (bend t - bend u) <= 6 / 10 * Rabs (t - u).
Proof.
  assert (Q : forall x y, x < y -> Rabs (bend x - bend y) <= 6 / 10 * Rabs (x - y)).
  { intros x y H. destruct (MVT_cor2 bend bend1 x y H) as (c & E & _); [intros; apply d_bend|].
    rewrite Rabs_minus_sym, E, Rabs_mult, (Rabs_minus_sym x y). apply Rmult_le_compat_r; [apply Rabs_pos|apply bend1_bound]. }
  intros a b. destruct (Rtotal_order a b) as [H|[->|H]]; [apply Q, H|rewrite !Rminus_diag_eq, Rabs_R0 by reflexivity; lra|].
  rewrite Rabs_minus_sym, (Rabs_minus_sym a b). apply Q, H.
Qed.
(** A product of a function with slope 0.6 and size 1, and the velocity on the arc. *)
Lemma product_lip : forall g : R -> R, (forall t, Rabs (g t) <= 1) -> (forall t u, Rabs (g t - g u) <= 6 / 10 * Rabs (t - u)) ->
  forall t u, Rabs (3 / 10 * (g t * bend1 t) - 3 / 10 * (g u * bend1 u)) <= 3 / 10 * Rabs (t - u).
Proof.
  intros g G1 G2 t u.
  replace (3 / 10 * (g t * bend1 t) - 3 / 10 * (g u * bend1 u)) with (3 / 10 * (g t * (bend1 t - bend1 u) + (g t - g u) * bend1 u)) by ring.
  rewrite Rabs_mult, (Rabs_pos_eq (3 / 10)) by lra. apply Rmult_le_compat_l; [lra|].
  eapply Rle_trans; [apply Rabs_triang|]. rewrite !Rabs_mult.
  pose proof (G1 t) as A1. pose proof (G2 t u) as A2. pose proof (bend1_lip t u) as A3. pose proof (bend1_bound u) as A4.
  pose proof (Rabs_pos (t - u)) as P.
  assert (Rabs (g t) * Rabs (bend1 t - bend1 u) <= 1 * (4 / 10 * Rabs (t - u))) by (apply Rmult_le_compat; auto using Rabs_pos).
  assert (Rabs (g t - g u) * Rabs (bend1 u) <= 6 / 10 * Rabs (t - u) * (6 / 10)) by (apply Rmult_le_compat; auto using Rabs_pos).
  lra.
Qed.
Lemma product_bound : forall x y, Rabs x <= 1 -> Rabs y <= 6 / 10 -> Rabs (3 / 10 * (x * y)) <= 2 / 10.
Proof.
  intros x y X Y. rewrite !Rabs_mult, (Rabs_pos_eq (3 / 10)) by lra.
  assert (Rabs x * Rabs y <= 1 * (6 / 10)) by (apply Rmult_le_compat; auto using Rabs_pos). lra.
Qed.
Lemma bend1_0 : bend1 0 = 0.
Proof. unfold bend1. rewrite Rmult_0_r, sin_0. ring. Qed.
Lemma bend_0 : bend 0 = 0.
Proof. unfold bend. rewrite Rmult_0_r, cos_0. ring. Qed.
Lemma arc_bend : forall ms, arc ms = bend (IZR (Z.of_N ms) / 1000).
Proof. reflexivity. Qed.
Lemma forwards_gentle : forall n, gentle (fun ms => 3 / 10 * sin (arc ms)) n.
Proof.
  apply (rest_gentle (fun t => 3 / 10 * sin (bend t)) (fun t => 3 / 10 * (cos (bend t) * bend1 t)) (2 / 10) (3 / 10)).
  - intros t. apply (derivable_pt_lim_scal (fun t => sin (bend t))). apply (derivable_pt_lim_comp bend sin); [apply d_bend|apply derivable_pt_lim_sin].
  - rewrite bend_0, sin_0. ring.
  - rewrite bend1_0. ring.
  - intros t. apply product_bound; [apply Rabs_le, COS_bound|apply bend1_bound].
  - apply (product_lip (fun t => cos (bend t))); [intros; apply Rabs_le, COS_bound|].
    intros t u. eapply Rle_trans; [apply cos_lip|apply bend_lip].
  - lra.
  - lra.
  - intros ms. rewrite arc_bend. reflexivity.
Qed.
Lemma sinks_gentle : forall n, gentle (fun ms => 3 / 10 * (cos (arc ms) - 1)) n.
Proof.
  apply (rest_gentle (fun t => 3 / 10 * (cos (bend t) - 1)) (fun t => 3 / 10 * (- sin (bend t) * bend1 t)) (2 / 10) (3 / 10)).
  - intros t. apply (derivable_pt_lim_scal (fun t => cos (bend t) - 1)).
    replace (- sin (bend t) * bend1 t) with (- sin (bend t) * bend1 t - 0) by ring.
    apply (derivable_pt_lim_minus (fun t => cos (bend t)) (fun _ => 1)); [|apply derivable_pt_lim_const].
    apply (derivable_pt_lim_comp bend cos); [apply d_bend|apply derivable_pt_lim_cos].
  - rewrite bend_0, cos_0. ring.
  - rewrite bend1_0. ring.
  - intros t. apply product_bound; [rewrite Rabs_Ropp; apply Rabs_le, SIN_bound|apply bend1_bound].
  - apply (product_lip (fun t => - sin (bend t))); [intros; rewrite Rabs_Ropp; apply Rabs_le, SIN_bound|].
    intros t u. replace (- sin (bend t) - - sin (bend u)) with (- (sin (bend t) - sin (bend u))) by ring. rewrite Rabs_Ropp.
    eapply Rle_trans; [apply sin_lip|apply bend_lip].
  - lra.
  - lra.
  - intros ms. rewrite arc_bend. reflexivity.
Qed.
