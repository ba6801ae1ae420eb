(** Differences of the joint motion's profile (MotionProofs.v): with the position continued by its
    start before time 0, the acceleration has no jumps and its slope is bounded. *)
From Coq Require Import Reals Lra Psatz.
From Verif Require Import MotionProofs.
Open Scope R_scope.

(** * Differences and derivatives *)
Section Differences.
  Variables (f f1 f2 : R -> R) (h : R).
  Hypotheses (Hh : 0 < h) (D1 : forall t, derivable_pt_lim f t (f1 t)) (D2 : forall t, derivable_pt_lim f1 t (f2 t)).
  Lemma later : forall g g' t, (forall t, derivable_pt_lim g t (g' t)) -> derivable_pt_lim (fun y => g (y - - h) - g y) t (g' (t - - h) - g' t).
  Proof. intros g g' t H. apply (derivable_pt_lim_minus (fun y => g (y - - h)) g); [|apply H]. apply d_shift, H. Qed.
  Lemma first_difference : forall t, exists c, f (t + h) - f t = f1 c * h.
  Proof.
    intros t. destruct (MVT_cor2 f f1 t (t + h) ltac:(lra)) as (c & E & _); [intros; apply D1|]. exists c. rewrite E. ring.
  Qed.
  Lemma second_difference : forall t, exists c, f (t + 2 * h) - 2 * f (t + h) + f t = f2 c * (h * h).
  Proof.
    intros t. destruct (MVT_cor2 (fun y => f (y - - h) - f y) (fun y => f1 (y - - h) - f1 y) t (t + h) ltac:(lra)) as (c & E & _).
    { intros; apply later, D1. }
    destruct (MVT_cor2 f1 f2 c (c + h) ltac:(lra)) as (c' & E' & _); [intros; apply D2|]. exists c'.
    replace (t + h - - h) with (t + 2 * h) in E by ring. replace (t - - h) with (t + h) in E by ring.
    replace (c - - h) with (c + h) in E by ring.
    replace (f (t + 2 * h) - 2 * f (t + h) + f t) with (f (t + 2 * h) - f (t + h) - (f (t + h) - f t)) by ring. rewrite E, E'. ring.
  Qed.
  Lemma third_difference : forall t, exists c, f (t + 3 * h) - 3 * f (t + 2 * h) + 3 * f (t + h) - f t = (f2 (c + h) - f2 c) * (h * h).
  Proof.
    intros t. set (g := fun y => f (y - - h) - f y). set (g1 := fun y => f1 (y - - h) - f1 y).
    assert (G : forall y, derivable_pt_lim g y (g1 y)) by (intros; apply later, D1).
    destruct (MVT_cor2 (fun y => g (y - - h) - g y) (fun y => g1 (y - - h) - g1 y) t (t + h) ltac:(lra)) as (c & E & _).
    { intros; apply later, G. }
    destruct (MVT_cor2 g1 (fun y => f2 (y - - h) - f2 y) c (c + h) ltac:(lra)) as (c' & E' & _).
    { intros; apply later, D2. }
    exists c'. replace (c' - - h) with (c' + h) in E' by ring. replace (c - - h) with (c + h) in E by ring.
    unfold g in E. replace (t + h - - h - - h) with (t + 3 * h) in E by ring. replace (t + h - - h) with (t + 2 * h) in E by ring.
    replace (t - - h - - h) with (t + 2 * h) in E by ring. replace (t - - h) with (t + h) in E by ring.
    replace (f (t + 3 * h) - 3 * f (t + 2 * h) + 3 * f (t + h) - f t) with
      (f (t + 3 * h) - f (t + 2 * h) - (f (t + 2 * h) - f (t + h)) - (f (t + 2 * h) - f (t + h) - (f (t + h) - f t))) by ring.
    rewrite E, E'. ring.
  Qed.
End Differences.

(** * Bounded slope *)
Definition lip (L lo hi : R) (f : R -> R) : Prop :=
  forall x y, lo <= x <= hi -> lo <= y <= hi -> Rabs (f x - f y) <= L * Rabs (x - y).
Lemma lip_ordered : forall L lo hi f, (forall x y, lo <= x -> x <= y -> y <= hi -> Rabs (f x - f y) <= L * (y - x)) -> lip L lo hi f.
Proof.
  intros L lo hi f H x y Hx Hy. destruct (Rle_dec x y) as [G|G].
  - replace (Rabs (x - y)) with (y - x) by (rewrite Rabs_minus_sym, Rabs_pos_eq; lra). apply H; lra.
  - replace (Rabs (x - y)) with (x - y) by (rewrite Rabs_pos_eq; lra). rewrite Rabs_minus_sym. apply H; lra.
Qed.
Lemma lip_glue : forall L lo c hi g h, lip L lo c g -> lip L c hi h -> g c = h c -> lip L lo hi (glue c g h).
Proof.
  intros L lo c hi g h G H E. apply lip_ordered. intros x y Lx Lxy Ly. unfold glue, below.
  destruct (Rlt_dec x c) as [X|X]; destruct (Rlt_dec y c) as [Y|Y]; try lra.
  - pose proof (G x y ltac:(lra) ltac:(lra)) as Q. rewrite (Rabs_left1 (x - y)) in Q by lra. lra.
  - pose proof (G x c ltac:(lra) ltac:(lra)) as Q. rewrite (Rabs_left1 (x - c)) in Q by lra.
    pose proof (H c y ltac:(lra) ltac:(lra)) as Q'. rewrite (Rabs_left1 (c - y)) in Q' by lra.
    replace (g x - h y) with ((g x - g c) + (h c - h y)) by (rewrite E; ring).
    pose proof (Rabs_triang (g x - g c) (h c - h y)). lra.
  - pose proof (H x y ltac:(lra) ltac:(lra)) as Q. rewrite (Rabs_left1 (x - y)) in Q by lra. lra.
Qed.
Lemma lip_const : forall L lo hi k, 0 <= L -> lip L lo hi (fun _ => k).
Proof. intros L lo hi k H x y _ _. rewrite Rminus_diag_eq, Rabs_R0 by reflexivity. apply Rmult_le_pos; [exact H|apply Rabs_pos]. Qed.
(** k w (1 - w) with w = (t - b) / r. *)
Lemma lip_bump : forall L k b r f, 0 < r -> Rabs k <= L * r -> (forall t, f t = k * ((t - b) / r) * (1 - (t - b) / r)) -> lip L b (b + r) f.
Proof.
  intros L k b r f Hr Hk E x y Hx Hy. rewrite !E.
  pose proof (unit_div (x - b) r Hr ltac:(lra)) as Ux. pose proof (unit_div (y - b) r Hr ltac:(lra)) as Uy.
  replace (k * ((x - b) / r) * (1 - (x - b) / r) - k * ((y - b) / r) * (1 - (y - b) / r))
    with (k / r * ((1 - (x - b) / r - (y - b) / r) * (x - y))) by (field; lra).
  rewrite !Rabs_mult. set (w := (x - b) / r) in *. set (z := (y - b) / r) in *. clearbody w z.
  assert (B : Rabs (1 - w - z) <= 1) by (apply Rabs_le; lra).
  assert (K : Rabs (k / r) <= L).
  { unfold Rdiv. rewrite Rabs_mult, (Rabs_pos_eq (/ r)) by (left; apply Rinv_0_lt_compat; exact Hr).
    apply Rmult_le_reg_r with r; [exact Hr|]. rewrite Rmult_assoc, Rinv_l by lra. lra. }
  pose proof (Rabs_pos (x - y)) as P. pose proof (Rabs_pos (k / r)) as P'. pose proof (Rabs_pos (1 - w - z)) as P''.
  apply Rmult_le_compat; [exact P'|apply Rmult_le_pos; assumption|exact K|].
  rewrite <- (Rmult_1_l (Rabs (x - y))) at 2. apply Rmult_le_compat_r; assumption.
Qed.

(** * The profile *)
Section Profile.
  Variables D t1 d2 T d : R.
  Hypotheses (HD : 0 < D) (H1 : 0 < t1) (H2 : 0 < d2) (HT : t1 + d2 <= T) (Hd : d = D * (T - t1 / 2 - d2 / 2)).
  Definition epos : R -> R := glue 0 (fun _ => 0) (pos D t1 d2 T d).
  Definition evel : R -> R := glue 0 (fun _ => 0) (vel D t1 d2 T).
  Definition eacc : R -> R := glue 0 (fun _ => 0) (acc D t1 d2 T).
  Lemma vel_0 : vel D t1 d2 T 0 = 0.
  Proof. unfold vel. rewrite !glue_before by lra. unfold v1. field. lra. Qed.
  Lemma acc_0 : acc D t1 d2 T 0 = 0.
  Proof. unfold acc. rewrite !glue_before by lra. unfold a1. field. lra. Qed.
  Lemma d_epos : forall t, derivable_pt_lim epos t (evel t).
  Proof.
    apply glue_derivable; [symmetry; apply pos_start; assumption|symmetry; apply vel_0|intros; apply d_const|].
    intros; apply d_pos; assumption.
  Qed.
  Lemma d_evel : forall t, derivable_pt_lim evel t (eacc t).
  Proof.
    apply glue_derivable; [symmetry; apply vel_0|symmetry; apply acc_0|intros; apply d_const|].
    intros; apply d_vel; assumption.
  Qed.
  Lemma evel_range : forall t, 0 <= evel t <= D.
  Proof.
    intros t. unfold evel, glue, below. destruct (Rlt_dec t 0); [lra|]. apply vel_range; try assumption; lra.
  Qed.
  Lemma eacc_range : forall a t, 3 / 2 * D / t1 <= a -> 3 / 2 * D / d2 <= a -> Rabs (eacc t) <= a.
  Proof.
    intros a t Ha Hb. assert (0 < 3 / 2 * D / t1) by (apply Rdiv_lt_0_compat; lra). unfold eacc, glue, below. destruct (Rlt_dec t 0).
    - rewrite Rabs_R0. lra.
    - pose proof (acc_range D t1 d2 T) as A. specialize (A ltac:(assumption) ltac:(assumption) ltac:(assumption) t ltac:(lra)). apply Rabs_le. lra.
  Qed.
  Lemma eacc_lip : forall L lo hi, 6 * D / (t1 * t1) <= L -> 6 * D / (d2 * d2) <= L -> lip L lo hi eacc.
  Proof.
    intros L lo hi L1 L2.
    assert (Q1 : 0 < 6 * D / (t1 * t1)) by (apply Rdiv_lt_0_compat; [lra|apply Rmult_lt_0_compat; assumption]).
    unfold eacc. apply lip_glue; [apply lip_const; lra| |symmetry; apply acc_0].
    unfold acc. apply lip_glue; [|apply lip_const; lra|].
    2:{ rewrite glue_at by lra. unfold a3. field. lra. }
    apply lip_glue.
    - apply lip_glue.
      + replace t1 with (0 + t1) at 1 by ring. apply (lip_bump L (6 * D / t1) 0 t1); [exact H1| |].
        * rewrite Rabs_pos_eq by (left; apply Rdiv_lt_0_compat; lra).
          replace (6 * D / t1) with (6 * D / (t1 * t1) * t1) by (field; lra). apply Rmult_le_compat_r; lra.
        * intros t. unfold a1. rewrite Rminus_0_r. ring.
      + apply lip_const. lra.
      + unfold a1. field. lra.
    - replace T with (T - d2 + d2) at 2 by ring. apply (lip_bump L (- (6 * D / d2)) (T - d2) d2); [exact H2| |].
      + rewrite Rabs_Ropp, Rabs_pos_eq by (left; apply Rdiv_lt_0_compat; lra).
        replace (6 * D / d2) with (6 * D / (d2 * d2) * d2) by (field; lra). apply Rmult_le_compat_r; lra.
      + intros t. unfold a3. cbv zeta. ring.
    - rewrite glue_at by lra. unfold a3. cbv zeta. field. lra.
  Qed.
  Variable h : R.
  Hypothesis Hh : 0 < h.
  Lemma epos_1 : forall t, 0 <= epos (t + h) - epos t <= D * h.
  Proof.
    intros t. destruct (first_difference epos evel h Hh d_epos t) as (c & ->). pose proof (evel_range c) as E.
    split; [apply Rmult_le_pos; lra|apply Rmult_le_compat_r; lra].
  Qed.
  Lemma epos_2 : forall a t, 3 / 2 * D / t1 <= a -> 3 / 2 * D / d2 <= a -> Rabs (epos (t + 2 * h) - 2 * epos (t + h) + epos t) <= a * (h * h).
  Proof.
    intros a t A1 A2. destruct (second_difference epos evel eacc h Hh d_epos d_evel t) as (c & ->). rewrite Rabs_mult.
    assert (P : 0 <= h * h) by (apply Rmult_le_pos; lra). rewrite (Rabs_pos_eq (h * h) P). apply Rmult_le_compat_r; [exact P|]. apply eacc_range; assumption.
  Qed.
  Lemma epos_3 : forall L t, 6 * D / (t1 * t1) <= L -> 6 * D / (d2 * d2) <= L ->
    Rabs (epos (t + 3 * h) - 3 * epos (t + 2 * h) + 3 * epos (t + h) - epos t) <= L * h * (h * h).
  Proof.
    intros L t A1 A2. destruct (third_difference epos evel eacc h Hh d_epos d_evel t) as (c & ->). rewrite Rabs_mult.
    assert (P : 0 <= h * h) by (apply Rmult_le_pos; lra). rewrite (Rabs_pos_eq (h * h) P). apply Rmult_le_compat_r; [exact P|].
    pose proof (eacc_lip L c (c + h) A1 A2 (c + h) c ltac:(lra) ltac:(lra)) as Q.
    replace (c + h - c) with h in Q by ring. rewrite (Rabs_pos_eq h) in Q by lra. exact Q.
  Qed.
End Profile.
