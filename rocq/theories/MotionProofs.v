(** Facts about the motion generator's profile in exact arithmetic. *)
From Coq Require Import List ZArith Bool Reals Lra Lia Psatz Arith.
From Verif Require Import NumOps NumReal MotionModel.
Import ListNotations.
Open Scope R_scope.

(** * Gluing differentiable functions *)
Definition below (x c : R) : bool := if Rlt_dec x c then true else false.
Lemma below_true : forall x c, x < c -> below x c = true.
Proof. intros. unfold below. destruct (Rlt_dec x c); [reflexivity|contradiction]. Qed.
Lemma below_false : forall x c, c <= x -> below x c = false.
Proof. intros. unfold below. destruct (Rlt_dec x c); [lra|reflexivity]. Qed.
Definition glue (c : R) (g h : R -> R) (x : R) : R := if below x c then g x else h x.

Lemma glue_derivable : forall g g' h h' c, g c = h c -> g' c = h' c ->
  (forall x, derivable_pt_lim g x (g' x)) -> (forall x, derivable_pt_lim h x (h' x)) ->
  forall x, derivable_pt_lim (glue c g h) x (glue c g' h' x).
Proof.
  intros g g' h h' c E E' G H x. destruct (Rtotal_order x c) as [L|[L|L]].
  - intros eps Heps. destruct (G x eps Heps) as [d Hd].
    assert (P : 0 < Rmin d (c - x)) by (apply Rmin_glb_lt; [apply cond_pos|lra]).
    exists (mkposreal _ P). intros k Nk Hk. cbn in Hk.
    assert (K1 : Rabs k < d) by (eapply Rlt_le_trans; [exact Hk|apply Rmin_l]).
    assert (K2 : Rabs k < c - x) by (eapply Rlt_le_trans; [exact Hk|apply Rmin_r]).
    apply Rabs_def2 in K2. unfold glue. rewrite !below_true by lra. apply Hd; assumption.
  - subst x. intros eps Heps. destruct (G c eps Heps) as [d1 H1]. destruct (H c eps Heps) as [d2 H2].
    assert (P : 0 < Rmin d1 d2) by (apply Rmin_glb_lt; apply cond_pos).
    exists (mkposreal _ P). intros k Nk Hk. cbn in Hk.
    assert (K1 : Rabs k < d1) by (eapply Rlt_le_trans; [exact Hk|apply Rmin_l]).
    assert (K2 : Rabs k < d2) by (eapply Rlt_le_trans; [exact Hk|apply Rmin_r]).
    unfold glue. rewrite (below_false c c) by lra. destruct (Rlt_dec (c + k) c) as [Q|Q].
    + rewrite below_true by exact Q. rewrite <- E, <- E'. apply H1; assumption.
    + rewrite below_false by lra. apply H2; assumption.
  - intros eps Heps. destruct (H x eps Heps) as [d Hd].
    assert (P : 0 < Rmin d (x - c)) by (apply Rmin_glb_lt; [apply cond_pos|lra]).
    exists (mkposreal _ P). intros k Nk Hk. cbn in Hk.
    assert (K1 : Rabs k < d) by (eapply Rlt_le_trans; [exact Hk|apply Rmin_l]).
    assert (K2 : Rabs k < x - c) by (eapply Rlt_le_trans; [exact Hk|apply Rmin_r]).
    apply Rabs_def2 in K2. unfold glue. rewrite !below_false by lra. apply Hd; assumption.
Qed.
(** A function which agrees with [g] around [x]. *)
Lemma local_derivable : forall f g x l e, 0 < e -> (forall y, x - e < y -> f y = g y) ->
  derivable_pt_lim g x l -> derivable_pt_lim f x l.
Proof.
  intros f g x l e He E G eps Heps. destruct (G eps Heps) as [d Hd].
  assert (P : 0 < Rmin d e) by (apply Rmin_glb_lt; [apply cond_pos|lra]).
  exists (mkposreal _ P). intros k Nk Hk. cbn in Hk.
  assert (K1 : Rabs k < d) by (eapply Rlt_le_trans; [exact Hk|apply Rmin_l]).
  assert (K2 : Rabs k < e) by (eapply Rlt_le_trans; [exact Hk|apply Rmin_r]).
  apply Rabs_def2 in K2. rewrite !E by lra. apply Hd; assumption.
Qed.

(** * The speed profile *)
(** Time of a motion over the distance [d] with top speed [v]: the two ramps take 3/2 of the time of
    constant acceleration. *)
Definition ramp (a1 a2 : R) : R := 3 / 4 * (/ a1 + / a2).
Definition profile_time (a1 a2 d v : R) : R := ramp a1 a2 * v + d / v.

Lemma ramp_pos : forall a1 a2, 0 < a1 -> 0 < a2 -> 0 < ramp a1 a2.
Proof. intros. unfold ramp. assert (0 < / a1) by (apply Rinv_0_lt_compat; lra). assert (0 < / a2) by (apply Rinv_0_lt_compat; lra). lra. Qed.

Definition sgn (x : R) : R := if Rle_dec 0 x then 1 else -1.
Lemma signum_real : forall x, signum real x = sgn x.
Proof.
  intros x. unfold signum, sgn. cbn. destruct (Req_EM_T x x); [|contradiction]. destruct (Rle_dec 0 x); reflexivity.
Qed.
Lemma sgn_abs : forall x, x * sgn x = Rabs x.
Proof. intros x. unfold sgn. destruct (Rle_dec 0 x); [rewrite Rabs_pos_eq by lra; ring|rewrite Rabs_left by lra; ring]. Qed.
Lemma abs_sgn : forall x, Rabs x * sgn x = x.
Proof. intros x. unfold sgn. destruct (Rle_dec 0 x); [rewrite Rabs_pos_eq by lra; ring|rewrite Rabs_left by lra; ring]. Qed.
Lemma sgn_case : forall x, sgn x = 1 \/ sgn x = -1.
Proof. intros x. unfold sgn. destruct (Rle_dec 0 x); auto. Qed.

Definition reach (x v a1 a2 : R) : R := reach_speed real x v a1 a2.
Lemma reach_facts : forall x v a1 a2, x <> 0 -> 0 < v -> 0 < a1 -> 0 < a2 ->
  0 < reach x v a1 a2 <= v /\ ramp a1 a2 * (reach x v a1 a2 * reach x v a1 a2) <= Rabs x /\
  (forall w, 0 < w -> w <= v -> ramp a1 a2 * (w * w) <= Rabs x -> w <= reach x v a1 a2).
Proof.
  intros x v a1 a2 X V A1 A2. pose proof (ramp_pos a1 a2 A1 A2) as K. pose proof (Rabs_pos_lt x X) as D.
  unfold reach, reach_speed. rewrite signum_real. cbn [f_lt f_abs f_add f_mul f_div f_int f_sqrt real].
  replace (3 / 4 * (v * v / a1) + 3 / 4 * (v * v / a2)) with (ramp a1 a2 * (v * v)) by (unfold ramp; field; lra).
  destruct (Rlt_dec (Rabs x) (ramp a1 a2 * (v * v))) as [L|L].
  - replace (4 / 3 * x * sgn x * (a1 * a2) / (a1 + a2)) with (Rabs x / ramp a1 a2)
      by (rewrite <- sgn_abs; unfold ramp; field; repeat split; lra).
    set (q := Rabs x / ramp a1 a2). assert (Q : 0 < q) by (apply Rdiv_lt_0_compat; assumption).
    assert (Kq : ramp a1 a2 * q = Rabs x) by (unfold q; field; lra).
    pose proof (sqrt_lt_R0 q Q) as S. pose proof (sqrt_sqrt q (Rlt_le _ _ Q)) as SS.
    split; [split; [exact S|]|split].
    + apply Rsqr_incr_0_var; [|lra]. unfold Rsqr. rewrite SS. nra.
    + rewrite SS, Kq. lra.
    + intros w W _ H. apply Rsqr_incr_0_var; [|lra]. unfold Rsqr. rewrite SS. nra.
  - split; [lra|]. split; [lra|]. auto.
Qed.

Definition sync (x a1 a2 T : R) : R * (R * R * R * R) := synchronized real x a1 a2 T.
Lemma sync_facts : forall x v a1 a2 T, x <> 0 -> 0 < v -> 0 < a1 -> 0 < a2 ->
  profile_time a1 a2 (Rabs x) (reach x v a1 a2) <= T ->
  exists D, 0 < D <= reach x v a1 a2 /\ ramp a1 a2 * (D * D) <= Rabs x /\ profile_time a1 a2 (Rabs x) D = T /\
    sync x a1 a2 T = (D, (3/2 * D / a1, T - 3/2 * D / a2, T, D * sgn x * (1/2 * (3/2 * D / a1)))).
Proof.
  intros x v a1 a2 T X V A1 A2 H. pose proof (ramp_pos a1 a2 A1 A2) as K. pose proof (Rabs_pos_lt x X) as D0.
  destruct (reach_facts x v a1 a2 X V A1 A2) as ((R0 & R1) & R2 & _). set (r := reach x v a1 a2) in *. set (k := ramp a1 a2) in *. set (d := Rabs x) in *.
  unfold profile_time in *. fold k in H |- *.
  assert (H' : k * r * r + d <= T * r).
  { apply (Rmult_le_compat_r r) in H; [|lra]. replace ((k * r + d / r) * r) with (k * r * r + d) in H by (field; lra). exact H. }
  assert (T0 : 0 < T) by nra.
  set (q := T * T - 4 * k * d).
  assert (Q : (2 * k * r - T) * (2 * k * r - T) <= q) by (unfold q; nra).
  assert (Q0 : 0 <= q) by (eapply Rle_trans; [apply Rle_0_sqr|exact Q]).
  pose proof (sqrt_pos q) as S0. pose proof (sqrt_sqrt q Q0) as SS. set (s := sqrt q) in *.
  assert (S1 : s < T). { assert (k * d > 0) by nra. unfold q in SS. nra. }
  set (D := (T - s) / (2 * k)).
  assert (KD : 2 * k * D = T - s) by (unfold D; field; lra).
  assert (DP : 0 < D) by (apply Rdiv_lt_0_compat; lra).
  assert (DR : D <= r).
  { assert (T - s <= 2 * k * r).
    { destruct (Rle_dec T (2 * k * r)) as [C|C]; [lra|]. assert (T - 2 * k * r <= s) by (apply Rsqr_incr_0_var; [unfold Rsqr; nra|lra]). lra. }
    apply (Rmult_le_reg_l (2 * k)); lra. }
  assert (RO : k * D * D - T * D + d = 0).
  { apply (Rmult_eq_reg_l (4 * k)); [|lra]. replace (4 * k * (k * D * D - T * D + d)) with ((2 * k * D) * (2 * k * D) - 2 * T * (2 * k * D) + 4 * k * d) by ring.
    rewrite KD. unfold q in SS. nra. }
  assert (PT : k * D + d / D = T).
  { apply (Rmult_eq_reg_r D); [|lra]. replace ((k * D + d / D) * D) with (k * D * D + d) by (field; lra). lra. }
  exists D. split; [lra|]. split; [|split; [exact PT|]].
  { eapply Rle_trans; [|exact R2]. apply Rmult_le_compat_l; nra. }
  unfold sync, synchronized. rewrite signum_real. cbn [f_abs f_add f_sub f_mul f_div f_int f_sqrt f_max f_lit real].
  unfold f_lit. cbn [f_div f_int real].
  set (P := a1 * a2). assert (PP : 0 < P) by (apply Rmult_lt_0_compat; assumption).
  assert (E : Rmax (-1 * T * a2 * a1 * (-1 * T * a2 * a1) - 4 * (3 / 2 / 2 * (a2 + a1)) * (Rabs x * a2 * a1)) 0 = (P * s) * (P * s)).
  { replace ((P * s) * (P * s)) with (P * P * (s * s)) by ring. rewrite SS. rewrite Rmax_left.
    - unfold P, q, k, ramp, d. field. lra.
    - replace (-1 * T * a2 * a1 * (-1 * T * a2 * a1) - 4 * (3 / 2 / 2 * (a2 + a1)) * (Rabs x * a2 * a1)) with (P * P * q)
        by (unfold P, q, k, ramp, d; field; lra). nra. }
  rewrite E, sqrt_square by nra.
  replace ((-1 * (-1 * T * a2 * a1) - P * s) / (2 * (3 / 2 / 2 * (a2 + a1)))) with D
    by (unfold D, P, k, ramp; field; repeat split; lra).
  assert (F : 3 / 2 * D / a1 / 2 + 3 / 2 * D / a2 / 2 + Rabs (x / D) = T).
  { assert (AX : Rabs (x / D) = d / D).
    { unfold Rdiv. rewrite Rabs_mult, (Rabs_pos_eq (/ D)) by (left; apply Rinv_0_lt_compat; exact DP). reflexivity. }
    rewrite AX. rewrite <- PT at 1. unfold k, ramp. clearbody D d. field. repeat split; lra. }
  rewrite F. reflexivity.
Qed.

(** * The position over time *)
Section Shape.
  Variables D t1 d2 T d : R.
  Hypotheses (HD : 0 < D) (H1 : 0 < t1) (H2 : 0 < d2) (HT : t1 + d2 <= T) (Hd : d = D * (T - t1 / 2 - d2 / 2)).
  Let t2 := T - d2.
  Definition p1 t := -1 / (t1 * t1 * t1) * D * (1 / 2 * t - t1) * (t * t * t).
  Definition v1 t := D * (3 * (t / t1) * (t / t1) - 2 * (t / t1) * (t / t1) * (t / t1)).
  Definition a1 t := 6 * D / t1 * (t / t1) * (1 - t / t1).
  Definition p2 t := D * t1 / 2 + (t - t1) * D.
  Definition p3 t := let u := t - (T - d2) in d + 1 / 2 * (1 / (d2 * d2 * d2) * (u - 2 * d2) * (u * u * u) + (2 * u - d2)) * D.
  Definition v3 t := let w := (t - (T - d2)) / d2 in D * (1 - 3 * w * w + 2 * w * w * w).
  Definition a3 t := let w := (t - (T - d2)) / d2 in - (6 * D / d2 * w * (1 - w)).
  Definition pos := glue T (glue t2 (glue t1 p1 p2) p3) (fun _ => d).
  Definition vel := glue T (glue t2 (glue t1 v1 (fun _ => D)) v3) (fun _ => 0).
  Definition acc := glue T (glue t2 (glue t1 a1 (fun _ => 0)) a3) (fun _ => 0).

  Lemma d_p1 : forall t, derivable_pt_lim p1 t (v1 t).
  Proof.
    intros t. unfold p1.
    replace (v1 t) with ((0 * (1 / 2 * t - t1) + -1 / (t1 * t1 * t1) * D * (1 / 2 * 1 - 0)) * (t * t * t)
       + -1 / (t1 * t1 * t1) * D * (1 / 2 * t - t1) * ((1 * t + t * 1) * t + t * t * 1)) by (unfold v1; field; lra).
    apply (derivable_pt_lim_mult (fun t => -1 / (t1 * t1 * t1) * D * (1 / 2 * t - t1)) (fun t => t * t * t)).
    - apply (derivable_pt_lim_mult (fun _ => -1 / (t1 * t1 * t1) * D) (fun t => 1 / 2 * t - t1)); [apply derivable_pt_lim_const|].
      apply (derivable_pt_lim_minus (fun t => 1 / 2 * t) (fun _ => t1)); [|apply derivable_pt_lim_const].
      apply (derivable_pt_lim_scal id). apply derivable_pt_lim_id.
    - apply (derivable_pt_lim_mult (fun t => t * t) id); [|apply derivable_pt_lim_id].
      apply (derivable_pt_lim_mult id id); apply derivable_pt_lim_id.
  Qed.
  (** Polynomials up to degree 4. *)
  Definition poly (c0 c1 c2 c3 c4 t : R) : R := c0 + c1 * t + c2 * (t * t) + c3 * (t * t * t) + c4 * (t * t * t * t).
  Lemma d_poly : forall c0 c1 c2 c3 c4 t, derivable_pt_lim (poly c0 c1 c2 c3 c4) t (poly c1 (2 * c2) (3 * c3) (4 * c4) 0 t).
  Proof.
    intros c0 c1 c2 c3 c4 t. unfold poly.
    assert (I : derivable_pt_lim id t 1) by apply derivable_pt_lim_id.
    assert (I2 : derivable_pt_lim (fun t => t * t) t (1 * t + t * 1)) by exact (derivable_pt_lim_mult id id t 1 1 I I).
    assert (I3 := derivable_pt_lim_mult (fun t => t * t) id t _ _ I2 I).
    assert (I4 := derivable_pt_lim_mult (fun t => t * t * t) id t _ _ I3 I).
    replace (c1 + 2 * c2 * t + 3 * c3 * (t * t) + 4 * c4 * (t * t * t) + 0 * (t * t * t * t)) with
      (0 + c1 * 1 + c2 * (1 * t + t * 1) + c3 * ((1 * t + t * 1) * t + t * t * 1) + c4 * (((1 * t + t * 1) * t + t * t * 1) * t + t * t * t * 1)) by ring.
    repeat (apply (derivable_pt_lim_plus (fun t => _) (fun t => _))); try (apply (derivable_pt_lim_scal (fun t => _)); assumption).
    apply derivable_pt_lim_const.
  Qed.
  Lemma d_ext : forall f g x l l', (forall y, f y = g y) -> l = l' -> derivable_pt_lim g x l' -> derivable_pt_lim f x l.
  Proof. intros f g x l l' E -> H. apply (local_derivable f g x l' 1); [lra|intros; apply E|exact H]. Qed.
  Lemma d_v1 : forall t, derivable_pt_lim v1 t (a1 t).
  Proof.
    intros t. eapply (d_ext v1 (poly 0 0 (3 * D / (t1 * t1)) (- (2 * D / (t1 * t1 * t1))) 0)); [| |apply d_poly].
    - intros y. unfold v1, poly. field. lra.
    - unfold a1, poly. field. lra.
  Qed.
  Lemma d_p2 : forall t, derivable_pt_lim p2 t D.
  Proof.
    intros t. eapply (d_ext p2 (poly (D * t1 / 2 - t1 * D) D 0 0 0)); [| |apply d_poly].
    - intros y. unfold p2, poly. ring.
    - unfold poly. ring.
  Qed.
  Lemma d_shift : forall f x l c, derivable_pt_lim f (x - c) l -> derivable_pt_lim (fun y => f (y - c)) x l.
  Proof.
    intros f x l c H. intros eps Heps. destruct (H eps Heps) as [e He]. exists e. intros k N K.
    replace (x + k - c) with (x - c + k) by ring. apply He; assumption.
  Qed.
  Lemma d_p3 : forall t, derivable_pt_lim p3 t (v3 t).
  Proof.
    intros t. eapply (d_ext p3 (fun y => poly (d - 1 / 2 * d2 * D) D 0 (- (D / (d2 * d2))) (1 / 2 * D / (d2 * d2 * d2)) (y - (T - d2)))); [| |apply d_shift, d_poly].
    - intros y. unfold p3, poly. field. lra.
    - unfold v3, poly. field. lra.
  Qed.
  Lemma d_v3 : forall t, derivable_pt_lim v3 t (a3 t).
  Proof.
    intros t. eapply (d_ext v3 (fun y => poly D 0 (- (3 * D / (d2 * d2))) (2 * D / (d2 * d2 * d2)) 0 (y - (T - d2)))); [| |apply d_shift, d_poly].
    - intros y. unfold v3, poly. field. lra.
    - unfold a3, poly. field. lra.
  Qed.
  Lemma d_const : forall c t, derivable_pt_lim (fun _ => c) t 0.
  Proof. intros. apply derivable_pt_lim_const. Qed.
  Lemma glue_at : forall c g h x, c <= x -> glue c g h x = h x.
  Proof. intros. unfold glue. rewrite below_false by assumption. reflexivity. Qed.
  Lemma glue_before : forall c g h x, x < c -> glue c g h x = g x.
  Proof. intros. unfold glue. rewrite below_true by assumption. reflexivity. Qed.

  Lemma d_pos : forall t, derivable_pt_lim pos t (vel t).
  Proof.
    apply glue_derivable; [..|exact (d_const d)].
    - rewrite glue_at by (unfold t2; lra). unfold p3. rewrite Hd. field. lra.
    - rewrite glue_at by (unfold t2; lra). unfold v3. field. lra.
    - apply glue_derivable; [..|exact d_p3].
      + rewrite glue_at by (unfold t2; lra). unfold p2, p3, t2. rewrite Hd. field. lra.
      + rewrite glue_at by (unfold t2; lra). unfold v3, t2. field. lra.
      + apply glue_derivable; [..|exact d_p1|exact d_p2].
        * unfold p1, p2. field. lra.
        * unfold v1. field. lra.
  Qed.
  Lemma d_vel : forall t, derivable_pt_lim vel t (acc t).
  Proof.
    apply glue_derivable; [..|exact (d_const 0)].
    - rewrite glue_at by (unfold t2; lra). unfold v3. field. lra.
    - rewrite glue_at by (unfold t2; lra). unfold a3. field. lra.
    - apply glue_derivable; [..|exact d_v3].
      + rewrite glue_at by (unfold t2; lra). unfold v3, t2. field. lra.
      + rewrite glue_at by (unfold t2; lra). unfold a3, t2. field. lra.
      + apply glue_derivable; [..|exact d_v1|exact (d_const D)].
        * unfold v1. field. lra.
        * unfold a1. field. lra.
  Qed.
  Lemma unit_div : forall x y, 0 < y -> 0 <= x <= y -> 0 <= x / y <= 1.
  Proof.
    intros x y Y X. split; [apply Rmult_le_pos; [lra|left; apply Rinv_0_lt_compat; lra]|].
    apply (Rmult_le_reg_r y); [lra|]. unfold Rdiv. rewrite Rmult_assoc, Rinv_l by lra. lra.
  Qed.
  Lemma unit_div_pos : forall x y, 0 < y -> 0 < x < y -> 0 < x / y < 1.
  Proof.
    intros x y Y X. split; [apply Rdiv_lt_0_compat; lra|].
    apply (Rmult_lt_reg_r y); [lra|]. unfold Rdiv. rewrite Rmult_assoc, Rinv_l by lra. lra.
  Qed.
  Lemma smooth : forall w, 0 <= w <= 1 ->
    0 <= D * (3 * w * w - 2 * w * w * w) <= D /\ 0 <= D * (1 - 3 * w * w + 2 * w * w * w) <= D.
  Proof.
    intros w W. assert (0 <= w * w) by nra. assert (0 <= (1 - w) * (1 - w)) by nra.
    assert (A : 0 <= w * w * (3 - 2 * w)) by (apply Rmult_le_pos; lra).
    assert (B : 0 <= (1 - w) * (1 - w) * (1 + 2 * w)) by (apply Rmult_le_pos; lra).
    assert (0 <= D * (w * w * (3 - 2 * w))) by (apply Rmult_le_pos; lra).
    assert (0 <= D * ((1 - w) * (1 - w) * (1 + 2 * w))) by (apply Rmult_le_pos; lra).
    split; split; nra.
  Qed.
  Lemma vel_range : forall t, 0 <= t -> 0 <= vel t <= D.
  Proof.
    intros t Ht. unfold vel, glue, below. destruct (Rlt_dec t T); [destruct (Rlt_dec t t2); [destruct (Rlt_dec t t1)|]|]; try lra.
    - pose proof (unit_div t t1 H1 ltac:(lra)) as U. unfold v1. set (w := t / t1) in *. clearbody w. exact (proj1 (smooth w U)).
    - unfold t2 in *. pose proof (unit_div (t - (T - d2)) d2 H2 ltac:(lra)) as U. unfold v3. cbv zeta. set (w := (t - (T - d2)) / d2) in *. clearbody w. exact (proj2 (smooth w U)).
  Qed.
  Lemma vel_pos : forall t, 0 < t < T -> 0 < vel t.
  Proof.
    intros t Ht. unfold vel, glue, below. destruct (Rlt_dec t T); [|lra]. destruct (Rlt_dec t t2); [destruct (Rlt_dec t t1)|]; try lra.
    - pose proof (unit_div_pos t t1 H1 ltac:(lra)) as U. unfold v1. set (w := t / t1) in *.
      assert (0 < w * w * (3 - 2 * w)) by (apply Rmult_lt_0_compat; nra). nra.
    - unfold t2 in *. destruct (Req_EM_T t (T - d2)) as [E|E].
      + unfold v3. cbv zeta. rewrite E. replace ((T - d2 - (T - d2)) / d2) with 0 by (field; lra). lra.
      + pose proof (unit_div_pos (t - (T - d2)) d2 H2 ltac:(lra)) as U. unfold v3. cbv zeta. set (w := (t - (T - d2)) / d2) in *.
        assert (0 < (1 - w) * (1 - w) * (1 + 2 * w)) by (apply Rmult_lt_0_compat; nra). nra.
  Qed.
  Lemma acc_range : forall t, 0 <= t -> - (3 / 2 * D / d2) <= acc t <= 3 / 2 * D / t1.
  Proof.
    intros t Ht. assert (Q1 : 0 < 3 / 2 * D / t1) by (apply Rdiv_lt_0_compat; lra).
    assert (Q2 : 0 < 3 / 2 * D / d2) by (apply Rdiv_lt_0_compat; lra).
    unfold acc, glue, below. destruct (Rlt_dec t T); [destruct (Rlt_dec t t2); [destruct (Rlt_dec t t1)|]|]; try lra.
    - pose proof (unit_div t t1 H1 ltac:(lra)) as U. unfold a1. replace (6 * D / t1) with (4 * (3 / 2 * D / t1)) by (field; lra).
      set (w := t / t1) in *. set (z := 3 / 2 * D / t1) in *. clearbody w z. assert (0 <= w * (1 - w) <= 1 / 4) by (pose proof (Rle_0_sqr (w - 1 / 2)) as SQ; unfold Rsqr in SQ; split; nra).
      replace (4 * z * w * (1 - w)) with (4 * z * (w * (1 - w))) by ring. split; nra.
    - unfold t2 in *. pose proof (unit_div (t - (T - d2)) d2 H2 ltac:(lra)) as U. unfold a3. cbv zeta. replace (6 * D / d2) with (4 * (3 / 2 * D / d2)) by (field; lra).
      set (w := (t - (T - d2)) / d2) in *. set (z := 3 / 2 * D / d2) in *. clearbody w z. assert (0 <= w * (1 - w) <= 1 / 4) by (pose proof (Rle_0_sqr (w - 1 / 2)) as SQ; unfold Rsqr in SQ; split; nra).
      replace (4 * z * w * (1 - w)) with (4 * z * (w * (1 - w))) by ring. split; nra.
  Qed.
  Lemma pos_start : pos 0 = 0.
  Proof. unfold pos. unfold t2. rewrite !glue_before by lra. unfold p1. ring. Qed.
  Lemma pos_end : forall t, T <= t -> pos t = d.
  Proof. intros t H. unfold pos. rewrite glue_at by exact H. reflexivity. Qed.
  (** Mean value. *)
  Lemma pos_diff : forall x y, 0 <= x < y -> exists c, x < c < y /\ pos y - pos x = vel c * (y - x).
  Proof.
    intros x y H. destruct (MVT_cor2 pos vel x y ltac:(lra)) as (c & E & Hc); [intros c _; apply d_pos|]. exists c. split; assumption.
  Qed.
  Lemma pos_lipschitz : forall x y, 0 <= x -> 0 <= y -> Rabs (pos y - pos x) <= D * Rabs (y - x).
  Proof.
    assert (G : forall x y, 0 <= x -> x < y -> Rabs (pos y - pos x) <= D * Rabs (y - x)).
    { intros x y X L. destruct (pos_diff x y (conj X L)) as (c & Hc & E). rewrite E, Rabs_mult.
      apply Rmult_le_compat_r; [apply Rabs_pos|]. pose proof (vel_range c ltac:(lra)). rewrite Rabs_pos_eq; lra. }
    intros x y X Y. destruct (Rtotal_order x y) as [L|[->|L]].
    - apply G; assumption.
    - rewrite !Rminus_diag_eq by reflexivity. rewrite Rabs_R0. lra.
    - rewrite Rabs_minus_sym, (Rabs_minus_sym y x). apply G; assumption.
  Qed.
  Lemma pos_before : forall t, 0 <= t < T -> pos t < d.
  Proof.
    intros t Ht. destruct (pos_diff t T ltac:(lra)) as (c & Hc & E). rewrite (pos_end T) in E by lra.
    pose proof (vel_pos c ltac:(lra)). nra.
  Qed.
End Shape.
