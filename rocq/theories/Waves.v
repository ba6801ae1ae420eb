(** The curves A (1 - cos x), sampled at equal distances: differences up to the third. *)
From Coq Require Import Reals Lra Lia ZArith NArith.
Open Scope R_scope.

Lemma sin_small : forall x, 0 <= x -> Rabs (sin x) <= x.
Proof.
  intros x H. destruct (Req_dec x 0) as [->|N]; [rewrite sin_0, Rabs_R0; lra|].
  destruct (Rle_dec x 1) as [L|L].
  - assert (P : 0 <= sin x).
    { apply sin_ge_0; [exact H|]. pose proof PI2_1. lra. }
    rewrite Rabs_pos_eq by exact P. left. apply sin_lt_x. lra.
  - pose proof (SIN_bound x). apply Rabs_le. lra.
Qed.
Lemma one_cos : forall x, 0 <= x -> 0 <= 1 - cos x <= x * x / 2.
Proof.
  intros x H. replace (cos x) with (cos (2 * (x / 2))) by (f_equal; lra). rewrite cos_2a_sin.
  pose proof (sin_small (x / 2)) as S. assert (S' : Rabs (sin (x / 2)) <= x / 2) by (apply S; lra).
  assert (Q : sin (x / 2) * sin (x / 2) <= (x / 2) * (x / 2)).
  { pose proof (Rabs_pos (sin (x / 2))).
    replace (sin (x / 2) * sin (x / 2)) with (Rabs (sin (x / 2)) * Rabs (sin (x / 2))); [apply Rmult_le_compat; assumption|].
    rewrite <- Rabs_mult. apply Rabs_pos_eq. apply Rle_0_sqr. }
  pose proof (Rle_0_sqr (sin (x / 2))) as P. unfold Rsqr in P. lra.
Qed.
Lemma cos_close : forall a x, 0 <= x -> Rabs (cos (a + x) - cos a) <= x.
Proof.
  intros a x H. rewrite form2. replace ((a + x - a) / 2) with (x / 2) by lra.
  pose proof (sin_small (x / 2)) as S. assert (S' : Rabs (sin (x / 2)) <= x / 2) by (apply S; lra).
  rewrite !Rabs_mult. replace (Rabs (-2)) with 2 by (rewrite Rabs_left; lra).
  pose proof (SIN_bound ((a + x + a) / 2)) as B. apply Rabs_le in B.
  pose proof (Rabs_pos (sin (x / 2))). pose proof (Rabs_pos (sin ((a + x + a) / 2))).
  replace x with (2 * (x / 2) * 1) at 3 by lra. apply Rmult_le_compat; [lra|apply Rabs_pos| |exact B]. lra.
Qed.

Section Wave.
  Variables A th : R.
  Hypothesis HA : 0 <= A.
  Hypothesis Hth : 0 <= th.
  Definition wave (x : R) : R := A * (1 - cos x).

  Lemma wave_d1 : forall x, Rabs (wave (x + th) - wave x) <= A * th.
  Proof.
    intros x. unfold wave. replace (A * (1 - cos (x + th)) - A * (1 - cos x)) with (- (A * (cos (x + th) - cos x))) by ring.
    rewrite Rabs_Ropp, Rabs_mult, (Rabs_pos_eq A) by exact HA. apply Rmult_le_compat_l; [exact HA|]. apply cos_close, Hth.
  Qed.
  Lemma wave_second : forall x, wave (x + th + th) - 2 * wave (x + th) + wave x = 2 * A * (1 - cos th) * cos (x + th).
  Proof.
    intros x. unfold wave. replace (cos x) with (cos ((x + th) - th)) by (f_equal; lra).
    rewrite (cos_plus (x + th) th), (cos_minus (x + th) th). ring.
  Qed.
  Lemma wave_d2 : forall x, Rabs (wave (x + th + th) - 2 * wave (x + th) + wave x) <= A * th * th.
  Proof.
    intros x. rewrite wave_second. rewrite !Rabs_mult, (Rabs_pos_eq A), (Rabs_pos_eq 2) by lra.
    pose proof (one_cos th Hth) as [C1 C2]. rewrite (Rabs_pos_eq (1 - cos th)) by exact C1.
    pose proof (COS_bound (x + th)) as B. apply Rabs_le in B.
    replace (A * th * th) with (2 * A * (th * th / 2) * 1) by lra.
    apply Rmult_le_compat; [|apply Rabs_pos| |exact B].
    - apply Rmult_le_pos; [lra|exact C1].
    - apply Rmult_le_compat_l; [lra|exact C2].
  Qed.
  Lemma wave_d3 : forall x,
    Rabs (wave (x + th + th + th) - 3 * wave (x + th + th) + 3 * wave (x + th) - wave x) <= A * th * th * th.
  Proof.
    intros x. replace (wave (x + th + th + th) - 3 * wave (x + th + th) + 3 * wave (x + th) - wave x)
      with ((wave (x + th + th + th) - 2 * wave (x + th + th) + wave (x + th)) - (wave (x + th + th) - 2 * wave (x + th) + wave x)) by ring.
    rewrite (wave_second (x + th)), (wave_second x).
    replace (2 * A * (1 - cos th) * cos (x + th + th) - 2 * A * (1 - cos th) * cos (x + th))
      with (2 * A * (1 - cos th) * (cos (x + th + th) - cos (x + th))) by ring.
    rewrite !Rabs_mult, (Rabs_pos_eq A), (Rabs_pos_eq 2) by lra.
    pose proof (one_cos th Hth) as [C1 C2]. rewrite (Rabs_pos_eq (1 - cos th)) by exact C1.
    pose proof (cos_close (x + th) th Hth) as B.
    replace (A * th * th * th) with (2 * A * (th * th / 2) * th) by lra.
    apply Rmult_le_compat; [|apply Rabs_pos| |exact B].
    - apply Rmult_le_pos; [lra|exact C1].
    - apply Rmult_le_compat_l; [lra|exact C2].
  Qed.
  (** The start from rest. *)
  Lemma wave_0 : wave 0 = 0.
  Proof. unfold wave. rewrite cos_0. lra. Qed.
  Lemma wave_first : 0 <= wave th <= A * th * th / 2.
  Proof.
    unfold wave. pose proof (one_cos th Hth) as [C1 C2]. split; [apply Rmult_le_pos; assumption|].
    replace (A * th * th / 2) with (A * (th * th / 2)) by lra. apply Rmult_le_compat_l; assumption.
  Qed.
  Lemma wave_second_first : Rabs (wave (th + th) - 2 * wave th) <= A * th * th.
  Proof. pose proof (wave_d2 0) as W. rewrite wave_0, !Rplus_0_l, Rplus_0_r in W. exact W. Qed.
  Lemma wave_third_first : th <= 1 -> Rabs (wave (th + th) - 3 * wave th) <= A * th * th / 2.
  Proof.
    intros H1. unfold wave. replace (th + th) with (2 * th) by lra. rewrite cos_2a_cos.
    replace (A * (1 - (2 * cos th * cos th - 1)) - 3 * (A * (1 - cos th))) with (A * (1 - cos th) * (2 * cos th - 1)) by ring.
    pose proof (one_cos th Hth) as [C1 C2]. pose proof (COS_bound th) as B.
    rewrite !Rabs_mult, (Rabs_pos_eq A), (Rabs_pos_eq (1 - cos th)) by assumption.
    assert (T1 : th * th <= 1) by (replace 1 with (1 * 1) by lra; apply Rmult_le_compat; assumption).
    assert (B2 : Rabs (2 * cos th - 1) <= 1) by (apply Rabs_le; lra).
    replace (A * th * th / 2) with (A * (th * th / 2) * 1) by field. apply Rmult_le_compat; [|apply Rabs_pos| |exact B2].
    - apply Rmult_le_pos; assumption.
    - apply Rmult_le_compat_l; assumption.
  Qed.
End Wave.
