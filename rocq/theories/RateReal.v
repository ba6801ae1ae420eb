(** The rate limiters in ideal arithmetic. *)
From Coq Require Import List ZArith Bool Reals Lra Lia Psatz.
From Verif Require Import NumOps NumReal RateModel.
Import ListNotations.
Open Scope R_scope.

Definition T : R := 1 / 1000.
Lemma delta_real : DELTA_T real = T. Proof. reflexivity. Qed.
Lemma T_pos : 0 < T. Proof. unfold T. lra. Qed.

(** * One joint *)
Definition velocity_step (V A J v lv la : R) : R :=
  match limit_rate_velocity real V A J v lv la with Some x => x | None => lv end.
(** The limiter as a clamp: the new acceleration. *)
Definition clamped (V A J v lv la : R) : R :=
  Rmax (Rmin (la + Rmax (Rmin (((v - lv) / T - la) / T) J) (- J) * T) (Rmin ((J / A) * (V - lv)) A))
       (Rmax ((J / A) * (- V - lv)) (- A)).
Lemma velocity_clamped : forall V A J v lv la,
  limit_rate_velocity real V A J v lv la = Some (lv + clamped V A J v lv la * T).
Proof. reflexivity. Qed.

(** Admissible limits: one millisecond of jerk does not exceed the acceleration limit. *)
Definition limits (V A J : R) : Prop := 0 < V /\ 0 < A /\ 0 < J /\ J * T <= A.

Lemma limits_ratio : forall V A J, limits V A J -> 0 < J / A /\ (J / A) * T <= 1 /\ (J / A) * A = J.
Proof.
  intros V A J (HV & HA & HJ & H). assert (E : (J / A) * A = J) by (field; lra).
  split; [apply Rdiv_lt_0_compat; assumption|]. split; [|exact E].
  apply Rmult_le_reg_r with A; [assumption|]. replace (J / A * T * A) with (J / A * A * T) by ring. rewrite E. lra.
Qed.
Ltac minmax := unfold Rmin, Rmax in *;
  repeat match goal with
         | |- context [Rle_dec ?a ?b] => destruct (Rle_dec a b)
         | H : context [Rle_dec ?a ?b] |- _ => destruct (Rle_dec a b)
         end.
Lemma clamp_range : forall lo hi x, lo <= hi -> lo <= Rmax (Rmin x hi) lo <= hi.
Proof. intros. split; minmax; lra. Qed.
Lemma clamp_within : forall lo hi x p q, lo <= q -> p <= hi -> p <= x <= q -> p <= Rmax (Rmin x hi) lo <= q.
Proof. intros lo hi x p q H1 H2 [H3 H4]. split; minmax; lra. Qed.

Section Joint.
  (** [W]: the limit of the robot; the limiter works with a slightly smaller [V]. *)
  Variables W V A J : R.
  Hypothesis L : limits V A J.
  Hypothesis HW : V <= W.
  Hypothesis HWA : J * (W - V) <= A * A.
  Let K := J / A.
  Lemma ratio_margin : K * (W - V) <= A.
  Proof.
    destruct (limits_ratio V A J L) as (K1 & _ & K3). fold K in K1, K3. destruct L as (_ & HA & _).
    apply Rmult_le_reg_r with A; [exact HA|]. replace (K * (W - V) * A) with (K * A * (W - V)) by ring. rewrite K3. exact HWA.
  Qed.
  Lemma abs_range : forall x m, Rabs x <= m -> - m <= x <= m.
  Proof. intros x m. unfold Rabs. destruct (Rcase_abs x); lra. Qed.
  Lemma safe_ordered : forall lv, Rabs lv <= W -> Rmax (K * (- V - lv)) (- A) <= Rmin (K * (V - lv)) A.
  Proof.
    intros lv H. apply abs_range in H. destruct (limits_ratio V A J L) as (K1 & _ & _). fold K in K1.
    pose proof ratio_margin as M. destruct L as (HV & HA & _).
    apply Rmax_lub; apply Rmin_glb; nra.
  Qed.
  Lemma clamped_range : forall v lv la, Rabs lv <= W ->
    Rmax (K * (- V - lv)) (- A) <= clamped V A J v lv la <= Rmin (K * (V - lv)) A.
  Proof.
    intros v lv la H. pose proof (safe_ordered lv H) as H1. unfold clamped. fold K. apply clamp_range. exact H1.
  Qed.
  Lemma clamped_acceleration : forall v lv la, Rabs lv <= W -> Rabs (clamped V A J v lv la) <= A.
  Proof.
    intros v lv la H. destruct (clamped_range v lv la H) as [H1 H2]. apply Rabs_le. split.
    - eapply Rle_trans; [|exact H1]. apply Rmax_r.
    - eapply Rle_trans; [exact H2|]. apply Rmin_r.
  Qed.
  Lemma clamped_velocity : forall v lv la, Rabs lv <= W -> Rabs (lv + clamped V A J v lv la * T) <= W.
  Proof.
    intros v lv la H. destruct (clamped_range v lv la H) as [H1 H2].
    destruct (limits_ratio V A J L) as (K1 & K2 & _). fold K in K1, K2.
    assert (H3 : clamped V A J v lv la <= K * (V - lv)) by (eapply Rle_trans; [exact H2|apply Rmin_l]).
    assert (H4 : K * (- V - lv) <= clamped V A J v lv la) by (eapply Rle_trans; [apply Rmax_l|exact H1]).
    set (a := clamped V A J v lv la) in *. clearbody a. pose proof T_pos as HT.
    apply abs_range in H. apply Rabs_le. split.
    - assert (K * (- V - lv) * T <= a * T) by (apply Rmult_le_compat_r; lra).
      destruct (Rle_dec (- V) lv).
      + assert ((- V - lv) <= K * T * (- V - lv)) by nra. nra.
      + assert (0 <= K * T * (- V - lv)) by (apply Rmult_le_pos; nra). nra.
    - assert (a * T <= K * (V - lv) * T) by (apply Rmult_le_compat_r; lra).
      destruct (Rle_dec lv V).
      + assert (K * T * (V - lv) <= (V - lv)) by nra. nra.
      + assert (0 <= K * T * (lv - V)) by (apply Rmult_le_pos; nra). nra.
  Qed.

  (** The jerk: the last acceleration is one which the limiter itself could have produced. *)
  Definition smooth (lv la : R) : Prop :=
    Rabs la <= A /\ la <= K * (V - (lv - la * T)) /\ K * (- V - (lv - la * T)) <= la.
  Lemma clamped_jerk : forall v lv la, smooth lv la -> Rabs (clamped V A J v lv la - la) <= J * T.
  Proof.
    intros v lv la (Ha & Hs1 & Hs2).
    destruct (limits_ratio V A J L) as (K1 & K2 & K3). fold K in K1, K2, K3. destruct L as (HV & HA & HJ & HL).
    pose proof T_pos as HT. unfold clamped. fold K.
    set (c := la + Rmax (Rmin (((v - lv) / T - la) / T) J) (- J) * T).
    assert (Hc : la - J * T <= c <= la + J * T).
    { unfold c. pose proof (clamp_range (- J) J (((v - lv) / T - la) / T)) as Q. specialize (Q ltac:(lra)). nra. }
    clearbody c. assert (Hla : - A <= la <= A) by (apply abs_range; exact Ha).
    assert (U : la - J * T <= Rmin (K * (V - lv)) A).
    { apply Rmin_glb; [|nra]. assert (K * (V - lv) >= la - K * la * T) by nra.
      assert (K * la <= J) by nra. nra. }
    assert (D : Rmax (K * (- V - lv)) (- A) <= la + J * T).
    { apply Rmax_lub; [|nra]. assert (K * (- V - lv) <= la - K * la * T) by nra.
      assert (- J <= K * la) by nra. nra. }
    set (hi := Rmin (K * (V - lv)) A) in *. set (lo := Rmax (K * (- V - lv)) (- A)) in *. clearbody hi lo.
    pose proof (clamp_within lo hi c (la - J * T) (la + J * T) D U Hc). apply Rabs_le. lra.
  Qed.
  (** and this carries over to the next step *)
  Lemma clamped_smooth : forall v lv la, Rabs lv <= W ->
    smooth (lv + clamped V A J v lv la * T) (clamped V A J v lv la).
  Proof.
    intros v lv la H. split; [apply clamped_acceleration; exact H|].
    replace (lv + clamped V A J v lv la * T - clamped V A J v lv la * T) with lv by ring.
    destruct (clamped_range v lv la H) as [H1 H2]. split.
    - eapply Rle_trans; [exact H2|apply Rmin_l].
    - eapply Rle_trans; [apply Rmax_l|exact H1].
  Qed.
  Lemma smooth_rest : forall lv, Rabs lv <= V -> smooth lv 0.
  Proof.
    intros lv H. apply abs_range in H. destruct (limits_ratio V A J L) as (K1 & _ & _). fold K in K1.
    destruct L as (_ & HA & _).
    split; [rewrite Rabs_R0; lra|]. replace (lv - 0 * T) with lv by ring. split; nra.
  Qed.

  (** Requests which are left alone. *)
  Lemma clamped_transparent : forall v lv la,
    Rabs ((v - lv) / T - la) <= J * T ->
    K * (- V - lv) <= (v - lv) / T <= K * (V - lv) -> Rabs ((v - lv) / T) <= A ->
    lv + clamped V A J v lv la * T = v.
  Proof.
    intros v lv la Hj [Hs1 Hs2] Ha. pose proof T_pos as HT. unfold clamped. fold K.
    set (a := (v - lv) / T) in *. assert (Ea : v = lv + a * T) by (unfold a; field; lra). clearbody a. subst v.
    apply abs_range in Hj. apply abs_range in Ha.
    assert (Hq : - J <= (a - la) / T <= J).
    { split; apply Rmult_le_reg_r with T; try assumption; unfold Rdiv; rewrite Rmult_assoc, Rinv_l by lra; lra. }
    rewrite (Rmin_left ((a - la) / T)) by lra. rewrite (Rmax_left ((a - la) / T)) by lra.
    replace (la + (a - la) / T * T) with a by (field; lra).
    rewrite (Rmin_left a) by (apply Rmin_glb; lra). rewrite (Rmax_left a) by (apply Rmax_lub; lra). reflexivity.
  Qed.
End Joint.
