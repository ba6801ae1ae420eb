(** C40, C55: the state given to users. *)
From Coq Require Import List ZArith NArith Bool Reals Lra Lia Arith String.
From Coq Require Import Init.Byte.
From Verif Require Import Bytes Codec NumOps NumReal NumFloat WireModel WireSpec ErrorsModel StateModel Properties_Wire Properties_Errors.
Import ListNotations.
Open Scope list_scope.
Open Scope R_scope.

(** * C40: rigid bodies *)
(** A body is a collection of point masses. *)
Definition point := (R * (nat -> R))%type.
Definition sum (f : point -> R) (b : list point) : R := fold_right (fun p a => f p + a) 0 b.
Definition delta (i j : nat) : R := if Nat.eqb i j then 1 else 0.
Definition body_mass (b : list point) : R := sum fst b.
Definition first_moment (b : list point) (i : nat) : R := sum (fun p => fst p * snd p i) b.
(** Inertia tensor with respect to the point [c]. *)
Definition inertia_about (c : nat -> R) (b : list point) (i j : nat) : R :=
  sum (fun p => let r k := snd p k - c k in
    fst p * ((r 0%nat * r 0%nat + r 1%nat * r 1%nat + r 2%nat * r 2%nat) * delta i j - r i * r j)) b.
(** A mass, a centre of mass and an inertia tensor (about the centre of mass, column-major) describe a
    body; the numbers given for the centre and the tensor of nothing are meaningless. *)
Definition describes (m : R) (c t : list R) (b : list point) : Prop :=
  List.length c = 3%nat /\ List.length t = 9%nat /\ body_mass b = m /\
  (m <> 0 ->
    (forall i, (i < 3)%nat -> first_moment b i = m * nth i c 0) /\
    (forall i j, (i < 3)%nat -> (j < 3)%nat -> nth (3 * j + i)%nat t 0 = inertia_about (fun k => nth k c 0) b i j)).
Definition real_body (b : list point) : Prop := Forall (fun p => 0 <= fst p) b.

Lemma sum_app : forall f a b, sum f (a ++ b) = sum f a + sum f b.
Proof. induction a as [|p a IH]; intros b; cbn [app sum fold_right]; [unfold sum; lra|]. unfold sum in *. cbn. rewrite IH. lra. Qed.
(** Parallel axes. *)
Lemma shift_axes : forall b c i j, inertia_about c b i j =
  inertia_about (fun _ => 0) b i j
  - 2 * (c 0%nat * first_moment b 0 + c 1%nat * first_moment b 1 + c 2%nat * first_moment b 2) * delta i j
  + (c 0%nat * c 0%nat + c 1%nat * c 1%nat + c 2%nat * c 2%nat) * body_mass b * delta i j
  + c i * first_moment b j + c j * first_moment b i - body_mass b * c i * c j.
Proof.
  induction b as [|p b IH]; intros c i j; unfold inertia_about, first_moment, body_mass, sum in *; cbn [fold_right]; [cbn; ring|].
  rewrite IH. cbv beta zeta. ring.
Qed.
Lemma massless : forall b, real_body b -> body_mass b = 0 -> Forall (fun p => fst p = 0) b.
Proof.
  assert (P : forall b, real_body b -> 0 <= body_mass b).
  { induction 1; unfold body_mass, sum in *; cbn; lra. }
  induction 1 as [|p b H Hb IH]; intros M; constructor; unfold body_mass, sum in *; cbn in M;
    specialize (P b Hb); unfold body_mass, sum in P; [lra|]. apply IH. lra.
Qed.
Lemma mass_nonneg : forall b, real_body b -> 0 <= body_mass b.
Proof. induction 1; unfold body_mass, sum in *; cbn; lra. Qed.
Lemma sum_zero : forall g b, Forall (fun p => fst p = 0) b -> sum (fun p => fst p * g p) b = 0.
Proof. induction 1 as [|p b H Hb IH]; unfold sum in *; cbn; [reflexivity|]. rewrite H, IH. ring. Qed.
Lemma massless_moment : forall b i, real_body b -> body_mass b = 0 -> first_moment b i = 0.
Proof. intros b i H M. apply sum_zero, massless; assumption. Qed.
Lemma massless_inertia : forall b c i j, real_body b -> body_mass b = 0 -> inertia_about c b i j = 0.
Proof.
  intros b c i j H M. unfold inertia_about. cbv zeta.
  exact (sum_zero (fun p => ((snd p 0%nat - c 0%nat) * (snd p 0%nat - c 0%nat) + (snd p 1%nat - c 1%nat) * (snd p 1%nat - c 1%nat)
    + (snd p 2%nat - c 2%nat) * (snd p 2%nat - c 2%nat)) * delta i j - (snd p i - c i) * (snd p j - c j)) b (massless b H M)).
Qed.

Definition total_center : R -> list R -> R -> list R -> list R := combine_center_of_mass real.
Definition total_inertia : R -> list R -> list R -> R -> list R -> list R -> R -> list R -> list R := combine_inertia_tensor real.
Lemma center_value : forall (m1 : R) (c1 : list R) (m2 : R) (c2 : list R), 0 < m1 + m2 -> forall i, (i < 3)%nat ->
  nth i (total_center m1 c1 m2 c2) 0 = (m1 * nth i c1 0 + m2 * nth i c2 0) / (m1 + m2).
Proof.
  intros m1 c1 m2 c2 H i Hi. unfold total_center, combine_center_of_mass, f_gt. cbn [f_lt f_add f_int real].
  destruct (Rlt_dec 0 (m1 + m2)) as [_|N]; [|contradiction].
  destruct i as [|[|[|]]]; [reflexivity..|lia].
Qed.
Lemma center_zero : forall (m1 : R) (c1 : list R) (m2 : R) (c2 : list R), m1 + m2 <= 0 -> total_center m1 c1 m2 c2 = [0; 0; 0].
Proof.
  intros m1 c1 m2 c2 H. unfold total_center, combine_center_of_mass, f_gt. cbn [f_lt f_add f_int real].
  destruct (Rlt_dec 0 (m1 + m2)); [lra|reflexivity].
Qed.
(** One part's contribution. *)
Definition part (m : R) (t : list R) (k : nat) : R := if Req_EM_T m 0 then 0 else nth k t 0.
Lemma nth_at : forall (l : list R) i j, nth (3 * j + i) l 0 = at_ real l i j.
Proof. reflexivity. Qed.
Lemma at_build : forall f i j, (i < 3)%nat -> (j < 3)%nat -> at_ real (build real f) i j = f i j.
Proof. intros f i j Hi Hj. destruct i as [|[|[|]]]; [| | |lia]; (destruct j as [|[|[|]]]; [reflexivity..|lia]). Qed.
Lemma square_skew : forall (v : list R) i j, (i < 3)%nat -> (j < 3)%nat ->
  at_ real (m_mul real (skew_symmetric_matrix_from_vector real v) (skew_symmetric_matrix_from_vector real v)) i j =
  nth i v 0 * nth j v 0 - (nth 0 v 0 * nth 0 v 0 + nth 1 v 0 * nth 1 v 0 + nth 2 v 0 * nth 2 v 0) * delta i j.
Proof.
  intros v i j Hi Hj. unfold m_mul. rewrite at_build by assumption. unfold skew_symmetric_matrix_from_vector, delta. cbv zeta.
  rewrite !at_build by (assumption || lia).
  change (f_int real 0) with 0. change (F real) with R. set (x := nth 0 v 0). set (y := nth 1 v 0). set (z := nth 2 v 0).
  destruct i as [|[|[|]]]; [| | |lia]; (destruct j as [|[|[|]]]; [| | |lia]); fold x y z; cbn [Nat.eqb nth f_add f_mul f_neg f_int real];
    match goal with |- ?a = ?b => change (@eq R a b) end; ring.
Qed.
Lemma inertia_value : forall (m1 : R) (c1 t1 : list R) (m2 : R) (c2 t2 : list R) (m : R) (c : list R) i j, (i < 3)%nat -> (j < 3)%nat ->
  let cross a := (nth 0 a 0 * nth 0 a 0 + nth 1 a 0 * nth 1 a 0 + nth 2 a 0 * nth 2 a 0) * delta i j - nth i a 0 * nth j a 0 in
  nth (3 * j + i) (total_inertia m1 c1 t1 m2 c2 t2 m c) 0 =
  part m1 t1 (3 * j + i) + m1 * cross c1 + (part m2 t2 (3 * j + i) + m2 * cross c2) - m * cross c.
Proof.
  intros m1 c1 t1 m2 c2 t2 m c i j Hi Hj. unfold total_inertia, combine_inertia_tensor, part, delta.
  cbv zeta. rewrite nth_at. unfold m_add, m_sub, m_scale. rewrite !at_build, !square_skew by assumption.
  assert (Q : forall n t, at_ real (if f_eq real n (f_int real 0) then m_zeros real else t) i j = part n t (3 * j + i)).
  { intros n t. unfold part. cbn [f_eq f_int real]. destruct (Req_EM_T n 0); [|reflexivity]. unfold m_zeros. apply at_build; assumption. }
  rewrite !Q. unfold part, delta. cbn [f_add f_sub f_mul F real]. match goal with |- ?a = ?b => change (@eq R a b) end. ring.
Qed.

(** C40: the reported total describes the body made of both parts. *)
Theorem C40_composed : forall A B (m1 : R) (c1 : list R) (t1 : list R) (m2 : R) (c2 : list R) (t2 : list R), real_body A -> real_body B ->
  describes m1 c1 t1 A -> describes m2 c2 t2 B ->
  describes (m1 + m2) (total_center m1 c1 m2 c2)
    (total_inertia m1 c1 t1 m2 c2 t2 (m1 + m2) (total_center m1 c1 m2 c2)) (A ++ B).
Proof.
  intros A B m1 c1 t1 m2 c2 t2 RA RB (_ & _ & MA & DA) (_ & _ & MB & DB). 
  pose proof (mass_nonneg A RA) as PA. pose proof (mass_nonneg B RB) as PB. rewrite MA in PA. rewrite MB in PB.
  assert (FA : forall i, (i < 3)%nat -> first_moment A i = m1 * nth i c1 0).
  { intros i Hi. destruct (Req_EM_T m1 0) as [Z|N]; [|exact (proj1 (DA N) i Hi)].
    rewrite Z, massless_moment by (try assumption; lra). ring. }
  assert (FB : forall i, (i < 3)%nat -> first_moment B i = m2 * nth i c2 0).
  { intros i Hi. destruct (Req_EM_T m2 0) as [Z|N]; [|exact (proj1 (DB N) i Hi)].
    rewrite Z, massless_moment by (try assumption; lra). ring. }
  assert (IA : forall i j, (i < 3)%nat -> (j < 3)%nat -> part m1 t1 (3 * j + i) = inertia_about (fun k => nth k c1 0) A i j).
  { intros i j Hi Hj. unfold part. destruct (Req_EM_T m1 0) as [Z|N]; [|exact (proj2 (DA N) i j Hi Hj)].
    symmetry. apply massless_inertia; [assumption|lra]. }
  assert (IB : forall i j, (i < 3)%nat -> (j < 3)%nat -> part m2 t2 (3 * j + i) = inertia_about (fun k => nth k c2 0) B i j).
  { intros i j Hi Hj. unfold part. destruct (Req_EM_T m2 0) as [Z|N]; [|exact (proj2 (DB N) i j Hi Hj)].
    symmetry. apply massless_inertia; [assumption|lra]. }
  split; [unfold total_center, combine_center_of_mass; destruct (f_gt _ _ _); reflexivity|].
  split; [reflexivity|]. split; [unfold body_mass in *; rewrite sum_app, MA, MB; reflexivity|].
  intros N. assert (P : 0 < m1 + m2) by lra.
  assert (C : forall i, (i < 3)%nat -> first_moment (A ++ B) i = (m1 + m2) * nth i (total_center m1 c1 m2 c2) 0).
  { intros i Hi. rewrite center_value by assumption. unfold first_moment in *. rewrite sum_app, FA, FB by assumption. field. lra. }
  split; [exact C|].
  intros i j Hi Hj. rewrite inertia_value, IA, IB by assumption.
  rewrite (shift_axes A (fun k => nth k c1 0)), (shift_axes B (fun k => nth k c2 0)), (shift_axes (A ++ B) (fun k => nth k (total_center m1 c1 m2 c2) 0)).
  set (c := total_center m1 c1 m2 c2) in *.
  assert (MS : body_mass (A ++ B) = m1 + m2) by (unfold body_mass in *; rewrite sum_app, MA, MB; reflexivity).
  rewrite !C, MS, !FA, !FB, MA, MB by (assumption || lia).
  assert (IS : inertia_about (fun _ => 0) (A ++ B) i j = inertia_about (fun _ => 0) A i j + inertia_about (fun _ => 0) B i j) by apply sum_app.
  rewrite IS. cbv beta. change (F real) with R. ring.
Qed.
Print Assumptions C40_composed.

(** C40: in terms of the given tensors (parallel axis theorem): each tensor is moved to the common centre. *)
Theorem C40_parallel_axes : forall (m1 : R) (c1 : list R) (t1 : list R) (m2 : R) (c2 : list R) (t2 : list R) i j, 0 < m1 -> 0 < m2 -> (i < 3)%nat -> (j < 3)%nat ->
  let c := total_center m1 c1 m2 c2 in
  let moved m a t := let d k := nth k a 0 - nth k c 0 in
    nth (3 * j + i) t 0 + m * ((d 0%nat * d 0%nat + d 1%nat * d 1%nat + d 2%nat * d 2%nat) * delta i j - d i * d j) in
  (forall k, (k < 3)%nat -> (m1 + m2) * nth k c 0 = m1 * nth k c1 0 + m2 * nth k c2 0) /\
  nth (3 * j + i) (total_inertia m1 c1 t1 m2 c2 t2 (m1 + m2) c) 0 = moved m1 c1 t1 + moved m2 c2 t2.
Proof.
  intros m1 c1 t1 m2 c2 t2 i j P1 P2 Hi Hj c moved.
  assert (C : forall k, (k < 3)%nat -> (m1 + m2) * nth k c 0 = m1 * nth k c1 0 + m2 * nth k c2 0).
  { intros k Hk. unfold c. rewrite center_value by (assumption || lra). field. lra. }
  split; [exact C|]. rewrite inertia_value by assumption. unfold moved, part.
  destruct (Req_EM_T m1 0) as [Z|_]; [lra|]. destruct (Req_EM_T m2 0) as [Z|_]; [lra|]. cbv zeta beta.
  pose proof (C 0%nat ltac:(lia)) as C0. pose proof (C 1%nat ltac:(lia)) as C1. pose proof (C 2%nat ltac:(lia)) as C2.
  pose proof (C i Hi) as Ci. pose proof (C j Hj) as Cj.
  set (x0 := nth 0 c 0) in *. set (x1 := nth 1 c 0) in *. set (x2 := nth 2 c 0) in *. set (xi := nth i c 0) in *. set (xj := nth j c 0) in *.
  apply Rminus_diag_uniq.
  match goal with |- ?l = 0 => replace l with
    ((2 * x0 * (m1 * nth 0 c1 0 + m2 * nth 0 c2 0 - (m1 + m2) * x0) + 2 * x1 * (m1 * nth 1 c1 0 + m2 * nth 1 c2 0 - (m1 + m2) * x1)
      + 2 * x2 * (m1 * nth 2 c1 0 + m2 * nth 2 c2 0 - (m1 + m2) * x2)) * delta i j
     - xj * (m1 * nth i c1 0 + m2 * nth i c2 0 - (m1 + m2) * xi) - xi * (m1 * nth j c1 0 + m2 * nth j c2 0 - (m1 + m2) * xj)) by ring end.
  rewrite <- C0, <- C1, <- C2, <- Ci, <- Cj. ring.
Qed.
Print Assumptions C40_parallel_axes.

(** C40: without a load (whatever centre and tensor are given for it) the total is the end effector, and
    the other way round; without both everything is zero. *)
Theorem C40_one_part : forall (m : R) (c : list R) (t : list R) (c' : list R) (t' : list R), List.length c = 3%nat -> List.length t = 9%nat -> 0 < m ->
  (total_center m c 0 c' = c /\ total_inertia m c t 0 c' t' (m + 0) c = t) /\
  (total_center 0 c' m c = c /\ total_inertia 0 c' t' m c t (0 + m) c = t).
Proof.
  intros m c t c' t' Lc Lt P.
  assert (C : total_center m c 0 c' = c /\ total_center 0 c' m c = c).
  { split; apply nth_ext with (d := 0) (d' := 0);
      try (unfold total_center, combine_center_of_mass; destruct (f_gt _ _ _); symmetry; exact Lc).
    all: intros k Hk; assert (K : (k < 3)%nat) by (revert Hk; unfold total_center, combine_center_of_mass; destruct (f_gt _ _ _); cbn; lia);
      rewrite center_value by (assumption || lra); field; lra. }
  destruct C as [C1 C2].
  assert (E : forall l : list R, List.length l = 9%nat -> (forall i j, (i < 3)%nat -> (j < 3)%nat -> nth (3 * j + i) l 0 = nth (3 * j + i) t 0) -> l = t).
  { intros l Ll H. apply nth_ext with (d := 0) (d' := 0); [congruence|]. intros k Hk. rewrite Ll in Hk.
    pose proof (H (k mod 3)%nat (k / 3)%nat ltac:(apply Nat.mod_upper_bound; lia) ltac:(apply Nat.div_lt_upper_bound; lia)) as Q.
    rewrite <- Nat.div_mod in Q by lia. exact Q. }
  split; (split; [assumption|]); (apply E; [reflexivity|]); intros i j Hi Hj; rewrite inertia_value by assumption; unfold part;
    (destruct (Req_EM_T m 0); [lra|]); (destruct (Req_EM_T 0 0); [|lra]); cbv zeta; ring.
Qed.
Print Assumptions C40_one_part.
Theorem C40_nothing : forall (c : list R) (t : list R) (c' : list R) (t' : list R),
  total_center 0 c 0 c' = [0; 0; 0] /\ total_inertia 0 c t 0 c' t' (0 + 0) [0; 0; 0] = repeat 0 9.
Proof.
  intros c t c' t'. split; [apply center_zero; lra|].
  apply nth_ext with (d := 0) (d' := 0); [reflexivity|]. intros k Hk. cbn in Hk.
  pose proof (inertia_value 0 c t 0 c' t' (0 + 0) [0; 0; 0] (k mod 3)%nat (k / 3)%nat
    ltac:(apply Nat.mod_upper_bound; lia) ltac:(apply Nat.div_lt_upper_bound; lia)) as Q.
  rewrite <- Nat.div_mod in Q by lia. rewrite Q, nth_repeat. unfold part. destruct (Req_EM_T 0 0); [|lra]. cbv zeta. ring.
Qed.
Print Assumptions C40_nothing.

(** A dumbbell at the flange and a point mass in front of it. *)
Definition at3 (x y z : R) (k : nat) : R := nth k [x; y; z] 0.
Example C40_ex : let A := [(1, at3 1 0 0); (1, at3 (-1) 0 0)] in let B := [(2, at3 0 0 2)] in
  real_body A /\ real_body B /\ describes 2 [0; 0; 0] [0; 0; 0; 0; 2; 0; 0; 0; 2] A /\ describes 2 [0; 0; 2] (repeat 0 9) B.
Proof.
  cbv zeta. split; [repeat constructor; cbn; lra|]. split; [repeat constructor; cbn; lra|].
  split; (split; [reflexivity|]; split; [reflexivity|]; split; [unfold body_mass, sum; cbn; lra|]; intros _; split;
    [intros i Hi; destruct i as [|[|[|]]]; [| | |lia]|intros i j Hi Hj; destruct i as [|[|[|]]]; [| | |lia]; (destruct j as [|[|[|]]]; [| | |lia])];
    unfold first_moment, inertia_about, sum, delta, at3; cbn; lra).
Qed.
Example C40_ex_total : total_center 2 [0; 0; 0] 2 [0; 0; 2] = [0; 0; 1] /\
  total_inertia 2 [0; 0; 0] [0; 0; 0; 0; 2; 0; 0; 0; 2] 2 [0; 0; 2] (repeat 0 9) 4 [0; 0; 1] = [4; 0; 0; 0; 6; 0; 0; 0; 2].
Proof.
  split.
  - unfold total_center, combine_center_of_mass, f_gt. cbn [f_lt f_add f_int real]. destruct (Rlt_dec 0 (2 + 2)); [|lra].
    cbn. repeat (apply (f_equal2 (@cons R)); [field|]). reflexivity.
  - unfold total_inertia, combine_inertia_tensor. cbn [f_eq f_int real]. destruct (Req_EM_T 2 0); [lra|]. cbv [m_add m_sub m_scale m_mul build at_ skew_symmetric_matrix_from_vector nth Nat.mul Nat.add repeat f_add f_sub f_mul f_neg f_int real].
    repeat (apply (f_equal2 (@cons R)); [ring|]). reflexivity.
Qed.

(** * C55: the fields of the state *)
(** Where the arrays of the user's state lie in the datagram and how many numbers they have. *)
Definition user_arrays (u : user_state) : list (nat * nat * list N) :=
  [ (8%nat, 16%nat, us_O_T_EE u);
    (136%nat, 16%nat, us_O_T_EE_d u);
    (264%nat, 16%nat, us_F_T_EE u);
    (392%nat, 16%nat, us_EE_T_K u);
    (520%nat, 16%nat, us_F_T_NE u);
    (648%nat, 16%nat, us_NE_T_EE u);
    (784%nat, 9%nat, us_I_ee u);
    (856%nat, 3%nat, us_F_x_Cee u);
    (888%nat, 9%nat, us_I_load u);
    (960%nat, 3%nat, us_F_x_Cload u);
    (984%nat, 2%nat, us_elbow u);
    (1000%nat, 2%nat, us_elbow_d u);
    (1016%nat, 7%nat, us_tau_J u);
    (1072%nat, 7%nat, us_tau_J_d u);
    (1128%nat, 7%nat, us_dtau_J u);
    (1184%nat, 7%nat, us_q u);
    (1240%nat, 7%nat, us_q_d u);
    (1296%nat, 7%nat, us_dq u);
    (1352%nat, 7%nat, us_dq_d u);
    (1408%nat, 7%nat, us_ddq_d u);
    (1464%nat, 7%nat, us_joint_contact u);
    (1520%nat, 6%nat, us_cartesian_contact u);
    (1568%nat, 7%nat, us_joint_collision u);
    (1624%nat, 6%nat, us_cartesian_collision u);
    (1672%nat, 7%nat, us_tau_ext_hat_filtered u);
    (1728%nat, 6%nat, us_O_F_ext_hat_K u);
    (1776%nat, 6%nat, us_K_F_ext_hat_K u);
    (1824%nat, 6%nat, us_O_dP_EE_d u);
    (1872%nat, 3%nat, us_O_ddP_O u);
    (1896%nat, 2%nat, us_elbow_c u);
    (1912%nat, 2%nat, us_delbow_c u);
    (1928%nat, 2%nat, us_ddelbow_c u);
    (1944%nat, 16%nat, us_O_T_EE_c u);
    (2072%nat, 6%nat, us_O_dP_EE_c u);
    (2120%nat, 6%nat, us_O_ddP_EE_c u);
    (2168%nat, 7%nat, us_theta u);
    (2224%nat, 7%nat, us_dtheta u) ].
(** Where its single numbers lie. *)
Definition user_numbers (u : user_state) : list (nat * nat * N) :=
  [ (0%nat, 8%nat, us_time u); (776%nat, 8%nat, us_m_ee u); (880%nat, 8%nat, us_m_load u);
    (2364%nat, 1%nat, robot_mode_code (us_robot_mode u)); (2365%nat, 8%nat, us_control_command_success_rate u) ].
(** The list of errors [o] are exactly those whose flag is set, the flags starting at [base]. *)
Definition errors_at (b : list byte) (base : nat) (o : option (list franka_error)) : Prop :=
  exists es, o = Some es /\ NoDup es /\
    forall e, In e es <-> exists i, nth_error protocol_names i = Some (error_name e) /\ nth (base + i) b x00 = x01.

Lemma name_code : forall i e, nth_error protocol_names i = Some (error_name e) <-> i = error_code e.
Proof.
  intros i e. destruct (names_ok (error_code e) e (code_ok e)) as [N _]. split; [|intros ->; exact N].
  intros H. assert (D : NoDup protocol_names).
  { assert (Q : nodup string_dec protocol_names = protocol_names) by (vm_compute; reflexivity). rewrite <- Q. apply NoDup_nodup. }
  rewrite NoDup_nth_error in D. apply D; [apply nth_error_Some; congruence|congruence].
Qed.
Lemma slice_nth : forall b o n i, (i < n)%nat -> nth i (slice b o n) x00 = nth (o + i) b x00.
Proof.
  intros b o n i H. unfold slice. rewrite <- (firstn_skipn o b) at 2.
  destruct (Nat.le_gt_cases o (List.length b)) as [L|L].
  - rewrite app_nth2 by (rewrite firstn_length; lia). rewrite firstn_length, Nat.min_l by lia.
    replace (o + i - o)%nat with i by lia. rewrite <- (firstn_skipn n (skipn o b)) at 2.
    destruct (Nat.le_gt_cases n (List.length (skipn o b))) as [M|M].
    + rewrite app_nth1 by (rewrite firstn_length; lia). reflexivity.
    + rewrite (skipn_all2 (n := n)) by lia. rewrite app_nil_r. reflexivity.
  - rewrite (skipn_all2 (n := o)) by lia. rewrite firstn_nil, app_nil_r, (nth_overflow (firstn o b)) by (rewrite firstn_length; lia).
    destruct i; reflexivity.
Qed.
Lemma errors_placed : forall b base fs1 fs2, List.length fs1 = 32%nat -> List.length fs2 = 9%nat ->
  slice b base 32 = map flag fs1 -> slice b (base + 32) 9 = map flag fs2 -> errors_at b base (franka_errors fs1 fs2).
Proof.
  intros b base fs1 fs2 L1 L2 S1 S2. destruct (C39_exact fs1 fs2 L1 L2) as (es & E & _ & I & _ & D).
  exists es. split; [exact E|]. split; [exact D|]. intros e. rewrite I.
  assert (A : forall i, (i < 41)%nat -> nth (base + i) b x00 = flag (nth i (fs1 ++ fs2) false)).
  { intros i Hi. transitivity (nth i (map flag (fs1 ++ fs2)) (flag false)); [|apply map_nth].
    change (flag false) with x00. rewrite map_app, <- S1, <- S2.
    assert (Ls : List.length (slice b base 32) = 32%nat) by (rewrite S1, map_length; exact L1).
    destruct (Nat.lt_ge_cases i 32) as [H|H].
    - rewrite app_nth1 by lia. symmetry. apply slice_nth. exact H.
    - rewrite app_nth2 by lia. rewrite Ls, slice_nth by lia. f_equal. lia. }
  assert (Le : (error_code e < 41)%nat) by (destruct e; cbn; lia).
  split.
  - intros H. exists (error_code e). split; [apply name_code; reflexivity|].
    rewrite A by exact Le. rewrite (nth_error_nth _ _ _ H). reflexivity.
  - intros (i & Hn & H). apply name_code in Hn. subst i. rewrite A in H by exact Le.
    assert (Ln : (error_code e < List.length (fs1 ++ fs2))%nat) by (rewrite app_length; lia).
    rewrite (nth_error_nth' _ false Ln). destruct (nth _ _ _); [reflexivity|discriminate].
Qed.
Lemma le_length : forall k v, List.length (le k v) = k.
Proof. intros. unfold le. rewrite map_length, seq_length. reflexivity. Qed.
Lemma les_length : forall k l, List.length (les k l) = (k * List.length l)%nat.
Proof. induction l as [|v l IH]; cbn [les flat_map List.length]; [lia|]. unfold les in IH. rewrite app_length, IH, le_length. lia. Qed.
Lemma placed_array : forall b o n l, arr_ok n l -> slice b o (List.length (les 8 l)) = les 8 l ->
  List.length l = n /\ slice b o (8 * n) = les 8 l.
Proof. intros b o n l [L _] H. split; [exact L|]. rewrite les_length, L in H. exact H. Qed.
Lemma placed_number : forall b o k v, slice b o (List.length (le k v)) = le k v -> slice b o k = le k v.
Proof. intros b o k v H. rewrite le_length in H. exact H. Qed.

Lemma placed_errors : forall b base fs1 fs2, List.length fs1 = 32%nat -> List.length fs2 = 9%nat ->
  slice b base (List.length (map flag fs1)) = map flag fs1 ->
  slice b (base + 32) (List.length (map flag fs2)) = map flag fs2 -> errors_at b base (franka_errors fs1 fs2).
Proof. intros b base fs1 fs2 L1 L2. rewrite !map_length, L1, L2. apply errors_placed; assumption. Qed.
Lemma pick : forall (A : Type) (P : A -> Prop) (l : list A), Forall P l -> forall k x, nth_error l k = Some x -> P x.
Proof. intros A P l H k x E. rewrite Forall_forall in H. apply H, (nth_error_In l k E). Qed.
Arguments pick {A} P l _ k x _.

(** C55: every field of the user's state is taken from its place in the datagram, for every datagram that is
    accepted; the totals are computed from the load fields. *)
Theorem C55_fields : forall b s, List.length b = 2373%nat -> deserialize c_robot_state_intern b = Some s ->
  let u := user_state_of s in
  Forall (fun p => match p with (o, n, l) => List.length l = n /\ slice b o (8 * n) = les 8 l end) (user_arrays u) /\
  Forall (fun p => match p with (o, k, v) => slice b o k = le k v end) (user_numbers u) /\
  errors_at b 2282 (us_current_errors u) /\ errors_at b 2323 (us_last_motion_errors u) /\
  us_m_total u = bits (f_add float (of_bits (us_m_ee u)) (of_bits (us_m_load u))) /\
  us_F_x_Ctotal u = map bits (combine_center_of_mass float (of_bits (us_m_ee u)) (map of_bits (us_F_x_Cee u))
    (of_bits (us_m_load u)) (map of_bits (us_F_x_Cload u))) /\
  us_I_total u = map bits (combine_inertia_tensor float (of_bits (us_m_ee u)) (map of_bits (us_F_x_Cee u)) (map of_bits (us_I_ee u))
    (of_bits (us_m_load u)) (map of_bits (us_F_x_Cload u)) (map of_bits (us_I_load u))
    (f_add float (of_bits (us_m_ee u)) (of_bits (us_m_load u)))
    (combine_center_of_mass float (of_bits (us_m_ee u)) (map of_bits (us_F_x_Cee u)) (of_bits (us_m_load u)) (map of_bits (us_F_x_Cload u)))).
Proof.
  intros b s Lb D u. apply (proj1 (C05_state_decoding_exact b s Lb)) in D. destruct D as [OK (_ & L & _)].
  destruct OK as (_ & _ & _ & _ & A16 & A9 & A3 & A2 & A7 & A6 & E1 & E2 & R1 & R2).
  unfold user_arrays, user_numbers, u.
  split; [|split; [|split; [|split; [|split; [|split]]]]].
  - constructor; [exact (placed_array _ _ _ _ (pick _ _ A16 0 _ eq_refl) (pick _ _ L 1 _ eq_refl))|].
    constructor; [exact (placed_array _ _ _ _ (pick _ _ A16 1 _ eq_refl) (pick _ _ L 2 _ eq_refl))|].
    constructor; [exact (placed_array _ _ _ _ (pick _ _ A16 2 _ eq_refl) (pick _ _ L 3 _ eq_refl))|].
    constructor; [exact (placed_array _ _ _ _ (pick _ _ A16 3 _ eq_refl) (pick _ _ L 4 _ eq_refl))|].
    constructor; [exact (placed_array _ _ _ _ (pick _ _ A16 4 _ eq_refl) (pick _ _ L 5 _ eq_refl))|].
    constructor; [exact (placed_array _ _ _ _ (pick _ _ A16 5 _ eq_refl) (pick _ _ L 6 _ eq_refl))|].
    constructor; [exact (placed_array _ _ _ _ (pick _ _ A9 0 _ eq_refl) (pick _ _ L 8 _ eq_refl))|].
    constructor; [exact (placed_array _ _ _ _ (pick _ _ A3 0 _ eq_refl) (pick _ _ L 9 _ eq_refl))|].
    constructor; [exact (placed_array _ _ _ _ (pick _ _ A9 1 _ eq_refl) (pick _ _ L 11 _ eq_refl))|].
    constructor; [exact (placed_array _ _ _ _ (pick _ _ A3 1 _ eq_refl) (pick _ _ L 12 _ eq_refl))|].
    constructor; [exact (placed_array _ _ _ _ (pick _ _ A2 0 _ eq_refl) (pick _ _ L 13 _ eq_refl))|].
    constructor; [exact (placed_array _ _ _ _ (pick _ _ A2 1 _ eq_refl) (pick _ _ L 14 _ eq_refl))|].
    constructor; [exact (placed_array _ _ _ _ (pick _ _ A7 0 _ eq_refl) (pick _ _ L 15 _ eq_refl))|].
    constructor; [exact (placed_array _ _ _ _ (pick _ _ A7 1 _ eq_refl) (pick _ _ L 16 _ eq_refl))|].
    constructor; [exact (placed_array _ _ _ _ (pick _ _ A7 2 _ eq_refl) (pick _ _ L 17 _ eq_refl))|].
    constructor; [exact (placed_array _ _ _ _ (pick _ _ A7 3 _ eq_refl) (pick _ _ L 18 _ eq_refl))|].
    constructor; [exact (placed_array _ _ _ _ (pick _ _ A7 4 _ eq_refl) (pick _ _ L 19 _ eq_refl))|].
    constructor; [exact (placed_array _ _ _ _ (pick _ _ A7 5 _ eq_refl) (pick _ _ L 20 _ eq_refl))|].
    constructor; [exact (placed_array _ _ _ _ (pick _ _ A7 6 _ eq_refl) (pick _ _ L 21 _ eq_refl))|].
    constructor; [exact (placed_array _ _ _ _ (pick _ _ A7 7 _ eq_refl) (pick _ _ L 22 _ eq_refl))|].
    constructor; [exact (placed_array _ _ _ _ (pick _ _ A7 8 _ eq_refl) (pick _ _ L 23 _ eq_refl))|].
    constructor; [exact (placed_array _ _ _ _ (pick _ _ A6 0 _ eq_refl) (pick _ _ L 24 _ eq_refl))|].
    constructor; [exact (placed_array _ _ _ _ (pick _ _ A7 9 _ eq_refl) (pick _ _ L 25 _ eq_refl))|].
    constructor; [exact (placed_array _ _ _ _ (pick _ _ A6 1 _ eq_refl) (pick _ _ L 26 _ eq_refl))|].
    constructor; [exact (placed_array _ _ _ _ (pick _ _ A7 10 _ eq_refl) (pick _ _ L 27 _ eq_refl))|].
    constructor; [exact (placed_array _ _ _ _ (pick _ _ A6 2 _ eq_refl) (pick _ _ L 28 _ eq_refl))|].
    constructor; [exact (placed_array _ _ _ _ (pick _ _ A6 3 _ eq_refl) (pick _ _ L 29 _ eq_refl))|].
    constructor; [exact (placed_array _ _ _ _ (pick _ _ A6 4 _ eq_refl) (pick _ _ L 30 _ eq_refl))|].
    constructor; [exact (placed_array _ _ _ _ (pick _ _ A3 2 _ eq_refl) (pick _ _ L 31 _ eq_refl))|].
    constructor; [exact (placed_array _ _ _ _ (pick _ _ A2 2 _ eq_refl) (pick _ _ L 32 _ eq_refl))|].
    constructor; [exact (placed_array _ _ _ _ (pick _ _ A2 3 _ eq_refl) (pick _ _ L 33 _ eq_refl))|].
    constructor; [exact (placed_array _ _ _ _ (pick _ _ A2 4 _ eq_refl) (pick _ _ L 34 _ eq_refl))|].
    constructor; [exact (placed_array _ _ _ _ (pick _ _ A16 6 _ eq_refl) (pick _ _ L 35 _ eq_refl))|].
    constructor; [exact (placed_array _ _ _ _ (pick _ _ A6 5 _ eq_refl) (pick _ _ L 36 _ eq_refl))|].
    constructor; [exact (placed_array _ _ _ _ (pick _ _ A6 6 _ eq_refl) (pick _ _ L 37 _ eq_refl))|].
    constructor; [exact (placed_array _ _ _ _ (pick _ _ A7 11 _ eq_refl) (pick _ _ L 38 _ eq_refl))|].
    constructor; [exact (placed_array _ _ _ _ (pick _ _ A7 12 _ eq_refl) (pick _ _ L 39 _ eq_refl))|].
    constructor.
  - constructor; [exact (placed_number _ _ _ _ (pick _ _ L 0 _ eq_refl))|].
    constructor; [exact (placed_number _ _ _ _ (pick _ _ L 7 _ eq_refl))|].
    constructor; [exact (placed_number _ _ _ _ (pick _ _ L 10 _ eq_refl))|].
    constructor; [exact (placed_number _ _ _ _ (pick _ _ L 46 _ eq_refl))|].
    constructor; [exact (placed_number _ _ _ _ (pick _ _ L 47 _ eq_refl))|].
    constructor.
  - exact (placed_errors _ _ _ _ E1 E2 (pick _ _ L 42 _ eq_refl) (pick _ _ L 43 _ eq_refl)).
  - exact (placed_errors _ _ _ _ R1 R2 (pick _ _ L 44 _ eq_refl) (pick _ _ L 45 _ eq_refl)).
  - reflexivity.
  - reflexivity.
  - reflexivity.
Qed.
Print Assumptions C55_fields.
Example C55_ex : List.length (serialize c_robot_state_intern ex_state) = 2373%nat /\
  deserialize c_robot_state_intern (serialize c_robot_state_intern ex_state) = Some ex_state /\
  us_q_d (user_state_of ex_state) = [940; 941; 942; 943; 944; 945; 946]%N /\
  us_time (user_state_of ex_state) = 7%N /\ us_last_motion_errors (user_state_of ex_state) <> us_current_errors (user_state_of ex_state).
Proof. split; [exact C05_ex_len|]. split; [exact C05_ex|]. split; [reflexivity|]. split; [reflexivity|]. vm_compute. discriminate. Qed.
