(** C41, C42, C43: the joint motion generator in exact arithmetic. *)
From Coq Require Import List ZArith Bool Reals Lra Lia Psatz Arith.
From Verif Require Import NumOps NumReal MotionModel MotionProofs.
Import ListNotations.
Open Scope R_scope.

(** * Specification *)
(** Greatest speed and acceleration of joint [i] at full speed. *)
Definition top_speed (i : nat) : R := if Nat.ltb i 4 then 2 else 5 / 2.
Definition top_acceleration : R := 5.
(** "Finished" means closer than this. *)
Definition tolerance : R := 1 / 1000000.
Definition to_go (goal q0 : list R) (i : nat) : R := nth i goal 0 - nth i q0 0.
(** What the generator returns [t] seconds after it has been started at [q0]. *)
Definition path (s : R) (goal q0 : list R) (t : R) : list R * bool :=
  last (generate real (generator_new real s goal) [(q0, 0); (q0, t)]) ([], false).
Definition place (s : R) (goal q0 : list R) (i : nat) (t : R) : R := nth i (fst (path s goal q0 t)) 0.
(** Times of the calls. *)
Definition elapsed (calls : list (list R * R)) : R := fold_right Rplus 0 (map snd calls).
(** The first call takes place at time 0, all others later. *)
Definition started (calls : list (list R * R)) : Prop :=
  exists q0 rest, calls = (q0, 0) :: rest /\ Forall (fun c => 0 <= snd c) rest /\ (rest <> [] -> 0 < snd (hd ([], 0) rest)).

(** * Reduction to single joints *)
Section Reduction.
  Variables (s : R) (goal q0 : list R).
  Notation x := (to_go goal q0).
  Definition limit (i : nat) : R := joint real (g_dq_max real (generator_new real s goal)) i.
  Definition accel (i : nat) : R := joint real (g_ddq_max_start real (generator_new real s goal)) i.
  Definition Tmax : R := fold_left Rmax (map (fun i => own_time real (x i) (limit i) (accel i) (accel i)) (seq 1 6))
                           (own_time real (x 0%nat) (limit 0) (accel 0) (accel 0)).
  Definition fields (i : nat) : R * (R * R * R * R) :=
    if moves real (x i) then sync (x i) (accel i) (accel i) Tmax else (0, (0, 0, 0, 0)).
  Definition value (i : nat) (t : R) : R * bool :=
    match fields i with (D, (t1, t2, tf, q1)) => desired_value real (x i) D t1 t2 tf q1 t end.
  Definition g0 (time : R) : generator real :=
    Generator real goal q0 (map x (seq 0 7)) (map (fun i => fst (fields i)) (seq 0 7))
      (map (fun i => fst (fst (fst (snd (fields i))))) (seq 0 7)) (map (fun i => snd (fst (fst (snd (fields i))))) (seq 0 7))
      (map (fun i => snd (fst (snd (fields i)))) (seq 0 7)) (map (fun i => snd (snd (fields i))) (seq 0 7))
      time (g_dq_max real (generator_new real s goal)) (g_ddq_max_start real (generator_new real s goal))
      (g_ddq_max_goal real (generator_new real s goal)).
  Definition answer (t : R) : list R * bool :=
    (map (fun i => nth i q0 0 + fst (value i t)) (seq 0 7), forallb (fun i => snd (value i t)) (seq 0 7)).

  Lemma joint_map : forall f i, In i (seq 0 7) -> joint real (map f (seq 0 7)) i = f i.
  Proof. intros f i H. apply in_seq in H. do 7 (destruct i as [|i]; [reflexivity|]). lia. Qed.
  Lemma forallb_snd : forall (A B : Type) (f g : A -> B * bool) l, (forall i, In i l -> f i = g i) ->
    forallb snd (map f l) = forallb (fun i => snd (g i)) l.
  Proof. induction l as [|i l IH]; intros H; [reflexivity|]. cbn. rewrite H by (left; reflexivity). rewrite IH; [reflexivity|]. intros; apply H; right; assumption. Qed.
  Lemma at_time : forall t, calculate_desired_values real (g0 t) t =
    (map (fun i => fst (value i t)) (seq 0 7), forallb (fun i => snd (value i t)) (seq 0 7)).
  Proof.
    intros t. unfold calculate_desired_values. cbv zeta. rewrite map_map. unfold joints.
    assert (E : forall i, In i (seq 0 7) -> desired_value real (joint real (g_delta_q real (g0 t)) i) (joint real (g_dq_max_sync real (g0 t)) i)
      (joint real (g_t_1_sync real (g0 t)) i) (joint real (g_t_2_sync real (g0 t)) i) (joint real (g_t_f_sync real (g0 t)) i)
      (joint real (g_q_1 real (g0 t)) i) t = value i t).
    { intros i Hi. unfold g0. cbn [g_delta_q g_dq_max_sync g_t_1_sync g_t_2_sync g_t_f_sync g_q_1]. rewrite !joint_map by exact Hi.
      unfold value. destruct (fields i) as [D [[[t1 t2] tf] q1]]. reflexivity. }
    f_equal.
    - apply map_ext_in. intros i Hi. rewrite E by exact Hi. reflexivity.
    - apply forallb_snd. exact E.
  Qed.
  Lemma keeps : forall t q p, t + p <> 0 -> generate_motion real (g0 t) q p = (g0 (t + p), answer (t + p)).
  Proof.
    intros t q p N. unfold generate_motion. cbv zeta. cbn [g_time g_q_start g_delta_q g_q_goal g_dq_max_sync g_t_1_sync g_t_2_sync g_t_f_sync g_q_1 g_dq_max g_ddq_max_start g_ddq_max_goal g0 f_add f_eq f_int real].
    destruct (Req_EM_T (t + p) 0); [contradiction|].
    change (Generator real goal q0 _ _ _ _ _ _ (t + p) _ _ _) with (g0 (t + p)). rewrite at_time. reflexivity.
  Qed.
  Lemma starts : forall g, g_q_goal real g = goal -> g_dq_max real g = g_dq_max real (generator_new real s goal) ->
    g_ddq_max_start real g = g_ddq_max_start real (generator_new real s goal) ->
    g_ddq_max_goal real g = g_ddq_max_goal real (generator_new real s goal) -> g_time real g = 0 ->
    (forall i, moves real (x i) = false -> In i (seq 0 7) ->
      joint real (g_dq_max_sync real g) i = 0 /\ joint real (g_t_1_sync real g) i = 0 /\ joint real (g_t_2_sync real g) i = 0 /\
      joint real (g_t_f_sync real g) i = 0 /\ joint real (g_q_1 real g) i = 0) ->
    generate_motion real g q0 0 = (g0 0, answer 0).
  Proof.
    intros g E1 E2 E3 E4 E5 Z. unfold generate_motion. cbv zeta. cbn [g_time g_q_start g_delta_q g_q_goal g_dq_max_sync g_t_1_sync g_t_2_sync g_t_f_sync g_q_1 g_dq_max g_ddq_max_start g_ddq_max_goal].
    rewrite E5. cbn [f_add f_eq f_int real]. rewrite Rplus_0_r. destruct (Req_EM_T 0 0); [|contradiction].
    match goal with |- (?a, _) = _ => assert (G : a = g0 0) end.
    { unfold calculate_synchronized_values. cbv zeta. cbn [g_time g_q_start g_delta_q g_q_goal g_dq_max_sync g_t_1_sync g_t_2_sync g_t_f_sync g_q_1 g_dq_max g_ddq_max_start g_ddq_max_goal].
      rewrite E1, E2, E3, E4. unfold g0, joints.
      assert (DX : forall i, In i (seq 0 7) -> joint real (map (fun i => joint real goal i - joint real q0 i) (seq 0 7)) i = x i).
      { intros i Hi. rewrite joint_map by exact Hi. reflexivity. }
      f_equal; try reflexivity; apply map_ext_in; intros i Hi; rewrite ?DX by exact Hi; unfold fields;
        destruct (moves real (x i)) eqn:M; try reflexivity; apply (Z i M Hi). }
    rewrite G, at_time. reflexivity.
  Qed.
  Lemma first_call : generate_motion real (generator_new real s goal) q0 0 = (g0 0, answer 0).
  Proof.
    apply starts; try reflexivity. intros i _ Hi. apply in_seq in Hi.
    assert (Q : joint real (zeros real) i = 0) by (do 7 (destruct i as [|i]; [reflexivity|]); lia).
    repeat split; exact Q.
  Qed.
  Lemma second_start : generate_motion real (g0 0) q0 0 = (g0 0, answer 0).
  Proof.
    apply starts; try reflexivity. intros i M Hi. unfold g0. cbn [g_dq_max_sync g_t_1_sync g_t_2_sync g_t_f_sync g_q_1].
    rewrite !joint_map by exact Hi. unfold fields. rewrite M. repeat split.
  Qed.
  Lemma path_answer : forall t, path s goal q0 t = answer t.
  Proof.
    intros t. unfold path. cbn [generate]. cbv zeta. rewrite first_call. cbn [fst snd].
    destruct (Req_EM_T t 0) as [->|N].
    - rewrite second_start. reflexivity.
    - rewrite keeps by lra. rewrite Rplus_0_l. reflexivity.
  Qed.
  Lemma rest_answers : forall rest t, Forall (fun c => 0 <= snd c) rest -> 0 < t ->
    forall k, (k < length rest)%nat -> nth_error (generate real (g0 t) rest) k = Some (answer (t + elapsed (firstn (S k) rest))).
  Proof.
    induction rest as [|[q p] rest IH]; intros t F T0 k Hk; [cbn in Hk; lia|].
    inversion F as [|? ? P F']; subst. cbn [snd] in P. cbn [generate]. cbv zeta. rewrite keeps by lra. destruct k as [|k].
    - cbn. unfold elapsed. cbn. do 2 f_equal. lra.
    - cbn [nth_error fst snd]. rewrite (IH (t + p) F' ltac:(lra) k (proj2 (Nat.succ_lt_mono _ _) Hk)). do 2 f_equal. unfold elapsed. cbn. lra.
  Qed.
End Reduction.

(** C41: an output depends on nothing but the start, the goal, the speed factor and the time which has passed -
    not on how this time is divided into periods or on what the robot reports in between. *)
Theorem C41_sampled : forall s goal q0 calls k out, started ((q0, 0) :: calls) ->
  nth_error (generate real (generator_new real s goal) ((q0, 0) :: calls)) k = Some out ->
  out = path s goal q0 (elapsed (firstn k calls)).
Proof.
  intros s goal q0 calls k out (q & rest & E & F & P) H. injection E as <- <-. rewrite path_answer.
  cbn [generate] in H. cbv zeta in H. rewrite first_call in H. destruct k as [|k].
  - cbn in H. unfold elapsed. cbn. congruence.
  - cbn [nth_error fst snd] in H. destruct calls as [|[q p] calls]; [destruct k; discriminate|].
    specialize (P ltac:(discriminate)). cbn in P. inversion F as [|? ? P' F']; subst.
    cbn [generate] in H. cbv zeta in H. rewrite keeps in H by lra. destruct k as [|k].
    + cbn in H. unfold elapsed. cbn. rewrite Rplus_0_l in H. rewrite Rplus_0_r. congruence.
    + cbn [nth_error fst snd] in H. destruct (Nat.lt_ge_cases k (length calls)) as [L|L].
      * rewrite rest_answers in H by (assumption || lra). injection H as <-. f_equal. unfold elapsed. cbn. lra.
      * assert (N : nth_error (generate real (g0 s goal q0 (0 + p)) calls) k = None).
        { apply nth_error_None. assert (G : forall g l, length (generate real g l) = length l).
          { intros g l. revert g. induction l as [|[q1 p1] l IH]; intros g; [reflexivity|]. cbn. rewrite IH. reflexivity. }
          rewrite G. exact L. }
        congruence.
Qed.
Print Assumptions C41_sampled.

(** * Single joints *)
Lemma tol_real : DELTA_Q_MOTION_FINISHED real = tolerance.
Proof. reflexivity. Qed.
Lemma moves_true : forall x, tolerance < Rabs x -> moves real x = true.
Proof. intros x H. unfold moves, f_gt. rewrite tol_real. cbn. destruct (Rlt_dec tolerance (Rabs x)); [reflexivity|contradiction]. Qed.
Lemma moves_false : forall x, Rabs x <= tolerance -> moves real x = false.
Proof. intros x H. unfold moves, f_gt. rewrite tol_real. cbn. destruct (Rlt_dec tolerance (Rabs x)); [lra|reflexivity]. Qed.
Lemma limit_value : forall s goal i, (i < 7)%nat -> limit s goal i = top_speed i * s.
Proof.
  intros s goal i H. unfold limit, top_speed, joint. cbn.
  do 7 (destruct i as [|i]; [unfold f_lit; cbn; lra|]). lia.
Qed.
Lemma accel_value : forall s goal i, (i < 7)%nat -> accel s goal i = top_acceleration * s.
Proof. intros s goal i H. unfold accel, top_acceleration, joint. cbn. do 7 (destruct i as [|i]; [cbn; lra|]). lia. Qed.
Lemma speed_pos : forall i, 0 < top_speed i.
Proof. intros i. unfold top_speed. destruct (Nat.ltb i 4); lra. Qed.

Lemma fold_max : forall l (a : R), a <= fold_left Rmax l a /\ (forall y, In y l -> y <= fold_left Rmax l a) /\
  (fold_left Rmax l a = a \/ In (fold_left Rmax l a) l).
Proof.
  induction l as [|b l IH]; intros a; cbn.
  - split; [lra|]. split; [intros y []|left; reflexivity].
  - destruct (IH (Rmax a b)) as (A & B & C). pose proof (Rmax_l a b). pose proof (Rmax_r a b).
    split; [lra|]. split.
    + intros y [->|Hy]; [lra|apply B; exact Hy].
    + destruct C as [C|C]; [|right; right; exact C]. rewrite C. unfold Rmax. destruct (Rle_dec a b); [right; left; reflexivity|left; reflexivity].
Qed.
Section Joint.
  Variables (s : R) (goal q0 : list R).
  Hypothesis Hs : 0 < s.
  Notation x := (to_go goal q0).
  Notation T := (Tmax s goal q0).
  Definition own (i : nat) : R := own_time real (x i) (limit s goal i) (accel s goal i) (accel s goal i).
  Lemma own_le : forall i, (i < 7)%nat -> own i <= T.
  Proof.
    intros i H. unfold Tmax. destruct (fold_max (map own (seq 1 6)) (own 0%nat)) as (A & B & _).
    destruct i as [|i]; [exact A|]. apply B, in_map, in_seq. lia.
  Qed.
  Lemma own_some : exists i, (i < 7)%nat /\ T = own i.
  Proof.
    unfold Tmax. destruct (fold_max (map own (seq 1 6)) (own 0%nat)) as (_ & _ & [C|C]).
    - exists 0%nat. split; [lia|exact C].
    - apply in_map_iff in C. destruct C as (i & E & Hi). apply in_seq in Hi. exists i. split; [lia|symmetry; exact E].
  Qed.
  Lemma acc_pos : forall i, (i < 7)%nat -> 0 < accel s goal i.
  Proof. intros i H. rewrite accel_value by exact H. unfold top_acceleration. lra. Qed.
  Lemma lim_pos : forall i, (i < 7)%nat -> 0 < limit s goal i.
  Proof. intros i H. rewrite limit_value by exact H. pose proof (speed_pos i). nra. Qed.
  Lemma own_moving : forall i, (i < 7)%nat -> tolerance < Rabs (x i) ->
    own i = profile_time (accel s goal i) (accel s goal i) (Rabs (x i)) (reach (x i) (limit s goal i) (accel s goal i) (accel s goal i)).
  Proof.
    intros i Hi M. unfold own, own_time. rewrite moves_true by exact M. unfold f_lit. cbn [f_add f_mul f_div f_abs f_int real].
    pose proof (acc_pos i Hi) as A. assert (X : x i <> 0) by (intros X; rewrite X, Rabs_R0 in M; unfold tolerance in M; lra).
    destruct (reach_facts (x i) (limit s goal i) (accel s goal i) (accel s goal i) X (lim_pos i Hi) A A) as ((R0 & _) & _).
    fold (reach (x i) (limit s goal i) (accel s goal i) (accel s goal i)).
    set (r := reach _ _ _ _) in *. set (a := accel s goal i) in *. clearbody r a.
    unfold profile_time, ramp. field. lra.
  Qed.
  Lemma own_still : forall i, Rabs (x i) <= tolerance -> own i = 0.
  Proof. intros i H. unfold own, own_time. rewrite moves_false by exact H. reflexivity. Qed.
  Lemma own_nonneg : forall i, (i < 7)%nat -> 0 <= own i.
  Proof.
    intros i Hi. destruct (Rlt_dec tolerance (Rabs (x i))) as [M|M]; [|rewrite own_still by lra; lra].
    rewrite own_moving by assumption. pose proof (acc_pos i Hi) as A.
    assert (X : x i <> 0) by (intros X; rewrite X, Rabs_R0 in M; unfold tolerance in M; lra).
    destruct (reach_facts (x i) (limit s goal i) (accel s goal i) (accel s goal i) X (lim_pos i Hi) A A) as ((R0 & _) & _).
    pose proof (ramp_pos _ _ A A). unfold profile_time. apply Rplus_le_le_0_compat; [nra|].
    left. apply Rdiv_lt_0_compat; [apply Rabs_pos_lt; exact X|exact R0].
  Qed.

  (** A moving joint follows the profile. *)
  Lemma moving : forall i, (i < 7)%nat -> tolerance < Rabs (x i) ->
    exists D t1 d2, 0 < D <= top_speed i * s /\ 0 < t1 /\ 0 < d2 /\ 3 / 2 * D = top_acceleration * s * t1 /\ 3 / 2 * D = top_acceleration * s * d2 /\
      t1 + d2 <= T /\ Rabs (x i) = D * (T - t1 / 2 - d2 / 2) /\
      forall t, value s goal q0 i t = (sgn (x i) * pos D t1 d2 T (Rabs (x i)) t, negb (below t T)).
  Proof.
    intros i Hi M. pose proof (acc_pos i Hi) as A. pose proof (lim_pos i Hi) as L.
    assert (X : x i <> 0) by (intros X; rewrite X, Rabs_R0 in M; unfold tolerance in M; lra).
    pose proof (own_le i Hi) as OT. rewrite own_moving in OT by assumption.
    destruct (sync_facts (x i) (limit s goal i) (accel s goal i) (accel s goal i) T X L A A OT) as (D & (D0 & D1) & K & P & S).
    destruct (reach_facts (x i) (limit s goal i) (accel s goal i) (accel s goal i) X L A A) as ((_ & R1) & _).
    unfold value, fields. rewrite moves_true by exact M. rewrite S.
    assert (DL : D <= limit s goal i) by lra. rewrite limit_value in DL by exact Hi. rewrite accel_value in * by exact Hi. set (a := top_acceleration * s) in *.
    set (t1 := 3 / 2 * D / a). assert (T1 : 0 < t1) by (apply Rdiv_lt_0_compat; lra).
    assert (E1 : 3 / 2 * D = a * t1) by (unfold t1; field; lra).
    exists D, t1, t1. set (d := Rabs (x i)) in *.
    assert (Hd : d = D * (T - t1 / 2 - t1 / 2)).
    { unfold profile_time, ramp in P. rewrite <- P. unfold t1. field. lra. }
    assert (HT : t1 + t1 <= T).
    { unfold ramp in K. replace (3 / 4 * (/ a + / a) * (D * D)) with (D * t1) in K by (unfold t1; field; lra). rewrite Hd in K.
      assert (t1 <= T - t1 / 2 - t1 / 2) by (apply (Rmult_le_reg_l D); assumption). lra. }
    assert (AS : d * sgn (x i) = x i) by apply abs_sgn. assert (TD : tolerance < d) by exact M.
    split; [lra|]. repeat (split; [assumption|]). clear K P S OT.
    intros t. unfold desired_value. cbv zeta. unfold moves, f_gt in *. rewrite signum_real. rewrite tol_real.
    cbn [f_lt f_abs f_eq f_add f_sub f_mul f_div f_int real]. unfold f_lit, cube. cbn [f_div f_mul f_int real].
    destruct (Rlt_dec (Rabs (x i)) tolerance) as [B|_]; [exfalso; exact (Rlt_asym _ _ B M)|].
    unfold pos, glue, below.
    destruct (Rlt_dec t t1) as [L1|L1].
    - destruct (Rlt_dec t T); [|lra]. destruct (Rlt_dec t (T - t1)); [|lra]. unfold p1. f_equal. ring.
    - assert (GE : forall y, y <= t -> (if Rlt_dec y t then true else false) || (if Req_EM_T t y then true else false) = true).
      { intros y Hy. destruct (Rlt_dec y t); [reflexivity|]. destruct (Req_EM_T t y); [reflexivity|lra]. }
      rewrite (GE t1) by lra. cbn [andb]. destruct (Rlt_dec t (T - t1)) as [L2|L2].
      + destruct (Rlt_dec t T); [|lra]. unfold p2. f_equal. field.
      + rewrite (GE (T - t1)) by lra. cbn [andb]. destruct (Rlt_dec t T) as [L3|L3].
        * f_equal. unfold p3. cbv zeta.
          replace (T - (T - t1)) with t1 by ring. replace (t - t1 - (T - t1 - t1)) with (t - (T - t1)) by ring.
          replace (t - t1 - 2 * t1 - (T - t1 - t1)) with (t - (T - t1) - 2 * t1) by ring.
          replace (2 * t - 2 * t1 - t1 - 2 * (T - t1 - t1)) with (2 * (t - (T - t1)) - t1) by ring.
          rewrite <- AS at 1. clearbody t1 d. ring.
        * f_equal. rewrite Rmult_comm. symmetry. exact AS.
  Qed.
End Joint.

Lemma still_small : forall s goal q0 i t, Rabs (to_go goal q0 i) < tolerance -> value s goal q0 i t = (0, true).
Proof.
  intros s goal q0 i t H. unfold value, fields. rewrite moves_false by lra. unfold desired_value. cbv zeta. rewrite tol_real.
  cbn [f_lt f_abs real]. destruct (Rlt_dec (Rabs (to_go goal q0 i)) tolerance); [reflexivity|contradiction].
Qed.
Lemma still_equal : forall s goal q0 i t, Rabs (to_go goal q0 i) = tolerance -> 0 <= t -> value s goal q0 i t = (to_go goal q0 i, true).
Proof.
  intros s goal q0 i t H Ht. unfold value, fields. rewrite moves_false by lra. unfold desired_value. cbv zeta. rewrite tol_real.
  cbn [f_lt f_abs f_eq real]. destruct (Rlt_dec (Rabs (to_go goal q0 i)) tolerance); [lra|].
  destruct (Rlt_dec t 0); [lra|]. rewrite andb_false_r. reflexivity.
Qed.
Lemma place_value : forall s goal q0 i t, (i < 7)%nat -> place s goal q0 i t = nth i q0 0 + fst (value s goal q0 i t).
Proof.
  intros s goal q0 i t H. unfold place. rewrite path_answer. unfold answer. cbn [fst].
  exact (joint_map (fun i => nth i q0 0 + fst (value s goal q0 i t)) i ltac:(apply in_seq; lia)).
Qed.
Lemma tol_cases : forall y, Rabs y < tolerance \/ Rabs y = tolerance \/ tolerance < Rabs y.
Proof. intros y. destruct (Rtotal_order (Rabs y) tolerance) as [H|[H|H]]; auto. Qed.

(** C41: the motion begins where the robot is (a joint whose distance is exactly the tolerance is commanded to
    the goal at once). *)
Theorem C41_start : forall s goal q0 i, 0 < s -> (i < 7)%nat ->
  Rabs (place s goal q0 i 0 - nth i q0 0) <= tolerance /\
  (Rabs (to_go goal q0 i) <> tolerance -> place s goal q0 i 0 = nth i q0 0).
Proof.
  intros s goal q0 i S Hi. rewrite place_value by exact Hi.
  destruct (tol_cases (to_go goal q0 i)) as [H|[H|H]].
  - rewrite still_small by exact H. cbn [fst]. replace (nth i q0 0 + 0 - nth i q0 0) with 0 by ring. rewrite Rabs_R0.
    split; [unfold tolerance; lra|intros _; ring].
  - rewrite still_equal by (exact H || lra). cbn [fst]. split; [|intros N; contradiction].
    replace (nth i q0 0 + to_go goal q0 i - nth i q0 0) with (to_go goal q0 i) by ring. lra.
  - destruct (moving s goal q0 S i Hi H) as (D & t1 & d2 & (D0 & _) & T1 & D2 & _ & _ & HT & Hd & V). rewrite V. cbn [fst].
    rewrite (pos_start D t1 d2 (Tmax s goal q0)) by assumption.
    replace (nth i q0 0 + sgn (to_go goal q0 i) * 0 - nth i q0 0) with 0 by ring. rewrite Rabs_R0.
    split; [unfold tolerance; lra|intros _; ring].
Qed.
Print Assumptions C41_start.

(** C41: the path has no jumps: two of its points are no further apart than the top speed allows. *)
Theorem C41_continuous : forall s goal q0 i t u, 0 < s -> (i < 7)%nat -> 0 <= t -> 0 <= u ->
  Rabs (place s goal q0 i u - place s goal q0 i t) <= top_speed i * s * Rabs (u - t).
Proof.
  intros s goal q0 i t u S Hi Ht Hu. rewrite !place_value by exact Hi.
  assert (N : 0 <= top_speed i * s * Rabs (u - t)) by (pose proof (speed_pos i); apply Rmult_le_pos; [nra|apply Rabs_pos]).
  destruct (tol_cases (to_go goal q0 i)) as [H|[H|H]].
  - rewrite !still_small by exact H. rewrite Rminus_diag_eq by reflexivity. rewrite Rabs_R0. exact N.
  - rewrite !still_equal by assumption. rewrite Rminus_diag_eq by reflexivity. rewrite Rabs_R0. exact N.
  - destruct (moving s goal q0 S i Hi H) as (D & t1 & d2 & (D0 & D1) & T1 & D2 & _ & _ & HT & Hd & V). rewrite !V. cbn [fst].
    set (x := to_go goal q0 i) in *. set (p := pos D t1 d2 (Tmax s goal q0) (Rabs x)).
    replace (nth i q0 0 + sgn x * p u - (nth i q0 0 + sgn x * p t)) with (sgn x * (p u - p t)) by ring.
    rewrite Rabs_mult. assert (SA : Rabs (sgn x) = 1).
    { destruct (sgn_case x) as [->| ->]; [apply Rabs_R1|rewrite Rabs_left; lra]. }
    rewrite SA, Rmult_1_l. eapply Rle_trans.
    + apply (pos_lipschitz D t1 d2 (Tmax s goal q0) (Rabs x) D0 T1 D2 HT Hd t u Ht Hu).
    + apply Rmult_le_compat_r; [apply Rabs_pos|exact D1].
Qed.
Print Assumptions C41_continuous.

Lemma finished_all : forall s goal q0 t, snd (path s goal q0 t) = true <-> forall i, (i < 7)%nat -> snd (value s goal q0 i t) = true.
Proof.
  intros s goal q0 t. rewrite path_answer. unfold answer. cbn [snd]. rewrite forallb_forall. split.
  - intros H i Hi. apply H, in_seq. lia.
  - intros H i Hi. apply in_seq in Hi. apply H. lia.
Qed.

(** C41: when the motion reports its end, every joint is closer to its goal than the tolerance - exactly at the
    goal if it had at least the tolerance to go. *)
Theorem C41_end : forall s goal q0 i t, 0 < s -> (i < 7)%nat -> 0 <= t -> snd (path s goal q0 t) = true ->
  Rabs (place s goal q0 i t - nth i goal 0) < tolerance /\
  (tolerance <= Rabs (to_go goal q0 i) -> place s goal q0 i t = nth i goal 0).
Proof.
  intros s goal q0 i t S Hi Ht F. rewrite place_value by exact Hi. pose proof (proj1 (finished_all _ _ _ _) F i Hi) as Fi.
  assert (G : nth i q0 0 + to_go goal q0 i = nth i goal 0) by (unfold to_go; ring).
  destruct (tol_cases (to_go goal q0 i)) as [H|[H|H]].
  - rewrite still_small by exact H. cbn [fst]. split; [|lra]. rewrite Rplus_0_r, Rabs_minus_sym. exact H.
  - rewrite still_equal by assumption. cbn [fst]. rewrite G, Rminus_diag_eq, Rabs_R0 by reflexivity. split; [unfold tolerance; lra|reflexivity].
  - destruct (moving s goal q0 S i Hi H) as (D & t1 & d2 & (D0 & _) & T1 & D2 & _ & _ & HT & Hd & V). rewrite V in *. cbn [fst snd] in *.
    assert (L : Tmax s goal q0 <= t).
    { unfold below in Fi. destruct (Rlt_dec t (Tmax s goal q0)); [discriminate|lra]. }
    rewrite pos_end by exact L. rewrite Rmult_comm, abs_sgn, G, Rminus_diag_eq, Rabs_R0 by reflexivity.
    split; [unfold tolerance; lra|reflexivity].
Qed.
Print Assumptions C41_end.

(** C41: the first output need not be the commanded position: a joint which is exactly the tolerance away jumps. *)
Theorem C41_jump_refuted : exists s goal q0, 0 < s /\ length goal = 7%nat /\ length q0 = 7%nat /\ place s goal q0 0 0 <> nth 0 q0 0.
Proof.
  exists 1, (tolerance :: repeat 0 6), (repeat 0 7). repeat (split; [lra || reflexivity|]).
  rewrite place_value by lia. rewrite still_equal; [| |lra].
  - cbn. unfold to_go. cbn. unfold tolerance. lra.
  - unfold to_go. cbn. rewrite Rminus_0_r. apply Rabs_pos_eq. unfold tolerance. lra.
Qed.
Print Assumptions C41_jump_refuted.

(** C41: called for the first time with a period other than zero the generator never looks at the robot: it
    commands all joints to zero and reports the end of the motion. *)
Theorem C41_first_period_refuted : exists s goal q0 p, 0 < s /\ 0 < p /\ length goal = 7%nat /\ length q0 = 7%nat /\
  nth 0 goal 0 = 1 /\ nth 0 q0 0 = 1 /\
  generate real (generator_new real s goal) [(q0, p)] = [(repeat 0 7, true)].
Proof.
  exists 1, (repeat 1 7), (repeat 1 7), 1. repeat (split; [lra || reflexivity|]).
  assert (Z : forall i, joint real (zeros real) i = 0).
  { intros i. do 7 (destruct i as [|i]; [reflexivity|]). destruct i; reflexivity. }
  assert (W : forall t, desired_value real 0 0 0 0 0 0 t = (0, true)).
  { intros t. unfold desired_value. rewrite tol_real. cbn [f_abs f_lt real]. rewrite Rabs_R0.
    destruct (Rlt_dec 0 tolerance) as [_|N]; [reflexivity|unfold tolerance in N; lra]. }
  cbn [generate]. cbv zeta. unfold generate_motion. cbv zeta. cbn [g_time generator_new f_add f_eq f_int real].
  destruct (Req_EM_T (0 + 1) 0); [lra|]. unfold calculate_desired_values. cbv zeta.
  cbn [g_delta_q g_dq_max_sync g_t_1_sync g_t_2_sync g_t_f_sync g_q_1 g_q_start map joints seq].
  rewrite !Z, !W. cbn. rewrite Rplus_0_r. reflexivity.
Qed.
Print Assumptions C41_first_period_refuted.

(** C42: along the path every joint has a speed and an acceleration, both within the scaled limits. *)
Theorem C42_limits : forall s goal q0 i, 0 < s -> (i < 7)%nat -> exists v a : R -> R, forall t, 0 < t ->
  derivable_pt_lim (place s goal q0 i) t (v t) /\ derivable_pt_lim v t (a t) /\
  Rabs (v t) <= top_speed i * s /\ Rabs (a t) <= top_acceleration * s.
Proof.
  intros s goal q0 i S Hi. assert (P : 0 < top_speed i * s) by (pose proof (speed_pos i); nra).
  assert (Q : 0 < top_acceleration * s) by (unfold top_acceleration; lra).
  assert (still : forall c, (forall t, 0 <= t -> value s goal q0 i t = (c, true)) -> exists v a : R -> R, forall t, 0 < t ->
    derivable_pt_lim (place s goal q0 i) t (v t) /\ derivable_pt_lim v t (a t) /\
    Rabs (v t) <= top_speed i * s /\ Rabs (a t) <= top_acceleration * s).
  { intros c E. exists (fun _ => 0), (fun _ => 0). intros t Ht. rewrite Rabs_R0. split; [|split; [apply derivable_pt_lim_const|lra]].
    apply (local_derivable _ (fun _ => nth i q0 0 + c) t 0 t Ht); [|apply derivable_pt_lim_const].
    intros y Hy. rewrite place_value by exact Hi. rewrite E by lra. reflexivity. }
  destruct (tol_cases (to_go goal q0 i)) as [H|[H|H]].
  - apply (still 0). intros t _. apply still_small. exact H.
  - apply (still (to_go goal q0 i)). intros t Ht. apply still_equal; assumption.
  - destruct (moving s goal q0 S i Hi H) as (D & t1 & d2 & (D0 & D1) & T1 & D2 & A1 & A2 & HT & Hd & V).
    set (x := to_go goal q0 i) in *. set (T := Tmax s goal q0) in *.
    assert (SA : Rabs (sgn x) = 1).
    { destruct (sgn_case x) as [->| ->]; [apply Rabs_R1|rewrite Rabs_left; lra]. }
    exists (fun t => sgn x * vel D t1 d2 T t), (fun t => sgn x * acc D t1 d2 T t). intros t Ht.
    split; [|split; [|split]].
    + apply (local_derivable _ (fun t => nth i q0 0 + sgn x * pos D t1 d2 T (Rabs x) t) t _ t Ht).
      * intros y _. rewrite place_value by exact Hi. rewrite V. reflexivity.
      * replace (sgn x * vel D t1 d2 T t) with (0 + sgn x * vel D t1 d2 T t) by ring.
        apply (derivable_pt_lim_plus (fun _ => nth i q0 0) (fun t => sgn x * pos D t1 d2 T (Rabs x) t)); [apply derivable_pt_lim_const|].
        apply (derivable_pt_lim_scal (pos D t1 d2 T (Rabs x))). apply d_pos; assumption.
    + apply (derivable_pt_lim_scal (vel D t1 d2 T)). apply d_vel; assumption.
    + rewrite Rabs_mult, SA, Rmult_1_l. pose proof (vel_range D t1 d2 T D0 T1 D2 t ltac:(lra)). rewrite Rabs_pos_eq; lra.
    + rewrite Rabs_mult, SA, Rmult_1_l. pose proof (acc_range D t1 d2 T D0 T1 D2 t ltac:(lra)) as AR.
      assert (E1 : 3 / 2 * D / t1 = top_acceleration * s) by (rewrite A1; field; lra).
      assert (E2 : 3 / 2 * D / d2 = top_acceleration * s) by (rewrite A2; field; lra).
      rewrite E1, E2 in AR. apply Rabs_le. lra.
Qed.
Print Assumptions C42_limits.

(** C42: two successive outputs differ by no more than the scaled top speed times the period. *)
Theorem C42_commands : forall s goal q0 calls k q p out out' i, 0 < s -> (i < 7)%nat -> started ((q0, 0) :: calls) ->
  nth_error calls k = Some (q, p) ->
  nth_error (generate real (generator_new real s goal) ((q0, 0) :: calls)) k = Some out ->
  nth_error (generate real (generator_new real s goal) ((q0, 0) :: calls)) (S k) = Some out' ->
  Rabs (nth i (fst out') 0 - nth i (fst out) 0) <= top_speed i * s * p.
Proof.
  intros s goal q0 calls k q p out out' i S Hi St Hc H H'.
  rewrite (C41_sampled _ _ _ _ _ _ St H), (C41_sampled _ _ _ _ _ _ St H').
  destruct St as (q1 & rest & E & F & _). injection E as <- <-.
  assert (EL : forall l, Forall (fun c : list R * R => 0 <= snd c) l -> 0 <= elapsed l).
  { induction 1; unfold elapsed in *; cbn; lra. }
  assert (SP : elapsed (firstn (Datatypes.S k) calls) = elapsed (firstn k calls) + p).
  { clear - Hc. revert k Hc. induction calls as [|c calls IH]; intros k Hc; [destruct k; discriminate|].
    destruct k as [|k]; cbn [nth_error] in Hc.
    - injection Hc as ->. unfold elapsed. cbn. lra.
    - change (elapsed (firstn (Datatypes.S (Datatypes.S k)) (c :: calls))) with (snd c + elapsed (firstn (Datatypes.S k) calls)). rewrite IH by exact Hc.
      change (elapsed (firstn (Datatypes.S k) (c :: calls))) with (snd c + elapsed (firstn k calls)). ring. }
  assert (P : 0 <= p).
  { rewrite Forall_forall in F. apply (F (q, p)), (nth_error_In _ _ Hc). }
  assert (FK : forall n, 0 <= elapsed (firstn n calls)).
  { intros n. apply EL. clear - F. revert n. induction F; intros [|n]; cbn; constructor; auto. }
  pose proof (C41_continuous s goal q0 i _ _ S Hi (FK k) (FK (Datatypes.S k))) as C. rewrite SP in C.
  replace (elapsed (firstn k calls) + p - elapsed (firstn k calls)) with p in C by ring. rewrite (Rabs_pos_eq p P) in C.
  rewrite SP. exact C.
Qed.
Print Assumptions C42_commands.

(** C43: there is one time at which the end is reported; every joint which has more than the tolerance to go
    reaches its goal exactly then and not earlier. *)
Theorem C43_together : forall s goal q0, 0 < s -> exists T, 0 <= T /\
  (forall t, 0 <= t -> (snd (path s goal q0 t) = true <-> T <= t)) /\
  (forall i, (i < 7)%nat -> tolerance < Rabs (to_go goal q0 i) ->
    (forall t, 0 <= t < T -> place s goal q0 i t <> nth i goal 0) /\ (forall t, T <= t -> place s goal q0 i t = nth i goal 0)).
Proof.
  intros s goal q0 S. exists (Tmax s goal q0).
  destruct (own_some s goal q0) as (j & Hj & E). pose proof (own_nonneg s goal q0 S j Hj) as N. rewrite <- E in N.
  split; [exact N|]. split.
  - intros t Ht. rewrite finished_all. split.
    + intros H. destruct (Rlt_dec t (Tmax s goal q0)) as [L|L]; [|lra].
      destruct (Rlt_dec tolerance (Rabs (to_go goal q0 j))) as [M|M].
      * destruct (moving s goal q0 S j Hj M) as (D & t1 & d2 & _ & _ & _ & _ & _ & _ & _ & V).
        specialize (H j Hj). rewrite V in H. cbn in H. rewrite below_true in H by exact L. discriminate.
      * rewrite E, own_still in L by lra. lra.
    + intros L i Hi. destruct (tol_cases (to_go goal q0 i)) as [H|[H|H]].
      * rewrite still_small by exact H. reflexivity.
      * rewrite still_equal by assumption. reflexivity.
      * destruct (moving s goal q0 S i Hi H) as (D & t1 & d2 & _ & _ & _ & _ & _ & _ & _ & V). rewrite V. cbn. rewrite below_false by exact L. reflexivity.
  - intros i Hi M. destruct (moving s goal q0 S i Hi M) as (D & t1 & d2 & (D0 & _) & T1 & D2 & _ & _ & HT & Hd & V).
    assert (G : nth i goal 0 = nth i q0 0 + sgn (to_go goal q0 i) * Rabs (to_go goal q0 i)) by (rewrite Rmult_comm, abs_sgn; unfold to_go; ring).
    split; intros t Ht; rewrite place_value by exact Hi; rewrite V, G; cbn [fst].
    + pose proof (pos_before D t1 d2 _ _ D0 T1 D2 HT Hd t Ht) as B. destruct (sgn_case (to_go goal q0 i)) as [->| ->]; lra.
    + rewrite pos_end by exact Ht. reflexivity.
Qed.
Print Assumptions C43_together.

(** A motion of one joint over the distance [d] in the time [T]: smooth ramp of length [t1] up to the speed
    [D], constant speed, smooth ramp of length [d2] down to rest, speed and acceleration within limits. *)
Definition smooth_motion (V A d T : R) : Prop :=
  exists D t1 d2, 0 < D /\ 0 < t1 /\ 0 < d2 /\ t1 + d2 <= T /\ d = D * (T - t1 / 2 - d2 / 2) /\
    forall t, 0 <= t -> vel D t1 d2 T t <= V /\ Rabs (acc D t1 d2 T t) <= A.

(** C43: the common time is the least possible one for the slowest joint, among the motions of this shape. *)
Theorem C43_least_partial : forall s goal q0, 0 < s -> (exists i, (i < 7)%nat /\ tolerance < Rabs (to_go goal q0 i)) ->
  exists T j, (forall t, 0 <= t -> (snd (path s goal q0 t) = true <-> T <= t)) /\
    (j < 7)%nat /\ tolerance < Rabs (to_go goal q0 j) /\
    smooth_motion (top_speed j * s) (top_acceleration * s) (Rabs (to_go goal q0 j)) T /\
    (forall T', smooth_motion (top_speed j * s) (top_acceleration * s) (Rabs (to_go goal q0 j)) T' -> T <= T').
Proof.
  intros s goal q0 S (i & Hi & Mi).
  destruct (C43_together s goal q0 S) as (T & T0 & FT & _).
  assert (ET : T = Tmax s goal q0).
  { destruct (own_some s goal q0) as (j & Hj & E). pose proof (own_nonneg s goal q0 S j Hj) as N. rewrite <- E in N.
    destruct (moving s goal q0 S i Hi Mi) as (D & t1 & d2 & (D0 & _) & T1 & D2 & _ & _ & HT & Hd & V).
    apply Rle_antisym.
    - apply FT; [exact N|]. apply finished_all. intros k Hk. destruct (tol_cases (to_go goal q0 k)) as [H|[H|H]].
      + rewrite still_small by exact H. reflexivity.
      + rewrite still_equal by assumption. reflexivity.
      + destruct (moving s goal q0 S k Hk H) as (? & ? & ? & _ & _ & _ & _ & _ & _ & _ & V'). rewrite V'. cbn. rewrite below_false by lra. reflexivity.
    - pose proof (proj1 (finished_all _ _ _ _) (proj2 (FT T T0) (Rle_refl T)) i Hi) as F. rewrite V in F. cbn [snd] in F. unfold below in F.
      destruct (Rlt_dec T (Tmax s goal q0)); [discriminate|lra]. }
  destruct (own_some s goal q0) as (j & Hj & E). rewrite <- ET in E.
  assert (Mj : tolerance < Rabs (to_go goal q0 j)).
  { destruct (Rlt_dec tolerance (Rabs (to_go goal q0 j))) as [M|M]; [exact M|exfalso].
    rewrite own_still in E by lra. destruct (moving s goal q0 S i Hi Mi) as (D & t1 & d2 & _ & T1 & D2 & _ & _ & HT & _). rewrite <- ET in HT. lra. }
  exists T, j. split; [exact FT|]. split; [exact Hj|]. split; [exact Mj|].
  assert (V0 : 0 < top_speed j * s) by (pose proof (speed_pos j); nra).
  assert (A0 : 0 < top_acceleration * s) by (unfold top_acceleration; lra).
  split.
  - destruct (moving s goal q0 S j Hj Mj) as (D & t1 & d2 & (D0 & D1) & T1 & D2 & A1 & A2 & HT & Hd & _). rewrite <- ET in *.
    exists D, t1, d2. repeat (split; [assumption|]). intros t Ht.
    pose proof (vel_range D t1 d2 T D0 T1 D2 t Ht). pose proof (acc_range D t1 d2 T D0 T1 D2 t Ht) as AR.
    assert (E1 : 3 / 2 * D / t1 = top_acceleration * s) by (rewrite A1; field; lra).
    assert (E2 : 3 / 2 * D / d2 = top_acceleration * s) by (rewrite A2; field; lra).
    rewrite E1, E2 in AR. split; [lra|apply Rabs_le; lra].
  - intros T' (D & t1 & d2 & D0 & T1 & D2 & HT & Hd & L).
    rewrite own_moving in E by assumption. rewrite limit_value, accel_value in E by exact Hj.
    set (x := to_go goal q0 j) in *. set (V := top_speed j * s) in *. set (A := top_acceleration * s) in *.
    assert (X : x <> 0) by (intros X; rewrite X, Rabs_R0 in Mj; unfold tolerance in Mj; lra).
    destruct (reach_facts x V A A X V0 A0 A0) as ((R0 & R1) & R2 & R3). set (r := reach x V A A) in *.
    assert (LV : D <= V).
    { destruct (L t1 ltac:(lra)) as [Q _]. unfold vel in Q. rewrite glue_before in Q by lra.
      destruct (Rlt_dec t1 (T' - d2)) as [B|B].
      - rewrite glue_before, glue_at in Q by lra. exact Q.
      - rewrite glue_at in Q by lra. unfold v3 in Q. cbv zeta in Q. replace ((t1 - (T' - d2)) / d2) with 0 in Q; [lra|].
        replace (t1 - (T' - d2)) with 0 by lra. field. lra. }
    assert (LA1 : 3 / 2 * D / t1 <= A).
    { destruct (L (t1 / 2) ltac:(lra)) as [_ Q]. unfold acc in Q. rewrite !glue_before in Q by lra. unfold a1 in Q.
      replace (6 * D / t1 * (t1 / 2 / t1) * (1 - t1 / 2 / t1)) with (3 / 2 * D / t1) in Q by (field; lra).
      eapply Rle_trans; [apply Rle_abs|exact Q]. }
    assert (LA2 : 3 / 2 * D / d2 <= A).
    { destruct (L (T' - d2 / 2) ltac:(lra)) as [_ Q]. unfold acc in Q. rewrite glue_before, glue_at in Q by lra. unfold a3 in Q. cbv zeta in Q.
      replace ((T' - d2 / 2 - (T' - d2)) / d2) with (1 / 2) in Q by (field; lra).
      replace (- (6 * D / d2 * (1 / 2) * (1 - 1 / 2))) with (- (3 / 2 * D / d2)) in Q by (field; lra).
      rewrite Rabs_Ropp in Q. eapply Rle_trans; [apply Rle_abs|exact Q]. }
    assert (B1 : 3 / 2 * D / A <= t1).
    { apply (Rmult_le_reg_r A); [exact A0|]. replace (3 / 2 * D / A * A) with (3 / 2 * D / t1 * t1) by (field; lra). rewrite (Rmult_comm t1 A). apply Rmult_le_compat_r; lra. }
    assert (B2 : 3 / 2 * D / A <= d2).
    { apply (Rmult_le_reg_r A); [exact A0|]. replace (3 / 2 * D / A * A) with (3 / 2 * D / d2 * d2) by (field; lra). rewrite (Rmult_comm d2 A). apply Rmult_le_compat_r; lra. }
    assert (KK : ramp A A * D = 3 / 2 * D / A) by (unfold ramp; field; lra).
    assert (K : ramp A A * (D * D) <= Rabs x).
    { rewrite Hd. replace (ramp A A * (D * D)) with (D * (ramp A A * D)) by ring. apply Rmult_le_compat_l; lra. }
    pose proof (R3 D D0 LV K) as DR.
    assert (TD : profile_time A A (Rabs x) D <= T').
    { unfold profile_time. rewrite KK. replace (Rabs x / D) with (T' - t1 / 2 - d2 / 2) by (rewrite Hd; field; lra). lra. }
    eapply Rle_trans; [|exact TD]. rewrite E. unfold profile_time. fold V A r.
    (* decreasing up to the optimum *)
    assert (F : (ramp A A * D + Rabs x / D) - (ramp A A * r + Rabs x / r) = (r - D) * (Rabs x - ramp A A * (D * r)) / (D * r)) by (field; lra).
    assert (0 <= (r - D) * (Rabs x - ramp A A * (D * r)) / (D * r)).
    { apply Rmult_le_pos; [|left; apply Rinv_0_lt_compat; nra]. apply Rmult_le_pos; [lra|].
      pose proof (ramp_pos A A A0 A0). assert (D * r <= r * r) by nra. nra. }
    lra.
Qed.
Print Assumptions C43_least_partial.

(** A motion of one joint over the distance [d] in the time [T], from rest to rest, whose speed stays within [V]
    and changes no faster than [A]. *)
Definition any_motion (V A d T : R) : Prop :=
  exists f v : R -> R, f 0 = 0 /\ f T = d /\ v 0 = 0 /\ v T = 0 /\
    (forall t, 0 <= t <= T -> derivable_pt_lim f t (v t) /\ Rabs (v t) <= V) /\
    (forall t u, 0 <= t <= T -> 0 <= u <= T -> Rabs (v u - v t) <= A * Rabs (u - t)).

(** C43: it is not the least time under the limits: ramps with constant acceleration are faster. *)
Theorem C43_least_refuted : exists s goal q0 T', 0 < s /\ length goal = 7%nat /\ length q0 = 7%nat /\
  (forall i, (0 < i < 7)%nat -> to_go goal q0 i = 0) /\
  any_motion (top_speed 0 * s) (top_acceleration * s) (Rabs (to_go goal q0 0)) T' /\
  0 <= T' /\ snd (path s goal q0 T') = false.
Proof.
  exists 1, (4 / 5 :: repeat 0 6), (repeat 0 7), (4 / 5). set (goal := 4 / 5 :: repeat 0 6). set (q0 := repeat 0 7).
  split; [lra|]. split; [reflexivity|]. split; [reflexivity|].
  split. { intros i Hi. unfold to_go, goal, q0. do 7 (destruct i as [|i]; [(exfalso; lia) || (cbn; lra)|]). lia. }
  assert (X : Rabs (to_go goal q0 0) = 4 / 5) by (unfold to_go, goal, q0; cbn; rewrite Rabs_pos_eq; lra).
  rewrite X. split; [|split; [lra|]].
  - exists (glue (2 / 5) (poly 0 0 (5 / 2) 0 0) (poly (4 / 5 - 8 / 5) 4 (- (5 / 2)) 0 0)), (glue (2 / 5) (fun t => 5 * t) (fun t => 4 - 5 * t)).
    split; [rewrite glue_before by lra; unfold poly; lra|]. split; [rewrite glue_at by lra; unfold poly; lra|].
    split; [rewrite glue_before by lra; lra|]. split; [rewrite glue_at by lra; lra|].
    split.
    + intros t Ht. split.
      * apply glue_derivable; [unfold poly; lra|lra| |];
          intros y; (eapply d_ext; [intros; reflexivity| |apply d_poly]); unfold poly; cbv beta; field.
      * unfold top_speed. cbn [Nat.ltb Nat.leb]. unfold glue, below. destruct (Rlt_dec t (2 / 5)); apply Rabs_le; lra.
    + unfold top_acceleration. intros t u Ht Hu. unfold glue, below.
      destruct (Rlt_dec t (2 / 5)), (Rlt_dec u (2 / 5)); unfold Rabs; destruct (Rcase_abs _), (Rcase_abs _); lra.
  - destruct (moving 1 goal q0 ltac:(lra) 0%nat ltac:(lia)) as (D & t1 & d2 & (D0 & D1) & T1 & D2 & A1 & A2 & HT & Hd & V).
    { rewrite X. unfold tolerance. lra. }
    destruct (snd (path 1 goal q0 (4 / 5))) eqn:F; [exfalso|reflexivity].
    pose proof (proj1 (finished_all _ _ _ _) F 0%nat ltac:(lia)) as F0. rewrite V in F0. cbn [snd] in F0. unfold below in F0.
    destruct (Rlt_dec (4 / 5) (Tmax 1 goal q0)) as [L|L]; [discriminate|]. rewrite X in Hd. unfold top_acceleration in *.
    set (T := Tmax 1 goal q0) in *. clearbody T. assert (E1 : t1 = 3 / 10 * D) by lra. assert (E2 : d2 = 3 / 10 * D) by lra. subst t1 d2.
    pose proof (Rle_0_sqr (D - 4 / 3)) as SQ. unfold Rsqr in SQ. nra.
Qed.
Print Assumptions C43_least_refuted.

(** The hypotheses are met by motions of several joints over several calls. *)
Example C41_ex : let goal := [1; 0; -1; 1/2; 0; 0; 2] in let q0 := [0; 0; 0; 0; 0; 0; 0] in
  started [(q0, 0); (goal, 1 / 1000); (q0, 0); (goal, 2)] /\
  (exists i, (i < 7)%nat /\ tolerance < Rabs (to_go goal q0 i)) /\
  length (generate real (generator_new real (1/2) goal) [(q0, 0); (goal, 1 / 1000); (q0, 0); (goal, 2)]) = 4%nat.
Proof.
  cbv zeta. split; [|split].
  - eexists _, _. split; [reflexivity|]. split; [repeat constructor; cbn; lra|]. intros _. cbn. lra.
  - exists 2%nat. split; [lia|]. unfold to_go, tolerance. cbn. rewrite Rabs_left; lra.
  - reflexivity.
Qed.
Example C43_ex : smooth_motion 2 5 (9 / 10) (21 / 20) /\ any_motion 2 5 (4 / 5) (4 / 5).
Proof.
  split.
  - exists (3 / 2), (9 / 20), (9 / 20). repeat (split; [lra|]). intros t Ht.
    pose proof (vel_range (3 / 2) (9 / 20) (9 / 20) (21 / 20) ltac:(lra) ltac:(lra) ltac:(lra) t Ht).
    pose proof (acc_range (3 / 2) (9 / 20) (9 / 20) (21 / 20) ltac:(lra) ltac:(lra) ltac:(lra) t Ht).
    split; [lra|apply Rabs_le; lra].
  - exists (glue (2 / 5) (poly 0 0 (5 / 2) 0 0) (poly (4 / 5 - 8 / 5) 4 (- (5 / 2)) 0 0)), (glue (2 / 5) (fun t => 5 * t) (fun t => 4 - 5 * t)).
    split; [rewrite glue_before by lra; unfold poly; lra|]. split; [rewrite glue_at by lra; unfold poly; lra|].
    split; [rewrite glue_before by lra; lra|]. split; [rewrite glue_at by lra; lra|].
    split.
    + intros t Ht. split.
      * apply glue_derivable; [unfold poly; lra|lra| |];
          intros y; (eapply d_ext; [intros; reflexivity| |apply d_poly]); unfold poly; cbv beta; field.
      * unfold glue, below. destruct (Rlt_dec t (2 / 5)); apply Rabs_le; lra.
    + intros t u Ht Hu. unfold glue, below.
      destruct (Rlt_dec t (2 / 5)), (Rlt_dec u (2 / 5)); unfold Rabs; destruct (Rcase_abs _), (Rcase_abs _); lra.
Qed.
