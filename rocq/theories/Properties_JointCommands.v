(** C80: what joint_motion sends - the generator's positions, unaltered by the rate limiter. *)
From Coq Require Import List ZArith NArith Bool Reals Lra Lia Psatz Arith.
From Verif Require Import NumOps NumReal RateModel RateReal RateSpec ConvertModel MotionModel MotionProofs JerkShape Properties_Rate Properties_Filter Properties_Motion Properties_ExampleMotions Properties_ExampleCommands.
Import ListNotations.
Open Scope R_scope.

(** The duration of a motion: it is over from this time on. *)
Definition lasts (s : R) (goal q0 : list R) (d : R) : Prop := forall t, 0 <= t -> (snd (path s goal q0 t) = true <-> d <= t).
(** A joint which moves slowly over the whole time (below 1.8 mrad/s) or fast enough. *)
Definition jerk_small (s d x : R) : Prop := s <= 37 / 100 \/ Rabs x <= 9 / 10000 * d \/ 18 / 1000 * (s * s) * d <= Rabs x.

(** * The curve of a joint *)
Definition curve (s : R) (goal q0 : list R) (i : nat) (t : R) : R := if Rlt_dec t 0 then nth i q0 0 else place s goal q0 i t.
Lemma lasts_unique : forall s goal q0 d i, 0 < s -> (i < 7)%nat -> tolerance < Rabs (to_go goal q0 i) -> lasts s goal q0 d -> d = Tmax s goal q0.
Proof.
  intros s goal q0 d i S Hi M L.
  assert (F : forall t, 0 <= t -> snd (path s goal q0 t) = true <-> Tmax s goal q0 <= t).
  { intros t Ht. rewrite finished_all. split.
    - intros A. specialize (A i Hi). destruct (moving s goal q0 S i Hi M) as (D & t1 & d2 & _ & _ & _ & _ & _ & _ & _ & V). rewrite V in A. cbn [snd] in A.
      unfold below in A. destruct (Rlt_dec t (Tmax s goal q0)); [discriminate|lra].
    - intros Le j Hj. destruct (tol_cases (to_go goal q0 j)) as [H|[H|H]].
      + rewrite still_small by exact H. reflexivity.
      + rewrite still_equal by assumption. reflexivity.
      + destruct (moving s goal q0 S j Hj H) as (D & t1 & d2 & _ & _ & _ & _ & _ & _ & _ & V). rewrite V. cbn [snd].
        rewrite below_false by exact Le. reflexivity. }
  assert (P : 0 < Tmax s goal q0).
  { destruct (moving s goal q0 S i Hi M) as (D & t1 & d2 & _ & T1 & D2 & _ & _ & HT & _). lra. }
  assert (D0 : 0 <= d).
  { destruct (Rle_dec 0 d) as [Q|Q]; [exact Q|]. pose proof (proj2 (L 0 (Rle_refl 0)) ltac:(lra)) as A. apply F in A; lra. }
  apply Rle_antisym.
  - apply L; [lra|]. apply F; lra.
  - apply F; [exact D0|]. apply L; lra.
Qed.
Section Curve.
  Variables (s : R) (goal q0 : list R) (d : R).
  Hypotheses (Hs : 0 < s <= 1) (Hl : lasts s goal q0 d).
  Variable i : nat.
  Hypotheses (Hi : (i < 7)%nat) (Hn : Rabs (to_go goal q0 i) <> tolerance) (Hj : jerk_small s d (to_go goal q0 i)).
  Notation x := (to_go goal q0 i).
  Notation c := (curve s goal q0 i).
  Notation h := (1 / 1000).
  (** Velocity, acceleration and jerk of samples a millisecond apart. *)
  Lemma curve_differences : forall t, Rabs (c (t + h) - c t) <= top_speed i * s * h /\
    Rabs (c (t + 2 * h) - 2 * c (t + h) + c t) <= 5 * (h * h) /\
    Rabs (c (t + 3 * h) - 3 * c (t + 2 * h) + 3 * c (t + h) - c t) <= 3749 * h * (h * h).
  Proof.
    pose proof (speed_pos i) as SP. destruct (tol_cases x) as [H|[H|H]]; [|contradiction|].
    - assert (E : forall t, c t = nth i q0 0).
      { intros t. unfold curve. destruct (Rlt_dec t 0); [reflexivity|]. rewrite place_value by exact Hi. rewrite still_small by exact H. cbn [fst]. ring. }
      intros t. rewrite !E. set (n := nth i q0 0). clearbody n. assert (0 <= top_speed i * s * h) by (apply Rmult_le_pos; [apply Rmult_le_pos|]; lra).
      split; [|split]; apply Rabs_le; lra.
    - assert (S : 0 < s) by lra. destruct (moving s goal q0 S i Hi H) as (D & t1 & d2 & (D0 & D1) & T1 & D2 & E1 & E2 & HT & Hd & V).
      rewrite <- (lasts_unique s goal q0 d i S Hi H Hl) in *. unfold top_acceleration in *.
      assert (Et : d2 = t1). { apply Rmult_eq_reg_l with (5 * s); lra. } subst d2.
      assert (E : forall t, c t = nth i q0 0 + sgn x * epos D t1 t1 d (Rabs x) t).
      { intros t. unfold curve, epos, glue, below. destruct (Rlt_dec t 0); [ring|]. rewrite place_value by exact Hi. rewrite V. reflexivity. }
      assert (SA : Rabs (sgn x) = 1). { destruct (sgn_case x) as [->| ->]; [apply Rabs_R1|rewrite Rabs_left; lra]. }
      assert (Hh : 0 < h) by lra. intros t.
      assert (A1 : 3 / 2 * D / t1 <= 5 * s). { rewrite E1. right. field. lra. }
      pose proof (epos_1 D t1 t1 d (Rabs x) D0 T1 T1 HT Hd h Hh) as X1.
      pose proof (fun u => epos_2 D t1 t1 d (Rabs x) D0 T1 T1 HT Hd h Hh (5 * s) u A1 A1) as X2.
      pose proof (fun L => epos_3 D t1 t1 d (Rabs x) D0 T1 T1 HT Hd h Hh L t) as X3.
      rewrite !E. set (e := epos D t1 t1 d (Rabs x)) in *. set (g := sgn x) in *. set (n := nth i q0 0). clearbody g n.
      replace (n + g * e (t + h) - (n + g * e t)) with (g * (e (t + h) - e t)) by ring.
      replace (n + g * e (t + 2 * h) - 2 * (n + g * e (t + h)) + (n + g * e t)) with (g * (e (t + 2 * h) - 2 * e (t + h) + e t)) by ring.
      replace (n + g * e (t + 3 * h) - 3 * (n + g * e (t + 2 * h)) + 3 * (n + g * e (t + h)) - (n + g * e t))
        with (g * (e (t + 3 * h) - 3 * e (t + 2 * h) + 3 * e (t + h) - e t)) by ring.
      rewrite !Rabs_mult, SA, !Rmult_1_l. split; [|split].
      + specialize (X1 t). rewrite Rabs_pos_eq by lra. eapply Rle_trans; [exact (proj2 X1)|]. apply Rmult_le_compat_r; lra.
      + eapply Rle_trans; [apply X2|]. lra.
      + destruct Hj as [J|[J|J]].
        * pose proof (X2 t) as Y. pose proof (X2 (t + h)) as Z. replace (t + h + 2 * h) with (t + 3 * h) in Z by ring. replace (t + h + h) with (t + 2 * h) in Z by ring.
          apply abs_range in Y, Z. apply Rabs_le. lra.
        * assert (DS : D <= 18 / 10000).
          { rewrite Hd in J. assert (Q : D * (d / 2) <= D * (d - t1 / 2 - t1 / 2)) by (apply Rmult_le_compat_l; lra).
            apply Rmult_le_reg_r with (d / 2); lra. }
          pose proof (X1 t) as Y. pose proof (X1 (t + h)) as Z. pose proof (X1 (t + 2 * h)) as W. replace (t + 2 * h + h) with (t + 3 * h) in W by ring. replace (t + h + h) with (t + 2 * h) in Z by ring.
          apply Rabs_le. lra.
        * assert (DL : 18 / 1000 * (s * s) <= D).
          { rewrite Hd in J. assert (Q : D * (d - t1 / 2 - t1 / 2) <= D * d) by (apply Rmult_le_compat_l; lra).
            apply Rmult_le_reg_r with d; lra. }
          apply X3; replace (6 * D / (t1 * t1)) with (6 * (5 * s) * (5 * s) / (9 / 4 * D)).
          2,4: apply Rmult_eq_reg_r with (t1 * t1 * (9 / 4 * D)); [|apply Rgt_not_eq; repeat apply Rmult_lt_0_compat; lra];
               replace (6 * (5 * s) * (5 * s) / (9 / 4 * D) * (t1 * t1 * (9 / 4 * D))) with (6 * (5 * s * t1) * (5 * s * t1)) by (field; lra);
               rewrite <- E1; field; lra.
          1,2: apply Rmult_le_reg_r with (9 / 4 * D); [lra|]; unfold Rdiv at 1; rewrite Rmult_assoc, Rinv_l by lra; lra.
  Qed.
End Curve.

(** * The commands *)
Lemma gain_off : gain 1000 = 1.
Proof. unfold gain. destruct (Rlt_dec 1000 1000); lra. Qed.
Lemma unmixed : forall (y l : list R), length y = length l -> map (fun p => 1 * fst p + (1 - 1) * snd p) (combine y l) = y.
Proof.
  induction y as [|a y IH]; intros [|b l] H; try discriminate H; [reflexivity|]. cbn [combine map fst snd]. rewrite IH by (injection H; auto).
  f_equal. ring.
Qed.
(** Positions at (k - 3) ms: three at the start, then those of the motion. *)
Definition spot (s : R) (goal q0 : list R) (k : nat) : list R := map (fun i => curve s goal q0 i ((INR k - 3) / 1000)) (seq 0 7).
Lemma spot_length : forall s goal q0 k, length (spot s goal q0 k) = 7%nat.
Proof. reflexivity. Qed.
Lemma quick_respects : forall V A J v lv la, Rabs (((v - lv) / cycle - la) / cycle) <= 3749 -> Rabs ((v - lv) / cycle) <= 5 ->
  Rabs lv <= V - 2 / 100 -> 5 <= A -> 3749 <= J -> 400 * A <= J -> respects V A J v lv la.
Proof.
  intros V A J v lv la H3 H2 H1 HA HJ HK. unfold respects. set (a := (v - lv) / cycle) in *. set (j := (a - la) / cycle) in *. clearbody a j.
  assert (K : 400 <= J / A). { apply Rmult_le_reg_r with A; [lra|]. unfold Rdiv. rewrite Rmult_assoc, Rinv_l by lra. lra. }
  apply abs_range in H1, H2. split; [lra|]. split; [apply Rabs_le; lra|]. set (k := J / A) in *. clearbody k.
  assert (400 * (2 / 100) <= k * (V - lv)) by (apply Rmult_le_compat; lra).
  assert (400 * (2 / 100) <= k * (V + lv)) by (apply Rmult_le_compat; lra). lra.
Qed.
Lemma spot_respects : forall s goal q0 d k, 0 < s <= 1 -> lasts s goal q0 d ->
  (forall i, (i < 7)%nat -> Rabs (to_go goal q0 i) <> tolerance /\ jerk_small s d (to_go goal q0 i)) ->
  let q := spot s goal q0 in
  all_respect MV MA MJ (rate (q (S (S k))) (q (S (S (S k))))) (rate (q (S k)) (q (S (S k))))
    (rate (rate (q k) (q (S k))) (rate (q (S k)) (q (S (S k))))).
Proof.
  intros s goal q0 d k Hs Hl H q.
  assert (G : forall i V A J, (i < 7)%nat -> top_speed i <= V - 2 / 100 -> 5 <= A -> 3749 <= J -> 400 * A <= J ->
    let c n := curve s goal q0 i ((INR n - 3) / 1000) in
    respects V A J ((c (S (S (S k))) - c (S (S k))) / cycle) ((c (S (S k)) - c (S k)) / cycle)
      (((c (S (S k)) - c (S k)) / cycle - (c (S k) - c k) / cycle) / cycle)).
  { intros i V A J Hi HV HA HJ HK c. destruct (H i Hi) as [Hn Hj].
    pose proof (curve_differences s goal q0 d Hs Hl i Hi Hn Hj) as C. set (t := (INR k - 3) / 1000) in *.
    assert (T0 : c k = curve s goal q0 i t) by reflexivity.
    assert (T1 : c (S k) = curve s goal q0 i (t + 1 / 1000)) by (unfold c, t; rewrite S_INR; f_equal; field).
    assert (T2 : c (S (S k)) = curve s goal q0 i (t + 2 * (1 / 1000))) by (unfold c, t; rewrite !S_INR; f_equal; field).
    assert (T3 : c (S (S (S k))) = curve s goal q0 i (t + 3 * (1 / 1000))) by (unfold c, t; rewrite !S_INR; f_equal; field).
    destruct (C t) as (_ & _ & X3). destruct (C (t + 1 / 1000)) as (X1 & X2 & _).
    replace (t + 1 / 1000 + 1 / 1000) with (t + 2 * (1 / 1000)) in X1, X2 by ring. replace (t + 1 / 1000 + 2 * (1 / 1000)) with (t + 3 * (1 / 1000)) in X2 by ring.
    rewrite <- T0, <- T1, <- T2, <- T3 in *. clear T0 T1 T2 T3 C.
    set (y0 := c k) in *. set (y1 := c (S k)) in *. set (y2 := c (S (S k))) in *. set (y3 := c (S (S (S k)))) in *. clearbody y0 y1 y2 y3. unfold cycle.
    assert (B : Rabs (y2 - y1) <= top_speed i * (1 / 1000)).
    { eapply Rle_trans; [exact X1|]. pose proof (speed_pos i). apply Rmult_le_compat_r; [lra|]. rewrite <- (Rmult_1_r (top_speed i)) at 2. apply Rmult_le_compat_l; lra. }
    apply abs_range in B, X2, X3. apply quick_respects; unfold cycle; try assumption; apply Rabs_le; lra. }
  unfold q, spot. cbn [seq map rate].
  unfold MV, MA, MJ, MAX_JOINT_VELOCITY, MAX_JOINT_ACCELERATION, MAX_JOINT_JERK, LIMIT_EPS, TOL_NUMBER_PACKETS_LOST, f_lit.
  cbn [map map2 f_sub f_div f_int f_mul real]. rewrite delta_real. unfold T.
  repeat (apply respect_cons; [apply G; [lia|unfold top_speed; cbn [Nat.ltb Nat.leb]; lra|lra|lra|lra]|]). apply respect_nil.
Qed.
Lemma spot_sent : forall b s goal q0 d m k, 0 < s <= 1 -> lasts s goal q0 d ->
  (forall i, (i < 7)%nat -> Rabs (to_go goal q0 i) <> tolerance /\ jerk_small s d (to_go goal q0 i)) ->
  let q := spot s goal q0 in
  let out := map (fun j => q (S (S (S j)))) (seq k m) in
  sent_positions b 1000 (q (S (S k))) (rate (q (S k)) (q (S (S k)))) (rate (rate (q k) (q (S k))) (rate (q (S k)) (q (S (S k))))) out = Some out.
Proof.
  intros b s goal q0 d m k Hs Hl H q. revert k. induction m as [|m IH]; intros k; [reflexivity|]. cbn [seq map sent_positions].
  unfold convert_joint_positions. cbn [p_q_d p_dq_d p_ddq_d]. rewrite filtered_real; [|lra|reflexivity]. rewrite gain_off.
  rewrite unmixed by reflexivity. cbn [then_]. unfold limited.
  change (MAX_JOINT_VELOCITY real) with MV. change (MAX_JOINT_ACCELERATION real) with MA. change (MAX_JOINT_JERK real) with MJ.
  rewrite C32_joint_positions_partial; [|reflexivity|exact (spot_respects s goal q0 d k Hs Hl H)].
  cbn [then_]. rewrite finite_real. cbn zeta in IH. rewrite (IH (S k)). reflexivity.
Qed.
Lemma spot_early : forall s goal q0 k, 0 < s -> RateSpec.joints q0 -> (k <= 3)%nat -> (forall i, (i < 7)%nat -> Rabs (to_go goal q0 i) <> tolerance) -> spot s goal q0 k = q0.
Proof.
  intros s goal q0 k S Hq Hk Hn. unfold spot.
  assert (E : forall i, In i (seq 0 7) -> curve s goal q0 i ((INR k - 3) / 1000) = nth i q0 0).
  { intros i Hi. apply in_seq in Hi. unfold curve. destruct (Rlt_dec _ _) as [_|N]; [reflexivity|].
    assert (Ek : k = 3%nat).
    { destruct (Nat.eq_dec k 3) as [Q|Q]; [exact Q|]. exfalso. apply N. assert (k <= 2)%nat as K2 by lia. apply le_INR in K2. cbn [INR] in K2. lra. }
    subst k. replace ((INR 3 - 3) / 1000) with 0 by (cbn [INR]; field). apply (C41_start s goal q0 i S); [lia|apply Hn; lia]. }
  rewrite (map_ext_in _ _ _ E). destruct (seven q0 Hq) as (a & b & c & e & f & g & w & ->). reflexivity.
Qed.
Lemma motion_requests : forall s goal q0 (qs : list (list R)), 
  map fst (generate real (generator_new real s goal) ((q0, 0) :: map (fun q => (q, 1 / 1000)) qs)) =
  map (fun j => spot s goal q0 (S (S (S j)))) (seq 0 (S (length qs))).
Proof.
  intros s goal q0 qs. set (calls := map (fun q => (q, 1 / 1000)) qs).
  assert (G : forall g l, length (generate real g l) = length l).
  { intros g l. revert g. induction l as [|[q p] l IH]; intros g; [reflexivity|]. cbn. rewrite IH. reflexivity. }
  assert (St : started ((q0, 0) :: calls)).
  { exists q0, calls. split; [reflexivity|]. unfold calls. split.
    - apply Forall_map, Forall_forall. intros q _. cbn [snd]. lra.
    - intros N. destruct qs as [|q qs']; [exfalso; apply N; reflexivity|]. cbn. lra. }
  assert (El : forall k, (k <= length qs)%nat -> elapsed (firstn k calls) = INR k / 1000).
  { unfold calls. clear. induction qs as [|q qs IH]; intros k Hk; (destruct k as [|k]; [unfold elapsed; cbn; lra|]); [cbn in Hk; lia|].
    cbn [map firstn]. unfold elapsed in *. cbn [map fold_right snd]. rewrite IH by (cbn in Hk; lia). rewrite S_INR. field. }
  apply nth_ext with (d := []) (d' := []); [rewrite !map_length, G, seq_length; cbn [length]; unfold calls; rewrite map_length; reflexivity|].
  rewrite map_length, G. cbn [length]. unfold calls at 1. rewrite map_length. intros k Hk.
  assert (Q : nth k (map fst (generate real (generator_new real s goal) ((q0, 0) :: calls))) [] = fst (path s goal q0 (INR k / 1000))).
  { destruct (nth_error (generate real (generator_new real s goal) ((q0, 0) :: calls)) k) as [out|] eqn:E.
    - pose proof (C41_sampled s goal q0 calls k out St E) as P. rewrite El in P by lia. rewrite <- P.
      apply nth_error_nth with (d := ([], false)) in E. rewrite <- E. exact (map_nth fst _ ([], false) k).
    - apply nth_error_None in E. rewrite G in E. cbn [length] in E. unfold calls in E. rewrite map_length in E. lia. }
  rewrite Q. rewrite nth_indep with (d' := (fun j => spot s goal q0 (S (S (S j)))) 0%nat) by (rewrite map_length, seq_length; lia).
  rewrite (map_nth (fun j => spot s goal q0 (S (S (S j))))), seq_nth by lia. cbn [Nat.add]. unfold spot.
  assert (Ek : (INR (S (S (S k))) - 3) / 1000 = INR k / 1000) by (rewrite !S_INR; field).
  rewrite Ek, path_answer. unfold answer. cbn [fst]. apply map_ext_in. intros i Hi. apply in_seq in Hi. unfold curve.
  destruct (Rlt_dec _ _) as [N|_]; [pose proof (pos_INR k); lra|]. symmetry. apply place_value. lia.
Qed.
(** The commands of joint_motion (the limiter is on, the cutoff frequency is 1000 Hz), if there is a state
    every millisecond and the robot reports what it was told: exactly the positions of the
    generator, for every speed factor up to 0.37, and for greater ones if every joint goes at least
    0.018 s^2 rad per second of the motion or less than 0.0009 rad per second. *)
Theorem C80_joint_motion_commands : forall b s goal q0 (qs : list (list R)) d, RateSpec.joints q0 -> 0 < s <= 1 -> lasts s goal q0 d ->
  (forall i, (i < 7)%nat -> Rabs (to_go goal q0 i) <> tolerance /\ jerk_small s d (to_go goal q0 i)) ->
  let requests := map fst (generate real (generator_new real s goal) ((q0, 0) :: map (fun q => (q, 1 / 1000)) qs)) in
  sent_positions b 1000 q0 (repeat 0 7) (repeat 0 7) requests = Some requests.
Proof.
  intros b s goal q0 qs d Hq Hs Hl H requests. unfold requests. rewrite motion_requests.
  pose proof (spot_sent b s goal q0 d (S (length qs)) 0 Hs Hl H) as E. cbv zeta in E.
  rewrite !(spot_early s goal q0) in E by (lra || lia || assumption || (intros; apply H; assumption)).
  rewrite rate_self, rate_self in E by (assumption || reflexivity). exact E.
Qed.
Print Assumptions C80_joint_motion_commands.

(** * One moving joint at full speed *)
Lemma lasts_Tmax : forall s goal q0 i, 0 < s -> (i < 7)%nat -> tolerance < Rabs (to_go goal q0 i) -> lasts s goal q0 (Tmax s goal q0).
Proof.
  intros s goal q0 i S Hi M t Ht. rewrite finished_all. split.
  - intros A. specialize (A i Hi). destruct (moving s goal q0 S i Hi M) as (D & t1 & d2 & _ & _ & _ & _ & _ & _ & _ & V). rewrite V in A. cbn [snd] in A.
    unfold below in A. destruct (Rlt_dec t (Tmax s goal q0)); [discriminate|lra].
  - intros Le j Hj. destruct (tol_cases (to_go goal q0 j)) as [H|[H|H]].
    + rewrite still_small by exact H. reflexivity.
    + rewrite still_equal by assumption. reflexivity.
    + destruct (moving s goal q0 S j Hj H) as (D & t1 & d2 & _ & _ & _ & _ & _ & _ & _ & V). rewrite V. cbn [snd].
      rewrite below_false by exact Le. reflexivity.
Qed.
Lemma alone : forall goal q0 i r, (i < 7)%nat -> tolerance < Rabs (to_go goal q0 i) ->
  (forall j, (j < 7)%nat -> j <> i -> Rabs (to_go goal q0 j) <= tolerance) ->
  0 < r <= top_speed i -> 3 / 10 * (r * r) <= Rabs (to_go goal q0 i) -> (r = top_speed i \/ 3 / 10 * (r * r) = Rabs (to_go goal q0 i)) ->
  Tmax 1 goal q0 = 3 / 10 * r + Rabs (to_go goal q0 i) / r.
Proof.
  intros goal q0 i r Hi M Others Hr Hr2 Hr3. assert (S : 0 < 1) by lra. set (x := to_go goal q0 i) in *.
  assert (X : x <> 0) by (intros X; rewrite X, Rabs_R0 in M; unfold tolerance in M; lra).
  pose proof (lim_pos 1 goal S i Hi) as L. pose proof (acc_pos 1 goal S i Hi) as A.
  destruct (reach_facts x (limit 1 goal i) (accel 1 goal i) (accel 1 goal i) X L A A) as ((R0 & R1) & R2 & R3).
  pose proof (own_moving 1 goal q0 S i Hi M) as O. fold x in O.
  rewrite limit_value, accel_value in * by exact Hi. unfold top_acceleration in *.
  assert (Rm : ramp (5 * 1) (5 * 1) = 3 / 10) by (unfold ramp; field). rewrite Rm in *.
  set (w := reach x (top_speed i * 1) (5 * 1) (5 * 1)) in *. clearbody w.
  assert (W : w = r).
  { apply Rle_antisym; [|apply R3; lra]. destruct Hr3 as [->|E]; [lra|]. rewrite <- E in R2.
    destruct (Rle_dec w r) as [Q|Q]; [exact Q|]. assert (r * r < w * w) by (apply Rmult_le_0_lt_compat; lra). lra. }
  rewrite W in O. unfold profile_time in O. rewrite Rm in O.
  assert (P : 0 < Rabs x / r) by (apply Rdiv_lt_0_compat; [apply Rabs_pos_lt; exact X|lra]).
  destruct (own_some 1 goal q0) as (j & Hj & E). pose proof (own_le 1 goal q0 i Hi) as Le.
  destruct (Nat.eq_dec j i) as [->|N]; [rewrite E; exact O|].
  rewrite (own_still 1 goal q0 j) in E by (apply Others; assumption). lra.
Qed.
Definition only (i : nat) (x : R) : list R := map (fun j => if Nat.eqb j i then x else 0) (seq 0 7).
Lemma only_to_go : forall i j x, (i < 7)%nat -> (j < 7)%nat -> to_go (only i x) (repeat 0 7) j = if Nat.eqb j i then x else 0.
Proof.
  intros i j x Hi Hj. unfold to_go. assert (Z : nth j (repeat 0 7) 0 = 0) by (do 7 (destruct j as [|j]; [reflexivity|]); lia).
  rewrite Z, Rminus_0_r. unfold only. do 7 (destruct j as [|j]; [reflexivity|]). lia.
Qed.
(** Two radians with the first joint at full speed. *)
Example C80_ex_commands : RateSpec.joints (repeat 0 7) /\ lasts 1 (only 0 2) (repeat 0 7) (8 / 5) /\
  forall i, (i < 7)%nat -> Rabs (to_go (only 0 2) (repeat 0 7) i) <> tolerance /\ jerk_small 1 (8 / 5) (to_go (only 0 2) (repeat 0 7) i).
Proof.
  split; [reflexivity|]. assert (Q : Rabs 2 = 2) by (rewrite Rabs_pos_eq; lra). split.
  - replace (8 / 5) with (Tmax 1 (only 0 2) (repeat 0 7)).
    + apply (lasts_Tmax 1 _ _ 0%nat); [lra|lia|]. rewrite only_to_go by lia. cbn [Nat.eqb]. unfold tolerance. lra.
    + rewrite (alone _ _ 0%nat 2); try lia; rewrite ?only_to_go by lia; cbn [Nat.eqb]; rewrite ?Q; unfold tolerance, top_speed; cbn [Nat.ltb Nat.leb]; try lra.
      intros j Hj N. rewrite only_to_go by lia. destruct (Nat.eqb_spec j 0); [contradiction|]. rewrite Rabs_R0. lra.
  - intros i Hi. rewrite only_to_go by lia. unfold jerk_small, tolerance. destruct (Nat.eqb i 0); rewrite ?Q, ?Rabs_R0; lra.
Qed.

(** A motion of 7.5 microradians with the second joint at full speed takes 3 ms. *)
Notation short := (3 / 400000).
Lemma short_abs : Rabs short = short. Proof. rewrite Rabs_pos_eq; lra. Qed.
Lemma short_time : Tmax 1 (only 1 short) (repeat 0 7) = 3 / 1000.
Proof.
  rewrite (alone _ _ 1%nat (1 / 200)); try lia; rewrite ?only_to_go by lia; cbn [Nat.eqb]; rewrite ?short_abs; unfold tolerance, top_speed; cbn [Nat.ltb Nat.leb]; try lra.
  intros j Hj N. rewrite only_to_go by lia. destruct (Nat.eqb_spec j 1); [contradiction|]. rewrite Rabs_R0. lra.
Qed.
Lemma short_curve : forall t, 0 <= t -> curve 1 (only 1 short) (repeat 0 7) 1 t = pos (1 / 200) (3 / 2000) (3 / 2000) (3 / 1000) short t.
Proof.
  intros t Ht. unfold curve. destruct (Rlt_dec t 0); [lra|]. rewrite place_value by lia.
  assert (M : tolerance < Rabs (to_go (only 1 short) (repeat 0 7) 1)) by (rewrite only_to_go by lia; cbn [Nat.eqb]; rewrite short_abs; unfold tolerance; lra).
  destruct (moving 1 _ _ ltac:(lra) 1%nat ltac:(lia) M) as (D & t1 & d2 & (D0 & _) & _ & _ & E1 & E2 & _ & Hd & V). rewrite V. cbn [fst].
  rewrite only_to_go in * by lia. cbn [Nat.eqb] in *. rewrite short_time in *. rewrite short_abs in *. unfold top_acceleration in *.
  assert (A1 : t1 = 3 / 10 * D) by lra. assert (A2 : d2 = 3 / 10 * D) by lra. subst t1 d2.
  assert (ED : D = 1 / 200).
  { assert (Q : (D - 1 / 200) * (D - 1 / 200) = 0) by lra. apply Rmult_integral in Q. destruct Q; lra. }
  subst D. unfold sgn. destruct (Rle_dec 0 short); [|lra]. cbn [nth repeat].
  replace (3 / 10 * (1 / 200)) with (3 / 2000) by field. ring.
Qed.
Lemma short_values : let c k := curve 1 (only 1 short) (repeat 0 7) 1 ((INR k - 3) / 1000) in
  c 3%nat = 0 /\ c 4%nat = 8 / 27 / 200000 /\ c 5%nat = short - 8 / 27 / 200000 /\ c 6%nat = short.
Proof.
  cbv beta zeta. replace (INR 3) with 3 by (cbn [INR]; ring). replace (INR 4) with 4 by (cbn [INR]; ring). replace (INR 5) with 5 by (cbn [INR]; ring). replace (INR 6) with 6 by (cbn [INR]; ring).
  rewrite !short_curve by lra. unfold pos, glue, below.
  repeat (match goal with |- context [Rlt_dec ?a ?b] => destruct (Rlt_dec a b); try lra end). unfold p1, p3. cbv zeta. lra.
Qed.
Lemma sent_first : forall b c lp lv la p r, sent_positions b c lp lv la (p :: r) = Some (p :: r) ->
  convert_joint_positions real c true p
    (Reported real lp lv la (p_O_T_EE_c real b) (p_O_dP_EE_c real b) (p_O_ddP_EE_c real b) (p_elbow_c real b) (p_delbow_c real b) (p_ddelbow_c real b) (p_tau_J_d real b)) = Some p /\
  sent_positions b c p (rate lp p) (rate lv (rate lp p)) r = Some r.
Proof.
  intros b c lp lv la p r H. cbn [sent_positions] in H. destruct (convert_joint_positions _ _ _ _ _) as [p'|]; [|discriminate].
  destruct (sent_positions b c p' (rate lp p') (rate lv (rate lp p')) r) as [r'|] eqn:E; [|discriminate]. cbn [option_map] in H. injection H as -> ->. split; [reflexivity|exact E].
Qed.
Lemma limiter_second : forall p lp lv la v1 v2 l1 l2 a1 a2 vs ls las, length p = 7%nat -> length lp = 7%nat -> length lv = 7%nat -> length la = 7%nat ->
  rate lp p = v1 :: v2 :: vs -> lv = l1 :: l2 :: ls -> la = a1 :: a2 :: las ->
  limit_rate_joint_positions real MV MA MJ p lp lv la = Some p ->
  exists V, 2 < V /\ v2 = l2 + clamped V (7.5 - 1 / 1000) (3750 - 1 / 1000) v2 l2 a2 * T.
Proof.
  intros p lp lv la v1 v2 l1 l2 a1 a2 vs ls las L1 L2 L3 L4 Ev El Ea H.
  destruct (positions_rel MV MA MJ p lp lv la 7) as (ps & E & Rl & _); try assumption; try reflexivity.
  rewrite H in E. injection E as <-. rewrite Ev, El, Ea in Rl.
  unfold MV, MA, MJ, MAX_JOINT_VELOCITY, MAX_JOINT_ACCELERATION, MAX_JOINT_JERK, LIMIT_EPS, TOL_NUMBER_PACKETS_LOST, f_lit in Rl.
  cbn [map map2 f_sub f_div f_int f_mul real] in Rl. rewrite delta_real in Rl. inversion Rl as [|? ? ? ? ? ? ? ? ? ? ? ? ? Rl2]; subst. apply rel_head in Rl2.
  match type of Rl2 with _ = _ + clamped ?V ?A ?J _ _ _ * T => exists V; split; [unfold T; lra|]; replace (7.5 - 1 / 1000) with A by lra; exact Rl2 end.
Qed.
(** Then the rate limiter does not let the third step through: the second joint's jerk would be over 6000 rad/s^3. *)
Theorem C80_short_refuted : exists b goal q0 qs, RateSpec.joints q0 /\ (forall i, (i < 7)%nat -> Rabs (to_go goal q0 i) <> tolerance) /\
  let requests := map fst (generate real (generator_new real 1 goal) ((q0, 0) :: map (fun q => (q, 1 / 1000)) qs)) in
  sent_positions b 1000 q0 (repeat 0 7) (repeat 0 7) requests <> Some requests.
Proof.
  exists (Reported real [] [] [] [] [] [] 0 0 0 []), (only 1 short), (repeat 0 7), (repeat (repeat 0 7) 3). split; [reflexivity|]. split.
  { intros i Hi. rewrite only_to_go by lia. unfold tolerance. destruct (Nat.eqb i 1); rewrite ?short_abs, ?Rabs_R0; lra. }
  cbv zeta. rewrite motion_requests. cbn [repeat length seq map]. intros H.
  apply sent_first in H. destruct H as [_ H]. apply sent_first in H. destruct H as [_ H]. apply sent_first in H. destruct H as [_ H].
  apply sent_first in H. destruct H as [H _].
  set (q := spot 1 (only 1 short) [0; 0; 0; 0; 0; 0; 0]) in *.
  unfold convert_joint_positions in H. cbn [p_q_d p_dq_d p_ddq_d] in H. rewrite filtered_real in H; [|lra|reflexivity]. rewrite gain_off, unmixed in H by reflexivity.
  cbn [then_] in H. unfold limited in H. change (MAX_JOINT_VELOCITY real) with MV in H. change (MAX_JOINT_ACCELERATION real) with MA in H. change (MAX_JOINT_JERK real) with MJ in H.
  destruct (limit_rate_joint_positions real MV MA MJ _ _ _ _) as [p|] eqn:E; [|discriminate]. cbn [then_] in H. rewrite finite_real in H. injection H as ->.
  destruct (limiter_second (q 6%nat) (q 5%nat) (rate (q 4%nat) (q 5%nat)) (rate (rate (q 3%nat) (q 4%nat)) (rate (q 4%nat) (q 5%nat))) _ _ _ _ _ _ _ _ _ eq_refl eq_refl eq_refl eq_refl eq_refl eq_refl eq_refl E) as (V & HV & C).
  destruct short_values as (C3 & C4 & C5 & C6). cbn [repeat] in C3, C4, C5, C6. rewrite C3, C4, C5, C6 in C. unfold cycle in C.
  match type of C with _ = _ + clamped _ _ _ ?v ?lv ?la * T => assert (B : -1 <= clamped V (7.5 - 1 / 1000) (3750 - 1 / 1000) v lv la) end.
  { unfold clamped. eapply Rle_trans; [|apply Rmax_l]. apply Rmin_glb.
    - match goal with |- _ <= _ + Rmax ?x ?y * T => pose proof (Rmax_r x y) as Q; set (z := Rmax x y) in * end. clearbody z. unfold T. lra.
    - apply Rmin_glb; [|lra]. apply Rle_trans with 0; [lra|]. apply Rmult_le_pos; [left; apply Rdiv_lt_0_compat; lra|lra]. }
  set (z := clamped _ _ _ _ _ _) in *. clearbody z. unfold T in C. lra.
Qed.
Print Assumptions C80_short_refuted.
