(** Runs of the joint motion generator in binary64. *)
From Coq Require Import List NArith ZArith Bool Lia Lra Arith Reals.
From Flocq Require Import Core Relative IEEE754.BinarySingleNaN IEEE754.Binary IEEE754.Bits.
From Verif Require Import NumOps NumFloat FloatFacts SizeFacts TwistFloats MotionFloats MotionPlan MotionTune MotionValues MotionProfile MotionClose MotionModel WireModel JointMotionModel Properties_Time.
Import ListNotations.
Open Scope R_scope.

(** * One joint *)
Lemma abs_fin : forall d, b64_fin d = true -> b64_fin (f_abs float d) = true /\ val (f_abs float d) = Rabs (val d).
Proof. intros d F. split; [unfold b64_fin, f_abs, float, b64_abs in *; rewrite Binary.is_finite_Babs; exact F|apply Binary.B2R_Babs]. Qed.
Definition still (d : F float) : Prop := Rabs (val d) <= / 1000000 * (1 + u).
(** what one value is *)
Definition value_ok (d tf t : F float) (r : F float * bool) : Prop :=
  fine (fst r) /\ (snd r = true -> fst r = d \/ (still d /\ fst r = f_int float 0)) /\ (val tf <= val t -> snd r = true) /\
  (val t = 0 -> val (fst r) = 0 \/ (still d /\ fst r = d)).
Lemma zero_fine : fine (f_int float 0).
Proof. split; [reflexivity|]. change (val (f_int float 0)) with 0. rewrite Rabs_R0. lra. Qed.
Lemma small_is : forall d, b64_fin d = true -> f_lt float (f_abs float d) (DELTA_Q_MOTION_FINISHED float) = true -> still d.
Proof.
  intros d F. destruct (abs_fin d F) as [Fa Va]. destruct finished_val as [Ff [_ Bf]]. unfold DELTA_Q_MOTION_FINISHED. cbn [f_lt float]. rewrite lt_fin by assumption.
  rewrite Va. destruct (Rlt_bool_spec (Rabs (val d)) (val (f_lit float 1 1000000))) as [L|L]; [|discriminate]. intros _. unfold still. lra.
Qed.
Lemma value_moves : forall d q t1 t2 tf q1 t, planned d q t1 t2 tf q1 -> b64_fin t = true -> 0 <= val t ->
  value_ok d tf t (desired_value float d q t1 t2 tf q1 t).
Proof.
  intros d q t1 t2 tf q1 t P Ft Pt. destruct (pl_t1 _ _ _ _ _ _ P) as (F1 & B1). destruct (pl_d _ _ _ _ _ _ P) as (Fd & Bd). destruct (pl_tf _ _ _ _ _ _ P) as (Ff & Bf & _).
  assert (F2 : b64_fin t2 = true /\ val t2 <= val tf).
  { rewrite (pl_t2 _ _ _ _ _ _ P). destruct (minus_ok tf t1 14 Ff F1 ltac:(lia)) as [F V]; [change (bpow radix2 14) with 16384; apply Rabs_le; lra|].
    split; [exact F|]. cbn [f_sub float]. rewrite V. rewrite <- (rnd_val tf) at 2. apply rnd_le. lra. }
  destruct F2 as [F2 L2].
  unfold desired_value. cbv zeta. fold (gef t t1) (gef t t2). rewrite !ge_fin by assumption.
  destruct (f_lt float (f_abs float d) (DELTA_Q_MOTION_FINISHED float)) eqn:Sm.
  { split; [exact zero_fine|]. cbn [fst snd]. split; [intros _; right; split; [apply small_is; assumption|reflexivity]|]. split; [reflexivity|left; reflexivity]. }
  replace (f_lt float t t1) with (Rlt_bool (val t) (val t1)) by (symmetry; apply lt_fin; assumption).
  replace (f_lt float t t2) with (Rlt_bool (val t) (val t2)) by (symmetry; apply lt_fin; assumption).
  replace (f_lt float t tf) with (Rlt_bool (val t) (val tf)) by (symmetry; apply lt_fin; assumption).
  destruct (Rlt_bool_spec (val t) (val t1)) as [L|L].
  { pose proof (first_part d q t1 t2 tf q1 t P Ft Pt L) as Fi. split; [exact Fi|]. cbn [fst snd]. split; [discriminate|].
    split; [intros X; exfalso; lra|]. intros Z. left. 
    destruct (cube_le t t1 Ft F1 ltac:(lra) ltac:(lra)) as [Fc Bc].
    assert (Zc : val (cube float t) = 0).
    { unfold cube. assert (F0 : b64_fin (f_mul float t t) = true) by (apply (mult_ok t t 0 Ft Ft); [lia|rewrite Z, Rmult_0_l, Rabs_R0; apply bpow_ge_0]).
      apply mult_zero; [exact F0|exact Ft|rewrite Z; ring]. }
    destruct Fi as [Fi _]. cbn [fst] in Fi. exact (mult_zero_r _ _ Fi Fc Zc). }
  rewrite Rle_bool_true by exact L.
  destruct (Rlt_bool_spec (val t) (val t2)) as [M|M]; cbn [andb].
  { pose proof (second_part d q t1 t2 tf q1 t P Ft L M F2) as Fi. split; [exact Fi|]. cbn [fst snd]. split; [discriminate|].
    split; [intros X; exfalso; lra|intros X; exfalso; lra]. }
  rewrite Rle_bool_true by exact M. cbn [andb].
  destruct (Rlt_bool_spec (val t) (val tf)) as [N|N].
  { pose proof (third_part d q t1 t2 tf q1 t P Ft Pt F2 M N) as Fi. split; [exact Fi|]. cbn [fst snd]. split; [discriminate|].
    split; [intros X; exfalso; lra|intros X; exfalso; lra]. }
  split; [split; [exact Fd|cbn [fst]; lra]|]. cbn [fst snd]. split; [left; reflexivity|]. split; [reflexivity|]. intros X; exfalso; lra.
Qed.
Lemma value_still : forall d t, b64_fin d = true -> moves float d = false -> b64_fin t = true -> 0 <= val t ->
  let z := f_int float 0 in value_ok d z t (desired_value float d z z z z z t) /\ snd (desired_value float d z z z z z t) = true.
Proof.
  intros d t Fd Mv Ft Pt z. assert (Fz : b64_fin z = true) by reflexivity. assert (Vz : val z = 0) by reflexivity.
  destruct (abs_fin d Fd) as [Fa Va]. destruct finished_val as [Ff [_ Bf]].
  assert (Sd : still d).
  { revert Mv. unfold moves, f_gt, DELTA_Q_MOTION_FINISHED. cbn [f_lt float]. rewrite lt_fin by assumption. rewrite Va.
    destruct (Rlt_bool_spec (val (f_lit float 1 1000000)) (Rabs (val d))) as [L|L]; [discriminate|]. intros _. unfold still. lra. }
  unfold desired_value. cbv zeta. fold (gef t z). rewrite !ge_fin by assumption.
  destruct (f_lt float (f_abs float d) (DELTA_Q_MOTION_FINISHED float)).
  { split; [|reflexivity]. split; [exact zero_fine|]. cbn [fst snd]. split; [intros _; right; split; [assumption|reflexivity]|]. split; [reflexivity|left; reflexivity]. }
  replace (f_lt float t z) with (Rlt_bool (val t) (val z)) by (symmetry; apply lt_fin; assumption).
  rewrite Rlt_bool_false by (rewrite Vz; exact Pt). rewrite andb_false_r. split; [|reflexivity].
  split; [split; [exact Fd|cbn [fst]; unfold still in Sd; unfold u in Sd; lra]|]. cbn [fst snd]. split; [left; reflexivity|]. split; [reflexivity|]. intros _. right. auto.
Qed.

(** * The greatest of the times *)
Lemma greatest : forall (l : list (F float)) x top, b64_fin x = true -> 0 <= val x <= top -> Forall (fun y => b64_fin y = true /\ 0 <= val y <= top) l ->
  let m := fold_left (f_max float) l x in b64_fin m = true /\ 0 <= val m <= top /\ val x <= val m /\ Forall (fun y => val y <= val m) l.
Proof.
  induction l as [|y l IH]; intros x top Fx Bx H; cbn [fold_left]; cbn zeta.
  - split; [exact Fx|]. split; [exact Bx|]. split; [lra|constructor].
  - inversion H as [|y' l' [Fy By] Hl]. subst. destruct (max_fin x y Fx Fy) as [Fm Vm].
    assert (Bm : 0 <= val (f_max float x y) <= top /\ val x <= val (f_max float x y) /\ val y <= val (f_max float x y)).
    { rewrite Vm. unfold Rmax. destruct (Rle_dec (val x) (val y)); lra. }
    destruct (IH _ top Fm (proj1 Bm) Hl) as (F & B & L & A). split; [exact F|]. split; [exact B|]. split; [lra|]. constructor; [lra|exact A].
Qed.
Lemma nth_map_seq : forall A (f : nat -> A) z n, (n < 7)%nat -> nth n (map f joints) z = f n.
Proof. intros A f z n H. unfold joints. do 7 (destruct n as [|n]; [reflexivity|]). lia. Qed.

(** * The plan of a start *)
Section Start.
  Variable s : F float.
  Hypothesis s_fin : b64_fin s = true.
  Hypothesis s_range : / 1024 <= val s <= 1.
  Definition tops : list (F float) := map (fun x => f_mul float x s) (map (f_lit float 20) [10; 10; 10; 10; 8; 8; 8]%Z).
  Definition accs : list (F float) := map (fun x => f_mul float x s) (repeat (f_int float 5) 7).
  Definition top_speed (i : nat) : R := if (i <? 4)%nat then 2 else 5 / 2.
  Lemma top_is : forall i, top_speed i = 2 \/ top_speed i = 5 / 2.
  Proof. intros i. unfold top_speed. destruct (i <? 4)%nat; auto. Qed.
  Lemma tops_rel : forall i, (i < 7)%nat -> relm 1 14 (joint float tops i) (top_speed i * val s).
  Proof.
    intros i H. pose proof (s_rel s s_fin s_range) as R.
    assert (A : relm 1 14 (f_mul float (f_lit float 20 10) s) (2 * val s)) by (eapply relm_as; [eapply relm_mul; [exact lit_20_10|exact R|lra|lra|lia]|reflexivity|lra|lia]).
    assert (B : relm 1 14 (f_mul float (f_lit float 20 8) s) (5 / 2 * val s)) by (eapply relm_as; [eapply relm_mul; [exact lit_20_8|exact R|lra|lra|lia]|reflexivity|lra|lia]).
    do 4 (destruct i as [|i]; [exact A|]). do 3 (destruct i as [|i]; [exact B|]). lia.
  Qed.
  Lemma accs_is : forall i, (i < 7)%nat -> joint float accs i = acc s.
  Proof. intros i H. do 7 (destruct i as [|i]; [reflexivity|]). lia. Qed.
  Variable delta : list (F float).
  Hypothesis delta_ok : forall i, (i < 7)%nat -> b64_fin (joint float delta i) = true /\ Rabs (val (joint float delta i)) <= 8.
  Definition own (i : nat) : F float := own_time float (joint float delta i) (joint float tops i) (joint float accs i) (joint float accs i).
  Definition longest : F float := fold_left (f_max float) (tl (map own joints)) (hd (f_int float 0) (map own joints)).
  Lemma own_ok : forall i, (i < 7)%nat -> b64_fin (own i) = true /\ 0 <= val (own i) <= 5 / val s.
  Proof.
    intros i H. unfold own. rewrite accs_is by exact H. destruct (delta_ok i H) as [F B]. pose proof (top_is i) as V. pose proof (tops_rel i H) as R. set (v := top_speed i) in *. clearbody v.
    destruct (moves float (joint float delta i)) eqn:M.
    - destruct (own_bounds s s_fin s_range v (joint float tops i) V R (joint float delta i) F M B) as (F' & P & U & _). split; [exact F'|]. split; [exact P|].
      apply le_div; lra.
    - unfold own_time. rewrite M. split; [reflexivity|]. change (val (f_int float 0)) with 0. split; [lra|]. apply le_div; lra.
  Qed.
  Lemma longest_ok : b64_fin longest = true /\ val longest * val s <= 5 /\ forall i, (i < 7)%nat -> val (own i) <= val longest.
  Proof.
    assert (A : forall i, (i < 7)%nat -> b64_fin (own i) = true /\ 0 <= val (own i) <= 5 / val s) by exact own_ok.
    unfold longest. cbn [joints seq map hd tl]. generalize dependent own. intros o A.
    assert (Al : Forall (fun y => b64_fin y = true /\ 0 <= val y <= 5 / val s) [o 1%nat; o 2%nat; o 3%nat; o 4%nat; o 5%nat; o 6%nat])
      by (repeat (apply Forall_cons; [apply A; lia|]); apply Forall_nil).
    pose proof (greatest _ (o 0%nat) (5 / val s) (proj1 (A 0%nat ltac:(lia))) (proj2 (A 0%nat ltac:(lia))) Al) as G. cbv zeta in G. destruct G as (F & B & L & U).
    - split; [exact F|]. split.
      + apply Rle_trans with (5 / val s * val s); [apply Rmult_le_compat_r; lra|]. right. field. lra.
      + intros i H. repeat match goal with Hf : Forall _ (_ :: _) |- _ => inversion Hf; clear Hf; subst end.
        do 7 (destruct i as [|i]; [assumption|]). lia.
  Qed.
  Definition plan_ok (v : R) (d q t1 t2 tf q1 : F float) : Prop :=
    (moves float d = true /\ planned d q t1 t2 tf q1 /\ val tf * val s <= 7 /\ tuned (val s) v d q t1 t2 tf q1) \/
    (moves float d = false /\ q = f_int float 0 /\ t1 = f_int float 0 /\ t2 = f_int float 0 /\ tf = f_int float 0 /\ q1 = f_int float 0).
  Lemma synchronized_ok : forall i, (i < 7)%nat -> moves float (joint float delta i) = true ->
    exists q t1 tf q1, synchronized float (joint float delta i) (joint float accs i) (joint float accs i) longest = (q, (t1, f_sub float tf t1, tf, q1)) /\
      plan_ok (top_speed i) (joint float delta i) q t1 (f_sub float tf t1) tf q1.
  Proof.
    intros i H M. destruct (delta_ok i H) as [F B]. pose proof (top_is i) as V. pose proof (tops_rel i H) as R. set (v := top_speed i) in *. clearbody v. destruct longest_ok as (FT & UT & LT). specialize (LT i H).
    destruct (own_bounds s s_fin s_range v (joint float tops i) V R (joint float delta i) F M B) as (F' & P & U & S1 & S2).
    unfold own in LT. rewrite accs_is in * by exact H.
    pose proof (full_mono s s_range v V _ _ _ LT (own_full s s_fin s_range v (joint float tops i) V R (joint float delta i) F M B)) as T3.
    set (d := joint float delta i) in *. set (o := own_time float d (joint float tops i) (acc s) (acc s)) in *. clearbody o d.
    assert (vp : 2 <= v <= 5 / 2) by lra. assert (vs : 0 < v * val s) by (apply Rmult_lt_0_compat; lra).
    assert (T1 : Rabs (val d) <= val longest * (v * val s) * (1 + / 100000000)).
    { eapply Rle_trans; [exact S1|]. apply Rmult_le_compat_r; [lra|]. apply Rmult_le_compat_r; lra. }
    assert (T2 : 6 / 5 * Rabs (val d) <= val longest * val longest * val s * (1 + / 100000000)).
    { eapply Rle_trans; [exact S2|]. apply Rmult_le_compat_r; [lra|]. apply Rmult_le_compat_r; [lra|]. apply Rmult_le_compat; lra. }
    exists (speed s d longest), (ramp s d longest), (whole s d longest), (corner s d longest). split; [apply sync_is|].
    destruct (speed_bounds s s_fin s_range v V d F M B longest FT UT T1 T2) as [Fq _].
    pose proof (speed_range s s_fin s_range v V d F M B longest FT UT T1 T2) as Rq.
    destruct (ramp_bounds s s_fin s_range v V d F M B longest FT UT T1 T2) as (Fr & _ & Br).
    destruct (whole_bounds s s_fin s_range v V d F M B longest FT UT T1 T2) as (Fw & Lw & Sw & Qw).
    destruct (corner_bounds s s_fin s_range v V d F M B longest FT UT T1 T2) as (Fc & Bc).
    pose proof (tuned_ok s s_fin s_range v V d F M B longest FT UT T1 T2 T3) as Tu.
    left. split; [exact M|]. split; [|split; [exact Sw|exact Tu]].
    clear Tu. revert Fq Rq Fr Br Fw Lw Sw Qw Fc Bc. generalize (speed s d longest) (ramp s d longest) (whole s d longest) (corner s d longest). intros q r w c Fq Rq Fr Br Fw Lw Sw Qw Fc Bc.
    constructor.
    - split; assumption.
    - split; [exact Fq|]. split; lra.
    - split; assumption.
    - split; [exact Fw|]. split; [|exact Qw]. split; [exact Lw|]. nra.
    - reflexivity.
    - split; assumption.
  Qed.

  (** * Set up generators *)
  Record set_up (goal q0 : list (F float)) (g : generator float) : Prop := {
    su_start : forall i, (i < 7)%nat -> joint float (g_q_start float g) i = joint float q0 i;
    su_goal : g_q_goal float g = goal;
    su_delta : forall i, (i < 7)%nat -> joint float (g_delta_q float g) i = joint float delta i;
    su_plan : forall i, (i < 7)%nat -> plan_ok (top_speed i) (joint float delta i) (joint float (g_dq_max_sync float g) i) (joint float (g_t_1_sync float g) i)
        (joint float (g_t_2_sync float g) i) (joint float (g_t_f_sync float g) i) (joint float (g_q_1 float g) i)
  }.
  Lemma joint_map : forall f i, (i < 7)%nat -> joint float (map f joints) i = f i.
  Proof. intros f i H. unfold joint. apply nth_map_seq, H. Qed.
  Lemma plan_set_up : forall goal q0 t,
    set_up goal q0 (calculate_synchronized_values float (Generator float goal q0 delta (zeros float) (zeros float) (zeros float) (zeros float) (zeros float) t tops accs accs)).
  Proof.
    intros goal q0 t. unfold calculate_synchronized_values. cbn [g_q_goal g_q_start g_delta_q g_dq_max_sync g_t_1_sync g_t_2_sync g_t_f_sync g_q_1 g_time g_dq_max g_ddq_max_start g_ddq_max_goal].
    cbv zeta.
    constructor; cbn [g_q_goal g_q_start g_delta_q g_dq_max_sync g_t_1_sync g_t_2_sync g_t_f_sync g_q_1]; [reflexivity|reflexivity|reflexivity|].
    intros i H. rewrite !joint_map by exact H. assert (Z : joint float (zeros float) i = f_int float 0) by (unfold joint, zeros; do 7 (destruct i as [|i]; [reflexivity|]); lia).
    rewrite Z. destruct (moves float (joint float delta i)) eqn:M; [|right; split; [exact M|]; repeat split].
    destruct (synchronized_ok i H M) as (q & t1 & tf & q1 & E & P). unfold longest, own in E. rewrite E. exact P.
  Qed.
End Start.

(** * Commands of a set up generator *)
Definition in_range (l : list (F float)) : Prop := length l = 7%nat /\ forall i, (i < 7)%nat -> b64_fin (joint float l i) = true /\ Rabs (val (joint float l i)) <= 4.
Definition miss : R := / 1000000 + / 100000000000000.
Definition command_ok (s : F float) (goal q0 : list (F float)) (t : R) (o : list (F float) * bool) : Prop :=
  length (fst o) = 7%nat /\
  (forall i, (i < 7)%nat -> b64_fin (joint float (fst o) i) = true /\ Rabs (val (joint float (fst o) i)) <= 40 /\
     (snd o = true -> Rabs (val (joint float (fst o) i) - val (joint float goal i)) <= miss) /\
     (t = 0 -> Rabs (val (joint float (fst o) i) - val (joint float q0 i)) <= miss)) /\
  (7 <= t * val s -> snd o = true) /\ (snd o = false -> t < 7168).
Section Commands.
  Variable s : F float.
  Hypothesis s_fin : b64_fin s = true.
  Hypothesis s_range : / 1024 <= val s <= 1.
  Variables goal q0 : list (F float).
  Hypothesis goal_ok : in_range goal.
  Hypothesis q0_ok : in_range q0.
  Definition way : list (F float) := map (fun i => f_sub float (joint float goal i) (joint float q0 i)) joints.
  Lemma way_near : forall i, (i < 7)%nat -> b64_fin (joint float way i) = true /\ Rabs (val (joint float way i)) <= 8 /\
    Rabs (val (joint float way i) - (val (joint float goal i) - val (joint float q0 i))) <= / 1000000000000000.
  Proof.
    intros i H. destruct goal_ok as [_ G]. destruct q0_ok as [_ Q]. destruct (G i H) as [Fg Bg]. destruct (Q i H) as [Fq Bq]. unfold way. rewrite joint_map by exact H.
    apply Rabs_le_inv in Bg. apply Rabs_le_inv in Bq. assert (A : Rabs (val (joint float goal i) - val (joint float q0 i)) <= 8) by (apply Rabs_le; lra).
    destruct (minus_ok _ _ 3 Fg Fq ltac:(lia) A) as [F V]. split; [exact F|]. cbn [f_sub float]. rewrite V. split; [apply (rnd_abs_le _ 3); [lia|exact A]|].
    eapply Rle_trans; [apply (rnd_near 3); [lia|exact A]|]. change (bpow radix2 (3 - 53)) with (/ 1125899906842624). lra.
  Qed.
  Lemma add_40 : forall x y, b64_fin x = true -> Rabs (val x) <= 4 -> fine y -> b64_fin (f_add float x y) = true /\ Rabs (val (f_add float x y)) <= 40 /\
    (Rabs (val x + val y) <= 8 -> Rabs (val (f_add float x y) - (val x + val y)) <= / 1000000000000000).
  Proof.
    intros x y Fx Bx [Fy By]. assert (A : Rabs (val x + val y) <= 34) by (eapply Rle_trans; [apply Rabs_triang|lra]).
    destruct (plus_ok x y 6 Fx Fy ltac:(lia)) as [F V]; [change (bpow radix2 6) with 64; lra|]. split; [exact F|]. cbn [f_add float]. rewrite V. split.
    - pose proof (rnd_near 6 (val x + val y) ltac:(lia)) as E. change (bpow radix2 6) with 64 in E. specialize (E ltac:(lra)). change (bpow radix2 (6 - 53)) with (/ 140737488355328) in E.
      apply Rabs_le_inv in E. apply Rabs_le_inv in A. apply Rabs_le. lra.
    - intros L. eapply Rle_trans; [apply (rnd_near 3); [lia|exact L]|]. change (bpow radix2 (3 - 53)) with (/ 1125899906842624). lra.
  Qed.
  Lemma commands_ok : forall g t, set_up s way goal q0 g -> b64_fin t = true -> 0 <= val t ->
    let d := calculate_desired_values float g t in
    command_ok s goal q0 (val t) (map (fun i => f_add float (joint float (g_q_start float g) i) (joint float (fst d) i)) joints, snd d).
  Proof.
    intros g t U Ft Pt d.
    assert (V : forall i, (i < 7)%nat -> exists r, joint float (fst d) i = fst r /\ (snd d = true -> snd r = true) /\ value_ok (joint float way i) (joint float (g_t_f_sync float g) i) t r /\
        val (joint float (g_t_f_sync float g) i) * val s <= 7 /\
        r = desired_value float (joint float (g_delta_q float g) i) (joint float (g_dq_max_sync float g) i) (joint float (g_t_1_sync float g) i)
                   (joint float (g_t_2_sync float g) i) (joint float (g_t_f_sync float g) i) (joint float (g_q_1 float g) i) t).
    { intros i H. eexists. split; [|split; [|split; [|split; [|reflexivity]]]].
      - unfold d, calculate_desired_values. cbv zeta. cbn [fst]. rewrite map_map. rewrite joint_map by exact H. reflexivity.
      - unfold d, calculate_desired_values. cbv zeta. cbn [snd]. intros A. rewrite forallb_forall in A. apply A.
        apply in_map_iff. exists i. split; [reflexivity|]. unfold joints. apply in_seq. lia.
      - rewrite (su_delta _ _ _ _ _ U i H). destruct (way_near i H) as (Fw & Bw & _).
        destruct (su_plan _ _ _ _ _ U i H) as [(M & P & L & _)|(M & E1 & E2 & E3 & E4 & E5)].
        + apply value_moves; assumption.
        + rewrite E1, E2, E3, E4, E5. apply value_still; assumption.
      - destruct (su_plan _ _ _ _ _ U i H) as [(M & P & L & _)|(M & E1 & E2 & E3 & E4 & E5)]; [exact L|]. rewrite E4. change (val (f_int float 0)) with 0. lra. }
    assert (Sn : (forall i r, (i < 7)%nat -> r = desired_value float (joint float (g_delta_q float g) i) (joint float (g_dq_max_sync float g) i) (joint float (g_t_1_sync float g) i)
                   (joint float (g_t_2_sync float g) i) (joint float (g_t_f_sync float g) i) (joint float (g_q_1 float g) i) t -> snd r = true) -> snd d = true).
    { intros A. unfold d, calculate_desired_values. cbv zeta. cbn [snd]. apply forallb_forall. intros r I. apply in_map_iff in I. destruct I as (i & E & I).
      unfold joints in I. apply in_seq in I. apply (A i r); [lia|symmetry; exact E]. }
    assert (Fin : 7 <= val t * val s -> snd d = true).
    { intros L. apply Sn. intros i r H E. destruct (V i H) as (r' & _ & _ & (_ & _ & K & _) & L' & E'). rewrite <- E' in E. subst r. apply K.
      apply Rmult_le_reg_r with (val s); lra. }
    clear Sn. destruct goal_ok as [_ G]. destruct q0_ok as [_ Q].
    split; [reflexivity|]. cbn [fst snd]. split; [|split; [exact Fin|]].
    - intros i H. rewrite joint_map by exact H. rewrite (su_start _ _ _ _ _ U i H). destruct (V i H) as (r & E & Sr & (Fi & Go & _ & St) & _ & _). rewrite E.
      destruct (G i H) as [Fg Bg]. destruct (Q i H) as [Fq Bq]. destruct (way_near i H) as (Fw & Bw & Nw). destruct (add_40 _ _ Fq Bq Fi) as (Fa & Ba & Na).
      set (x := joint float q0 i) in *. set (y := joint float goal i) in *. set (w := joint float way i) in *. set (z := f_add float x (fst r)) in *. clearbody z.
      apply Rabs_le_inv in Bg. apply Rabs_le_inv in Bq. pose proof (Rabs_le_inv _ _ Nw) as Nw'. split; [exact Fa|]. split; [exact Ba|]. unfold miss.
      assert (Stay : forall v, val v = 0 -> fst r = v -> Rabs (val z - val x) <= / 1000000000000000).
      { intros v Zv Ev. rewrite Ev, Zv, Rplus_0_r in Na. apply Na, Rabs_le. lra. }
      assert (Stll : still w -> Rabs (val w) <= / 1000000 + / 1000000000000000) by (unfold still, u; lra).
      split.
      + intros Sd. destruct (Go (Sr Sd)) as [Er|[Sw Er]].
        * rewrite Er in Na. assert (L : Rabs (val x + val w) <= 8) by (apply Rabs_le; lra). specialize (Na L). apply Rabs_le_inv in Na. apply Rabs_le. lra.
        * specialize (Stay (f_int float 0) eq_refl Er). apply Rabs_le_inv in Stay. pose proof (Rabs_le_inv _ _ (Stll Sw)). apply Rabs_le. lra.
      + intros Zt. destruct (St Zt) as [Er|[Sw Er]].
        * specialize (Stay _ Er eq_refl). lra.
        * pose proof (Rabs_le_inv _ _ (Stll Sw)). rewrite Er in Na. assert (L : Rabs (val x + val w) <= 8) by (apply Rabs_le; lra). specialize (Na L). apply Rabs_le_inv in Na. apply Rabs_le. lra.
    - intros N. apply Rnot_le_lt. intros L. rewrite Fin in N; [discriminate N|]. nra.
  Qed.

  (** * Time *)
  Definition ms (p : N) : R := IZR (Z.of_N p).
  Lemma next_time : forall t p, b64_fin t = true -> 0 <= val t < 7168 -> (1 <= p < 2 ^ 64)%N ->
    let t' := f_add float t (as_secs_f64 p) in
    b64_fin t' = true /\ 0 < val t' /\ (val t + ms p / 1000 * (1 - / 1000000) <= val t' \/ 16384 <= val t').
  Proof.
    intros t p Ft Bt Bp t'. destruct (C58_seconds p ltac:(lia)) as [Fs Ns]. fold (ms p) in Ns. apply Rabs_le_inv in Ns.
    assert (P1 : 1 <= ms p) by (unfold ms; apply (IZR_le 1); lia).
    assert (P2 : ms p <= 18446744073709551616) by (unfold ms; apply IZR_le; lia).
    change (/ 2 ^ 51) with (/ 2 ^ 51) in Ns. assert (E51 : / 2 ^ 51 = / 2251799813685248) by (f_equal; ring). rewrite E51 in Ns. clear E51.
    set (x := as_secs_f64 p) in *. clearbody x.
    assert (A : Rabs (val t + val x) <= bpow radix2 70).
    { apply Rabs_le. change (bpow radix2 70) with 1180591620717411303424. lra. }
    destruct (plus_ok t x 70 Ft Fs ltac:(lia) A) as [F V]. unfold t'. cbn [f_add float]. rewrite V. split; [exact F|].
    destruct (Rle_lt_dec 16384 (val t + val x)) as [L|L].
    - assert (M : 16384 <= rnd (val t + val x)).
      { change 16384 with (bpow radix2 14). rewrite <- (rnd_bpow 14) by lia. apply rnd_le. exact L. }
      split; [lra|right; exact M].
    - assert (N : Rabs (rnd (val t + val x) - (val t + val x)) <= tick) by (apply rnd_time, Rabs_le; lra). apply Rabs_le_inv in N. unfold tick in N.
      split; [lra|left; lra].
  Qed.
  Fixpoint elapsed_ms (calls : list (list (F float) * N)) : R := match calls with [] => 0 | (_, p) :: r => ms p + elapsed_ms r end.
  Definition as_calls (calls : list (list (F float) * N)) : list (list (F float) * F float) := map (fun c => (fst c, as_secs_f64 (snd c))) calls.
  Definition stepping (calls : list (list (F float) * N)) : Prop := Forall (fun c => (1 <= snd c < 2 ^ 64)%N) calls.
  Lemma later_call : forall g q p, set_up s way goal q0 g -> b64_fin (g_time float g) = true -> 0 <= val (g_time float g) < 7168 -> (1 <= p < 2 ^ 64)%N ->
    let r := generate_motion float g q (as_secs_f64 p) in
    set_up s way goal q0 (fst r) /\ g_time float (fst r) = f_add float (g_time float g) (as_secs_f64 p) /\ command_ok s goal q0 (val (g_time float (fst r))) (snd r).
  Proof.
    intros g q p U Ft Bt Bp r. destruct (next_time _ _ Ft Bt Bp) as (Fn & Pn & _). unfold r, generate_motion. cbv zeta.
    set (t' := f_add float (g_time float g) (as_secs_f64 p)) in *. clearbody t'.
    assert (Ne : f_eq float t' (f_int float 0) = false).
    { cbn [f_eq float]. rewrite eq_fin by (try exact Fn; reflexivity). apply Req_bool_false. intros X. apply (Rlt_not_eq 0 (val t') Pn). symmetry. exact X. }
    rewrite Ne. cbn [fst snd g_time].
    assert (U' : set_up s way goal q0 (Generator float (g_q_goal float g) (g_q_start float g) (g_delta_q float g) (g_dq_max_sync float g) (g_t_1_sync float g) (g_t_2_sync float g)
      (g_t_f_sync float g) (g_q_1 float g) t' (g_dq_max float g) (g_ddq_max_start float g) (g_ddq_max_goal float g))) by (destruct U; constructor; assumption).
    split; [exact U'|]. split; [reflexivity|]. apply (commands_ok _ t' U' Fn). lra.
  Qed.
  Lemma later_calls : forall calls g e, set_up s way goal q0 g -> b64_fin (g_time float g) = true -> 0 <= val (g_time float g) < 7168 -> stepping calls ->
    e / 1000 * (1 - / 1000000) <= val (g_time float g) -> forall k o, nth_error (generate float g (as_calls calls)) k = Some o ->
    (forall j o', (j < k)%nat -> nth_error (generate float g (as_calls calls)) j = Some o' -> snd o' = false) ->
    exists t, 0 < t /\ command_ok s goal q0 t o /\ ((e + elapsed_ms (firstn (S k) calls)) / 1000 * (1 - / 1000000) <= t \/ 16384 <= t).
  Proof.
    induction calls as [|[q p] calls IH]; intros g e U Ft Bt St He k o N B; [destruct k; discriminate N|].
    inversion St as [|c l Hp Hs]. subst. cbn [snd] in Hp. destruct (later_call g q p U Ft Bt Hp) as (U' & Et & C). destruct (next_time _ _ Ft Bt Hp) as (Fn & Pn & Ln).
    cbn [as_calls map fst snd generate] in N, B. fold (as_calls calls) in N, B. set (r := generate_motion float g q (as_secs_f64 p)) in *. clearbody r.
    rewrite Et in C. set (t' := f_add float (g_time float g) (as_secs_f64 p)) in *. clearbody t'.
    destruct k as [|k]; cbn [nth_error] in N.
    - injection N as <-. exists (val t'). split; [exact Pn|]. split; [exact C|]. destruct Ln as [Ln|Ln]; [left|right; exact Ln]. cbn [firstn elapsed_ms]. lra.
    - assert (Nf : snd (snd r) = false) by (apply (B 0%nat); [lia|reflexivity]). assert (Bn : val t' < 7168) by (apply C, Nf).
      destruct (IH (fst r) (e + ms p)) with (k := k) (o := o) as (t & Pt & Ct & Lt); try assumption.
      + rewrite Et. exact Fn.
      + rewrite Et. lra.
      + rewrite Et. lra.
      + intros j o' Hj Nj. apply (B (S j)); [lia|exact Nj].
      + exists t. split; [exact Pt|]. split; [exact Ct|]. cbn [firstn elapsed_ms]. rewrite <- Rplus_assoc. exact Lt.
  Qed.
  Lemma first_call : let r := generate_motion float (generator_new float s goal) q0 (as_secs_f64 0) in
    set_up s way goal q0 (fst r) /\ b64_fin (g_time float (fst r)) = true /\ val (g_time float (fst r)) = 0 /\ command_ok s goal q0 0 (snd r).
  Proof.
    intros r. unfold r, generate_motion. cbv zeta. cbn [generator_new g_time].
    assert (E : f_add float (f_int float 0) (as_secs_f64 0) = f_int float 0) by (vm_compute; reflexivity). rewrite E.
    replace (f_eq float (f_int float 0) (f_int float 0)) with true by (vm_compute; reflexivity).
    cbn [g_q_goal g_q_start g_delta_q g_dq_max_sync g_t_1_sync g_t_2_sync g_t_f_sync g_q_1 g_dq_max g_ddq_max_start g_ddq_max_goal generator_new].
    pose proof (plan_set_up s s_fin s_range way (fun i H => conj (proj1 (way_near i H)) (proj1 (proj2 (way_near i H)))) goal q0 (f_int float 0)) as U.
    unfold tops, accs, way in U. unfold way.
    match type of U with set_up _ _ _ _ (calculate_synchronized_values float ?gg) => set (g0 := calculate_synchronized_values float gg) in * end.
    cbn [fst snd]. split; [exact U|].
    assert (Gt : g_time float g0 = f_int float 0) by reflexivity. rewrite Gt. split; [reflexivity|]. split; [reflexivity|].
    change 0 with (val (f_int float 0)). apply (commands_ok g0 (f_int float 0) U); [reflexivity|]. change (val (f_int float 0)) with 0. lra.
  Qed.
  Lemma run_ok : forall calls, stepping calls -> forall k o,
    let out := generate float (generator_new float s goal) (as_calls ((q0, 0%N) :: calls)) in
    nth_error out k = Some o -> (forall j o', (j < k)%nat -> nth_error out j = Some o' -> snd o' = false) ->
    exists t, (k = 0%nat -> t = 0) /\ 0 <= t /\ command_ok s goal q0 t o /\ (elapsed_ms (firstn k calls) / 1000 * (1 - / 1000000) <= t \/ 16384 <= t).
  Proof.
    intros calls St k o out N B. destruct first_call as (U & Ft & Vt & C). unfold out in N, B. cbn [as_calls map fst snd generate] in N, B. fold (as_calls calls) in N, B.
    set (r := generate_motion float (generator_new float s goal) q0 (as_secs_f64 0)) in *. clearbody r.
    destruct k as [|k]; cbn [nth_error] in N.
    - injection N as <-. exists 0. split; [reflexivity|]. split; [lra|]. split; [exact C|]. left. cbn [firstn elapsed_ms]. lra.
    - destruct (later_calls calls (fst r) 0 U Ft) with (k := k) (o := o) as (t & Pt & Ct & Lt); try assumption.
      + lra.
      + lra.
      + intros j o' Hj Nj. apply (B (S j)); [lia|exact Nj].
      + exists t. split; [discriminate|]. split; [lra|]. split; [exact Ct|]. rewrite Rplus_0_l in Lt. exact Lt.
  Qed.
  (** * The paths of the joints *)
  Definition path (g : generator float) (i : nat) (t : R) : R :=
    let d := joint float (g_delta_q float g) i in
    val (joint float (g_q_start float g) i) +
    (if moves float d then val (signum float d) * profile (val (joint float (g_dq_max_sync float g) i)) (val (joint float (g_t_1_sync float g) i))
        (val (joint float (g_t_f_sync float g) i) - val (joint float (g_t_1_sync float g) i)) t
     else if f_lt float (f_abs float d) (DELTA_Q_MOTION_FINISHED float) then 0 else val d).
  Lemma tuned_facts : forall i d q t1 t2 tf q1, tuned (val s) (top_speed i) d q t1 t2 tf q1 ->
    0 < val q <= top_speed i * val s * (1 + / 20000) /\ 0 < val t1 /\ Rabs (val (signum float d)) = 1 /\ 3 / 2 * (val q / val t1) <= 5 * val s * (1 + / 1000000000000).
  Proof.
    intros i d q t1 t2 tf q1 U. destruct (tu_q _ _ _ _ _ _ _ _ U) as (_ & Q). destruct (tu_t1 _ _ _ _ _ _ _ _ U) as (_ & T & A). destruct (tu_sign _ _ _ _ _ _ _ _ U) as (_ & Sg & _).
    apply Rabs_le_inv in A. repeat split; lra.
  Qed.
  Lemma path_slope : forall g i x y, set_up s way goal q0 g -> (i < 7)%nat -> x <= y -> Rabs (path g i y - path g i x) <= top_speed i * val s * (1 + / 20000) * (y - x).
  Proof.
    intros g i x y U H L. unfold path. rewrite (su_delta _ _ _ _ _ U i H). set (d := joint float way i) in *.
    assert (Pz : 0 <= top_speed i * val s * (1 + / 20000) * (y - x)).
    { assert (2 <= top_speed i) by (destruct (top_is i); lra). apply Rmult_le_pos; [apply Rmult_le_pos; [apply Rmult_le_pos; lra|lra]|lra]. }
    destruct (su_plan _ _ _ _ _ U i H) as [(M & P & _ & Tu)|(M & _)]; fold d in M; rewrite M.
    - fold d in Tu. destruct (tuned_facts _ _ _ _ _ _ _ Tu) as (Q & T & Sg & _). 
      match goal with |- Rabs (?a + ?b * ?c - (?a + ?b * ?e)) <= _ => replace (a + b * c - (a + b * e)) with (b * (c - e)) by ring end. rewrite Rabs_mult, Sg, Rmult_1_l.
      eapply Rle_trans; [apply profile_slope; lra|]. apply Rmult_le_compat_r; lra.
    - match goal with |- Rabs ?z <= _ => replace z with 0 by ring end. rewrite Rabs_R0. exact Pz.
  Qed.
  Lemma path_bend : forall g i t h, set_up s way goal q0 g -> (i < 7)%nat ->
    Rabs (path g i (t + h) - 2 * path g i t + path g i (t - h)) <= 5 * val s * (1 + / 1000000000000) * (h * h).
  Proof.
    intros g i t h U H. assert (Sq : 0 <= h * h) by apply Rle_0_sqr. unfold path. rewrite (su_delta _ _ _ _ _ U i H). set (d := joint float way i) in *.
    destruct (su_plan _ _ _ _ _ U i H) as [(M & P & _ & Tu)|(M & _)]; fold d in M; rewrite M.
    - fold d in Tu. destruct (tuned_facts _ _ _ _ _ _ _ Tu) as (Q & T & Sg & A).
      match goal with |- Rabs (?a + ?b * ?c - 2 * (?a + ?b * ?e) + (?a + ?b * ?f)) <= _ => replace (a + b * c - 2 * (a + b * e) + (a + b * f)) with (b * (c - 2 * e + f)) by ring end. rewrite Rabs_mult, Sg, Rmult_1_l.
      eapply Rle_trans; [apply profile_bend; lra|]. apply Rmult_le_compat_r; assumption.
    - match goal with |- Rabs ?z <= _ => replace z with 0 by ring end. rewrite Rabs_R0. apply Rmult_le_pos; [lra|exact Sq].
  Qed.
  Definition off : R := near + / 100000000000000.
  Lemma commands_close : forall g t i, set_up s way goal q0 g -> b64_fin t = true -> val t = 0 \/ / 2000 <= val t -> (i < 7)%nat ->
    Rabs (val (joint float (map (fun i => f_add float (joint float (g_q_start float g) i) (joint float (fst (calculate_desired_values float g t)) i)) joints) i) - path g i (val t)) <= off.
  Proof.
    intros g t i U Ft Bt H. assert (Pt : 0 <= val t) by lra. rewrite joint_map by exact H. unfold path. rewrite (su_start _ _ _ _ _ U i H).
    destruct q0_ok as [_ Q]. destruct (Q i H) as [Fq Bq]. destruct (way_near i H) as (Fw & Bw & _).
    assert (E : joint float (fst (calculate_desired_values float g t)) i =
        fst (desired_value float (joint float (g_delta_q float g) i) (joint float (g_dq_max_sync float g) i) (joint float (g_t_1_sync float g) i)
                   (joint float (g_t_2_sync float g) i) (joint float (g_t_f_sync float g) i) (joint float (g_q_1 float g) i) t)).
    { unfold calculate_desired_values. cbv zeta. cbn [fst]. rewrite map_map. rewrite joint_map by exact H. reflexivity. }
    rewrite E. clear E. rewrite (su_delta _ _ _ _ _ U i H). set (d := joint float way i) in *.
    assert (Go : forall y w, fine y -> Rabs (val y - w) <= near -> Rabs (val (f_add float (joint float q0 i) y) - (val (joint float q0 i) + w)) <= off).
    { intros y w Fy Ny. destruct Fy as [Fy By]. set (x := joint float q0 i) in *. assert (A : Rabs (val x + val y) <= bpow radix2 6) by (change (bpow radix2 6) with 64; eapply Rle_trans; [apply Rabs_triang|lra]).
      destruct (plus_ok x y 6 Fq Fy ltac:(lia) A) as [F V]. cbn [f_add float]. rewrite V. pose proof (rnd_near 6 _ ltac:(lia) A) as N. change (bpow radix2 (6 - 53)) with (/ 140737488355328) in N.
      replace (rnd (val x + val y) - (val x + w)) with ((rnd (val x + val y) - (val x + val y)) + (val y - w)) by ring. eapply Rle_trans; [apply Rabs_triang|]. unfold off. lra. }
    destruct (su_plan _ _ _ _ _ U i H) as [(M & P & _ & Tu)|(M & E1 & E2 & E3 & E4 & E5)]; fold d in M; rewrite M.
    - fold d in Tu, P. apply Go.
      + apply (value_moves d _ _ _ _ _ t P Ft Pt).
      + assert (Tp : 2 <= top_speed i <= 5 / 2) by (destruct (top_is i); lra). apply (value_close (val s) (top_speed i) s_range Tp _ _ _ _ _ _ _ P Tu Ft Bt).
        clear - M Fw. revert M. unfold moves, f_gt. destruct (abs_fin d Fw) as [Fa Va]. destruct finished_val as [Ff _]. unfold DELTA_Q_MOTION_FINISHED. cbn [f_lt float]. rewrite !lt_fin by assumption.
        destruct (Rlt_bool_spec (val (f_lit float 1 1000000)) (val (f_abs float d))) as [L|L]; [|discriminate]. intros _. apply Rlt_bool_false. lra.
    - apply Go; rewrite E1, E2, E3, E4, E5; [apply (value_still d t Fw M Ft Pt)|].
      unfold desired_value. cbv zeta. destruct (f_lt float (f_abs float d) (DELTA_Q_MOTION_FINISHED float)).
      + cbn [fst]. change (val (f_int float 0)) with 0. rewrite Rminus_0_r, Rabs_R0. unfold near. lra.
      + replace (f_lt float t (f_int float 0)) with (Rlt_bool (val t) (val (f_int float 0))) by (symmetry; apply lt_fin; [exact Ft|reflexivity]).
        rewrite Rlt_bool_false by exact Pt. rewrite !andb_false_r. cbn [fst]. rewrite Rminus_diag_eq by reflexivity. rewrite Rabs_R0. unfold near. lra.
  Qed.
  (** * Times of the calls *)
  Definition late (p : N) : R := / 500000000000 + ms p / 1000 * / 100000000000000.
  Lemma time_step : forall t p, b64_fin t = true -> 0 <= val t < 7168 -> (1 <= p < 2 ^ 64)%N ->
    let t' := f_add float t (as_secs_f64 p) in b64_fin t' = true /\ / 2000 <= val t' /\ Rabs (val t' - val t - ms p / 1000) <= late p.
  Proof.
    intros t p Ft Bt Bp t'. destruct (next_time t p Ft Bt Bp) as (F & _ & L). fold t' in F, L. split; [exact F|].
    assert (P1 : 1 <= ms p) by (unfold ms; apply (IZR_le 1); lia). split; [lra|]. clear L.
    destruct (C58_seconds p ltac:(lia)) as [Fs Ns]. fold (ms p) in Ns. 
    assert (P2 : ms p <= 18446744073709551616) by (unfold ms; apply IZR_le; lia).
    assert (E51 : / 2 ^ 51 = / 2251799813685248) by (f_equal; ring). rewrite E51 in Ns. clear E51. apply Rabs_le_inv in Ns.
    set (x := as_secs_f64 p) in *. clearbody x. assert (X0 : 0 <= val x) by lra.
    assert (A : Rabs (val t + val x) <= bpow radix2 70) by (apply Rabs_le; change (bpow radix2 70) with 1180591620717411303424; lra).
    destruct (plus_ok t x 70 Ft Fs ltac:(lia) A) as [_ V]. unfold t'. cbn [f_add float]. rewrite V. pose proof (rnd_rel (val t + val x)) as E. rewrite (Rabs_pos_eq (val t + val x)) in E by lra.
    assert (Tn : TwistFloats.tiny <= bpow radix2 (-60)) by (apply tiny_below; lia). change (bpow radix2 (-60)) with (/ 1152921504606846976) in Tn. apply Rabs_le_inv in E. unfold eps in E. apply Rabs_le. unfold late. lra.
  Qed.
  Lemma later_trace : forall calls g, set_up s way goal q0 g -> b64_fin (g_time float g) = true -> 0 <= val (g_time float g) < 7168 -> stepping calls ->
    exists tau : nat -> R, tau 0%nat = val (g_time float g) /\
    forall k o, nth_error (generate float g (as_calls calls)) k = Some o ->
    (forall j o', (j < k)%nat -> nth_error (generate float g (as_calls calls)) j = Some o' -> snd o' = false) ->
    (forall i, (i < 7)%nat -> Rabs (val (joint float (fst o) i) - path g i (tau (S k))) <= off) /\
    (forall q p, nth_error calls k = Some (q, p) -> Rabs (tau (S k) - tau k - ms p / 1000) <= late p).
  Proof.
    induction calls as [|[q p] calls IH]; intros g U Ft Bt St.
    { exists (fun _ => val (g_time float g)). split; [reflexivity|]. intros [|k] o N; discriminate N. }
    inversion St as [|c l Hp Hs]. subst. cbn [snd] in Hp. destruct (later_call g q p U Ft Bt Hp) as (U' & Et & C). destruct (time_step _ _ Ft Bt Hp) as (Fn & Pn & Ln).
    assert (Same : forall i t, path (fst (generate_motion float g q (as_secs_f64 p))) i t = path g i t /\
      ((i < 7)%nat -> Rabs (val (joint float (fst (snd (generate_motion float g q (as_secs_f64 p)))) i) - path g i (val (f_add float (g_time float g) (as_secs_f64 p)))) <= off)).
    { clear Et. revert U'. unfold generate_motion. cbv zeta. set (t' := f_add float (g_time float g) (as_secs_f64 p)) in *. clearbody t'.
      assert (Ne : f_eq float t' (f_int float 0) = false).
      { cbn [f_eq float]. rewrite eq_fin by (try exact Fn; reflexivity). apply Req_bool_false. change (val (f_int float 0)) with 0. lra. }
      rewrite Ne. cbn [fst snd]. intros U' i t. split; [reflexivity|]. intros Hi. apply (commands_close _ t' i U' Fn (or_intror Pn) Hi). }
    set (t' := f_add float (g_time float g) (as_secs_f64 p)) in *. clearbody t'.
    cbn [as_calls map fst snd generate]. fold (as_calls calls). set (r := generate_motion float g q (as_secs_f64 p)) in *. clearbody r.
    destruct (snd (snd r)) eqn:Sr.
    - exists (fun n => match n with O => val (g_time float g) | S _ => val t' end). split; [reflexivity|]. intros k o N B. destruct k as [|k].
      + cbn [nth_error] in N. injection N as <-. split; [intros i Hi; apply (Same i 0), Hi|]. intros q' p' E. cbn [nth_error] in E. injection E as _ <-. exact Ln.
      + exfalso. assert (X : snd (snd r) = false) by (apply (B 0%nat); [lia|reflexivity]). congruence.
    - assert (Bn : val t' < 7168) by (rewrite Et in C; apply C, Sr).
      destruct (IH (fst r) U') as (tau & T0 & T1); [rewrite Et; exact Fn|rewrite Et; lra|exact Hs|]. rewrite Et in T0.
      exists (fun n => match n with O => val (g_time float g) | S n => tau n end). split; [reflexivity|]. intros k o N B. destruct k as [|k].
      + cbn [nth_error] in N. injection N as <-. rewrite T0. split; [intros i Hi; apply (Same i 0), Hi|]. intros q' p' E. cbn [nth_error] in E. injection E as _ <-. exact Ln.
      + cbn [nth_error] in N. destruct (T1 k o N) as [A E]; [intros j o' Hj Nj; apply (B (S j)); [lia|exact Nj]|]. split; [|exact E].
        intros i Hi. rewrite <- (proj1 (Same i (tau (S k)))). apply A, Hi.
  Qed.
  Lemma run_trace : forall calls, stepping calls -> exists (f : nat -> R -> R) (tau : nat -> R),
    (forall i x y, (i < 7)%nat -> x <= y -> Rabs (f i y - f i x) <= top_speed i * val s * (1 + / 20000) * (y - x)) /\
    (forall i t h, (i < 7)%nat -> Rabs (f i (t + h) - 2 * f i t + f i (t - h)) <= 5 * val s * (1 + / 1000000000000) * (h * h)) /\
    let out := generate float (generator_new float s goal) (as_calls ((q0, 0%N) :: calls)) in
    forall k o, nth_error out k = Some o -> (forall j o', (j < k)%nat -> nth_error out j = Some o' -> snd o' = false) ->
    (forall i, (i < 7)%nat -> Rabs (val (joint float (fst o) i) - f i (tau k)) <= off) /\
    (forall j q p, k = S j -> nth_error calls j = Some (q, p) -> Rabs (tau k - tau j - ms p / 1000) <= late p).
  Proof.
    intros calls St. destruct first_call as (U & Ft & Vt & C).
    assert (Fc : forall i, (i < 7)%nat -> Rabs (val (joint float (fst (snd (generate_motion float (generator_new float s goal) q0 (as_secs_f64 0)))) i)
        - path (fst (generate_motion float (generator_new float s goal) q0 (as_secs_f64 0))) i 0) <= off).
    { clear C Ft Vt. revert U. unfold generate_motion. cbv zeta. cbn [generator_new g_time].
      assert (E : f_add float (f_int float 0) (as_secs_f64 0) = f_int float 0) by (vm_compute; reflexivity). rewrite E.
      replace (f_eq float (f_int float 0) (f_int float 0)) with true by (vm_compute; reflexivity).
      cbn [fst snd]. match goal with |- set_up _ _ _ _ ?gg -> _ => set (g0 := gg) end. clearbody g0. intros U i Hi. apply (commands_close g0 (f_int float 0) i U); [reflexivity|left; reflexivity|exact Hi]. }
    set (r := generate_motion float (generator_new float s goal) q0 (as_secs_f64 0)) in *.
    destruct (later_trace calls (fst r) U Ft) as (tau & T0 & T1); [lra|exact St|].
    exists (path (fst r)), tau. split; [intros i x y Hi L; apply path_slope; assumption|]. split; [intros i t h Hi; apply path_bend; assumption|].
    intros out k o N B. unfold out in N, B. cbn [as_calls map fst snd generate] in N, B. fold (as_calls calls) in N, B. fold r in N, B. clearbody r.
    destruct k as [|k]; cbn [nth_error] in N.
    - injection N as <-. split; [intros i Hi; rewrite T0, Vt; apply Fc, Hi|discriminate].
    - destruct (T1 k o N) as [A E]; [intros j o' Hj Nj; apply (B (S j)); [lia|exact Nj]|]. split; [exact A|]. intros j q p Ej. injection Ej as <-. apply E.
  Qed.
End Commands.
