(** Facts about the conversions on bit patterns. *)
From Coq Require Import List NArith ZArith Bool Lia Lra Arith Reals.
From Flocq Require Import Core IEEE754.BinarySingleNaN IEEE754.Binary IEEE754.Bits.
From Verif Require Import Bytes Codec NumOps NumFloat FloatFacts RateModel ConvertModel WireModel WireSpec RobotModel LoopModel
  TypedModel TypedSpec.
Import ListNotations.
Open Scope N_scope.

Lemma bits_range : forall x, bits x < 2 ^ 64.
Proof.
  intros x. unfold bits. pose proof (bits_of_binary_float_range 52 11 eq_refl eq_refl x) as H.
  change (2 ^ (52 + 11 + 1))%Z with (2 ^ 64)%Z in H. unfold bits_of_b64. change (2 ^ 64) with (Z.to_N (2 ^ 64)).
  apply Z2N.inj_lt; lia.
Qed.
(** The exponent field of a finite number. *)
Lemma bits_finite : forall x, b64_fin x = true -> finite_bits (bits x).
Proof.
  intros x F. split; [apply bits_range|]. intros E. unfold bits in E.
  pose proof (bits_of_binary_float_range 52 11 eq_refl eq_refl x) as H.
  pose proof (split_bits_of_binary_float_correct 52 11 eq_refl eq_refl x) as S.
  change (bits_of_binary_float 52 11 x) with (bits_of_b64 x) in *.
  assert (E' : ((bits_of_b64 x / 2 ^ 52) mod 2 ^ 11 = 2047)%Z).
  { apply (f_equal Z.of_N) in E. rewrite N2Z.inj_mod, N2Z.inj_div, Z2N.id in E by lia. exact E. }
  apply (f_equal snd) in S. change (snd (split_bits 52 11 (bits_of_b64 x))) with ((bits_of_b64 x / 2 ^ 52) mod 2 ^ 11)%Z in S.
  rewrite E' in S. clear E E' H. destruct x as [s|s|s pl e|s m e B]; try discriminate F; unfold split_bits_of_binary_float in S.
  - discriminate S.
  - clear F. unfold SpecFloat.bounded in B. apply andb_prop in B. destruct B as [_ B]. apply Zle_bool_imp_le in B.
    destruct (_ <=? _)%Z; cbn [snd] in S; [|discriminate S].
    unfold SpecFloat.emin in S. change (2 ^ (11 - 1))%Z with 1024%Z in S. lia.
Qed.
Lemma all_finite_bits : forall l : list (F float), all_finite float l = true -> Forall finite_bits (map bits l).
Proof.
  intros l H. apply Forall_map, Forall_forall. intros x Hx. apply bits_finite.
  unfold all_finite in H. rewrite forallb_forall in H. apply H. exact Hx.
Qed.
Lemma finite_some : forall O (l r : list (F O)), finite O l = Some r -> r = l /\ all_finite O r = true.
Proof. intros O l r. unfold finite. destruct (all_finite O l) eqn:E; [|discriminate]. intros [= <-]. auto. Qed.
Lemma then_some : forall A B (o : option A) (f : A -> option B) b, then_ o f = Some b -> exists a, o = Some a /\ f a = Some b.
Proof. intros A B [a|] f b H; [exists a; auto|discriminate]. Qed.

(** A finite number whose magnitude equals one. *)
Lemma unit_bits : forall x, b64_fin x = true -> is_valid_elbow float x = true ->
  bits x = one_bits \/ bits x = minus_one_bits.
Proof.
  intros x F V. unfold is_valid_elbow in V. cbn [f_eq f_abs f_int float] in V.
  destruct (val_finite (b64_int 1) false 4503599627370496 (-52)) as [F1 V1]; [vm_compute; reflexivity|].
  rewrite eq_fin in V; [|unfold b64_abs, b64_fin; rewrite is_finite_Babs; exact F|exact F1].
  assert (E1 : val (b64_int 1) = 1%R).
  { rewrite V1. cbn [cond_Zopp]. change (bpow radix2 (-52)) with (/ 4503599627370496)%R. field. }
  rewrite E1 in V. unfold Req_bool in V. 
  destruct (Rcompare_spec (val (b64_abs x)) 1) as [|A|]; try discriminate V. clear V.
  assert (A' : val x = 1%R \/ val x = (-1)%R).
  { unfold val, b64_abs in A. rewrite B2R_Babs in A. unfold val. destruct (Rcase_abs (B2R 53 1024 x)) as [N|N].
    - rewrite Rabs_left in A by exact N. right. lra.
    - rewrite Rabs_right in A by exact N. left. exact A. }
  assert (Strict : forall y, b64_fin y = true -> val y <> 0%R -> is_finite_strict 53 1024 y = true).
  { intros [s|s|s pl e|s m e B] Fy Hy; try discriminate Fy; [|reflexivity]. contradiction Hy. reflexivity. }
  destruct A' as [A'|A'].
  - left. assert (X : x = b64_int 1).
    { apply B2R_inj; [apply Strict; [exact F|rewrite A'; apply R1_neq_R0]|apply Strict; [exact F1|rewrite E1; apply R1_neq_R0]|].
      fold (val x). fold (val (b64_int 1)). rewrite A', E1. reflexivity. }
    rewrite X. vm_compute. reflexivity.
  - right. destruct (val_finite (b64_int (-1)) true 4503599627370496 (-52)) as [F2 V2]; [vm_compute; reflexivity|].
    assert (E2 : val (b64_int (-1)) = (-1)%R).
    { rewrite V2. cbn [cond_Zopp]. change (bpow radix2 (-52)) with (/ 4503599627370496)%R. cbn [Z.opp]. field. }
    assert (X : x = b64_int (-1)).
    { assert (NZ : (-1)%R <> 0%R) by lra.
      apply B2R_inj; [apply Strict; [exact F|rewrite A'; exact NZ]|apply Strict; [exact F2|rewrite E2; exact NZ]|].
      fold (val x). fold (val (b64_int (-1))). rewrite A', E2. reflexivity. }
    rewrite X. vm_compute. reflexivity.
Qed.

(** Lengths. *)
Lemma map2_length : forall A B C (f : A -> B -> C) l m, length (map2 f l m) = Nat.min (length l) (length m).
Proof. intros A B C f. induction l as [|a l IH]; intros [|b m]; cbn; auto. Qed.
Lemma sequence_length : forall A (l : list (option A)) r, sequence l = Some r -> length r = length l.
Proof.
  induction l as [|[a|] l IH]; intros r H; cbn in H; [injection H as <-; reflexivity| |discriminate].
  destruct (sequence l) as [r'|]; [|discriminate]. injection H as <-. cbn. rewrite (IH r' eq_refl). reflexivity.
Qed.
Section Lengths.
  Variable O : num.
  Lemma per_joint_length : forall body vs as_ js ps lps lvs las,
    length (per_joint O body vs as_ js ps lps lvs las) =
    fold_right Nat.min (length vs) (map (@length _) [as_; js; ps; lps; lvs; las]).
  Proof.
    intros body. induction vs as [|v vs IH]; intros [|a as_] [|j js] [|p ps] [|lp lps] [|lv lvs] [|la las]; cbn; try lia.
    rewrite IH. cbn. lia.
  Qed.
  Lemma limit_torques_length : forall ms xs ls : list (F O),
    length (limit_torques O ms xs ls) = Nat.min (length ms) (Nat.min (length xs) (length ls)).
  Proof. induction ms as [|m ms IH]; intros [|x xs] [|l ls]; cbn; auto; lia. Qed.
  Lemma filtered_length : forall c (y l r : list (F O)), filtered O c y l = Some r -> length l = length y -> length r = length y.
  Proof.
    intros c y l r H E. unfold filtered in H. destruct (f_lt _ _ _); [|injection H as <-; reflexivity].
    apply sequence_length in H. rewrite H, map2_length, E. apply Nat.min_id.
  Qed.
  Lemma joint_positions_length : forall c b (q : list (F O)) s r, convert_joint_positions O c b q s = Some r ->
    length q = 7%nat -> length (p_q_d _ s) = 7%nat -> length (p_dq_d _ s) = 7%nat -> length (p_ddq_d _ s) = 7%nat ->
    length r = 7%nat.
  Proof.
    intros c b q s r H Lq L1 L2 L3. apply then_some in H. destruct H as (y & F & H). apply then_some in H.
    destruct H as (z & G & H). apply finite_some in H. destruct H as [-> _].
    apply filtered_length in F; [|congruence]. destruct b; cbn [limited] in G; [|injection G as <-; congruence].
    unfold limit_rate_joint_positions in G. destruct (all_finite O y); [|discriminate].
    apply sequence_length in G. rewrite G, per_joint_length. cbn [map fold_right length]. rewrite F, Lq, L1, L2, L3. reflexivity.
  Qed.
  Lemma joint_velocities_length : forall c b (q : list (F O)) s r, convert_joint_velocities O c b q s = Some r ->
    length q = 7%nat -> length (p_dq_d _ s) = 7%nat -> length (p_ddq_d _ s) = 7%nat -> length r = 7%nat.
  Proof.
    intros c b q s r H Lq L2 L3. apply then_some in H. destruct H as (y & F & H). apply then_some in H.
    destruct H as (z & G & H). apply finite_some in H. destruct H as [-> _].
    apply filtered_length in F; [|congruence]. destruct b; cbn [limited] in G; [|injection G as <-; congruence].
    unfold limit_rate_joint_velocities in G. destruct (all_finite O y); [|discriminate].
    apply sequence_length in G. rewrite G, per_joint_length. cbn [map fold_right length]. rewrite F, Lq, L2, L3. reflexivity.
  Qed.
  Lemma twist_length : forall c b (q : list (F O)) s r, convert_twist O c b q s = Some r ->
    length q = 6%nat -> length (p_O_dP_EE_c _ s) = 6%nat -> length r = 6%nat.
  Proof.
    intros c b q s r H Lq L2. apply then_some in H. destruct H as (y & F & H). apply then_some in H.
    destruct H as (z & G & H). apply finite_some in H. destruct H as [-> _].
    apply filtered_length in F; [|congruence]. destruct b; cbn [limited] in G; [|injection G as <-; congruence].
    unfold limit_rate_cartesian_velocity in G. destruct (all_finite O y); [|discriminate].
    destruct (to_vecs O y) as [[? ?]|]; [|discriminate]. destruct (to_vecs O _) as [[? ?]|]; [|discriminate].
    destruct (to_vecs O _) as [[? ?]|]; [|discriminate]. injection G as <-. reflexivity.
  Qed.
  Lemma pose_length : forall sl rl re rk c b (q : list (F O)) s r, convert_pose O sl rl re rk c b q s = Some r ->
    length q = 16%nat -> length r = 16%nat.
  Proof.
    intros sl rl re rk c b q s r H Lq. apply then_some in H. destruct H as (y & F & H). apply then_some in H.
    destruct H as (z & G & H). destruct (check_matrix O z); [|discriminate]. injection H as <-.
    assert (Hom : forall a v, length (to_homogeneous O a v) = 16%nat) by (intros [[a1 a2] a3] w; reflexivity).
    assert (Ly : length y = 16%nat).
    { destruct (f_lt _ _ _); [|injection F as <-; exact Lq]. unfold cartesian_low_pass_filter in F.
      destruct (_ && _); [|discriminate]. destruct (_ && _); [|discriminate]. destruct (_ && _); [|discriminate].
      injection F as <-. apply Hom. }
    destruct b; cbn [limited] in G; [|injection G as <-; exact Ly]. unfold limit_rate_cartesian_pose in G.
    destruct (all_finite O y); [|discriminate]. destruct (is_homogeneous_transformation O y); [|discriminate].
    destruct (limit_rate_cartesian_velocity _ _ _ _ _ _ _ _ _ _) as [dx|]; [|discriminate].
    destruct (to_vecs O dx) as [[? ?]|]; [|discriminate]. injection G as <-. apply Hom.
  Qed.
  Lemma torques_length : forall c b (q : list (F O)) s r, convert_torques O c b q s = Some r ->
    length q = 7%nat -> length (p_tau_J_d _ s) = 7%nat -> length r = 7%nat.
  Proof.
    intros c b q s r H Lq L2. apply then_some in H. destruct H as (y & F & H). apply then_some in H.
    destruct H as (z & G & H). apply finite_some in H. destruct H as [-> _].
    apply filtered_length in F; [|congruence]. destruct b; cbn [limited] in G; [|injection G as <-; congruence].
    unfold limit_rate_torques in G. destruct (all_finite O y); [|discriminate].
    assert (E : z = limit_torques O (MAX_TORQUE_RATE O) y (p_tau_J_d O s)) by congruence. clear G. subst z.
    rewrite limit_torques_length, F, Lq, L2. reflexivity.
  Qed.
  Lemma elbow_shape : forall c b e s f l, convert_elbow O c b e s = Some (f, l) ->
    match e with
    | None => f = false /\ l = [zero O; zero O]
    | Some (_, e1) => f = true /\ exists e0, l = [e0; e1] /\ all_finite O l = true /\ is_valid_elbow O e1 = true
    end.
  Proof.
    intros c b [[e0 e1]|] s f l H; cbn [convert_elbow] in H; [|injection H as <- <-; auto].
    apply then_some in H. destruct H as (y & _ & H). apply then_some in H. destruct H as (z & _ & H).
    unfold check_elbow in H. destruct (all_finite O [z; e1]) eqn:A; [|discriminate]. cbn [andb] in H.
    destruct (is_valid_elbow O e1) eqn:V; [|discriminate]. injection H as <- <-. eauto 6.
  Qed.
End Lengths.

Lemma bits_of_bits : forall b, b < 2 ^ 64 -> bits (of_bits b) = b.
Proof.
  intros b H. unfold bits, of_bits, bits_of_b64, b64_of_bits. rewrite (bits_of_binary_float_of_bits 52 11); [apply N2Z.id|..]; try reflexivity.
  split; [apply N2Z.is_nonneg|]. change (2 ^ (52 + 11 + 1))%Z with (Z.of_N (2 ^ 64)). apply N2Z.inj_lt. exact H.
Qed.
Lemma finite_bits_fin : forall b, finite_bits b -> b64_fin (of_bits b) = true.
Proof.
  intros b [R H]. pose proof (bits_of_bits b R) as B. destruct (b64_fin (of_bits b)) eqn:E; [reflexivity|]. exfalso. apply H.
  pose proof (split_bits_of_binary_float_correct 52 11 eq_refl eq_refl (of_bits b)) as S.
  change (bits_of_binary_float 52 11 (of_bits b)) with (bits_of_b64 (of_bits b)) in S.
  assert (E' : bits_of_b64 (of_bits b) = Z.of_N b).
  { rewrite <- B at 2. unfold bits. rewrite Z2N.id; [reflexivity|]. apply (bits_of_binary_float_range 52 11); reflexivity. }
  rewrite E' in S. apply (f_equal snd) in S.
  change (snd (split_bits 52 11 (Z.of_N b))) with ((Z.of_N b / 2 ^ 52) mod 2 ^ 11)%Z in S.
  assert (S' : ((Z.of_N b / 2 ^ 52) mod 2 ^ 11 = 2047)%Z).
  { rewrite S. destruct (of_bits b); try discriminate E; reflexivity. }
  apply N2Z.inj. rewrite N2Z.inj_mod, N2Z.inj_div. exact S'.
Qed.
