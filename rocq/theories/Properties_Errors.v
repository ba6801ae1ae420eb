(** C39: error flags. *)
From Coq Require Import List NArith Bool Arith Lia String Sorting.Sorted.
From Verif Require Import ErrorsModel.
Import ListNotations.
Open Scope list_scope.

(** * The specification: names in protocol order *)
Definition protocol_names : list string := [
  "JointPositionLimitsViolation"; "CartesianPositionLimitsViolation"; "SelfCollisionAvoidanceViolation";
  "JointVelocityViolation"; "CartesianVelocityViolation"; "ForceControlSafetyViolation"; "JointReflex";
  "CartesianReflex"; "MaxGoalPoseDeviationViolation"; "MaxPathPoseDeviationViolation";
  "CartesianVelocityProfileSafetyViolation"; "JointPositionMotionGeneratorStartPoseInvalid";
  "JointMotionGeneratorPositionLimitsViolation"; "JointMotionGeneratorVelocityLimitsViolation";
  "JointMotionGeneratorVelocityDiscontinuity"; "JointMotionGeneratorAccelerationDiscontinuity";
  "CartesianPositionMotionGeneratorStartPoseInvalid"; "CartesianMotionGeneratorElbowLimitViolation";
  "CartesianMotionGeneratorVelocityLimitsViolation"; "CartesianMotionGeneratorVelocityDiscontinuity";
  "CartesianMotionGeneratorAccelerationDiscontinuity"; "CartesianMotionGeneratorElbowSignInconsistent";
  "CartesianMotionGeneratorStartElbowInvalid"; "ForceControllerDesiredForceToleranceViolation";
  "StartElbowSignInconsistent"; "CommunicationConstraintsViolation"; "PowerLimitViolation";
  "CartesianMotionGeneratorJointPositionLimitsViolation"; "CartesianMotionGeneratorJointVelocityLimitsViolation";
  "CartesianMotionGeneratorJointVelocityDiscontinuity"; "CartesianMotionGeneratorJointAccelerationDiscontinuity";
  "CartesianPositionMotionGeneratorInvalidFrame"; "ControllerTorqueDiscontinuity";
  "JointP2PInsufficientTorqueForPlanning"; "TauJRangeViolation"; "InstabilityDetection";
  "JointMoveInWrongDirection"; "CartesianSplineViolation"; "JointViaPlanLimitViolation";
  "BaseAccelerationInitializationTimeout"; "BaseAccelerationInvalidReading"]%string.
(** The names whose flag is set, in order. *)
Fixpoint selected (flags : list bool) (names : list string) : list string :=
  match flags, names with
  | f :: fs, n :: ns => if f then n :: selected fs ns else selected fs ns
  | _, _ => []
  end.
(** The textual form of a list of names: [A, B, C] with every name in double quotes. *)
Definition in_quotes (n : string) : string := (String (Ascii.ascii_of_nat 34) (n ++ String (Ascii.ascii_of_nat 34) ""))%string.
Definition bracketed (names : list string) : string := ("[" ++ String.concat ", " (map in_quotes names) ++ "]")%string.

Lemma names_ok : forall i e, error_of_code i = Some e -> nth_error protocol_names i = Some (error_name e) /\ error_code e = i.
Proof.
  intros i e. do 41 (destruct i as [|i]; [intros [= <-]; split; reflexivity|]). discriminate.
Qed.
Lemma code_ok : forall e, error_of_code (error_code e) = Some e.
Proof. destruct e; reflexivity. Qed.
Lemma code_some : forall i, i < 41 -> exists e, error_of_code i = Some e.
Proof. intros i H. do 41 (destruct i as [|i]; [eexists; reflexivity|]). lia. Qed.

Lemma errors_from_spec : forall flags i, i + List.length flags <= 41 ->
  exists es, errors_from i flags = Some es /\
    map error_name es = selected flags (skipn i protocol_names) /\
    Forall (fun e => i <= error_code e) es /\ StronglySorted lt (map error_code es) /\
    forall e, In e es <-> i <= error_code e /\ nth_error flags (error_code e - i) = Some true.
Proof.
  induction flags as [|f flags IH]; intros i H; cbn [List.length] in H.
  - exists []. cbn. repeat split; try constructor; try easy. intros [_ E]. destruct (error_code e - i); discriminate.
  - destruct (IH (S i)) as (es & E & N & F & S & In_); [lia|]. cbn [errors_from]. rewrite E.
    destruct (code_some i) as [e Ee]; [lia|]. rewrite Ee. destruct (names_ok i e Ee) as [Nn C].
    assert (Sk : skipn i protocol_names = error_name e :: skipn (Datatypes.S i) protocol_names).
    { clear -Nn. revert Nn. generalize protocol_names. induction i as [|i IHi]; intros [|a l]; cbn; try discriminate; [congruence|apply IHi]. }
    rewrite Sk. destruct f; cbn [selected].
    + exists (e :: es). cbn [map]. rewrite N. split; [reflexivity|]. split; [reflexivity|]. split.
      * constructor; [lia|]. eapply Forall_impl; [|exact F]. cbn. intros; lia.
      * split.
        -- constructor; [exact S|]. rewrite C. clear -F. induction F; cbn; constructor; auto.
        -- intros x. cbn [In]. rewrite In_. split.
           ++ intros [<-|[A B]]; [rewrite C, Nat.sub_diag; auto|]. split; [lia|].
              replace (error_code x - i) with (Datatypes.S (error_code x - Datatypes.S i)) by lia. exact B.
           ++ intros [A B]. destruct (Nat.eq_dec (error_code x) i) as [Q|Q].
              ** left. pose proof (code_ok x) as K. rewrite Q, Ee in K. congruence.
              ** right. split; [lia|]. replace (error_code x - i) with (Datatypes.S (error_code x - Datatypes.S i)) in B by lia. exact B.
    + exists es. split; [reflexivity|]. split; [exact N|]. split; [eapply Forall_impl; [|exact F]; cbn; intros; lia|].
      split; [exact S|]. intros x. rewrite In_. split.
      * intros [A B]. split; [lia|]. replace (error_code x - i) with (Datatypes.S (error_code x - Datatypes.S i)) by lia. exact B.
      * intros [A B]. destruct (Nat.eq_dec (error_code x) i) as [Q|Q].
        -- exfalso. rewrite Q, Nat.sub_diag in B. discriminate.
        -- split; [lia|]. replace (error_code x - i) with (Datatypes.S (error_code x - Datatypes.S i)) in B by lia. exact B.
Qed.

(** For every pair of flag arrays of the protocol (32 and 9): there is no panic, and the set has
    exactly the errors whose flag is set, in protocol order without repetition. *)
Theorem C39_exact : forall a b, List.length a = 32 -> List.length b = 9 ->
  exists es, franka_errors a b = Some es /\
    map error_name es = selected (a ++ b) protocol_names /\
    (forall e, In e es <-> nth_error (a ++ b) (error_code e) = Some true) /\
    StronglySorted lt (map error_code es) /\ NoDup es.
Proof.
  intros a b La Lb. destruct (errors_from_spec (a ++ b) 0) as (es & E & N & _ & S & In_).
  { rewrite app_length. lia. }
  exists es. split; [exact E|]. split; [exact N|]. split; [|split; [exact S|]].
  - intros e. rewrite In_, Nat.sub_0_r. split; [intros [_ H]; exact H|intros H; split; [lia|exact H]].
  - assert (ND : NoDup (map error_code es)).
    { clear -S. induction S as [|x l S IH F]; constructor; [|exact IH]. intros H. rewrite Forall_forall in F.
      specialize (F x H). lia. }
    clear -ND. induction es as [|e es IH]; [constructor|]. cbn in ND. inversion ND; subst. constructor; [|auto].
    intros H. apply H1. apply in_map. exact H.
Qed.
Print Assumptions C39_exact.

(** Every flag of the arrays has an error: none is lost. *)
Theorem C39_every_flag : forall a b i, List.length a = 32 -> List.length b = 9 ->
  nth_error (a ++ b) i = Some true -> exists e es, error_code e = i /\ franka_errors a b = Some es /\ contains es e = true /\
    nth_error protocol_names i = Some (error_name e).
Proof.
  intros a b i La Lb H. assert (Li : i < 41).
  { assert (i < List.length (a ++ b)) by (apply nth_error_Some; congruence). rewrite app_length in *. lia. }
  destruct (code_some i Li) as [e Ee]. destruct (names_ok i e Ee) as [N C].
  destruct (C39_exact a b La Lb) as (es & E & _ & In_ & _). exists e, es. split; [exact C|]. split; [exact E|]. split; [|exact N].
  unfold contains. apply existsb_exists. exists e. split; [apply In_; rewrite C; exact H|]. apply Nat.eqb_refl.
Qed.
Print Assumptions C39_every_flag.

(** [contains] (errors.rs 43-45) tells the truth. *)
Theorem C39_contains : forall a b es e, List.length a = 32 -> List.length b = 9 -> franka_errors a b = Some es ->
  (contains es e = true <-> nth_error (a ++ b) (error_code e) = Some true).
Proof.
  intros a b es e La Lb E. destruct (C39_exact a b La Lb) as (es' & E' & _ & In_ & _). rewrite E in E'. injection E' as <-.
  rewrite <- In_. unfold contains. rewrite existsb_exists. unfold error_eqb. split.
  - intros (x & Hx & Q). apply Nat.eqb_eq in Q. pose proof (code_ok e) as K1. rewrite Q, code_ok in K1. congruence.
  - intros H. exists e. split; [exact H|apply Nat.eqb_refl].
Qed.
Print Assumptions C39_contains.

Lemma str_app_assoc : forall a b c : string, ((a ++ b) ++ c = a ++ (b ++ c))%string.
Proof. induction a; intros; cbn; [reflexivity|]. rewrite IHa. reflexivity. Qed.
Lemma display_items_text : forall es, es <> [] -> display_items es = (String.concat ", " (map in_quotes (map error_name es)) ++ "]")%string.
Proof.
  induction es as [|e es IH]; intros H; [contradiction H; reflexivity|]. destruct es as [|e2 es].
  - cbn [display_items map String.concat]. unfold dquote, in_quotes. cbn [append]. rewrite !str_app_assoc. reflexivity.
  - change (display_items (e :: e2 :: es)) with (dquote ++ error_name e ++ dquote ++ ", " ++ display_items (e2 :: es))%string.
    rewrite IH by discriminate. cbn [map].
    change (String.concat ", " (in_quotes (error_name e) :: in_quotes (error_name e2) :: map in_quotes (map error_name es)))
      with (in_quotes (error_name e) ++ ", " ++ String.concat ", " (in_quotes (error_name e2) :: map in_quotes (map error_name es)))%string.
    assert (Q : forall n r, (in_quotes n ++ r = dquote ++ n ++ dquote ++ r)%string).
    { intros n r. unfold in_quotes, dquote. cbn [append]. rewrite str_app_assoc. reflexivity. }
    rewrite str_app_assoc, Q, str_app_assoc. reflexivity.
Qed.

(** The text lists exactly the names of the set flags, provided there is at least one. *)
Theorem C39_text_partial : forall a b es, List.length a = 32 -> List.length b = 9 -> franka_errors a b = Some es ->
  es <> [] -> display_errors es = bracketed (selected (a ++ b) protocol_names).
Proof.
  intros a b es La Lb E H. destruct (C39_exact a b La Lb) as (es' & E' & N & _). rewrite E in E'. injection E' as <-.
  unfold display_errors, bracketed. rewrite <- N, display_items_text by exact H. reflexivity.
Qed.
Print Assumptions C39_text_partial.

(** Without any flag the closing bracket is missing (errors.rs 50-64). *)
Theorem C39_text_refuted : exists a b es, List.length a = 32 /\ List.length b = 9 /\ franka_errors a b = Some es /\
  display_errors es <> bracketed (selected (a ++ b) protocol_names).
Proof. exists (repeat false 32), (repeat false 9), []. repeat split. vm_compute. discriminate. Qed.
Print Assumptions C39_text_refuted.

Example C39_ex : (* flags 0, 6 and 40 *)
  let a := true :: repeat false 5 ++ true :: repeat false 25 in
  let b := repeat false 8 ++ [true] in
  List.length a = 32 /\ List.length b = 9 /\
  franka_errors a b = Some [JointPositionLimitsViolation; JointReflex; BaseAccelerationInvalidReading] /\
  selected (a ++ b) protocol_names = ["JointPositionLimitsViolation"; "JointReflex"; "BaseAccelerationInvalidReading"]%string.
Proof. vm_compute. auto. Qed.
