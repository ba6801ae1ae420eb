(** C74: the example programs grasp_object and generate_consecutive_motions as a whole. *)
From Coq Require Import List NArith ZArith Bool Arith Lia String Reals Lra.
From Coq Require Import Init.Byte.
From Flocq Require Import Core IEEE754.BinarySingleNaN IEEE754.Binary IEEE754.Bits.
From Verif Require Import Bytes Codec NumOps NumFloat FloatFacts RateModel WireModel WireSpec TcpModel TcpProofs UdpModel UdpSpec UdpProofs
  RobotModel LoopModel RobotSpec RobotProofs RobotWp LoopProofs Effects RobotMore RobotCalls TypedModel TypedSpec ConvertFacts MotionModel
  JointMotionModel ExampleMotions PiBounds GripperModel StatusSpec GripperProofs ProgramModel LiveUdp LiveSpec LiveProofs RobotScenario
  Properties_Gripper Properties_GripperLive Properties_Commands Properties_Live ReplaySpec ReplayProofs Outputs Properties_Convert Properties_Replay.
Import ListNotations.
Open Scope list_scope.
Open Scope N_scope.

(** * grasp_object *)
(** The requests written so far, oldest first. *)
Definition asked (s : gst) : list gripper_request :=
  rev (flat_map (fun e => match e with GEvRequest _ r => [r] | _ => [] end) (g_trace s)).
(** Grasp an object of this width at 0.1 m/s with 60 N, default tolerances. *)
Definition grasp_request (width : N) : gripper_request := GReqGrasp width 0x3FB999999999999A 0x404E000000000000 None None.
Definition opening (port : N) (home : bool) : list gripper_request := GReqConnect port :: if home then [GReqHoming] else [].
Definition whole (port : N) (home : bool) (width : N) : list gripper_request := opening port home ++ [grasp_request width; GReqStop].
(** A state sent during this part of the schedule. *)
Definition shows (used : sched) (x : gripper_state_intern) : Prop :=
  exists d, In d (arrived used) /\ deserialize c_gripper_state (firstn 23 (d_data d)) = Some x.
(** Numbers which are less, as IEEE-754 has it. *)
Definition less (a b : N) : Prop := b64_compare (of_bits a) (of_bits b) = Some Lt.

(** Requests are sent in this order; the width of the fingers in a state sent before the object is
    grasped decides whether it is tried at all, a state sent after that whether the object is released. *)
Record grasp_spec (port : N) (home : bool) (width : N) (us : sched) (o : outcome grasp_end) (reqs : list gripper_request) : Prop := {
  gsp_order : exists later, whole port home width = reqs ++ later;
  gsp_fits : In (grasp_request width) reqs ->
    exists u1 rest x1, us = u1 ++ rest /\ shows u1 x1 /\ ~ less (gs_max_width x1) width;
  gsp_holds : In GReqStop reqs ->
    exists u1 u2 rest x1 x2, us = u1 ++ u2 ++ rest /\ shows u1 x1 /\ ~ less (gs_max_width x1) width /\ shows u2 x2 /\ gs_is_grasped x2 = true;
  gsp_end : match o with
    | Ok Released => reqs = whole port home width
    | Ok TooLarge => reqs = opening port home /\ exists u1 rest x1, us = u1 ++ rest /\ shows u1 x1 /\ less (gs_max_width x1) width
    | Ok ObjectLost => reqs = opening port home ++ [grasp_request width] /\
        exists u1 u2 rest x1 x2, us = u1 ++ u2 ++ rest /\ shows u1 x1 /\ ~ less (gs_max_width x1) width /\ shows u2 x2 /\ gs_is_grasped x2 = false
    | OutOfFuel => False
    | _ => True
    end
}.

Lemma asked_request : forall r s o s', g_exchange r s = (o, s') -> asked s' = asked s ++ [r] /\ g_usched s' = g_usched s /\ g_udp s' = g_udp s.
Proof.
  intros r s o s'. unfold g_exchange. destruct (wait_loop (g_id s) (g_tsched s) (g_table s)) as [[[m|] tb] ts]; intros E; injection E as <- <-; auto.
Qed.
Lemma asked_action : forall r s o s', g_action r s = (o, s') ->
  o <> OutOfFuel /\ asked s' = asked s ++ [r] /\ g_usched s' = g_usched s /\ g_udp s' = g_udp s.
Proof.
  intros r s o s'. unfold g_action. destruct (g_exchange r s) as [m s1] eqn:X. pose proof (asked_request _ _ _ _ X) as A.
  destruct m as [m|]; [destruct (deserialize c_gr_response m) as [[h []]|]|]; cbn [handle_response_status]; intros E; injection E as <- <-;
    (split; [discriminate|exact A]).
Qed.
Lemma asked_connect : forall port s o s', connect_gripper port s = (o, s') ->
  o <> OutOfFuel /\ asked s' = asked s ++ [GReqConnect port] /\ g_usched s' = g_usched s /\ g_udp s' = g_udp s.
Proof.
  intros port s o s'. unfold connect_gripper. destruct (g_exchange (GReqConnect port) s) as [m s1] eqn:X. pose proof (asked_request _ _ _ _ X) as A.
  destruct m as [m|]; [destruct (deserialize c_gr_connect_response m) as [[h [[] v]]|]|]; intros E; injection E as <- <-; (split; [discriminate|exact A]).
Qed.
Lemma asked_read : forall s o s', noticed (g_udp s) -> full 23 (arrived (g_usched s)) -> g_read_once s = (o, s') ->
  o <> OutOfFuel /\ asked s' = asked s /\ exists used, g_usched s = used ++ g_usched s' /\ noticed (g_udp s') /\
    (forall g, o = Ok g -> exists x, shows used x /\ gr_max_width g = gs_max_width x /\ gr_is_grasped g = gs_is_grasped x).
Proof.
  intros s o s' H F E. unfold g_read_once in E. destruct (read_fresh_spec 23 (deserialize c_gripper_state) (g_udp s) (g_usched s) H) as (r & u & sc & used & R & U & N & _).
  pose proof R as R0. rewrite R0 in E. destruct r as [x| | |n|]; injection E as <- <-; (split; [discriminate|]); (split; [reflexivity|]).
  - destruct (read_fresh_single 23 (deserialize c_gripper_state) (g_udp s) (g_usched s) x u sc H R F) as (used' & d & U' & I & D).
    exists used'. cbn [g_usched g_udp]. split; [exact U'|]. split; [exact N|]. intros g E. injection E as <-. exists x. split; [exists d; auto|]. auto.
  - exists used. cbn [g_usched g_udp]. split; [exact U|]. split; [exact N|]. discriminate.
  - exists used. cbn [g_usched g_udp]. split; [exact U|]. split; [exact N|]. discriminate.
  - exists used. cbn [g_usched g_udp]. split; [exact U|]. split; [exact N|]. discriminate.
  - exists used. cbn [g_usched g_udp]. split; [exact U|]. split; [exact N|]. discriminate.
Qed.
Lemma less_is : forall a b, if f_lt float (of_bits a) (of_bits b) then less a b else ~ less a b.
Proof.
  intros a b. unfold less. change (f_lt float (of_bits a) (of_bits b)) with (b64_lt (of_bits a) (of_bits b)). unfold b64_lt.
  destruct (b64_compare (of_bits a) (of_bits b)) as [[]|]; try discriminate. reflexivity.
Qed.
Lemma grasp_numbers : forall width, GReqGrasp width (bits (f_lit float 1 10)) (bits (f_int float 60)) None None = grasp_request width.
Proof. intros width. unfold grasp_request. replace (bits (f_lit float 1 10)) with 0x3FB999999999999A by (vm_compute; reflexivity). replace (bits (f_int float 60)) with 0x404E000000000000 by (vm_compute; reflexivity). reflexivity. Qed.

(** * C74 *)
Theorem C74_grasp_object : forall port home width us ts o s', full 23 (arrived us) ->
  grasp_object port home width (gst_init us ts) = (o, s') -> grasp_spec port home width us o (asked s').
Proof.
  intros port home width us ts o s' F E. unfold grasp_object, g_try, grasp in E. rewrite grasp_numbers in E.
  assert (NG : ~ In (grasp_request width) (opening port home)) by (unfold opening; destruct home; cbn; intuition discriminate).
  assert (NS : ~ In GReqStop (opening port home ++ [grasp_request width])) by (unfold opening; destruct home; cbn; intuition discriminate).
  assert (NS' : ~ In GReqStop (opening port home)) by (intros I; apply NS, in_or_app; auto).
  assert (Early : forall later reqs o, opening port home = reqs ++ later -> match o with Ok _ | OutOfFuel => False | _ => True end -> grasp_spec port home width us o reqs).
  { intros later reqs o0 P O. constructor.
    - exists (later ++ [grasp_request width; GReqStop]). unfold whole. rewrite P, app_assoc. reflexivity.
    - intros I. contradiction NG. rewrite P. apply in_or_app. auto.
    - intros I. contradiction NS'. rewrite P. apply in_or_app. auto.
    - destruct o0; auto; contradiction. }
  destruct (connect_gripper port (gst_init us ts)) as [o0 s0] eqn:E0. destruct (asked_connect _ _ _ _ E0) as (O0 & A0 & U0 & P0). cbn [gst_init g_usched g_udp] in U0, P0.
  change (asked (gst_init us ts)) with (@nil gripper_request) in A0. cbn [app] in A0.
  destruct o0 as [[]|e|p| |]; try (exfalso; apply O0; reflexivity);
    [|injection E as <- <-; apply (Early (if home then [GReqHoming] else [])); [rewrite A0; reflexivity|exact Logic.I]..].
  assert (H : exists o1 s1, (if home then homing s0 else (Ok true, s0)) = (o1, s1) /\ o1 <> OutOfFuel /\ asked s1 = opening port home /\ g_usched s1 = us /\ g_udp s1 = udp_init).
  { destruct home.
    - destruct (homing s0) as [o1 s1] eqn:E1. destruct (asked_action _ _ _ _ E1) as (O1 & A1 & U1 & P1). exists o1, s1. split; [reflexivity|]. split; [exact O1|].
      split; [rewrite A1, A0; reflexivity|]. split; congruence.
    - exists (Ok true), s0. split; [reflexivity|]. split; [discriminate|]. auto. }
  destruct H as (o1 & s1 & E1 & O1 & A1 & U1 & P1). rewrite E1 in E.
  destruct o1 as [b|e|p| |]; try (exfalso; apply O1; reflexivity);
    [|injection E as <- <-; apply (Early []); [rewrite A1, app_nil_r; reflexivity|exact Logic.I]..].
  assert (N1 : noticed (g_udp s1)) by (rewrite P1; intros C; contradiction C; reflexivity).
  destruct (g_read_once s1) as [o2 s2] eqn:E2. rewrite <- U1 in F. destruct (asked_read _ _ _ N1 F E2) as (O2 & A2 & used1 & U2 & N2 & X2). rewrite U1 in U2.
  destruct o2 as [g1|e|p| |]; try (exfalso; apply O2; reflexivity);
    [|injection E as <- <-; apply (Early []); [rewrite A2, A1, app_nil_r; reflexivity|exact Logic.I]..].
  destruct (X2 g1 eq_refl) as (x1 & Sh1 & W1 & _). rewrite W1 in E. pose proof (less_is (gs_max_width x1) width) as L.
  destruct (f_lt float (of_bits (gs_max_width x1)) (of_bits width)).
  { injection E as <- <-. rewrite A2, A1. constructor.
    - exists [grasp_request width; GReqStop]. reflexivity.
    - intros I. contradiction (NG I).
    - intros I. contradiction (NS' I).
    - split; [reflexivity|]. exists used1, (g_usched s2), x1. auto. }
  assert (Fits : exists u1 rest x1, us = u1 ++ rest /\ shows u1 x1 /\ ~ less (gs_max_width x1) width) by (exists used1, (g_usched s2), x1; auto).
  assert (Late : forall o, match o with Ok _ | OutOfFuel => False | _ => True end -> grasp_spec port home width us o (opening port home ++ [grasp_request width])).
  { intros o3 O3. constructor.
    - exists [GReqStop]. unfold whole. rewrite <- app_assoc. reflexivity.
    - intros _. exact Fits.
    - intros I. contradiction (NS I).
    - destruct o3; auto; contradiction. }
  destruct (g_action (grasp_request width) s2) as [o3 s3] eqn:E3. destruct (asked_action _ _ _ _ E3) as (O3 & A3 & U3 & P3). rewrite A2, A1 in A3.
  destruct o3 as [b3|e|p| |]; try (exfalso; apply O3; reflexivity);
    [|injection E as <- <-; rewrite A3; apply Late; exact Logic.I..].
  assert (N3 : noticed (g_udp s3)) by (rewrite P3; exact N2).
  assert (F3 : full 23 (arrived (g_usched s3))).
  { rewrite U3. rewrite U1, U2, arrived_app in F. apply Forall_app in F. apply F. }
  destruct (g_read_once s3) as [o4 s4] eqn:E4. destruct (asked_read _ _ _ N3 F3 E4) as (O4 & A4 & used2 & U4 & N4 & X4).
  destruct o4 as [g2|e|p| |]; try (exfalso; apply O4; reflexivity);
    [|injection E as <- <-; rewrite A4, A3; apply Late; exact Logic.I..].
  destruct (X4 g2 eq_refl) as (x2 & Sh2 & _ & W2). rewrite W2 in E. rewrite U3 in U4.
  destruct (gs_is_grasped x2) eqn:G; cbn [negb] in E.
  - assert (Holds : exists u1 u2 rest x1 x2, us = u1 ++ u2 ++ rest /\ shows u1 x1 /\ ~ less (gs_max_width x1) width /\ shows u2 x2 /\ gs_is_grasped x2 = true).
    { exists used1, used2, (g_usched s4), x1, x2. rewrite <- U4. auto. }
    unfold gripper_stop in E. destruct (g_action GReqStop s4) as [o5 s5] eqn:E5. destruct (asked_action _ _ _ _ E5) as (O5 & A5 & _ & _).
    rewrite A4, A3, <- app_assoc in A5. change (asked s5 = whole port home width) in A5.
    assert (Es : s' = s5) by (destruct o5; congruence). subst s5. constructor.
    + exists []. rewrite A5, app_nil_r. reflexivity.
    + intros _. exact Fits.
    + intros _. exact Holds.
    + destruct o5; try (exfalso; apply O5; reflexivity); injection E as <-; auto.
  - injection E as <- <-. rewrite A4, A3. constructor.
    + exists [GReqStop]. unfold whole. rewrite <- app_assoc. reflexivity.
    + intros _. exact Fits.
    + intros I. contradiction (NS I).
    + split; [reflexivity|]. exists used1, used2, (g_usched s4), x1, x2. rewrite <- U4. auto.
Qed.
Print Assumptions C74_grasp_object.

(** For finite numbers [less] is the order of the numbers; nothing is less than a NaN. *)
Theorem C74_width : forall a b,
  (b64_fin (of_bits a) = true -> b64_fin (of_bits b) = true -> (less a b <-> (number a < number b)%R)) /\
  (b64_nan (of_bits b) = true -> ~ less a b).
Proof.
  intros a b. split.
  - intros Fa Fb. pose proof (lt_fin (of_bits a) (of_bits b) Fa Fb) as L. unfold b64_lt in L. unfold less, number.
    destruct (b64_compare (of_bits a) (of_bits b)) as [[]|]; destruct (Rlt_bool_spec (val (of_bits a)) (val (of_bits b))) as [H|H]; try discriminate L;
      split; intros X; try discriminate X; try reflexivity; try exact H; lra.
  - unfold less. destruct (of_bits b) as [s|s|s p e|s m e e0]; try discriminate. intros _. destruct (of_bits a); discriminate.
Qed.
Print Assumptions C74_width.
(** So an object whose width is not a number is never found to be too large. *)
Theorem C74_not_a_number : forall port home width us ts o s', full 23 (arrived us) -> b64_nan (of_bits width) = true ->
  grasp_object port home width (gst_init us ts) = (o, s') -> o <> Ok TooLarge.
Proof.
  intros port home width us ts o s' F N E ->. apply C74_grasp_object in E; [|exact F]. destruct (gsp_end _ _ _ _ _ _ E) as (_ & u1 & rest & x1 & _ & _ & L).
  exact (proj2 (C74_width _ _) N L).
Qed.
Print Assumptions C74_not_a_number.

(** With a gripper which answers, the end is decided by its answers: only the statuses Fail and Aborted
    end the program with an error; Unsuccessful does not. *)
Definition fails (st : gr_status) : option string :=
  match st with
  | GrFail => Some "libfranka-rs gripper: Command failed!"%string
  | GrAborted => Some "libfranka-rs gripper: Command aborted!"%string
  | _ => None
  end.
Definition calls_of (home : bool) (width : N) : list gcall :=
  (if home then [GHoming] else []) ++ [GRead; GGrasp width 0x3FB999999999999A 0x404E000000000000 None None; GRead; GStop].
Definition answers_of (home : bool) (h g r : gr_status) (x1 x2 : gripper_state) : list gresult :=
  (if home then [Moved (meaning h)] else []) ++ [Seen (Ok x1); Moved (meaning g); Seen (Ok x2); Moved (meaning r)].
Inductive ends (width : N) (home : bool) (h g r : gr_status) (x1 x2 : gripper_state) : outcome grasp_end -> Prop :=
| ends_homing : forall m, home = true -> fails h = Some m -> ends width home h g r x1 x2 (Err (CommandException m))
| ends_large : (home = true -> fails h = None) -> less (gr_max_width x1) width -> ends width home h g r x1 x2 (Ok TooLarge)
| ends_grasp : forall m, (home = true -> fails h = None) -> ~ less (gr_max_width x1) width -> fails g = Some m -> ends width home h g r x1 x2 (Err (CommandException m))
| ends_lost : (home = true -> fails h = None) -> ~ less (gr_max_width x1) width -> fails g = None -> gr_is_grasped x2 = false ->
    ends width home h g r x1 x2 (Ok ObjectLost)
| ends_stop : forall m, (home = true -> fails h = None) -> ~ less (gr_max_width x1) width -> fails g = None -> gr_is_grasped x2 = true -> fails r = Some m ->
    ends width home h g r x1 x2 (Err (CommandException m))
| ends_released : (home = true -> fails h = None) -> ~ less (gr_max_width x1) width -> fails g = None -> gr_is_grasped x2 = true -> fails r = None ->
    ends width home h g r x1 x2 (Ok Released).
Lemma session_next : forall id c l us ts rs, gsession id (c :: l) us ts rs -> exists us1 us2 ts1 ts2 id' r rs', us = us1 ++ us2 /\ ts = ts1 ++ ts2 /\ rs = r :: rs' /\
  gserves id c us1 ts1 id' r /\ gsession id' l us2 ts2 rs'.
Proof. intros id c l us ts rs H. inversion H; subst. do 7 eexists. repeat (split; [reflexivity|]). eauto. Qed.
Lemma meaning_cases : forall st, match fails st with Some m => meaning st = Err (CommandException m) | None => exists b, meaning st = Ok b end.
Proof. intros []; cbn; eauto. Qed.
Theorem C74_grasp_live : forall port v home width h g r x1 x2 t us ts urest trest,
  answered c_gr_connect_response 0 (GrSuccess, v) t -> gsession 1 (calls_of home width) us ts (answers_of home h g r x1 x2) ->
  exists o s', grasp_object port home width (gst_init (us ++ urest) (t ++ ts ++ trest)) = (o, s') /\ ends width home h g r x1 x2 o.
Proof.
  intros port v home width h g r x1 x2 t us ts urest trest Co Se.
  destruct (C68_connect port v t (us ++ urest) (ts ++ trest) Co) as (s0 & E0 & R0 & I0).
  unfold grasp_object, g_try, grasp. rewrite grasp_numbers, E0.
  assert (Next : forall s us ts, gready (us ++ urest) (ts ++ trest) v s -> (home = true -> fails h = None) ->
    gsession (g_id s) [GRead; GGrasp width 0x3FB999999999999A 0x404E000000000000 None None; GRead; GStop] us ts
      [Seen (Ok x1); Moved (meaning g); Seen (Ok x2); Moved (meaning r)] ->
    exists o s', (match g_read_once s with
      | (Ok state, s) => if f_lt float (of_bits (gr_max_width state)) (of_bits width) then (Ok TooLarge, s) else
          match g_action (grasp_request width) s with
          | (Ok _, s) => match g_read_once s with
              | (Ok state, s) => if negb (gr_is_grasped state) then (Ok ObjectLost, s) else
                  match gripper_stop s with
                  | (Ok _, s) => (Ok Released, s) | (Err e, s) => (Err e, s) | (Panic p, s) => (Panic p, s) | (Blocked, s) => (Blocked, s) | (OutOfFuel, s) => (OutOfFuel, s)
                  end
              | (Err e, s) => (Err e, s) | (Panic p, s) => (Panic p, s) | (Blocked, s) => (Blocked, s) | (OutOfFuel, s) => (OutOfFuel, s)
              end
          | (Err e, s) => (Err e, s) | (Panic p, s) => (Panic p, s) | (Blocked, s) => (Blocked, s) | (OutOfFuel, s) => (OutOfFuel, s)
          end
      | (Err e, s) => (Err e, s) | (Panic p, s) => (Panic p, s) | (Blocked, s) => (Blocked, s) | (OutOfFuel, s) => (OutOfFuel, s)
      end) = (o, s') /\ ends width home h g r x1 x2 o).
  { clear s0 E0 R0 I0 us ts Se. intros s us ts R0 Hh Se.
    destruct (session_next _ _ _ _ _ _ Se) as (u1 & u1' & t1 & t1' & id1 & r1 & rs1 & -> & -> & Er & S1 & Se1). injection Er as <- <-.
    rewrite <- !app_assoc in R0. destruct (gserves_ok _ _ _ _ _ _ _ _ _ S1 R0) as (s1 & E1 & R1 & I1). subst id1.
    cbn [gresult_of] in E1. destruct (g_read_once s) as [o s1'] eqn:G1. injection E1 as -> ->.
    pose proof (less_is (gr_max_width x1) width) as L. destruct (f_lt float (of_bits (gr_max_width x1)) (of_bits width)).
    { do 2 eexists. split; [reflexivity|]. apply ends_large; assumption. }
    destruct (session_next _ _ _ _ _ _ Se1) as (u2 & u2' & t2 & t2' & id2 & r2 & rs2 & -> & -> & Er & S2 & Se2). injection Er as <- <-.
    rewrite <- !app_assoc in R1. destruct (gserves_ok _ _ _ _ _ _ _ _ _ S2 R1) as (s2 & E2 & R2 & I2). subst id2.
    cbn [gresult_of] in E2. unfold grasp in E2. change (GReqGrasp width 0x3FB999999999999A 0x404E000000000000 None None) with (grasp_request width) in E2.
    destruct (g_action (grasp_request width) s1) as [o2 s2'] eqn:G2. injection E2 as -> ->.
    pose proof (meaning_cases g) as Mg. destruct (fails g) as [m|] eqn:Fg.
    { rewrite Mg. do 2 eexists. split; [reflexivity|]. apply ends_grasp; assumption. }
    destruct Mg as [b ->].
    destruct (session_next _ _ _ _ _ _ Se2) as (u3 & u3' & t3 & t3' & id3 & r3 & rs3 & -> & -> & Er & S3 & Se3). injection Er as <- <-.
    rewrite <- !app_assoc in R2. destruct (gserves_ok _ _ _ _ _ _ _ _ _ S3 R2) as (s3 & E3 & R3 & I3). subst id3.
    cbn [gresult_of] in E3. destruct (g_read_once s2) as [o3 s3'] eqn:G3. injection E3 as -> ->.
    destruct (gr_is_grasped x2) eqn:Gr; cbn [negb].
    2:{ do 2 eexists. split; [reflexivity|]. apply ends_lost; assumption. }
    destruct (session_next _ _ _ _ _ _ Se3) as (u4 & u4' & t4 & t4' & id4 & r4 & rs4 & -> & -> & Er & S4 & Se4). injection Er as <- <-.
    rewrite <- !app_assoc in R3. destruct (gserves_ok _ _ _ _ _ _ _ _ _ S4 R3) as (s4 & E4 & R4 & I4). subst id4.
    cbn [gresult_of] in E4. destruct (gripper_stop s3) as [o4 s4'] eqn:G4. injection E4 as -> ->.
    pose proof (meaning_cases r) as Mr. destruct (fails r) as [m|] eqn:Fr.
    - rewrite Mr. do 2 eexists. split; [reflexivity|]. apply ends_stop; assumption.
    - destruct Mr as [b' ->]. do 2 eexists. split; [reflexivity|]. apply ends_released; assumption. }
  destruct home.
  - cbn [calls_of answers_of app] in Se. destruct (session_next _ _ _ _ _ _ Se) as (u1 & u1' & t1 & t1' & id1 & r1 & rs1 & -> & -> & Er & S1 & Se1). injection Er as <- <-.
    rewrite <- !app_assoc in R0. rewrite <- I0 in S1. destruct (gserves_ok _ _ _ _ _ _ _ _ _ S1 R0) as (s1 & E1 & R1 & I1). subst id1.
    cbn [gresult_of] in E1. destruct (homing s0) as [o s1'] eqn:G1. injection E1 as -> ->.
    pose proof (meaning_cases h) as Mh. destruct (fails h) as [m|] eqn:Fh.
    + rewrite Mh. do 2 eexists. split; [reflexivity|]. apply ends_homing; auto.
    + destruct Mh as [b ->]. apply (Next s1 u1' t1' R1); auto.
  - rewrite <- I0 in Se. apply (Next s0 us ts R0); [discriminate|exact Se].
Qed.
Print Assumptions C74_grasp_live.

(** An object of 0.05 m and fingers of 0.08 m: released after an unsuccessful homing; lost if the second state says so;
    an object of 0.1 m is too large; one of NaN m is grasped. *)
Definition ex_fingers (id : N) (grasped : bool) : dgram :=
  Dgram 1 (serialize c_gripper_state (GripperStateIntern id 0 (bits (f_lit float 8 100)) grasped 60)).
Definition ex_seen (id : N) (grasped : bool) : sched := [Tick [] false; Tick [ex_fingers id grasped] false; Tick [] false; Tick [] false].
Definition ex_grasping (width : N) (second : bool) : outcome grasp_end * gst :=
  grasp_object 1339 true width (gst_init (ex_seen 7 false ++ ex_seen 9 second)
    [Some (0, gconnected 0 3); Some (1, greply 1 1 2); None; Some (2, greply 2 2 0); Some (3, greply 4 3 0)]).
Example C74_ex_grasp :
  full 23 (arrived (ex_seen 7 false ++ ex_seen 9 true)) /\
  fst (ex_grasping (bits (f_lit float 5 100)) true) = Ok Released /\
  asked (snd (ex_grasping (bits (f_lit float 5 100)) true)) = whole 1339 true (bits (f_lit float 5 100)) /\
  fst (ex_grasping (bits (f_lit float 5 100)) false) = Ok ObjectLost /\
  fst (ex_grasping (bits (f_lit float 1 10)) true) = Ok TooLarge /\
  asked (snd (ex_grasping (bits (f_lit float 1 10)) true)) = [GReqConnect 1339; GReqHoming] /\
  b64_nan (of_bits 0x7FF8000000000000) = true /\ fst (ex_grasping 0x7FF8000000000000 true) = Ok Released /\
  In (grasp_request 0x7FF8000000000000) (asked (snd (ex_grasping 0x7FF8000000000000 true))).
Proof.
  split; [repeat constructor; vm_compute; repeat constructor|].
  do 7 (split; [vm_compute; reflexivity|]). vm_compute. auto.
Qed.

(** The hypotheses of [C74_grasp_live]: the session of C68 without its last call. *)
Example C74_ex_live : gsession 1 (calls_of true 3) ex_gus
  [None; Some (1, greply 1 1 0); Some (2, greply 2 2 2); None; None; Some (3, greply 4 3 0)]
  (answers_of true GrSuccess GrUnsuccessful GrSuccess (GripperState 4 5 true 60 7) (GripperState 4 5 true 60 12)) /\
  ends 3 true GrSuccess GrUnsuccessful GrSuccess (GripperState 4 5 true 60 7) (GripperState 4 5 true 60 12) (Ok Released).
Proof.
  split.
  - assert (A : forall n id b status, (exists h, deserialize c_gr_response b = Some (h, status)) ->
      answered c_gr_response id status (repeat None n ++ [Some (id, b)])).
    { intros n id b status [h E]. exists n, b, h. auto. }
    apply (gsession_call 1 GHoming [] [None; Some (1, greply 1 1 0)] 2 _ _ ex_gus).
    { apply (gserves_action 1 GHoming GrSuccess); [discriminate|]. apply (A 1%nat). eexists. vm_compute. reflexivity. }
    apply (gsession_call 2 GRead ex_gus1 [] 2 _ _ ex_gus2).
    { apply (gserves_read 2 [] (ex_gstate 7) [Tick [] false]); [constructor|]. apply (ex_gburst [] 7); [constructor|split; vm_compute; reflexivity]. }
    apply (gsession_call 2 (GGrasp 3 0x3FB999999999999A 0x404E000000000000 None None) [] [Some (2, greply 2 2 2)] 3).
    { apply (gserves_action 2 _ GrUnsuccessful); [discriminate|]. apply (A 0%nat). eexists. vm_compute. reflexivity. }
    apply (gsession_call 3 GRead ex_gus2 [] 3 _ _ []).
    { apply (gserves_read 3 [ex_gstate 10] (ex_gstate 12)
        [Tick [ex_gdg 8; ex_gdg 9] false; Tick [] false; Tick [] false; Tick [ex_gdg 10] false; Tick [] false; Tick [] false; Tick [] false]).
      - apply (polled_next _ _ [ex_gdg 8; ex_gdg 9] false [] false
          [Tick [] false; Tick [ex_gdg 10] false; Tick [] false; Tick [] false] (map ex_gdg [8; 9; 10]) (ex_gstate 10) [] [Tick [] false]);
          [discriminate|repeat (eapply emptied_next; [reflexivity|]); constructor|apply (ex_gends [8; 9] 10); repeat constructor; vm_compute; reflexivity|constructor].
      - apply (ex_gburst [11] 12); repeat constructor; vm_compute; reflexivity. }
    apply (gsession_call 3 GStop [] [None; None; Some (3, greply 4 3 0)] 4 _ _ [] []); [|constructor].
    apply (gserves_action 3 _ GrSuccess); [discriminate|]. apply (A 2%nat). eexists. vm_compute. reflexivity.
  - apply ends_released; try reflexivity. unfold less. vm_compute. discriminate.
Qed.

(** * generate_consecutive_motions *)
(** Requests of a part of the history, oldest first. *)
Definition in_order_asked (d : list event) : list robot_request := rev (requests d).
(** A joint velocity motion with the internal joint impedance controller. *)
Definition motion_request (q : robot_request) : Prop := exists d1 d2, q = ReqMove McJointImpedance MmJointVelocity d1 d2.
Definition cancelled (l : list robot_request) : Prop := l = [] \/ l = [ReqStopMove].
(** A motion which went well; one which did not, and error recovery; a motion or recovery after which the program ended. *)
Inductive settled : list robot_request -> Prop :=
| settled_done : forall q, motion_request q -> settled [q]
| settled_recovered : forall q c, motion_request q -> cancelled c -> settled (q :: c ++ [ReqAutomaticErrorRecovery]).
Inductive broken : list robot_request -> Prop :=
| broken_start : broken []
| broken_motion : forall q c, motion_request q -> cancelled c -> broken (q :: c)
| broken_recovery : forall q c, motion_request q -> cancelled c -> broken (q :: c ++ [ReqAutomaticErrorRecovery]).
(** What is sent before: defaults, collision limits, the motion to the start. *)
Definition prepares (port : N) (l : list robot_request) : Prop := exists a b d1 d2,
  a = [ReqSetCollisionBehavior (repeat f64_20 7) (repeat f64_20 7) (repeat f64_10 7) (repeat f64_10 7) (repeat f64_20 6) (repeat f64_20 6) (repeat f64_10 6) (repeat f64_10 6);
       ReqSetJointImpedance [f64_3000; f64_3000; f64_3000; f64_2500; f64_2500; f64_2000; f64_2000];
       ReqSetCartesianImpedance [f64_3000; f64_3000; f64_3000; f64_300; f64_300; f64_300]] /\
  b = (let joints := [0x4024000000000000; 0x4024000000000000; 0x4022000000000000; 0x4022000000000000; 0x4018000000000000; 0x401C000000000000; 0x4018000000000000] in
       let forces := [0x4024000000000000; 0x4024000000000000; 0x4024000000000000; 0x4029000000000000; 0x4029000000000000; 0x4029000000000000] in
       ReqSetCollisionBehavior joints joints joints joints forces forces forces forces) /\
  l = ReqConnect port :: a ++ [b; ReqMove McJointImpedance MmJointPosition d1 d2].

Lemma control_sends : forall k cb s, reachable s ->
  match control k cb s with
  | (Err (ControlException l t), s') =>
      requests (trace s') = ReqMove (wanted_ctrl k) (k_mode k) default_deviation default_deviation :: requests (trace s) \/
      requests (trace s') = ReqStopMove ::
        ReqMove (wanted_ctrl k) (k_mode k) default_deviation default_deviation :: requests (trace s)
  | _ => True
  end.
Proof.
  intros k cb s R. pose proof (control_requests k cb s R) as C. destruct (control k cb s) as [[u|e|p| |] s'] eqn:E; auto. destruct e as [log t| | | | | | |]; auto.
  destruct C as [C|C]; [|exact C]. exfalso. revert E. unfold control. unfold bind at 1.
  pose proof (wp_new_intern s (reachable_I s R)) as W. unfold wp in W.
  assert (T0 : requests (trace (snd (new_intern s))) = requests (trace s) /\ forall l t, fst (new_intern s) <> Err (ControlException l t)).
  { unfold new_intern, bind, get. destruct (r_rt s); [|split; [reflexivity|discriminate]]. cbn.
    destruct (k_realtime s); [destruct (k_priority s)|]; (split; [reflexivity|discriminate]). }
  destruct (new_intern s) as [[u|e|p| |] s0]; try contradiction; cbn [fst snd] in T0; destruct T0 as [T0 N0]; [|intros E; injection E as -> _; contradiction (N0 log t); reflexivity].
  unfold bind at 1. pose proof (wp_running s0 W) as Wr. unfold wp in Wr.
  assert (S : start_motion (wanted_ctrl k) (k_mode k) default_deviation default_deviation s0 = (Panic PStartWhileRunning, s0) \/
              requests (trace (snd (start_motion (wanted_ctrl k) (k_mode k) default_deviation default_deviation s0))) =
              ReqMove (wanted_ctrl k) (k_mode k) default_deviation default_deviation :: requests (trace s0)).
  { destruct (start_requests_I (wanted_ctrl k) (k_mode k) default_deviation default_deviation s0 W) as [H1 H2].
    destruct (motion_or_controller_running s0) as [[[]|e|q| |] s1]; try contradiction; destruct Wr as [_ Hb].
    - left. apply H1, Hb. reflexivity.
    - right. destruct H2 as (d & T & F); [intros Hr; apply Hb in Hr; discriminate|].
      rewrite T, requests_app, no_requests; [reflexivity|].
      eapply Forall_impl; [|exact F]. intros []; cbn; auto; contradiction. }
  assert (Len : List.length (requests (trace s')) = List.length (requests (trace s))) by (rewrite C; reflexivity).
  destruct (start_motion _ _ _ _ s0) as [[id|e|p| |] s1]; cbn [fst snd] in S; try discriminate; (destruct S as [S|S]; [discriminate S|]).
  - intros E. pose proof (run_loop_requests k id cb s1) as Q. destruct (do_loop k id cb s1) as [[u1|e|p| |] s2].
    + destruct Q as [Q _]. rewrite Q in E. discriminate E.
    + destruct Q as [Q (d & T & F & _)]. rewrite E in T. cbn [snd] in T. rewrite T, requests_app, app_length in Len. cbn [requests flat_map app List.length] in Len.
      change (List.length (flat_map _ (trace s2))) with (List.length (requests (trace s2))) in Len. rewrite Q, S, T0 in Len. cbn [List.length] in Len. lia.
    + destruct Q as [Q _]. rewrite Q in E. discriminate E.
    + destruct Q as [Q _]. rewrite Q in E. discriminate E.
    + destruct Q as [Q _]. rewrite Q in E. discriminate E.
  - intros E. injection E as _ <-. rewrite S, T0 in Len. cbn [List.length] in Len. lia.
Qed.

Lemma by_bits : forall x b, bits x = b -> x = of_bits b.
Proof. intros x b <-. symmetry. apply of_bits_bits. Qed.
Section Consecutive.
  Variable rots : rotations.
  Variables f_cos f_floor : F float -> F float.
  Variables f_powf f_fmod : F float -> F float -> F float.
  Let k := controller_of rots (consecutive_user f_cos f_floor f_powf f_fmod).
  Let start : k_cb k := consecutive_start f_cos f_floor f_powf f_fmod.
  (** Joints 4 to 7 at +-0.2/2 (1 - cos(2 pi / 4 * t)) rad/s, the sign changing every 4 s; 8 s. *)
  Definition wave (t : F float) : F float :=
    let op := f_div float in
    let period := of_bits 0x4010000000000000 in
    let sign := f_floor (f_powf (of_bits 0xBFF0000000000000) (op (f_sub float t (f_fmod t period)) period)) in
    f_mul float (op (f_mul float sign (of_bits 0x3FC999999999999A)) (of_bits 0x4000000000000000))
      (f_sub float (of_bits 0x3FF0000000000000) (f_cos (f_mul float (op (f_mul float (of_bits 0x4000000000000000) (of_bits 0x400921FB54442D18)) period) t))).
  Definition waving (t : F float) : list N := [0; 0; 0; bits (wave t); bits (wave t); bits (wave t); bits (wave t)].
  Definition over (t : F float) : bool := f_ge float t (of_bits 0x4020000000000000).
  (** The commands for these calls, after filter and limiter (100 Hz, on): the clock is the sum of the time steps. *)
  Fixpoint told (m : motion_command) (t : F float) (calls : list (robot_state_intern * N)) : list (motion_command * bool) :=
    match calls with
    | [] => []
    | (x, dt) :: rest =>
        let t := f_add float t (as_secs_f64 dt) in
        match convert_motion rots MmJointVelocity default_cutoff true (MotionOut (waving t) None (over t)) x m with
        | None => []
        | Some m' => (marked (mc_finished m) m', over t) :: told (marked (mc_finished m) m') t rest
        end
    end.
  (** The commands of a motion are those of [told] with the clock at zero when the motion starts. *)
  Definition afresh (d : list event) : Prop := rev (motion_outputs d) = told zero_motion (of_bits 0) (rev (motion_calls d)).
  Lemma answers_told : forall calls m t, answers k t m calls = told m t calls.
  Proof.
    induction calls as [|[x dt] calls IH]; intros m t; [reflexivity|].
    assert (E : k_motion k t x dt = Some (f_add float t (as_secs_f64 dt), MotionOut (waving (f_add float t (as_secs_f64 dt))) None (over (f_add float t (as_secs_f64 dt))))).
    { unfold k. cbn [controller_of k_motion consecutive_user u_motion]. unfold consecutive_motion, velocity_step. cbn [fst snd map].
      assert (Z : bits (f_int float 0) = 0) by (vm_compute; reflexivity). rewrite Z. clear Z. unfold waving, over, wave, speed.
      rewrite <- (by_bits (f_int float 4) 0x4010000000000000) by (vm_compute; reflexivity).
      rewrite <- (by_bits (f_neg float (f_int float 1)) 0xBFF0000000000000) by (vm_compute; reflexivity).
      rewrite <- (by_bits (f_lit float 2 10) 0x3FC999999999999A) by (vm_compute; reflexivity).
      rewrite <- (by_bits (f_int float 2) 0x4000000000000000) by (vm_compute; reflexivity).
      rewrite <- (by_bits (f_int float 1) 0x3FF0000000000000) by (vm_compute; reflexivity).
      rewrite <- (by_bits (f_pi float) 0x400921FB54442D18) by (vm_compute; reflexivity).
      rewrite <- (by_bits (f_mul float (f_int float 2) (f_int float 4)) 0x4020000000000000) by (vm_compute; reflexivity).
      reflexivity. }
    rewrite (answers_step _ _ _ _ _ _ _ _ E). cbn [told]. change (k_convert k) with (convert_motion rots MmJointVelocity default_cutoff true).
    destruct (convert_motion _ _ _ _ _ x m) as [m'|]; [|reflexivity]. cbn [controller_of k k_finished o_finished]. f_equal. apply IH.
  Qed.

  Lemma one_round : forall s r s', reachable s -> control k start s = (r, s') -> exists d, trace s' = d ++ trace s /\ afresh d /\ r <> OutOfFuel /\
    match r with
    | Ok _ => settled (in_order_asked d)
    | Err (ControlException _ _) => exists q c, motion_request q /\ cancelled c /\ in_order_asked d = q :: c
    | _ => broken (in_order_asked d)
    end.
  Proof.
    intros s r s' R E. destruct (C56_function_of_states k start s r s' eq_refl E) as (d & T & A & _). exists d. split; [exact T|].
    split; [unfold afresh; rewrite A, answers_told; unfold start, consecutive_start; rewrite (by_bits (f_int float 0) 0) by (vm_compute; reflexivity); reflexivity|].
    pose proof (wp_api (AControl k start) s (reachable_I s R)) as W. unfold wp in W. cbn [run_api] in W. rewrite E in W.
    pose proof (control_requests k start s R) as C. pose proof (control_sends k start s R) as C'. rewrite E in C, C'. rewrite T, requests_app in C, C'.
    set (q := ReqMove (wanted_ctrl k) (k_mode k) default_deviation default_deviation) in C, C'.
    assert (Q : motion_request q) by (exists default_deviation, default_deviation; reflexivity). clearbody q.
    assert (One : requests d ++ requests (trace s) = q :: requests (trace s) -> requests d = [q]) by (intros H; apply (app_inv_tail (requests (trace s))); exact H).
    assert (Two : requests d ++ requests (trace s) = ReqStopMove :: q :: requests (trace s) -> requests d = [ReqStopMove; q]) by (intros H; apply (app_inv_tail (requests (trace s))); exact H).
    assert (Nil : requests d ++ requests (trace s) = requests (trace s) -> requests d = []) by (intros H; apply (app_inv_tail (requests (trace s))); exact H).
    split; [intros ->; exact W|].
    assert (B : requests d ++ requests (trace s) = requests (trace s) \/ requests d ++ requests (trace s) = q :: requests (trace s) \/ requests d ++ requests (trace s) = ReqStopMove :: q :: requests (trace s) ->
      broken (in_order_asked d)).
    { unfold in_order_asked. intros [H|[H|H]]; [rewrite (Nil H); constructor|rewrite (One H)|rewrite (Two H)]; cbn [rev app].
      - apply (broken_motion q []); [exact Q|left; reflexivity].
      - apply (broken_motion q [ReqStopMove]); [exact Q|right; reflexivity]. }
    destruct r as [u|e|p| |]; auto.
    - unfold in_order_asked. rewrite (One C). apply settled_done, Q.
    - destruct e as [l t| | | | | | |]; auto. unfold in_order_asked. destruct C' as [H|H]; [rewrite (One H)|rewrite (Two H)].
      + exists q, []. split; [exact Q|]. split; [left; reflexivity|reflexivity].
      + exists q, [ReqStopMove]. split; [exact Q|]. split; [right; reflexivity|reflexivity].
  Qed.

  Lemma recovery_adds : forall s r s', automatic_error_recovery s = (r, s') -> exists d, trace s' = d ++ trace s /\ requests d = [ReqAutomaticErrorRecovery] /\
    motion_outputs d = [] /\ motion_calls d = [] /\ r <> OutOfFuel /\ (forall l t, r <> Err (ControlException l t)).
  Proof.
    intros s r s'. unfold automatic_error_recovery. unfold bind at 1, send_request at 1. unfold bind at 1, blocking_response at 1.
    unfold bind at 1, wait_response at 1. cbn [n_id n_tsched n_table set_id add_event].
    destruct (wait_loop (n_id s) (n_tsched s) (n_table s)) as [[[m|] tb] ts].
    - unfold unwrap. destruct (deserialize c_recovery_response m) as [[h st]|]; cbn [panic_with ret as_result snd]; [destruct st|]; cbn [handle_recovery as_result];
        intros E; injection E as <- <-; (exists [EvReply (n_id s) m; EvRequest (n_id s) ReqAutomaticErrorRecovery]); repeat split; discriminate.
    - intros E. injection E as <- <-. exists [EvRequest (n_id s) ReqAutomaticErrorRecovery]. repeat split; discriminate.
  Qed.

  Definition rounds_spec (n : nat) (before : list event) (r : outcome unit) (after : list event) : Prop :=
    exists rounds, after = List.concat rounds ++ before /\ Forall afresh rounds /\ (List.length rounds <= n)%nat /\ r <> OutOfFuel /\
    match r with
    | Ok _ => List.length rounds = n /\ Forall (fun d => settled (in_order_asked d)) rounds
    | _ => (forall l t, r <> Err (ControlException l t)) /\
        exists newest older, rounds = newest :: older /\ broken (in_order_asked newest) /\ Forall (fun d => settled (in_order_asked d)) older
    end.
  Lemma rounds_ok : forall n s r s', reachable s -> consecutive_rounds rots f_cos f_floor f_powf f_fmod n s = (r, s') -> rounds_spec n (trace s) r (trace s').
  Proof.
    induction n as [|n IH]; intros s r s' R E.
    - injection E as <- <-. exists []. repeat split; auto; discriminate.
    - cbn [consecutive_rounds] in E. fold k in E. fold start in E. destruct (control k start s) as [r1 s1] eqn:E1. destruct (one_round s r1 s1 R E1) as (d & T & A & O & D).
      assert (Next : forall d1, trace s1 = d1 -> True) by auto. clear Next.
      assert (More : forall s2 d2, reachable s2 -> trace s2 = d2 ++ trace s -> afresh d2 -> settled (in_order_asked d2) ->
        consecutive_rounds rots f_cos f_floor f_powf f_fmod n s2 = (r, s') -> rounds_spec (S n) (trace s) r (trace s')).
      { intros s2 d2 R2 T2 A2 D2 E2. destruct (IH s2 r s' R2 E2) as (rounds & Tr & Ar & Lr & Or & Mr). exists (rounds ++ [d2]).
        split; [rewrite concat_app, Tr, T2; cbn [List.concat]; rewrite app_nil_r, <- app_assoc; reflexivity|].
        split; [apply Forall_app; split; [exact Ar|constructor; [exact A2|constructor]]|]. rewrite app_length. cbn [List.length].
        split; [lia|]. split; [exact Or|].
        destruct r as [u|e|p| |].
        - destruct Mr as [M1 M2]. split; [lia|]. apply Forall_app. split; [exact M2|constructor; [exact D2|constructor]].
        - destruct Mr as (M0 & newest & older & -> & M1 & M2). split; [exact M0|]. exists newest, (older ++ [d2]). split; [reflexivity|]. split; [exact M1|].
          apply Forall_app. split; [exact M2|constructor; [exact D2|constructor]].
        - destruct Mr as (M0 & newest & older & -> & M1 & M2). split; [exact M0|]. exists newest, (older ++ [d2]). split; [reflexivity|]. split; [exact M1|].
          apply Forall_app. split; [exact M2|constructor; [exact D2|constructor]].
        - destruct Mr as (M0 & newest & older & -> & M1 & M2). split; [exact M0|]. exists newest, (older ++ [d2]). split; [reflexivity|]. split; [exact M1|].
          apply Forall_app. split; [exact M2|constructor; [exact D2|constructor]].
        - contradiction (Or eq_refl). }
      assert (Stop : forall r d2, r <> OutOfFuel -> trace s' = d2 ++ trace s -> afresh d2 -> broken (in_order_asked d2) -> match r with Ok _ => False | _ => True end ->
        (forall l t, r <> Err (ControlException l t)) -> rounds_spec (S n) (trace s) r (trace s')).
      { intros r2 d2 O2 T2 A2 D2 N2 X2. exists [d2]. cbn [List.concat List.length]. rewrite app_nil_r. split; [exact T2|]. split; [constructor; [exact A2|constructor]|].
        split; [lia|]. split; [exact O2|]. assert (G : exists newest older, [d2] = newest :: older /\ broken (in_order_asked newest) /\ Forall (fun d => settled (in_order_asked d)) older)
          by (exists d2, []; auto). destruct r2; try contradiction; auto. }
      assert (Fin : r = r1 -> s' = s1 -> match r1 with Ok _ | Err (ControlException _ _) => False | _ => True end -> rounds_spec (S n) (trace s) r (trace s')).
      { intros -> -> N. apply (Stop r1 d O T A); destruct r1 as [u|[l t| | | | | | |]|p| |]; try contradiction; auto; discriminate. }
      destruct r1 as [u|e|p| |]; try (injection E as <- <-; apply Fin; auto; fail).
      + apply (More s1 d); auto. apply (reach_ok s (AControl k start) u s1 R). exact E1.
      + destruct e as [l t| | | | | | |]; try (injection E as <- <-; apply Fin; auto; fail).
        assert (R1 : reachable s1) by (apply (reach_err s (AControl k start) (ControlException l t) s1 R); exact E1).
        destruct D as (q & c & Q & Cc & Dq). unfold bind at 1 in E. destruct (automatic_error_recovery s1) as [r2 s2] eqn:E2.
        destruct (recovery_adds s1 r2 s2 E2) as (d2 & T2 & Q2 & M2 & C2 & O2 & X2).
        assert (T' : trace s2 = (d2 ++ d) ++ trace s) by (rewrite T2, T, app_assoc; reflexivity).
        assert (A' : afresh (d2 ++ d)).
        { unfold afresh. rewrite outputs_app, M2. unfold motion_calls. rewrite flat_map_app. change (flat_map _ d2) with (motion_calls d2). rewrite C2. exact A. }
        assert (I' : in_order_asked (d2 ++ d) = q :: c ++ [ReqAutomaticErrorRecovery]).
        { unfold in_order_asked in *. rewrite requests_app, Q2, rev_app_distr, Dq. reflexivity. }
        destruct r2 as [u|e|p| |].
        * apply (More s2 (d2 ++ d)); [|exact T'|exact A'|rewrite I'; apply settled_recovered; assumption|exact E]. apply (reach_ok s1 ARecovery u s2 R1). exact E2.
        * injection E as <- <-. apply (Stop _ (d2 ++ d)); [discriminate|exact T'|exact A'|rewrite I'; apply broken_recovery; assumption|exact Logic.I|].
          intros l' t' X. apply (X2 l' t'). injection X as ->. reflexivity.
        * injection E as <- <-. apply (Stop _ (d2 ++ d)); [discriminate|exact T'|exact A'|rewrite I'; apply broken_recovery; assumption|exact Logic.I|discriminate].
        * injection E as <- <-. apply (Stop _ (d2 ++ d)); [discriminate|exact T'|exact A'|rewrite I'; apply broken_recovery; assumption|exact Logic.I|discriminate].
        * contradiction (O2 eq_refl).
  Qed.
End Consecutive.

Lemma setters_asked : forall rs s r s', setters rs s = (r, s') -> r <> OutOfFuel /\ exists sent rest, rs = sent ++ rest /\
  requests (trace s') = rev sent ++ requests (trace s) /\ (forall u, r = Ok u -> rest = []).
Proof.
  induction rs as [|q rs IH]; intros s r s' E.
  - injection E as <- <-. split; [discriminate|]. exists [], []. auto.
  - cbn [setters] in E. unfold bind in E. pose proof (setter_spec q s) as S. destruct (setter q s) as [[u|e|p| |] s1].
    + destruct S as (m & h & T & _ & _). destruct (IH s1 r s' E) as (O & sent & rest & -> & Q & N). split; [exact O|]. exists (q :: sent), rest.
      split; [reflexivity|]. split; [|exact N]. rewrite Q, T. cbn [rev requests flat_map app]. rewrite <- app_assoc. reflexivity.
    + injection E as <- <-. split; [discriminate|]. destruct S as (m & h & st & T & _). exists [q], rs. rewrite T. split; [reflexivity|]. split; [reflexivity|discriminate].
    + injection E as <- <-. split; [discriminate|]. exists [q], rs. split; [reflexivity|]. split; [exact S|discriminate].
    + injection E as <- <-. split; [discriminate|]. exists [q], rs. split; [reflexivity|]. split; [exact S|discriminate].
    + contradiction.
Qed.
Lemma connect_asked : forall port s r s', robot_new port s = (r, s') -> requests (trace s') = ReqConnect port :: requests (trace s) /\
  (fresh_handle s -> r <> OutOfFuel).
Proof.
  intros port s r s' E. split.
  - revert E. unfold robot_new. unfold bind at 1. unfold connect_robot. unfold bind at 1, send_request at 1. unfold bind at 1, blocking_response at 1.
    unfold bind at 1, wait_response at 1. cbn [n_id n_tsched n_table set_id add_event].
    destruct (wait_loop (n_id s) (n_tsched s) (n_table s)) as [[[m|] tb] ts]; [|intros E; injection E as <- <-; reflexivity].
    unfold unwrap. destruct (deserialize c_connect_response m) as [[h [st v]]|] eqn:D; [|intros E; injection E as <- <-; reflexivity].
    destruct st; cbn [ret fst snd modify throw]; [|intros E; injection E as <- <-; reflexivity].
    unfold udp_block. destruct (udp_blocking_receive _ _ _ _) as [[[x| | |n|] u1] sc]; intros E; injection E as <- <-; reflexivity.
  - intros H. pose proof (wp_robot_new port s H) as W. unfold wp in W. rewrite E in W. destruct r; try discriminate. contradiction.
Qed.

Definition prefix_of {A} (a l : list A) : Prop := exists rest, l = a ++ rest.
(** The last request so far was that of a joint motion to (0, -pi/4, 0, -3 pi/4, 0, pi/2, pi/4) at half speed: the commands sent since are
    the positions of the motion generator for the states received, after rate limiting. *)
Definition start_position : list N := [0; 0xBFE921FB54442D18; 0; 0xC002D97C7F3321D2; 0; 0x3FF921FB54442D18; 0x3FE921FB54442D18].
Definition approached (d : list event) : Prop := exists m before, d = m ++ before /\
  (exists d1 d2, requests m = [ReqMove McJointImpedance MmJointPosition d1 d2]) /\
  forall i c fin, nth_error (rev (motion_outputs m)) i = Some (c, fin) -> exists x dt q,
    nth_error (rev (motion_calls m)) i = Some (x, dt) /\
    nth_error (generate float (generator_new float (of_bits 0x3FE0000000000000) (map of_bits start_position)) (map as_call (rev (motion_calls m)))) i = Some (q, fin) /\
    limited_positions q x (mc_q_c c).
Lemma goal_numbers : consecutive_goal = start_position /\ bits (f_lit float 1 2) = 0x3FE0000000000000.
Proof. split; vm_compute; reflexivity. Qed.

(** The program ends before the first of the five motions (only possible with a failure), or all was prepared and the motions
    follow; [r] is what [main] gives. *)
Definition consecutive_spec (rots : rotations) (f_cos f_floor : F float -> F float) (f_powf f_fmod : F float -> F float -> F float)
  (port : N) (r : outcome unit) (t : list event) : Prop :=
  ((forall u, r <> Ok u) /\ r <> OutOfFuel /\
   exists l, prepares port l /\ (prefix_of (in_order_asked t) l \/ in_order_asked t = l ++ [ReqStopMove])) \/
  (exists d, prepares port (in_order_asked d) /\ approached d /\ rounds_spec rots f_cos f_floor f_powf f_fmod 5 d r t).

Lemma collision_numbers : consecutive_collision =
  (let joints := [0x4024000000000000; 0x4024000000000000; 0x4022000000000000; 0x4022000000000000; 0x4018000000000000; 0x401C000000000000; 0x4018000000000000] in
   let forces := [0x4024000000000000; 0x4024000000000000; 0x4024000000000000; 0x4029000000000000; 0x4029000000000000; 0x4029000000000000] in
   ReqSetCollisionBehavior joints joints joints joints forces forces forces forces).
Proof. vm_compute. reflexivity. Qed.
Theorem C74_consecutive : forall rots f_cos f_floor f_powf f_fmod port size rt us ts sends realtime priority r s',
  consecutive_motions rots f_cos f_floor f_powf f_fmod port (st_init size rt us ts sends realtime priority) = (r, s') ->
  consecutive_spec rots f_cos f_floor f_powf f_fmod port r (trace s').
Proof.
  intros rots f_cos f_floor f_powf f_fmod port size rt us ts sends realtime priority r s' E. unfold consecutive_motions in E. unfold bind at 1 in E.
  set (s0 := st_init size rt us ts sends realtime priority) in *.
  set (a := [ReqSetCollisionBehavior (repeat f64_20 7) (repeat f64_20 7) (repeat f64_10 7) (repeat f64_10 7) (repeat f64_20 6) (repeat f64_20 6) (repeat f64_10 6) (repeat f64_10 6);
       ReqSetJointImpedance [f64_3000; f64_3000; f64_3000; f64_2500; f64_2500; f64_2000; f64_2000];
       ReqSetCartesianImpedance [f64_3000; f64_3000; f64_3000; f64_300; f64_300; f64_300]]).
  set (mv := ReqMove McJointImpedance MmJointPosition default_deviation default_deviation).
  assert (P : prepares port (ReqConnect port :: a ++ [consecutive_collision; mv])).
  { exists a, consecutive_collision, default_deviation, default_deviation. split; [reflexivity|]. split; [exact collision_numbers|reflexivity]. }
  destruct (robot_new port s0) as [r1 s1] eqn:E1. destruct (connect_asked _ _ _ _ E1) as [Q1 O1]. specialize (O1 (init_fresh _ _ _ _ _ _ _)).
  change (requests (trace s0)) with (@nil robot_request) in Q1.
  assert (Early : forall r2 sent rest, r2 <> OutOfFuel -> (forall u, r2 <> Ok u) -> requests (trace s') = sent -> ReqConnect port :: a ++ [consecutive_collision; mv] = rev sent ++ rest ->
    consecutive_spec rots f_cos f_floor f_powf f_fmod port r2 (trace s')).
  { intros r2 sent rest O N Q S. left. split; [exact N|]. split; [exact O|]. eexists. split; [exact P|]. left. exists rest. unfold in_order_asked. rewrite Q. exact S. }
  destruct r1 as [u1|e|p| |]; [|injection E as <- <-; eapply (Early _ _ (a ++ [consecutive_collision; mv])); [discriminate|intros; discriminate|exact Q1|reflexivity]..|contradiction (O1 eq_refl)].
  assert (R1 : reachable s1) by (eapply reach_new; exact E1).
  unfold bind at 1 in E. destruct (set_default_behavior s1) as [r2 s2] eqn:E2. pose proof E2 as E2'. rewrite defaults_setters in E2'.
  destruct (setters_asked _ _ _ _ E2') as (O2 & sent & rest & S2 & Q2 & N2). fold a in S2. rewrite Q1 in Q2.
  destruct r2 as [u2|e|p| |]; [|injection E as <- <-; eapply (Early _ _ (rest ++ [consecutive_collision; mv])); [discriminate|intros; discriminate|exact Q2|rewrite S2, rev_app_distr, rev_involutive; cbn [rev app]; rewrite <- app_assoc; reflexivity]..|contradiction (O2 eq_refl)].
  rewrite (N2 u2 eq_refl), app_nil_r in S2. subst sent. clear N2 E2'.
  assert (R2 : reachable s2) by (apply (reach_ok s1 ADefaults u2 s2 R1 E2)).
  unfold bind at 1 in E. destruct (setter consecutive_collision s2) as [r3 s3] eqn:E3. assert (E3' : setters [consecutive_collision] s2 = (r3, s3)).
  { cbn [setters]. unfold bind. rewrite E3. destruct r3 as [[]| | | |]; reflexivity. }
  destruct (setters_asked _ _ _ _ E3') as (O3 & sent & rest' & S3 & Q3 & N3). rewrite Q2 in Q3.
  assert (S3' : sent ++ rest' = [consecutive_collision]) by (symmetry; exact S3).
  destruct r3 as [u3|e|p| |]; [|injection E as <- <-; eapply (Early _ _ (rest' ++ [mv])); [discriminate|intros; discriminate|exact Q3|rewrite !rev_app_distr, !rev_involutive; cbn [rev app]; rewrite <- app_assoc, (app_assoc sent), S3'; reflexivity]..|contradiction (O3 eq_refl)].
  rewrite (N3 u3 eq_refl), app_nil_r in S3'. subst sent. clear S3 N3 E3'. cbn [rev app] in Q3.
  assert (R3 : reachable s3) by (apply (reach_ok s2 (ASetter consecutive_collision) u3 s3 R2 E3)).
  unfold bind at 1 in E. destruct goal_numbers as [Gn Hn]. rewrite Gn, Hn in E. clear Gn Hn.
  assert (Ap : forall r4 s4, control (controller_of rots joint_motion) (joint_motion_start 0x3FE0000000000000 start_position) s3 = (r4, s4) ->
    requests (trace s4) = mv :: requests (trace s3) -> approached (trace s4)).
  { intros r4 s4 E4 C. destruct (C58_samples _ _ _ _ _ _ E4) as (m & T & _ & H). exists m, (trace s3). split; [exact T|]. split; [|exact H].
    exists default_deviation, default_deviation. rewrite T, requests_app in C. apply (app_inv_tail (requests (trace s3))). exact C. }
  set (kj := controller_of rots joint_motion) in E, Ap. set (gj := joint_motion_start 0x3FE0000000000000 start_position) in E, Ap. change (u_cb joint_motion) with (k_cb kj) in gj. clearbody gj.
  destruct (control kj gj s3) as [r4 s4] eqn:E4. pose proof (control_requests kj gj s3 R3) as C. rewrite E4 in C.
  change (ReqMove (wanted_ctrl kj) (k_mode kj) default_deviation default_deviation) with mv in C.
  assert (W4 : r4 <> OutOfFuel).
  { pose proof (wp_api (AControl kj gj) s3 (reachable_I s3 R3)) as W. unfold wp in W. cbn [run_api] in W. rewrite E4 in W. destruct r4; try discriminate. contradiction. }
  assert (Q3' : rev (requests (trace s3)) = ReqConnect port :: a ++ [consecutive_collision]) by (rewrite Q3; cbn [rev]; rewrite rev_app_distr, rev_involutive; reflexivity).
  assert (Late : forall r2, r2 <> OutOfFuel -> (forall u, r2 <> Ok u) ->
    requests (trace s4) = requests (trace s3) \/ requests (trace s4) = mv :: requests (trace s3) \/ requests (trace s4) = ReqStopMove :: mv :: requests (trace s3) ->
    consecutive_spec rots f_cos f_floor f_powf f_fmod port r2 (trace s4)).
  { intros r2 O N H. left. split; [exact N|]. split; [exact O|]. exists (ReqConnect port :: a ++ [consecutive_collision; mv]). split; [exact P|].
    unfold in_order_asked, prefix_of. destruct H as [H|[H|H]]; rewrite H; cbn [rev]; rewrite Q3'.
    - left. exists [mv]. cbn [app]. rewrite <- app_assoc. reflexivity.
    - left. exists []. cbn [app]. rewrite app_nil_r, <- app_assoc. reflexivity.
    - right. cbn [app]. rewrite <- !app_assoc. reflexivity. }
  destruct r4 as [u4|e|p| |]; [|injection E as <- <-; apply Late; [discriminate|intros; discriminate|exact C]..|contradiction (W4 eq_refl)].
  assert (R4 : reachable s4) by (apply (reach_ok s3 (AControl kj gj) u4 s4 R3 E4)).
  right. exists (trace s4). split; [|split; [exact (Ap _ _ eq_refl C)|exact (rounds_ok rots f_cos f_floor f_powf f_fmod 5 s4 r s' R4 E)]].
  unfold in_order_asked. rewrite C. cbn [rev]. rewrite Q3'. cbn [app]. rewrite <- app_assoc. exact P.
Qed.
Print Assumptions C74_consecutive.

(** These numbers are the angles meant, to 1e-15 rad. *)
Theorem C74_start_position : Forall2 (fun b r => b64_fin (of_bits b) = true /\ (Rabs (val (of_bits b) - r) <= 1 / 10 ^ 15)%R) start_position
  [0; - PI / 4; 0; - 3 * PI / 4; 0; PI / 2; PI / 4]%R.
Proof.
  pose proof pi_bounds as P.
  assert (Z : b64_fin (of_bits 0) = true /\ (Rabs (val (of_bits 0) - 0) <= 1 / 10 ^ 15)%R).
  { split; [vm_compute; reflexivity|]. change (val (of_bits 0)) with 0%R. rewrite Rminus_0_r, Rabs_R0. lra. }
  assert (N : forall b s m e r, Binary.B2FF 53 1024 (of_bits b) = F754_finite s m (- Z.pos e) ->
    (- (1 / 10 ^ 15) * IZR (2 ^ Z.pos e) <= IZR (cond_Zopp s (Zpos m)) - r * IZR (2 ^ Z.pos e) <= 1 / 10 ^ 15 * IZR (2 ^ Z.pos e))%R ->
    b64_fin (of_bits b) = true /\ (Rabs (val (of_bits b) - r) <= 1 / 10 ^ 15)%R).
  { intros b s m e r E L. destruct (val_finite _ _ _ _ E) as [F V]. split; [exact F|]. rewrite V, bpow_opp.
    change (bpow radix2 (Z.pos e)) with (IZR (2 ^ Z.pos e)).
    assert (Q : (0 < IZR (2 ^ Z.pos e))%R) by (apply IZR_lt; lia). set (q := IZR (2 ^ Z.pos e)) in *. clearbody q. set (n := IZR (cond_Zopp s (Z.pos m))) in *. clearbody n.
    assert (K : (n * / q - r = (n - r * q) * / q)%R) by (field; lra). rewrite K.
    assert (J : forall x y, (x <= y * q -> x * / q <= y)%R) by (intros x y H; apply (Rmult_le_reg_r q _ _ Q); rewrite Rmult_assoc, Rinv_l, Rmult_1_r; lra).
    apply Rabs_le. split; [|apply J; lra].
    assert (J' : (- (n - r * q) * / q <= 1 / 10 ^ 15)%R) by (apply J; lra). lra. }
  apply Forall2_cons; [exact Z|]. apply Forall2_cons; [apply (N _ true 7074237752028440%positive 53%positive); [vm_compute; reflexivity|cbn [cond_Zopp]; change (2 ^ 53)%Z with 9007199254740992%Z; change (- Z.pos 7074237752028440)%Z with (-7074237752028440)%Z; lra]|].
  apply Forall2_cons; [exact Z|]. apply Forall2_cons; [apply (N _ true 5305678314021330%positive 51%positive); [vm_compute; reflexivity|cbn [cond_Zopp]; change (2 ^ 51)%Z with 2251799813685248%Z; change (- Z.pos 5305678314021330)%Z with (-5305678314021330)%Z; lra]|].
  apply Forall2_cons; [exact Z|]. apply Forall2_cons; [apply (N _ false 7074237752028440%positive 52%positive); [vm_compute; reflexivity|cbn [cond_Zopp]; change (2 ^ 52)%Z with 4503599627370496%Z; lra]|].
  apply Forall2_cons; [apply (N _ false 7074237752028440%positive 53%positive); [vm_compute; reflexivity|cbn [cond_Zopp]; change (2 ^ 53)%Z with 9007199254740992%Z; lra]|].
  constructor.
Qed.
Print Assumptions C74_start_position.

(** With a robot which does its part, the program succeeds. *)
Theorem C74_consecutive_live : forall rots f_cos f_floor f_powf f_fmod port size rt x ch v t us ts urest trest realtime priority,
  (0 < size)%nat -> rt = RtIgnore \/ (realtime = true /\ priority = true) ->
  burst state_size state_decode x ch -> stopped x -> answered c_connect_response 0 (CsSuccess, v) t ->
  session 1 (rs_message_id x)
    ([ADefaults; ASetter consecutive_collision;
      AControl (controller_of rots joint_motion) (joint_motion_start (bits (f_lit float 1 2)) consecutive_goal)] ++
     repeat (AControl (controller_of rots (consecutive_user f_cos f_floor f_powf f_fmod)) (consecutive_start f_cos f_floor f_powf f_fmod)) 5) us ts ->
  exists s', consecutive_motions rots f_cos f_floor f_powf f_fmod port (st_init size rt (ch ++ us ++ urest) (t ++ ts ++ trest) [] realtime priority) = (Ok tt, s') /\
    ready urest trest s'.
Proof.
  intros rots f_cos f_floor f_powf f_fmod port size rt x ch v t us ts urest trest realtime priority Sz Rt B St An Se.
  destruct (C61_connect port size rt x ch v t (us ++ urest) (ts ++ trest) realtime priority Sz Rt B St An) as (s0 & E0 & R0 & I0 & M0).
  unfold consecutive_motions. unfold bind at 1. rewrite E0. clear E0. rewrite <- I0, <- M0 in Se.
  set (kj := controller_of rots joint_motion) in *. set (gj := joint_motion_start (bits (f_lit float 1 2)) consecutive_goal) in *. change (u_cb joint_motion) with (k_cb kj) in gj. clearbody gj.
  set (k := controller_of rots (consecutive_user f_cos f_floor f_powf f_fmod)) in *. set (start := consecutive_start f_cos f_floor f_powf f_fmod) in *.
  cbn [app] in Se.
  assert (Step : forall a l us ts s, session (n_id s) (r_message_id s) (a :: l) us ts -> ready (us ++ urest) (ts ++ trest) s ->
    exists s' us' ts', run_api a s = (Ok tt, s') /\ session (n_id s') (r_message_id s') l us' ts' /\ ready (us' ++ urest) (ts' ++ trest) s').
  { clear. intros a l us ts s H R. inversion H as [|id last a' us1 ts1 id' last' l' us2 ts2 S1 S2]; subst. rewrite <- !app_assoc in R.
    destruct (serves_ok _ _ _ _ _ _ _ s R S1) as (s' & E & R' & I' & M'). exists s', us2, ts2. split; [exact E|]. split; [rewrite I', M'; exact S2|exact R']. }
  destruct (Step _ _ _ _ s0 Se R0) as (s1 & u1 & t1 & E1 & Se1 & R1). cbn [run_api] in E1. unfold bind at 1. rewrite E1.
  destruct (Step _ _ _ _ s1 Se1 R1) as (s2 & u2 & t2 & E2 & Se2 & R2). cbn [run_api] in E2. unfold bind at 1. rewrite E2.
  destruct (Step _ _ _ _ s2 Se2 R2) as (s3 & u3 & t3 & E3 & Se3 & R3). cbn [run_api] in E3. unfold bind at 1. rewrite E3.
  clear - Se3 R3 Step. revert s3 u3 t3 Se3 R3. generalize 5%nat. intros n0. induction n0 as [|n IH]; intros s3 u3 t3 Se3 R3.
  - inversion Se3; subst. exists s3. split; [reflexivity|exact R3].
  - cbn [repeat] in Se3. destruct (Step _ _ _ _ s3 Se3 R3) as (s4 & u4 & t4 & E4 & Se4 & R4). cbn [run_api] in E4. cbn [consecutive_rounds]. fold k. fold start. rewrite E4.
    exact (IH s4 u4 t4 Se4 R4).
Qed.
Print Assumptions C74_consecutive_live.

(** A run of the program: the second motion is ended by a reflex, then error recovery and three more motions.  For cos, floor,
    powf and fmod something simple. *)
Definition ex_moving (m : mg_mode) (id : N) : robot_state_intern := ex_rs id m CmJointImpedance RmMove.
Definition ex_long (m : mg_mode) (b : N) : list robot_state_intern :=
  [ex_moving m b; ex_moving m (b + 1); ex_moving m (b + 20000); ex_idle (b + 20001)].
Definition ex_recovered (id : N) : option (N * list byte) :=
  Some (id, serialize c_recovery_response ((RcAutomaticErrorRecovery, (id, 13)), AsSuccess)).
Definition ex_program : outcome unit * st :=
  consecutive_motions ex_rots (fun _ => f_int float 0) (fun x => x) (fun _ _ => f_int float 1) (fun _ _ => f_int float 0) 1337
    (st_init 10 RtIgnore
      (ex_first (ex_idle 1) ++ ex_states (ex_long MgJointPosition 2 ++ ex_long MgJointVelocity 30000 ++
         [ex_moving MgJointVelocity 60000; ex_moving MgJointVelocity 60001; ex_moving MgJointVelocity 60002; ex_reflex 60003; ex_idle 60004] ++
         ex_long MgJointVelocity 90000 ++ ex_long MgJointVelocity 120000 ++ ex_long MgJointVelocity 150000))
      [ex_connected 0; ex_set RcSetCollisionBehavior 1 GsSuccess; ex_set RcSetJointImpedance 2 GsSuccess; ex_set RcSetCartesianImpedance 3 GsSuccess;
       ex_set RcSetCollisionBehavior 4 GsSuccess; ex_move 5 MsMotionStarted; None; ex_move 5 MsSuccess; ex_move 6 MsMotionStarted; None; ex_move 6 MsSuccess;
       ex_move 7 MsMotionStarted; None; ex_move 7 MsReflexAborted; ex_stop 8 SsSuccess; None; ex_recovered 9;
       ex_move 10 MsMotionStarted; None; ex_move 10 MsSuccess; ex_move 11 MsMotionStarted; None; ex_move 11 MsSuccess;
       ex_move 12 MsMotionStarted; None; ex_move 12 MsSuccess] [] true true).
Example C74_ex_consecutive : fst ex_program = Ok tt /\
  map (fun q => match q with
                | ReqMove _ MmJointVelocity _ _ => 1 | ReqStopMove => 2 | ReqAutomaticErrorRecovery => 3 | _ => 0
                end) (in_order_asked (trace (snd ex_program))) = [0; 0; 0; 0; 0; 0; 1; 1; 2; 3; 1; 1; 1].
Proof. split; vm_compute; reflexivity. Qed.
(** The hypotheses of [C74_consecutive_live]: a robot which plays all six motions through. *)
Definition ex_motion_of (m : mg_mode) (b : N) : motion := Motion [] (ex_moving m b) (ex_moving m (b + 1)) [ex_moving m (b + 20000)] [] (ex_idle (b + 20001)).
Lemma ex_serves : forall k cb m b id last, last < b -> b < 2 ^ 32 -> id < 2 ^ 32 ->
  (forall x, rs_motion_generator_mode x = m -> rs_controller_mode x = CmJointImpedance -> as_requested k x) -> m <> MgIdle ->
  Forall ex_sent (ex_long m b) ->
  finishes k cb (rs_message_id (ex_moving m (b + 1))) zero_motion [ex_moving m (b + 1); ex_moving m (b + 20000)] ->
  (exists h, deserialize c_move_response (serialize c_move_response ((RcMove, (id, 13)), MsMotionStarted)) = Some (h, MsMotionStarted)) ->
  (exists h, deserialize c_move_response (serialize c_move_response ((RcMove, (id, 13)), MsSuccess)) = Some (h, MsSuccess)) ->
  serves id last (AControl k cb) (ex_states (ex_long m b)) [ex_move id MsMotionStarted; None; ex_move id MsSuccess] (succ_id id) (b + 20001).
Proof.
  intros k cb m b id last Lb Bb Bi Rq Nm Se Fi [h1 D1] [h2 D2].
  apply (serves_control id last k cb (ex_motion_of m b)). constructor.
  - apply ex_feeds; [|exact Se]. cbn [newer all_states run_states ex_motion_of mo_before mo_shown mo_first mo_during mo_ending mo_last app].
    assert (Id : forall id m c r, rs_message_id (ex_rs id m c r) = id) by reflexivity. unfold ex_long. cbn [newer]. unfold ex_moving, ex_idle. rewrite !Id. repeat split; lia.
  - exists [ex_move id MsMotionStarted], [ex_move id MsSuccess]. split; [|split; [|reflexivity]].
    + exists 0%nat. eexists. exists h1. split; [reflexivity|exact D1].
    + exists 0%nat. eexists. exists h2. split; [reflexivity|exact D2].
  - constructor.
  - apply Rq; reflexivity.
  - repeat constructor; apply Rq; reflexivity.
  - constructor.
  - split; [reflexivity|discriminate].
  - exact Fi.
Qed.

Definition ex_zero1 (_ : F float) : F float := f_int float 0.
Definition ex_same (x : F float) : F float := x.
Definition ex_one2 (_ _ : F float) : F float := f_int float 1.
Definition ex_zero2 (_ _ : F float) : F float := f_int float 0.
Definition ex_calls74 : list api :=
  [ADefaults; ASetter consecutive_collision;
   AControl (controller_of ex_rots joint_motion) (joint_motion_start (bits (f_lit float 1 2)) consecutive_goal)] ++
  repeat (AControl (controller_of ex_rots (consecutive_user ex_zero1 ex_same ex_one2 ex_zero2)) (consecutive_start ex_zero1 ex_same ex_one2 ex_zero2)) 5.
Definition ex_played (m : mg_mode) (id : N) : sched := ex_states (ex_long m (id * 100000)).
Definition ex_told (id : N) : list (option (N * list byte)) := [ex_move id MsMotionStarted; None; ex_move id MsSuccess].
Lemma ex_round : forall id l us ts, In id [6; 7; 8; 9; 10] ->
  session (succ_id id) (id * 100000 + 20001) l us ts ->
  session id ((id - 1) * 100000 + 20001) (AControl (controller_of ex_rots (consecutive_user ex_zero1 ex_same ex_one2 ex_zero2)) (consecutive_start ex_zero1 ex_same ex_one2 ex_zero2) :: l)
    (ex_played MgJointVelocity id ++ us) (ex_told id ++ ts).
Proof.
  intros id l us ts I S. eapply session_call; [|exact S].
  assert (B : 6 <= id <= 10) by (cbn [In] in I; intuition lia).
  apply ex_serves; [lia|lia|lia|..].
  - intros x Hm Hc. split; [exact Hm|exact Hc].
  - discriminate.
  - cbn [In] in I. destruct I as [<-|[<-|[<-|[<-|[<-|[]]]]]]; repeat constructor; decodes.
  - cbn [In] in I. destruct I as [<-|[<-|[<-|[<-|[<-|[]]]]]]; vm_compute; reflexivity.
  - cbn [In] in I. destruct I as [<-|[<-|[<-|[<-|[<-|[]]]]]]; eexists; decodes.
  - cbn [In] in I. destruct I as [<-|[<-|[<-|[<-|[<-|[]]]]]]; eexists; decodes.
Qed.
Example C74_ex_session : session 1 1 ex_calls74
  (ex_played MgJointPosition 5 ++ ex_played MgJointVelocity 6 ++ ex_played MgJointVelocity 7 ++ ex_played MgJointVelocity 8 ++ ex_played MgJointVelocity 9 ++ ex_played MgJointVelocity 10)
  ([ex_set RcSetCollisionBehavior 1 GsSuccess; ex_set RcSetJointImpedance 2 GsSuccess; ex_set RcSetCartesianImpedance 3 GsSuccess] ++
   [ex_set RcSetCollisionBehavior 4 GsSuccess] ++ ex_told 5 ++ ex_told 6 ++ ex_told 7 ++ ex_told 8 ++ ex_told 9 ++ ex_told 10).
Proof.
  unfold ex_calls74. cbn [app repeat].
  apply (session_call 1 1 ADefaults [] [ex_set RcSetCollisionBehavior 1 GsSuccess; ex_set RcSetJointImpedance 2 GsSuccess; ex_set RcSetCartesianImpedance 3 GsSuccess] 4 1).
  { apply (serves_defaults 1 1 [ex_set RcSetCollisionBehavior 1 GsSuccess] [ex_set RcSetJointImpedance 2 GsSuccess] [ex_set RcSetCartesianImpedance 3 GsSuccess]);
      eapply (ex_answered _ _ _ 0); decodes. }
  apply (session_call 4 1 (ASetter consecutive_collision) [] [ex_set RcSetCollisionBehavior 4 GsSuccess] 5 1).
  { apply serves_setter. eapply (ex_answered _ _ _ 0); decodes. }
  apply (session_call 5 1 _ (ex_played MgJointPosition 5) (ex_told 5) 6 (5 * 100000 + 20001)).
  { apply (ex_serves _ _ MgJointPosition (5 * 100000) 5 1); [lia|lia|lia|..].
    - intros x Hm Hc. split; [exact Hm|exact Hc].
    - discriminate.
    - repeat constructor; decodes.
    - vm_compute. reflexivity.
    - eexists; decodes.
    - eexists; decodes. }
  apply (ex_round 6); [cbn; tauto|]. apply (ex_round 7); [cbn; tauto|]. apply (ex_round 8); [cbn; tauto|]. apply (ex_round 9); [cbn; tauto|].
  rewrite <- (app_nil_r (ex_played MgJointVelocity 10)). change (ex_told 10) with (ex_told 10 ++ []). apply (ex_round 10); [cbn; tauto|]. constructor.
Qed.
