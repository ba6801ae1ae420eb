(** Histories of programs written against the public functions. *)
From Coq Require Import List NArith ZArith Bool Lia Arith Reals String.
From Flocq Require Import Core IEEE754.BinarySingleNaN IEEE754.Binary IEEE754.Bits.
From Verif Require Import Bytes Codec NumOps NumFloat FloatFacts RateModel RateSpec ConvertModel WireModel WireSpec UdpModel
  RobotModel LoopModel RobotSpec RobotProofs RobotWp LoopProofs Effects RobotMore RobotCalls Outputs TypedModel TypedSpec ConvertFacts Properties_Robot.
Import ListNotations.
Open Scope list_scope.
Open Scope N_scope.

(** A call of a program: control calls have converters and filters of the library. *)
Definition typed (allowed : user_control -> Prop) (a : api) : Prop :=
  match a with
  | AControl k cb => exists rots u, k = controller_of rots u /\ allowed u
  | _ => True
  end.
(** Histories of programs all of whose control calls are [allowed]. *)
Definition typed_history (allowed : user_control -> Prop) (t : list event) : Prop :=
  exists port calls n rt us ts se rk pr, Forall (typed allowed) calls /\
    t = history port calls n rt us ts se rk pr.
Lemma typed_is_history : forall allowed t, typed_history allowed t -> is_history t.
Proof. intros allowed t (port & calls & n & rt & us & ts & se & rk & pr & _ & ->). do 9 eexists. reflexivity. Qed.

(** What the types of Rust guarantee about the outputs of the callbacks. *)
Definition well_typed (u : user_control) : Prop :=
  (forall k x dt k' o, u_motion u k x dt = Some (k', o) ->
     arr_ok (dimension (u_generator u)) (o_values o) /\
     forall e0 e1, o_elbow o = Some (e0, e1) -> u64_ok e0 /\ u64_ok e1) /\
  (forall f k x dt k' q fin, u_torque u = Some f -> f k x dt = Some (k', (q, fin)) -> arr_ok 7 q).

Section Outs.
  Variable allowed : user_control -> Prop.
  Variable Pm : move_mg -> robot_state_intern -> motion_command -> Prop.
  Variable Pt : robot_state_intern -> list N -> Prop.
  Variable Inv : user_control -> motion_command -> Prop.
  Hypothesis start : forall u, allowed u -> Inv u zero_motion.
  Hypothesis convert : forall rots u k x dt k' o m m', allowed u -> u_motion u k x dt = Some (k', o) -> Inv u m ->
    state_ok x -> convert_motion rots (u_generator u) (cutoff_of u) (limit_of u) o x m = Some m' ->
    Pm (u_generator u) x (keep_finished m m') /\ Inv u (keep_finished m m').
  Hypothesis torque : forall u f k x dt k' q fin q', allowed u -> u_torque u = Some f ->
    f k x dt = Some (k', (q, fin)) -> state_ok x -> filter_torques (cutoff_of u) (limit_of u) q x = Some q' -> Pt x q'.
  Lemma typed_outs : forall t, typed_history allowed t -> outs_ok Pm Pt t.
  Proof.
    intros t (port & calls & n & rt & us & ts & se & rk & pr & F & ->).
    unfold history. apply keeps_program; [|reflexivity].
    eapply Forall_impl; [|exact F]. intros [K cb k0| |k cb|r| | |w|] H; try exact Logic.I.
    destruct H as (rots & u & -> & A). apply keeps_control with (Inv := Inv u).
    - cbn [controller_of k_motion k_convert k_mode]. intros. eapply convert; eassumption.
    - cbn [controller_of k_torque k_filter]. intros. eapply torque; eassumption.
    - apply start. exact A.
  Qed.
End Outs.

(** The newest output of a motion is somewhere in the history. *)
Lemma newest_output_in : forall t m, newest_output t = Some m -> exists f, In (EvMotionOut m f) t.
Proof.
  induction t as [|e t IH]; intros m H; [discriminate|].
  destruct e; cbn in H; try (destruct (IH m H) as [f0 Hf]; exists f0; right; exact Hf).
  injection H as ->. eexists. left. reflexivity.
Qed.
Lemma newest_torques_in : forall t q, newest_torques t = Some q -> exists f, In (EvTorqueOut q f) t.
Proof.
  induction t as [|e t IH]; intros m H; [discriminate|].
  destruct e; cbn in H; try (destruct (IH m H) as [f0 Hf]; exists f0; right; exact Hf).
  injection H as ->. eexists. left. reflexivity.
Qed.
Lemma this_motion_split : forall t, exists r, t = this_motion t ++ r.
Proof.
  induction t as [|e t [r IH]]; [exists []; reflexivity|].
  assert (D : exists r, e :: t = (e :: this_motion t) ++ r) by (exists r; cbn; congruence).
  destruct e as [id q| | | | | | | | |]; try exact D. destruct q; try exact D. eexists. reflexivity.
Qed.
Lemma this_motion_in : forall t e, In e (this_motion t) -> In e t.
Proof. intros t e H. destruct (this_motion_split t) as [r E]. rewrite E. apply in_or_app. left. exact H. Qed.
Lemma this_motion_mode : forall t1 t2, (forall id c g p d, ~ In (EvRequest id (ReqMove c g p d)) t1) ->
  motion_mode (t1 ++ t2) = motion_mode t2.
Proof.
  induction t1 as [|e t1 IH]; intros t2 H; [reflexivity|].
  assert (R : motion_mode (t1 ++ t2) = motion_mode t2) by (apply IH; intros; intros J; eapply H; right; exact J).
  destruct e as [id q| | | | | | | | |]; try exact R. destruct q; try exact R. exfalso. eapply H. left. reflexivity.
Qed.
Lemma this_motion_no_move : forall t id c g p d, ~ In (EvRequest id (ReqMove c g p d)) (this_motion t).
Proof.
  induction t as [|e t IH]; intros id c g p d H; [contradiction|].
  assert (D : In (EvRequest id (ReqMove c g p d)) (e :: this_motion t) -> EvRequest id (ReqMove c g p d) = e).
  { intros [E|H']; [symmetry; exact E|]. exfalso. eapply IH. exact H'. }
  destruct e as [id' q| | | | | | | | |]; try (apply D in H; discriminate). destruct q; cbn [this_motion] in H; try contradiction;
    apply D in H; discriminate.
Qed.

(** Every command repeats an output of its own motion. *)
Lemma command_output : forall Pm Pt t1 a c t2, is_history (t1 ++ EvCommand a c :: t2) ->
  outs_ok Pm Pt (t1 ++ EvCommand a c :: t2) ->
  exists x m g, state_ok x /\ Pm g x m /\ motion_mode t2 = Some g /\ In (EvState x) t2 /\
    rc_motion c = marked (completed t2) m.
Proof.
  intros Pm Pt t1 a c t2 H O. pose proof (history_lawful _ H) as L. apply lawful_split in L.
  destruct L as [(_ & _ & (m & E & M) & _ & T) L2]. apply newest_output_in in E. destruct E as [f E].
  pose proof (this_motion_no_move t2) as NM. destruct (this_motion_split t2) as [r S].
  apply in_split in E. destruct E as (l1 & l2 & E).
  assert (E2 : t2 = l1 ++ EvMotionOut m f :: (l2 ++ r)).
  { rewrite S, E. rewrite <- app_assoc. reflexivity. }
  assert (O2 : outs_ok Pm Pt t2) by (apply outs_tail in O; exact O).
  pose proof (fun x => outs_state Pm Pt t2 x O2) as W.
  rewrite E2 in O2. destruct (outs_in_motion _ _ _ _ _ _ O2) as (x & dt & r' & g & E3 & Mo & P).
  exists x, m, g.
  assert (In (EvState x) t2).
  { rewrite E2, E3 in L2. apply lawful_split in L2. destruct L2 as [_ L2]. cbn [lawful ok] in L2.
    destruct L2 as [(_ & _ & t' & E4 & _) _]. rewrite E2, E3, E4. apply in_or_app. right. right. right. left. reflexivity. }
  split; [auto|]. split; [auto|]. split; [|auto]. rewrite E2. rewrite this_motion_mode; [cbn [motion_mode]; exact Mo|].
  intros id c0 g0 p d Hin. apply (NM id c0 g0 p d). rewrite E. apply in_or_app. left. exact Hin.
Qed.
(** While the callbacks go on, a command holds the outputs computed for the state it answers. *)
Lemma command_fresh : forall Pm Pt t1 a c t2, is_history (t1 ++ EvCommand a c :: t2) ->
  outs_ok Pm Pt (t1 ++ EvCommand a c :: t2) -> completed t2 = false ->
  exists x m g, last_state t2 = Some x /\ Pm g x m /\ motion_mode t2 = Some g /\ rc_motion c = marked false m.
Proof.
  intros Pm Pt t1 a c t2 H O C. pose proof (history_lawful _ H) as L. apply lawful_split in L.
  destruct L as [(_ & _ & (m & E & M) & J & T & _) L2]. rewrite C in M. specialize (J C). unfold just_called in J.
  assert (O2 : outs_ok Pm Pt t2) by (apply outs_tail in O; exact O). clear O T.
  assert (D : forall m x dt t', t2 = EvMotionOut m false :: EvMotion x dt :: t' ->
     exists x' m' g, last_state t2 = Some x' /\ Pm g x' m' /\ motion_mode t2 = Some g /\ rc_motion c = marked false m').
  { intros m1 x dt t' ->. cbn in E. injection E as <-. destruct O2 as [(x' & dt' & r' & g & E3 & Mo & P) _].
    injection E3 as <- <- <-. exists x, m1, g. cbn [lawful ok] in L2. destruct L2 as (_ & (_ & _ & t'' & -> & _) & _). auto. }
  destruct (motion_ctrl t2) as [ctrl|]; [|contradiction].
  assert (J' : (exists q x dt t', t2 = EvTorqueOut q false :: EvTorque x dt :: t') \/
               (exists m x dt t', t2 = EvMotionOut m false :: EvMotion x dt :: t')) by (destruct ctrl; auto).
  clear J. destruct J' as [(q & x & dt & t' & E1)|(m1 & x & dt & t' & E1)]; [|eapply D, E1].
  clear D. subst t2. cbn [lawful ok] in L2. destruct L2 as (_ & (_ & m1 & t'' & ->) & L2). cbn in E. injection E as <-.
  cbn [outs_ok] in O2. destruct O2 as (_ & (x' & dt' & r' & g & E3 & Mo & P) & _). injection E3 as <- <- <-.
  exists x, m1, g. cbn [lawful ok] in L2. destruct L2 as (_ & (_ & _ & t3 & -> & _) & _). auto.
Qed.
Lemma command_torques : forall Pm Pt t1 a c t2, is_history (t1 ++ EvCommand a c :: t2) ->
  outs_ok Pm Pt (t1 ++ EvCommand a c :: t2) ->
  rc_tau c = zero_torques \/ exists x, In (EvState x) t2 /\ state_ok x /\ Pt x (rc_tau c).
Proof.
  intros Pm Pt t1 a c t2 H O. pose proof (history_lawful _ H) as L. apply lawful_split in L.
  destruct L as [(_ & _ & _ & J & T & _) L2]. rewrite T.
  destruct (newest_torques (this_motion t2)) as [q|] eqn:E; [right|left; reflexivity].
  assert (O2 : outs_ok Pm Pt t2) by (apply outs_tail in O; exact O).
  apply newest_torques_in in E. destruct E as [f E]. apply this_motion_in in E.
  pose proof (fun x => outs_state Pm Pt t2 x O2) as W.
  apply in_split in E. destruct E as (l1 & l2 & E2). rewrite E2 in O2.
  destruct (outs_in_torque _ _ _ _ _ _ O2) as (x & dt & r' & E3 & P).
  exists x. assert (I : In (EvState x) t2).
  { rewrite E2, E3 in L2. apply lawful_split in L2. cbn [lawful ok] in L2.
    destruct L2 as (_ & (_ & m & t' & ->) & _ & (_ & _ & t'' & -> & _) & _).
    rewrite E2, E3. apply in_or_app. right. do 4 right. left. reflexivity. }
  auto.
Qed.
Lemma command_torques_fresh : forall Pm Pt t1 a c t2, is_history (t1 ++ EvCommand a c :: t2) ->
  outs_ok Pm Pt (t1 ++ EvCommand a c :: t2) -> completed t2 = false -> motion_ctrl t2 = Some McExternalController ->
  exists x, last_state t2 = Some x /\ Pt x (rc_tau c).
Proof.
  intros Pm Pt t1 a c t2 H O C X. pose proof (history_lawful _ H) as L. apply lawful_split in L.
  destruct L as [(_ & _ & _ & J & T & _) L2]. specialize (J C). unfold just_called in J. rewrite X in J.
  assert (O2 : outs_ok Pm Pt t2) by (apply outs_tail in O; exact O). clear O.
  destruct J as (q & x & dt & t' & ->). cbn in T. subst. exists x.
  cbn [lawful ok] in L2. destruct L2 as (_ & (_ & m & t3 & ->) & _ & (_ & _ & t4 & -> & _) & _).
  cbn [outs_ok] in O2. destruct O2 as [(x' & dt' & r' & E3 & P) _]. injection E3 as <- <- <-. auto.
Qed.
