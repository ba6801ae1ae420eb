(** How the outputs recorded in a trace relate to the states they were computed for. *)
From Coq Require Import List NArith ZArith Bool Arith Lia String.
From Coq Require Import Init.Byte.
From Verif Require Import Bytes Codec WireModel WireSpec TcpModel UdpModel ErrorsModel LoggerModel
  RobotModel LoopModel RobotSpec Decoded Effects RobotCalls.
Import ListNotations.
Open Scope list_scope.
Open Scope N_scope.

(** The motion generator of the current motion. *)
Fixpoint motion_mode (t : list event) : option move_mg :=
  match t with
  | [] => None
  | EvRequest _ (ReqMove _ g _ _) :: _ => Some g
  | _ :: t => motion_mode t
  end.

Definition no_out (e : event) : Prop :=
  match e with EvMotionOut _ _ | EvTorqueOut _ _ => False | EvState x => state_ok x | _ => True end.
Definition calm (e : event) : Prop := no_out e /\ no_request e.

(** Cancelling adds no outputs, and proper states. *)
Lemma cancel_loop_states : forall id s, grew no_out s (snd (cancel_motion id s)).
Proof.
  intros id s. unfold cancel_motion, execute_stop.
  assert (Q : adds no_out (id <- send_request ReqStopMove ;; r <- blocking_response c_stop_response id ;;
    as_result (handle_stop (snd r)) ;;; ret id)).
  { apply adds_bind.
    - intros s0. apply (grew_one no_out _ _ (EvRequest (n_id s0) ReqStopMove)); [reflexivity|exact Logic.I].
    - intros a. apply adds_bind; [apply adds_response; intros; auto; exact Logic.I|]. intros r.
      apply adds_bind; [apply adds_as_result|]. intros _. apply adds_ret. }
  specialize (Q s). change (execute_stop s) with ((id <- send_request ReqStopMove ;; r <- blocking_response c_stop_response id ;;
    as_result (handle_stop (snd r)) ;;; ret id) s).
  destruct (bind _ _ s) as [[i|e|p| |] s1]; cbn [snd] in Q; try exact Q.
  pose proof (adds_receive no_out (fun x H => H) s1) as R.
  destruct (receive_robot_state s1) as [r s2]; cbn [snd] in R.
  assert (C : adds no_out (cancel_loop (S (List.length (n_usched s2) + pending (n_udp s2) (n_usched s2))) ;;;
           check_response c_move_response 13 id (fun _ => None) ;;; reset_current)).
  { apply adds_bind; [apply adds_cancel_loop; intros; auto; exact Logic.I|]. intros _.
    apply adds_bind; [apply adds_check; intros; exact Logic.I|]. intros _. apply adds_modify. reflexivity. }
  specialize (C s2). pose proof (grew_trans _ _ _ _ Q R) as QR. destruct r; try exact QR; eapply grew_trans; eassumption.
Qed.

Section Outs.
  (** [Pm g x m]: the motion output [m] may be produced for the state [x] in a motion of kind [g];
      [Pt x q]: torques. *)
  Variable Pm : move_mg -> robot_state_intern -> motion_command -> Prop.
  Variable Pt : robot_state_intern -> list N -> Prop.
  Fixpoint outs_ok (t : list event) : Prop :=
    match t with
    | [] => True
    | EvState x :: t => state_ok x /\ outs_ok t
    | EvMotionOut m _ :: t =>
        (exists x dt r g, t = EvMotion x dt :: r /\ motion_mode t = Some g /\ Pm g x m) /\ outs_ok t
    | EvTorqueOut q _ :: t => (exists x dt r, t = EvTorque x dt :: r /\ Pt x q) /\ outs_ok t
    | _ :: t => outs_ok t
    end.
  Lemma outs_app : forall d t, Forall no_out d -> outs_ok t -> outs_ok (d ++ t).
  Proof.
    induction d as [|e d IH]; intros t F H; [exact H|]. inversion F as [|? ? E F']; subst.
    specialize (IH t F' H). destruct e; cbn in E |- *; auto; contradiction.
  Qed.
  Lemma outs_state : forall t x, outs_ok t -> In (EvState x) t -> state_ok x.
  Proof.
    induction t as [|e t IH]; intros x H Hin; [contradiction|].
    destruct Hin as [->|Hin]; [apply H|]. apply IH; [|exact Hin]. destruct e; try exact H; apply H.
  Qed.
  Lemma outs_tail : forall t1 t2, outs_ok (t1 ++ t2) -> outs_ok t2.
  Proof. induction t1 as [|e t1 IH]; intros t2 H; [exact H|]. apply IH. destruct e; try exact H; apply H. Qed.
  Lemma outs_in_motion : forall t1 m f t2, outs_ok (t1 ++ EvMotionOut m f :: t2) ->
    exists x dt r g, t2 = EvMotion x dt :: r /\ motion_mode t2 = Some g /\ Pm g x m.
  Proof. intros t1 m f t2 H. apply outs_tail in H. apply H. Qed.
  Lemma outs_in_torque : forall t1 q f t2, outs_ok (t1 ++ EvTorqueOut q f :: t2) ->
    exists x dt r, t2 = EvTorque x dt :: r /\ Pt x q.
  Proof. intros t1 m f t2 H. apply outs_tail in H. apply H. Qed.
  Lemma mode_app : forall d t, Forall no_request d -> motion_mode (d ++ t) = motion_mode t.
  Proof.
    induction d as [|e d IH]; intros t F; [reflexivity|]. inversion F as [|? ? E F']; subst.
    destruct e; cbn in E |- *; auto; contradiction.
  Qed.

  Definition keeps {A} (m : M A) : Prop := forall s, outs_ok (trace s) -> outs_ok (trace (snd (m s))).
  Lemma adds_keeps : forall A (m : M A), adds no_out m -> keeps m.
  Proof. intros A m H s G. destruct (H s) as (d & -> & F). apply outs_app; assumption. Qed.
  Lemma keeps_bind : forall A B (m : M A) (f : A -> M B), keeps m -> (forall a, keeps (f a)) -> keeps (bind m f).
  Proof.
    intros A B m f Hm Hf s G. unfold bind. specialize (Hm s G). destruct (m s) as [[a|e|p| |] s']; try exact Hm.
    apply Hf. exact Hm.
  Qed.

  Section Loop.
    Variable k : controller.
    (** an invariant of the command which the loop reuses *)
    Variable Inv : motion_command -> Prop.
    Hypothesis convert_ok : forall cb x dt cb' out m m', k_motion k cb x dt = Some (cb', out) -> Inv m ->
      state_ok x ->
      k_convert k out x m = Some m' ->
      Pm (k_mode k) x (keep_finished m m') /\ Inv (keep_finished m m').
    Hypothesis filter_ok : forall torque cb x dt cb' q f q', k_torque k = Some torque ->
      torque cb x dt = Some (cb', (q, f)) -> state_ok x -> k_filter k q x = Some q' -> Pt x q'.

    Notation g := (k_mode k).
    (** Inside the motion. *)
    Definition good (s : st) : Prop := motion_mode (trace s) = Some g /\ outs_ok (trace s).
    Definition gives {A} (Q : A -> Prop) (m : M A) : Prop := forall s, good s ->
      good (snd (m s)) /\ forall a, fst (m s) = Ok a -> Q a.
    Lemma gives_bind : forall A B (Q : A -> Prop) (R : B -> Prop) (m : M A) (f : A -> M B), gives Q m ->
      (forall a, Q a -> gives R (f a)) -> gives R (bind m f).
    Proof.
      intros A B Q R m f Hm Hf s G. unfold bind. destruct (Hm s G) as [G1 Qa].
      destruct (m s) as [[a|e|p| |] s']; try (split; [exact G1|discriminate]). apply Hf; [apply Qa; reflexivity|exact G1].
    Qed.
    Lemma adds_gives : forall A (m : M A), adds calm m -> gives (fun _ => True) m.
    Proof.
      intros A m H s [G1 G2]. split; [|auto]. destruct (H s) as (d & T & F). split; rewrite T.
      - rewrite mode_app; [exact G1|]. eapply Forall_impl; [|exact F]. intros e [_ E]. exact E.
      - apply outs_app; [|exact G2]. eapply Forall_impl; [|exact F]. intros e [E _]. exact E.
    Qed.
    Lemma calm_time : forall a b, adds calm (time_step a b).
    Proof. intros a b s. unfold time_step. destruct (b <=? a); apply grew_refl. Qed.
    Lemma gives_motion : forall cb x dt m, state_ok x -> Inv m -> gives (fun r => Inv (snd (fst r))) (spin_motion k cb x dt m).
    Proof.
      intros cb x dt m W HI s [G0 G]. unfold spin_motion, bind, emit.
      destruct (k_motion k cb x dt) as [[cb' out]|] eqn:Em; cbn [unwrap ret snd fst]; [|split; [split; assumption|discriminate]].
      destruct (k_convert k out x m) as [new|] eqn:Ec; cbn [unwrap ret snd fst]; [|split; [split; assumption|discriminate]].
      destruct (convert_ok _ _ _ _ _ _ _ Em HI W Ec) as [C1 C2].
      split; [|intros a [= <-]; exact C2]. split; [exact G0|]. cbn. split; [|exact G].
      exists x. do 2 eexists. exists g. split; [reflexivity|]. split; [exact G0|exact C1].
    Qed.
    Lemma gives_control : forall torque cb x dt, state_ok x -> k_torque k = Some torque -> gives (fun _ => True) (spin_control k torque cb x dt).
    Proof.
      intros torque cb x dt W Et s [G0 G]. split; [|auto]. unfold spin_control, bind, emit.
      destruct (torque cb x dt) as [[cb2 [q f]]|] eqn:Eq; cbn [unwrap ret snd fst]; [|split; assumption].
      destruct (k_filter k q x) as [q'|] eqn:Ef; cbn [unwrap ret snd fst]; [|split; assumption].
      split; [exact G0|]. cbn. split; [|exact G]. exists x. eexists. eexists. split; [reflexivity|].
      eapply filter_ok; eassumption.
    Qed.
    Ltac quiet := intros; split; auto; exact Logic.I.

    Lemma gives_update : forall m c, gives state_ok (update m c).
    Proof.
      intros m c s G. split; [|intros x E].
      - apply (adds_gives _ (update m c)); [apply adds_update; quiet|exact G].
      - destruct (update m c s) as [r s'] eqn:U. cbn [fst] in E. subst r. eapply updated_state, U.
    Qed.
    Lemma gives_motion_loop : forall id fuel cb x p m c, state_ok x -> Inv m -> gives (fun _ => True) (motion_loop k fuel id cb x p m c).
    Proof.
      intros id. induction fuel as [|fuel IH]; intros cb x p m c W HI; [intros s G; split; [exact G|auto]|]. cbn [motion_loop].
      eapply gives_bind; [apply adds_gives, calm_time|]. intros dt _.
      eapply gives_bind; [apply gives_motion; [exact W|exact HI]|]. intros [[cb' m1] go]. cbn [snd fst]. intros C2.
      eapply gives_bind with (Q := fun _ => True).
      - pose proof gives_control as K. destruct (k_torque k) as [torque|]; [|apply adds_gives, adds_ret].
        destruct go; [|apply adds_gives, adds_ret].
        eapply gives_bind; [apply adds_gives, calm_time|]. intros dt' _.
        eapply gives_bind; [apply K; [exact W|reflexivity]|]. intros [[cb2 t] go] _. apply adds_gives, adds_ret.
      - intros [[cb2 c2] go2] _. destruct go2.
        + eapply gives_bind; [apply gives_update|].
          intros x' W'. eapply gives_bind; [apply adds_gives, adds_throw_on; quiet|].
          intros _ _. apply IH; [exact W'|exact C2].
        + apply adds_gives, adds_finish; quiet.
    Qed.
    Lemma gives_do_loop : forall id cb, Inv zero_motion -> gives (fun _ => True) (do_loop k id cb).
    Proof.
      intros id cb HI. unfold do_loop.
      eapply gives_bind; [apply gives_update|]. intros x W.
      eapply gives_bind; [apply adds_gives, adds_throw_on; quiet|]. intros _ _.
      eapply gives_bind; [apply adds_gives, adds_get|]. intros s _. apply gives_motion_loop; [exact W|exact HI].
    Qed.
    (** Starting a motion: afterwards the mode is that of the motion. *)
    Definition started (r : outcome N * st) : Prop :=
      outs_ok (trace (snd r)) /\ forall id, fst r = Ok id -> good (snd r).
    Lemma start_good : forall c d1 d2 s, outs_ok (trace s) -> started (start_motion c g d1 d2 s).
    Proof.
      intros c d1 d2 s G. unfold start_motion. unfold bind at 1.
      pose proof (adds_keeps _ _ (adds_running no_out) s G) as G1.
      destruct (motion_or_controller_running s) as [[[|]|e|p| |] s1]; cbn [snd] in G1;
        try (split; [exact G1|discriminate]).
      unfold bind at 1, modify at 1. set (s2 := set_current s1 (mode_of_move g) (Some (ctrl_of_move c))).
      change (outs_ok (trace s2)) in G1. clearbody s2.
      assert (R : outs_ok (trace (snd (execute_move c g d1 d2 s2))) /\ good (snd (execute_move c g d1 d2 s2))).
      { unfold execute_move. set (s3 := set_id (add_event s2 (EvRequest (n_id s2) (ReqMove c g d1 d2))) ((n_id s2 + 1) mod 2 ^ 32)).
        assert (G3 : good s3) by (split; [reflexivity|exact G1]).
        change (bind (send_request (ReqMove c g d1 d2)) ?f s2) with (f (n_id s2) s3).
        match goal with |- context [snd (?m s3)] => assert (R : gives (fun _ => True) m) end.
        { eapply gives_bind; [apply adds_gives, adds_response; quiet|]. intros r _.
          eapply gives_bind; [apply adds_gives, adds_as_result|]. intros _ _. apply adds_gives, adds_ret. }
        destruct (R s3 G3) as [G4 _]. split; [apply G4|exact G4]. }
      unfold bind at 1. destruct R as [_ G4]. destruct (execute_move c g d1 d2 s2) as [[id|e|p| |] s4]; cbn [snd] in G4;
        try (split; [apply G4|discriminate]).
      assert (S : gives (fun _ => True) (s0 <- get ;; start_loop (bound s0) id ;;; flush_log ;;; ret id)).
      { eapply gives_bind; [apply adds_gives, adds_get|]. intros s0 _.
        eapply gives_bind; [apply adds_gives, adds_start_loop; quiet|]. intros _ _.
        eapply gives_bind; [apply adds_gives, adds_flush_log|]. intros _ _. apply adds_gives, adds_ret. }
      destruct (S s4 G4) as [G5 _]. split; [apply G5|]. intros id' _. exact G5.
    Qed.
    Lemma keeps_control : forall cb, Inv zero_motion -> keeps (control k cb).
    Proof.
      intros cb HI. unfold control. apply keeps_bind.
      { intros s G. unfold new_intern, bind, get. destruct (r_rt s); [|exact G]. cbn.
        destruct (k_realtime s); [destruct (k_priority s)|]; exact G. }
      intros _ s0 G0. unfold bind. destruct (start_good (wanted_ctrl k) default_deviation default_deviation s0 G0) as [S1 S2].
      destruct (start_motion _ _ _ _ s0) as [[id|e|p| |] s]; cbn [snd fst] in S1, S2; try exact S1. specialize (S2 id eq_refl).
      unfold run_loop. destruct (gives_do_loop id cb HI s S2) as [[_ D] _].
      destruct (do_loop k id cb s) as [[u|e|p| |] s1]; try exact D. cbn [snd] in D.
      destruct (cancel_loop_states id s1) as (d & T & F). unfold bind.
      assert (G1 : outs_ok (trace (snd (cancel_motion id s1)))).
      { rewrite T. apply outs_app; [exact F|exact D]. }
      destruct (cancel_motion id s1) as [[v|e'|p| |] s2]; exact G1.
    Qed.
  End Loop.

  (** Calls other than control. *)
  Lemma keeps_ask : forall A B r (c : codec A) (f : A -> M B), (forall a, keeps (f a)) ->
    keeps (id <- send_request r ;; x <- blocking_response c id ;; f x).
  Proof.
    intros A B r c f H. apply keeps_bind.
    - apply adds_keeps. intros s0. apply (grew_one _ _ _ (EvRequest (n_id s0) r)); [reflexivity|exact Logic.I].
    - intros id. apply keeps_bind; [apply adds_keeps, adds_response; intros; auto; exact Logic.I|exact H].
  Qed.
  Lemma keeps_setter : forall r, keeps (setter r).
  Proof. intros r. unfold setter. apply keeps_ask. intros a. apply adds_keeps, adds_as_result. Qed.
  Lemma keeps_read : forall K (cb : K -> robot_state_intern -> option (K * bool)) fuel k, keeps (read_loop fuel cb k).
  Proof.
    intros K cb. induction fuel as [|fuel IH]; intros k; cbn [read_loop]; [intros s G; exact G|].
    apply keeps_bind; [apply adds_keeps, adds_update_none; intros; auto; exact Logic.I|]. intros x.
    apply keeps_bind; [intros s G; exact G|]. intros _.
    apply keeps_bind; [apply adds_keeps, adds_unwrap|]. intros p. destruct (snd p); [apply IH|apply adds_keeps, adds_ret].
  Qed.
  Lemma keeps_new : forall port, keeps (robot_new port).
  Proof.
    intros port. unfold robot_new. apply keeps_bind.
    - unfold connect_robot. apply keeps_ask. intros a. destruct (fst (snd a)); intros s G; exact G.
    - intros _ s G. pose proof (adds_block no_out s) as B. destruct B as (d & T & F).
      assert (G1 : outs_ok (trace (snd (udp_block s)))) by (rewrite T; apply outs_app; assumption).
      pose proof (block_state s) as W.
      destruct (udp_block s) as [[x|e|p| |] s1]; try exact G1. split; [eapply W; reflexivity|exact G1].
  Qed.

  (** A program all of whose control calls keep the relation. *)
  Definition keeping (a : api) : Prop := match a with AControl k cb => keeps (control k cb) | _ => True end.
  Lemma keeps_api : forall a, keeping a -> keeps (run_api a).
  Proof.
    intros [K cb k0| |k cb|r| | |w|] H; cbn [run_api].
    - apply keeps_bind; [|intros a; apply adds_keeps, adds_ret]. unfold robot_read.
      apply keeps_bind; [apply adds_keeps, adds_get|]. intros s. apply keeps_read.
    - apply keeps_bind; [apply adds_keeps, adds_read_once; intros; auto; exact Logic.I|]. intros a. apply adds_keeps, adds_ret.
    - exact H.
    - apply keeps_setter.
    - unfold automatic_error_recovery. apply keeps_ask. intros a. apply adds_keeps, adds_as_result.
    - unfold user_stop. apply keeps_ask. intros a. apply adds_keeps, adds_as_result.
    - apply keeps_bind; [|intros a; apply adds_keeps, adds_ret]. unfold get_virtual_wall. apply keeps_ask.
      intros a. apply keeps_bind; [apply adds_keeps, adds_as_result|]. intros _. apply adds_keeps, adds_ret.
    - unfold set_default_behavior. apply keeps_bind; [apply keeps_setter|]. intros _.
      apply keeps_bind; [apply keeps_setter|]. intros _. apply keeps_setter.
  Qed.
  Lemma keeps_calls : forall l s, Forall keeping l -> outs_ok (trace s) -> outs_ok (trace (run_calls l s)).
  Proof.
    induction l as [|a l IH]; intros s F G; [exact G|]. inversion F as [|? ? Ha F']; subst. cbn [run_calls].
    pose proof (keeps_api a Ha s G) as G1. destruct (run_api a s) as [[u|e|p| |] s1]; cbn [snd] in G1; auto.
  Qed.
  Lemma keeps_program : forall port l s, Forall keeping l -> trace s = [] -> outs_ok (trace (program port l s)).
  Proof.
    intros port l s F E. unfold program. pose proof (keeps_new port s) as G. rewrite E in G. specialize (G Logic.I).
    destruct (robot_new port s) as [[u|e|p| |] s1]; cbn [snd] in G; auto. apply keeps_calls; assumption.
  Qed.
End Outs.
