(** C24: status codes of the robot and the results of calls. *)
From Coq Require Import List NArith ZArith Bool Arith Lia String.
From Coq Require Import Init.Byte.
From Verif Require Import Bytes Codec WireModel WireSpec WireProofs WireProofs2 TcpModel UdpModel ErrorsModel LoggerModel
  RobotModel LoopModel RobotSpec Effects LogProofs RobotScenario StatusSpec StatusProofs.
From Verif Require LoopProofs.
Import ListNotations.
Open Scope list_scope.
Open Scope N_scope.

(** Setters: exactly one request; its response alone, by the table of the protocol, decides. *)
Theorem C24_setter : forall r s,
  match setter r s with
  | (Blocked, s') => trace s' = EvRequest (n_id s) r :: trace s
  | (o, s') => exists m, trace s' = EvReply (n_id s) m :: EvRequest (n_id s) r :: trace s /\ o = verdict setter_codes m
  end.
Proof. intros r s. apply (simple_call gs_status gs_statuses gs_status_N handle_setter setter_codes r s setter_table). Qed.
Print Assumptions C24_setter.

Theorem C24_stop : forall s,
  match user_stop s with
  | (Blocked, s') => trace s' = EvRequest (n_id s) ReqStopMove :: trace s
  | (o, s') => exists m, trace s' = EvReply (n_id s) m :: EvRequest (n_id s) ReqStopMove :: trace s /\ o = verdict stop_codes m
  end.
Proof. intros s. apply (simple_call stop_status stop_statuses stop_status_N handle_user_stop stop_codes ReqStopMove s stop_table). Qed.
Print Assumptions C24_stop.

Theorem C24_recovery : forall s,
  match automatic_error_recovery s with
  | (Blocked, s') => trace s' = EvRequest (n_id s) ReqAutomaticErrorRecovery :: trace s
  | (o, s') => exists m, trace s' = EvReply (n_id s) m :: EvRequest (n_id s) ReqAutomaticErrorRecovery :: trace s /\
                         o = verdict recovery_codes m
  end.
Proof.
  intros s. apply (simple_call recovery_status recovery_statuses recovery_status_N handle_recovery recovery_codes
    ReqAutomaticErrorRecovery s recovery_table).
Qed.
Print Assumptions C24_recovery.

(** Reading a virtual wall: a result only with status success (its length is 166 bytes). *)
Theorem C24_wall : forall w s,
  match get_virtual_wall w s with
  | (Ok r, s') => fst r = w /\ exists m, trace s' = EvReply (n_id s) m :: EvRequest (n_id s) (ReqGetCartesianLimit w) :: trace s /\
                    meaning setter_codes m = Some None
  | (Err e, s') => exists m t, trace s' = EvReply (n_id s) m :: EvRequest (n_id s) (ReqGetCartesianLimit w) :: trace s /\
                    meaning setter_codes m = Some (Some t) /\ e = CommandException t
  | (Panic p, s') => p = PDecodeTcp
  | (Blocked, s') => trace s' = EvRequest (n_id s) (ReqGetCartesianLimit w) :: trace s
  | (OutOfFuel, _) => False
  end.
Proof.
  intros w s. unfold get_virtual_wall. unfold bind at 1, send_request at 1. unfold bind at 1, blocking_response at 1.
  unfold bind at 1, wait_response at 1. cbn [n_id n_tsched n_table set_id add_event].
  destruct (wait_loop (n_id s) (n_tsched s) (n_table s)) as [[[m|] tb] ts]; [|reflexivity].
  unfold unwrap. destruct (deserialize c_wall_response m) as [[h [st rest]]|] eqn:D; [|reflexivity].
  destruct (wall_prefix m _ D) as [h2 D2]. cbn [fst snd] in D2.
  pose proof (reply_meaning gs_status gs_statuses gs_status_N handle_setter setter_codes setter_table m) as R.
  change (deserialize (c_robot_header ** c_enum 1 gs_status_N (enum_of gs_statuses gs_status_N)) m)
    with (deserialize c_setter_response m) in R. rewrite D2 in R. cbn [option_map snd] in R.
  destruct (meaning setter_codes m) as [[t|]|] eqn:Em; try discriminate R; injection R as R;
    cbn [ret fst snd]; unfold bind; rewrite R; cbn.
  - exists m, t. auto.
  - split; [reflexivity|]. exists m. auto.
Qed.
Print Assumptions C24_wall.

(** The request starting a motion. *)
Theorem C24_move : forall c mg path goal s,
  match execute_move c mg path goal s with
  | (Blocked, s') => trace s' = EvRequest (n_id s) (ReqMove c mg path goal) :: trace s
  | (o, s') => exists m, trace s' = EvReply (n_id s) m :: EvRequest (n_id s) (ReqMove c mg path goal) :: trace s /\
      match meaning move_codes m with
      | Some None => o = Ok (n_id s)
      | Some (Some t) => o = Err (CommandException t)
      | None => o = Panic PDecodeTcp
      end
  end.
Proof.
  intros c mg path goal s. unfold execute_move. unfold bind at 1, send_request at 1. unfold bind at 1.
  set (s1 := set_id _ _). pose proof (response_cases (n_id s) s1) as R.
  destruct (blocking_response c_move_response (n_id s) s1) as [[[h st]|e|p| |] s2]; try contradiction.
  - destruct R as (m & T & Mm & _). cbn [snd]. unfold bind. destruct (handle_move st) as [e|] eqn:H.
    + destruct (handle_move_command st e H) as [t ->]. cbn. exists m. rewrite Mm. split; [exact T|reflexivity].
    + cbn. exists m. rewrite Mm. split; [exact T|reflexivity].
  - destruct R as (-> & m & T & Mm). exists m. rewrite Mm. split; [exact T|reflexivity].
  - exact R.
Qed.
Print Assumptions C24_move.

Lemma start_loop_grows : forall id fuel s, Effects.grew (fun _ => True) s (snd (start_loop fuel id s)).
Proof. intros id fuel. apply Effects.adds_start_loop; intros; exact Logic.I. Qed.

(** Starting a motion: it succeeds only after a success code, and every error other than one of
    the network has the message of the code in the newest response. *)
Theorem C24_start : forall c mg path goal s,
  match start_motion c mg path goal s with
  | (Ok id, s') => id = n_id s /\ exists m, In (EvReply id m) (trace s') /\ meaning move_codes m = Some None
  | (Err e, s') => (exists n, e = NetworkException n) \/
      exists m t r, trace s' = EvReply (n_id s) m :: r /\ meaning move_codes m = Some (Some t) /\
        (e = CommandException t \/ e = ControlException None (ControlText t None))
  | _ => True
  end.
Proof.
  intros c mg path goal s. unfold start_motion. unfold bind at 1.
  assert (Ru : match motion_or_controller_running s with (Ok _, s') => s' = s | (Err _, _) => False | _ => True end).
  { unfold motion_or_controller_running, motion_generator_running, controller_running, bind, get, unwrap, ret.
    destruct (r_motion_mode s) as [mm|]; cbn; [destruct (mg_eqb mm MgIdle); reflexivity|exact Logic.I]. }
  destruct (motion_or_controller_running s) as [[b|e|p| |] s0]; try contradiction; try exact Logic.I. subst s0.
  destruct b; [exact Logic.I|]. unfold bind at 1, modify at 1. cbv beta iota. unfold bind at 1.
  set (s1 := set_current _ _ _). pose proof (C24_move c mg path goal s1) as Mv. change (n_id s1) with (n_id s) in Mv.
  destruct (execute_move c mg path goal s1) as [[id|e|p| |] s2]; try exact Logic.I; destruct Mv as (m & T & V).
  - destruct (meaning move_codes m) as [[t|]|] eqn:E; try discriminate V. injection V as ->.
    unfold bind at 1, get at 1. unfold bind at 1. pose proof (start_loop_errors (n_id s) (bound s2) s2) as L.
    pose proof (start_loop_grows (n_id s) (bound s2) s2) as G.
    destruct (start_loop (bound s2) (n_id s) s2) as [[u|e|p| |] s3]; auto.
    + unfold bind, flush_log. destruct (logger_flush (r_logger s3)) as [[log|] l]; [|exact Logic.I]. cbn.
      split; [reflexivity|]. exists m. split; [|exact E]. destruct G as (d & G & _). cbn [snd] in G. cbn. rewrite G, T.
      apply in_or_app. right. left. reflexivity.
    + destruct L as [L|(m2 & t & r & T2 & M2 & ->)]; [left; exact L|]. right. exists m2, t, r. auto.
  - destruct (meaning move_codes m) as [[t|]|] eqn:E; try discriminate V. injection V as ->. right. eauto 8.
Qed.
Print Assumptions C24_start.

(** The stop which the control loop sends after an error, and the loop going on only after its
    success (any other answer kills the thread, robot_impl.rs 398). *)
Theorem C24_loop_stop : forall s,
  match execute_stop s with
  | (Blocked, s') => trace s' = EvRequest (n_id s) ReqStopMove :: trace s
  | (o, s') => exists m, trace s' = EvReply (n_id s) m :: EvRequest (n_id s) ReqStopMove :: trace s /\
      match meaning cancel_codes m with
      | Some None => o = Ok (n_id s)
      | Some (Some t) => o = Err (CommandException t)
      | None => o = Panic PDecodeTcp
      end
  end.
Proof.
  intros s. pose proof (simple_call stop_status stop_statuses stop_status_N handle_stop cancel_codes ReqStopMove s cancel_table) as C.
  cbn zeta in C. revert C. unfold execute_stop, c_stop_response, c_stop_status.
  unfold bind at 1 2 3 4, send_request at 1 2. set (s1 := set_id _ _).
  destruct (blocking_response _ (n_id s) s1) as [[[h st]|e|p| |] s2]; unfold verdict, bind; cbn [snd].
  - destruct (handle_stop st) as [e|]; cbn; intros (m & T & V); exists m; (split; [exact T|]);
      destruct (meaning cancel_codes m) as [[t|]|]; try discriminate V; first [injection V as ->; reflexivity|reflexivity].
  - intros (m & T & V). exists m. split; [exact T|]. destruct (meaning cancel_codes m) as [[t|]|]; try discriminate V.
    injection V as ->. reflexivity.
  - intros (m & T & V). exists m. split; [exact T|]. destruct (meaning cancel_codes m) as [[t|]|]; try discriminate V.
    injection V as ->. reflexivity.
  - auto.
  - intros (m & T & V). unfold meaning in V. destruct (if robot_reply 13 m then _ else _) as [[]|]; discriminate V.
Qed.
Print Assumptions C24_loop_stop.

Theorem C24_cancel : forall id s,
  match cancel_motion id s with
  | (Ok _, s') => exists m, In (EvReply (n_id s) m) (trace s') /\ meaning cancel_codes m = Some None
  | (Err _, _) => False
  | _ => True
  end.
Proof.
  intros id s. pose proof (cancel_events id s) as (_ & _ & Ne).
  pose proof (C24_loop_stop s) as C.
  assert (G : forall s1 s', grew (fun _ => True) s1 s' -> forall m, In (EvReply (n_id s) m) (trace s1) -> In (EvReply (n_id s) m) (trace s')).
  { intros s1 s' (d & -> & _) m H. apply in_or_app. auto. }
  unfold cancel_motion in *. destruct (execute_stop s) as [[n|e|p| |] s1]; try contradiction; try exact Logic.I.
  destruct C as (m & T & V). destruct (meaning cancel_codes m) as [[t|]|] eqn:Em; try discriminate V.
  assert (R : grew (fun _ => True) s1 (snd (receive_robot_state s1))) by (apply adds_receive; intros; exact Logic.I).
  destruct (receive_robot_state s1) as [r s2]. cbn [snd] in R.
  assert (K : forall f, adds (fun _ => True) (cancel_loop f ;;; check_response c_move_response 13 id (fun _ => None) ;;; reset_current)).
  { intros f. apply adds_bind; [apply adds_cancel_loop; intros; exact Logic.I|intros].
    apply adds_bind; [apply adds_check; intros; exact Logic.I|intros]. apply adds_modify. reflexivity. }
  specialize (K (S (List.length (n_usched s2) + pending (n_udp s2) (n_usched s2))) s2).
  assert (In0 : In (EvReply (n_id s) m) (trace s1)) by (rewrite T; left; reflexivity).
  assert (Fin : forall o : outcome unit * st, grew (fun _ => True) s2 (snd o) ->
    match o with (Err _, _) => False | (Panic p, _) => odd p = false | _ => True end ->
    match o with
    | (Ok _, s') => exists m, In (EvReply (n_id s) m) (trace s') /\ meaning cancel_codes m = Some None
    | (Err _, _) => False
    | _ => True
    end).
  { intros [[u|e'|q| |] s3] K0 N0; try contradiction; try exact Logic.I. exists m. split; [|exact Em].
    exact (G _ _ K0 m (G _ _ R m In0)). }
  destruct r; try exact Logic.I; exact (Fin _ K Ne).
Qed.
Print Assumptions C24_cancel.

(** The response which explains why a motion stopped.  The text of the exception is the quoted
    message of its code; for the code "aborted by reflex" (6) the reflex reasons follow. *)
Theorem C24_motion_error : forall x id s,
  let followed := rs_robot_mode x = RmMove /\ r_motion_mode s = Some (r_cur_motion s) /\ r_cur_ctrl s = Some (r_ctrl_mode s) in
  match throw_on_motion_error x id s with
  | (Ok _, s') => s' = s /\ followed
  | (Err e, s') => ~ followed /\ exists m t log txt stats, trace s' = EvReply id m :: trace s /\
      meaning move_codes m = Some (Some t) /\ e = ControlException (Some log) (ControlText txt stats) /\
      (byte_at m 12 <> 6 -> txt = quoted t /\ stats = None) /\
      (byte_at m 12 = 6 -> exists es, franka_errors (rs_reflex_reason1 x) (rs_reflex_reason2 x) = Some es /\
         txt = (quoted t ++ " " ++ display_errors es)%string)
  | (Panic PUnexpectedReply, s') => exists m, trace s' = EvReply id m :: trace s /\ meaning move_codes m = Some None
  | (Panic PDecodeTcp, s') => exists m, trace s' = EvReply id m :: trace s /\ meaning move_codes m = None
  | (Panic PNotCommandException, _) => False
  | _ => True
  end.
Proof.
  intros x id s followed. unfold throw_on_motion_error. unfold bind at 1, get at 1. unfold bind at 1.
  match goal with |- context [match ?m s with _ => _ end] =>
    assert (B : match m s with (Ok bad, s') => s' = s /\ (bad = false <-> followed) | (Panic p, _) => p = PUnwrap | _ => False end) end.
  { unfold followed. destruct (negb (robot_mode_N _ =? _)) eqn:E1.
    { split; [reflexivity|]. split; [discriminate|]. intros [E _]. rewrite E in E1. discriminate E1. }
    assert (Rm : rs_robot_mode x = RmMove) by (destruct (rs_robot_mode x); cbn in E1; try discriminate E1; reflexivity).
    unfold bind, unwrap. destruct (r_motion_mode s) as [mm|]; [|reflexivity]. cbn.
    destruct (negb (mg_eqb _ _)) eqn:E2.
    { split; [reflexivity|]. split; [discriminate|]. intros (_ & E & _). injection E as ->.
      rewrite (proj2 (LoopProofs.mg_eqb_eq _ _) eq_refl) in E2. discriminate E2. }
    apply negb_false_iff, LoopProofs.mg_eqb_eq in E2. subst mm.
    destruct (r_cur_ctrl s) as [cc|]; [|reflexivity]. cbn. split; [reflexivity|]. rewrite negb_false_iff, LoopProofs.cm_eqb_eq.
    split; [intros <-; auto|]. intros (_ & _ & E). congruence. }
  match goal with |- context [match ?m s with _ => _ end] => destruct (m s) as [[bad|e|p| |] s0]; try contradiction end.
  2:{ subst p. exact Logic.I. }
  destruct B as [-> B]. clearbody followed.
  destruct bad; [|split; [reflexivity|apply B; reflexivity]].
  assert (Nf : ~ followed) by (intros F; apply B in F; discriminate F). clear B. unfold bind at 1. pose proof (response_cases id s) as R.
  destruct (blocking_response c_move_response id s) as [[[h st]|e|p| |] s1]; try contradiction; try exact Logic.I.
  2:{ destruct R as (-> & R). exact R. }
  destruct R as (m & T & Mm & By). cbn [snd]. destruct (handle_move st) as [e|] eqn:H; [|exists m; auto].
  destruct (handle_move_command st e H) as [t ->]. cbn [handled] in Mm.
  unfold throw_control, bind, reflex_text.
  destruct (franka_errors (rs_reflex_reason1 x) (rs_reflex_reason2 x)) as [es|]; [|exact Logic.I]. cbn [option_map unwrap ret].
  unfold flush_log. destruct (logger_flush (r_logger s1)) as [[log|] l]; [|exact Logic.I].
  assert (Nr : st <> MsReflexAborted -> create_control_exception (quoted t) st (display_errors es) log =
                 Ok (ControlException (Some log) (ControlText (quoted t) None))).
  { intros N. unfold create_control_exception. destruct st; try reflexivity. contradiction N; reflexivity. }
  destruct (N.eqb (move_status_N st) 6) eqn:E6.
  - assert (st = MsReflexAborted) by (destruct st; cbn in E6; try discriminate E6; reflexivity). subst st.
    apply N.eqb_eq in E6. unfold create_control_exception.
    destruct (@rev record log) as [|[a ca] [|[b cb] r]].
    + cbv beta iota zeta. split; [exact Nf|]. do 5 eexists. cbn [trace set_logger]. split; [exact T|]. split; [exact Mm|]. split; [reflexivity|].
      split; [intros N; contradiction N; congruence|]. intros _. exists es. split; reflexivity.
    + cbv beta iota zeta. split; [exact Nf|]. do 5 eexists. cbn [trace set_logger]. split; [exact T|]. split; [exact Mm|]. split; [reflexivity|].
      split; [intros N; contradiction N; congruence|]. intros _. exists es. split; reflexivity.
    + cbv beta iota zeta. destruct (_ <=? _); [|exact Logic.I]. destruct (1 <=? _); [|exact Logic.I].
      cbv beta iota zeta. split; [exact Nf|]. do 5 eexists. cbn [trace set_logger]. split; [exact T|]. split; [exact Mm|]. split; [reflexivity|].
      split; [intros N; contradiction N; congruence|]. intros _. exists es. split; reflexivity.
  - apply N.eqb_neq in E6. rewrite Nr by (intros ->; apply E6; reflexivity).
    cbv beta iota zeta. split; [exact Nf|]. do 5 eexists. cbn [trace set_logger]. split; [exact T|]. split; [exact Mm|]. split; [reflexivity|].
    split; [auto|]. intros B6. exfalso. apply E6. congruence.
Qed.
Print Assumptions C24_motion_error.

Lemma update_last : forall m c s x s', update m c s = (Ok x, s') -> last_state (trace s') = Some x.
Proof.
  intros m c s x s' E. unfold update in E. unfold bind at 1 in E.
  destruct (send_robot_command m c s) as [[o|e|p| |] s1]; try discriminate E. unfold bind at 1 in E.
  destruct (receive_robot_state s1) as [[y|e|p| |] s2] eqn:R; try discriminate E.
  assert (L : last_state (trace s2) = Some y).
  { unfold receive_robot_state in R. unfold bind at 1, get at 1 in R. unfold bind at 1 in R.
    destruct (poll_states _ _ s1) as [[l|e|p| |] s3]; try discriminate R. unfold bind at 1, get at 1 in R. unfold bind at 1 in R.
    destruct (match l with Some x => ret x | None => await_state (bound s3) end s3) as [[z|e|p| |] s4]; try discriminate R.
    cbn in R. injection R as <- <-. reflexivity. }
  destruct o as [c0|]; [|injection E as <- <-; exact L].
  unfold bind at 1, get at 1 in E. unfold bind at 1, unwrap in E. destruct (logger_log _ _ _) as [lg|]; [|discriminate E].
  cbn in E. injection E as <- <-. exact L.
Qed.
Lemma finish_loop_last : forall m c f l s, (forall y, l = Some y -> last_state (trace s) = Some y) ->
  match finish_loop f m c l s with
  | (Ok o, s') => forall x, o = Some x -> last_state (trace s') = Some x
  | _ => True
  end.
Proof.
  intros m c. induction f as [|f IH]; intros l s H; [exact Logic.I|]. cbn [finish_loop]. unfold bind at 1.
  assert (Ru : match motion_or_controller_running s with (Ok _, s') => s' = s | (Err _, _) => False | _ => True end).
  { unfold motion_or_controller_running, motion_generator_running, controller_running, bind, get, unwrap, ret.
    destruct (r_motion_mode s) as [mm|]; cbn; [destruct (mg_eqb mm MgIdle); reflexivity|exact Logic.I]. }
  destruct (motion_or_controller_running s) as [[b|e|p| |] s0]; try contradiction; try exact Logic.I. subst s0.
  destruct b; [|exact H]. unfold bind. destruct (update (Some m) c s) as [[x|e|p| |] s1] eqn:U; try exact Logic.I.
  apply IH. intros y [= <-]. exact (update_last _ _ _ _ _ U).
Qed.

(** Finishing a motion which the robot still executes: success only for a success code; for a
    reflex the text says that the robot is still moving and names the errors of the last state. *)
Theorem C24_finish : forall id mo c s,
  match finish_motion id mo c s with
  | (Ok _, s') => s' = set_current s MgIdle (Some CmOther) \/
      exists m r, trace s' = EvReply id m :: r /\ meaning move_codes m = Some None
  | (Err (ControlException (Some _) (ControlText txt _)), s') =>
      exists m t r, trace s' = EvReply id m :: r /\ meaning move_codes m = Some (Some t) /\
        (byte_at m 12 <> 6 -> txt = t) /\
        (byte_at m 12 = 6 -> exists x es, last_state (trace s') = Some x /\
           franka_errors (rs_reflex_reason1 x) (rs_reflex_reason2 x) = Some es /\
           txt = ("Motion finished commanded, but the robot is still moving! " ++ display_errors es)%string)
  | (Err (CommandException _), _) => False
  | _ => True
  end.
Proof.
  intros id mo c s. unfold finish_motion. unfold bind at 1.
  assert (Ru : match motion_or_controller_running s with (Ok _, s') => s' = s | (Err _, _) => False | _ => True end).
  { unfold motion_or_controller_running, motion_generator_running, controller_running, bind, get, unwrap, ret.
    destruct (r_motion_mode s) as [mm|]; cbn; [destruct (mg_eqb mm MgIdle); reflexivity|exact Logic.I]. }
  destruct (motion_or_controller_running s) as [[b|e|p| |] s0]; try contradiction; try exact Logic.I. subst s0.
  destruct b; [|left; reflexivity]. destruct mo as [mo|]; [|exact Logic.I].
  unfold bind at 1, get at 1. unfold bind at 1.
  assert (Fe : match finish_loop (bound s) (set_finished mo) c None s with
               | (Err (CommandException _), _) => False | (Err (ControlException _ _), _) => False | _ => True end).
  { assert (Up : forall m c s, match update m c s with (Err (CommandException _), _) => False | (Err (ControlException _ _), _) => False | _ => True end).
    { clear. intros m c s. unfold update, bind at 1.
      assert (Se : match send_robot_command m c s with (Err (CommandException _), _) => False | (Err (ControlException _ _), _) => False | _ => True end).
      { unfold send_robot_command, bind, get, ret, throw, unwrap, udp_send, panic_with.
        destruct m, c; auto; destruct (mg_eqb (r_cur_motion s) MgIdle); destruct (r_cur_ctrl s) as [[]|]; cbn; auto;
          destruct (n_sends s) as [|[] r]; cbn; auto. }
      destruct (send_robot_command m c s) as [[o|e|p| |] s1]; auto. unfold bind.
      pose proof (net_receive s1) as Nr. destruct (receive_robot_state s1) as [[x|e|p| |] s2]; auto.
      - destruct o; [|exact Logic.I]. cbn. destruct (logger_log _ _ _); exact Logic.I.
      - destruct Nr as [n ->]. exact Logic.I. }
    generalize (bound s) (@None robot_state_intern). intros f. revert s. induction f as [|f IH]; intros s l; [exact Logic.I|].
    cbn [finish_loop]. unfold bind at 1.
    assert (Ru : match motion_or_controller_running s with (Err _, _) => False | _ => True end).
    { unfold motion_or_controller_running, motion_generator_running, controller_running, bind, get, unwrap, ret.
      destruct (r_motion_mode s) as [mm|]; cbn; [destruct (mg_eqb mm MgIdle)|]; exact Logic.I. }
    destruct (motion_or_controller_running s) as [[b|e|p| |] s0]; try contradiction; try exact Logic.I.
    destruct b; [|exact Logic.I]. unfold bind. specialize (Up (Some (set_finished mo)) c s0).
    destruct (update _ c s0) as [[x|e|p| |] s1]; auto. apply IH. }
  pose proof (finish_loop_last (set_finished mo) c (bound s) None s) as Fl.
  destruct (finish_loop _ _ _ _ s) as [[l|e|p| |] s1]; try exact Logic.I.
  2:{ destruct e as [[lg|] tx| | | | | | |]; try exact Logic.I; try contradiction. }
  unfold bind at 1, unwrap at 1. destruct l as [x|]; [|exact Logic.I]. cbn [ret]. unfold bind at 1.
  assert (La : last_state (trace s1) = Some x) by (apply Fl; [discriminate|reflexivity]). clear Fl.
  pose proof (response_cases id s1) as R.
  destruct (blocking_response c_move_response id s1) as [[[h st]|e|p| |] s2]; try contradiction; try exact Logic.I.
  destruct R as (m & T & Mm & By). cbn [snd].
  assert (Th : forall msg, match @throw_control unit msg st x s2 with
     | (Ok _, _) => False
     | (Err (ControlException (Some _) (ControlText txt _)), s') => trace s' = trace s2 /\ (st <> MsReflexAborted -> txt = msg) /\
         (st = MsReflexAborted -> exists es, franka_errors (rs_reflex_reason1 x) (rs_reflex_reason2 x) = Some es /\
                                              txt = (msg ++ " " ++ display_errors es)%string)
     | (Err (CommandException _), _) => False
     | _ => True end).
  { intros msg. unfold throw_control, bind, reflex_text.
    destruct (franka_errors (rs_reflex_reason1 x) (rs_reflex_reason2 x)) as [es|]; [|exact Logic.I]. cbn [option_map unwrap ret].
    unfold flush_log. destruct (logger_flush (r_logger s2)) as [[log|] lg]; [|exact Logic.I].
    unfold create_control_exception. destruct st; try (split; [reflexivity|split; [reflexivity|discriminate]]).
    assert (G : forall o, trace (set_logger s2 lg) = trace s2 /\ (MsReflexAborted <> MsReflexAborted -> (msg ++ " " ++ display_errors es)%string = msg) /\
         (MsReflexAborted = MsReflexAborted -> exists es0, Some es = Some es0 /\
            (msg ++ " " ++ display_errors es)%string = (msg ++ " " ++ display_errors es0)%string) \/ o = true).
    { intros o. left. split; [reflexivity|]. split; [intros N; contradiction N; reflexivity|]. intros _. exists es. auto. }
    destruct (G false) as [G'|G']; [clear G|discriminate G'].
    destruct (@rev record log) as [|[a ca] [|[b cb] r]]; cbv beta iota zeta; try exact G'.
    destruct (_ <=? _); [|exact Logic.I]. destruct (1 <=? _); [|exact Logic.I]. exact G'. }
  assert (Fin : forall msg, (handled (handle_move st) = Some msg /\ st <> MsReflexAborted) \/
      (st = MsReflexAborted /\ msg = "Motion finished commanded, but the robot is still moving!"%string) -> match @throw_control unit msg st x s2 with
     | (Ok _, s') => s' = set_current s MgIdle (Some CmOther) \/
      exists m r, trace s' = EvReply id m :: r /\ meaning move_codes m = Some None
     | (Err (ControlException (Some _) (ControlText txt _)), s') => exists m t r, trace s' = EvReply id m :: r /\ meaning move_codes m = Some (Some t) /\
        (byte_at m 12 <> 6 -> txt = t) /\
        (byte_at m 12 = 6 -> exists x es, last_state (trace s') = Some x /\
           franka_errors (rs_reflex_reason1 x) (rs_reflex_reason2 x) = Some es /\
           txt = ("Motion finished commanded, but the robot is still moving! " ++ display_errors es)%string)
     | (Err (CommandException _), _) => False
     | _ => True end).
  { intros msg Hm. specialize (Th msg). destruct (throw_control msg st x s2) as [[u|e|p| |] s3]; try contradiction; try exact Logic.I.
    destruct e as [[lg|] [txt stats]| | | | | | |]; try exact Logic.I; try contradiction.
    destruct Th as (T3 & N & N6). destruct Hm as [[Hm Hr]|[-> ->]].
    - exists m, msg, (trace s1). rewrite T3, Mm, Hm. split; [exact T|]. split; [reflexivity|].
      split; [intros _; apply N; exact Hr|]. intros B6. exfalso. apply Hr.
      rewrite By in B6. destruct st; cbn in B6; try discriminate B6. reflexivity.
    - exists m. eexists. exists (trace s1). rewrite T3, Mm. split; [exact T|]. split; [reflexivity|].
      split; [intros B6; contradiction (B6 By)|]. intros _. destruct (N6 eq_refl) as (es & Es & ->).
      exists x, es. rewrite T. split; [exact La|]. split; [exact Es|reflexivity]. }
  destruct st; cbn [handle_move]; try (apply Fin; left; split; [reflexivity|discriminate]);
    try (apply Fin; right; split; reflexivity); right; exists m, (trace s1); split; try exact T; exact Mm.
Qed.
Print Assumptions C24_finish.

(** Tests: byte strings written by hand. *)
Definition reply_bytes (cmd id status : N) : list byte :=
  le_bytes 4 cmd ++ le_bytes 4 id ++ le_bytes 4 13 ++ le_bytes 1 status.
Definition ask (bytes : list byte) : st :=
  after_new (st_init 10 RtIgnore (ex_first (ex_idle 1)) [ex_connected 0; Some (1, bytes)] [] true true).
Example C24_ex_setter :
  fst (setter (ReqSetGuidingMode (repeat true 6) true) (ask (reply_bytes 9 1 0))) = Ok tt /\
  fst (setter (ReqSetGuidingMode (repeat true 6) true) (ask (reply_bytes 9 1 2)))
    = Err (CommandException "libfranka-rs: command rejected: invalid argument!") /\
  fst (setter (ReqSetGuidingMode (repeat true 6) true) (ask (reply_bytes 9 1 3))) = Panic PDecodeTcp.
Proof. vm_compute. auto. Qed.
Example C24_ex_wall :
  let m st := le_bytes 4 8 ++ le_bytes 4 1 ++ le_bytes 4 166 ++ le_bytes 1 st ++ repeat x00 152 ++ [x01] in
  fst (get_virtual_wall 3 (ask (m 0))) = Ok (3%Z, (repeat 0 3, (repeat 0 16, true))) /\
  fst (get_virtual_wall 3 (ask (m 1))) = Err (CommandException not_possible).
Proof. vm_compute. auto. Qed.
Example C24_ex_stop :
  fst (user_stop (ask (reply_bytes 2 1 0))) = Ok tt /\
  fst (user_stop (ask (reply_bytes 2 1 2))) = Err (CommandException "libfranka-rs: command aborted: User Stop pressed!") /\
  fst (execute_stop (ask (reply_bytes 2 1 4))) = Err (CommandException "libfranka-rs: Stop command aborted!").
Proof. vm_compute. auto. Qed.
Example C24_ex_recovery :
  fst (automatic_error_recovery (ask (reply_bytes 10 1 2)))
    = Err (CommandException "libfranka-rs: command rejected: manual error recovery required!").
Proof. vm_compute. auto. Qed.
Example C24_ex_move :
  fst (start_motion McJointImpedance MmJointPosition default_deviation default_deviation (ask (reply_bytes 1 1 4)))
    = Err (CommandException "libfranka-rs: Move command rejected: cannot start at singular pose!").
Proof. vm_compute. auto. Qed.
(** A run which ends in [C24_motion_error] with code 6, and one which ends in [C24_finish]. *)
Example C24_ex_motion :
  match outcome_of ex_env_reflex with
  | Err (ControlException (Some log) (ControlText txt stats)) =>
      txt = (quoted "libfranka-rs: Move command aborted: motion aborted by reflex!" ++ " [")%string /\
      List.length log = 2%nat
  | _ => False
  end.
Proof. vm_compute. auto. Qed.
