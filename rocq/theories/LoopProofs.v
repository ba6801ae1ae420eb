(** The control loop keeps the trace lawful. *)
From Coq Require Import List NArith ZArith Bool Arith Lia String.
From Coq Require Import Init.Byte.
From Verif Require Import Bytes Codec WireModel TcpModel UdpModel UdpSpec UdpProofs ErrorsModel LoggerModel
  RobotModel LoopModel RobotSpec RobotProofs RobotWp.
Import ListNotations.
Open Scope list_scope.
Open Scope N_scope.

(** [quiet] up to the log. *)
Definition calm (s s' : st) : Prop :=
  n_udp s' = n_udp s /\ n_usched s' = n_usched s /\
  r_motion_mode s' = r_motion_mode s /\ r_ctrl_mode s' = r_ctrl_mode s /\
  r_message_id s' = r_message_id s /\ r_cur_motion s' = r_cur_motion s /\ r_cur_ctrl s' = r_cur_ctrl s /\
  exists d, trace s' = d ++ trace s /\ Forall neutral d.
Lemma calm_refl : forall s, calm s s.
Proof. intros. repeat split. exists []. auto. Qed.
Lemma calm_trans : forall a b c, calm a b -> calm b c -> calm a c.
Proof.
  unfold calm. intros a b c (?&?&?&?&?&?&?&d1&T1&F1) (?&?&?&?&?&?&?&d2&T2&F2).
  repeat (split; [congruence|]). exists (d2 ++ d1). split; [rewrite T2, T1, app_assoc; reflexivity|].
  apply Forall_app. auto.
Qed.
Lemma quiet_calm : forall s s', quiet s s' -> calm s s'.
Proof. unfold quiet, calm. intros s s' (?&?&?&?&?&?&?&?&?&?). repeat (split; [assumption|]). assumption. Qed.
Lemma calm_logger : forall s l, calm s (set_logger s l).
Proof. intros. repeat (split; [reflexivity|]). exists []. auto. Qed.
Lemma calm_I : forall s s', calm s s' -> I s -> I s'.
Proof.
  unfold calm, I, good, synced. intros s s' (E1&E2&E4&E5&E6&E7&E8&d&T&F) (G & L & x & S).
  rewrite E1, T, E4, E5, E6. split; [exact G|]. split; [apply lawful_app; auto|].
  exists x. rewrite last_state_app; auto.
Qed.

Lemma wp_flush_log : forall s, wp flush_log (fun _ s' => exists l, s' = set_logger s l)
  (fun _ _ => False) (fun p s' => p = Some PLog /\ exists l, s' = set_logger s l) s.
Proof.
  intros. unfold wp, flush_log, logger_flush.
  destruct (flush_from _ _ _); [|split; [reflexivity|]]; eexists; reflexivity.
Qed.
Lemma wp_throw_control : forall A m status x s,
  wp (@throw_control A m status x) (fun _ _ => False) (fun _ => calm s)
     (fun p s' => calm s s' /\ p <> Some PTimeStep) s.
Proof.
  intros. unfold throw_control. apply wp_bind, wp_unwrap; [|intros; split; [apply calm_refl|discriminate]].
  intros r _. apply wp_bind. eapply wp_mono; [apply wp_flush_log| | |]; [|intros ? ? []|].
  2:{ intros p s1 (-> & l & ->). split; [apply calm_logger|discriminate]. }
  intros log s1 (lg & ->). assert (C := calm_logger s lg). unfold wp, create_control_exception.
  destruct status; try exact C.
  destruct (rev log) as [|[s1' c1] [|[s2' c2] l]]; try exact C.
  destruct (_ <=? _); [|split; [exact C|discriminate]].
  destruct (1 <=? _); [exact C|split; [exact C|discriminate]].
Qed.

Definition running (s : st) : Prop :=
  r_motion_mode s <> Some MgIdle \/ r_ctrl_mode s = CmExternalController.
Lemma mg_eqb_eq : forall a b, mg_eqb a b = true <-> a = b.
Proof. intros [] []; split; intros H; try reflexivity; discriminate. Qed.
Lemma cm_eqb_eq : forall a b, cm_eqb a b = true <-> a = b.
Proof. intros [] []; split; intros H; try reflexivity; discriminate. Qed.

Lemma wp_running : forall s, I s -> wp motion_or_controller_running
  (fun b s' => s' = s /\ (b = true <-> running s)) (fun _ _ => False) (fun _ _ => False) s.
Proof.
  intros s (_ & _ & x & _ & _ & Sm & Sc). unfold motion_or_controller_running, motion_generator_running.
  apply wp_bind, wp_bind, wp_get, wp_bind, wp_unwrap.
  - intros m Hm. apply wp_ret. unfold running. rewrite Hm.
    destruct (mg_eqb m MgIdle) eqn:E; cbn [negb].
    + apply mg_eqb_eq in E. subst m. unfold controller_running. apply wp_bind, wp_get, wp_ret.
      split; [reflexivity|]. rewrite cm_eqb_eq. intuition congruence.
    + apply wp_ret. split; [reflexivity|]. split; [|reflexivity]. intros _. left. intros F. injection F as ->.
      discriminate.
  - intros H. congruence.
Qed.

Definition torques (c : option (list N)) : list N := match c with Some t => t | None => zero7 end.
Definition has {A} (o : option A) : bool := match o with Some _ => true | None => false end.
Definition is_ext (c : ctrl_mode) : bool := cm_eqb c CmExternalController.

(** The fields set by [start_motion]. *)
Definition moving (s : st) (c : ctrl_mode) (g : mg_mode) : Prop :=
  g <> MgIdle /\ r_cur_motion s = g /\ r_cur_ctrl s = Some c.
Lemma calm_moving : forall s s' c g, calm s s' -> moving s c g -> moving s' c g.
Proof. unfold calm, moving. intros s s' c g (?&?&?&?&?&E1&E2&_) [? ?]. rewrite E1, E2. auto. Qed.
Lemma same_moving : forall s s' c g, same s s' -> moving s c g -> moving s' c g.
Proof. unfold same, moving. intros s s' c g (?&?&?&?&?&?&E1&E2&_) [? ?]. rewrite E1, E2. auto. Qed.

(** A step after which the command [c] may or may not have been sent. *)
Definition maybe_sent (s s' : st) (c : robot_command) : Prop :=
  trace s' = trace s \/ exists a, trace s' = EvCommand a c :: trace s.

Lemma wp_send : forall s m ctl c g, moving s c g -> has ctl = is_ext c ->
  wp (send_robot_command (Some m) ctl)
     (fun o s' => o = Some (RobotCommand (r_message_id s) m (torques ctl)) /\ exists l,
        s' = add_event (set_sends s l) (EvCommand (u_server (n_udp s)) (RobotCommand (r_message_id s) m (torques ctl))))
     (fun e s' => e = NetworkException NeSend /\ exists l, s' = set_sends s l)
     (fun _ _ => False) s.
Proof.
  intros s m ctl c g (Hg & Hm & Hc) Hx. unfold send_robot_command. apply wp_bind, wp_get.
  assert (Em : mg_eqb (r_cur_motion s) MgIdle = false).
  { destruct (mg_eqb _ _) eqn:E; [|reflexivity]. apply mg_eqb_eq in E. congruence. }
  rewrite Em, Hc. cbn [andb negb unwrap].
  destruct ctl as [t|]; cbn [has] in Hx; unfold is_ext in Hx; rewrite <- ?Hx; cbn [torques].
  - apply wp_bind. apply wp_bind, wp_ret. rewrite <- Hx. apply wp_ret.
    apply wp_bind, wp_bind, wp_ret. rewrite <- Hx. cbn [andb orb negb].
    apply wp_ret, wp_bind. unfold wp, udp_send. destruct (n_sends s) as [|[] l] eqn:El; cbn.
    + split; [reflexivity|]. exists []. rewrite <- El. destruct s; reflexivity.
    + split; [reflexivity|]. exists l. reflexivity.
    + split; [reflexivity|]. exists l. reflexivity.
  - apply wp_bind, wp_ret, wp_bind, wp_bind, wp_ret. rewrite <- Hx. cbn [andb].
    apply wp_ret, wp_bind. unfold wp, udp_send. destruct (n_sends s) as [|[] l] eqn:El; cbn.
    + split; [reflexivity|]. exists []. rewrite <- El. destruct s; reflexivity.
    + split; [reflexivity|]. exists l. reflexivity.
    + split; [reflexivity|]. exists l. reflexivity.
Qed.

Lemma wp_update : forall s m ctl c g, I s -> moving s c g -> has ctl = is_ext c ->
  let cmd := RobotCommand (r_message_id s) m (torques ctl) in
  (forall a, ok (EvCommand a cmd) (trace s)) ->
  wp (update (Some m) ctl)
     (fun x s' => I s' /\ moving s' c g /\ (exists a, trace s' = EvState x :: EvCommand a cmd :: trace s) /\
                  shrinks s s' /\ (upend s' < upend s)%nat)
     (fun e s' => I s' /\ moving s' c g /\ maybe_sent s s' cmd /\ shrinks s s')
     anyL s.
Proof.
  intros s m ctl c g HI Hm Hx cmd Hok. unfold update. apply wp_bind.
  eapply wp_mono; [apply (wp_send s m ctl c g Hm Hx)| | |].
  - intros o s1 (-> & l & ->). fold cmd. set (a := u_server (n_udp s)).
    set (s1 := add_event (set_sends s l) (EvCommand a cmd)).
    assert (I1 : I s1).
    { destruct HI as (G & L & y & Sy). split; [exact G|]. split; [split; [apply Hok|exact L]|]. exists y. exact Sy. }
    apply wp_bind. eapply wp_mono; [apply (wp_receive s1 I1)| | |].
    + intros x s2 (I2 & Sm & T2 & Sh & Lt). apply wp_bind, wp_get, wp_bind, wp_unwrap.
      * intros lg _. apply wp_bind, wp_modify, wp_ret.
        split; [exact (calm_I _ _ (calm_logger s2 lg) I2)|].
        split; [exact (same_moving _ _ _ _ Sm Hm)|].
        split; [exists a; exact T2|].
        split; [exact Sh|exact Lt].
      * intros _. apply I_anyL; [exact I2|discriminate].
    + intros e s2 (I2 & Sm & T2 & Sh & _). split; [exact I2|].
      split; [exact (same_moving _ _ _ _ Sm Hm)|].
      split; [right; exists a; exact T2|exact Sh].
    + intros p s2 (I2 & _ & _ & ->). apply I_anyL; [exact I2|discriminate].
  - intros e s1 (_ & l & ->). split; [exact HI|]. split; [exact Hm|].
    split; [left; reflexivity|exact (shrinks_refl s)].
  - intros ? ? [].
Qed.

(** * Starting *)
Lemma wp_execute_move : forall c m p g s, I s -> wp (execute_move c m p g)
  (fun _ => quiet s) (fun _ => quiet s) (fun _ => quiet s) s.
Proof.
  intros. apply wp_ask. intros. apply wp_bind, wp_as_result; intros; apply quiet_refl.
Qed.

(** The newest state shows the modes asked for. *)
Definition shows_current (s : st) : Prop :=
  r_motion_mode s = Some (r_cur_motion s) /\ r_cur_ctrl s = Some (r_ctrl_mode s).

Lemma wp_start_loop : forall id fuel s, I s -> (upend s < fuel)%nat -> r_cur_ctrl s <> None ->
  wp (start_loop fuel id)
     (fun _ s' => I s' /\ r_cur_motion s' = r_cur_motion s /\ r_cur_ctrl s' = r_cur_ctrl s /\
        exists d, trace s' = d ++ trace s /\
          Forall (fun e => match e with EvState _ | EvReply _ _ => True | _ => False end) d /\
          (shows_current s' \/ exists m r d', d = EvReply id m :: d' /\ deserialize c_move_response m = Some r /\
                                  handle_move (snd r) = None))
     anyI anyL s.
Proof.
  intros id. induction fuel as [|fuel IH]; intros s HI Hf Hc; [lia|]. cbn [start_loop].
  apply wp_bind. unfold modes_differ. apply wp_bind, wp_get, wp_bind, wp_unwrap.
  2:{ intros _. apply I_anyL; [exact HI|discriminate]. }
  intros mm Hmm. apply wp_ret. destruct (negb _ || negb _) eqn:Ed.
  2:{ apply wp_ret. repeat (split; [auto|]). exists []. split; [reflexivity|]. split; [constructor|]. left.
      apply orb_false_iff in Ed. destruct Ed as [Ed1 Ed2]. apply negb_false_iff in Ed1, Ed2.
      apply mg_eqb_eq in Ed1. subst mm. destruct (r_cur_ctrl s) as [c|] eqn:Ec; [|discriminate].
      apply cm_eqb_eq in Ed2. split; [exact Hmm|]. rewrite Ec. congruence. }
  pose proof (wp_check_response _ c_move_response 13 id (fun r => handle_move (snd r)) s) as W.
  unfold wp in W |- *. cbv beta.
  destruct (check_response _ _ _ _ s) as [[b|e|p| |] s1]; try contradiction.
  - destruct W as [Q W]. assert (I1 := quiet_I _ _ Q HI). destruct b.
    + destruct W as (m & a & T & Da & Ha).
      split; [exact I1|]. destruct Q as (_&_&_&_&_&_&E1&E2&_). repeat (split; [assumption|]).
      exists [EvReply id m]. split; [exact T|]. split; [repeat constructor|]. right. exists m, a, []. auto.
    + change (wp (update None None ;;; start_loop fuel id)
        (fun _ s' => I s' /\ r_cur_motion s' = r_cur_motion s /\ r_cur_ctrl s' = r_cur_ctrl s /\
        exists d, trace s' = d ++ trace s /\
          Forall (fun e => match e with EvState _ | EvReply _ _ => True | _ => False end) d /\
          (shows_current s' \/ exists m r d', d = EvReply id m :: d' /\ deserialize c_move_response m = Some r /\
                                  handle_move (snd r) = None)) anyI anyL s1).
      apply wp_bind. eapply wp_mono; [apply (wp_update_none s1 I1)| | |].
      * intros x s2 (I2 & Sm & T2 & Sh & Lt).
        assert (Hq : quiet s s1) by exact Q. destruct Q as (_&_&_&_&_&_&E1&E2&_).
        destruct Sm as (_&_&_&_&_&_&F1&F2&_).
        eapply wp_mono; [apply IH| | |]; auto.
        -- rewrite (quiet_upend _ _ Hq) in Lt. lia.
        -- congruence.
        -- intros u s3 (I3 & G1 & G2 & d & T3 & Fd & Sh3). split; [exact I3|].
           split; [congruence|]. split; [congruence|].
           exists (d ++ [EvState x]). rewrite T3, T2, W, <- app_assoc. split; [reflexivity|].
           split; [apply Forall_app; split; [exact Fd|repeat constructor]|].
           destruct Sh3 as [Sh3|(mm3 & r3 & d3 & -> & D3 & H3)]; [left; exact Sh3|right].
           exists mm3, r3, (d3 ++ [EvState x]). auto.
      * intros e s2 (I2 & _). exact I2.
      * intros p s2 (I2 & _ & _ & ->). apply I_anyL; [exact I2|discriminate].
  - destruct W as [Q (m & a & T & _ & Hh)]. assert (I1 := quiet_I _ _ Q HI).
    destruct e; try exact I1; (apply I_anyL; [exact I1|discriminate]).
  - destruct W as [Q [E|E]]; rewrite E; (apply I_anyL; [exact (quiet_I _ _ Q HI)|discriminate]).
  - destruct W as [Q [E|E]]; discriminate E.
Qed.

(** Events after the last move request which are neither outputs nor callbacks. *)
Definition plain (e : event) : Prop :=
  match e with EvState _ | EvReply _ _ | EvRequest _ (ReqMove _ _ _ _) => False | _ => True end.

(** Right after a successful start: no callback yet, no output. *)
Definition started (c : move_ctrl) (m : move_mg) (t : list event) : Prop :=
  motion_ctrl t = Some c /\ motion_mode t = Some m /\ completed t = false /\ newest_output (this_motion t) = None /\ newest_torques (this_motion t) = None /\
  newest_motion_call (this_motion t) = None.

Lemma started_app : forall d id c m p g t,
  Forall (fun e => match e with EvState _ | EvReply _ _ => True | _ => False end) d ->
  started c m (d ++ EvRequest id (ReqMove c m p g) :: t).
Proof.
  unfold started, completed. induction d as [|e d IH]; intros id c m p g t F; [cbn; repeat split|].
  inversion F; subst. destruct e; try contradiction; cbn; apply IH; assumption.
Qed.

Lemma mode_of_move_running : forall m, mode_of_move m <> MgIdle.
Proof. intros []; discriminate. Qed.

Lemma wp_start_motion : forall c m p g s, I s -> wp (start_motion c m p g)
  (fun id s' => I s' /\ moving s' (ctrl_of_move c) (mode_of_move m) /\ started c m (trace s') /\ id = n_id s /\
     exists d m1 r1, trace s' = d ++ EvReply id m1 :: EvRequest id (ReqMove c m p g) :: trace s /\
       deserialize c_move_response m1 = Some r1 /\ handle_move (snd r1) = None /\
       ((r_motion_mode s' = Some (mode_of_move m) /\ r_ctrl_mode s' = ctrl_of_move c) \/
        exists m2 r2 d', d = EvReply id m2 :: d' /\ deserialize c_move_response m2 = Some r2 /\
          handle_move (snd r2) = None))
  anyI anyL s.
Proof.
  intros c m p g s HI. unfold start_motion. apply wp_bind.
  eapply wp_mono; [apply (wp_running s HI)| | |]; [|intros ? ? []|intros ? ? []].
  intros b s0 (-> & _). destruct b; [apply wp_panic, I_anyL; [exact HI|discriminate]|].
  apply wp_bind, wp_modify.
  set (s1 := set_current s (mode_of_move m) (Some (ctrl_of_move c))).
  assert (I1 : I s1) by exact HI.
  apply wp_bind. unfold execute_move. apply wp_bind, wp_send_request.
  set (s2 := set_id _ _).
  assert (Q2 : quiet s1 s2) by apply quiet_request.
  assert (I2 := quiet_I _ _ Q2 I1).
  apply wp_bind. eapply wp_mono; [apply wp_blocking_response| | |]; [|intros ? ? []|].
  2:{ intros q s3 [Q3 Hq]. apply I_anyL; [exact (quiet_I _ _ Q3 I2)|]. destruct Hq as [->| ->]; discriminate. }
  intros r s3 (Q3 & mm & T3 & D3). assert (I3 := quiet_I _ _ Q3 I2).
  apply wp_bind, wp_as_result; [|intros; exact I3]. intros Hr. apply wp_ret.
  apply wp_bind, wp_get, wp_bind.
  assert (C3 : r_cur_motion s3 = mode_of_move m /\ r_cur_ctrl s3 = Some (ctrl_of_move c)).
  { destruct Q3 as (_&_&_&_&_&_&E1&E2&_). rewrite E1, E2. auto. }
  eapply wp_mono; [apply (wp_start_loop (n_id s1) (bound s3) s3 I3)| | |]; auto.
  - destruct C3 as [_ ->]. discriminate.
  - intros u s4 (I4 & G1 & G2 & d & T4 & Fd & Sh4). apply wp_bind.
    eapply wp_mono; [apply wp_flush_log| | |]; [|intros ? ? []|].
    + intros l s5 (lg & ->). assert (C5 := calm_logger s4 lg).
      apply wp_ret. split; [exact (calm_I _ _ C5 I4)|].
      split.
      * unfold moving. cbn [r_cur_motion r_cur_ctrl set_logger]. rewrite G1, G2.
        destruct C3 as [-> ->]. split; [apply mode_of_move_running|split; reflexivity].
      * assert (T5 : trace (set_logger s4 lg) =
          d ++ EvReply (n_id s1) mm :: EvRequest (n_id s1) (ReqMove c m p g) :: trace s1)
          by (cbn [trace set_logger]; rewrite T4, T3; reflexivity).
        split; [|split; [reflexivity|]].
        2:{ exists d, mm, r. split; [exact T5|]. split; [exact D3|]. split; [exact Hr|].
            destruct Sh4 as [[Sh4 Sh5]|Sh4]; [left|right; exact Sh4].
            cbn [r_motion_mode r_ctrl_mode set_logger]. destruct C3 as [C3 C4].
            rewrite G1, C3 in Sh4. rewrite G2, C4 in Sh5. split; [exact Sh4|congruence]. }
        rewrite T5.
        change (d ++ EvReply (n_id s1) mm :: EvRequest (n_id s1) (ReqMove c m p g) :: trace s1)
          with (d ++ [EvReply (n_id s1) mm] ++ EvRequest (n_id s1) (ReqMove c m p g) :: trace s1).
        rewrite app_assoc. apply started_app. apply Forall_app. split; [exact Fd|]. repeat constructor.
    + intros p0 s5 (-> & lg & ->). apply I_anyL; [exact I4|discriminate].
Qed.

(** * Errors of a motion *)
Lemma wp_throw_on : forall x id s, I s -> r_cur_ctrl s <> None -> wp (throw_on_motion_error x id)
  (fun _ s' => s' = s /\ rs_robot_mode x = RmMove /\ shows_current s) (fun _ => calm s) anyL s.
Proof.
  intros x id s HI Hc. unfold throw_on_motion_error. apply wp_bind, wp_get, wp_bind.
  assert (W : wp (if negb (robot_mode_N (rs_robot_mode x) =? robot_mode_N RmMove) then ret true
    else m <- unwrap PUnwrap (r_motion_mode s);;
         (if negb (mg_eqb m (r_cur_motion s)) then ret true
          else c <- unwrap PUnwrap (r_cur_ctrl s);; ret (negb (cm_eqb (r_ctrl_mode s) c))))
     (fun bad s' => s' = s /\ (bad = false -> rs_robot_mode x = RmMove /\ shows_current s))
     (fun _ _ => False) (fun _ _ => False) s).
  { destruct (negb (robot_mode_N _ =? _)) eqn:E1; [apply wp_ret; split; [reflexivity|discriminate]|]. apply wp_bind, wp_unwrap.
    - intros m Hm. destruct (negb (mg_eqb _ _)) eqn:E2; [apply wp_ret; split; [reflexivity|discriminate]|]. apply wp_bind, wp_unwrap.
      + intros c Hcc. apply wp_ret. split; [reflexivity|]. intros E3. apply negb_false_iff in E1, E2, E3.
        apply mg_eqb_eq in E2. apply cm_eqb_eq in E3. apply N.eqb_eq in E1.
        split; [destruct (rs_robot_mode x); try reflexivity; discriminate E1|]. split; congruence.
      + intros H. contradiction.
    - destruct HI as (_ & _ & y & _ & _ & Sm & _). intros H. congruence. }
  eapply wp_mono; [exact W| | |]; [|intros ? ? []|intros ? ? []].
  intros bad s0 (-> & Hb). destruct bad; [|apply wp_ret; split; [reflexivity|apply Hb; reflexivity]].
  apply wp_bind. eapply wp_mono; [apply wp_blocking_response| | |]; [|intros ? ? []|].
  - intros r s1 (Q1 & _). assert (C1 := quiet_calm _ _ Q1). assert (I1 := calm_I _ _ C1 HI).
    destruct (handle_move (snd r)) as [[]|]; try (apply wp_panic, I_anyL; [exact I1|discriminate]).
    eapply wp_mono; [apply wp_throw_control| | |]; [intros ? ? []| |].
    + intros e s2 C2. exact (calm_trans _ _ _ C1 C2).
    + intros p s2 (C2 & Hp). apply I_anyL; [exact (calm_I _ _ C2 I1)|exact Hp].
  - intros p s1 (Q1 & Hp). apply I_anyL; [exact (quiet_I _ _ Q1 HI)|].
    destruct Hp as [->| ->]; discriminate.
Qed.

(** * Finishing *)
(** The robot is idle by the newest state and commands are refused. *)
Definition idle (s : st) : Prop := ~ running s /\ r_cur_motion s = MgIdle.

Lemma calm_running : forall s s', calm s s' -> running s' -> running s.
Proof. unfold calm, running. intros s s' (_&_&E1&E2&_). rewrite E1, E2. auto. Qed.

(** All what later commands of the motion depend on. *)
Definition finishing (t : list event) (m : motion_command) (ctl : option (list N)) : Prop :=
  unanswered t /\ completed t = true /\ newest_output (this_motion t) = Some m /\
  torques ctl = match newest_torques (this_motion t) with Some x => x | None => zero_torques end.

Lemma finishing_ok : forall t m ctl x a, finishing t m ctl -> last_state t = Some x -> still_running x ->
  ok (EvCommand a (RobotCommand (rs_message_id x) (set_finished m) (torques ctl))) t.
Proof.
  intros t m ctl x a (U & C & O & T) L R. cbn. split; [exact U|]. split; [eauto|]. split; [|split; [intros C'; congruence|split; [exact T|eauto]]].
  exists m. rewrite C. auto.
Qed.
Lemma finishing_next : forall t m ctl x a c, finishing t m ctl ->
  finishing (EvState x :: EvCommand a c :: t) m ctl.
Proof. intros t m ctl x a c (U & C & O & T). split; [exact Logic.I|]. cbn. auto. Qed.

Lemma wp_finish_loop : forall m ctl c g fuel s last, I s -> moving s c g -> has ctl = is_ext c ->
  finishing (trace s) m ctl -> (upend s < fuel)%nat ->
  wp (finish_loop fuel (set_finished m) ctl last)
     (fun o s' => I s' /\ moving s' c g /\ ~ running s' /\ (running s -> o <> None) /\ (last <> None -> o <> None) /\
                  completed (trace s') = true)
     (fun _ s' => I s' /\ moving s' c g) anyL s.
Proof.
  intros m ctl c g. induction fuel as [|fuel IH]; intros s last HI Hm Hx F Hf; [lia|].
  cbn [finish_loop]. apply wp_bind.
  eapply wp_mono; [apply (wp_running s HI)| | |]; [|intros ? ? []|intros ? ? []].
  intros b s0 (-> & Hb). destruct b.
  - apply wp_bind.
    eapply wp_mono; [apply (wp_update s (set_finished m) ctl c g HI Hm Hx)| | |]; auto.
    + intros a. destruct HI as (_ & _ & x & Sx & Si & Sm & Sc). rewrite Si. apply finishing_ok; [exact F|exact Sx|].
      destruct Hb as [Hb _]. destruct (Hb eq_refl) as [R|R]; [left|right; congruence].
      intros Hi. apply R. rewrite Sm, Hi. reflexivity.
    + intros x s1 (I1 & M1 & (a & T1) & Sh & Lt).
      eapply wp_mono; [apply (IH s1 (Some x)); auto| | |]; auto.
      * rewrite T1. apply finishing_next. exact F.
      * lia.
      * intros o s2 (I2 & M2 & R2 & _ & O2 & C2). repeat (split; [assumption|]).
        split; [|split; [|exact C2]]; intros _; apply O2; discriminate.
    + intros e s1 (I1 & M1 & _). auto.
  - apply wp_ret. repeat (split; [assumption|]). split.
    + intros R. apply Hb in R. discriminate.
    + split; [intros R; apply Hb in R; discriminate|]. split; [auto|]. exact (proj1 (proj2 F)).
Qed.

Lemma wp_finish_motion : forall id m ctl c g s, I s -> moving s c g -> has ctl = is_ext c ->
  finishing (trace s) m ctl ->
  wp (finish_motion id (Some m) ctl) (fun _ s' => I s' /\ idle s' /\ completed (trace s') = true)
     (fun _ s' => I s' /\ moving s' c g) anyL s.
Proof.
  intros id m ctl c g s HI Hm Hx F. unfold finish_motion. apply wp_bind.
  eapply wp_mono; [apply (wp_running s HI)| | |]; [|intros ? ? []|intros ? ? []].
  intros b s0 (-> & Hb). destruct b.
  - apply wp_bind, wp_get, wp_bind.
    eapply wp_mono; [apply (wp_finish_loop m ctl c g); auto| | |]; auto.
    intros o s1 (I1 & M1 & R1 & O1 & _ & K1). apply wp_bind, wp_unwrap.
    2:{ intros E. exfalso. apply O1; [apply Hb; reflexivity|exact E]. }
    intros x _. apply wp_bind.
    eapply wp_mono; [apply wp_blocking_response| | |]; [|intros ? ? []|].
    + intros r s2 (Q2 & mr & T2 & _). assert (C2 := quiet_calm _ _ Q2). assert (I2 := calm_I _ _ C2 I1).
      assert (K2 : completed (trace s2) = true) by (rewrite T2; exact K1).
      assert (W : forall A mm st0, wp (@throw_control A mm st0 x) (fun _ _ => False)
                 (fun _ s' => I s' /\ moving s' c g) anyL s2).
      { intros A mm st0. eapply wp_mono; [apply wp_throw_control| | |]; [intros ? ? []| |].
        - intros e s3 C3. split; [exact (calm_I _ _ C3 I2)|].
          exact (calm_moving _ _ _ _ (calm_trans _ _ _ C2 C3) M1).
        - intros p s3 (C3 & Hp). apply I_anyL; [exact (calm_I _ _ C3 I2)|exact Hp]. }
      assert (W' : forall mm st0, wp (@throw_control unit mm st0 x)
                 (fun _ s' => I s' /\ idle s' /\ completed (trace s') = true)
                 (fun _ s' => I s' /\ moving s' c g) anyL s2).
      { intros mm st0. eapply wp_mono; [apply W| | |]; auto. intros ? ? []. }
      destruct (snd r); cbn [handle_move]; try apply W'; apply wp_modify;
        (split; [exact I2|split; [split; [|reflexivity]|exact K2]]; intros R; apply R1; exact (calm_running _ _ C2 R)).
    + intros p s2 (Q2 & Hp). apply I_anyL; [exact (quiet_I _ _ Q2 I1)|].
      destruct Hp as [->| ->]; discriminate.
  - apply wp_modify. split; [exact HI|]. split; [split; [|reflexivity]; intros R; apply Hb in R; discriminate|].
    exact (proj1 (proj2 F)).
Qed.

(** * The loop *)
Section Loop.
  Variable k : controller.
  Let ext : ctrl_mode := ctrl_of_move (wanted_ctrl k).
  Let gen : mg_mode := mode_of_move (k_mode k).

  (** Head of the loop: [x] was just accepted. *)
  Definition loop_head (s : st) (x : robot_state_intern) (prev : N) (m : motion_command)
    (ctl : option (list N)) : Prop :=
    I s /\ moving s ext gen /\ has ctl = has (k_torque k) /\ mc_finished m = false /\ prev <= rs_message_id x /\
    exists t, trace s = EvState x :: t /\ completed t = false /\ motion_ctrl t = Some (wanted_ctrl k) /\
    motion_mode t = Some (k_mode k) /\ under_way x (EvState x :: t) /\
    prev = match newest_motion_call (this_motion t) with
           | None => rs_message_id x | Some y => rs_message_id y end /\
    torques ctl = match newest_torques (this_motion t) with Some q => q | None => zero_torques end.

  Lemma is_ext_ext : is_ext ext = has (k_torque k).
  Proof.
    unfold ext, wanted_ctrl. destruct (k_torque k) eqn:E; [reflexivity|].
    destruct (k_impedance k); reflexivity.
  Qed.

  Lemma I_event : forall s e, I s -> ok e (trace s) -> (forall y, e <> EvState y) -> I (add_event s e).
  Proof.
    intros s e (G & L & y & S) O N. split; [exact G|]. split; [split; assumption|].
    exists y. destruct S as [S0 S]. split; [|exact S]. destruct e; try exact S0. destruct (N s0); reflexivity.
  Qed.

  Lemma marked_false : forall m, mc_finished m = false -> marked false m = m.
  Proof. intros [] H. cbn in H. subst. reflexivity. Qed.

  Lemma shown_under_way : forall s x t, I s -> moving s ext gen -> last_state (trace s) = Some x ->
    rs_robot_mode x = RmMove -> shows_current s -> motion_ctrl t = Some (wanted_ctrl k) ->
    motion_mode t = Some (k_mode k) -> under_way x t.
  Proof.
    intros s x t (_ & _ & y & Sy & _ & Sm & Sc) (_ & Mg & Mc) La Rm [C1 C2] Ct Mt. split; [exact Rm|].
    exists (wanted_ctrl k), (k_mode k). split; [exact Ct|]. split; [exact Mt|].
    assert (y = x) by congruence. subst y.
    assert (E1 : rs_controller_mode x = ctrl_of_move (wanted_ctrl k)) by (unfold ext in Mc; congruence).
    assert (E2 : rs_motion_generator_mode x = mode_of_move (k_mode k)) by (unfold gen in Mg; congruence).
    split; [rewrite E1; destruct (wanted_ctrl k); reflexivity|rewrite E2; destruct (k_mode k); reflexivity].
  Qed.

  Lemma wp_motion_loop : forall id fuel cb x prev m ctl s, loop_head s x prev m ctl -> (upend s < fuel)%nat ->
    wp (motion_loop k fuel id cb x prev m ctl)
       (fun _ s' => I s' /\ idle s' /\ completed (trace s') = true) (fun _ s' => I s' /\ moving s' ext gen) anyL s.
  Proof.
    intros id. induction fuel as [|fuel IH]; intros cb x prev m ctl s H Hf; [lia|].
    destruct H as (HI & Hm & Hc & Hfin & Hp & t & T & Cp & Mo & Md & Uw & Ep & Et).
    cbn [motion_loop]. apply wp_bind. unfold time_step at 1.
    rewrite (proj2 (N.leb_le _ _) Hp). apply wp_ret.
    unfold spin_motion. apply wp_bind, wp_bind, wp_emit.
    set (dt := rs_message_id x - prev).
    assert (I1 : I (add_event s (EvMotion x dt))).
    { apply I_event; [exact HI| |discriminate]. rewrite T. cbn [ok].
      split; [cbn; rewrite Mo; discriminate|]. split; [exact Cp|].
      exists t. split; [reflexivity|]. split; [|exact Uw]. unfold dt. rewrite Ep. destruct (newest_motion_call _); lia. }
    set (s1 := add_event s (EvMotion x dt)) in *.
    apply wp_bind, wp_unwrap; [|intros _; apply I_anyL; [exact I1|discriminate]].
    intros [cb1 out] _. cbn [fst snd].
    apply wp_bind, wp_unwrap; [|intros _; apply I_anyL; [exact I1|discriminate]].
    intros new _. apply wp_bind, wp_emit, wp_ret.
    set (m1 := keep_finished m new). set (fin := k_finished k out).
    set (s2 := add_event s1 (EvMotionOut m1 fin)).
    assert (I2 : I s2).
    { apply I_event; [exact I1| |discriminate]. cbn. eauto. }
    assert (Hfin1 : mc_finished m1 = false) by exact Hfin.
    assert (Hm2 : moving s2 ext gen) by exact Hm.
    assert (T2 : trace s2 = EvMotionOut m1 fin :: EvMotion x dt :: EvState x :: t)
      by (cbn; rewrite T; reflexivity).
    assert (U2 : upend s2 = upend s) by reflexivity.
    (* the second half, for any outcome of the torque callback *)
    assert (Half : forall cb' ctl' go s3, I s3 -> moving s3 ext gen -> upend s3 = upend s ->
      has ctl' = has (k_torque k) -> unanswered (trace s3) -> last_state (trace s3) = Some x ->
      newest_output (this_motion (trace s3)) = Some m1 -> completed (trace s3) = negb go ->
      newest_motion_call (this_motion (trace s3)) = Some x ->
      motion_ctrl (trace s3) = Some (wanted_ctrl k) -> motion_mode (trace s3) = Some (k_mode k) -> (go = true -> just_called (trace s3)) ->
      torques ctl' = match newest_torques (this_motion (trace s3)) with Some q => q | None => zero_torques end ->
      wp (if go then
            x' <- update (Some m1) ctl' ;;
            throw_on_motion_error x' id ;;;
            motion_loop k fuel id cb' x' (rs_message_id x) m1 ctl'
          else finish_motion id (Some m1) ctl')
         (fun _ s' => I s' /\ idle s' /\ completed (trace s') = true) (fun _ s' => I s' /\ moving s' ext gen) anyL s3).
    { intros cb' ctl' go s3 I3 M3 U3 H3 An La Ne Co Mc Mo3 Md3 Jc To. destruct go.
      - apply wp_bind.
        eapply wp_mono; [apply (wp_update s3 m1 ctl' ext gen I3 M3)| | |].
        + rewrite is_ext_ext. exact H3.
        + intros a. cbn [ok]. split; [exact An|]. cbn [rc_message_id rc_motion rc_tau].
          split; [|split; [|split; [intros _; apply Jc; reflexivity|split; [exact To|]]]].
          3:{ intros C. rewrite Co in C. discriminate C. }
          * exists x. split; [exact La|]. destruct I3 as (_ & _ & y & Sy & Si & _). congruence.
          * exists m1. split; [exact Ne|]. rewrite Co. symmetry. apply marked_false. exact Hfin1.
        + intros x' s4 (I4 & M4 & (a & T4) & Sh4 & Lt4). apply wp_bind.
          eapply wp_mono; [apply (wp_throw_on x' id s4 I4)| | |].
          * destruct M4 as (_ & _ & ->). discriminate.
          * intros u s5 (-> & Rm & Sc). apply IH; [|lia].
            split; [exact I4|]. split; [exact M4|]. split; [exact H3|]. split; [exact Hfin1|]. split.
            -- destruct I4 as (_ & L4 & _). rewrite T4 in L4. destruct L4 as [O4 _]. cbn [ok] in O4.
               specialize (O4 x La). lia.
            -- eexists. split; [exact T4|]. split; [exact Co|]. split; [exact Mo3|]. split; [exact Md3|].
               split; [apply (shown_under_way s4); cbn; auto; rewrite T4; reflexivity|]. cbn [this_motion newest_motion_call newest_torques].
               rewrite Mc. split; [reflexivity|exact To].
          * intros e s5 C5. split; [exact (calm_I _ _ C5 I4)|exact (calm_moving _ _ _ _ C5 M4)].
          * auto.
        + intros e s4 (I4 & M4 & _). auto.
        + auto.
      - apply wp_finish_motion; auto.
        + rewrite is_ext_ext. exact H3.
        + split; [exact An|]. split; [exact Co|]. split; [exact Ne|exact To]. }
    destruct (k_torque k) as [tq|] eqn:Ek.
    - destruct fin eqn:Ef; cbn [negb].
      + apply wp_bind, wp_ret. apply (Half cb1 ctl false s2); auto; rewrite ?T2; try exact Logic.I; try reflexivity.
        * exact Mo.
        * exact Md.
        * discriminate.
        * exact Et.
      + apply wp_bind, wp_bind. unfold time_step. rewrite (proj2 (N.leb_le _ _) Hp). apply wp_ret.
        unfold spin_control. apply wp_bind, wp_bind, wp_emit.
        assert (I3 : I (add_event s2 (EvTorque x dt))).
        { apply I_event; [exact I2| |discriminate]. rewrite T2. cbn. split; [|eauto].
          rewrite Mo. unfold wanted_ctrl. rewrite Ek. reflexivity. }
        fold dt. set (s3 := add_event s2 (EvTorque x dt)) in *.
        apply wp_bind, wp_unwrap; [|intros _; apply I_anyL; [exact I3|discriminate]].
        intros [cb2 [q finq]] _. cbn [fst snd].
        apply wp_bind, wp_unwrap; [|intros _; apply I_anyL; [exact I3|discriminate]].
        intros q' _. apply wp_bind, wp_emit, wp_ret, wp_ret.
        set (s4 := add_event s3 (EvTorqueOut q' finq)).
        assert (I4 : I s4). { apply I_event; [exact I3| |discriminate]. cbn. eauto. }
        assert (T4 : trace s4 = EvTorqueOut q' finq :: EvTorque x dt :: EvMotionOut m1 false ::
                       EvMotion x dt :: EvState x :: t) by (cbn [s4 s3 trace add_event]; rewrite T2; reflexivity).
        apply (Half cb2 (Some q') (negb finq) s4); auto; rewrite ?T4; try exact Logic.I; try reflexivity.
        * unfold completed in *. cbn. rewrite Cp. destruct finq; reflexivity.
        * exact Mo.
        * exact Md.
        * destruct finq; [discriminate|intros _]. unfold just_called. cbn [motion_ctrl]. rewrite Mo.
          unfold wanted_ctrl. rewrite Ek. eauto 6.
    - apply wp_bind, wp_ret.
      apply (Half cb1 None (negb fin) s2); auto; rewrite ?T2; try exact Logic.I; try reflexivity.
      + unfold completed in *. cbn. rewrite Cp. destruct fin; reflexivity.
      + exact Mo.
      + exact Md.
      + destruct fin; [discriminate|intros _]. unfold just_called. cbn [motion_ctrl]. rewrite Mo.
        unfold wanted_ctrl. rewrite Ek. destruct (k_impedance k); cbn; eauto 6.
      + cbn. cbn in Et. destruct ctl as [q|]; [discriminate Hc|]. exact Et.
  Qed.

  Lemma wp_do_loop : forall id cb s, I s -> moving s ext gen -> started (wanted_ctrl k) (k_mode k) (trace s) ->
    wp (do_loop k id cb) (fun _ s' => I s' /\ idle s' /\ completed (trace s') = true) (fun _ s' => I s' /\ moving s' ext gen) anyL s.
  Proof.
    intros id cb s HI Hm (Mo & Md & Co & _ & To & Mc). unfold do_loop. apply wp_bind.
    eapply wp_mono; [apply (wp_update_none s HI)| | |].
    - intros x s1 (I1 & Sm & T1 & Sh & Lt). assert (M1 := same_moving _ _ _ _ Sm Hm). apply wp_bind.
      eapply wp_mono; [apply (wp_throw_on x id s1 I1)| | |].
      + destruct M1 as (_ & _ & ->). discriminate.
      + intros u s2 (-> & Rm & Sc). apply wp_bind, wp_get. apply wp_motion_loop; [|unfold bound, upend; lia].
        split; [exact I1|]. split; [exact M1|]. split; [destruct (k_torque k); reflexivity|].
        split; [reflexivity|]. split; [lia|]. exists (trace s). split; [exact T1|]. split; [exact Co|].
        split; [exact Mo|]. split; [exact Md|].
        split; [apply (shown_under_way s1); cbn; auto; rewrite T1; reflexivity|]. rewrite Mc, To. split; [reflexivity|]. destruct (k_torque k); reflexivity.
      + intros e s2 C2. split; [exact (calm_I _ _ C2 I1)|exact (calm_moving _ _ _ _ C2 M1)].
      + auto.
    - intros e s1 (I1 & Sm & _). split; [exact I1|exact (same_moving _ _ _ _ Sm Hm)].
    - intros p s1 (I1 & _ & _ & ->). apply I_anyL; [exact I1|discriminate].
  Qed.
End Loop.

(** * Stopping *)
Lemma udp_receive_consumes : forall u t sc r u' sc', noticed u ->
  udp_receive state_size state_decode u (t :: sc) = (r, u', sc') -> (List.length sc' <= List.length sc)%nat.
Proof.
  intros u t sc r u' sc' Nu. unfold udp_receive. cbn [next_tick].
  assert (N1 := noticed_arrive u (t_arrivals t) Nu).
  destruct (u_queue (arrive u (t_arrivals t))) as [|d q].
  { intros [= _ _ <-]. lia. }
  destruct (state_size <=? _)%nat; [|intros [= _ _ <-]; lia].
  destruct (udp_blocking_receive state_size state_decode (arrive u (t_arrivals t)) sc) as [[r1 u1] sc1] eqn:E.
  destruct (block_spec _ _ _ _ _ _ _ N1 E) as (used & -> & _).
  rewrite app_length. destruct r1; intros [= _ _ <-]; lia.
Qed.

Lemma receive_consumes : forall s r s', good s -> receive_robot_state s = (r, s') -> n_usched s <> [] ->
  (List.length (n_usched s') < List.length (n_usched s))%nat.
Proof.
  intros s r s' G E Hn.
  assert (P : forall fuel o s1, poll_states (S fuel) None s = (o, s1) -> (upend s < S fuel)%nat ->
    good s1 /\ (List.length (n_usched s1) < List.length (n_usched s))%nat).
  { intros fuel o s1 Ep Hf. cbn [poll_states] in Ep. unfold bind at 1 in Ep.
    destruct (udp_poll_spec s G) as (u & sc & Mv & H).
    unfold udp_poll in Ep, H.
    destruct (udp_receive state_size state_decode (n_udp s) (n_usched s)) as [[r0 u0] sc0] eqn:Er.
    assert (Lc : (List.length sc0 < List.length (n_usched s))%nat).
    { destruct (n_usched s) as [|t sc1]; [contradiction|]. apply udp_receive_consumes in Er; [cbn; lia|exact G]. }
    destruct r0 as [x| |]; cbn [fst snd] in H.
    - destruct H as [H1 Lt]. injection H1 as -> ->. unfold bind, get in Ep.
      assert (G1 : good (set_udp s u sc)) by exact (proj1 Mv).
      destruct (poll_states_spec fuel (set_udp s u sc)
        (if match @None robot_state_intern with Some l => rs_message_id l | None => r_message_id (set_udp s u sc) end
            <? rs_message_id x then Some x else None) G1) as (u2 & sc2 & Mv2 & H2).
      { unfold upend in *. cbn. lia. }
      rewrite Ep in H2.
      assert (E1 : s1 = set_udp s u2 sc2) by (destruct o; try contradiction; destruct H2 as [-> _]; reflexivity).
      subst s1. destruct Mv2 as (N2 & used & Es & _). split; [exact N2|]. cbn in *. rewrite Es in Lc.
      rewrite app_length in Lc. lia.
    - injection H as -> ->. injection Ep as <- <-. split; [exact (proj1 Mv)|exact Lc].
    - destruct H as [H _]. injection H as -> ->. injection Ep as <- <-. split; [exact (proj1 Mv)|exact Lc]. }
  unfold receive_robot_state in E. unfold bind at 1, get at 1 in E. unfold bind at 1 in E.
  unfold bound at 1 in E.
  destruct (poll_states (S (pending (n_udp s) (n_usched s))) None s) as [o s1] eqn:Ep.
  destruct (P _ _ _ Ep) as [G1 L1]; [unfold upend; lia|].
  destruct o as [l|e|p| |]; try (injection E as <- <-; exact L1).
  unfold bind at 1, get at 1 in E. unfold bind at 1 in E. destruct l as [x|].
  - cbn in E. injection E as <- <-. exact L1.
  - destruct (await_state_spec (bound s1) s1 G1) as (u2 & sc2 & Mv2 & H2).
    { unfold bound, upend. lia. }
    assert (L2 : (List.length sc2 <= List.length (n_usched s1))%nat).
    { destruct Mv2 as (_ & used & -> & _). rewrite app_length. lia. }
    destruct (await_state (bound s1) s1) as [[y|e|p| |] s2]; try contradiction.
    + destruct H2 as (-> & _). cbn in E. injection E as <- <-. cbn. lia.
    + destruct H2 as (-> & _). injection E as <- <-. cbn. lia.
    + destruct H2 as (-> & _). injection E as <- <-. cbn. lia.
Qed.

(** After an error nothing is queued. *)
Lemma await_err_queue : forall fuel s e s', good s -> await_state fuel s = (Err e, s') -> u_queue (n_udp s') = [].
Proof.
  induction fuel as [|fuel IH]; intros s e s' G E; [discriminate|]. cbn [await_state] in E.
  unfold bind at 1 in E. unfold udp_block in E.
  destruct (udp_blocking_receive state_size state_decode (n_udp s) (n_usched s)) as [[r u] sc] eqn:Eb.
  assert (Nu := block_noticed _ _ _ _ _ _ _ G Eb).
  destruct (block_spec _ _ _ _ _ _ _ G Eb) as (used & _ & Q & _).
  destruct r as [x| | |n|]; try (injection E as _ <-; exact Q).
  - unfold bind, get in E. destruct (_ <? _); [discriminate|]. exact (IH (set_udp s u sc) e s' Nu E).
Qed.
Lemma receive_err_queue : forall s e s', good s -> receive_robot_state s = (Err e, s') -> u_queue (n_udp s') = [].
Proof.
  intros s e s' G E. unfold receive_robot_state in E. unfold bind at 1, get at 1 in E. unfold bind at 1 in E.
  destruct (poll_states_spec (bound s) s None G) as (u & sc & Mv & H); [unfold bound, upend; lia|].
  destruct (poll_states (bound s) None s) as [[l|e0|p| |] s1]; try contradiction; try discriminate.
  destruct H as [-> _]. unfold bind at 1, get at 1 in E. unfold bind at 1 in E. destruct l as [x|]; [discriminate|].
  destruct (await_state (bound (set_udp s u sc)) (set_udp s u sc)) as [[y|e1|p| |] s2] eqn:Ea; try discriminate.
  injection E as _ <-. eapply await_err_queue; [|exact Ea]. exact (proj1 Mv).
Qed.

Lemma is_nil_true : forall A (l : list A), is_nil l = true <-> l = [].
Proof. intros A []; split; intros; try reflexivity; discriminate. Qed.

Lemma wp_cancel_loop : forall fuel s, I s -> (List.length (n_usched s) + upend s < fuel)%nat ->
  wp (cancel_loop fuel)
     (fun _ s' => I s' /\ ~ running s' /\ same s s' /\
        exists d, trace s' = d ++ trace s /\ Forall (fun e => match e with EvState _ => True | _ => False end) d)
     (fun _ _ => False) anyL s.
Proof.
  induction fuel as [|fuel IH]; intros s HI Hf; [lia|]. cbn [cancel_loop]. apply wp_bind.
  eapply wp_mono; [apply (wp_running s HI)| | |]; [|intros ? ? []|intros ? ? []].
  intros b s0 (-> & Hb). destruct b.
  - pose proof (wp_receive s HI) as W. unfold wp in W |- *. cbv beta.
    destruct (receive_robot_state s) as [[x|e|p| |] s1] eqn:E; try contradiction.
    + destruct W as (I1 & Sm & T1 & ((used & Es) & _) & Lt).
      pose proof (IH s1 I1) as W1. unfold wp in W1.
      assert (Hf1 : (List.length (n_usched s1) + upend s1 < fuel)%nat).
      { rewrite Es, app_length in Hf. lia. }
      specialize (W1 Hf1). destruct (cancel_loop fuel s1) as [[y|e|p| |] s2]; try contradiction; auto.
      destruct W1 as (I2 & R2 & Sm2 & d & T2 & Fd). split; [exact I2|]. split; [exact R2|].
      split; [unfold same in *; intuition congruence|].
      exists (d ++ [EvState x]). rewrite T2, T1, <- app_assoc. split; [reflexivity|].
      apply Forall_app. split; [exact Fd|repeat constructor].
    + destruct W as (I1 & Sm & T1 & ((used & Es) & Le) & n & ->).
      assert (Q := receive_err_queue _ _ _ (proj1 HI) E). rewrite Q. cbn [is_nil].
      rewrite andb_true_r. destruct (is_nil (n_usched s1)) eqn:En.
      * apply I_anyL; [exact I1|discriminate].
      * assert (Hs : n_usched s <> []).
        { intros Hs. rewrite Hs in Es. destruct used; [|discriminate]. cbn in Es. rewrite <- Es in En. discriminate. }
        assert (Lc := receive_consumes _ _ _ (proj1 HI) E Hs).
        pose proof (IH s1 I1) as W1. unfold wp in W1. specialize (W1 ltac:(lia)).
        destruct (cancel_loop fuel s1) as [[y|e|p| |] s2]; try contradiction; auto.
        destruct W1 as (I2 & R2 & Sm2 & d & T2 & Fd). split; [exact I2|]. split; [exact R2|].
        split; [unfold same in *; intuition congruence|]. exists d. rewrite T2, T1. auto.
    + destruct W as (I1 & _ & _ & ->). apply I_anyL; [exact I1|discriminate].
    + destruct W as (I1 & _ & _ & F). discriminate F.
  - apply wp_ret. split; [exact HI|]. split; [intros R; apply Hb in R; discriminate|].
    split; [unfold same; repeat split|]. exists []. auto.
Qed.

Lemma wp_execute_stop : forall s,
  wp execute_stop (fun _ => quiet s) (fun _ => quiet s) (fun p s' => quiet s s' /\ p <> Some PTimeStep) s.
Proof.
  intros. unfold execute_stop. apply wp_bind, wp_send_request, wp_bind.
  eapply wp_mono; [apply wp_blocking_response| | |]; [|intros ? ? []|].
  - intros a s' [Q _].
    assert (Q1 : quiet s s') by exact (quiet_trans _ _ _ (quiet_request _ _ _) Q).
    apply wp_bind, wp_as_result; intros; exact Q1.
  - intros p s' [Q Hp]. split; [exact (quiet_trans _ _ _ (quiet_request _ _ _) Q)|].
    destruct Hp as [->| ->]; discriminate.
Qed.

Lemma wp_cancel_motion : forall id s, I s ->
  wp (cancel_motion id) (fun _ s' => I s' /\ idle s') (fun _ _ => False) anyL s.
Proof.
  intros id s HI. unfold wp, cancel_motion.
  pose proof (wp_execute_stop s) as W. unfold wp in W.
  destruct (execute_stop s) as [[n|e|p| |] s1]; try contradiction.
  - assert (I1 := quiet_I _ _ W HI).
    pose proof (wp_receive s1 I1) as W2. unfold wp in W2.
    assert (Rest : forall s2, I s2 ->
      wp (cancel_loop (S (List.length (n_usched s2) + pending (n_udp s2) (n_usched s2))) ;;;
          check_response c_move_response 13 id (fun _ => None) ;;; reset_current)
        (fun _ s' => I s' /\ idle s') (fun _ _ => False) anyL s2).
    { intros s2 I2. apply wp_bind. eapply wp_mono; [apply wp_cancel_loop; [exact I2|]| | |]; auto.
      intros u s3 (I3 & R3 & _). apply wp_bind.
      eapply wp_mono; [apply wp_check_response| | |].
      - intros b s4 [Q4 _]. apply wp_modify. assert (C4 := quiet_calm _ _ Q4).
        split; [exact (calm_I _ _ C4 I3)|]. split; [|reflexivity].
        intros R. apply R3, (calm_running _ _ C4 R).
      - intros e s4 [_ (m & a & _ & _ & F)]. discriminate F.
      - intros p s4 [Q4 Hp]. apply I_anyL; [exact (quiet_I _ _ Q4 I3)|]. destruct Hp as [->| ->]; discriminate. }
    destruct (receive_robot_state s1) as [[x|e|p| |] s2]; try contradiction.
    + exact (Rest s2 (proj1 W2)).
    + exact (Rest s2 (proj1 W2)).
    + destruct W2 as (I2 & _ & _ & ->). apply I_anyL; [exact I2|discriminate].
    + destruct W2 as (I2 & _ & _ & F). discriminate F.
  - apply I_anyL; [exact (quiet_I _ _ W HI)|discriminate].
  - destruct W as [W Hp]. apply I_anyL; [exact (quiet_I _ _ W HI)|exact Hp].
  - destruct W as [W Hp]. apply I_anyL; [exact (quiet_I _ _ W HI)|exact Hp].
Qed.

Lemma wp_run_loop : forall k id cb s, I s -> moving s (ctrl_of_move (wanted_ctrl k)) (mode_of_move (k_mode k)) -> started (wanted_ctrl k) (k_mode k) (trace s) ->
  wp (run_loop k id cb) (fun _ s' => I s' /\ idle s' /\ completed (trace s') = true) (fun _ s' => I s' /\ idle s') anyL s.
Proof.
  intros k id cb s HI Hm Hs. unfold wp, run_loop.
  pose proof (wp_do_loop k id cb s HI Hm Hs) as W. unfold wp in W.
  destruct (do_loop k id cb s) as [[u|e|p| |] s1]; try contradiction; try exact W.
  destruct W as [I1 _].
  assert (W2 : wp (cancel_motion id ;;; @throw unit e)
    (fun _ s' => I s' /\ idle s' /\ completed (trace s') = true) (fun _ s' => I s' /\ idle s') anyL s1).
  { apply wp_bind. eapply wp_mono; [apply (wp_cancel_motion id s1 I1)| | |]; auto. intros ? ? []. }
  exact W2.
Qed.

Lemma wp_new_intern : forall s, I s -> wp new_intern (fun _ => I) (fun _ => I) (fun _ _ => False) s.
Proof.
  intros s HI. unfold new_intern. apply wp_bind, wp_get. destruct (r_rt s).
  - apply wp_bind, wp_emit.
    assert (I1 : I (add_event s EvKernel)) by (apply I_event; [exact HI|exact Logic.I|discriminate]).
    destruct (k_realtime s); [destruct (k_priority s)|]; exact I1.
  - exact HI.
Qed.

Lemma wp_control : forall k cb s, I s -> wp (control k cb) (fun _ s' => I s' /\ idle s' /\ completed (trace s') = true) anyI anyL s.
Proof.
  intros k cb s HI. unfold control. apply wp_bind.
  eapply wp_mono; [apply (wp_new_intern s HI)| | |]; [|auto|intros ? ? []].
  intros u s1 I1. apply wp_bind.
  eapply wp_mono; [apply (wp_start_motion _ _ _ _ s1 I1)| | |]; auto.
  intros id s2 (I2 & M2 & S2 & _).
  eapply wp_mono; [apply (wp_run_loop k id cb s2 I2 M2 S2)| | |]; auto.
  intros e s3 [I3 _]. exact I3.
Qed.

(** * Programs *)
Lemma quiet_wp : forall A (m : M A) s, I s -> (forall p, p <> Some PTimeStep -> True) ->
  wp m (fun _ => quiet s) (fun _ => quiet s) (fun _ => quiet s) s ->
  wp m (fun _ => I) (fun _ => I) (fun _ s' => lawful (trace s')) s.
Proof.
  intros A m s HI _ W. eapply wp_mono; [exact W| | |]; intros a s' Q; try (exact (quiet_I _ _ Q HI)).
  apply I_lawful. exact (quiet_I _ _ Q HI).
Qed.

Lemma wp_api : forall a s, I s ->
  wp (run_api a) (fun _ => I) (fun _ => I) (fun _ s' => lawful (trace s')) s.
Proof.
  intros a s HI.
  assert (Drop : forall A (m : M A), wp m (fun _ => I) (fun _ => I) (fun _ s' => lawful (trace s')) s ->
    wp (m ;;; ret tt) (fun _ => I) (fun _ => I) (fun _ s' => lawful (trace s')) s).
  { intros A m W. apply wp_bind. eapply wp_mono; [exact W| | |]; auto. }
  assert (Low : forall A (m : M A) Q, wp m Q anyI anyL s -> (forall a s', Q a s' -> I s') ->
    wp m (fun _ => I) (fun _ => I) (fun _ s' => lawful (trace s')) s).
  { intros A m Q W HQ. eapply wp_mono; [exact W| | |]; auto. intros p s' [L _]. exact L. }
  destruct a as [K cb k| |k cb|r| | |id|]; cbn [run_api].
  - apply Drop. apply (Low _ _ anyI); [|auto]. unfold robot_read. apply wp_bind, wp_get, wp_read_loop; [exact HI|].
    unfold bound, upend. lia.
  - apply Drop. eapply Low; [apply (wp_read_once s HI)|]. intros x s' [I' _]. exact I'.
  - eapply Low; [apply (wp_control k cb s HI)|]. intros x s' [I' _]. exact I'.
  - apply quiet_wp, wp_setter; auto.
  - apply quiet_wp, wp_recovery; auto.
  - apply quiet_wp, wp_user_stop; auto.
  - apply Drop, quiet_wp, wp_wall; auto.
  - apply quiet_wp, wp_defaults; auto.
Qed.

Lemma run_calls_lawful : forall l s, I s -> lawful (trace (run_calls l s)).
Proof.
  induction l as [|a l IH]; intros s HI; [apply I_lawful; exact HI|]. cbn [run_calls].
  pose proof (wp_api a s HI) as W. unfold wp in W.
  destruct (run_api a s) as [[u|e|p| |] s']; try contradiction; auto.
Qed.

(** Connecting. *)
Lemma wp_connect : forall port s, wp (connect_robot port) (fun _ => calm s) (fun _ => calm s) (fun _ => calm s) s.
Proof.
  intros. unfold connect_robot. apply wp_bind, wp_send_request, wp_bind.
  eapply wp_mono; [apply wp_blocking_response| | |]; [|intros ? ? []|].
  - intros a s' [Q _].
    assert (Q1 : calm s s') by (apply quiet_calm; exact (quiet_trans _ _ _ (quiet_request _ _ _) Q)).
    destruct (fst (snd a)); [apply wp_modify; exact Q1|apply wp_throw; exact Q1].
  - intros p s' [Q _]. apply quiet_calm. exact (quiet_trans _ _ _ (quiet_request _ _ _) Q).
Qed.

Definition fresh_handle (s : st) : Prop := noticed (n_udp s) /\ trace s = [].

Lemma wp_robot_new : forall port s, fresh_handle s ->
  wp (robot_new port) (fun _ => I) (fun _ s' => lawful (trace s')) (fun _ s' => lawful (trace s')) s.
Proof.
  intros port s (G & T). unfold robot_new. apply wp_bind.
  assert (CL : forall s', calm s s' -> lawful (trace s') /\ last_state (trace s') = None /\ good s').
  { intros s' (E1 & _ & _ & _ & _ & _ & _ & d & Td & F). rewrite Td, T. split; [apply lawful_app; cbn; auto|].
    split; [rewrite last_state_app; auto|]. unfold good. rewrite E1. exact G. }
  eapply wp_mono; [apply wp_connect| | |].
  - intros u s1 C1. destruct (CL s1 C1) as (L1 & N1 & G1). unfold wp.
    destruct (udp_block_spec s1 G1) as (u1 & sc1 & Mv & H).
    destruct (udp_block s1) as [[x|e|p| |] s2]; try contradiction.
    + destruct H as [-> _]. cbn. split; [exact (proj1 Mv)|]. split.
      * cbn. split; [|exact L1]. intros y Hy. congruence.
      * exists x. cbn. auto.
    + destruct H as [-> _]. exact L1.
    + destruct H as [-> _]. exact L1.
  - intros e s1 C1. apply (CL s1 C1).
  - intros p s1 C1. apply (CL s1 C1).
Qed.

Lemma program_lawful : forall port l s, fresh_handle s -> lawful (trace (program port l s)).
Proof.
  intros port l s H. unfold program. pose proof (wp_robot_new port s H) as W. unfold wp in W.
  destruct (robot_new port s) as [[u|e|p| |] s']; try contradiction; try exact W.
  apply run_calls_lawful. exact W.
Qed.
