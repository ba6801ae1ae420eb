(** C37, C38: the log of a control exception. *)
From Coq Require Import List NArith ZArith Bool Arith Lia String Sorting.Sorted.
From Coq Require Import Init.Byte.
From Verif Require Import Bytes Codec WireModel WireSpec TcpModel UdpModel ErrorsModel LoggerModel LoggerProofs
  RobotModel LoopModel RobotSpec LogSpec RobotProofs RobotWp LoopProofs Effects RobotMore RobotCalls LogProofs RobotScenario CallFacts.
Import ListNotations.
Open Scope list_scope.
Open Scope N_scope.

(** A handle created with this log size, after any calls which returned. *)
Inductive handle (size : nat) : st -> Prop :=
| handle_new : forall rt us ts se rk pr port u s,
    robot_new port (st_init size rt us ts se rk pr) = (Ok u, s) -> handle size s
| handle_ok : forall s a u s', handle size s -> run_api a s = (Ok u, s') -> handle size s'
| handle_err : forall s a e s', handle size s -> run_api a s = (Err e, s') -> handle size s'.
Lemma handle_reachable : forall size s, handle size s -> reachable s.
Proof.
  induction 1; [eapply reach_new; eassumption|eapply reach_ok; eassumption|eapply reach_err; eassumption].
Qed.
Lemma handle_quietly : forall size s, handle size s -> quietly size s.
Proof.
  induction 1 as [rt us ts se rk pr port u s E|s a u s' H IH E|s a e s' H IH E].
  - eapply new_quietly. exact E.
  - pose proof (api_quietly size a s IH) as Q. rewrite E in Q. exact Q.
  - pose proof (api_quietly size a s IH) as Q. rewrite E in Q. exact Q.
Qed.
Lemma control_lawful : forall k cb s, reachable s -> lawful (trace (snd (control k cb s))).
Proof.
  intros k cb s R. pose proof (wp_control k cb s (reachable_I s R)) as W. unfold wp in W.
  destruct (control k cb s) as [[u|e|p| |] s']; cbn [snd]; try contradiction.
  - destruct W as ((_ & L & _) & _). exact L.
  - destruct W as (_ & L & _). exact L.
  - destruct W as (L & _). exact L.
  - destruct W as (L & _). exact L.
Qed.

(** * Order of the pairs *)
Definition before (a b : record) : Prop := rs_message_id (fst a) < rs_message_id (fst b).
Lemma sorted_snoc : forall l x, StronglySorted before l -> Forall (fun a => before a x) l -> StronglySorted before (l ++ [x]).
Proof.
  induction l as [|a l IH]; intros x S F; cbn; [constructor; constructor|].
  inversion S as [|? ? S' G]; subst. inversion F as [|? ? A F']; subst. constructor; [apply IH; assumption|].
  apply Forall_app. split; [exact G|]. constructor; [exact A|constructor].
Qed.
Lemma pairs_sorted : forall t, lawful t -> StronglySorted before (motion_pairs t) /\
  match last_state t with
  | None => motion_pairs t = []
  | Some y => Forall (fun r => rs_message_id (fst r) <= rs_message_id y) (motion_pairs t)
  end.
Proof.
  induction t as [|e t IH]; [split; [constructor|reflexivity]|]. intros [O L]. specialize (IH L). destruct IH as [S B].
  destruct e as [id r|id m|a c|x|x|x dt|m f|x dt|q f|]; cbn [motion_pairs last_state]; try (split; assumption).
  - destruct r; cbn [motion_pairs last_state]; try (split; assumption). split; [constructor|].
    destruct (last_state t); [constructor|reflexivity].
  - cbn in O. destruct (waiting_command t) as [c|].
    + split.
      * apply sorted_snoc; [exact S|]. destruct (last_state t) as [y|].
        -- specialize (O y eq_refl). eapply Forall_impl; [|exact B]. unfold before. cbn. intros; lia.
        -- rewrite B. constructor.
      * apply Forall_app. split; [|constructor; [cbn; lia|constructor]]. destruct (last_state t) as [y|].
        -- specialize (O y eq_refl). eapply Forall_impl; [|exact B]. cbn. intros; lia.
        -- rewrite B. constructor.
    + split; [exact S|]. destruct (last_state t) as [y|].
      * specialize (O y eq_refl). eapply Forall_impl; [|exact B]. cbn. intros; lia.
      * rewrite B. constructor.
Qed.
Lemma sorted_not_disordered : forall l, StronglySorted before l -> ~ disordered l.
Proof.
  intros l S (l0 & a & ca & b & cb & -> & H). revert S. clear -H.
  induction l0 as [|x l0 IH]; intros S; inversion S as [|? ? S' F]; subst.
  - inversion F as [|? ? A _]; subst. unfold before in A. cbn in A. lia.
  - exact (IH S').
Qed.
Lemma sorted_skipn : forall n l, StronglySorted before l -> StronglySorted before (skipn n l).
Proof.
  induction n as [|n IH]; intros l S; [exact S|]. destruct l as [|a l]; [constructor|]. inversion S; subst. apply IH. assumption.
Qed.
Lemma sorted_firstn : forall n l, StronglySorted before l -> StronglySorted before (firstn n l).
Proof.
  induction n as [|n IH]; intros l S; [constructor|]. destruct l as [|a l]; [constructor|].
  inversion S as [|? ? S' F]; subst. cbn. constructor; [apply IH; assumption|].
  rewrite Forall_forall in *. intros x Hx. apply F. rewrite <- (firstn_skipn n l). apply in_or_app. left. exact Hx.
Qed.
Lemma last_n_length : forall A n (l : list A), List.length (last_n n l) = Nat.min n (List.length l).
Proof. intros. unfold last_n. rewrite skipn_length. lia. Qed.

(** The log of the first motion of a handle. *)
Lemma attached_first : forall A size (es : list A),
  attached size [] es =
  if (List.length es <=? size)%nat then es else rotate (List.length es mod size) (last_n size es).
Proof.
  intros A size es. unfold attached. cbn [app]. destruct (Nat.leb_spec (List.length es) size) as [H|H].
  - apply firstn_all.
  - f_equal. fold (last_n size es). rewrite firstn_all2; [reflexivity|]. rewrite last_n_length. lia.
Qed.
Lemma rotate_disordered : forall k l, StronglySorted before l -> (k < List.length l)%nat ->
  disordered (rotate k l) -> k = 1%nat.
Proof.
  intros k l Sl K (l0 & a & ca & b & cb & E & H). unfold rotate in E. destruct k as [|[|k]]; [|reflexivity|].
  - exfalso. cbn in E. rewrite app_nil_r in E. apply (sorted_not_disordered l Sl). exists l0, a, ca, b, cb. auto.
  - exfalso. pose proof (sorted_firstn (S (S k)) l Sl) as SF. remember (firstn (S (S k)) l) as f eqn:Ef.
    assert (Lf : List.length f = S (S k)) by (subst f; rewrite firstn_length; lia).
    apply (sorted_not_disordered f SF). destruct (exists_last (l := f)) as (f1 & y & ->); [destruct f; cbn in Lf; congruence|].
    destruct (exists_last (l := f1)) as (f2 & z & ->); [destruct f1; cbn in Lf; congruence|].
    exists f2, a, ca, b, cb. split; [|exact H]. rewrite app_assoc in E.
    change [(a, ca); (b, cb)] with ([(a, ca)] ++ [(b, cb)]) in E. rewrite (app_assoc l0) in E.
    apply app_inj_tail in E. destruct E as [E ->]. rewrite app_assoc in E. apply app_inj_tail in E. destruct E as [_ ->].
    rewrite <- app_assoc. reflexivity.
Qed.

(** * Every control exception with a log was built by [create_control_exception] *)
Definition made (e : exn) : Prop :=
  match e with
  | ControlException (Some log) _ => exists message status reasons, create_control_exception message status reasons log = Ok e
  | _ => True
  end.
Definition made_errors {A} (m : M A) : Prop := forall s, match m s with (Err e, _) => made e | _ => True end.
Lemma plain_made : forall A (m : M A), plain_errors m -> made_errors m.
Proof.
  intros A m P s. specialize (P s). destruct (m s) as [[a|e|p| |] s1]; try exact Logic.I. destruct e as [[log|] ?| | | | | | |]; try exact Logic.I.
  destruct P.
Qed.
Lemma made_bind : forall A B (m : M A) (f : A -> M B), made_errors m -> (forall a, made_errors (f a)) -> made_errors (bind m f).
Proof.
  intros A B m f Hm Hf s. specialize (Hm s). unfold bind. destruct (m s) as [[a|e|p| |] s1]; try exact Logic.I; [apply Hf|exact Hm].
Qed.
Lemma made_quiet : forall A (m : M A), (forall s, match m s with (Err _, _) => False | _ => True end) -> made_errors m.
Proof. intros A m H s. specialize (H s). destruct (m s) as [[a|e|p| |] s1]; try exact Logic.I. destruct H. Qed.
Lemma made_throw_control : forall A message status x, made_errors (@throw_control A message status x).
Proof.
  intros A message status x. unfold throw_control.
  apply made_bind; [apply made_quiet; intros s; unfold unwrap; destruct (reflex_text x); exact Logic.I|]. intros r.
  apply made_bind.
  { apply made_quiet. intros s. unfold flush_log. destruct (logger_flush (r_logger s)) as [[log|] lg]; exact Logic.I. }
  intros log s. destruct (create_control_exception message status r log) as [e|e|p| |] eqn:E; try exact Logic.I.
  unfold made. pose proof (create_spec message status r log) as K. rewrite E in K. destruct K as [t ->]. eauto.
Qed.
Lemma made_throw_on : forall x id, made_errors (throw_on_motion_error x id).
Proof.
  intros x id. unfold throw_on_motion_error. apply made_bind; [apply plain_made; plain|]. intros s0.
  apply made_bind; [apply plain_made; plain|]. intros bad. destruct bad; [|apply plain_made; plain].
  apply made_bind; [apply plain_made, plain_response|]. intros r. destruct (handle_move (snd r)) as [[]|]; try (apply made_quiet; intros s; exact Logic.I).
  apply made_throw_control.
Qed.
Lemma made_update : forall m c, made_errors (update m c).
Proof.
  intros m c. unfold update. apply made_bind; [apply plain_made, plain_send|]. intros sent.
  apply made_bind; [apply plain_made, plain_receive|]. intros x. destruct sent as [c0|]; [|apply plain_made; plain].
  apply made_bind; [apply plain_made; plain|]. intros s0.
  apply made_bind; [apply made_quiet; intros s; unfold unwrap; destruct (logger_log _ _ _); exact Logic.I|]. intros l.
  apply plain_made; plain.
Qed.
Lemma made_finish_loop : forall m c fuel last, made_errors (finish_loop fuel m c last).
Proof.
  intros m c. induction fuel as [|fuel IH]; intros last; cbn [finish_loop]; [apply plain_made; plain|].
  apply made_bind; [apply plain_made; plain|]. intros b. destruct b; [|apply plain_made; plain].
  apply made_bind; [apply made_update|]. intros x. apply IH.
Qed.
Lemma made_finish : forall id m c, made_errors (finish_motion id m c).
Proof.
  intros id m c. unfold finish_motion. apply made_bind; [apply plain_made; plain|]. intros b.
  destruct b; [|apply plain_made; unfold reset_current; plain]. destruct m as [m|]; [|apply plain_made; plain].
  apply made_bind; [apply plain_made; plain|]. intros s0. apply made_bind; [apply made_finish_loop|]. intros last.
  apply made_bind; [apply plain_made; plain|]. intros x. apply made_bind; [apply plain_made; plain|]. intros r.
  assert (G : made_errors (match handle_move (snd r) with
                           | None => reset_current | Some (CommandException m) => throw_control m (snd r) x
                           | Some _ => panic_with PNotCommandException end)).
  { destruct (handle_move (snd r)) as [[]|]; try (apply made_quiet; intros s; exact Logic.I).
    - apply made_throw_control. }
  destruct (snd r); try exact G. apply made_throw_control.
Qed.
Lemma made_cancel_loop : forall fuel, made_errors (cancel_loop fuel).
Proof.
  induction fuel as [|fuel IHf]; cbn [cancel_loop]; [apply plain_made; plain|].
  apply made_bind; [apply plain_made; plain|]. intros b. destruct b; [|apply plain_made; plain].
  intros s5. destruct (receive_robot_state s5) as [[y|y|y| |] s6]; try exact Logic.I; [apply IHf|].
  destruct (is_nil (n_usched s6) && is_nil (u_queue (n_udp s6))); [exact Logic.I|apply IHf].
Qed.
Lemma made_tail : forall id f, made_errors (cancel_loop f ;;; check_response c_move_response 13 id (fun _ => None) ;;; reset_current).
Proof.
  intros id f. apply made_bind; [apply made_cancel_loop|]. intros ?.
  apply made_bind; [apply plain_made, plain_check; intros; discriminate|]. intros ?. apply plain_made; unfold reset_current; plain.
Qed.
Lemma made_control : forall k cb, made_errors (control k cb).
Proof.
  intros k cb. unfold control. apply made_bind; [apply plain_made; unfold new_intern; plain|]. intros ?.
  apply made_bind.
  { unfold start_motion. apply made_bind; [apply plain_made; plain|]. intros b. destruct b; [apply plain_made; plain|].
    apply made_bind; [apply plain_made; plain|]. intros ?. apply made_bind.
    { unfold execute_move. apply made_bind; [apply made_quiet; intros s; exact Logic.I|]. intros id.
      apply plain_made. plain. apply plain_as_result. intros e. apply handle_move_plain. }
    intros id. apply made_bind; [apply plain_made; plain|]. intros s0. apply made_bind.
    { generalize (bound s0). induction n as [|n IH]; cbn [start_loop]; [apply plain_made; plain|].
      apply made_bind; [apply plain_made; unfold modes_differ; plain|]. intros d. destruct d; [|apply plain_made; plain].
      intros s. destruct (check_response _ _ _ _ s) as [[[]|[]|p| |] s1]; try exact Logic.I.
      apply made_bind; [apply made_update|]. intros ?. exact IH. }
    intros ?. apply made_bind; [|intros; apply plain_made; plain].
    apply made_quiet. intros s. unfold flush_log. destruct (logger_flush (r_logger s)) as [[log|] lg]; exact Logic.I. }
  intros id. unfold run_loop. intros s.
  assert (D : made_errors (do_loop k id cb)).
  { unfold do_loop. apply made_bind; [apply made_update|]. intros x. apply made_bind; [apply made_throw_on|]. intros ?.
    apply made_bind; [apply plain_made; plain|]. intros s0.
    generalize (bound s0) (rs_message_id x) zero_motion (match k_torque k with Some _ => Some zero7 | None => None end). intros n.
    revert x cb. induction n as [|n IH]; intros x cb0 previous m c; cbn [motion_loop]; [apply plain_made; plain|].
    apply made_bind; [apply plain_made; plain|]. intros dt.
    apply made_bind; [apply plain_made; unfold spin_motion; plain|]. intros [[cb1 m1] go].
    apply made_bind; [apply plain_made; unfold spin_control; plain|]. intros [[cb2 c2] go2].
    destruct go2; [|apply made_finish]. apply made_bind; [apply made_update|]. intros x'.
    apply made_bind; [apply made_throw_on|]. intros ?. apply IH. }
  specialize (D s). destruct (do_loop k id cb s) as [[u|e|p| |] s1]; try exact Logic.I.
  assert (C : forall s2, match cancel_motion id s2 with (Err e, _) => made e | _ => True end).
  { intros s2. unfold cancel_motion. destruct (execute_stop s2) as [[q|q|q| |] s3]; try exact Logic.I.
    destruct (receive_robot_state s3) as [[x|x|x| |] s4]; try exact Logic.I.
    - apply made_tail.
    - apply made_tail. }
  specialize (C s1). unfold bind. destruct (cancel_motion id s1) as [[q|q|q| |] s2]; try exact Logic.I; [exact D|exact C].
Qed.

Lemma exchanged_app : forall d t, exists l, exchanged (d ++ t) = exchanged t ++ l.
Proof.
  induction d as [|e d IH]; intros t; [exists []; symmetry; apply app_nil_r|]. destruct (IH t) as [l E].
  destruct e; cbn [app exchanged]; eauto. destruct (waiting_command (d ++ t)); [|eauto].
  rewrite E. eexists. symmetry. apply app_assoc.
Qed.
Lemma motion_pairs_exchanged : forall t, exists l, exchanged t = l ++ motion_pairs t.
Proof.
  induction t as [|e t [l IH]]; [exists []; reflexivity|].
  destruct e as [id r|id m|a c|x|x|x dt|m f|x dt|q f|]; cbn [motion_pairs exchanged]; eauto.
  - destruct r; eauto. exists (exchanged t). symmetry. apply app_nil_r.
  - destruct (waiting_command t); [|eauto]. rewrite IH. exists l. symmetry. apply app_assoc.
Qed.
Lemma skipn_incl : forall A n (l : list A) x, In x (skipn n l) -> In x l.
Proof. intros A n l x H. rewrite <- (firstn_skipn n l). apply in_or_app. auto. Qed.

(** * C37 *)
(** A motion fails with a log.  Whatever was done with the handle before:
    - the log holds min (n, size) records, n the number of commands of the motion;
    - each record is a pair of a command sent through this handle and the first state received
      after it;
    - and, motions having been commanded through this handle before or not, every command of
      the failed motion has its answering state.
    Missing: in general the records are neither all of the failed motion nor in its order. *)
Theorem C37_log_partial : forall size s k cb log txt s',
  handle size s -> control k cb s = (Err (ControlException (Some log) txt), s') ->
  List.length log = Nat.min (List.length (motion_commands (trace s'))) size /\
  (forall r, In r log -> In r (exchanged (trace s'))) /\
  map snd (motion_pairs (trace s')) = motion_commands (trace s').
Proof.
  intros size s k cb log txt s' H E. pose proof (control_log size k cb s (handle_quietly size s H)) as C.
  rewrite E in C. destruct C as (_ & _ & -> & Ep).
  assert (Len : List.length (motion_commands (trace s')) = List.length (motion_pairs (trace s'))).
  { rewrite <- Ep. apply map_length. }
  split; [rewrite Len; exact (attached_length size _ _)|]. split; [|exact Ep].
  intros r Hr. apply (attached_in size) in Hr. apply in_app_or in Hr. destruct Hr as [Hr|Hr].
  - apply skipn_incl in Hr. pose proof (control_grew k cb s) as [d T]. rewrite E in T. cbn [snd] in T.
    rewrite T. destruct (exchanged_app d (trace s)) as [l ->]. apply in_or_app. auto.
  - destruct (motion_pairs_exchanged (trace s')) as [l ->]. apply in_or_app. auto.
Qed.
Print Assumptions C37_log_partial.

(** What the buffers hold between two motions: [min (size, n)] pairs of every motion. *)
Lemma sum_pairs : forall size t, (lost_before size t + recorded_before size t + List.length (motion_pairs t) = List.length (exchanged t))%nat.
Proof.
  intros size. induction t as [|e t IH]; [reflexivity|].
  destruct e; cbn [lost_before recorded_before motion_pairs exchanged]; auto.
  - destruct r; auto. cbn [List.length]. rewrite <- IH, Nat.add_0_r. clear IH. generalize (List.length (motion_pairs t)). intros n. lia.
  - destruct (waiting_command t); [|auto]. rewrite !app_length, <- IH. apply Nat.add_assoc.
Qed.
Lemma left_over_length : forall size t, List.length (left_over size t) = recorded size t.
Proof.
  intros size t. unfold left_over, recorded. rewrite skipn_length, <- (sum_pairs size t). unfold lost_pairs.
  generalize (List.length (motion_pairs t)). intros n. lia.
Qed.

(** The pairs exchanged in one call are those of its motion. *)
Lemma pairs_app : forall d t, Forall no_move d -> exists l, motion_pairs (d ++ t) = motion_pairs t ++ l /\ exchanged (d ++ t) = exchanged t ++ l.
Proof.
  intros d t F. induction F as [|e d He F [l [IH1 IH2]]]; [exists []; rewrite !app_nil_r; auto|].
  destruct e; cbn [app motion_pairs exchanged]; eauto.
  - destruct r; eauto. destruct He.
  - destruct (waiting_command (d ++ t)); eauto. rewrite IH1, IH2. eexists. split; symmetry; apply app_assoc.
Qed.
Lemma control_pairs : forall size k cb s, quietly size s ->
  match control k cb s with
  | (Err (ControlException (Some _) _), s') | (Panic PDuration, s') =>
      exchanged (trace s') = exchanged (trace s) ++ motion_pairs (trace s')
  | _ => True
  end.
Proof.
  intros size k cb s (W & old & es & So). unfold control. unfold bind at 1.
  assert (Sn : soft new_intern) by (unfold new_intern; soft).
  assert (Pn : plain_errors new_intern) by (unfold new_intern; plain).
  specialize (Sn s). specialize (Pn s). destruct (new_intern s) as [[u|e|p| |] s1]; cbn [snd] in *; auto.
  2:{ destruct e as [[l|] ?| | | | | | |]; try exact Logic.I. destruct Pn. }
  2:{ destruct p; try exact Logic.I; discriminate Pn. }
  destruct (calm_quietly size s s1 Sn W old es So) as [W1 So1].
  assert (X1 : exchanged (trace s1) = exchanged (trace s)).
  { destruct Sn as [L (d & T & F)]. rewrite T. apply (calm_events d (trace s) F W). }
  unfold bind at 1. pose proof (start_log size (wanted_ctrl k) (k_mode k) default_deviation default_deviation old es s1 W1 So1) as St.
  destruct (start_motion _ _ _ _ s1) as [[id|e|p| |] s2]; auto.
  2:{ destruct St as (W2 & So2 & P2). destruct e as [[l|] ?| | | | | | |]; try exact Logic.I. destruct P2. }
  2:{ destruct p; try exact Logic.I; discriminate St. }
  destruct St as (_ & X2 & M2). destruct (run_loop_no_move k id cb s2) as (d & T & F).
  destruct (pairs_app d (trace s2) F) as (l & A & B). rewrite <- T in A, B. rewrite M2 in A. cbn [app] in A. rewrite X2, X1, <- A in B.
  destruct (run_loop k id cb s2) as [[v|[[q|] ?| | | | | | |]|p| |] s3]; try exact Logic.I; [exact B|].
  destruct p; try exact Logic.I. exact B.
Qed.
Lemma exchanged_sorted : forall t, lawful t -> StronglySorted before (exchanged t) /\
  match last_state t with
  | None => exchanged t = []
  | Some y => Forall (fun r => rs_message_id (fst r) <= rs_message_id y) (exchanged t)
  end.
Proof.
  induction t as [|e t IH]; [split; [constructor|reflexivity]|]. intros [O L]. specialize (IH L). destruct IH as [S B].
  destruct e as [id r|id m|a c|x|x|x dt|m f|x dt|q f|]; cbn [exchanged last_state]; try (split; assumption).
  cbn in O. destruct (waiting_command t) as [c|].
  - split.
    + apply sorted_snoc; [exact S|]. destruct (last_state t) as [y|].
      * specialize (O y eq_refl). eapply Forall_impl; [|exact B]. unfold before. cbn. intros; lia.
      * rewrite B. constructor.
    + apply Forall_app. split; [|constructor; [cbn; lia|constructor]]. destruct (last_state t) as [y|].
      * specialize (O y eq_refl). eapply Forall_impl; [|exact B]. cbn. intros; lia.
      * rewrite B. constructor.
  - split; [exact S|]. destruct (last_state t) as [y|].
    + specialize (O y eq_refl). eapply Forall_impl; [|exact B]. cbn. intros; lia.
    + rewrite B. constructor.
Qed.
Lemma left_over_sorted : forall size k cb s, handle size s ->
  match control k cb s with
  | (Err (ControlException (Some _) _), s') | (Panic PDuration, s') =>
      StronglySorted before (left_over size (trace s) ++ motion_pairs (trace s'))
  | _ => True
  end.
Proof.
  intros size k cb s H. pose proof (control_lawful k cb s (handle_reachable size s H)) as L.
  pose proof (control_pairs size k cb s (handle_quietly size s H)) as P.
  pose proof (control_log size k cb s (handle_quietly size s H)) as C.
  assert (G : forall s' : st, lawful (trace s') -> exchanged (trace s') = exchanged (trace s) ++ motion_pairs (trace s') ->
    StronglySorted before (left_over size (trace s) ++ motion_pairs (trace s'))).
  { intros s' L' P'. unfold left_over. pose proof (proj1 (exchanged_sorted _ L')) as So. rewrite P' in So.
    apply (sorted_skipn (lost_pairs size (trace s))) in So. rewrite skipn_app in So.
    replace (lost_pairs size (trace s) - List.length (exchanged (trace s)))%nat with O in So; [exact So|].
    pose proof (sum_pairs size (trace s)). unfold lost_pairs. clear -H0. revert H0. generalize (List.length (motion_pairs (trace s))). intros n. lia. }
  destruct (control k cb s) as [[u|[[q|] ?| | | | | | |]|p| |] s3]; try exact Logic.I; [exact (G s3 L P)|].
  destruct p; try exact Logic.I. exact (G s3 L P).
Qed.

(** Whatever was done with the handle before: with [old] in the buffers when the motion starts and
    [new] its pairs, n in number, the log is the first n of [old ++ new] if n <= size, else the
    [size] of them after the first n - size, rotated by n mod size. *)
Theorem C37_every_handle : forall size s k cb log txt s',
  handle size s -> control k cb s = (Err (ControlException (Some log) txt), s') ->
  let old := left_over size (trace s) in
  let new := motion_pairs (trace s') in
  let n := List.length new in
  map snd new = motion_commands (trace s') /\
  exchanged (trace s') = exchanged (trace s) ++ new /\
  List.length old = recorded size (trace s) /\
  ((n <= size)%nat -> log = firstn n (old ++ new)) /\
  ((0 < size < n)%nat -> exists a b, firstn size (skipn (n - size) (old ++ new)) = a ++ b /\
     List.length a = (n mod size)%nat /\ log = b ++ a).
Proof.
  intros size s k cb log txt s' H E old new n. pose proof (control_log size k cb s (handle_quietly size s H)) as C.
  pose proof (control_pairs size k cb s (handle_quietly size s H)) as P.
  rewrite E in C, P. destruct C as (_ & _ & L & Ep). split; [exact Ep|]. split; [exact P|]. split; [apply left_over_length|].
  fold (left_over size (trace s)) in L. fold old in L. fold new in L. clearbody old new.
  change (log = @attached (robot_state_intern * robot_command) size old new) in L. unfold attached in L. cbv zeta in L. fold n in L. split.
  - intros Hn. destruct (Nat.leb_spec n size); [exact L|lia].
  - intros Hn. destruct (Nat.leb_spec n size); [lia|]. eexists _, _. split; [symmetry; apply firstn_skipn|]. split; [|exact L].
    rewrite !firstn_length, skipn_length, app_length. fold n. pose proof (Nat.mod_upper_bound n size). lia.
Qed.
Print Assumptions C37_every_handle.

(** So the log says nothing about the failed motion when the motions before it left enough pairs:
    every record then is older than every pair of the failed motion. *)
Theorem C37_only_old : forall size s k cb log txt s',
  handle size s -> control k cb s = (Err (ControlException (Some log) txt), s') ->
  (List.length (motion_commands (trace s')) <= recorded size (trace s))%nat ->
  forall r, In r log -> In r (exchanged (trace s)) /\
    forall q, In q (motion_pairs (trace s')) -> rs_message_id (fst r) < rs_message_id (fst q).
Proof.
  intros size s k cb log txt s' H E Hn r Hr.
  destruct (C37_every_handle size s k cb log txt s' H E) as (Ep & _ & Lo & Sm & Lg).
  pose proof (left_over_sorted size k cb s H) as So. rewrite E in So.
  assert (Len : List.length (motion_commands (trace s')) = List.length (motion_pairs (trace s'))) by (rewrite <- Ep; apply map_length).
  rewrite Len, <- Lo in Hn. clear Len Ep Lo.
  assert (Ho : In r (left_over size (trace s))).
  { set (old := left_over size (trace s)) in *. set (new := motion_pairs (trace s')) in *. clearbody old new.
    destruct (Nat.le_gt_cases (List.length new) size) as [K|K].
    - rewrite (Sm K) in Hr. rewrite firstn_app in Hr. replace (List.length new - List.length old)%nat with O in Hr by lia.
      cbn in Hr. rewrite app_nil_r in Hr. rewrite <- (firstn_skipn (List.length new) old). apply in_or_app. auto.
    - destruct size as [|size].
      + destruct (C37_log_partial _ _ _ _ _ _ _ H E) as (L0 & _). rewrite Nat.min_0_r in L0. destruct log; [destruct Hr|discriminate L0].
      + destruct Lg as (a & b & F & _ & Q); [lia|]. rewrite Q in Hr.
        assert (Hf : In r (firstn (S size) (skipn (List.length new - S size) (old ++ new)))).
        { rewrite F. apply in_app_or in Hr. apply in_or_app. tauto. }
        rewrite skipn_app in Hf. replace (List.length new - S size - List.length old)%nat with O in Hf by lia.
        rewrite skipn_O, firstn_app, skipn_length in Hf.
        replace (S size - (List.length old - (List.length new - S size)))%nat with O in Hf by lia.
        cbn [firstn] in Hf. rewrite app_nil_r in Hf. apply (skipn_incl _ (List.length new - S size)).
        rewrite <- (firstn_skipn (S size) (skipn _ old)). apply in_or_app. left. exact Hf. }
  split; [exact (skipn_incl _ _ _ _ Ho)|]. intros q Hq.
  set (old := left_over size (trace s)) in *. set (new := motion_pairs (trace s')) in *. clearbody old new. clear -So Ho Hq.
  induction old as [|o old IH]; [destruct Ho|]. cbn [app] in So. inversion So as [|? ? S' F]; subst.
  destruct Ho as [->|Ho]; [|exact (IH S' Ho)]. rewrite Forall_forall in F. apply (F q). apply in_or_app. auto.
Qed.
Print Assumptions C37_only_old.

(** The first motion through a handle: with at most [size] commands the log is the list of all
    pairs of the motion, oldest first.  With more it holds the last [size] pairs, rotated by
    n mod size; so it is what was promised if [size] divides n. *)
Theorem C37_first_motion : forall size s k cb log txt s',
  handle size s -> exchanged (trace s) = [] ->
  control k cb s = (Err (ControlException (Some log) txt), s') ->
  let n := List.length (motion_commands (trace s')) in
  ((n <= size)%nat -> log = motion_pairs (trace s')) /\
  ((0 < size < n)%nat -> exists old new, last_n size (motion_pairs (trace s')) = old ++ new /\
     List.length old = (n mod size)%nat /\ log = new ++ old) /\
  (n mod size = 0 -> log = last_n size (motion_pairs (trace s')))%nat.
Proof.
  intros size s k cb log txt s' H X E n. pose proof (control_log size k cb s (handle_quietly size s H)) as C.
  rewrite E in C. destruct C as (_ & _ & L & Ep). rewrite X, skipn_nil, attached_first in L.
  assert (Len : n = List.length (motion_pairs (trace s'))).
  { unfold n. rewrite <- Ep. apply map_length. }
  clearbody n. subst n. set (ps := motion_pairs (trace s')) in *. clearbody ps.
  assert (A : (List.length ps <= size)%nat -> log = ps).
  { intros Hn. subst log. destruct (Nat.leb_spec (List.length ps) size); [reflexivity|lia]. }
  split; [exact A|]. split.
  - intros Hn. destruct (Nat.leb_spec (List.length ps) size); [lia|].
    exists (firstn (List.length ps mod size) (last_n size ps)), (skipn (List.length ps mod size) (last_n size ps)).
    split; [symmetry; apply firstn_skipn|]. split; [|exact L].
    rewrite firstn_length, last_n_length. pose proof (Nat.mod_upper_bound (List.length ps) size). lia.
  - intros D. destruct (Nat.leb_spec (List.length ps) size).
    + subst log. unfold last_n. replace (List.length ps - size)%nat with 0%nat by lia. reflexivity.
    + subst log. rewrite D. unfold rotate. cbn. apply app_nil_r.
Qed.
Print Assumptions C37_first_motion.

(** The log size is 2 and three commands are sent, then the motion is aborted. *)
Definition ex_env_abort (size : nat) (m : move_status) : st :=
  st_init size RtIgnore
    (ex_first (ex_idle 1) ++ ex_states [ex_run 2; ex_run 4; ex_run 5; ex_run 6; ex_reflex 8; ex_idle 9]
       ++ ex_states [ex_run 12; ex_run 13; ex_reflex 14; ex_idle 15])
    [ex_connected 0; ex_move 1 MsMotionStarted; None; ex_move 1 m; ex_stop 2 SsSuccess; None;
     ex_move 3 MsMotionStarted; None; ex_move 3 m; ex_stop 4 SsSuccess] [] true true.
Definition log_of (r : outcome unit * st) : option (list N) :=
  match fst r with
  | Err (ControlException (Some log) _) => Some (map (fun x => rs_message_id (fst x)) log)
  | _ => None
  end.
Definition ids_of (s : st) : list N := map (fun x => rs_message_id (fst x)) (motion_pairs (trace s)).

Lemma after_new_handle : forall size m, handle size (after_new (ex_env_abort size m)).
Proof.
  intros size m. unfold after_new, ex_env_abort.
  destruct (robot_new 1337 _) as [[u|e|p| |] s] eqn:E; [eapply handle_new; exact E|exfalso..];
    assert (X : fst (robot_new 1337 (ex_env_abort size m)) = Ok tt) by (destruct m; vm_compute; reflexivity);
    unfold ex_env_abort in X; rewrite E in X; discriminate X.
Qed.
Example C37_ex : handle 10 (after_new (ex_env_abort 10 MsAborted)) /\
  exchanged (trace (after_new (ex_env_abort 10 MsAborted))) = [] /\
  log_of (control (ex_control 99) 0 (after_new (ex_env_abort 10 MsAborted))) = Some [5; 6; 8] /\
  ids_of (snd (control (ex_control 99) 0 (after_new (ex_env_abort 10 MsAborted)))) = [5; 6; 8].
Proof. split; [apply after_new_handle|]. vm_compute. auto. Qed.

(** The order is not kept: of the states 5, 6 and 8 the log of size 2 holds 8 and 6, in this
    order. *)
Theorem C37_order_refuted : exists size s k cb log txt s',
  handle size s /\ exchanged (trace s) = [] /\
  control k cb s = (Err (ControlException (Some log) txt), s') /\
  log <> last_n size (motion_pairs (trace s')) /\
  map (fun r => rs_message_id (fst r)) log = [8; 6] /\
  map (fun r => rs_message_id (fst r)) (motion_pairs (trace s')) = [5; 6; 8].
Proof.
  exists 2%nat, (after_new (ex_env_abort 2 MsAborted)), (ex_control 99), 0.
  assert (X : log_of (control (ex_control 99) 0 (after_new (ex_env_abort 2 MsAborted))) = Some [8; 6] /\
    ids_of (snd (control (ex_control 99) 0 (after_new (ex_env_abort 2 MsAborted)))) = [5; 6; 8] /\
    exchanged (trace (after_new (ex_env_abort 2 MsAborted))) = []).
  { vm_compute. auto. }
  destruct X as (X1 & X2 & X3). pose proof (after_new_handle 2 MsAborted) as H.
  destruct (control _ _ _) as [[u|[[log|] txt| | | | | | |]|p| |] s']; try discriminate X1.
  exists log, txt, s'. unfold log_of, ids_of in *. cbn [fst snd] in *.
  split; [exact H|]. split; [exact X3|]. split; [reflexivity|]. split; [|split; [|exact X2]].
  - intros E. injection X1 as X1. apply (f_equal (map (fun r => rs_message_id (fst r)))) in E. rewrite X1 in E.
    unfold last_n in E. rewrite <- (map_length (fun x => rs_message_id (fst x)) (motion_pairs (trace s'))), X2 in E.
    cbn [List.length Nat.sub] in E. rewrite <- skipn_map, X2 in E. discriminate E.
  - injection X1. auto.
Qed.
Print Assumptions C37_order_refuted.

(** The log of the second failed motion (one command, answered by state 14) holds a record of the
    first motion instead: the state 5. *)
Lemma stale_of : forall size s k cb k2 cb2 x ids,
  handle size s -> (match fst (control k cb s) with Err _ => true | _ => false end) = true ->
  log_of (control k2 cb2 (snd (control k cb s))) = Some [x] ->
  ids_of (snd (control k2 cb2 (snd (control k cb s)))) = ids -> ~ In x ids ->
  exists size s k cb log txt s',
    handle size s /\ control k cb s = (Err (ControlException (Some log) txt), s') /\
    exists r, In r log /\ ~ In r (motion_pairs (trace s')).
Proof.
  intros size s k cb k2 cb2 x ids H X3 X1 X2 Hx. exists size, (snd (control k cb s)), k2, cb2.
  assert (H1 : handle size (snd (control k cb s))).
  { pose proof (handle_err size s (AControl k cb)) as K. cbn [run_api] in K.
    destruct (control k cb s) as [[u|e|p| |] s1]; cbn [fst] in X3; try discriminate X3. eapply K; [exact H|reflexivity]. }
  generalize dependent (snd (control k cb s)). intros s1 X1 X2 H1.
  destruct (control k2 cb2 s1) as [[u|[[log|] txt| | | | | | |]|p| |] s']; try discriminate X1.
  exists log, txt, s'. unfold log_of, ids_of in *. cbn [fst snd] in *.
  split; [exact H1|]. split; [reflexivity|]. destruct log as [|r [|]]; try discriminate X1. exists r. split; [left; reflexivity|].
  intros Hin. apply (in_map (fun x => rs_message_id (fst x))) in Hin. rewrite X2 in Hin. injection X1 as X1.
  rewrite X1 in Hin. exact (Hx Hin).
Qed.
Theorem C37_stale_refuted : exists size s k cb log txt s',
  handle size s /\ control k cb s = (Err (ControlException (Some log) txt), s') /\
  exists r, In r log /\ ~ In r (motion_pairs (trace s')).
Proof.
  apply (stale_of 10 (after_new (ex_env_abort 10 MsAborted)) (ex_control 99) 0 (ex_control 99) 0 5 [14]).
  - apply after_new_handle.
  - vm_compute. reflexivity.
  - vm_compute. reflexivity.
  - vm_compute. reflexivity.
  - intros [H|[]]. discriminate H.
Qed.
Print Assumptions C37_stale_refuted.

(** A motion of one command, answered by state 14, after one of three: the log is the state 5, the
    first of the motion before. *)
Definition ex_second : st := snd (control (ex_control 99) 0 (after_new (ex_env_abort 10 MsAborted))).
Lemma ex_second_handle : handle 10 ex_second.
Proof.
  unfold ex_second. pose proof (handle_err 10 _ (AControl (ex_control 99) 0)
    (match fst (control (ex_control 99) 0 (after_new (ex_env_abort 10 MsAborted))) with Err e => e | _ => PartialCommandError end)
    (snd (control (ex_control 99) 0 (after_new (ex_env_abort 10 MsAborted)))) (after_new_handle 10 MsAborted)) as K.
  apply K. clear K. cbn [run_api].
  assert (X : (match fst (control (ex_control 99) 0 (after_new (ex_env_abort 10 MsAborted))) with Err _ => true | _ => false end) = true)
    by (vm_compute; reflexivity).
  destruct (control (ex_control 99) 0 (after_new (ex_env_abort 10 MsAborted))) as [[u|e|p| |] s1]; try discriminate X. reflexivity.
Qed.
Example C37_ex_second : handle 10 ex_second /\
  log_of (control (ex_control 99) 0 ex_second) = Some [5] /\
  ids_of (snd (control (ex_control 99) 0 ex_second)) = [14] /\
  map (fun x => rs_message_id (fst x)) (left_over 10 (trace ex_second)) = [5; 6; 8] /\
  (List.length (motion_commands (trace (snd (control (ex_control 99) 0%N ex_second)))) <= recorded 10 (trace ex_second))%nat.
Proof. split; [apply ex_second_handle|]. split; [|split; [|split; [|apply Nat.leb_le]]]; vm_compute; reflexivity. Qed.

(** * C38 *)
(** Building the exception panics in one case only: the motion sent n commands, more than the log
    size, and n = 1 mod size.  Whatever motions were made through the handle before, and whatever
    state, error flags, status and text come from the robot. *)
Theorem C38_no_panic_partial : forall size s k cb,
  handle size s -> (0 < size)%nat ->
  match fst (control k cb s) with
  | Panic PErrorSet => False
  | Panic PLog => False
  | Panic PDuration =>
      let n := List.length (motion_pairs (trace (snd (control k cb s)))) in
      (size < n)%nat /\ (n mod size = 1)%nat
  | _ => True
  end.
Proof.
  intros size s k cb H Hs. pose proof (control_log size k cb s (handle_quietly size s H)) as C.
  pose proof (left_over_sorted size k cb s H) as So.
  destruct (control k cb s) as [[u|e|p| |] s']; try exact Logic.I. cbn [fst snd] in *.
  destruct p; try exact Logic.I; try exact C; try (exfalso; lia).
  fold (left_over size (trace s)) in C. set (old := left_over size (trace s)) in *. set (new := motion_pairs (trace s')) in *.
  clearbody old new. set (n := List.length new).
  change (disordered (@attached (robot_state_intern * robot_command) size old new)) in C. unfold attached in C. cbv zeta in C. fold n in C.
  destruct (Nat.leb_spec n size) as [Hn|Hn]; [destruct (sorted_not_disordered _ (sorted_firstn n _ So) C)|].
  split; [exact Hn|]. eapply rotate_disordered; [apply sorted_firstn, sorted_skipn; exact So| |exact C].
  rewrite firstn_length, skipn_length, app_length. fold n. pose proof (Nat.mod_upper_bound n size). lia.
Qed.
Print Assumptions C38_no_panic_partial.

(** And in that case a reflex always makes it panic: an exception which says so is not returned. *)
Theorem C38_reflex_lost : forall size s k cb log txt s',
  handle size s -> control k cb s = (Err (ControlException (Some log) txt), s') ->
  let n := List.length (motion_commands (trace s')) in
  (2 <= size < n)%nat -> (n mod size = 1)%nat -> ct_stats txt = None.
Proof.
  intros size s k cb log txt s' H E n Hn Hm.
  destruct (C37_every_handle size s k cb log txt s' H E) as (Ep & _ & _ & _ & Lg).
  pose proof (left_over_sorted size k cb s H) as So. rewrite E in So.
  assert (Len : n = List.length (motion_pairs (trace s'))) by (unfold n; rewrite <- Ep; apply map_length).
  rewrite <- Len in Lg. destruct Lg as (a & b & F & La & Q); [lia|]. rewrite Hm in La.
  destruct a as [|x [|]]; try discriminate La.
  assert (Sf : StronglySorted before ([x] ++ b)) by (rewrite <- F; apply sorted_firstn, sorted_skipn; exact So).
  assert (Lb : List.length ([x] ++ b) = size).
  { rewrite <- F, firstn_length, skipn_length, app_length, <- Len. lia. }
  destruct (exists_last (l := b)) as (b1 & y & ->); [destruct b; [cbn in Lb; lia|discriminate]|].
  pose proof (made_control k cb s) as M. rewrite E in M. destruct M as (message & status & reasons & M).
  inversion Sf as [|? ? _ G]; subst. rewrite Forall_forall in G. specialize (G y). cbn [app] in G.
  assert (B : before x y) by (apply G, in_or_app; right; left; reflexivity). unfold before in B.
  unfold create_control_exception in M. destruct status; try (injection M as <-; reflexivity). cbv zeta in M.
  rewrite !rev_app_distr in M. cbn [rev app] in M. destruct x as [xs xc], y as [ys yc]. cbn [fst] in B.
  destruct (rs_message_id ys <=? rs_message_id xs) eqn:B1; [|discriminate M]. apply N.leb_le in B1. lia.
Qed.
Print Assumptions C38_reflex_lost.

(** What the exception says: two values are added exactly when the motion ended by a reflex and
    the log has at least two records.  They are the success rate in the last record but one and the
    number of cycles missing between the last two records; the subtraction does not wrap. *)
Theorem C38_from_log : forall size s k cb log txt s',
  handle size s -> control k cb s = (Err (ControlException (Some log) txt), s') ->
  exists message status reasons,
    (status <> MsReflexAborted -> txt = ControlText message None) /\
    (status = MsReflexAborted -> ct_text txt = (message ++ " " ++ reasons)%string /\
      ((List.length log < 2)%nat -> ct_stats txt = None) /\
      (forall l a ca b cb, log = l ++ [(a, ca); (b, cb)] ->
         exists lost, ct_stats txt = Some (rs_control_command_success_rate a, lost) /\
           rs_message_id a + lost + 1 = rs_message_id b)).
Proof.
  intros size s k cb log txt s' H E.
  pose proof (made_control k cb s) as M. rewrite E in M. destruct M as (message & status & reasons & M).
  exists message, status, reasons. clear E H.
  split.
  - intros Hs. unfold create_control_exception in M. destruct status; try congruence.
  - intros ->. unfold create_control_exception in M. cbv zeta in M.
    destruct (@rev record log) as [|[s1 c1] [|[s2 c2] r]] eqn:R.
    + injection M as <-. split; [reflexivity|]. split; [reflexivity|]. intros l a ca b cb0 ->.
      rewrite rev_app_distr in R. discriminate R.
    + injection M as <-. split; [reflexivity|]. split; [reflexivity|]. intros l a ca b cb0 ->.
      rewrite rev_app_distr in R. discriminate R.
    + assert (Q : log = rev r ++ [(s2, c2); (s1, c1)]).
      { rewrite <- (rev_involutive log). rewrite R. cbn [rev]. rewrite <- app_assoc. reflexivity. }
      destruct (rs_message_id s2 <=? rs_message_id s1) eqn:B1; [|discriminate M].
      destruct (1 <=? rs_message_id s1 - rs_message_id s2) eqn:B2; [|discriminate M].
      apply N.leb_le in B1, B2. injection M as <-. split; [reflexivity|]. split.
      * rewrite Q, app_length. cbn. lia.
      * intros l a ca b cb0 Q'. rewrite Q in Q'.
        change [(s2, c2); (s1, c1)] with ([(s2, c2)] ++ [(s1, c1)]) in Q'.
        change [(a, ca); (b, cb0)] with ([(a, ca)] ++ [(b, cb0)]) in Q'. rewrite !app_assoc in Q'.
        apply app_inj_tail in Q'. destruct Q' as [Q' Q1]. apply app_inj_tail in Q'. destruct Q' as [_ Q2].
        injection Q1 as -> _. injection Q2 as -> _.
        exists (rs_message_id b - rs_message_id a - 1). split; [reflexivity|lia].
Qed.
Print Assumptions C38_from_log.
(** For the first motion through a handle, when it fits into the log, these are the last two
    states of the motion. *)
Theorem C38_statistics : forall size s k cb log txt s',
  handle size s -> exchanged (trace s) = [] -> (List.length (motion_commands (trace s')) <= size)%nat ->
  control k cb s = (Err (ControlException (Some log) txt), s') ->
  exists message status reasons,
    (status <> MsReflexAborted -> txt = ControlText message None) /\
    (status = MsReflexAborted -> ct_text txt = (message ++ " " ++ reasons)%string /\
      ((List.length (motion_pairs (trace s')) < 2)%nat -> ct_stats txt = None) /\
      (forall l a ca b cb, motion_pairs (trace s') = l ++ [(a, ca); (b, cb)] ->
         exists lost, ct_stats txt = Some (rs_control_command_success_rate a, lost) /\
           rs_message_id a + lost + 1 = rs_message_id b)).
Proof.
  intros size s k cb log txt s' H X Hn E.
  destruct (C37_first_motion size s k cb log txt s' H X E) as [Hl _]. specialize (Hl Hn).
  pose proof (C38_from_log size s k cb log txt s' H E) as C. rewrite Hl in C. exact C.
Qed.
Print Assumptions C38_statistics.
Definition stats_of (r : outcome unit * st) : option (N * N) :=
  match fst r with Err (ControlException (Some _) t) => ct_stats t | _ => None end.
Example C38_ex : handle 10 (after_new (ex_env_abort 10 MsReflexAborted)) /\
  exchanged (trace (after_new (ex_env_abort 10 MsReflexAborted))) = [] /\
  ids_of (snd (control (ex_control 99) 0 (after_new (ex_env_abort 10 MsReflexAborted)))) = [5; 6; 8] /\
  stats_of (control (ex_control 99) 0 (after_new (ex_env_abort 10 MsReflexAborted))) = Some (0x3FF0000000000000, 1).
Proof. split; [apply after_new_handle|]. vm_compute. auto. Qed.

(** With log size 2 and three commands the reflex makes the library panic instead. *)
Theorem C38_panic_refuted : exists size s k cb,
  handle size s /\ (0 < size)%nat /\ exchanged (trace s) = [] /\ fst (control k cb s) = Panic PDuration.
Proof.
  exists 2%nat, (after_new (ex_env_abort 2 MsReflexAborted)), (ex_control 99), 0.
  split; [apply after_new_handle|]. split; [lia|]. vm_compute. auto.
Qed.
Print Assumptions C38_panic_refuted.

(** Aborted without a reflex, the same motion returns its log. *)
Example C38_ex_reflex_lost : handle 2 (after_new (ex_env_abort 2 MsAborted)) /\
  log_of (control (ex_control 99) 0 (after_new (ex_env_abort 2 MsAborted))) = Some [8; 6] /\
  List.length (motion_commands (trace (snd (control (ex_control 99) 0 (after_new (ex_env_abort 2 MsAborted)))))) = 3%nat.
Proof. split; [apply after_new_handle|]. vm_compute. auto. Qed.

(** With log size 0 the first command panics. *)
Theorem C38_size_zero_refuted : exists s k cb, handle 0 s /\ fst (control k cb s) = Panic PLog.
Proof.
  exists (after_new (ex_env_abort 0 MsAborted)), (ex_control 99), 0. split; [apply after_new_handle|]. vm_compute. reflexivity.
Qed.
Print Assumptions C38_size_zero_refuted.
