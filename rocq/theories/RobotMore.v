(** Consequences of lawfulness; starting, stopping, connecting, reading. *)
From Coq Require Import List NArith ZArith Bool Arith Lia String Sorting.Sorted.
From Coq Require Import Init.Byte.
From Verif Require Import Bytes Codec WireModel TcpModel UdpModel UdpSpec UdpProofs ErrorsModel LoggerModel
  RobotModel LoopModel RobotSpec RobotProofs RobotWp LoopProofs Effects.
Import ListNotations.
Open Scope list_scope.
Open Scope N_scope.

(** States of a handle between two calls of a program. *)
Inductive reachable : st -> Prop :=
| reach_new : forall log_size rt usched tsched sends realtime priority port u s,
    robot_new port (st_init log_size rt usched tsched sends realtime priority) = (Ok u, s) -> reachable s
| reach_ok : forall s a u s', reachable s -> run_api a s = (Ok u, s') -> reachable s'
| reach_err : forall s a e s', reachable s -> run_api a s = (Err e, s') -> reachable s'.

Lemma init_fresh : forall l rt us ts se rk pr, fresh_handle (st_init l rt us ts se rk pr).
Proof. intros. split; [|reflexivity]. intros C. contradiction C. reflexivity. Qed.

Lemma reachable_I : forall s, reachable s -> I s.
Proof.
  induction 1 as [l rt us ts se rk pr port u s E|s a u s' R IH E|s a e s' R IH E].
  - pose proof (wp_robot_new port _ (init_fresh l rt us ts se rk pr)) as W. unfold wp in W. rewrite E in W. exact W.
  - pose proof (wp_api a s IH) as W. unfold wp in W. rewrite E in W. exact W.
  - pose proof (wp_api a s IH) as W. unfold wp in W. rewrite E in W. exact W.
Qed.

(** * From lawfulness *)
Lemma lawful_split : forall t1 e t2, lawful (t1 ++ e :: t2) -> ok e t2 /\ lawful t2.
Proof. induction t1 as [|a t1 IH]; intros e t2 H; [exact H|]. apply IH. exact (proj2 H). Qed.

Definition below (n : N) (x : robot_state_intern) : Prop := rs_message_id x < n.

Lemma newest_motion_call_in : forall t x, newest_motion_call t = Some x -> In x (shown t).
Proof.
  induction t as [|e t IH]; intros x H; [discriminate|]. destruct e; cbn in *; auto.
  injection H as ->. auto.
Qed.
Lemma this_motion_incl : forall t e, In e (this_motion t) -> In e t.
Proof.
  induction t as [|a t IH]; intros e H; [exact H|].
  destruct a as [i r|i m|a c|x|x|x d|m f|x d|q f|]; try (destruct H as [->|H]; [left; reflexivity|right; auto]).
  destruct r; try (destruct H as [->|H]; [left; reflexivity|right; auto]). destruct H.
Qed.
Lemma shown_incl : forall t x, In x (shown (this_motion t)) -> In x (shown t).
Proof.
  intros t x H. unfold shown in *. rewrite in_flat_map in *. destruct H as (e & He & Hx).
  exists e. split; [apply this_motion_incl; exact He|exact Hx].
Qed.

Lemma shown_bound : forall t, lawful t ->
  match last_state t with
  | None => shown t = []
  | Some y => Forall (fun x => rs_message_id x <= rs_message_id y) (shown t)
  end.
Proof.
  induction t as [|e t IH]; [reflexivity|intros [O L]]. specialize (IH L).
  destruct e; cbn [last_state shown flat_map app]; try exact IH.
  - cbn in O. destruct (last_state t) as [y|].
    + specialize (O y eq_refl). eapply Forall_impl; [|exact IH]. cbn. intros; lia.
    + change (Forall (fun x => rs_message_id x <= rs_message_id s) (shown t)). rewrite IH. constructor.
  - destruct O as (t' & ->). cbn [last_state] in *. constructor; [lia|exact IH].
  - destruct O as (_ & _ & t' & -> & _). cbn [last_state] in *. constructor; [lia|exact IH].
Qed.
Lemma shown_below : forall t x, lawful (EvState x :: t) ->
  Forall (fun y => rs_message_id y < rs_message_id x) (shown t).
Proof.
  intros t x [O L]. pose proof (shown_bound t L) as B. cbn in O.
  destruct (last_state t) as [y|]; [|rewrite B; constructor].
  specialize (O y eq_refl). eapply Forall_impl; [|exact B]. cbn. intros; lia.
Qed.

Lemma shown_sorted : forall t, lawful t ->
  StronglySorted (fun x y => rs_message_id y < rs_message_id x) (shown t).
Proof.
  induction t as [|e t IH]; intros H; [constructor|]. pose proof H as [O L]. specialize (IH L).
  destruct e; try exact IH.
  - destruct O as (t' & ->). constructor; [exact IH|]. apply (shown_below t' s L).
  - destruct O as (_ & _ & t' & -> & _). constructor; [exact IH|]. apply (shown_below t' s L).
Qed.

Lemma states_sorted : forall t1 x mid y t2, lawful (t1 ++ EvState x :: mid ++ EvState y :: t2) ->
  rs_message_id y < rs_message_id x.
Proof.
  intros t1 x mid y t2 H. apply lawful_split in H. destruct H as [O L].
  assert (B : exists z, last_state (mid ++ EvState y :: t2) = Some z /\ rs_message_id y <= rs_message_id z).
  { clear O. induction mid as [|e mid IH]; [exists y; cbn; split; [reflexivity|lia]|].
    destruct L as [O L]. specialize (IH L). destruct e; try exact IH.
    destruct IH as (z & Hz & Le). exists s. split; [reflexivity|]. cbn in O. specialize (O z Hz). lia. }
  destruct B as (z & Hz & Le). cbn in O. specialize (O z Hz). lia.
Qed.

Lemma commands_bound : forall t, lawful t ->
  match last_state t with
  | None => commands t = []
  | Some y => Forall (fun c => rc_message_id c <= rs_message_id y) (commands t) /\
              (unanswered t -> Forall (fun c => rc_message_id c < rs_message_id y) (commands t))
  end.
Proof.
  induction t as [|e t IH]; [reflexivity|intros [O L]]. specialize (IH L).
  destruct e; cbn [last_state commands flat_map app unanswered]; try exact IH.
  - destruct O as (U & (x & Hx & Ei) & _). rewrite Hx in *. destruct IH as [IH _].
    split; [|contradiction]. constructor; [lia|exact IH].
  - cbn in O. destruct (last_state t) as [y|].
    + specialize (O y eq_refl). destruct IH as [IH _].
      split; [|intros _]; (eapply Forall_impl; [|exact IH]; cbn; intros; lia).
    + change (flat_map _ t) with (commands t). rewrite IH. split; [|intros _]; constructor.
Qed.
Lemma commands_sorted : forall t, lawful t ->
  StronglySorted (fun c d => rc_message_id d < rc_message_id c) (commands t).
Proof.
  induction t as [|e t IH]; intros H; [constructor|]. pose proof H as [O L]. specialize (IH L).
  destruct e; try exact IH.
  constructor; [exact IH|]. destruct O as (U & (x & Hx & Ei) & _).
  pose proof (commands_bound t L) as B. rewrite Hx in B. destruct B as [_ B]. specialize (B U).
  rewrite Ei. exact B.
Qed.

Lemma unanswered_mid : forall mid a c t, unanswered (mid ++ EvCommand a c :: t) -> exists x, In (EvState x) mid.
Proof.
  induction mid as [|e mid IH]; intros a c t H; [contradiction|].
  destruct e; cbn in H; try contradiction; try (destruct (IH _ _ _ H) as (x & Hx); exists x; right; exact Hx).
  exists s. left. reflexivity.
Qed.

(** Time steps. *)
Lemma this_motion_cons : forall e t, (forall i c m p g, e <> EvRequest i (ReqMove c m p g)) ->
  this_motion (e :: t) = e :: this_motion t.
Proof.
  intros e t H. destruct e as [i r|i m|a c|x|x|x d|m f|x d|q f|]; try reflexivity.
  destruct r; try reflexivity. exfalso. eapply H. reflexivity.
Qed.
Fixpoint total (l : list (robot_state_intern * N)) : N :=
  match l with [] => 0 | (_, dt) :: r => dt + total r end.
Lemma newest_calls : forall t,
  newest_motion_call t = match motion_calls t with [] => None | (x, _) :: _ => Some x end.
Proof. induction t as [|e t IH]; [reflexivity|]. destruct e; cbn; auto. Qed.

Lemma calls_elapsed : forall t, lawful t ->
  match motion_calls (this_motion t) with
  | [] => True
  | (x, dt) :: r =>
      match rev ((x, dt) :: r) with
      | (first, dt0) :: _ => dt0 = 0 /\ rs_message_id first <= rs_message_id x /\
          total ((x, dt) :: r) = rs_message_id x - rs_message_id first
      | [] => False
      end
  end.
Proof.
  induction t as [|e t IH]; intros H; [exact Logic.I|]. pose proof H as [O L]. specialize (IH L).
  destruct e as [i r|i m|a c|x|x|x d|m f|x d|q f|]; try exact IH.
  - destruct r; try exact IH; exact Logic.I.
  - destruct O as (_ & _ & t' & -> & Hd & _). cbn [this_motion motion_calls flat_map app] in *.
    change (flat_map _ (this_motion t')) with (motion_calls (this_motion t')) in *.
    rewrite newest_calls in Hd.
    destruct (motion_calls (this_motion t')) as [|[y dy] r] eqn:E.
    + subst d. cbn. split; [reflexivity|]. split; [lia|]. rewrite N.sub_diag. reflexivity.
    + assert (Hy : rs_message_id y < rs_message_id x).
      { pose proof (shown_below t' x L) as B. rewrite Forall_forall in B. apply B.
        apply shown_incl, newest_motion_call_in. rewrite newest_calls, E. reflexivity. }
      cbn [rev]. destruct (rev ((y, dy) :: r)) as [|[first d0] l] eqn:Er; [contradiction|].
      cbn [rev] in Er. rewrite Er. cbn [app]. destruct IH as (D0 & Lf & Tt).
      split; [exact D0|]. split; [lia|]. cbn [total] in *. rewrite Tt. lia.
Qed.

(** * Sending *)
Lemma send_table : forall s motion ctl c, r_cur_ctrl s = Some c ->
  send_robot_command motion ctl s =
  match motion, ctl with
  | None, None => (Ok None, s)
  | _, _ =>
      if has motion && mg_eqb (r_cur_motion s) MgIdle then (Err NoMotionGeneratorRunningError, s)
      else if has ctl && negb (is_ext c) then (Err NoControllerRunningError, s)
      else if negb (mg_eqb (r_cur_motion s) MgIdle) && is_ext c && (negb (has motion) || negb (has ctl))
      then (Err PartialCommandError, s)
      else match motion with
           | None => (Ok None, s)
           | Some m =>
               let cmd := RobotCommand (r_message_id s) m (torques ctl) in
               (udp_send cmd ;;; ret (Some cmd)) s
           end
  end.
Proof.
  intros s motion ctl c Hc. unfold send_robot_command, is_ext.
  destruct motion as [m|], ctl as [t|]; try reflexivity;
    unfold bind at 1, get at 1; rewrite Hc; destruct (mg_eqb (r_cur_motion s) MgIdle), (cm_eqb c CmExternalController) eqn:E;
    cbn; unfold bind, ret, throw; cbn; rewrite ?E; reflexivity.
Qed.
