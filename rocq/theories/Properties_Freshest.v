(** C12, exactly: which state a receive gives, for datagrams of any size and in any order. *)
From Coq Require Import List NArith ZArith Bool Arith Lia String.
From Coq Require Import Init.Byte.
From Verif Require Import Bytes Codec WireModel TcpModel UdpModel UdpSpec UdpProofs RobotModel LoopModel RobotProofs RobotWp RobotScenario RobotCalls RobotSpec RobotMore Properties_Robot.
Import ListNotations.
Open Scope list_scope.
Open Scope N_scope.

(** The datagrams taken from the socket come in bursts, each taken at one go and read as one state [y]. *)
Definition read_as (b : list dgram) (y : robot_state_intern) : Prop := b <> [] /\ state_decode (mixture state_size b) = Some y.
(** [x] is the first of the states with the greatest id, and newer than [m]. *)
Definition first_greatest (m : N) (ys : list robot_state_intern) (x : robot_state_intern) : Prop :=
  exists before after, ys = before ++ x :: after /\ m < rs_message_id x /\
    Forall (fun y => rs_message_id y < rs_message_id x) before /\ Forall (fun y => rs_message_id y <= rs_message_id x) after.

Definition pick (m : N) (latest : option robot_state_intern) (ys : list robot_state_intern) : option robot_state_intern :=
  fold_left (fun l y => if match l with Some z => rs_message_id z | None => m end <? rs_message_id y then Some y else l) ys latest.
Lemma pick_some : forall m ys z x, pick m (Some z) ys = Some x ->
  (x = z /\ Forall (fun y => rs_message_id y <= rs_message_id z) ys) \/ first_greatest (rs_message_id z) ys x.
Proof.
  intros m ys. induction ys as [|y ys IH]; intros z x H; [injection H as <-; left; auto|].
  unfold pick in H. cbn [fold_left] in H. destruct (rs_message_id z <? rs_message_id y) eqn:C.
  - apply N.ltb_lt in C. right. destruct (IH y x H) as [[-> F]|(bf & af & -> & L & Fb & Fa)].
    + exists [], ys. repeat split; auto.
    + exists (y :: bf), af. split; [reflexivity|]. split; [lia|]. split; [constructor; auto|exact Fa].
  - apply N.ltb_ge in C. destruct (IH z x H) as [[-> F]|(bf & af & -> & L & Fb & Fa)]; [left; auto|].
    right. exists (y :: bf), af. split; [reflexivity|]. split; [exact L|]. split; [constructor; [lia|exact Fb]|exact Fa].
Qed.
Lemma pick_none : forall m ys x, pick m None ys = Some x -> first_greatest m ys x.
Proof.
  intros m ys. induction ys as [|y ys IH]; intros x H; [discriminate|].
  unfold pick in H. cbn [fold_left] in H. destruct (m <? rs_message_id y) eqn:C.
  - apply N.ltb_lt in C. destruct (pick_some m ys y x H) as [[-> F]|(bf & af & -> & L & Fb & Fa)].
    + exists [], ys. repeat split; auto.
    + exists (y :: bf), af. split; [reflexivity|]. split; [lia|]. split; [constructor; auto|exact Fa].
  - apply N.ltb_ge in C. destruct (IH x H) as (bf & af & -> & L & Fb & Fa).
    exists (y :: bf), af. split; [reflexivity|]. split; [exact L|]. split; [constructor; [lia|exact Fb]|exact Fa].
Qed.

(** What a receive leaves waiting: nothing, or a datagram too short in front. *)
Definition left_over (q : list dgram) : Prop := match q with [] => True | d :: _ => (List.length (d_data d) < state_size)%nat end.
Definition step_to (s : st) (bursts : list (list dgram)) (ys : list robot_state_intern) (s' : st) : Prop :=
  exists used, n_usched s = used ++ n_usched s' /\ u_queue (n_udp s) ++ arrived used = List.concat bursts ++ u_queue (n_udp s') /\ Forall2 read_as bursts ys /\
    (forall first, hd_error bursts = Some first -> exists more, first = u_queue (n_udp s) ++ more).
Lemma poll_bursts : forall fuel latest s o s', good s -> poll_states fuel latest s = (Ok o, s') ->
  good s' /\ r_message_id s' = r_message_id s /\ left_over (u_queue (n_udp s')) /\ exists bursts ys, step_to s bursts ys s' /\ o = pick (r_message_id s) latest ys.
Proof.
  induction fuel as [|fuel IH]; intros latest s o s' G E; [discriminate|]. cbn [poll_states] in E. unfold bind at 1 in E. unfold udp_poll in E.
  destruct (udp_receive state_size state_decode (n_udp s) (n_usched s)) as [[r u] sc] eqn:Ep.
  destruct (UdpProofs.receive_spec _ _ _ _ _ _ _ G Ep) as (used & Es & R & Nu). destruct r as [x| |]; [| |discriminate].
  - destruct R as (d & ds & All & L & Q & _ & D). unfold bind at 1, get at 1 in E. cbn [r_message_id set_udp] in E.
    destruct (IH _ (set_udp s u sc) _ _ Nu E) as (G' & M' & Lo & bursts & ys & (used' & Es' & Al' & F' & H') & ->). cbn [n_usched n_udp set_udp r_message_id] in Es', Al', H', M'.
    split; [exact G'|]. split; [exact M'|]. split; [exact Lo|]. exists ((u_queue (n_udp s) ++ arrived used) :: bursts), (x :: ys). split; [|reflexivity].
    exists (used ++ used'). split; [rewrite Es, Es', app_assoc; reflexivity|]. split; [|split].
    + rewrite Q in Al'. cbn [app] in Al'. rewrite arrived_app. cbn [List.concat]. rewrite <- app_assoc, <- Al', app_assoc. reflexivity.
    + constructor; [|exact F']. split; [rewrite All; discriminate|exact D].
    + intros first Hf. injection Hf as <-. eauto.
  - injection E as <- <-. destruct R as (Q & _ & Sh). cbn [n_usched n_udp set_udp r_message_id]. split; [exact Nu|]. split; [reflexivity|]. split; [|exists [], []; split; [|reflexivity]].
    + unfold left_over. cbn [n_udp]. rewrite Q. exact Sh.
    + exists used. split; [exact Es|]. split; [symmetry; exact Q|]. split; [constructor|discriminate].
Qed.
Lemma await_bursts : forall fuel s x s', good s -> await_state fuel s = (Ok x, s') ->
  u_queue (n_udp s') = [] /\ exists bursts ys, step_to s bursts ys s' /\ Some x = pick (r_message_id s) None ys.
Proof.
  induction fuel as [|fuel IH]; intros s x s' G E; [discriminate|]. cbn [await_state] in E. unfold bind at 1, udp_block in E.
  destruct (udp_blocking_receive state_size state_decode (n_udp s) (n_usched s)) as [[r u] sc] eqn:Eb.
  assert (Nu := block_noticed _ _ _ _ _ _ _ G Eb). destruct (block_spec _ _ _ _ _ _ _ G Eb) as (used & Es & Q & R).
  destruct r as [y| | |n|]; try discriminate. destruct R as (d & ds & All & _ & _ & D).
  unfold bind at 1, get at 1 in E. cbn [r_message_id set_udp] in E. destruct (r_message_id s <? rs_message_id y) eqn:C.
  - injection E as <- <-. split; [exact Q|]. exists [u_queue (n_udp s) ++ arrived used], [y]. split; [|unfold pick; cbn [fold_left]; rewrite C; reflexivity].
    exists used. cbn [n_usched n_udp set_udp]. split; [exact Es|]. split; [rewrite Q; cbn [List.concat]; rewrite !app_nil_r; reflexivity|]. split.
    + constructor; [|constructor]. split; [rewrite All; discriminate|exact D].
    + intros first Hf. injection Hf as <-. eauto.
  - destruct (IH (set_udp s u sc) x s' Nu E) as (Q' & bursts & ys & (used' & Es' & Al' & F' & H') & P). cbn [n_usched n_udp set_udp r_message_id] in Es', Al', H', P.
    split; [exact Q'|]. exists ((u_queue (n_udp s) ++ arrived used) :: bursts), (y :: ys). split; [|rewrite P; unfold pick; cbn [fold_left]; rewrite C; reflexivity].
    exists (used ++ used'). split; [rewrite Es, Es', app_assoc; reflexivity|]. split; [|split].
    + rewrite Q in Al'. cbn [app] in Al'. rewrite arrived_app. cbn [List.concat]. rewrite <- app_assoc, <- Al', app_assoc. reflexivity.
    + constructor; [|exact F']. split; [rewrite All; discriminate|exact D].
    + intros first Hf. injection Hf as <-. eauto.
Qed.
(** The state received is the first with the greatest id among those read from the bursts, and newer than the last one accepted.  All datagrams
    waiting at the time of the call are in the first burst. *)
Theorem C12_exact : forall s x s', noticed (n_udp s) -> receive_robot_state s = (Ok x, s') -> exists used bursts ys,
  n_usched s = used ++ n_usched s' /\ u_queue (n_udp s) ++ arrived used = List.concat bursts ++ u_queue (n_udp s') /\ left_over (u_queue (n_udp s')) /\
  Forall2 read_as bursts ys /\ first_greatest (r_message_id s) ys x /\ exists more rest, bursts = (u_queue (n_udp s) ++ more) :: rest.
Proof.
  intros s x s' G E. unfold receive_robot_state in E. unfold bind at 1, get at 1 in E. unfold bind at 1 in E.
  assert (Fi : forall (bursts : list (list dgram)) ys, Forall2 read_as bursts ys -> (forall first, hd_error bursts = Some first -> exists more, first = u_queue (n_udp s) ++ more) ->
    first_greatest (r_message_id s) ys x -> exists more rest, bursts = (u_queue (n_udp s) ++ more) :: rest).
  { intros bursts ys F H (bf & af & -> & _). destruct bursts as [|b bursts]; [inversion F as [X Y|]; destruct bf; discriminate|]. destruct (H b eq_refl) as [more ->]. eauto. }
  destruct (poll_states (bound s) None s) as [[o|e|p| |] s1] eqn:Ep; try discriminate.
  destruct (poll_bursts _ _ _ _ _ G Ep) as (G1 & M1 & Lo & bursts & ys & (used & Es & Al & F & H) & Eo).
  unfold bind at 1, get at 1 in E. unfold bind at 1 in E. destruct o as [y|].
  - cbn in E. injection E as <- <-. cbn [n_usched n_udp]. exists used, bursts, ys. symmetry in Eo. pose proof (pick_none _ _ _ Eo) as P.
    split; [exact Es|]. split; [exact Al|]. split; [exact Lo|]. split; [exact F|]. split; [exact P|]. exact (Fi _ _ F H P).
  - destruct (await_state (bound s1) s1) as [[y|e|p| |] s2] eqn:Ea; try discriminate. cbn in E. injection E as <- <-. cbn [n_usched n_udp].
    destruct (await_bursts _ _ _ _ G1 Ea) as (Q2 & bursts2 & ys2 & (used2 & Es2 & Al2 & F2 & H2) & P2). rewrite M1 in P2.
    assert (P : first_greatest (r_message_id s) (ys ++ ys2) y).
    { apply pick_none. unfold pick in *. rewrite fold_left_app, <- Eo. symmetry. exact P2. }
    assert (Hh : forall first, hd_error (bursts ++ bursts2) = Some first -> exists more, first = u_queue (n_udp s) ++ more).
    { destruct bursts as [|b bursts]; [|intros first Hf; apply H; exact Hf]. cbn [app List.concat] in *. intros first Hf. destruct (H2 first Hf) as [more ->]. rewrite <- Al, <- app_assoc. eauto. }
    exists (used ++ used2), (bursts ++ bursts2), (ys ++ ys2). split; [rewrite Es, Es2, app_assoc; reflexivity|]. split.
    + rewrite arrived_app, app_assoc, Al, concat_app, <- !app_assoc. f_equal. exact Al2.
    + split; [change (left_over (u_queue (n_udp s2))); rewrite Q2; exact Logic.I|]. split; [apply Forall2_app; assumption|]. split; [exact P|]. exact (Fi _ _ (Forall2_app F F2) Hh P).
Qed.
Print Assumptions C12_exact.
(** With complete datagrams each burst is read as its last one: whatever the order, only the last of the states waiting together counts. *)
Theorem C12_last_of_burst : forall s x s', noticed (n_udp s) -> full state_size (waiting s) -> receive_robot_state s = (Ok x, s') -> exists used bursts ys,
  n_usched s = used ++ n_usched s' /\ u_queue (n_udp s) ++ arrived used = List.concat bursts /\ u_queue (n_udp s') = [] /\
  Forall2 (fun b y => exists earlier z, b = earlier ++ [z] /\ state_of z = Some y) bursts ys /\ first_greatest (r_message_id s) ys x /\
  exists more rest, bursts = (u_queue (n_udp s) ++ more) :: rest.
Proof.
  intros s x s' G Fu E. destruct (C12_exact s x s' G E) as (used & bursts & ys & Es & Al & Lo & F & P & Fi).
  unfold waiting in Fu. rewrite Es, arrived_app, app_assoc, Al in Fu. apply Forall_app in Fu. destruct Fu as [Fu _]. apply Forall_app in Fu. destruct Fu as [Fb Fq].
  assert (Q : u_queue (n_udp s') = []) by (destruct (u_queue (n_udp s')) as [|d q]; [reflexivity|]; inversion Fq; cbn in Lo; lia).
  exists used, bursts, ys. split; [exact Es|]. split; [rewrite Al, Q, app_nil_r; reflexivity|]. split; [exact Q|]. split; [|auto].
  clear - F Fb. induction F as [|b y bs ys [Ne D] F IH]; [constructor|]. cbn [List.concat] in Fb. apply Forall_app in Fb. destruct Fb as [F1 F2]. constructor; [|exact (IH F2)].
  destruct (exists_last Ne) as (pre & z & ->). exists pre, z. split; [reflexivity|]. apply Forall_app in F1. destruct F1 as [_ F1]. inversion F1.
  rewrite mixture_last in D by assumption. exact D.
Qed.
Print Assumptions C12_last_of_burst.
(** Bursts of the states 10, 9 and of 12, 11: 9 is read from the first and 11 from the second; the greater is returned. *)
Definition ex_two_bursts : st :=
  after_new (st_init 10 RtIgnore (ex_first (ex_idle 1) ++ [Tick (map (fun i => ex_dg (ex_idle i)) [10; 9]) false; Tick [] false; Tick [] false; Tick [] false; Tick [] false;
     Tick (map (fun i => ex_dg (ex_idle i)) [12; 11]) false]) [ex_connected 0] [] true true).
Example C12_ex_bursts : reachable ex_two_bursts /\ match receive_robot_state ex_two_bursts with (Ok x, _) => rs_message_id x = 11 | _ => False end.
Proof.
  split; [|vm_compute; reflexivity].
  apply reach_new with (log_size := 10%nat) (rt := RtIgnore)
      (usched := ex_first (ex_idle 1) ++ [Tick (map (fun i => ex_dg (ex_idle i)) [10; 9]) false; Tick [] false; Tick [] false; Tick [] false; Tick [] false;
     Tick (map (fun i => ex_dg (ex_idle i)) [12; 11]) false])
      (tsched := [ex_connected 0]) (sends := []) (realtime := true) (priority := true) (port := 1337) (u := tt).
  vm_compute. reflexivity.
Qed.
