(** A control call with torques only whose callback never finishes, on any handle: also after earlier motions.  Used by
    Properties_MirrorProgram.v. *)
From Coq Require Import List NArith ZArith Bool Arith Lia String Reals Lra.
From Coq Require Import Init.Byte.
From Flocq Require Import Core IEEE754.BinarySingleNaN IEEE754.Binary IEEE754.Bits.
From Verif Require Import Bytes Codec NumOps NumFloat FloatFacts RateSpec WireModel WireSpec TcpModel TcpProofs UdpModel UdpSpec UdpProofs StateModel ModelApi ConvertModel
  RobotModel LoopModel RobotSpec RobotProofs RobotWp LoopProofs Decoded Effects RobotMore RobotCalls CallFacts TypedModel TypedSpec LibraryModel MotionPrograms ImpedanceProgram
  LiveUdp LiveSpec LiveProofs RobotScenario ReplaySpec ReplayProofs Outputs Properties_Live Properties_Model Properties_Convert Properties_Replay Properties_Programs
  Properties_MotionPrograms Properties_Library Properties_MotionEnds Properties_CommPrograms Properties_ImpedanceProgram.
Import ListNotations.
Open Scope list_scope.
Open Scope N_scope.

Lemma untouched_loose : forall d, Forall state_or_reply d -> Forall untouched d.
Proof. intros d H. eapply Forall_impl; [|exact H]. intros []; cbn; auto; contradiction. Qed.
Lemma loose_requests : forall d, Forall state_or_reply d -> requests d = [].
Proof. intros d H. apply no_requests. eapply Forall_impl; [|exact H]. intros []; cbn; auto; contradiction. Qed.
(** Nothing is called or commanded before the motion is requested. *)
Lemma control_starts : forall k cb s, I s -> exists d, trace (snd (control k cb s)) = d ++ trace s /\
  (requests d = [] /\ Forall untouched d \/
   exists d1 id d0, d = d1 ++ EvRequest id (ReqMove (wanted_ctrl k) (k_mode k) default_deviation default_deviation) :: d0 /\ Forall untouched d0 /\ requests d0 = []).
Proof.
  intros k cb s HI. unfold control. unfold bind at 1. pose proof (wp_new_intern s HI) as W. unfold wp in W.
  assert (T0 : exists d0, trace (snd (new_intern s)) = d0 ++ trace s /\ Forall untouched d0 /\ requests d0 = []).
  { unfold new_intern, bind, get. destruct (r_rt s); [|exists []; repeat constructor]. exists [EvKernel]. split; [|repeat constructor].
    cbn. destruct (k_realtime s); [destruct (k_priority s)|]; reflexivity. }
  destruct (new_intern s) as [[u|e|p| |] s0]; try contradiction; cbn [snd] in T0; destruct T0 as (d0 & T0 & F0 & R0); [|exists d0; auto].
  unfold bind at 1. pose proof (wp_running s0 W) as Wr. unfold wp in Wr.
  set (q := ReqMove (wanted_ctrl k) (k_mode k) default_deviation default_deviation).
  destruct (start_requests_I (wanted_ctrl k) (k_mode k) default_deviation default_deviation s0 W) as [H1 H2].
  destruct (motion_or_controller_running s0) as [[[]|e|p| |] s1]; try contradiction; destruct Wr as [_ Hb].
  - rewrite H1 by (apply Hb; reflexivity). exists d0. auto.
  - destruct H2 as (d & T & F); [intros Hr; apply Hb in Hr; discriminate|]. fold q in T.
    destruct (start_motion _ _ _ _ s0) as [[id|e|p| |] s2]; cbn [snd] in T |- *;
      try (exists (d ++ EvRequest (n_id s0) q :: d0); split; [rewrite T, T0, <- app_assoc; reflexivity|]; right; eexists d, _, d0; auto).
    assert (G : grew proper s2 (snd (run_loop k id cb s2))).
    { unfold run_loop. assert (D : adds proper (do_loop k id cb)) by (apply adds_do_loop; intros; first [assumption|exact Logic.I]). specialize (D s2).
      destruct (do_loop k id cb s2) as [[u2|e|p| |] s3]; try exact D. cbn [snd] in D.
      eapply grew_trans; [exact D|]. apply (adds_bind proper _ _ _ _ (cancel_proper id) (fun _ => adds_throw proper _ _)). }
    destruct G as (d2 & T2 & _). exists (d2 ++ d ++ EvRequest (n_id s0) q :: d0). split; [rewrite T2, T, T0, <- !app_assoc; reflexivity|].
    right. exists (d2 ++ d), (n_id s0), d0. rewrite <- app_assoc. auto.
Qed.

Lemma latest_motion : forall a id c g p1 p2 b, (forall c g p1 p2, ~ In (ReqMove c g p1 p2) (requests a)) ->
  motion_ctrl (a ++ EvRequest id (ReqMove c g p1 p2) :: b) = Some c /\ this_motion (a ++ EvRequest id (ReqMove c g p1 p2) :: b) = a.
Proof.
  induction a as [|e a IH]; intros id c g p1 p2 b N; [split; reflexivity|].
  assert (N' : forall c g p1 p2, ~ In (ReqMove c g p1 p2) (requests a)).
  { intros c' g' p1' p2' H. apply (N c' g' p1' p2'). unfold requests in *. cbn [flat_map]. apply in_or_app. right. exact H. }
  destruct (IH id c g p1 p2 b N') as [A B].
  destruct e as [n r| | | | | | | | |]; cbn [app motion_ctrl this_motion]; try (rewrite A, B; split; reflexivity).
  destruct r; try (rewrite A, B; split; reflexivity). exfalso. eapply N. left. reflexivity.
Qed.

Section Control.
  Variables (rots : rotations) (K : Type) (f : K -> robot_state_intern -> N -> option (K * (list N * bool))) (k0 : K).
  Hypothesis Never : forall k x dt k' v fin, f k x dt = Some (k', (v, fin)) -> fin = false.
  Let u := control_torques K f None None.
  Let k := controller_of rots u.
  Let q := ReqMove McExternalController MmJointVelocity default_deviation default_deviation.
  Lemma torque_split : forall d c m, replays k k0 d c m -> forall d1 tau fin x dt d2, d = d1 ++ EvTorqueOut tau fin :: EvTorque x dt :: d2 ->
    exists c1 c2 v m1, replays k k0 d2 c1 m1 /\ f c1 x dt = Some (c2, (v, fin)) /\ k_filter k v x = Some tau.
  Proof.
    intros d c m H. induction H as [|e d cb m Q H IH|d cb m x dt cb' out m' H IH E C|torque d cb m x dt cb' v fin v' H IH T Ec Ef];
      intros d1 tau fn y dt' d2 E0.
    - destruct d1; discriminate E0.
    - destruct d1 as [|e1 d1]; injection E0 as -> E0; [contradiction Q|eauto].
    - destruct d1 as [|e1 [|e2 d1]]; [discriminate E0|discriminate E0|]. injection E0 as _ _ E0. eauto.
    - destruct d1 as [|e1 [|e2 d1]]; [|discriminate E0|].
      + injection E0 as <- <- <- <- <-. injection T as <-. eauto 10.
      + injection E0 as _ _ E0. eauto.
  Qed.
  Lemma torque_control : forall s r s', I s -> Forall proper (trace s) ->
    control k k0 s = (r, s') -> exists m, trace s' = m ++ trace s /\ r <> OutOfFuel /\ (forall u, r <> Ok u) /\ In (in_order_asked m) [[]; [q]; [q; ReqStopMove]] /\ Forall proper m /\
      (forall m1 a c m2, m = m1 ++ EvCommand a c :: m2 -> exists x dt v c1 c2 mc m3 older,
         m2 = EvTorqueOut (rc_tau c) false :: EvTorque x dt :: m3 /\ replays k k0 m3 c1 mc /\ f c1 x dt = Some (c2, (v, false)) /\
         states_seen (m2 ++ trace s) = x :: older /\ state_ok x /\ rc_message_id c = rs_message_id x /\ mc_finished (rc_motion c) = false /\
         filter_torques default_cutoff true v x = Some (rc_tau c)).
  Proof using Never.
    intros s r s' HI Pr E.
    pose proof (control_requests_I k k0 s HI) as C. pose proof (wp_control k k0 s HI) as W. unfold wp in W.
    destruct (control_proper k k0 s) as (d2 & T2 & P2). pose proof (control_I k k0 s HI) as L. destruct (control_starts k k0 s HI) as (d3 & T3 & St). rewrite E in C, W, T2, L, T3. cbn [snd] in T2, L, T3.
    change (ReqMove (wanted_ctrl k) (k_mode k) default_deviation default_deviation) with q in C, St.
    destruct (C56_threaded k _ _ _ _ E) as (d & T & Th). rewrite T in T2, T3. apply app_inv_tail in T2, T3. subst d2 d3.
    assert (Tails : exists d' cb m, replays k k0 d' cb m /\ (d = d' \/ exists e, d = e :: d' /\ match e with EvMotion _ _ | EvTorque _ _ => True | _ => False end)).
    { destruct Th as [(cb & m & H)|[_ [(d' & cb & m & x & dt & -> & H & _)|(g & d' & cb & m & x & dt & -> & H & _)]]]; [exists d, cb, m; auto|exists d', cb, m; split; [exact H|right; eexists; split; [reflexivity|exact Logic.I]]..]. }
    destruct Tails as (d' & cb & m & Re & Dd). clear Th.
    assert (Sub : forall e, In e d -> match e with EvMotion _ _ | EvTorque _ _ => False | _ => True end -> In e d').
    { intros e Hin Ne. destruct Dd as [->|(e0 & -> & K0)]; [exact Hin|]. destruct Hin as [->|Hin]; [destruct e; contradiction|exact Hin]. }
    assert (Fin : forall e, In e d -> final e = false).
    { intros e Hin. destruct e as [| | | | | |o fin| |tau fin|]; try reflexivity; cbn [final].
      + destruct (motion_replayed _ _ _ _ _ Re o fin (Sub _ Hin Logic.I)) as (c1 & x & dt & c2 & out & Em & ->). injection Em as _ <-. reflexivity.
      + destruct (torque_out_replayed _ _ _ _ _ Re tau fin (Sub _ Hin Logic.I)) as (d1 & x & dt & d2 & Ed).
        destruct (torque_split _ _ _ Re _ _ _ _ _ _ Ed) as (c1 & c2 & v & m1 & _ & Hc & _). exact (Never _ _ _ _ _ _ Hc). }
    assert (Any : requests (trace s') = requests (trace s) \/ requests (trace s') = q :: requests (trace s) \/ requests (trace s') = ReqStopMove :: q :: requests (trace s)).
    { destruct r as [?|e|p| |]; auto. }
    assert (One : requests d = [] \/ requests d = [q] \/ requests d = [ReqStopMove; q]).
    { rewrite T, requests_app in Any.
      destruct Any as [H|[H|H]]; [apply (app_inv_tail _ _ []) in H|apply (app_inv_tail _ _ [q]) in H|apply (app_inv_tail _ _ [ReqStopMove; q]) in H]; rewrite H; tauto. }
    assert (Cut : forall d1 id d0, d = d1 ++ EvRequest id q :: d0 -> requests d0 = [] -> forall c g p1 p2, ~ In (ReqMove c g p1 p2) (requests d1)).
    { intros d1 id d0 -> R0 c g p1 p2 H. rewrite requests_app in One. assert (Rq : requests (EvRequest id q :: d0) = [q]) by (unfold requests in *; cbn [flat_map app]; rewrite R0; reflexivity).
      rewrite Rq in One. destruct One as [O|[O|O]]; [destruct (requests d1); discriminate O|destruct (requests d1) as [|? [|? ?]]; try discriminate O; contradiction H|].
      destruct (requests d1) as [|a [|b [|? ?]]]; try discriminate O. injection O as ->. destruct H as [H|[]]. discriminate H. }
    assert (NoOk : forall u, r <> Ok u).
    { intros v ->. destruct W as (_ & _ & Cm). destruct St as [[R0 _]|(d1 & id & d0 & Ed & F0 & R0)].
      - rewrite T, requests_app, R0 in C. apply (f_equal (@List.length _)) in C. cbn [List.length app] in C. lia.
      - rewrite T, Ed, <- app_assoc in Cm. cbn [app] in Cm. unfold completed in Cm.
        pose proof (proj2 (latest_motion d1 id McExternalController MmJointVelocity default_deviation default_deviation (d0 ++ trace s) (Cut d1 id d0 Ed R0))) as Lm. fold q in Lm. rewrite Lm in Cm. apply existsb_exists in Cm. destruct Cm as (e & Hin & Fe).
        rewrite Fin in Fe; [discriminate Fe|]. rewrite Ed. apply in_or_app. left. exact Hin. }
    exists d. split; [exact T|]. split; [intros ->; contradiction W|]. split; [exact NoOk|].
    split; [unfold in_order_asked; destruct One as [O|[O|O]]; rewrite O; cbn; tauto|]. split; [exact P2|].
    intros m1 a c m2 Ed. rewrite T, Ed in L. rewrite <- app_assoc in L. cbn [app] in L.
    apply lawful_split in L. destruct L as [(_ & (y & Ly & Id) & (mo & _ & Mo) & Jc & Ta & _) L2].
    assert (Loc : exists m2' id d0, m2 = m2' ++ EvRequest id q :: d0 /\ Forall untouched d0 /\ (forall c g p1 p2, ~ In (ReqMove c g p1 p2) (requests m2'))).
    { destruct St as [[_ F]|(d1 & id & d0 & Ed1 & F0 & R0)].
      - rewrite Ed in F. apply Forall_app in F. destruct F as [_ F]. inversion F as [|? ? X]. contradiction X.
      - pose proof (Cut d1 id d0 Ed1 R0) as Nc. rewrite Ed in Ed1. clear - Ed1 F0 Nc. revert d1 Ed1 Nc. induction m1 as [|e m1 IH]; intros d1 Ed1 Nc.
        + destruct d1 as [|e1 d1]; [discriminate Ed1|]. cbn [app] in Ed1. injection Ed1 as E1 E2. subst e1. exists d1, id, d0. split; [exact E2|]. split; [exact F0|exact Nc].
        + destruct d1 as [|e1 d1]; cbn [app] in Ed1; injection Ed1 as E1 Ed1; try subst e1.
          * exfalso. rewrite <- Ed1 in F0. apply Forall_app in F0. destruct F0 as [_ F0]. inversion F0 as [|? ? X]. contradiction X.
          * apply (IH d1 Ed1). intros c0 g p1 p2 H. apply (Nc c0 g p1 p2). unfold requests in *. cbn [flat_map]. apply in_or_app. right. exact H. }
    destruct Loc as (m2' & id & d0 & Em2 & F0 & Nm). destruct (latest_motion m2' id McExternalController MmJointVelocity default_deviation default_deviation (d0 ++ trace s) Nm) as [Ec Tm].
    assert (Em2s : m2 ++ trace s = m2' ++ EvRequest id q :: d0 ++ trace s) by (rewrite Em2, <- app_assoc; reflexivity).
    change (ReqMove McExternalController MmJointVelocity default_deviation default_deviation) with q in Ec, Tm.
    assert (Fin2 : completed (m2 ++ trace s) = false).
    { unfold completed. rewrite Em2s, Tm. apply not_true_is_false. intros X. apply existsb_exists in X. destruct X as (e & Hin & Fe).
      rewrite Fin in Fe; [discriminate Fe|]. rewrite Ed, Em2. apply in_or_app. right. right. apply in_or_app. left. exact Hin. }
    specialize (Jc Fin2). rewrite Fin2 in Mo. unfold just_called in Jc. rewrite Em2s, Ec in Jc. rewrite <- Em2s in Jc. destruct Jc as (tau & x & dt & t' & Et).
    rewrite Em2s, Tm in Ta.
    assert (M3 : exists m3', m2' = EvTorqueOut tau false :: EvTorque x dt :: m3').
    { rewrite Em2s in Et. destruct m2' as [|e1 [|e2 m3']]; cbn [app] in Et; [discriminate Et|discriminate Et|]. injection Et as -> -> _. eauto. }
    destruct M3 as [m3' M3]. set (m3 := m3' ++ EvRequest id q :: d0). assert (Em3 : m2 = EvTorqueOut tau false :: EvTorque x dt :: m3) by (rewrite Em2, M3; reflexivity). clearbody m3.
    assert (Ed' : exists d1, d' = d1 ++ EvTorqueOut tau false :: EvTorque x dt :: m3).
    { rewrite Em3 in Ed. destruct Dd as [->|(e0 & E0 & K0)]; [exists (m1 ++ [EvCommand a c]); rewrite <- app_assoc; exact Ed|]. rewrite E0 in Ed. destruct m1 as [|e1 m1]; injection Ed as -> Ed; [contradiction K0|].
      exists (m1 ++ [EvCommand a c]). rewrite <- app_assoc. exact Ed. }
    destruct Ed' as (d1 & Ed'). destruct (torque_split _ _ _ Re _ _ _ _ _ _ Ed') as (c1 & c2 & v & mc & Rp & Hc & Hk).
    rewrite Em3 in L2. cbn [app] in L2. destruct L2 as (_ & (_ & mo' & t1 & Em) & L3). rewrite Em in L3. destruct L3 as (_ & L4). destruct L4 as ((_ & _ & t3 & Es & _) & _).
    assert (Sx : state_ok x).
    { assert (Al : Forall proper (trace s')) by (rewrite T; apply Forall_app; auto). rewrite Forall_forall in Al. apply (Al (EvState x)). rewrite T, Ed, <- app_assoc. apply in_or_app. right. right.
      change (In (EvState x) (m2 ++ trace s)). rewrite Em3. cbn [app]. rewrite Em, Es. cbn [In]. tauto. }
    assert (Ex : y = x).
    { rewrite Em3 in Ly. cbn [app last_state] in Ly. rewrite Em, Es in Ly. cbn [last_state] in Ly. congruence. }
    subst y. rewrite M3 in Ta. cbn [newest_torques] in Ta.
    eexists x, dt, v, c1, c2, mc, m3, _. rewrite Ta. split; [exact Em3|]. split; [exact Rp|]. split; [exact Hc|].
    split; [rewrite Em3; cbn [app]; rewrite Em, Es; reflexivity|]. split; [exact Sx|]. split; [exact Id|]. split; [rewrite Mo; reflexivity|]. exact Hk.
  Qed.
End Control.
