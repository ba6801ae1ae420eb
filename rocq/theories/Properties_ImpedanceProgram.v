(** C78: cartesian_impedance_control as a whole. *)
From Coq Require Import List NArith ZArith Bool Arith Lia String Reals Lra.
From Coq Require Import Init.Byte.
From Flocq Require Import Core IEEE754.BinarySingleNaN IEEE754.Binary IEEE754.Bits.
From Verif Require Import Bytes Codec NumOps NumFloat FloatFacts RateSpec WireModel WireSpec TcpModel TcpProofs UdpModel UdpSpec UdpProofs StateModel ModelApi ConvertModel
  RobotModel LoopModel RobotSpec RobotProofs RobotWp LoopProofs Decoded Effects RobotMore RobotCalls CallFacts TypedModel TypedSpec LibraryModel MotionPrograms ImpedanceProgram
  LiveUdp LiveSpec LiveProofs RobotScenario ReplaySpec ReplayProofs Outputs Properties_Live Properties_Model Properties_Convert Properties_Replay Properties_Programs
  Properties_MotionPrograms Properties_Library Properties_MotionEnds Properties_CommPrograms.
Import ListNotations.
Open Scope list_scope.
Open Scope N_scope.

(** * What the program is meant to do *)
(** All it asks for before the motion. *)
Definition asks (port : N) (d : disk) : list robot_request :=
  ReqConnect port :: match d_model d with Some _ => [] | None => [ReqLoadModelLibrary] end ++
  [let h := repeat 0x4059000000000000 in ReqSetCollisionBehavior (h 7%nat) (h 7%nat) (h 7%nat) (h 7%nat) (h 6%nat) (h 6%nat) (h 6%nat) (h 6%nat);
   ReqSetJointImpedance [0x40A7700000000000; 0x40A7700000000000; 0x40A7700000000000; 0x40A3880000000000; 0x40A3880000000000; 0x409F400000000000; 0x409F400000000000];
   ReqSetCartesianImpedance [0x40A7700000000000; 0x40A7700000000000; 0x40A7700000000000; 0x4072C00000000000; 0x4072C00000000000; 0x4072C00000000000]].
(** No callback was called and nothing was commanded. *)
Definition untouched (e : event) : Prop :=
  match e with EvCommand _ _ | EvMotion _ _ | EvMotionOut _ _ | EvTorque _ _ | EvTorqueOut _ _ => False | _ => True end.
(** As [control_requests], for a handle which may also have loaded the library. *)
Lemma control_requests_I : forall k cb s, I s ->
  match control k cb s with
  | (Ok _, s') => requests (trace s') =
      ReqMove (wanted_ctrl k) (k_mode k) default_deviation default_deviation :: requests (trace s)
  | (_, s') =>
      requests (trace s') = requests (trace s) \/
      requests (trace s') = ReqMove (wanted_ctrl k) (k_mode k) default_deviation default_deviation :: requests (trace s) \/
      requests (trace s') = ReqStopMove ::
        ReqMove (wanted_ctrl k) (k_mode k) default_deviation default_deviation :: requests (trace s)
  end.
Proof.
  intros k cb s HI. unfold control. unfold bind at 1.
  pose proof (wp_new_intern s HI) as W. unfold wp in W.
  assert (T0 : requests (trace (snd (new_intern s))) = requests (trace s)).
  { unfold new_intern, bind, get. destruct (r_rt s); [|reflexivity]. cbn. destruct (k_realtime s); [destruct (k_priority s)|]; reflexivity. }
  destruct (new_intern s) as [[u|e|p| |] s0]; try contradiction; cbn [snd] in T0; [|auto].
  unfold bind at 1. pose proof (wp_running s0 W) as Wr. unfold wp in Wr.
  assert (S : requests (trace (snd (start_motion (wanted_ctrl k) (k_mode k) default_deviation default_deviation s0))) =
              requests (trace s0) /\ fst (start_motion (wanted_ctrl k) (k_mode k) default_deviation default_deviation s0) = Panic PStartWhileRunning \/
              requests (trace (snd (start_motion (wanted_ctrl k) (k_mode k) default_deviation default_deviation s0))) =
              ReqMove (wanted_ctrl k) (k_mode k) default_deviation default_deviation :: requests (trace s0)).
  { destruct (start_requests_I (wanted_ctrl k) (k_mode k) default_deviation default_deviation s0 W) as [H1 H2].
    destruct (motion_or_controller_running s0) as [[[]|e|q| |] s1]; try contradiction; destruct Wr as [_ Hb].
    - left. rewrite H1 by (apply Hb; reflexivity). auto.
    - right. destruct H2 as (d & T & F); [intros Hr; apply Hb in Hr; discriminate|].
      rewrite T, requests_app, no_requests; [reflexivity|].
      eapply Forall_impl; [|exact F]. intros []; cbn; auto; contradiction. }
  pose proof (wp_start_motion (wanted_ctrl k) (k_mode k) default_deviation default_deviation s0 W) as Ws. unfold wp in Ws.
  destruct (start_motion _ _ _ _ s0) as [[id|e|p| |] s1]; cbn [fst snd] in S.
  - destruct S as [[_ S]|S]; [discriminate|]. rewrite T0 in S.
    pose proof (run_loop_requests k id cb s1) as Q.
    destruct (do_loop k id cb s1) as [[u1|e|p| |] s2].
    + destruct Q as [-> Q]. congruence.
    + destruct Q as [Q (d & T & F & E)]. destruct (run_loop k id cb s1) as [r s3]. cbn [fst snd] in *.
      assert (Q3 : requests (trace s3) = ReqStopMove :: requests (trace s2)).
      { rewrite T, requests_app, no_requests; [reflexivity|].
        eapply Forall_impl; [|exact F]. intros []; cbn; auto; contradiction. }
      destruct r; [contradiction| | | |]; right; right; congruence.
    + destruct Q as [-> Q]. right; left; congruence.
    + destruct Q as [-> Q]. right; left; congruence.
    + destruct Q as [-> Q]. right; left; congruence.
  - destruct S as [[S _]|S]; rewrite S, T0; auto.
  - destruct S as [[S _]|S]; rewrite S, T0; auto.
  - destruct S as [[S _]|S]; rewrite S, T0; auto.
  - contradiction.
Qed.

Lemma read_once_ready : forall old x ch1 ch2 us ts s, polled state_size state_decode old ch1 -> brings (r_message_id s) x ch2 -> stopped x ->
  ready (ch1 ++ ch2 ++ us) ts s ->
  exists s', read_once s = (Ok x, s') /\ ready us ts s' /\ n_id s' = n_id s /\ r_message_id s' = rs_message_id x /\ requests (trace s') = requests (trace s).
Proof.
  intros old x ch1 ch2 us ts s P B St R. pose proof R as R0. destruct R. unfold read_once. unfold bind at 1, get at 1.
  destruct (flush_ok _ _ P s (ch2 ++ us) (bound s) re_queue re_udp) as (u & Qu & Eu).
  { unfold bound, pending. rewrite re_udp, flat_map_app, app_length. pose proof (polled_arrivals _ _ _ _ P). lia. }
  assert (R1 : ready (ch2 ++ us) ts (set_udp s u (ch2 ++ us))) by (constructor; cbn; auto).
  destruct (receive_ready _ _ _ x ch2 R1 B) as (u2 & Qu2 & E2 & R2).
  unfold bind at 1. rewrite Eu. unfold bind at 1. rewrite E2. unfold bind at 1, emit, modify, ret. eexists. split; [reflexivity|].
  destruct (R2 St). split; [constructor; cbn; auto|]. repeat split.
Qed.
Section Law.
  Variable law : list (F float) -> list (F float) -> list (F float) -> list (F float) -> list (F float) -> list (F float).
  (** The torques for the state [x], the spring being fixed at the pose of [x0]: the two routines of the library and their inputs. *)
  Definition pulled (sym : string -> option (routine float)) (x0 x : robot_state_intern) (v : list (F float)) : Prop :=
    exists coriolis jacobian, sym "c_NE"%string = Some coriolis /\ sym "O_J_J9"%string = Some jacobian /\
      let array := map of_bits in let u := user_state_of x in
      v = law (coriolis [array (rs_q x); array (rs_dq x); array (rs_I_load x); [of_bits (us_m_total u)]; array (us_F_x_Ctotal u)])
              (jacobian [array (rs_q x); array (rs_F_T_EE x)]) (array (rs_O_T_EE x)) (array (rs_dq x)) (array (rs_O_T_EE x0)).
  (** Every command goes with the newest state of the history [h] before it: the filtered and limited torques for it (100 Hz, on), so that each changes by at most
      1 Nm; it never ends the motion. *)
  Definition springy (sym : string -> option (routine float)) (x0 : robot_state_intern) (h : list event) (c : robot_command) : Prop :=
    exists x v, (exists older, states_seen h = x :: older) /\ rc_message_id c = rs_message_id x /\ mc_finished (rc_motion c) = false /\ pulled sym x0 x v /\
      filter_torques default_cutoff true (map bits v) x = Some (rc_tau c) /\
      (List.length v = 7%nat -> Forall moderate (rs_tau_J_d x) ->
       Forall2 (fun before now => (Rabs (val (of_bits now) - val (of_bits before)) <= 1)%R) (rs_tau_J_d x) (rc_tau c)).
  Definition impedance_spec (w : world) (port : N) (d : disk) (r : result (option exn)) (d' : disk) (t : list event) : Prop :=
    r <> NoFuel /\ r <> Done None /\ d_target d' = d_target d /\
    (((forall e, r <> Done e) /\ prefix_of (in_order_asked t) (asks port d) /\ Forall untouched t) \/
     (exists m x0 before b sym l q, t = m ++ EvRead x0 :: before /\ Forall untouched before /\ in_order_asked before = asks port d /\
        comes_from w b sym l /\ (forall old, d_model d = Some old -> b = old) /\ d_model d' = Some b /\
        torque_motion q /\ In (in_order_asked m) [[]; [q]; [q; ReqStopMove]] /\
        (forall m1 a c m2, m = m1 ++ EvCommand a c :: m2 -> springy sym x0 (m2 ++ EvRead x0 :: before) c))).

  (** * Proofs *)
  Lemma torque_replayed : forall k cb0 d cb m, replays k cb0 d cb m -> forall d1 tau fin x dt d2, d = d1 ++ EvTorqueOut tau fin :: EvTorque x dt :: d2 ->
    exists f cb1 cb2 q, k_torque k = Some f /\ f cb1 x dt = Some (cb2, (q, fin)) /\ k_filter k q x = Some tau.
  Proof.
    intros k cb0 d cb m H. induction H as [|e d cb m Q H IH|d cb m x dt cb' out m' H IH E C|torque d cb m x dt cb' q fin q' H IH T Ec Ef];
      intros d1 tau fn y dt' d2 E0.
    - destruct d1; discriminate E0.
    - destruct d1 as [|e1 d1]; injection E0 as -> ->; [contradiction Q|]. eapply IH. reflexivity.
    - destruct d1 as [|e1 [|e2 d1]]; try discriminate E0. injection E0 as _ _ ->. eapply IH. reflexivity.
    - destruct d1 as [|e1 [|e2 d1]]; try discriminate E0.
      + injection E0 as -> -> -> -> ->. eauto 10.
      + injection E0 as _ _ ->. eapply IH. reflexivity.
  Qed.
  Lemma motion_replayed : forall k cb0 d cb m, replays k cb0 d cb m -> forall o fin, In (EvMotionOut o fin) d ->
    exists cb1 x dt cb2 out, k_motion k cb1 x dt = Some (cb2, out) /\ fin = k_finished k out.
  Proof.
    intros k cb0 d cb m H. induction H as [|e d cb m Q H IH|d cb m x dt cb' out m' H IH E C|torque d cb m x dt cb' q fin q' H IH T Ec Ef]; intros o fn Hin.
    - contradiction Hin.
    - destruct Hin as [->|Hin]; [contradiction Q|eauto].
    - destruct Hin as [Hin|[Hin|Hin]]; [|discriminate Hin|eauto]. injection Hin as _ <-. eauto 10.
    - destruct Hin as [Hin|[Hin|Hin]]; [discriminate Hin..|eauto].
  Qed.
  Lemma torque_out_replayed : forall k cb0 d cb m, replays k cb0 d cb m -> forall tau fin, In (EvTorqueOut tau fin) d ->
    exists d1 x dt d2, d = d1 ++ EvTorqueOut tau fin :: EvTorque x dt :: d2.
  Proof.
    intros k cb0 d cb m H. induction H as [|e d cb m Q H IH|d cb m x dt cb' out m' H IH E C|torque d cb m x dt cb' q fin q' H IH T Ec Ef]; intros tau fn Hin.
    - contradiction Hin.
    - destruct Hin as [->|Hin]; [contradiction Q|]. destruct (IH tau fn Hin) as (d1 & x & dt & d2 & ->). exists (e :: d1), x, dt, d2. reflexivity.
    - destruct Hin as [Hin|[Hin|Hin]]; [discriminate Hin..|]. destruct (IH tau fn Hin) as (d1 & y & dt' & d2 & ->). eexists (_ :: _ :: d1), y, dt', d2. reflexivity.
    - destruct Hin as [Hin|[Hin|Hin]]; [|discriminate Hin|].
      + injection Hin as -> ->. exists [], x, dt, d. reflexivity.
      + destruct (IH tau fn Hin) as (d1 & y & dt' & d2 & ->). eexists (_ :: _ :: d1), y, dt', d2. reflexivity.
  Qed.
  Lemma controller_asked : forall t c, motion_ctrl t = Some c -> exists g p q, In (ReqMove c g p q) (requests t).
  Proof.
    induction t as [|e t IH]; intros c H; [discriminate H|].
    destruct e as [id r| | | | | | | | |]; try (destruct (IH c H) as (g & p & q & I); exists g, p, q; exact I).
    destruct r; try (destruct (IH c H) as (g & p & q & I); exists g, p, q; right; exact I).
    injection H as <-. eexists _, _, _. left. reflexivity.
  Qed.
  Lemma never_completed : forall t, (forall e, In e t -> final e = false) -> completed t = false.
  Proof.
    intros t H. unfold completed. apply not_true_is_false. intros X. apply existsb_exists in X. destruct X as (e & I & F).
    assert (S : In e t).
    { clear - I. induction t as [|a t IH]; [contradiction I|]. destruct a as [id r| | | | | | | | |]; try (destruct I as [I|I]; [left; exact I|right; exact (IH I)]).
      destruct r; try (destruct I as [I|I]; [left; exact I|right; exact (IH I)]). contradiction I. }
    rewrite (H e S) in F. discriminate F.
  Qed.

  Section Control.
    Variables (w : world) (rots : rotations) (b : list byte) (sym : string -> option (routine float)) (l : model_library float) (x0 : robot_state_intern).
    Hypothesis From : comes_from w b sym l.
    Let k := controller_of rots (spring law l (map of_bits (us_O_T_EE (user_state_of x0)))).
    Let q := ReqMove McExternalController MmJointVelocity default_deviation default_deviation.
    Lemma pull : forall x cb1 dt cb2 v fin f, k_torque k = Some f -> f cb1 x dt = Some (cb2, (v, fin)) -> fin = false /\ exists u, v = map bits u /\ pulled sym x0 x u.
    Proof using From.
      intros x cb1 dt cb2 v fin f Hf Hc. injection Hf as <-. cbv beta zeta in Hc. injection Hc as _ <- <-. split; [reflexivity|]. eexists. split; [reflexivity|].
      destruct (C44_dynamics float sym l (proj2 (proj2 From))) as (mr & cr & gr & _ & Sc & _ & Dy).
      destruct (C44_frames float sym l (proj2 (proj2 From)) EndEffector (map of_bits (rs_q x)) (map of_bits (rs_F_T_EE x)) (map of_bits (rs_EE_T_K x)))
        as (pr & br & zr & t0 & _ & _ & Sz & Tl & _ & _ & Ez).
      exists cr, zr. split; [exact Sc|]. split; [exact Sz|]. cbv zeta. cbn [tool positions] in Tl, Ez. subst t0.
      destruct (Dy (map of_bits (rs_q x)) (map of_bits (rs_dq x)) (map of_bits (rs_I_load x)) (of_bits (us_m_total (user_state_of x))) (map of_bits (us_F_x_Ctotal (user_state_of x)))) as (_ & Co & _).
      cbn [app] in Ez.
      match goal with |- law ?a1 ?b1 _ _ _ = law ?a2 ?b2 _ _ _ => assert (A : a1 = a2) by exact Co; assert (B : b1 = b2) by exact Ez; rewrite A, B end. reflexivity.
    Qed.
    Lemma spring_control : forall s r s', I s -> Forall proper (trace s) -> Forall untouched (trace s) -> (forall c g p1 p2, ~ In (ReqMove c g p1 p2) (requests (trace s))) ->
      control k tt s = (r, s') -> exists m, trace s' = m ++ trace s /\ r <> OutOfFuel /\ (forall u, r <> Ok u) /\ In (in_order_asked m) [[]; [q]; [q; ReqStopMove]] /\
        (forall m1 a c m2, m = m1 ++ EvCommand a c :: m2 -> springy sym x0 (m2 ++ trace s) c).
    Proof using From.
      intros s r s' HI Pr Un Nm E.
      pose proof (control_requests_I k tt s HI) as C. pose proof (wp_control k tt s HI) as W. unfold wp in W.
      destruct (control_proper k tt s) as (d2 & T2 & P2). pose proof (control_I k tt s HI) as L. rewrite E in C, W, T2, L. cbn [snd] in T2, L.
      change (ReqMove (wanted_ctrl k) (k_mode k) default_deviation default_deviation) with q in C.
      destruct (C56_threaded k _ _ _ _ E) as (d & T & Th). rewrite T in T2. apply app_inv_tail in T2. subst d2.
      assert (Tails : exists d' cb m, replays k tt d' cb m /\ (d = d' \/ exists e, d = e :: d' /\ match e with EvMotion _ _ | EvTorque _ _ => True | _ => False end)).
      { destruct Th as [(cb & m & H)|[_ [(d' & cb & m & x & dt & -> & H & _)|(f & d' & cb & m & x & dt & -> & H & _)]]]; [exists d, cb, m; auto|exists d', cb, m; split; [exact H|right; eexists; split; [reflexivity|exact Logic.I]]..]. }
      destruct Tails as (d' & cb & m & Re & Dd). clear Th.
      assert (Sub : forall e, In e d -> match e with EvMotion _ _ | EvTorque _ _ => False | _ => True end -> In e d').
      { intros e Hin Ne. destruct Dd as [->|(e0 & -> & K)]; [exact Hin|]. destruct Hin as [->|Hin]; [destruct e; contradiction|exact Hin]. }
      assert (Fin : forall e, In e (d ++ trace s) -> final e = false).
      { intros e Hin. apply in_app_or in Hin. destruct Hin as [Hin|Hin].
        - destruct e as [| | | | | |o fin| |tau fin|]; try reflexivity; cbn [final].
          + destruct (motion_replayed _ _ _ _ _ Re o fin (Sub _ Hin Logic.I)) as (c1 & x & dt & c2 & out & Em & ->). injection Em as _ <-. reflexivity.
          + destruct (torque_out_replayed _ _ _ _ _ Re tau fin (Sub _ Hin Logic.I)) as (d1 & x & dt & d2 & Ed).
            destruct (torque_replayed _ _ _ _ _ Re _ _ _ _ _ _ Ed) as (f & c1 & c2 & v & Hf & Hc & _). exact (proj1 (pull _ _ _ _ _ _ _ Hf Hc)).
        - rewrite Forall_forall in Un. specialize (Un e Hin). destruct e; try reflexivity; contradiction Un. }
      assert (NoOk : forall u, r <> Ok u).
      { intros u ->. destruct W as (_ & _ & Cm). rewrite T, (never_completed _ Fin) in Cm. discriminate Cm. }
      assert (Any : requests (trace s') = requests (trace s) \/ requests (trace s') = q :: requests (trace s) \/ requests (trace s') = ReqStopMove :: q :: requests (trace s)).
      { destruct r as [u|e|p| |]; try exact C. contradiction (NoOk u eq_refl). }
      assert (One : In (in_order_asked d) [[]; [q]; [q; ReqStopMove]]).
      { rewrite T, requests_app in Any. unfold in_order_asked.
        destruct Any as [H|[H|H]]; [apply (app_inv_tail _ _ []) in H|apply (app_inv_tail _ _ [q]) in H|apply (app_inv_tail _ _ [ReqStopMove; q]) in H]; rewrite H; cbn; tauto. }
      exists d. split; [exact T|]. split; [intros ->; contradiction W|]. split; [exact NoOk|]. split; [exact One|].
      intros m1 a c m2 Ed. rewrite T, Ed in L. rewrite <- app_assoc in L. cbn [app] in L.
      apply lawful_split in L. destruct L as [(_ & (y & Ly & Id) & (mo & _ & Mo) & Jc & Ta & _) L2].
      assert (Fin2 : completed (m2 ++ trace s) = false).
      { apply never_completed. intros e He. apply Fin. rewrite Ed, <- app_assoc. apply in_or_app. right. right. exact He. }
      specialize (Jc Fin2). rewrite Fin2 in Mo.
      assert (Ec : motion_ctrl (m2 ++ trace s) = Some McExternalController).
      { unfold just_called in Jc. destruct (motion_ctrl (m2 ++ trace s)) as [ct|] eqn:Mc; [|contradiction Jc]. f_equal.
        destruct (controller_asked _ _ Mc) as (g & p1 & p2 & Hq). rewrite requests_app in Hq. apply in_app_or in Hq. destruct Hq as [Hq|Hq]; [|contradiction (Nm _ _ _ _ Hq)].
        assert (Hd : In (ReqMove ct g p1 p2) (in_order_asked d)).
        { unfold in_order_asked. apply in_rev. rewrite rev_involutive, Ed. unfold requests. rewrite flat_map_app. apply in_or_app. right. exact Hq. }
        destruct One as [O|[O|[O|[]]]]; rewrite <- O in Hd; unfold q in Hd; cbn [In] in Hd; intuition congruence. }
      unfold just_called in Jc. rewrite Ec in Jc. destruct Jc as (tau & x & dt & t' & Et).
      destruct m2 as [|e1 [|e2 m3]].
      { cbn [app] in Et. rewrite Et in Un. inversion Un as [|? ? X]. contradiction X. }
      { cbn [app] in Et. injection Et as -> Et. rewrite Et in Un. inversion Un as [|? ? X]. contradiction X. }
      cbn [app] in Et. injection Et as -> -> Et.
      assert (Ed' : exists d1, d' = d1 ++ EvTorqueOut tau false :: EvTorque x dt :: m3).
      { destruct Dd as [->|(e0 & E0 & K)]; [exists (m1 ++ [EvCommand a c]); rewrite <- app_assoc; exact Ed|]. rewrite E0 in Ed. destruct m1 as [|e1 m1]; injection Ed as -> Ed; [contradiction K|].
        exists (m1 ++ [EvCommand a c]). rewrite <- app_assoc. exact Ed. }
      destruct Ed' as (d1 & Ed'). destruct (torque_replayed _ _ _ _ _ Re _ _ _ _ _ _ Ed') as (f & c1 & c2 & v & Hf & Hc & Hk).
      destruct (pull _ _ _ _ _ _ _ Hf Hc) as (_ & u & -> & Pu).
      cbn [app] in L2. destruct L2 as (_ & (_ & mo' & t1 & Em) & L3). rewrite Em in L3. destruct L3 as (_ & L4). destruct L4 as ((_ & _ & t3 & Es & _) & _).
      assert (St : state_ok x).
      { assert (Al : Forall proper (trace s')) by (rewrite T; apply Forall_app; auto). rewrite Forall_forall in Al. apply (Al (EvState x)). rewrite T, Ed, <- app_assoc. apply in_or_app. right. right.
        cbn [app]. rewrite Em, Es. cbn [In]. tauto. }
      assert (Ex : y = x).
      { cbn [app last_state] in Ly. rewrite Em, Es in Ly. cbn [last_state] in Ly. congruence. }
      subst y. cbn [app this_motion newest_torques] in Ta.
      exists x, u. split; [cbn [app]; rewrite Em, Es; eexists; reflexivity|]. split; [exact Id|]. split; [rewrite Mo; reflexivity|]. split; [exact Pu|].
      rewrite Ta. split; [exact Hk|]. intros Lu Md.
      pose proof (filter_limited default_cutoff (map bits u) x tau ltac:(rewrite map_length; exact Lu) St Hk Md) as Fl.
      clear - Fl. induction Fl as [|p1 p2 l1 l2 H Fl IH]; constructor; [|exact IH]. unfold robot_torque_rate, RateSpec.cycle in H. lra.
    Qed.
  End Control.

  Lemma connect_untouched : forall port, adds (fun e => untouched e /\ proper e) (robot_new port).
  Proof.
    intros port. unfold robot_new. apply adds_bind.
    - unfold connect_robot. apply adds_bind; [intros s0; apply (grew_one _ _ _ (EvRequest (n_id s0) (ReqConnect port))); [reflexivity|split; exact Logic.I]|].
      intros id. apply adds_bind; [apply adds_response; intros; split; exact Logic.I|]. intros a. destruct (fst (snd a)); intros s; apply grew_same; reflexivity.
    - intros _ s. pose proof (adds_block (fun e => untouched e /\ proper e) s) as (d & T & F). pose proof (block_state s) as W.
      destruct (udp_block s) as [[x|e|p| |] s1]; try (exists d; split; assumption).
      exists (EvState x :: d). split; [cbn [snd] in T; cbn; rewrite T; reflexivity|constructor; [split; [exact Logic.I|eapply W; reflexivity]|exact F]].
  Qed.
  Lemma neutral_fine : forall e, neutral e -> untouched e /\ proper e.
  Proof. intros e H. destruct e; try contradiction H; split; exact Logic.I. Qed.
  Lemma settings_quiet : forall rs s, RobotWp.quiet s (snd (settings rs s)).
  Proof.
    induction rs as [|r rs IH]; intros s; [apply RobotWp.quiet_refl|]. cbn [settings]. unfold bind. pose proof (wp_setter r s) as W. unfold wp in W.
    destruct (setter r s) as [[u|e|p| |] s1]; try exact W; [|contradiction W]. exact (RobotWp.quiet_trans _ _ _ W (IH s1)).
  Qed.
  Theorem C78_impedance : forall w rots port d size rt us ts sends realtime priority r d' s',
    impedance_program w rots law port d (st_init size rt us ts sends realtime priority) = (r, d', s') -> impedance_spec w port d r d' (trace s').
  Proof.
    intros w rots port d size rt us ts sends realtime priority r d' s' E. unfold impedance_program in E. unfold and_then at 1, call at 1 in E.
    set (s0 := st_init size rt us ts sends realtime priority) in *.
    pose proof (init_fresh size rt us ts sends realtime priority) as Fr. fold s0 in Fr.
    destruct (robot_new port s0) as [r1 s1] eqn:E1. destruct (connect_asked _ _ _ _ E1) as [Q1 O1]. specialize (O1 Fr). change (requests (trace s0)) with (@nil robot_request) in Q1.
    destruct (connect_untouched port s0) as (d1 & T1 & F1). rewrite E1 in T1. cbn [snd] in T1. change (trace s0) with (@nil event) in T1. rewrite app_nil_r in T1. rewrite <- T1 in F1. clear d1 T1.
    assert (Early : forall r0 dx sx rest, r0 <> NoFuel -> (forall e, r0 <> Done e) -> d_target dx = d_target d -> Forall (fun e => untouched e /\ proper e) (trace sx) ->
      asks port d = in_order_asked (trace sx) ++ rest -> (r0, dx, sx) = (r, d', s') -> impedance_spec w port d r d' (trace s')).
    { intros r0 dx sx rest N1 N2 Tg F Q X. injection X as <- <- <-. split; [exact N1|]. split; [apply N2|]. split; [exact Tg|]. left. split; [exact N2|].
      split; [exists rest; exact Q|]. eapply Forall_impl; [|exact F]. intros e [H _]. exact H. }
    assert (Start : in_order_asked (trace s1) = [ReqConnect port]) by (unfold in_order_asked; rewrite Q1; reflexivity).
    destruct r1 as [u1|e|p| |]; cbn [of_outcome] in E;
      try (revert E; eapply Early; [discriminate|discriminate|reflexivity|exact F1|rewrite Start; reflexivity]); [|contradiction (O1 eq_refl)].
    pose proof (connect_I _ _ _ _ Fr E1) as I1.
    unfold and_then at 1 in E. destruct (load_call w true d s1) as [[q2 d2] s2] eqn:E2. destruct (load_steps _ _ _ _ _ _ _ E2) as [[Nf Tg Ud Rq Lo] Qt].
    assert (F2 : Forall (fun e => untouched e /\ proper e) (trace s2)).
    { destruct Qt as (_ & _ & _ & _ & _ & _ & _ & _ & _ & t & Tt & Ft). rewrite Tt. apply Forall_app. split; [|exact F1]. eapply Forall_impl; [|exact Ft]. exact neutral_fine. }
    pose proof (quiet_I _ _ Qt I1) as I2. rewrite Q1 in Rq.
    set (three := [impedance_collision; impedance_joints; impedance_cartesian]) in *.
    assert (As : asks port d = programs_start port d ++ three).
    { unfold asks, programs_start, three. destruct (d_model d); vm_compute; reflexivity. }
    assert (A2 : in_order_asked (trace s2) = programs_start port d) by (unfold in_order_asked; rewrite Rq; unfold programs_start; destruct (d_model d); reflexivity).
    clearbody three.
    destruct q2 as [l|e|e| | |]; try (revert E; eapply Early; [discriminate|discriminate|exact Tg|exact F2|rewrite A2; exact As]); [|contradiction (Nf eq_refl)].
    destruct (Lo l eq_refl) as (b & sym & Cf & Fb). clear Lo.
    unfold and_then at 1, call at 1 in E. destruct (settings three s2) as [r3 s3] eqn:E3. pose proof (settings_quiet three s2) as Qs. rewrite E3 in Qs. cbn [snd] in Qs.
    rewrite settings_setters in E3. destruct (setters_asked _ _ _ _ E3) as (O3 & sent & rest & S3 & Q3 & N3).
    assert (F3 : Forall (fun e => untouched e /\ proper e) (trace s3)).
    { destruct Qs as (_ & _ & _ & _ & _ & _ & _ & _ & _ & t & Tt & Ft). rewrite Tt. apply Forall_app. split; [|exact F2]. eapply Forall_impl; [|exact Ft]. exact neutral_fine. }
    pose proof (quiet_I _ _ Qs I2) as I3.
    assert (A3 : in_order_asked (trace s3) = programs_start port d ++ sent).
    { unfold in_order_asked in *. rewrite Q3, rev_app_distr, rev_involutive, A2. reflexivity. }
    destruct r3 as [u3|e|p| |]; cbn [of_outcome] in E;
      try (revert E; eapply Early; [discriminate|discriminate|exact Tg|exact F3|rewrite A3, As, S3, app_assoc; reflexivity]); [|contradiction (O3 eq_refl)].
    rewrite (N3 u3 eq_refl), app_nil_r in S3. subst sent. rewrite <- As in A3.
    unfold and_then at 1, call at 1 in E. pose proof (wp_read_once s3 I3) as W. unfold wp in W.
    assert (G : grew (fun e => requests [e] = [] /\ untouched e /\ proper e) s3 (snd (read_once s3))).
    { apply adds_read_once; intros; (split; [reflexivity|]); (split; [exact Logic.I|]); (exact Logic.I || assumption). }
    destruct (read_once s3) as [r4 s4] eqn:E4. cbn [snd] in G. destruct G as (t & Tt & Ft).
    assert (F4 : Forall (fun e => untouched e /\ proper e) (trace s4)).
    { rewrite Tt. apply Forall_app. split; [|exact F3]. eapply Forall_impl; [|exact Ft]. intros e [_ H]. exact H. }
    assert (A4 : in_order_asked (trace s4) = asks port d).
    { rewrite <- A3. unfold in_order_asked. f_equal. rewrite Tt, requests_app. clear - Ft. induction Ft as [|e t [H _] Ft IH]; [reflexivity|].
      unfold requests in *. cbn [flat_map app] in *. rewrite app_nil_r in H. rewrite H. exact IH. }
    destruct r4 as [x0|e|p| |]; cbn [of_outcome] in E;
      try (revert E; eapply Early; [discriminate|discriminate|exact Tg|exact F4|rewrite A4, app_nil_r; reflexivity]); [|contradiction W].
    destruct W as [I4 T4]. unfold call, printed in E.
    set (k := controller_of rots (spring law l (map of_bits (us_O_T_EE (user_state_of x0))))) in E.
    destruct (control k tt s4) as [r5 s5] eqn:E5.
    destruct (spring_control w rots b sym l x0 Cf s4 r5 s5 I4) as (m & Tm & Nf5 & No5 & As5 & Cm).
    { eapply Forall_impl; [|exact F4]. intros e [_ H]. exact H. }
    { eapply Forall_impl; [|exact F4]. intros e [H _]. exact H. }
    { intros c g p1 p2 Hin. assert (Hq : In (ReqMove c g p1 p2) (asks port d)) by (rewrite <- A4; unfold in_order_asked; apply in_rev; rewrite rev_involutive; exact Hin).
      clear - Hq. unfold asks in Hq. destruct (d_model d); cbn [app In] in Hq; intuition discriminate. }
    { exact E5. }
    assert (Fin : forall r0, r0 <> NoFuel -> r0 <> Done None -> (r0, d2, s5) = (r, d', s') -> impedance_spec w port d r d' (trace s')).
    { intros r0 N1 N2 X. injection X as <- <- <-. split; [exact N1|]. split; [exact N2|]. split; [exact Tg|]. right.
      exists m, x0, (EvState x0 :: trace s3), b, sym, l, (ReqMove McExternalController MmJointVelocity default_deviation default_deviation).
      split; [rewrite Tm, T4; reflexivity|]. rewrite T4 in F4. inversion F4 as [|? ? _ F5]; subst.
      split; [eapply Forall_impl; [|exact F5]; intros e [H _]; exact H|]. split; [exact A3|]. split; [exact Cf|].
      split; [intros old H; rewrite H in Fb; apply Fb|]. split; [destruct (d_model d); destruct Fb as [Fb1 Fb2]; congruence|].
      split; [exists default_deviation, default_deviation; reflexivity|]. split; [exact As5|rewrite T4 in Cm; exact Cm]. }
    destruct r5 as [u5|e|p| |]; cbn [of_outcome] in E; try (revert E; apply Fin; discriminate); [contradiction (No5 u5 eq_refl)|contradiction (Nf5 eq_refl)].
  Qed.
  (** With a robot which answers the motion starts from a handle ready for it, the spring being fixed at the pose of the newest state;
      the program is then this one control call with its error printed. *)
  Theorem C78_live : forall w rots port d p size rt x0 v ch t0 t tset old x ch1 ch2 us ts realtime priority,
    let id := match d_model d with Some _ => 1 | None => 2 end in
    let b := match d_model d with Some b => b | None => p end in
    (0 < size)%nat -> rt = RtIgnore \/ (realtime = true /\ priority = true) ->
    burst state_size state_decode x0 ch -> stopped x0 -> answered c_connect_response 0 (CsSuccess, v) t0 ->
    match d_model d with
    | Some _ => works w b /\ t = []
    | None => works w b /\ offered 1 b t /\ w_create w = true /\ w_written w = Some (List.length b)
    end ->
    accepted id 3 tset -> polled state_size state_decode old ch1 -> brings (rs_message_id x0) x ch2 -> stopped x ->
    exists sym l s, comes_from w b sym l /\ ready us ts s /\ n_id s = id + 3 /\ r_message_id s = rs_message_id x /\ asks port d = in_order_asked (trace s) /\
      impedance_program w rots law port d (st_init size rt (ch ++ ch1 ++ ch2 ++ us) (t0 ++ t ++ tset ++ ts) [] realtime priority) =
      let (r, s') := control (controller_of rots (spring law l (map of_bits (rs_O_T_EE x)))) tt s in
      (match r with Ok _ => Done None | Err e => Done (Some e) | Panic _ => Panicked | Blocked => Waiting | OutOfFuel => NoFuel end,
       Disk (Some b) (d_target d), s').
  Proof.
    intros w rots port d p size rt x0 v ch t0 t tset old x ch1 ch2 us ts realtime priority id b Sz Rt Bu St An Mac Ac Po Br Sx.
    set (s0 := st_init size rt (ch ++ ch1 ++ ch2 ++ us) (t0 ++ t ++ tset ++ ts) [] realtime priority).
    destruct (C61_connect port size rt x0 ch v t0 (ch1 ++ ch2 ++ us) (t ++ tset ++ ts) realtime priority Sz Rt Bu St An) as (s1 & E1 & R1 & I1 & M1). fold s0 in E1.
    destruct (connect_asked _ _ _ _ E1) as [Q1 _]. change (requests (trace s0)) with (@nil robot_request) in Q1.
    destruct (C75_load_live w true d p t (ch1 ++ ch2 ++ us) (tset ++ ts) s1 R1) as (l & d' & s2 & E2 & R2 & M2 & I2 & (b' & sym & Cf & Eb) & Tg & Dm).
    { unfold b in Mac. destruct (d_model d); [|rewrite I1]; intuition. }
    assert (Eb' : b' = b) by exact Eb. rewrite Eb' in Cf. clear Eb Eb' b'.
    destruct (load_steps _ _ _ _ _ _ _ E2) as [[_ _ _ Rq _] _]. rewrite Q1 in Rq.
    assert (I2' : n_id s2 = id) by (rewrite I2, I1; unfold id; destruct (d_model d); reflexivity).
    assert (Dd : d' = Disk (Some b) (d_target d)).
    { destruct d' as [dm dt]. cbn [d_model d_target] in Tg, Dm. rewrite Tg, Dm. unfold b. destruct (d_model d); reflexivity. }
    cbn [accepted] in Ac. destruct Ac as (a1 & r1 & -> & A1 & a2 & r2 & -> & A2 & a3 & r3 & -> & A3 & ->). rewrite <- !app_assoc in R2. cbn [app] in R2.
    rewrite <- I2' in A1. destruct (setter_ok impedance_collision _ _ _ s2 R2 A1) as (s3 & E3 & R3 & I3 & M3).
    rewrite <- I2', <- I3 in A2. destruct (setter_ok impedance_joints _ _ _ s3 R3 A2) as (s4 & E4 & R4 & I4 & M4).
    rewrite <- I2', <- I3, <- I4 in A3. destruct (setter_ok impedance_cartesian _ _ _ s4 R4 A3) as (s5 & E5 & R5 & I5 & M5).
    rewrite <- M1, <- M2, <- M3, <- M4, <- M5 in Br. destruct (read_once_ready old x ch1 ch2 us ts s5 Po Br Sx R5) as (s6 & E6 & R6 & I6 & M6 & Q6).
    set (three := [impedance_collision; impedance_joints; impedance_cartesian]).
    assert (Et : settings three s2 = (Ok tt, s5)).
    { unfold three, settings, bind. rewrite E3, E4, E5. reflexivity. }
    exists sym, l, s6. split; [exact Cf|]. split; [exact R6|].
    split; [rewrite I6, I5, I4, I3, I2'; unfold id; destruct (d_model d); reflexivity|]. split; [exact M6|]. split.
    { pose proof Et as Es. rewrite settings_setters in Es. destruct (setters_asked _ _ _ _ Es) as (_ & sent & rest & S3 & Q3 & N3).
      rewrite (N3 tt eq_refl), app_nil_r in S3. subst sent. unfold in_order_asked. rewrite Q6, Q3, rev_app_distr, rev_involutive, Rq.
      unfold asks, three. destruct (d_model d); vm_compute; reflexivity. }
    unfold impedance_program, and_then, call. rewrite E1. cbn [of_outcome]. rewrite E2. fold three. rewrite Et. cbn [of_outcome]. rewrite E6. cbn [of_outcome].
    unfold printed. rewrite Dd. change (us_O_T_EE (user_state_of x)) with (rs_O_T_EE x).
    match goal with |- context [control ?k ?c s6] => destruct (control k c s6) as [[?|?|?| |] s7]; reflexivity end.
  Qed.
End Law.
Print Assumptions C78_impedance.
Print Assumptions C78_live.

(** * Examples *)
Definition ex_law (a b c e f : list (F float)) : list (F float) := repeat (f_lit float 1 2) 7.
Definition ex_joint_velocity (id : N) : robot_state_intern := ex_rs id MgJointVelocity CmExternalController RmMove.
Definition ex_impedance_answers : list (option (N * list byte)) :=
  [ex_connected 0; None; ex_offer 1; ex_set RcSetCollisionBehavior 2 GsSuccess; ex_set RcSetJointImpedance 3 GsSuccess; ex_set RcSetCartesianImpedance 4 GsSuccess].
Definition ex_reading : sched := ex_first (ex_idle 1) ++ ex_many (ex_idle 1) (ex_idle 1) (ex_idle 1) (ex_idle 1) ++ ex_once (ex_idle 2).
Definition ex_spring_env : st :=
  st_init 10 RtIgnore (ex_reading ++ ex_states [ex_idle 3; ex_joint_velocity 4; ex_joint_velocity 6; ex_joint_velocity 7; ex_joint_velocity 8; ex_reflex 9; ex_idle 10])
    (ex_impedance_answers ++ [ex_move 5 MsMotionStarted; None; None; ex_move 5 MsReflexAborted; ex_stop 6 SsSuccess]) [] true true.
(** The motion ends with a reflex and the program well; three torque commands were sent. *)
Example C78_ex_reflex :
  (let '(r, d, s) := impedance_program (ex_world false) ex_rots ex_law 1337 empty_disk ex_spring_env in
   kind r = 0 /\ d = Disk (Some ex_library) None /\
   map (fun q => match q with ReqConnect _ => 1 | ReqLoadModelLibrary => 2 | ReqSetCollisionBehavior _ _ _ _ _ _ _ _ => 3 | ReqSetJointImpedance _ => 4
     | ReqSetCartesianImpedance _ => 5 | ReqMove _ _ _ _ => 6 | ReqStopMove => 7 | _ => 0 end) (in_order_asked (trace s)) = [1; 2; 3; 4; 5; 6; 7] /\
   List.length (commands (trace s)) = 3%nat).
Proof. vm_compute. auto. Qed.
(** A refused setting ends the program with its error and without a motion; a file which is no library, before any setting. *)
Example C78_ex_refused :
  (let '(r, d, s) := impedance_program (ex_world false) ex_rots ex_law 1337 (Disk (Some ex_library) None)
     (st_init 10 RtIgnore ex_reading [ex_connected 0; ex_set RcSetCollisionBehavior 1 GsSuccess; ex_set RcSetJointImpedance 2 GsInvalidArgumentRejected] [] true true) in
   kind r = 1 /\ d = Disk (Some ex_library) None /\ List.length (in_order_asked (trace s)) = 3%nat /\ commands (trace s) = []) /\
  (let '(r, d, s) := impedance_program (ex_world false) ex_rots ex_law 1337 (Disk (Some [x01]) None) ex_spring_env in
   kind r = 2 /\ d = Disk (Some [x01]) None /\ in_order_asked (trace s) = [ReqConnect 1337]).
Proof. split; vm_compute; auto. Qed.
(** The hypotheses of [C78_live]. *)
Example C78_ex_live :
  burst state_size state_decode (ex_idle 1) (ex_first (ex_idle 1)) /\ stopped (ex_idle 1) /\ answered c_connect_response 0 (CsSuccess, 5) [ex_connected 0] /\
  (works (ex_world false) ex_library /\ offered 1 ex_library [None; ex_offer 1] /\ w_create (ex_world false) = true /\
   w_written (ex_world false) = Some (List.length ex_library)) /\
  accepted 2 3 [ex_set RcSetCollisionBehavior 2 GsSuccess; ex_set RcSetJointImpedance 3 GsSuccess; ex_set RcSetCartesianImpedance 4 GsSuccess] /\
  polled state_size state_decode [ex_idle 1] (ex_many (ex_idle 1) (ex_idle 1) (ex_idle 1) (ex_idle 1)) /\
  brings (rs_message_id (ex_idle 1)) (ex_idle 2) (ex_once (ex_idle 2)) /\ stopped (ex_idle 2).
Proof.
  destruct C75_ex_live as (A & B & C & D & E & F). do 4 (split; [assumption|]). split.
  - exists [ex_set RcSetCollisionBehavior 2 GsSuccess], [ex_set RcSetJointImpedance 3 GsSuccess; ex_set RcSetCartesianImpedance 4 GsSuccess].
    split; [reflexivity|]. split; [eapply (ex_answered _ _ _ 0); decodes|].
    exists [ex_set RcSetJointImpedance 3 GsSuccess], [ex_set RcSetCartesianImpedance 4 GsSuccess].
    split; [reflexivity|]. split; [eapply (ex_answered _ _ _ 0); decodes|].
    exists [ex_set RcSetCartesianImpedance 4 GsSuccess], []. split; [reflexivity|]. split; [eapply (ex_answered _ _ _ 0); decodes|]. reflexivity.
  - split; [exact E|]. split; [exact F|]. split; [reflexivity|discriminate].
Qed.
