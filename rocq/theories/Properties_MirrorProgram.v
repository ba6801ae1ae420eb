(** C79: mirror_robot as a whole: two robots, two threads and a channel. *)
From Coq Require Import List NArith ZArith Bool Arith Lia String Reals Lra.
From Coq Require Import Init.Byte.
From Flocq Require Import Core IEEE754.BinarySingleNaN IEEE754.Binary IEEE754.Bits.
From Verif Require Import Bytes Codec NumOps NumFloat FloatFacts RateSpec WireModel WireSpec TcpModel TcpProofs UdpModel UdpSpec UdpProofs StateModel ModelApi ConvertModel
  RobotModel LoopModel RobotSpec RobotProofs RobotWp LoopProofs Decoded Effects RobotMore RobotCalls CallFacts TypedModel TypedSpec JointMotionModel LibraryModel ProgramModel MotionPrograms CommPrograms
  ImpedanceProgram MirrorProgram MotionModel
  LiveUdp LiveSpec LiveProofs RobotScenario ReplaySpec ReplayProofs Outputs Properties_Live Properties_Model Properties_Convert Properties_Replay Properties_Programs
  Properties_MotionPrograms Properties_Library Properties_MotionEnds Properties_CommPrograms Properties_ImpedanceProgram TorqueCalls.
Import ListNotations.
Open Scope list_scope.
Open Scope N_scope.

(** * What the program is meant to do *)
(** The robot of the user is asked for the same as the mirroring one, apart from the library. *)
Definition asks_user (port : N) : list robot_request := ReqConnect port :: skipn 1 (asks port (Disk (Some []) None)).
(** The motion to the start position with a tenth of the speed: the positions of the motion generator, after rate limiting. *)
Definition home_request (q : robot_request) : Prop := exists d1 d2, q = ReqMove McJointImpedance MmJointPosition d1 d2.
Definition homewards (m : list event) : Prop :=
  forall i c fin, nth_error (rev (motion_outputs m)) i = Some (c, fin) -> exists x dt q,
    nth_error (rev (motion_calls m)) i = Some (x, dt) /\
    nth_error (generate float (generator_new float (of_bits 0x3FB999999999999A) (map of_bits start_position)) (map as_call (rev (motion_calls m)))) i = Some (q, fin) /\
    limited_positions q x (mc_q_c c).
(** Torques [v] for the newest state [x] of the history [h], filtered and limited (100 Hz, on); not the end of the motion. *)
Definition torque_command (h : list event) (x : robot_state_intern) (v : list N) (c : robot_command) : Prop :=
  (exists older, states_seen h = x :: older) /\ rc_message_id c = rs_message_id x /\ mc_finished (rc_motion c) = false /\
  filter_torques default_cutoff true v x = Some (rc_tau c) /\
  (List.length v = 7%nat -> Forall moderate (rs_tau_J_d x) ->
   Forall2 (fun before now => (Rabs (val (of_bits now) - val (of_bits before)) <= 1)%R) (rs_tau_J_d x) (rc_tau c)).
(** Poses come through the channel in order, at most one in each call: [age n] have come up to call [n]. *)
Definition channel (age : nat -> nat) (sent : nat) : Prop :=
  age 0%nat = 0%nat /\ forall n, (age n <= age (S n) <= S (age n))%nat /\ (age n <= sent)%nat.
Section Law.
  Variable law : list (F float) -> list (F float) -> list (F float) -> list (F float) -> list (F float) -> list (F float) -> list (F float).
  (** The torques for the state [x] and the pose to be mirrored. *)
  Definition reflected (sym : string -> option (routine float)) (pose : list N) (x : robot_state_intern) (v : list (F float)) : Prop :=
    exists coriolis jacobian, sym "c_NE"%string = Some coriolis /\ sym "O_J_J9"%string = Some jacobian /\
      let array := map of_bits in let u := user_state_of x in
      v = law (coriolis [array (rs_q x); array (rs_dq x); array (rs_I_load x); [of_bits (us_m_total u)]; array (us_F_x_Ctotal u)])
              (jacobian [array (rs_q x); array (rs_F_T_EE x)]) (array (rs_O_T_EE x)) (array (rs_q x)) (array (rs_dq x)) (array pose).
  Definition mirror_spec (w : world) (port : N) (d : disk) (r : result unit) (d' : disk) (tu tm : list event) : Prop :=
    r <> NoFuel /\ r <> Done tt /\ d_target d' = d_target d /\
    ((prefix_of (in_order_asked tu) (asks_user port) /\ prefix_of (in_order_asked tm) (asks port d) /\ Forall untouched tu /\ Forall untouched tm) \/
     (exists hu bu hm bm x0 home b sym l, in_order_asked bu = asks_user port /\ in_order_asked bm = asks port d /\ Forall untouched bu /\ Forall untouched bm /\
        comes_from w b sym l /\ (forall old, d_model d = Some old -> b = old) /\ d_model d' = Some b /\
        (exists older, bu = EvRead x0 :: older) /\ home_request home /\ homewards hu /\ homewards hm /\
        ((tu = hu ++ bu /\ tm = hm ++ bm /\ In (in_order_asked hu) [[]; [home]; [home; ReqStopMove]] /\ In (in_order_asked hm) [[]; [home]; [home; ReqStopMove]]) \/
         (exists mu mm q age, tu = mu ++ hu ++ bu /\ tm = mm ++ hm ++ bm /\ in_order_asked hu = [home] /\ in_order_asked hm = [home] /\
            torque_motion q /\ In (in_order_asked mu) [[]; [q]; [q; ReqStopMove]] /\ In (in_order_asked mm) [[]; [q]; [q; ReqStopMove]] /\
            (forall m1 a c m2, mu = m1 ++ EvCommand a c :: m2 -> exists x, torque_command (m2 ++ hu ++ bu) x (repeat 0 7) c) /\
            let sent := map (fun p => rs_O_T_EE (fst p)) (rev (torque_calls mu)) in
            channel age (List.length sent) /\
            (forall m1 a c m2, mm = m1 ++ EvCommand a c :: m2 -> exists x v,
               torque_command (m2 ++ hm ++ bm) x (map bits v) c /\
               reflected sym (nth (age (List.length (torque_calls m2))) (rs_O_T_EE x0 :: sent) []) x v))))).

  (** * Proofs *)
  Lemma limited_command : forall h x v c older, states_seen h = x :: older -> state_ok x -> rc_message_id c = rs_message_id x -> mc_finished (rc_motion c) = false ->
    filter_torques default_cutoff true v x = Some (rc_tau c) -> torque_command h x v c.
  Proof.
    intros h x v c older S Ok Id Nf Fi. split; [exists older; exact S|]. split; [exact Id|]. split; [exact Nf|]. split; [exact Fi|].
    intros Lu Md. pose proof (filter_limited default_cutoff v x (rc_tau c) Lu Ok Fi Md) as Fl.
    clear - Fl. induction Fl as [|p1 p2 l1 l2 H Fl IH]; constructor; [|exact IH]. unfold robot_torque_rate, RateSpec.cycle in H. lra.
  Qed.
  Lemma no_fuel : forall A (o : outcome A), of_outcome o = NoFuel -> o = OutOfFuel.
  Proof. intros A [] H; try discriminate H. reflexivity. Qed.
  Lemma ended : forall A (o : outcome A) x, of_outcome o = Done x -> o = Ok x.
  Proof. intros A [] x H; try discriminate H. injection H as ->. reflexivity. Qed.
  (** The channel *)
  Section Channel.
    Variables (p0 : list N) (sent : list (list N)) (timely : list bool).
    Let at_call (n : nat) : mirroring := Nat.iter n mirror_receive (Mirroring p0 sent timely).
    Definition come (n : nat) : nat := List.length sent - List.length (mi_coming (at_call n)).
    Lemma received : forall n, exists a, (a <= List.length sent)%nat /\ mi_coming (at_call n) = skipn a sent /\ mi_desired (at_call n) = nth a (p0 :: sent) [] /\
      exists a', (a <= a' <= S a)%nat /\ (a' <= List.length sent)%nat /\ mi_coming (at_call (S n)) = skipn a' sent /\ mi_desired (at_call (S n)) = nth a' (p0 :: sent) [].
    Proof.
      assert (Step : forall m a, (a <= List.length sent)%nat -> mi_coming m = skipn a sent -> mi_desired m = nth a (p0 :: sent) [] ->
        exists a', (a <= a' <= S a)%nat /\ (a' <= List.length sent)%nat /\ mi_coming (mirror_receive m) = skipn a' sent /\ mi_desired (mirror_receive m) = nth a' (p0 :: sent) []).
      { intros m a L C D. unfold mirror_receive. rewrite C. destruct (mi_timely m) as [|[] tl]; [exists a; cbn [mi_coming mi_desired]; auto| |exists a; cbn [mi_coming mi_desired]; auto].
        destruct (skipn a sent) as [|p rest] eqn:Sk; [exists a; cbn [mi_coming mi_desired]; rewrite Sk; auto|]. exists (S a). cbn [mi_coming mi_desired].
        assert (Sp : sent = firstn a sent ++ p :: rest) by (rewrite <- Sk, firstn_skipn; reflexivity).
        assert (La : List.length (firstn a sent) = a) by (rewrite firstn_length; lia).
        split; [lia|]. split; [rewrite Sp, app_length, La; cbn [List.length]; lia|]. rewrite Sp. split.
        - rewrite skipn_app, La. replace (S a - a)%nat with 1%nat by lia. change (skipn 1 (p :: rest)) with rest. rewrite skipn_all2 by (rewrite La; lia). reflexivity.
        - cbn [nth]. rewrite app_nth2 by lia. rewrite La, Nat.sub_diag. reflexivity. }
      induction n as [|n (a & L & C & D & a' & La & La' & C' & D')].
      - exists 0%nat. split; [lia|]. split; [reflexivity|]. split; [reflexivity|]. apply (Step (at_call 0) 0%nat); [lia|reflexivity|reflexivity].
      - exists a'. split; [exact La'|]. split; [exact C'|]. split; [exact D'|]. apply (Step (at_call (S n)) a' La' C' D').
    Qed.
    Lemma come_is : forall n a, (a <= List.length sent)%nat -> mi_coming (at_call n) = skipn a sent -> come n = a.
    Proof. intros n a L C. unfold come. rewrite C, skipn_length. lia. Qed.
    Lemma in_order : channel come (List.length sent) /\ forall n, mi_desired (at_call n) = nth (come n) (p0 :: sent) [].
    Proof.
      split; [split; [unfold come; cbn; lia|]|]; intros n; destruct (received n) as (a & L & C & D & a' & La & La' & C' & D'); rewrite ?(come_is n a L C), ?(come_is (S n) a' La' C'); auto.
    Qed.
  End Channel.

  Section Handles.
    Variables (w : world) (rots : rotations) (b : list byte) (sym : string -> option (routine float)) (l : model_library float).
    Hypothesis From : comes_from w b sym l.
    Lemma mirrored_state : forall k0 d c m, replays (controller_of rots (mirrored law l)) k0 d c m -> c = Nat.iter (List.length (torque_calls d)) mirror_receive k0.
    Proof.
      intros k0 d c m H. induction H as [|e d cb m Q H IH|d cb m x dt cb' out m' H IH E C|torque d cb m x dt cb' q fin q' H IH T Ec Ef].
      - reflexivity.
      - rewrite IH. destruct e; try reflexivity; contradiction Q.
      - injection E as <- _. exact IH.
      - injection T as <-. cbv beta zeta in Ec. injection Ec as <- _ _. cbn [torque_calls flat_map app List.length Nat.iter]. rewrite IH. reflexivity.
    Qed.
    Lemma reflection : forall k x dt k' v fin, (fun (m : mirroring) x (_ : N) =>
      let u := user_state_of x in let m := mirror_receive m in
      Some (m, (map bits (law (coriolis_from_state l u) (zero_jacobian_from_state l u EndEffector)
                            (map of_bits (us_O_T_EE u)) (map of_bits (us_q u)) (map of_bits (us_dq u)) (map of_bits (mi_desired m))), false))) k x dt = Some (k', (v, fin)) ->
      k' = mirror_receive k /\ fin = false /\ exists z, v = map bits z /\ reflected sym (mi_desired (mirror_receive k)) x z.
    Proof using From.
      intros k x dt k' v fin Hc. cbv beta zeta in Hc. injection Hc as <- <- <-. split; [reflexivity|]. split; [reflexivity|]. eexists. split; [reflexivity|].
      destruct (C44_dynamics float sym l (proj2 (proj2 From))) as (mr & cr & gr & _ & Sc & _ & Dy).
      destruct (C44_frames float sym l (proj2 (proj2 From)) EndEffector (map of_bits (rs_q x)) (map of_bits (rs_F_T_EE x)) (map of_bits (rs_EE_T_K x)))
        as (pr & br & zr & t0 & _ & _ & Sz & Tl & _ & _ & Ez).
      exists cr, zr. split; [exact Sc|]. split; [exact Sz|]. cbv zeta. cbn [tool positions] in Tl, Ez. subst t0.
      destruct (Dy (map of_bits (rs_q x)) (map of_bits (rs_dq x)) (map of_bits (rs_I_load x)) (of_bits (us_m_total (user_state_of x))) (map of_bits (us_F_x_Ctotal (user_state_of x)))) as (_ & Co & _).
      cbn [app] in Ez.
      match goal with |- law ?a1 ?b1 _ _ _ _ = law ?a2 ?b2 _ _ _ _ => assert (A : a1 = a2) by exact Co; assert (B : b1 = b2) by exact Ez; rewrite A, B end. reflexivity.
    Qed.
  End Handles.

  Let fine (t : list event) : Prop := Forall (fun e => untouched e /\ proper e) t.
  Lemma fine_untouched : forall t, fine t -> Forall untouched t.
  Proof. intros t H. eapply Forall_impl; [|exact H]. intros e [A _]. exact A. Qed.
  Lemma fine_proper : forall t, fine t -> Forall proper t.
  Proof. intros t H. eapply Forall_impl; [|exact H]. intros e [_ A]. exact A. Qed.
  Lemma quiet_fine : forall s s', RobotWp.quiet s s' -> fine (trace s) -> fine (trace s').
  Proof.
    intros s s' (_ & _ & _ & _ & _ & _ & _ & _ & _ & t & Tt & Ft) F. rewrite Tt. apply Forall_app. split; [|exact F]. eapply Forall_impl; [|exact Ft]. exact neutral_fine.
  Qed.
  Lemma connected : forall port size rt us ts sends realtime priority r s, robot_new port (st_init size rt us ts sends realtime priority) = (r, s) ->
    r <> OutOfFuel /\ in_order_asked (trace s) = [ReqConnect port] /\ fine (trace s) /\ (forall u, r = Ok u -> I s).
  Proof.
    intros port size rt us ts sends realtime priority r s E. pose proof (init_fresh size rt us ts sends realtime priority) as Fr. set (s0 := st_init size rt us ts sends realtime priority) in *.
    destruct (connect_asked _ _ _ _ E) as [Q1 O1]. specialize (O1 Fr). change (requests (trace s0)) with (@nil robot_request) in Q1.
    destruct (connect_untouched port s0) as (d1 & T1 & F1). rewrite E in T1. cbn [snd] in T1. change (trace s0) with (@nil event) in T1. rewrite app_nil_r in T1. rewrite <- T1 in F1.
    split; [exact O1|]. split; [unfold in_order_asked; rewrite Q1; reflexivity|]. split; [exact F1|]. intros u ->. exact (connect_I _ _ _ _ Fr E).
  Qed.
  Let three := [impedance_collision; impedance_joints; impedance_cartesian].
  Lemma made_settings : forall s r s', settings three s = (r, s') -> fine (trace s) -> I s ->
    r <> OutOfFuel /\ fine (trace s') /\ I s' /\ exists sent rest, three = sent ++ rest /\ in_order_asked (trace s') = in_order_asked (trace s) ++ sent /\ (forall u, r = Ok u -> rest = []).
  Proof.
    intros s r s' E F HI. pose proof (settings_quiet three s) as Qs. rewrite E in Qs. cbn [snd] in Qs.
    pose proof E as E3. rewrite settings_setters in E3. destruct (setters_asked _ _ _ _ E3) as (O3 & sent & rest & S3 & Q3 & N3).
    split; [exact O3|]. split; [exact (quiet_fine _ _ Qs F)|]. split; [exact (quiet_I _ _ Qs HI)|]. exists sent, rest. split; [exact S3|].
    split; [|exact N3]. unfold in_order_asked. rewrite Q3, rev_app_distr, rev_involutive. reflexivity.
  Qed.
  Lemma read_state : forall s r s', read_once s = (r, s') -> fine (trace s) -> I s ->
    r <> OutOfFuel /\ fine (trace s') /\ in_order_asked (trace s') = in_order_asked (trace s) /\ forall x, r = Ok x -> I s' /\ exists older, trace s' = EvRead x :: older.
  Proof.
    intros s r s' E F HI. pose proof (wp_read_once s HI) as W. unfold wp in W.
    assert (G : grew (fun e => requests [e] = [] /\ untouched e /\ proper e) s (snd (read_once s))).
    { apply adds_read_once; intros; (split; [reflexivity|]); (split; [exact Logic.I|]); (exact Logic.I || assumption). }
    rewrite E in W, G. cbn [snd] in G. destruct G as (t & Tt & Ft). split; [intros ->; contradiction W|]. split; [|split].
    - rewrite Tt. apply Forall_app. split; [|exact F]. eapply Forall_impl; [|exact Ft]. intros e [_ H]. exact H.
    - unfold in_order_asked. f_equal. rewrite Tt, requests_app. clear - Ft. induction Ft as [|e t [H _] Ft IH]; [reflexivity|].
      unfold requests in *. cbn [flat_map app] in *. rewrite app_nil_r in H. rewrite H. exact IH.
    - intros x ->. destruct W as [I4 T4]. split; [exact I4|]. rewrite T4. eauto.
  Qed.
  Let home := ReqMove McJointImpedance MmJointPosition default_deviation default_deviation.
  Lemma gone_home : forall rots s r s', go_home rots s = (r, s') -> I s -> Forall proper (trace s) ->
    r <> OutOfFuel /\ exists h, trace s' = h ++ trace s /\ homewards h /\ Forall proper (trace s') /\ In (in_order_asked h) [[]; [home]; [home; ReqStopMove]] /\
    forall u, r = Ok u -> I s' /\ in_order_asked h = [home].
  Proof.
    intros rots s r s' E HI Pr. unfold go_home in E. assert (Sp : bits (f_lit float 1 10) = 0x3FB999999999999A) by (vm_compute; reflexivity). destruct goal_numbers as [Gn _]. rewrite Sp, Gn in E. clear Sp Gn.
    destruct (C58_samples _ _ _ _ _ _ E) as (h & T & _ & H).
    set (k := controller_of rots joint_motion) in *. set (g := joint_motion_start 0x3FB999999999999A start_position) in *. change (u_cb joint_motion) with (k_cb k) in g. clearbody g.
    pose proof (control_requests_I k g s HI) as C. pose proof (wp_control k g s HI) as W. unfold wp in W. destruct (control_proper k g s) as (d2 & T2 & P2). rewrite E in C, W, T2. cbn [snd] in T2.
    rewrite T in T2. apply app_inv_tail in T2. subst d2. change (ReqMove (wanted_ctrl k) (k_mode k) default_deviation default_deviation) with home in C.
    split; [intros ->; contradiction W|]. exists h. split; [exact T|]. split; [exact H|]. split; [rewrite T; apply Forall_app; auto|].
    assert (One : forall x, requests (trace s') = x ++ requests (trace s) -> requests h = x) by (intros x X; rewrite T, requests_app in X; apply app_inv_tail in X; exact X).
    unfold in_order_asked. destruct r as [u|e|p| |].
    - split; [rewrite (One [home] C); cbn; tauto|]. intros _ _. split; [apply W|]. rewrite (One [home] C). reflexivity.
    - split; [|discriminate]. destruct C as [C|[C|C]]; [rewrite (One [] C)|rewrite (One [home] C)|rewrite (One [ReqStopMove; home] C)]; cbn; tauto.
    - split; [|discriminate]. destruct C as [C|[C|C]]; [rewrite (One [] C)|rewrite (One [home] C)|rewrite (One [ReqStopMove; home] C)]; cbn; tauto.
    - split; [|discriminate]. destruct C as [C|[C|C]]; [rewrite (One [] C)|rewrite (One [home] C)|rewrite (One [ReqStopMove; home] C)]; cbn; tauto.
    - contradiction W.
  Qed.
  Theorem C79_mirror : forall w rots port timely d u0 m0 r d' u' m' sizeu rtu usu tsu sendsu ru pu sizem rtm usm tsm sendsm rm pm,
    u0 = st_init sizeu rtu usu tsu sendsu ru pu -> m0 = st_init sizem rtm usm tsm sendsm rm pm ->
    mirror_program w rots law port timely d u0 m0 = (r, d', u', m') -> mirror_spec w port d r d' (trace u') (trace m').
  Proof.
    intros w rots port timely d u0 m0 r d' u' m' sizeu rtu usu tsu sendsu ru pu sizem rtm usm tsm sendsm rm pm Hu Hm E.
    assert (Early : forall r0 dx ux mx restu restm, r0 <> NoFuel -> r0 <> Done tt -> d_target dx = d_target d -> fine (trace ux) -> fine (trace mx) ->
      asks_user port = in_order_asked (trace ux) ++ restu -> asks port d = in_order_asked (trace mx) ++ restm -> (r0, dx, ux, mx) = (r, d', u', m') -> mirror_spec w port d r d' (trace u') (trace m')).
    { intros r0 dx ux mx restu restm N1 N2 Tg Fu Fm Qu Qm X. injection X as <- <- <- <-. split; [exact N1|]. split; [apply N2|]. split; [exact Tg|]. left.
      split; [exists restu; exact Qu|]. split; [exists restm; exact Qm|]. split; apply fine_untouched; assumption. }
    assert (Au : asks_user port = [ReqConnect port] ++ three) by (vm_compute; reflexivity).
    assert (Am : asks port d = programs_start port d ++ three) by (unfold asks, programs_start, three; destruct (d_model d); vm_compute; reflexivity).
    assert (T0 : fine (trace m0) /\ in_order_asked (trace m0) = []) by (subst m0; split; [constructor|reflexivity]). destruct T0 as [F0 Q0].
    unfold mirror_program in E. fold three in E. cbv zeta in E.
    unfold duo_then at 1, on_user at 1 in E. destruct (robot_new port u0) as [r1 u1] eqn:E1. rewrite Hu in E1. destruct (connected _ _ _ _ _ _ _ _ _ _ E1) as (O1 & Q1 & F1 & I1). clear E1.
    destruct r1 as [x1|e|p| |]; cbn [of_outcome] in E; [|(revert E; eapply Early; [discriminate|discriminate|reflexivity|exact F1|exact F0|rewrite Q1; exact Au|rewrite Q0; reflexivity])|(revert E; eapply Early; [discriminate|discriminate|reflexivity|exact F1|exact F0|rewrite Q1; exact Au|rewrite Q0; reflexivity])|(revert E; eapply Early; [discriminate|discriminate|reflexivity|exact F1|exact F0|rewrite Q1; exact Au|rewrite Q0; reflexivity])|contradiction (O1 eq_refl)].
    specialize (I1 x1 eq_refl).
    unfold duo_then at 1, on_mirror at 1, call at 1 in E. destruct (robot_new port m0) as [r2 m2] eqn:E2. rewrite Hm in E2. destruct (connected _ _ _ _ _ _ _ _ _ _ E2) as (O2 & Q2 & F2 & I2). clear E2.
    destruct r2 as [x2|e|p| |]; cbn [of_outcome] in E; [|(revert E; eapply Early; [discriminate|discriminate|reflexivity|exact F1|exact F2|rewrite Q1; exact Au|rewrite Q2, Am; reflexivity])|(revert E; eapply Early; [discriminate|discriminate|reflexivity|exact F1|exact F2|rewrite Q1; exact Au|rewrite Q2, Am; reflexivity])|(revert E; eapply Early; [discriminate|discriminate|reflexivity|exact F1|exact F2|rewrite Q1; exact Au|rewrite Q2, Am; reflexivity])|contradiction (O2 eq_refl)].
    specialize (I2 x2 eq_refl).
    unfold duo_then at 1, on_mirror at 1 in E. destruct (load_call w true d m2) as [[r3 d3] m3] eqn:E3. destruct (load_steps _ _ _ _ _ _ _ E3) as [[Nf Tg Ud Rq Lo] Qt]. clear E3.
    pose proof (quiet_fine _ _ Qt F2) as F3. pose proof (quiet_I _ _ Qt I2) as I3.
    assert (Q3 : in_order_asked (trace m3) = programs_start port d).
    { unfold in_order_asked in *. rewrite Rq, rev_app_distr, Q2. unfold programs_start. destruct (d_model d); reflexivity. }
    destruct r3 as [l|e|e| | |]; [|(revert E; eapply Early; [discriminate|discriminate|exact Tg|exact F1|exact F3|rewrite Q1; exact Au|rewrite Q3; exact Am])|(revert E; eapply Early; [discriminate|discriminate|exact Tg|exact F1|exact F3|rewrite Q1; exact Au|rewrite Q3; exact Am])|(revert E; eapply Early; [discriminate|discriminate|exact Tg|exact F1|exact F3|rewrite Q1; exact Au|rewrite Q3; exact Am])|(revert E; eapply Early; [discriminate|discriminate|exact Tg|exact F1|exact F3|rewrite Q1; exact Au|rewrite Q3; exact Am])|contradiction (Nf eq_refl)].
    destruct (Lo l eq_refl) as (b & sym & Cf & Fb). clear Lo Nf.
    unfold duo_then at 1, on_mirror at 1, call at 1 in E. destruct (settings three m3) as [r4 m4] eqn:E4. destruct (made_settings _ _ _ E4 F3 I3) as (O4 & F4 & I4 & sent & rest & S4 & Q4 & N4). clear E4. rewrite Q3 in Q4.
    destruct r4 as [x4|e|p| |]; cbn [of_outcome] in E; [|(revert E; eapply Early; [discriminate|discriminate|exact Tg|exact F1|exact F4|rewrite Q1; exact Au|rewrite Q4, Am, S4, app_assoc; reflexivity])|(revert E; eapply Early; [discriminate|discriminate|exact Tg|exact F1|exact F4|rewrite Q1; exact Au|rewrite Q4, Am, S4, app_assoc; reflexivity])|(revert E; eapply Early; [discriminate|discriminate|exact Tg|exact F1|exact F4|rewrite Q1; exact Au|rewrite Q4, Am, S4, app_assoc; reflexivity])|contradiction (O4 eq_refl)].
    rewrite (N4 x4 eq_refl), app_nil_r in S4. rewrite <- S4 in Q4. rewrite <- Am in Q4. clear sent rest S4 N4 O4.
    unfold duo_then at 1, on_user at 1 in E. destruct (settings three u1) as [r5 u5] eqn:E5. destruct (made_settings _ _ _ E5 F1 I1) as (O5 & F5 & I5 & sent & rest & S5 & Q5 & N5). clear E5. rewrite Q1 in Q5.
    destruct r5 as [x5|e|p| |]; cbn [of_outcome] in E; [|(revert E; eapply Early; [discriminate|discriminate|exact Tg|exact F5|exact F4|rewrite Q5, Au, S5, app_assoc; reflexivity|rewrite Q4, app_nil_r; reflexivity])|(revert E; eapply Early; [discriminate|discriminate|exact Tg|exact F5|exact F4|rewrite Q5, Au, S5, app_assoc; reflexivity|rewrite Q4, app_nil_r; reflexivity])|(revert E; eapply Early; [discriminate|discriminate|exact Tg|exact F5|exact F4|rewrite Q5, Au, S5, app_assoc; reflexivity|rewrite Q4, app_nil_r; reflexivity])|contradiction (O5 eq_refl)].
    rewrite (N5 x5 eq_refl), app_nil_r in S5. rewrite <- S5 in Q5. rewrite <- Au in Q5. clear sent rest S5 N5 O5.
    unfold duo_then at 1, on_user at 1 in E. destruct (read_once u5) as [r6 u6] eqn:E6. destruct (read_state _ _ _ E6 F5 I5) as (O6 & F6 & Q6 & N6). clear E6. rewrite Q5 in Q6.
    destruct r6 as [x0|e|p| |]; cbn [of_outcome] in E; [|(revert E; eapply Early; [discriminate|discriminate|exact Tg|exact F6|exact F4|rewrite Q6, app_nil_r; reflexivity|rewrite Q4, app_nil_r; reflexivity])|(revert E; eapply Early; [discriminate|discriminate|exact Tg|exact F6|exact F4|rewrite Q6, app_nil_r; reflexivity|rewrite Q4, app_nil_r; reflexivity])|(revert E; eapply Early; [discriminate|discriminate|exact Tg|exact F6|exact F4|rewrite Q6, app_nil_r; reflexivity|rewrite Q4, app_nil_r; reflexivity])|contradiction (O6 eq_refl)].
    destruct (N6 x0 eq_refl) as [I6 Rd]. clear N6 O6 Early.
    unfold duo_then, both_home in E.
    destruct (go_home rots u6) as [r7 u7] eqn:E7. destruct (gone_home _ _ _ _ E7 I6 (fine_proper _ F6)) as (O7 & hu & T7 & H7 & P7 & L7 & N7). clear E7.
    destruct (go_home rots m4) as [r8 m8] eqn:E8. destruct (gone_home _ _ _ _ E8 I4 (fine_proper _ F4)) as (O8 & hm & T8 & H8 & P8 & L8 & N8). clear E8.
    assert (Bm : d_model d3 = Some b) by (destruct (d_model d); destruct Fb as [Fb1 Fb2]; congruence).
    assert (Bo : forall old, d_model d = Some old -> b = old) by (intros old H; rewrite H in Fb; apply Fb).
    assert (Hr : home_request home) by (exists default_deviation, default_deviation; reflexivity).
    assert (Homing : forall r0, r0 <> NoFuel -> r0 <> Done tt -> (r0, d3, u7, m8) = (r, d', u', m') -> mirror_spec w port d r d' (trace u') (trace m')).
    { intros r0 N1 N2 X. injection X as <- <- <- <-. split; [exact N1|]. split; [exact N2|]. split; [exact Tg|]. right.
      exists hu, (trace u6), hm, (trace m4), x0, home, b, sym, l. do 2 (split; [assumption|]). do 2 (split; [apply fine_untouched; assumption|]). do 7 (split; [assumption|]).
      left. auto. }
    destruct r8 as [x8|e|p| |]; [|(revert E; apply Homing; discriminate)|(revert E; apply Homing; discriminate)|(revert E; apply Homing; discriminate)|contradiction (O8 eq_refl)].
    destruct r7 as [x7|e|p| |]; [|(revert E; apply Homing; discriminate)|(revert E; apply Homing; discriminate)|(revert E; apply Homing; discriminate)|contradiction (O7 eq_refl)].
    destruct (N7 x7 eq_refl) as [I7 R7]. destruct (N8 x8 eq_refl) as [I8 R8]. clear N7 N8 L7 L8 O7 O8 Homing.
    unfold mirror_motion in E.
    destruct (control (controller_of rots guided) tt u7) as [r9 u9] eqn:E9.
    pose (fu := fun (_ : unit) (_ : robot_state_intern) (_ : N) => Some (tt, (repeat 0 7, false))).
    assert (Nu : forall k x dt k' v fin, fu k x dt = Some (k', (v, fin)) -> fin = false) by (intros k x dt k' v fin X; injection X as _ _ <-; reflexivity).
    change (controller_of rots guided) with (controller_of rots (control_torques unit fu None None)) in E9.
    destruct (torque_control rots unit fu tt Nu u7 r9 u9 I7 P7 E9) as (mu & Tu & _ & _ & Lu & _ & Cu). clear E9.
    assert (Es : torques_called (trace u7) (trace u9) = rev (torque_calls mu)) by (rewrite Tu; apply called_since). rewrite Es in E.
    set (sent := map (fun p => rs_O_T_EE (fst p)) (rev (torque_calls mu))) in E. change (us_O_T_EE (user_state_of x0)) with (rs_O_T_EE x0) in E.
    set (k0 := Mirroring (rs_O_T_EE x0) sent timely) in E.
    destruct (control (controller_of rots (mirrored law l)) k0 m8) as [r10 m10] eqn:E10.
    pose (fm := fun (m : mirroring) x (_ : N) =>
      let u := user_state_of x in let m := mirror_receive m in
      Some (m, (map bits (law (coriolis_from_state l u) (zero_jacobian_from_state l u EndEffector)
                            (map of_bits (us_O_T_EE u)) (map of_bits (us_q u)) (map of_bits (us_dq u)) (map of_bits (mi_desired m))), false))).
    assert (Nm : forall k x dt k' v fin, fm k x dt = Some (k', (v, fin)) -> fin = false) by (intros k x dt k' v fin X; exact (proj1 (proj2 (reflection w b sym l Cf k x dt k' v fin X)))).
    change (controller_of rots (mirrored law l)) with (controller_of rots (control_torques mirroring fm None None)) in E10.
    destruct (torque_control rots mirroring fm k0 Nm m8 r10 m10 I8 P8 E10) as (mm & Tm & O10 & N10 & Lm & _ & Cm). clear E10.
    injection E as <- <- <- <-.
    unfold mirror_spec. split; [exact (fun H => O10 (no_fuel _ _ H))|]. split; [exact (fun H => N10 _ (ended _ _ _ H))|]. split; [exact Tg|]. right.
    exists hu, (trace u6), hm, (trace m4), x0, home, b, sym, l. do 2 (split; [assumption|]). do 2 (split; [apply fine_untouched; assumption|]). do 7 (split; [assumption|]).
    right. exists mu, mm, (ReqMove McExternalController MmJointVelocity default_deviation default_deviation), (come (rs_O_T_EE x0) sent timely).
    split; [rewrite Tu, T7; reflexivity|]. split; [rewrite Tm, T8; reflexivity|]. split; [exact R7|]. split; [exact R8|]. split; [exists default_deviation, default_deviation; reflexivity|].
    split; [exact Lu|]. split; [exact Lm|]. destruct (in_order (rs_O_T_EE x0) sent timely) as [Ch De]. split; [|split; [exact Ch|]].
    - intros m1 a c m2' Ed. destruct (Cu m1 a c m2' Ed) as (x & dt & v & c1 & c2 & mc & m3' & older & Em & _ & Ev & Ss & So & Id & Nf & Fi).
      injection Ev as _ Ev. subst v. exists x. rewrite T7 in Ss. eapply limited_command; eassumption.
    - intros m1 a c m2' Ed. destruct (Cm m1 a c m2' Ed) as (x & dt & v & c1 & c2 & mc & m3' & older & Em & Re & Ev & Ss & So & Id & Nf & Fi).
      destruct (reflection w b sym l Cf c1 x dt c2 v false Ev) as (_ & _ & z & -> & Rz). exists x, z. rewrite T8 in Ss. split; [eapply limited_command; eassumption|].
      pose proof (mirrored_state rots l _ _ _ _ Re) as Ec1. rewrite Em. cbn [torque_calls flat_map app List.length]. fold (torque_calls m3'). rewrite <- De.
      cbn [Nat.iter]. rewrite Ec1 in Rz. exact Rz.
  Qed.
End Law.
Print Assumptions C79_mirror.

(** * Examples *)
Definition ex_pull (a b c e f pose : list (F float)) : list (F float) := map (fun x => f_mul float (f_lit float 1 2) x) (firstn 7 pose).
Definition ex_way (b : N) : list robot_state_intern :=
  [ex_moving MgJointPosition b; ex_moving MgJointPosition (b + 1); ex_moving MgJointPosition (b + 100000); ex_idle (b + 100001)].
Definition ex_torques (b : N) : list robot_state_intern := [ex_idle b; ex_joint_velocity (b + 1); ex_joint_velocity (b + 2); ex_joint_velocity (b + 3); ex_joint_velocity (b + 5)].
(** A robot guided by the user: the pose changes with each state. *)
Definition ex_posed (id p : N) : robot_state_intern :=
  let z n := repeat 0 n in
  RobotStateIntern id (p :: z 15%nat) (z 16%nat) (z 16%nat) (z 16%nat) (z 16%nat) (z 16%nat) 0 (z 9%nat) (z 3%nat) 0
    (z 9%nat) (z 3%nat) (z 2%nat) (z 2%nat) (z 7%nat) (z 7%nat) (z 7%nat) (z 7%nat) (z 7%nat) (z 7%nat) (z 7%nat)
    (z 7%nat) (z 7%nat) (z 6%nat) (z 7%nat) (z 6%nat) (z 7%nat) (z 6%nat) (z 6%nat) (z 6%nat) (z 3%nat) (z 2%nat)
    (z 2%nat) (z 2%nat) (z 16%nat) (z 6%nat) (z 6%nat) (z 7%nat) (z 7%nat) MgJointVelocity CmExternalController
    (repeat false 32) (repeat false 9) (repeat false 32) (repeat false 9) RmMove 0x3FF0000000000000.
Definition ex_settings (id : N) : list (option (N * list byte)) :=
  [ex_set RcSetCollisionBehavior id GsSuccess; ex_set RcSetJointImpedance (id + 1) GsSuccess; ex_set RcSetCartesianImpedance (id + 2) GsSuccess].
Definition ex_guided : st :=
  st_init 10 RtIgnore (ex_reading ++ ex_states (ex_way 3 ++ [ex_idle 200000; ex_posed 200001 0x3FE0000000000000; ex_posed 200002 0x3FE0000000000000; ex_posed 200003 0x3FD0000000000000; ex_posed 200004 0x3FC0000000000000]))
    ([ex_connected 0] ++ ex_settings 1 ++ [ex_move 4 MsMotionStarted; None; ex_move 4 MsSuccess; ex_move 5 MsMotionStarted]) [] true true.
Definition ex_mirroring : st :=
  st_init 10 RtIgnore (ex_first (ex_idle 1) ++ ex_states (ex_way 3 ++ ex_torques 200000 ++ [ex_reflex 200006; ex_idle 200007]))
    ([ex_connected 0] ++ ex_settings 1 ++ [ex_move 4 MsMotionStarted; None; ex_move 4 MsSuccess; ex_move 5 MsMotionStarted; None; None; ex_move 5 MsReflexAborted; ex_stop 6 SsSuccess]) [] true true.
Definition asked_kind (q : robot_request) : N := match q with ReqConnect _ => 1 | ReqLoadModelLibrary => 2 | ReqSetCollisionBehavior _ _ _ _ _ _ _ _ => 3 | ReqSetJointImpedance _ => 4
  | ReqSetCartesianImpedance _ => 5 | ReqMove McJointImpedance MmJointPosition _ _ => 6 | ReqMove McExternalController MmJointVelocity _ _ => 7 | ReqStopMove => 8 | _ => 0 end.
(** The mirroring robot stops with a reflex and the program ends with the error.  No pose is there in time for the first torques, which are for
    the pose of the start; the first two poses of the user's robot follow. *)
Example C79_ex_reflex :
  let '(r, d, u, s) := mirror_program (ex_world false) ex_rots ex_pull 1337 [false; true; true] (Disk (Some ex_library) None) ex_guided ex_mirroring in
  kind r = 1 /\ d = Disk (Some ex_library) None /\
  map asked_kind (in_order_asked (trace u)) = [1; 3; 4; 5; 6; 7; 8] /\ map asked_kind (in_order_asked (trace s)) = [1; 3; 4; 5; 6; 7; 8] /\
  map (fun p => hd 0 (rs_O_T_EE (fst p))) (rev (torque_calls (trace u))) = [0x3FE0000000000000; 0x3FD0000000000000; 0x3FC0000000000000] /\
  map (fun c => hd 0 (rc_tau c)) (rev (commands (trace s))) = [0; 0; 0; 4591615628421179463; 4587112028793808967].
Proof. vm_compute. auto 10. Qed.
(** A refused setting of the mirroring robot ends the program before any setting of the other one; a user's robot already in motion ends it
    with a panic, though the mirroring robot has moved. *)
Example C79_ex_refused :
  (let '(r, d, u, s) := mirror_program (ex_world false) ex_rots ex_pull 1337 [] (Disk (Some ex_library) None) ex_guided
     (st_init 10 RtIgnore (ex_first (ex_idle 1)) [ex_connected 0; ex_set RcSetCollisionBehavior 1 GsSuccess; ex_set RcSetJointImpedance 2 GsInvalidArgumentRejected] [] true true) in
   kind r = 1 /\ in_order_asked (trace u) = [ReqConnect 1337] /\ map asked_kind (in_order_asked (trace s)) = [1; 3; 4] /\ commands (trace s) = []) /\
  (let '(r, d, u, s) := mirror_program (ex_world false) ex_rots ex_pull 1337 [] (Disk (Some ex_library) None)
     (st_init 10 RtIgnore (ex_first (ex_idle 1) ++ ex_once (ex_moving MgJointPosition 2)) ([ex_connected 0] ++ ex_settings 1) [] true true) ex_mirroring in
   kind r = 3 /\ map asked_kind (in_order_asked (trace u)) = [1; 3; 4; 5] /\ map asked_kind (in_order_asked (trace s)) = [1; 3; 4; 5; 6] /\
   List.length (commands (trace s)) = 2%nat).
Proof. split; vm_compute; auto 10. Qed.
