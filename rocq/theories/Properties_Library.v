(** C75: loading the model over a connection; the programs download_model and print_joint_poses. *)
From Coq Require Import List NArith ZArith Bool Arith Lia String.
From Coq Require Import Init.Byte.
From Coq Require Strings.Byte.
From Flocq Require Import Core IEEE754.BinarySingleNaN IEEE754.Binary IEEE754.Bits.
From Verif Require Import Bytes Codec NumOps NumFloat WireModel WireSpec WireProofs TcpModel TcpSpec TcpProofs TcpMore UdpModel UdpSpec UdpProofs
  StateModel ModelApi RobotModel LoopModel RobotSpec RobotProofs RobotWp LoopProofs Effects RobotMore RobotCalls LiveUdp LiveSpec LiveProofs
  RobotScenario LibraryModel Properties_Wire Properties_Response Properties_Fresh Properties_Live Properties_Model Properties_Programs.
Import ListNotations.
Open Scope list_scope.
Open Scope N_scope.

(** A response with this content: twelve bytes of header, a zero for success, the library. *)
Definition carries (m p : list byte) : Prop := exists h, List.length h = 12%nat /\ m = h ++ x00 :: p.
Lemma response_carries : forall m p, load_library_response m = LOk p -> carries m p.
Proof.
  intros m p H. unfold load_library_response in H. destruct (blen m <? 13) eqn:L; [discriminate|].
  destruct (deserialize c_lm_response (firstn 13 m)) as [[[c [i z]] st]|] eqn:D; [|discriminate].
  destruct st; [|discriminate]. destruct (z =? 13); [discriminate|]. injection H as <-.
  apply N.ltb_ge in L. unfold blen in L. assert (L' : (13 <= List.length m)%nat) by lia.
  apply C64_library_response in D. destruct D as [_ [_ [D _]]]. cbn [snd status_layout robot_header_layout fst app] in D.
  assert (X : nth 12 m x00 = x00).
  { do 3 (apply Forall_inv_tail in D). apply Forall_inv in D. clear - D L'. do 13 (destruct m as [|? m]; [cbn in L'; lia|]).
    cbn in D |- *. congruence. }
  exists (firstn 12 m). split; [apply firstn_length_le; lia|].
  rewrite <- (firstn_skipn 12 m) at 1. f_equal. clear - L' X.
  do 13 (destruct m as [|? m]; [cbn in L'; lia|]). cbn in X |- *. congruence.
Qed.

(** The library [l] comes from these bytes: the linker accepts them and knows all routines. *)
Definition comes_from (w : world) (b : list byte) (sym : string -> option (routine float)) (l : model_library float) : Prop :=
  w_linker w b = Some sym /\ (forall n, In n all_routines -> sym n <> None) /\ library_new float true (Some sym) = Some l.
Lemma opened_from : forall w b l, library_new float (w_libm w) (w_linker w b) = Some l -> exists sym, comes_from w b sym l.
Proof.
  intros w b l E. destruct (proj1 (C44_loading float (w_libm w) (w_linker w b))) as (A & sym & B & C); [eauto|].
  exists sym. rewrite A, B in E. split; [exact B|]. split; [exact C|exact E].
Qed.

Lemma request_steps : forall s r s', library_request s = (r, s') -> r <> NoFuel /\ RobotWp.quiet s s' /\
  exists d, trace s' = d ++ EvRequest (n_id s) ReqLoadModelLibrary :: trace s /\ requests d = [] /\
    (forall p, r = Done p -> exists m, carries m p /\ d = [EvReply (n_id s) m]).
Proof.
  intros s r s' E. unfold library_request, bind, send_request, wait_response in E. cbn [n_tsched n_table set_id add_event] in E.
  set (s1 := set_id (add_event s (EvRequest (n_id s) ReqLoadModelLibrary)) ((n_id s + 1) mod 2 ^ 32)) in *.
  assert (Q1 : RobotWp.quiet s s1) by apply quiet_request.
  destruct (wait_loop (n_id s) (n_tsched s) (n_table s)) as [[[m|] tb] ts].
  - assert (Q2 : RobotWp.quiet s1 (add_event (set_tcp s1 tb ts) (EvReply (n_id s) m))).
    { repeat (split; [reflexivity|]). exists [EvReply (n_id s) m]. split; [reflexivity|]. repeat constructor. }
    assert (T : forall r0, r0 <> NoFuel -> (forall p, r0 = Done p -> carries m p) -> (r0, add_event (set_tcp s1 tb ts) (EvReply (n_id s) m)) = (r, s') ->
      r <> NoFuel /\ RobotWp.quiet s s' /\ exists d, trace s' = d ++ EvRequest (n_id s) ReqLoadModelLibrary :: trace s /\ requests d = [] /\
        (forall p, r = Done p -> exists m, carries m p /\ d = [EvReply (n_id s) m])).
    { intros r0 N C X. injection X as <- <-. split; [exact N|]. split; [exact (RobotWp.quiet_trans _ _ _ Q1 Q2)|].
      exists [EvReply (n_id s) m]. split; [reflexivity|]. split; [reflexivity|]. intros p P. exists m. auto. }
    destruct (load_library_response m) as [p| |] eqn:R; revert E; apply T; try discriminate.
    intros p0 P. injection P as <-. apply response_carries, R.
  - injection E as <- <-. split; [discriminate|]. split.
    + eapply RobotWp.quiet_trans; [exact Q1|]. repeat (split; [reflexivity|]). exists []. auto.
    + exists []. split; [reflexivity|]. split; [reflexivity|discriminate].
Qed.

(** * load_model *)
(** What [load_model] does: a file that is there is used and nothing is asked; otherwise one request is sent, and what is
    loaded is what was written of the library in the answer to it.  Without [persistent] the file is gone afterwards if it was
    there before, and only then. *)
Record load_spec (w : world) (persistent : bool) (d : disk) (s : st) (r : result (model_library float)) (d' : disk) (s' : st) : Prop := {
  lsp_fuel : r <> NoFuel;
  lsp_target : d_target d' = d_target d;
  lsp_udp : n_udp s' = n_udp s /\ n_usched s' = n_usched s;
  lsp_asked : requests (trace s') = match d_model d with Some _ => [] | None => [ReqLoadModelLibrary] end ++ requests (trace s);
  lsp_loaded : forall l, r = Done l -> exists b sym, comes_from w b sym l /\
    match d_model d with
    | Some old => b = old /\ d_model d' = if persistent then Some old else None
    | None => d_model d' = Some b /\
        exists m p n, In (EvReply (n_id s) m) (trace s') /\ carries m p /\ w_written w = Some n /\ b = firstn n p
    end
}.
Lemma load_steps : forall w persistent d s r d' s', load_call w persistent d s = (r, d', s') -> load_spec w persistent d s r d' s' /\ RobotWp.quiet s s'.
Proof.
  intros w persistent d s r d' s' E. unfold load_call in E. destruct (d_model d) as [old|] eqn:D.
  - destruct (open_library w persistent true d) as [r0 d0] eqn:O. injection E as <- <- <-. split; [|apply RobotWp.quiet_refl].
    unfold open_library in O. rewrite D in O. destruct (library_new float (w_libm w) (w_linker w old)) as [l|] eqn:L.
    + rewrite andb_true_r in O. destruct (opened_from _ _ _ L) as [sym C]. destruct persistent; cbn [negb] in O.
      * injection O as <- <-. constructor; auto; [discriminate|rewrite D; reflexivity|]. intros l0 X. injection X as <-. exists old, sym. rewrite D. auto.
      * destruct (w_remove w); injection O as <- <-; (constructor; auto; [discriminate|rewrite D; reflexivity|]).
        -- intros l0 X. injection X as <-. exists old, sym. rewrite D. auto.
        -- discriminate.
    + injection O as <- <-. constructor; auto; try discriminate. rewrite D. reflexivity.
  - destruct (library_request s) as [q s1] eqn:R. destruct (request_steps _ _ _ R) as (N & Q & t & T & A & C).
    assert (A1 : requests (trace s1) = [ReqLoadModelLibrary] ++ requests (trace s)).
    { rewrite T. unfold requests. rewrite flat_map_app. fold (requests t). rewrite A. reflexivity. }
    assert (U : n_udp s1 = n_udp s /\ n_usched s1 = n_usched s) by (destruct Q as (Q1 & Q2 & _); auto).
    destruct q as [p|e|e| | |]; try (injection E as <- <- <-; split; [|exact Q]; constructor; auto; try discriminate; rewrite D; exact A1).
    destruct (C p eq_refl) as (m & Cm & ->). unfold store_library in E. destruct (w_create w); [destruct (w_written w) as [n|] eqn:W|].
    + unfold open_library in E. cbn [d_model] in E. rewrite andb_false_r in E.
      destruct (library_new float (w_libm w) (w_linker w (firstn n p))) as [l|] eqn:L; injection E as <- <- <-; (split; [|exact Q]);
        (constructor; auto; try discriminate; try (rewrite D; exact A1)).
      intros l0 X. injection X as <-. destruct (opened_from _ _ _ L) as [sym Cs]. exists (firstn n p), sym. split; [exact Cs|]. rewrite D. split; [reflexivity|].
      exists m, p, n. split; [rewrite T; left; reflexivity|]. auto.
    + injection E as <- <- <-. split; [|exact Q]. constructor; auto; try discriminate. rewrite D. exact A1.
    + injection E as <- <- <-. split; [|exact Q]. constructor; auto; try discriminate. rewrite D. exact A1.
Qed.
Theorem C75_load : forall w persistent d s r d' s', load_call w persistent d s = (r, d', s') -> load_spec w persistent d s r d' s'.
Proof. intros w persistent d s r d' s' E. apply (load_steps _ _ _ _ _ _ _ E). Qed.
Print Assumptions C75_load.

(** The life cycle of the file as in C46: that model's result for what the robot sent. *)
Definition sent_library (s : st) : option (list byte) := match fst (library_request s) with Done p => Some p | _ => None end.
Theorem C75_refines : forall w persistent d s r d' s', load_call w persistent d s = (r, d', s') ->
  (forall e, r <> Failed e) -> r <> Waiting -> (r = Panicked -> d_model d <> None) ->
  load_model (fun b => if library_new float (w_libm w) (w_linker w b) then true else false) persistent
    (Env (sent_library s) (w_create w) (w_written w) (w_remove w)) (d_model d) =
  (d_model d', match r with Done _ => Loaded | Panicked => LoadPanic | _ => LoadError end).
Proof.
  intros w persistent d s r d' s' E NF NW NP. unfold load_call in E. unfold load_model. destruct (d_model d) as [old|] eqn:D.
  - unfold open_library in E. rewrite D in E. cbn [fst snd e_remove].
    destruct (library_new float (w_libm w) (w_linker w old)); [destruct (negb persistent && true), (w_remove w)|]; injection E as <- <- <-; rewrite ?D; reflexivity.
  - unfold download, sent_library. cbn [e_sent e_create e_written e_remove fst snd]. destruct (library_request s) as [q s1] eqn:R. cbn [fst].
    destruct q as [p|e|e| | |]; try (injection E as <- <- <-; cbn [fst snd]; rewrite ?D; try reflexivity; exfalso; eauto; fail).
    + unfold store_library, open_library in E. destruct (w_create w); [destruct (w_written w) as [n|]|]; cbn [fst snd d_model] in *; rewrite ?D in *.
      * rewrite andb_false_r in *. destruct (library_new float (w_libm w) (w_linker w (firstn n p))); injection E as <- <- <-; reflexivity.
      * injection E as <- <- <-. reflexivity.
      * injection E as <- <- <-. reflexivity.
    + injection E as <- <- <-. exfalso. apply NP; reflexivity.
Qed.
Print Assumptions C75_refines.

(** * The programs *)
Definition programs_start (port : N) (d : disk) : list robot_request := ReqConnect port :: match d_model d with Some _ => [] | None => [ReqLoadModelLibrary] end.
Lemma connect_I : forall port s u s', fresh_handle s -> robot_new port s = (Ok u, s') -> I s'.
Proof. intros port s u s' F E. pose proof (wp_robot_new port s F) as W. unfold wp in W. rewrite E in W. exact W. Qed.
Lemma requests_one : forall t, in_order_asked t = rev (requests t). Proof. reflexivity. Qed.

(** download_model: what it asks is the start of this list.  If it succeeds, the target holds a library which the linker
    accepts: the file which was there before, or what was written of the one in the robot's answer. *)
Record download_spec (w : world) (port : N) (d : disk) (r : result unit) (d' : disk) (t : list event) : Prop := {
  dsp_fuel : r <> NoFuel;
  dsp_asked : in_order_asked t = [ReqConnect port] \/ in_order_asked t = programs_start port d;
  dsp_done : r = Done tt -> in_order_asked t = programs_start port d /\
    exists b sym l, comes_from w b sym l /\ d_target d' = Some b /\ d_model d' = Some b /\
    match d_model d with
    | Some old => b = old
    | None => exists id m p n, In (EvReply id m) t /\ carries m p /\ w_written w = Some n /\ b = firstn n p
    end
}.
Theorem C75_download : forall w port d size rt us ts sends realtime priority r d' s', w_same w = false ->
  download_model w port d (st_init size rt us ts sends realtime priority) = (r, d', s') -> download_spec w port d r d' (trace s').
Proof.
  intros w port d size rt us ts sends realtime priority r d' s' Ns E. unfold download_model in E.
  set (s0 := st_init size rt us ts sends realtime priority) in *. destruct (robot_new port s0) as [o s1] eqn:C.
  destruct (connect_asked _ _ _ _ C) as [A NF]. specialize (NF (init_fresh _ _ _ _ _ _ _)). change (requests (trace s0)) with (@nil robot_request) in A.
  assert (Bad : forall r0, r0 <> NoFuel -> r0 <> Done tt -> (r0, d, s1) = (r, d', s') -> download_spec w port d r d' (trace s')).
  { intros r0 N1 N2 X. injection X as <- <- <-. constructor; [exact N1|left; rewrite requests_one, A; reflexivity|contradiction]. }
  destruct o as [u|e|p| |]; try (revert E; apply Bad; discriminate); [|contradiction NF; reflexivity].
  destruct (load_call w true d s1) as [[q d1] s2] eqn:L. destruct (C75_load _ _ _ _ _ _ _ L) as [F T _ Q Lo]. rewrite A in Q.
  assert (Q' : in_order_asked (trace s2) = programs_start port d).
  { rewrite requests_one, Q. unfold programs_start. destruct (d_model d); reflexivity. }
  destruct q as [l|e|e| | |]; try (injection E as <- <- <-; constructor; [discriminate|right; exact Q'|discriminate]); [|contradiction F; reflexivity].
  destruct (Lo l eq_refl) as (b & sym & Cf & M). unfold copy_file in E. rewrite Ns in E.
  assert (Mb : d_model d1 = Some b) by (destruct (d_model d); destruct M as [M1 M2]; congruence). rewrite Mb in E.
  destruct (w_copy w); injection E as <- <- <-; (constructor; [discriminate|right; exact Q'|]); [|discriminate].
  intros _. split; [exact Q'|]. exists b, sym, l. split; [exact Cf|]. cbn [d_target d_model]. split; [reflexivity|]. split; [reflexivity|].
  destruct (d_model d) as [old|]; [apply M|]. destruct M as (_ & m & p & n & M). exists (n_id s1), m, p, n. exact M.
Qed.
Print Assumptions C75_download.

(** If the directory given is /tmp, success is reported and /tmp/model.so is empty. *)
Theorem C75_same_directory : forall w port d s d' s', w_same w = true -> download_model w port d s = (Done tt, d', s') ->
  d_model d' = Some [] /\ d_target d' = Some [].
Proof.
  intros w port d s d' s' Sm E. unfold download_model in E. destruct (robot_new port s) as [[u|e|p| |] s1]; try discriminate.
  destruct (load_call w true d s1) as [[[l|e|e| | |] d1] s2]; try discriminate. unfold copy_file in E. rewrite Sm in E.
  destruct (d_model d1) as [b|]; [|discriminate]. destruct (w_copy w); [|discriminate]. injection E as <- <-. auto.
Qed.
Print Assumptions C75_same_directory.
(** A linker refuses an empty file, so every later call of [load_model] fails, without asking the robot. *)
Theorem C75_spoilt : forall w persistent d s, d_model d = Some [] -> w_linker w [] = None ->
  load_call w persistent d s = (NoModel CannotOpen, d, s).
Proof.
  intros w persistent d s D L. unfold load_call, open_library. rewrite D, L. unfold library_new. destruct (w_libm w); reflexivity.
Qed.
Print Assumptions C75_spoilt.

(** print_joint_poses: the poses of nine frames, from the routines of the library by name and the state read last. *)
Definition nine : list frame := [Joint1; Joint2; Joint3; Joint4; Joint5; Joint6; Joint7; Flange; EndEffector].
Definition pose_of (sym : string -> option (routine float)) (x : robot_state_intern) (fr : frame) (v : list (F float)) : Prop :=
  exists r, sym (routine_of "O_T_J" fr) = Some r /\
    v = r (map of_bits (rs_q x) :: match fr with EndEffector => [map of_bits (rs_F_T_EE x)] | _ => [] end).
Record print_spec (w : world) (port : N) (d : disk) (us : sched) (r : result (list (frame * list (F float)))) (d' : disk) (s' : st) : Prop := {
  psp_fuel : r <> NoFuel;
  psp_target : d_target d' = d_target d;
  psp_asked : in_order_asked (trace s') = [ReqConnect port] \/ in_order_asked (trace s') = programs_start port d;
  psp_done : forall ps, r = Done ps -> in_order_asked (trace s') = programs_start port d /\
    (d_model d' = None <-> d_model d <> None) /\
    exists b sym l x, comes_from w b sym l /\ (forall old, d_model d = Some old -> b = old) /\
      map fst ps = nine /\ Forall (fun p => pose_of sym x (fst p) (snd p)) ps /\
      (exists before, trace s' = EvRead x :: EvState x :: before) /\
      exists before during pre fresh post, us = before ++ during ++ n_usched s' /\ arrived during = pre ++ fresh ++ post /\ fresh <> [] /\
        deserialize c_robot_state_intern (mixture 2373 fresh) = Some x
}.
Lemma poses_right : forall w b sym l x, comes_from w b sym l ->
  Forall (fun p => pose_of sym x (fst p) (snd p)) (map (fun fr => (fr, pose_from_state l (user_state_of x) fr)) printed_frames).
Proof.
  intros w b sym l x Cf.
  apply Forall_forall. intros [fr v] Hin.
  apply in_map_iff in Hin. destruct Hin as (f & Ev & Hin). injection Ev as -> <-. cbn [fst snd].
  destruct (C44_frames float sym l (proj2 (proj2 Cf)) fr (map of_bits (rs_q x)) (map of_bits (rs_F_T_EE x)) (map of_bits (rs_EE_T_K x)))
    as (pr & br & zr & t0 & Sp & _ & _ & Tl & Ep & _).
  exists pr. split; [exact Sp|]. change (pose_from_state l (user_state_of x) fr) with
    (pose float l fr (map of_bits (rs_q x)) (map of_bits (rs_F_T_EE x)) (map of_bits (rs_EE_T_K x))).
  rewrite Ep. f_equal. f_equal. destruct fr; cbn [tool] in Tl; try exact Tl. 
  exfalso. unfold printed_frames in Hin. cbn in Hin. intuition discriminate.
Qed.
Lemma read_fresh : forall s x s', good s -> read_once s = (Ok x, s') ->
  exists used pre fresh post, n_usched s = used ++ n_usched s' /\ arrived used = pre ++ fresh ++ post /\ fresh <> [] /\
    deserialize c_robot_state_intern (mixture 2373 fresh) = Some x.
Proof.
  intros s x s' G E. unfold read_once in E. unfold bind at 1, get at 1 in E. unfold bind at 1 in E.
  destruct (flush_states (bound s) s) as [[u|e|p| |] s1] eqn:Ef; try discriminate E.
  destruct (flush_chunk _ _ _ _ G Ef) as (G1 & S1 & St). unfold bind at 1 in E.
  destruct (receive_robot_state s1) as [[y|e|p| |] s2] eqn:Er; try discriminate E.
  assert (Q := stuck_fails _ _ _ G1 St Er). destruct (receive_chunk _ _ _ G1 Er) as (us2 & pre & mid & post & E2 & Q2 & N & D).
  rewrite Q in Q2. cbn [app] in Q2. destruct S1 as (us1 & p1 & E1 & _).
  assert (n_usched s2 = n_usched s' /\ y = x) as [Eu ->] by (cbn in E; injection E as <- <-; split; reflexivity).
  exists (us1 ++ us2), (arrived us1 ++ pre), mid, post. rewrite <- Eu, E1, E2, app_assoc. split; [reflexivity|].
  rewrite arrived_app, Q2, !app_assoc. split; [reflexivity|]. split; [exact N|].
  destruct decode_meaning as [E3 E4]. rewrite E3, E4 in D. exact D.
Qed.
Lemma connect_uses : forall port s r s', good s -> robot_new port s = (r, s') -> exists used, n_usched s = used ++ n_usched s'.
Proof.
  intros port s r s' G. unfold robot_new. unfold bind at 1. unfold connect_robot. unfold bind at 1, send_request at 1. unfold bind at 1, blocking_response at 1.
  unfold bind at 1, wait_response at 1. cbn [n_id n_tsched n_table set_id add_event].
  destruct (wait_loop (n_id s) (n_tsched s) (n_table s)) as [[[m|] tb] ts]; [|intros E; injection E as <- <-; exists []; reflexivity].
  unfold unwrap. destruct (deserialize c_connect_response m) as [[h [st v]]|] eqn:D; [|intros E; injection E as <- <-; exists []; reflexivity].
  destruct st; cbn [ret fst snd modify throw]; [|intros E; injection E as <- <-; exists []; reflexivity].
  unfold udp_block. cbn [n_udp n_usched set_tcp set_version set_id add_event].
  destruct (udp_blocking_receive state_size state_decode (n_udp s) (n_usched s)) as [[q u1] sc] eqn:Eb.
  destruct (block_spec _ _ _ _ _ _ _ G Eb) as (used & U & _).
  intros E. exists used. rewrite U. destruct q as [x| | |n|]; injection E as <- <-; reflexivity.
Qed.
Theorem C75_print : forall w port d size rt us ts sends realtime priority r d' s',
  print_joint_poses w port d (st_init size rt us ts sends realtime priority) = (r, d', s') -> print_spec w port d us r d' s'.
Proof.
  intros w port d size rt us ts sends realtime priority r d' s' E. unfold print_joint_poses in E.
  set (s0 := st_init size rt us ts sends realtime priority) in *. destruct (robot_new port s0) as [o s1] eqn:C.
  pose proof (init_fresh size rt us ts sends realtime priority) as Fr. fold s0 in Fr.
  destruct (connect_asked _ _ _ _ C) as [A NF]. specialize (NF Fr). change (requests (trace s0)) with (@nil robot_request) in A.
  destruct (connect_uses _ _ _ _ (proj1 Fr) C) as [used0 U0]. change (n_usched s0) with us in U0.
  assert (Bad : forall r0, r0 <> NoFuel -> (forall ps, r0 <> Done ps) -> (r0, d, s1) = (r, d', s') -> print_spec w port d us r d' s').
  { intros r0 N1 N2 X. injection X as <- <- <-. constructor; [exact N1|reflexivity|left; rewrite requests_one, A; reflexivity|]. intros ps X. contradiction (N2 ps X). }
  destruct o as [u|e|p| |]; try (revert E; apply Bad; discriminate); [|contradiction NF; reflexivity].
  destruct (load_call w false d s1) as [[q d1] s2] eqn:L. destruct (load_steps _ _ _ _ _ _ _ L) as [[F T U Q Lo] Qs]. rewrite A in Q.
  assert (Q' : in_order_asked (trace s2) = programs_start port d).
  { rewrite requests_one, Q. unfold programs_start. destruct (d_model d); reflexivity. }
  destruct q as [l|e|e| | |]; try (injection E as <- <- <-; constructor; [discriminate|exact T|right; exact Q'|discriminate]); [|contradiction F; reflexivity].
  pose proof (quiet_I _ _ Qs (connect_I _ _ _ _ Fr C)) as I2. pose proof (wp_read_once s2 I2) as W. unfold wp in W.
  assert (G2 : grew (fun e => requests [e] = []) s2 (snd (read_once s2))).
  { apply adds_read_once; intros; reflexivity. }
  destruct (read_once s2) as [o s3] eqn:R. cbn [snd] in G2. destruct G2 as (t & Tr & Ft).
  assert (Q3 : in_order_asked (trace s3) = programs_start port d).
  { rewrite <- Q', !requests_one. f_equal. rewrite Tr. clear - Ft. induction Ft as [|e t H Ft IH]; [reflexivity|]. cbn [app].
    unfold requests in *. cbn [flat_map] in *. rewrite app_nil_r in H. rewrite H. exact IH. }
  destruct o as [x|e|p| |]; try (injection E as <- <- <-; constructor; [discriminate|exact T|right; exact Q3|discriminate]); [|contradiction].
  injection E as <- <- <-. constructor; [discriminate|exact T|right; exact Q3|]. intros ps X. injection X as <-. split; [exact Q3|].
  destruct (Lo l eq_refl) as (b & sym & Cf & M). split.
  { destruct (d_model d) as [old|]; destruct M as [M1 M2]; [rewrite M2|rewrite M1]; split; congruence. }
  exists b, sym, l, x. split; [exact Cf|]. split; [intros old H; rewrite H in M; apply M|]. split; [reflexivity|]. split.
  - exact (poses_right w b sym l x Cf).
  - split; [exists (trace s2); apply W|].
    destruct (read_fresh _ _ _ (proj1 I2) R) as (used & pre & fresh & post & Eu & Ar & N & D).
    destruct U as [_ U]. exists used0, used, pre, fresh, post. rewrite <- Eu, U. auto.
Qed.
Print Assumptions C75_print.

(** One run of print_joint_poses after the other, each with its own robot, none of them failing: the library is asked for in
    every other run. *)
Inductive print_runs : disk -> list (list robot_request) -> disk -> Prop :=
| runs_end : forall d, print_runs d [] d
| runs_more : forall w port size rt us ts sends realtime priority d ps d1 s1 l d2,
    print_joint_poses w port d (st_init size rt us ts sends realtime priority) = (Done ps, d1, s1) ->
    print_runs d1 l d2 -> print_runs d (in_order_asked (trace s1) :: l) d2.
Theorem C75_alternates : forall d l d', print_runs d l d' -> forall k asked, nth_error l k = Some asked ->
  (In ReqLoadModelLibrary asked <-> (d_model d = None <-> Nat.even k = true)).
Proof.
  intros d l d' H. induction H as [d|w port size rt us ts sends realtime priority d ps d1 s1 l d2 E H IH]; intros k asked K.
  - destruct k; discriminate.
  - destruct (psp_done _ _ _ _ _ _ _ (C75_print _ _ _ _ _ _ _ _ _ _ _ _ _ E) ps eq_refl) as (Q & M & _). destruct k as [|k]; cbn [nth_error] in K.
    + injection K as <-. rewrite Q. unfold programs_start. cbn [Nat.even]. destruct (d_model d); cbn [In]; intuition discriminate.
    + rewrite (IH k asked K), Nat.even_succ, <- Nat.negb_even. clear - M. unfold file in *.
      assert (P : d_model d = None \/ d_model d <> None) by (destruct (d_model d); [right; discriminate|left; reflexivity]).
      destruct (Nat.even k); cbn [negb]; destruct P as [P|P].
      * assert (d_model d1 <> None) by tauto. intuition congruence.
      * assert (d_model d1 = None) by tauto. intuition congruence.
      * assert (d_model d1 <> None) by tauto. intuition congruence.
      * assert (d_model d1 = None) by tauto. intuition congruence.
Qed.
Print Assumptions C75_alternates.

(** * With a robot which answers *)
(** The robot's answer to request [id], after any number of polls without a message: the complete message with the library. *)
Definition offered (id : N) (p : list byte) (ts : list (option (N * list byte))) : Prop :=
  exists n m, ts = repeat None n ++ [Some (id, msg_bytes Robot m)] /\ msg_ok Robot m /\ m_body m = x00 :: p /\ p <> [].
(** A machine which writes the library as a whole and can load it. *)
Definition works (w : world) (b : list byte) : Prop :=
  w_libm w = true /\ exists sym, w_linker w b = Some sym /\ forall n, In n all_routines -> sym n <> None.
Lemma works_opens : forall w b, works w b -> exists l sym, library_new float (w_libm w) (w_linker w b) = Some l /\ comes_from w b sym l.
Proof.
  intros w b (L & sym & S & A). destruct (proj2 (C44_loading float (w_libm w) (w_linker w b))) as [l E]; [eauto|].
  exists l, sym. split; [exact E|]. rewrite L, S in E. split; [exact S|]. split; [exact A|exact E].
Qed.
Lemma request_live : forall p t us ts s, ready us (t ++ ts) s -> offered (n_id s) p t ->
  exists s', library_request s = (Done p, s') /\ ready us ts s' /\ n_id s' = succ_id (n_id s) /\ r_message_id s' = r_message_id s.
Proof.
  intros p t us ts s R (n & m & -> & Ok & Bo & Ne). unfold library_request, bind, send_request, wait_response.
  cbn [n_tsched n_table set_id add_event]. rewrite (re_tcp _ _ _ R), (re_table _ _ _ R), wait_answer.
  rewrite (load_library_result m Ok), Bo. destruct p as [|b p]; [contradiction Ne; reflexivity|].
  eexists. split; [reflexivity|]. destruct R. split; [constructor; cbn; auto|]. split; reflexivity.
Qed.
(** Loading succeeds and leaves a handle with which every further call of C61 succeeds. *)
Theorem C75_load_live : forall w persistent d p t us ts s, ready us (t ++ ts) s ->
  match d_model d with
  | Some b => works w b /\ t = [] /\ (persistent = true \/ w_remove w = true)
  | None => works w p /\ offered (n_id s) p t /\ w_create w = true /\ w_written w = Some (List.length p)
  end ->
  exists l d' s', load_call w persistent d s = (Done l, d', s') /\ ready us ts s' /\ r_message_id s' = r_message_id s /\
    n_id s' = match d_model d with Some _ => n_id s | None => succ_id (n_id s) end /\
    (exists b sym, comes_from w b sym l /\ b = match d_model d with Some b => b | None => p end) /\ d_target d' = d_target d /\
    d_model d' = match d_model d with Some b => if persistent then Some b else None | None => Some p end.
Proof.
  intros w persistent d p t us ts s R H. unfold load_call, open_library. destruct (d_model d) as [b|] eqn:D.
  - destruct H as (W & -> & Rm). destruct (works_opens _ _ W) as (l & sym & E & C). rewrite E, andb_true_r. exists l.
    destruct persistent; cbn [negb].
    + exists d, s. rewrite D. split; [reflexivity|]. do 3 (split; [auto|]). split; [eauto|]. auto.
    + destruct Rm as [Rm|Rm]; [discriminate|]. rewrite Rm. eexists _, s. split; [reflexivity|]. do 3 (split; [auto|]). split; [eauto|]. auto.
  - destruct H as (W & Of & Cr & Wr). destruct (works_opens _ _ W) as (l & sym & E & C).
    destruct (request_live p t us ts s R Of) as (s' & E1 & R1 & I1 & M1). rewrite E1. unfold store_library. rewrite Cr, Wr, firstn_all.
    cbn [d_model]. rewrite E, andb_false_r. eexists l, _, s'. split; [reflexivity|]. do 3 (split; [auto|]). split; [eauto|]. auto.
Qed.
Print Assumptions C75_load_live.

Lemma read_once_live : forall old x ch1 ch2 us ts s, polled state_size state_decode old ch1 -> brings (r_message_id s) x ch2 ->
  ready (ch1 ++ ch2 ++ us) ts s -> exists s', read_once s = (Ok x, s').
Proof.
  intros old x ch1 ch2 us ts s P B R. pose proof R as R0. destruct R. unfold read_once. unfold bind at 1, get at 1.
  destruct (flush_ok _ _ P s (ch2 ++ us) (bound s) re_queue re_udp) as (u & Qu & Eu).
  { unfold bound, pending. rewrite re_udp, flat_map_app, app_length. pose proof (polled_arrivals _ _ _ _ P). lia. }
  assert (R1 : ready (ch2 ++ us) ts (set_udp s u (ch2 ++ us))) by (constructor; cbn; auto).
  destruct (receive_ready _ _ _ x ch2 R1 B) as (u2 & Qu2 & E2 & R2).
  unfold bind at 1. rewrite Eu. unfold bind at 1. rewrite E2. unfold bind at 1, emit, modify, ret. eexists. reflexivity.
Qed.

(** Both programs succeed: the robot sends its state, answers and (for the second) sends a newer state [x]; then these are the
    poses at [x]. *)
Section Live.
  Variables (w : world) (port : N) (d : disk) (p : list byte) (size : nat) (x0 : robot_state_intern) (v : N).
  Variables (ch us : sched) (t0 t ts : list (option (N * list byte))) (realtime priority : bool).
  Hypothesis Size : (0 < size)%nat.
  Hypothesis First : burst state_size state_decode x0 ch.
  Hypothesis Rest : stopped x0.
  Hypothesis Accepted : answered c_connect_response 0 (CsSuccess, v) t0.
  Hypothesis Machine : match d_model d with
    | Some b => works w b /\ t = [] /\ w_remove w = true
    | None => works w p /\ offered 1 p t /\ w_create w = true /\ w_written w = Some (List.length p)
    end.
  Definition in_use : list byte := match d_model d with Some b => b | None => p end.
  Theorem C75_download_live : w_same w = false -> w_copy w = true ->
    exists s', download_model w port d (st_init size RtIgnore (ch ++ us) (t0 ++ t ++ ts) [] realtime priority) =
      (Done tt, Disk (Some in_use) (Some in_use), s') /\ ready us ts s'.
  Proof using Size First Rest Accepted Machine.
    intros Ns Cp. destruct (C61_connect port size RtIgnore x0 ch v t0 us (t ++ ts) realtime priority Size (or_introl eq_refl) First Rest Accepted) as (s1 & E1 & R1 & I1 & M1).
    unfold download_model. rewrite E1. destruct (C75_load_live w true d p t us ts s1 R1) as (l & d' & s2 & E2 & R2 & _ & _ & _ & T & D).
    { destruct (d_model d); [|rewrite I1]; intuition. }
    rewrite E2. unfold copy_file. replace (d_model d') with (Some in_use) by (rewrite D; unfold in_use; destruct (d_model d); reflexivity).
    rewrite Cp, Ns. exists s2. auto.
  Qed.
  Theorem C75_print_live : forall old x ch1 ch2 urest, polled state_size state_decode old ch1 -> brings (rs_message_id x0) x ch2 ->
    us = ch1 ++ ch2 ++ urest ->
    exists ps d' s' sym l, print_joint_poses w port d (st_init size RtIgnore (ch ++ us) (t0 ++ t ++ ts) [] realtime priority) = (Done ps, d', s') /\
      comes_from w in_use sym l /\ map fst ps = nine /\ Forall (fun q => pose_of sym x (fst q) (snd q)) ps.
  Proof using Size First Rest Accepted Machine.
    intros old x ch1 ch2 urest P B Us. destruct (C61_connect port size RtIgnore x0 ch v t0 us (t ++ ts) realtime priority Size (or_introl eq_refl) First Rest Accepted) as (s1 & E1 & R1 & I1 & M1).
    destruct (C75_load_live w false d p t us ts s1 R1) as (l & d' & s2 & E2 & R2 & M2 & _ & (b & sym & Cf & Eb) & _).
    { destruct (d_model d); [|rewrite I1]; intuition. }
    rewrite <- M1, <- M2 in B. rewrite Us in R2. destruct (read_once_live old x ch1 ch2 urest ts s2 P B R2) as [s3 E3].
    assert (E : print_joint_poses w port d (st_init size RtIgnore (ch ++ us) (t0 ++ t ++ ts) [] realtime priority) =
      (Done (map (fun fr => (fr, pose_from_state l (user_state_of x) fr)) printed_frames), d', s3)).
    { unfold print_joint_poses. rewrite E1, E2, E3. reflexivity. }
    eexists _, d', s3, sym, l. split; [exact E|]. split; [unfold in_use; rewrite <- Eb; exact Cf|]. split; [reflexivity|].
    exact (poses_right w b sym l x Cf).
  Qed.
End Live.
Print Assumptions C75_download_live.
Print Assumptions C75_print_live.

(** * Examples *)
(** A library of three bytes with all routines; a linker which accepts nothing else. *)
Definition ex_library : list byte := [x7f; x45; x4c].
Definition ex_world (same : bool) : world :=
  World true (Some 3%nat) true true (fun b => if list_eq_dec Coq.Strings.Byte.byte_eq_dec b ex_library then Some (echo float) else None) same true None.
Definition ex_offer (id : N) : option (N * list byte) := Some (id, msg_bytes Robot (Msg 13 id (x00 :: ex_library))).
Definition ex_start : st :=
  st_init 10 RtIgnore (ex_first (ex_idle 1) ++ ex_many (ex_idle 1) (ex_idle 1) (ex_idle 1) (ex_idle 1) ++ ex_once (ex_idle 2)) [ex_connected 0; None; ex_offer 1] [] true true.
Definition ex_kept : st := st_init 10 RtIgnore (ex_first (ex_idle 1) ++ ex_once (ex_idle 2)) [ex_connected 0] [] true true.
Definition empty_disk : disk := Disk None None.
Definition kind {A} (r : result A) : N := match r with Done _ => 0 | Failed _ => 1 | NoModel _ => 2 | Panicked => 3 | Waiting => 4 | NoFuel => 5 end.
Lemma ex_works : forall same, works (ex_world same) ex_library.
Proof.
  intros same. split; [reflexivity|]. exists (echo float). split; [reflexivity|]. intros n Hn. unfold echo.
  destruct (in_dec string_dec n all_routines); [discriminate|contradiction].
Qed.
Lemma ex_offered : offered 1 ex_library [None; ex_offer 1].
Proof.
  exists 1%nat, (Msg 13 1 (x00 :: ex_library)). split; [reflexivity|]. split; [|split; [reflexivity|discriminate]].
  unfold msg_ok, msg_size. cbn. lia.
Qed.
(** download_model asks for the library once; a second time nothing is asked; into /tmp the library is lost, and the next load fails. *)
Example C75_ex_download :
  (let '(r, d, s) := download_model (ex_world false) 1337 empty_disk ex_start in
   kind r = 0 /\ d = Disk (Some ex_library) (Some ex_library) /\ in_order_asked (trace s) = [ReqConnect 1337; ReqLoadModelLibrary]) /\
  (let '(r, d, s) := download_model (ex_world false) 1337 (Disk (Some ex_library) None) ex_kept in
   kind r = 0 /\ d = Disk (Some ex_library) (Some ex_library) /\ in_order_asked (trace s) = [ReqConnect 1337]) /\
  (let '(r, d, s) := download_model (ex_world true) 1337 empty_disk ex_start in
   kind r = 0 /\ d = Disk (Some []) (Some []) /\ kind (fst (fst (load_call (ex_world true) true d s))) = 2) /\
  (let '(r, d, s) := download_model (ex_world false) 1337 (Disk (Some [x01]) None) ex_start in
   kind r = 2 /\ d = Disk (Some [x01]) None /\ in_order_asked (trace s) = [ReqConnect 1337]).
Proof. do 3 (split; [vm_compute; auto|]). vm_compute. auto. Qed.
(** print_joint_poses: the first run downloads and keeps the file, the second uses and removes it. *)
Lemma ex_run_of : forall w port d size rt us ts sends realtime priority s X asked d1 l d2, s = st_init size rt us ts sends realtime priority ->
  X = print_joint_poses w port d s -> kind (fst (fst X)) = 0 -> in_order_asked (trace (snd X)) = asked -> snd (fst X) = d1 ->
  print_runs d1 l d2 -> print_runs d (asked :: l) d2.
Proof.
  intros w port d size rt us ts sends realtime priority s X asked d1 l d2 -> Ex K A D R. symmetry in Ex.
  destruct X as [[[ps|e|e| | |] d0] s1]; try discriminate K. cbn [fst snd] in A, D. subst asked d1.
  exact (runs_more _ _ _ _ _ _ _ _ _ _ _ _ _ _ _ Ex R).
Qed.
Definition ex_first_run := print_joint_poses (ex_world false) 1337 empty_disk ex_start.
Definition ex_second_run := print_joint_poses (ex_world false) 1337 (Disk (Some ex_library) None) ex_kept.
Example C75_ex_runs : print_runs empty_disk [[ReqConnect 1337; ReqLoadModelLibrary]; [ReqConnect 1337]] empty_disk.
Proof.
  assert (A1 : in_order_asked (trace (snd ex_first_run)) = [ReqConnect 1337; ReqLoadModelLibrary]) by (vm_compute; reflexivity).
  assert (A2 : in_order_asked (trace (snd ex_second_run)) = [ReqConnect 1337]) by (vm_compute; reflexivity).
  assert (D1 : snd (fst ex_first_run) = Disk (Some ex_library) None) by (vm_compute; reflexivity).
  assert (D2 : snd (fst ex_second_run) = empty_disk) by (vm_compute; reflexivity).
  assert (K1 : kind (fst (fst ex_first_run)) = 0) by (vm_compute; reflexivity).
  assert (K2 : kind (fst (fst ex_second_run)) = 0) by (vm_compute; reflexivity).
  eapply (ex_run_of _ _ _ _ _ _ _ _ _ _ _ ex_first_run); [unfold ex_start; reflexivity|unfold ex_first_run; reflexivity|exact K1|exact A1|exact D1|].
  eapply (ex_run_of _ _ _ _ _ _ _ _ _ _ _ ex_second_run); [unfold ex_kept; reflexivity|unfold ex_second_run; reflexivity|exact K2|exact A2|exact D2|].
  constructor.
Qed.
(** The hypotheses of the last two theorems. *)
Example C75_ex_live :
  burst state_size state_decode (ex_idle 1) (ex_first (ex_idle 1)) /\ stopped (ex_idle 1) /\ answered c_connect_response 0 (CsSuccess, 5) [ex_connected 0] /\
  (works (ex_world false) ex_library /\ offered 1 ex_library [None; ex_offer 1] /\ w_create (ex_world false) = true /\
   w_written (ex_world false) = Some (List.length ex_library)) /\
  polled state_size state_decode [ex_idle 1] (ex_many (ex_idle 1) (ex_idle 1) (ex_idle 1) (ex_idle 1)) /\
  brings (rs_message_id (ex_idle 1)) (ex_idle 2) (ex_once (ex_idle 2)).
Proof.
  split; [first_brought|]. split; [split; [reflexivity|discriminate]|]. split; [eapply (ex_answered _ _ _ 0); decodes|].
  split; [split; [apply ex_works|]; split; [apply ex_offered|]; split; reflexivity|].
  split; [apply ex_many_polled; repeat constructor; decodes|]. apply ex_brings; [reflexivity|split; decodes].
Qed.
