(** C65: which outputs of callbacks are accepted, and what that means for control calls. *)
From Coq Require Import List NArith ZArith Bool Lia Lra Arith Reals.
From Flocq Require Import Core IEEE754.BinarySingleNaN IEEE754.Binary IEEE754.Bits.
From Verif Require Import Bytes Codec NumOps NumFloat FloatFacts SizeFacts RateModel RateSpec ConvertModel WireModel WireSpec UdpModel
  RobotModel LoopModel RobotSpec Outputs TypedModel TypedSpec ConvertFacts TypedProofs RobotScenario Properties_Robot Properties_Rate
  Properties_Rate64 Properties_Convert Properties_Commands Properties_Filter Properties_Pose AcceptProofs LiveUdp LiveSpec LiveProofs Properties_Live.
Import ListNotations.
Open Scope list_scope.
Open Scope N_scope.

(** * Specification *)
(** A cutoff frequency from 2^-900 Hz on. *)
Definition usable_cutoff (c : N) : Prop := finite_bits c /\ (bpow radix2 (-900) <= number c)%R.
(** A reported state as robots send it: moderate numbers, velocities within the limits. *)
Record sound (x : robot_state_intern) : Prop := {
  so_ok : state_ok x;
  so_q : Forall angle (rs_q_d x);
  so_dq : Forall finite_bits (rs_dq_d x) /\ bounded robot_velocity (numbers (rs_dq_d x));
  so_twist : Forall angle (rs_O_dP_EE_c x) /\ Forall angle (rs_O_ddP_EE_c x);
  so_tau : Forall angle (rs_tau_J_d x);
  so_elbow : angle (nth 0 (rs_elbow_c x) 0);
  so_delbow : finite_bits (nth 0 (rs_delbow_c x) 0) /\ (Rabs (number (nth 0 (rs_delbow_c x) 0%N)) <= robot_elbow_velocity)%R
}.
(** An output as documented: as many moderate numbers as the kind of motion has, poses with the exact last row
    and unit rows and columns, an elbow with sign +1 or -1. *)
Definition good_values (g : move_mg) (v : list N) : Prop :=
  match g with
  | MmCartesianPosition => let e i := number (nth i v 0) in
      List.length v = 16%nat /\ Forall finite_bits v /\ last_row e /\ unit_lines (1 / 100000 - 1 / 10 ^ 12) e
  | _ => List.length v = dimension g /\ Forall angle v
  end.
Definition good_output (g : move_mg) (o : motion_out) : Prop :=
  good_values g (o_values o) /\
  forall a s, o_elbow o = Some (a, s) -> angle a /\ (s = one_bits \/ s = minus_one_bits).
(** Poses only without filter and limiter, which use the rotation functions of nalgebra. *)
Definition modelled (g : move_mg) (c : N) (limit : bool) : Prop :=
  g = MmCartesianPosition -> limit = false /\ (1000 <= number c)%R.

(** * Proofs *)
Lemma angle_size : forall b, angle b -> size 10 (of_bits b).
Proof. intros b [F V]. split; [apply finite_bits_fin, F|]. rewrite b10. exact V. Qed.
Lemma angles_sized : forall l, Forall angle l -> sized 10 (map of_bits l).
Proof. intros l H. apply Forall_map. eapply Forall_impl; [|exact H]. exact angle_size. Qed.
Lemma usable_of : forall c, usable_cutoff c -> usable (of_bits c).
Proof. intros c [F V]. split; [apply finite_bits_fin, F|exact V]. Qed.
Lemma velocity_sized : forall l, Forall finite_bits l -> bounded robot_velocity (numbers l) -> sized 10 (map of_bits l).
Proof.
  assert (G : forall ws l, Forall (fun w => w <= 1024)%R ws -> Forall finite_bits l -> bounded ws (numbers l) -> sized 10 (map of_bits l)).
  { induction ws as [|w ws IH]; intros [|b l] Hw F B; try (inversion B; fail); [constructor|].
    inversion B; subst. inversion F; subst. inversion Hw; subst. constructor; [|apply IH; assumption].
    apply angle_size. split; [assumption|]. lra. }
  intros l. apply G. repeat constructor; lra.
Qed.
Lemma sign_ok : forall s, s = one_bits \/ s = minus_one_bits -> b64_fin (of_bits s) = true /\ is_valid_elbow float (of_bits s) = true.
Proof. intros s [-> | ->]; split; vm_compute; reflexivity. Qed.
Lemma more_arrays : forall x, state_ok x -> List.length (rs_O_ddP_EE_c x) = 6%nat.
Proof. intros x (_ & _ & _ & _ & _ & _ & _ & _ & A7 & A6 & _). rewrite Forall_forall in A6. apply A6. cbn. tauto. Qed.
Lemma hd_nth : forall l : list N, hd 0 l = nth 0 l 0.
Proof. intros [|]; reflexivity. Qed.
Lemma elbow_accepted : forall c limit o x, usable_cutoff c -> sound x -> (forall a s, o_elbow o = Some (a, s) -> angle a /\ (s = one_bits \/ s = minus_one_bits)) ->
  exists f l, convert_elbow float (of_bits c) limit (match o_elbow o with Some (a, b) => Some (of_bits a, of_bits b) | None => None end) (reported_of x) = Some (f, l).
Proof.
  intros c limit o x U S E. apply accept_elbow; try (cbn [reported_of p_elbow_c p_delbow_c]; rewrite hd_nth).
  - apply usable_of, U.
  - intros e0 e1 H. destruct (o_elbow o) as [[a s]|]; [|discriminate H]. injection H as <- <-. destruct (E a s eq_refl) as [A Sg].
    split; [apply angle_size, A|apply sign_ok, Sg].
  - apply angle_size, S.
  - apply finite_bits_fin. apply S.
  - apply (so_delbow x S).
Qed.
(** C65: documented outputs are accepted. *)
Theorem C65_accepted : forall rots g c limit o x m, usable_cutoff c -> sound x -> good_output g o -> modelled g c limit ->
  exists m', convert_motion rots g c limit o x m = Some m'.
Proof.
  intros rots g c limit o x m U S [V E] M. pose proof (usable_of c U) as Uc. pose proof (elbow_accepted c limit o x U S E) as (f & l & El).
  pose proof (more_arrays x (so_ok x S)) as W6. pose proof (so_ok x S) as W. state_lengths W. unfold convert_motion. destruct g; cbn [good_values dimension] in V.
  - destruct V as [Lv Av]. destruct (accept_positions (of_bits c) Uc (reported_of x) limit (map of_bits (o_values o))) as (r & ->); [| | | | | | |eexists; reflexivity];
      cbn [reported_of p_q_d p_dq_d p_ddq_d]; rewrite ?map_length; try assumption; try (apply angles_sized; first [exact Av|apply S]).
    + apply finite_of_bits. apply S.
    + rewrite vals_of_bits. apply S.
  - destruct V as [Lv Av]. destruct (accept_velocities (of_bits c) Uc (reported_of x) limit (map of_bits (o_values o))) as (r & ->); [| | | | | |eexists; reflexivity];
      cbn [reported_of p_q_d p_dq_d p_ddq_d]; rewrite ?map_length; try assumption.
    + apply angles_sized, Av.
    + apply velocity_sized; apply S.
    + rewrite vals_of_bits. apply S.
  - destruct V as (Lv & Fv & R & Un). destruct (M eq_refl) as [-> Hc]. unfold convert_pose.
    assert (Lt : f_lt float (of_bits c) (MAX_CUTOFF_FREQUENCY float) = false).
    { destruct max_cutoff as [Fm Vm]. cbn [f_lt float]. rewrite lt_fin; [|apply Uc|exact Fm]. rewrite Vm. unfold number in Hc. destruct (Rlt_bool_spec (val (of_bits c)) 1000); [lra|reflexivity]. }
    rewrite Lt. cbn [then_ limited]. assert (C : check_matrix float (map of_bits (o_values o)) = true).
    { apply C36_binary64.
      - apply forallb_forall. intros b Hb. apply in_map_iff in Hb. destruct Hb as (b' & <- & Hb). apply finite_bits_fin. rewrite Forall_forall in Fv. apply Fv, Hb.
      - assert (En : forall i, entry64 (map of_bits (o_values o)) i = number (nth i (o_values o) 0)).
        { intros i. unfold entry64. change (b64_int 0) with (of_bits 0). rewrite map_nth. reflexivity. }
        unfold last_row. rewrite !En. exact R.
      - assert (En : forall i, entry64 (map of_bits (o_values o)) i = number (nth i (o_values o) 0)).
        { intros i. unfold entry64. change (b64_int 0) with (of_bits 0). rewrite map_nth. reflexivity. }
        unfold unit_lines. destruct Un as [U1 U2]. split; intros j Hj; rewrite !En; [apply U1|apply U2]; exact Hj. }
    rewrite C. match goal with |- context [convert_elbow float ?a ?b ?c ?d] => replace (convert_elbow float a b c d) with (Some (f, l)) by (symmetry; exact El) end.
    eexists. reflexivity.
  - destruct V as [Lv Av]. destruct (accept_twist (of_bits c) Uc (reported_of x) limit (map of_bits (o_values o))) as (r & ->);
      [| | | | | |match goal with |- context [convert_elbow float ?a ?b ?c ?d] => replace (convert_elbow float a b c d) with (Some (f, l)) by (symmetry; exact El) end; eexists; reflexivity];
      cbn [reported_of p_O_dP_EE_c p_O_ddP_EE_c]; rewrite ?map_length; try assumption; apply angles_sized; first [exact Av|apply S].
Qed.
Print Assumptions C65_accepted.
Theorem C65_torques_accepted : forall c limit q x, usable_cutoff c -> sound x -> List.length q = 7%nat -> Forall angle q ->
  exists q', filter_torques c limit q x = Some q'.
Proof.
  intros c limit q x U S L A. unfold filter_torques. pose proof (so_ok x S) as W. state_lengths W.
  destruct (accept_torques (of_bits c) (usable_of c U) (reported_of x) limit (map of_bits q)) as (r & ->); [| | | |eexists; reflexivity];
    cbn [reported_of p_tau_J_d]; rewrite ?map_length; try assumption; apply angles_sized; [exact A|apply S].
Qed.
Print Assumptions C65_torques_accepted.

(** * Outputs which are refused *)
Lemma not_finite_of : forall l, List.Exists (fun b => b64_fin b = false) l -> all_finite float l = false.
Proof.
  intros l H. apply not_true_is_false. intros A. apply Exists_exists in H. destruct H as (b & I & F).
  unfold all_finite in A. rewrite forallb_forall in A. specialize (A b I). cbn [f_finite float] in A. congruence.
Qed.
Lemma filtered_not_finite : forall c y l r, List.length l = List.length y -> List.Exists (fun b => b64_fin b = false) y ->
  filtered float c y l = Some r -> r = y.
Proof.
  intros c y l r L Ex H. unfold filtered in H. destruct (f_lt _ _ _); [|congruence]. exfalso. revert l L r H.
  induction Ex as [b y F|b y Ex IH]; intros [|a l] L r H; try discriminate L; cbn [map2 sequence] in H.
  - rewrite C33_refuses in H by auto. discriminate H.
  - destruct (low_pass_filter _ _ _ _ _) as [z|]; [|discriminate H]. destruct (sequence _) as [rs|] eqn:Es; [|discriminate H].
    eapply IH; [|exact Es]. cbn [List.length] in L. injection L as L. exact L.
Qed.
Lemma not_finite_bits : forall b, b < 2 ^ 64 -> ~ finite_bits b -> b64_fin (of_bits b) = false.
Proof.
  intros b B N. destruct (b64_fin (of_bits b)) eqn:F; [|reflexivity]. exfalso. apply N. apply bits_finite in F. rewrite bits_of_bits in F by exact B. exact F.
Qed.
(** C65: an output with a number that is not finite is refused, whatever the options. *)
Theorem C65_not_finite_refused : forall rots g c limit o x m, state_ok x -> arr_ok (dimension g) (o_values o) ->
  List.Exists (fun b => ~ finite_bits b) (o_values o) -> convert_motion rots g c limit o x m = None.
Proof.
  intros rots g c limit o x m W [Lv Wv] Ex. state_lengths W.
  assert (Ef : List.Exists (fun b => b64_fin b = false) (map of_bits (o_values o))).
  { apply Exists_exists in Ex. destruct Ex as (b & I & N). apply Exists_exists. exists (of_bits b). split; [apply in_map, I|].
    rewrite Forall_forall in Wv. apply not_finite_bits; [apply Wv, I|exact N]. }
  pose proof (not_finite_of _ Ef) as Nf. unfold convert_motion. set (v := map of_bits (o_values o)) in *.
  assert (Lv' : List.length v = dimension g) by (unfold v; rewrite map_length; exact Lv). clearbody v.
  destruct g; cbn [dimension] in Lv'.
  - unfold convert_joint_positions. destruct (filtered float (of_bits c) v _) as [y|] eqn:Fl; [|reflexivity].
    apply filtered_not_finite in Fl; [|cbn; rewrite map_length; congruence|exact Ef]. subst y. cbn [then_].
    destruct limit; cbn [limited then_]; [unfold limit_rate_joint_positions|unfold finite]; rewrite Nf; reflexivity.
  - unfold convert_joint_velocities. destruct (filtered float (of_bits c) v _) as [y|] eqn:Fl; [|reflexivity].
    apply filtered_not_finite in Fl; [|cbn; rewrite map_length; congruence|exact Ef]. subst y. cbn [then_].
    destruct limit; cbn [limited then_]; [unfold limit_rate_joint_velocities|unfold finite]; rewrite Nf; reflexivity.
  - unfold convert_pose. destruct (f_lt _ _ _); cbn [then_].
    + unfold cartesian_low_pass_filter. rewrite Nf. destruct (_ && _)%bool; [|reflexivity]. destruct (_ && _)%bool; reflexivity.
    + destruct limit; cbn [limited then_]; [unfold limit_rate_cartesian_pose|unfold check_matrix]; rewrite Nf; reflexivity.
  - unfold convert_twist. destruct (filtered float (of_bits c) v _) as [y|] eqn:Fl; [|reflexivity].
    apply filtered_not_finite in Fl; [|cbn; rewrite map_length; congruence|exact Ef]. subst y. cbn [then_].
    destruct limit; cbn [limited then_]; [unfold limit_rate_cartesian_velocity|unfold finite]; rewrite Nf; reflexivity.
Qed.
Print Assumptions C65_not_finite_refused.
(** So are an elbow angle that is not finite and an elbow sign other than +1 and -1. *)
Theorem C65_elbow_refused : forall rots g c limit o x m a s, g = MmCartesianPosition \/ g = MmCartesianVelocity ->
  o_elbow o = Some (a, s) -> u64_ok a -> u64_ok s -> ~ finite_bits a \/ (s <> one_bits /\ s <> minus_one_bits) ->
  convert_motion rots g c limit o x m = None.
Proof.
  intros rots g c limit o x m a s G E Wa Ws N. unfold convert_motion. rewrite E.
  assert (El : convert_elbow float (of_bits c) limit (Some (of_bits a, of_bits s)) (reported_of x) = None).
  { unfold convert_elbow. destruct N as [N|[N1 N2]].
    - apply (not_finite_bits a Wa) in N. destruct (f_lt _ _ _); [rewrite C33_refuses by auto; reflexivity|]. cbn [then_].
      destruct limit; [unfold limit_rate_position|]; cbn [then_]; [cbn [f_finite float]; rewrite N; reflexivity|].
      unfold check_elbow, all_finite. cbn [forallb f_finite float]. rewrite N. reflexivity.
    - destruct (if f_lt _ _ _ then _ else _) as [y|]; [|reflexivity]. cbn [then_]. destruct (if limit then _ else _) as [z|]; [|reflexivity]. cbn [then_].
      destruct (check_elbow float z (of_bits s)) eqn:C; [|reflexivity]. exfalso. unfold check_elbow, all_finite in C. cbn [forallb] in C.
      apply andb_prop in C. destruct C as [C V]. apply andb_prop in C. destruct C as [_ C]. apply andb_prop in C. destruct C as [F _].
      destruct (unit_bits _ F V) as [B|B]; rewrite bits_of_bits in B by exact Ws; congruence. }
  destruct G as [-> | ->].
  - destruct (convert_pose float _ _ _ _ _ _ _ _) as [r|]; [|reflexivity]. rewrite El. reflexivity.
  - destruct (convert_twist float _ _ _ _) as [r|]; [|reflexivity]. rewrite El. reflexivity.
Qed.
Print Assumptions C65_elbow_refused.

(** * Control calls *)
(** Callbacks whose outputs are as documented for states as robots send them. *)
Record behaves (u : user_control) : Prop := {
  be_cutoff : usable_cutoff (cutoff_of u);
  be_modelled : modelled (u_generator u) (cutoff_of u) (limit_of u);
  be_motion : forall k x dt k' o, sound x -> u_motion u k x dt = Some (k', o) -> good_output (u_generator u) o;
  be_torque : forall f k x dt k' q fin, u_torque u = Some f -> sound x -> f k x dt = Some (k', (q, fin)) -> List.length q = 7%nat /\ Forall angle q
}.
(** The callbacks alone take the states one after the other and finish at the last of them. *)
Fixpoint callbacks_finish (u : user_control) (k : u_cb u) (before : N) (xs : list robot_state_intern) : Prop :=
  match xs with
  | [] => False
  | x :: rest =>
      let dt := rs_message_id x - before in
      match u_motion u k x dt with
      | None => False
      | Some (k, o) =>
          if o_finished o then rest = []
          else match u_torque u with
               | None => callbacks_finish u k (rs_message_id x) rest
               | Some f =>
                   match f k x dt with
                   | None => False
                   | Some (k, (_, fin)) => if fin then rest = [] else callbacks_finish u k (rs_message_id x) rest
                   end
               end
      end
  end.
Lemma callbacks_enough : forall rots u, behaves u -> forall xs, Forall sound xs -> forall k before m,
  callbacks_finish u k before xs <-> finishes (controller_of rots u) k before m xs.
Proof.
  intros rots u B xs Hx. induction Hx as [|x xs Sx Hx IH]; intros k before m; [reflexivity|].
  cbn [callbacks_finish finishes]. unfold cycle. cbn [controller_of k_motion k_convert k_torque k_finished k_filter k_cb].
  destruct (u_motion u k x (rs_message_id x - before)) as [[k1 o]|] eqn:E; [|reflexivity].
  destruct (C65_accepted rots (u_generator u) (cutoff_of u) (limit_of u) o x m (be_cutoff u B) Sx (be_motion u B _ _ _ _ _ Sx E) (be_modelled u B)) as (m' & ->).
  destruct (o_finished o); [destruct (u_torque u); reflexivity|]. destruct (u_torque u) as [f|] eqn:Tu; [|apply IH].
  destruct (f k1 x (rs_message_id x - before)) as [[k2 [q fin]]|] eqn:Ef; [|reflexivity].
  destruct (be_torque u B f _ _ _ _ _ _ Tu Sx Ef) as [Lq Aq].
  destruct (C65_torques_accepted (cutoff_of u) (limit_of u) q x (be_cutoff u B) Sx Lq Aq) as (q' & ->).
  destruct fin; cbn [negb]; [reflexivity|apply IH].
Qed.
(** C65: with a robot that answers, states as robots send them and documented outputs the control call succeeds. *)
Theorem C65_control : forall rots u cb o us urest ts trest s, ready (us ++ urest) (ts ++ trest) s -> behaves u ->
  let k := controller_of rots u in
  feeds (r_message_id s) (all_states o) us ->
  (exists t1 t2, answer (n_id s) MsMotionStarted t1 /\ answer (n_id s) MsSuccess t2 /\ ts = t1 ++ repeat None (S (List.length (mo_before o))) ++ t2) ->
  Forall (fun x => ~ as_requested k x) (mo_before o) -> as_requested k (mo_shown o) ->
  Forall (fun x => rs_robot_mode x = RmMove /\ as_requested k x /\ sound x) (run_states o) ->
  Forall in_motion (mo_ending o) -> stopped (mo_last o) ->
  callbacks_finish u cb (rs_message_id (mo_first o)) (run_states o) ->
  exists s', control k cb s = (Ok tt, s') /\ ready urest trest s'.
Proof.
  intros rots u cb o us urest ts trest s R B k F T Be Sh Ru En La Fi.
  assert (Hs : Forall sound (run_states o)) by (eapply Forall_impl; [|exact Ru]; cbn beta; tauto).
  destruct (C61_control k cb o us urest ts trest s R) as (s' & E & R' & _); [|exists s'; auto].
  constructor; auto; [eapply Forall_impl; [|exact Ru]; cbn beta; tauto|].
  apply callbacks_enough; assumption.
Qed.
Print Assumptions C65_control.

(** * Examples *)
(** The example states of the other properties, the joint positions with torques of C34 (default options). *)
Lemma zero_angle : angle 0.
Proof. split; [split; vm_compute; [reflexivity|discriminate]|]. change (number 0) with 0%R. rewrite Rabs_R0. lra. Qed.
Lemma ex_sound : forall id, u64_ok id -> sound (ex_run id).
Proof.
  assert (Z : forall n, Forall angle (repeat 0 n)).
  { intros n. apply Forall_forall. intros b Hb. apply repeat_spec in Hb. subst b. exact zero_angle. }
  assert (A : forall n, arr_ok n (repeat 0 n)).
  { intros n. split; [apply repeat_length|]. apply Forall_forall. intros b Hb. apply repeat_spec in Hb. subst b. reflexivity. }
  intros id H. constructor; try apply Z; try exact zeros_velocity.
  - repeat split; try exact H; repeat (first [apply Forall_nil|apply Forall_cons; [apply A|]]).
  - split; apply Z.
  - exact zero_angle.
  - split; [apply zero_angle|]. change (number (nth 0 (rs_delbow_c (ex_run id)) 0%N)) with 0%R. rewrite Rabs_R0. unfold robot_elbow_velocity. lra.
Qed.
Lemma ex_number : forall x m e, Binary.B2FF 53 1024 x = F754_finite false m e -> (Rabs (IZR (Zpos m) * bpow radix2 e) <= 1024)%R -> angle (bits x).
Proof.
  intros x m e E L. destruct (val_finite x false m e E) as [F V]. split; [apply bits_finite, F|]. unfold number. rewrite of_bits_bits, V. exact L.
Qed.
Lemma ex_values : angle (bits (f_lit float 1 1000)) /\ angle fifty.
Proof.
  split; [apply (ex_number _ 4611686018427388 (-62)); [vm_compute; reflexivity|]|apply (ex_number _ 7036874417766400 (-47)); [vm_compute; reflexivity|]].
  - change (bpow radix2 (-62)) with (/ 4611686018427387904)%R. rewrite Rabs_pos_eq; lra.
  - change (bpow radix2 (-47)) with (/ 140737488355328)%R. rewrite Rabs_pos_eq; lra.
Qed.
Lemma ex_behaves : behaves ex_joints.
Proof.
  assert (R : forall b n, angle b -> Forall angle (repeat b n)) by (intros b n H; apply Forall_forall; intros b' Hb; apply repeat_spec in Hb; subst b'; exact H).
  destruct ex_values as [V F]. constructor.
  - destruct (val_finite (f_int float 100) false 7036874417766400 (-46)) as [Fc Vc]; [vm_compute; reflexivity|].
    unfold usable_cutoff, cutoff_of. cbn [u_cutoff ex_joints]. 
    match goal with |- context [number ?c] => replace c with (bits (f_int float 100)) by (vm_compute; reflexivity) end.
    split; [apply bits_finite, Fc|]. unfold number. rewrite of_bits_bits, Vc. apply Rle_trans with (bpow radix2 0); [apply bpow_le; lia|].
    cbn [cond_Zopp]. change (bpow radix2 (-46)) with (/ 70368744177664)%R. change (bpow radix2 0) with 1%R. lra.
  - discriminate.
  - intros k x dt k' o _ [= _ <-]. split; [|discriminate]. split; [reflexivity|]. exact (R _ 7%nat V).
  - intros f k x dt k' q fin [= <-] _ [= _ <- _]. split; [reflexivity|]. exact (R _ 7%nat F).
Qed.
(** The whole program: connecting, then the control call. *)
Definition ex_accept_us : sched := ex_states (all_states ex_o).
Definition ex_accept_ts := [None; ex_move 1 MsMotionStarted; None; None; ex_move 1 MsSuccess].
Example C65_ex : exists s s', robot_new 1337 (st_init 5 RtEnforce (ex_first (ex_idle 1) ++ ex_accept_us) (ex_connected 0 :: ex_accept_ts) [] true true) = (Ok tt, s) /\
  control (controller_of ex_rots ex_joints) 0 s = (Ok tt, s') /\ ready [] [] s'.
Proof.
  destruct (C61_connect 1337 5 RtEnforce (ex_idle 1) (ex_first (ex_idle 1)) 5 [ex_connected 0] ex_accept_us ex_accept_ts true true) as (s & E & R & I & M);
    [lia|right; split; reflexivity|first_brought|split; [reflexivity|discriminate]|eapply (ex_answered _ _ _ 0); decodes|].
  exists s. rewrite <- (app_nil_r ex_accept_us), <- (app_nil_r ex_accept_ts) in R.
  destruct (C65_control ex_rots ex_joints 0 ex_o ex_accept_us [] ex_accept_ts [] s R ex_behaves) as (s' & E' & R'); [..|exists s'; auto].
  - apply ex_feeds; [rewrite M; cbn; repeat split|]. repeat constructor; decodes.
  - rewrite I. exists [None; ex_move 1 MsMotionStarted], [ex_move 1 MsSuccess]. repeat split.
    + eapply (ex_answered _ _ _ 1). decodes.
    + eapply (ex_answered _ _ _ 0). decodes.
  - apply Forall_cons; [|apply Forall_nil]. intros [X _]. discriminate X.
  - split; reflexivity.
  - repeat (apply Forall_cons; [split; [reflexivity|]; split; [split; reflexivity|apply ex_sound; reflexivity]|]). apply Forall_nil.
  - repeat constructor; left; discriminate.
  - split; [reflexivity|discriminate].
  - cbn. reflexivity.
Qed.
(** Refused: an infinite joint angle; an elbow sign of 0. *)
Example C65_ex_refused : let inf := 9218868437227405312 in
  state_ok (ex_run 5) /\ ~ finite_bits inf /\
  convert_motion ex_rots MmJointPosition (bits (f_int float 1000)) false (MotionOut (repeat inf 7) None false) (ex_run 5) zero_motion = None /\
  convert_motion ex_rots MmCartesianVelocity (bits (f_int float 1000)) false (MotionOut (repeat 0 6) (Some (0, 0)) false) (ex_run 5) zero_motion = None /\
  0 <> one_bits /\ 0 <> minus_one_bits.
Proof.
  split; [apply ex_sound; reflexivity|]. split; [intros [_ X]; apply X; vm_compute; reflexivity|]. repeat split; try (vm_compute; reflexivity); discriminate.
Qed.
