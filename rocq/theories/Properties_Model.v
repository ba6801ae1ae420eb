(** C44, C45, C46: the robot model. *)
From Coq Require Import List ZArith NArith Bool Reals Lra Lia Arith String.
From Coq Require Import Init.Byte.
From Verif Require Import Bytes Codec WireSpec NumOps NumReal NumFloat WireModel StateModel ModelApi Properties_Wire Properties_State.
Import ListNotations.
Open Scope string_scope.
Open Scope list_scope.

(** * C44: what the library has to offer, and what is asked of it *)
Definition digits : list string := ["1"; "2"; "3"; "4"; "5"; "6"; "7"; "8"; "9"].
(** Number of a frame along the arm; the stiffness frame is an end effector. *)
Definition number (fr : frame) : nat :=
  match fr with Joint1 => 1 | Joint2 => 2 | Joint3 => 3 | Joint4 => 4 | Joint5 => 5 | Joint6 => 6 | Joint7 => 7
  | Flange => 8 | EndEffector | Stiffness => 9 end.
Definition routine_of (base : string) (fr : frame) : string := String.append base (nth (number fr - 1) digits "").
Definition all_routines : list string :=
  ["M_NE"; "c_NE"; "g_NE"] ++ map (String.append "Ji_J_J") digits ++ map (String.append "O_J_J") digits ++ map (String.append "O_T_J") digits.

(** [t] is the transformation [a] followed by [b]: column-major 4x4 matrices. *)
Definition followed_by (O : num) (a b t : list (F O)) : Prop :=
  List.length t = 16%nat /\ forall r c, (r < 4)%nat -> (c < 4)%nat ->
    let at_ m i j := nth (i + 4 * j)%nat m (f_int O 0) in
    at_ t r c = fold_left (fun s k => f_add O s (f_mul O (at_ a r k) (at_ b k c))) [1; 2; 3]%nat (f_mul O (at_ a r 0%nat) (at_ b 0%nat c)).
(** Inputs besides the joint positions. *)
Definition tool (O : num) (fr : frame) (F_T_EE EE_T_K : list (F O)) (t : list (list (F O))) : Prop :=
  match fr with
  | EndEffector => t = [F_T_EE]
  | Stiffness => exists m, followed_by O F_T_EE EE_T_K m /\ t = [m]
  | _ => t = []
  end.
(** The Jacobians of the first joint are constant: they take no input. *)
Definition positions (O : num) (fr : frame) (q : list (F O)) : list (list (F O)) := match fr with Joint1 => [] | _ => [q] end.

Lemma product_ok : forall O a b, followed_by O a b (mat4_mul O a b).
Proof.
  intros O a b. split; [reflexivity|]. intros r c Hr Hc. cbv zeta.
  destruct r as [|[|[|[|r]]]]; try lia; destruct c as [|[|[|[|c]]]]; try lia; reflexivity.
Qed.

Section Opened.
  Variable O : num.
  Variable sym : string -> option (routine O).
  Variable l : model_library O.
  Hypothesis opened : library_new O true (Some sym) = Some l.

  Ltac opened_inv := cbv beta delta [library_new] iota in opened;
    repeat match type of opened with context [match sym ?n with _ => _ end] => destruct (sym n) eqn:?; [|discriminate opened] end;
    injection opened as opened; subst l.

  Lemma every_symbol : Forall (fun n => exists r, sym n = Some r) all_routines.
  Proof. unfold all_routines, digits. cbn [map app String.append]. opened_inv. repeat (constructor; [eexists; eassumption|]). constructor. Qed.
End Opened.

Theorem C44_loading : forall O libm lib, (exists l, library_new O libm lib = Some l) <->
  libm = true /\ exists sym, lib = Some sym /\ forall n, In n all_routines -> sym n <> None.
Proof.
  intros O libm lib. split.
  - intros [l H]. destruct libm; [|discriminate H]. split; [reflexivity|]. destruct lib as [sym|]; [|discriminate H].
    exists sym. split; [reflexivity|]. intros n Hn. pose proof (every_symbol O sym l H) as A. rewrite Forall_forall in A.
    destruct (A n Hn) as [r E]. congruence.
  - intros [-> (sym & -> & H)]. cbv beta delta [library_new] iota.
    repeat match goal with |- context [match sym ?n with _ => _ end] =>
      let E := fresh in destruct (sym n) eqn:E; [|exfalso; exact (H n ltac:(unfold all_routines; cbn; tauto) E)] end.
    eexists. reflexivity.
Qed.
Print Assumptions C44_loading.

(** Poses and Jacobians: the routine of the frame, with the documented inputs. *)
Theorem C44_frames : forall O sym l, library_new O true (Some sym) = Some l -> forall fr q F_T_EE EE_T_K, exists pose_r body_r zero_r t,
  sym (routine_of "O_T_J" fr) = Some pose_r /\ sym (routine_of "Ji_J_J" fr) = Some body_r /\ sym (routine_of "O_J_J" fr) = Some zero_r /\
  tool O fr F_T_EE EE_T_K t /\
  pose O l fr q F_T_EE EE_T_K = pose_r (q :: t) /\
  body_jacobian O l fr q F_T_EE EE_T_K = body_r (positions O fr q ++ t) /\
  zero_jacobian O l fr q F_T_EE EE_T_K = zero_r (positions O fr q ++ t).
Proof.
  intros O sym l opened fr q A B. cbv beta delta [library_new] iota in opened.
  repeat match type of opened with context [match sym ?n with _ => _ end] => destruct (sym n) eqn:?; [|discriminate opened] end.
  injection opened as opened. subst l.
  destruct fr; cbn [routine_of number String.append digits nth Nat.sub tool positions app]; do 3 eexists;
    [exists []|exists []|exists []|exists []|exists []|exists []|exists []|exists []|exists [A]|exists [mat4_mul O A B]];
    (split; [eassumption|]; split; [eassumption|]; split; [eassumption|]; split; [|repeat split]).
  1-9: reflexivity.
  exists (mat4_mul O A B). split; [apply product_ok|reflexivity].
Qed.
Print Assumptions C44_frames.

(** Dynamics: the routine and the order of its inputs. *)
Theorem C44_dynamics : forall O sym l, library_new O true (Some sym) = Some l -> exists mass_r coriolis_r gravity_r,
  sym "M_NE" = Some mass_r /\ sym "c_NE" = Some coriolis_r /\ sym "g_NE" = Some gravity_r /\
  forall q dq I m x, mass O l q I m x = mass_r [q; I; [m]; x] /\ coriolis O l q dq I m x = coriolis_r [q; dq; I; [m]; x] /\
    (forall g, gravity O l q m x (Some g) = gravity_r [q; g; [m]; x]) /\
    gravity O l q m x None = gravity_r [q; [f_int O 0; f_int O 0; f_div O (f_int O (-981)) (f_int O 100)]; [m]; x].
Proof.
  intros O sym l opened. cbv beta delta [library_new] iota in opened.
  repeat match type of opened with context [match sym ?n with _ => _ end] => destruct (sym n) eqn:?; [|discriminate opened] end.
  injection opened as opened. subst l. do 3 eexists. repeat (split; [reflexivity|]). repeat split.
Qed.
Print Assumptions C44_dynamics.

(** The variants which take a state: the inputs come from their places in the datagram, or are the totals
    (coriolis: see C45). *)
Theorem C44_states : forall b s, List.length b = 2373%nat -> deserialize c_robot_state_intern b = Some s ->
  let u := user_state_of s in let array := map of_bits in let place o n v := List.length v = n /\ slice b o (8 * n) = les 8 v in
  exists q F_T_EE EE_T_K O_ddP_O, place 1184%nat 7%nat q /\ place 264%nat 16%nat F_T_EE /\ place 392%nat 16%nat EE_T_K /\ place 1872%nat 3%nat O_ddP_O /\
  forall l fr g,
  pose_from_state l u fr = pose float l fr (array q) (array F_T_EE) (array EE_T_K) /\
  body_jacobian_from_state l u fr = body_jacobian float l fr (array q) (array F_T_EE) (array EE_T_K) /\
  zero_jacobian_from_state l u fr = zero_jacobian float l fr (array q) (array F_T_EE) (array EE_T_K) /\
  mass_from_state l u = mass float l (array q) (array (us_I_total u)) (of_bits (us_m_total u)) (array (us_F_x_Ctotal u)) /\
  gravity_from_state l u (Some g) = gravity float l (array q) (of_bits (us_m_total u)) (array (us_F_x_Ctotal u)) (Some g) /\
  gravity_from_state l u None = gravity float l (array q) (of_bits (us_m_total u)) (array (us_F_x_Ctotal u)) (Some (array O_ddP_O)).
Proof.
  intros b s Lb D u. cbv zeta. destruct (C55_fields b s Lb D) as [A _]. fold u in A.
  exists (us_q u), (us_F_T_EE u), (us_EE_T_K u), (us_O_ddP_O u).
  split; [exact (pick _ _ A 15 _ eq_refl)|]. split; [exact (pick _ _ A 2 _ eq_refl)|].
  split; [exact (pick _ _ A 3 _ eq_refl)|]. split; [exact (pick _ _ A 28 _ eq_refl)|].
  intros. repeat split.
Qed.
Print Assumptions C44_states.

(** In exact arithmetic: if the library's end effector pose is the flange pose followed by the tool, then the
    stiffness frame is the end effector frame followed by its own transformation. *)
Open Scope R_scope.
Lemma list16 : forall (x y : list R), List.length x = 16%nat -> List.length y = 16%nat ->
  (forall i j, (i < 4)%nat -> (j < 4)%nat -> nth (i + 4 * j) x 0 = nth (i + 4 * j) y 0) -> x = y.
Proof.
  intros x y Lx Ly H. apply (nth_ext x y 0 0); [congruence|]. rewrite Lx. intros n Hn.
  specialize (H (n mod 4) (n / 4))%nat. rewrite (Nat.add_comm (n mod 4)), <- (Nat.div_mod n 4) in H by lia.
  apply H; [apply Nat.mod_upper_bound; lia|apply Nat.div_lt_upper_bound; lia].
Qed.
Theorem C44_stiffness : forall sym l q (A B flange : list R), library_new real true (Some sym) = Some l ->
  (forall T, followed_by real flange T (pose real l EndEffector q T B)) ->
  followed_by real (pose real l EndEffector q A B) B (pose real l Stiffness q A B).
Proof.
  intros sym l q A B fl Hl H.
  pose proof (H A) as [L1 E1].
  change (pose real l Stiffness q A B) with (pose real l EndEffector q (mat4_mul real A B) B).
  pose proof (H (mat4_mul real A B)) as [L2 E2]. pose proof (product_ok real A B) as [_ E3].
  split; [exact L2|]. intros r c Hr Hc. cbv zeta. cbn [fold_left] in *.
  rewrite (E2 r c Hr Hc). rewrite !E3 by lia. rewrite !E1 by lia. cbn [real f_add f_mul].
  match goal with |- ?x = ?y => change (@eq R x y) end. ring.
Qed.
Print Assumptions C44_stiffness.

(** A library which answers with its own name's last digit, or with its inputs. *)
Definition echo (O : num) : string -> option (routine O) := fun n => if in_dec string_dec n all_routines then Some (@List.concat _) else None.
Example C44_ex : (exists l, library_new real true (Some (echo real)) = Some l) /\
  library_new real true (Some (fun n => if string_dec n "O_J_J5" then None else Some (@List.concat _))) = None.
Proof.
  split; [|reflexivity]. apply C44_loading. split; [reflexivity|]. eexists. split; [reflexivity|].
  intros n Hn. unfold echo. destruct (in_dec string_dec n all_routines); [discriminate|contradiction].
Qed.
(** Translations: flange at x=1; the tool moves by y=2, the stiffness frame by z=3. *)
Definition translation (x y z : R) : list R := [1;0;0;0; 0;1;0;0; 0;0;1;0; x;y;z;1].
Definition arm : string -> option (routine real) := fun n =>
  if string_dec n "O_T_J9" then Some (fun args => mat4_mul real (translation 1 0 0) (nth 1 args []))
  else if in_dec string_dec n all_routines then Some (@List.concat _) else None.
Example C44_stiffness_ex : exists l, library_new real true (Some arm) = Some l /\
  (forall T, followed_by real (translation 1 0 0) T (pose real l EndEffector (repeat 0 7) T (translation 0 0 3))) /\
  pose real l Stiffness (repeat 0 7) (translation 0 2 0) (translation 0 0 3) = translation 1 2 3.
Proof.
  eexists. split; [reflexivity|]. split.
  - intros T. apply product_ok.
  - unfold pose. cbn [f_O_T_J9 nth]. unfold mat4_mul, translation. cbn [map seq Nat.modulo Nat.divmod Nat.div fst snd Nat.sub nth Nat.mul Nat.add].
    cbn [real f_add f_mul f_int]. repeat (apply (f_equal2 (@cons R)); [match goal with |- ?x = ?y => change (@eq R x y) end; ring|]). reflexivity.
Qed.

(** * C45 *)
(** A hand of 1 kg with unit inertia in the flange's origin, nothing grasped. *)
Definition one : N := 0x3ff0000000000000.
Definition hand_only : robot_state_intern :=
  let z n := repeat 0%N n in let eye := [one; 0; 0; 0; one; 0; 0; 0; one]%N in
  RobotStateIntern 1 (z 16%nat) (z 16%nat) (z 16%nat) (z 16%nat) (z 16%nat) (z 16%nat)
    one eye (z 3%nat) 0 (z 9%nat) (z 3%nat)
    (z 2%nat) (z 2%nat) (z 7%nat) (z 7%nat) (z 7%nat) (z 7%nat)
    (z 7%nat) (z 7%nat) (z 7%nat) (z 7%nat) (z 7%nat) (z 6%nat)
    (z 7%nat) (z 6%nat) (z 7%nat) (z 6%nat) (z 6%nat) (z 6%nat)
    (z 3%nat) (z 2%nat) (z 2%nat) (z 2%nat) (z 16%nat) (z 6%nat)
    (z 6%nat) (z 7%nat) (z 7%nat) MgIdle CmOther (repeat false 32) (repeat false 9) (repeat false 32) (repeat false 9) RmIdle 0.
(** The inertia passed on is that of the grasped load, not the total: with an empty hand, nothing. *)
Theorem C45_refuted : exists sym l s, library_new float true (Some sym) = Some l /\
  (exists b, deserialize c_robot_state_intern b = Some s) /\ let u := user_state_of s in
  coriolis_from_state l u <> coriolis float l (map of_bits (us_q u)) (map of_bits (us_dq u)) (map of_bits (us_I_total u)) (of_bits (us_m_total u))
    (map of_bits (us_F_x_Ctotal u)).
Proof.
  exists (echo float). assert (E : exists l, library_new float true (Some (echo float)) = Some l).
  { apply C44_loading. split; [reflexivity|]. eexists. split; [reflexivity|].
    intros n Hn. unfold echo. destruct (in_dec string_dec n all_routines); [discriminate|contradiction]. }
  destruct E as [l E]. exists l, hand_only. split; [exact E|]. split; [exists (serialize c_robot_state_intern hand_only); vm_compute; reflexivity|].
  cbv zeta. destruct (C44_dynamics float _ l E) as (rm & rc & rg & _ & Hc & _ & D).
  assert (C : rc = @List.concat _). { unfold echo in Hc. destruct (in_dec _ _ _); congruence. }
  unfold coriolis_from_state. rewrite !(proj1 (proj2 (D _ _ _ _ _))), C. intro H. apply (f_equal (map bits)) in H. vm_compute in H. discriminate H.
Qed.
Print Assumptions C45_refuted.
(** What is right: positions, velocities, mass and centre; and the inertia, when there is nothing but the load. *)
Theorem C45_partial : forall sym l u, library_new float true (Some sym) = Some l -> exists r, sym "c_NE" = Some r /\
  coriolis_from_state l u = r [map of_bits (us_q u); map of_bits (us_dq u); map of_bits (us_I_load u); [of_bits (us_m_total u)]; map of_bits (us_F_x_Ctotal u)] /\
  (us_I_load u = us_I_total u -> coriolis_from_state l u = coriolis float l (map of_bits (us_q u)) (map of_bits (us_dq u)) (map of_bits (us_I_total u))
    (of_bits (us_m_total u)) (map of_bits (us_F_x_Ctotal u))).
Proof.
  intros sym l u E. destruct (C44_dynamics float _ l E) as (rm & rc & rg & _ & Hc & _ & D).
  exists rc. split; [exact Hc|]. unfold coriolis_from_state. split; [apply D|]. intros ->. reflexivity.
Qed.
Print Assumptions C45_partial.
(** A load of 1 kg with unit inertia in the flange's origin, no end effector. *)
Definition load_only : robot_state_intern :=
  let z n := repeat 0%N n in let eye := [one; 0; 0; 0; one; 0; 0; 0; one]%N in
  RobotStateIntern 1 (z 16%nat) (z 16%nat) (z 16%nat) (z 16%nat) (z 16%nat) (z 16%nat)
    0 (z 9%nat) (z 3%nat) one eye (z 3%nat)
    (z 2%nat) (z 2%nat) (z 7%nat) (z 7%nat) (z 7%nat) (z 7%nat)
    (z 7%nat) (z 7%nat) (z 7%nat) (z 7%nat) (z 7%nat) (z 6%nat)
    (z 7%nat) (z 6%nat) (z 7%nat) (z 6%nat) (z 6%nat) (z 6%nat)
    (z 3%nat) (z 2%nat) (z 2%nat) (z 2%nat) (z 16%nat) (z 6%nat)
    (z 6%nat) (z 7%nat) (z 7%nat) MgIdle CmOther (repeat false 32) (repeat false 9) (repeat false 32) (repeat false 9) RmIdle 0.
Example C45_ex : us_I_load (user_state_of load_only) = us_I_total (user_state_of load_only).
Proof. vm_compute. reflexivity. Qed.

(** * C46 *)
Section LifeCycle.
  Variable opens : list byte -> bool.
  Definition present (f : file) := f <> None.

  (** After a persistent load the file is there, and it is a library; a file that was there is the same. *)
  Theorem C46_persistent : forall e f f', load_model opens true e f = (f', Loaded) ->
    (exists b, f' = Some b /\ opens b = true) /\ (present f -> f' = f).
  Proof.
    intros e f f' H. unfold load_model, download in H. destruct f as [b|]; cbn in H.
    - destruct (opens b) eqn:Ob; inversion H; subst. split; [exists b; auto|reflexivity].
    - split; [|unfold present; congruence].
      destruct (e_sent e) as [b|]; cbn in H; [|discriminate]. destruct (e_create e); cbn in H; [|discriminate].
      destruct (e_written e) as [n|]; cbn in H; [|discriminate]. destruct (opens (firstn n b)) eqn:Ob; inversion H; subst. eauto.
  Qed.
  (** A non-persistent load does the opposite of what is documented: it keeps the file it has downloaded and
      deletes the file that was there. *)
  Theorem C46_inverted : forall e f f', load_model opens false e f = (f', Loaded) -> (present f' <-> ~ present f).
  Proof.
    intros e f f' H. unfold load_model, download, present in *. destruct f as [b|]; cbn in H.
    - destruct (opens b); [|discriminate]. destruct (e_remove e); inversion H; subst. split; [congruence|]. intros C. exfalso. apply C. congruence.
    - destruct (e_sent e) as [b|]; cbn in H; [|discriminate]. destruct (e_create e); cbn in H; [|discriminate].
      destruct (e_written e) as [n|]; cbn in H; [|discriminate]. destruct (opens (firstn n b)) eqn:Ob; inversion H; subst. split; congruence.
  Qed.
  (** A file that is there is used, whatever it is: nothing is asked of the robot. *)
  Theorem C46_existing : forall p e e' b, e_remove e = e_remove e' ->
    load_model opens p e (Some b) = load_model opens p e' (Some b) /\ (snd (load_model opens p e (Some b)) = LoadError <-> opens b = false).
  Proof.
    intros p e e' b R. unfold load_model. cbn. rewrite R. split; [reflexivity|].
    destruct (opens b); cbn; [|split; auto]. destruct p; cbn; [split; discriminate|]. destruct (e_remove e'); cbn; split; discriminate.
  Qed.
  (** Hence a file that is not a library blocks every later load, with any robot and any disk. *)
  Theorem C46_stuck : forall b, opens b = false -> forall calls,
    fold_left (fun st pe => let r := load_model opens (fst pe) (snd pe) (fst st) in (fst r, snd st ++ [snd r])) calls (Some b, []) =
    (Some b, repeat LoadError (List.length calls)).
  Proof.
    intros b Ob calls. assert (E : forall p e, load_model opens p e (Some b) = (Some b, LoadError)) by (intros; unfold load_model; cbn; rewrite Ob; reflexivity).
    enough (G : forall acc, fold_left (fun st pe => let r := load_model opens (fst pe) (snd pe) (fst st) in (fst r, snd st ++ [snd r])) calls (Some b, acc) =
      (Some b, acc ++ repeat LoadError (List.length calls))) by exact (G []).
    induction calls as [|[p e] calls IH]; intros acc; cbn [fold_left List.length repeat fst snd]; [rewrite app_nil_r; reflexivity|].
    cbv zeta in *. rewrite E. cbn [fst snd]. rewrite IH, <- app_assoc. reflexivity.
  Qed.
  (** Only failures that happen before the file is created leave it as it was; after that every failure leaves a file. *)
  Theorem C46_failed : forall p e f', load_model opens p e None = (f', LoadError) ->
    (present f' <-> e_sent e <> None /\ e_create e = true).
  Proof.
    intros p e f' H. unfold load_model, download, present in *. cbn in H.
    destruct (e_sent e) as [b|]; cbn in H; [|inversion H; split; [congruence|intros [C _]; congruence]].
    destruct (e_create e); cbn in H; [|inversion H; split; [congruence|intros [_ C]; congruence]].
    destruct (e_written e) as [n|]; cbn in H.
    - destruct (opens (firstn n b)); [rewrite andb_false_r in H; discriminate|]. inversion H. split; [split; congruence|congruence].
    - inversion H. split; [split; congruence|congruence].
  Qed.
End LifeCycle.
Print Assumptions C46_persistent.
Print Assumptions C46_inverted.
Print Assumptions C46_existing.
Print Assumptions C46_stuck.
Print Assumptions C46_failed.

(** The documented life cycle, for one call. *)
Definition life_cycle (persistent : bool) (before after : file) : Prop :=
  if persistent then after <> None else after = before.
Definition no_garbage (b : list byte) : bool := match b with [] | [_] => false | _ => true end.
Definition good_env := Env (Some [x7f; x45]) true (Some 2%nat) true.
Theorem C46_refuted : exists opens e,
  (* the downloaded file stays *)
  (exists f', load_model opens false e None = (f', Loaded) /\ ~ life_cycle false None f') /\
  (* the file that was there goes *)
  (exists f f', load_model opens false e f = (f', Loaded) /\ ~ life_cycle false f f').
Proof.
  exists no_garbage, good_env. split.
  - eexists. split; [reflexivity|]. unfold life_cycle. discriminate.
  - exists (Some [x7f; x46]). eexists. split; [reflexivity|]. unfold life_cycle. discriminate.
Qed.
Print Assumptions C46_refuted.
(** [write] may take fewer bytes than given; the rest of the library is then missing, and no later call downloads it again. *)
Theorem C46_short_write_refuted : exists opens b e f, opens b = true /\ e_sent e = Some b /\ e_create e = true /\ e_remove e = true /\
  load_model opens true e None = (f, LoadError) /\ forall e' p, snd (load_model opens p e' f) = LoadError.
Proof.
  exists no_garbage, [x7f; x45], (Env (Some [x7f; x45]) true (Some 1%nat) true), (Some [x7f]).
  repeat (split; [reflexivity|]). intros e' p. reflexivity.
Qed.
Print Assumptions C46_short_write_refuted.
Example C46_ex : load_model no_garbage true good_env None = (Some [x7f; x45], Loaded) /\
  load_model no_garbage false good_env (Some [x7f; x45]) = (None, Loaded) /\ no_garbage [x7f] = false.
Proof. repeat split. Qed.
