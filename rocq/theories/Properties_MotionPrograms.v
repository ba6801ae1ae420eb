(** C76: the example programs which make one motion, as a whole. *)
From Coq Require Import List NArith ZArith Bool Arith Lia String Reals Lra.
From Coq Require Import Init.Byte.
From Flocq Require Import Core IEEE754.BinarySingleNaN IEEE754.Binary IEEE754.Bits.
From Verif Require Import Bytes Codec NumOps NumFloat FloatFacts SizeFacts RateModel WireModel WireSpec TcpModel TcpProofs UdpModel UdpSpec UdpProofs
  RobotModel LoopModel RobotSpec RobotProofs RobotWp LoopProofs Effects RobotMore RobotCalls CallFacts TypedModel TypedSpec ConvertFacts MotionModel
  JointMotionModel ExampleMotions ProgramModel MotionPrograms LiveUdp LiveSpec LiveProofs RobotScenario
  Properties_Commands Properties_Live ReplaySpec ReplayProofs Outputs Properties_Convert Properties_Replay Properties_Time MotionRun ClockFacts
  Properties_Accept Properties_JointMotion Properties_Examples Properties_Programs.
Import ListNotations.
Open Scope list_scope.
Open Scope N_scope.

(** * What the programs are meant to do *)
Inductive example := ExPosition | ExVelocity | ExPose | ExTwist | ExElbow.
(** The kind of motion, how long it takes in seconds and the settings before it. *)
Definition kind (e : example) : move_mg :=
  match e with ExPosition => MmJointPosition | ExVelocity => MmJointVelocity | ExPose | ExElbow => MmCartesianPosition | ExTwist => MmCartesianVelocity end.
Definition lasts (e : example) : Z := match e with ExPosition => 5 | ExVelocity => 2 | ExTwist => 8 | ExPose | ExElbow => 10 end%Z.
Definition prior (e : example) : list robot_request :=
  match e with
  | ExTwist =>
      let lower := [0x4039000000000000; 0x4039000000000000; 0x4036000000000000; 0x4034000000000000; 0x4033000000000000; 0x4031000000000000; 0x402C000000000000] in
      let upper := [0x4041800000000000; 0x4041800000000000; 0x4040000000000000; 0x403E000000000000; 0x403D000000000000; 0x403B000000000000; 0x4038000000000000] in
      let lower_force := [0x403E000000000000; 0x403E000000000000; 0x403E000000000000; 0x4039000000000000; 0x4039000000000000; 0x4039000000000000] in
      let upper_force := [0x4044000000000000; 0x4044000000000000; 0x4044000000000000; 0x4041800000000000; 0x4041800000000000; 0x4041800000000000] in
      [ReqSetJointImpedance [0x40A7700000000000; 0x40A7700000000000; 0x40A7700000000000; 0x40A3880000000000; 0x40A3880000000000; 0x409F400000000000; 0x409F400000000000];
       ReqSetCollisionBehavior lower upper lower upper lower_force upper_force lower_force upper_force]
  | _ =>
      let joints := [0x4034000000000000; 0x4034000000000000; 0x4032000000000000; 0x4032000000000000; 0x4030000000000000; 0x402C000000000000; 0x4028000000000000] in
      let forces := [0x4034000000000000; 0x4034000000000000; 0x4034000000000000; 0x4039000000000000; 0x4039000000000000; 0x4039000000000000] in
      [ReqSetCollisionBehavior joints joints joints joints forces forces forces forces]
  end.
(** Everything asked for before the motion itself: defaults, settings, motion to the start. *)
Definition opened (port : N) (e : example) (l : list robot_request) : Prop := exists d1 d2,
  l = ReqConnect port ::
      [ReqSetCollisionBehavior (repeat f64_20 7) (repeat f64_20 7) (repeat f64_10 7) (repeat f64_10 7) (repeat f64_20 6) (repeat f64_20 6) (repeat f64_10 6) (repeat f64_10 6);
       ReqSetJointImpedance [f64_3000; f64_3000; f64_3000; f64_2500; f64_2500; f64_2000; f64_2000];
       ReqSetCartesianImpedance [f64_3000; f64_3000; f64_3000; f64_300; f64_300; f64_300]] ++
      prior e ++ [ReqMove McJointImpedance MmJointPosition d1 d2].

Section Plans.
  Variables f_cos f_sin f_floor : F float -> F float.
  Variables f_powf f_fmod : F float -> F float -> F float.
  Definition pi64 : F float := of_bits 0x400921FB54442D18.
  Definition one64 : F float := of_bits 0x3FF0000000000000.
  Definition two64 : F float := of_bits 0x4000000000000000.
  Definition four64 : F float := of_bits 0x4010000000000000.
  Definition five64 : F float := of_bits 0x4014000000000000.
  (** a (1 - cos (w t)) *)
  Definition swing (a w t : F float) : F float := f_mul float a (f_sub float one64 (f_cos (f_mul float w t))).
  (** +- max / 2 (1 - cos (2 pi / period t)), the sign changing with every period *)
  Definition pulse (max period t : F float) : F float :=
    let sign := f_floor (f_powf (of_bits 0xBFF0000000000000) (f_div float (f_sub float t (f_fmod t period)) period)) in
    swing (f_div float (f_mul float sign max) two64) (f_div float (f_mul float two64 pi64) period) t.
  (** The numbers commanded at time [t] of the motion, [first] being the state when the motion began. *)
  Definition plan_numbers (e : example) (first : robot_state_intern) (t : F float) : list (F float) :=
    let q i := of_bits (nth i (rs_q_d first) 0) in
    let p i := of_bits (nth i (rs_O_T_EE_c first) 0) in
    match e with
    | ExPosition =>
        let d := swing (f_div float pi64 (of_bits 0x4020000000000000)) (f_div float pi64 (of_bits 0x4004000000000000)) t in
        [q 0; q 1; q 2; f_add float (q 3) d; f_add float (q 4) d; q 5; f_add float (q 6) d]%nat
    | ExVelocity => let w := pulse one64 one64 t in [of_bits 0; of_bits 0; of_bits 0; w; w; w; w]
    | ExPose =>
        let radius := of_bits 0x3FD3333333333333 in
        let angle := swing (f_div float pi64 four64) (f_div float pi64 five64) t in
        [p 0; p 1; p 2; p 3; p 4; p 5; p 6; p 7; p 8; p 9; p 10; p 11; f_add float (p 12) (f_mul float radius (f_sin angle)); p 13;
         f_add float (p 14) (f_mul float radius (f_sub float (f_cos angle) one64)); p 15]%nat
    | ExTwist =>
        let v := pulse (of_bits 0x3FB999999999999A) four64 t in
        let angle := f_div float pi64 four64 in
        [f_mul float (f_cos angle) v; of_bits 0; f_mul float (f_neg float (f_sin angle)) v; of_bits 0; of_bits 0; of_bits 0]
    | ExElbow => map p (seq 0 16)
    end.
  Definition plan_elbow (e : example) (first : robot_state_intern) (t : F float) : option (N * N) :=
    match e with
    | ExElbow =>
        let elbow i := of_bits (nth i (rs_elbow_c first) 0) in
        Some (bits (f_add float (elbow 0%nat) (swing (f_div float pi64 (of_bits 0x4024000000000000)) (f_div float pi64 five64) t)), bits (elbow 1%nat))
    | _ => None
    end.
  Definition plan_over (e : example) (t : F float) : bool :=
    f_ge float t (of_bits match e with ExPosition => 0x4014000000000000 | ExVelocity => 0x4000000000000000 | ExTwist => 0x4020000000000000 | _ => 0x4024000000000000 end).
  Definition plan (e : example) (first : robot_state_intern) (t : F float) : motion_out :=
    MotionOut (map bits (plan_numbers e first t)) (plan_elbow e first t) (plan_over e t).

  (** The programs *)
  Definition program_of (e : example) : motion_example :=
    match e with
    | ExPosition => position_example f_cos
    | ExVelocity => velocity_example f_cos f_floor f_powf f_fmod
    | ExPose => pose_example f_cos f_sin
    | ExTwist => twist_example f_cos f_sin f_floor f_powf f_fmod
    | ExElbow => elbow_example f_cos
    end.
End Plans.

(** The commands for these calls, after filter and limiter (100 Hz, on). *)
Section Told.
  Variable rots : rotations.
  Variable g : move_mg.
  Fixpoint told_from (out : F float -> motion_out) (m : motion_command) (t : F float) (calls : list (robot_state_intern * N)) : list (motion_command * bool) :=
    match calls with
    | [] => []
    | (x, dt) :: rest =>
        let t := f_add float t (as_secs_f64 dt) in
        match convert_motion rots g default_cutoff true (out t) x m with
        | None => []
        | Some m' => (marked (mc_finished m) m', o_finished (out t)) :: told_from out (marked (mc_finished m) m') t rest
        end
    end.
  Definition told_by (out : robot_state_intern -> F float -> motion_out) (calls : list (robot_state_intern * N)) : list (motion_command * bool) :=
    match calls with [] => [] | (first, _) :: _ => told_from (out first) zero_motion (of_bits 0) calls end.
  Lemma told_ext : forall o1 o2 calls m t, (forall t, o1 t = o2 t) -> told_from o1 m t calls = told_from o2 m t calls.
  Proof.
    intros o1 o2 calls m t H. revert m t. induction calls as [|[x dt] calls IH]; intros m t; [reflexivity|]. cbn [told_from]. rewrite H.
    destruct (convert_motion _ _ _ _ _ _ _); [|reflexivity]. f_equal. apply IH.
  Qed.
  Section Timed.
    Variable out : F float -> motion_out.
    Variable motion : F float -> robot_state_intern -> N -> option (F float * motion_out).
    Hypothesis motion_is : forall t x dt, motion t x dt = Some (f_add float t (as_secs_f64 dt), out (f_add float t (as_secs_f64 dt))).
    Let k := controller_of rots (UserControl (F float) g motion None None None None).
    Lemma timed_told : forall calls m t, answers k t m calls = told_from out m t calls.
    Proof.
      induction calls as [|[x dt] calls IH]; intros m t; [reflexivity|]. rewrite (answers_step k t m x dt calls _ _ (motion_is t x dt)). cbn [told_from].
      change (k_convert k) with (convert_motion rots g default_cutoff true). destruct (convert_motion _ _ _ _ _ x m); [|reflexivity].
      change (k_finished k) with o_finished. f_equal. apply IH.
    Qed.
    Lemma timed_gives : forall xs t before, gives (UserControl (F float) g motion None None None None) t before xs (map out (clock t (steps before xs))).
    Proof.
      induction xs as [|x xs IH]; intros t before; [exact Logic.I|]. cbn [steps clock map gives u_motion].
      exists (f_add float t (as_secs_f64 (rs_message_id x - before))). split; [apply motion_is|apply IH].
    Qed.
  End Timed.
  Section Captured.
    Variable A : Type.
    Variable start : A.
    Variable seen : robot_state_intern -> A.
    Variable out : A -> F float -> motion_out.
    Variable motion : F float * A -> robot_state_intern -> N -> option (F float * A * motion_out).
    Hypothesis motion_is : forall t c x dt, motion (t, c) x dt =
      (let t' := f_add float t (as_secs_f64 dt) in let c' := if f_eq float t' (f_int float 0) then seen x else c in Some ((t', c'), out c' t')).
    Let k := controller_of rots (UserControl (F float * A) g motion None None None None).
    Lemma later_told : forall c calls before m t, spaced_from before calls -> Forall (fun c => state_ok (fst c)) calls -> f_ge float t (f_int float 0) = true ->
      answers k (t, c) m calls = told_from (out c) m t calls.
    Proof.
      intros c. induction calls as [|[x dt] calls IH]; intros before m t S B G; [reflexivity|].
      destruct S as (S1 & S2 & S3). inversion B as [|? ? B1 B2]. subst. assert (Bd : 1 <= dt < 2 ^ 64) by (destruct B1 as [B1 _]; cbn [fst] in B1; unfold u64_ok in B1; lia).
      pose proof (later_not_zero t dt Bd G) as Z. pose proof (motion_is t c x dt) as M. cbv zeta in M. rewrite Z in M.
      rewrite (answers_step k (t, c) m x dt calls _ _ M). cbn [told_from].
      change (k_convert k) with (convert_motion rots g default_cutoff true). destruct (convert_motion _ _ _ _ _ x m); [|reflexivity].
      change (k_finished k) with o_finished. f_equal. apply (IH (rs_message_id x)); [exact S3|exact B2|].
      apply (step_ge t (f_int float 0) dt eq_refl); [change (val (f_int float 0)) with 0%R; lra|exact Bd|exact G].
    Qed.
    Lemma captured_told : forall calls, spaced calls -> Forall (fun c => state_ok (fst c)) calls ->
      answers k (f_int float 0, start) zero_motion calls = told_by (fun first => out (seen first)) calls.
    Proof.
      intros [|[x dt] calls] S B; [reflexivity|]. destruct S as [-> S]. inversion B as [|? ? B1 B2]. subst. cbn [told_by].
      assert (Z0 : f_int float 0 = of_bits 0) by (apply by_bits; vm_compute; reflexivity).
      assert (Z : f_add float (of_bits 0) (as_secs_f64 0) = of_bits 0) by (apply by_bits; vm_compute; reflexivity).
      assert (Ze : f_eq float (of_bits 0) (f_int float 0) = true) by (vm_compute; reflexivity).
      rewrite Z0. pose proof (motion_is (of_bits 0) start x 0) as M. cbv zeta in M. rewrite Z, Ze in M.
      etransitivity; [exact (answers_step k (of_bits 0, start) zero_motion x 0 calls _ _ M)|]. cbn [told_from]. rewrite Z.
      change (k_convert k) with (convert_motion rots g default_cutoff true).
      destruct (convert_motion _ _ _ _ _ x _); [|reflexivity].
      change (k_finished k) with o_finished. f_equal. apply (later_told (seen x) calls (rs_message_id x)); [exact S|exact B2|vm_compute; reflexivity].
    Qed.
    Let u := UserControl (F float * A) g motion None None None None.
    Lemma later_gives : forall c xs t before, newer before xs -> Forall state_ok xs -> f_ge float t (f_int float 0) = true ->
      gives u (t, c) before xs (map (out c) (clock t (steps before xs))).
    Proof.
      intros c. induction xs as [|x xs IH]; intros t before N B G; [exact Logic.I|]. destruct N as [N1 N2]. inversion B as [|? ? B1 B2]. subst.
      assert (Bd : 1 <= rs_message_id x - before < 2 ^ 64) by (destruct B1 as [B1 _]; unfold u64_ok in B1; lia).
      cbn [steps clock map gives]. exists (f_add float t (as_secs_f64 (rs_message_id x - before)), c). split.
      - pose proof (motion_is t c x (rs_message_id x - before)) as M. cbv zeta in M. rewrite (later_not_zero t _ Bd G) in M. exact M.
      - apply IH; [exact N2|exact B2|]. apply (step_ge t (f_int float 0) _ eq_refl); [change (val (f_int float 0)) with 0%R; lra|exact Bd|exact G].
    Qed.
    Lemma captured_gives : forall x xs, newer (rs_message_id x) xs -> Forall state_ok xs ->
      gives u (of_bits 0, start) (rs_message_id x) (x :: xs) (map (out (seen x)) (clock (of_bits 0) (steps (rs_message_id x) (x :: xs)))).
    Proof.
      intros x xs N B. cbn [steps clock map gives]. rewrite N.sub_diag.
      assert (Z : f_add float (of_bits 0) (as_secs_f64 0) = of_bits 0) by (apply by_bits; vm_compute; reflexivity).
      assert (Ze : f_eq float (of_bits 0) (f_int float 0) = true) by (vm_compute; reflexivity).
      pose proof (motion_is (of_bits 0) start x 0) as M. cbv zeta in M. rewrite Z, Ze in M. rewrite Z.
      exists (of_bits 0, seen x). split; [exact M|]. apply later_gives; [exact N|exact B|vm_compute; reflexivity].
    Qed.
  End Captured.
End Told.

Lemma seven : forall A (l : list A) d, List.length l = 7%nat -> l = [nth 0 l d; nth 1 l d; nth 2 l d; nth 3 l d; nth 4 l d; nth 5 l d; nth 6 l d].
Proof. intros A l d H. destruct l as [|? [|? [|? [|? [|? [|? [|? [|]]]]]]]]; try discriminate H. reflexivity. Qed.
Lemma sixteen : forall A (l : list A) d, List.length l = 16%nat -> l = map (fun i => nth i l d) (seq 0 16).
Proof. intros A l d H. destruct l as [|? [|? [|? [|? [|? [|? [|? [|? [|? [|? [|? [|? [|? [|? [|? [|? [|]]]]]]]]]]]]]]]]]; try discriminate H. reflexivity. Qed.
Section Programs.
  Variable rots : rotations.
  Variables f_cos f_sin f_floor : F float -> F float.
  Variables f_powf f_fmod : F float -> F float -> F float.
  Let prog := program_of f_cos f_sin f_floor f_powf f_fmod.
  Let planned := plan f_cos f_sin f_floor f_powf f_fmod.
  Let k e := controller_of rots (e_user (prog e)).
  Lemma program_numbers : forall e, e_settings (prog e) = prior e /\ u_generator (e_user (prog e)) = kind e.
  Proof. intros []; split; try reflexivity; vm_compute; reflexivity. Qed.
  Ltac numbers :=
    rewrite <- ?(by_bits (f_pi float) 0x400921FB54442D18) by (vm_compute; reflexivity);
    rewrite <- ?(by_bits (f_int float 1) 0x3FF0000000000000) by (vm_compute; reflexivity);
    rewrite <- ?(by_bits (f_int float 0) 0) by (vm_compute; reflexivity);
    rewrite <- ?(by_bits (f_int float 2) 0x4000000000000000) by (vm_compute; reflexivity);
    rewrite <- ?(by_bits (f_int float 4) 0x4010000000000000) by (vm_compute; reflexivity);
    rewrite <- ?(by_bits (f_int float 5) 0x4014000000000000) by (vm_compute; reflexivity);
    rewrite <- ?(by_bits (f_int float 8) 0x4020000000000000) by (vm_compute; reflexivity);
    rewrite <- ?(by_bits (f_int float 10) 0x4024000000000000) by (vm_compute; reflexivity);
    rewrite <- ?(by_bits (f_lit float 5 2) 0x4004000000000000) by (vm_compute; reflexivity);
    rewrite <- ?(by_bits (f_lit float 3 10) 0x3FD3333333333333) by (vm_compute; reflexivity);
    rewrite <- ?(by_bits (f_lit float 1 10) 0x3FB999999999999A) by (vm_compute; reflexivity);
    rewrite <- ?(by_bits (f_neg float (f_int float 1)) 0xBFF0000000000000) by (vm_compute; reflexivity).
  Lemma told_position : forall calls, spaced calls -> Forall (fun c => state_ok (fst c)) calls ->
    answers (k ExPosition) (e_start (prog ExPosition)) zero_motion calls = told_by rots MmJointPosition (planned ExPosition) calls.
  Proof.
    intros calls S B.
    set (out := fun (q : list (F float)) t => MotionOut (map bits (raise_joints float
       (f_mul float (f_div float (f_pi float) (f_int float 8)) (f_sub float (f_int float 1) (f_cos (f_mul float (f_div float (f_pi float) (f_lit float 5 2)) t)))) q)) None
       (f_ge float t (f_int float 5))).
    etransitivity; [apply (captured_told rots MmJointPosition (list (F float)) (snd (position_start float)) (fun x => map of_bits (rs_q_d x)) out); auto|].
    destruct calls as [|[x dt] calls]; [reflexivity|]. unfold told_by. apply told_ext. intros t. inversion B as [|? ? B1 _]. subst.
    destruct B1 as (_ & _ & _ & _ & _ & _ & _ & _ & Q & _). cbn [fst] in Q. rewrite Forall_forall in Q. destruct (Q (rs_q_d x)) as [L _]; [cbn [In]; tauto|].
    unfold out, planned, plan, plan_numbers, plan_elbow, plan_over, swing, pi64, one64. rewrite (seven _ (rs_q_d x) 0 L) at 1. cbn [map raise_joints]. numbers. reflexivity.
  Qed.
  Lemma told_pose : forall calls, spaced calls -> Forall (fun c => state_ok (fst c)) calls ->
    answers (k ExPose) (e_start (prog ExPose)) zero_motion calls = told_by rots MmCartesianPosition (planned ExPose) calls.
  Proof.
    intros calls S B.
    set (angle := fun t => f_mul float (f_div float (f_pi float) (f_int float 4)) (f_sub float (f_int float 1) (f_cos (f_mul float (f_div float (f_pi float) (f_int float 5)) t)))).
    set (out := fun (q : list (F float)) t => MotionOut (map bits (shift_pose float
       (f_mul float (f_lit float 3 10) (f_sin (angle t))) (f_mul float (f_lit float 3 10) (f_sub float (f_cos (angle t)) (f_int float 1))) q)) None
       (f_ge float t (f_int float 10))).
    etransitivity; [apply (captured_told rots MmCartesianPosition (list (F float)) (snd (pose_start float)) (fun x => map of_bits (rs_O_T_EE_c x)) out); auto|].
    destruct calls as [|[x dt] calls]; [reflexivity|]. unfold told_by. apply told_ext. intros t. inversion B as [|? ? B1 _]. subst.
    destruct B1 as (_ & _ & _ & _ & Q & _). cbn [fst] in Q. rewrite Forall_forall in Q. destruct (Q (rs_O_T_EE_c x)) as [L _]; [cbn [In]; tauto|].
    unfold out, angle, planned, plan, plan_numbers, plan_elbow, plan_over, swing, pi64, one64, four64, five64. rewrite (sixteen _ (rs_O_T_EE_c x) 0 L) at 1. cbn [map seq shift_pose]. numbers. reflexivity.
  Qed.
  Lemma told_elbow : forall calls, spaced calls -> Forall (fun c => state_ok (fst c)) calls ->
    answers (k ExElbow) (e_start (prog ExElbow)) zero_motion calls = told_by rots MmCartesianPosition (planned ExElbow) calls.
  Proof.
    intros calls S B.
    set (angle := fun t => f_mul float (f_div float (f_pi float) (f_int float 10)) (f_sub float (f_int float 1) (f_cos (f_mul float (f_div float (f_pi float) (f_int float 5)) t)))).
    set (out := fun (q : list (F float) * (F float * F float)) t => MotionOut (map bits (fst q)) (Some (bits (f_add float (fst (snd q)) (angle t)), bits (snd (snd q))))
       (f_ge float t (f_int float 10))).
    etransitivity; [apply (captured_told rots MmCartesianPosition (list (F float) * (F float * F float)) (snd (elbow_start float))
      (fun x => (map of_bits (rs_O_T_EE_c x), (of_bits (nth 0 (rs_elbow_c x) 0), of_bits (nth 1 (rs_elbow_c x) 0)))) out); auto|].
    { intros t [pose [el sg]] x dt. unfold elbow_step. cbn [fst snd]. cbv zeta. destruct (f_eq float _ _); reflexivity. }
    destruct calls as [|[x dt] calls]; [reflexivity|]. unfold told_by. apply told_ext. intros t. inversion B as [|? ? B1 _]. subst.
    destruct B1 as (_ & _ & _ & _ & Q & _). cbn [fst] in Q. rewrite Forall_forall in Q. destruct (Q (rs_O_T_EE_c x)) as [L _]; [cbn [In]; tauto|].
    unfold out, angle, planned, plan, plan_numbers, plan_elbow, plan_over, swing, pi64, one64, five64. cbn [fst snd]. rewrite (sixteen _ (rs_O_T_EE_c x) 0 L) at 1. rewrite map_map. numbers. reflexivity.
  Qed.
  Lemma told_velocity : forall calls,
    answers (k ExVelocity) (e_start (prog ExVelocity)) zero_motion calls = told_by rots MmJointVelocity (planned ExVelocity) calls.
  Proof.
    intros calls.
    etransitivity; [apply (timed_told rots MmJointVelocity (planned ExVelocity (match calls with [] => ex_idle 0 | c :: _ => fst c end)))|].
    - intros t x dt. unfold plain, velocity_motion, velocity_step, speed, planned, plan, plan_numbers, plan_elbow, plan_over, pulse, swing, pi64, one64, two64. cbn [fst snd map].
      assert (D : f_mul float (f_int float 2) (f_int float 1) = of_bits 0x4000000000000000) by (apply by_bits; vm_compute; reflexivity). rewrite D. numbers. reflexivity.
    - destruct calls as [|[x dt] calls]; [reflexivity|]. unfold told_by. cbn [fst]. f_equal.
  Qed.
  Lemma told_twist : forall calls,
    answers (k ExTwist) (e_start (prog ExTwist)) zero_motion calls = told_by rots MmCartesianVelocity (planned ExTwist) calls.
  Proof.
    intros calls.
    etransitivity; [apply (timed_told rots MmCartesianVelocity (planned ExTwist (match calls with [] => ex_idle 0 | c :: _ => fst c end)))|].
    - intros t x dt. unfold plain, twist_step, speed, planned, plan, plan_numbers, plan_elbow, plan_over, pulse, swing, pi64, one64, two64, four64. cbn [fst snd map].
      assert (D : f_mul float (f_int float 2) (f_int float 4) = of_bits 0x4020000000000000) by (apply by_bits; vm_compute; reflexivity). rewrite D. numbers. reflexivity.
    - destruct calls as [|[x dt] calls]; [reflexivity|]. unfold told_by. cbn [fst]. f_equal.
  Qed.
  Let user e := e_user (prog e).
  Lemma gives_position : forall x xs, newer (rs_message_id x) xs -> Forall state_ok (x :: xs) ->
    gives (user ExPosition) (e_start (prog ExPosition)) (rs_message_id x) (x :: xs) (map (planned ExPosition x) (clock (of_bits 0) (steps (rs_message_id x) (x :: xs)))).
  Proof.
    intros x xs N B. inversion B as [|? ? B1 B2]. subst.
    set (out := fun (q : list (F float)) t => MotionOut (map bits (raise_joints float
       (f_mul float (f_div float (f_pi float) (f_int float 8)) (f_sub float (f_int float 1) (f_cos (f_mul float (f_div float (f_pi float) (f_lit float 5 2)) t)))) q)) None
       (f_ge float t (f_int float 5))).
    assert (E : forall t, planned ExPosition x t = out (map of_bits (rs_q_d x)) t).
    { intros t. symmetry. destruct B1 as (_ & _ & _ & _ & _ & _ & _ & _ & Q & _). rewrite Forall_forall in Q. destruct (Q (rs_q_d x)) as [L _]; [cbn [In]; tauto|].
      unfold out, planned, plan, plan_numbers, plan_elbow, plan_over, swing, pi64, one64. rewrite (seven _ (rs_q_d x) 0 L) at 1. cbn [map raise_joints]. numbers. reflexivity. }
    rewrite (map_ext _ _ E). apply (captured_gives MmJointPosition (list (F float)) (snd (position_start float)) (fun x => map of_bits (rs_q_d x)) out); auto.
  Qed.
  Lemma gives_velocity : forall x xs,
    gives (user ExVelocity) (e_start (prog ExVelocity)) (rs_message_id x) (x :: xs) (map (planned ExVelocity x) (clock (of_bits 0) (steps (rs_message_id x) (x :: xs)))).
  Proof.
    intros x xs. apply (timed_gives MmJointVelocity (planned ExVelocity x)).
    intros t y dt. unfold plain, velocity_motion, velocity_step, speed, planned, plan, plan_numbers, plan_elbow, plan_over, pulse, swing, pi64, one64, two64. cbn [fst snd map].
    assert (D : f_mul float (f_int float 2) (f_int float 1) = of_bits 0x4000000000000000) by (apply by_bits; vm_compute; reflexivity). rewrite D. numbers. reflexivity.
  Qed.
  Lemma gives_twist : forall x xs,
    gives (user ExTwist) (e_start (prog ExTwist)) (rs_message_id x) (x :: xs) (map (planned ExTwist x) (clock (of_bits 0) (steps (rs_message_id x) (x :: xs)))).
  Proof.
    intros x xs. apply (timed_gives MmCartesianVelocity (planned ExTwist x)).
    intros t y dt. unfold plain, twist_step, speed, planned, plan, plan_numbers, plan_elbow, plan_over, pulse, swing, pi64, one64, two64, four64. cbn [fst snd map].
    assert (D : f_mul float (f_int float 2) (f_int float 4) = of_bits 0x4020000000000000) by (apply by_bits; vm_compute; reflexivity). rewrite D. numbers. reflexivity.
  Qed.
  Lemma told_program : forall e calls, spaced calls -> Forall (fun c => state_ok (fst c)) calls ->
    answers (k e) (e_start (prog e)) zero_motion calls = told_by rots (kind e) (planned e) calls.
  Proof.
    intros [] calls S B; [apply told_position|apply told_velocity|apply told_pose|apply told_twist|apply told_elbow]; assumption.
  Qed.

  (** The states and time steps of one call. *)
  Lemma call_states : forall k cb s r s', reachable s -> control k cb s = (r, s') ->
    exists d, trace s' = d ++ trace s /\ spaced (rev (motion_calls d)) /\ Forall (fun c => state_ok (fst c)) (rev (motion_calls d)).
  Proof.
    clear. intros k cb s r s' R E. destruct (C18_one_call k cb s r s' R E) as (d & T & S). exists d. split; [exact T|]. split; [exact S|].
    pose proof (control_I k cb s (reachable_I s R)) as L. rewrite E in L. cbn [snd] in L.
    assert (Ok : forall x, In (EvState x) (trace s') -> state_ok x).
    { set (ok := outs_ok (fun _ _ _ => True) (fun _ _ => True)).
      assert (G : ok (trace s)).
      { assert (A : forall a, keeps (fun _ _ _ => True) (fun _ _ => True) (run_api a)) by (intros a; apply keeps_api; destruct a; cbn [keeping]; auto;
          apply (keeps_control _ _ _ (fun _ => True)); auto).
        clear - R A. induction R as [n rt us ts se rk pr port u s E|s a u s' R IH E|s a e s' R IH E].
        - pose proof (keeps_new (fun _ _ _ => True) (fun _ _ => True) port (st_init n rt us ts se rk pr) Logic.I) as G. rewrite E in G. exact G.
        - pose proof (A a s IH) as G. rewrite E in G. exact G.
        - pose proof (A a s IH) as G. rewrite E in G. exact G. }
      assert (K : keeps (fun _ _ _ => True) (fun _ _ => True) (control k cb)) by (apply (keeps_control _ _ k (fun _ => True)); auto).
      pose proof (K s G) as G'. rewrite E in G'. intros x. apply outs_state with (1 := G'). }
    apply Forall_rev. apply Forall_forall. intros [x dt] H. unfold motion_calls in H. apply in_flat_map in H. destruct H as (ev & H1 & H2).
    destruct ev; cbn in H2; try contradiction. destruct H2 as [H2|[]]. injection H2 as -> ->. cbn [fst].
    apply in_split in H1. destruct H1 as (a & b & ->). rewrite T, <- app_assoc in L. apply RobotMore.lawful_split in L. destruct L as [(_ & _ & t2 & Et & _) _].
    change (b ++ trace s = EvState x :: t2) in Et. apply Ok. rewrite T, <- app_assoc. apply in_or_app. right. right. change (In (EvState x) (b ++ trace s)). rewrite Et. left. reflexivity.
  Qed.
  Lemma settings_setters : forall rs s, settings rs s = setters rs s.
  Proof. induction rs as [|r rs IH]; intros s; [reflexivity|]. cbn [settings setters]. unfold bind. destruct (setter r s) as [[u|e|p| |] s1]; auto. Qed.
  Lemma settings_reachable : forall rs s u s', reachable s -> settings rs s = (Ok u, s') -> reachable s'.
  Proof.
    induction rs as [|q rs IH]; intros s u s' R E; [injection E as _ <-; exact R|]. cbn [settings] in E. unfold bind in E.
    destruct (setter q s) as [[u1|e|p| |] s1] eqn:E1; try discriminate E. apply (IH s1 u s'); [|exact E]. apply (reach_ok s (ASetter q) u1 s1 R E1).
  Qed.
End Programs.

(** Command [i] of a motion is its last exactly when the time is over: not before [lasts] seconds, and in any case 1 ms later. *)
Definition timely (e : example) (calls : list (robot_state_intern * N)) (outs : list (motion_command * bool)) : Prop :=
  forall i first dt0 x dt c fin, nth_error calls 0 = Some (first, dt0) -> nth_error calls i = Some (x, dt) -> nth_error outs i = Some (c, fin) ->
  let ms := (Z.of_N (rs_message_id x) - Z.of_N (rs_message_id first))%Z in
  (ms < 1000 * lasts e -> fin = false)%Z /\ (1000 * lasts e < ms -> fin = true)%Z.
Lemma told_clock : forall rots g out calls m t i c fin, nth_error (told_from rots g out m t calls) i = Some (c, fin) ->
  exists t', nth_error (clock t calls) i = Some t' /\ fin = o_finished (out t').
Proof.
  intros rots g out. induction calls as [|[x dt] calls IH]; intros m t i c fin H; [destruct i; discriminate H|].
  cbn [told_from] in H. cbv zeta in H. destruct (convert_motion _ _ _ _ _ _ _) as [m'|]; [|destruct i; discriminate H].
  destruct i as [|i].
  - cbn [nth_error] in H. injection H as _ <-. exists (f_add float t (as_secs_f64 dt)). split; reflexivity.
  - cbn [nth_error] in H. apply IH in H. exact H.
Qed.
Lemma Forall2_nth : forall A B (P : A -> B -> Prop) l l' i a b, Forall2 P l l' -> nth_error l i = Some a -> nth_error l' i = Some b -> P a b.
Proof.
  intros A B P l l' i a b H. revert i. induction H as [|x y l l' H1 H2 IH]; intros [|i] Ha Hb; try discriminate Ha.
  - injection Ha as <-. injection Hb as <-. exact H1.
  - apply (IH i); assumption.
Qed.
Lemma told_timely : forall rots f_cos f_sin f_floor f_powf f_fmod e calls, spaced calls -> Forall (fun c => state_ok (fst c)) calls ->
  timely e calls (told_by rots (kind e) (plan f_cos f_sin f_floor f_powf f_fmod e) calls).
Proof.
  intros rots f_cos f_sin f_floor f_powf f_fmod e calls S B i first dt0 x dt c fin H0 Hi Ho ms0.
  destruct calls as [|[f d0] calls]; [discriminate H0|]. injection H0 as -> ->. destruct S as [-> S]. unfold told_by in Ho.
  destruct (told_clock _ _ _ _ _ _ _ _ _ Ho) as (t & Ht & ->). clear Ho. cbn [plan o_finished].
  assert (Ov : plan_over e t = f_ge float t (f_int float (lasts e))) by (unfold plan_over; f_equal; symmetry; apply by_bits; destruct e; vm_compute; reflexivity).
  rewrite Ov. clear Ov.
  assert (V : b64_fin (f_int float (lasts e)) = true /\ val (f_int float (lasts e)) = IZR (lasts e)).
  { destruct e; cbn [lasts]; (split; [vm_compute; reflexivity|]).
    - destruct (val_finite (f_int float 5) false 5629499534213120 (-50)) as [_ V]; [vm_compute; reflexivity|]. rewrite V. cbn. lra.
    - destruct (val_finite (f_int float 2) false 4503599627370496 (-51)) as [_ V]; [vm_compute; reflexivity|]. rewrite V. cbn. lra.
    - destruct (val_finite (f_int float 10) false 5629499534213120 (-49)) as [_ V]; [vm_compute; reflexivity|]. rewrite V. cbn. lra.
    - destruct (val_finite (f_int float 8) false 4503599627370496 (-49)) as [_ V]; [vm_compute; reflexivity|]. rewrite V. cbn. lra.
    - destruct (val_finite (f_int float 10) false 5629499534213120 (-49)) as [_ V]; [vm_compute; reflexivity|]. rewrite V. cbn. lra. }
  assert (BT : (1 <= lasts e <= 1000)%Z) by (destruct e; cbn; lia).
  assert (Z : f_add float (of_bits 0) (as_secs_f64 0) = of_bits 0) by (apply by_bits; vm_compute; reflexivity).
  assert (A : Forall2 (fun c t => on_time (rs_message_id first) (lasts e) (fst c) t) ((first, 0) :: calls) (clock (of_bits 0) ((first, 0) :: calls))).
  { cbn [clock]. rewrite Z. constructor.
    - split; cbn [fst]; intros Hh; [|lia]. destruct e; vm_compute; reflexivity.
    - apply (clock_on_time (lasts e) BT (proj1 V) (proj2 V) calls (rs_message_id first) (rs_message_id first) (of_bits 0) S).
      + inversion B as [|? ? _ B2]. subst. eapply Forall_impl; [|exact B2]. intros [y dy] (Y & _). exact Y.
      + lia.
      + left. split; [vm_compute; reflexivity|]. change (val (of_bits 0)) with 0%R. split; [split; [lra|apply (IZR_lt 0); lia]|].
        set (n := ms (rs_message_id first)). clearbody n. apply Rabs_le. lra. }
  destruct (Forall2_nth _ _ _ _ _ _ _ _ A Hi Ht) as [O1 O2]. cbn [fst] in O1, O2. unfold ms0. split; intros Hh; [apply O1|apply O2]; lia.
Qed.
(** With a state every millisecond the motions of 2 and 10 s take 1 ms longer: the sum of 2000 or 10000 times 0.001 in binary64 is less than
    2 or 10, that of 5000 or 8000 times is not less than 5 or 8. *)
Definition extra (e : example) : N := match e with ExPosition | ExTwist => 0 | _ => 1 end.
Definition ticks (n : N) : F float := let dt := as_secs_f64 1 in N.iter n (fun t => f_add float t dt) (of_bits 0).
Lemma clock_ticks : forall calls n i t, Forall (fun c => snd c = 1) calls -> nth_error (clock (ticks n) calls) i = Some t -> t = ticks (n + 1 + N.of_nat i).
Proof.
  induction calls as [|[x dt] calls IH]; intros n i t F H; [destruct i; discriminate H|]. inversion F as [|? ? F1 F2]. subst. cbn [snd] in F1. subst dt.
  cbn [clock] in H. cbv zeta in H. assert (E : f_add float (ticks n) (as_secs_f64 1) = ticks (n + 1)) by (rewrite N.add_1_r; unfold ticks; rewrite N.iter_succ; reflexivity).
  rewrite E in H. destruct i as [|i]; cbn [nth_error] in H.
  - injection H as <-. f_equal. lia.
  - rewrite (IH (n + 1) i t F2 H). f_equal. lia.
Qed.
Theorem C76_every_ms : forall rots f_cos f_sin f_floor f_powf f_fmod e x calls i c fin,
  spaced ((x, 0) :: calls) -> Forall (fun c => state_ok (fst c)) ((x, 0) :: calls) -> Forall (fun c => snd c = 1) calls ->
  nth_error (told_by rots (kind e) (plan f_cos f_sin f_floor f_powf f_fmod e) ((x, 0) :: calls)) i = Some (c, fin) ->
  (fin = true <-> Z.to_N (1000 * lasts e) + extra e <= N.of_nat i).
Proof.
  intros rots f_cos f_sin f_floor f_powf f_fmod e x calls i c fin S B F H.
  assert (Ex : exists y dt, nth_error ((x, 0) :: calls) i = Some (y, dt) /\ rs_message_id y = rs_message_id x + N.of_nat i /\ fin = plan_over e (ticks (N.of_nat i))).
  { unfold told_by in H. destruct (told_clock _ _ _ _ _ _ _ _ _ H) as (t & Ht & Hf). cbn [plan o_finished] in Hf. clear H B. destruct S as [_ S].
    assert (Z : f_add float (of_bits 0) (as_secs_f64 0) = of_bits 0) by (apply by_bits; vm_compute; reflexivity). cbn [clock] in Ht. rewrite Z in Ht.
    destruct i as [|i]; cbn [nth_error] in Ht |- *.
    - injection Ht as <-. exists x, 0. split; [reflexivity|]. split; [cbn; lia|exact Hf].
    - change (of_bits 0) with (ticks 0) in Ht. pose proof (clock_ticks calls 0 i t F Ht) as ->. replace (0 + 1 + N.of_nat i) with (N.of_nat (Datatypes.S i)) in Hf by lia.
      assert (Ln : exists z, nth_error calls i = Some z).
      { clear - Ht. revert Ht. generalize (ticks 0), (ticks (0 + 1 + N.of_nat i)). revert i. induction calls as [|[a b] calls IH]; intros i t0 t1 Ht; [destruct i; discriminate Ht|]. destruct i as [|i]; cbn [nth_error] in Ht |- *; [eauto|]. exact (IH i _ _ Ht). }
      destruct Ln as [[y dt] Hy]. exists y, dt. split; [exact Hy|]. split; [|exact Hf]. clear - S F Hy. revert S i Hy. generalize (rs_message_id x) as b. clear x.
      induction F as [|[a d] calls F1 F2 IH]; intros b S i Hy; [destruct i; discriminate Hy|]. cbn [snd] in F1. subst d. destruct S as (_ & S2 & S3). destruct i as [|i]; cbn [nth_error] in Hy.
      + injection Hy as <- <-. lia.
      + rewrite (IH _ S3 i Hy). lia. }
  destruct Ex as (y & dt & Hy & Id & ->).
  destruct (told_timely rots f_cos f_sin f_floor f_powf f_fmod e _ S B i x 0 y dt c _ eq_refl Hy H) as [T1 T2].
  destruct (N.lt_trichotomy (N.of_nat i) (Z.to_N (1000 * lasts e))) as [L|[L|L]].
  - assert (Lf : plan_over e (ticks (N.of_nat i)) = false) by (apply T1; destruct e; cbn [lasts] in *; lia). rewrite Lf. split; [discriminate|]. intros. destruct e; cbn [extra lasts] in *; lia.
  - assert (Lf : plan_over e (ticks (N.of_nat i)) = match e with ExPosition | ExTwist => true | _ => false end) by (rewrite L; destruct e; vm_compute; reflexivity).
    rewrite Lf, L. destruct e; cbn [extra lasts]; split; try discriminate; try reflexivity; intros; lia.
  - assert (Lf : plan_over e (ticks (N.of_nat i)) = true) by (apply T2; destruct e; cbn [lasts] in *; lia). rewrite Lf. split; [|reflexivity]. intros _. destruct e; cbn [extra lasts] in *; lia.
Qed.
Print Assumptions C76_every_ms.

(** A motion request of the program. *)
Definition motion_of (e : example) (q : robot_request) : Prop := exists d1 d2, q = ReqMove McJointImpedance (kind e) d1 d2.
(** The commands are those of the plan, from the first state of the motion on; the clock starts at zero and advances by the time between the states. *)
Definition made (rots : rotations) (out : robot_state_intern -> F float -> motion_out) (e : example) (m : list event) : Prop :=
  spaced (rev (motion_calls m)) /\ rev (motion_outputs m) = told_by rots (kind e) out (rev (motion_calls m)) /\ timely e (rev (motion_calls m)) (rev (motion_outputs m)).
(** The program ends before the motion (only with a failure), or all was prepared, the robot went to the start and the motion follows. *)
Definition example_spec (rots : rotations) (out : robot_state_intern -> F float -> motion_out) (e : example) (port : N) (r : outcome unit) (t : list event) : Prop :=
  r <> OutOfFuel /\
  (((forall u, r <> Ok u) /\ exists l, opened port e l /\ (prefix_of (in_order_asked t) l \/ in_order_asked t = l ++ [ReqStopMove])) \/
   (exists m before, t = m ++ before /\ opened port e (in_order_asked before) /\ approached before /\ made rots out e m /\ exists q, motion_of e q /\
    match r with
    | Ok _ => in_order_asked m = [q]
    | _ => In (in_order_asked m) [[]; [q]; [q; ReqStopMove]]
    end)).
Lemma example_runs : forall rots out k start e port s0 r s', fresh_handle s0 -> (forall u s, robot_new port s0 = (Ok u, s) -> reachable s) -> trace s0 = [] ->
  (forall calls, spaced calls -> Forall (fun c => state_ok (fst c)) calls -> answers k start zero_motion calls = told_by rots (kind e) out calls /\ timely e calls (told_by rots (kind e) out calls)) ->
  k_mode k = kind e -> wanted_ctrl k = McJointImpedance -> k_torque k = None ->
  (robot_new port ;;; set_default_behavior ;;; settings (prior e) ;;;
   control (controller_of rots joint_motion) (joint_motion_start (bits (f_lit float 1 2)) consecutive_goal) ;;; control k start) s0 = (r, s') ->
  example_spec rots out e port r (trace s').
Proof.
  intros rots out k start e port s0 r s' Fh Rn T0 Told Km Pc Kt E. unfold bind at 1 in E.
  set (a := [ReqSetCollisionBehavior (repeat f64_20 7) (repeat f64_20 7) (repeat f64_10 7) (repeat f64_10 7) (repeat f64_20 6) (repeat f64_20 6) (repeat f64_10 6) (repeat f64_10 6);
       ReqSetJointImpedance [f64_3000; f64_3000; f64_3000; f64_2500; f64_2500; f64_2000; f64_2000];
       ReqSetCartesianImpedance [f64_3000; f64_3000; f64_3000; f64_300; f64_300; f64_300]]).
  set (mv := ReqMove McJointImpedance MmJointPosition default_deviation default_deviation).
  set (b := prior e) in *.
  assert (P : opened port e (ReqConnect port :: a ++ b ++ [mv])) by (exists default_deviation, default_deviation; reflexivity). clearbody b.
  destruct (robot_new port s0) as [r1 s1] eqn:E1. destruct (connect_asked _ _ _ _ E1) as [Q1 O1]. specialize (O1 Fh).
  rewrite T0 in Q1. change (requests []) with (@nil robot_request) in Q1.
  assert (Early : forall r2 sent rest, r2 <> OutOfFuel -> (forall u, r2 <> Ok u) -> requests (trace s') = sent -> ReqConnect port :: a ++ b ++ [mv] = rev sent ++ rest ->
    example_spec rots out e port r2 (trace s')).
  { intros r2 sent rest O N Q S. split; [exact O|]. left. split; [exact N|]. eexists. split; [exact P|]. left. exists rest. unfold in_order_asked. rewrite Q. exact S. }
  destruct r1 as [u1|er|p| |]; [|injection E as <- <-; eapply (Early _ _ (a ++ b ++ [mv])); [discriminate|intros; discriminate|exact Q1|reflexivity]..|contradiction (O1 eq_refl)].
  assert (R1 : reachable s1) by (apply (Rn u1); reflexivity).
  unfold bind at 1 in E. destruct (set_default_behavior s1) as [r2 s2] eqn:E2. pose proof E2 as E2'. rewrite defaults_setters in E2'.
  destruct (setters_asked _ _ _ _ E2') as (O2 & sent & rest & S2 & Q2 & N2). fold a in S2. rewrite Q1 in Q2.
  destruct r2 as [u2|er|p| |]; [|injection E as <- <-; eapply (Early _ _ (rest ++ b ++ [mv])); [discriminate|intros; discriminate|exact Q2|rewrite S2, rev_app_distr, rev_involutive; cbn [rev app]; rewrite <- app_assoc; reflexivity]..|contradiction (O2 eq_refl)].
  rewrite (N2 u2 eq_refl), app_nil_r in S2. subst sent. clear N2 E2'.
  assert (R2 : reachable s2) by (apply (reach_ok s1 ADefaults u2 s2 R1 E2)).
  unfold bind at 1 in E. destruct (settings b s2) as [r3 s3] eqn:E3. pose proof E3 as E3'. rewrite settings_setters in E3'.
  destruct (setters_asked _ _ _ _ E3') as (O3 & sent & rest' & S3 & Q3 & N3). rewrite Q2 in Q3.
  destruct r3 as [u3|er|p| |]; [|injection E as <- <-; eapply (Early _ _ (rest' ++ [mv])); [discriminate|intros; discriminate|exact Q3|rewrite S3, !rev_app_distr, !rev_involutive; cbn [rev app]; rewrite <- !app_assoc; reflexivity]..|contradiction (O3 eq_refl)].
  rewrite (N3 u3 eq_refl), app_nil_r in S3. subst sent. clear N3 E3'.
  assert (R3 : reachable s3) by (apply (settings_reachable b s2 u3 s3 R2 E3)).
  unfold bind at 1 in E. destruct goal_numbers as [Gn Hn]. rewrite Gn, Hn in E. clear Gn Hn.
  assert (Ap : forall r4 s4, control (controller_of rots joint_motion) (joint_motion_start 0x3FE0000000000000 start_position) s3 = (r4, s4) ->
    requests (trace s4) = mv :: requests (trace s3) -> approached (trace s4)).
  { intros r4 s4 E4 C. destruct (C58_samples _ _ _ _ _ _ E4) as (m & T & _ & H). exists m, (trace s3). split; [exact T|]. split; [|exact H].
    exists default_deviation, default_deviation. rewrite T, requests_app in C. apply (app_inv_tail (requests (trace s3))). exact C. }
  set (kj := controller_of rots joint_motion) in E, Ap. set (gj := joint_motion_start 0x3FE0000000000000 start_position) in E, Ap. change (u_cb joint_motion) with (k_cb kj) in gj. clearbody gj.
  destruct (control kj gj s3) as [r4 s4] eqn:E4. pose proof (control_requests kj gj s3 R3) as C. rewrite E4 in C.
  change (ReqMove (wanted_ctrl kj) (k_mode kj) default_deviation default_deviation) with mv in C.
  assert (W4 : r4 <> OutOfFuel).
  { pose proof (wp_api (AControl kj gj) s3 (reachable_I s3 R3)) as W. unfold wp in W. cbn [run_api] in W. rewrite E4 in W. destruct r4; try discriminate. contradiction. }
  assert (Q3' : rev (requests (trace s3)) = ReqConnect port :: a ++ b) by (rewrite Q3; cbn [rev]; rewrite !rev_app_distr, !rev_involutive; reflexivity).
  assert (Late : forall r2, r2 <> OutOfFuel -> (forall u, r2 <> Ok u) ->
    requests (trace s4) = requests (trace s3) \/ requests (trace s4) = mv :: requests (trace s3) \/ requests (trace s4) = ReqStopMove :: mv :: requests (trace s3) ->
    example_spec rots out e port r2 (trace s4)).
  { intros r2 O N H. split; [exact O|]. left. split; [exact N|]. exists (ReqConnect port :: a ++ b ++ [mv]). split; [exact P|].
    unfold in_order_asked, prefix_of. destruct H as [H|[H|H]]; rewrite H; cbn [rev]; rewrite Q3'.
    - left. exists [mv]. cbn [app]. rewrite <- app_assoc. reflexivity.
    - left. exists []. cbn [app]. rewrite app_nil_r, <- app_assoc. reflexivity.
    - right. cbn [app]. rewrite <- !app_assoc. reflexivity. }
  destruct r4 as [u4|er|p| |]; [|injection E as <- <-; apply Late; [discriminate|intros; discriminate|exact C]..|contradiction (W4 eq_refl)].
  assert (R4 : reachable s4) by (apply (reach_ok s3 (AControl kj gj) u4 s4 R3 E4)).
  pose proof (control_requests k start s4 R4) as C5. pose proof (wp_api (AControl k start) s4 (reachable_I s4 R4)) as W5. unfold wp in W5. cbn [run_api] in W5. rewrite E in C5, W5.
  destruct (C56_function_of_states k start s4 r s' Kt E) as (d & T & A & _). destruct (call_states k start s4 r s' R4 E) as (d' & T' & Sp & So).
  rewrite T in T'. apply app_inv_tail in T'. subst d'. destruct (Told _ Sp So) as [To Ti]. rewrite To in A.
  split; [intros ->; exact W5|]. right. exists d, (trace s4). split; [exact T|].
  split; [unfold in_order_asked; rewrite C; cbn [rev]; rewrite Q3'; cbn [app]; rewrite <- app_assoc; exact P|]. split; [exact (Ap _ _ eq_refl C)|].
  split; [split; [exact Sp|split; [exact A|rewrite A; exact Ti]]|]. rewrite Km, Pc in C5. rewrite T, requests_app in C5. set (q := ReqMove McJointImpedance (kind e) default_deviation default_deviation) in C5.
  exists q. split; [exists default_deviation, default_deviation; reflexivity|]. clearbody q.
  assert (One : forall l, requests d ++ requests (trace s4) = l ++ requests (trace s4) -> requests d = l) by (intros l H; apply (app_inv_tail (requests (trace s4))); exact H).
  assert (Any : requests d ++ requests (trace s4) = requests (trace s4) \/ requests d ++ requests (trace s4) = q :: requests (trace s4) \/
    requests d ++ requests (trace s4) = ReqStopMove :: q :: requests (trace s4) -> In (in_order_asked d) [[]; [q]; [q; ReqStopMove]]).
  { unfold in_order_asked. intros [H|[H|H]]; [rewrite (One [] H)|rewrite (One [q] H)|rewrite (One [ReqStopMove; q] H)]; cbn; tauto. }
  destruct r as [u|er|p| |]; try (apply Any; exact C5).
  unfold in_order_asked. rewrite (One [q] C5). reflexivity.
Qed.
Theorem C76_program : forall rots f_cos f_sin f_floor f_powf f_fmod e port size rt us ts sends realtime priority r s',
  run_example rots (program_of f_cos f_sin f_floor f_powf f_fmod e) port (st_init size rt us ts sends realtime priority) = (r, s') ->
  example_spec rots (plan f_cos f_sin f_floor f_powf f_fmod e) e port r (trace s').
Proof.
  intros rots f_cos f_sin f_floor f_powf f_fmod e port size rt us ts sends realtime priority r s' E.
  destruct (program_numbers f_cos f_sin f_floor f_powf f_fmod e) as [Ps Pk].
  apply (example_runs rots (plan f_cos f_sin f_floor f_powf f_fmod e) (controller_of rots (e_user (program_of f_cos f_sin f_floor f_powf f_fmod e)))
    (e_start (program_of f_cos f_sin f_floor f_powf f_fmod e)) e port (st_init size rt us ts sends realtime priority) r s').
  - apply init_fresh.
  - intros u s H. eapply reach_new. exact H.
  - reflexivity.
  - intros calls S B. split; [apply told_program|apply told_timely]; assumption.
  - exact Pk.
  - clear. destruct e; reflexivity.
  - clear. destruct e; reflexivity.
  - rewrite <- Ps. exact E.
Qed.
Print Assumptions C76_program.

(** * With a robot which does its part *)
(** The program succeeds if the robot answers and plays the motions through. *)
Theorem C76_live : forall rots f_cos f_sin f_floor f_powf f_fmod e port size rt x ch v t us ts urest trest realtime priority,
  (0 < size)%nat -> rt = RtIgnore \/ (realtime = true /\ priority = true) ->
  burst state_size state_decode x ch -> stopped x -> answered c_connect_response 0 (CsSuccess, v) t ->
  let prog := program_of f_cos f_sin f_floor f_powf f_fmod e in
  session 1 (rs_message_id x)
    ([ADefaults] ++ map ASetter (prior e) ++
     [AControl (controller_of rots joint_motion) (joint_motion_start 0x3FE0000000000000 start_position);
      AControl (controller_of rots (e_user prog)) (e_start prog)]) us ts ->
  exists s', run_example rots prog port (st_init size rt (ch ++ us ++ urest) (t ++ ts ++ trest) [] realtime priority) = (Ok tt, s') /\ ready urest trest s'.
Proof.
  intros rots f_cos f_sin f_floor f_powf f_fmod e port size rt x ch v t us ts urest trest realtime priority Sz Rt B St An prog Se.
  destruct (C61_connect port size rt x ch v t (us ++ urest) (ts ++ trest) realtime priority Sz Rt B St An) as (s0 & E0 & R0 & I0 & M0).
  unfold run_example. unfold bind at 1. rewrite E0. clear E0. rewrite <- I0, <- M0 in Se.
  destruct goal_numbers as [Gn Hn]. rewrite Gn, Hn. clear Gn Hn. destruct (program_numbers f_cos f_sin f_floor f_powf f_fmod e) as [Ps _]. fold prog in Ps. rewrite Ps. clear Ps.
  set (k := controller_of rots (e_user prog)) in *. change (u_cb (e_user prog)) with (k_cb k) in *. set (start := e_start prog) in *.
  set (kj := controller_of rots joint_motion) in *. set (gj := joint_motion_start 0x3FE0000000000000 start_position) in *. change (u_cb joint_motion) with (k_cb kj) in gj. clearbody gj.
  assert (Step : forall a l us ts s, session (n_id s) (r_message_id s) (a :: l) us ts -> ready (us ++ urest) (ts ++ trest) s ->
    exists s' us' ts', run_api a s = (Ok tt, s') /\ session (n_id s') (r_message_id s') l us' ts' /\ ready (us' ++ urest) (ts' ++ trest) s').
  { clear. intros a l us ts s H R. inversion H as [|id last a' us1 ts1 id' last' l' us2 ts2 S1 S2]; subst. rewrite <- !app_assoc in R.
    destruct (serves_ok _ _ _ _ _ _ _ s R S1) as (s' & E & R' & I' & M'). exists s', us2, ts2. split; [exact E|]. split; [rewrite I', M'; exact S2|exact R']. }
  cbn [app] in Se. destruct (Step _ _ _ _ s0 Se R0) as (s1 & u1 & t1 & E1 & Se1 & R1). cbn [run_api] in E1. unfold bind at 1. rewrite E1.
  assert (Sets : forall rs us ts s l, session (n_id s) (r_message_id s) (map ASetter rs ++ l) us ts -> ready (us ++ urest) (ts ++ trest) s ->
    exists s' us' ts', settings rs s = (Ok tt, s') /\ session (n_id s') (r_message_id s') l us' ts' /\ ready (us' ++ urest) (ts' ++ trest) s').
  { clear - Step. induction rs as [|r rs IH]; intros us ts s l H R; [exists s, us, ts; auto|]. cbn [map app] in H.
    destruct (Step _ _ _ _ s H R) as (s1 & u1 & t1 & E1 & H1 & R1). cbn [run_api] in E1. cbn [settings]. unfold bind. rewrite E1. exact (IH _ _ s1 l H1 R1). }
  destruct (Sets _ _ _ s1 _ Se1 R1) as (s2 & u2 & t2 & E2 & Se2 & R2). unfold bind at 1. rewrite E2.
  destruct (Step _ _ _ _ s2 Se2 R2) as (s3 & u3 & t3 & E3 & Se3 & R3). cbn [run_api] in E3. unfold bind at 1. rewrite E3.
  destruct (Step _ _ _ _ s3 Se3 R3) as (s4 & u4 & t4 & E4 & Se4 & R4). cbn [run_api] in E4. fold start. rewrite E4. inversion Se4; subst. exists s4. split; [reflexivity|exact R4].
Qed.
Print Assumptions C76_live.


(** * Examples *)
(** A state with the identity as pose and an elbow of sign 1. *)
Definition ex_identity : list N := map (fun z => bits (f_int float z)) [1; 0; 0; 0; 0; 1; 0; 0; 0; 0; 1; 0; 0; 0; 0; 1]%Z.
Definition ex_posed (id : N) (m : mg_mode) : robot_state_intern :=
  let z n := repeat 0 n in let elbow := [0; bits (f_int float 1)] in
  RobotStateIntern id ex_identity ex_identity (z 16%nat) (z 16%nat) (z 16%nat) (z 16%nat) 0 (z 9%nat) (z 3%nat) 0
    (z 9%nat) (z 3%nat) elbow elbow (z 7%nat) (z 7%nat) (z 7%nat) (z 7%nat) (z 7%nat) (z 7%nat) (z 7%nat)
    (z 7%nat) (z 7%nat) (z 6%nat) (z 7%nat) (z 6%nat) (z 7%nat) (z 6%nat) (z 6%nat) (z 6%nat) (z 3%nat) elbow
    (z 2%nat) (z 2%nat) ex_identity (z 6%nat) (z 6%nat) (z 7%nat) (z 7%nat) m CmJointImpedance
    (repeat false 32) (repeat false 9) (repeat false 32) (repeat false 9) RmMove 0x3FF0000000000000.
Definition ex_mode (e : example) : mg_mode :=
  match e with ExPosition => MgJointPosition | ExVelocity => MgJointVelocity | ExTwist => MgCartesianVelocity | ExPose | ExElbow => MgCartesianPosition end.
Definition ex_one1 (_ : F float) : F float := f_int float 1.
(** The programs with a robot which shows four states per motion; cosine, floor, powers and remainder are something simple. *)
Definition ex_answers (e : example) : list (option (N * list byte)) :=
  match e with
  | ExTwist => [ex_set RcSetJointImpedance 4 GsSuccess; ex_set RcSetCollisionBehavior 5 GsSuccess]
  | _ => [ex_set RcSetCollisionBehavior 4 GsSuccess]
  end.
Definition ex_run76 (e : example) (answers : list (option (N * list byte))) : outcome unit * st :=
  let n := 4 + N.of_nat (List.length (prior e)) in
  run_example ex_rots (program_of ex_one1 ex_zero1 ex_same ex_one2 ex_zero2 e) 1337
    (st_init 10 RtIgnore
      (ex_first (ex_idle 1) ++ ex_states (ex_long MgJointPosition 2 ++
        [ex_posed 30000 (ex_mode e); ex_posed 30001 (ex_mode e); ex_posed 30002 (ex_mode e); ex_posed 41000 (ex_mode e); ex_idle 41001]))
      ([ex_connected 0; ex_set RcSetCollisionBehavior 1 GsSuccess; ex_set RcSetJointImpedance 2 GsSuccess; ex_set RcSetCartesianImpedance 3 GsSuccess] ++ answers ++
       [ex_move n MsMotionStarted; None; ex_move n MsSuccess; ex_move (n + 1) MsMotionStarted; None; ex_move (n + 1) MsSuccess]) [] true true).
(** All five succeed; the motion is of the kind of the program; refused settings end the twist program before it moves. *)
Example C76_ex_program : forall e, fst (ex_run76 e (ex_answers e)) = Ok tt /\
  match rev (in_order_asked (trace (snd (ex_run76 e (ex_answers e))))) with
  | ReqMove McJointImpedance m _ _ :: ReqMove McJointImpedance MmJointPosition _ _ :: rest => m = kind e /\ List.length rest = (4 + List.length (prior e))%nat
  | _ => False
  end.
Proof. intros [| | | |]; (split; [vm_compute; reflexivity|vm_compute; auto]). Qed.
Example C76_ex_refused :
  let run := ex_run76 ExTwist [ex_set RcSetJointImpedance 4 GsSuccess; ex_set RcSetCollisionBehavior 5 GsInvalidArgumentRejected] in
  (match fst run with Err _ => true | _ => false end, List.length (in_order_asked (trace (snd run)))) = (true, 6%nat).
Proof. vm_compute. reflexivity. Qed.
(** The hypotheses of [C76_every_ms]: three states a millisecond apart; the last is told as the third. *)
Example C76_ex_every_ms : let calls := [(ex_posed 31 MgJointVelocity, 1); (ex_posed 32 MgJointVelocity, 1)] in
  let all := (ex_posed 30 MgJointVelocity, 0) :: calls in
  spaced all /\ Forall (fun c => state_ok (fst c)) all /\ Forall (fun c => snd c = 1) calls /\
  exists c, nth_error (told_by ex_rots (kind ExVelocity) (plan ex_one1 ex_zero1 ex_same ex_one2 ex_zero2 ExVelocity) all) 2 = Some (c, false).
Proof.
  cbv zeta.
  assert (A : forall n, arr_ok n (repeat 0 n)).
  { intros n. split; [apply repeat_length|]. apply Forall_forall. intros b Hb. apply repeat_spec in Hb. subst b. reflexivity. }
  assert (Bi : arr_ok 16 ex_identity) by (split; [reflexivity|repeat (apply Forall_cons; [vm_compute; reflexivity|]); apply Forall_nil]).
  assert (Be : arr_ok 2 [0; bits (f_int float 1)]) by (split; [reflexivity|repeat (apply Forall_cons; [vm_compute; reflexivity|]); apply Forall_nil]).
  split; [cbn; repeat split; lia|]. split.
  - assert (P : forall id, u64_ok id -> state_ok (ex_posed id MgJointVelocity)) by (clear - A Bi Be; intros id H; repeat split; try exact H; repeat (first [apply Forall_nil|apply Forall_cons; [first [apply A|exact Bi|exact Be]|]])).
    repeat (apply Forall_cons; [cbn [fst]; apply P; reflexivity|]); apply Forall_nil.
  - split; [repeat constructor|]. eexists. vm_compute. reflexivity.
Qed.
(** The hypotheses of [C76_live]: see [C76_ex_succeeds] in Properties_MotionEnds.v, whose proof goes through it. *)
