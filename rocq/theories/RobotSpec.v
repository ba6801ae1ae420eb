(** What a trace of observable events of a robot handle has to look like, independently of how
    the code produces it.  Traces are newest first, as in [st]. *)
From Coq Require Import List NArith Bool Sorting.Sorted.
From Verif Require Import WireModel RobotModel.
Import ListNotations.
Open Scope N_scope.

(** The newest robot state accepted. *)
Fixpoint last_state (t : list event) : option robot_state_intern :=
  match t with
  | [] => None
  | EvState x :: _ => Some x
  | _ :: t => last_state t
  end.

(** A state was accepted and no command was sent since. *)
Fixpoint unanswered (t : list event) : Prop :=
  match t with
  | [] => False
  | EvState _ :: _ => True
  | EvCommand _ _ :: _ => False
  | _ :: t => unanswered t
  end.

(** What happened since the last move request, that is in the current motion. *)
Fixpoint this_motion (t : list event) : list event :=
  match t with
  | [] => []
  | EvRequest _ (ReqMove _ _ _ _) :: _ => []
  | e :: t => e :: this_motion t
  end.

(** The controller requested for the current motion. *)
Fixpoint motion_ctrl (t : list event) : option move_ctrl :=
  match t with
  | [] => None
  | EvRequest _ (ReqMove c _ _ _) :: _ => Some c
  | _ :: t => motion_ctrl t
  end.

(** The motion generator requested for the current motion. *)
Fixpoint motion_mode (t : list event) : option move_mg :=
  match t with
  | [] => None
  | EvRequest _ (ReqMove _ m _ _) :: _ => Some m
  | _ :: t => motion_mode t
  end.

(** The state shows the controller [c] and the motion generator [m]. *)
Definition shows (x : robot_state_intern) (c : move_ctrl) (m : move_mg) : Prop :=
  rs_controller_mode x = match c with McJointImpedance => CmJointImpedance | McCartesianImpedance => CmCartesianImpedance
                         | McExternalController => CmExternalController end /\
  rs_motion_generator_mode x = match m with MmJointPosition => MgJointPosition | MmJointVelocity => MgJointVelocity
                         | MmCartesianPosition => MgCartesianPosition | MmCartesianVelocity => MgCartesianVelocity end.

(** The state shows the requested motion under way. *)
Definition under_way (x : robot_state_intern) (t : list event) : Prop :=
  rs_robot_mode x = RmMove /\
  exists c m, motion_ctrl t = Some c /\ motion_mode t = Some m /\ shows x c m.

(** The state shows some motion or external controller running. *)
Definition still_running (x : robot_state_intern) : Prop :=
  rs_motion_generator_mode x <> MgIdle \/ rs_controller_mode x = CmExternalController.

(** The callbacks of the motion have just been called and want to go on: with external control the
    torque callback, otherwise the motion callback. *)
Definition just_called (t : list event) : Prop :=
  match motion_ctrl t with
  | Some McExternalController => exists q x dt t', t = EvTorqueOut q false :: EvTorque x dt :: t'
  | Some _ => exists m x dt t', t = EvMotionOut m false :: EvMotion x dt :: t'
  | None => False
  end.

(** A callback reported completion. *)
Definition final (e : event) : bool :=
  match e with EvMotionOut _ fin => fin | EvTorqueOut _ fin => fin | _ => false end.
Definition completed (t : list event) : bool := existsb final (this_motion t).

(** Newest motion and torque outputs of a list of events. *)
Fixpoint newest_output (t : list event) : option motion_command :=
  match t with [] => None | EvMotionOut m _ :: _ => Some m | _ :: t => newest_output t end.
Fixpoint newest_torques (t : list event) : option (list N) :=
  match t with [] => None | EvTorqueOut x _ :: _ => Some x | _ :: t => newest_torques t end.
Fixpoint newest_motion_call (t : list event) : option robot_state_intern :=
  match t with [] => None | EvMotion x _ :: _ => Some x | _ :: t => newest_motion_call t end.

(** The motion command to be sent for an output: the output itself, marked finished or not. *)
Definition marked (fin : bool) (m : motion_command) : motion_command :=
  MotionCommand (mc_q_c m) (mc_dq_c m) (mc_O_T_EE_c m) (mc_O_dP_EE_c m) (mc_elbow_c m)
                (mc_valid_elbow m) fin.

Definition zero_torques : list N := [0; 0; 0; 0; 0; 0; 0].

(** When an event may follow the past [t]. *)
Definition ok (e : event) (t : list event) : Prop :=
  match e with
  | EvState x => forall y, last_state t = Some y -> rs_message_id y < rs_message_id x
  | EvRead x => exists t', t = EvState x :: t'
  | EvMotion x dt =>
      motion_ctrl t <> None /\ completed t = false /\
      exists t', t = EvState x :: t' /\
      dt = match newest_motion_call (this_motion t') with
           | None => 0
           | Some y => rs_message_id x - rs_message_id y
           end /\
      under_way x t
  | EvMotionOut _ _ => exists x dt t', t = EvMotion x dt :: t'
  | EvTorque x dt =>
      motion_ctrl t = Some McExternalController /\
      exists m t', t = EvMotionOut m false :: EvMotion x dt :: t'
  | EvTorqueOut _ _ => exists x dt t', t = EvTorque x dt :: t'
  | EvCommand _ c =>
      unanswered t /\
      (exists x, last_state t = Some x /\ rc_message_id c = rs_message_id x) /\
      (exists m, newest_output (this_motion t) = Some m /\ rc_motion c = marked (completed t) m) /\
      (completed t = false -> just_called t) /\
      rc_tau c = match newest_torques (this_motion t) with Some x => x | None => zero_torques end /\
      (completed t = true -> exists x, last_state t = Some x /\ still_running x)
  | EvRequest _ _ | EvReply _ _ | EvKernel => True
  end.

Fixpoint lawful (t : list event) : Prop :=
  match t with [] => True | e :: t => ok e t /\ lawful t end.

(** Requests, commands and the states shown to the user's reads and motion callbacks. *)
Definition requests (t : list event) : list robot_request :=
  flat_map (fun e => match e with EvRequest _ r => [r] | _ => [] end) t.
Definition commands (t : list event) : list robot_command :=
  flat_map (fun e => match e with EvCommand _ c => [c] | _ => [] end) t.
Definition shown (t : list event) : list robot_state_intern :=
  flat_map (fun e => match e with EvRead x => [x] | EvMotion x _ => [x] | _ => [] end) t.
Definition motion_calls (t : list event) : list (robot_state_intern * N) :=
  flat_map (fun e => match e with EvMotion x dt => [(x, dt)] | _ => [] end) t.
