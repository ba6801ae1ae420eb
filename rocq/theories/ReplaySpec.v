(** How the callbacks of a control call are used: each call sees the state its predecessor left. *)
From Coq Require Import List NArith ZArith Bool.
From Verif Require Import WireModel RobotModel LoopModel.
Import ListNotations.
Open Scope N_scope.

Definition no_callback (e : event) : Prop :=
  match e with EvMotion _ _ | EvMotionOut _ _ | EvTorque _ _ | EvTorqueOut _ _ => False | _ => True end.

Section Replay.
  Variable k : controller.
  Variable cb0 : k_cb k.
  (** [replays d cb m]: in the events [d] (newest first) the callbacks were called one after the other
      starting from [cb0] and now are in the state [cb]; [m] is the newest motion output. *)
  Inductive replays : list event -> k_cb k -> motion_command -> Prop :=
  | replays_start : replays [] cb0 zero_motion
  | replays_other : forall e d cb m, no_callback e -> replays d cb m -> replays (e :: d) cb m
  | replays_motion : forall d cb m x dt cb' out m',
      replays d cb m -> k_motion k cb x dt = Some (cb', out) -> k_convert k out x m = Some m' ->
      replays (EvMotionOut (keep_finished m m') (k_finished k out) :: EvMotion x dt :: d) cb' (keep_finished m m')
  | replays_torque : forall torque d cb m x dt cb' q fin q',
      replays d cb m -> k_torque k = Some torque -> torque cb x dt = Some (cb', (q, fin)) -> k_filter k q x = Some q' ->
      replays (EvTorqueOut q' fin :: EvTorque x dt :: d) cb' m.
  (** The last call did not return, or its output was refused. *)
  Definition motion_panics (d : list event) : Prop := exists d' cb m x dt, d = EvMotion x dt :: d' /\ replays d' cb m /\
    forall cb' out, k_motion k cb x dt = Some (cb', out) -> k_convert k out x m = None.
  Definition torque_panics (d : list event) : Prop := exists torque d' cb m x dt, d = EvTorque x dt :: d' /\ replays d' cb m /\
    k_torque k = Some torque /\
    forall cb' q fin, torque cb x dt = Some (cb', (q, fin)) -> k_filter k q x = None.
End Replay.

(** Motion outputs, newest first. *)
Definition motion_outputs (t : list event) : list (motion_command * bool) :=
  flat_map (fun e => match e with EvMotionOut m f => [(m, f)] | _ => [] end) t.
