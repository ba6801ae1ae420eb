(** Concrete runs used by the examples of Properties_Robot.v.  These are tests of the model, not
    part of it. *)
From Coq Require Import List NArith ZArith Bool Arith String.
From Coq Require Import Init.Byte.
From Verif Require Import Bytes Codec WireModel TcpModel UdpModel RobotModel LoopModel RobotSpec.
Import ListNotations.
Open Scope list_scope.
Open Scope N_scope.

Definition ex_rs (id : N) (m : mg_mode) (c : ctrl_mode) (r : robot_mode_t) : robot_state_intern :=
  let z n := repeat 0 n in
  RobotStateIntern id (z 16%nat) (z 16%nat) (z 16%nat) (z 16%nat) (z 16%nat) (z 16%nat) 0 (z 9%nat) (z 3%nat) 0
    (z 9%nat) (z 3%nat) (z 2%nat) (z 2%nat) (z 7%nat) (z 7%nat) (z 7%nat) (z 7%nat) (z 7%nat) (z 7%nat) (z 7%nat)
    (z 7%nat) (z 7%nat) (z 6%nat) (z 7%nat) (z 6%nat) (z 7%nat) (z 6%nat) (z 6%nat) (z 6%nat) (z 3%nat) (z 2%nat)
    (z 2%nat) (z 2%nat) (z 16%nat) (z 6%nat) (z 6%nat) (z 7%nat) (z 7%nat) m c
    (repeat false 32) (repeat false 9) (repeat false 32) (repeat false 9) r 0x3FF0000000000000.
Definition ex_dg (x : robot_state_intern) : dgram := Dgram 7 (serialize c_robot_state_intern x).
(** One state arriving while the receive waits. *)
Definition ex_once (x : robot_state_intern) : sched :=
  [Tick [] false; Tick [ex_dg x] false; Tick [] false; Tick [] false].
Definition ex_states (l : list robot_state_intern) : sched := flat_map ex_once l.
Definition ex_first (x : robot_state_intern) : sched := [Tick [ex_dg x] false; Tick [] false; Tick [] false].

Definition ex_connected (id : N) : option (N * list byte) :=
  Some (id, serialize c_connect_response ((RcConnect, (id, 16)), (CsSuccess, 5))).
Definition ex_move (id : N) (m : move_status) : option (N * list byte) :=
  Some (id, serialize c_move_response ((RcMove, (id, 13)), m)).
Definition ex_stop (id : N) (m : stop_status) : option (N * list byte) :=
  Some (id, serialize c_stop_response ((RcStopMove, (id, 13)), m)).
Definition ex_set (cmd : robot_cmd) (id : N) (m : gs_status) : option (N * list byte) :=
  Some (id, serialize c_setter_response ((cmd, (id, 13)), m)).

Definition ex_idle (id : N) := ex_rs id MgIdle CmOther RmIdle.
Definition ex_run (id : N) := ex_rs id MgJointPosition CmExternalController RmMove.
Definition ex_reflex (id : N) := ex_rs id MgIdle CmOther RmReflex.

(** Callbacks: the motion callback counts its calls and finishes at call [n]; joint values are
    the number of the call.  The torques are the number of the call plus 100. *)
Definition ex_motion (n : N) : motion_command :=
  MotionCommand (repeat n 7) (repeat 0 7) (repeat 0 16) (repeat 0 6) (repeat 0 2) false false.
Definition ex_control (n : N) : controller :=
  Controller N (N * bool) MmJointPosition
    (fun k _ _ => Some (k + 1, (k, k =? n)))
    (fun o _ _ => Some (ex_motion (fst o)))
    snd
    (Some (fun k _ _ => Some (k, (repeat (k + 100) 7, false))))
    (fun t _ => Some t)
    JointImpedance.
(** The same without torque callback. *)
Definition ex_impedance (n : N) : controller :=
  Controller N (N * bool) MmJointPosition
    (fun k _ _ => Some (k + 1, (k, k =? n)))
    (fun o _ _ => Some (ex_motion (fst o)))
    snd None (fun t _ => Some t) CartesianImpedance.

(** Connect, then a torque controlled motion of three callback calls which ends regularly. *)
Definition ex_env_good : st :=
  st_init 10 RtIgnore
    (ex_first (ex_idle 1) ++ ex_states [ex_run 2; ex_run 4; ex_run 5; ex_run 8; ex_run 9; ex_idle 10])
    [ex_connected 0; ex_move 1 MsMotionStarted; None; ex_move 1 MsSuccess] [] true true.
(** The robot reports a reflex during the motion; then it is stopped and idle. *)
Definition ex_env_reflex : st :=
  st_init 10 RtIgnore
    (ex_first (ex_idle 1) ++ ex_states [ex_run 2; ex_run 4; ex_run 5; ex_reflex 8; ex_idle 9])
    [ex_connected 0; ex_move 1 MsMotionStarted; None; ex_move 1 MsReflexAborted; ex_stop 2 SsSuccess] [] true true.
Definition ex_env_quiet : st := st_init 10 RtEnforce (ex_first (ex_idle 1)) [ex_connected 0] [] false false.

Definition after_new (s : st) : st := snd (robot_new 1337 s).
Definition outcome_of (s : st) : outcome unit := fst (control (ex_control 2) 0 (after_new s)).
