(** Programs of /repo/examples as a whole: communication_test.rs and echo_robot_state.rs. *)
From Coq Require Import List ZArith NArith Bool.
From Verif Require Import NumOps NumFloat RateModel WireModel RobotModel LoopModel TypedModel JointMotionModel ExampleModel ProgramModel MotionPrograms.
Import ListNotations.
Open Scope N_scope.

(** The calls of the torque callback among the newest events, oldest first *)
Definition torques_called (before after : list event) : list (robot_state_intern * N) :=
  rev (flat_map (fun e => match e with EvTorque x dt => [(x, dt)] | _ => [] end) (firstn (List.length after - List.length before) after)).
(** The closure's variables after these calls *)
Fixpoint comm_after (c : comm) (calls : list (robot_state_intern * N)) : option comm :=
  match calls with
  | [] => Some c
  | (x, dt) :: r => match comm_callback c x dt with Some (c', _) => comm_after c' r | None => None end
  end.

Section Programs.
  Variable rots : rotations.
  (** examples/communication_test.rs 43-107 from the end of the motion on.  [control] does not return the variables of
      the closure, which the program reads afterwards; they are recomputed from the calls.  The result is what is
      printed, [None] a panic of the arithmetic. *)
  Definition measure : M (option report) := fun s =>
    match control (controller_of rots communication) comm_start s with
    | (Ok _, s') =>
        (Ok (match comm_after comm_start (torques_called (trace s) (trace s')) with Some c => comm_report c | None => None end), s')
    | (Err e, s') => (Err e, s')
    | (Panic p, s') => (Panic p, s')
    | (Blocked, s') => (Blocked, s')
    | (OutOfFuel, s') => (OutOfFuel, s')
    end.
  (** examples/communication_test.rs 21-108; waiting for the Enter key is left out.  The goal is that of
      generate_consecutive_motions.rs (communication_test.rs 24). *)
  Definition communication_test (port : N) : M (option report) :=
    robot_new port ;;;
    set_default_behavior ;;;
    settings [usual_collision] ;;;
    control (controller_of rots joint_motion) (joint_motion_start (bits (f_lit float 1 2)) consecutive_goal) ;;;
    measure.
  (** examples/echo_robot_state.rs 17-30; the states are printed by the callback, that is, the events [EvRead] *)
  Definition echo_program (port : N) : M unit :=
    robot_new port ;;; echo_robot_state ;;; ret tt.
End Programs.
