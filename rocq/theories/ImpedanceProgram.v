(** The program /repo/examples/cartesian_impedance_control.rs as a whole. *)
From Coq Require Import List ZArith NArith Bool.
From Verif Require Import NumOps NumFloat WireModel StateModel RobotModel LoopModel ConvertModel TypedModel ModelApi LibraryModel MotionPrograms.
Import ListNotations.
Open Scope N_scope.

(** Calls which may fail with any exception, with the files: [?] and the panics *)
Definition step (A : Type) : Type := disk -> st -> result A * disk * st.
Definition and_then {A B} (m : step A) (f : A -> step B) : step B := fun d s =>
  match m d s with
  | (Done a, d, s) => f a d s
  | (Failed e, d, s) => (Failed e, d, s)
  | (NoModel e, d, s) => (NoModel e, d, s)
  | (Panicked, d, s) => (Panicked, d, s)
  | (Waiting, d, s) => (Waiting, d, s)
  | (NoFuel, d, s) => (NoFuel, d, s)
  end.
Definition of_outcome {A} (r : outcome A) : result A :=
  match r with Ok a => Done a | Err e => Failed e | Panic _ => Panicked | Blocked => Waiting | OutOfFuel => NoFuel end.
(** A call which does not touch the files *)
Definition call {A} (m : M A) : step A := fun d s => let (r, s) := m s in (of_outcome r, d, s).

(** cartesian_impedance_control.rs 51-53 *)
Definition impedance_collision : robot_request :=
  let seven := float_bits (repeat 100 7)%Z in let six := float_bits (repeat 100 6)%Z in
  ReqSetCollisionBehavior seven seven seven seven six six six six.
(** cartesian_impedance_control.rs 54 *)
Definition impedance_joints : robot_request := ReqSetJointImpedance (float_bits [3000; 3000; 3000; 2500; 2500; 2000; 2000]%Z).
(** cartesian_impedance_control.rs 55 *)
Definition impedance_cartesian : robot_request := ReqSetCartesianImpedance (float_bits [3000; 3000; 3000; 300; 300; 300]%Z).

Section Program.
  Variable w : world.
  Variable rots : rotations.
  (** The arithmetic of cartesian_impedance_control.rs 69-101 in binary64 (nalgebra), given the Coriolis terms, the
      Jacobian, [O_T_EE] and [dq] of the state and [O_T_EE] of the state read before; [impedance_torques] of
      ImpedanceModel.v is this function in exact arithmetic. *)
  Variable law : list (F float) -> list (F float) -> list (F float) -> list (F float) -> list (F float) -> list (F float).

  (** cartesian_impedance_control.rs 68-105: the closure returns [Torques] which are never marked as finished; limiter and
      cutoff frequency are the defaults *)
  Definition spring (l : model_library float) (initial : list (F float)) : user_control :=
    control_torques unit (fun _ x _ =>
      let u := user_state_of x in
      Some (tt, (map bits (law (coriolis_from_state l u) (zero_jacobian_from_state l u EndEffector)
                             (map of_bits (us_O_T_EE u)) (map of_bits (us_dq u)) initial), false))) None None.

  (** cartesian_impedance_control.rs 107-113: an error of the control call is printed and the program ends well; the
      result tells which error was printed *)
  Definition printed {A} (m : M A) : M (option exn) := fun s =>
    match m s with
    | (Ok _, s) => (Ok None, s)
    | (Err e, s) => (Ok (Some e), s)
    | (Panic p, s) => (Panic p, s)
    | (Blocked, s) => (Blocked, s)
    | (OutOfFuel, s) => (OutOfFuel, s)
    end.

  (** cartesian_impedance_control.rs 26-114; printing and waiting for the Enter key are left out *)
  Definition impedance_program (port : N) : step (option exn) :=
    and_then (call (robot_new port)) (fun _ =>
    and_then (load_call w true) (fun l =>
    and_then (call (settings [impedance_collision; impedance_joints; impedance_cartesian])) (fun _ =>
    and_then (call read_once) (fun x =>
    call (printed (control (controller_of rots (spring l (map of_bits (us_O_T_EE (user_state_of x))))) tt)))))).
End Program.
