(** Which state/command pairs a history of events contains (events newest first). *)
From Coq Require Import List NArith Bool Arith.
From Verif Require Import WireModel RobotModel.
Import ListNotations.

(** The command which the next state answers.  A stop request ends the exchange: states received
    while stopping answer nothing. *)
Fixpoint waiting_command (t : list event) : option robot_command :=
  match t with
  | [] => None
  | EvCommand _ c :: _ => Some c
  | EvState _ :: _ => None
  | EvRequest _ ReqStopMove :: _ => None
  | _ :: t => waiting_command t
  end.

(** All pairs (state, command it answers), oldest first. *)
Fixpoint exchanged (t : list event) : list (robot_state_intern * robot_command) :=
  match t with
  | [] => []
  | EvState x :: t => match waiting_command t with Some c => exchanged t ++ [(x, c)] | None => exchanged t end
  | _ :: t => exchanged t
  end.

(** The pairs of the motion requested last. *)
Fixpoint motion_pairs (t : list event) : list (robot_state_intern * robot_command) :=
  match t with
  | [] => []
  | EvRequest _ (ReqMove _ _ _ _) :: _ => []
  | EvState x :: t => match waiting_command t with Some c => motion_pairs t ++ [(x, c)] | None => motion_pairs t end
  | _ :: t => motion_pairs t
  end.

(** The last [k] elements. *)
Definition last_n {A} (k : nat) (l : list A) : list A := skipn (length l - k) l.

(** The commands of the motion requested last, oldest first. *)
Fixpoint motion_commands (t : list event) : list robot_command :=
  match t with
  | [] => []
  | EvRequest _ (ReqMove _ _ _ _) :: _ => []
  | EvCommand _ c :: t => motion_commands t ++ [c]
  | _ :: t => motion_commands t
  end.

(** The last two records are not in the order of time. *)
Definition disordered (log : list record) : Prop :=
  exists l a ca b cb, log = l ++ [(a, ca); (b, cb)] /\ (rs_message_id b <= rs_message_id a)%N.

(** The pairs which a log of this size has lost by now: every motion keeps [size] of its pairs at most. *)
Fixpoint lost_before (size : nat) (t : list event) : nat :=
  match t with
  | [] => 0
  | EvRequest _ (ReqMove _ _ _ _) :: t => (length (motion_pairs t) - size) + lost_before size t
  | _ :: t => lost_before size t
  end.
Definition lost_pairs (size : nat) (t : list event) : nat := (length (motion_pairs t) - size) + lost_before size t.
(** What the buffers hold between two motions. *)
Definition left_over (size : nat) (t : list event) : list (robot_state_intern * robot_command) :=
  skipn (lost_pairs size t) (exchanged t).
(** How many that are: every motion leaves [size] at most. *)
Fixpoint recorded_before (size : nat) (t : list event) : nat :=
  match t with
  | [] => 0
  | EvRequest _ (ReqMove _ _ _ _) :: t => Nat.min size (length (motion_pairs t)) + recorded_before size t
  | _ :: t => recorded_before size t
  end.
Definition recorded (size : nat) (t : list event) : nat := Nat.min size (length (motion_pairs t)) + recorded_before size t.
