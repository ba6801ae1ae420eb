(** What the status byte of a response means, written from the protocol: code, and the message of
    the error ([None]: success).  Independent of the model's enumerations. *)
From Coq Require Import List NArith Bool Arith String.
From Coq Require Import Init.Byte.
From Verif Require Import Bytes RobotModel.
Import ListNotations.
Open Scope N_scope.

Definition byte_at (m : list byte) (i : nat) : N := Byte.to_N (nth i m x00).

(** A robot response: 4 bytes command (one of 14), 4 bytes id, 4 bytes size, then the status. *)
Definition robot_reply (len : nat) (m : list byte) : bool :=
  (len <=? List.length m)%nat &&
  (byte_at m 0 <? 14) && (byte_at m 1 =? 0) && (byte_at m 2 =? 0) && (byte_at m 3 =? 0).
(** A gripper response: 2 bytes command (one of 5), id, size, 2 bytes status. *)
Definition gripper_reply (len : nat) (m : list byte) : bool :=
  (len <=? List.length m)%nat && (byte_at m 0 <? 5) && (byte_at m 1 =? 0).

Definition not_possible : string := "libfranka-rs: command rejected: command not possible in current mode".

Definition setter_codes : list (N * option string) :=
  [(0, None);
   (1, Some not_possible);
   (2, Some "libfranka-rs: command rejected: invalid argument!"%string)].
(** the user's stop call *)
Definition stop_codes : list (N * option string) :=
  [(0, None);
   (1, Some not_possible);
   (2, Some "libfranka-rs: command aborted: User Stop pressed!"%string);
   (3, Some "libfranka-rs: command aborted: motion aborted by reflex!"%string);
   (4, Some not_possible)].
Definition recovery_codes : list (N * option string) :=
  [(0, None);
   (1, Some not_possible);
   (2, Some "libfranka-rs: command rejected: manual error recovery required!"%string);
   (3, Some "libfranka-rs: command aborted: motion aborted by reflex!"%string);
   (4, Some "libfranka-rs: command aborted: User Stop pressed!"%string);
   (5, Some "libfranka-rs: command aborted!"%string)].
(** two success codes: done, and motion started *)
Definition move_codes : list (N * option string) :=
  [(0, None);
   (1, None);
   (2, Some "libfranka-rs: Move command preempted!"%string);
   (3, Some "libfranka-rs: Move command rejected: command not possible in the current mode!"%string);
   (4, Some "libfranka-rs: Move command rejected: cannot start at singular pose!"%string);
   (5, Some "libfranka-rs: Move command rejected: maximum path deviation out of range!"%string);
   (6, Some "libfranka-rs: Move command aborted: motion aborted by reflex!"%string);
   (7, Some "libfranka-rs: Move command aborted: User Stop pressed!"%string);
   (8, Some "libfranka-rs: Move command aborted: invalid input provided!"%string);
   (9, Some "libfranka-rs: Move command aborted!"%string)].
(** the stop the control loop sends when it fails *)
Definition cancel_codes : list (N * option string) :=
  [(0, None);
   (1, Some "libfranka-rs: Stop command rejected: command not possible in the current mode!"%string);
   (2, Some "libfranka-rs: Stop command aborted: User Stop pressed!"%string);
   (3, Some "libfranka-rs: Stop command aborted: motion aborted by reflex!"%string);
   (4, Some "libfranka-rs: Stop command aborted!"%string)].

Definition lookup (c : N) (l : list (N * option string)) : option (option string) :=
  option_map snd (find (fun p => fst p =? c) l).

(** What a response means: [None] is a response outside the protocol. *)
Definition meaning (codes : list (N * option string)) (m : list byte) : option (option string) :=
  if robot_reply 13 m then lookup (byte_at m 12) codes else None.

(** What a call must return after it was given the response [m].  Panicking on a response outside
    the protocol is what the library does; the point is that it is no success. *)
Definition verdict (codes : list (N * option string)) (m : list byte) : outcome unit :=
  match meaning codes m with
  | Some None => Ok tt
  | Some (Some t) => Err (CommandException t)
  | None => Panic PDecodeTcp
  end.

(** * Gripper *)
Definition byte2_at (m : list byte) (i : nat) : N := byte_at m i + 256 * byte_at m (i + 1).
(** Result of an action after the response [m]: the status is 2 bytes long. *)
Definition gripper_verdict (m : list byte) : outcome bool :=
  if gripper_reply 12 m then
    match byte2_at m 10 with
    | 0 => Ok true
    | 1 => Err (CommandException "libfranka-rs gripper: Command failed!")
    | 2 => Ok false
    | 3 => Err (CommandException "libfranka-rs gripper: Command aborted!")
    | _ => Panic PDecodeTcp
    end
  else Panic PDecodeTcp.
(** Connecting: status at 10, version at 12. *)
Definition gripper_connected (m : list byte) : option (bool * N) :=
  if gripper_reply 14 m && (byte2_at m 10 <? 4) then Some (byte2_at m 10 =? 0, byte2_at m 12) else None.

(** Responses which have arrived: each message is kept under its id, a later one replaces an
    earlier one with the same id. *)
Fixpoint latest (id : N) (l : list (option (N * list byte))) : option (list byte) :=
  match l with
  | [] => None
  | o :: r => match latest id r with
              | Some m => Some m
              | None => match o with Some (i, m) => if i =? id then Some m else None | None => None end
              end
  end.
