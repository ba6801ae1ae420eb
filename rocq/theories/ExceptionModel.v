(** What an exception prints: [Display] of /repo/src/exception.rs 10-58 (derived by thiserror). *)
From Coq Require Import List NArith Bool String Ascii Decimal DecimalString.
Import ListNotations.
Open Scope string_scope.

(** exception.rs 11-58; [L] is the type of the log, which is not printed.  Version numbers are u16. *)
Inductive exception (L : Type) :=
| ControlError (log : option L) (error : string)
| IncompatibleVersion (server library : N)
| NoMotionGenerator
| NoController
| PartialCommand
| NetworkError (message : string)
| CommandError (message : string)
| ModelError (message : string)
| RealTimeError (message : string).
Arguments ControlError {L}. Arguments IncompatibleVersion {L}. Arguments NoMotionGenerator {L}. Arguments NoController {L}. Arguments PartialCommand {L}.
Arguments NetworkError {L}. Arguments CommandError {L}. Arguments ModelError {L}. Arguments RealTimeError {L}.

Definition char (n : nat) : string := String (ascii_of_nat n) "".
(** One hexadecimal digit, lower case. *)
Definition hex (n : nat) : string := match String.get n "0123456789abcdef" with Some c => String c "" | None => "" end.
(** The Debug format of one character of a str ([char::escape_debug], the single quote is not escaped).
    Simplification: a string is its UTF-8 bytes; characters outside ASCII are taken for printable. *)
Definition escape (c : ascii) : string :=
  let n := nat_of_ascii c in
  if Nat.eqb n 0 then char 92 ++ "0"
  else if Nat.eqb n 9 then char 92 ++ "t"
  else if Nat.eqb n 10 then char 92 ++ "n"
  else if Nat.eqb n 13 then char 92 ++ "r"
  else if Nat.eqb n 34 then char 92 ++ char 34
  else if Nat.eqb n 92 then char 92 ++ char 92
  else if Nat.ltb n 32 || Nat.eqb n 127
       then char 92 ++ "u{" ++ (if Nat.ltb n 16 then "" else hex (Nat.div n 16)) ++ hex (Nat.modulo n 16) ++ "}"
  else String c "".
Fixpoint escaped (m : string) : string := match m with EmptyString => "" | String c m => escape c ++ escaped m end.
(** "{message:?}" *)
Definition debug_text (m : string) : string := char 34 ++ escaped m ++ char 34.
(** "{server_version:?}" of a u16 *)
Definition number_text (n : N) : string := NilZero.string_of_uint (N.to_uint n).

(** exception.rs 15, 24, 33, 37, 40, 44, 48, 52, 56: the attributes [error(...)] *)
Definition displayed {L} (e : exception L) : string :=
  match e with
  | ControlError _ error => error
  | IncompatibleVersion server library =>
      "Incompatible library version: Robot has version " ++ number_text server ++ " and libfranka-rs has " ++ number_text library
  | NoMotionGenerator => "Trying to send motion command, but no motion generator running!"
  | NoController => "Trying to send control command, but no controller generator running!"
  | PartialCommand => "Trying to send partial command!"
  | NetworkError m | CommandError m | ModelError m | RealTimeError m => debug_text m
  end.
