(** The command log, /repo/src/robot/logger.rs 49-98.

    The deques are lists; the conversion of a command into the user's record type (83-89) is
    left out (it only copies fields).  [usize] cannot overflow here: the counters stay below
    twice the length of a list in memory. *)
From Coq Require Import List Bool Arith.
Import ListNotations.

Section Logger.
  Context {S C : Type}.

  (** logger.rs 49-55 *)
  Record logger := Logger {
    lg_states : list S;
    lg_commands : list C;
    lg_front : nat;
    lg_ring : nat;
    lg_size : nat
  }.

  (** logger.rs 58-66 *)
  Definition logger_new (size : nat) : logger := Logger [] [] 0 0 size.

  (** logger.rs 67-76; [None] is the panic of [% 0]. *)
  Definition logger_log (l : logger) (s : S) (c : C) : option logger :=
    let states := lg_states l ++ [s] in
    let commands := lg_commands l ++ [c] in
    match lg_size l with
    | O => None
    | _ =>
        let front := (lg_front l + 1) mod lg_size l in
        let full := Nat.eqb (lg_ring l) (lg_size l) in
        Some (Logger (if full then tl states else states) (if full then tl commands else commands)
                     front (Nat.min (lg_size l) (lg_ring l + 1)) (lg_size l))
    end.

  (** logger.rs 79-94: the loop over [i]; [None] is the panic of [get(index).unwrap()]. *)
  Fixpoint flush_from (l : logger) (i n : nat) : option (list (S * C)) :=
    match n with
    | O => Some []
    | Datatypes.S n =>
        let index := (lg_front l + i) mod lg_ring l in
        match nth_error (lg_commands l) index, nth_error (lg_states l) index, flush_from l (i + 1) n with
        | Some c, Some s, Some r => Some ((s, c) :: r)
        | _, _, _ => None
        end
    end.

  (** logger.rs 77-98 *)
  Definition logger_flush (l : logger) : option (list (S * C)) * logger :=
    (flush_from l 0 (lg_ring l), Logger (lg_states l) (lg_commands l) 0 0 (lg_size l)).
End Logger.
Arguments logger : clear implicits.
