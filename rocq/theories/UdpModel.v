(** Model of the UDP side of [Network], /repo/src/network.rs 249-316.

    The kernel's socket queue holds datagrams with their sender.  The socket is non-blocking and
    registered edge-triggered with its own [Poll] (network.rs 94-97).  Arrivals are given by a
    schedule: one [tick] per system call on the socket, holding the datagrams which arrive
    between the previous call and the moment the kernel serves this one (for [poll]: until its
    timeout of 1 s has elapsed).  An exhausted schedule means silence forever.
    Simplifications: no datagram is dropped by the kernel's buffer limit (losses, duplicates and
    reordering in the network are choices of the schedule); the [unwrap] on [poll] itself
    (network.rs 268) never fails. *)
From Coq Require Import List NArith Bool Arith.
From Coq Require Import Init.Byte.
Import ListNotations.

(** network.rs 50: [SocketAddr]; only equality matters, so it is a number. *)
Definition addr := N.

(** A datagram as the kernel queues it. *)
Record dgram := Dgram { d_from : addr; d_data : list byte }.

(** What the environment does before one system call: arrivals, and whether [poll] additionally
    reports the socket as readable for no reason (Linux does so for a datagram which is later
    dropped for a wrong checksum). *)
Record tick := Tick { t_arrivals : list dgram; t_spurious : bool }.
Definition sched := list tick.
Definition next_tick (sc : sched) : tick * sched :=
  match sc with [] => (Tick [] false, []) | t :: r => (t, r) end.

(** Part of [Network] (network.rs 46-63) and of the kernel: queue of the socket, edge flag of
    the epoll registration, [udp_server_address]. *)
Record udp := Udp { u_queue : list dgram; u_flag : bool; u_server : addr }.

Definition is_nil {A} (l : list A) : bool := match l with [] => true | _ => false end.

(** Arrival of datagrams: they queue up and set the edge flag. *)
Definition arrive (u : udp) (ds : list dgram) : udp :=
  Udp (u_queue u ++ ds) (u_flag u || negb (is_nil ds)) (u_server u).

(** [recv_from(&mut buffer)] copies as much of the datagram as fits; the rest of the datagram is
    discarded and the rest of the buffer keeps its old content. *)
Definition overlay (buf data : list byte) : list byte :=
  firstn (length buf) data ++ skipn (length data) buf.

(** [vec![0; size_of::<T>()]], network.rs 252, 271. *)
Definition zeros (n : nat) : list byte := repeat x00 n.

(** network.rs 273: [while self.udp_socket.recv_from(&mut buffer).is_ok() {}]; the results are
    the final buffer and edge flag.  The queue is empty afterwards. *)
Fixpoint drain (sc : sched) (q : list dgram) (fl : bool) (buf : list byte)
  : list byte * bool * sched :=
  match sc with
  | [] => (fold_left (fun b d => overlay b (d_data d)) q buf, fl, [])
  | t :: r =>
      let fl := fl || negb (is_nil (t_arrivals t)) in
      match q ++ t_arrivals t with
      | [] => (buf, fl, r)
      | d :: q' => drain r q' fl (overlay buf (d_data d))
      end
  end.

(** Outcome of a receive: object, the three network errors of network.rs 279-283, 285-287,
    295-297, or the panic of [deserialize(..).unwrap()] (network.rs 288, 396-398). *)
Inductive ures (T : Type) :=
| UOk (t : T) | UTimeout | URecvError | USizeError (got : nat) | UPanic.
Arguments UOk {T}. Arguments UTimeout {T}. Arguments URecvError {T}.
Arguments USizeError {T}. Arguments UPanic {T}.

(** [Option<T>] of [udp_receive], or the panic. *)
Inductive ropt (T : Type) := RSome (t : T) | RNone | RPanic.
Arguments RSome {T}. Arguments RNone {T}. Arguments RPanic {T}.

Section Receive.
  (** [size_of::<T>()] and [bincode::deserialize::<T>] for the type received. *)
  Context {T : Type} (size : nat) (decode : list byte -> option T).

  (** network.rs 263-299 *)
  Definition udp_blocking_receive (u : udp) (sc : sched) : ures T * udp * sched :=
    let (t, sc) := next_tick sc in
    let u := arrive u (t_arrivals t) in
    if (u_flag u && negb (is_nil (u_queue u))) || t_spurious t then
      (* event: the edge flag is consumed; first recv_from *)
      let (t, sc) := next_tick sc in
      let q := u_queue u ++ t_arrivals t in
      let fl := negb (is_nil (t_arrivals t)) in
      match q with
      | [] =>
          (* would block; the drain loop follows before the error is looked at *)
          let '(_, fl, sc) := drain sc [] fl (zeros size) in
          (URecvError, Udp [] fl (u_server u), sc)
      | d :: q' =>
          let '(buf, fl, sc) := drain sc q' fl (overlay (zeros size) (d_data d)) in
          let read_bytes := Nat.min (length (d_data d)) size in
          let u' := Udp [] fl (d_from d) in
          if Nat.eqb read_bytes size then
            match decode buf with Some x => (UOk x, u', sc) | None => (UPanic, u', sc) end
          else (USizeError read_bytes, u', sc)
      end
    else (UTimeout, Udp (u_queue u) (u_flag u && negb (is_nil (u_queue u))) (u_server u), sc).

  (** network.rs 249-262: [peek] does not consume; every error of the blocking receive becomes
      [None]. *)
  Definition udp_receive (u : udp) (sc : sched) : ropt T * udp * sched :=
    let (t, sc) := next_tick sc in
    let u := arrive u (t_arrivals t) in
    match u_queue u with
    | [] => (RNone, u, sc)
    | d :: _ =>
        if size <=? Nat.min (length (d_data d)) size then
          let '(r, u, sc) := udp_blocking_receive u sc in
          match r with
          | UOk x => (RSome x, u, sc)
          | UPanic => (RPanic, u, sc)
          | _ => (RNone, u, sc)
          end
        else (RNone, u, sc)
    end.

  (** [while self.network.udp_receive::<T>().is_some() {}], robot_impl.rs 148, gripper.rs 166.
      Every round which goes on removes a datagram, so [pending] bounds the rounds;
      [FOutOfFuel] is proved unreachable. *)
  Inductive fres := FDone (u : udp) (sc : sched) | FPanic (u : udp) (sc : sched) | FOutOfFuel.
  Fixpoint flush (fuel : nat) (u : udp) (sc : sched) : fres :=
    match fuel with
    | O => FOutOfFuel
    | S fuel =>
        match udp_receive u sc with
        | (RSome _, u, sc) => flush fuel u sc
        | (RNone, u, sc) => FDone u sc
        | (RPanic, u, sc) => FPanic u sc
        end
    end.
  Definition pending (u : udp) (sc : sched) : nat :=
    length (u_queue u) + length (flat_map t_arrivals sc).
  Definition flush_all (u : udp) (sc : sched) : fres := flush (S (pending u sc)) u sc.

  (** gripper.rs 165-171: flush, then one blocking receive ([None]: out of fuel, unreachable). *)
  Definition read_fresh (u : udp) (sc : sched) : option (ures T * udp * sched) :=
    match flush_all u sc with
    | FDone u sc => Some (udp_blocking_receive u sc)
    | FPanic u sc => Some (UPanic, u, sc)
    | FOutOfFuel => None
    end.

  (** A history of receives on one socket (any mixture of the two functions). *)
  Inductive ucall := CReceive | CBlocking.
  Fixpoint ucalls (cs : list ucall) (u : udp) (sc : sched) : udp * sched :=
    match cs with
    | [] => (u, sc)
    | CReceive :: r => let '(_, u, sc) := udp_receive u sc in ucalls r u sc
    | CBlocking :: r => let '(_, u, sc) := udp_blocking_receive u sc in ucalls r u sc
    end.
End Receive.

(** network.rs 66-121: fresh socket, server address 0.0.0.0:0 (here 0). *)
Definition udp_init : udp := Udp [] false 0%N.
