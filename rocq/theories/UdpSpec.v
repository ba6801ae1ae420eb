(** Specification of the UDP side, independent of the model's receive functions. *)
From Coq Require Import List NArith Bool Arith.
From Coq Require Import Init.Byte.
From Verif Require Import UdpModel.
Import ListNotations.

(** Datagrams arriving in a piece of schedule, in order. *)
Definition arrived (sc : sched) : list dgram := flat_map t_arrivals sc.

(** Byte [i] of the last datagram long enough to have one; 0 if there is none. *)
Fixpoint byte_at (ds : list dgram) (i : nat) (b : byte) : byte :=
  match ds with
  | [] => b
  | d :: r => byte_at r i (match nth_error (d_data d) i with Some c => c | None => b end)
  end.
Definition mixture (size : nat) (ds : list dgram) : list byte :=
  map (fun i => byte_at ds i x00) (seq 0 size).

(** All datagrams have at least / exactly the size of the object. *)
Definition full (size : nat) (ds : list dgram) : Prop := Forall (fun d => size <= length (d_data d)) ds.
Definition exact (size : nat) (ds : list dgram) : Prop := Forall (fun d => length (d_data d) = size) ds.
Definition all_from (a : addr) (ds : list dgram) : Prop := Forall (fun d => d_from d = a) ds.

(** No missed wake-up: whatever is queued will be noticed by the next poll. *)
Definition noticed (u : udp) : Prop := u_queue u <> [] -> u_flag u = true.
