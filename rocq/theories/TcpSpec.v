(** Specification of the TCP channel, independent of the model's functions. *)
From Coq Require Import List NArith Bool.
From Coq Require Import Init.Byte.
From Verif Require Import Bytes WireSpec TcpModel.
Import ListNotations.

(** A message of the peer: command code, command id, bytes behind the header. *)
Record msg := Msg { m_code : N; m_id : N; m_body : list byte }.

Definition code_width (t : net_type) : nat := match t with Robot => 4 | Gripper => 2 end.
Definition codes (t : net_type) : N := match t with Robot => 14 | Gripper => 5 end.
Definition msg_size (t : net_type) (m : msg) : N := N.of_nat (code_width t + 8 + length (m_body m)).

(** Bytes of a message: code, id, total size (little-endian), body. *)
Definition msg_bytes (t : net_type) (m : msg) : list byte :=
  le (code_width t) (m_code m) ++ le 4 (m_id m) ++ le 4 (msg_size t m) ++ m_body m.

Definition msg_ok (t : net_type) (m : msg) : Prop :=
  (m_code m < codes t)%N /\ (m_id m < 2 ^ 32)%N /\ (msg_size t m < 2 ^ 32)%N.

(** The byte stream of a list of messages. *)
Definition stream (t : net_type) (ms : list msg) : list byte := concat (map (msg_bytes t) ms).

(** Bytes which arrive in a schedule (nothing arrives after the peer closed). *)
Fixpoint arrivals (ls : list label) : list byte :=
  match ls with
  | [] => []
  | LArrive bs :: r => bs ++ arrivals r
  | LClose :: _ => []
  | _ :: r => arrivals r
  end.

Definition prefix {A} (a b : list A) : Prop := exists c, a ++ c = b.

(** [subseq a b]: [a] is obtained from [b] by deleting elements. *)
Inductive subseq {A} : list A -> list A -> Prop :=
| sub_nil : subseq [] []
| sub_skip : forall x a b, subseq a b -> subseq a (x :: b)
| sub_take : forall x a b, subseq a b -> subseq (x :: a) (x :: b).

(** Responses taken (removed) for an id, in order. *)
Definition taken1 (id : N) (r : ret) : list (list byte) :=
  match r with
  | RWait i m => if N.eqb i id then [m] else []
  | ROk i m => if N.eqb i id then [m] else []
  | _ => []
  end.
Definition taken (id : N) (rs : list ret) : list (list byte) := flat_map (taken1 id) rs.

(** The (id, bytes) shown to a caller, if any. *)
Definition shown (r : ret) : option (N * list byte) :=
  match r with
  | RWait i m => Some (i, m) | ROk i m => Some (i, m) | RErr i m => Some (i, m) | RNone _ => None
  end.

Definition with_id (id : N) (ms : list msg) : list msg := filter (fun m => N.eqb (m_id m) id) ms.

(** Reasons for a panic which are not the library's fault. *)
Definition excused (t : net_type) (msgs : list msg) (cs : list call) (cl : Prop) (p : panic) : Prop :=
  match p with
  | PBadHeader => False
  | PUnderflow => False
  | PEof => cl
  | PSize => exists id n h m, In (Check id n h) cs /\ In m msgs /\ m_id m = id /\ msg_size t m <> n
  | PDecode => exists id n h m, In (Check id n h) cs /\ In m msgs /\ m_id m = id /\ msg_size t m = n /\
                                h (msg_bytes t m) = None
  end.

(** Calls made in a schedule. *)
Definition starts (ls : list label) : list call :=
  flat_map (fun l => match l with LStart c => [c] | _ => [] end) ls.

(** Schedules in which only data arrive while the caller waits. *)
Definition waiting_label (l : label) : Prop :=
  match l with LArrive _ => True | LClient => True | LSpurious => True | _ => False end.

(** State between two exchanges. *)
Definition quiescent (s : net) : Prop := closed s = false /\ kbuf s = [] /\ pend s = [].

(** The call is over (returned or panicked). *)
Definition ended (p : pc) : Prop := match p with Idle => True | Dead _ => True | _ => False end.

(** Requests are numbered 0, 1, 2, ... and the id returned is the one in the bytes. *)
Definition ids_in_order {R} (log : list (list byte * N)) (rs : list R)
    (total : R -> nat) (layout : N -> R -> list (nat * list byte)) : Prop :=
  length log = length rs /\
  (forall i r, nth_error rs i = Some r ->
     exists b, nth_error log i = Some (b, N.of_nat i) /\ has_layout b (total r) (layout (N.of_nat i) r)) /\
  NoDup (map snd log).

