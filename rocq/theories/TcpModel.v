(** TCP request/response channel of [Network].

    Mirrors /repo/src/network.rs 46-63, 122-248, 318-386.

    Simplifications: the kernel socket is a byte queue [kbuf] with an
    edge-triggered readiness flag (mio 0.7 registers with EPOLLET; the flag is
    set on every arrival and cleared when the event is delivered; an event is
    delivered only if the socket is readable when polled).  The socket is
    blocking ([TcpStream::from_std] of a blocking std stream), so [read_exact]
    waits; its piecewise consumption is merged into one step at the moment
    the last byte is there.  The 10 ms timeout of the poll is abstracted: a poll
    step either sees the event or not, and time passing is the interleaving with
    arrivals.  The HashMap is an association list.  Socket errors other than
    end-of-file are not modelled. *)
From Coq Require Import List NArith ZArith Bool Arith.
From Coq Require Import Init.Byte.
From Verif Require Import Bytes Codec WireModel.
Import ListNotations.

(** network.rs 36-39 [NetworkType]. *)
Inductive net_type := Gripper | Robot.

(** network.rs 341-344: size_of of the header of the peer. *)
Definition header_len (t : net_type) : N := match t with Gripper => 10 | Robot => 12 end.

(** network.rs 350-361: header bytes to (command_id, size); [None] is the
    panic of [deserialize]. *)
Definition parse_header (t : net_type) (bs : list byte) : option (N * N) :=
  match t with
  | Gripper => option_map snd (deserialize c_gripper_header bs)
  | Robot => option_map snd (deserialize c_robot_header bs)
  end.

(** HashMap<u32, Vec<u8>>: get, remove, insert. *)
Definition table_t := list (N * list byte).
Fixpoint tget (k : N) (t : table_t) : option (list byte) :=
  match t with [] => None | (k', m) :: r => if N.eqb k k' then Some m else tget k r end.
Fixpoint tremove (k : N) (t : table_t) : table_t :=
  match t with [] => [] | (k', m) :: r => if N.eqb k k' then tremove k r else (k', m) :: tremove k r end.
Definition tinsert (k : N) (m : list byte) (t : table_t) : table_t := (k, m) :: tremove k t.

(** network.rs 46-63: the fields used by the TCP side, plus the kernel socket. *)
Record net := Net {
  kbuf : list byte;       (* bytes arrived, not yet read *)
  ready : bool;           (* edge-triggered event pending *)
  closed : bool;          (* peer has shut down its side *)
  pend : list byte;       (* pending_response *)
  poff : N;               (* pending_response_offset *)
  plen : N;               (* pending_response_len *)
  pid : N;                (* pending_command_id *)
  table : table_t         (* received_responses *)
}.
(** network.rs 66-121 *)
Definition net_init : net := Net [] false false [] 0 0 0 [].

Inductive panic := PBadHeader | PUnderflow | PEof | PSize | PDecode.

Definition blen (l : list byte) : N := N.of_nat (length l).

(** What the code inside [tcp_read_from_buffer] does up to its body read. *)
Inductive poll_result :=
| PRead (n : N) (s : net)      (* about to read_exact n bytes *)
| PDone (s : net)              (* returns *)
| PPanic (p : panic).

(** network.rs 318-372 (up to the [read_exact] of the body).  The buffer of the
    peek has 70000 bytes.  [plen - poff] underflows (panics) if the header
    announces less than the header itself. *)
Definition poll (t : net_type) (s : net) : poll_result :=
  let s0 := Net (kbuf s) false (closed s) (pend s) (poff s) (plen s) (pid s) (table s) in
  if ready s && (negb (N.eqb (blen (kbuf s)) 0) || closed s) then
    let avail := N.min (blen (kbuf s)) 70000 in
    let body (s1 : net) :=
      match pend s1 with
      | [] => PDone s1
      | _ => if N.eqb avail 0 then PDone s1
             else if N.ltb (plen s1) (poff s1) then PPanic PUnderflow
             else PRead (N.min avail (plen s1 - poff s1)) s1
      end in
    match pend s with
    | [] =>
        if N.leb (header_len t) avail then
          let h := firstn (N.to_nat (header_len t)) (kbuf s) in
          match parse_header t h with
          | None => PPanic PBadHeader
          | Some (id, size) =>
              body (Net (skipn (N.to_nat (header_len t)) (kbuf s)) false (closed s) h
                        (header_len t) size id (table s))
          end
        else body s0
    | _ => body s0
    end
  else PDone s0.

(** network.rs 370-381: the body read of [n] bytes once they are there, and the
    bookkeeping behind it. *)
Definition finish_read (n : N) (s : net) : net :=
  let got := firstn (N.to_nat n) (kbuf s) in
  let rest := skipn (N.to_nat n) (kbuf s) in
  let p := pend s ++ got in
  let o := (poff s + n)%N in
  if N.eqb o (plen s)
  then Net rest (ready s) (closed s) [] 0 0 0 (tinsert (pid s) p (table s))
  else Net rest (ready s) (closed s) p o (plen s) (pid s) (table s).

(** The two ways a caller waits for a response.
    [Wait id]: wait_for_response_to_arrive (238-248), used by
    tcp_blocking_receive_response and the library download.
    [Check id n h]: tcp_receive_response (210-236); [n] is size_of T and [h]
    stands for "deserialize, then handler": [None] deserialization panics,
    [Some true] the handler returns Ok, [Some false] it returns Err. *)
Inductive call := Wait (id : N) | Check (id : N) (n : N) (h : list byte -> option bool).

Inductive pc := Idle | Polling (c : call) | Reading (c : call) (n : N) | Looking (c : call) | Dead (p : panic).

(** What a call returns. *)
Inductive ret :=
| RWait (id : N) (m : list byte)
| RNone (id : N)
| ROk (id : N) (m : list byte)
| RErr (id : N) (m : list byte).

Definition set_table (s : net) (t : table_t) : net :=
  Net (kbuf s) (ready s) (closed s) (pend s) (poff s) (plen s) (pid s) t.

(** One step of the client thread. *)
Definition client_step (t : net_type) (st : net * pc) : (net * pc) * list ret :=
  let '(s, p) := st in
  match p with
  | Idle => (st, [])
  | Dead _ => (st, [])
  | Polling c =>
      match poll t s with
      | PPanic q => ((s, Dead q), [])
      | PDone s' => ((s', Looking c), [])
      | PRead n s' => ((s', Reading c n), [])
      end
  | Reading c n =>
      if N.leb n (blen (kbuf s)) then ((finish_read n s, Looking c), [])
      else if closed s then ((s, Dead PEof), [])
      else (st, [])                                  (* blocked in read_exact *)
  | Looking (Wait id) =>
      match tget id (table s) with
      | Some m => ((set_table s (tremove id (table s)), Idle), [RWait id m])
      | None => ((s, Polling (Wait id)), [])
      end
  | Looking (Check id n h) =>
      match tget id (table s) with
      | None => ((s, Idle), [RNone id])
      | Some m =>
          if negb (N.eqb (blen m) n) then ((s, Dead PSize), [])
          else match h m with
               | None => ((s, Dead PDecode), [])
               | Some true => ((set_table s (tremove id (table s)), Idle), [ROk id m])
               | Some false => ((s, Idle), [RErr id m])
               end
      end
  end.

(** The environment and the user program. [LSpurious]: a readiness event
    without new data (over-approximation of epoll). *)
Inductive label := LArrive (bs : list byte) | LClose | LSpurious | LStart (c : call) | LClient.

Definition set_ready (s : net) (extra : list byte) (c : bool) : net :=
  Net (kbuf s ++ extra) true (closed s || c) (pend s) (poff s) (plen s) (pid s) (table s).

Definition step (t : net_type) (st : net * pc) (l : label) : (net * pc) * list ret :=
  match l with
  | LArrive [] => (st, [])
  | LArrive bs => if closed (fst st) then (st, []) else ((set_ready (fst st) bs false, snd st), [])
  | LClose => ((set_ready (fst st) [] true, snd st), [])
  | LSpurious => ((set_ready (fst st) [] false, snd st), [])
  | LStart c => match snd st with Idle => ((fst st, Polling c), []) | _ => (st, []) end
  | LClient => client_step t st
  end.

Fixpoint run (t : net_type) (st : net * pc) (ls : list label) : (net * pc) * list ret :=
  match ls with
  | [] => (st, [])
  | l :: r => let '(st1, o1) := step t st l in
              let '(st2, o2) := run t st1 r in (st2, o1 ++ o2)
  end.

(** network.rs 122-148: numbering and sending.  [checks] says whether the build has
    overflow checks: [command_id += 1] at u32::MAX panics with them and wraps
    without.  Every call site (robot.rs, robot_impl.rs, gripper.rs,
    library_downloader.rs) creates the header while building the request and
    sends that request at once, so creating and sending are one step here. *)
Definition next_id (checks : bool) (id : N) : option N :=
  if (id + 1 <? 2 ^ 32)%N then Some (id + 1)%N else if checks then None else Some 0%N.

(** Result: (bytes written, id returned) per request, and whether all were sent. *)
Fixpoint send_requests {R} (encode : N -> R -> list byte) (checks : bool) (id : N) (rs : list R)
  : list (list byte * N) * bool :=
  match rs with
  | [] => ([], true)
  | r :: rest =>
      match next_id checks id with
      | None => ([], false)                          (* panic in create_header *)
      | Some id' => let '(log, ok) := send_requests encode checks id' rest in
                    ((encode id r, id) :: log, ok)
      end
  end.
Definition robot_send_requests := send_requests encode_request.
Definition gripper_send_requests := send_requests encode_gripper_request.

(** network.rs 172-197: result of the model download from the response bytes.
    [LPanic]: slice out of range, undecodable header or the [assert_ne]. *)
Inductive lib_result := LOk (payload : list byte) | LError | LPanic.
Definition load_library_response (m : list byte) : lib_result :=
  if N.ltb (blen m) 13 then LPanic
  else match deserialize c_lm_response (firstn 13 m) with
       | None => LPanic
       | Some ((_, (_, size)), st) =>
           match st with
           | LmError => LError
           | LmSuccess => if N.eqb size 13 then LPanic else LOk (skipn 13 m)
           end
       end.
