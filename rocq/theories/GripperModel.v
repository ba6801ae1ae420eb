(** The gripper handle, /repo/src/gripper.rs.

    Network as in RobotModel: TCP messages arrive whole ([tsched], one poll each), UDP as in
    UdpModel.  [Blocked]: the call waits forever.  A gripper handle has no operation which waits
    without a TCP or UDP peer, so nothing else is external. *)
From Coq Require Import List NArith ZArith Bool Arith String.
From Coq Require Import Init.Byte.
From Verif Require Import Bytes Codec WireModel TcpModel UdpModel RobotModel.
Import ListNotations.
Open Scope list_scope.
Open Scope N_scope.

Inductive gevent :=
| GEvRequest (id : N) (r : gripper_request)
| GEvReply (id : N) (m : list byte).

(** gripper.rs 22-25 [Gripper] and the parts of [Network] it uses, and the environment *)
Record gst := GSt {
  g_udp : udp;
  g_usched : sched;
  g_table : table_t;
  g_tsched : list (option (N * list byte));
  g_id : N;
  g_version : option N;
  g_trace : list gevent
}.

(** network.rs 66-121 *)
Definition gst_init (us : sched) (ts : list (option (N * list byte))) : gst := GSt udp_init us [] ts 0 None [].

(** network.rs 122-130, 141-148, 154-160: number the request, write it, wait for the response with
    its id and remove that from the table.  [None] when none ever comes. *)
Definition g_exchange (r : gripper_request) (s : gst) : option (list byte) * gst :=
  let id := g_id s in
  let id' := (id + 1) mod 2 ^ 32 in
  match wait_loop id (g_tsched s) (g_table s) with
  | (Some m, tb, ts) => (Some m, GSt (g_udp s) (g_usched s) tb ts id' (g_version s)
                                     (GEvReply id m :: GEvRequest id r :: g_trace s))
  | (None, tb, ts) => (None, GSt (g_udp s) (g_usched s) tb ts id' (g_version s)
                                 (GEvRequest id r :: g_trace s))
  end.

(** gripper.rs 181-192 *)
Definition handle_response_status (st : gr_status) : outcome bool :=
  match st with
  | GrSuccess => Ok true
  | GrFail => Err (CommandException "libfranka-rs gripper: Command failed!")
  | GrUnsuccessful => Ok false
  | GrAborted => Err (CommandException "libfranka-rs gripper: Command aborted!")
  end.

(** gripper.rs 77-87, 98-105, 113-120, 139-158: the four actions differ in the request only *)
Definition g_action (r : gripper_request) (s : gst) : outcome bool * gst :=
  let '(o, s) := g_exchange r s in
  match o with
  | None => (Blocked, s)
  | Some m => match deserialize c_gr_response m with
              | None => (Panic PDecodeTcp, s)
              | Some (_, st) => (handle_response_status st, s)
              end
  end.
Definition move_gripper (width speed : N) := g_action (GReqMove width speed).
Definition homing := g_action GReqHoming.
Definition gripper_stop := g_action GReqStop.
Definition grasp (width speed force : N) (ei eo : option N) := g_action (GReqGrasp width speed force ei eo).

(** gripper.rs 47-67 *)
Definition connect_gripper (port : N) (s : gst) : outcome unit * gst :=
  let '(o, s) := g_exchange (GReqConnect port) s in
  match o with
  | None => (Blocked, s)
  | Some m =>
      match deserialize c_gr_connect_response m with
      | None => (Panic PDecodeTcp, s)
      | Some (_, (GrSuccess, v)) =>
          (Ok tt, GSt (g_udp s) (g_usched s) (g_table s) (g_tsched s) (g_id s) (Some v) (g_trace s))
      | Some (_, (_, v)) => (Err (IncompatibleLibraryVersionError v gripper_version), s)
      end
  end.

(** gripper_state.rs 34-44; the time is in milliseconds *)
Record gripper_state := GripperState {
  gr_width : N; gr_max_width : N; gr_is_grasped : bool; gr_temperature : N; gr_time : N
}.
Definition gripper_state_of (x : gripper_state_intern) : gripper_state :=
  GripperState (gs_width x) (gs_max_width x) (gs_is_grasped x) (gs_temperature x) (gs_message_id x).

(** gripper.rs 165-171; the size of a [GripperStateIntern] is 23 *)
Definition g_read_once (s : gst) : outcome gripper_state * gst :=
  match read_fresh 23 (deserialize c_gripper_state) (g_udp s) (g_usched s) with
  | None => (OutOfFuel, s)
  | Some (r, u, sc) =>
      let s := GSt u sc (g_table s) (g_tsched s) (g_id s) (g_version s) (g_trace s) in
      match r with
      | UOk x => (Ok (gripper_state_of x), s)
      | UTimeout => (Err (NetworkException NeTimeout), s)
      | URecvError => (Err (NetworkException NeRecv), s)
      | USizeError n => (Err (NetworkException (NeSize n)), s)
      | UPanic => (Panic PDecodeUdp, s)
      end
  end.

(** gripper.rs 176-178; [None]: the [unwrap] panics *)
Definition g_server_version (s : gst) : option N := g_version s.

(** A user program on one handle; it ends early when a call panics or never returns. *)
Inductive gcall := GMove (width speed : N) | GHoming | GStop | GGrasp (width speed force : N) (ei eo : option N) | GRead.
Definition g_dead {A} (o : outcome A) : bool :=
  match o with Panic _ | Blocked | OutOfFuel => true | _ => false end.
Definition run_gcall (c : gcall) (s : gst) : bool * gst :=
  match c with
  | GMove w v => let '(o, s) := move_gripper w v s in (g_dead o, s)
  | GHoming => let '(o, s) := homing s in (g_dead o, s)
  | GStop => let '(o, s) := gripper_stop s in (g_dead o, s)
  | GGrasp w v f a b => let '(o, s) := grasp w v f a b s in (g_dead o, s)
  | GRead => let '(o, s) := g_read_once s in (g_dead o, s)
  end.
Fixpoint run_gcalls (l : list gcall) (s : gst) : gst :=
  match l with
  | [] => s
  | c :: r => let '(d, s) := run_gcall c s in if d then s else run_gcalls r s
  end.
(** [Gripper::new] and then the calls *)
Definition gripper_program (port : N) (l : list gcall) (s : gst) : gst :=
  match connect_gripper port s with
  | (Ok _, s) => run_gcalls l s
  | (_, s) => s
  end.
