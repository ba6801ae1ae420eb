(** The robot handle: /repo/src/robot/robot_impl.rs and the calls of /repo/src/robot.rs which
    use it, on top of the UDP model.

    A call is a function of the state [st]: the fields of [RobotImpl] and [Network], the
    environment's future behaviour (schedules and oracles) and a trace of observable events
    (newest first).

    Simplifications.
    - TCP is modelled per message: at each [tcp_read_from_buffer] at most one complete message
      is added to [received_responses] (n_tsched).  TcpModel.v treats the byte level; its
      theorems C02/C03 say when this view is right.  [write_all(..).unwrap()] does not fail.
    - An exhausted UDP schedule means silence, an exhausted TCP schedule that no message ever
      comes; waiting for one is then [Blocked].
    - [RobotState] is represented by the [RobotStateIntern] it is converted from (the conversion
      is a function, robot_state.rs 257-372); its time is [Duration::from_millis(message_id)]
      (robot_state.rs 319-371), here the number of milliseconds. *)
From Coq Require Import List NArith ZArith Bool Arith String.
From Coq Require Import Init.Byte.
From Verif Require Import Bytes Codec WireModel TcpModel UdpModel ErrorsModel LoggerModel.
Import ListNotations.
Open Scope N_scope.

(** Why a thread dies. *)
Inductive rpanic :=
| PDecodeUdp | PDecodeTcp | PTcpSize | PUnwrap | PStartWhileRunning | PUnexpectedReply
| PStopRejected | PNotCommandException | PDuration | PTimeStep | PLog | PErrorSet | PCallback | PFirstState.

(** Messages of the network errors (network.rs 279-297, 305-313, robot_impl.rs 203-206). *)
Inductive net_error := NeTimeout | NeRecv | NeSize (got : nat) | NeSend.

(** logger.rs 33-40: a record is a state and the command sent before it. *)
Definition record : Type := robot_state_intern * robot_command.

(** The [error] text of a control exception: the text up to the reflex reasons and, if present,
    the success rate the statistics start from (as bits) and the number of lost packets
    (robot_impl.rs 464-496; the formatting of the numbers is not modelled). *)
Record control_text := ControlText { ct_text : string; ct_stats : option (N * N) }.

(** exception.rs 11-58 *)
Inductive exn :=
| ControlException (log : option (list record)) (error : control_text)
| IncompatibleLibraryVersionError (server library : N)
| NoMotionGeneratorRunningError
| NoControllerRunningError
| PartialCommandError
| NetworkException (e : net_error)
| CommandException (message : string)
| RealTimeException (message : string).

(** Results of a call.  [Blocked]: it never returns.  [OutOfFuel] is proved unreachable. *)
Inductive outcome (A : Type) := Ok (a : A) | Err (e : exn) | Panic (p : rpanic) | Blocked | OutOfFuel.
Arguments Ok {A}. Arguments Err {A}. Arguments Panic {A}. Arguments Blocked {A}. Arguments OutOfFuel {A}.

(** Observable events. *)
Inductive event :=
| EvRequest (id : N) (r : robot_request)           (* TCP request written *)
| EvReply (id : N) (m : list byte)                 (* response handed to the caller *)
| EvCommand (a : addr) (c : robot_command)         (* UDP command sent *)
| EvState (s : robot_state_intern)                 (* update_state_with *)
| EvRead (s : robot_state_intern)                  (* returned by read_once / given to read's callback *)
| EvMotion (s : robot_state_intern) (dt : N)       (* motion callback called *)
| EvMotionOut (m : motion_command) (fin : bool)    (* its converted output, whether it is finished *)
| EvTorque (s : robot_state_intern) (dt : N)       (* torque callback called *)
| EvTorqueOut (t : list N) (fin : bool)            (* its filtered output, whether it is finished *)
| EvKernel.                                        (* has_realtime_kernel consulted *)

(** control_types.rs 26-32 *)
Inductive rt_config := RtEnforce | RtIgnore.

(** robot_impl.rs 28-38 [RobotImpl], the parts of [Network] it uses, and the environment. *)
Record st := St {
  n_udp : udp;                          (* UDP socket *)
  n_usched : sched;                     (* future UDP arrivals *)
  n_sends : list bool;                  (* future results of send_to; default: success *)
  n_table : table_t;                    (* received_responses *)
  n_tsched : list (option (N * list byte)); (* future TCP messages, one per poll *)
  n_id : N;                             (* command_id *)
  k_realtime : bool;                    (* /sys/kernel/realtime exists *)
  k_priority : bool;                    (* the scheduler accepts the priority *)
  r_rt : rt_config;
  r_version : option N;                 (* ri_version *)
  r_motion_mode : option mg_mode;       (* motion_generator_mode *)
  r_cur_motion : mg_mode;               (* current_move_motion_generator_mode *)
  r_ctrl_mode : ctrl_mode;              (* controller_mode *)
  r_cur_ctrl : option ctrl_mode;        (* current_move_controller_mode *)
  r_message_id : N;
  r_logger : logger robot_state_intern robot_command;
  trace : list event
}.

Definition set_udp (s : st) (u : udp) (sc : sched) : st :=
  St u sc (n_sends s) (n_table s) (n_tsched s) (n_id s) (k_realtime s) (k_priority s) (r_rt s) (r_version s)
     (r_motion_mode s) (r_cur_motion s) (r_ctrl_mode s) (r_cur_ctrl s) (r_message_id s) (r_logger s) (trace s).
Definition set_sends (s : st) (l : list bool) : st :=
  St (n_udp s) (n_usched s) l (n_table s) (n_tsched s) (n_id s) (k_realtime s) (k_priority s) (r_rt s) (r_version s)
     (r_motion_mode s) (r_cur_motion s) (r_ctrl_mode s) (r_cur_ctrl s) (r_message_id s) (r_logger s) (trace s).
Definition set_tcp (s : st) (tb : table_t) (ts : list (option (N * list byte))) : st :=
  St (n_udp s) (n_usched s) (n_sends s) tb ts (n_id s) (k_realtime s) (k_priority s) (r_rt s) (r_version s)
     (r_motion_mode s) (r_cur_motion s) (r_ctrl_mode s) (r_cur_ctrl s) (r_message_id s) (r_logger s) (trace s).
Definition set_id (s : st) (id : N) : st :=
  St (n_udp s) (n_usched s) (n_sends s) (n_table s) (n_tsched s) id (k_realtime s) (k_priority s) (r_rt s) (r_version s)
     (r_motion_mode s) (r_cur_motion s) (r_ctrl_mode s) (r_cur_ctrl s) (r_message_id s) (r_logger s) (trace s).
Definition set_version (s : st) (v : option N) : st :=
  St (n_udp s) (n_usched s) (n_sends s) (n_table s) (n_tsched s) (n_id s) (k_realtime s) (k_priority s) (r_rt s) v
     (r_motion_mode s) (r_cur_motion s) (r_ctrl_mode s) (r_cur_ctrl s) (r_message_id s) (r_logger s) (trace s).
Definition set_modes (s : st) (m : option mg_mode) (c : ctrl_mode) (id : N) : st :=
  St (n_udp s) (n_usched s) (n_sends s) (n_table s) (n_tsched s) (n_id s) (k_realtime s) (k_priority s) (r_rt s) (r_version s)
     m (r_cur_motion s) c (r_cur_ctrl s) id (r_logger s) (trace s).
Definition set_current (s : st) (m : mg_mode) (c : option ctrl_mode) : st :=
  St (n_udp s) (n_usched s) (n_sends s) (n_table s) (n_tsched s) (n_id s) (k_realtime s) (k_priority s) (r_rt s) (r_version s)
     (r_motion_mode s) m (r_ctrl_mode s) c (r_message_id s) (r_logger s) (trace s).
Definition set_logger (s : st) (l : logger robot_state_intern robot_command) : st :=
  St (n_udp s) (n_usched s) (n_sends s) (n_table s) (n_tsched s) (n_id s) (k_realtime s) (k_priority s) (r_rt s) (r_version s)
     (r_motion_mode s) (r_cur_motion s) (r_ctrl_mode s) (r_cur_ctrl s) (r_message_id s) l (trace s).
Definition add_event (s : st) (e : event) : st :=
  St (n_udp s) (n_usched s) (n_sends s) (n_table s) (n_tsched s) (n_id s) (k_realtime s) (k_priority s) (r_rt s) (r_version s)
     (r_motion_mode s) (r_cur_motion s) (r_ctrl_mode s) (r_cur_ctrl s) (r_message_id s) (r_logger s) (e :: trace s).

(** Calls. *)
Definition M (A : Type) : Type := st -> outcome A * st.
Definition ret {A} (a : A) : M A := fun s => (Ok a, s).
Definition throw {A} (e : exn) : M A := fun s => (Err e, s).
Definition panic_with {A} (p : rpanic) : M A := fun s => (Panic p, s).
(** The [?] operator. *)
Definition bind {A B} (m : M A) (f : A -> M B) : M B := fun s =>
  match m s with
  | (Ok a, s) => f a s
  | (Err e, s) => (Err e, s)
  | (Panic p, s) => (Panic p, s)
  | (Blocked, s) => (Blocked, s)
  | (OutOfFuel, s) => (OutOfFuel, s)
  end.
Notation "x <- m ;; f" := (bind m (fun x => f)) (at level 61, m at next level, right associativity).
Notation "m1 ;;; m2" := (bind m1 (fun _ => m2)) (at level 61, right associativity).
Definition get : M st := fun s => (Ok s, s).
Definition modify (f : st -> st) : M unit := fun s => (Ok tt, f s).
Definition emit (e : event) : M unit := modify (fun s => add_event s e).
(** [Option::unwrap] *)
Definition unwrap {A} (p : rpanic) (o : option A) : M A :=
  match o with Some a => ret a | None => panic_with p end.

(** * Network *)

(** [size_of::<RobotStateIntern>()] and its deserialization *)
Definition state_size : nat := 2373.
Definition state_decode : list byte -> option robot_state_intern := deserialize c_robot_state_intern.

Definition udp_block : M robot_state_intern := fun s =>
  let '(r, u, sc) := udp_blocking_receive state_size state_decode (n_udp s) (n_usched s) in
  let s := set_udp s u sc in
  match r with
  | UOk x => (Ok x, s)
  | UTimeout => (Err (NetworkException NeTimeout), s)
  | URecvError => (Err (NetworkException NeRecv), s)
  | USizeError n => (Err (NetworkException (NeSize n)), s)
  | UPanic => (Panic PDecodeUdp, s)
  end.
Definition udp_poll : M (option robot_state_intern) := fun s =>
  let '(r, u, sc) := udp_receive state_size state_decode (n_udp s) (n_usched s) in
  let s := set_udp s u sc in
  match r with
  | RSome x => (Ok (Some x), s)
  | UdpModel.RNone => (Ok None, s)
  | RPanic => (Panic PDecodeUdp, s)
  end.
(** Datagrams which can still be received: bound for the receive loops. *)
Definition bound (s : st) : nat := S (pending (n_udp s) (n_usched s)).

(** network.rs 300-316: send to the address of the last datagram received first *)
Definition udp_send (c : robot_command) : M unit := fun s =>
  match n_sends s with
  | false :: r => (Err (NetworkException NeSend), set_sends s r)
  | true :: r => (Ok tt, add_event (set_sends s r) (EvCommand (u_server (n_udp s)) c))
  | [] => (Ok tt, add_event s (EvCommand (u_server (n_udp s)) c))
  end.

(** network.rs 131-148: number the request and write it (wrap-around: [next_id] of TcpModel). *)
Definition send_request (r : robot_request) : M N := fun s =>
  (Ok (n_id s), set_id (add_event s (EvRequest (n_id s) r)) ((n_id s + 1) mod 2 ^ 32)).

(** network.rs 318-386: at most one message *)
Definition store (o : option (N * list byte)) (tb : table_t) : table_t :=
  match o with Some (id, m) => tinsert id m tb | None => tb end.

(** network.rs 238-248 *)
Fixpoint wait_loop (id : N) (ts : list (option (N * list byte))) (tb : table_t)
  : option (list byte) * table_t * list (option (N * list byte)) :=
  match ts with
  | [] => match tget id tb with Some m => (Some m, tremove id tb, []) | None => (None, tb, []) end
  | t :: r =>
      let tb := store t tb in
      match tget id tb with
      | Some m => (Some m, tremove id tb, r)
      | None => wait_loop id r tb
      end
  end.
Definition wait_response (id : N) : M (list byte) := fun s =>
  match wait_loop id (n_tsched s) (n_table s) with
  | (Some m, tb, ts) => (Ok m, add_event (set_tcp s tb ts) (EvReply id m))
  | (None, tb, ts) => (Blocked, set_tcp s tb ts)
  end.
(** network.rs 154-160 *)
Definition blocking_response {A} (c : codec A) (id : N) : M A :=
  m <- wait_response id ;; unwrap PDecodeTcp (deserialize c m).

(** network.rs 210-236: [size] is [size_of::<T>()] *)
Definition check_response {A} (c : codec A) (size : N) (id : N) (handler : A -> option exn) : M bool := fun s =>
  let '(t, ts) := match n_tsched s with [] => (None, []) | t :: r => (t, r) end in
  let s := set_tcp s (store t (n_table s)) ts in
  match tget id (n_table s) with
  | None => (Ok false, s)
  | Some m =>
      if N.eqb (blen m) size then
        match deserialize c m with
        | None => (Panic PDecodeTcp, s)
        | Some a =>
            let s := add_event s (EvReply id m) in
            match handler a with
            | None => (Ok true, set_tcp s (tremove id (n_table s)) (n_tsched s))
            | Some e => (Err e, s)
            end
        end
      else (Panic PTcpSize, s)
  end.

(** * Status codes *)

(** robot_impl.rs 40-72; [None] is [Ok(())] *)
Definition handle_move (m : move_status) : option exn :=
  match m with
  | MsSuccess => None
  | MsMotionStarted => None
  | MsEmergencyAborted => Some (CommandException "libfranka-rs: Move command aborted: User Stop pressed!")
  | MsReflexAborted => Some (CommandException "libfranka-rs: Move command aborted: motion aborted by reflex!")
  | MsInputErrorAborted => Some (CommandException "libfranka-rs: Move command aborted: invalid input provided!")
  | MsCommandNotPossibleRejected =>
      Some (CommandException "libfranka-rs: Move command rejected: command not possible in the current mode!")
  | MsStartAtSingularPoseRejected =>
      Some (CommandException "libfranka-rs: Move command rejected: cannot start at singular pose!")
  | MsInvalidArgumentRejected =>
      Some (CommandException "libfranka-rs: Move command rejected: maximum path deviation out of range!")
  | MsPreempted => Some (CommandException "libfranka-rs: Move command preempted!")
  | MsAborted => Some (CommandException "libfranka-rs: Move command aborted!")
  end.

(** robot_impl.rs 74-90 *)
Definition handle_stop (m : stop_status) : option exn :=
  match m with
  | SsSuccess => None
  | SsEmergencyAborted => Some (CommandException "libfranka-rs: Stop command aborted: User Stop pressed!")
  | SsReflexAborted => Some (CommandException "libfranka-rs: Stop command aborted: motion aborted by reflex!")
  | SsCommandNotPossibleRejected =>
      Some (CommandException "libfranka-rs: Stop command rejected: command not possible in the current mode!")
  | SsAborted => Some (CommandException "libfranka-rs: Stop command aborted!")
  end.

(** robot.rs 1069-1079 and 579-587 (get_virtual_wall repeats it) *)
Definition handle_setter (m : gs_status) : option exn :=
  match m with
  | GsSuccess => None
  | GsCommandNotPossibleRejected =>
      Some (CommandException "libfranka-rs: command rejected: command not possible in current mode")
  | GsInvalidArgumentRejected => Some (CommandException "libfranka-rs: command rejected: invalid argument!")
  end.

(** robot.rs 543-556: the public stop *)
Definition handle_user_stop (m : stop_status) : option exn :=
  match m with
  | SsSuccess => None
  | SsCommandNotPossibleRejected | SsAborted =>
      Some (CommandException "libfranka-rs: command rejected: command not possible in current mode")
  | SsEmergencyAborted => Some (CommandException "libfranka-rs: command aborted: User Stop pressed!")
  | SsReflexAborted => Some (CommandException "libfranka-rs: command aborted: motion aborted by reflex!")
  end.

(** robot.rs 501-521 *)
Definition handle_recovery (m : recovery_status) : option exn :=
  match m with
  | AsSuccess => None
  | AsEmergencyAborted => Some (CommandException "libfranka-rs: command aborted: User Stop pressed!")
  | AsReflexAborted => Some (CommandException "libfranka-rs: command aborted: motion aborted by reflex!")
  | AsCommandNotPossibleRejected =>
      Some (CommandException "libfranka-rs: command rejected: command not possible in current mode")
  | AsManualErrorRecoveryRequiredRejected =>
      Some (CommandException "libfranka-rs: command rejected: manual error recovery required!")
  | AsAborted => Some (CommandException "libfranka-rs: command aborted!")
  end.

Definition as_result (o : option exn) : M unit := match o with None => ret tt | Some e => throw e end.

(** * RobotImpl *)

(** robot_impl.rs 142-146 *)
Definition update_state_with (x : robot_state_intern) : M unit :=
  modify (fun s => add_event (set_modes s (Some (rs_motion_generator_mode x)) (rs_controller_mode x)
                                        (rs_message_id x)) (EvState x)).

(** robot_impl.rs 153-164: the first loop of [receive_robot_state] *)
Fixpoint poll_states (fuel : nat) (latest : option robot_state_intern) : M (option robot_state_intern) :=
  match fuel with
  | O => fun s => (OutOfFuel, s)
  | S fuel =>
      r <- udp_poll ;;
      match r with
      | None => ret latest
      | Some x =>
          s <- get ;;
          let newest := match latest with Some l => rs_message_id l | None => r_message_id s end in
          poll_states fuel (if newest <? rs_message_id x then Some x else latest)
      end
  end.

(** robot_impl.rs 165-170: the second loop, entered without an accepted state *)
Fixpoint await_state (fuel : nat) : M robot_state_intern :=
  match fuel with
  | O => fun s => (OutOfFuel, s)
  | S fuel =>
      x <- udp_block ;;
      s <- get ;;
      if r_message_id s <? rs_message_id x then ret x else await_state fuel
  end.

(** robot_impl.rs 151-173 *)
Definition receive_robot_state : M robot_state_intern :=
  s <- get ;;
  latest <- poll_states (bound s) None ;;
  s <- get ;;
  x <- match latest with Some x => ret x | None => await_state (bound s) end ;;
  update_state_with x ;;;
  ret x.

(** robot_impl.rs 148: [while self.network.udp_receive().is_some() {}] *)
Fixpoint flush_states (fuel : nat) : M unit :=
  match fuel with
  | O => fun s => (OutOfFuel, s)
  | S fuel => r <- udp_poll ;; match r with None => ret tt | Some _ => flush_states fuel end
  end.
(** robot_impl.rs 147-150 *)
Definition read_once : M robot_state_intern :=
  s <- get ;; flush_states (bound s) ;;; x <- receive_robot_state ;; emit (EvRead x) ;;; ret x.

(** The zero array, [0.; 7] *)
Definition zero7 : list N := repeat 0 7.
Definition mg_eqb (a b : mg_mode) : bool := N.eqb (mg_mode_N a) (mg_mode_N b).
Definition cm_eqb (a b : ctrl_mode) : bool := N.eqb (ctrl_mode_N a) (ctrl_mode_N b).

(** robot_impl.rs 174-226.  [pack] copies all fields (types.rs 205-217, 252-254).  The error of
    [udp_send] is wrapped into another network exception, 198-206. *)
Definition send_robot_command (motion : option motion_command) (control : option (list N))
  : M (option robot_command) :=
  match motion, control with
  | None, None => ret None
  | _, _ =>
      s <- get ;;
      let has_motion := match motion with Some _ => true | None => false end in
      let has_control := match control with Some _ => true | None => false end in
      if has_motion && mg_eqb (r_cur_motion s) MgIdle then throw NoMotionGeneratorRunningError
      else
        (if has_control then
           c <- unwrap PUnwrap (r_cur_ctrl s) ;;
           if cm_eqb c CmExternalController then ret tt else throw NoControllerRunningError
         else ret tt) ;;;
        (if negb (mg_eqb (r_cur_motion s) MgIdle) then
           c <- unwrap PUnwrap (r_cur_ctrl s) ;;
           if cm_eqb c CmExternalController && (negb has_motion || negb has_control)
           then throw PartialCommandError else ret tt
         else ret tt) ;;;
        match motion, control with
        | Some m, Some t =>
            let c := RobotCommand (r_message_id s) m t in udp_send c ;;; ret (Some c)
        | Some m, None =>
            let c := RobotCommand (r_message_id s) m zero7 in udp_send c ;;; ret (Some c)
        | None, _ => ret None
        end
  end.

(** robot_impl.rs 227-229; [None] would be the panic of the [unwrap] *)
Definition motion_generator_running : M bool :=
  s <- get ;; m <- unwrap PUnwrap (r_motion_mode s) ;; ret (negb (mg_eqb m MgIdle)).
(** robot_impl.rs 230-232 *)
Definition controller_running : M bool :=
  s <- get ;; ret (cm_eqb (r_ctrl_mode s) CmExternalController).
(** [a() || b()] *)
Definition motion_or_controller_running : M bool :=
  a <- motion_generator_running ;; if a then ret true else controller_running.

(** logger.rs 77-98 *)
Definition flush_log : M (list record) := fun s =>
  let '(o, l) := logger_flush (r_logger s) in
  match o with Some rs => (Ok rs, set_logger s l) | None => (Panic PLog, set_logger s l) end.

(** robot_impl.rs 416-427 *)
Definition update (motion : option motion_command) (control : option (list N)) : M robot_state_intern :=
  sent <- send_robot_command motion control ;;
  x <- receive_robot_state ;;
  match sent with
  | None => ret x
  | Some c =>
      s <- get ;;
      l <- unwrap PLog (logger_log (r_logger s) x c) ;;
      modify (fun s => set_logger s l) ;;; ret x
  end.

(** robot_impl.rs 248-271 *)
Definition execute_move (c : move_ctrl) (m : move_mg) (path goal : deviation) : M N :=
  id <- send_request (ReqMove c m path goal) ;;
  r <- blocking_response c_move_response id ;;
  as_result (handle_move (snd r)) ;;;
  ret id.

(** robot_impl.rs 272-283 *)
Definition execute_stop : M N :=
  id <- send_request ReqStopMove ;;
  r <- blocking_response c_stop_response id ;;
  as_result (handle_stop (snd r)) ;;;
  ret id.

(** robot_impl.rs 297-302, 303-307 *)
Definition mode_of_move (m : move_mg) : mg_mode :=
  match m with
  | MmJointPosition => MgJointPosition | MmJointVelocity => MgJointVelocity
  | MmCartesianPosition => MgCartesianPosition | MmCartesianVelocity => MgCartesianVelocity
  end.
Definition ctrl_of_move (c : move_ctrl) : ctrl_mode :=
  match c with
  | McJointImpedance => CmJointImpedance | McExternalController => CmExternalController
  | McCartesianImpedance => CmCartesianImpedance
  end.

(** robot_impl.rs 315-317: the loop condition *)
Definition modes_differ : M bool :=
  s <- get ;;
  m <- unwrap PUnwrap (r_motion_mode s) ;;
  ret (negb (mg_eqb m (r_cur_motion s)) ||
       negb (match r_cur_ctrl s with Some c => cm_eqb (r_ctrl_mode s) c | None => false end)).

(** robot_impl.rs 315-339.  The size of a [MoveResponse] is 13. *)
Fixpoint start_loop (fuel : nat) (id : N) : M unit :=
  match fuel with
  | O => fun s => (OutOfFuel, s)
  | S fuel =>
      d <- modes_differ ;;
      if d then
        fun s =>
          match check_response c_move_response 13 id (fun r => handle_move (snd r)) s with
          | (Ok true, s) => (Ok tt, s)
          | (Ok false, s) => (update None None ;;; start_loop fuel id) s
          | (Err (CommandException m), s) => (Err (ControlException None (ControlText m None)), s)
          | (Err _, s) => (Panic PNotCommandException, s)
          | (Panic p, s) => (Panic p, s)
          | (Blocked, s) => (Blocked, s)
          | (OutOfFuel, s) => (OutOfFuel, s)
          end
      else ret tt
  end.

(** robot_impl.rs 287-342 *)
Definition start_motion (c : move_ctrl) (m : move_mg) (path goal : deviation) : M N :=
  running <- motion_or_controller_running ;;
  if running then panic_with PStartWhileRunning
  else
    modify (fun s => set_current s (mode_of_move m) (Some (ctrl_of_move c))) ;;;
    id <- execute_move c m path goal ;;
    s <- get ;;
    start_loop (bound s) id ;;;
    flush_log ;;;
    ret id.

(** robot_impl.rs 464-496.  [reasons] is the Display of the reflex errors.  The subtraction of
    the times and the [- 1] panic on underflow. *)
Definition create_control_exception (message : string) (status : move_status) (reasons : string)
  (log : list record) : outcome exn :=
  match status with
  | MsReflexAborted =>
      let text := (message ++ " " ++ reasons)%string in
      match rev log with
      | (s1, _) :: (s2, _) :: _ =>
          if (rs_message_id s2 <=? rs_message_id s1) then
            let gap := rs_message_id s1 - rs_message_id s2 in
            if (1 <=? gap) then
              Ok (ControlException (Some log)
                    (ControlText text (Some (rs_control_command_success_rate s2, gap - 1))))
            else Panic PDuration
          else Panic PDuration
      | _ => Ok (ControlException (Some log) (ControlText text None))
      end
  | _ => Ok (ControlException (Some log) (ControlText message None))
  end.

(** robot_state.rs 320-321: Display of [last_motion_errors]; [None]: the panic in errors.rs 39 *)
Definition reflex_text (x : robot_state_intern) : option string :=
  option_map display_errors (franka_errors (rs_reflex_reason1 x) (rs_reflex_reason2 x)).

(** The common tail "flush the log, build the exception, return it as error"
    (robot_impl.rs 369-374, 379-384, 444-449). *)
Definition throw_control {A} (message : string) (status : move_status) (x : robot_state_intern) : M A :=
  reasons <- unwrap PErrorSet (reflex_text x) ;;
  log <- flush_log ;;
  fun s => match create_control_exception message status reasons log with
           | Ok e => (Err e, s)
           | Panic p => (Panic p, s)
           | _ => (OutOfFuel, s)
           end.

(** [to_string] of a command exception prints the message in Debug format, that is quoted
    (exception.rs 47-48; the messages contain nothing to escape). *)
Definition quoted (m : string) : string := (dquote ++ m ++ dquote)%string.

(** robot_impl.rs 361-363: the loop of [finish_motion] *)
Fixpoint finish_loop (fuel : nat) (motion : motion_command) (control : option (list N))
  (last : option robot_state_intern) : M (option robot_state_intern) :=
  match fuel with
  | O => fun s => (OutOfFuel, s)
  | S fuel =>
      running <- motion_or_controller_running ;;
      if running then x <- update (Some motion) control ;; finish_loop fuel motion control (Some x)
      else ret last
  end.

Definition set_finished (m : motion_command) : motion_command :=
  MotionCommand (mc_q_c m) (mc_dq_c m) (mc_O_T_EE_c m) (mc_O_dP_EE_c m) (mc_elbow_c m)
                (mc_valid_elbow m) true.

(** robot_impl.rs 347-350, 391-392, 412-413 *)
Definition reset_current : M unit := modify (fun s => set_current s MgIdle (Some CmOther)).

(** robot_impl.rs 344-394 *)
Definition finish_motion (id : N) (motion : option motion_command) (control : option (list N)) : M unit :=
  running <- motion_or_controller_running ;;
  if running then
    match motion with
    | None => throw (ControlException None
                       (ControlText "libfranka-rs robot: No motion generator command given!" None))
    | Some m =>
        s <- get ;;
        last <- finish_loop (bound s) (set_finished m) control None ;;
        x <- unwrap PUnwrap last ;;
        r <- blocking_response c_move_response id ;;
        match snd r with
        | MsReflexAborted =>
            throw_control "Motion finished commanded, but the robot is still moving!" MsReflexAborted x
        | status =>
            match handle_move status with
            | None => reset_current
            | Some (CommandException m) => throw_control m status x
            | Some _ => panic_with PNotCommandException
            end
        end
    end
  else reset_current.

(** robot_impl.rs 401-404: the loop of [cancel_motion]; errors of the receive are ignored.  With
    the schedule exhausted and nothing queued it goes on forever. *)
Fixpoint cancel_loop (fuel : nat) : M unit :=
  match fuel with
  | O => fun s => (OutOfFuel, s)
  | S fuel =>
      running <- motion_or_controller_running ;;
      if running then
        fun s =>
          match receive_robot_state s with
          | (Ok _, s) => cancel_loop fuel s
          | (Err _, s) =>
              if is_nil (n_usched s) && is_nil (u_queue (n_udp s)) then (Blocked, s) else cancel_loop fuel s
          | (Panic p, s) => (Panic p, s)
          | (Blocked, s) => (Blocked, s)
          | (OutOfFuel, s) => (OutOfFuel, s)
          end
      else ret tt
  end.

(** robot_impl.rs 397-414 *)
Definition cancel_motion (id : N) : M unit := fun s =>
  match execute_stop s with
  | (Err _, s) => (Panic PStopRejected, s)
  | (Panic p, s) => (Panic p, s)
  | (Blocked, s) => (Blocked, s)
  | (OutOfFuel, s) => (OutOfFuel, s)
  | (Ok _, s) =>
      (* first receive: its result is ignored, a panic is not *)
      let '(r, s) := receive_robot_state s in
      match r with
      | Panic p => (Panic p, s)
      | Blocked => (Blocked, s)
      | OutOfFuel => (OutOfFuel, s)
      | _ =>
          (cancel_loop (S (List.length (n_usched s) + pending (n_udp s) (n_usched s))) ;;;
           check_response c_move_response 13 id (fun _ => None) ;;;
           reset_current) s
      end
  end.

(** robot_impl.rs 433-455 *)
Definition throw_on_motion_error (x : robot_state_intern) (id : N) : M unit :=
  s <- get ;;
  bad <- (if negb (N.eqb (robot_mode_N (rs_robot_mode x)) (robot_mode_N RmMove)) then ret true
          else m <- unwrap PUnwrap (r_motion_mode s) ;;
               if negb (mg_eqb m (r_cur_motion s)) then ret true
               else c <- unwrap PUnwrap (r_cur_ctrl s) ;; ret (negb (cm_eqb (r_ctrl_mode s) c))) ;;
  if bad then
    r <- blocking_response c_move_response id ;;
    match handle_move (snd r) with
    | Some (CommandException m) => throw_control (quoted m) (snd r) x
    | Some _ => panic_with PNotCommandException
    | None => panic_with PUnexpectedReply
    end
  else ret tt.

(** robot_impl.rs 120-141 *)
Definition connect_robot (udp_port : N) : M unit :=
  id <- send_request (ReqConnect udp_port) ;;
  r <- blocking_response c_connect_response id ;;
  match fst (snd r) with
  | CsSuccess => modify (fun s => set_version s (Some (snd (snd r))))
  | CsIncompatibleLibraryVersion => throw (IncompatibleLibraryVersionError (snd (snd r)) robot_version)
  end.

(** robot_impl.rs 93-119: the first state is received with [unwrap]. *)
Definition robot_new (udp_port : N) : M unit :=
  connect_robot udp_port ;;;
  fun s => match udp_block s with
           | (Ok x, s) => update_state_with x s
           | (Err _, s) => (Panic PFirstState, s)
           | (Panic p, s) => (Panic p, s)
           | (Blocked, s) => (Blocked, s)
           | (OutOfFuel, s) => (OutOfFuel, s)
           end.

(** robot_impl.rs 98-110, network.rs 66-121: the state before connecting, for a given environment. *)
Definition st_init (log_size : nat) (rt : rt_config) (usched : sched) (tsched : list (option (N * list byte)))
  (sends : list bool) (realtime priority : bool) : st :=
  St udp_init usched sends [] tsched 0 realtime priority rt None None MgIdle CmOther None 0
     (logger_new log_size) [].

(** * Other public calls, robot.rs *)

(** robot.rs 232-482: every setter sends one request and maps the status *)
Definition setter (r : robot_request) : M unit :=
  id <- send_request r ;;
  x <- blocking_response c_setter_response id ;;
  as_result (handle_setter (snd x)).

(** robot.rs 490-522 *)
Definition automatic_error_recovery : M unit :=
  id <- send_request ReqAutomaticErrorRecovery ;;
  x <- blocking_response c_recovery_response id ;;
  as_result (handle_recovery (snd x)).

(** robot.rs 531-557 *)
Definition user_stop : M unit :=
  id <- send_request ReqStopMove ;;
  x <- blocking_response c_stop_response id ;;
  as_result (handle_user_stop (snd x)).

(** robot.rs 566-588 with virtual_wall_cuboid.rs 20-27: (id, object_world_size, frame, active) *)
Definition get_virtual_wall (wall : Z) : M (Z * (list N * (list N * bool))) :=
  id <- send_request (ReqGetCartesianLimit wall) ;;
  x <- blocking_response c_wall_response id ;;
  as_result (handle_setter (fst (snd x))) ;;;
  ret (wall, snd (snd x)).

(** robot.rs 1026-1033: the documented defaults, 20.0, 10.0, 3000.0, 2500.0, 2000.0, 300.0 *)
Definition f64_20 : N := 0x4034000000000000.
Definition f64_10 : N := 0x4024000000000000.
Definition f64_3000 : N := 0x40A7700000000000.
Definition f64_2500 : N := 0x40A3880000000000.
Definition f64_2000 : N := 0x409F400000000000.
Definition f64_300 : N := 0x4072C00000000000.
Definition set_default_behavior : M unit :=
  setter (ReqSetCollisionBehavior (repeat f64_20 7) (repeat f64_20 7) (repeat f64_10 7) (repeat f64_10 7)
                                  (repeat f64_20 6) (repeat f64_20 6) (repeat f64_10 6) (repeat f64_10 6)) ;;;
  setter (ReqSetJointImpedance [f64_3000; f64_3000; f64_3000; f64_2500; f64_2500; f64_2000; f64_2000]) ;;;
  setter (ReqSetCartesianImpedance [f64_3000; f64_3000; f64_3000; f64_300; f64_300; f64_300]).

(** robot.rs 176-187: the callback is any function of its own state [K]; [None] is a panic in it. *)
Fixpoint read_loop {K} (fuel : nat) (cb : K -> robot_state_intern -> option (K * bool)) (k : K) : M K :=
  match fuel with
  | O => fun s => (OutOfFuel, s)
  | S fuel =>
      x <- update None None ;;
      emit (EvRead x) ;;;
      p <- unwrap PCallback (cb k x) ;;
      if snd p then read_loop fuel cb (fst p) else ret (fst p)
  end.
Definition robot_read {K} (cb : K -> robot_state_intern -> option (K * bool)) (k : K) : M K :=
  s <- get ;; read_loop (bound s) cb k.
