(** The control loop: /repo/src/robot/control_loop.rs, and the control calls of
    /repo/src/robot.rs 613-1021 which all go through it.

    User callbacks are arbitrary functions of a state of their own, a robot state and a time
    step; [None] is a panic inside the callback.  What happens to their output before it is
    written into the command ([convert_motion]; low-pass filter, rate limiter and finiteness
    assertion for torques) is a parameter here and modelled in the numeric files. *)
From Coq Require Import List NArith ZArith Bool Arith String.
From Verif Require Import Bytes Codec WireModel TcpModel UdpModel LoggerModel RobotModel.
Import ListNotations.
Open Scope N_scope.

(** control_types.rs 28-31 [ControllerMode]; its translation, control_loop.rs 73-76 *)
Inductive impedance := JointImpedance | CartesianImpedance.
Definition mc_of_impedance (i : impedance) : move_ctrl :=
  match i with JointImpedance => McJointImpedance | CartesianImpedance => McCartesianImpedance end.

(** What a control call is given (control_loop.rs 20-34, robot.rs 954-1021). *)
Record controller := Controller {
  k_cb : Type;                                             (* state of the closures *)
  k_out : Type;                                            (* type U of the motion callback *)
  k_mode : move_mg;                                        (* U::get_motion_generator_mode() *)
  k_motion : k_cb -> robot_state_intern -> N -> option (k_cb * k_out);
  k_convert : k_out -> robot_state_intern -> motion_command -> option motion_command;
  k_finished : k_out -> bool;                              (* Finishable::is_finished *)
  k_torque : option (k_cb -> robot_state_intern -> N -> option (k_cb * (list N * bool)));
  k_filter : list N -> robot_state_intern -> option (list N);
  k_impedance : impedance                                  (* controller when there is no torque callback *)
}.

(** control_loop.rs 97-101: 10.0, 3.12, 2 pi *)
Definition default_deviation : deviation := (0x4024000000000000, (0x4008F5C28F5C28F6, 0x401921FB54442D18)).

(** control_loop.rs 87-119 *)
Definition new_intern : M unit :=
  s <- get ;;
  match r_rt s with
  | RtIgnore => ret tt
  | RtEnforce =>
      emit EvKernel ;;;
      if k_realtime s then
        (if k_priority s then ret tt
         else throw (RealTimeException "libfranka-rs: unable to set realtime scheduling"))
      else throw (RealTimeException "libfranka-rs: Running kernel does not have realtime capabilities.")
  end.

(** control_loop.rs 134-135 *)
Definition zero_motion : motion_command :=
  MotionCommand (repeat 0 7) (repeat 0 7) (repeat 0 16) (repeat 0 6) (repeat 0 2) false false.

(** [robot_state.time - previous_time]; underflow panics *)
Definition time_step (now before : N) : M N :=
  if before <=? now then ret (now - before) else panic_with PTimeStep.

Section Loop.
  Variable k : controller.

  (** None of the four [convert_motion] (control_types.rs 154-184, 228-257, 341-401, 462-525)
      writes [motion_generation_finished]: the flag of the command is kept. *)
  Definition keep_finished (old new : motion_command) : motion_command :=
    MotionCommand (mc_q_c new) (mc_dq_c new) (mc_O_T_EE_c new) (mc_O_dP_EE_c new) (mc_elbow_c new)
                  (mc_valid_elbow new) (mc_finished old).

  (** control_loop.rs 207-216 *)
  Definition spin_motion (cb : k_cb k) (x : robot_state_intern) (dt : N) (m : motion_command)
    : M (k_cb k * motion_command * bool) :=
    emit (EvMotion x dt) ;;;
    r <- unwrap PCallback (k_motion k cb x dt) ;;
    new <- unwrap PCallback (k_convert k (snd r) x m) ;;
    let m' := keep_finished m new in
    emit (EvMotionOut m' (k_finished k (snd r))) ;;;
    ret (fst r, m', negb (k_finished k (snd r))).

  (** control_loop.rs 178-206 *)
  Definition spin_control (torque : k_cb k -> robot_state_intern -> N -> option (k_cb k * (list N * bool)))
    (cb : k_cb k) (x : robot_state_intern) (dt : N) : M (k_cb k * list N * bool) :=
    emit (EvTorque x dt) ;;;
    r <- unwrap PCallback (torque cb x dt) ;;
    t <- unwrap PCallback (k_filter k (fst (snd r)) x) ;;
    emit (EvTorqueOut t (snd (snd r))) ;;;
    ret (fst r, t, negb (snd (snd r))).

  (** control_loop.rs 136-174, both branches: [control] is [None] in the branch without torque
      callback and holds the last torques in the other. *)
  Fixpoint motion_loop (fuel : nat) (id : N) (cb : k_cb k) (x : robot_state_intern) (previous : N)
    (m : motion_command) (control : option (list N)) : M unit :=
    match fuel with
    | O => fun s => (OutOfFuel, s)
    | S fuel =>
        dt <- time_step (rs_message_id x) previous ;;
        r <- spin_motion cb x dt m ;;
        let '(cb, m, go) := r in
        c <- match k_torque k with
             | Some torque =>
                 if go then
                   dt <- time_step (rs_message_id x) previous ;;
                   r <- spin_control torque cb x dt ;;
                   let '(cb, t, go) := r in ret (cb, Some t, go)
                 else ret (cb, control, false)
             | None => ret (cb, None, go)
             end ;;
        let '(cb, control, go) := c in
        if go then
          x' <- update (Some m) control ;;
          throw_on_motion_error x' id ;;;
          motion_loop fuel id cb x' (rs_message_id x) m control
        else finish_motion id (Some m) control
    end.

  (** control_loop.rs 131-176 *)
  Definition do_loop (id : N) (cb : k_cb k) : M unit :=
    x <- update None None ;;
    throw_on_motion_error x id ;;;
    s <- get ;;
    motion_loop (bound s) id cb x (rs_message_id x) zero_motion
                (match k_torque k with Some _ => Some zero7 | None => None end).

  (** control_loop.rs 121-129 *)
  Definition run_loop (id : N) (cb : k_cb k) : M unit := fun s =>
    match do_loop id cb s with
    | (Err e, s) => (cancel_motion id ;;; throw e) s
    | r => r
    end.

  (** control_loop.rs 54-64, 67-85: the controller mode requested *)
  Definition wanted_ctrl : move_ctrl :=
    match k_torque k with Some _ => McExternalController | None => mc_of_impedance (k_impedance k) end.

  (** control_loop.rs 44-86 and robot.rs 954-1021 *)
  Definition control (cb : k_cb k) : M unit :=
    new_intern ;;;
    id <- start_motion wanted_ctrl (k_mode k) default_deviation default_deviation ;;
    run_loop id cb.
End Loop.

(** The calls a user can make on a [Robot] (robot.rs), results dropped. *)
Inductive api :=
| ARead (K : Type) (cb : K -> robot_state_intern -> option (K * bool)) (k : K)
| AReadOnce
| AControl (k : controller) (cb : k_cb k)
| ASetter (r : robot_request)
| ARecovery
| AStop
| AWall (id : Z)
| ADefaults.

Definition run_api (a : api) : M unit :=
  match a with
  | ARead K cb k => robot_read cb k ;;; ret tt
  | AReadOnce => read_once ;;; ret tt
  | AControl k cb => control k cb
  | ASetter r => setter r
  | ARecovery => automatic_error_recovery
  | AStop => user_stop
  | AWall id => get_virtual_wall id ;;; ret tt
  | ADefaults => set_default_behavior
  end.

(** A program: connect, then a sequence of calls.  An error returned by a call does not end the
    program (the handle stays usable); a panic, a block or a failed connect does. *)
Fixpoint run_calls (l : list api) (s : st) : st :=
  match l with
  | [] => s
  | a :: r => match run_api a s with
              | (Ok _, s) => run_calls r s
              | (Err _, s) => run_calls r s
              | (_, s) => s
              end
  end.
Definition program (port : N) (l : list api) (s : st) : st :=
  match robot_new port s with
  | (Ok _, s) => run_calls l s
  | (_, s) => s
  end.
