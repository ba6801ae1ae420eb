(** Wire formats of the robot and gripper protocols.

    Mirrors /repo/src/robot/types.rs, /repo/src/robot/service_types.rs and
    /repo/src/gripper/types.rs.  Simplification: an f64 is represented by its
    64-bit pattern (a number below 2^64), as that is what bincode transports;
    a Rust array [T; n] is a list whose well-formedness demands length n. *)
From Coq Require Import List NArith ZArith Bool Arith.
From Coq Require Import Init.Byte.
From Verif Require Import Bytes Codec.
Import ListNotations.

Notation "a ** b" := (c_pair a b) (at level 61, right associativity).

Definition c_u8 := c_uint 1.
Definition c_u16 := c_uint 2.
Definition c_u32 := c_uint 4.
Definition c_u64 := c_uint 8.
(** f64: 8 bytes, little-endian bit pattern. *)
Definition c_f64 := c_uint 8.
Definition c_f64s (n : nat) := c_array n c_f64.

(** i32: two's complement (service_types.rs 224-226). *)
Definition c_i32 : codec Z :=
  Codec (fun z => le_bytes 4 (Z.to_N (z mod 4294967296)))
        (fun bs => match dec c_u32 bs with
                   | Some (v, r) => Some (if (v <? 2147483648)%N then Z.of_N v
                                          else (Z.of_N v - 4294967296)%Z, r)
                   | None => None end)
        (fun z => (-2147483648 <= z < 2147483648)%Z).

(** serde_repr: the variant whose discriminant equals the integer. *)
Definition enum_of {E} (l : list E) (to : E -> N) (v : N) : option E :=
  find (fun e => N.eqb (to e) v) l.

(** /repo/src/robot/types.rs 10-18 *)
Inductive mg_mode := MgIdle | MgJointPosition | MgJointVelocity | MgCartesianPosition | MgCartesianVelocity.
Definition mg_mode_N (m : mg_mode) : N :=
  match m with MgIdle => 0 | MgJointPosition => 1 | MgJointVelocity => 2
             | MgCartesianPosition => 3 | MgCartesianVelocity => 4 end.
Definition mg_modes := [MgIdle; MgJointPosition; MgJointVelocity; MgCartesianPosition; MgCartesianVelocity].
Definition c_mg_mode := c_enum 1 mg_mode_N (enum_of mg_modes mg_mode_N).

(** /repo/src/robot/types.rs 20-27 *)
Inductive ctrl_mode := CmJointImpedance | CmCartesianImpedance | CmExternalController | CmOther.
Definition ctrl_mode_N (m : ctrl_mode) : N :=
  match m with CmJointImpedance => 0 | CmCartesianImpedance => 1 | CmExternalController => 2 | CmOther => 3 end.
Definition ctrl_modes := [CmJointImpedance; CmCartesianImpedance; CmExternalController; CmOther].
Definition c_ctrl_mode := c_enum 1 ctrl_mode_N (enum_of ctrl_modes ctrl_mode_N).

(** /repo/src/robot/types.rs 29-39 *)
Inductive robot_mode_t := RmOther | RmIdle | RmMove | RmGuiding | RmReflex | RmUserStopped | RmAutomaticErrorRecovery.
Definition robot_mode_N (m : robot_mode_t) : N :=
  match m with RmOther => 0 | RmIdle => 1 | RmMove => 2 | RmGuiding => 3 | RmReflex => 4
             | RmUserStopped => 5 | RmAutomaticErrorRecovery => 6 end.
Definition robot_modes := [RmOther; RmIdle; RmMove; RmGuiding; RmReflex; RmUserStopped; RmAutomaticErrorRecovery].
Definition c_robot_mode := c_enum 1 robot_mode_N (enum_of robot_modes robot_mode_N).

(** /repo/src/robot/types.rs 46-97 [RobotStateIntern] with
    [RoboErrorHelperStruct] (160-167) flattened into its four arrays.  An f64 is
    its 64-bit pattern. *)
Record robot_state_intern : Type := RobotStateIntern {
  rs_message_id : N;
  rs_O_T_EE : list N;
  rs_O_T_EE_d : list N;
  rs_F_T_EE : list N;
  rs_EE_T_K : list N;
  rs_F_T_NE : list N;
  rs_NE_T_EE : list N;
  rs_m_ee : N;
  rs_I_ee : list N;
  rs_F_x_Cee : list N;
  rs_m_load : N;
  rs_I_load : list N;
  rs_F_x_Cload : list N;
  rs_elbow : list N;
  rs_elbow_d : list N;
  rs_tau_J : list N;
  rs_tau_J_d : list N;
  rs_dtau_J : list N;
  rs_q : list N;
  rs_q_d : list N;
  rs_dq : list N;
  rs_dq_d : list N;
  rs_ddq_d : list N;
  rs_joint_contact : list N;
  rs_cartesian_contact : list N;
  rs_joint_collision : list N;
  rs_cartesian_collision : list N;
  rs_tau_ext_hat_filtered : list N;
  rs_O_F_ext_hat_K : list N;
  rs_K_F_ext_hat_K : list N;
  rs_O_dP_EE_d : list N;
  rs_O_ddP_O : list N;
  rs_elbow_c : list N;
  rs_delbow_c : list N;
  rs_ddelbow_c : list N;
  rs_O_T_EE_c : list N;
  rs_O_dP_EE_c : list N;
  rs_O_ddP_EE_c : list N;
  rs_theta : list N;
  rs_dtheta : list N;
  rs_motion_generator_mode : mg_mode;
  rs_controller_mode : ctrl_mode;
  rs_errors1 : list bool;
  rs_errors2 : list bool;
  rs_reflex_reason1 : list bool;
  rs_reflex_reason2 : list bool;
  rs_robot_mode : robot_mode_t;
  rs_control_command_success_rate : N
}.
Definition robot_state_intern_tup (s : robot_state_intern) :=
  (rs_message_id s, (rs_O_T_EE s, (rs_O_T_EE_d s, (rs_F_T_EE s, (rs_EE_T_K s, (rs_F_T_NE s, (rs_NE_T_EE s, (rs_m_ee s, (rs_I_ee s, (rs_F_x_Cee s, (rs_m_load s, (rs_I_load s, (rs_F_x_Cload s, (rs_elbow s, (rs_elbow_d s, (rs_tau_J s, (rs_tau_J_d s, (rs_dtau_J s, (rs_q s, (rs_q_d s, (rs_dq s, (rs_dq_d s, (rs_ddq_d s, (rs_joint_contact s, (rs_cartesian_contact s, (rs_joint_collision s, (rs_cartesian_collision s, (rs_tau_ext_hat_filtered s, (rs_O_F_ext_hat_K s, (rs_K_F_ext_hat_K s, (rs_O_dP_EE_d s, (rs_O_ddP_O s, (rs_elbow_c s, (rs_delbow_c s, (rs_ddelbow_c s, (rs_O_T_EE_c s, (rs_O_dP_EE_c s, (rs_O_ddP_EE_c s, (rs_theta s, (rs_dtheta s, (rs_motion_generator_mode s, (rs_controller_mode s, (rs_errors1 s, (rs_errors2 s, (rs_reflex_reason1 s, (rs_reflex_reason2 s, (rs_robot_mode s, (rs_control_command_success_rate s)))))))))))))))))))))))))))))))))))))))))))))))).
Definition robot_state_intern_untup (t : N * (list N * (list N * (list N * (list N * (list N * (list N * (N * (list N * (list N * (N * (list N * (list N * (list N * (list N * (list N * (list N * (list N * (list N * (list N * (list N * (list N * (list N * (list N * (list N * (list N * (list N * (list N * (list N * (list N * (list N * (list N * (list N * (list N * (list N * (list N * (list N * (list N * (list N * (list N * (mg_mode * (ctrl_mode * (list bool * (list bool * (list bool * (list bool * (robot_mode_t * (N)))))))))))))))))))))))))))))))))))))))))))))))) : robot_state_intern :=
  let '(a0, (a1, (a2, (a3, (a4, (a5, (a6, (a7, (a8, (a9, (a10, (a11, (a12, (a13, (a14, (a15, (a16, (a17, (a18, (a19, (a20, (a21, (a22, (a23, (a24, (a25, (a26, (a27, (a28, (a29, (a30, (a31, (a32, (a33, (a34, (a35, (a36, (a37, (a38, (a39, (a40, (a41, (a42, (a43, (a44, (a45, (a46, (a47)))))))))))))))))))))))))))))))))))))))))))))))) := t in
  RobotStateIntern a0 a1 a2 a3 a4 a5 a6 a7 a8 a9 a10 a11 a12 a13 a14 a15 a16 a17 a18 a19 a20 a21 a22 a23 a24 a25 a26 a27 a28 a29 a30 a31 a32 a33 a34 a35 a36 a37 a38 a39 a40 a41 a42 a43 a44 a45 a46 a47.
Definition c_robot_state_intern : codec robot_state_intern :=
  c_iso robot_state_intern_tup robot_state_intern_untup
    (c_u64 **
     c_f64s 16 **
     c_f64s 16 **
     c_f64s 16 **
     c_f64s 16 **
     c_f64s 16 **
     c_f64s 16 **
     c_u64 **
     c_f64s 9 **
     c_f64s 3 **
     c_u64 **
     c_f64s 9 **
     c_f64s 3 **
     c_f64s 2 **
     c_f64s 2 **
     c_f64s 7 **
     c_f64s 7 **
     c_f64s 7 **
     c_f64s 7 **
     c_f64s 7 **
     c_f64s 7 **
     c_f64s 7 **
     c_f64s 7 **
     c_f64s 7 **
     c_f64s 6 **
     c_f64s 7 **
     c_f64s 6 **
     c_f64s 7 **
     c_f64s 6 **
     c_f64s 6 **
     c_f64s 6 **
     c_f64s 3 **
     c_f64s 2 **
     c_f64s 2 **
     c_f64s 2 **
     c_f64s 16 **
     c_f64s 6 **
     c_f64s 6 **
     c_f64s 7 **
     c_f64s 7 **
     c_mg_mode **
     c_ctrl_mode **
     c_array 32 c_bool **
     c_array 9 c_bool **
     c_array 32 c_bool **
     c_array 9 c_bool **
     c_robot_mode **
     c_u64).


(** /repo/src/robot/types.rs 192-204 [MotionGeneratorCommandPacked] (the
    unpacked struct 220-230 has the same fields; [pack] 252-254 copies them). *)
Record motion_command : Type := MotionCommand {
  mc_q_c : list N;
  mc_dq_c : list N;
  mc_O_T_EE_c : list N;
  mc_O_dP_EE_c : list N;
  mc_elbow_c : list N;
  mc_valid_elbow : bool;
  mc_finished : bool
}.

(** /repo/src/robot/types.rs [RobotCommand]: message id, motion, control
    (the seven torques of [ControllerCommandPacked]). *)
Record robot_command : Type := RobotCommand {
  rc_message_id : N;
  rc_motion : motion_command;
  rc_tau : list N
}.

Definition c_motion_command : codec motion_command :=
  c_iso (fun m => (mc_q_c m, (mc_dq_c m, (mc_O_T_EE_c m, (mc_O_dP_EE_c m,
                  (mc_elbow_c m, (mc_valid_elbow m, mc_finished m)))))))
        (fun t => let '(a, (b, (c, (d, (e, (f, g)))))) := t in MotionCommand a b c d e f g)
        (c_f64s 7 ** c_f64s 7 ** c_f64s 16 ** c_f64s 6 ** c_f64s 2 ** c_bool ** c_bool).

Definition c_robot_command : codec robot_command :=
  c_iso (fun r => (rc_message_id r, (rc_motion r, rc_tau r)))
        (fun t => let '(a, (b, c)) := t in RobotCommand a b c)
        (c_u64 ** c_motion_command ** c_f64s 7).

(** /repo/src/robot/service_types.rs 15-32 *)
Inductive robot_cmd :=
| RcConnect | RcMove | RcStopMove | RcGetCartesianLimit | RcSetCollisionBehavior
| RcSetJointImpedance | RcSetCartesianImpedance | RcSetGuidingMode | RcSetEeToK | RcSetNeToEe
| RcSetLoad | RcSetFilters | RcAutomaticErrorRecovery | RcLoadModelLibrary.
Definition robot_cmd_N (c : robot_cmd) : N :=
  match c with
  | RcConnect => 0 | RcMove => 1 | RcStopMove => 2 | RcGetCartesianLimit => 3
  | RcSetCollisionBehavior => 4 | RcSetJointImpedance => 5 | RcSetCartesianImpedance => 6
  | RcSetGuidingMode => 7 | RcSetEeToK => 8 | RcSetNeToEe => 9 | RcSetLoad => 10
  | RcSetFilters => 11 | RcAutomaticErrorRecovery => 12 | RcLoadModelLibrary => 13 end.
Definition robot_cmds :=
  [RcConnect; RcMove; RcStopMove; RcGetCartesianLimit; RcSetCollisionBehavior;
   RcSetJointImpedance; RcSetCartesianImpedance; RcSetGuidingMode; RcSetEeToK; RcSetNeToEe;
   RcSetLoad; RcSetFilters; RcAutomaticErrorRecovery; RcLoadModelLibrary].
Definition c_robot_cmd := c_enum 4 robot_cmd_N (enum_of robot_cmds robot_cmd_N).

(** /repo/src/robot/service_types.rs 594-600 [RobotCommandHeader]:
    (command, (command_id, size)), packed, 12 bytes. *)
Definition robot_header : Type := robot_cmd * (N * N).
Definition c_robot_header : codec robot_header := c_robot_cmd ** c_u32 ** c_u32.

(** /repo/src/robot/service_types.rs 135-141 *)
Inductive move_ctrl := McJointImpedance | McCartesianImpedance | McExternalController.
Definition move_ctrl_N (c : move_ctrl) : N :=
  match c with McJointImpedance => 0 | McCartesianImpedance => 1 | McExternalController => 2 end.
Definition move_ctrls := [McJointImpedance; McCartesianImpedance; McExternalController].
Definition c_move_ctrl := c_enum 4 move_ctrl_N (enum_of move_ctrls move_ctrl_N).

(** /repo/src/robot/service_types.rs 143-150 *)
Inductive move_mg := MmJointPosition | MmJointVelocity | MmCartesianPosition | MmCartesianVelocity.
Definition move_mg_N (c : move_mg) : N :=
  match c with MmJointPosition => 0 | MmJointVelocity => 1 | MmCartesianPosition => 2 | MmCartesianVelocity => 3 end.
Definition move_mgs := [MmJointPosition; MmJointVelocity; MmCartesianPosition; MmCartesianVelocity].
Definition c_move_mg := c_enum 4 move_mg_N (enum_of move_mgs move_mg_N).

(** /repo/src/robot/service_types.rs 152-158 [MoveDeviation]:
    (translation, (rotation, elbow)). *)
Definition deviation : Type := N * (N * N).
Definition c_deviation : codec deviation := c_f64 ** c_f64 ** c_f64.

(** The robot requests as the public API builds them
    (/repo/src/robot.rs 232-588, /repo/src/robot/robot_impl.rs 120-129,
    248-283, /repo/src/model/library_downloader.rs 23-32).  Each constructor
    lists the arguments in the order of the Rust API. *)
Inductive robot_request : Type :=
| ReqConnect (udp_port : N)
| ReqMove (c : move_ctrl) (m : move_mg) (path goal : deviation)
| ReqStopMove
| ReqGetCartesianLimit (id : Z)
| ReqSetCollisionBehavior (lta uta ltn utn lfa ufa lfn ufn : list N)
| ReqSetJointImpedance (k_theta : list N)
| ReqSetCartesianImpedance (k_x : list N)
| ReqSetGuidingMode (guiding_mode : list bool) (elbow : bool)
| ReqSetEeToK (ee_t_k : list N)
| ReqSetNeToEe (ne_t_ee : list N)
| ReqSetLoad (mass : N) (f_x_cload : list N) (inertia : list N)
| ReqSetFilters (jp jv cp cv ctl : N)
| ReqAutomaticErrorRecovery
| ReqLoadModelLibrary.

(** service_types.rs 12 *)
Definition robot_version : N := 5.

(** The command code used for each request (same call sites). *)
Definition request_cmd (r : robot_request) : robot_cmd :=
  match r with
  | ReqConnect _ => RcConnect
  | ReqMove _ _ _ _ => RcMove
  | ReqStopMove => RcStopMove
  | ReqGetCartesianLimit _ => RcGetCartesianLimit
  | ReqSetCollisionBehavior _ _ _ _ _ _ _ _ => RcSetCollisionBehavior
  | ReqSetJointImpedance _ => RcSetJointImpedance
  | ReqSetCartesianImpedance _ => RcSetCartesianImpedance
  | ReqSetGuidingMode _ _ => RcSetGuidingMode
  | ReqSetEeToK _ => RcSetEeToK
  | ReqSetNeToEe _ => RcSetNeToEe
  | ReqSetLoad _ _ _ => RcSetLoad
  | ReqSetFilters _ _ _ _ _ => RcSetFilters
  | ReqAutomaticErrorRecovery => RcAutomaticErrorRecovery
  | ReqLoadModelLibrary => RcLoadModelLibrary
  end.

(** Request structs: field order of service_types.rs. *)
(* 99-104 *)
Definition c_connect_request : codec (N * N) := c_u16 ** c_u16.
(* 160-167 *)
Definition c_move_request : codec (move_ctrl * (move_mg * (deviation * deviation))) :=
  c_move_ctrl ** c_move_mg ** c_deviation ** c_deviation.
(* 256-267 *)
Definition c_collision_request :=
  c_f64s 7 ** c_f64s 7 ** c_f64s 7 ** c_f64s 7 ** c_f64s 6 ** c_f64s 6 ** c_f64s 6 ** c_f64s 6.
(* 368-373 *)
Definition c_guiding_request := c_array 6 c_bool ** c_bool.
(* 459-465 *)
Definition c_load_request := c_f64 ** c_f64s 3 ** c_f64s 9.
(* 494-502 *)
Definition c_filters_request := c_f64 ** c_f64 ** c_f64 ** c_f64 ** c_f64.
(* 552-573; the only value sent is (X64, Linux), see library_downloader.rs 28-31 *)
Definition c_load_model_request := c_u8 ** c_u8.

(** size_of::<...RequestWithHeader>() of the packed structs: 12 + fields. *)
Definition request_size (r : robot_request) : N :=
  match r with
  | ReqConnect _ => 12 + (2 + 2)
  | ReqMove _ _ _ _ => 12 + (4 + 4 + 24 + 24)
  | ReqStopMove => 12
  | ReqGetCartesianLimit _ => 12 + 4
  | ReqSetCollisionBehavior _ _ _ _ _ _ _ _ => 12 + (4 * 56 + 4 * 48)
  | ReqSetJointImpedance _ => 12 + 56
  | ReqSetCartesianImpedance _ => 12 + 48
  | ReqSetGuidingMode _ _ => 12 + 7
  | ReqSetEeToK _ => 12 + 128
  | ReqSetNeToEe _ => 12 + 128
  | ReqSetLoad _ _ _ => 12 + (8 + 24 + 72)
  | ReqSetFilters _ _ _ _ _ => 12 + 40
  | ReqAutomaticErrorRecovery => 12
  | ReqLoadModelLibrary => 12 + 2
  end.

(** Serialized request payload; the constructors ([...Request::new],
    service_types.rs) pass their arguments to the fields of the same name. *)
Definition request_payload (r : robot_request) : list byte :=
  match r with
  | ReqConnect p => serialize c_connect_request (robot_version, p)
  | ReqMove c m p g => serialize c_move_request (c, (m, (p, g)))
  | ReqStopMove => []
  | ReqGetCartesianLimit i => serialize c_i32 i
  | ReqSetCollisionBehavior lta uta ltn utn lfa ufa lfn ufn =>
      serialize c_collision_request (lta, (uta, (ltn, (utn, (lfa, (ufa, (lfn, ufn)))))))
  | ReqSetJointImpedance k => serialize (c_f64s 7) k
  | ReqSetCartesianImpedance k => serialize (c_f64s 6) k
  | ReqSetGuidingMode g e => serialize c_guiding_request (g, e)
  | ReqSetEeToK t => serialize (c_f64s 16) t
  | ReqSetNeToEe t => serialize (c_f64s 16) t
  | ReqSetLoad m c i => serialize c_load_request (m, (c, i))
  | ReqSetFilters a b c d e => serialize c_filters_request (a, (b, (c, (d, e))))
  | ReqAutomaticErrorRecovery => []
  | ReqLoadModelLibrary => serialize c_load_model_request (0%N, 0%N)
  end.

(** A whole request (header then payload), as written by
    [tcp_send_request] (network.rs 141-148). *)
Definition encode_request (id : N) (r : robot_request) : list byte :=
  serialize c_robot_header (request_cmd r, (id, request_size r)) ++ request_payload r.

(** Values the Rust argument types can hold. *)
Definition f64s_ok (n : nat) (l : list N) : Prop := wf (c_f64s n) l.
Definition request_ok (r : robot_request) : Prop :=
  match r with
  | ReqConnect p => wf c_u16 p
  | ReqMove _ _ p g => wf c_deviation p /\ wf c_deviation g
  | ReqStopMove => True
  | ReqGetCartesianLimit i => wf c_i32 i
  | ReqSetCollisionBehavior lta uta ltn utn lfa ufa lfn ufn =>
      f64s_ok 7 lta /\ f64s_ok 7 uta /\ f64s_ok 7 ltn /\ f64s_ok 7 utn /\
      f64s_ok 6 lfa /\ f64s_ok 6 ufa /\ f64s_ok 6 lfn /\ f64s_ok 6 ufn
  | ReqSetJointImpedance k => f64s_ok 7 k
  | ReqSetCartesianImpedance k => f64s_ok 6 k
  | ReqSetGuidingMode g _ => length g = 6%nat
  | ReqSetEeToK t => f64s_ok 16 t
  | ReqSetNeToEe t => f64s_ok 16 t
  | ReqSetLoad m c i => wf c_f64 m /\ f64s_ok 3 c /\ f64s_ok 9 i
  | ReqSetFilters a b c d e => wf c_f64 a /\ wf c_f64 b /\ wf c_f64 c /\ wf c_f64 d /\ wf c_f64 e
  | ReqAutomaticErrorRecovery => True
  | ReqLoadModelLibrary => True
  end.

(** Robot responses (service_types.rs). *)
(* 48-61 *)
Inductive move_status :=
| MsSuccess | MsMotionStarted | MsPreempted | MsCommandNotPossibleRejected
| MsStartAtSingularPoseRejected | MsInvalidArgumentRejected | MsReflexAborted
| MsEmergencyAborted | MsInputErrorAborted | MsAborted.
Definition move_status_N (s : move_status) : N :=
  match s with
  | MsSuccess => 0 | MsMotionStarted => 1 | MsPreempted => 2 | MsCommandNotPossibleRejected => 3
  | MsStartAtSingularPoseRejected => 4 | MsInvalidArgumentRejected => 5 | MsReflexAborted => 6
  | MsEmergencyAborted => 7 | MsInputErrorAborted => 8 | MsAborted => 9 end.
Definition move_statuses :=
  [MsSuccess; MsMotionStarted; MsPreempted; MsCommandNotPossibleRejected;
   MsStartAtSingularPoseRejected; MsInvalidArgumentRejected; MsReflexAborted;
   MsEmergencyAborted; MsInputErrorAborted; MsAborted].
Definition c_move_status := c_enum 1 move_status_N (enum_of move_statuses move_status_N).

(* 63-71 *)
Inductive stop_status :=
| SsSuccess | SsCommandNotPossibleRejected | SsEmergencyAborted | SsReflexAborted | SsAborted.
Definition stop_status_N (s : stop_status) : N :=
  match s with SsSuccess => 0 | SsCommandNotPossibleRejected => 1 | SsEmergencyAborted => 2
             | SsReflexAborted => 3 | SsAborted => 4 end.
Definition stop_statuses :=
  [SsSuccess; SsCommandNotPossibleRejected; SsEmergencyAborted; SsReflexAborted; SsAborted].
Definition c_stop_status := c_enum 1 stop_status_N (enum_of stop_statuses stop_status_N).

(* 73-82 *)
Inductive recovery_status :=
| AsSuccess | AsCommandNotPossibleRejected | AsManualErrorRecoveryRequiredRejected
| AsReflexAborted | AsEmergencyAborted | AsAborted.
Definition recovery_status_N (s : recovery_status) : N :=
  match s with AsSuccess => 0 | AsCommandNotPossibleRejected => 1
             | AsManualErrorRecoveryRequiredRejected => 2 | AsReflexAborted => 3
             | AsEmergencyAborted => 4 | AsAborted => 5 end.
Definition recovery_statuses :=
  [AsSuccess; AsCommandNotPossibleRejected; AsManualErrorRecoveryRequiredRejected;
   AsReflexAborted; AsEmergencyAborted; AsAborted].
Definition c_recovery_status := c_enum 1 recovery_status_N (enum_of recovery_statuses recovery_status_N).

(* 91-97 *)
Inductive gs_status := GsSuccess | GsCommandNotPossibleRejected | GsInvalidArgumentRejected.
Definition gs_status_N (s : gs_status) : N :=
  match s with GsSuccess => 0 | GsCommandNotPossibleRejected => 1 | GsInvalidArgumentRejected => 2 end.
Definition gs_statuses := [GsSuccess; GsCommandNotPossibleRejected; GsInvalidArgumentRejected].
Definition c_gs_status := c_enum 1 gs_status_N (enum_of gs_statuses gs_status_N).

(* 84-89 *)
Inductive lm_status := LmSuccess | LmError.
Definition lm_status_N (s : lm_status) : N := match s with LmSuccess => 0 | LmError => 1 end.
Definition lm_statuses := [LmSuccess; LmError].
Definition c_lm_status := c_enum 1 lm_status_N (enum_of lm_statuses lm_status_N).

(* 41-46 *)
Inductive connect_status := CsSuccess | CsIncompatibleLibraryVersion.
Definition connect_status_N (s : connect_status) : N :=
  match s with CsSuccess => 0 | CsIncompatibleLibraryVersion => 1 end.
Definition connect_statuses := [CsSuccess; CsIncompatibleLibraryVersion].
Definition c_connect_status := c_enum 1 connect_status_N (enum_of connect_statuses connect_status_N).

(* 127-133 *)
Definition c_connect_response := c_robot_header ** c_connect_status ** c_u16.
(* 197-202 *)
Definition c_move_response := c_robot_header ** c_move_status.
(* 215-220 *)
Definition c_stop_response := c_robot_header ** c_stop_status.
(* 537-542 *)
Definition c_setter_response := c_robot_header ** c_gs_status.
(* 545-550 *)
Definition c_recovery_response := c_robot_header ** c_recovery_status.
(* 246-254: header, status, world size, frame, activation *)
Definition c_wall_response := c_robot_header ** c_gs_status ** c_f64s 3 ** c_f64s 16 ** c_bool.
(* 587-592 *)
Definition c_lm_response := c_robot_header ** c_lm_status.

(** Gripper, /repo/src/gripper/types.rs *)
(* 16-24 *)
Inductive gr_cmd := GcConnect | GcHoming | GcGrasp | GcMove | GcStop.
Definition gr_cmd_N (c : gr_cmd) : N :=
  match c with GcConnect => 0 | GcHoming => 1 | GcGrasp => 2 | GcMove => 3 | GcStop => 4 end.
Definition gr_cmds := [GcConnect; GcHoming; GcGrasp; GcMove; GcStop].
Definition c_gr_cmd := c_enum 2 gr_cmd_N (enum_of gr_cmds gr_cmd_N).

(* 26-33 *)
Inductive gr_status := GrSuccess | GrFail | GrUnsuccessful | GrAborted.
Definition gr_status_N (s : gr_status) : N :=
  match s with GrSuccess => 0 | GrFail => 1 | GrUnsuccessful => 2 | GrAborted => 3 end.
Definition gr_statuses := [GrSuccess; GrFail; GrUnsuccessful; GrAborted].
Definition c_gr_status := c_enum 2 gr_status_N (enum_of gr_statuses gr_status_N).

(* 51-57: packed, 10 bytes *)
Definition gripper_header : Type := gr_cmd * (N * N).
Definition c_gripper_header : codec gripper_header := c_gr_cmd ** c_u32 ** c_u32.

(* 35-43 *)
Record gripper_state_intern : Type := GripperStateIntern {
  gs_message_id : N;
  gs_width : N;
  gs_max_width : N;
  gs_is_grasped : bool;
  gs_temperature : N
}.
Definition c_gripper_state : codec gripper_state_intern :=
  c_iso (fun s => (gs_message_id s, (gs_width s, (gs_max_width s, (gs_is_grasped s, gs_temperature s)))))
        (fun t => let '(a, (b, (c, (d, e)))) := t in GripperStateIntern a b c d e)
        (c_u32 ** c_f64 ** c_f64 ** c_bool ** c_u16).

(** types.rs 13 *)
Definition gripper_version : N := 3.
(** f64 0.005 as a bit pattern (gripper.rs 147-148). *)
Definition f64_0_005 : N := 0x3F747AE147AE147B.

(** The gripper requests with arguments in the order of the Rust API
    (/repo/src/gripper.rs 47-54, 77-158). *)
Inductive gripper_request : Type :=
| GReqConnect (udp_port : N)
| GReqMove (width speed : N)
| GReqHoming
| GReqStop
| GReqGrasp (width speed force : N) (epsilon_inner epsilon_outer : option N).

Definition gripper_request_cmd (r : gripper_request) : gr_cmd :=
  match r with GReqConnect _ => GcConnect | GReqMove _ _ => GcMove | GReqHoming => GcHoming
             | GReqStop => GcStop | GReqGrasp _ _ _ _ _ => GcGrasp end.

(** size_of of the packed request structs. *)
Definition gripper_request_size (r : gripper_request) : N :=
  match r with GReqConnect _ => 10 + 4 | GReqMove _ _ => 10 + 16 | GReqHoming => 10
             | GReqStop => 10 | GReqGrasp _ _ _ _ _ => 10 + 40 end.

(* 69-74 *)
Definition c_gr_connect := c_u16 ** c_u16.
(* 75-80 *)
Definition c_gr_move := c_f64 ** c_f64.
(* 82-96: width, epsilon (inner, outer), speed, force *)
Definition c_gr_grasp := c_f64 ** (c_f64 ** c_f64) ** c_f64 ** c_f64.

Definition unwrap_or {A} (o : option A) (d : A) : A := match o with Some a => a | None => d end.

Definition gripper_request_payload (r : gripper_request) : list byte :=
  match r with
  | GReqConnect p => serialize c_gr_connect (gripper_version, p)
  | GReqMove w s => serialize c_gr_move (w, s)
  | GReqHoming => []
  | GReqStop => []
  | GReqGrasp w s f ei eo =>
      serialize c_gr_grasp (w, ((unwrap_or ei f64_0_005, unwrap_or eo f64_0_005), (s, f)))
  end.

Definition encode_gripper_request (id : N) (r : gripper_request) : list byte :=
  serialize c_gripper_header (gripper_request_cmd r, (id, gripper_request_size r))
  ++ gripper_request_payload r.

Definition opt_ok {A} (P : A -> Prop) (o : option A) : Prop :=
  match o with Some a => P a | None => True end.
Definition gripper_request_ok (r : gripper_request) : Prop :=
  match r with
  | GReqConnect p => wf c_u16 p
  | GReqMove w s => wf c_f64 w /\ wf c_f64 s
  | GReqHoming => True
  | GReqStop => True
  | GReqGrasp w s f ei eo =>
      wf c_f64 w /\ wf c_f64 s /\ wf c_f64 f /\ opt_ok (wf c_f64) ei /\ opt_ok (wf c_f64) eo
  end.

(* 174-190 *)
Definition c_gr_connect_response := c_gripper_header ** c_gr_status ** c_u16.
Definition c_gr_response := c_gripper_header ** c_gr_status.
