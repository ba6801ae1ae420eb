(** Independent specification of the wire formats: where every field lies.

    Written from the protocol's packed C structures (offsets are numbers, not
    computed from the model's codecs). *)
From Coq Require Import List NArith ZArith Bool Arith.
From Coq Require Import Init.Byte.
From Verif Require Import Bytes WireModel.
Import ListNotations.

(** Little endian: byte [i] of [v] is [v / 256^i mod 256]. *)
Definition le (k : nat) (v : N) : list byte :=
  map (fun i => byte_of ((v / 256 ^ N.of_nat i) mod 256)%N) (seq 0 k).
Definition les (k : nat) (l : list N) : list byte := flat_map (le k) l.
Definition flag (b : bool) : byte := if b then x01 else x00.

(** [b] consists of exactly [total] bytes and has the given pieces at the given offsets. *)
Definition has_layout (b : list byte) (total : nat) (l : list (nat * list byte)) : Prop :=
  length b = total /\
  Forall (fun p => slice b (fst p) (length (snd p)) = snd p) l /\
  list_sum (map (fun p => length (snd p)) l) = total.

Definition motion_mode_code (m : mg_mode) : N :=
  match m with MgIdle => 0 | MgJointPosition => 1 | MgJointVelocity => 2
             | MgCartesianPosition => 3 | MgCartesianVelocity => 4 end.
Definition control_mode_code (m : ctrl_mode) : N :=
  match m with CmJointImpedance => 0 | CmCartesianImpedance => 1 | CmExternalController => 2
             | CmOther => 3 end.
Definition robot_mode_code (m : robot_mode_t) : N :=
  match m with RmOther => 0 | RmIdle => 1 | RmMove => 2 | RmGuiding => 3 | RmReflex => 4
             | RmUserStopped => 5 | RmAutomaticErrorRecovery => 6 end.

(** Robot state datagram, 2373 bytes. *)
Definition state_layout (s : robot_state_intern) : list (nat * list byte) :=
  [ (0%nat, le 8 (rs_message_id s));
    (8%nat, les 8 (rs_O_T_EE s));
    (136%nat, les 8 (rs_O_T_EE_d s));
    (264%nat, les 8 (rs_F_T_EE s));
    (392%nat, les 8 (rs_EE_T_K s));
    (520%nat, les 8 (rs_F_T_NE s));
    (648%nat, les 8 (rs_NE_T_EE s));
    (776%nat, le 8 (rs_m_ee s));
    (784%nat, les 8 (rs_I_ee s));
    (856%nat, les 8 (rs_F_x_Cee s));
    (880%nat, le 8 (rs_m_load s));
    (888%nat, les 8 (rs_I_load s));
    (960%nat, les 8 (rs_F_x_Cload s));
    (984%nat, les 8 (rs_elbow s));
    (1000%nat, les 8 (rs_elbow_d s));
    (1016%nat, les 8 (rs_tau_J s));
    (1072%nat, les 8 (rs_tau_J_d s));
    (1128%nat, les 8 (rs_dtau_J s));
    (1184%nat, les 8 (rs_q s));
    (1240%nat, les 8 (rs_q_d s));
    (1296%nat, les 8 (rs_dq s));
    (1352%nat, les 8 (rs_dq_d s));
    (1408%nat, les 8 (rs_ddq_d s));
    (1464%nat, les 8 (rs_joint_contact s));
    (1520%nat, les 8 (rs_cartesian_contact s));
    (1568%nat, les 8 (rs_joint_collision s));
    (1624%nat, les 8 (rs_cartesian_collision s));
    (1672%nat, les 8 (rs_tau_ext_hat_filtered s));
    (1728%nat, les 8 (rs_O_F_ext_hat_K s));
    (1776%nat, les 8 (rs_K_F_ext_hat_K s));
    (1824%nat, les 8 (rs_O_dP_EE_d s));
    (1872%nat, les 8 (rs_O_ddP_O s));
    (1896%nat, les 8 (rs_elbow_c s));
    (1912%nat, les 8 (rs_delbow_c s));
    (1928%nat, les 8 (rs_ddelbow_c s));
    (1944%nat, les 8 (rs_O_T_EE_c s));
    (2072%nat, les 8 (rs_O_dP_EE_c s));
    (2120%nat, les 8 (rs_O_ddP_EE_c s));
    (2168%nat, les 8 (rs_theta s));
    (2224%nat, les 8 (rs_dtheta s));
    (2280%nat, le 1 (motion_mode_code (rs_motion_generator_mode s)));
    (2281%nat, le 1 (control_mode_code (rs_controller_mode s)));
    (2282%nat, map flag (rs_errors1 s));
    (2314%nat, map flag (rs_errors2 s));
    (2323%nat, map flag (rs_reflex_reason1 s));
    (2355%nat, map flag (rs_reflex_reason2 s));
    (2364%nat, le 1 (robot_mode_code (rs_robot_mode s)));
    (2365%nat, le 8 (rs_control_command_success_rate s)) ].

(** Robot command datagram, 370 bytes. *)
Definition command_layout (c : robot_command) : list (nat * list byte) :=
  [ (0%nat, le 8 (rc_message_id c));
    (8%nat, les 8 (mc_q_c (rc_motion c)));
    (64%nat, les 8 (mc_dq_c (rc_motion c)));
    (120%nat, les 8 (mc_O_T_EE_c (rc_motion c)));
    (248%nat, les 8 (mc_O_dP_EE_c (rc_motion c)));
    (296%nat, les 8 (mc_elbow_c (rc_motion c)));
    (312%nat, [flag (mc_valid_elbow (rc_motion c))]);
    (313%nat, [flag (mc_finished (rc_motion c))]);
    (314%nat, les 8 (rc_tau c)) ].

(** Robot requests: total size and pieces behind the 12-byte header. *)
Definition dev_bytes (d : deviation) : list byte := les 8 [fst d; fst (snd d); snd (snd d)].
Definition request_code (r : robot_request) : N :=
  match r with
  | ReqConnect _ => 0
  | ReqMove _ _ _ _ => 1
  | ReqStopMove => 2
  | ReqGetCartesianLimit _ => 3
  | ReqSetCollisionBehavior _ _ _ _ _ _ _ _ => 4
  | ReqSetJointImpedance _ => 5
  | ReqSetCartesianImpedance _ => 6
  | ReqSetGuidingMode _ _ => 7
  | ReqSetEeToK _ => 8
  | ReqSetNeToEe _ => 9
  | ReqSetLoad _ _ _ => 10
  | ReqSetFilters _ _ _ _ _ => 11
  | ReqAutomaticErrorRecovery => 12
  | ReqLoadModelLibrary => 13
  end.
Definition request_total (r : robot_request) : nat :=
  match r with
  | ReqConnect _ => 16
  | ReqMove _ _ _ _ => 68
  | ReqStopMove => 12
  | ReqGetCartesianLimit _ => 16
  | ReqSetCollisionBehavior _ _ _ _ _ _ _ _ => 428
  | ReqSetJointImpedance _ => 68
  | ReqSetCartesianImpedance _ => 60
  | ReqSetGuidingMode _ _ => 19
  | ReqSetEeToK _ => 140
  | ReqSetNeToEe _ => 140
  | ReqSetLoad _ _ _ => 116
  | ReqSetFilters _ _ _ _ _ => 52
  | ReqAutomaticErrorRecovery => 12
  | ReqLoadModelLibrary => 14
  end.
Definition ctrl_code (c : move_ctrl) : N :=
  match c with McJointImpedance => 0 | McCartesianImpedance => 1 | McExternalController => 2 end.
Definition gen_code (m : move_mg) : N :=
  match m with MmJointPosition => 0 | MmJointVelocity => 1 | MmCartesianPosition => 2
             | MmCartesianVelocity => 3 end.
(** Two's complement of a 32-bit integer. *)
Definition twos32 (z : Z) : N := if (z <? 0)%Z then Z.to_N (z + 4294967296) else Z.to_N z.
Definition request_pieces (r : robot_request) : list (nat * list byte) :=
  match r with
  | ReqConnect p => [(12%nat, le 2 5); (14%nat, le 2 p)]
  | ReqMove c m p g =>
      [(12%nat, le 4 (ctrl_code c)); (16%nat, le 4 (gen_code m)); (20%nat, dev_bytes p); (44%nat, dev_bytes g)]
  | ReqStopMove => []
  | ReqGetCartesianLimit i => [(12%nat, le 4 (twos32 i))]
  | ReqSetCollisionBehavior lta uta ltn utn lfa ufa lfn ufn =>
      [(12%nat, les 8 lta); (68%nat, les 8 uta); (124%nat, les 8 ltn); (180%nat, les 8 utn);
       (236%nat, les 8 lfa); (284%nat, les 8 ufa); (332%nat, les 8 lfn); (380%nat, les 8 ufn)]
  | ReqSetJointImpedance k => [(12%nat, les 8 k)]
  | ReqSetCartesianImpedance k => [(12%nat, les 8 k)]
  | ReqSetGuidingMode g e => [(12%nat, map flag g); (18%nat, [flag e])]
  | ReqSetEeToK t => [(12%nat, les 8 t)]
  | ReqSetNeToEe t => [(12%nat, les 8 t)]
  | ReqSetLoad m c i => [(12%nat, le 8 m); (20%nat, les 8 c); (44%nat, les 8 i)]
  | ReqSetFilters a b c d e =>
      [(12%nat, le 8 a); (20%nat, le 8 b); (28%nat, le 8 c); (36%nat, le 8 d); (44%nat, le 8 e)]
  | ReqAutomaticErrorRecovery => []
  | ReqLoadModelLibrary => [(12%nat, [x00]); (13%nat, [x00])]
  end.
Definition request_layout (id : N) (r : robot_request) : list (nat * list byte) :=
  (0%nat, le 4 (request_code r)) :: (4%nat, le 4 id) ::
  (8%nat, le 4 (N.of_nat (request_total r))) :: request_pieces r.

(** Gripper requests: 10-byte header (u16 command, u32 id, u32 size). *)
Definition gripper_code (r : gripper_request) : N :=
  match r with GReqConnect _ => 0 | GReqHoming => 1 | GReqGrasp _ _ _ _ _ => 2 | GReqMove _ _ => 3
             | GReqStop => 4 end.
Definition gripper_total (r : gripper_request) : nat :=
  match r with GReqConnect _ => 14 | GReqHoming => 10 | GReqGrasp _ _ _ _ _ => 50 | GReqMove _ _ => 26
             | GReqStop => 10 end.
(** The default epsilon 0.005 as a binary64 pattern. *)
Definition eps_or_default (o : option N) : N :=
  match o with Some e => e | None => 4572414629676717179 end.
Definition gripper_pieces (r : gripper_request) : list (nat * list byte) :=
  match r with
  | GReqConnect p => [(10%nat, le 2 3); (12%nat, le 2 p)]
  | GReqMove w s => [(10%nat, le 8 w); (18%nat, le 8 s)]
  | GReqHoming => []
  | GReqStop => []
  | GReqGrasp w s f ei eo =>
      [(10%nat, le 8 w); (18%nat, le 8 (eps_or_default ei)); (26%nat, le 8 (eps_or_default eo));
       (34%nat, le 8 s); (42%nat, le 8 f)]
  end.
Definition gripper_layout (id : N) (r : gripper_request) : list (nat * list byte) :=
  (0%nat, le 2 (gripper_code r)) :: (2%nat, le 4 id) ::
  (6%nat, le 4 (N.of_nat (gripper_total r))) :: gripper_pieces r.

(** Gripper state datagram, 23 bytes. *)
Definition gripper_state_layout (s : gripper_state_intern) : list (nat * list byte) :=
  [ (0%nat, le 4 (gs_message_id s)); (4%nat, le 8 (gs_width s)); (12%nat, le 8 (gs_max_width s));
    (20%nat, [flag (gs_is_grasped s)]); (21%nat, le 2 (gs_temperature s)) ].

(** Values the Rust types can hold: array lengths and integer ranges. *)
Definition u64_ok (v : N) : Prop := (v < 18446744073709551616)%N.
Definition arr_ok (n : nat) (l : list N) : Prop := length l = n /\ Forall u64_ok l.
Definition state_ok (s : robot_state_intern) : Prop :=
  u64_ok (rs_message_id s) /\ u64_ok (rs_m_ee s) /\ u64_ok (rs_m_load s) /\
  u64_ok (rs_control_command_success_rate s) /\
  Forall (arr_ok 16) [rs_O_T_EE s; rs_O_T_EE_d s; rs_F_T_EE s; rs_EE_T_K s; rs_F_T_NE s;
                      rs_NE_T_EE s; rs_O_T_EE_c s] /\
  Forall (arr_ok 9) [rs_I_ee s; rs_I_load s] /\
  Forall (arr_ok 3) [rs_F_x_Cee s; rs_F_x_Cload s; rs_O_ddP_O s] /\
  Forall (arr_ok 2) [rs_elbow s; rs_elbow_d s; rs_elbow_c s; rs_delbow_c s; rs_ddelbow_c s] /\
  Forall (arr_ok 7) [rs_tau_J s; rs_tau_J_d s; rs_dtau_J s; rs_q s; rs_q_d s; rs_dq s; rs_dq_d s;
                     rs_ddq_d s; rs_joint_contact s; rs_joint_collision s;
                     rs_tau_ext_hat_filtered s; rs_theta s; rs_dtheta s] /\
  Forall (arr_ok 6) [rs_cartesian_contact s; rs_cartesian_collision s; rs_O_F_ext_hat_K s;
                     rs_K_F_ext_hat_K s; rs_O_dP_EE_d s; rs_O_dP_EE_c s; rs_O_ddP_EE_c s] /\
  length (rs_errors1 s) = 32%nat /\ length (rs_errors2 s) = 9%nat /\
  length (rs_reflex_reason1 s) = 32%nat /\ length (rs_reflex_reason2 s) = 9%nat.
Definition command_ok (c : robot_command) : Prop :=
  u64_ok (rc_message_id c) /\ arr_ok 7 (mc_q_c (rc_motion c)) /\ arr_ok 7 (mc_dq_c (rc_motion c)) /\
  arr_ok 16 (mc_O_T_EE_c (rc_motion c)) /\ arr_ok 6 (mc_O_dP_EE_c (rc_motion c)) /\
  arr_ok 2 (mc_elbow_c (rc_motion c)) /\ arr_ok 7 (rc_tau c).
Definition gripper_state_ok (s : gripper_state_intern) : Prop :=
  (gs_message_id s < 4294967296)%N /\ u64_ok (gs_width s) /\ u64_ok (gs_max_width s) /\
  (gs_temperature s < 65536)%N.
