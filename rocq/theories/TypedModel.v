(** The control calls of /repo/src/robot.rs with the conversions filled in: values are f64 bit
    patterns, arithmetic is binary64. *)
From Coq Require Import List ZArith NArith Bool.
From Verif Require Import NumOps NumFloat RateModel ConvertModel WireModel RobotModel LoopModel.
Import ListNotations.
Open Scope N_scope.

(** Output of a motion callback (control_types.rs 121-125, 195-199, 262-285, 410-424): the values,
    the elbow (always [None] for joint motions) and [motion_finished]. *)
Record motion_out := MotionOut { o_values : list N; o_elbow : option (N * N); o_finished : bool }.

(** Rotation functions of nalgebra, see ConvertModel. *)
Record rotations := Rotations {
  r_slerp : list (F float) -> list (F float) -> F float -> rot float;
  r_log : list (F float) -> list (F float) -> vec float;
  r_exp : vec float -> list (F float) -> rot float;
  r_keep : list (F float) -> rot float
}.

(** robot_state.rs 257-372 copies these fields from the message. *)
Definition reported_of (x : robot_state_intern) : reported float :=
  let l f := map of_bits (f x) in
  let first f := of_bits (hd 0 (f x)) in
  Reported float (l rs_q_d) (l rs_dq_d) (l rs_ddq_d) (l rs_O_T_EE_c) (l rs_O_dP_EE_c) (l rs_O_ddP_EE_c)
    (first rs_elbow_c) (first rs_delbow_c) (first rs_ddelbow_c) (l rs_tau_J_d).

Section Typed.
  Variable rots : rotations.

  (** The four [convert_motion]: each writes its own field of the command and, for Cartesian
      motions, the elbow; the other fields keep their value. *)
  Definition convert_motion (g : move_mg) (cutoff : N) (limit : bool) (out : motion_out)
    (x : robot_state_intern) (m : motion_command) : option motion_command :=
    let s := reported_of x in
    let c := of_bits cutoff in
    let v := map of_bits (o_values out) in
    let elbow := match o_elbow out with Some (a, b) => Some (of_bits a, of_bits b) | None => None end in
    match g with
    | MmJointPosition =>
        match convert_joint_positions float c limit v s with
        | Some q => Some (MotionCommand (map bits q) (mc_dq_c m) (mc_O_T_EE_c m) (mc_O_dP_EE_c m) (mc_elbow_c m)
                                        (mc_valid_elbow m) (mc_finished m))
        | None => None
        end
    | MmJointVelocity =>
        match convert_joint_velocities float c limit v s with
        | Some q => Some (MotionCommand (mc_q_c m) (map bits q) (mc_O_T_EE_c m) (mc_O_dP_EE_c m) (mc_elbow_c m)
                                        (mc_valid_elbow m) (mc_finished m))
        | None => None
        end
    | MmCartesianPosition =>
        match convert_pose float (r_slerp rots) (r_log rots) (r_exp rots) (r_keep rots) c limit v s with
        | Some t =>
            match convert_elbow float c limit elbow s with
            | Some (b, e) => Some (MotionCommand (mc_q_c m) (mc_dq_c m) (map bits t) (mc_O_dP_EE_c m) (map bits e) b (mc_finished m))
            | None => None
            end
        | None => None
        end
    | MmCartesianVelocity =>
        match convert_twist float c limit v s with
        | Some t =>
            match convert_elbow float c limit elbow s with
            | Some (b, e) => Some (MotionCommand (mc_q_c m) (mc_dq_c m) (mc_O_T_EE_c m) (map bits t) (map bits e) b (mc_finished m))
            | None => None
            end
        | None => None
        end
    end.

  (** control_loop.rs 186-204 *)
  Definition filter_torques (cutoff : N) (limit : bool) (t : list N) (x : robot_state_intern) : option (list N) :=
    option_map (map bits) (convert_torques float (of_bits cutoff) limit (map of_bits t) (reported_of x)).

  (** low_pass_filter.rs 12 *)
  Definition default_cutoff : N := bits (DEFAULT_CUTOFF_FREQUENCY float).
  (** What the user passes to a control call (robot.rs 613-1021). *)
  Record user_control := UserControl {
    u_cb : Type;
    u_generator : move_mg;
    u_motion : u_cb -> robot_state_intern -> N -> option (u_cb * motion_out);
    u_torque : option (u_cb -> robot_state_intern -> N -> option (u_cb * (list N * bool)));
    u_impedance : option impedance;
    u_limit : option bool;
    u_cutoff : option N
  }.
  Definition limit_of (u : user_control) : bool := match u_limit u with Some b => b | None => true end.
  Definition cutoff_of (u : user_control) : N := match u_cutoff u with Some c => c | None => default_cutoff end.
  (** robot.rs 979-1021 and the public functions which call them; control_loop.rs 44-86 *)
  Definition controller_of (u : user_control) : controller := {|
    k_cb := u_cb u;
    k_out := motion_out;
    k_mode := u_generator u;
    k_motion := u_motion u;
    k_convert := convert_motion (u_generator u) (cutoff_of u) (limit_of u);
    k_finished := o_finished;
    k_torque := u_torque u;
    k_filter := filter_torques (cutoff_of u) (limit_of u);
    k_impedance := match u_impedance u with Some i => i | None => JointImpedance end
  |}.
  (** robot.rs 960-978: torque control alone runs a joint velocity motion which always asks for zero *)
  Definition control_torques (K : Type) (torque : K -> robot_state_intern -> N -> option (K * (list N * bool)))
    (limit : option bool) (cutoff : option N) : user_control :=
    UserControl K MmJointVelocity (fun k _ _ => Some (k, MotionOut (repeat 0 7) None false)) (Some torque) None limit cutoff.
End Typed.
