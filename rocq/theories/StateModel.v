(** The state given to users: /repo/src/robot/robot_state.rs. *)
From Coq Require Import List ZArith NArith Bool.
From Verif Require Import NumOps NumFloat WireModel ErrorsModel.
Import ListNotations.
Open Scope Z_scope.

Section Load.
  Variable O : num.
  Notation F := (F O).
  Declare Scope num_scope.
  Notation "a + b" := (f_add O a b) : num_scope.
  Notation "a - b" := (f_sub O a b) : num_scope.
  Notation "a * b" := (f_mul O a b) : num_scope.
  Notation "a / b" := (f_div O a b) : num_scope.
  Delimit Scope num_scope with num.

  (** Matrix3: nine entries, column by column (nalgebra's storage order). *)
  Definition at_ (m : list F) (row col : nat) : F := nth (3 * col + row)%nat m (f_int O 0).
  Definition build (f : nat -> nat -> F) : list F :=
    [f 0%nat 0%nat; f 1%nat 0%nat; f 2%nat 0%nat; f 0%nat 1%nat; f 1%nat 1%nat; f 2%nat 1%nat; f 0%nat 2%nat; f 1%nat 2%nat; f 2%nat 2%nat].
  Definition m_zeros : list F := build (fun _ _ => f_int O 0).
  Definition m_add (a b : list F) : list F := build (fun i j => at_ a i j + at_ b i j)%num.
  Definition m_sub (a b : list F) : list F := build (fun i j => at_ a i j - at_ b i j)%num.
  Definition m_scale (k : F) (a : list F) : list F := build (fun i j => k * at_ a i j)%num.
  (** The order of the three additions is a choice of nalgebra's matrix product. *)
  Definition m_mul (a b : list F) : list F :=
    build (fun i j => at_ a i 0 * at_ b 0 j + at_ a i 1 * at_ b 1 j + at_ a i 2 * at_ b 2 j)%num.

  (** robot_state.rs 435-439; Matrix3::new takes the entries row by row *)
  Definition skew_symmetric_matrix_from_vector (v : list F) : list F :=
    let x := nth 0 v (f_int O 0) in let y := nth 1 v (f_int O 0) in let z := nth 2 v (f_int O 0) in
    let rows := [[f_int O 0; f_neg O z; y]; [z; f_int O 0; f_neg O x]; [f_neg O y; x; f_int O 0]] in
    build (fun i j => nth j (nth i rows []) (f_int O 0)).

  (** robot_state.rs 420-433 *)
  Definition combine_center_of_mass (m_ee : F) (F_x_Cee : list F) (m_load : F) (F_x_Cload : list F) : list F :=
    if f_gt O (m_ee + m_load)%num (f_int O 0) then
      map (fun i => (m_ee * nth i F_x_Cee (f_int O 0) + m_load * nth i F_x_Cload (f_int O 0)) / (m_ee + m_load))%num [0; 1; 2]%nat
    else repeat (f_int O 0) 3.

  (** robot_state.rs 375-417 *)
  Definition combine_inertia_tensor (m_ee : F) (F_x_Cee I_ee : list F) (m_load : F) (F_x_Cload I_load : list F)
      (m_total : F) (F_x_Ctotal : list F) : list F :=
    let inertia_ee := if f_eq O m_ee (f_int O 0) then m_zeros else I_ee in
    let inertia_load := if f_eq O m_load (f_int O 0) then m_zeros else I_load in
    let square v := m_mul (skew_symmetric_matrix_from_vector v) (skew_symmetric_matrix_from_vector v) in
    let inertia_ee_flange := m_sub inertia_ee (m_scale m_ee (square F_x_Cee)) in
    let inertia_load_flange := m_sub inertia_load (m_scale m_load (square F_x_Cload)) in
    let inertia_total_flange := m_add inertia_ee_flange inertia_load_flange in
    m_add inertia_total_flange (m_scale m_total (square F_x_Ctotal)).
End Load.

(** robot_state.rs 14-256: RobotState. Numbers are bit patterns, time is in milliseconds, errors
    are the list of the errors which are set ([None]: the flags do not have the right length, which
    their type excludes). *)
Record user_state := UserState {
  us_O_T_EE : list N;
  us_O_T_EE_d : list N;
  us_F_T_EE : list N;
  us_F_T_NE : list N;
  us_NE_T_EE : list N;
  us_EE_T_K : list N;
  us_m_ee : N;
  us_I_ee : list N;
  us_F_x_Cee : list N;
  us_m_load : N;
  us_I_load : list N;
  us_F_x_Cload : list N;
  us_m_total : N;
  us_I_total : list N;
  us_F_x_Ctotal : list N;
  us_elbow : list N;
  us_elbow_d : list N;
  us_elbow_c : list N;
  us_delbow_c : list N;
  us_ddelbow_c : list N;
  us_tau_J : list N;
  us_tau_J_d : list N;
  us_dtau_J : list N;
  us_q : list N;
  us_q_d : list N;
  us_dq : list N;
  us_dq_d : list N;
  us_ddq_d : list N;
  us_joint_contact : list N;
  us_cartesian_contact : list N;
  us_joint_collision : list N;
  us_cartesian_collision : list N;
  us_tau_ext_hat_filtered : list N;
  us_O_F_ext_hat_K : list N;
  us_K_F_ext_hat_K : list N;
  us_O_dP_EE_d : list N;
  us_O_ddP_O : list N;
  us_O_T_EE_c : list N;
  us_O_dP_EE_c : list N;
  us_O_ddP_EE_c : list N;
  us_theta : list N;
  us_dtheta : list N;
  us_current_errors : option (list franka_error);
  us_last_motion_errors : option (list franka_error);
  us_control_command_success_rate : N;
  us_robot_mode : robot_mode_t;
  us_time : N
}.

(** robot_state.rs 257-372 *)
Definition user_state_of (s : robot_state_intern) : user_state :=
  let m_ee := of_bits (rs_m_ee s) in let m_load := of_bits (rs_m_load s) in
  let F_x_Cee := map of_bits (rs_F_x_Cee s) in let F_x_Cload := map of_bits (rs_F_x_Cload s) in
  let I_ee := map of_bits (rs_I_ee s) in let I_load := map of_bits (rs_I_load s) in
  let m_total := f_add float m_ee m_load in
  let F_x_Ctotal := combine_center_of_mass float m_ee F_x_Cee m_load F_x_Cload in
  UserState (rs_O_T_EE s) (rs_O_T_EE_d s) (rs_F_T_EE s) (rs_F_T_NE s) (rs_NE_T_EE s) (rs_EE_T_K s) (rs_m_ee s)
        (rs_I_ee s) (rs_F_x_Cee s) (rs_m_load s) (rs_I_load s) (rs_F_x_Cload s) (bits m_total) (map bits
        (combine_inertia_tensor float m_ee F_x_Cee I_ee m_load F_x_Cload I_load m_total F_x_Ctotal)) (map
        bits F_x_Ctotal) (rs_elbow s) (rs_elbow_d s) (rs_elbow_c s) (rs_delbow_c s) (rs_ddelbow_c s)
        (rs_tau_J s) (rs_tau_J_d s) (rs_dtau_J s) (rs_q s) (rs_q_d s) (rs_dq s) (rs_dq_d s) (rs_ddq_d s)
        (rs_joint_contact s) (rs_cartesian_contact s) (rs_joint_collision s) (rs_cartesian_collision s)
        (rs_tau_ext_hat_filtered s) (rs_O_F_ext_hat_K s) (rs_K_F_ext_hat_K s) (rs_O_dP_EE_d s) (rs_O_ddP_O
        s) (rs_O_T_EE_c s) (rs_O_dP_EE_c s) (rs_O_ddP_EE_c s) (rs_theta s) (rs_dtheta s)
        (franka_errors (rs_errors1 s) (rs_errors2 s)) (franka_errors (rs_reflex_reason1 s) (rs_reflex_reason2 s))
        (rs_control_command_success_rate s) (rs_robot_mode s) (rs_message_id s).
