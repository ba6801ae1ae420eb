(** What happens to the output of a callback before it becomes a command:
    /repo/src/robot/control_types.rs [convert_motion] of the four motion types, the torque part of
    /repo/src/robot/control_loop.rs 178-206, the homogeneity check of
    /repo/src/robot/control_tools.rs and the pose functions of
    /repo/src/robot/rate_limiting.rs and /repo/src/robot/low_pass_filter.rs.

    [None] is a failed assertion (panic).  Arrays are lists; their lengths are fixed by the types
    of the source.  Rotations: nalgebra's conversions between matrices and unit quaternions, slerp,
    logarithm and exponential are parameters ([slerp], [rot_log], [rot_exp], [rot_keep]), so that
    what is proved holds for every implementation of them. *)
From Coq Require Import List ZArith NArith Bool.
From Verif Require Import NumOps RateModel.
Import ListNotations.
Open Scope Z_scope.

Section Convert.
  Variable O : num.
  Notation F := (F O).
  Notation "a + b" := (f_add O a b) : num_scope.
  Notation "a - b" := (f_sub O a b) : num_scope.
  Notation "a * b" := (f_mul O a b) : num_scope.
  Notation "a / b" := (f_div O a b) : num_scope.
  Delimit Scope num_scope with num.
  Notation vec := (vec O).

  Definition zero : F := f_int O 0.
  (** control_tools.rs 59 *)
  Definition ORTHONORMAL_THRESHOLD : F := f_lit O 1 100000.
  (** control_tools.rs 64-70, 76-80: abs(sqrt(a^2 + b^2 + c^2) - 1) > threshold *)
  Definition not_unit (a b c : F) : bool :=
    f_gt O (f_abs O (f_sqrt O (f_sqr O a + f_sqr O b + f_sqr O c) - f_int O 1))%num ORTHONORMAL_THRESHOLD.
  (** control_tools.rs 57-87: bottom row, the three columns, the three rows *)
  Definition is_homogeneous_transformation (t : list F) : bool :=
    let e i := nth i t zero in
    if negb (f_eq O (e 3%nat) zero) || negb (f_eq O (e 7%nat) zero) || negb (f_eq O (e 11%nat) zero)
       || negb (f_eq O (e 15%nat) (f_int O 1))
    then false
    else
      negb (not_unit (e 0%nat) (e 1%nat) (e 2%nat)) && negb (not_unit (e 4%nat) (e 5%nat) (e 6%nat)) &&
      negb (not_unit (e 8%nat) (e 9%nat) (e 10%nat)) &&
      negb (not_unit (e 0%nat) (e 4%nat) (e 8%nat)) && negb (not_unit (e 1%nat) (e 5%nat) (e 9%nat)) &&
      negb (not_unit (e 2%nat) (e 6%nat) (e 10%nat)).
  (** control_types.rs 534-537 *)
  Definition check_matrix (t : list F) : bool := all_finite O t && is_homogeneous_transformation t.

  (** The three columns of a rotation. *)
  Definition rot : Type := (vec * vec * vec)%type.
  (** Isometry3::to_homogeneous, column-major (nalgebra: bottom row exactly 0, 0, 0, 1) *)
  Definition to_homogeneous (r : rot) (t : vec) : list F :=
    let '(a, b, c) := r in
    [vx _ a; vy _ a; vz _ a; zero; vx _ b; vy _ b; vz _ b; zero; vx _ c; vy _ c; vz _ c; zero;
     vx _ t; vy _ t; vz _ t; f_int O 1].
  (** utils.rs 17-19: elements 12, 13, 14 *)
  Definition translation (t : list F) : vec := Vec O (nth 12 t zero) (nth 13 t zero) (nth 14 t zero).

  (** [slerp y_last y gain]: rotation between two poses; [rot_log y y_last]: scaled axis of the
      renormalised rotation from the second pose to the first; [rot_exp w y_last]: the rotation of
      the pose turned with angular velocity [w] for one millisecond; [rot_keep y]: the rotation of
      the pose after conversion to a unit quaternion and back. *)
  Variable slerp : list F -> list F -> F -> rot.
  Variable rot_log : list F -> list F -> vec.
  Variable rot_exp : vec -> list F -> rot.
  Variable rot_keep : list F -> rot.

  (** low_pass_filter.rs 53-76 *)
  Definition cartesian_low_pass_filter (sample_time : F) (y y_last : list F) (cutoff : F) : option (list F) :=
    if f_sign_positive O sample_time && f_finite O sample_time then
      if f_sign_positive O cutoff && f_finite O cutoff then
        if all_finite O y && all_finite O y_last then
          let gain := filter_gain O sample_time cutoff in
          let t := v_add O (v_map O (fun x => gain * x)%num (translation y))
                           (v_map O (fun x => (f_int O 1 - gain) * x)%num (translation y_last)) in
          Some (to_homogeneous (slerp y_last y gain) t)
        else None
      else None
    else None.

  (** rate_limiting.rs 288-367 *)
  Definition limit_rate_cartesian_pose (tv ta tj rv ra rj : F) (y y_last dP ddP : list F) : option (list F) :=
    if all_finite O y then
      if is_homogeneous_transformation y then
        let head := v_unscale O (v_sub O (translation y) (translation y_last)) (DELTA_T O) in
        let tail := v_unscale O (rot_log y y_last) (DELTA_T O) in
        let k := FACTOR_CARTESIAN_ROTATION_POSE_INTERFACE O in
        match limit_rate_cartesian_velocity O tv ta tj (k * rv)%num (k * ra)%num (k * rj)%num (of_vecs O head tail) dP ddP with
        | Some dx =>
            match to_vecs O dx with
            | Some (head, tail) =>
                let t := v_add O (translation y_last) (v_scale O head (DELTA_T O)) in
                let r := if f_gt O (v_norm O tail) (NORM_EPS O) then rot_exp tail y_last else rot_keep y_last in
                Some (to_homogeneous r t)
            | None => None
            end
        | None => None
        end
      else None
    else None.

  (** The fields of the robot state which the conversions read. *)
  Record reported := Reported {
    p_q_d : list F; p_dq_d : list F; p_ddq_d : list F;
    p_O_T_EE_c : list F; p_O_dP_EE_c : list F; p_O_ddP_EE_c : list F;
    p_elbow_c : F; p_delbow_c : F; p_ddelbow_c : F;          (* element 0 of each *)
    p_tau_J_d : list F
  }.

  (** "if cutoff_frequency < MAX_CUTOFF_FREQUENCY": the filter on each element of an array *)
  Definition filtered (cutoff : F) (y last : list F) : option (list F) :=
    if f_lt O cutoff (MAX_CUTOFF_FREQUENCY O)
    then sequence (map2 (fun y l => low_pass_filter O (DELTA_T O) y l cutoff) y last)
    else Some y.
  (** "if limit_rate" *)
  Definition limited (limit : bool) (f : list F -> option (list F)) (y : list F) : option (list F) :=
    if limit then f y else Some y.
  (** the assertion at the end *)
  Definition finite (y : list F) : option (list F) := if all_finite O y then Some y else None.
  Definition then_ {A B} (o : option A) (f : A -> option B) : option B :=
    match o with Some a => f a | None => None end.

  (** control_types.rs 154-184 *)
  Definition convert_joint_positions (cutoff : F) (limit : bool) (q : list F) (s : reported) : option (list F) :=
    then_ (filtered cutoff q (p_q_d s)) (fun y =>
    then_ (limited limit (fun y => limit_rate_joint_positions O (MAX_JOINT_VELOCITY O) (MAX_JOINT_ACCELERATION O)
             (MAX_JOINT_JERK O) y (p_q_d s) (p_dq_d s) (p_ddq_d s)) y) finite).
  (** control_types.rs 228-257 *)
  Definition convert_joint_velocities (cutoff : F) (limit : bool) (dq : list F) (s : reported) : option (list F) :=
    then_ (filtered cutoff dq (p_dq_d s)) (fun y =>
    then_ (limited limit (fun y => limit_rate_joint_velocities O (MAX_JOINT_VELOCITY O) (MAX_JOINT_ACCELERATION O)
             (MAX_JOINT_JERK O) y (p_dq_d s) (p_ddq_d s)) y) finite).
  (** control_types.rs 348-375 *)
  Definition convert_pose (cutoff : F) (limit : bool) (t : list F) (s : reported) : option (list F) :=
    then_ (if f_lt O cutoff (MAX_CUTOFF_FREQUENCY O)
           then cartesian_low_pass_filter (DELTA_T O) t (p_O_T_EE_c s) cutoff else Some t) (fun y =>
    then_ (limited limit (fun y => limit_rate_cartesian_pose (MAX_TRANSLATIONAL_VELOCITY O)
             (MAX_TRANSLATIONAL_ACCELERATION O) (MAX_TRANSLATIONAL_JERK O) (MAX_ROTATIONAL_VELOCITY O)
             (MAX_ROTATIONAL_ACCELERATION O) (MAX_ROTATIONAL_JERK O)
             y (p_O_T_EE_c s) (p_O_dP_EE_c s) (p_O_ddP_EE_c s)) y)
          (fun y => if check_matrix y then Some y else None)).
  (** control_types.rs 469-498 *)
  Definition convert_twist (cutoff : F) (limit : bool) (v : list F) (s : reported) : option (list F) :=
    then_ (filtered cutoff v (p_O_dP_EE_c s)) (fun y =>
    then_ (limited limit (fun y => limit_rate_cartesian_velocity O (MAX_TRANSLATIONAL_VELOCITY O)
             (MAX_TRANSLATIONAL_ACCELERATION O) (MAX_TRANSLATIONAL_JERK O) (MAX_ROTATIONAL_VELOCITY O)
             (MAX_ROTATIONAL_ACCELERATION O) (MAX_ROTATIONAL_JERK O) y (p_O_dP_EE_c s) (p_O_ddP_EE_c s)) y) finite).
  (** control_types.rs 328-330 *)
  Definition is_valid_elbow (e1 : F) : bool := f_eq O (f_abs O e1) (f_int O 1).
  (** control_types.rs 322-325 *)
  Definition check_elbow (e0 e1 : F) : bool := all_finite O [e0; e1] && is_valid_elbow e1.
  (** control_types.rs 376-400, 500-524: the flag and the two elements *)
  Definition convert_elbow (cutoff : F) (limit : bool) (e : option (F * F)) (s : reported) : option (bool * list F) :=
    match e with
    | Some (e0, e1) =>
        then_ (if f_lt O cutoff (MAX_CUTOFF_FREQUENCY O)
               then low_pass_filter O (DELTA_T O) e0 (p_elbow_c s) cutoff else Some e0) (fun e0 =>
        then_ (if limit then limit_rate_position O (MAX_ELBOW_VELOCITY O) (MAX_ELBOW_ACCELERATION O) (MAX_ELBOW_JERK O)
                               e0 (p_elbow_c s) (p_delbow_c s) (p_ddelbow_c s) else Some e0) (fun e0 =>
        if check_elbow e0 e1 then Some (true, [e0; e1]) else None))
    | None => Some (false, [zero; zero])
    end.
  (** control_loop.rs 186-204 *)
  Definition convert_torques (cutoff : F) (limit : bool) (t : list F) (s : reported) : option (list F) :=
    then_ (filtered cutoff t (p_tau_J_d s)) (fun y =>
    then_ (limited limit (fun y => limit_rate_torques O (MAX_TORQUE_RATE O) y (p_tau_J_d s)) y) finite).
End Convert.
