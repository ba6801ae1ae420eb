(** Model of robot/rate_limiting.rs and robot/low_pass_filter.rs (without the quaternion parts).
    [None] is a failed assertion. *)
From Coq Require Import List ZArith Bool.
From Verif Require Import NumOps.
Import ListNotations.
Open Scope Z_scope.

Declare Scope num_scope.
Section Rate.
  Variable O : num.
  Notation F := (F O).
  Notation "a + b" := (f_add O a b) : num_scope.
  Notation "a - b" := (f_sub O a b) : num_scope.
  Notation "a * b" := (f_mul O a b) : num_scope.
  Notation "a / b" := (f_div O a b) : num_scope.
  Notation "- a" := (f_neg O a) : num_scope.
  Delimit Scope num_scope with num.

  (** rate_limiting.rs 16 *)
  Definition DELTA_T : F := f_lit O 1 1000.
  (** rate_limiting.rs 18 *)
  Definition LIMIT_EPS : F := f_lit O 1 1000.
  (** rate_limiting.rs 20: f64::EPSILON = 2^-52 *)
  Definition NORM_EPS : F := f_lit O 1 4503599627370496.
  (** rate_limiting.rs 23 *)
  Definition TOL_NUMBER_PACKETS_LOST : F := f_lit O 1 1000.
  (** rate_limiting.rs 25 *)
  Definition FACTOR_CARTESIAN_ROTATION_POSE_INTERFACE : F := f_lit O 99 100.
  (** rate_limiting.rs 27 *)
  Definition MAX_TORQUE_RATE : list F := repeat (f_int O 1000 - LIMIT_EPS)%num 7.
  (** rate_limiting.rs 29-37 *)
  Definition MAX_JOINT_JERK : list F :=
    map (fun z => f_int O z - LIMIT_EPS)%num [7500; 3750; 5000; 6250; 7500; 10000; 10000].
  (** rate_limiting.rs 39-47; 7.5 and 12.5 are written as fractions *)
  Definition MAX_JOINT_ACCELERATION : list F :=
    map (fun z => f_lit O z 2 - LIMIT_EPS)%num [30; 15; 20; 25; 30; 40; 40].
  (** rate_limiting.rs 49-57 *)
  Definition MAX_JOINT_VELOCITY : list F :=
    map2 (fun v a => f_lit O v 1000 - LIMIT_EPS - TOL_NUMBER_PACKETS_LOST * DELTA_T * a)%num
         [2175; 2175; 2175; 2175; 2610; 2610; 2610] MAX_JOINT_ACCELERATION.
  (** rate_limiting.rs 59 *)
  Definition MAX_TRANSLATIONAL_JERK : F := (f_int O 6500 - LIMIT_EPS)%num.
  (** rate_limiting.rs 61 *)
  Definition MAX_TRANSLATIONAL_ACCELERATION : F := (f_int O 13 - LIMIT_EPS)%num.
  (** rate_limiting.rs 63-64 *)
  Definition MAX_TRANSLATIONAL_VELOCITY : F :=
    (f_int O 2 - LIMIT_EPS - TOL_NUMBER_PACKETS_LOST * DELTA_T * MAX_TRANSLATIONAL_ACCELERATION)%num.
  (** rate_limiting.rs 66 *)
  Definition MAX_ROTATIONAL_JERK : F := (f_int O 12500 - LIMIT_EPS)%num.
  (** rate_limiting.rs 68 *)
  Definition MAX_ROTATIONAL_ACCELERATION : F := (f_int O 25 - LIMIT_EPS)%num.
  (** rate_limiting.rs 70-71 *)
  Definition MAX_ROTATIONAL_VELOCITY : F :=
    (f_lit O 5 2 - LIMIT_EPS - TOL_NUMBER_PACKETS_LOST * DELTA_T * MAX_ROTATIONAL_ACCELERATION)%num.
  (** rate_limiting.rs 73 *)
  Definition MAX_ELBOW_JERK : F := (f_int O 5000 - LIMIT_EPS)%num.
  (** rate_limiting.rs 75 *)
  Definition MAX_ELBOW_ACCELERATION : F := (f_int O 10 - LIMIT_EPS)%num.
  (** rate_limiting.rs 77-78 *)
  Definition MAX_ELBOW_VELOCITY : F :=
    (f_lit O 2175 1000 - LIMIT_EPS - TOL_NUMBER_PACKETS_LOST * DELTA_T * MAX_ELBOW_ACCELERATION)%num.

  (** rate_limiting.rs 184-186: the commanded jerk *)
  Definition commanded_jerk (v last_v last_a : F) : F := (((v - last_v) / DELTA_T - last_a) / DELTA_T)%num.
  (** rate_limiting.rs 171-198 *)
  Definition limit_rate_velocity (max_v max_a max_j v last_v last_a : F) : option F :=
    if f_finite O v then
      let jerk := commanded_jerk v last_v last_a in
      let acc := (last_a + f_max O (f_min O jerk max_j) (- max_j) * DELTA_T)%num in
      let safe_max := f_min O ((max_j / max_a) * (max_v - last_v))%num max_a in
      let safe_min := f_max O ((max_j / max_a) * (- max_v - last_v))%num (- max_a)%num in
      Some (last_v + f_max O (f_min O acc safe_max) safe_min * DELTA_T)%num
    else None.

  (** rate_limiting.rs 136-155 *)
  Definition limit_rate_position (max_v max_a max_j p last_p last_v last_a : F) : option F :=
    if f_finite O p then
      match limit_rate_velocity max_v max_a max_j ((p - last_p) / DELTA_T)%num last_v last_a with
      | Some v => Some (last_p + v * DELTA_T)%num
      | None => None
      end
    else None.

  (** One joint of the loops below: limits, request, last values. *)
  Fixpoint per_joint (body : F -> F -> F -> F -> F -> F -> F -> option F)
    (vs as_ js ps lps lvs las : list F) : list (option F) :=
    match vs, as_, js, ps, lps, lvs, las with
    | v :: vs, a :: as_, j :: js, p :: ps, lp :: lps, lv :: lvs, la :: las =>
        body v a j p lp lv la :: per_joint body vs as_ js ps lps lvs las
    | _, _, _, _, _, _, _ => []
    end.

  (** rate_limiting.rs 95-120 *)
  Definition limit_rate_joint_positions (max_v max_a max_j ps last_p last_v last_a : list F) : option (list F) :=
    if all_finite O ps then sequence (per_joint limit_rate_position max_v max_a max_j ps last_p last_v last_a)
    else None.

  (** rate_limiting.rs 244-267 *)
  Definition limit_rate_joint_velocities (max_v max_a max_j vs last_v last_a : list F) : option (list F) :=
    if all_finite O vs then
      sequence (per_joint (fun v a j x _ lv la => limit_rate_velocity v a j x lv la)
                          max_v max_a max_j vs last_v last_v last_a)
    else None.

  (** rate_limiting.rs 219-226: one joint *)
  Definition limit_torque (max x last : F) : F :=
    let derivative := ((x - last) / DELTA_T)%num in
    (last + f_max O (f_min O derivative max) (- max) * DELTA_T)%num.
  Fixpoint limit_torques (ms xs ls : list F) : list F :=
    match ms, xs, ls with
    | m :: ms, x :: xs, l :: ls => limit_torque m x l :: limit_torques ms xs ls
    | _, _, _ => []
    end.
  (** rate_limiting.rs 212-228 *)
  Definition limit_rate_torques (max xs last : list F) : option (list F) :=
    if all_finite O xs then Some (limit_torques max xs last) else None.

  (** * Three-dimensional vectors: nalgebra's componentwise operations *)
  Record vec := Vec { vx : F; vy : F; vz : F }.
  Definition v_map2 (f : F -> F -> F) (a b : vec) : vec := Vec (f (vx a) (vx b)) (f (vy a) (vy b)) (f (vz a) (vz b)).
  Definition v_map (f : F -> F) (a : vec) : vec := Vec (f (vx a)) (f (vy a)) (f (vz a)).
  Definition v_add : vec -> vec -> vec := v_map2 (f_add O).
  Definition v_sub : vec -> vec -> vec := v_map2 (f_sub O).
  Definition v_scale (a : vec) (k : F) : vec := v_map (fun x => x * k)%num a.
  Definition v_unscale (a : vec) (k : F) : vec := v_map (fun x => x / k)%num a.
  Definition v_dot (a b : vec) : F := (vx a * vx b + vy a * vy b + vz a * vz b)%num.
  Definition v_norm2 (a : vec) : F := v_dot a a.
  Definition v_norm (a : vec) : F := f_sqrt O (v_norm2 a).
  Definition v_normalize (a : vec) : vec := v_unscale a (v_norm a).

  (** rate_limiting.rs 437-446: the commanded acceleration with limited jerk *)
  Definition limited_acceleration (max_j : F) (v last_v last_a : vec) : vec :=
    let jerk := v_unscale (v_sub (v_unscale (v_sub v last_v) DELTA_T) last_a) DELTA_T in
    if f_gt O (v_norm jerk) NORM_EPS then
      v_add last_a (v_scale (v_scale (v_normalize jerk) (f_max O (f_min O (v_norm jerk) max_j) (- max_j)%num)) DELTA_T)
    else last_a.
  (** rate_limiting.rs 429-464 *)
  Definition limit_rate_single_cartesian_velocity (max_v max_a max_j : F) (v last_v last_a : vec) : vec :=
    let acc := limited_acceleration max_j v last_v last_a in
    let unit := v_normalize acc in
    let dot := v_dot unit last_v in
    let distance := (- dot + f_sqrt O (f_sqr O dot - v_norm2 last_v + f_sqr O max_v))%num in
    let safe_max := f_min O ((max_j / max_a) * distance)%num max_a in
    if f_gt O (v_norm acc) NORM_EPS then
      v_add last_v (v_scale (v_scale unit (f_min O (v_norm acc) safe_max)) DELTA_T)
    else last_v.

  (** Columns 0-2 and 3-5 of an array of six numbers (rate_limiting.rs 399-416, 419-425). *)
  Definition to_vecs (l : list F) : option (vec * vec) :=
    match l with
    | [a; b; c; d; e; f] => Some (Vec a b c, Vec d e f)
    | _ => None
    end.
  Definition of_vecs (a b : vec) : list F := [vx a; vy a; vz a; vx b; vy b; vz b].
  (** rate_limiting.rs 387-427.  The arrays have six elements by their type. *)
  Definition limit_rate_cartesian_velocity (tv ta tj rv ra rj : F) (x last_x last_dx : list F) : option (list F) :=
    if all_finite O x then
      match to_vecs x, to_vecs last_x, to_vecs last_dx with
      | Some (xh, xt), Some (lh, lt), Some (ah, at_) =>
          Some (of_vecs (limit_rate_single_cartesian_velocity tv ta tj xh lh ah)
                        (limit_rate_single_cartesian_velocity rv ra rj xt lt at_))
      | _, _, _ => None
      end
    else None.

  (** low_pass_filter.rs 10 *)
  Definition MAX_CUTOFF_FREQUENCY : F := f_int O 1000.
  (** low_pass_filter.rs 12 *)
  Definition DEFAULT_CUTOFF_FREQUENCY : F := f_int O 100.
  (** low_pass_filter.rs 33 *)
  Definition filter_gain (sample_time cutoff : F) : F :=
    (sample_time / (sample_time + (f_int O 1 / (f_int O 2 * f_pi O * cutoff))))%num.
  (** low_pass_filter.rs 29-35 *)
  Definition low_pass_filter (sample_time y y_last cutoff : F) : option F :=
    if f_sign_positive O sample_time && f_finite O sample_time then
      if f_sign_positive O cutoff && f_finite O cutoff then
        if f_finite O y && f_finite O y_last then
          let gain := filter_gain sample_time cutoff in
          Some (gain * y + (f_int O 1 - gain) * y_last)%num
        else None
      else None
    else None.
End Rate.
