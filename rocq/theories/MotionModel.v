(** The joint motion generator: /repo/src/utils.rs. *)
From Coq Require Import List ZArith Bool.
From Verif Require Import NumOps.
Import ListNotations.
Declare Scope gen_scope.

Section Generator.
  Variable O : num.
  Notation F := (F O).
  Notation zero := (f_int O 0).
  Notation "a + b" := (f_add O a b) : gen_scope.
  Notation "a - b" := (f_sub O a b) : gen_scope.
  Notation "a * b" := (f_mul O a b) : gen_scope.
  Notation "a / b" := (f_div O a b) : gen_scope.
  Delimit Scope gen_scope with G.

  (** f64::signum: 1 for +0 and everything above, -1 for -0 and everything below, NaN for NaN *)
  Definition signum (x : F) : F :=
    if f_eq O x x then if f_sign_positive O x then f_int O 1 else f_int O (-1) else x.
  (** f64::powi(2), powi(3): taken to be repeated products *)
  Definition cube (x : F) : F := (x * x * x)%G.

  (** utils.rs 32-46. The vectors have seven entries; q_goal and the limits are set once. *)
  Record generator := Generator {
    g_q_goal : list F; g_q_start : list F; g_delta_q : list F; g_dq_max_sync : list F;
    g_t_1_sync : list F; g_t_2_sync : list F; g_t_f_sync : list F; g_q_1 : list F;
    g_time : F;
    g_dq_max : list F; g_ddq_max_start : list F; g_ddq_max_goal : list F
  }.
  Definition joint (l : list F) (i : nat) : F := nth i l zero.
  Definition joints : list nat := seq 0 7.
  Definition zeros : list F := repeat zero 7.

  (** utils.rs 49 *)
  Definition DELTA_Q_MOTION_FINISHED : F := f_lit O 1 1000000.

  (** utils.rs 55-83 *)
  Definition generator_new (speed_factor : F) (q_goal : list F) : generator :=
    let scaled l := map (fun x => x * speed_factor)%G l in
    Generator q_goal zeros zeros zeros zeros zeros zeros zeros zero
      (scaled (map (f_lit O 20) [10; 10; 10; 10; 8; 8; 8]%Z))
      (scaled (repeat (f_int O 5) 7)) (scaled (repeat (f_int O 5) 7)).

  (** utils.rs 89-115: the body of the loop, one joint; the value and whether it has finished *)
  Definition desired_value (delta_q dq_max_sync t_1_sync t_2_sync t_f_sync q_1 t : F) : F * bool :=
    let sign_delta_q := signum delta_q in
    let t_d := (t_2_sync - t_1_sync)%G in
    let delta_t_2_sync := (t_f_sync - t_2_sync)%G in
    let half := f_lit O 1 2 in let two := f_int O 2 in
    let ge x y := f_lt O y x || f_eq O x y in
    if f_lt O (f_abs O delta_q) DELTA_Q_MOTION_FINISHED then (zero, true)
    else if f_lt O t t_1_sync then
      ((f_int O (-1) / cube t_1_sync * dq_max_sync * sign_delta_q * (half * t - t_1_sync) * cube t)%G, false)
    else if ge t t_1_sync && f_lt O t t_2_sync then
      ((q_1 + (t - t_1_sync) * dq_max_sync * sign_delta_q)%G, false)
    else if ge t t_2_sync && f_lt O t t_f_sync then
      ((delta_q + half * (f_int O 1 / cube delta_t_2_sync * (t - t_1_sync - two * delta_t_2_sync - t_d) * cube (t - t_1_sync - t_d)
          + (two * t - two * t_1_sync - delta_t_2_sync - two * t_d)) * dq_max_sync * sign_delta_q)%G, false)
    else (delta_q, true).
  (** utils.rs 84-117 *)
  Definition calculate_desired_values (g : generator) (t : F) : list F * bool :=
    let r := map (fun i => desired_value (joint (g_delta_q g) i) (joint (g_dq_max_sync g) i) (joint (g_t_1_sync g) i)
                   (joint (g_t_2_sync g) i) (joint (g_t_f_sync g) i) (joint (g_q_1 g) i) t) joints in
    (map fst r, forallb snd r).

  (** utils.rs 127-148 *)
  Definition moves (delta_q : F) : bool := f_gt O (f_abs O delta_q) DELTA_Q_MOTION_FINISHED.
  (** utils.rs 128-139 *)
  Definition reach_speed (delta_q dq_max ddq_max_start ddq_max_goal : F) : F :=
    let quarters := (f_int O 3 / f_int O 4)%G in
    if f_lt O (f_abs O delta_q) (quarters * (dq_max * dq_max / ddq_max_start) + quarters * (dq_max * dq_max / ddq_max_goal))%G
    then f_sqrt O (f_int O 4 / f_int O 3 * delta_q * signum delta_q * (ddq_max_start * ddq_max_goal) / (ddq_max_start + ddq_max_goal))%G
    else dq_max.
  (** utils.rs 126-145: t_f of one joint *)
  Definition own_time (delta_q dq_max ddq_max_start ddq_max_goal : F) : F :=
    if moves delta_q then
      let dq_max_reach := reach_speed delta_q dq_max ddq_max_start ddq_max_goal in
      let c := f_lit O 3 2 in
      let t_1 := (c * dq_max_reach / ddq_max_start)%G in
      let delta_t_2 := (c * dq_max_reach / ddq_max_goal)%G in
      (t_1 / f_int O 2 + delta_t_2 / f_int O 2 + f_abs O delta_q / dq_max_reach)%G
    else zero.
  (** utils.rs 149-160: dq_max_sync, t_1_sync, t_2_sync, t_f_sync, q_1 of one joint *)
  Definition synchronized (delta_q ddq_max_start ddq_max_goal max_t_f : F) : F * (F * F * F * F) :=
    let c15 := f_lit O 3 2 in let minus_one := f_int O (-1) in
    let a := (c15 / f_int O 2 * (ddq_max_goal + ddq_max_start))%G in
    let b := (minus_one * max_t_f * ddq_max_goal * ddq_max_start)%G in
    let c := (f_abs O delta_q * ddq_max_goal * ddq_max_start)%G in
    let delta := f_max O (b * b - f_int O 4 * a * c)%G zero in
    let dq := ((minus_one * b - f_sqrt O delta) / (f_int O 2 * a))%G in
    let t_1 := (c15 * dq / ddq_max_start)%G in
    let delta_t_2 := (c15 * dq / ddq_max_goal)%G in
    let t_f := (t_1 / f_int O 2 + delta_t_2 / f_int O 2 + f_abs O (delta_q / dq))%G in
    (dq, (t_1, t_f - delta_t_2, t_f, dq * signum delta_q * (f_lit O 1 2 * t_1)))%G.
  (** utils.rs 118-163. Vector::max() of nalgebra: the greatest entry; a NaN entry is taken to be ignored.
      The values of joints which do not move stay as they are. *)
  Definition calculate_synchronized_values (g : generator) : generator :=
    let t_f := map (fun i => own_time (joint (g_delta_q g) i) (joint (g_dq_max g) i) (joint (g_ddq_max_start g) i)
                       (joint (g_ddq_max_goal g) i)) joints in
    let max_t_f := fold_left (f_max O) (tl t_f) (hd zero t_f) in
    let s i := synchronized (joint (g_delta_q g) i) (joint (g_ddq_max_start g) i) (joint (g_ddq_max_goal g) i) max_t_f in
    let set (old : list F) (new : F * (F * F * F * F) -> F) :=
      map (fun i => if moves (joint (g_delta_q g) i) then new (s i) else joint old i) joints in
    Generator (g_q_goal g) (g_q_start g) (g_delta_q g)
      (set (g_dq_max_sync g) fst)
      (set (g_t_1_sync g) (fun x => fst (fst (fst (snd x)))))
      (set (g_t_2_sync g) (fun x => snd (fst (fst (snd x)))))
      (set (g_t_f_sync g) (fun x => snd (fst (snd x))))
      (set (g_q_1 g) (fun x => snd (snd x)))
      (g_time g) (g_dq_max g) (g_ddq_max_start g) (g_ddq_max_goal g).

  (** utils.rs 172-190: the arguments are the period in seconds and the q_d of the state; the result is the
      commanded joint positions and whether the motion has finished *)
  Definition generate_motion (g : generator) (q_d : list F) (period : F) : generator * (list F * bool) :=
    let time := (g_time g + period)%G in
    let g := Generator (g_q_goal g) (g_q_start g) (g_delta_q g) (g_dq_max_sync g) (g_t_1_sync g) (g_t_2_sync g)
               (g_t_f_sync g) (g_q_1 g) time (g_dq_max g) (g_ddq_max_start g) (g_ddq_max_goal g) in
    let g :=
      if f_eq O time zero then
        calculate_synchronized_values
          (Generator (g_q_goal g) q_d (map (fun i => joint (g_q_goal g) i - joint q_d i)%G joints) (g_dq_max_sync g)
             (g_t_1_sync g) (g_t_2_sync g) (g_t_f_sync g) (g_q_1 g) time (g_dq_max g) (g_ddq_max_start g) (g_ddq_max_goal g))
      else g in
    let d := calculate_desired_values g time in
    (g, (map (fun i => joint (g_q_start g) i + joint (fst d) i)%G joints, snd d)).
  (** Successive calls of generate_motion with the same generator. *)
  Fixpoint generate (g : generator) (calls : list (list F * F)) : list (list F * bool) :=
    match calls with
    | [] => []
    | (q_d, period) :: r => let p := generate_motion g q_d period in snd p :: generate (fst p) r
    end.
End Generator.
