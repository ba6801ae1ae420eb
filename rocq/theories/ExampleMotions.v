(** The motions generated by programs of /repo/examples, for any arithmetic.  The functions which
    are not operations of IEEE-754 (cos, sin, powf, fmod, floor) and the conversion of a duration
    to seconds are parameters. *)
From Coq Require Import List ZArith NArith Bool.
From Verif Require Import NumOps.
Import ListNotations.

Section Motions.
  Variable O : num.
  Variables f_cos f_sin f_floor : F O -> F O.
  Variables f_powf f_fmod : F O -> F O -> F O.
  Variable seconds : N -> F O.
  Notation F := (F O).
  Declare Scope num_scope.
  Delimit Scope num_scope with num.
  Infix "+" := (f_add O) : num_scope.
  Infix "-" := (f_sub O) : num_scope.
  Infix "*" := (f_mul O) : num_scope.
  Infix "/" := (f_div O) : num_scope.
  Notation "- x" := (f_neg O x) : num_scope.

  (** a >= b of f64 *)
  Definition f_ge (a b : F) : bool := f_lt O b a || f_eq O a b.

  (** A closure with its captured variables, called with what it reads of the state and with the
      time step; it returns its output and whether this is the last one.  The control loop calls it
      until then. *)
  Section Calls.
    Context {S X Y : Type} (step : S -> X -> N -> S * (Y * bool)).
    Fixpoint outputs (s : S) (calls : list (X * N)) : list (Y * bool) :=
      match calls with
      | [] => []
      | (x, dt) :: r => let (s', o) := step s x dt in o :: (if snd o then [] else outputs s' r)
      end.
  End Calls.

  (** examples/generate_joint_position_motion.rs 43-44 *)
  Definition position_start : F * list F := (f_int O 0, map (f_int O) [0; 1; 2; 3; 4; 5; 6]%Z).
  (** examples/generate_joint_position_motion.rs 51-54; arrays have seven elements by their type *)
  Definition raise_joints (delta : F) (q : list F) : list F :=
    match q with
    | [a; b; c; d; e; f; g] => [a; b; c; d + delta; e + delta; f; g + delta]%num
    | _ => q
    end.
  (** examples/generate_joint_position_motion.rs 45-60; q_d is the only field read *)
  Definition position_step (s : F * list F) (q_d : list F) (dt : N) : (F * list F) * (list F * bool) :=
    let time := (fst s + seconds dt)%num in
    let initial := if f_eq O time (f_int O 0) then q_d else snd s in
    let delta := (f_pi O / f_int O 8 * (f_int O 1 - f_cos (f_pi O / f_lit O 5 2 * time)))%num in
    ((time, initial), (raise_joints delta initial, f_ge time (f_int O 5))).

  (** examples/generate_joint_velocity_motion.rs 52-57, examples/generate_consecutive_motions.rs
      51-56 and examples/generate_cartesian_velocity_motion.rs 60-65 *)
  Definition speed (max time_max time : F) : F :=
    let cycle := f_floor (f_powf (- f_int O 1) ((time - f_fmod time time_max) / time_max))%num in
    (cycle * max / f_int O 2 * (f_int O 1 - f_cos (f_int O 2 * f_pi O / time_max * time)))%num.
  (** examples/generate_joint_velocity_motion.rs 49-64 and examples/generate_consecutive_motions.rs
      48-63; nothing is read of the state *)
  Definition velocity_step (omega_max time_max : F) (time : F) (_ : unit) (dt : N) : F * (list F * bool) :=
    let time := (time + seconds dt)%num in
    let omega := speed omega_max time_max time in
    let zero := f_int O 0 in
    (time, ([zero; zero; zero; omega; omega; omega; omega], f_ge time (f_int O 2 * time_max)%num)).
  (** examples/generate_joint_velocity_motion.rs 46-48 *)
  Definition velocity_motion := velocity_step (f_int O 1) (f_int O 1).
  (** examples/generate_consecutive_motions.rs 45-47 *)
  Definition consecutive_motion := velocity_step (f_lit O 2 10) (f_int O 4).

  (** examples/generate_cartesian_velocity_motion.rs 53-74 *)
  Definition twist_step (time : F) (_ : unit) (dt : N) : F * (list F * bool) :=
    let time_max := f_int O 4 in
    let angle := (f_pi O / f_int O 4)%num in
    let time := (time + seconds dt)%num in
    let v := speed (f_lit O 1 10) time_max time in
    let zero := f_int O 0 in
    (time, ([f_cos angle * v; zero; (- f_sin angle) * v; zero; zero; zero]%num, f_ge time (f_int O 2 * time_max)%num)).

  (** examples/generate_elbow_motion.rs 42-44 *)
  Definition elbow_start : F * (list F * (F * F)) := (f_int O 0, (repeat (f_int O 0) 16, (f_int O 0, f_int O 0))).
  (** examples/generate_elbow_motion.rs 45-60; read are O_T_EE_c and elbow_c *)
  Definition elbow_step (s : F * (list F * (F * F))) (x : list F * (F * F)) (dt : N) : (F * (list F * (F * F))) * ((list F * (F * F)) * bool) :=
    let time := (fst s + seconds dt)%num in
    let initial := if f_eq O time (f_int O 0) then x else snd s in
    let angle := (f_pi O / f_int O 10 * (f_int O 1 - f_cos (f_pi O / f_int O 5 * time)))%num in
    let '(pose, (elbow, sign)) := initial in
    ((time, initial), ((pose, ((elbow + angle)%num, sign)), f_ge time (f_int O 10))).

  (** examples/generate_cartesian_pose_motion.rs 45-46 *)
  Definition pose_start : F * list F := (f_int O 0, repeat (f_int O 0) 16).
  (** examples/generate_cartesian_pose_motion.rs 58-59; arrays have 16 elements by their type *)
  Definition shift_pose (delta_x delta_z : F) (p : list F) : list F :=
    match p with
    | [a; b; c; d; e; f; g; h; i; j; k; l; x; y; z; w] => [a; b; c; d; e; f; g; h; i; j; k; l; x + delta_x; y; z + delta_z; w]%num
    | _ => p
    end.
  (** examples/generate_cartesian_pose_motion.rs 47-65; O_T_EE_c is the only field read *)
  Definition pose_step (s : F * list F) (pose : list F) (dt : N) : (F * list F) * (list F * bool) :=
    let time := (fst s + seconds dt)%num in
    let initial := if f_eq O time (f_int O 0) then pose else snd s in
    let radius := f_lit O 3 10 in
    let angle := (f_pi O / f_int O 4 * (f_int O 1 - f_cos (f_pi O / f_int O 5 * time)))%num in
    let delta_x := (radius * f_sin angle)%num in
    let delta_z := (radius * (f_cos angle - f_int O 1))%num in
    ((time, initial), (shift_pose delta_x delta_z initial, f_ge time (f_int O 10))).
End Motions.
