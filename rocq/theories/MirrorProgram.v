(** The program /repo/examples/mirror_robot.rs as a whole: two robots, two threads and a channel. *)
From Coq Require Import List ZArith NArith Bool Arith.
From Verif Require Import NumOps NumFloat WireModel StateModel RobotModel LoopModel ConvertModel TypedModel ModelApi JointMotionModel LibraryModel ProgramModel MotionPrograms
  CommPrograms ImpedanceProgram.
Import ListNotations.
Open Scope N_scope.

(** What the closure of the mirroring robot keeps (mirror_robot.rs 68, 113-115): the pose received last, the poses which are
    under way in the channel, and whether one of them is there in time for the next calls of [recv_timeout] *)
Record mirroring := Mirroring { mi_desired : list N; mi_coming : list (list N); mi_timely : list bool }.
(** mirror_robot.rs 113-115: [receiver.recv_timeout(100 us).unwrap_or(desired_state)] *)
Definition mirror_receive (m : mirroring) : mirroring :=
  match mi_timely m, mi_coming m with
  | true :: l, p :: rest => Mirroring p rest l
  | _ :: l, rest => Mirroring (mi_desired m) rest l
  | [], rest => Mirroring (mi_desired m) rest []
  end.

(** Steps of the main thread with two handles: the files, the robot of the user, the mirroring robot *)
Definition duo (A : Type) : Type := disk -> st -> st -> result A * disk * st * st.
Definition duo_then {A B} (m : duo A) (f : A -> duo B) : duo B := fun d u s =>
  match m d u s with
  | (Done a, d, u, s) => f a d u s
  | (Failed e, d, u, s) => (Failed e, d, u, s)
  | (NoModel e, d, u, s) => (NoModel e, d, u, s)
  | (Panicked, d, u, s) => (Panicked, d, u, s)
  | (Waiting, d, u, s) => (Waiting, d, u, s)
  | (NoFuel, d, u, s) => (NoFuel, d, u, s)
  end.
Definition on_user {A} (m : M A) : duo A := fun d u s => let (r, u) := m u in (of_outcome r, d, u, s).
Definition on_mirror {A} (m : step A) : duo A := fun d u s => let '(r, d, s) := m d s in (r, d, u, s).

Section Program.
  Variable w : world.
  Variable rots : rotations.
  (** The arithmetic of mirror_robot.rs 103-150 in binary64 (nalgebra), given the Coriolis terms, the Jacobian, [O_T_EE], [q]
      and [dq] of the state and the pose received from the robot of the user.  The pseudo inverse is computed with a
      positive bound, so that its [unwrap] does not panic. *)
  Variable law : list (F float) -> list (F float) -> list (F float) -> list (F float) -> list (F float) -> list (F float) -> list (F float).

  (** mirror_robot.rs 91-98: the pose is sent, the torques are zero.  [send] fails only if the receiver is gone, that is, when
      the program has ended. *)
  Definition guided : user_control := control_torques unit (fun _ _ _ => Some (tt, (repeat 0 7, false))) None None.
  (** mirror_robot.rs 101-156 *)
  Definition mirrored (l : model_library float) : user_control :=
    control_torques mirroring (fun m x _ =>
      let u := user_state_of x in
      let m := mirror_receive m in
      Some (m, (map bits (law (coriolis_from_state l u) (zero_jacobian_from_state l u EndEffector)
                            (map of_bits (us_O_T_EE u)) (map of_bits (us_q u)) (map of_bits (us_dq u)) (map of_bits (mi_desired m))), false))) None None.
  (** mirror_robot.rs 80-83, 87 *)
  Definition go_home : M unit := control (controller_of rots joint_motion) (joint_motion_start (bits (f_lit float 1 10)) consecutive_goal).
  (** mirror_robot.rs 81-88: both robots at the same time.  An error of the mirroring robot ends the program; otherwise the
      program waits for the thread of the other robot, and panics if that did.  The handles are independent; if the
      program ends during the motion of the robot of the user, the rest of that motion, which is in the model, is cut off. *)
  Definition both_home : duo unit := fun d u s =>
    let (ru, u) := go_home u in
    let (rm, s) := go_home s in
    (match rm with
     | Ok _ => match ru with Ok _ => Done tt | Err _ | Panic _ => Panicked | Blocked => Waiting | OutOfFuel => NoFuel end
     | Err e => Failed e
     | Panic _ => Panicked
     | Blocked => Waiting
     | OutOfFuel => NoFuel
     end, d, u, s).
  (** mirror_robot.rs 90-156: the thread of the robot of the user sends a pose in each call of its closure, whatever becomes of the
      other robot; its result is dropped.  The channel delivers the poses in order; [timely] tells in which calls of
      [recv_timeout] one is there in time. *)
  Definition mirror_motion (timely : list bool) (l : model_library float) (initial : list N) : duo unit := fun d u s =>
    let (_, u') := control (controller_of rots guided) tt u in
    let sent := map (fun p => rs_O_T_EE (fst p)) (torques_called (trace u) (trace u')) in
    let (r, s) := control (controller_of rots (mirrored l)) (Mirroring initial sent timely) s in
    (of_outcome r, d, u', s).

  (** mirror_robot.rs 33-157; printing and waiting for the Enter key are left out *)
  Definition mirror_program (port : N) (timely : list bool) : duo unit :=
    let set := settings [impedance_collision; impedance_joints; impedance_cartesian] in
    duo_then (on_user (robot_new port)) (fun _ =>
    duo_then (on_mirror (call (robot_new port))) (fun _ =>
    duo_then (on_mirror (load_call w true)) (fun l =>
    duo_then (on_mirror (call set)) (fun _ =>
    duo_then (on_user set) (fun _ =>
    duo_then (on_user read_once) (fun x =>
    duo_then both_home (fun _ =>
    mirror_motion timely l (us_O_T_EE (user_state_of x))))))))).
End Program.
