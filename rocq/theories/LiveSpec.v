(** A cooperative robot: what it has to send for a control call to succeed. *)
From Coq Require Import List NArith ZArith Bool Arith.
From Coq Require Import Init.Byte.
From Verif Require Import Bytes Codec WireModel UdpModel LoggerModel RobotModel LoopModel RobotSpec LiveUdp.
Import ListNotations.
Open Scope N_scope.

(** Arrivals which make one [receive_robot_state] take the state [x] when the last one had number
    [last].  Either [x] is among the states which are there already (none of them newer, the last
    of each burst is looked at), or these are outdated and a newer one comes while it waits. *)
Inductive brings (last : N) (x : robot_state_intern) : sched -> Prop :=
| brings_queued : forall ys zs ch, polled state_size state_decode (ys ++ x :: zs) ch -> last < rs_message_id x ->
    Forall (fun y => rs_message_id y < rs_message_id x) ys -> Forall (fun z => rs_message_id z <= rs_message_id x) zs ->
    brings last x ch
| brings_waiting : forall old older ch1 ch2 ch3, polled state_size state_decode old ch1 ->
    bursts state_size state_decode older ch2 -> burst state_size state_decode x ch3 ->
    Forall (fun y => rs_message_id y <= last) (old ++ older) -> last < rs_message_id x ->
    brings last x (ch1 ++ ch2 ++ ch3).
(** Arrivals which make successive receives take these states. *)
Inductive feeds (last : N) : list robot_state_intern -> sched -> Prop :=
| feeds_none : feeds last [] []
| feeds_one : forall x xs ch us, brings last x ch -> feeds (rs_message_id x) xs us -> feeds last (x :: xs) (ch ++ us).

(** The messages are new ones, in order. *)
Fixpoint newer (id : N) (xs : list robot_state_intern) : Prop :=
  match xs with [] => True | x :: r => id < rs_message_id x /\ newer (rs_message_id x) r end.

(** A response to [id] with this content, after any number of polls without a message. *)
Definition answered {H A : Type} (c : codec (H * A)) (id : N) (a : A) (ts : list (option (N * list byte))) : Prop :=
  exists n b h, ts = repeat None n ++ [Some (id, b)] /\ deserialize c b = Some (h, a).
Definition answer (id : N) (status : move_status) (ts : list (option (N * list byte))) : Prop :=
  answered c_move_response id status ts.

Definition in_motion (x : robot_state_intern) : Prop :=
  rs_motion_generator_mode x <> MgIdle \/ rs_controller_mode x = CmExternalController.
Definition stopped (x : robot_state_intern) : Prop :=
  rs_motion_generator_mode x = MgIdle /\ rs_controller_mode x <> CmExternalController.
(** The modes which a control call asks for are those the state shows. *)
Definition as_requested (k : controller) (x : robot_state_intern) : Prop :=
  rs_motion_generator_mode x = mode_of_move (k_mode k) /\ rs_controller_mode x = ctrl_of_move (wanted_ctrl k).

(** One cycle of the callbacks: their new state, the motion command and whether to go on.  [None]:
    one of them panics or its output is refused. *)
Definition cycle (k : controller) (cb : k_cb k) (x : robot_state_intern) (dt : N) (m : motion_command)
  : option (k_cb k * motion_command * bool) :=
  match k_motion k cb x dt with
  | None => None
  | Some (cb, o) =>
      match k_convert k o x m, k_torque k, k_finished k o with
      | None, _, _ => None
      | Some m', _, true => Some (cb, keep_finished m m', false)
      | Some m', None, false => Some (cb, keep_finished m m', true)
      | Some m', Some torque, false =>
          match torque cb x dt with
          | None => None
          | Some (cb, (q, fin)) =>
              match k_filter k q x with
              | None => None
              | Some _ => Some (cb, keep_finished m m', negb fin)
              end
          end
      end
  end.
(** The callbacks take the states one after the other and finish at the last of them. *)
Fixpoint finishes (k : controller) (cb : k_cb k) (before : N) (m : motion_command) (xs : list robot_state_intern) : Prop :=
  match xs with
  | [] => False
  | x :: rest =>
      match cycle k cb x (rs_message_id x - before) m with
      | None => False
      | Some (_, _, false) => rest = []
      | Some (cb, m, true) => finishes k cb (rs_message_id x) m rest
      end
  end.
(** States and time steps which the motion callback is to be called with. *)
Fixpoint steps (before : N) (xs : list robot_state_intern) : list (robot_state_intern * N) :=
  match xs with [] => [] | x :: r => (x, rs_message_id x - before) :: steps (rs_message_id x) r end.

(** What happens during one control call: the states before the modes are taken over, the state
    which shows them, the states for the callbacks, those while it comes to rest, the last one. *)
Record motion := Motion {
  mo_before : list robot_state_intern;
  mo_shown : robot_state_intern;
  mo_first : robot_state_intern;
  mo_during : list robot_state_intern;
  mo_ending : list robot_state_intern;
  mo_last : robot_state_intern
}.
Definition run_states (o : motion) : list robot_state_intern := mo_first o :: mo_during o.
Definition all_states (o : motion) : list robot_state_intern :=
  mo_before o ++ mo_shown o :: run_states o ++ mo_ending o ++ [mo_last o].

(** The robot's part of a control call with request number [id]; [last] is the number of the last
    message before. *)
Record cooperates (k : controller) (cb : k_cb k) (id last : N) (o : motion) (us : sched)
  (ts : list (option (N * list byte))) : Prop := {
  co_udp : feeds last (all_states o) us;
  co_tcp : exists t1 t2, answer id MsMotionStarted t1 /\ answer id MsSuccess t2 /\
             ts = t1 ++ repeat None (S (List.length (mo_before o))) ++ t2;
  co_before : Forall (fun x => ~ as_requested k x) (mo_before o);
  co_shown : as_requested k (mo_shown o);
  co_run : Forall (fun x => rs_robot_mode x = RmMove /\ as_requested k x) (run_states o);
  co_ending : Forall in_motion (mo_ending o);
  co_last : stopped (mo_last o);
  co_callbacks : finishes k cb (rs_message_id (mo_first o)) zero_motion (run_states o)
}.

(** The log was created with a positive size and only used by logging and flushing. *)
Inductive log_fine : logger robot_state_intern robot_command -> Prop :=
| log_new : forall size, (0 < size)%nat -> log_fine (logger_new size)
| log_more : forall l x c l', log_fine l -> logger_log l x c = Some l' -> log_fine l'
| log_flushed : forall l, log_fine l -> log_fine (snd (logger_flush l)).

(** A connected handle with nothing going on; the future has these arrivals and messages. *)
Record ready (us : sched) (ts : list (option (N * list byte))) (s : st) : Prop := {
  re_queue : u_queue (n_udp s) = [];
  re_udp : n_usched s = us;
  re_sends : ~ In false (n_sends s);
  re_table : n_table s = [];
  re_tcp : n_tsched s = ts;
  re_motion : r_motion_mode s = Some MgIdle;
  re_ctrl : r_ctrl_mode s <> CmExternalController;
  re_log : log_fine (r_logger s);
  re_rt : r_rt s = RtIgnore \/ (k_realtime s = true /\ k_priority s = true)
}.

(** The states received, newest first. *)
Definition states_seen (t : list event) : list robot_state_intern :=
  flat_map (fun e => match e with EvState x => [x] | _ => [] end) t.

(** The callback of [read] goes on for all states but the last. *)
Fixpoint reads {K} (cb : K -> robot_state_intern -> option (K * bool)) (k : K) (xs : list robot_state_intern) : Prop :=
  match xs with
  | [] => False
  | x :: rest =>
      match cb k x with
      | None => False
      | Some (_, false) => rest = []
      | Some (k, true) => reads cb k rest
      end
  end.

Definition succ_id (id : N) : N := (id + 1) mod 2 ^ 32.
(** [serves id last a us ts id' last']: the robot's part of the call [a] when the next request has
    number [id] and the last state number [last]; afterwards these are [id'] and [last']. *)
Inductive serves (id last : N) : api -> sched -> list (option (N * list byte)) -> N -> N -> Prop :=
| serves_control : forall k cb o us ts, cooperates k cb id last o us ts ->
    serves id last (AControl k cb) us ts (succ_id id) (rs_message_id (mo_last o))
| serves_setter : forall r ts, answered c_setter_response id GsSuccess ts ->
    serves id last (ASetter r) [] ts (succ_id id) last
| serves_recovery : forall ts, answered c_recovery_response id AsSuccess ts ->
    serves id last ARecovery [] ts (succ_id id) last
| serves_stop : forall ts, answered c_stop_response id SsSuccess ts ->
    serves id last AStop [] ts (succ_id id) last
| serves_wall : forall w content ts, answered c_wall_response id (GsSuccess, content) ts ->
    serves id last (AWall w) [] ts (succ_id id) last
| serves_defaults : forall t1 t2 t3, answered c_setter_response id GsSuccess t1 ->
    answered c_setter_response (succ_id id) GsSuccess t2 -> answered c_setter_response (succ_id (succ_id id)) GsSuccess t3 ->
    serves id last ADefaults [] (t1 ++ t2 ++ t3) (succ_id (succ_id (succ_id id))) last
| serves_read_once : forall old x ch1 ch2, polled state_size state_decode old ch1 -> brings last x ch2 -> stopped x ->
    serves id last AReadOnce (ch1 ++ ch2) [] id (rs_message_id x)
| serves_read : forall K (cb : K -> robot_state_intern -> option (K * bool)) k xs x us,
    feeds last (xs ++ [x]) us -> stopped x -> reads cb k (xs ++ [x]) ->
    serves id last (ARead K cb k) us [] id (rs_message_id x).
Inductive session : N -> N -> list api -> sched -> list (option (N * list byte)) -> Prop :=
| session_end : forall id last, session id last [] [] []
| session_call : forall id last a us ts id' last' l us' ts', serves id last a us ts id' last' ->
    session id' last' l us' ts' -> session id last (a :: l) (us ++ us') (ts ++ ts').

(** The results of a sequence of calls. *)
Fixpoint results (l : list api) (s : st) : list (outcome unit) :=
  match l with [] => [] | a :: r => fst (run_api a s) :: results r (snd (run_api a s)) end.
