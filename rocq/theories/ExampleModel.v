(** Programs of /repo/examples. *)
From Coq Require Import List ZArith NArith Bool.
From Verif Require Import NumOps NumFloat RateModel WireModel RobotModel LoopModel TypedModel JointMotionModel.
Import ListNotations.
Open Scope N_scope.

(** [u64] arithmetic which panics when the result does not fit *)
Definition u64_add (a b : N) : option N := if a + b <? 2 ^ 64 then Some (a + b) else None.
Definition u64_sub (a b : N) : option N := if b <=? a then Some (a - b) else None.

(** examples/communication_test.rs 43-48: the variables the closure changes *)
Record comm := Comm { c_time : N; c_counter : N; c_sum : F float; c_min : F float; c_max : F float }.
Definition comm_start : comm := Comm 0 0 (f_int float 0) (f_int float 1) (f_int float 0).
(** examples/communication_test.rs 42 *)
Definition no_torques : list N := repeat (bits (f_int float 0)) 7.
(** examples/communication_test.rs 50-76; printing and sleeping are left out *)
Definition comm_callback (c : comm) (x : robot_state_intern) (dt : N) : option (comm * (list N * bool)) :=
  match u64_add (c_time c) dt with
  | None => None
  | Some time =>
      if time =? 0 then Some (Comm time (c_counter c) (c_sum c) (c_min c) (c_max c), (no_torques, false))
      else
        match u64_add (c_counter c) 1 with
        | None => None
        | Some counter =>
            let rate := of_bits (rs_control_command_success_rate x) in
            let sum := f_add float (c_sum c) rate in
            let max := if f_gt float rate (c_max c) then rate else c_max c in
            let min := if f_lt float rate (c_min c) then rate else c_min c in
            Some (Comm time counter sum min max, (no_torques, 10000 <=? time))
        end
  end.
(** examples/communication_test.rs 77: [control_torques(callback, false, 1000.)] *)
Definition communication : user_control := control_torques comm comm_callback (Some false) (Some (bits (f_int float 1000))).
(** examples/communication_test.rs 79-109: what is printed at the end *)
Inductive advice := GoodSetup | ManyLost | NotSufficient.
Record report := Report { rp_lost : N; rp_samples : N; rp_max : F float; rp_avg : F float; rp_min : F float; rp_advice : advice }.
Definition comm_report (c : comm) : option report :=
  let avg := f_div float (c_sum c) (of_u64 (c_counter c)) in
  match u64_sub (c_time c) (c_counter c) with
  | None => None
  | Some lost =>
      Some (Report lost (c_counter c) (c_max c) avg (c_min c)
        (if f_lt float avg (f_lit float 9 10) then NotSufficient
         else if f_lt float avg (f_lit float 95 100) then ManyLost else GoodSetup))
  end.

(** examples/echo_robot_state.rs 21-28: the counter of the closure; [i32] overflow is far away and left out *)
Definition echo_callback (count : N) (x : robot_state_intern) : option (N * bool) := Some (count + 1, count + 1 <=? 100).
Definition echo_robot_state : M N := robot_read echo_callback 0.
