(** Headline theorems: wire formats (C05, C06, C07, C08). *)
From Coq Require Import List NArith ZArith Lia.
From Coq Require Import Init.Byte Strings.Byte.
From Verif Require Import Bytes Codec WireModel WireSpec WireProofs WireProofs2 WireProofs3.
Import ListNotations.

(** C05: a 2373-byte datagram is decoded to [s] exactly when every field of [s] stands,
    bit for bit, at its own offset. *)
Theorem C05_state_decoding_exact : forall b s, length b = 2373%nat ->
  (deserialize c_robot_state_intern b = Some s <->
   state_ok s /\ has_layout b 2373 (state_layout s)).
Proof. exact state_decode_iff. Qed.
Print Assumptions C05_state_decoding_exact.

(** C05: exactly the datagrams with legal mode and boolean bytes are decoded at all. *)
Theorem C05_state_accepted_iff : forall b, length b = 2373%nat ->
  ((exists s, deserialize c_robot_state_intern b = Some s) <->
   (to_N (nth 2280 b x00) < 5)%N /\ (to_N (nth 2281 b x00) < 4)%N /\
   Forall (fun x => x = x00 \/ x = x01) (slice b 2282 82) /\ (to_N (nth 2364 b x00) < 7)%N).
Proof. exact state_accept_iff. Qed.
Print Assumptions C05_state_accepted_iff.

(** Example state: distinct values everywhere, including a NaN payload. *)
Definition ex_arr (start : N) (n : nat) : list N := map (fun i => (start + N.of_nat i)%N) (seq 0 n).
Definition ex_bools (n : nat) (k : nat) : list bool := map (fun i => Nat.eqb (Nat.modulo i k) 0) (seq 0 n).
Definition ex_state : robot_state_intern :=
  RobotStateIntern 7 (ex_arr 100 16) (ex_arr 200 16) (ex_arr 300 16) (ex_arr 400 16) (ex_arr 500 16)
    (ex_arr 600 16) 0x7FF8000000001234 (ex_arr 700 9) (ex_arr 710 3) 9 (ex_arr 720 9) (ex_arr 730 3)
    (ex_arr 800 2) (ex_arr 810 2) (ex_arr 900 7) (ex_arr 910 7) (ex_arr 920 7) (ex_arr 930 7)
    (ex_arr 940 7) (ex_arr 950 7) (ex_arr 960 7) (ex_arr 970 7) (ex_arr 980 7) (ex_arr 990 6)
    (ex_arr 1000 7) (ex_arr 1010 6) (ex_arr 1020 7) (ex_arr 1030 6) (ex_arr 1040 6) (ex_arr 1050 6)
    (ex_arr 1060 3) (ex_arr 1070 2) (ex_arr 1080 2) (ex_arr 1090 2) (ex_arr 1100 16) (ex_arr 1120 6)
    (ex_arr 1130 6) (ex_arr 1140 7) (ex_arr 1150 7) MgJointVelocity CmExternalController
    (ex_bools 32 3) (ex_bools 9 2) (ex_bools 32 5) (ex_bools 9 4) RmMove 11.

Example C05_ex : deserialize c_robot_state_intern (serialize c_robot_state_intern ex_state) = Some ex_state.
Proof. vm_compute. reflexivity. Qed.
Example C05_ex_len : length (serialize c_robot_state_intern ex_state) = 2373%nat.
Proof. vm_compute. reflexivity. Qed.
(** and an unacceptable one: a boolean byte with value 2. *)
Example C05_ex_bad :
  let b := serialize c_robot_state_intern ex_state in
  deserialize c_robot_state_intern (firstn 2300 b ++ x02 :: skipn 2301 b) = None.
Proof. vm_compute. reflexivity. Qed.

(** C06 *)
Theorem C06_request_layout : forall id r, request_ok r ->
  has_layout (encode_request id r) (request_total r) (request_layout id r).
Proof. exact request_layout_ok. Qed.
Print Assumptions C06_request_layout.

Theorem C06_request_injective : forall id r id' r',
  (id < 2 ^ 32)%N -> (id' < 2 ^ 32)%N -> request_ok r -> request_ok r' ->
  encode_request id r = encode_request id' r' -> id = id' /\ r = r'.
Proof. exact encode_request_inj. Qed.
Print Assumptions C06_request_injective.

Example C06_ex : request_ok (ReqSetLoad 5 (ex_arr 10 3) (ex_arr 20 9)).
Proof. repeat split; try reflexivity; repeat constructor. Qed.
Example C06_ex2 : request_ok (ReqGetCartesianLimit (-3)).
Proof. split; vm_compute; congruence. Qed.
Example C06_ex3 : encode_request 9 (ReqGetCartesianLimit (-3)) =
  [x03;x00;x00;x00; x09;x00;x00;x00; x10;x00;x00;x00; xfd;xff;xff;xff].
Proof. vm_compute. reflexivity. Qed.

(** C07 *)
Theorem C07_command_layout : forall c, command_ok c ->
  has_layout (serialize c_robot_command c) 370 (command_layout c).
Proof. exact command_encode_ok. Qed.
Print Assumptions C07_command_layout.

Theorem C07_command_injective : forall c c', command_ok c -> command_ok c' ->
  serialize c_robot_command c = serialize c_robot_command c' -> c = c'.
Proof. exact command_encode_inj. Qed.
Print Assumptions C07_command_injective.

Theorem C07_command_decoding_exact : forall b c, length b = 370%nat ->
  (deserialize c_robot_command b = Some c <->
   command_ok c /\ has_layout b 370 (command_layout c)).
Proof. exact command_decode_iff. Qed.
Print Assumptions C07_command_decoding_exact.

Definition ex_command : robot_command :=
  RobotCommand 77 (MotionCommand (ex_arr 1 7) (ex_arr 11 7) (ex_arr 21 16) (ex_arr 41 6) (ex_arr 51 2) true false)
    (ex_arr 61 7).
Example C07_ex : command_ok ex_command.
Proof. repeat split; try reflexivity; repeat constructor. Qed.

(** C08 *)
Theorem C08_gripper_request_layout : forall id r,
  has_layout (encode_gripper_request id r) (gripper_total r) (gripper_layout id r).
Proof. exact gripper_layout_ok. Qed.
Print Assumptions C08_gripper_request_layout.

Theorem C08_gripper_request_injective : forall id r id' r',
  (id < 2 ^ 32)%N -> (id' < 2 ^ 32)%N -> gripper_request_ok r -> gripper_request_ok r' ->
  encode_gripper_request id r = encode_gripper_request id' r' ->
  id = id' /\ gripper_effective r = gripper_effective r'.
Proof. exact encode_gripper_inj. Qed.
Print Assumptions C08_gripper_request_injective.

Theorem C08_gripper_state_decoding_exact : forall b s, length b = 23%nat ->
  (deserialize c_gripper_state b = Some s <->
   gripper_state_ok s /\ has_layout b 23 (gripper_state_layout s)).
Proof. exact gripper_state_decode_iff. Qed.
Print Assumptions C08_gripper_state_decoding_exact.

Example C08_ex : gripper_request_ok (GReqGrasp 1 2 3 None (Some 4%N)).
Proof. repeat split; reflexivity. Qed.
Example C08_ex2 : gripper_state_ok (GripperStateIntern 3 4 5 true 60) /\
  deserialize c_gripper_state (serialize c_gripper_state (GripperStateIntern 3 4 5 true 60))
  = Some (GripperStateIntern 3 4 5 true 60).
Proof. split; [repeat split; reflexivity|vm_compute; reflexivity]. Qed.
