(** The unit tests of the repository, transcribed and computed on the model. These are tests of the
    model against numbers and bytes which the authors of the program wrote down: single cases, no
    theorems. Decimal constants are given as the bit pattern of the nearest binary64 number. *)
From Coq Require Import List ZArith NArith Bool String Init.Byte.
From Flocq Require Import IEEE754.BinarySingleNaN IEEE754.Binary IEEE754.Bits.
From Verif Require Import Bytes Codec WireModel TcpModel UdpModel NumOps NumFloat RateModel MotionModel StateModel
  RobotModel LoopModel RobotScenario GripperModel.
Import ListNotations.
Open Scope list_scope.
Open Scope N_scope.

(** |x - y| < tolerance, as the tests compute it *)
Definition near (tolerance : N) (x y : binary64) : bool :=
  b64_lt (b64_abs (b64_minus mode_NE x y)) (of_bits tolerance).
Definition all_near (tolerance : N) (l r : list binary64) : bool :=
  Nat.eqb (List.length l) (List.length r) && forallb (fun p => near tolerance (fst p) (snd p)) (combine l r).

(** low_pass_filter.rs 82-90 *)
Definition filtered (y y_last cutoff : N) (expected tolerance : N) : bool :=
  match low_pass_filter float (of_bits 0x3F50624DD2F1A9FC) (of_bits y) (of_bits y_last) (of_bits cutoff) with
  | Some r => near tolerance r (of_bits expected)
  | None => false
  end.
Example test_low_pass :
  filtered 0x3FF0000000000000 0x3FF0000000000000 0x4059000000000000 0x3FF0000000000000 0x3EB0C6F7A0B5ED8D &&
  filtered 0x3FF0000000000000 0x3FF0000000000000 0x407F400000000000 0x3FF0000000000000 0x3EB0C6F7A0B5ED8D &&
  filtered 0x3FF0000000000000 0x3FF0000000000000 0x408F400000000000 0x3FF0000000000000 0x3EB0C6F7A0B5ED8D &&
  filtered 0x3FF0000000000000 0x0000000000000000 0x4059000000000000 0x3FD8B295E9E1B08A 0x3F1A36E2EB1C432D &&
  filtered 0x3FF0000000000000 0x0000000000000000 0x407F400000000000 0x3FE845A1CAC08312 0x3F1A36E2EB1C432D &&
  filtered 0x3FF0000000000000 0x0000000000000000 0x408C200000000000 0x3FEB30BE0DED288D 0x3F1A36E2EB1C432D = true.
Proof. vm_compute. reflexivity. Qed.

(** utils.rs 209-312: the motion from 0 to 1 in all joints; q_d is the last output *)
Definition expected_positions : list N :=
  [0x0000000000000000; 0x3F76A6E35A2097F7; 0x3FA460588B0D405B; 0x3FBE8B8B2D35B8C3; 0x3FCFA685D9CD2246; 0x3FDA76D79A408C5A; 0x3FE3071A7EAF2D0E; 0x3FE84DF6D44212E0; 0x3FEC550F588FCD7F; 0x3FEECE33C100426D; 0x3FEFD86DC9CEF799; 0x3FF0000000000000].
Fixpoint drive (n : nat) (g : generator float) (q_d : list binary64) (period : N) : list (list binary64 * bool) :=
  match n with
  | O => []
  | S n => let p := generate_motion float g q_d (of_bits period) in
           snd p :: (if snd (snd p) then [] else drive n (fst p) (fst (snd p)) 0x3FB999999999999A)
  end.
Definition driven := drive 50 (generator_new float (of_bits 0x3FF0000000000000) (repeat (of_bits 0x3FF0000000000000) 7)) (repeat (of_bits 0) 7) 0.
Example test_motion_generator :
  List.length driven = 12%nat /\
  forallb (fun p => all_near 0x3DDB7CDFD9D7BDBB (fst (fst p)) (repeat (of_bits (snd p)) 7))
    (combine driven expected_positions) = true /\
  map snd driven = repeat false 11 ++ [true].
Proof. vm_compute. auto. Qed.

(** robot_state.rs 446-539 *)
Definition fs (l : list N) : list binary64 := map of_bits l.
Definition total (m_ee m_load : N) : list binary64 :=
  let c_ee := fs [0xBF847AE147AE147B; 0x0000000000000000; 0xBF9EB851EB851EB8] in
  let c_load := fs [0x3F847AE147AE147B; 0xBFC999999999999A; 0x3F9EB851EB851EB8] in
  let i_ee := fs [0x3F50624DD2F1A9FC; 0x0000000000000000; 0x0000000000000000; 0x0000000000000000; 0x3F647AE147AE147B; 0x0000000000000000; 0x0000000000000000; 0x0000000000000000; 0x3F5BDA5119CE075F] in
  let i_load := fs [0x3F50624DD2F1A9FC; 0x0000000000000000; 0x0000000000000000; 0x0000000000000000; 0x3F9999999999999A; 0x0000000000000000; 0x0000000000000000; 0x0000000000000000; 0x3FD3333333333333] in
  combine_inertia_tensor float (of_bits m_ee) c_ee i_ee (of_bits m_load) c_load i_load
    (b64_plus mode_NE (of_bits m_ee) (of_bits m_load)) (combine_center_of_mass float (of_bits m_ee) c_ee (of_bits m_load) c_load).
(** The test compares the first three entries only. The fifth entry of its table, 2.36869918699187e-02, is
    wrong for its data (it belongs to a load inertia of 0.02 in place of 0.025); the other eight are right. *)
Definition without_fifth {A} (l : list A) : list A := firstn 4 l ++ skipn 5 l.
Example test_combine_com :
  all_near 0x3CB0000000000000 (combine_center_of_mass float (of_bits 0) (fs [0; 0; 0]) (of_bits 0) (fs [0; 0; 0])) (fs [0; 0; 0]) = true /\
  all_near 0x3D06849B86A12B9B (without_fifth (total 0x3FE75C28F5C28F5C 0x3FE0000000000000))
    (without_fifth (fs [0x3F8E97ECCAC67AB5; 0x3F53729AD0C346AA; 0xBF37565360EA54CB; 0x3F53729AD0C346AA; 0x3F9841671DB00B75; 0x3F6D2BE83924E9FE; 0xBF37565360EA54CB; 0x3F6D2BE83924E9FE; 0x3FD413796CBCB587])) = true /\
  near 0x3D06849B86A12B9B (nth 4 (total 0x3FE75C28F5C28F5C 0x3FE0000000000000) (of_bits 0)) (of_bits 0x3F9D601F6F9B9094) = true.
Proof. vm_compute. auto. Qed.
(** The test compares the first three entries with tolerance 1e-17; here all nine. The rounding
    error of the later entries exceeds 1e-17: 1e-16 is used for them. *)
Example test_inertia_zero :
  all_near 0x3C670EF54646D497 (total 0 0) (fs (repeat 0 9%nat)) = true /\
  all_near 0x3C670EF54646D497 (firstn 3 (total 0 0x3FE0000000000000)) (fs [0x3F50624DD2F1A9FC; 0x0000000000000000; 0x0000000000000000]) = true /\
  all_near 0x3C9CD2B297D889BC (total 0 0x3FE0000000000000) (fs [0x3F50624DD2F1A9FC; 0x0000000000000000; 0x0000000000000000; 0x0000000000000000; 0x3F9999999999999A; 0x0000000000000000; 0x0000000000000000; 0x0000000000000000; 0x3FD3333333333333]) = true /\
  all_near 0x3C670EF54646D497 (firstn 3 (total 0x3FE75C28F5C28F5C 0)) (fs [0x3F50624DD2F1A9FC; 0x0000000000000000; 0x0000000000000000]) = true /\
  all_near 0x3C9CD2B297D889BC (total 0x3FE75C28F5C28F5C 0) (fs [0x3F50624DD2F1A9FC; 0x0000000000000000; 0x0000000000000000; 0x0000000000000000; 0x3F647AE147AE147B; 0x0000000000000000; 0x0000000000000000; 0x0000000000000000; 0x3F5BDA5119CE075F]) = true.
Proof. vm_compute. auto. Qed.

(** network.rs 400-411: the state of the mock servers (types.rs 100-157) survives encoding *)
Definition dummy (id : N) : robot_state_intern :=
  let x := ex_rs id MgIdle CmJointImpedance RmOther in
  let z n := repeat 0 n in
  RobotStateIntern id (z 16%nat) (z 16%nat) (z 16%nat) (z 16%nat) (z 16%nat) (z 16%nat) 0 (z 9%nat) (z 3%nat) 0
    (z 9%nat) (z 3%nat) (z 2%nat) (z 2%nat) (z 7%nat) (z 7%nat) (z 7%nat) (z 7%nat) (z 7%nat) (z 7%nat) (z 7%nat)
    (z 7%nat) (z 7%nat) (z 6%nat) (z 7%nat) (z 6%nat) (z 7%nat) (z 6%nat) (z 6%nat) (z 6%nat) (z 3%nat) (z 2%nat)
    (z 2%nat) (z 2%nat) (z 16%nat) (z 6%nat) (z 6%nat) (z 7%nat) (z 7%nat) MgIdle CmJointImpedance
    (repeat false 32) (repeat false 9) (repeat false 32) (repeat false 9) RmOther 0.
Example test_serialize : deserialize c_robot_state_intern (serialize c_robot_state_intern (dummy 0)) = Some (dummy 0).
Proof. vm_compute. reflexivity. Qed.

(** * Mock servers, robot.rs 1080-1519

    The bytes are those which bincode 1.3 produces for the struct the test expects (little endian,
    four bytes per enum). *)
Definition numbers (l : list byte) : list N := map Byte.to_N l.
Definition written (t : list event) : list (list N) :=
  rev (flat_map (fun e => match e with EvRequest id r => [numbers (encode_request id r)] | _ => [] end) t).
(** The mock server sends a state every millisecond; it answers the connect request. *)
Definition mock (rt : rt_config) (replies : list (option (N * list byte))) : st :=
  st_init 50 rt (ex_first (dummy 1) ++ ex_states (map (fun n => dummy (N.of_nat n)) (seq 2 30)))
    (ex_connected 0 :: replies) [] true true.
Definition connected rt replies : st := snd (robot_new 1337 (mock rt replies)).

(** 1263-1340 *)
Definition t7 : list N := [0x4034000000000000; 0x4034000000000000; 0x4032000000000000; 0x4032000000000000; 0x4030000000000000; 0x402C000000000000; 0x4028000000000000].
Definition f6 : list N := [0x4034000000000000; 0x4034000000000000; 0x4034000000000000; 0x4039000000000000; 0x4039000000000000; 0x4039000000000000].
Example test_set_collision_behavior :
  let r := setter (ReqSetCollisionBehavior t7 t7 t7 t7 f6 f6 f6 f6)
             (connected RtEnforce [ex_set RcSetCollisionBehavior 1 GsSuccess]) in
  fst r = Ok tt /\ r_version (snd r) = Some 5 /\
  nth_error (written (trace (snd r))) 1 = Some
    [4; 0; 0; 0; 1; 0; 0; 0; 172; 1; 0; 0; 0; 0; 0; 0; 0; 0; 52; 64; 0; 0; 0; 0; 0; 0; 52; 64; 0; 0; 0; 0; 0; 0; 50; 64; 0; 0; 0; 0; 0; 0; 50; 64; 0; 0; 0; 0; 0; 0; 48; 64; 0; 0; 0; 0; 0; 0; 44; 64; 0; 0; 0; 0; 0; 0; 40; 64; 0; 0; 0; 0; 0; 0; 52; 64; 0; 0; 0; 0; 0; 0; 52; 64; 0; 0; 0; 0; 0; 0; 50; 64; 0; 0; 0; 0; 0; 0; 50; 64; 0; 0; 0; 0; 0; 0; 48; 64; 0; 0; 0; 0; 0; 0; 44; 64; 0; 0; 0; 0; 0; 0; 40; 64; 0; 0; 0; 0; 0; 0; 52; 64; 0; 0; 0; 0; 0; 0; 52; 64; 0; 0; 0; 0; 0; 0; 50; 64; 0; 0; 0; 0; 0; 0; 50; 64; 0; 0; 0; 0; 0; 0; 48; 64; 0; 0; 0; 0; 0; 0; 44; 64; 0; 0; 0; 0; 0; 0; 40; 64; 0; 0; 0; 0; 0; 0; 52; 64; 0; 0; 0; 0; 0; 0; 52; 64; 0; 0; 0; 0; 0; 0; 50; 64; 0; 0; 0; 0; 0; 0; 50; 64; 0; 0; 0; 0; 0; 0; 48; 64; 0; 0; 0; 0; 0; 0; 44; 64; 0; 0; 0; 0; 0; 0; 40; 64; 0; 0; 0; 0; 0; 0; 52; 64; 0; 0; 0; 0; 0; 0; 52; 64; 0; 0; 0; 0; 0; 0; 52; 64; 0; 0; 0; 0; 0; 0; 57; 64; 0; 0; 0; 0; 0; 0; 57; 64; 0; 0; 0; 0; 0; 0; 57; 64; 0; 0; 0; 0; 0; 0; 52; 64; 0; 0; 0; 0; 0; 0; 52; 64; 0; 0; 0; 0; 0; 0; 52; 64; 0; 0; 0; 0; 0; 0; 57; 64; 0; 0; 0; 0; 0; 0; 57; 64; 0; 0; 0; 0; 0; 0; 57; 64; 0; 0; 0; 0; 0; 0; 52; 64; 0; 0; 0; 0; 0; 0; 52; 64; 0; 0; 0; 0; 0; 0; 52; 64; 0; 0; 0; 0; 0; 0; 57; 64; 0; 0; 0; 0; 0; 0; 57; 64; 0; 0; 0; 0; 0; 0; 57; 64; 0; 0; 0; 0; 0; 0; 52; 64; 0; 0; 0; 0; 0; 0; 52; 64; 0; 0; 0; 0; 0; 0; 52; 64; 0; 0; 0; 0; 0; 0; 57; 64; 0; 0; 0; 0; 0; 0; 57; 64; 0; 0; 0; 0; 0; 0; 57; 64].
Proof. vm_compute. auto. Qed.

(** 1342-1424: the controller mode of the call is JointImpedance, the callback finishes at its third call *)
Definition waiting : controller :=
  Controller N (N * bool) MmJointPosition
    (fun k _ _ => Some (k + 1, (k, 2 <? k + 1)))
    (fun o _ _ => Some (MotionCommand (repeat 0 7) (repeat 0 7) (repeat 0 16) (repeat 0 6) (repeat 0 2) false false))
    snd None (fun t _ => Some t) JointImpedance.
Example test_fail_start_motion :
  let r := control waiting 0 (connected RtIgnore [ex_move 1 MsAborted]) in
  (exists m, fst r = Err (CommandException m)) /\
  nth_error (written (trace (snd r))) 1 = Some
    [1; 0; 0; 0; 1; 0; 0; 0; 68; 0; 0; 0; 0; 0; 0; 0; 0; 0; 0; 0; 0; 0; 0; 0; 0; 0; 36; 64; 246; 40; 92; 143; 194; 245; 8; 64; 24; 45; 68; 84; 251; 33; 25; 64; 0; 0; 0; 0; 0; 0; 36; 64; 246; 40; 92; 143; 194; 245; 8; 64; 24; 45; 68; 84; 251; 33; 25; 64].
Proof. vm_compute. split; [eexists; reflexivity|reflexivity]. Qed.

(** 1426-1452: the server has version 6 and refuses *)
Example test_incompatible_library :
  fst (robot_new 1337 (st_init 50 RtEnforce []
    [Some (0, serialize c_connect_response ((RcConnect, (0, 16)), (CsIncompatibleLibraryVersion, 6)))] [] true true))
  = Err (IncompatibleLibraryVersionError 6 5).
Proof. vm_compute. reflexivity. Qed.

(** 1454-1472 *)
Definition quiet : st :=
  st_init 50 RtEnforce (ex_first (dummy 1) ++ Tick [] false :: ex_states [dummy 2]) [ex_connected 0] [] true true.
Example test_read_once : exists x, fst (read_once (snd (robot_new 1337 quiet))) = Ok x /\ rs_message_id x = 2.
Proof. eexists. split; vm_compute; reflexivity. Qed.

(** 1474-1518: the first state starts the count, every state is the successor of the last, and the
    callback ends the loop after ten *)
Definition count (k : option N * N) (x : robot_state_intern) : option ((option N * N) * bool) :=
  let start := match fst k with Some s => s | None => rs_message_id x end in
  let c := match fst k with Some _ => snd k | None => rs_message_id x end in
  if rs_message_id x =? c then Some ((Some start, c + 1), c + 1 <? start + 10) else None.
Example test_read : exists start, fst (robot_read count (None, 0) (connected RtEnforce [])) = Ok (Some start, start + 10).
Proof. exists 2. vm_compute. reflexivity. Qed.

(** * gripper.rs 380-627 *)
Definition g_written (t : list gevent) : list (list N) :=
  rev (flat_map (fun e => match e with GEvRequest id r => [numbers (encode_gripper_request id r)] | _ => [] end) t).
Definition g_connected (id : N) (s : gr_status) (version : N) : option (N * list byte) :=
  Some (id, serialize c_gr_connect_response ((GcConnect, (id, 14)), (s, version))).
Definition g_reply (c : gr_cmd) (id : N) : option (N * list byte) :=
  Some (id, serialize c_gr_response ((c, (id, 12)), GrSuccess)).
Definition g_mock (replies : list (option (N * list byte))) : gst :=
  snd (connect_gripper 1337 (gst_init [] (g_connected 0 GrSuccess 3 :: replies))).
(** 380-440 *)
Example test_gripper_move :
  let r := move_gripper 0x3FB999999999999A 0x3FE0000000000000 (g_mock [g_reply GcMove 1; g_reply GcMove 2]) in
  let r' := move_gripper 0x3FD3333333333333 0x3FB999999999999A (snd r) in
  fst r = Ok true /\ fst r' = Ok true /\ g_server_version (snd r') = Some 3 /\
  skipn 1 (g_written (g_trace (snd r'))) =
    [[3; 0; 1; 0; 0; 0; 26; 0; 0; 0; 154; 153; 153; 153; 153; 153; 185; 63; 0; 0; 0; 0; 0; 0; 224; 63];
     [3; 0; 2; 0; 0; 0; 26; 0; 0; 0; 51; 51; 51; 51; 51; 51; 211; 63; 154; 153; 153; 153; 153; 153; 185; 63]].
Proof. vm_compute. auto. Qed.
(** 441-473, 475-507 *)
Example test_gripper_stop_homing :
  fst (gripper_stop (g_mock [g_reply GcStop 1])) = Ok true /\
  fst (homing (g_mock [g_reply GcHoming 1])) = Ok true /\
  skipn 1 (g_written (g_trace (snd (gripper_stop (g_mock [g_reply GcStop 1]))))) = [[4; 0; 1; 0; 0; 0; 10; 0; 0; 0]] /\
  skipn 1 (g_written (g_trace (snd (homing (g_mock [g_reply GcHoming 1]))))) = [[1; 0; 1; 0; 0; 0; 10; 0; 0; 0]].
Proof. vm_compute. auto. Qed.
(** 509-579: width, speed, force and both tolerances *)
Example test_gripper_grasp :
  let r := grasp 0x3FA999999999999A 0x3FB999999999999A 0x4079000000000000 (Some 0x3F70624DD2F1A9FC) (Some 0x3F747AE147AE147B) (g_mock [g_reply GcGrasp 1]) in
  let r' := grasp 0x3FA999999999999A 0x3FB999999999999A 0x4079000000000000 (Some 0x3F70624DD2F1A9FC) None (g_mock [g_reply GcGrasp 1]) in
  fst r = Ok true /\ skipn 1 (g_written (g_trace (snd r))) =
    [[2; 0; 1; 0; 0; 0; 50; 0; 0; 0; 154; 153; 153; 153; 153; 153; 169; 63; 252; 169; 241; 210; 77; 98; 112; 63; 123; 20; 174; 71; 225; 122; 116; 63; 154; 153; 153; 153; 153; 153; 185; 63; 0; 0; 0; 0; 0; 0; 121; 64]] /\
  g_written (g_trace (snd r')) = g_written (g_trace (snd r)).
Proof. vm_compute. auto. Qed.
(** 581-608 *)
Example test_gripper_incompatible :
  fst (connect_gripper 1337 (gst_init [] [g_connected 0 GrFail 4])) = Err (IncompatibleLibraryVersionError 4 3).
Proof. vm_compute. reflexivity. Qed.
(** 610-632 *)
Example test_gripper_read_once :
  fst (g_read_once (snd (connect_gripper 1337 (gst_init
    [Tick [] false; Tick [Dgram 7 (serialize c_gripper_state (GripperStateIntern 4 0 0 true 30))] false]
    [g_connected 0 GrSuccess 3])))) = Ok (GripperState 0 0 true 30 4).
Proof. vm_compute. reflexivity. Qed.
