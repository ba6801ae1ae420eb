(** Headline theorems: UDP channel (C09, C10, C13, C50). *)
From Coq Require Import List NArith Lia Bool Arith.
From Coq Require Import Init.Byte.
From Verif Require Import Bytes Codec WireModel WireSpec UdpModel UdpSpec UdpProofs Properties_Wire.
Import ListNotations.

(** C09, in general: the object handed out is decoded from bytes each of which comes from the
    last datagram long enough to have that byte. *)
Theorem C09_received_content : forall T size (decode : list byte -> option T) u sc x u' sc',
  noticed u -> udp_blocking_receive size decode u sc = (UOk x, u', sc') ->
  exists used, sc = used ++ sc' /\ u_queue u' = [] /\
    decode (mixture size (u_queue u ++ arrived used)) = Some x.
Proof.
  intros T size decode u sc x u' sc' Hn E.
  destruct (block_spec _ _ _ _ _ _ _ Hn E) as (used & Es & Q & d & ds & _ & _ & _ & D). eauto.
Qed.
Print Assumptions C09_received_content.

(** C09 for datagrams of the full size (or longer): the object is the decoding of one datagram,
    namely the last one.  Missing: shorter datagrams, see the refutation. *)
Theorem C09_single_datagram_partial : forall T size (decode : list byte -> option T) u sc x u' sc',
  noticed u -> udp_blocking_receive size decode u sc = (UOk x, u', sc') ->
  full size (u_queue u ++ arrived sc) ->
  exists used first rest last pre, sc = used ++ sc' /\
    u_queue u ++ arrived used = first :: rest /\ first :: rest = pre ++ [last] /\
    decode (firstn size (d_data last)) = Some x /\ u_server u' = d_from first.
Proof. exact @block_single. Qed.
Print Assumptions C09_single_datagram_partial.

(** Robot state 10 and a stray datagram of one byte. *)
Definition ex_d1 : dgram := Dgram 1 (serialize c_robot_state_intern ex_state).
Definition ex_d2 : dgram := Dgram 2 [x63].
Definition ex_u : udp := Udp [ex_d1; ex_d2] true 0.

Definition state_id_of (r : ures robot_state_intern) : option N :=
  match r with UOk s => Some (rs_message_id s) | _ => None end.

Theorem C09_single_datagram_refuted : exists u x u' sc',
  noticed u /\
  udp_blocking_receive 2373 (deserialize c_robot_state_intern) u [] = (UOk x, u', sc') /\
  forall d, In d (u_queue u) -> deserialize c_robot_state_intern (firstn 2373 (d_data d)) <> Some x.
Proof.
  exists ex_u.
  assert (R : state_id_of (fst (fst (udp_blocking_receive 2373 (deserialize c_robot_state_intern) ex_u [])))
              = Some 99%N) by (vm_compute; reflexivity).
  destruct (udp_blocking_receive 2373 (deserialize c_robot_state_intern) ex_u []) as [[r u'] sc'].
  cbn [fst] in R. destruct r as [x| | | |]; try discriminate. exists x, u', sc'.
  split; [intros _; reflexivity|]. split; [reflexivity|].
  injection R as R. intros d [<-|[<-|[]]] H.
  - assert (C : state_id_of (match deserialize c_robot_state_intern (firstn 2373 (d_data ex_d1)) with
                             Some s => UOk s | None => UPanic end) = Some (rs_message_id ex_state))
      by (vm_compute; reflexivity).
    rewrite H in C. cbn [state_id_of] in C. rewrite R in C. vm_compute in C. discriminate.
  - assert (C : match deserialize c_robot_state_intern (firstn 2373 (d_data ex_d2)) with
                Some _ => false | None => true end = true) by (vm_compute; reflexivity).
    rewrite H in C. discriminate.
Qed.
Print Assumptions C09_single_datagram_refuted.

Example C09_ex : noticed (Udp [ex_d1; ex_d1] true 0) /\ full 2373 [ex_d1; ex_d1] /\
  state_id_of (fst (fst (udp_blocking_receive 2373 (deserialize c_robot_state_intern)
    (Udp [ex_d1; ex_d1] true 0) []))) = Some (rs_message_id ex_state).
Proof.
  split; [intros _; reflexivity|]. split; [|vm_compute; reflexivity].
  repeat constructor; apply Nat.leb_le; vm_compute; reflexivity.
Qed.

(** C09, outcome: unless the poll is woken for nothing, what was queued or arrived determines the
    result; a first datagram longer than the object is accepted, a shorter one is an error. *)
Theorem C09_outcome : forall T size (decode : list byte -> option T) u sc r u' sc',
  noticed u -> udp_blocking_receive size decode u sc = (r, u', sc') ->
  exists used, sc = used ++ sc' /\ u_queue u' = [] /\
    ((r = URecvError /\ u_queue u = [] /\ exists t rest, used = t :: rest /\ t_spurious t = true /\ t_arrivals t = []) \/
     match u_queue u ++ arrived used with
     | [] => r = UTimeout
     | d :: ds =>
         ((length (d_data d) < size)%nat -> r = USizeError (length (d_data d))) /\
         ((size <= length (d_data d))%nat ->
            match decode (mixture size (d :: ds)) with Some x => r = UOk x | None => r = UPanic end)
     end).
Proof.
  intros T size decode u sc r u' sc' Hn E.
  destruct (block_spec _ _ _ _ _ _ _ Hn E) as (used & Es & Q & R). exists used. split; [exact Es|]. split; [exact Q|].
  destruct r as [x| | |n|].
  - right. destruct R as (d & ds & -> & L & _ & ->). split; [lia|reflexivity].
  - right. destruct R as (-> & _). reflexivity.
  - left. destruct R as (Qu & _ & W). auto.
  - right. destruct R as (d & ds & -> & -> & L & _). split; [reflexivity|lia].
  - right. destruct R as (d & ds & -> & L & _ & ->). split; [lia|reflexivity].
Qed.
Print Assumptions C09_outcome.

Example C09_ex_long : (* one byte too many: accepted *)
  udp_blocking_receive 1 Some (Udp [Dgram 5 [x63; x64]] true 0) [] = (UOk [x63], Udp [] false 5, []).
Proof. vm_compute. reflexivity. Qed.

(** C10 at the socket: if all datagrams come from one address, that is where commands go. *)
Theorem C10_reply_address_partial : forall T size (decode : list byte -> option T) u sc r u' sc' a,
  noticed u -> udp_blocking_receive size decode u sc = (r, u', sc') ->
  all_from a (u_queue u ++ arrived sc) -> r <> UTimeout -> r <> URecvError -> u_server u' = a.
Proof. exact @block_reply_address. Qed.
Print Assumptions C10_reply_address_partial.

(** With two senders the object is that of the last, the address that of the first. *)
Theorem C10_reply_address_refuted : exists u x u' sc' d1 d2,
  noticed u /\ u_queue u = [d1; d2] /\
  udp_blocking_receive 23 (deserialize c_gripper_state) u [] = (UOk x, u', sc') /\
  deserialize c_gripper_state (d_data d2) = Some x /\ deserialize c_gripper_state (d_data d1) <> Some x /\
  u_server u' = d_from d1 /\ d_from d1 <> d_from d2.
Proof.
  exists (Udp [Dgram 1 (serialize c_gripper_state (GripperStateIntern 3 4 5 true 60));
               Dgram 2 (serialize c_gripper_state (GripperStateIntern 9 4 5 true 60))] true 0).
  do 3 eexists. exists (Dgram 1 (serialize c_gripper_state (GripperStateIntern 3 4 5 true 60))).
  exists (Dgram 2 (serialize c_gripper_state (GripperStateIntern 9 4 5 true 60))).
  split; [intros _; reflexivity|]. split; [reflexivity|].
  split; [vm_compute; reflexivity|]. split; [vm_compute; reflexivity|].
  split; [vm_compute; discriminate|]. split; [reflexivity|discriminate].
Qed.
Print Assumptions C10_reply_address_refuted.

Example C10_ex : all_from 1 (u_queue (Udp [ex_d1; ex_d1] true 0)).
Proof. repeat constructor. Qed.

(** C13: after any history of receives on the socket and for any schedule, the timeout error is
    reported exactly if nothing was queued and nothing arrived during the wait. *)
Theorem C13_timeout_iff_silence : forall T size (decode : list byte -> option T) history sc0 u sc,
  ucalls size decode history udp_init sc0 = (u, sc) ->
  (fst (fst (udp_blocking_receive size decode u sc)) = UTimeout <->
   u_queue u = [] /\ t_arrivals (fst (next_tick sc)) = [] /\ t_spurious (fst (next_tick sc)) = false).
Proof.
  intros T size decode history sc0 u sc E. apply block_timeout_iff.
  assert (N0 : noticed udp_init) by (intros C; contradiction C; reflexivity).
  assert (H := proj1 (ucalls_noticed size decode history udp_init sc0 N0)).
  rewrite E in H. exact H.
Qed.
Print Assumptions C13_timeout_iff_silence.

(** ... and every datagram which ever arrived was either taken out by a receive or is still queued,
    and if something is queued the next poll notices it. *)
Theorem C13_no_lost_wakeup : forall T size (decode : list byte -> option T) history sc0 u sc,
  ucalls size decode history udp_init sc0 = (u, sc) ->
  noticed u /\ exists used gone, sc0 = used ++ sc /\ arrived used = gone ++ u_queue u.
Proof.
  intros T size decode history sc0 u sc E.
  assert (N0 : noticed udp_init) by (intros C; contradiction C; reflexivity).
  assert (H := ucalls_noticed size decode history udp_init sc0 N0).
  rewrite E in H. exact H.
Qed.
Print Assumptions C13_no_lost_wakeup.

Example C13_ex : (* arrival during the wait is seen; silence afterwards times out *)
  let sc := [Tick [ex_d2] false; Tick [] false; Tick [] false; Tick [] false] in
  fst (fst (udp_blocking_receive 1 Some udp_init sc)) = UOk [x63] /\
  (let '(u, sc) := ucalls 1 Some [CBlocking] udp_init sc in
   fst (fst (udp_blocking_receive 1 Some u sc))) = UTimeout.
Proof. vm_compute. auto. Qed.

(** C50, general form: the bytes decoded come from datagrams which arrived after the call
    started ([fresh] is a suffix of what arrived during it). *)
Theorem C50_gripper_read_fresh : forall u sc, noticed u -> exists r u' sc' used,
  read_fresh 23 (deserialize c_gripper_state) u sc = Some (r, u', sc') /\ sc = used ++ sc' /\ noticed u' /\
  match r with
  | UOk x => exists pre fresh, arrived used = pre ++ fresh /\ fresh <> [] /\
               deserialize c_gripper_state (mixture 23 fresh) = Some x
  | UPanic => exists pre all post, u_queue u ++ arrived used = pre ++ all ++ post /\ all <> [] /\
               deserialize c_gripper_state (mixture 23 all) = None
  | UTimeout => exists before wait, used = before ++ wait /\ (length wait <= 1)%nat /\ arrived wait = []
  | URecvError => exists t, In t used /\ t_spurious t = true
  | USizeError n => (n < 23)%nat /\ exists d, In d (u_queue u ++ arrived used) /\ length (d_data d) = n
  end.
Proof. exact (read_fresh_spec 23 (deserialize c_gripper_state)). Qed.
Print Assumptions C50_gripper_read_fresh.

(** With datagrams of the right size: one datagram which arrived during the call. *)
Theorem C50_gripper_read_one_state : forall u sc x u' sc', noticed u ->
  read_fresh 23 (deserialize c_gripper_state) u sc = Some (UOk x, u', sc') ->
  full 23 (arrived sc) ->
  exists used d, sc = used ++ sc' /\ In d (arrived used) /\
    deserialize c_gripper_state (firstn 23 (d_data d)) = Some x.
Proof. exact (read_fresh_single 23 (deserialize c_gripper_state)). Qed.
Print Assumptions C50_gripper_read_one_state.

Theorem C50_gripper_read_no_panic : forall u sc, noticed u ->
  full 23 (u_queue u ++ arrived sc) ->
  (forall d, In d (u_queue u ++ arrived sc) -> deserialize c_gripper_state (firstn 23 (d_data d)) <> None) ->
  forall u' sc', read_fresh 23 (deserialize c_gripper_state) u sc <> Some (UPanic, u', sc').
Proof. exact (read_fresh_no_panic 23 (deserialize c_gripper_state)). Qed.
Print Assumptions C50_gripper_read_no_panic.

Definition ex_g (id : N) : dgram := Dgram 1 (serialize c_gripper_state (GripperStateIntern id 4 5 true 60)).
Example C50_ex : (* 7 was queued before the call, 8 arrives during it *)
  let u := Udp [ex_g 7] true 0 in
  let sc := [Tick [] false; Tick [] false; Tick [] false; Tick [] false; Tick [] false; Tick [ex_g 8] false] in
  noticed u /\ full 23 (u_queue u ++ arrived sc) /\
  match read_fresh 23 (deserialize c_gripper_state) u sc with
  | Some (UOk x, _, _) => gs_message_id x = 8%N
  | _ => False
  end.
Proof.
  split; [intros _; reflexivity|]. split; [|vm_compute; reflexivity].
  repeat constructor; apply Nat.leb_le; vm_compute; reflexivity.
Qed.
