(** C68: calls to a gripper which answers return what it answered. *)
From Coq Require Import List NArith ZArith Bool Arith Lia String.
From Coq Require Import Init.Byte.
From Verif Require Import Bytes Codec WireModel UdpModel TcpModel RobotModel GripperModel GripperProofs LiveUdp LiveSpec LiveProofs Properties_Gripper.
Import ListNotations.
Open Scope list_scope.
Open Scope N_scope.

(** * Specification *)
(** What a call gives to its caller. *)
Inductive gresult := Moved (o : outcome bool) | Seen (o : outcome gripper_state).
Definition gresult_of (c : gcall) (s : gst) : gresult * gst :=
  match c with
  | GMove w v => let '(o, s) := move_gripper w v s in (Moved o, s)
  | GHoming => let '(o, s) := homing s in (Moved o, s)
  | GStop => let '(o, s) := gripper_stop s in (Moved o, s)
  | GGrasp w v f a b => let '(o, s) := grasp w v f a b s in (Moved o, s)
  | GRead => let '(o, s) := g_read_once s in (Seen o, s)
  end.
Fixpoint gresults (l : list gcall) (s : gst) : list gresult * gst :=
  match l with
  | [] => ([], s)
  | c :: r => let '(x, s) := gresult_of c s in let '(xs, s) := gresults r s in (x :: xs, s)
  end.

(** The meaning of a status. *)
Definition meaning (status : gr_status) : outcome bool :=
  match status with
  | GrSuccess => Ok true
  | GrUnsuccessful => Ok false
  | GrFail => Err (CommandException "libfranka-rs gripper: Command failed!")
  | GrAborted => Err (CommandException "libfranka-rs gripper: Command aborted!")
  end.

(** The gripper's part of a call whose request, if there is one, has number [id]; [id'] is the next
    number and [r] the result the caller is to see.  For [read_once] any number of states may have come
    before ([polled]); a new one comes while it waits ([burst]). *)
Inductive gserves (id : N) : gcall -> sched -> list (option (N * list byte)) -> N -> gresult -> Prop :=
| gserves_action : forall c status ts, c <> GRead -> answered c_gr_response id status ts ->
    gserves id c [] ts (succ_id id) (Moved (meaning status))
| gserves_read : forall old x us1 us2, polled 23 (deserialize c_gripper_state) old us1 ->
    burst 23 (deserialize c_gripper_state) x us2 ->
    gserves id GRead (us1 ++ us2) [] id
      (Seen (Ok (GripperState (gs_width x) (gs_max_width x) (gs_is_grasped x) (gs_temperature x) (gs_message_id x)))).
Inductive gsession : N -> list gcall -> sched -> list (option (N * list byte)) -> list gresult -> Prop :=
| gsession_end : forall id, gsession id [] [] [] []
| gsession_call : forall id c us ts id' r l us' ts' rs, gserves id c us ts id' r -> gsession id' l us' ts' rs ->
    gsession id (c :: l) (us ++ us') (ts ++ ts') (r :: rs).

(** Nothing is left over; the future holds these arrivals and messages. *)
Record gready (us : sched) (ts : list (option (N * list byte))) (v : N) (s : gst) : Prop := {
  gr_queue : u_queue (g_udp s) = [];
  gr_udp : g_usched s = us;
  gr_table : g_table s = [];
  gr_tcp : g_tsched s = ts;
  gr_server : g_server_version s = Some v
}.

(** * Proofs *)
Lemma action_live : forall r t ts us v s status, gready us (t ++ ts) v s -> answered c_gr_response (g_id s) status t ->
  exists s', g_action r s = (meaning status, s') /\ gready us ts v s' /\ g_id s' = succ_id (g_id s).
Proof.
  intros r t ts us v s status [Q U T C V] (n & b & h & -> & D).
  unfold g_action, g_exchange. rewrite C, T, wait_answer, D.
  destruct status; eexists; (split; [reflexivity|]); (split; [constructor; cbn; try assumption; reflexivity|reflexivity]).
Qed.

Lemma gserves_ok : forall c us ts id' r urest trest v s, gserves (g_id s) c us ts id' r -> gready (us ++ urest) (ts ++ trest) v s ->
  exists s', gresult_of c s = (r, s') /\ gready urest trest v s' /\ g_id s' = id'.
Proof.
  intros c us ts id' r urest trest v s S R. inversion S as [c' status ts' NR A|old x us1 us2 P B]; subst.
  - destruct c as [w sp| | |w sp f a b|]; [| | | |destruct (NR eq_refl)];
      unfold gresult_of, move_gripper, homing, gripper_stop, grasp;
      match goal with |- context [g_action ?q s] => destruct (action_live q ts trest _ v s status R A) as (s' & E & R' & I) end;
      rewrite E; exists s'; auto.
  - destruct R as [Q U T C V]. cbn [gresult_of]. unfold g_read_once. rewrite U.
    destruct (read_burst _ _ (g_udp s) old x us1 us2 urest Q P B) as (u' & E & Q'). rewrite E.
    eexists. split; [reflexivity|]. split; [constructor; cbn; auto|reflexivity].
Qed.

(** * C68 *)
(** Every sequence of calls returns what the gripper answered. *)
Theorem C68_session : forall l us ts rs urest trest v s, gsession (g_id s) l us ts rs -> gready (us ++ urest) (ts ++ trest) v s ->
  exists s', gresults l s = (rs, s') /\ gready urest trest v s'.
Proof.
  intros l us ts rs urest trest v s H. remember (g_id s) as id eqn:I. revert s I urest trest.
  induction H as [id|id c us ts id' r l us' ts' rs S H IH]; intros s I urest trest R.
  - exists s. split; [reflexivity|exact R].
  - subst id. rewrite <- !app_assoc in R. destruct (gserves_ok _ _ _ _ _ _ _ _ _ S R) as (s1 & E1 & R1 & I1).
    destruct (IH s1 (eq_sym I1) _ _ R1) as (s2 & E2 & R2). exists s2. split; [|exact R2].
    cbn [gresults]. rewrite E1, E2. reflexivity.
Qed.
Print Assumptions C68_session.

(** Connecting gives such a handle. *)
Theorem C68_connect : forall port v t us ts, answered c_gr_connect_response 0 (GrSuccess, v) t ->
  exists s', connect_gripper port (gst_init us (t ++ ts)) = (Ok tt, s') /\ gready us ts v s' /\ g_id s' = 1.
Proof.
  intros port v t us ts (n & b & h & -> & D). unfold connect_gripper, g_exchange, gst_init.
  cbn [g_id g_tsched g_table]. rewrite wait_answer, D. eexists. split; [reflexivity|].
  split; [constructor; reflexivity|reflexivity].
Qed.
Print Assumptions C68_connect.

Definition ex_gstate (id : N) : gripper_state_intern := GripperStateIntern id 4 5 true 60.
Definition ex_gdg (id : N) : dgram := Dgram 1 (serialize c_gripper_state (ex_gstate id)).
Definition ex_gcalls : list gcall := [GHoming; GRead; GGrasp 1 2 3 None (Some 4); GRead; GStop; GMove 1 2].
(** One state while the call waits; two states before and another while these are read, then two more. *)
Definition ex_gus1 : sched := [Tick [] false; Tick [ex_gdg 7] false; Tick [] false; Tick [] false].
Definition ex_gus2 : sched :=
  [Tick [ex_gdg 8; ex_gdg 9] false; Tick [] false; Tick [] false; Tick [ex_gdg 10] false; Tick [] false; Tick [] false; Tick [] false;
   Tick [ex_gdg 11; ex_gdg 12] false; Tick [] false; Tick [] false; Tick [] false].
Definition ex_gus : sched := ex_gus1 ++ ex_gus2.
Definition ex_gts : list (option (N * list byte)) :=
  [None; Some (1, greply 1 1 0); Some (2, greply 2 2 2); None; None; Some (3, greply 4 3 0); Some (4, greply 3 4 3)].
Definition ex_gseen (id : N) : gresult := Seen (Ok (GripperState 4 5 true 60 id)).
Definition ex_gresults : list gresult :=
  [Moved (Ok true); ex_gseen 7; Moved (Ok false); ex_gseen 12; Moved (Ok true);
   Moved (Err (CommandException "libfranka-rs gripper: Command aborted!"))].
Definition ex_gsent (id : N) : Prop :=
  List.length (d_data (ex_gdg id)) = 23%nat /\ deserialize c_gripper_state (d_data (ex_gdg id)) = Some (ex_gstate id).
Lemma ex_gends : forall before id, Forall ex_gsent before -> ex_gsent id ->
  ends_with 23 (deserialize c_gripper_state) (map ex_gdg (before ++ [id])) (ex_gstate id).
Proof.
  intros before id F [L D]. split.
  - rewrite map_app. apply Forall_app. split; [|constructor; [exact L|constructor]]. induction F as [|y l [Ly _] F IH]; constructor; assumption.
  - exists (map ex_gdg before), (ex_gdg id). rewrite map_app. split; [reflexivity|exact D].
Qed.
Lemma ex_gburst : forall before id, Forall ex_gsent before -> ex_gsent id -> burst 23 (deserialize c_gripper_state) (ex_gstate id)
  (Tick (map ex_gdg (before ++ [id])) false :: repeat (Tick [] false) (S (List.length (before ++ [id])))).
Proof.
  intros before id F H. exists (map ex_gdg (before ++ [id])), false. eexists. exists (map ex_gdg (before ++ [id])). split; [|split; [reflexivity|split; [|apply ex_gends; assumption]]].
  - destruct before; discriminate.
  - generalize (before ++ [id]). intros l. induction l as [|n l IH]; [constructor|].
    cbn [List.length map]. eapply emptied_next; [apply app_nil_r|exact IH].
Qed.
Example C68_ex_session : gsession 1 ex_gcalls ex_gus ex_gts ex_gresults.
Proof.
  assert (A : forall n id b status, (exists h, deserialize c_gr_response b = Some (h, status)) ->
    answered c_gr_response id status (repeat None n ++ [Some (id, b)])).
  { intros n id b status [h E]. exists n, b, h. auto. }
  apply (gsession_call 1 GHoming [] [None; Some (1, greply 1 1 0)] 2 _ _ ex_gus).
  { apply (gserves_action 1 GHoming GrSuccess); [discriminate|]. apply (A 1%nat). eexists. vm_compute. reflexivity. }
  apply (gsession_call 2 GRead ex_gus1 [] 2 _ _ ex_gus2).
  { apply (gserves_read 2 [] (ex_gstate 7) [Tick [] false]); [constructor|]. apply (ex_gburst [] 7); [constructor|split; vm_compute; reflexivity]. }
  apply (gsession_call 2 (GGrasp 1 2 3 None (Some 4)) [] [Some (2, greply 2 2 2)] 3).
  { apply (gserves_action 2 _ GrUnsuccessful); [discriminate|]. apply (A 0%nat). eexists. vm_compute. reflexivity. }
  apply (gsession_call 3 GRead ex_gus2 [] 3 _ _ []).
  { apply (gserves_read 3 [ex_gstate 10] (ex_gstate 12)
      [Tick [ex_gdg 8; ex_gdg 9] false; Tick [] false; Tick [] false; Tick [ex_gdg 10] false; Tick [] false; Tick [] false; Tick [] false]).
    - apply (polled_next _ _ [ex_gdg 8; ex_gdg 9] false [] false
        [Tick [] false; Tick [ex_gdg 10] false; Tick [] false; Tick [] false] (map ex_gdg [8; 9; 10]) (ex_gstate 10) [] [Tick [] false]);
        [discriminate|repeat (eapply emptied_next; [reflexivity|]); constructor|apply (ex_gends [8; 9] 10); repeat constructor; vm_compute; reflexivity|constructor].
    - apply (ex_gburst [11] 12); repeat constructor; vm_compute; reflexivity. }
  apply (gsession_call 3 GStop [] [None; None; Some (3, greply 4 3 0)] 4 _ _ []).
  { apply (gserves_action 3 _ GrSuccess); [discriminate|]. apply (A 2%nat). eexists. vm_compute. reflexivity. }
  apply (gsession_call 4 (GMove 1 2) [] [Some (4, greply 3 4 3)] 5 _ _ [] []); [|constructor].
  apply (gserves_action 4 _ GrAborted); [discriminate|]. apply (A 0%nat). eexists. vm_compute. reflexivity.
Qed.
Example C68_ex : exists s, connect_gripper 1339 (gst_init ex_gus (Some (0, gconnected 0 3) :: ex_gts)) = (Ok tt, s) /\
  fst (gresults ex_gcalls s) = ex_gresults.
Proof.
  destruct (C68_connect 1339 3 [Some (0, gconnected 0 3)] ex_gus ex_gts) as (s & E & R & I).
  { exists 0%nat. eexists. eexists. split; [reflexivity|]. vm_compute. reflexivity. }
  exists s. split; [exact E|]. rewrite <- (app_nil_r ex_gus), <- (app_nil_r ex_gts) in R.
  pose proof C68_ex_session as S. rewrite <- I in S. destruct (C68_session _ _ _ _ _ _ _ _ S R) as (s' & E' & _).
  rewrite E'. reflexivity.
Qed.
