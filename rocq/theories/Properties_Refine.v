(** The robot and gripper models speak of whole messages, one poll each; the network reads bytes.
    Every run of the byte level is a run of the message level. *)
From Coq Require Import List NArith Bool Arith Lia.
From Coq Require Import Init.Byte.
From Verif Require Import Bytes Codec WireModel TcpModel TcpSpec TcpProofs TcpLive UdpModel RobotModel.
Import ListNotations.
Open Scope list_scope.

(** * The message level: a call as a function of the polls' outcomes *)

(** The outcome of one poll: a message which is complete now, if any. *)
Notation outcome1 := (option (N * list byte)).
Inductive mres := MRet (r : TcpModel.ret) | MBlocked | MDead (p : panic).

Definition mcall (c : call) (ts : list outcome1) (tb : table_t) : mres * table_t * list outcome1 :=
  match c with
  | Wait id =>
      match wait_loop id ts tb with
      | (Some m, tb, ts) => (MRet (RWait id m), tb, ts)
      | (None, tb, ts) => (MBlocked, tb, ts)
      end
  | Check id n h =>
      let tb := store (hd None ts) tb in
      match tget id tb with
      | None => (MRet (TcpModel.RNone id), tb, tl ts)
      | Some m =>
          if N.eqb (blen m) n then
            match h m with
            | None => (MDead PDecode, tb, tl ts)
            | Some true => (MRet (ROk id m), tremove id tb, tl ts)
            | Some false => (MRet (RErr id m), tb, tl ts)
            end
          else (MDead PSize, tb, tl ts)
      end
  end.
(** Successive calls which all return. *)
Fixpoint mcalls (cs : list call) (ts : list outcome1) (tb : table_t) : option (list TcpModel.ret * table_t * list outcome1) :=
  match cs with
  | [] => Some ([], tb, ts)
  | c :: r =>
      match mcall c ts tb with
      | (MRet x, tb, ts) => match mcalls r ts tb with Some (rs, tb, ts) => Some (x :: rs, tb, ts) | None => None end
      | _ => None
      end
  end.

(** The calls of a schedule which take effect: one at a time. *)
Fixpoint begun (t : net_type) (st : net * pc) (ls : list label) : list call :=
  match ls with
  | [] => []
  | l :: r => match l, snd st with LStart c, Idle => [c] | _, _ => [] end ++ begun t (fst (step t st l)) r
  end.

(** The polls [ts] which a call has made so far have not ended it: the table is now [tb'], and it
    goes on from there. *)
Definition waited (c : call) (ts : list outcome1) (tb tb' : table_t) : Prop :=
  match c with
  | Check _ _ _ => ts = [] /\ tb' = tb
  | Wait id => forall x, x <> [] -> wait_loop id (ts ++ x) tb = wait_loop id x tb'
  end.

(** The state of the client, in terms of the message level: after the calls [cs] with returns [rs]
    and the polls [d]. *)
Definition client_at (p : pc) (tb : table_t) (rs : list TcpModel.ret) (cs : list call) (d : list outcome1) : Prop :=
  match p with
  | Idle => forall x, mcalls cs (d ++ x) [] = Some (rs, tb, x)
  | Polling c | Reading c _ =>
      exists cs0 d0 d1 tb0, cs = cs0 ++ [c] /\ d = d0 ++ d1 /\
        (forall x, mcalls cs0 (d0 ++ x) [] = Some (rs, tb0, x)) /\ waited c d1 tb0 tb
  | Looking c =>
      exists cs0 d0 d1 o tb0 tb1, cs = cs0 ++ [c] /\ d = d0 ++ d1 ++ [o] /\
        (forall x, mcalls cs0 (d0 ++ x) [] = Some (rs, tb0, x)) /\ waited c d1 tb0 tb1 /\ tb = store o tb1
  | Dead q =>
      exists cs0 c d0 d1 tb0, cs = cs0 ++ [c] /\ d = d0 ++ d1 /\
        (forall x, mcalls cs0 (d0 ++ x) [] = Some (rs, tb0, x)) /\
        match q with
        | PSize | PDecode => forall x, mcall c (d1 ++ x) tb0 = (MDead q, tb, x)
        | _ => waited c d1 tb0 tb
        end
  end.

(** * Proofs *)

Lemma mcalls_snoc : forall cs c d0 d rs tb0 r tb, 
  (forall x, mcalls cs (d0 ++ x) [] = Some (rs, tb0, x)) ->
  (forall x, mcall c (d ++ x) tb0 = (MRet r, tb, x)) ->
  forall x, mcalls (cs ++ [c]) ((d0 ++ d) ++ x) [] = Some (rs ++ [r], tb, x).
Proof.
  intros cs c d0 d rs tb0 r tb H1 H2 x. rewrite <- app_assoc. specialize (H1 (d ++ x)). specialize (H2 x).
  revert H1. generalize (d0 ++ d ++ x) as ts. generalize (@nil (N * list byte)) as tb1.
  revert rs. induction cs as [|c' cs IH]; intros rs tb1 ts; cbn [mcalls app].
  - intros E. injection E as <- -> ->. rewrite H2. reflexivity.
  - destruct (mcall c' ts tb1) as [[[x'| |p] tb2] ts2]; try discriminate.
    destruct (mcalls cs ts2 tb2) as [[[rs' tb3] ts3]|] eqn:E; [|discriminate].
    intros F. injection F as <- -> ->. rewrite (IH _ _ _ E). reflexivity.
Qed.

Definition polled (st st' : net * pc) : list outcome1 :=
  match snd st, snd st' with
  | Polling _, Looking _ => [None]
  | Reading _ n, Looking _ =>
      [if N.eqb (poff (fst st) + n) (plen (fst st)) then Some (pid (fst st), pend (fst st) ++ firstn (N.to_nat n) (kbuf (fst st)))
       else None]
  | _, _ => []
  end.
Fixpoint polls (t : net_type) (st : net * pc) (ls : list label) : list outcome1 :=
  match ls with
  | [] => []
  | l :: r => match l with LClient => polled st (fst (step t st l)) | _ => [] end ++ polls t (fst (step t st l)) r
  end.

Lemma poll_table : forall t s,
  match poll t s with
  | PRead _ s' | PDone s' => table s' = table s
  | PPanic q => q = PBadHeader \/ q = PUnderflow
  end.
Proof.
  intros t s. unfold poll.
  destruct (ready s && (negb (N.eqb (blen (kbuf s)) 0) || closed s)); [|reflexivity].
  destruct (pend s) eqn:Ep; cbn [pend].
  - destruct (N.leb (header_len t) (N.min (blen (kbuf s)) 70000)).
    + destruct (parse_header t (firstn (N.to_nat (header_len t)) (kbuf s))) as [[id size]|]; [|auto].
      cbn [pend plen poff].
      destruct (firstn (N.to_nat (header_len t)) (kbuf s)); [reflexivity|].
      destruct (N.eqb (N.min (blen (kbuf s)) 70000) 0); [reflexivity|].
      destruct (N.ltb size (header_len t)); [auto|reflexivity].
    + reflexivity.
  - cbn [plen poff]. destruct (N.eqb (N.min (blen (kbuf s)) 70000) 0); [reflexivity|].
    destruct (N.ltb (plen s) (poff s)); [auto|reflexivity].
Qed.

Lemma client_sim : forall t st rs cs d, client_at (snd st) (table (fst st)) rs cs d ->
  let st' := fst (client_step t st) in
  client_at (snd st') (table (fst st')) (rs ++ snd (client_step t st)) cs (d ++ polled st st').
Proof.
  intros t [s p] rs cs d H. cbn [fst snd] in H. unfold client_step.
  destruct p as [|c|c n|c|q].
  - cbn. rewrite !app_nil_r. exact H.
  - destruct H as (cs0 & d0 & d1 & tb0 & -> & -> & M & W). pose proof (poll_table t s) as T.
    destruct (poll t s) as [n s'|s'|q]; unfold polled; cbn [fst snd]; rewrite ?app_nil_r.
    + exists cs0, d0, d1, tb0. rewrite T. auto.
    + exists cs0, d0, d1, None, tb0, (table s). rewrite T, <- app_assoc. auto.
    + exists cs0, c, d0, d1, tb0. destruct T as [-> | ->]; auto.
  - destruct (N.leb n (blen (kbuf s))).
    + destruct H as (cs0 & d0 & d1 & tb0 & -> & -> & M & W). unfold polled. cbn [fst snd]. rewrite app_nil_r.
      exists cs0, d0, d1. eexists. exists tb0, (table s). rewrite <- app_assoc.
      split; [reflexivity|]. split; [reflexivity|]. split; [exact M|]. split; [exact W|].
      unfold finish_read. destruct (N.eqb (poff s + n) (plen s)); reflexivity.
    + destruct (closed s); unfold polled; cbn [fst snd]; rewrite !app_nil_r; [|exact H].
      destruct H as (cs0 & d0 & d1 & tb0 & A). exists cs0, c, d0, d1, tb0. exact A.
  - destruct H as (cs0 & d0 & d1 & o & tb0 & tb1 & -> & -> & M & W & T). destruct c as [id|id n h].
    + cbn [waited] in W. destruct (tget id (table s)) as [m|] eqn:Et; unfold polled; cbn [fst snd set_table table];
        rewrite ?app_nil_r.
      * cbn [client_at]. intros x. apply mcalls_snoc with (tb0 := tb0); [exact M|]. intros y. cbn [mcall].
        rewrite <- app_assoc, W by discriminate. cbn [app wait_loop]. rewrite <- T, Et. reflexivity.
      * exists cs0, d0, (d1 ++ [o]), tb0. split; [reflexivity|]. split; [reflexivity|]. split; [exact M|].
        intros x Hx. rewrite <- app_assoc, W by discriminate. cbn [app wait_loop]. rewrite <- T, Et. reflexivity.
    + destruct W as [-> ->]. cbn [app].
      assert (C : forall x, mcall (Check id n h) ([o] ++ x) tb0 =
        match tget id (table s) with
        | None => (MRet (TcpModel.RNone id), table s, x)
        | Some m => if N.eqb (blen m) n then
            match h m with
            | None => (MDead PDecode, table s, x)
            | Some true => (MRet (ROk id m), tremove id (table s), x)
            | Some false => (MRet (RErr id m), table s, x)
            end
          else (MDead PSize, table s, x)
        end) by (intros x; cbn [mcall app hd tl]; rewrite T; reflexivity).
      destruct (tget id (table s)) as [m|] eqn:Et; unfold polled; cbn [fst snd set_table table]; rewrite ?app_nil_r.
      2:{ intros x. apply mcalls_snoc with (tb0 := tb0); [exact M|exact C]. }
      destruct (N.eqb (blen m) n); cbn [negb fst snd]; rewrite ?app_nil_r.
      2:{ exists cs0, (Check id n h), d0, [o], tb0. auto. }
      destruct (h m) as [[|]|]; cbn [fst snd set_table table client_at]; rewrite ?app_nil_r.
      * intros x. apply mcalls_snoc with (tb0 := tb0); [exact M|exact C].
      * intros x. apply mcalls_snoc with (tb0 := tb0); [exact M|exact C].
      * exists cs0, (Check id n h), d0, [o], tb0. auto.
  - cbn. rewrite !app_nil_r. exact H.
Qed.

Lemma run_sim : forall t ls st rs cs d, client_at (snd st) (table (fst st)) rs cs d ->
  let st' := fst (run t st ls) in
  client_at (snd st') (table (fst st')) (rs ++ snd (run t st ls)) (cs ++ begun t st ls) (d ++ polls t st ls).
Proof.
  intros t. induction ls as [|l ls IH]; intros st rs cs d H.
  { cbn. rewrite !app_nil_r. exact H. }
  cbn [run begun polls]. destruct (step t st l) as [st1 o1] eqn:E1. destruct (run t st1 ls) as [st2 o2] eqn:E2.
  cbn [fst snd].
  assert (K : client_at (snd st1) (table (fst st1)) (rs ++ o1)
                (cs ++ match l, snd st with LStart c, Idle => [c] | _, _ => [] end)
                (d ++ match l with LClient => polled st st1 | _ => [] end)).
  { destruct l as [bs| | |c|]; cbn [step] in E1.
    - destruct bs as [|b bs]; [|destruct (closed (fst st))]; injection E1 as <- <-; rewrite !app_nil_r; exact H.
    - injection E1 as <- <-; rewrite !app_nil_r; exact H.
    - injection E1 as <- <-; rewrite !app_nil_r; exact H.
    - destruct st as [s p]. cbn [fst snd] in *. destruct p as [|c'|c' n|c'|q]; injection E1 as <- <-; rewrite ?app_nil_r; try exact H.
      cbn [fst snd]. exists cs, d, [], (table s). rewrite app_nil_r. split; [reflexivity|]. split; [reflexivity|].
      split; [exact H|]. destruct c; cbn [waited app]; auto.
    - pose proof (client_sim t st rs cs d H) as S. cbv zeta in S. rewrite E1 in S. cbn [fst snd] in S.
      rewrite app_nil_r. exact S. }
  specialize (IH _ _ _ _ K). cbv zeta in IH. rewrite E2 in IH. cbn [fst snd] in IH. rewrite <- !app_assoc in IH.
  exact IH.
Qed.

Lemma polls_content : forall t msgs, Forall (msg_ok t) msgs -> forall cs cl ls st fut rs done rest,
  inv t msgs cs cl st fut rs done rest ->
  (closed (fst st) = false -> prefix (arrivals ls) fut) -> incl (starts ls) cs -> (In LClose ls -> cl) ->
  exists ms rest', done ++ ms ++ rest' = msgs /\
    flat_map olist (polls t st ls) = map (fun m => (m_id m, msg_bytes t m)) ms.
Proof.
  intros t msgs Ok cs cl. induction ls as [|l ls IH]; intros st fut rs done rest H Hp Hst Hcl.
  { exists [], rest. cbn. split; [symmetry; exact (i_msgs _ _ _ _ _ _ _ _ _ H)|reflexivity]. }
  cbn [polls]. destruct (step t st l) as [st1 o1] eqn:E1. cbn [fst].
  destruct (inv_step _ _ Ok _ _ l ls _ _ _ _ _ _ _ E1 H Hp) as (fut1 & ms & rest1 & I1 & P1 & D).
  { intros c Hc. apply Hst. unfold starts in *. cbn in Hc |- *. rewrite app_nil_r in Hc. apply in_app_iff. left. exact Hc. }
  { intros ->. apply Hcl. left. reflexivity. }
  destruct (IH st1 fut1 (rs ++ o1) (done ++ ms) rest1 I1 P1) as (ms' & rest' & A & B).
  { intros c Hc. apply Hst. unfold starts in *. cbn. apply in_app_iff. right. exact Hc. }
  { intros Hin. apply Hcl. right. exact Hin. }
  exists (ms ++ ms'), rest'. split; [rewrite <- A, !app_assoc; reflexivity|].
  rewrite flat_map_app, map_app, B. f_equal.
  destruct l as [bs| | |c|]; try (rewrite D; reflexivity).
  unfold delivers in D. unfold polled. destruct (snd st) as [|c|c n|c|q] eqn:Es, (snd st1) as [|c'|c' n'|c'|q'] eqn:Es'; try (rewrite D; reflexivity).
  destruct D as [[-> N]|(m & -> & N & Hi & Hb)].
  - destruct (N.eqb_spec (poff (fst st) + n) (plen (fst st))); [contradiction|reflexivity].
  - rewrite N, N.eqb_refl, Hi, Hb. reflexivity.
Qed.

(** C60 *)
Theorem C60_refines : forall t ls,
  let r := run t (net_init, Idle) ls in
  exists d, client_at (snd (fst r)) (table (fst (fst r))) (snd r) (begun t (net_init, Idle) ls) d /\
    (forall msgs, Forall (msg_ok t) msgs -> prefix (arrivals ls) (stream t msgs) ->
       exists ms, prefix ms msgs /\ flat_map olist d = map (fun m => (m_id m, msg_bytes t m)) ms).
Proof.
  intros t ls r. exists (polls t (net_init, Idle) ls). split.
  - exact (run_sim t ls (net_init, Idle) [] [] [] (fun x => eq_refl)).
  - intros msgs Ok P.
    destruct (polls_content t msgs Ok (starts ls) True ls _ _ _ _ _ (inv_init t msgs (starts ls) True)) as (ms & rest & A & B);
      [intros _; exact P|apply incl_refl|auto|].
    exists ms. split; [exists rest; exact A|exact B].
Qed.
Print Assumptions C60_refines.

(** The two receive functions of the robot model are these calls. *)
Definition decided {A} (c : codec A) (handler : A -> option exn) (m : list byte) : option bool :=
  option_map (fun a => match handler a with None => true | Some _ => false end) (deserialize c m).
Theorem C60_robot_wait : forall id s,
  wait_response id s =
  match mcall (Wait id) (n_tsched s) (n_table s) with
  | (MRet (RWait i m), tb, ts) => (Ok m, add_event (set_tcp s tb ts) (EvReply i m))
  | (_, tb, ts) => (Blocked, set_tcp s tb ts)
  end.
Proof.
  intros id s. unfold wait_response, mcall. destruct (wait_loop id (n_tsched s) (n_table s)) as [[[m|] tb] ts]; reflexivity.
Qed.
Print Assumptions C60_robot_wait.
Theorem C60_robot_check : forall A (c : codec A) size id handler s,
  let r := check_response c size id handler s in
  match mcall (Check id size (decided c handler)) (n_tsched s) (n_table s) with
  | (MRet (TcpModel.RNone _), tb, ts) => r = (Ok false, set_tcp s tb ts)
  | (MRet (ROk i m), tb, ts) => r = (Ok true, add_event (set_tcp s tb ts) (EvReply i m))
  | (MRet (RErr i m), tb, ts) =>
      exists a e, deserialize c m = Some a /\ handler a = Some e /\ r = (Err e, add_event (set_tcp s tb ts) (EvReply i m))
  | (MRet (RWait _ _), _, _) | (MBlocked, _, _) => False
  | (MDead p, tb, ts) => r = (Panic (match p with PSize => PTcpSize | _ => PDecodeTcp end), set_tcp s tb ts)
  end.
Proof.
  intros A c size id handler s r. subst r. unfold check_response, mcall.
  assert (K : forall o ts, let r := (let s := set_tcp s (store o (n_table s)) ts in
                match tget id (n_table s) with
                | None => (Ok false, s)
                | Some m => if N.eqb (blen m) size then
                    match deserialize c m with
                    | None => (Panic PDecodeTcp, s)
                    | Some a => let s := add_event s (EvReply id m) in
                                match handler a with
                                | None => (Ok true, set_tcp s (tremove id (n_table s)) (n_tsched s))
                                | Some e => (Err e, s)
                                end
                    end
                  else (Panic PTcpSize, s)
                end) in
              match (let tb := store o (n_table s) in
                     match tget id tb with
                     | None => (MRet (TcpModel.RNone id), tb, ts)
                     | Some m => if N.eqb (blen m) size then
                         match decided c handler m with
                         | None => (MDead PDecode, tb, ts)
                         | Some true => (MRet (ROk id m), tremove id tb, ts)
                         | Some false => (MRet (RErr id m), tb, ts)
                         end
                       else (MDead PSize, tb, ts)
                     end) with
              | (MRet (TcpModel.RNone _), tb, ts) => r = (Ok false, set_tcp s tb ts)
              | (MRet (ROk i m), tb, ts) => r = (Ok true, add_event (set_tcp s tb ts) (EvReply i m))
              | (MRet (RErr i m), tb, ts) =>
                  exists a e, deserialize c m = Some a /\ handler a = Some e /\ r = (Err e, add_event (set_tcp s tb ts) (EvReply i m))
              | (MRet (RWait _ _), _, _) | (MBlocked, _, _) => False
              | (MDead p, tb, ts) => r = (Panic (match p with PSize => PTcpSize | _ => PDecodeTcp end), set_tcp s tb ts)
              end).
  { intros o ts. cbn [set_tcp n_table n_tsched]. destruct (tget id (store o (n_table s))) as [m|]; [|reflexivity].
    destruct (N.eqb (blen m) size); [|reflexivity]. unfold decided. destruct (deserialize c m) as [a|] eqn:Ed; cbn [option_map]; [|reflexivity].
    destruct (handler a) as [e|] eqn:Eh; [exists a, e; split; [exact Ed|split; [exact Eh|reflexivity]]|reflexivity]. }
  destruct (n_tsched s) as [|o ts]; [exact (K None [])|exact (K o ts)].
Qed.
Print Assumptions C60_robot_check.

(** A response of 13 bytes in two pieces: three polls, of which the last completes it. *)
Definition ex_msg : msg := Msg 1 3 [x05].
Definition ex_labels : list label :=
  [LArrive (firstn 5 (msg_bytes Robot ex_msg)); LStart (Wait 3); LClient; LClient; LArrive (skipn 5 (msg_bytes Robot ex_msg));
   LStart (Wait 9); LClient; LClient; LClient; LStart (Check 3 13 (fun _ => Some true)); LClient; LClient].
Example C60_ex :
  msg_ok Robot ex_msg /\ prefix (arrivals ex_labels) (stream Robot [ex_msg]) /\
  begun Robot (net_init, Idle) ex_labels = [Wait 3; Check 3 13 (fun _ => Some true)] /\
  snd (run Robot (net_init, Idle) ex_labels) = [RWait 3 (msg_bytes Robot ex_msg); TcpModel.RNone 3] /\
  mcalls [Wait 3; Check 3 13 (fun _ => Some true)] [None; Some (3%N, msg_bytes Robot ex_msg); None] []
  = Some ([RWait 3 (msg_bytes Robot ex_msg); TcpModel.RNone 3], [], []).
Proof.
  split; [repeat split; reflexivity|]. split; [exists []; reflexivity|]. split; [reflexivity|]. split; reflexivity.
Qed.
(** While the second half is missing the call has polled once and waits. *)
Example C60_ex_waits : 
  snd (fst (run Robot (net_init, Idle) (firstn 4 ex_labels))) = Polling (Wait 3) /\
  polls Robot (net_init, Idle) (firstn 4 ex_labels) = [None].
Proof. split; reflexivity. Qed.
