(** C76: the motions of three of the example programs come to their end. *)
From Coq Require Import List NArith ZArith Bool Arith Lia String Reals Lra.
From Coq Require Import Init.Byte.
From Flocq Require Import Core IEEE754.BinarySingleNaN IEEE754.Binary IEEE754.Bits.
From Verif Require Import Bytes Codec NumOps NumFloat FloatFacts SizeFacts RateModel WireModel WireSpec TcpModel TcpProofs UdpModel UdpSpec UdpProofs
  RobotModel LoopModel RobotSpec RobotProofs RobotWp LoopProofs Effects RobotMore RobotCalls CallFacts TypedModel TypedSpec ConvertFacts MotionModel
  JointMotionModel ExampleMotions ProgramModel MotionPrograms LiveUdp LiveSpec LiveProofs RobotScenario
  Properties_Commands Properties_Live ReplaySpec ReplayProofs Outputs Properties_Convert Properties_Replay Properties_Time MotionRun ClockFacts
  Properties_Accept Properties_JointMotion Properties_Examples Properties_Programs Properties_MotionPrograms.
Import ListNotations.
Open Scope list_scope.
Open Scope N_scope.

(** What the mathematical functions of the platform are assumed to do: cosine and sine of a number are within [-1, 1], the floating-point remainder
    is exact, powers of -1 with an integral exponent are 1 or -1, floor rounds down. *)
Record usual_functions (f_cos f_sin f_floor : F float -> F float) (f_powf f_fmod : F float -> F float -> F float) : Prop := {
  uf_cos : forall x, b64_fin x = true -> b64_fin (f_cos x) = true /\ (Rabs (val (f_cos x)) <= 1)%R;
  uf_sin : forall x, b64_fin x = true -> b64_fin (f_sin x) = true /\ (Rabs (val (f_sin x)) <= 1)%R;
  uf_fmod : forall x y, b64_fin x = true -> b64_fin y = true -> (0 <= val x)%R -> (0 < val y)%R ->
    b64_fin (f_fmod x y) = true /\ exists n, val (f_fmod x y) = (val x - IZR n * val y)%R /\ (0 <= val x - IZR n * val y < val y)%R;
  uf_powf : forall y n, b64_fin y = true -> val y = IZR n -> b64_fin (f_powf (of_bits 0xBFF0000000000000) y) = true /\
    (val (f_powf (of_bits 0xBFF0000000000000) y) = 1 \/ val (f_powf (of_bits 0xBFF0000000000000) y) = -1)%R;
  uf_floor : forall x n, b64_fin x = true -> val x = IZR n -> b64_fin (f_floor x) = true /\ val (f_floor x) = IZR n
}.
Definition joint_or_twist (e : example) : Prop := e = ExPosition \/ e = ExVelocity \/ e = ExTwist.
Section Outputs.
  Variables f_cos f_sin f_floor : F float -> F float.
  Variables f_powf f_fmod : F float -> F float -> F float.
  Hypothesis usual : usual_functions f_cos f_sin f_floor f_powf f_fmod.
  Let planned := plan f_cos f_sin f_floor f_powf f_fmod.
  Lemma literal_size : forall b s m ex k, Binary.B2FF 53 1024 (of_bits b) = F754_finite s m ex -> (IZR (Zpos m) * bpow radix2 ex <= bpow radix2 k)%R -> size k (of_bits b).
  Proof.
    intros b s m ex k E L. destruct (val_finite _ _ _ _ E) as [F V]. split; [exact F|]. rewrite V, Rabs_mult, (Rabs_pos_eq (bpow _ _)) by apply bpow_ge_0.
    replace (Rabs (IZR (cond_Zopp s (Z.pos m)))) with (IZR (Z.pos m)) by (rewrite <- abs_IZR; destruct s; reflexivity). exact L.
  Qed.
  Definition clocked (t : F float) : Prop := b64_fin t = true /\ (0 <= val t <= 4000)%R.
  Lemma clocked_size : forall t, clocked t -> size 12 t.
  Proof. intros t [F B]. split; [exact F|]. change (bpow radix2 12) with 4096%R. apply Rabs_le. lra. Qed.
  Lemma size_one : size 0 one64.
  Proof. apply (literal_size _ false 4503599627370496 (-52)); [vm_compute; reflexivity|]. change (bpow radix2 (-52)) with (/ 4503599627370496)%R. change (bpow radix2 0) with 1%R. lra. Qed.
  Lemma swing_size : forall a w t, size 0 a -> size 3 w -> clocked t -> size 1 (swing f_cos a w t).
  Proof.
    intros a w t Sa Sw Ct. unfold swing. cbn [f_mul f_sub float].
    assert (Sc : size 0 (f_cos (b64_mult mode_NE w t))).
    { destruct (uf_cos _ _ _ _ _ usual (b64_mult mode_NE w t)) as [F V]; [|split; [exact F|exact V]]. eapply size_fin. apply (size_mul 3 12); [exact Sw|apply clocked_size, Ct|lia]. }
    change 1%Z with (0 + (0 + 1))%Z. apply size_mul; [exact Sa| |lia]. apply size_sub; [apply size_one|exact Sc|lia].
  Qed.
  Lemma pulse_size : forall max period t p, size 0 max -> b64_fin period = true -> val period = IZR p -> (p = 1 \/ p = 4)%Z ->
    size 3 (f_div float (f_mul float two64 pi64) period) -> clocked t -> size 1 (pulse f_cos f_floor f_powf f_fmod max period t).
  Proof.
    intros max period t p Sm Fp Vp Hp Sw Ct. pose proof Ct as [Ft Bt]. unfold pulse. cbv zeta.
    assert (Pp : (1 <= val period <= 4)%R) by (rewrite Vp; destruct Hp; subst; lra).
    destruct (uf_fmod _ _ _ _ _ usual t period Ft Fp ltac:(lra) ltac:(lra)) as (Fm & n & Vm & Bm).
    assert (Nn : (0 <= n <= 4000)%Z).
    { split.
      - apply Znot_gt_le. intros Hn. assert (IZR n <= -1)%R by (apply (IZR_le _ (-1)); lia). nra.
      - apply Znot_gt_le. intros Hn. assert (4001 <= IZR n)%R by (apply (IZR_le 4001); lia). nra. }
    assert (Int : forall z, (0 <= z <= 65536)%Z -> rnd (IZR z) = IZR z).
    { intros z Hz. apply round_generic; [apply valid_rnd_N|]. apply generic_format_FLT. exists (Float radix2 z 0); [unfold F2R; cbn; ring|change (Z.abs z < 9007199254740992)%Z; lia|cbn; lia]. }
    assert (Rn : (0 <= IZR n <= 4000)%R) by (split; apply IZR_le; lia).
    destruct (minus_ok t (f_fmod t period) 20 Ft Fm ltac:(lia)) as [Fs Vs].
    { rewrite Vm. change (bpow radix2 20) with 1048576%R. apply Rabs_le. nra. }
    assert (Es : (val t - val (f_fmod t period) = IZR (n * p))%R) by (rewrite Vm, mult_IZR, Vp; ring). rewrite Es, Int in Vs by (destruct Hp; subst; lia).
    set (d := f_div float (f_sub float t (f_fmod t period)) period).
    destruct (div_ok (b64_minus mode_NE t (f_fmod t period)) period 20 Fs Fp ltac:(lra) ltac:(lia)) as [Fd Vd].
    { rewrite Vs, mult_IZR, <- Vp. replace (IZR n * val period / val period)%R with (IZR n) by (field; lra). change (bpow radix2 20) with 1048576%R. apply Rabs_le. lra. }
    assert (Ed : (val (b64_minus mode_NE t (f_fmod t period)) / val period = IZR n)%R) by (rewrite Vs, mult_IZR, <- Vp; field; lra). rewrite Ed, Int in Vd by lia.
    change (b64_div mode_NE (b64_minus mode_NE t (f_fmod t period)) period) with d in Fd, Vd. clearbody d.
    destruct (uf_powf _ _ _ _ _ usual d n Fd Vd) as [Fw Vw]. set (w := f_powf (of_bits 0xBFF0000000000000) d) in *. clearbody w.
    assert (Sf : size 0 (f_floor w)).
    { change (bpow radix2 0) with 1%R. destruct Vw as [Vw|Vw]; [destruct (uf_floor _ _ _ _ _ usual w 1 Fw Vw) as [F V]|destruct (uf_floor _ _ _ _ _ usual w (-1) Fw Vw) as [F V]];
        (split; [exact F|]); rewrite V; change (bpow radix2 0) with 1%R; apply Rabs_le; lra. }
    apply swing_size; [|exact Sw|exact Ct]. cbn [f_div f_mul float].
    assert (S2 : b64_fin two64 = true /\ val two64 = 2%R).
    { destruct (val_finite two64 false 4503599627370496 (-51)) as [F V]; [vm_compute; reflexivity|]. split; [exact F|]. rewrite V. cbn [cond_Zopp]. change (bpow radix2 (-51)) with (/ 2251799813685248)%R. lra. }
    apply (size_le (-1)); [|lia]. apply (size_div 0 1); [|apply S2| |lia].
    - apply (size_mul 0 0); [exact Sf|exact Sm|lia].
    - rewrite (proj2 S2). change (bpow radix2 1) with 2%R. rewrite Rabs_pos_eq; lra.
  Qed.
  Lemma angle_of : forall k x, size k x -> (k <= 10)%Z -> angle (bits x).
  Proof.
    intros k x S K. destruct (size_le _ 10 _ S K) as [F V]. split.
    - apply bits_finite, F.
    - unfold number. rewrite of_bits_bits. exact V.
  Qed.
  Lemma plan_good : forall e x t, joint_or_twist e -> state_ok x -> (e = ExPosition -> in_reach (map of_bits (rs_q_d x))) -> clocked t -> good_output (kind e) (planned e x t).
  Proof.
    intros e x t He So Hr Ct.
    assert (Sz : size 0 (of_bits 0)) by (split; [vm_compute; reflexivity|]; change (val (of_bits 0)) with 0%R; rewrite Rabs_R0; apply bpow_ge_0).
    destruct He as [ -> | [ -> | -> ] ]; (split; [|intros a s H; discriminate H]); cbn [kind good_values]; (split; [reflexivity|]); cbn [planned plan plan_numbers o_values map].
    - destruct (Hr eq_refl) as [L Q]. assert (Sq : forall i, (i < 7)%nat -> size 2 (of_bits (nth i (rs_q_d x) 0))).
      { intros i Hi. rewrite Forall_forall in Q. rewrite map_length in L. destruct (Q (of_bits (nth i (rs_q_d x) 0))) as [F V]; [apply in_map, nth_In; lia|]. split; [exact F|exact V]. }
      set (d := swing _ _ _ _). assert (Sd : size 2 d).
      { apply (size_le 1); [|lia]. apply swing_size; [| |exact Ct].
        - rewrite <- (of_bits_bits (f_div float pi64 (of_bits 0x4020000000000000))). apply (literal_size _ false 7074237752028440 (-54)); [vm_compute; reflexivity|].
          change (bpow radix2 (-54)) with (/ 18014398509481984)%R. change (bpow radix2 0) with 1%R. lra.
        - rewrite <- (of_bits_bits (f_div float pi64 (of_bits 0x4004000000000000))). apply (literal_size _ false 5659390201622752 (-52)); [vm_compute; reflexivity|].
          change (bpow radix2 (-52)) with (/ 4503599627370496)%R. change (bpow radix2 3) with 8%R. lra. }
      clearbody d. assert (Sa : forall i, (i < 7)%nat -> size 3 (f_add float (of_bits (nth i (rs_q_d x) 0)) d)) by (intros i Hi; apply (size_add 2); [apply Sq, Hi|exact Sd|lia]).
      repeat (apply Forall_cons; [first [apply (angle_of 2); [apply Sq; lia|lia]|apply (angle_of 3); [apply Sa; lia|lia]]|]). constructor.
    - set (w := pulse _ _ _ _ _ _ _). assert (Sw : size 1 w).
      { apply (pulse_size _ _ _ 1); [apply size_one|vm_compute; reflexivity| |left; reflexivity| |exact Ct].
        - destruct (val_finite one64 false 4503599627370496 (-52)) as [F V]; [vm_compute; reflexivity|]. rewrite V. cbn [cond_Zopp]. change (bpow radix2 (-52)) with (/ 4503599627370496)%R. lra.
        - rewrite <- (of_bits_bits (f_div float (f_mul float two64 pi64) one64)). apply (literal_size _ false 7074237752028440 (-50)); [vm_compute; reflexivity|].
          change (bpow radix2 (-50)) with (/ 1125899906842624)%R. change (bpow radix2 3) with 8%R. lra. }
      clearbody w. repeat (apply Forall_cons; [first [apply (angle_of 0); [exact Sz|lia]|apply (angle_of 1); [exact Sw|lia]]|]). constructor.
    - set (v := pulse _ _ _ _ _ _ _). assert (Sv : size 1 v).
      { apply (pulse_size _ _ _ 4).
        - apply (literal_size _ false 7205759403792794 (-56)); [vm_compute; reflexivity|]. change (bpow radix2 (-56)) with (/ 72057594037927936)%R. change (bpow radix2 0) with 1%R. lra.
        - vm_compute. reflexivity.
        - destruct (val_finite four64 false 4503599627370496 (-50)) as [F V]; [vm_compute; reflexivity|]. rewrite V. cbn [cond_Zopp]. change (bpow radix2 (-50)) with (/ 1125899906842624)%R. lra.
        - right. reflexivity.
        - rewrite <- (of_bits_bits (f_div float (f_mul float two64 pi64) four64)). apply (literal_size _ false 7074237752028440 (-52)); [vm_compute; reflexivity|].
          change (bpow radix2 (-52)) with (/ 4503599627370496)%R. change (bpow radix2 3) with 8%R. lra.
        - exact Ct. }
      clearbody v. assert (Fa : b64_fin (f_div float pi64 four64) = true) by (vm_compute; reflexivity). set (an := f_div float pi64 four64) in *. clearbody an.
      assert (S1 : size 1 (f_mul float (f_cos an) v)) by (apply (size_mul 0 1); [exact (uf_cos _ _ _ _ _ usual an Fa)|exact Sv|lia]).
      assert (S2 : size 1 (f_mul float (f_neg float (f_sin an)) v)) by (apply (size_mul 0 1); [apply size_opp; exact (uf_sin _ _ _ _ _ usual an Fa)|exact Sv|lia]).
      repeat (apply Forall_cons; [first [apply (angle_of 0); [exact Sz|lia]|apply (angle_of 1); [assumption|lia]]|]). constructor.
  Qed.
End Outputs.

Lemma gives_prefix : forall u xs ys os ps k before, List.length xs = List.length os -> gives u k before (xs ++ ys) (os ++ ps) -> gives u k before xs os.
Proof.
  induction xs as [|x xs IH]; intros ys [|o os] ps k before L H; try discriminate L; [exact Logic.I|]. cbn [app gives] in H |- *.
  destruct H as (k' & E & H). exists k'. split; [exact E|]. apply (IH ys os ps); [injection L as L; exact L|exact H].
Qed.
Lemma steps_spaced : forall xs before, newer before xs -> spaced_from before (steps before xs).
Proof. induction xs as [|x xs IH]; intros before N; [exact Logic.I|]. destruct N as [N1 N2]. cbn [steps spaced_from]. split; [lia|]. split; [lia|]. apply IH, N2. Qed.
Lemma steps_states : forall xs before, map fst (steps before xs) = xs.
Proof. induction xs as [|x xs IH]; intros before; [reflexivity|]. cbn [steps map fst]. rewrite IH. reflexivity. Qed.
Lemma clock_length : forall calls t, List.length (clock t calls) = List.length calls.
Proof. induction calls as [|[x dt] calls IH]; intros t; [reflexivity|]. cbn [clock List.length]. rewrite IH. reflexivity. Qed.
Lemma usual_cutoff : usable_cutoff default_cutoff.
Proof.
  destruct (val_finite (of_bits default_cutoff) false 7036874417766400 (-46)) as [F V]; [vm_compute; reflexivity|].
  split; [unfold default_cutoff in *; rewrite of_bits_bits in F; apply bits_finite, F|]. unfold number. rewrite V. cbn [cond_Zopp]. change (bpow radix2 (-46)) with (/ 70368744177664)%R.
  apply Rle_trans with (bpow radix2 0); [apply bpow_le; lia|]. change (bpow radix2 0) with 1%R. lra.
Qed.
Lemma same_length : forall A B (P : A -> B -> Prop) l r, Forall2 P l r -> List.length l = List.length r.
Proof. intros A B P l r H. induction H as [|a b l r H1 H2 IH]; [reflexivity|]. cbn [List.length]. rewrite IH. reflexivity. Qed.
Lemma first_true : forall A (f : A -> bool) l, (exists a, In a l /\ f a = true) -> exists pre a post, l = pre ++ a :: post /\ Forall (fun a => f a = false) pre /\ f a = true.
Proof.
  intros A f. induction l as [|x l IH]; intros (a & Hin & Ha); [contradiction Hin|]. destruct (f x) eqn:E.
  - exists [], x, l. auto.
  - destruct Hin as [->|Hin]; [congruence|]. destruct IH as (pre & b & post & -> & F & Hb); [eauto|]. exists (x :: pre), b, post. auto.
Qed.
(** Given states which a robot may report, over at most an hour and until more than the duration has passed: the motion ends with one of them, not
    before its time, the control call accepting every command. *)
Theorem C76_ends : forall rots f_cos f_sin f_floor f_powf f_fmod e x xs, usual_functions f_cos f_sin f_floor f_powf f_fmod -> joint_or_twist e ->
  Forall sound (x :: xs) -> newer (rs_message_id x) xs -> (e = ExPosition -> in_reach (map of_bits (rs_q_d x))) ->
  Forall (fun z => rs_message_id z <= rs_message_id x + 3600000) xs ->
  (exists z, In z xs /\ (Z.of_N (rs_message_id x) + 1000 * lasts e < Z.of_N (rs_message_id z))%Z) ->
  let prog := program_of f_cos f_sin f_floor f_powf f_fmod e in
  exists pre y post, x :: xs = pre ++ y :: post /\
    (Z.of_N (rs_message_id x) + 1000 * lasts e <= Z.of_N (rs_message_id y))%Z /\
    Forall (fun z => Z.of_N (rs_message_id z) <= Z.of_N (rs_message_id x) + 1000 * lasts e)%Z pre /\
    finishes (controller_of rots (e_user prog)) (e_start prog) (rs_message_id x) zero_motion (pre ++ [y]).
Proof.
  intros rots f_cos f_sin f_floor f_powf f_fmod e x xs Us He So Nw Hr Hb (z & Hin & Hz) prog.
  assert (Ok : Forall state_ok (x :: xs)) by (eapply Forall_impl; [|exact So]; intros a Ha; apply Ha).
  set (planned := plan f_cos f_sin f_floor f_powf f_fmod). set (calls := steps (rs_message_id x) (x :: xs)). set (ts := clock (of_bits 0) calls).
  assert (Gv : gives (e_user prog) (e_start prog) (rs_message_id x) (x :: xs) (map (planned e x) ts)).
  { unfold prog. destruct He as [ -> | [ -> | -> ] ]; [apply gives_position; assumption|apply gives_velocity|apply gives_twist]. }
  assert (Sp : spaced calls) by (unfold calls; cbn [steps spaced]; rewrite N.sub_diag; split; [reflexivity|apply steps_spaced, Nw]).
  assert (Sc : map fst calls = x :: xs) by (apply steps_states).
  assert (St : Forall (fun c => state_ok (fst c)) calls) by (apply (proj1 (Forall_map fst state_ok calls)); rewrite Sc; exact Ok).
  assert (Ln : List.length ts = List.length (x :: xs)) by (unfold ts; rewrite clock_length, <- Sc, map_length; reflexivity).
  assert (Z0 : f_add float (of_bits 0) (as_secs_f64 0) = of_bits 0) by (apply by_bits; vm_compute; reflexivity).
  assert (Fz : b64_fin (of_bits 0) = true) by (vm_compute; reflexivity).
  assert (Lb : forall n : N, (Rabs (val (of_bits 0) - (ms n - ms n) / 1000) <= (ms n - ms n) * / 400000000000)%R) by (intros n; change (val (of_bits 0)) with 0%R; apply Rabs_le; lra).
  assert (V : b64_fin (f_int float (lasts e)) = true /\ val (f_int float (lasts e)) = IZR (lasts e)).
  { clear - He. destruct He as [ -> | [ -> | -> ] ]; cbn [lasts]; (split; [vm_compute; reflexivity|]).
    - destruct (val_finite (f_int float 5) false 5629499534213120 (-50)) as [_ V]; [vm_compute; reflexivity|]. rewrite V. cbn. lra.
    - destruct (val_finite (f_int float 2) false 4503599627370496 (-51)) as [_ V]; [vm_compute; reflexivity|]. rewrite V. cbn. lra.
    - destruct (val_finite (f_int float 8) false 4503599627370496 (-49)) as [_ V]; [vm_compute; reflexivity|]. rewrite V. cbn. lra. }
  assert (Ck : Forall clocked ts).
  { unfold ts, calls. cbn [steps clock]. rewrite N.sub_diag, Z0. constructor; [split; [exact Fz|change (val (of_bits 0)) with 0%R; lra]|].
    apply (clock_bounded _ (rs_message_id x) (rs_message_id x)); [apply steps_spaced, Nw|lia| |exact Fz|change (val (of_bits 0)) with 0%R; lra|apply Lb|lia].
    apply Forall_forall. intros [y dt] H. assert (Hy : In y xs) by (rewrite <- (steps_states xs (rs_message_id x)); apply (in_map fst) in H; exact H).
    rewrite Forall_forall in Hb, Ok. split; [apply (Ok y (or_intror Hy))|apply (Hb y Hy)]. }
  assert (Ot : Forall2 (fun a t => on_time (rs_message_id x) (lasts e) a t) (x :: xs) ts).
  { assert (A : Forall2 (fun c t => on_time (rs_message_id x) (lasts e) (fst c) t) calls ts).
    { unfold ts, calls. cbn [steps clock]. rewrite N.sub_diag, Z0. constructor.
      - split; cbn [fst]; intros Hh; [|exfalso; clear - Hh He; destruct He as [ -> | [ -> | -> ] ]; cbn [lasts] in Hh; lia]. clear - He. destruct He as [ -> | [ -> | -> ] ]; vm_compute; reflexivity.
      - apply (clock_on_time (lasts e)) with (before := rs_message_id x); [clear - He; destruct He as [ -> | [ -> | -> ] ]; cbn; lia|apply V|apply V|apply steps_spaced, Nw| |lia|].
        + apply Forall_forall. intros [y dt] H. assert (Hy : In y xs) by (rewrite <- (steps_states xs (rs_message_id x)); apply (in_map fst) in H; exact H).
          rewrite Forall_forall in Ok. apply (Ok y (or_intror Hy)).
        + left. split; [exact Fz|]. split; [|apply Lb]. change (val (of_bits 0)) with 0%R. split; [lra|]. apply (IZR_lt 0). clear - He. destruct He as [ -> | [ -> | -> ] ]; cbn; lia. }
    rewrite <- Sc. clear - A. clearbody calls ts. induction A as [|c t cs ts H A IH]; cbn [map]; constructor; assumption. }
  assert (Over : forall t, plan_over e t = f_ge float t (f_int float (lasts e))).
  { intros t. unfold plan_over. f_equal. symmetry. apply by_bits. clear. destruct e; vm_compute; reflexivity. }
  assert (Ex : exists p, In p (combine (x :: xs) ts) /\ plan_over e (snd p) = true).
  { destruct (in_split _ _ (or_intror Hin : In z (x :: xs))) as (l1 & l2 & El). rewrite El in Ot. apply Forall2_app_inv_l in Ot. destruct Ot as (t1 & t2 & O1 & O2 & Et).
    inversion O2 as [|? t ? t2' Hy O3]. subst. exists (z, t). split; [|cbn [snd]; rewrite Over; apply Hy, Hz]. rewrite El, Et.
    assert (L1 : List.length l1 = List.length t1) by exact (same_length _ _ _ _ _ O1).
    clear - L1. revert t1 L1. induction l1 as [|a l1 IH]; intros [|b t1] L1; try discriminate L1; cbn [app combine]; [left; reflexivity|right; apply IH; injection L1 as L1; exact L1]. }
  destruct (first_true _ (fun p => plan_over e (snd p)) _ Ex) as (cp & [y t] & cq & Ec & Fp & Fy). cbn [snd] in Fy.
  assert (E1 : x :: xs = map fst cp ++ y :: map fst cq /\ ts = map snd cp ++ t :: map snd cq).
  { assert (G : forall (l : list robot_state_intern) (r : list (F float)), List.length r = List.length l -> map fst (combine l r) = l /\ map snd (combine l r) = r).
    { clear. induction l as [|a l IH]; intros [|b r] L; try discriminate L; [split; reflexivity|]. injection L as L. destruct (IH r L) as [A B]. cbn [combine map fst snd]. rewrite A, B. split; reflexivity. }
    destruct (G _ _ Ln) as [G1 G2]. rewrite Ec in G1, G2. rewrite map_app in G1, G2. cbn [map fst snd] in G1, G2. split; symmetry; assumption. }
  destruct E1 as [Ex1 Et1]. exists (map fst cp), y, (map fst cq). split; [exact Ex1|].
  rewrite Ex1, Et1 in Ot. apply Forall2_app_inv_l in Ot. destruct Ot as (t1 & t2 & O1 & O2 & Eq).
  assert (L1 : List.length t1 = List.length (map snd cp)) by (rewrite map_length, <- (map_length fst cp); symmetry; exact (same_length _ _ _ _ _ O1)).
  assert (Eq' : map snd cp = t1 /\ t :: map snd cq = t2).
  { clear - Eq L1. revert t1 Eq L1. generalize (map snd cp). induction l as [|a l IH]; intros [|b t1] Eq L1; try discriminate L1; cbn [app] in Eq.
    - split; [reflexivity|exact Eq].
    - injection Eq as -> Eq. injection L1 as L1. destruct (IH t1 Eq L1) as [-> ->]. split; reflexivity. }
  destruct Eq' as [<- <-]. inversion O2 as [|? ? ? ? Hy O3]. subst.
  split; [|split].
  - destruct (Z_lt_le_dec (Z.of_N (rs_message_id y)) (Z.of_N (rs_message_id x) + 1000 * lasts e)) as [C|C]; [|exact C]. apply (proj1 Hy) in C. rewrite <- Over in C. congruence.
  - apply Forall_forall. intros a Ha. apply Znot_gt_le. intros C. apply in_map_iff in Ha. destruct Ha as ([a' ta] & <- & Hc). cbn [fst] in C.
    rewrite Forall_forall in Fp. pose proof (Fp _ Hc) as Fa. cbn [snd] in Fa.
    assert (Oa : on_time (rs_message_id x) (lasts e) a' ta).
    { clear - O1 Hc. revert O1. induction cp as [|[b tb] cp IH]; intros O1; [contradiction Hc|]. cbn [map fst snd] in O1. inversion O1 as [|? ? ? ? H1 H2]. subst. destruct Hc as [Hc|Hc]; [injection Hc as -> ->; exact H1|exact (IH Hc H2)]. }
    rewrite Over in Fa. rewrite (proj2 Oa) in Fa; [discriminate Fa|lia].
  - assert (Um : u_torque (e_user prog) = None /\ usable_cutoff (cutoff_of (e_user prog)) /\ modelled (u_generator (e_user prog)) (cutoff_of (e_user prog)) (limit_of (e_user prog)) /\ u_generator (e_user prog) = kind e).
    { unfold prog. clear - He. destruct He as [ -> | [ -> | -> ] ]; (split; [reflexivity|]; split; [exact usual_cutoff|]; split; [discriminate|reflexivity]). }
    destruct Um as (Um & Uc & Ud & Ug).
    assert (Good : Forall (fun t => good_output (kind e) (planned e x t)) ts).
    { eapply Forall_impl; [|exact Ck]. intros a Ha. apply plan_good; auto. inversion Ok; assumption. }
    rewrite Et1 in Good. apply Forall_app in Good. destruct Good as [Go1 Go2]. inversion Go2 as [|? ? Go3 _]. subst.
    apply (gives_finishes rots (e_user prog) Um Uc Ud (map fst cp) (e_start prog) (rs_message_id x) zero_motion (map (planned e x) (map snd cp)) y (planned e x t)).
    + rewrite Ex1 in So. apply Forall_app in So. destruct So as [So1 So2]. inversion So2; subst. apply Forall_app. split; [exact So1|]. constructor; [assumption|constructor].
    + rewrite Ex1, Et1 in Gv. rewrite map_app in Gv. cbn [map] in Gv.
      apply (gives_prefix _ _ (map fst cq) _ (map (planned e x) (map snd cq))); [rewrite !app_length, !map_length; reflexivity|].
      rewrite <- !app_assoc. exact Gv.
    + rewrite Ug. apply Forall_map. apply Forall_forall. intros a Ha. rewrite Forall_forall in Go1. split; [apply Go1, Ha|].
      apply in_map_iff in Ha. destruct Ha as ([a' ta] & <- & Hc). rewrite Forall_forall in Fp. exact (Fp _ Hc).
    + rewrite Ug. exact Go3.
    + exact Fy.
Qed.
Print Assumptions C76_ends.

(** * The three programs succeed *)
(** The robot's part of a control call: no word about what the callback computes. *)
Record plays (k : controller) (id last : N) (o : motion) (us : sched) (ts : list (option (N * list byte))) : Prop := {
  pl_udp : feeds last (all_states o) us;
  pl_tcp : exists t1 t2, answer id MsMotionStarted t1 /\ answer id MsSuccess t2 /\ ts = t1 ++ repeat None (S (List.length (mo_before o))) ++ t2;
  pl_before : Forall (fun x => ~ as_requested k x) (mo_before o);
  pl_shown : as_requested k (mo_shown o);
  pl_run : Forall (fun x => rs_robot_mode x = RmMove /\ as_requested k x) (run_states o);
  pl_ending : Forall in_motion (mo_ending o);
  pl_last : stopped (mo_last o)
}.
(** [n] settings accepted, the first with number [id]. *)
Fixpoint accepted (id : N) (n : nat) (ts : list (option (N * list byte))) : Prop :=
  match n with
  | O => ts = []
  | S n => exists t1 t2, ts = t1 ++ t2 /\ answered c_setter_response id GsSuccess t1 /\ accepted (succ_id id) n t2
  end.
(** States which a robot reports during a motion from a position within reach: moderate numbers, in order. *)
Record reports (x : robot_state_intern) (xs : list robot_state_intern) : Prop := {
  rp_sound : Forall sound (x :: xs);
  rp_order : newer (rs_message_id x) xs;
  rp_reach : in_reach (map of_bits (rs_q_d x))
}.
Lemma half_request : request_ok 0x3FE0000000000000 start_position.
Proof.
  split.
  - destruct (val_finite (of_bits 0x3FE0000000000000) false 4503599627370496 (-53)) as [F V]; [vm_compute; reflexivity|]. split; [exact F|]. rewrite V. cbn [cond_Zopp].
    change (bpow radix2 (-53)) with (/ 9007199254740992)%R. lra.
  - split; [reflexivity|]. apply Forall_map. pose proof C74_start_position as C. pose proof PI_4. pose proof PI_RGT_0.
    assert (G : forall l rs, Forall2 (fun b r => b64_fin (of_bits b) = true /\ (Rabs (val (of_bits b) - r) <= 1 / 10 ^ 15)%R) l rs -> Forall (fun r => Rabs r <= 7 / 2)%R rs ->
      Forall (fun b => b64_fin (of_bits b) = true /\ (Rabs (val (of_bits b)) <= 4)%R) l).
    { clear. intros l rs A. induction A as [|b r l rs [F V] A IH]; intros B; [constructor|]. inversion B as [|? ? B1 B2]. subst. constructor; [|apply IH, B2]. split; [exact F|].
      apply Rabs_le_inv in V. apply Rabs_le_inv in B1. apply Rabs_le. lra. }
    apply (G _ _ C). pose proof PiBounds.pi_bounds as P. repeat (apply Forall_cons; [apply Rabs_le; lra|]). constructor.
Qed.
Lemma start_reached : forall rots x1 xs1, Forall sound (x1 :: xs1) -> newer (rs_message_id x1) xs1 -> in_reach (map of_bits (rs_q_d x1)) ->
  (exists z, In z xs1 /\ rs_message_id x1 + 14002 <= rs_message_id z) -> exists pre y post, x1 :: xs1 = pre ++ y :: post /\
    finishes (controller_of rots joint_motion) (joint_motion_start 0x3FE0000000000000 start_position) (rs_message_id x1) zero_motion (pre ++ [y]).
Proof.
  intros rots x1 xs1 So1 Nw1 Re1 (z1 & I1 & Z1).
  destruct (C67_ends 0x3FE0000000000000 start_position x1 xs1 half_request So1 Re1 Nw1) as (pre & y & post & os & o & E & G & F & Go & Fo & _).
    - exists z1. split; [exact I1|]. unfold number, moment.
      destruct (val_finite (of_bits 0x3FE0000000000000) false 4503599627370496 (-53)) as [_ V]; [vm_compute; reflexivity|]. rewrite V. cbn [cond_Zopp].
      change (bpow radix2 (-53)) with (/ 9007199254740992)%R. apply Rle_trans with 14002%R; [lra|]. rewrite <- minus_IZR. apply IZR_le. lia.
    - exists pre, y, post. split; [exact E|]. apply (gives_finishes rots joint_motion eq_refl joint_motion_cutoff ltac:(discriminate) pre _ _ _ os y o); auto.
      rewrite E in So1. apply Forall_app in So1. destruct So1 as [S1 S2]. inversion S2; subst. apply Forall_app. split; [exact S1|]. constructor; [assumption|constructor].
Qed.
Lemma cut_at : forall (x : robot_state_intern) xs pre y post, x :: xs = pre ++ y :: post -> (List.length pre <= List.length xs)%nat /\ x :: firstn (List.length pre) xs = pre ++ [y].
Proof.
  intros x xs [|a pre] y post E; cbn [app] in E; injection E as -> ->; [split; [cbn; lia|reflexivity]|]. cbn [List.length app].
    rewrite app_length. cbn [List.length]. split; [lia|]. f_equal. replace (S (List.length pre)) with (List.length pre + 1)%nat by lia. rewrite firstn_app_2. reflexivity.
Qed.
Theorem C76_succeeds : forall rots f_cos f_sin f_floor f_powf f_fmod e x1 xs1 x2 xs2,
  usual_functions f_cos f_sin f_floor f_powf f_fmod -> joint_or_twist e -> reports x1 xs1 -> reports x2 xs2 ->
  (exists z, In z xs1 /\ rs_message_id x1 + 14002 <= rs_message_id z) ->
  (exists z, In z xs2 /\ rs_message_id x2 + Z.to_N (1000 * lasts e) < rs_message_id z) ->
  Forall (fun z => rs_message_id z <= rs_message_id x2 + 3600000) xs2 ->
  exists n1 n2, (n1 <= List.length xs1)%nat /\ (n2 <= List.length xs2)%nat /\
  forall port size rt x ch v t tset o1 us1 ts1 o2 us2 ts2 urest trest realtime priority,
  let prog := program_of f_cos f_sin f_floor f_powf f_fmod e in
  let n := 4 + N.of_nat (List.length (prior e)) in
  (0 < size)%nat -> rt = RtIgnore \/ (realtime = true /\ priority = true) ->
  burst state_size state_decode x ch -> stopped x -> answered c_connect_response 0 (CsSuccess, v) t -> accepted 1 (3 + List.length (prior e)) tset ->
  plays (controller_of rots joint_motion) n (rs_message_id x) o1 us1 ts1 -> run_states o1 = x1 :: firstn n1 xs1 ->
  plays (controller_of rots (e_user prog)) (n + 1) (rs_message_id (mo_last o1)) o2 us2 ts2 -> run_states o2 = x2 :: firstn n2 xs2 ->
  exists s', run_example rots prog port (st_init size rt (ch ++ (us1 ++ us2) ++ urest) (t ++ (tset ++ ts1 ++ ts2) ++ trest) [] realtime priority) = (Ok tt, s') /\ ready urest trest s'.
Proof.
  intros rots f_cos f_sin f_floor f_powf f_fmod e x1 xs1 x2 xs2 Us He [So1 Nw1 Re1] [So2 Nw2 Re2] (z1 & I1 & Z1) (z2 & I2 & Z2) Hb.
  pose proof (start_reached rots x1 xs1 So1 Nw1 Re1 (ex_intro _ z1 (conj I1 Z1))) as Fi1.
  destruct Fi1 as (pre1 & y1 & post1 & E1 & F1).
  destruct (C76_ends rots f_cos f_sin f_floor f_powf f_fmod e x2 xs2 Us He So2 Nw2 (fun _ => Re2) Hb) as (pre2 & y2 & post2 & E2 & _ & _ & F2).
  { exists z2. split; [exact I2|]. clear - Z2 He. destruct He as [ -> | [ -> | -> ] ]; cbn [lasts] in *; lia. }
  destruct (cut_at _ _ _ _ _ E1) as [C1 K1]. destruct (cut_at _ _ _ _ _ E2) as [C2 K2].
  exists (List.length pre1), (List.length pre2). split; [exact C1|]. split; [exact C2|].
  intros port size rt x ch v t tset o1 us1 ts1 o2 us2 ts2 urest trest realtime priority prog n Sz Rt B St An Ac P1 R1 P2 R2.
  rewrite K1 in R1. rewrite K2 in R2.
  assert (M1 : mo_first o1 = x1) by (rewrite <- K1 in R1; injection R1 as -> _; reflexivity).
  assert (M2 : mo_first o2 = x2) by (rewrite <- K2 in R2; injection R2 as -> _; reflexivity).
  assert (S1 : serves n (rs_message_id x) (AControl (controller_of rots joint_motion) (joint_motion_start 0x3FE0000000000000 start_position)) us1 ts1 (succ_id n) (rs_message_id (mo_last o1))).
  { destruct P1. apply serves_control. constructor; try assumption. rewrite M1, R1. exact F1. }
  assert (S2 : serves (n + 1) (rs_message_id (mo_last o1)) (AControl (controller_of rots (e_user prog)) (e_start prog)) us2 ts2 (succ_id (n + 1)) (rs_message_id (mo_last o2))).
  { destruct P2. apply serves_control. constructor; try assumption. rewrite M2, R2. exact F2. }
  apply (C76_live rots f_cos f_sin f_floor f_powf f_fmod e port size rt x ch v t (us1 ++ us2) (tset ++ ts1 ++ ts2) urest trest realtime priority Sz Rt B St An).
  fold prog.
  set (kj := controller_of rots joint_motion) in *. set (gj := joint_motion_start 0x3FE0000000000000 start_position) in *. change (u_cb joint_motion) with (k_cb kj) in gj. clearbody gj.
  set (k := controller_of rots (e_user prog)) in *. change (u_cb (e_user prog)) with (k_cb k) in *. set (start := e_start prog) in *.
  assert (Sn : succ_id n = n + 1) by (unfold n; clear; destruct e; reflexivity).
  assert (Tail : session n (rs_message_id x) [AControl kj gj; AControl k start] (us1 ++ us2) (ts1 ++ ts2)).
  { eapply session_call; [exact S1|]. rewrite Sn. rewrite <- (app_nil_r us2), <- (app_nil_r ts2). eapply session_call; [exact S2|]. constructor. }
  assert (Sets : forall rs id last l us ts tset, accepted id (List.length rs) tset -> session (N.iter (N.of_nat (List.length rs)) succ_id id) last l us ts ->
    session id last (map ASetter rs ++ l) us (tset ++ ts)).
  { clear. induction rs as [|r rs IH]; intros id last l us ts tset A S.
    - cbn [List.length accepted] in A. subst tset. exact S.
    - cbn [List.length accepted] in A. destruct A as (t1 & t2 & -> & A1 & A2). cbn [map app]. rewrite <- app_assoc. change us with ([] ++ us).
      eapply session_call; [apply serves_setter; exact A1|]. apply IH; [exact A2|].
      cbn [List.length] in S. rewrite Nat2N.inj_succ, <- N.add_1_r, N.iter_add in S. exact S. }
  cbn [Nat.add accepted] in Ac. destruct Ac as (a1 & r1 & -> & A1 & a2 & r2 & -> & A2 & a3 & r3 & -> & A3 & Ar).
  cbn [app]. change (us1 ++ us2) with ([] ++ (us1 ++ us2)). replace ((a1 ++ a2 ++ a3 ++ r3) ++ ts1 ++ ts2) with ((a1 ++ a2 ++ a3) ++ r3 ++ ts1 ++ ts2) by (rewrite <- !app_assoc; reflexivity).
  eapply session_call; [apply serves_defaults; eassumption|]. apply Sets; [exact Ar|].
  replace (N.iter (N.of_nat (List.length (prior e))) succ_id (succ_id (succ_id (succ_id 1)))) with n by (unfold n; clear; destruct e; reflexivity). exact Tail.
Qed.
Print Assumptions C76_succeeds.

(** * Examples *)
(** The remainder of positive numbers, exactly. *)
Definition ex_fmod (x y : F float) : F float :=
  match x, y with
  | B754_finite _ _ _ mx ex _, B754_finite _ _ _ my ey _ =>
      let e := Z.min ex ey in
      binary_normalize 53 1024 eq_refl eq_refl mode_NE ((Zpos mx * 2 ^ (ex - e)) mod (Zpos my * 2 ^ (ey - e))) e false
  | _, _ => x
  end.
Lemma ex_fmod_ok : forall x y, b64_fin x = true -> b64_fin y = true -> (0 <= val x)%R -> (0 < val y)%R ->
  b64_fin (ex_fmod x y) = true /\ exists n, val (ex_fmod x y) = (val x - IZR n * val y)%R /\ (0 <= val x - IZR n * val y < val y)%R.
Proof.
  intros x y Fx Fy Px Py.
  destruct x as [sx|sx|sx px ox|sx mx ex Bx]; try discriminate Fx.
  { split; [reflexivity|]. exists 0%Z. cbn [ex_fmod]. change (val (B754_zero _ _ sx)) with 0%R. lra. }
  destruct y as [sy|sy|sy py oy|sy my ey By]; try discriminate Fy; [change (val (B754_zero _ _ sy)) with 0%R in Py; lra|].
  assert (Sx : sx = false).
  { destruct sx; [|reflexivity]. exfalso. apply (Rle_not_lt _ _ Px). unfold val, Binary.B2R, F2R. cbn [Fnum Fexp cond_Zopp]. apply Ropp_lt_cancel. rewrite Ropp_0, Ropp_mult_distr_l, <- opp_IZR.
    apply Rmult_lt_0_compat; [apply IZR_lt; reflexivity|apply bpow_gt_0]. }
  assert (Sy : sy = false).
  { destruct sy; [|reflexivity]. exfalso. apply (Rlt_asym _ _ Py). unfold val, Binary.B2R, F2R. cbn [Fnum Fexp cond_Zopp]. apply Ropp_lt_cancel. rewrite Ropp_0, Ropp_mult_distr_l, <- opp_IZR.
    apply Rmult_lt_0_compat; [apply IZR_lt; reflexivity|apply bpow_gt_0]. }
  subst sx sy. cbn [ex_fmod]. set (e := Z.min ex ey).
  assert (Vx : (val (B754_finite 53 1024 false mx ex Bx) = IZR (Z.pos mx * 2 ^ (ex - e)) * bpow radix2 e)%R).
  { change (val (B754_finite 53 1024 false mx ex Bx)) with (IZR (Z.pos mx) * bpow radix2 ex)%R. rewrite mult_IZR, (IZR_Zpower radix2) by (unfold e; lia). rewrite Rmult_assoc, <- bpow_plus. do 2 f_equal. lia. }
  assert (Vy : (val (B754_finite 53 1024 false my ey By) = IZR (Z.pos my * 2 ^ (ey - e)) * bpow radix2 e)%R).
  { change (val (B754_finite 53 1024 false my ey By)) with (IZR (Z.pos my) * bpow radix2 ey)%R. rewrite mult_IZR, (IZR_Zpower radix2) by (unfold e; lia). rewrite Rmult_assoc, <- bpow_plus. do 2 f_equal. lia. }
  assert (Ly : (val (B754_finite 53 1024 false my ey By) < bpow radix2 1024)%R).
  { eapply Rle_lt_trans; [apply Rle_abs|]. apply Binary.abs_B2R_lt_emax. }
  assert (Range : forall m ex, SpecFloat.bounded 53 1024 m ex = true -> (Z.pos m < 2 ^ 53 /\ -1074 <= ex)%Z).
  { clear. intros m ex B. apply andb_prop in B. destruct B as [B _]. apply Zeq_bool_eq in B.
    unfold SpecFloat.fexp, SpecFloat.emin in B. rewrite Digits.Zpos_digits2_pos in B. split; [|lia].
    assert (D : (Zdigits radix2 (Z.pos m) <= 53)%Z) by lia. apply Digits.Zpower_gt_Zdigits in D. change (Z.abs (Z.pos m)) with (Z.pos m) in D. exact D. }
  destruct (Range _ _ Bx) as [Rx Ex]. destruct (Range _ _ By) as [Ry Ey]. clear Range.
  set (X := (Z.pos mx * 2 ^ (ex - e))%Z) in *. set (Y := (Z.pos my * 2 ^ (ey - e))%Z) in *.
  assert (PX : (0 < X)%Z) by (apply Z.mul_pos_pos; [lia|apply Z.pow_pos_nonneg; unfold e; lia]).
  assert (PY : (0 < Y)%Z) by (apply Z.mul_pos_pos; [lia|apply Z.pow_pos_nonneg; unfold e; lia]).
  pose proof (Z.mod_pos_bound X Y PY) as Bm.
  assert (Small : (X mod Y < 2 ^ 53)%Z).
  { destruct (Z.le_gt_cases ey ex) as [L|L].
    - assert (Y = Z.pos my) by (unfold Y, e; rewrite Z.min_r, Z.sub_diag by lia; lia). lia.
    - assert (X = Z.pos mx) by (unfold X, e; rewrite Z.min_l, Z.sub_diag by lia; lia). pose proof (Z.mod_le X Y). lia. }
  assert (Diff : (IZR (X mod Y) * bpow radix2 e = val (B754_finite 53 1024 false mx ex Bx) - IZR (X / Y) * val (B754_finite 53 1024 false my ey By))%R).
  { rewrite Vx, Vy, Z.mod_eq, minus_IZR, mult_IZR by lia. ring. }
  assert (Bd : (0 <= IZR (X mod Y) * bpow radix2 e < val (B754_finite 53 1024 false my ey By))%R).
  { rewrite Vy. pose proof (bpow_gt_0 radix2 e). split; [apply Rmult_le_pos; [apply IZR_le; lia|lra]|apply Rmult_lt_compat_r; [lra|apply IZR_lt; lia]]. }
  pose proof (Binary.binary_normalize_correct 53 1024 eq_refl eq_refl mode_NE (X mod Y) e false) as C.
  assert (Rd : round radix2 (SpecFloat.fexp 53 1024) (round_mode mode_NE) (F2R (Float radix2 (X mod Y) e)) = (IZR (X mod Y) * bpow radix2 e)%R).
  { apply round_generic; [apply valid_rnd_N|]. apply generic_format_FLT. exists (Float radix2 (X mod Y) e); [reflexivity|cbn [Fnum]; rewrite Z.abs_eq by lia; exact Small|cbn [Fexp]; unfold e, SpecFloat.emin; lia]. }
  rewrite Rd in C. rewrite Rlt_bool_true in C by (rewrite Rabs_pos_eq by apply Bd; lra). destruct C as (C1 & C2 & _).
  split; [exact C2|]. exists (X / Y)%Z. rewrite <- Diff. split; [exact C1|exact Bd].
Qed.
Lemma ex_usual : usual_functions ex_zero1 ex_zero1 ex_same ex_one2 ex_fmod.
Proof.
  assert (Z : forall x, b64_fin (ex_zero1 x) = true /\ (Rabs (val (ex_zero1 x)) <= 1)%R).
  { intros x. split; [vm_compute; reflexivity|]. assert (V : val (ex_zero1 x) = 0%R) by (unfold ex_zero1, val; rewrite <- Binary.FF2R_B2FF; replace (Binary.B2FF 53 1024 (f_int float 0)) with (F754_zero false) by (vm_compute; reflexivity); reflexivity). rewrite V, Rabs_R0. lra. }
  constructor; try (intros x _; apply Z).
  - exact ex_fmod_ok.
  - intros y n _ _. unfold ex_one2. destruct (val_finite (f_int float 1) false 4503599627370496 (-52)) as [F V]; [vm_compute; reflexivity|]. split; [exact F|].
    left. rewrite V. cbn [cond_Zopp]. change (bpow radix2 (-52)) with (/ 4503599627370496)%R. lra.
  - intros x n F V. split; [exact F|exact V].
Qed.
Lemma moving_sound : forall m id, u64_ok id -> sound (ex_moving m id).
Proof.
  assert (Z : forall n, Forall angle (repeat 0 n)).
  { intros n. apply Forall_forall. intros b Hb. apply repeat_spec in Hb. subst b. exact zero_angle. }
  assert (A : forall n, arr_ok n (repeat 0 n)).
  { intros n. split; [apply repeat_length|]. apply Forall_forall. intros b Hb. apply repeat_spec in Hb. subst b. reflexivity. }
  intros m id H. constructor; try apply Z; try exact zeros_velocity.
  - repeat split; try exact H; repeat (first [apply Forall_nil|apply Forall_cons; [apply A|]]).
  - split; apply Z.
  - exact zero_angle.
  - split; [apply zero_angle|]. change (number (nth 0 (rs_delbow_c (ex_moving m id)) 0%N)) with 0%R. rewrite Rabs_R0. unfold robot_elbow_velocity. lra.
Qed.
(** A robot which shows the beginning of the motion and, at most, one state 16 s later. *)
Definition ex_motion76 (m : mg_mode) (b : N) (n : nat) : motion :=
  Motion [] (ex_moving m b) (ex_moving m (b + 1)) (firstn n [ex_moving m (b + 16000)]) [] (ex_idle (b + 20000)).
Lemma ex_plays : forall k m b n id last, In (m, b) [(MgJointPosition, 30000); (MgJointVelocity, 60000)] -> (n <= 1)%nat -> last < b ->
  (forall x, rs_motion_generator_mode x = m -> rs_controller_mode x = CmJointImpedance -> as_requested k x) ->
  (exists h, deserialize c_move_response (serialize c_move_response ((RcMove, (id, 13)), MsMotionStarted)) = Some (h, MsMotionStarted)) ->
  (exists h, deserialize c_move_response (serialize c_move_response ((RcMove, (id, 13)), MsSuccess)) = Some (h, MsSuccess)) ->
  plays k id last (ex_motion76 m b n) (ex_states (all_states (ex_motion76 m b n))) [ex_move id MsMotionStarted; None; ex_move id MsSuccess].
Proof.
  intros k m b n id last Hm Hn Hl Rq [h1 D1] [h2 D2]. constructor.
  - assert (Id : forall id m c r, rs_message_id (ex_rs id m c r) = id) by reflexivity.
    apply ex_feeds.
    + destruct n as [|[|n]]; [| |lia]; cbn [newer all_states run_states ex_motion76 mo_before mo_shown mo_first mo_during mo_ending mo_last app firstn]; unfold ex_moving, ex_idle; rewrite !Id; repeat split; lia.
    + cbn [In] in Hm. destruct Hm as [Hm|[Hm|[]]]; injection Hm as <- <-; (destruct n as [|[|n]]; [| |lia]); repeat constructor; decodes.
  - exists [ex_move id MsMotionStarted], [ex_move id MsSuccess]. split; [|split; [|reflexivity]].
    + exists 0%nat. eexists. exists h1. split; [reflexivity|exact D1].
    + exists 0%nat. eexists. exists h2. split; [reflexivity|exact D2].
  - constructor.
  - apply Rq; reflexivity.
  - destruct n as [|[|n]]; [| |lia]; repeat constructor; apply Rq; reflexivity.
  - constructor.
  - split; [reflexivity|discriminate].
Qed.
Example C76_ex_succeeds : exists n1 n2 s',
  run_example ex_rots (program_of ex_zero1 ex_zero1 ex_same ex_one2 ex_fmod ExVelocity) 1337
    (st_init 10 RtIgnore (ex_first (ex_idle 1) ++ (ex_states (all_states (ex_motion76 MgJointPosition 30000 n1)) ++ ex_states (all_states (ex_motion76 MgJointVelocity 60000 n2))) ++ [])
      ([ex_connected 0] ++ ([ex_set RcSetCollisionBehavior 1 GsSuccess; ex_set RcSetJointImpedance 2 GsSuccess; ex_set RcSetCartesianImpedance 3 GsSuccess; ex_set RcSetCollisionBehavior 4 GsSuccess] ++
        [ex_move 5 MsMotionStarted; None; ex_move 5 MsSuccess] ++ [ex_move 6 MsMotionStarted; None; ex_move 6 MsSuccess]) ++ []) [] true true) = (Ok tt, s') /\ ready [] [] s'.
Proof.
  assert (Rp : forall m b, u64_ok (b + 1) -> u64_ok (b + 16000) -> reports (ex_moving m (b + 1)) [ex_moving m (b + 16000)]).
  { intros m b B1 B2. constructor; [repeat (apply Forall_cons; [apply moving_sound; assumption|]); apply Forall_nil| |exact ex_zeros].
    change (newer (b + 1) [ex_moving m (b + 16000)]). cbn [newer]. split; [change (b + 1 < b + 16000); lia|exact Logic.I]. }
  destruct (C76_succeeds ex_rots ex_zero1 ex_zero1 ex_same ex_one2 ex_fmod ExVelocity (ex_moving MgJointPosition 30001) [ex_moving MgJointPosition 46000]
    (ex_moving MgJointVelocity 60001) [ex_moving MgJointVelocity 76000] ex_usual (or_intror (or_introl eq_refl))) as (n1 & n2 & L1 & L2 & G).
  - apply (Rp _ 30000); reflexivity.
  - apply (Rp _ 60000); reflexivity.
  - eexists. split; [left; reflexivity|]. change (30001 + 14002 <= 46000). lia.
  - eexists. split; [left; reflexivity|]. change (60001 + 2000 < 76000). lia.
  - constructor; [|constructor]. change (76000 <= 60001 + 3600000). lia.
  - exists n1, n2. apply (G 1337 10%nat RtIgnore (ex_idle 1) (ex_first (ex_idle 1)) 5 [ex_connected 0] _ (ex_motion76 MgJointPosition 30000 n1) _ _ (ex_motion76 MgJointVelocity 60000 n2)).
    + lia.
    + left. reflexivity.
    + first_brought.
    + split; [reflexivity|discriminate].
    + eapply (ex_answered _ _ _ 0); decodes.
    + exists [ex_set RcSetCollisionBehavior 1 GsSuccess]. eexists. split; [reflexivity|]. split; [eapply (ex_answered _ _ _ 0); decodes|].
      exists [ex_set RcSetJointImpedance 2 GsSuccess]. eexists. split; [reflexivity|]. split; [eapply (ex_answered _ _ _ 0); decodes|].
      exists [ex_set RcSetCartesianImpedance 3 GsSuccess]. eexists. split; [reflexivity|]. split; [eapply (ex_answered _ _ _ 0); decodes|].
      exists [ex_set RcSetCollisionBehavior 4 GsSuccess]. eexists. split; [reflexivity|]. split; [eapply (ex_answered _ _ _ 0); decodes|reflexivity].
    + apply ex_plays; [left; reflexivity|exact L1|reflexivity|intros x Hm Hc; split; [exact Hm|exact Hc]|eexists; decodes|eexists; decodes].
    + reflexivity.
    + apply ex_plays; [right; left; reflexivity|exact L2|reflexivity|intros x Hm Hc; split; [exact Hm|exact Hc]|eexists; decodes|eexists; decodes].
    + reflexivity.
Qed.
