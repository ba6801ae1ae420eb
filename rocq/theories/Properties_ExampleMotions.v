(** C70: the motions generated by the example programs, in exact arithmetic. *)
From Coq Require Import List ZArith NArith Bool Reals Lra Lia.
From Verif Require Import NumOps NumReal RateModel RateReal RateSpec PiBounds Waves ExampleMotions Properties_Rate.
Import ListNotations.
Open Scope R_scope.

(** The functions which the examples use, on real numbers.  [r_powf] and [r_fmod] are used for a
    whole exponent and for arguments which are not negative. *)
Definition r_floor (x : R) : R := IZR (Int_part x).
Definition r_powf (a b : R) : R := powerRZ a (Int_part b).
Definition r_fmod (x y : R) : R := x - y * IZR (Int_part (x / y)).
Definition r_seconds (ms : N) : R := IZR (Z.of_N ms) / 1000.

(** * Times of the calls *)
(** The times, in milliseconds, at which a callback is called which finishes at the time [stop]. *)
Fixpoint instants (stop t : N) (steps : list N) : list N :=
  match steps with
  | [] => []
  | dt :: r => let t := (t + dt)%N in t :: (if (stop <=? t)%N then [] else instants stop t r)
  end.
Lemma seconds_add : forall a b, r_seconds a + r_seconds b = r_seconds (a + b).
Proof. intros a b. unfold r_seconds. rewrite N2Z.inj_add, plus_IZR. lra. Qed.
Lemma real_ge : forall t (k : Z) n, r_seconds n = IZR k -> f_ge real (r_seconds t) (IZR k) = (n <=? t)%N.
Proof.
  intros t k n H. rewrite <- H. unfold f_ge. cbn [f_lt f_eq real]. unfold r_seconds.
  destruct (N.leb_spec n t) as [L|L].
  - apply N2Z.inj_le, IZR_le in L. destruct (Rlt_dec _ _); [reflexivity|]. destruct (Req_EM_T _ _); [reflexivity|lra].
  - apply N2Z.inj_lt, IZR_lt in L. destruct (Rlt_dec _ _); [lra|]. destruct (Req_EM_T _ _); [lra|reflexivity].
Qed.
Lemma seconds_pos : forall t, (0 < t)%N -> 0 < r_seconds t.
Proof. intros t H. unfold r_seconds. apply N2Z.inj_lt, IZR_lt in H. cbn in H. lra. Qed.

(** A callback which keeps what it reads first. *)
Section Keeping.
  Context {X Y : Type} (step : R * X -> X -> N -> (R * X) * (Y * bool)) (curve : X -> N -> Y) (stop : N).
  Hypothesis Hstep : forall t x y dt, step (r_seconds t, x) y dt =
    let kept := if (t + dt =? 0)%N then y else x in
    ((r_seconds (t + dt), kept), (curve kept (t + dt), (stop <=? t + dt)%N)).
  Lemma keeping_later : forall calls t x, (0 < t)%N \/ Forall (fun c => (0 < snd c)%N) calls ->
    outputs step (r_seconds t, x) calls = map (fun ms => (curve x ms, (stop <=? ms)%N)) (instants stop t (map snd calls)).
  Proof.
    induction calls as [|[y dt] calls IH]; intros t x H; [reflexivity|]. cbn [outputs map snd instants]. rewrite Hstep. cbv zeta.
    assert (P : (0 < t + dt)%N). { destruct H as [H|H]; [lia|]. inversion H; subst. cbn in *. lia. }
    destruct (N.eqb_spec (t + dt) 0) as [E|_]; [lia|]. cbn [snd map]. f_equal.
    destruct (stop <=? t + dt)%N; [reflexivity|]. apply IH. left. exact P.
  Qed.
  Lemma keeping : forall x y calls, Forall (fun c => (0 < snd c)%N) calls -> 
    outputs step (r_seconds 0, y) ((x, 0%N) :: calls) =
    map (fun ms => (curve x ms, (stop <=? ms)%N)) (instants stop 0 (0%N :: map snd calls)).
  Proof.
    intros x y calls H. cbn [outputs map snd instants]. rewrite Hstep. cbn [snd N.add N.eqb map]. f_equal.
    destruct (stop <=? 0)%N; [reflexivity|]. apply keeping_later. right. exact H.
  Qed.
End Keeping.

(** * Joint positions *)
(** What the fourth, the fifth and the seventh joint do: pi/8 (1 - cos (pi/2.5 t)). *)
Definition position_curve (q0 : list R) (ms : N) : list R :=
  match q0 with
  | [a; b; c; d; e; f; g] =>
      let w := PI / 8 * (1 - cos (PI / (5 / 2) * (IZR (Z.of_N ms) / 1000))) in [a; b; c; d + w; e + w; f; g + w]
  | _ => q0
  end.
Definition position_outputs : list (list R * N) -> list (list R * bool) :=
  outputs (position_step real cos r_seconds) (position_start real).

(** Whatever states arrive and however many are lost: the callback moves three joints along the
    curve from the position commanded when the motion starts, and says so when five seconds are
    over. *)
Theorem C70_joint_positions : forall q0 calls, joints q0 -> Forall (fun c => (0 < snd c)%N) calls ->
  position_outputs ((q0, 0%N) :: calls) =
  map (fun ms => (position_curve q0 ms, (5000 <=? ms)%N)) (instants 5000 0 (0%N :: map snd calls)).
Proof.
  intros q0 calls _ H. unfold position_outputs, position_start.
  replace (f_int real 0) with (r_seconds 0) by (unfold r_seconds; cbn; lra).
  apply (keeping (position_step real cos r_seconds) position_curve 5000); [|exact H].
  intros t x y dt. unfold position_step. cbn [fst snd f_add f_int f_eq f_div f_mul f_sub f_pi f_lit real]. unfold f_lit.
  cbn [f_div f_int real]. rewrite seconds_add.
  assert (E : (if Req_EM_T (r_seconds (t + dt)) 0 then true else false) = (t + dt =? 0)%N).
  { destruct (N.eqb_spec (t + dt) 0) as [->|N0]; destruct (Req_EM_T _ _) as [Q|Q]; auto; exfalso.
    - apply Q. unfold r_seconds. cbn. lra.
    - pose proof (seconds_pos (t + dt)). lra || (assert (0 < t + dt)%N by lia; specialize (H0 H1); lra). }
  rewrite E. rewrite (real_ge (t + dt) 5 5000) by (unfold r_seconds; cbn; lra). cbv zeta. reflexivity.
Qed.
Print Assumptions C70_joint_positions.

(** * The limits *)
Lemma abs_range : forall x a, Rabs x <= a -> - a <= x <= a.
Proof. intros x a H. unfold Rabs in H. destruct (Rcase_abs x); lra. Qed.
(** Slow and smooth enough for every joint. *)
Definition easy (v lv la : R) : Prop :=
  Rabs lv <= 1 /\ Rabs ((v - lv) / cycle) <= 7 /\ Rabs (((v - lv) / cycle - la) / cycle) <= 3000.
Lemma easy_respects : forall V A J v lv la, 2 <= V -> 7 <= A -> 3000 <= J -> 100 * A <= J -> easy v lv la -> respects V A J v lv la.
Proof.
  intros V A J v lv la HV HA HJ HK (H1 & H2 & H3). unfold respects. set (a := (v - lv) / cycle) in *.
  set (j := (a - la) / cycle) in *. clearbody a j.
  assert (K : 100 <= J / A). { apply Rmult_le_reg_r with A; [lra|]. unfold Rdiv. rewrite Rmult_assoc, Rinv_l by lra. lra. }
  apply abs_range in H1. apply abs_range in H2.
  split; [lra|]. split; [apply Rabs_le; lra|]. set (k := J / A) in *. clearbody k.
  assert (k * 1 <= k * (V - lv)) by (apply Rmult_le_compat_l; lra).
  assert (k * (- V - lv) <= k * (-1)) by (apply Rmult_le_compat_l; lra). lra.
Qed.
Lemma joint_respects : forall v1 v2 v3 v4 v5 v6 v7 l1 l2 l3 l4 l5 l6 l7 a1 a2 a3 a4 a5 a6 a7,
  easy v1 l1 a1 -> easy v2 l2 a2 -> easy v3 l3 a3 -> easy v4 l4 a4 -> easy v5 l5 a5 -> easy v6 l6 a6 -> easy v7 l7 a7 ->
  all_respect MV MA MJ [v1; v2; v3; v4; v5; v6; v7] [l1; l2; l3; l4; l5; l6; l7] [a1; a2; a3; a4; a5; a6; a7].
Proof.
  intros. unfold MV, MA, MJ, MAX_JOINT_VELOCITY, MAX_JOINT_ACCELERATION, MAX_JOINT_JERK, LIMIT_EPS, TOL_NUMBER_PACKETS_LOST, f_lit.
  cbn [map map2 f_sub f_div f_int f_mul real]. rewrite delta_real. unfold T.
  repeat (apply respect_cons; [apply easy_respects; [lra|lra|lra|lra|assumption]|]). apply respect_nil.
Qed.
Lemma easy_rest : easy 0 0 0.
Proof. unfold easy, cycle. replace ((0 - 0) / (1 / 1000)) with 0 by lra. replace ((0 - 0) / (1 / 1000)) with 0 by lra. rewrite Rabs_R0. lra. Qed.

(** Samples of a curve which starts from rest: three zeros, then the values at 0 ms, 1 ms, ... *)
Section Samples.
  Variable w : N -> R.
  Definition sample (n : nat) : R := match n with O | S O | S (S O) => 0 | S (S (S k)) => w (N.of_nat k) end.
  Definition speed_at (n : nat) : R := (sample (S n) - sample n) / cycle.
  Definition acceleration_at (n : nat) : R := (speed_at (S n) - speed_at n) / cycle.
  (** Bounds of the first three differences. *)
  Definition gentle (n : nat) : Prop :=
    Rabs (sample (S (S n)) - sample (S n)) <= 1 / 1000 /\
    Rabs (sample (S (S (S n))) - 2 * sample (S (S n)) + sample (S n)) <= 7 / 1000000 /\
    Rabs (sample (S (S (S n))) - 3 * sample (S (S n)) + 3 * sample (S n) - sample n) <= 3000 / 1000000000.
  Lemma gentle_easy : forall n, gentle n -> easy (speed_at (S (S n))) (speed_at (S n)) (acceleration_at n).
  Proof.
    intros n (H1 & H2 & H3). unfold easy, acceleration_at, speed_at, cycle.
    set (a := sample n) in *. set (b := sample (S n)) in *. set (c := sample (S (S n))) in *. set (d := sample (S (S (S n)))) in *. clearbody a b c d.
    apply abs_range in H1, H2, H3. split; [|split]; apply Rabs_le; lra.
  Qed.
End Samples.

(** The curve A (1 - cos (k th)). *)
Lemma wave_gentle : forall A th (w : N -> R) n, 0 <= A -> 0 <= th <= 1 ->
  (forall k, (k <= n)%nat -> w (N.of_nat k) = wave A (INR k * th)) ->
  A * th <= 1 / 1000 -> A * th * th <= 3 / 1000000 -> A * th * th * th <= 3000 / 1000000000 -> gentle w n.
Proof.
  intros A th w n HA Hth Hw H1 H2 H3. unfold gentle.
  assert (W0 : w (N.of_nat 0) = 0). { rewrite (Hw 0%nat) by lia. cbn [INR]. rewrite Rmult_0_l. apply wave_0. }
  assert (P1 : 0 <= A * th * th). { apply Rmult_le_pos; [apply Rmult_le_pos; lra|lra]. }
  destruct n as [|[|[|n]]]; unfold sample.
  - rewrite W0. split; [|split]; apply Rabs_le; lra.
  - rewrite (Hw 1%nat) by lia. cbn [INR]. rewrite Rmult_1_l, W0.
    pose proof (wave_first A th HA (proj1 Hth)) as W.
    split; [|split]; apply Rabs_le; lra.
  - rewrite (Hw 1%nat), (Hw 2%nat) by lia. cbn [INR]. rewrite Rmult_1_l, W0. replace ((1 + 1) * th) with (th + th) by ring.
    pose proof (wave_first A th HA (proj1 Hth)) as W. pose proof (wave_second_first A th HA (proj1 Hth)) as S.
    pose proof (wave_third_first A th HA (proj1 Hth) (proj2 Hth)) as D. apply abs_range in S, D.
    assert (A * th * th <= 1 / 1000) by lra.
    split; [|split]; apply Rabs_le; lra.
  - rewrite (Hw n), (Hw (S n)), (Hw (S (S n))), (Hw (S (S (S n)))) by lia. rewrite !S_INR.
    replace ((INR n + 1 + 1 + 1) * th) with (INR n * th + th + th + th) by ring.
    replace ((INR n + 1 + 1) * th) with (INR n * th + th + th) by ring. replace ((INR n + 1) * th) with (INR n * th + th) by ring.
    pose proof (wave_d1 A th HA (proj1 Hth) (INR n * th + th)) as D1. pose proof (wave_d2 A th HA (proj1 Hth) (INR n * th + th)) as D2.
    pose proof (wave_d3 A th HA (proj1 Hth) (INR n * th)) as D3. lra.
Qed.

(** One call per millisecond. *)
Definition every_ms {X} (x : X) (xs : list X) : list (X * N) := (x, 0%N) :: map (fun x => (x, 1%N)) xs.
Lemma every_positive : forall X (xs : list X), Forall (fun c : X * N => (0 < snd c)%N) (map (fun x => (x, 1%N)) xs).
Proof. intros X xs. apply Forall_map. apply Forall_forall. intros; cbn; lia. Qed.
Lemma every_steps : forall X (xs : list X), map snd (map (fun x => (x, 1%N)) xs) = repeat 1%N (length xs).
Proof. intros X xs. rewrite map_map. cbn. induction xs; [reflexivity|]. cbn. f_equal. assumption. Qed.
(** Complete motions. *)
Lemma instants_complete : forall stop n t, (t < stop)%N -> (stop <= t + N.of_nat n)%N ->
  exists l, instants stop t (repeat 1%N n) = l ++ [stop] /\ Forall (fun k => (k < stop)%N) l.
Proof.
  intros stop n. induction n as [|n IH]; intros t H1 H2; [lia|]. cbn [repeat instants].
  destruct (N.leb_spec stop (t + 1)) as [L|L].
  - exists []. replace (t + 1)%N with stop by lia. split; [reflexivity|constructor].
  - destruct (IH (t + 1)%N) as (l & E & F); [lia|lia|]. exists ((t + 1)%N :: l). rewrite E. split; [reflexivity|]. constructor; assumption.
Qed.

Definition raise (d : R) (q : list R) : list R :=
  match q with [a; b; c; x; y; f; z] => [a; b; c; x + d; y + d; f; z + d] | _ => q end.
Definition position_wave (ms : N) : R := PI / 8 * (1 - cos (PI / (5 / 2) * (IZR (Z.of_N ms) / 1000))).
Lemma position_raise : forall q0 ms, position_curve q0 ms = raise (position_wave ms) q0.
Proof. reflexivity. Qed.
Lemma position_gentle : forall n, gentle position_wave n.
Proof.
  intros n. pose proof pi_bounds as P. apply (wave_gentle (PI / 8) (PI / 2500)); try lra.
  - intros k _. unfold position_wave, wave. rewrite nat_N_Z, <- INR_IZR_INZ. do 3 f_equal. field.
  - assert (PI * PI <= 3.2 * 3.2) by (apply Rmult_le_compat; lra). lra.
  - assert (PI * PI <= 3.2 * 3.2) by (apply Rmult_le_compat; lra).
    assert (PI * PI * PI <= 3.2 * 3.2 * 3.2) by (apply Rmult_le_compat; [apply Rmult_le_pos; lra|lra|lra|lra]).
    replace (PI / 8 * (PI / 2500) * (PI / 2500)) with (PI * PI * PI / 50000000) by field. lra.
  - assert (PI * PI <= 3.2 * 3.2) by (apply Rmult_le_compat; lra).
    assert (PI * PI * PI <= 3.2 * 3.2 * 3.2) by (apply Rmult_le_compat; [apply Rmult_le_pos; lra|lra|lra|lra]).
    assert (PI * PI * PI * PI <= 3.2 * 3.2 * 3.2 * 3.2) by (apply Rmult_le_compat; [apply Rmult_le_pos; [apply Rmult_le_pos; lra|lra]|lra|lra|lra]).
    replace (PI / 8 * (PI / 2500) * (PI / 2500) * (PI / 2500)) with (PI * PI * PI * PI / 125000000000) by field. lra.
Qed.
Lemma instants_unit : forall stop n k, exists m, instants stop (N.of_nat k) (repeat 1%N n) = map N.of_nat (seq (S k) m) /\
  ((N.of_nat k < stop)%N -> (N.of_nat (k + m) <= stop)%N).
Proof.
  intros stop n. induction n as [|n IH]; intros k; [exists O; split; [reflexivity|intros; rewrite Nat.add_0_r; lia]|]. cbn [repeat instants].
  replace (N.of_nat k + 1)%N with (N.of_nat (S k)) by lia. destruct (N.leb_spec stop (N.of_nat (S k))) as [L|L].
  - exists 1%nat. split; [reflexivity|]. lia.
  - destruct (IH (S k)) as [m [E B]]. exists (S m). cbn [seq map]. rewrite E. split; [reflexivity|]. lia.
Qed.
Lemma instants_start : forall stop n, (0 < stop)%N -> exists m, instants stop 0 (0%N :: repeat 1%N n) = map N.of_nat (seq 0 m) /\ (N.of_nat m <= stop + 1)%N.
Proof.
  intros stop n H. cbn [instants N.add]. destruct (N.leb_spec stop 0) as [L|L]; [lia|].
  destruct (instants_unit stop n 0) as [m [E B]]. exists (S m). cbn [seq map]. change (N.of_nat 0) with 0%N in *. rewrite E. split; [reflexivity|]. lia.
Qed.

Lemma seven : forall q : list R, joints q -> exists a b c d e f g, q = [a; b; c; d; e; f; g].
Proof.
  intros q H. unfold joints in H. destruct q as [|a [|b [|c [|d [|e [|f [|g [|]]]]]]]]; try discriminate H. repeat eexists.
Qed.
Lemma raise_smooth : forall w q0 m k, joints q0 -> (forall j, (j < k + m)%nat -> gentle w j) ->
  position_smooth_run (raise (sample w (S (S k))) q0)
    (rate (raise (sample w (S k)) q0) (raise (sample w (S (S k))) q0))
    (rate (rate (raise (sample w k) q0) (raise (sample w (S k)) q0)) (rate (raise (sample w (S k)) q0) (raise (sample w (S (S k))) q0)))
    (map (fun j => raise (sample w (S (S (S j)))) q0) (seq k m)) = Some (map (fun j => raise (sample w (S (S (S j)))) q0) (seq k m)).
Proof.
  intros w q0 m k Hq. revert k. induction m as [|m IH]; intros k G; [reflexivity|]. cbn [seq map position_smooth_run].
  rewrite C32_joint_positions_partial.
  - rewrite (IH (S k)); [reflexivity|]. intros j Hj. apply G. lia.
  - destruct (seven q0 Hq) as (a & b & c & d & e & f & g & ->). reflexivity.
  - destruct (seven q0 Hq) as (a & b & c & d & e & f & g & ->). cbn [raise rate].
    assert (Z : forall x, (x - x) / cycle = 0) by (intros; unfold cycle; lra). rewrite !Z.
    assert (D : forall x y z, ((x + y) - (x + z)) / cycle = (y - z) / cycle) by (intros; unfold cycle; lra). rewrite !D.
    pose proof (gentle_easy w k (G k ltac:(lia))) as Ea. apply joint_respects; first [exact Ea|exact easy_rest].
Qed.
Lemma raise_0 : forall q, raise 0 q = q.
Proof.
  intros q. destruct q as [|a [|b [|c [|d [|e [|f [|g [|]]]]]]]]; try reflexivity. cbn [raise]. rewrite !Rplus_0_r. reflexivity.
Qed.
Lemma rate_self : forall q, joints q -> rate q q = repeat 0 7.
Proof.
  intros q H. destruct (seven q H) as (a & b & c & d & e & f & g & ->). cbn [rate repeat].
  assert (Z : forall x, (x - x) / cycle = 0) by (intros; unfold cycle; lra). rewrite !Z. reflexivity.
Qed.

(** When no state is lost the rate limiter passes the whole motion unaltered, started at rest where
    the motion starts. *)
Theorem C70_joint_position_limits : forall q0 qs, joints q0 ->
  let out := map fst (position_outputs (every_ms q0 qs)) in
  position_smooth_run q0 (repeat 0 7) (repeat 0 7) out = Some out.
Proof.
  intros q0 qs Hq out. unfold out, every_ms. rewrite C70_joint_positions; [|exact Hq|apply every_positive].
  rewrite every_steps. destruct (instants_start 5000 (length qs)) as (m & E & _); [lia|]. rewrite E, !map_map. cbn [fst].
  assert (Q : map (fun j => position_curve q0 (N.of_nat j)) (seq 0 m) =
              map (fun j => raise (sample position_wave (S (S (S j)))) q0) (seq 0 m)) by reflexivity.
  rewrite Q. pose proof (raise_smooth position_wave q0 m 0 Hq (fun j _ => position_gentle j)) as R.
  cbn [sample] in R. rewrite raise_0, (rate_self q0 Hq), (rate_self (repeat 0 7) eq_refl) in R. exact R.
Qed.
Print Assumptions C70_joint_position_limits.
(** With at least 5001 states it ends where it started, and only then says that it is finished. *)
Theorem C70_joint_position_returns : forall q0 qs, joints q0 -> (5000 <= N.of_nat (length qs))%N ->
  exists l, position_outputs (every_ms q0 qs) = l ++ [(q0, true)] /\ Forall (fun o => snd o = false) l.
Proof.
  intros q0 qs Hq Hn. unfold every_ms. rewrite C70_joint_positions; [|exact Hq|apply every_positive]. rewrite every_steps.
  destruct (instants_complete 5000 (length qs) 0) as (l & E & F); [lia|lia|].
  cbn [instants N.add]. change (5000 <=? 0)%N with false. cbv iota. rewrite E. cbn [map].
  exists ((position_curve q0 0, (5000 <=? 0)%N) :: map (fun ms => (position_curve q0 ms, (5000 <=? ms)%N)) l). split.
  - rewrite map_app. cbn [map app]. do 3 f_equal. f_equal. rewrite position_raise. replace (position_wave 5000) with 0; [apply raise_0|].
    unfold position_wave. change (Z.of_N 5000) with 5000%Z. replace (PI / (5 / 2) * (5000 / 1000)) with (2 * PI) by field.
    rewrite cos_2PI. lra.
  - constructor; [reflexivity|]. apply Forall_map. eapply Forall_impl; [|exact F]. intros k Hk. cbn [snd]. apply N.leb_gt. exact Hk.
Qed.
Print Assumptions C70_joint_position_returns.

(** * Joint velocities *)
(** Periods of max/2 (1 - cos), every second one negative. *)
Definition velocity_wave (max : R) (period ms : N) : R :=
  (if N.even (ms / period) then 1 else -1) * (max / 2 * (1 - cos (2 * PI * (IZR (Z.of_N ms) / IZR (Z.of_N period))))).
Lemma int_part_between : forall n x, IZR n <= x < IZR n + 1 -> Int_part x = n.
Proof.
  intros n x [H1 H2]. unfold Int_part. replace (up x) with (n + 1)%Z; [lia|]. apply tech_up; rewrite plus_IZR; lra.
Qed.
Lemma int_part_whole : forall n, Int_part (IZR n) = n.
Proof. intros n. apply int_part_between. lra. Qed.
Lemma int_part_quotient : forall a b : N, (0 < b)%N -> Int_part (r_seconds a / r_seconds b) = Z.of_N (a / b).
Proof.
  intros a b H. pose proof (seconds_pos b H) as P. unfold r_seconds in *. apply int_part_between.
  pose proof (N.div_mod a b) as D. assert (Hb : b <> 0%N) by lia. specialize (D Hb). pose proof (N.mod_lt a b Hb) as M.
  set (q := (a / b)%N) in *. set (r := (a mod b)%N) in *. clearbody q r. subst a.
  rewrite N2Z.inj_add, N2Z.inj_mul, plus_IZR, mult_IZR. apply N2Z.inj_lt, IZR_lt in M. pose proof (N2Z.is_nonneg r) as R0. apply IZR_le in R0.
  apply N2Z.inj_lt, IZR_lt in H. set (B := IZR (Z.of_N b)) in *. set (Q := IZR (Z.of_N q)) in *. set (r' := IZR (Z.of_N r)) in *. clearbody B Q r'. cbn in H.
  replace ((B * Q + r') / 1000 / (B / 1000)) with (Q + r' / B) by (field; lra).
  assert (0 <= r' / B). { apply Rmult_le_pos; [lra|]. left. apply Rinv_0_lt_compat. exact H. }
  assert (r' / B < 1). { apply Rmult_lt_reg_r with B; [exact H|]. unfold Rdiv. rewrite Rmult_assoc, Rinv_l by lra. lra. }
  lra.
Qed.
Lemma power_sign : forall n : N, powerRZ (-(1)) (Z.of_N n) = if N.even n then 1 else -1.
Proof.
  assert (G : forall m : nat, powerRZ (-(1)) (Z.of_nat m) = (if Nat.even m then 1 else -1)).
  { intros m. rewrite <- pow_powerRZ. induction m as [|m IH]; [reflexivity|]. cbn [pow]. rewrite IH, Nat.even_succ, <- Nat.negb_even.
    destruct (Nat.even m); cbn [negb]; lra. }
  intros n. rewrite <- (N2Nat.id n), nat_N_Z, G. generalize (N.to_nat n). intros m.
  assert (E : Nat.even m = N.even (N.of_nat m)).
  { destruct (Nat.even m) eqn:E.
    - apply Nat.even_spec in E. destruct E as [k ->]. symmetry. apply N.even_spec. exists (N.of_nat k). lia.
    - symmetry. apply not_true_is_false. intros K. apply N.even_spec in K. destruct K as [k K].
      assert (Q : m = (2 * N.to_nat k)%nat) by lia. rewrite Q, Nat.even_mul in E. discriminate E. }
  rewrite E. reflexivity.
Qed.
Lemma speed_wave : forall max period ms, (0 < period)%N ->
  speed real cos r_floor r_powf r_fmod max (r_seconds period) (r_seconds ms) = velocity_wave max period ms.
Proof.
  intros max period ms Hp. unfold speed, velocity_wave, r_fmod, r_powf, r_floor.
  cbn [f_add f_sub f_mul f_div f_neg f_int f_pi real]. rewrite int_part_quotient by exact Hp.
  pose proof (seconds_pos period Hp) as P.
  replace ((r_seconds ms - (r_seconds ms - r_seconds period * IZR (Z.of_N (ms / period)))) / r_seconds period)
    with (IZR (Z.of_N (ms / period))) by (field; lra).
  rewrite int_part_whole, power_sign.
  replace (2 * PI / r_seconds period * r_seconds ms) with (2 * PI * (IZR (Z.of_N ms) / IZR (Z.of_N period))).
  2:{ unfold r_seconds in *. field. lra. }
  assert (W : IZR (Int_part (if N.even (ms / period) then 1 else -1)) = (if N.even (ms / period) then 1 else -1))
    by (destruct (N.even _); rewrite int_part_whole; reflexivity).
  rewrite W. destruct (N.even _); lra.
Qed.

(** Callbacks which read nothing but the time step. *)
Section Timed.
  Context {Y : Type} (step : R -> unit -> N -> R * (Y * bool)) (curve : N -> Y) (stop : N).
  Hypothesis Hstep : forall t dt, step (r_seconds t) tt dt = (r_seconds (t + dt), (curve (t + dt), (stop <=? t + dt)%N)).
  Lemma timed : forall calls t, outputs step (r_seconds t) calls =
    map (fun ms => (curve ms, (stop <=? ms)%N)) (instants stop t (map snd calls)).
  Proof.
    induction calls as [|[[] dt] calls IH]; intros t; [reflexivity|]. cbn [outputs map snd instants]. rewrite Hstep. cbn [snd map]. f_equal.
    destruct (stop <=? t + dt)%N; [reflexivity|]. apply IH.
  Qed.
End Timed.

Definition velocity_curve (max : R) (period ms : N) : list R :=
  let w := velocity_wave max period ms in [0; 0; 0; w; w; w; w].
Lemma velocity_timed : forall max period calls, (0 < period)%N ->
  outputs (velocity_step real cos r_floor r_powf r_fmod r_seconds max (r_seconds period)) 0 calls =
  map (fun ms => (velocity_curve max period ms, (2 * period <=? ms)%N)) (instants (2 * period) 0 (map snd calls)).
Proof.
  intros max period calls H. replace 0 with (r_seconds 0) by (unfold r_seconds; cbn; lra).
  apply (timed (velocity_step real cos r_floor r_powf r_fmod r_seconds max (r_seconds period)) (velocity_curve max period) (2 * period)).
  intros t dt. unfold velocity_step. cbn [f_add f_int f_mul real]. rewrite seconds_add, speed_wave by exact H.
  assert (G : f_ge real (r_seconds (t + dt)) (2 * r_seconds period) = (2 * period <=? t + dt)%N).
  { replace (2 * r_seconds period) with (r_seconds (2 * period)) by (unfold r_seconds; rewrite N2Z.inj_mul, mult_IZR; change (Z.of_N 2) with 2%Z; lra).
    unfold f_ge. cbn [f_lt f_eq real]. unfold r_seconds. destruct (N.leb_spec (2 * period) (t + dt)) as [L|L].
    - apply N2Z.inj_le, IZR_le in L. destruct (Rlt_dec _ _); [reflexivity|]. destruct (Req_EM_T _ _); [reflexivity|lra].
    - apply N2Z.inj_lt, IZR_lt in L. destruct (Rlt_dec _ _); [lra|]. destruct (Req_EM_T _ _); [lra|reflexivity]. }
  rewrite G. reflexivity.
Qed.
(** generate_joint_velocity_motion: at most 1 rad/s, periods of one second; whatever states arrive
    or are lost.  generate_consecutive_motions: at most 0.2 rad/s, periods of four seconds. *)
Definition velocity_outputs : list (unit * N) -> list (list R * bool) :=
  outputs (velocity_motion real cos r_floor r_powf r_fmod r_seconds) 0.
Definition consecutive_outputs : list (unit * N) -> list (list R * bool) :=
  outputs (consecutive_motion real cos r_floor r_powf r_fmod r_seconds) 0.
Theorem C70_joint_velocities : forall calls,
  velocity_outputs calls = map (fun ms => (velocity_curve 1 1000 ms, (2000 <=? ms)%N)) (instants 2000 0 (map snd calls)) /\
  consecutive_outputs calls = map (fun ms => (velocity_curve (2 / 10) 4000 ms, (8000 <=? ms)%N)) (instants 8000 0 (map snd calls)).
Proof.
  intros calls. split.
  - unfold velocity_outputs, velocity_motion. cbn [f_int real]. replace 1 with (r_seconds 1000) at 2 by (unfold r_seconds; cbn; lra).
    apply (velocity_timed 1 1000). lia.
  - unfold consecutive_outputs, consecutive_motion, f_lit. cbn [f_int f_div real].
    replace 4 with (r_seconds 4000) by (unfold r_seconds; cbn; lra). apply (velocity_timed (2 / 10) 4000). lia.
Qed.
Print Assumptions C70_joint_velocities.

(** The velocity at every millisecond of the two periods. *)
Section VelocityWave.
  Variables (max : R) (T0 : nat).
  Hypothesis Hmax : 0 <= max <= 1.
  Hypothesis HT : (10 <= T0)%nat.
  Let th := 2 * PI / INR T0.
  Let f (k : nat) : R := wave (max / 2) (INR k * th).
  Let u (k : nat) : R := velocity_wave max (N.of_nat T0) (N.of_nat k).
  Lemma T0_pos : 10 <= INR T0.
  Proof. replace 10 with (INR 10) by (cbn; lra). apply le_INR. exact HT. Qed.
  Lemma turn : INR T0 * th = 2 * PI.
  Proof. unfold th. pose proof T0_pos. field. lra. Qed.
  Lemma th_range : 0 <= th <= 1.
  Proof.
    unfold th. pose proof T0_pos as P. pose proof pi_bounds as Q. split.
    - apply Rmult_le_pos; [lra|]. left. apply Rinv_0_lt_compat. lra.
    - apply Rmult_le_reg_r with (INR T0); [lra|]. unfold Rdiv. rewrite Rmult_assoc, Rinv_l by lra. lra.
  Qed.
  Lemma f_shift : forall k, f (T0 + k) = f k.
  Proof.
    intros k. unfold f, wave. rewrite plus_INR, Rmult_plus_distr_r, turn, Rplus_comm. do 2 f_equal.
    pose proof (cos_period (INR k * th) 1) as C. cbn [INR] in C. rewrite <- C. f_equal. lra.
  Qed.
  Lemma f_mirror : forall k, (k <= T0)%nat -> f (T0 - k) = f k.
  Proof.
    intros k Hk. unfold f, wave. rewrite minus_INR by exact Hk. do 2 f_equal.
    replace ((INR T0 - INR k) * th) with (- (INR k * th) + 2 * INR 1 * PI).
    2:{ cbn [INR]. pose proof turn. lra. }
    rewrite cos_period, cos_neg. reflexivity.
  Qed.
  Lemma f_0 : f 0 = 0.
  Proof. unfold f. cbn [INR]. rewrite Rmult_0_l. apply wave_0. Qed.
  Lemma f_T0 : f T0 = 0.
  Proof. pose proof (f_shift 0) as E. rewrite Nat.add_0_r, f_0 in E. exact E. Qed.
  Lemma f_bounds : forall k, 0 <= f k <= max.
  Proof.
    intros k. unfold f, wave. pose proof (COS_bound (INR k * th)) as B. split.
    - apply Rmult_le_pos; lra.
    - replace max with (max / 2 * 2) at 2 by lra. apply Rmult_le_compat_l; lra.
  Qed.
  Lemma f_d1 : forall k, Rabs (f (S k) - f k) <= max / 2 * th.
  Proof.
    intros k. unfold f. rewrite S_INR, Rmult_plus_distr_r, Rmult_1_l. apply wave_d1; [lra|apply th_range].
  Qed.
  Lemma f_d2 : forall k, Rabs (f (S (S k)) - 2 * f (S k) + f k) <= max / 2 * th * th.
  Proof.
    intros k. unfold f. rewrite !S_INR, !Rmult_plus_distr_r, Rmult_1_l. apply wave_d2; [lra|apply th_range].
  Qed.
  Lemma f_1 : 0 <= f 1 <= max / 2 * th * th / 2.
  Proof. unfold f. cbn [INR]. rewrite Rmult_1_l. apply wave_first; [lra|apply th_range]. Qed.
  Lemma u_angle : forall k, max / 2 * (1 - cos (2 * PI * (IZR (Z.of_N (N.of_nat k)) / IZR (Z.of_N (N.of_nat T0))))) = f k.
  Proof.
    intros k. unfold f, wave, th. rewrite !nat_N_Z, <- !INR_IZR_INZ. do 3 f_equal. pose proof T0_pos. field. lra.
  Qed.
  Lemma u_low : forall k, (k <= T0)%nat -> u k = f k.
  Proof.
    intros k H. unfold u, velocity_wave. rewrite u_angle. destruct (Nat.eq_dec k T0) as [->|N].
    - rewrite f_T0. lra.
    - rewrite N.div_small by lia. cbn [N.even]. lra.
  Qed.
  Lemma u_high : forall k, (T0 <= k <= T0 + T0)%nat -> u k = - f k.
  Proof.
    intros k H. unfold u, velocity_wave. rewrite u_angle. destruct (Nat.eq_dec k (T0 + T0)) as [->|N].
    - rewrite f_shift, f_T0. lra.
    - replace (N.of_nat k / N.of_nat T0)%N with 1%N; [cbn [N.even]; lra|].
      apply (N.div_unique _ _ 1 (N.of_nat (k - T0))); lia.
  Qed.
  (** Two zeros, then the values at 0 ms, 1 ms, ... *)
  Definition velocity_sample (n : nat) : R := match n with O | S O => 0 | S (S k) => u k end.
  Hypothesis H1 : max / 2 * th <= 7 / 1000.
  Hypothesis H2 : max / 2 * th * th <= 3 / 1000.
  Lemma velocity_easy : forall n, (n <= T0 + T0)%nat ->
    easy (velocity_sample (S (S n))) (velocity_sample (S n)) ((velocity_sample (S n) - velocity_sample n) / cycle).
  Proof.
    intros n Hn.
    assert (K : Rabs (velocity_sample (S n)) <= 1 /\ Rabs (velocity_sample (S (S n)) - velocity_sample (S n)) <= 7 / 1000 /\
      Rabs (velocity_sample (S (S n)) - 2 * velocity_sample (S n) + velocity_sample n) <= 3 / 1000).
    { pose proof f_1 as F1. pose proof f_0 as F0. pose proof th_range as Ht.
      assert (P1 : 0 <= max / 2 * th) by (apply Rmult_le_pos; lra).
      destruct n as [|[|n]]; unfold velocity_sample.
      - rewrite u_low, F0 by lia. split; [|split]; apply Rabs_le; lra.
      - rewrite !u_low, F0 by lia. split; [|split]; apply Rabs_le; lra.
      - destruct (le_lt_dec (S (S n)) T0) as [L|L].
        + rewrite !u_low by lia. pose proof (f_bounds (S n)). pose proof (f_d1 (S n)). pose proof (f_d2 n). split; [apply Rabs_le; lra|lra].
        + destruct (le_lt_dec T0 n) as [G|G].
          * rewrite !u_high by lia. pose proof (f_bounds (S n)). pose proof (f_d1 (S n)) as D1. pose proof (f_d2 n) as D2.
            apply abs_range in D1, D2. split; [|split]; apply Rabs_le; lra.
          * replace (S (S n)) with (T0 + 1)%nat by lia. replace (S n) with (T0 + 0)%nat by lia. replace n with (T0 - 1)%nat by lia.
            rewrite (u_high (T0 + 1)), (u_high (T0 + 0)), (u_low (T0 - 1)), f_mirror, !f_shift, F0 by lia.
            split; [|split]; apply Rabs_le; lra. }
    destruct K as (K1 & K2 & K3). set (a := velocity_sample n) in *. set (b := velocity_sample (S n)) in *. set (c := velocity_sample (S (S n))) in *.
    clearbody a b c. apply abs_range in K2, K3. unfold easy, cycle. split; [exact K1|]. split; apply Rabs_le; lra.
  Qed.
  Definition four (w : R) : list R := [0; 0; 0; w; w; w; w].
  Lemma velocity_smooth : forall m k, (k + m <= T0 + T0 + 1)%nat ->
    smooth_run (four (velocity_sample (S k))) (rate (four (velocity_sample k)) (four (velocity_sample (S k))))
      (map (fun j => four (velocity_sample (S (S j)))) (seq k m)) = Some (map (fun j => four (velocity_sample (S (S j)))) (seq k m)).
  Proof.
    induction m as [|m IH]; intros k H; [reflexivity|]. cbn [seq map smooth_run].
    rewrite C32_joint_velocities_partial.
    - rewrite (IH (S k)) by lia. reflexivity.
    - unfold four. cbn [rate]. replace ((0 - 0) / cycle) with 0 by (unfold cycle; lra).
      pose proof (velocity_easy k) as E. specialize (E ltac:(lia)). apply joint_respects; first [exact E|exact easy_rest].
  Qed.
  Lemma velocity_passes : forall m, (m <= T0 + T0 + 1)%nat ->
    let out := map (fun j => velocity_curve max (N.of_nat T0) (N.of_nat j)) (seq 0 m) in
    smooth_run (repeat 0 7) (repeat 0 7) out = Some out.
  Proof.
    intros m H out. pose proof (velocity_smooth m 0) as V. cbn [Nat.add] in V. specialize (V H).
    unfold velocity_sample at 1 2 3 in V. rewrite rate_self in V by reflexivity. exact V.
  Qed.
  (** What one period adds to the position, the next one takes away. *)
  Definition total (l : list R) : R := fold_right Rplus 0 l.
  Lemma total_app : forall a b, total (a ++ b) = total a + total b.
  Proof. induction a as [|x a IH]; intros b; cbn [app total fold_right]; [unfold total; cbn; lra|]. fold (total (a ++ b)). rewrite IH. unfold total. cbn. lra. Qed.
  Lemma total_opp : forall g l, total (map (fun k : nat => - g k) l) = - total (map g l).
  Proof. induction l as [|x l IH]; cbn; [lra|]. fold (total (map g l)). unfold total in IH. rewrite IH. unfold total. lra. Qed.
  Lemma velocity_total : total (map u (seq 0 (T0 + T0 + 1))) = 0.
  Proof.
    rewrite !seq_app, !map_app, !total_app. cbn [seq map Nat.add].
    assert (E1 : map u (seq 0 T0) = map f (seq 0 T0)). { apply map_ext_in. intros k Hk. apply in_seq in Hk. apply u_low. lia. }
    assert (E2 : map u (seq T0 T0) = map (fun k => - f k) (seq 0 T0)).
    { replace T0 with (T0 + 0)%nat at 1 by lia. 
      assert (Q : seq (T0 + 0) T0 = map (fun k => (T0 + k)%nat) (seq 0 T0)).
      { generalize 0%nat. generalize T0 at 2 4 as n. induction n as [|n IHn]; intros b; [reflexivity|]. cbn [seq map]. f_equal.
        rewrite <- IHn. f_equal. lia. }
      rewrite Q, map_map. apply map_ext_in. intros k Hk. apply in_seq in Hk. rewrite u_high by lia. rewrite f_shift. reflexivity. }
    rewrite E1, E2, total_opp. rewrite u_high by lia. rewrite f_shift, f_T0.
    unfold total at 3. cbn. lra.
  Qed.
End VelocityWave.

Lemma big_INR : forall n : N, INR (N.to_nat n) = IZR (Z.of_N n).
Proof. intros n. rewrite INR_IZR_INZ, N_nat_Z. reflexivity. Qed.
Lemma velocity_limits : forall max (period : N) n, 0 <= max <= 1 -> (10 <= period)%N ->
  let th := 2 * PI / IZR (Z.of_N period) in max / 2 * th <= 7 / 1000 -> max / 2 * th * th <= 3 / 1000 ->
  let out := map (fun ms => velocity_curve max period ms) (instants (2 * period) 0 (0%N :: repeat 1%N n)) in
  smooth_run (repeat 0 7) (repeat 0 7) out = Some out.
Proof.
  intros max period n Hm Hp th H1 H2 out. unfold out.
  destruct (instants_start (2 * period) n) as (m & E & B); [lia|]. rewrite E, map_map.
  pose proof (velocity_passes max (N.to_nat period) Hm) as V. rewrite big_INR, N2Nat.id in V.
  apply V; [lia|exact H1|exact H2|lia].
Qed.
(** When no state is lost the rate limiter passes both motions unaltered, started at rest. *)
Theorem C70_joint_velocity_limits : forall xs : list unit,
  (let out := map fst (velocity_outputs (every_ms tt xs)) in smooth_run (repeat 0 7) (repeat 0 7) out = Some out) /\
  (let out := map fst (consecutive_outputs (every_ms tt xs)) in smooth_run (repeat 0 7) (repeat 0 7) out = Some out).
Proof.
  intros xs. destruct (C70_joint_velocities (every_ms tt xs)) as [E1 E2]. cbv zeta. rewrite E1, E2. unfold every_ms. cbn [map snd]. rewrite every_steps.
  rewrite !map_map. cbn [fst]. pose proof pi_bounds as P. assert (Q : PI * PI <= 3.2 * 3.2) by (apply Rmult_le_compat; lra).
  split.
  - apply (velocity_limits 1 1000); [lra|lia| |]; change (Z.of_N 1000) with 1000%Z; [lra|].
    replace (1 / 2 * (2 * PI / 1000) * (2 * PI / 1000)) with (PI * PI / 500000) by field. lra.
  - apply (velocity_limits (2 / 10) 4000); [lra|lia| |]; change (Z.of_N 4000) with 4000%Z; [lra|].
    replace (2 / 10 / 2 * (2 * PI / 4000) * (2 * PI / 4000)) with (PI * PI / 40000000) by field. lra.
Qed.
Print Assumptions C70_joint_velocity_limits.

(** What a list of velocities adds to the positions, in units of the cycle time. *)
Definition sums (vs : list (list R)) : list R :=
  fold_right (fun v s => map (fun p => fst p + snd p) (combine v s)) (repeat 0 7) vs.
Lemma sums_four : forall (w : nat -> R) l, sums (map (fun k => four (w k)) l) = four (total (map w l)).
Proof.
  intros w l. induction l as [|k l IH]; [reflexivity|]. unfold sums in *. cbn [map fold_right]. rewrite IH. unfold four. cbn. rewrite Rplus_0_l. reflexivity.
Qed.
Lemma instants_whole : forall stop n k, (N.of_nat k < N.of_nat stop)%N -> (stop <= k + n)%nat ->
  instants (N.of_nat stop) (N.of_nat k) (repeat 1%N n) = map N.of_nat (seq (S k) (stop - k)).
Proof.
  intros stop n. induction n as [|n IH]; intros k H1 H2; [lia|]. cbn [repeat instants].
  replace (N.of_nat k + 1)%N with (N.of_nat (S k)) by lia. destruct (N.leb_spec (N.of_nat stop) (N.of_nat (S k))) as [L|L].
  - replace (stop - k)%nat with 1%nat by lia. reflexivity.
  - rewrite IH by lia. replace (stop - k)%nat with (S (stop - S k)) by lia. reflexivity.
Qed.
Lemma velocity_returns : forall max (period : N) n, 0 <= max <= 1 -> (10 <= period)%N -> (2 * period <= N.of_nat n)%N ->
  let out := map (fun ms => (velocity_curve max period ms, (2 * period <=? ms)%N)) (instants (2 * period) 0 (0%N :: repeat 1%N n)) in
  sums (map fst out) = repeat 0 7 /\ exists l, out = l ++ [(repeat 0 7, true)] /\ Forall (fun o => snd o = false) l.
Proof.
  intros max period n Hm Hp Hn out. unfold out. split.
  - rewrite map_map. cbn [fst]. cbn [instants N.add]. destruct (N.leb_spec (2 * period) 0) as [L|L]; [lia|].
    pose proof (instants_whole (N.to_nat (2 * period)) n 0) as W. rewrite N2Nat.id in W. change (N.of_nat 0) with 0%N in W. rewrite W by lia.
    rewrite Nat.sub_0_r. pose proof (velocity_total max (N.to_nat period) ltac:(lia)) as V. rewrite N2Nat.id in V.
    replace (N.to_nat period + N.to_nat period + 1)%nat with (S (N.to_nat (2 * period))) in V by lia. cbn [seq] in V.
    change (0%N :: map N.of_nat (seq 1 (N.to_nat (2 * period)))) with (map N.of_nat (0%nat :: seq 1 (N.to_nat (2 * period)))).
    rewrite map_map. change (fun x => velocity_curve max period (N.of_nat x)) with (fun x => four (velocity_wave max period (N.of_nat x))).
    rewrite sums_four, V. reflexivity.
  - destruct (instants_complete (2 * period) n 0) as (l & E & F); [lia|lia|].
    cbn [instants N.add]. destruct (N.leb_spec (2 * period) 0) as [L|_]; [lia|]. rewrite E.
    exists (map (fun ms => (velocity_curve max period ms, (2 * period <=? ms)%N)) (0%N :: l)). split.
    + cbn [map app]. rewrite map_app. cbn [map]. do 3 f_equal. 
      assert (Z0 : velocity_wave max period (2 * period) = 0).
      { pose proof (u_high max (N.to_nat period) ltac:(lia) (N.to_nat (2 * period)) ltac:(lia)) as U.
        rewrite !N2Nat.id in U. rewrite U. replace (N.to_nat (2 * period)) with (N.to_nat period + N.to_nat period)%nat by lia.
        pose proof (f_shift max (N.to_nat period) ltac:(lia) (N.to_nat period)) as S1. cbv beta in S1. rewrite S1.
        pose proof (f_T0 max (N.to_nat period) ltac:(lia)) as S2. cbv beta in S2. rewrite S2. lra. }
      unfold velocity_curve. rewrite Z0. rewrite N.leb_refl. reflexivity.
    + apply Forall_map. constructor; [cbn [snd]; apply N.leb_gt; lia|]. eapply Forall_impl; [|exact F].
      intros k Hk. cbn [snd]. apply N.leb_gt. exact Hk.
Qed.
(** Both motions end at rest, where they have started: the velocities add up to zero. *)
Theorem C70_joint_velocity_returns : forall xs : list unit,
  ((2000 <= N.of_nat (length xs))%N -> let out := velocity_outputs (every_ms tt xs) in
    sums (map fst out) = repeat 0 7 /\ exists l, out = l ++ [(repeat 0 7, true)] /\ Forall (fun o => snd o = false) l) /\
  ((8000 <= N.of_nat (length xs))%N -> let out := consecutive_outputs (every_ms tt xs) in
    sums (map fst out) = repeat 0 7 /\ exists l, out = l ++ [(repeat 0 7, true)] /\ Forall (fun o => snd o = false) l).
Proof.
  intros xs. destruct (C70_joint_velocities (every_ms tt xs)) as [E1 E2]. cbv zeta. rewrite E1, E2. unfold every_ms. cbn [map snd]. rewrite every_steps.
  split; intros H.
  - apply (velocity_returns 1 1000); [lra|lia|lia].
  - apply (velocity_returns (2 / 10) 4000); [lra|lia|lia].
Qed.
Print Assumptions C70_joint_velocity_returns.

(** * Elbow *)
Lemma kept_first : forall t, (if Req_EM_T (r_seconds t) 0 then true else false) = (t =? 0)%N.
Proof.
  intros t. destruct (N.eqb_spec t 0) as [->|N0]; destruct (Req_EM_T _ _) as [Q|Q]; auto; exfalso.
  - apply Q. unfold r_seconds. cbn. lra.
  - assert (P : (0 < t)%N) by lia. pose proof (seconds_pos t P). lra.
Qed.
Definition elbow_wave (ms : N) : R := PI / 10 * (1 - cos (PI / 5 * (IZR (Z.of_N ms) / 1000))).
Definition elbow_outputs : list ((list R * (R * R)) * N) -> list ((list R * (R * R)) * bool) :=
  outputs (elbow_step real cos r_seconds) (elbow_start real).
Theorem C70_elbow : forall pose elbow sign calls, Forall (fun c => (0 < snd c)%N) calls ->
  elbow_outputs (((pose, (elbow, sign)), 0%N) :: calls) =
  map (fun ms => ((pose, (elbow + elbow_wave ms, sign)), (10000 <=? ms)%N)) (instants 10000 0 (0%N :: map snd calls)).
Proof.
  intros pose elbow sign calls H. unfold elbow_outputs, elbow_start.
  replace (f_int real 0) with (r_seconds 0) at 1 by (unfold r_seconds; cbn; lra).
  apply (keeping (elbow_step real cos r_seconds) (fun x ms => (fst x, (fst (snd x) + elbow_wave ms, snd (snd x)))) 10000); [|exact H].
  intros t x y dt. unfold elbow_step. cbn [fst snd f_add f_int f_eq f_div f_mul f_sub f_pi f_lit real]. rewrite seconds_add, kept_first.
  rewrite (real_ge (t + dt) 10 10000) by (unfold r_seconds; cbn; lra). cbv zeta.
  destruct (t + dt =? 0)%N; [destruct y as [p [e sg]]|destruct x as [p [e sg]]]; reflexivity.
Qed.
Print Assumptions C70_elbow.
Fixpoint elbow_run (lp lv la : R) (requests : list R) : option (list R) :=
  match requests with
  | [] => Some []
  | p :: r =>
      match limit_rate_position real (MAX_ELBOW_VELOCITY real) (MAX_ELBOW_ACCELERATION real) (MAX_ELBOW_JERK real) p lp lv la with
      | Some p' => option_map (cons p') (elbow_run p' ((p' - lp) / cycle) (((p' - lp) / cycle - lv) / cycle) r)
      | None => None
      end
  end.
Lemma elbow_gentle : forall n, gentle elbow_wave n.
Proof.
  intros n. pose proof pi_bounds as P. apply (wave_gentle (PI / 10) (PI / 5000)); try lra.
  - intros k _. unfold elbow_wave, wave. rewrite nat_N_Z, <- INR_IZR_INZ. do 3 f_equal. field.
  - assert (PI * PI <= 3.2 * 3.2) by (apply Rmult_le_compat; lra). lra.
  - assert (PI * PI <= 3.2 * 3.2) by (apply Rmult_le_compat; lra).
    assert (PI * PI * PI <= 3.2 * 3.2 * 3.2) by (apply Rmult_le_compat; [apply Rmult_le_pos; lra|lra|lra|lra]).
    replace (PI / 10 * (PI / 5000) * (PI / 5000)) with (PI * PI * PI / 250000000) by field. lra.
  - assert (PI * PI <= 3.2 * 3.2) by (apply Rmult_le_compat; lra).
    assert (PI * PI * PI <= 3.2 * 3.2 * 3.2) by (apply Rmult_le_compat; [apply Rmult_le_pos; lra|lra|lra|lra]).
    assert (PI * PI * PI * PI <= 3.2 * 3.2 * 3.2 * 3.2) by (apply Rmult_le_compat; [apply Rmult_le_pos; [apply Rmult_le_pos; lra|lra]|lra|lra|lra]).
    replace (PI / 10 * (PI / 5000) * (PI / 5000) * (PI / 5000)) with (PI * PI * PI * PI / 1250000000000) by field. lra.
Qed.
Lemma elbow_smooth : forall w e m k, (forall j, gentle w j) ->
  elbow_run (e + sample w (S (S k))) (speed_at w (S k)) (acceleration_at w k)
    (map (fun j => e + sample w (S (S (S j)))) (seq k m)) = Some (map (fun j => e + sample w (S (S (S j)))) (seq k m)).
Proof.
  intros w e m. induction m as [|m IH]; intros k G; [reflexivity|]. cbn [seq map elbow_run]. rewrite position_clamped, respects_same.
  - replace (e + sample w (S (S k)) + (e + sample w (S (S (S k))) - (e + sample w (S (S k)))) / T * T) with (e + sample w (S (S (S k)))) by (unfold T; field).
    replace ((e + sample w (S (S (S k))) - (e + sample w (S (S k)))) / cycle) with (speed_at w (S (S k))) by (unfold speed_at, cycle; field).
    change ((speed_at w (S (S k)) - speed_at w (S k)) / cycle) with (acceleration_at w (S k)). rewrite IH by exact G. reflexivity.
  - unfold MAX_ELBOW_ACCELERATION, LIMIT_EPS, f_lit. cbn [f_sub f_div f_int real]. lra.
  - replace ((e + sample w (S (S (S k))) - (e + sample w (S (S k)))) / T) with (speed_at w (S (S k))) by (unfold speed_at; rewrite cycle_T; unfold T; field).
    pose proof (gentle_easy w k (G k)) as E. revert E.
    unfold MAX_ELBOW_VELOCITY, MAX_ELBOW_ACCELERATION, MAX_ELBOW_JERK, LIMIT_EPS, TOL_NUMBER_PACKETS_LOST, f_lit.
    cbn [f_sub f_div f_int f_mul real]. rewrite delta_real. unfold T. intros E. apply easy_respects; [lra|lra|lra|lra|exact E].
Qed.
(** The limiter of the elbow passes the motion unaltered when no state is lost. *)
Theorem C70_elbow_limits : forall pose elbow sign xs,
  let out := map (fun o => fst (snd (fst o))) (elbow_outputs (every_ms (pose, (elbow, sign)) xs)) in
  elbow_run elbow 0 0 out = Some out.
Proof.
  intros pose elbow sign xs out. unfold out, every_ms. rewrite C70_elbow by apply every_positive. rewrite every_steps, map_map. cbn [fst snd].
  destruct (instants_start 10000 (length xs)) as (m & E & _); [lia|]. rewrite E, map_map.
  pose proof (elbow_smooth elbow_wave elbow m 0 elbow_gentle) as S. unfold acceleration_at, speed_at in S. cbn [sample] in S.
  replace ((0 - 0) / cycle) with 0 in S by (unfold cycle; lra). replace ((0 - 0) / cycle) with 0 in S by (unfold cycle; lra). rewrite Rplus_0_r in S. exact S.
Qed.
Print Assumptions C70_elbow_limits.
Theorem C70_elbow_returns : forall pose elbow sign xs, (10000 <= N.of_nat (length xs))%N ->
  exists l, elbow_outputs (every_ms (pose, (elbow, sign)) xs) = l ++ [((pose, (elbow, sign)), true)] /\ Forall (fun o => snd o = false) l.
Proof.
  intros pose elbow sign xs Hn. unfold every_ms. rewrite C70_elbow by apply every_positive. rewrite every_steps.
  destruct (instants_complete 10000 (length xs) 0) as (l & E & F); [lia|lia|].
  cbn [instants N.add]. change (10000 <=? 0)%N with false. cbv iota. rewrite E.
  exists (map (fun ms => ((pose, (elbow + elbow_wave ms, sign)), (10000 <=? ms)%N)) (0%N :: l)). split.
  - cbn [map app]. rewrite map_app. cbn [map]. replace (elbow_wave 10000) with 0; [rewrite Rplus_0_r; reflexivity|].
    unfold elbow_wave. change (Z.of_N 10000) with 10000%Z. replace (PI / 5 * (10000 / 1000)) with (2 * PI) by field. rewrite cos_2PI. lra.
  - apply Forall_map. constructor; [reflexivity|]. eapply Forall_impl; [|exact F]. intros k Hk. cbn [snd]. apply N.leb_gt. exact Hk.
Qed.
Print Assumptions C70_elbow_returns.

(** * Cartesian pose *)
Definition pose16 (p : list R) : Prop := length p = 16%nat.
Definition arc (ms : N) : R := PI / 4 * (1 - cos (PI / 5 * (IZR (Z.of_N ms) / 1000))).
(** A pose with its origin moved in the plane of x and z. *)
Definition moved (dx dz : R) (p : list R) : list R :=
  match p with
  | [a; b; c; d; e; f; g; h; i; j; k; l; x; y; z; w] => [a; b; c; d; e; f; g; h; i; j; k; l; x + dx; y; z + dz; w]
  | _ => p
  end.
Definition pose_outputs : list (list R * N) -> list (list R * bool) :=
  outputs (pose_step real cos sin r_seconds) (pose_start real).
Theorem C70_pose : forall p0 calls, Forall (fun c => (0 < snd c)%N) calls ->
  pose_outputs ((p0, 0%N) :: calls) =
  map (fun ms => (moved (3 / 10 * sin (arc ms)) (3 / 10 * (cos (arc ms) - 1)) p0, (10000 <=? ms)%N))
    (instants 10000 0 (0%N :: map snd calls)).
Proof.
  intros p0 calls H. unfold pose_outputs, pose_start.
  replace (f_int real 0) with (r_seconds 0) at 1 by (unfold r_seconds; cbn; lra).
  apply (keeping (pose_step real cos sin r_seconds)
    (fun p ms => moved (3 / 10 * sin (arc ms)) (3 / 10 * (cos (arc ms) - 1)) p) 10000); [|exact H].
  intros t x y dt. unfold pose_step, f_lit. cbn [fst snd f_add f_int f_eq f_div f_mul f_sub f_pi real]. rewrite seconds_add, kept_first.
  rewrite (real_ge (t + dt) 10 10000) by (unfold r_seconds; cbn; lra). cbv zeta. reflexivity.
Qed.
Print Assumptions C70_pose.
Lemma arc_range : forall ms, 0 <= arc ms <= PI / 2.
Proof.
  intros ms. unfold arc. pose proof pi_bounds as P. pose proof (COS_bound (PI / 5 * (IZR (Z.of_N ms) / 1000))) as B. split.
  - apply Rmult_le_pos; lra.
  - replace (PI / 2) with (PI / 4 * 2) by lra. apply Rmult_le_compat_l; lra.
Qed.
(** Whatever states are lost, every pose is on the quarter circle of 0.3 m under the first one, and
    has its orientation. *)
Theorem C70_pose_circle : forall p0 calls, pose16 p0 -> Forall (fun c => (0 < snd c)%N) calls ->
  Forall (fun o => exists dx dz, fst o = moved dx dz p0 /\ dx * dx + (dz + 3 / 10) * (dz + 3 / 10) = 9 / 100 /\ 0 <= dx /\ dz <= 0)
    (pose_outputs ((p0, 0%N) :: calls)).
Proof.
  intros p0 calls _ H. rewrite C70_pose by exact H. apply Forall_map, Forall_forall. intros ms _. cbn [fst].
  exists (3 / 10 * sin (arc ms)), (3 / 10 * (cos (arc ms) - 1)). split; [reflexivity|].
  pose proof (sin2_cos2 (arc ms)) as Q. unfold Rsqr in Q. pose proof (COS_bound (arc ms)) as C. pose proof (arc_range ms) as A.
  assert (S : 0 <= sin (arc ms)) by (apply sin_ge_0; [lra|pose proof pi_bounds; lra]). split; [|lra].
  replace (3 / 10 * (cos (arc ms) - 1) + 3 / 10) with (3 / 10 * cos (arc ms)) by field.
  replace (9 / 100) with (9 / 100 * (sin (arc ms) * sin (arc ms) + cos (arc ms) * cos (arc ms))) by (rewrite Q; field). field.
Qed.
Print Assumptions C70_pose_circle.
Definition origin (p : list R) : R * R * R := (nth 12 p 0, nth 13 p 0, nth 14 p 0).
Definition apart (p q : R * R * R) : R :=
  let '(x, y, z) := p in let '(u, v, w) := q in sqrt ((x - u) * (x - u) + (y - v) * (y - v) + (z - w) * (z - w)).
Lemma sixteen : forall p, pose16 p -> exists a b c d e f g h i j k l x y z w, p = [a; b; c; d; e; f; g; h; i; j; k; l; x; y; z; w].
Proof.
  intros p H. unfold pose16 in H. do 16 (destruct p as [|? p]; [discriminate H|]). destruct p; [|discriminate H]. repeat eexists.
Qed.
Lemma moved_apart : forall p0 a b, pose16 p0 ->
  apart (origin (moved (3 / 10 * sin a) (3 / 10 * (cos a - 1)) p0)) (origin (moved (3 / 10 * sin b) (3 / 10 * (cos b - 1)) p0)) <= 3 / 10 * Rabs (a - b).
Proof.
  intros p0 a b H. destruct (sixteen p0 H) as (? & ? & ? & ? & ? & ? & ? & ? & ? & ? & ? & ? & x & y & z & ? & ->). unfold origin, moved, apart. cbn [nth].
  pose proof (sin2_cos2 a) as Qa. pose proof (sin2_cos2 b) as Qb. unfold Rsqr in Qa, Qb.
  replace ((x + 3 / 10 * sin a - (x + 3 / 10 * sin b)) * (x + 3 / 10 * sin a - (x + 3 / 10 * sin b)) + (y - y) * (y - y) +
    (z + 3 / 10 * (cos a - 1) - (z + 3 / 10 * (cos b - 1))) * (z + 3 / 10 * (cos a - 1) - (z + 3 / 10 * (cos b - 1))))
    with (9 / 50 * (1 - cos (Rabs (a - b)))).
  2:{ replace (cos (Rabs (a - b))) with (cos (a - b)) by (unfold Rabs; destruct (Rcase_abs _); [rewrite cos_neg|]; reflexivity). rewrite cos_minus.
      replace (9 / 50 * (1 - (cos a * cos b + sin a * sin b)))
        with (9 / 100 * ((sin a * sin a + cos a * cos a) + (sin b * sin b + cos b * cos b) - 2 * (cos a * cos b + sin a * sin b))) by (rewrite Qa, Qb; field).
      field. }
  pose proof (Rabs_pos (a - b)) as P. set (d := Rabs (a - b)) in *. clearbody d. pose proof (one_cos d P) as [_ C].
  rewrite <- (sqrt_square (3 / 10 * d)) by lra. apply sqrt_le_1_alt. lra.
Qed.
Lemma nth_pair : forall A (l : list A) n, nth_error l n <> None -> exists x, nth_error l n = Some x.
Proof. intros A l n H. destruct (nth_error l n) as [x|]; [exists x; reflexivity|congruence]. Qed.
(** When no state is lost, two poses after each other are at most 0.15 mm apart: 0.15 m/s. *)
Theorem C70_pose_speed : forall p0 ps n p q, pose16 p0 ->
  nth_error (map fst (pose_outputs (every_ms p0 ps))) n = Some p -> nth_error (map fst (pose_outputs (every_ms p0 ps))) (S n) = Some q ->
  apart (origin q) (origin p) <= 15 / 100000.
Proof.
  intros p0 ps n p q H. unfold every_ms. rewrite C70_pose by apply every_positive. rewrite every_steps, map_map. cbn [fst].
  destruct (instants_start 10000 (length ps)) as (m & E & _); [lia|]. rewrite E, map_map, !nth_error_map. intros Hp Hq.
  assert (S0 : forall j b, nth_error (seq 0 m) j = Some b -> b = j).
  { intros j b Hb. assert (L : (j < m)%nat) by (rewrite <- (seq_length m 0); apply nth_error_Some; congruence).
    apply (nth_error_nth _ _ 0%nat) in Hb. rewrite seq_nth in Hb by exact L. lia. }
  destruct (nth_error (seq 0 m) n) as [a|] eqn:Ea; [|discriminate Hp]. destruct (nth_error (seq 0 m) (S n)) as [b|] eqn:Eb; [|discriminate Hq].
  apply S0 in Ea, Eb. subst a b. cbn [option_map] in Hp, Hq. injection Hp as <-. injection Hq as <-.
  eapply Rle_trans; [apply moved_apart, H|].
  assert (W : Rabs (arc (N.of_nat (S n)) - arc (N.of_nat n)) <= PI / 4 * (PI / 5000)).
  { pose proof pi_bounds as P. pose proof (wave_d1 (PI / 4) (PI / 5000) ltac:(lra) ltac:(lra) (INR n * (PI / 5000))) as D.
    replace (arc (N.of_nat (S n))) with (wave (PI / 4) (INR n * (PI / 5000) + PI / 5000)).
    2:{ unfold arc, wave. rewrite nat_N_Z, <- INR_IZR_INZ, S_INR. do 3 f_equal. field. }
    replace (arc (N.of_nat n)) with (wave (PI / 4) (INR n * (PI / 5000))); [exact D|].
    unfold arc, wave. rewrite nat_N_Z, <- INR_IZR_INZ. do 3 f_equal. field. }
  pose proof pi_bounds as P. assert (Q : PI * PI <= (315 / 100) * (315 / 100)) by (apply Rmult_le_compat; lra).
  apply Rle_trans with (3 / 10 * (PI / 4 * (PI / 5000))); [apply Rmult_le_compat_l; [lra|exact W]|]. lra.
Qed.
Print Assumptions C70_pose_speed.
Theorem C70_pose_returns : forall p0 ps, pose16 p0 -> (10000 <= N.of_nat (length ps))%N ->
  exists l, pose_outputs (every_ms p0 ps) = l ++ [(p0, true)] /\ Forall (fun o => snd o = false) l.
Proof.
  intros p0 ps Hp Hn. unfold every_ms. rewrite C70_pose by apply every_positive. rewrite every_steps.
  destruct (instants_complete 10000 (length ps) 0) as (l & E & F); [lia|lia|].
  cbn [instants N.add]. change (10000 <=? 0)%N with false. cbv iota. rewrite E.
  exists (map (fun ms => (moved (3 / 10 * sin (arc ms)) (3 / 10 * (cos (arc ms) - 1)) p0, (10000 <=? ms)%N)) (0%N :: l)). split.
  - cbn [map app]. rewrite map_app. cbn [map]. replace (arc 10000) with 0.
    2:{ unfold arc. change (Z.of_N 10000) with 10000%Z. replace (PI / 5 * (10000 / 1000)) with (2 * PI) by field. rewrite cos_2PI. lra. }
    rewrite sin_0, cos_0. replace (3 / 10 * (1 - 1)) with 0 by lra. rewrite Rmult_0_r.
    destruct (sixteen p0 Hp) as (? & ? & ? & ? & ? & ? & ? & ? & ? & ? & ? & ? & x & y & z & ? & ->). cbn [moved]. rewrite !Rplus_0_r. reflexivity.
  - apply Forall_map. constructor; [reflexivity|]. eapply Forall_impl; [|exact F]. intros k Hk. cbn [snd]. apply N.leb_gt. exact Hk.
Qed.
Print Assumptions C70_pose_returns.

(** * Cartesian velocity *)
Definition twist_outputs : list (unit * N) -> list (list R * bool) :=
  outputs (twist_step real cos sin r_floor r_powf r_fmod r_seconds) 0.
(** Always along the same line, down and forward at 45 degrees, and never faster than 0.1 m/s;
    whatever states arrive or are lost. *)
Definition downwards (v : R) : list R := [cos (PI / 4) * v; 0; - sin (PI / 4) * v; 0; 0; 0].
Theorem C70_twist : forall calls,
  twist_outputs calls = map (fun ms => (downwards (velocity_wave (1 / 10) 4000 ms), (8000 <=? ms)%N)) (instants 8000 0 (map snd calls)).
Proof.
  intros calls. unfold twist_outputs. replace 0 with (r_seconds 0) by (unfold r_seconds; cbn; lra).
  apply (timed (twist_step real cos sin r_floor r_powf r_fmod r_seconds) (fun ms => downwards (velocity_wave (1 / 10) 4000 ms)) 8000).
  intros t dt. unfold twist_step, f_lit. cbn [f_add f_int f_mul f_div f_pi f_neg real]. rewrite seconds_add.
  assert (W : speed real cos r_floor r_powf r_fmod (1 / 10) 4 (r_seconds (t + dt)) = velocity_wave (1 / 10) 4000 (t + dt)).
  { replace 4 with (r_seconds 4000) by (unfold r_seconds; cbn; lra). apply speed_wave. lia. }
  rewrite W.
  replace (2 * 4) with 8 by lra. rewrite (real_ge (t + dt) 8 8000) by (unfold r_seconds; cbn; lra). reflexivity.
Qed.
Print Assumptions C70_twist.

Lemma velocity_wave_bound : forall max period ms, 0 <= max -> Rabs (velocity_wave max period ms) <= max.
Proof.
  intros max period ms H. unfold velocity_wave. set (x := 2 * PI * _). pose proof (COS_bound x) as B.
  assert (0 <= max / 2 * (1 - cos x)) by (apply Rmult_le_pos; lra).
  assert (max / 2 * (1 - cos x) <= max / 2 * 2) by (apply Rmult_le_compat_l; lra).
  apply Rabs_le. destruct (N.even _); lra.
Qed.
Theorem C70_twist_speed : forall calls, Forall (fun o => exists v, fst o = downwards v /\ Rabs v <= 1 / 10 /\
  norm3 (nth 0 (fst o) 0) (nth 1 (fst o) 0) (nth 2 (fst o) 0) = Rabs v) (twist_outputs calls).
Proof.
  intros calls. rewrite C70_twist. apply Forall_map, Forall_forall. intros ms _. cbn [fst].
  exists (velocity_wave (1 / 10) 4000 ms). split; [reflexivity|]. split; [apply velocity_wave_bound; lra|].
  set (v := velocity_wave _ _ _). clearbody v. unfold norm3, downwards. cbn [nth].
  replace (cos (PI / 4) * v * (cos (PI / 4) * v) + 0 * 0 + - sin (PI / 4) * v * (- sin (PI / 4) * v)) with (Rabs v * Rabs v).
  2:{ pose proof (sin2_cos2 (PI / 4)) as Q. unfold Rsqr in Q. rewrite <- Rabs_mult, Rabs_pos_eq by (apply Rle_0_sqr).
      replace (v * v) with ((sin (PI / 4) * sin (PI / 4) + cos (PI / 4) * cos (PI / 4)) * (v * v)) by (rewrite Q; ring). ring. }
  apply sqrt_square, Rabs_pos.
Qed.
Print Assumptions C70_twist_speed.
(** It ends at rest where it started. *)
Definition twist_sums (vs : list (list R)) : list R :=
  fold_right (fun v s => map (fun p => fst p + snd p) (combine v s)) (repeat 0 6) vs.
Lemma twist_sums_down : forall (w : nat -> R) l, twist_sums (map (fun k => downwards (w k)) l) = downwards (total (map w l)).
Proof.
  intros w l. induction l as [|k l IH].
  - unfold twist_sums, downwards, total. cbn. rewrite !Rmult_0_r. reflexivity.
  - unfold twist_sums in *. cbn [map fold_right]. rewrite IH. unfold downwards. cbn [combine map fst snd].
    change (total (w k :: map w l)) with (w k + total (map w l)). rewrite Rplus_0_l.
    rewrite !Rmult_plus_distr_l. reflexivity.
Qed.
Lemma downwards_0 : downwards 0 = repeat 0 6.
Proof. unfold downwards. rewrite !Rmult_0_r. reflexivity. Qed.
Lemma wave_end : forall max (period : N), (10 <= period)%N -> velocity_wave max period (2 * period) = 0.
Proof.
  intros max period Hp. pose proof (u_high max (N.to_nat period) ltac:(lia) (N.to_nat (2 * period)) ltac:(lia)) as U.
  rewrite !N2Nat.id in U. rewrite U. replace (N.to_nat (2 * period)) with (N.to_nat period + N.to_nat period)%nat by lia.
  pose proof (f_shift max (N.to_nat period) ltac:(lia) (N.to_nat period)) as S1. cbv beta in S1. rewrite S1.
  pose proof (f_T0 max (N.to_nat period) ltac:(lia)) as S2. cbv beta in S2. rewrite S2. lra.
Qed.
Theorem C70_twist_returns : forall xs : list unit, (8000 <= N.of_nat (length xs))%N -> let out := twist_outputs (every_ms tt xs) in
  twist_sums (map fst out) = repeat 0 6 /\ exists l, out = l ++ [(repeat 0 6, true)] /\ Forall (fun o => snd o = false) l.
Proof.
  intros xs Hn out. unfold out. rewrite C70_twist. unfold every_ms. cbn [map snd]. rewrite every_steps. split.
  - rewrite map_map. cbn [fst]. cbn [instants N.add]. change (8000 <=? 0)%N with false. cbv iota.
    pose proof (instants_whole (N.to_nat 8000) (length xs) 0) as W. rewrite N2Nat.id in W. change (N.of_nat 0) with 0%N in W. rewrite W by lia.
    rewrite Nat.sub_0_r. pose proof (velocity_total (1 / 10) (N.to_nat 4000) ltac:(lia)) as V. rewrite N2Nat.id in V.
    replace (N.to_nat 4000 + N.to_nat 4000 + 1)%nat with (S (N.to_nat 8000)) in V by lia. cbn [seq] in V.
    change (0%N :: map N.of_nat (seq 1 (N.to_nat 8000))) with (map N.of_nat (0%nat :: seq 1 (N.to_nat 8000))).
    rewrite map_map, twist_sums_down, V. apply downwards_0.
  - destruct (instants_complete 8000 (length xs) 0) as (l & E & F); [lia|lia|].
    cbn [instants N.add]. change (8000 <=? 0)%N with false. cbv iota. rewrite E.
    exists (map (fun ms => (downwards (velocity_wave (1 / 10) 4000 ms), (8000 <=? ms)%N)) (0%N :: l)). split.
    + cbn [map app]. rewrite map_app. cbn [map]. pose proof (wave_end (1 / 10) 4000 ltac:(lia)) as Z0.
      change (2 * 4000)%N with 8000%N in Z0. rewrite Z0, downwards_0. reflexivity.
    + apply Forall_map. constructor; [reflexivity|]. eapply Forall_impl; [|exact F]. intros k Hk. cbn [snd]. apply N.leb_gt. exact Hk.
Qed.
Print Assumptions C70_twist_returns.

(** Concrete cases: a ready position, calls with a state lost, complete motions. *)
Example C70_ex_joints : joints (repeat (PI / 4) 7) /\ Forall (fun c : list R * N => (0 < snd c)%N) [(repeat 1 7, 1%N); (repeat 2 7, 3%N)] /\
  instants 5000 0 (0%N :: map snd [(repeat 1 7, 1%N); (repeat 2 7, 3%N)]) = [0; 1; 4]%N.
Proof. split; [reflexivity|]. split; [repeat constructor|reflexivity]. Qed.
Example C70_ex_complete : (8000 <= N.of_nat (length (repeat tt (N.to_nat 8000))))%N /\ (10000 <= N.of_nat (length (repeat tt (N.to_nat 10000))))%N.
Proof. rewrite !repeat_length, !N2Nat.id. split; apply N.le_refl. Qed.
Example C70_ex_pose : pose16 (repeat 1 16). Proof. reflexivity. Qed.
(** The wave is not zero, and the second period is negative. *)
Example C70_ex_wave : velocity_wave 1 1000 500 = 1 /\ velocity_wave 1 1000 1500 = -1 /\ position_wave 2500 = PI / 4.
Proof.
  unfold velocity_wave, position_wave. change (Z.of_N 500) with 500%Z. change (Z.of_N 1500) with 1500%Z. change (Z.of_N 1000) with 1000%Z. change (Z.of_N 2500) with 2500%Z.
  replace (2 * PI * (500 / 1000)) with PI by field. replace (2 * PI * (1500 / 1000)) with (PI + 2 * INR 1 * PI) by (cbn [INR]; field).
  replace (PI / (5 / 2) * (2500 / 1000)) with PI by field. rewrite cos_period, cos_PI.
  change (N.even (500 / 1000)) with true. change (N.even (1500 / 1000)) with false. cbv iota. repeat split; lra.
Qed.
