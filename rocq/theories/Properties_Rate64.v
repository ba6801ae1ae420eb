(** C28 and C30 in IEEE-754 double arithmetic, and the elbow. *)
From Coq Require Import List ZArith NArith Bool Reals Lra Lia Psatz.
From Flocq Require Import Core IEEE754.BinarySingleNaN IEEE754.Binary IEEE754.Bits.
From Verif Require Import NumOps NumReal NumFloat RateModel RateReal RateSpec FloatFacts Properties_Rate.
Import ListNotations.
Open Scope R_scope.

(** The constants of one joint: limits of the library below those of the robot, [w] and [a]. *)
Record joint_limits (V A J : binary64) (w a : R) : Prop := {
  jl_fin : b64_fin V = true /\ b64_fin A = true /\ b64_fin J = true;
  jl_v : 2 <= val V /\ val V <= w - 9/10000 /\ w - val V <= 11/10000 /\ w <= 27/10;
  jl_a : 7 <= val A /\ val A <= a - 9/10000 /\ a <= 20;
  jl_j : 499 * val A <= val J <= 501 * val A
}.

Lemma abs_range : forall x m, Rabs x <= m <-> - m <= x <= m.
Proof. intros x m. unfold Rabs. destruct (Rcase_abs x); lra. Qed.
Lemma delta_exact : b64_fin (DELTA_T float) = true /\
  1/1000 - / 1000000000000000000 <= val (DELTA_T float) <= 1/1000 + / 1000000000000000000.
Proof.
  destruct (val_finite (DELTA_T float) false 4611686018427388 (-62)) as [F V]; [vm_compute; reflexivity|].
  split; [exact F|]. rewrite V. cbn [cond_Zopp]. change (bpow radix2 (-62)) with (/ 4611686018427387904). lra.
Qed.

(** One safe acceleration: [k * (s - lv)] where [s] is plus or minus the velocity limit. *)
Lemma safe_product : forall k s lv, b64_fin k = true -> b64_fin s = true -> b64_fin lv = true ->
  4989/10 <= val k <= 5011/10 -> -27/10 <= val s <= 27/10 -> -27/10 <= val lv <= 27/10 ->
  let p := b64_mult mode_NE k (b64_minus mode_NE s lv) in
  b64_fin p = true /\ - / 1000000000 <= val p - val k * (val s - val lv) <= / 1000000000.
Proof.
  intros k s lv Fk Fs Fl Hk Hs Hl p.
  destruct (minus_ok s lv 3 Fs Fl) as [Fd Vd]; [lia|apply abs_range; change (bpow radix2 3) with 8; lra|].
  assert (Ed : Rabs (rnd (val s - val lv) - (val s - val lv)) <= / 2251799813685248).
  { apply (rnd_error _ 3); [lia|]. change (bpow radix2 3) with 8. apply Rabs_def1; lra. }
  rewrite <- Vd in Ed. apply abs_range in Ed. unfold p. set (d := b64_minus mode_NE s lv) in *. clearbody d.
  set (x := val d) in *. set (y := val s - val lv) in *. set (q := val k) in *.
  assert (Hy : -54/10 <= y <= 54/10) by (unfold y; lra). assert (Hx : -55/10 <= x <= 55/10) by lra.
  assert (Hp : -3000 <= q * x <= 3000) by (split; nra).
  destruct (mult_ok k d 12 Fk Fd) as [Fp Vp]; [lia|apply abs_range; change (bpow radix2 12) with 4096; fold q x; lra|].
  assert (Ep : Rabs (rnd (val k * val d) - val k * val d) <= / 4398046511104).
  { apply (rnd_error _ 12); [lia|]. change (bpow radix2 12) with 4096. fold q x. apply Rabs_def1; lra. }
  split; [exact Fp|]. rewrite Vp. apply abs_range in Ep. fold q x in Ep |- *.
  assert (Eq : -600 * / 2251799813685248 <= q * x - q * y <= 600 * / 2251799813685248) by (split; nra).
  lra.
Qed.

(** A product with a factor close to 500. *)
Lemma about_500 : forall k d, 4989/10 <= k <= 5011/10 ->
  (0 <= d /\ 4989/10 * d <= k * d <= 5012/10 * d) \/ (d < 0 /\ 5012/10 * d <= k * d <= 4989/10 * d).
Proof.
  intros k d H. destruct (Rlt_le_dec d 0); [right|left]; (split; [lra|split]).
  - assert (k * - d <= 5012/10 * - d) by (apply Rmult_le_compat_r; lra). lra.
  - assert (4989/10 * - d <= k * - d) by (apply Rmult_le_compat_r; lra). lra.
  - apply Rmult_le_compat_r; lra.
  - apply Rmult_le_compat_r; lra.
Qed.
Lemma times_cycle : forall c t m, - m <= c <= m -> 1/1000 - / 1000000000000000000 <= t <= 1/1000 + / 1000000000000000000 ->
  - (m / 1000000000000000000) <= c * t - c / 1000 <= m / 1000000000000000000.
Proof.
  intros c t m Hc Ht. apply abs_range. replace (c * t - c / 1000) with (c * (t - 1/1000)) by field. rewrite Rabs_mult.
  unfold Rdiv at 2. apply Rmult_le_compat; try apply Rabs_pos; apply abs_range; lra.
Qed.
(** Whatever the request and the reported acceleration (NaN and infinity included): the next velocity is
    finite and within the robot's limits for velocity and acceleration. *)
Lemma velocity_step : forall V A J w a v lv la, joint_limits V A J w a -> b64_fin v = true ->
  b64_fin lv = true -> Rabs (val lv) <= w ->
  exists r, limit_rate_velocity float V A J v lv la = Some r /\ b64_fin r = true /\
    Rabs (val r) <= w - 1/10000 /\ Rabs ((val r - val lv) / cycle) <= a - 8/10000.
Proof.
  intros V A J w a v lv la [(FV & FA & FJ) HV HA HJ] Fv Fl Hl. apply abs_range in Hl.
  unfold limit_rate_velocity. cbn [f_finite float]. rewrite Fv. eexists. split; [reflexivity|].
  cbn [f_add f_sub f_mul f_div f_neg float]. set (acc := b64_plus mode_NE la _). clearbody acc. clear Fv v la.
  destruct delta_exact as [Ft Ht].
  (* the quotient *)
  assert (Hq : 499 <= val J / val A <= 501).
  { split; apply (Rmult_le_reg_r (val A)); try lra; unfold Rdiv; rewrite Rmult_assoc, Rinv_l; lra. }
  destruct (div_ok J A 9 FJ FA) as [Fk Vk]; [lra|lia|apply abs_range; change (bpow radix2 9) with 512; lra|].
  assert (Ek : Rabs (rnd (val J / val A) - val J / val A) <= / 35184372088832).
  { apply (rnd_error _ 9); [lia|]. change (bpow radix2 9) with 512. apply Rabs_def1; lra. }
  rewrite <- Vk in Ek. apply abs_range in Ek. set (k := b64_div mode_NE J A) in *. clearbody k.
  assert (Hk : 4989/10 <= val k <= 5011/10) by lra. clear Ek Vk Hq.
  (* the bounds of the acceleration *)
  destruct (safe_product k V lv Fk FV Fl Hk) as [F1 E1]; [lra|lra|].
  destruct (safe_product k (b64_opp V) lv) as [F2 E2]; [exact Fk|rewrite opp_fin; exact FV|exact Fl|exact Hk|rewrite opp_val; lra|lra|].
  rewrite opp_val in E2.
  set (p1 := b64_mult mode_NE k (b64_minus mode_NE V lv)) in *.
  set (p2 := b64_mult mode_NE k (b64_minus mode_NE (b64_opp V) lv)) in *. clearbody p1 p2.
  assert (FoA : b64_fin (b64_opp A) = true) by (rewrite opp_fin; exact FA).
  destruct (min_fin p1 A F1 FA) as [Fmx Vmx]. destruct (max_fin p2 (b64_opp A) F2 FoA) as [Fmn Vmn]. rewrite opp_val in Vmn.
  set (hi := f_min float p1 A) in *. set (lo := f_max float p2 (b64_opp A)) in *. clearbody hi lo.
  set (x := val lv) in *. set (VV := val V) in *. set (AA := val A) in *. set (kk := val k) in *.
  pose proof (about_500 kk (VV - x) Hk) as B1. pose proof (about_500 kk (- VV - x) Hk) as B2.
  set (kp := kk * (VV - x)) in *. set (kn := kk * (- VV - x)) in *. clearbody kp kn.
  assert (Hhi : val hi <= AA /\ val hi <= val p1 /\ (val hi = AA \/ val hi = val p1)).
  { rewrite Vmx. unfold Rmin. destruct (Rle_dec (val p1) AA); lra. }
  assert (Hlo : - AA <= val lo /\ val p2 <= val lo /\ (val lo = - AA \/ val lo = val p2)).
  { rewrite Vmn. unfold Rmax. destruct (Rle_dec (val p2) (- AA)); lra. }
  assert (Order : val lo <= val hi) by lra.
  destruct (clamp_any acc lo hi Fmn Fmx Order) as [Fc Vc]. set (c := f_max float (f_min float acc hi) lo) in *. clearbody c.
  assert (Ac : - AA <= val c <= AA) by lra.
  (* the step *)
  set (t := val (DELTA_T float)) in *. set (cc := val c) in *.
  pose proof (times_cycle cc t 20 ltac:(lra) Ht) as Hct. assert (Hm : -21/1000 <= cc * t <= 21/1000) by lra.
  destruct (mult_ok c (DELTA_T float) 0 Fc Ft) as [Fm Vm]; [lia|apply abs_range; change (bpow radix2 0) with 1; fold cc t; lra|].
  assert (Em : Rabs (rnd (cc * t) - cc * t) <= / 18014398509481984).
  { apply (rnd_error _ 0); [lia|]. change (bpow radix2 0) with 1. apply Rabs_def1; lra. }
  fold cc t in Vm. rewrite <- Vm in Em. apply abs_range in Em. set (m := b64_mult mode_NE c (DELTA_T float)) in *. clearbody m.
  assert (Hmm : -1/100000000000000 <= val m - cc / 1000 <= 1/100000000000000).
  { lra. }
  destruct (plus_ok lv m 2 Fl Fm) as [Fr Vr]; [lia|apply abs_range; change (bpow radix2 2) with 4; fold x; lra|].
  assert (Er : Rabs (rnd (x + val m) - (x + val m)) <= / 4503599627370496).
  { apply (rnd_error _ 2); [lia|]. change (bpow radix2 2) with 4. apply Rabs_def1; lra. }
  fold x in Vr. rewrite <- Vr in Er. apply abs_range in Er. set (r := b64_plus mode_NE lv m) in *. clearbody r.
  assert (Hr : -2/100000000000000 <= val r - (x + cc / 1000) <= 2/100000000000000) by lra.
  split; [exact Fr|]. split.
  - apply abs_range. split; lra.
  - apply abs_range. unfold cycle. lra.
Qed.

Lemma position_step : forall V A J w a p lp lv la q, joint_limits V A J w a ->
  b64_fin lp = true -> Rabs (val lp) <= 1024 -> b64_fin lv = true -> Rabs (val lv) <= w ->
  limit_rate_position float V A J p lp lv la = Some q ->
  b64_fin q = true /\ Rabs ((val q - val lp) / cycle) <= w /\ Rabs (((val q - val lp) / cycle - val lv) / cycle) <= a.
Proof.
  intros V A J w a p lp lv la q L Fp Hp Fl Hl H. unfold limit_rate_position in H. cbn [f_finite float] in H.
  destruct (b64_fin p); [|discriminate H].
  set (v := f_div float _ _) in H. destruct (b64_fin v) eqn:Fv.
  2:{ unfold limit_rate_velocity in H. cbn [f_finite float] in H. rewrite Fv in H. discriminate H. }
  destruct (velocity_step V A J w a v lv la L Fv Fl Hl) as (r & E & Fr & Hr & Ha). rewrite E in H.
  apply (f_equal (fun o => match o with Some z => z | None => q end)) in H. cbn [f_add f_mul float] in H. subst q.
  clearbody v. clear E. destruct L as [_ HV HA _]. destruct delta_exact as [Ft Ht].
  apply abs_range in Hp, Hl, Hr, Ha. unfold cycle in Ha |- *. set (t := val (DELTA_T float)) in *. set (y := val r) in *.
  pose proof (times_cycle y t 3 ltac:(lra) Ht) as Hct. assert (Hm : -4/1000 <= y * t <= 4/1000) by lra.
  destruct (mult_ok r (DELTA_T float) (-7) Fr Ft) as [Fm Vm]; [lia|apply abs_range; change (bpow radix2 (-7)) with (/ 128); fold y t; lra|].
  assert (Em : Rabs (rnd (y * t) - y * t) <= / 2305843009213693952).
  { apply (rnd_error _ (-7)); [lia|]. change (bpow radix2 (-7)) with (/ 128). apply Rabs_def1; lra. }
  fold y t in Vm. rewrite <- Vm in Em. apply abs_range in Em. set (m := b64_mult mode_NE r (DELTA_T float)) in *. clearbody m.
  assert (Hmm : -1/100000000000000000 <= val m - y / 1000 <= 1/100000000000000000).
  { lra. }
  destruct (plus_ok lp m 11 Fp Fm) as [Fq Vq]; [lia|apply abs_range; change (bpow radix2 11) with 2048; lra|].
  assert (Eq : Rabs (rnd (val lp + val m) - (val lp + val m)) <= / 8796093022208).
  { apply (rnd_error _ 11); [lia|]. change (bpow radix2 11) with 2048. apply Rabs_def1; lra. }
  rewrite <- Vq in Eq. apply abs_range in Eq. set (q := b64_plus mode_NE lp m) in *. clearbody q.
  split; [exact Fq|]. split; apply abs_range; lra.
Qed.

(** * The seven joints *)
Inductive limits64 : list binary64 -> list binary64 -> list binary64 -> list R -> list R -> Prop :=
| limits64_nil : limits64 [] [] [] [] []
| limits64_cons : forall V A J w a vs as_ js ws as', joint_limits V A J w a -> limits64 vs as_ js ws as' ->
    limits64 (V :: vs) (A :: as_) (J :: js) (w :: ws) (a :: as').
Ltac constant64 x m e :=
  let F := fresh "F" in let E := fresh "E" in
  destruct (val_finite x false m e) as [F E]; [vm_compute; reflexivity|].
Ltac limits_of V mv ev A ma ea J mj ej :=
  constant64 V mv ev; constant64 A ma ea; constant64 J mj ej;
  split; [auto| | |];
  repeat match goal with H : val ?x = _ |- context [val ?x] => rewrite H end;
  cbn [cond_Zopp];
  change (bpow radix2 (-51)) with (/ 2251799813685248);
  change (bpow radix2 (-50)) with (/ 1125899906842624);
  change (bpow radix2 (-49)) with (/ 562949953421312);
  change (bpow radix2 (-48)) with (/ 281474976710656);
  change (bpow radix2 (-41)) with (/ 2199023255552);
  change (bpow radix2 (-40)) with (/ 1099511627776);
  change (bpow radix2 (-39)) with (/ 549755813888); lra.
Definition at_ (l : list binary64) (n : nat) : binary64 := nth n l (DELTA_T float).
Lemma joint_1 : joint_limits (at_ (MAX_JOINT_VELOCITY float) 0) (at_ (MAX_JOINT_ACCELERATION float) 0) (at_ (MAX_JOINT_JERK float) 0) (2175/1000) 15.
Proof. limits_of (at_ (MAX_JOINT_VELOCITY float) 0) 4895379020206324%positive (-51)%Z (at_ (MAX_JOINT_ACCELERATION float) 0) 8443686351366259%positive (-49)%Z (at_ (MAX_JOINT_JERK float) 0) 8246336108808372%positive (-40)%Z. Qed.
Lemma joint_2 : joint_limits (at_ (MAX_JOINT_VELOCITY float) 1) (at_ (MAX_JOINT_ACCELERATION float) 1) (at_ (MAX_JOINT_JERK float) 1) (2175/1000) (15/2).
Proof. limits_of (at_ (MAX_JOINT_VELOCITY float) 1) 4895395908704926%positive (-51)%Z (at_ (MAX_JOINT_ACCELERATION float) 1) 8443123401412837%positive (-50)%Z (at_ (MAX_JOINT_JERK float) 1) 8246335009296744%positive (-41)%Z. Qed.
Lemma joint_3 : joint_limits (at_ (MAX_JOINT_VELOCITY float) 2) (at_ (MAX_JOINT_ACCELERATION float) 2) (at_ (MAX_JOINT_JERK float) 2) (2175/1000) 10.
Proof. limits_of (at_ (MAX_JOINT_VELOCITY float) 2) 4895390279205392%positive (-51)%Z (at_ (MAX_JOINT_ACCELERATION float) 2) 5628936584259699%positive (-49)%Z (at_ (MAX_JOINT_JERK float) 2) 5497557039368372%positive (-40)%Z. Qed.
Lemma joint_4 : joint_limits (at_ (MAX_JOINT_VELOCITY float) 3) (at_ (MAX_JOINT_ACCELERATION float) 3) (at_ (MAX_JOINT_JERK float) 3) (2175/1000) (25/2).
Proof. limits_of (at_ (MAX_JOINT_VELOCITY float) 3) 4895384649705858%positive (-51)%Z (at_ (MAX_JOINT_ACCELERATION float) 3) 7036311467812979%positive (-49)%Z (at_ (MAX_JOINT_JERK float) 3) 6871946574088372%positive (-40)%Z. Qed.
Lemma joint_5 : joint_limits (at_ (MAX_JOINT_VELOCITY float) 4) (at_ (MAX_JOINT_ACCELERATION float) 4) (at_ (MAX_JOINT_JERK float) 4) (2610/1000) 15.
Proof. limits_of (at_ (MAX_JOINT_VELOCITY float) 4) 5874911939159407%positive (-51)%Z (at_ (MAX_JOINT_ACCELERATION float) 4) 8443686351366259%positive (-49)%Z (at_ (MAX_JOINT_JERK float) 4) 8246336108808372%positive (-40)%Z. Qed.
Lemma joint_6 : joint_limits (at_ (MAX_JOINT_VELOCITY float) 5) (at_ (MAX_JOINT_ACCELERATION float) 5) (at_ (MAX_JOINT_JERK float) 5) (2610/1000) 20.
Proof. limits_of (at_ (MAX_JOINT_VELOCITY float) 5) 5874900680160338%positive (-51)%Z (at_ (MAX_JOINT_ACCELERATION float) 5) 5629218059236409%positive (-48)%Z (at_ (MAX_JOINT_JERK float) 5) 5497557589124186%positive (-39)%Z. Qed.
Lemma joint_7 : joint_limits (at_ (MAX_JOINT_VELOCITY float) 6) (at_ (MAX_JOINT_ACCELERATION float) 6) (at_ (MAX_JOINT_JERK float) 6) (2610/1000) 20.
Proof. limits_of (at_ (MAX_JOINT_VELOCITY float) 6) 5874900680160338%positive (-51)%Z (at_ (MAX_JOINT_ACCELERATION float) 6) 5629218059236409%positive (-48)%Z (at_ (MAX_JOINT_JERK float) 6) 5497557589124186%positive (-39)%Z. Qed.
(** rate_limiting.rs 73-78 *)
Lemma elbow_limits : joint_limits (MAX_ELBOW_VELOCITY float) (MAX_ELBOW_ACCELERATION float) (MAX_ELBOW_JERK float) (2175/1000) 10.
Proof. limits_of (MAX_ELBOW_VELOCITY float) 4895390279205392%positive (-51)%Z (MAX_ELBOW_ACCELERATION float) 5628936584259699%positive (-49)%Z (MAX_ELBOW_JERK float) 5497557039368372%positive (-40)%Z. Qed.
Lemma joints_limits :
  limits64 (MAX_JOINT_VELOCITY float) (MAX_JOINT_ACCELERATION float) (MAX_JOINT_JERK float) robot_velocity robot_acceleration.
Proof.
  apply limits64_cons; [exact joint_1|]. apply limits64_cons; [exact joint_2|]. apply limits64_cons; [exact joint_3|].
  apply limits64_cons; [exact joint_4|]. apply limits64_cons; [exact joint_5|]. apply limits64_cons; [exact joint_6|].
  apply limits64_cons; [exact joint_7|]. apply limits64_nil.
Qed.

Definition finite64 (l : list binary64) : Prop := Forall (fun x => b64_fin x = true) l.
Definition vals (l : list binary64) : list R := map val l.
Lemma finite64_iff : forall l, all_finite float l = true <-> finite64 l.
Proof. intros l. unfold all_finite, finite64. rewrite Forall_forall. apply forallb_forall. Qed.

Lemma velocities_step : forall vs as_ js ws as', limits64 vs as_ js ws as' -> forall xs lvs las,
  length xs = length vs -> length las = length vs -> finite64 xs -> finite64 lvs -> bounded ws (vals lvs) ->
  exists rs, sequence (per_joint float (fun v a j x _ lv la => limit_rate_velocity float v a j x lv la) vs as_ js xs lvs lvs las) = Some rs /\
    finite64 rs /\ bounded ws (vals rs) /\ bounded as' (rate (vals lvs) (vals rs)).
Proof.
  induction 1 as [|V A J w a vs as_ js ws as' L Ls IH]; intros xs lvs las Nx Na Fx Fl B.
  - destruct xs; [|discriminate Nx]. inversion B as [Bm Bx|]. destruct lvs; [|discriminate]. exists [].
    split; [reflexivity|]. split; [constructor|]. split; constructor.
  - destruct xs as [|x xs]; [discriminate Nx|]. destruct las as [|la las]; [discriminate Na|].
    destruct lvs as [|lv lvs]; [inversion B|]. inversion B as [|? ? ? ? B1 B2]; subst.
    injection Nx as Nx. injection Na as Na. inversion Fx as [|? ? F1 F2]; subst. inversion Fl as [|? ? G1 G2]; subst.
    destruct (velocity_step V A J w a x lv la L F1 G1 B1) as (r & E & Fr & Hr & Ha).
    destruct (IH xs lvs las Nx Na F2 G2 B2) as (rs & Es & Frs & Hrs & Has).
    exists (r :: rs). cbn [per_joint sequence]. rewrite E, Es. split; [reflexivity|].
    split; [constructor; assumption|]. split; [constructor; [lra|exact Hrs]|]. cbn [vals map rate]. constructor; [lra|exact Has].
Qed.

(** No more than 1024 from zero: any angle a robot joint can have. *)
Definition near (l : list binary64) : Prop := Forall (fun x => b64_fin x = true /\ Rabs (val x) <= 1024) l.
Lemma positions_step : forall vs as_ js ws as', limits64 vs as_ js ws as' -> forall ps lps lvs las qs,
  length ps = length vs -> length lps = length vs -> length las = length vs -> near lps -> finite64 lvs -> bounded ws (vals lvs) ->
  sequence (per_joint float (limit_rate_position float) vs as_ js ps lps lvs las) = Some qs ->
  finite64 qs /\ bounded ws (rate (vals lps) (vals qs)) /\ bounded as' (rate (vals lvs) (rate (vals lps) (vals qs))).
Proof.
  induction 1 as [|V A J w a vs as_ js ws as' L Ls IH]; intros ps lps lvs las qs Np Nl Na Fp Fl B H.
  - destruct lps; [|discriminate Nl]. inversion B as [Bm Bx|]. destruct lvs; [|discriminate]. cbn in H. injection H as <-.
    split; [constructor|]. split; constructor.
  - destruct ps as [|p ps]; [discriminate Np|]. destruct lps as [|lp lps]; [discriminate Nl|].
    destruct las as [|la las]; [discriminate Na|]. destruct lvs as [|lv lvs]; [inversion B|].
    inversion B as [|? ? ? ? B1 B2]; subst. injection Np as Np. injection Nl as Nl. injection Na as Na.
    inversion Fp as [|? ? [P1 P2] P3]; subst. inversion Fl as [|? ? G1 G2]; subst.
    cbn [per_joint sequence] in H. destruct (limit_rate_position float V A J p lp lv la) as [q|] eqn:E; [|discriminate H].
    destruct (sequence _) as [r|] eqn:Es in H; [|discriminate H].
    apply (f_equal (fun o => match o with Some z => z | None => qs end)) in H. subst qs.
    destruct (position_step V A J w a p lp lv la q L P1 P2 G1 B1 E) as (Fq & Hv & Ha).
    destruct (IH ps lps lvs las r Np Nl Na P3 G2 B2 Es) as (Frs & Hvs & Has).
    split; [constructor; assumption|]. cbn [vals map rate]. split; constructor; assumption.
Qed.

(** C28 in double arithmetic: an unbounded sequence of commands. Every request is a vector of finite
    numbers; the reported accelerations [las] are arbitrary doubles (NaN and infinity included). *)
Fixpoint velocities64 (last : list binary64) (calls : list (list binary64 * list binary64)) : option (list (list binary64)) :=
  match calls with
  | [] => Some []
  | (x, la) :: calls =>
      match limit_rate_joint_velocities float (MAX_JOINT_VELOCITY float) (MAX_JOINT_ACCELERATION float)
              (MAX_JOINT_JERK float) x last la with
      | Some y => match velocities64 y calls with Some ys => Some (y :: ys) | None => None end
      | None => None
      end
  end.
Theorem C28_joint_velocity_float : forall last calls,
  finite64 last -> bounded robot_velocity (vals last) ->
  Forall (fun c => length (fst c) = 7%nat /\ length (snd c) = 7%nat /\ finite64 (fst c)) calls ->
  exists ys, velocities64 last calls = Some ys /\ Forall finite64 ys /\
    steps (fun x y => bounded robot_velocity (vals y) /\ bounded robot_acceleration (rate (vals x) (vals y))) last ys.
Proof.
  intros last calls F B H. revert last F B. induction H as [|[x la] calls (N1 & N2 & Fx) H IH]; intros last F B.
  - exists []. split; [reflexivity|]. split; [constructor|exact I].
  - cbn [fst snd] in *. destruct (velocities_step _ _ _ _ _ joints_limits x last la N1 N2 Fx F B) as (y & E & Fy & By & Ay).
    destruct (IH y Fy By) as (ys & Es & Fs & Ss). exists (y :: ys). cbn [velocities64]. unfold limit_rate_joint_velocities.
    rewrite (proj2 (finite64_iff x) Fx), E, Es. split; [reflexivity|]. split; [constructor; assumption|].
    cbn [steps]. auto.
Qed.
Print Assumptions C28_joint_velocity_float.

(** C30 in double arithmetic: one cycle against reported position and velocity. The call fails only for a
    request that is not finite, or so far away that the commanded velocity is not. *)
Theorem C30_joint_position_float : forall p lp lv la q,
  length p = 7%nat -> length lp = 7%nat -> length la = 7%nat -> near lp -> finite64 lv -> bounded robot_velocity (vals lv) ->
  limit_rate_joint_positions float (MAX_JOINT_VELOCITY float) (MAX_JOINT_ACCELERATION float) (MAX_JOINT_JERK float) p lp lv la = Some q ->
  finite64 q /\ bounded robot_velocity (rate (vals lp) (vals q)) /\
  bounded robot_acceleration (rate (vals lv) (rate (vals lp) (vals q))).
Proof.
  intros p lp lv la q Np Nl Na Fp Fl B H. unfold limit_rate_joint_positions in H. destruct (all_finite float p); [|discriminate H].
  exact (positions_step _ _ _ _ _ joints_limits p lp lv la q Np Nl Na Fp Fl B H).
Qed.
Print Assumptions C30_joint_position_float.
(** A request far outside from rest and an acceleration report which is NaN: velocities of 0.014999, 0.0075 ...
    rad/s after one cycle (bit patterns); the second call starts from them. *)
Definition zeros64 : list binary64 := repeat (of_bits 0) 7.
Definition far64 : list binary64 := repeat (f_int float 1000) 7.
Definition nan64 : list binary64 := repeat (of_bits 9221120237041090560) 7.
Lemma zeros_within : finite64 zeros64 /\ bounded robot_velocity (vals zeros64) /\ near zeros64.
Proof.
  assert (Z : val (of_bits 0) = 0) by reflexivity.
  split; [repeat constructor|]. split.
  - unfold zeros64, vals, bounded, robot_velocity. cbn [repeat map]. rewrite Z. repeat constructor; rewrite Rabs_R0; lra.
  - apply Forall_forall. intros x H. apply repeat_spec in H. subst x. rewrite Z, Rabs_R0. split; [reflexivity|lra].
Qed.
Example C28_ex_float :
  (finite64 zeros64 /\ bounded robot_velocity (vals zeros64) /\
   Forall (fun c => length (fst c) = 7%nat /\ length (snd c) = 7%nat /\ finite64 (fst c)) [(far64, nan64); (far64, zeros64)]) /\
  match velocities64 zeros64 [(far64, nan64); (far64, zeros64)] with
  | Some [y; z] => (map (fun x => f_lt float (f_lit float 7 1000) x) y, map bits (firstn 1 y), map bits (firstn 1 z))
  | _ => ([], [], [])
  end = (repeat true 7, [4579799956604852489%N], [4582142116353230922%N]).
Proof.
  split; [|vm_compute; reflexivity]. split; [apply zeros_within|]. split; [apply zeros_within|].
  constructor; [|constructor; [|constructor]]; (split; [reflexivity|split; [reflexivity|]]); cbn [fst];
    apply Forall_forall; intros x H; apply repeat_spec in H; subst x; vm_compute; reflexivity.
Qed.
Example C30_ex_float : near zeros64 /\ finite64 zeros64 /\ bounded robot_velocity (vals zeros64) /\
  option_map (fun q => map bits (firstn 1 q)) (limit_rate_joint_positions float (MAX_JOINT_VELOCITY float) (MAX_JOINT_ACCELERATION float) (MAX_JOINT_JERK float)
    far64 zeros64 zeros64 nan64) = Some [4534971472366918706%N].
Proof. split; [apply zeros_within|]. split; [apply zeros_within|]. split; [apply zeros_within|]. vm_compute. reflexivity. Qed.
