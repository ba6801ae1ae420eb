(** The clocks of the closures of the example programs: sums of time steps in binary64. *)
From Coq Require Import List NArith ZArith Bool Arith Lia Reals Lra.
From Flocq Require Import Core IEEE754.BinarySingleNaN IEEE754.Binary IEEE754.Bits.
From Verif Require Import NumOps NumFloat FloatFacts RateModel WireModel JointMotionModel ExampleMotions CallFacts Properties_Time MotionRun.
Import ListNotations.
Open Scope list_scope.
Open Scope N_scope.

Lemma ge_spec : forall t c, b64_fin c = true -> f_ge float t c = true <-> (t = Binary.B754_infinity 53 1024 false \/ (b64_fin t = true /\ (val c <= val t)%R)).
Proof.
  intros t c Fc. unfold f_ge. cbn [f_lt f_eq float]. destruct (b64_fin t) eqn:Ft.
  - rewrite lt_fin by assumption. unfold b64_eq, b64_compare. rewrite Binary.Bcompare_correct by assumption. fold (val t). fold (val c).
    destruct (Rlt_bool_spec (val c) (val t)) as [L|L]; cbn [orb].
    + split; [|reflexivity]. intros _. right. split; [reflexivity|lra].
    + destruct (Rcompare_spec (val t) (val c)) as [H|H|H]; split; try discriminate; try reflexivity.
      * intros [->|[_ K]]; [discriminate Ft|lra].
      * intros _. right. split; [reflexivity|lra].
      * intros _. lra.
  - destruct t as [|[]| |]; try discriminate Ft; destruct c as [|[]| |[]]; try discriminate Fc; cbn; split; try discriminate; auto; intros [X|[X _]]; discriminate X.
Qed.

Lemma seconds_range : forall p, 1 <= p < 2 ^ 64 -> b64_fin (as_secs_f64 p) = true /\ (/ 2000 <= val (as_secs_f64 p) <= 36893488147419103232)%R.
Proof.
  intros p Bp. destruct (C58_seconds p ltac:(lia)) as [Fs Ns]. apply Rabs_le_inv in Ns.
  assert (E51 : (/ 2 ^ 51 = / 2251799813685248)%R) by (f_equal; ring). rewrite E51 in Ns. split; [exact Fs|].
  assert (P1 : (1 <= IZR (Z.of_N p))%R) by (apply (IZR_le 1); lia).
  assert (P2 : (IZR (Z.of_N p) <= 18446744073709551616)%R) by (apply IZR_le; lia). lra.
Qed.
(** The clock never goes back, also when it overflows. *)
Lemma step_ge : forall t c p, b64_fin c = true -> (0 <= val c)%R -> 1 <= p < 2 ^ 64 -> f_ge float t c = true ->
  f_ge float (f_add float t (as_secs_f64 p)) c = true /\ f_ge float (f_add float t (as_secs_f64 p)) (as_secs_f64 p) = true.
Proof.
  intros t c p Fc Pc Bp G. destruct (seconds_range p Bp) as [Fs Ns]. rewrite !ge_spec by assumption. apply ge_spec in G; [|exact Fc].
  set (x := as_secs_f64 p) in *. clearbody x. cbn [f_add float].
  destruct G as [->|[Ft L]].
  { destruct x as [|[]| |]; try discriminate Fs; split; left; reflexivity. }
  unfold b64_plus. pose proof (Binary.Bplus_correct 53 1024 eq_refl eq_refl binop_nan_pl64 mode_NE t x Ft Fs) as B.
  change (Binary.B2R 53 1024 t) with (val t) in B. change (Binary.B2R 53 1024 x) with (val x) in B. change (round radix2 (SpecFloat.fexp 53 1024) (round_mode mode_NE)) with rnd in B.
  destruct (Rlt_bool (Rabs (rnd (val t + val x))) (bpow radix2 1024)).
  - destruct B as (V & F & _).
    assert (K : forall y, b64_fin y = true -> (val y <= val t + val x)%R -> (val y <= rnd (val t + val x))%R).
    { intros y Fy H. assert (Y : rnd (val y) = val y) by (apply round_generic; [apply valid_rnd_N|apply Binary.generic_format_B2R]). rewrite <- Y. apply rnd_le. exact H. }
    unfold val at 2 4. split; right; (split; [exact F|]); rewrite V; apply K; auto; lra.
  - destruct B as [B S]. assert (St : Binary.Bsign 53 1024 t = false).
    { unfold val in L, Pc. destruct t as [s|s|s pl e|[] m e Bd]; try discriminate Ft; try reflexivity.
      - rewrite S. destruct x as [s'|s'|s' pl e|[] m e Bd]; try discriminate Fs.
        + exfalso. change (val (Binary.B754_zero 53 1024 s')) with 0%R in Ns. lra.
        + exfalso. assert (N : (val (Binary.B754_finite 53 1024 true m e Bd) < 0)%R) by (apply F2R_lt_0; reflexivity). lra.
        + reflexivity.
      - exfalso. assert (N : (Binary.B2R 53 1024 (Binary.B754_finite 53 1024 true m e Bd) < 0)%R) by (apply F2R_lt_0; reflexivity). lra. }
    rewrite St in B. cbn [binary_overflow overflow_to_inf] in B.
    assert (E : Binary.Bplus 53 1024 eq_refl eq_refl binop_nan_pl64 mode_NE t x = Binary.B754_infinity 53 1024 false).
    { destruct (Binary.Bplus 53 1024 eq_refl eq_refl binop_nan_pl64 mode_NE t x); try discriminate B. injection B as ->. reflexivity. }
    split; left; exact E.
Qed.
Lemma later_not_zero : forall t p, 1 <= p < 2 ^ 64 -> f_ge float t (f_int float 0) = true -> f_eq float (f_add float t (as_secs_f64 p)) (f_int float 0) = false.
Proof.
  intros t p Bp G. destruct (step_ge t (f_int float 0) p eq_refl ltac:(change (val (f_int float 0)) with 0%R; lra) Bp G) as [_ H].
  destruct (seconds_range p Bp) as [Fs Ns]. apply ge_spec in H; [|exact Fs]. destruct H as [H|[F L]].
  - rewrite H. reflexivity.
  - cbn [f_eq float]. rewrite eq_fin by (exact F || reflexivity). change (val (f_int float 0)) with 0%R. apply Req_bool_false. lra.
Qed.

(** The clock after each of these calls. *)
Fixpoint clock (t : F float) (calls : list (robot_state_intern * N)) : list (F float) :=
  match calls with
  | [] => []
  | (_, dt) :: r => let t' := f_add float t (as_secs_f64 dt) in t' :: clock t' r
  end.
(** Accurate until the end, then at or after it. *)
Definition on_time (first : N) (T : Z) (x : robot_state_intern) (t : F float) : Prop :=
  (Z.of_N (rs_message_id x) < Z.of_N first + 1000 * T -> f_ge float t (f_int float T) = false)%Z /\
  (Z.of_N first + 1000 * T < Z.of_N (rs_message_id x) -> f_ge float t (f_int float T) = true)%Z.
Lemma clock_on_time : forall T, (1 <= T <= 1000)%Z -> b64_fin (f_int float T) = true -> val (f_int float T) = IZR T ->
  forall calls first before t, spaced_from before calls -> Forall (fun c => rs_message_id (fst c) < 2 ^ 64) calls -> first <= before ->
  (b64_fin t = true /\ (0 <= val t < IZR T)%R /\ (Rabs (val t - (ms before - ms first) / 1000) <= (ms before - ms first) * / 400000000000)%R) \/
  (f_ge float t (f_int float T) = true /\ (Z.of_N first + 1000 * T <= Z.of_N before)%Z) ->
  Forall2 (fun c t => on_time first T (fst c) t) calls (clock t calls).
Proof.
  intros T BT FT VT. induction calls as [|[x dt] calls IH]; intros first before t S B L H; [constructor|].
  destruct S as (S1 & S2 & S3). inversion B as [|? ? B1 B2]. subst. cbn [fst] in B1. cbn [clock]. set (t' := f_add float t (as_secs_f64 dt)).
  assert (Bd : 1 <= dt < 2 ^ 64) by lia.
  assert (BT' : (1 <= IZR T <= 1000)%R) by (split; apply IZR_le; lia).
  assert (Id : ms (rs_message_id x) = (ms before + ms dt)%R) by (unfold ms; rewrite S2, N2Z.inj_add, plus_IZR; reflexivity).
  assert (D1 : (1 <= ms dt)%R) by (unfold ms; apply (IZR_le 1); lia).
  assert (E0 : (0 <= ms before - ms first)%R) by (unfold ms; rewrite <- minus_IZR; apply (IZR_le 0); lia).
  destruct H as [(Ft & Bt & Er)|[G Lt]].
  - destruct (time_step t dt Ft ltac:(lra) Bd) as (F' & P' & L'). change (f_add float t (as_secs_f64 dt)) with t' in F', P', L'. unfold late in L'.
    apply Rabs_le_inv in Er. apply Rabs_le_inv in L'.
    assert (Er' : (Rabs (val t' - (ms (rs_message_id x) - ms first) / 1000) <= (ms (rs_message_id x) - ms first) * / 400000000000)%R) by (apply Rabs_le; rewrite Id; lra).
    assert (Ot : on_time first T x t').
    { apply Rabs_le_inv in Er'. split; intros Hh.
      - assert (K : (ms (rs_message_id x) - ms first <= 1000 * IZR T - 1)%R) by (unfold ms; rewrite <- minus_IZR, <- mult_IZR, <- minus_IZR; apply IZR_le; lia).
        destruct (f_ge float t' (f_int float T)) eqn:E; [|reflexivity]. apply ge_spec in E; [|exact FT]. destruct E as [E|[_ E]]; [rewrite E in F'; discriminate F'|]. rewrite VT in E. lra.
      - assert (K : (1000 * IZR T + 1 <= ms (rs_message_id x) - ms first)%R) by (unfold ms; rewrite <- minus_IZR, <- mult_IZR, <- plus_IZR; apply IZR_le; lia).
        apply ge_spec; [exact FT|]. right. split; [exact F'|]. rewrite VT. lra. }
    constructor; [exact Ot|]. apply (IH first (rs_message_id x) t' S3 B2 ltac:(lia)).
    destruct (Rlt_le_dec (val t') (IZR T)) as [Lt|Lt].
    + left. split; [exact F'|]. split; [lra|exact Er'].
    + right. assert (G : f_ge float t' (f_int float T) = true) by (apply ge_spec; [exact FT|]; right; split; [exact F'|rewrite VT; exact Lt]).
      split; [exact G|]. destruct (Z_lt_le_dec (Z.of_N (rs_message_id x)) (Z.of_N first + 1000 * T)) as [C|C]; [|exact C].
      apply (proj1 Ot) in C. rewrite C in G. discriminate G.
  - destruct (step_ge t (f_int float T) dt FT ltac:(rewrite VT; lra) Bd G) as [G' _]. change (f_add float t (as_secs_f64 dt)) with t' in G'.
    constructor; [split; [intros Hh; cbn [fst] in Hh; lia|intros _; exact G']|]. apply (IH first (rs_message_id x) t' S3 B2 ltac:(lia)). right. split; [exact G'|lia].
Qed.
Lemma clock_bounded : forall calls first before t, spaced_from before calls -> first <= before ->
  Forall (fun c => rs_message_id (fst c) < 2 ^ 64 /\ rs_message_id (fst c) <= first + 3600000) calls ->
  b64_fin t = true -> (0 <= val t)%R -> (Rabs (val t - (ms before - ms first) / 1000) <= (ms before - ms first) * / 400000000000)%R ->
  before <= first + 3600000 -> Forall (fun t => b64_fin t = true /\ (0 <= val t <= 4000)%R) (clock t calls).
Proof.
  induction calls as [|[x dt] calls IH]; intros first before t S L B Ft Pt Er Bb; [constructor|].
  destruct S as (S1 & S2 & S3). inversion B as [|? ? [B0 B1] B2]. subst. cbn [fst] in B0, B1. cbn [clock].
  assert (D1 : (1 <= ms dt)%R) by (unfold ms; apply (IZR_le 1); lia).
  assert (E0 : (0 <= ms before - ms first <= 3600000)%R) by (unfold ms; rewrite <- minus_IZR; split; [apply (IZR_le 0)|apply (IZR_le _ 3600000)]; lia).
  assert (Id : ms (rs_message_id x) = (ms before + ms dt)%R) by (unfold ms; rewrite S2, N2Z.inj_add, plus_IZR; reflexivity).
  assert (E1 : (0 <= ms (rs_message_id x) - ms first <= 3600000)%R) by (unfold ms; rewrite <- minus_IZR; split; [apply (IZR_le 0)|apply (IZR_le _ 3600000)]; lia).
  apply Rabs_le_inv in Er. destruct (time_step t dt Ft ltac:(lra) ltac:(lia)) as (F' & P' & L'). set (t' := f_add float t (as_secs_f64 dt)) in *. unfold late in L'. apply Rabs_le_inv in L'.
  constructor; [split; [exact F'|lra]|]. apply (IH first (rs_message_id x) t' S3 ltac:(lia) B2 F'); [lra| |exact B1]. apply Rabs_le. lra.
Qed.
