(** The plan of the joint motion generator in binary64. *)
From Coq Require Import List NArith ZArith Bool Lia Lra Arith Reals.
From Flocq Require Import Core Relative IEEE754.BinarySingleNaN IEEE754.Binary IEEE754.Bits.
From Verif Require Import NumOps NumFloat FloatFacts SizeFacts TwistFloats MotionFloats MotionModel.
Import ListNotations.
Open Scope R_scope.

Ltac side := first [lia | lra | idtac].
Ltac rela :=
  first [eassumption |
  lazymatch goal with
  | |- relm _ _ (f_mul float _ _) _ => eapply relm_mul; [rela|rela|side..]
  | |- relm _ _ (f_div float _ _) _ => eapply relm_div; [rela|rela|side..]
  | |- relm _ _ (f_add float _ _) _ => eapply relm_add; [rela|rela|..]; side
  | |- relm _ _ (f_sqrt float _) _ => eapply relm_sqrt; [rela|..]; side
  | |- relm _ _ (f_abs float _) _ => eapply relm_abs; [rela|side..]
  | |- relm _ _ (f_int float 1) _ => exact int_1
  | |- relm _ _ (f_int float 2) _ => exact int_2
  | |- relm _ _ (f_int float 3) _ => exact int_3
  | |- relm _ _ (f_int float 4) _ => exact int_4
  | |- relm _ _ (f_int float 5) _ => exact int_5
  | |- relm _ _ (f_int float (-1)) _ => exact int_m1
  | |- relm _ _ (f_lit float 3 2) _ => exact lit_32
  | |- relm _ _ (f_lit float 1 2) _ => exact lit_12
  | |- relm _ _ (f_lit float 20 10) _ => exact lit_20_10
  | |- relm _ _ (f_lit float 20 8) _ => exact lit_20_8
  end].
Lemma relm_as : forall k n x r k' n' r', relm k n x r -> r = r' -> k <= k' -> (n <= n')%Z -> relm k' n' x r'.
Proof. intros k n x r k' n' r' (R & M & N & K) <- Hk Hn. split; [apply (rel_le k); assumption|]. split; [eapply mid_le; eassumption|]. split; [lia|lra]. Qed.

Section Plan.
  Variable s : F float.
  Hypothesis s_fin : b64_fin s = true.
  Hypothesis s_range : / 1024 <= val s <= 1.
  Notation S := (val s).
  (** [ddq_max_start] and [ddq_max_goal], [dq_max] of each joint *)
  Definition acc : F float := f_mul float (f_int float 5) s.
  Lemma s_rel : relm 0 10 s S.
  Proof. apply relm_exact; [exact s_fin| |lia]. apply mid_of; [|lia]. change (2 ^ 10)%Z with 1024%Z. rewrite Rabs_pos_eq; lra. Qed.
  Lemma acc_rel : relm 1 14 acc (5 * S).
  Proof. pose proof s_rel. eapply relm_as; [unfold acc; rela|reflexivity|lra|lia]. Qed.
  Variable v : R.
  Variable top : F float.
  Hypothesis v_is : v = 2 \/ v = 5 / 2.
  Hypothesis top_rel : relm 1 14 top (v * S).
  (** a joint which moves *)
  Variable d : F float.
  Hypothesis d_fin : b64_fin d = true.
  Hypothesis d_moves : moves float d = true.
  Hypothesis d_range : Rabs (val d) <= 8.
  Notation D := (Rabs (val d)).
  Lemma D_low : / 1000001 <= D.
  Proof.
    destruct finished_val as [F [L _]]. revert d_moves. unfold moves, f_gt, DELTA_Q_MOTION_FINISHED. cbn [f_lt f_abs float].
    rewrite lt_fin; [|exact F|unfold b64_fin, b64_abs; rewrite Binary.is_finite_Babs; exact d_fin].
    destruct (Rlt_bool_spec (val (f_lit float 1 1000000)) (val (b64_abs d))) as [H|H]; [|discriminate]. intros _.
    unfold val at 2, b64_abs in H. rewrite Binary.B2R_Babs in H. fold (val d) in H. lra.
  Qed.
  Lemma d_rel : relm 0 20 d (val d).
  Proof. apply relm_exact; [exact d_fin| |lia]. apply mid_of; [|lia]. change (2 ^ 20)%Z with 1048576%Z. pose proof D_low. lra. Qed.
  Definition sg : R := if Rle_dec 0 (val d) then 1 else -1.
  Lemma sign_rel : relm 0 4 (signum float d) sg /\ val d * sg = D.
  Proof.
    unfold signum, sg. cbn [f_eq f_sign_positive float]. rewrite eq_fin by exact d_fin. rewrite Req_bool_true by reflexivity.
    pose proof D_low as L. destruct (Rle_dec 0 (val d)) as [P|P].
    - rewrite Rabs_pos_eq in * by exact P. replace (Bsign 53 1024 d) with false; [split; [exact int_1|ring]|].
      destruct d as [b|b|b pl e|[|] m e B]; try discriminate d_fin; try reflexivity.
      + exfalso. change (val (B754_zero 53 1024 b)) with 0 in L. lra.
      + exfalso. assert (N : F2R (Float radix2 (Z.neg m) e) < 0) by (apply F2R_lt_0; reflexivity).
        change (val (B754_finite 53 1024 true m e B)) with (F2R (Float radix2 (Z.neg m) e)) in P. lra.
    - rewrite Rabs_left in * by lra. replace (Bsign 53 1024 d) with true; [split; [exact int_m1|ring]|].
      destruct d as [b|b|b pl e|[|] m e B]; try discriminate d_fin; try reflexivity.
      + exfalso. change (val (B754_zero 53 1024 b)) with 0 in P. lra.
      + exfalso. assert (N : 0 < F2R (Float radix2 (Z.pos m) e)) by (apply F2R_gt_0; reflexivity).
        change (val (B754_finite 53 1024 false m e B)) with (F2R (Float radix2 (Z.pos m) e)) in P. lra.
  Qed.
  (** the greatest speed reached *)
  Lemma reach_rel : exists R, relm 25 200 (reach_speed float d top acc acc) R /\ 0 < R /\
    ((R = v * S /\ 3 / 10 * v * v * S * (1 - / 1000000000) <= D) \/ (R = sqrt (10 / 3 * D * S) /\ D <= 3 / 10 * v * v * S * (1 + / 1000000000))).
  Proof.
    pose proof d_rel as Rd. pose proof acc_rel as Ra. destruct sign_rel as [Rs Es]. pose proof D_low as DL.
    assert (Sp : 0 < S) by lra. assert (vp : 2 <= v <= 5 / 2) by lra.
    unfold reach_speed.
    assert (Rab : relm 0 20 (f_abs float d) D) by (eapply relm_as; [rela|reflexivity|lra|lia]).
    assert (Rth : relm 30 200 (f_add float (f_mul float (f_div float (f_int float 3) (f_int float 4)) (f_div float (f_mul float top top) acc))
        (f_mul float (f_div float (f_int float 3) (f_int float 4)) (f_div float (f_mul float top top) acc))) (3 / 10 * v * v * S)).
    { assert (Q : relm 12 94 (f_mul float (f_div float (f_int float 3) (f_int float 4)) (f_div float (f_mul float top top) acc)) (3 / 20 * v * v * S))
        by (eapply relm_as; [rela|field; lra|lra|lia]).
      assert (0 <= 3 / 20 * v * v * S) by (assert (0 < v * v) by nra; nra).
      eapply relm_as; [rela|field|lra|lia]. }
    set (th := f_add float _ _) in *.
    assert (Fl : f_lt float (f_abs float d) th = Rlt_bool D (val th)).
    { cbn [f_lt float]. rewrite lt_fin; [|apply Rab|apply Rth]. f_equal. apply Binary.B2R_Babs. }
    rewrite Fl. destruct Rth as (Rth & _). pose proof (rel_bounds _ _ _ Rth ltac:(lra)) as B.
    assert (Pth : 0 <= 3 / 10 * v * v * S) by (assert (0 < v * v) by nra; nra). specialize (B Pth).
    destruct (Rlt_bool_spec D (val th)) as [L|L].
    - exists (sqrt (10 / 3 * D * S)). assert (P : 0 < 10 / 3 * D * S) by (apply Rmult_lt_0_compat; lra).
      split; [|split; [apply sqrt_lt_R0, P|right; split; [reflexivity|lra]]].
      assert (Q : relm 20 150 (f_div float (f_mul float (f_mul float (f_mul float (f_div float (f_int float 4) (f_int float 3)) d) (signum float d)) (f_mul float acc acc)) (f_add float acc acc)) (10 / 3 * D * S)).
      { rewrite <- Es. eapply relm_as; [rela|field; lra|lra|lia]. }
      eapply relm_as; [rela|reflexivity|lra|lia].
    - exists (v * S). split; [eapply relm_as; [exact top_rel|reflexivity|lra|lia]|]. split; [apply Rmult_lt_0_compat; lra|]. left. split; [reflexivity|lra].
  Qed.
  Lemma reach_top : forall R, 0 < R -> (R = v * S \/ (R = sqrt (10 / 3 * D * S) /\ D <= 3 / 10 * v * v * S * (1 + / 1000000000))) -> R <= v * S * (1 + / 1000000000).
  Proof.
    intros R P H. assert (vp : 2 <= v <= 5 / 2) by lra. assert (Q : 0 < v * S) by (apply Rmult_lt_0_compat; lra).
    destruct H as [->|[-> H]]; [lra|]. pose proof D_low. assert (E : 10 / 3 * D * S <= v * S * (v * S) * (1 + / 1000000000)).
    { replace (v * S * (v * S) * (1 + / 1000000000)) with (10 / 3 * S * (3 / 10 * v * v * S * (1 + / 1000000000))) by field.
      replace (10 / 3 * D * S) with (10 / 3 * S * D) by ring. apply Rmult_le_compat_l; lra. }
    rewrite <- (sqrt_square (v * S * (1 + / 1000000000))) by (apply Rmult_le_pos; lra). apply sqrt_le_1_alt. eapply Rle_trans; [exact E|].
    replace (v * S * (1 + / 1000000000) * (v * S * (1 + / 1000000000))) with (v * S * (v * S) * ((1 + / 1000000000) * (1 + / 1000000000))) by ring.
    apply Rmult_le_compat_l; [apply Rmult_le_pos; lra|lra].
  Qed.
  (** the time a joint needs *)
  Lemma own_bounds : let t := own_time float d top acc acc in b64_fin t = true /\ 0 <= val t /\ val t * S <= 5 /\
    D <= val t * (v * S) * (1 + / 100000000) /\ 6 / 5 * D <= val t * val t * S * (1 + / 100000000).
  Proof.
    cbn zeta. unfold own_time. rewrite d_moves. destruct reach_rel as (R & RR & RP & RC). pose proof acc_rel as Ra. pose proof d_rel as Rd. pose proof D_low as DL.
    pose proof (reach_top R RP) as RT. assert (vp : 2 <= v <= 5 / 2) by lra. assert (Sp : 0 < S) by lra.
    assert (VS : 0 < v * S) by (apply Rmult_lt_0_compat; lra).
    set (reach := reach_speed float d top acc acc) in *.
    assert (QS : 0 < R / S) by (apply Rdiv_lt_0_compat; lra). assert (QD : 0 < D / R) by (apply Rdiv_lt_0_compat; lra).
    assert (Q1 : relm 30 240 (f_div float (f_div float (f_mul float (f_lit float 3 2) reach) acc) (f_int float 2)) (3 / 20 * (R / S))) by (eapply relm_as; [rela|field; lra|lra|lia]).
    assert (Q2 : relm 30 240 (f_div float (f_abs float d) reach) (D / R)) by (eapply relm_as; [rela|reflexivity|lra|lia]).
    assert (Q : relm 100 800 (f_add float (f_add float (f_div float (f_div float (f_mul float (f_lit float 3 2) reach) acc) (f_int float 2))
       (f_div float (f_div float (f_mul float (f_lit float 3 2) reach) acc) (f_int float 2))) (f_div float (f_abs float d) reach)) (3 / 10 * (R / S) + D / R))
      by (eapply relm_as; [rela|lra|lra|lia]).
    match goal with |- b64_fin ?x = true /\ _ => set (t := x) in * end. clearbody t.
    destruct Q as (Q & _). split; [apply Q|]. pose proof (rel_bounds _ _ _ Q ltac:(lra) ltac:(lra)) as B. clear Q Q1 Q2 RR Ra Rd.
    split; [lra|].
    assert (RT' : R <= v * S * (1 + / 1000000000)) by (apply RT; tauto). clear RT.
    set (a := R / S) in *. set (b := D / R) in *. assert (Ea : R = a * S) by (unfold a; field; lra). assert (Eb : D = b * R) by (unfold b; field; lra).
    split; [|split].
    - (* at most 5 / S *)
      assert (U : (3 / 10 * a + b) * S <= 19 / 4 + / 1000).
      { destruct RC as [[E _]|[E L]].
        - assert (Av : a = v) by (unfold a; rewrite E; field; lra). rewrite Av.
          assert (b * S <= 4) by (assert (b * S * v <= 8) by (replace (b * S * v) with (b * R) by (rewrite E; ring); rewrite <- Eb; exact d_range); assert (0 < b * S) by (apply Rmult_lt_0_compat; lra); nra).
          nra.
        - assert (E2 : R * R = 10 / 3 * D * S) by (rewrite E; apply sqrt_sqrt; apply Rmult_le_pos; lra).
          assert (b = 3 / 10 * a). { unfold a, b. apply Rmult_eq_reg_r with (R * S); [|apply Rmult_integral_contrapositive_currified; lra]. field_simplify; lra. }
          assert (a <= v * (1 + / 1000000000)) by (apply Rmult_le_reg_r with S; [lra|]; lra). nra. }
      apply Rle_trans with ((3 / 10 * a + b) * (1 + / 100000000000) * S); [apply Rmult_le_compat_r; lra|]. nra.
    - assert (L : b * (v * S) * (1 + / 1000000000) >= D).
      { rewrite Eb. rewrite Rmult_assoc. apply Rle_ge, Rmult_le_compat_l; lra. }
      assert (b * (1 - / 100000000000) <= val t) by nra.
      apply Rle_trans with (b * (1 - / 100000000000) * (v * S) * (1 + / 100000000)); [|apply Rmult_le_compat_r; [lra|]; apply Rmult_le_compat_r; lra].
      assert (0 < b * (v * S)) by (apply Rmult_lt_0_compat; lra). nra.
    - assert (M : 6 / 5 * a * b <= (3 / 10 * a + b) * (3 / 10 * a + b)) by (pose proof (Rle_0_sqr (3 / 10 * a - b)) as Z; unfold Rsqr in Z; nra).
      assert (Dab : D = a * b * S) by (rewrite Eb, Ea; ring). rewrite Dab.
      set (m := 3 / 10 * a + b) in *. assert (0 < m) by (unfold m; nra).
      assert (M2 : m * m * (1 - / 10000000000) <= val t * val t).
      { assert (V1 : m * (1 - / 100000000000) <= val t) by lra. assert (V2 : 0 <= m * (1 - / 100000000000)) by nra.
        pose proof (Rmult_le_compat _ _ _ _ V2 V2 V1 V1). nra. }
      replace (6 / 5 * (a * b * S)) with (6 / 5 * a * b * S) by ring.
      replace (val t * val t * S * (1 + / 100000000)) with (val t * val t * (1 + / 100000000) * S) by ring. apply Rmult_le_compat_r; [lra|]. nra.
  Qed.
  (** * The synchronised plan for the greatest of these times *)
  Variable T : F float.
  Hypothesis T_fin : b64_fin T = true.
  Hypothesis T_top : val T * S <= 5.
  Hypothesis T_speed : D <= val T * (v * S) * (1 + / 100000000).
  Hypothesis T_square : 6 / 5 * D <= val T * val T * S * (1 + / 100000000).
  Notation t := (val T).
  Lemma T_low : / 4194304 <= t.
  Proof.
    pose proof D_low. assert (vp : 2 <= v <= 5 / 2) by lra. assert (P : 0 < v * S * (1 + / 100000000)) by (apply Rmult_lt_0_compat; [apply Rmult_lt_0_compat|]; lra).
    assert (U : v * S * (1 + / 100000000) <= 3) by nra. rewrite Rmult_assoc in T_speed.
    assert (0 < t). { apply Rnot_le_lt. intros N. assert (t * (v * S * (1 + / 100000000)) <= 0) by nra. lra. } nra.
  Qed.
  Lemma T_rel : relm 0 22 T t.
  Proof.
    pose proof T_low. apply relm_exact; [exact T_fin| |lia]. apply mid_of; [|lia]. change (2 ^ 22)%Z with 4194304%Z. rewrite Rabs_pos_eq by lra. nra.
  Qed.
  Definition X : R := 6 / 5 * D / (S * t * t).
  Definition B : R := 25 * S * S * t.
  Lemma X_is : X * (S * t * t) = 6 / 5 * D.
  Proof. unfold X. pose proof T_low. field. lra. Qed.
  Lemma X_bounds : / 25000000000 <= X <= 1 + / 100000000.
  Proof.
    pose proof T_low as L. pose proof D_low as DL. pose proof X_is as E. assert (P : 0 < S * t * t) by (apply Rmult_lt_0_compat; [apply Rmult_lt_0_compat|]; lra).
    assert (U : S * t * t <= 25 * 1024). { assert (S * t <= 5) by lra. assert (t <= 5 * 1024) by nra. nra. }
    assert (U2 : S * t * t * S <= 25). { replace (S * t * t * S) with ((t * S) * (t * S)) by ring. nra. }
    split.
    - apply Rmult_le_reg_r with (S * t * t); [exact P|]. rewrite E. nra.
    - apply Rmult_le_reg_r with (S * t * t); [exact P|]. rewrite E. lra.
  Qed.
  Lemma B_pos : bpow radix2 (-50) <= B.
  Proof.
    pose proof T_low. change (bpow radix2 (-50)) with (/ 1125899906842624). unfold B. assert (/ 1048576 <= S * S) by nra.
    apply Rle_trans with (25 * / 1048576 * / 4194304); [lra|]. rewrite (Rmult_assoc 25 S S). apply Rmult_le_compat; lra.
  Qed.
  Lemma X_B : X * B = 30 * (S * (D / t)).
  Proof. unfold X, B. pose proof T_low. field. lra. Qed.
  Lemma rnd_scale : forall M y, bpow radix2 (-200) <= M -> Rabs y <= 10 * M -> Rabs (rnd y - y) <= / 100000000000000 * M.
  Proof.
    intros M y P H. eapply Rle_trans; [apply rnd_rel|]. pose proof (bpow_gt_0 radix2 (-200)).
    assert (tiny <= / 1000000000000000 * M).
    { apply Rle_trans with (/ 1000000000000000 * bpow radix2 (-200)); [|apply Rmult_le_compat_l; [lra|exact P]].
      apply Rle_trans with (bpow radix2 (-300)); [apply tiny_below; lia|]. change (-300)%Z with (-100 + -200)%Z. rewrite bpow_plus. apply Rmult_le_compat_r; [apply bpow_ge_0|].
      change (bpow radix2 (-100)) with (/ 1267650600228229401496703205376). lra. }
    assert (eps * Rabs y <= / 900719925474099 * M) by (unfold eps; nra). lra.
  Qed.
  Lemma B_low : bpow radix2 (-200) <= B.
  Proof. eapply Rle_trans; [|exact B_pos]. apply bpow_le. lia. Qed.
  Lemma B2_low : bpow radix2 (-200) <= B * B.
  Proof.
    apply Rle_trans with (bpow radix2 (-50) * bpow radix2 (-50)); [rewrite <- bpow_plus; apply bpow_le; lia|].
    apply Rmult_le_compat; try apply bpow_ge_0; exact B_pos.
  Qed.
  Definition fa : F float := f_mul float (f_div float (f_lit float 3 2) (f_int float 2)) (f_add float acc acc).
  Definition fb : F float := f_mul float (f_mul float (f_mul float (f_int float (-1)) T) acc) acc.
  Definition fc : F float := f_mul float (f_mul float (f_abs float d) acc) acc.
  Definition disc : F float := f_sub float (f_mul float fb fb) (f_mul float (f_mul float (f_int float 4) fa) fc).
  Lemma fa_rel : relm 5 50 fa (15 / 2 * S).
  Proof. pose proof acc_rel. eapply relm_as; [unfold fa; rela|field|lra|lia]. Qed.
  Lemma fb_rel : relm 5 60 fb (- B).
  Proof. pose proof acc_rel. pose proof T_rel. eapply relm_as; [unfold fb; rela|unfold B; ring|lra|lia]. Qed.
  Lemma fc_rel : relm 5 60 fc (25 * S * S * D).
  Proof. pose proof acc_rel. pose proof d_rel. eapply relm_as; [unfold fc; rela|ring|lra|lia]. Qed.
  (** within 10^-12 of the exact discriminant, relative to its scale *)
  Lemma near_rel : forall k x r M, rel k x r -> 0 <= k <= 100 -> Rabs r <= 2 * M -> Rabs (val x - r) <= / 10000000000000 * M.
  Proof.
    intros k x r M (_ & e & E & H) K L. rewrite E. replace (r * (1 + e) - r) with (r * e) by ring. rewrite Rabs_mult.
    pose proof (Rabs_pos r). pose proof (Rabs_pos e). assert (Rabs e <= / 20000000000000) by (unfold u in H; lra). 
    apply Rle_trans with (2 * M * / 20000000000000); [apply Rmult_le_compat; lra|lra].
  Qed.
  Lemma disc_near : b64_fin disc = true /\ Rabs (val disc - B * B * (1 - X)) <= / 3000000000000 * (B * B).
  Proof.
    pose proof fa_rel as Ra. pose proof fb_rel as Rb. pose proof fc_rel as Rc. pose proof X_bounds as XB. pose proof B2_low as BL. pose proof (bpow_gt_0 radix2 (-200)) as P0.
    assert (R1 : relm 11 120 (f_mul float fb fb) (B * B)) by (eapply relm_as; [rela|ring|lra|lia]).
    assert (R2 : relm 13 120 (f_mul float (f_mul float (f_int float 4) fa) fc) (B * B * X)).
    { eapply relm_as; [rela| |lra|lia]. unfold B. replace (25 * S * S * t * (25 * S * S * t) * X) with (625 * S * S * S * (X * (S * t * t))) by ring. rewrite X_is. field. }
    unfold disc. set (p := f_mul float fb fb) in *. set (q := f_mul float (f_mul float (f_int float 4) fa) fc) in *. clearbody p q.
    destruct R1 as (R1 & M1 & _). destruct R2 as (R2 & M2 & _).
    assert (N1 : Rabs (val p - B * B) <= / 10000000000000 * (B * B)) by (eapply near_rel; [exact R1|lra|rewrite Rabs_pos_eq; lra]).
    assert (N2 : Rabs (val q - B * B * X) <= / 10000000000000 * (B * B)) by (eapply near_rel; [exact R2|lra|rewrite Rabs_pos_eq by (apply Rmult_le_pos; lra); nra]).
    set (W := B * B) in *. clearbody W.
    assert (WX : 0 <= W * X <= 2 * W) by (split; [apply Rmult_le_pos; lra|nra]).
    assert (Y : Rabs (val p - val q) <= 10 * W).
    { apply Rabs_le. revert N1 N2. unfold Rabs. destruct (Rcase_abs (val p - W)); destruct (Rcase_abs (val q - W * X)); lra. }
    assert (W120 : 10 * W <= bpow radix2 124).
    { apply Rle_trans with (bpow radix2 4 * bpow radix2 120); [|rewrite <- bpow_plus; apply bpow_le; lia]. destruct M1 as [_ M1]. rewrite Rabs_pos_eq in M1 by lra.
      change (bpow radix2 4) with 16. lra. }
    destruct (minus_ok p q 124) as [F V]; [apply R1|apply R2|lia|lra|]. cbn [f_sub float]. split; [exact F|]. rewrite V.
    pose proof (rnd_scale W _ BL Y) as Q.
    replace (rnd (val p - val q) - W * (1 - X)) with ((rnd (val p - val q) - (val p - val q)) + ((val p - W) - (val q - W * X))) by ring.
    eapply Rle_trans; [apply Rabs_triang|]. eapply Rle_trans; [apply Rplus_le_compat_l; apply Rabs_triang|]. rewrite Rabs_Ropp. lra.
  Qed.
  Definition root : F float := f_sqrt float (f_max float disc (f_int float 0)).
  Lemma root_near : b64_fin root = true /\ B * (1 - X - / 2500000000000) <= val root <= B * (1 - X / 2 + / 2500000000000) /\ 0 <= val root <= 2 * B.
  Proof.
    destruct disc_near as [F N]. pose proof X_bounds as XB. pose proof B_low as BL. pose proof (bpow_gt_0 radix2 (-200)) as P0.
    destruct (max_fin disc (f_int float 0) F eq_refl) as [Fm Vm]. change (val (f_int float 0)) with 0 in Vm. unfold root. set (m := f_max float disc (f_int float 0)) in *. clearbody m.
    assert (Pm : 0 <= val m) by (rewrite Vm; apply Rmax_r). destruct (sqrt_of m Fm Pm) as [Fr Vr]. cbn [f_sqrt float]. split; [exact Fr|]. rewrite Vr. 
    assert (N' : - (/ 3000000000000 * (B * B)) <= val disc - B * B * (1 - X) <= / 3000000000000 * (B * B)) by (apply Rabs_le_inv, N).
    assert (BB : 0 < B * B) by (apply Rmult_lt_0_compat; lra).
    assert (Up : sqrt (val m) <= B * (1 - X / 2 + / 3000000000000)).
    { rewrite <- (sqrt_square (B * (1 - X / 2 + / 3000000000000))) by (apply Rmult_le_pos; lra). apply sqrt_le_1_alt.
      replace (B * (1 - X / 2 + / 3000000000000) * (B * (1 - X / 2 + / 3000000000000))) with (B * B * ((1 - X / 2 + / 3000000000000) * (1 - X / 2 + / 3000000000000))) by ring.
      assert (Z : 1 - X + / 3000000000000 <= (1 - X / 2 + / 3000000000000) * (1 - X / 2 + / 3000000000000)) by nra.
      assert (Z0 : 0 <= (1 - X / 2 + / 3000000000000) * (1 - X / 2 + / 3000000000000)) by nra.
      rewrite Vm. apply Rmax_lub; [|apply Rmult_le_pos; lra]. apply Rle_trans with (B * B * (1 - X + / 3000000000000)); [lra|]. apply Rmult_le_compat_l; lra. }
    assert (Lo : B * (1 - X - / 3000000000000) <= sqrt (val m)).
    { destruct (Rle_lt_dec (1 - X - / 3000000000000) 0) as [H|H].
      - apply Rle_trans with 0; [|apply sqrt_pos]. nra.
      - rewrite <- (sqrt_square (B * (1 - X - / 3000000000000))) by (apply Rmult_le_pos; lra). apply sqrt_le_1_alt.
        replace (B * (1 - X - / 3000000000000) * (B * (1 - X - / 3000000000000))) with (B * B * ((1 - X - / 3000000000000) * (1 - X - / 3000000000000))) by ring.
        assert (Z : (1 - X - / 3000000000000) * (1 - X - / 3000000000000) <= 1 - X - / 3000000000000) by nra.
        apply Rle_trans with (B * B * (1 - X - / 3000000000000)); [apply Rmult_le_compat_l; lra|]. rewrite Vm. eapply Rle_trans; [|apply Rmax_l]. lra. }
    assert (Q : Rabs (rnd (sqrt (val m)) - sqrt (val m)) <= / 100000000000000 * B).
    { apply rnd_scale; [exact BL|]. rewrite Rabs_pos_eq by apply sqrt_pos. nra. }
    apply Rabs_le_inv in Q. pose proof (rnd_pos (sqrt (val m)) (sqrt_pos _)). split; [split|split]; try nra.
  Qed.
  Definition numer : F float := f_sub float (f_mul float (f_int float (-1)) fb) root.
  Lemma numer_near : b64_fin numer = true /\ 48 / 100 * (X * B) <= val numer <= 102 / 100 * (X * B).
  Proof.
    destruct root_near as (F & [L H] & [L0 H0]). pose proof fb_rel as Rb. pose proof X_bounds as XB. pose proof B_low as BL. pose proof (bpow_gt_0 radix2 (-200)) as P0.
    assert (R1 : relm 6 64 (f_mul float (f_int float (-1)) fb) B) by (eapply relm_as; [rela|ring|lra|lia]).
    unfold numer. set (p := f_mul float (f_int float (-1)) fb) in *. clearbody p. destruct R1 as (R1 & M1 & _).
    assert (N1 : Rabs (val p - B) <= / 10000000000000 * B) by (eapply near_rel; [exact R1|lra|rewrite Rabs_pos_eq; lra]). apply Rabs_le_inv in N1.
    assert (Y : Rabs (val p - val root) <= 10 * B) by (apply Rabs_le; lra).
    assert (B64 : 10 * B <= bpow radix2 68).
    { apply Rle_trans with (bpow radix2 4 * bpow radix2 64); [|rewrite <- bpow_plus; apply bpow_le; lia]. destruct M1 as [_ M1]. rewrite Rabs_pos_eq in M1 by lra.
      change (bpow radix2 4) with 16. lra. }
    destruct (minus_ok p root 68) as [Fn Vn]; [apply R1|exact F|lia|lra|]. cbn [f_sub float]. split; [exact Fn|]. rewrite Vn.
    pose proof (rnd_scale B _ BL Y) as Q. apply Rabs_le_inv in Q. assert (XX : / 25000000000 * B <= X * B) by (apply Rmult_le_compat_r; lra). lra.
  Qed.
  Definition speed : F float := f_div float numer (f_mul float (f_int float 2) fa).
  Notation q := (val speed).
  Lemma DT_bounds : / 200000000 * S <= D / t /\ D / t <= v * S * (1 + / 100000000) /\ D / t <= 8 * 4194304.
  Proof.
    pose proof T_low. pose proof D_low. split; [|split].
    - apply le_div; [lra|]. nra.
    - apply div_le; [lra|]. lra.
    - apply div_le; [lra|]. nra.
  Qed.
  Lemma speed_bounds : b64_fin speed = true /\ 95 / 100 * (D / t) <= q <= 205 / 100 * (D / t).
  Proof.
    destruct numer_near as [F N]. rewrite X_B in N. pose proof fa_rel as Ra. pose proof DT_bounds as (B1 & B2 & B3). set (w := D / t) in *. clearbody w.
    assert (Pw : 0 < w) by lra. assert (Sw : / 1024 * (/ 200000000 * / 1024) <= S * w) by (apply Rmult_le_compat; lra).
    assert (Rn : relm 0 45 numer (val numer)).
    { apply relm_exact; [exact F| |lia]. apply mid_of; [|lia]. change (2 ^ 45)%Z with 35184372088832%Z. assert (S * w <= 8 * 4194304) by nra. rewrite Rabs_pos_eq; lra. }
    assert (Q : relm 10 200 speed (val numer / (15 * S))) by (eapply relm_as; [unfold speed; rela|field; lra|lra|lia]).
    destruct Q as (Q & _). split; [apply Q|]. pose proof (rel_bounds _ _ _ Q ltac:(lra)) as Z.
    assert (L : 96 / 100 * w <= val numer / (15 * S)) by (apply le_div; lra). assert (U : val numer / (15 * S) <= 204 / 100 * w) by (apply div_le; lra). lra.
  Qed.
  Lemma speed_range : / 220000000 * S <= q <= 52 / 10 * S.
  Proof.
    destruct speed_bounds as [_ Q]. pose proof DT_bounds as (B1 & B2 & _). assert (V : v * S <= 5 / 2 * S) by nra. split; [lra|]. 
    assert (v * S * (1 + / 100000000) <= 5 / 2 * S * (1 + / 100000000)) by (apply Rmult_le_compat_r; lra). lra.
  Qed.
  Lemma speed_rel : relm 0 40 speed q.
  Proof.
    pose proof speed_range. apply relm_exact; [apply speed_bounds| |lia]. apply mid_of; [|lia]. change (2 ^ 40)%Z with 1099511627776%Z. rewrite Rabs_pos_eq; lra.
  Qed.
  Definition ramp : F float := f_div float (f_mul float (f_lit float 3 2) speed) acc.
  Definition whole : F float := f_add float (f_add float (f_div float ramp (f_int float 2)) (f_div float ramp (f_int float 2))) (f_abs float (f_div float d speed)).
  Definition corner : F float := f_mul float (f_mul float speed (signum float d)) (f_mul float (f_lit float 1 2) ramp).
  Lemma sync_is : synchronized float d acc acc T = (speed, (ramp, f_sub float whole ramp, whole, corner)).
  Proof. unfold synchronized, corner, whole, ramp, speed, numer, root, disc, fa, fb, fc. cbv zeta. reflexivity. Qed.
  Lemma ramp_rel : relm 5 60 ramp (3 / 10 * (q / S)).
  Proof. pose proof acc_rel. pose proof speed_rel. eapply relm_as; [unfold ramp; rela|field; lra|lra|lia]. Qed.
  Lemma ramp_bounds : b64_fin ramp = true /\ 29 / 100 * q <= val ramp * S <= 31 / 100 * q /\ / 1000000000 <= val ramp <= 2.
  Proof.
    pose proof ramp_rel as (R & _). split; [apply R|]. pose proof speed_range as Q. assert (P : 0 < q / S) by (apply Rdiv_lt_0_compat; lra).
    pose proof (rel_bounds _ _ _ R ltac:(lra) ltac:(lra)) as Z. assert (E : q = q / S * S) by (field; lra). set (w := q / S) in *. clearbody w.
    assert (W : / 220000000 <= w <= 52 / 10) by (rewrite E in Q; split; apply Rmult_le_reg_r with S; lra). rewrite E. split; [split; nra|lra].
  Qed.
  Lemma Dq_bounds : 0 < D / q /\ D / q * S <= 527 / 100 /\ q * (D / q) = D.
  Proof.
    pose proof speed_range as Q. destruct speed_bounds as [_ [L _]]. pose proof D_low. pose proof T_low. assert (P : 0 < D / q) by (apply Rdiv_lt_0_compat; lra).
    split; [exact P|]. split; [|field; lra].
    assert (E : 95 / 100 * D <= q * t) by (apply Rmult_le_compat_r with (r := t) in L; [|lra]; replace (95 / 100 * (D / t) * t) with (95 / 100 * D) in L by (field; lra); exact L).
    assert (D / q <= t * (100 / 95)) by (apply div_le; lra). nra.
  Qed.
  Lemma whole_rel : relm 60 300 whole (3 / 10 * (q / S) + D / q).
  Proof.
    pose proof ramp_rel as Rr. pose proof d_rel as Rd. pose proof speed_rel as Rq. pose proof speed_range as Q. pose proof Dq_bounds as [DQ _].
    assert (P : 0 < q / S) by (apply Rdiv_lt_0_compat; lra).
    assert (E : Rabs (val d / q) = D / q) by (unfold Rdiv; rewrite Rabs_mult, Rabs_inv, (Rabs_pos_eq q) by lra; reflexivity).
    assert (Q2 : relm 30 80 (f_abs float (f_div float d speed)) (D / q)) by (eapply relm_as; [rela|exact E|lra|lia]).
    eapply relm_as; [unfold whole; rela|lra|lra|lia].
  Qed.
  Lemma whole_bounds : b64_fin whole = true /\ val ramp + / 10000000 <= val whole /\ val whole * S <= 7 /\ q * val whole <= 17.
  Proof.
    pose proof whole_rel as (R & _). pose proof ramp_rel as (R' & _). split; [apply R|]. pose proof speed_range as Q. pose proof Dq_bounds as (DQ & DS & DE). pose proof D_low as DL.
    assert (P : 0 < q / S) by (apply Rdiv_lt_0_compat; lra). pose proof (rel_bounds _ _ _ R' ltac:(lra) ltac:(lra)) as Z'.
    pose proof (rel_bounds _ _ _ R ltac:(lra) ltac:(lra)) as Z. assert (E : q = q / S * S) by (field; lra). set (w := q / S) in *. clearbody w.
    assert (W : / 220000000 <= w <= 52 / 10) by (rewrite E in Q; split; apply Rmult_le_reg_r with S; lra).
    set (y := D / q) in *. clearbody y.
    assert (Yl : / 6000000 <= y). { assert (q <= 52 / 10) by lra. nra. }
    split; [|split].
    - lra.
    - apply Rle_trans with ((3 / 10 * w + y) * (1 + / 100000000000) * S); [apply Rmult_le_compat_r; lra|]. nra.
    - apply Rle_trans with (q * ((3 / 10 * w + y) * (1 + / 100000000000))); [apply Rmult_le_compat_l; lra|].
      assert (q * w <= 28) by nra. assert (q * (3 / 10 * w + y) <= 8.4 + 8) by lra. nra.
  Qed.
  Lemma corner_bounds : b64_fin corner = true /\ Rabs (val corner) <= 5.
  Proof.
    pose proof ramp_rel as Rr. pose proof speed_rel as Rq. destruct sign_rel as [Rs _]. pose proof speed_range as Q.
    assert (R : relm 20 150 corner (q * sg * (3 / 20 * (q / S)))) by (eapply relm_as; [unfold corner; rela|lra|lra|lia]).
    destruct R as (R & _). split; [apply R|]. destruct R as (_ & e & E & H). rewrite E, Rabs_mult.
    assert (e1 : Rabs (1 + e) <= 1 + / 1000). { assert (Rabs e <= / 1000) by (unfold u in H; lra). apply Rabs_le_inv in H0. apply Rabs_le. lra. }
    assert (sg1 : Rabs sg = 1) by (unfold sg; destruct (Rle_dec 0 (val d)); [rewrite Rabs_pos_eq|rewrite Rabs_left]; lra).
    assert (P : 0 < q / S) by (apply Rdiv_lt_0_compat; lra). assert (W : q / S <= 52 / 10) by (apply div_le; lra).
    rewrite Rabs_mult, (Rabs_mult q sg), sg1, (Rabs_pos_eq q), (Rabs_pos_eq (3 / 20 * _)) by lra.
    assert (Z : q * 1 * (3 / 20 * (q / S)) <= 52 / 10 * (3 / 20 * (52 / 10))) by (apply Rmult_le_compat; lra).
    assert (Z0 : 0 <= q * 1 * (3 / 20 * (q / S))) by (apply Rmult_le_pos; lra). pose proof (Rabs_pos (1 + e)). nra.
  Qed.
End Plan.
