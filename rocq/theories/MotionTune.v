(** The plan of the joint motion generator in binary64: its speed is at most the top speed, its parts fit together. *)
From Coq Require Import List NArith ZArith Bool Lia Lra Arith Reals.
From Flocq Require Import Core Relative IEEE754.BinarySingleNaN IEEE754.Binary IEEE754.Bits.
From Verif Require Import NumOps NumFloat FloatFacts SizeFacts TwistFloats MotionFloats MotionModel MotionPlan.
Import ListNotations.
Open Scope R_scope.

(** What is known of a plan beyond its range. *)
Record tuned (s v : R) (d q t1 t2 tf q1 : F float) : Prop := {
  tu_q : b64_fin q = true /\ / 220000000 * s <= val q <= v * s * (1 + / 20000);
  tu_t1 : b64_fin t1 = true /\ / 1000000000 <= val t1 <= 2 /\ Rabs (3 / 2 * (val q / val t1) - 5 * s) <= / 1000000000000 * s;
  tu_tf : b64_fin tf = true /\ 0 < val tf /\ val tf * s <= 7;
  tu_way : Rabs (val q * (val tf - val t1) - Rabs (val d)) <= / 1000000000000;
  tu_gap : val t1 * (1 - / 40000) <= val tf - val t1;
  tu_t2 : t2 = f_sub float tf t1;
  tu_sign : b64_fin (signum float d) = true /\ Rabs (val (signum float d)) = 1 /\ val d = val (signum float d) * Rabs (val d);
  tu_q1 : b64_fin q1 = true /\ Rabs (val q1 - val (signum float d) * (val q * val t1 / 2)) <= / 10000000000000
}.

Section Tune.
  Variable s : F float.
  Hypothesis s_fin : b64_fin s = true.
  Hypothesis s_range : / 1024 <= val s <= 1.
  Notation S := (val s).
  Variable v : R.
  Variable top : F float.
  Hypothesis v_is : v = 2 \/ v = 5 / 2.
  Hypothesis top_rel : relm 1 14 top (v * S).
  Variable d : F float.
  Hypothesis d_fin : b64_fin d = true.
  Hypothesis d_moves : moves float d = true.
  Hypothesis d_range : Rabs (val d) <= 8.
  Notation D := (Rabs (val d)).
  (** the own time of a joint in its two cases *)
  Definition full (t : R) : Prop := D <= 3 / 10 * v * v * S * (1 + / 1000000000) \/ D <= v * S * (t * (1 + / 10000000000) - 3 / 10 * v).
  Lemma own_full : full (val (own_time float d top (acc s) (acc s))).
  Proof.
    unfold own_time. rewrite d_moves. destruct (reach_rel s s_fin s_range v top v_is top_rel d d_fin d_moves d_range) as (R & RR & RP & RC).
    pose proof (acc_rel s s_fin s_range) as Ra. pose proof (d_rel d d_fin d_moves d_range) as Rd. pose proof (D_low d d_fin d_moves) as DL.
    assert (vp : 2 <= v <= 5 / 2) by lra. assert (Sp : 0 < S) by lra.
    destruct RC as [[E _]|[_ L]]; [right|left; exact L]. subst R. set (reach := reach_speed float d top (acc s) (acc s)) in *.
    assert (VS : 0 < v * S) by (apply Rmult_lt_0_compat; lra). assert (QD : 0 < D / (v * S)) by (apply Rdiv_lt_0_compat; lra).
    assert (Q1 : relm 30 240 (f_div float (f_div float (f_mul float (f_lit float 3 2) reach) (acc s)) (f_int float 2)) (3 / 20 * v)) by (eapply relm_as; [rela|field; lra|lra|lia]).
    assert (Q2 : relm 30 240 (f_div float (f_abs float d) reach) (D / (v * S))) by (eapply relm_as; [rela|reflexivity|lra|lia]).
    assert (Q : relm 100 800 (f_add float (f_add float (f_div float (f_div float (f_mul float (f_lit float 3 2) reach) (acc s)) (f_int float 2))
       (f_div float (f_div float (f_mul float (f_lit float 3 2) reach) (acc s)) (f_int float 2))) (f_div float (f_abs float d) reach)) (3 / 10 * v + D / (v * S)))
      by (eapply relm_as; [rela|lra|lra|lia]).
    match type of Q with relm _ _ ?x _ => change (D <= v * S * (val x * (1 + / 10000000000) - 3 / 10 * v)); set (t := x) in * end. clearbody t.
    destruct Q as (Q & _). pose proof (rel_bounds _ _ _ Q ltac:(lra) ltac:(lra)) as [B _]. clear Q Q1 Q2 RR Ra Rd.
    set (y := D / (v * S)) in *. replace D with (v * S * y) by (unfold y; field; lra). apply Rmult_le_compat_l; lra.
  Qed.
  Lemma full_mono : forall t t', t <= t' -> full t -> full t'.
  Proof.
    intros t t' L [H|H]; [left; exact H|right]. eapply Rle_trans; [exact H|]. assert (vp : 2 <= v <= 5 / 2) by lra. apply Rmult_le_compat_l; [apply Rmult_le_pos; lra|lra].
  Qed.

  Variable T : F float.
  Hypothesis T_fin : b64_fin T = true.
  Hypothesis T_top : val T * S <= 5.
  Hypothesis T_speed : D <= val T * (v * S) * (1 + / 100000000).
  Hypothesis T_square : 6 / 5 * D <= val T * val T * S * (1 + / 100000000).
  Hypothesis T_full : full (val T).
  Notation t := (val T).
  Notation X := (X s d T).
  Notation B := (B s T).
  Notation q := (val (speed s d T)).
  Notation ramp := (ramp s d T).
  Notation whole := (whole s d T).
  Let xb := X_bounds s s_range v v_is d d_fin d_moves T T_top T_speed T_square.
  Let bl := B_low s s_range v v_is d d_fin d_moves T T_speed.
  Lemma root_low : forall z, 0 <= z -> z * z <= 1 - X - / 3000000000000 -> B * (z - / 100000000000000) <= val (root s d T).
  Proof.
    intros z Pz H. destruct (disc_near s s_fin s_range v v_is d d_fin d_moves d_range T T_fin T_top T_speed T_square) as [F N]. pose proof xb as XB. pose proof bl as BL.
    pose proof (bpow_gt_0 radix2 (-200)) as P0.
    destruct (max_fin (disc s d T) (f_int float 0) F eq_refl) as [Fm Vm]. change (val (f_int float 0)) with 0 in Vm. unfold root. set (m := f_max float (disc s d T) (f_int float 0)) in *. clearbody m.
    assert (Pm : 0 <= val m) by (rewrite Vm; apply Rmax_r). destruct (sqrt_of m Fm Pm) as [Fr Vr]. cbn [f_sqrt float]. rewrite Vr. apply Rabs_le_inv in N.
    assert (BB : 0 < B * B) by (apply Rmult_lt_0_compat; lra).
    assert (Um : val m <= B * B * 2). { rewrite Vm. apply Rmax_lub; [|lra]. apply Rle_trans with (B * B * (1 - X) + / 3000000000000 * (B * B)); [lra|]. nra. }
    assert (Lo : B * z <= sqrt (val m)).
    { rewrite <- (sqrt_square (B * z)) by (apply Rmult_le_pos; lra). apply sqrt_le_1_alt. replace (B * z * (B * z)) with (B * B * (z * z)) by ring.
      apply Rle_trans with (B * B * (1 - X - / 3000000000000)); [apply Rmult_le_compat_l; lra|]. rewrite Vm. eapply Rle_trans; [|apply Rmax_l]. lra. }
    assert (Up : sqrt (val m) <= 10 * B).
    { rewrite <- (sqrt_square (10 * B)) by lra. apply sqrt_le_1_alt. lra. }
    assert (Q : Rabs (rnd (sqrt (val m)) - sqrt (val m)) <= / 100000000000000 * B).
    { apply rnd_scale; [exact BL|]. rewrite Rabs_pos_eq by apply sqrt_pos. exact Up. }
    apply Rabs_le_inv in Q. lra.
  Qed.
  (** the speed from a lower bound of the root *)
  Lemma speed_of : forall z, B * z <= val (root s d T) -> z <= 1 -> / 10000000 <= 1 - z -> q <= 5 / 3 * (S * t) * ((1 - z) * (1 + / 100000)).
  Proof.
    intros z Lz Z1 Z2. destruct (root_near s s_fin s_range v v_is d d_fin d_moves d_range T T_fin T_top T_speed T_square) as (F & _ & [L0 H0]).
    pose proof (fb_rel s s_fin s_range v v_is d d_fin d_moves d_range T T_fin T_top T_speed) as Rb. pose proof bl as BL. pose proof (bpow_gt_0 radix2 (-200)) as P0.
    pose proof (fa_rel s s_fin s_range) as Ra.
    assert (R1 : relm 6 64 (f_mul float (f_int float (-1)) (fb s T)) B) by (eapply relm_as; [rela|ring|lra|lia]).
    assert (Vq : exists Fn, relm 10 200 (speed s d T) (val (numer s d T) / (15 * S)) /\ Fn = true).
    { exists true. split; [|reflexivity]. destruct (numer_near s s_fin s_range v v_is d d_fin d_moves d_range T T_fin T_top T_speed T_square) as [Fn N].
      rewrite (X_B s s_range v v_is d d_fin d_moves T T_speed) in N.
      destruct (DT_bounds s s_range v v_is d d_fin d_moves T T_top T_speed T_square) as (B1 & B2 & B3). set (w := D / t) in *. clearbody w.
      assert (Pw : 0 < w) by lra. assert (Sw : / 1024 * (/ 200000000 * / 1024) <= S * w) by (apply Rmult_le_compat; lra).
      assert (Rn : relm 0 45 (numer s d T) (val (numer s d T))).
      { apply relm_exact; [exact Fn| |lia]. apply mid_of; [|lia]. change (2 ^ 45)%Z with 35184372088832%Z. assert (S * w <= 8 * 4194304) by nra. rewrite Rabs_pos_eq; lra. }
      eapply relm_as; [unfold speed; rela|field; lra|lra|lia]. }
    destruct Vq as (_ & (Q & _) & _).
    assert (Nu : val (numer s d T) <= B * (1 - z + / 2000000000000)).
    { unfold numer. set (p := f_mul float (f_int float (-1)) (fb s T)) in *. clearbody p. destruct R1 as (R1 & M1 & _).
      assert (N1 : Rabs (val p - B) <= / 10000000000000 * B) by (eapply near_rel; [exact R1|lra|rewrite Rabs_pos_eq; lra]). apply Rabs_le_inv in N1.
      assert (Y : Rabs (val p - val (root s d T)) <= 10 * B) by (apply Rabs_le; lra).
      assert (B64 : 10 * B <= bpow radix2 68).
      { apply Rle_trans with (bpow radix2 4 * bpow radix2 64); [|rewrite <- bpow_plus; apply bpow_le; lia]. destruct M1 as [_ M1]. rewrite Rabs_pos_eq in M1 by lra.
        change (bpow radix2 4) with 16. lra. }
      destruct (minus_ok p (root s d T) 68) as [Fn Vn]; [apply R1|exact F|lia|lra|]. cbn [f_sub float]. rewrite Vn.
      pose proof (rnd_scale B _ BL Y) as Q'. apply Rabs_le_inv in Q'. lra. }
    assert (Bt : B = 15 * S * (5 / 3 * (S * t))) by (unfold MotionPlan.B; field).
    pose proof (T_low s s_range v v_is d d_fin d_moves T T_speed) as TL. assert (Pst : 0 < S * t) by (apply Rmult_lt_0_compat; lra).
    assert (U : val (numer s d T) / (15 * S) <= 5 / 3 * (S * t) * (1 - z + / 2000000000000)).
    { apply div_le; [lra|]. eapply Rle_trans; [exact Nu|]. rewrite Bt. right. ring. }
    assert (P0' : 0 <= val (numer s d T) / (15 * S)).
    { destruct (numer_near s s_fin s_range v v_is d d_fin d_moves d_range T T_fin T_top T_speed T_square) as [_ N]. assert (0 < X * B) by (apply Rmult_lt_0_compat; lra).
      apply Rmult_le_pos; [lra|]. left. apply Rinv_0_lt_compat. lra. }
    pose proof (rel_bounds _ _ _ Q ltac:(lra) P0') as [_ Z]. eapply Rle_trans; [exact Z|].
    apply Rle_trans with (5 / 3 * (S * t) * (1 - z + / 2000000000000) * (1 + / 100000000000)); [apply Rmult_le_compat_r; lra|].
    rewrite !Rmult_assoc. apply Rmult_le_compat_l; [lra|]. apply Rmult_le_compat_l; [lra|]. apply Rmult_le_compat_l; [lra|]. nra.
  Qed.
  (** at most the speed of a motion without constant part *)
  Lemma speed_tri : q * q <= 10 / 3 * D * S * (1 + / 100000) * (1 + / 100000) * (1 + / 100000000) * (1 + / 100000000).
  Proof.
    pose proof xb as XB. pose proof (T_low s s_range v v_is d d_fin d_moves T T_speed) as TL. pose proof bl as BL. pose proof (bpow_gt_0 radix2 (-200)) as P0.
    pose proof (X_is s s_range v v_is d d_fin d_moves T T_speed) as XE.
    destruct (speed_range s s_fin s_range v v_is d d_fin d_moves d_range T T_fin T_top T_speed T_square) as [Q0 _].
    set (w := sqrt X). assert (W2 : w * w = X) by (apply sqrt_sqrt; lra). assert (W0 : 0 <= w) by apply sqrt_pos.
    assert (W1 : / 200000 <= w). { apply Rnot_lt_le. intros N. assert (w * w < / 200000 * / 200000) by (apply Rmult_le_0_lt_compat; lra). lra. }
    assert (Wu : w <= 1 + / 100000000) by (apply Rnot_lt_le; intros N; assert ((1 + / 100000000) * (1 + / 100000000) < w * w) by (apply Rmult_le_0_lt_compat; lra); lra).
    assert (Key : q <= 5 / 3 * (S * t) * (w * (1 + / 100000000) * (1 + / 100000))).
    { set (w' := w * (1 + / 100000000)). destruct (Rle_lt_dec 1 w') as [H|H].
      - destruct (root_near s s_fin s_range v v_is d d_fin d_moves d_range T T_fin T_top T_speed T_square) as (_ & _ & [L0 _]).
        eapply Rle_trans; [apply (speed_of 0); [rewrite Rmult_0_r; exact L0|lra|lra]|]. apply Rmult_le_compat_l; [apply Rmult_le_pos; [lra|]; apply Rmult_le_pos; lra|]. nra.
      - set (z := 1 - w * (1 + / 200000000)). assert (Pz : 0 <= z) by (unfold z; unfold w' in H; lra).
        assert (R : B * (z - / 100000000000000) <= val (root s d T)).
        { apply root_low; [exact Pz|]. rewrite <- W2. unfold z. assert (w * (1 - w) >= / 800000000).
          { unfold w' in H. assert (w <= 1 - / 200000000) by (apply Rnot_lt_le; intros N; lra). destruct (Rle_lt_dec w (/ 2)) as [w2|w2].
            - assert (/ 200000 * / 2 <= w * (1 - w)) by (apply Rmult_le_compat; lra). lra.
            - assert (/ 2 * / 200000000 <= w * (1 - w)) by (apply Rmult_le_compat; lra). lra. }
          assert (0 <= w * w <= 1) by nra.
          replace ((1 - w * (1 + / 200000000)) * (1 - w * (1 + / 200000000))) with (1 - w * w - (2 * (w * (1 - w)) * (1 + / 200000000) - w * w * (/ 200000000 * / 200000000))) by ring.
          lra. }
        eapply Rle_trans; [apply (speed_of (z - / 100000000000000)); [exact R|unfold z; lra|unfold z; nra]|].
        apply Rmult_le_compat_l; [apply Rmult_le_pos; [lra|]; apply Rmult_le_pos; lra|]. apply Rmult_le_compat_r; [lra|]. unfold z, w'. lra. }
    assert (E : 5 / 3 * (S * t) * w * (5 / 3 * (S * t) * w) = 10 / 3 * D * S).
    { replace (5 / 3 * (S * t) * w * (5 / 3 * (S * t) * w)) with (25 / 9 * S * (w * w * (S * t * t))) by field. rewrite W2, XE. field. }
    assert (P : 0 <= q) by lra. pose proof (Rmult_le_compat _ _ _ _ P P Key Key) as K2. eapply Rle_trans; [exact K2|]. rewrite <- E. right. ring.
  Qed.
  Lemma speed_top : q <= v * S * (1 + / 20000).
  Proof.
    assert (vp : 2 <= v <= 5 / 2) by lra. pose proof xb as XB. pose proof (T_low s s_range v v_is d d_fin d_moves T T_speed) as TL. pose proof bl as BL. pose proof (bpow_gt_0 radix2 (-200)) as P0.
    pose proof (X_is s s_range v v_is d d_fin d_moves T T_speed) as XE. pose proof (D_low d d_fin d_moves) as DL.
    destruct (speed_range s s_fin s_range v v_is d d_fin d_moves d_range T T_fin T_top T_speed T_square) as [Q0 _].
    assert (VS : 0 < v * S) by (apply Rmult_lt_0_compat; lra).
    destruct T_full as [H|H].
    - apply Rnot_lt_le. intros N. assert (N2 : v * S * (1 + / 20000) * (v * S * (1 + / 20000)) < q * q) by (apply Rmult_le_0_lt_compat; try apply Rmult_le_pos; lra).
      pose proof speed_tri as T3.
      assert (U : 10 / 3 * D * S <= v * S * (v * S) * (1 + / 1000000000)).
      { replace (v * S * (v * S) * (1 + / 1000000000)) with (10 / 3 * S * (3 / 10 * v * v * S * (1 + / 1000000000))) by field.
        replace (10 / 3 * D * S) with (10 / 3 * S * D) by ring. apply Rmult_le_compat_l; lra. }
      assert (P2 : 0 < v * S * (v * S)) by (apply Rmult_lt_0_compat; lra). set (k := v * S * (v * S)) in *.
      replace (v * S * (1 + / 20000) * (v * S * (1 + / 20000))) with (k * ((1 + / 20000) * (1 + / 20000))) in N2 by (unfold k; ring). clearbody k.
      set (m := 10 / 3 * D * S) in *. clearbody m. nra.
    - set (w := 3 / 5 * v / t). assert (Wt : w * t = 3 / 5 * v) by (unfold w; field; lra). assert (W0 : 0 < w) by (unfold w; apply Rdiv_lt_0_compat; lra).
      assert (Vs : v * S = 5 / 3 * (S * t) * w) by (replace (5 / 3 * (S * t) * w) with (5 / 3 * S * (w * t)) by ring; rewrite Wt; field).
      assert (Wl : / 6000 <= w). { unfold w. apply le_div; [lra|]. assert (t <= 5 * 1024) by nra. lra. }
      assert (Xw : X <= 2 * w - w * w + / 2000000000).
      { assert (E : X * (t * t) = 6 / 5 * (D / S)). { apply Rmult_eq_reg_l with S; [|lra]. replace (S * (X * (t * t))) with (X * (S * t * t)) by ring. rewrite XE. field. lra. }
        assert (H' : D / S <= v * (t * (1 + / 10000000000) - 3 / 10 * v)) by (apply div_le; [lra|]; lra).
        assert (t2 : 0 < t * t) by nra. apply Rmult_le_reg_r with (t * t); [exact t2|]. rewrite E.
        replace ((2 * w - w * w + / 2000000000) * (t * t)) with (2 * (w * t) * t - w * t * (w * t) + / 2000000000 * (t * t)) by ring. rewrite Wt.
        apply Rle_trans with (6 / 5 * (v * (t * (1 + / 10000000000) - 3 / 10 * v))); [lra|].
        assert (vt : v * t <= 7 / 2 * (t * t)).
        { assert (D0 : 0 <= D / S) by (apply Rmult_le_pos; [lra|]; left; apply Rinv_0_lt_compat; lra).
          assert (L : v <= 7 / 2 * t). { apply Rnot_lt_le. intros N. assert (0 < v * (3 / 10 * v - t * (1 + / 10000000000))) by (apply Rmult_lt_0_compat; lra). lra. }
          replace (7 / 2 * (t * t)) with (7 / 2 * t * t) by ring. apply Rmult_le_compat_r; lra. }
        nra. }
      destruct (Rle_lt_dec 1 (w * (1 + / 30000))) as [G|G].
      + destruct (root_near s s_fin s_range v v_is d d_fin d_moves d_range T T_fin T_top T_speed T_square) as (_ & _ & [L0 _]).
        eapply Rle_trans; [apply (speed_of 0); [rewrite Rmult_0_r; exact L0|lra|lra]|]. rewrite Vs. rewrite (Rmult_assoc (5 / 3 * (S * t))).
        apply Rmult_le_compat_l; [apply Rmult_le_pos; [lra|]; apply Rmult_le_pos; lra|]. lra.
      + set (z := 1 - w * (1 + / 30000)). assert (Pz : 0 <= z) by (unfold z; lra).
        assert (R : B * (z - / 100000000000000) <= val (root s d T)).
        { apply root_low; [exact Pz|]. unfold z. assert (W1 : w <= 1 - / 30001) by nra.
          assert (K : / 1500000000 <= w * / 30000 * (2 - w * (2 + / 30000))).
          { destruct (Rle_lt_dec w (9 / 10)) as [w2|w2].
            - apply Rle_trans with (/ 6000 * / 30000 * (19 / 100)); [lra|]. apply Rmult_le_compat; lra.
            - apply Rle_trans with (9 / 10 * / 30000 * / 31000); [lra|]. apply Rmult_le_compat; lra. }
          replace ((1 - w * (1 + / 30000)) * (1 - w * (1 + / 30000))) with (1 - (2 * w - w * w) - w * / 30000 * (2 - w * (2 + / 30000))) by ring. lra. }
        eapply Rle_trans; [apply (speed_of (z - / 100000000000000)); [exact R|unfold z; lra|unfold z; lra]|].
        rewrite Vs. rewrite (Rmult_assoc (5 / 3 * (S * t))). apply Rmult_le_compat_l; [apply Rmult_le_pos; [lra|]; apply Rmult_le_pos; lra|]. unfold z. lra.
  Qed.
  Lemma sign_val : b64_fin (signum float d) = true /\ Rabs (val (signum float d)) = 1 /\ val d = val (signum float d) * D /\ val (signum float d) = sg d.
  Proof.
    destruct (sign_rel d d_fin d_moves d_range) as [((F & e & E & H) & _) Es]. assert (e = 0).
    { rewrite Rmult_0_l in H. pose proof (Rabs_pos e). destruct (Req_dec e 0) as [Z|Z]; [exact Z|]. apply Rabs_pos_lt in Z. lra. }
    subst e. rewrite Rplus_0_r, Rmult_1_r in E. rewrite E. split; [exact F|].
    assert (A : sg d = 1 \/ sg d = -1) by (unfold sg; destruct (Rle_dec 0 (val d)); auto).
    destruct A as [A|A]; rewrite A in *; (split; [unfold Rabs; destruct (Rcase_abs _); lra|]); (split; [lra|reflexivity]).
  Qed.
  Lemma tuned_ok : tuned S v d (speed s d T) ramp (f_sub float whole ramp) whole (corner s d T).
  Proof.
    destruct (speed_bounds s s_fin s_range v v_is d d_fin d_moves d_range T T_fin T_top T_speed T_square) as [Fq _].
    pose proof (speed_range s s_fin s_range v v_is d d_fin d_moves d_range T T_fin T_top T_speed T_square) as Rq.
    pose proof speed_top as Tq. pose proof speed_tri as Q3.
    destruct (ramp_bounds s s_fin s_range v v_is d d_fin d_moves d_range T T_fin T_top T_speed T_square) as (Fr & _ & Br).
    destruct (whole_bounds s s_fin s_range v v_is d d_fin d_moves d_range T T_fin T_top T_speed T_square) as (Fw & Lw & Sw & Qw).
    destruct (corner_bounds s s_fin s_range v v_is d d_fin d_moves d_range T T_fin T_top T_speed T_square) as (Fc & _).
    destruct (Dq_bounds s s_fin s_range v v_is d d_fin d_moves d_range T T_fin T_top T_speed T_square) as (DQ & _ & DE).
    pose proof (ramp_rel s s_fin s_range v v_is d d_fin d_moves d_range T T_fin T_top T_speed T_square) as Rr.
    pose proof (whole_rel s s_fin s_range v v_is d d_fin d_moves d_range T T_fin T_top T_speed T_square) as Rw.
    pose proof (speed_rel s s_fin s_range v v_is d d_fin d_moves d_range T T_fin T_top T_speed T_square) as Rs.
    destruct (sign_rel d d_fin d_moves d_range) as [Rg _]. destruct sign_val as (Fs & As & Ds & Es).
    assert (Rc : relm 20 150 (corner s d T) (q * sg d * (3 / 20 * (q / S)))) by (eapply relm_as; [unfold corner; rela|lra|lra|lia]).
    revert Fq Rq Tq Q3 Fr Br Fw Lw Sw Qw Fc Rr Rw Rc DQ DE. clear Rs. generalize (speed s d T) (MotionPlan.ramp s d T) (MotionPlan.whole s d T) (corner s d T). intros sp r w c Fq Rq Tq Q3 Fr Br Fw Lw Sw Qw Fc Rr Rw Rc DQ DE.
    destruct Rr as ((_ & e2 & E2 & H2) & _). destruct Rw as ((_ & e1 & E1 & H1) & _). destruct Rc as ((_ & e3 & E3 & H3) & _).
    assert (P : 0 < val sp / S) by (apply Rdiv_lt_0_compat; lra). assert (Ey : val sp = val sp / S * S) by (field; lra). set (y := val sp / S) in *.
    assert (Y : / 220000000 <= y <= 52 / 10) by (rewrite Ey in Rq; split; apply Rmult_le_reg_r with S; lra).
    assert (U1 : Rabs e1 <= / 70000000000000) by (unfold u in H1; lra). assert (U2 : Rabs e2 <= / 700000000000000) by (unfold u in H2; lra).
    assert (U3 : Rabs e3 <= / 200000000000000) by (unfold u in H3; lra). clear H1 H2 H3. apply Rabs_le_inv in U1. apply Rabs_le_inv in U2. apply Rabs_le_inv in U3.
    constructor.
    - split; [exact Fq|]. lra.
    - split; [exact Fr|]. split; [exact Br|].
      assert (E : 3 / 2 * (val sp / val r) - 5 * S = - (5 * e2 / (1 + e2)) * S) by (rewrite E2, Ey; field; lra). rewrite E, Rabs_mult, Rabs_Ropp, (Rabs_pos_eq S) by lra.
      apply Rmult_le_compat_r; [lra|]. unfold Rdiv. rewrite Rabs_mult, Rabs_inv, (Rabs_pos_eq (1 + e2)) by lra. apply div_le; [lra|]. apply Rabs_le. lra.
    - split; [exact Fw|]. split; lra.
    - set (z := D / val sp) in *. assert (E : val sp * (val w - val r) - D = 3 / 10 * (val sp * y) * (e1 - e2) + D * e1).
      { rewrite E1, E2. rewrite <- DE at 1. replace (D * e1) with (val sp * z * e1) by (rewrite DE; ring). ring. }
      rewrite E. assert (A1 : Rabs (e1 - e2) <= / 60000000000000) by (apply Rabs_le; lra). assert (A2 : Rabs e1 <= / 60000000000000) by (apply Rabs_le; lra).
      eapply Rle_trans; [apply Rabs_triang|]. rewrite !Rabs_mult, (Rabs_pos_eq (3 / 10)), (Rabs_pos_eq (val sp)), (Rabs_pos_eq y), (Rabs_pos_eq D) by (try apply Rabs_pos; lra).
      assert (M1 : 3 / 10 * (val sp * y) <= 9) by nra. assert (M0 : 0 <= 3 / 10 * (val sp * y)) by (apply Rmult_le_pos; [lra|]; apply Rmult_le_pos; lra).
      assert (3 / 10 * (val sp * y) * Rabs (e1 - e2) <= 9 * / 60000000000000) by (apply Rmult_le_compat; try apply Rabs_pos; lra).
      assert (D * Rabs e1 <= 8 * / 60000000000000) by (apply Rmult_le_compat; try apply Rabs_pos; lra). lra.
    - set (z := D / val sp) in *. assert (G : 3 / 10 * y <= z * (1 + / 49000)).
      { assert (G1 : 3 / 10 * (val sp * val sp) <= D * S * (1 + / 49000)).
        { assert (M0 : 0 <= D * S) by (apply Rmult_le_pos; [apply Rabs_pos|lra]). replace (10 / 3 * D * S) with (10 / 3 * (D * S)) in Q3 by ring.
          set (m := D * S) in *. set (k := val sp * val sp) in *. clearbody m k. clear - Q3 M0. lra. }
        apply Rmult_le_reg_r with (val sp * S); [apply Rmult_lt_0_compat; lra|].
        replace (3 / 10 * y * (val sp * S)) with (3 / 10 * (val sp * (y * S))) by ring. rewrite <- Ey. replace (z * (1 + / 49000) * (val sp * S)) with (val sp * z * S * (1 + / 49000)) by ring.
        rewrite DE. exact G1. }
      rewrite E1, E2. assert (y * e1 >= - (y * / 70000000000000)) by nra. assert (y * e2 <= y * / 700000000000000) by nra. assert (z * e1 >= - (z * / 70000000000000)) by nra. nra.
    - reflexivity.
    - split; [exact Fs|]. split; [exact As|exact Ds].
    - split; [exact Fc|]. rewrite E3, Es. replace (val sp * sg d * (3 / 20 * y) * (1 + e3) - sg d * (val sp * val r / 2)) with (sg d * (3 / 20 * (val sp * y)) * (e3 - e2)) by (rewrite E2; field).
      rewrite <- Es, !Rabs_mult, As. assert (A1 : Rabs (e3 - e2) <= / 150000000000000) by (apply Rabs_le; lra).
      rewrite (Rabs_pos_eq (3 / 20)), (Rabs_pos_eq (val sp)), (Rabs_pos_eq y) by lra. assert (M1 : 1 * (3 / 20 * (val sp * y)) <= 5) by nra.
      assert (M0 : 0 <= 1 * (3 / 20 * (val sp * y))) by (rewrite Rmult_1_l; apply Rmult_le_pos; [lra|]; apply Rmult_le_pos; lra).
      apply Rle_trans with (5 * / 150000000000000); [|lra]. apply Rmult_le_compat; try apply Rabs_pos; lra.
  Qed.
End Tune.
