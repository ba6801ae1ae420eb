(** The conversion of rotation matrices to quaternions in exact arithmetic. *)
From Coq Require Import List ZArith NArith Bool Reals Lra Lia Psatz.
From Verif Require Import NumOps NumReal RateModel ConvertModel PiBounds PoseReal Properties_Rotation IsometryModel.
Import ListNotations.
Open Scope R_scope.

Ltac reals := cbn [f_add f_sub f_mul f_div f_neg f_sqrt f_min f_max f_abs f_lt f_eq f_int real fst snd vx vy vz] in *.
Notation frommat := (from_matrix real cos sin).
Notation step := (extract_step real cos sin).
Definition eps : R := EPSILON real.
Lemma eps_val : eps = / 4503599627370496.
Proof. unfold eps, EPSILON, f_lit. reals. change (2 ^ 52)%Z with 4503599627370496%Z. lra. Qed.

Lemma r_mul_columns : forall a b, r_mul real (columns a) (columns b) = columns (mat_mul a b).
Proof. intros [] []. unfold r_mul, columns, mat_mul. entries. reals. reflexivity. Qed.
Lemma r_one_columns : r_one real = columns mat_one.
Proof. reflexivity. Qed.
Lemma columns_inj : forall a b, columns a = columns b -> a = b.
Proof. intros [] [] E. unfold columns in E. injection E as -> -> -> -> -> -> -> -> ->. reflexivity. Qed.
Lemma columns_onto : forall r : rot real, exists m, r = columns m.
Proof. intros [[[a b c] [d e f]] [g h i]]. exists (Mat3 a d g b e h c f i). reflexivity. Qed.

(** A turn by an angle about a unit axis. *)
Definition turn (x y z a : R) : mat3 := rodm x y z (sin a) (1 - cos a).
Section Axis.
  Variables x y z : R.
  Hypothesis U : x * x + y * y + z * z = 1.
  Lemma turn_0 : turn x y z 0 = mat_one.
  Proof. unfold turn, rodm, mat_one. rewrite sin_0, cos_0. f_equal; ring. Qed.
  Lemma axis_angle : forall a, from_axis_angle real cos sin (Vec real x y z) a = columns (turn x y z a).
  Proof.
    intros a. unfold from_axis_angle. reals. destruct (Req_EM_T a 0) as [->|N].
    - rewrite turn_0. apply r_one_columns.
    - assert (X : 1 - x * x = y * y + z * z) by lra. assert (Y : 1 - y * y = x * x + z * z) by lra. assert (Z : 1 - z * z = x * x + y * y) by lra.
      assert (X' : x * x = 1 - (y * y + z * z)) by lra. assert (Y' : y * y = 1 - (x * x + z * z)) by lra. assert (Z' : z * z = 1 - (x * x + y * y)) by lra.
      assert (Ex : x * x + (1 - x * x) * cos a = 1 - (1 - cos a) * (y * y + z * z)) by (rewrite X, X'; ring).
      assert (Ey : y * y + (1 - y * y) * cos a = 1 - (1 - cos a) * (x * x + z * z)) by (rewrite Y, Y'; ring).
      assert (Ez : z * z + (1 - z * z) * cos a = 1 - (1 - cos a) * (x * x + y * y)) by (rewrite Z, Z'; ring).
      clear X Y Z X' Y' Z'. unfold turn, rodm, columns. entries. rewrite Ex, Ey, Ez. clear Ex Ey Ez.
      f_equal; [f_equal|]; (f_equal; ring).
  Qed.
  Lemma rodm_mul : forall s d s' d', mat_mul (rodm x y z s d) (rodm x y z s' d') = rodm x y z (s + s' - s * d' - s' * d) (d + d' - d * d' + s * s').
  Proof.
    intros. transitivity (let u := x * x + y * y + z * z in rodm x y z (s + s' - u * (s * d' + s' * d)) (d + d' - u * (d * d') + s * s')).
    - cbv zeta. unfold rodm, mat_mul. entries. f_equal; ring.
    - cbv zeta. rewrite U. f_equal; ring.
  Qed.
  Lemma turn_mul : forall a b, mat_mul (turn x y z a) (turn x y z b) = turn x y z (a + b).
  Proof. intros. unfold turn. rewrite rodm_mul, sin_plus, cos_plus. f_equal; ring. Qed.
  Lemma turn_transpose : forall a, transpose (turn x y z a) = turn x y z (- a).
  Proof. intros. unfold turn, rodm, transpose. rewrite sin_neg, cos_neg. entries. f_equal; ring. Qed.
  Lemma turn_opposite : forall a, turn (- x) (- y) (- z) a = turn x y z (- a).
  Proof. intros. unfold turn, rodm. rewrite sin_neg, cos_neg. f_equal; ring. Qed.
End Axis.

(** One round: the axis is the skew part, the denominator the trace of what is left to turn. *)
Lemma step_columns : forall m r, let q := mat_mul m (transpose r) in
  let k := Rabs (m00 q + m11 q + m22 q) + eps in
  let w := Vec real ((m21 q - m12 q) / k) ((m02 q - m20 q) / k) ((m10 q - m01 q) / k) in
  step (columns m) (columns r) =
    if f_gt real (v_norm2 real w) (eps * eps) then Some (r_mul real (from_axis_angle real cos sin (v_normalize real w) (v_norm real w)) (columns r)) else None.
Proof.
  intros m r q k w. unfold extract_step. destruct (columns m) as [[p0 p1] p2] eqn:Em. destruct (columns r) as [[s0 s1] s2] eqn:Er.
  unfold columns in Em, Er. injection Em as <- <- <-. injection Er as <- <- <-.
  assert (E : v_unscale real (v_add real (v_add real (v_cross real (Vec real (m00 r) (m10 r) (m20 r)) (Vec real (m00 m) (m10 m) (m20 m)))
      (v_cross real (Vec real (m01 r) (m11 r) (m21 r)) (Vec real (m01 m) (m11 m) (m21 m)))) (v_cross real (Vec real (m02 r) (m12 r) (m22 r)) (Vec real (m02 m) (m12 m) (m22 m))))
    (f_add real (f_abs real (f_add real (f_add real (v_dot real (Vec real (m00 r) (m10 r) (m20 r)) (Vec real (m00 m) (m10 m) (m20 m)))
      (v_dot real (Vec real (m01 r) (m11 r) (m21 r)) (Vec real (m01 m) (m11 m) (m21 m)))) (v_dot real (Vec real (m02 r) (m12 r) (m22 r)) (Vec real (m02 m) (m12 m) (m22 m))))) (EPSILON real)) = w).
  { unfold w, k, q, mat_mul, transpose, v_unscale, v_add, v_map, v_map2, v_cross, v_dot. entries. reals. fold eps.
    match goal with |- context [Rabs ?d] => set (D := d) end.
    assert (ED : D = m00 m * m00 r + m01 m * m01 r + m02 m * m02 r + (m10 m * m10 r + m11 m * m11 r + m12 m * m12 r) + (m20 m * m20 r + m21 m * m21 r + m22 m * m22 r)) by (unfold D; ring).
    rewrite ED. clear ED D. f_equal; f_equal; ring. }
  cbv zeta. rewrite E. reflexivity.
Qed.

(** Half turns: a symmetric matrix leaves nothing to turn. *)
Lemma extract_symmetric : forall n m, m21 m = m12 m -> m02 m = m20 m -> m10 m = m01 m -> extract real cos sin n (columns m) (r_one real) = r_one real.
Proof.
  intros [|n] m A B C; [reflexivity|]. cbn [extract]. rewrite r_one_columns, step_columns. cbv zeta.
  set (k := Rabs _ + eps).
  assert (E : Vec real ((m21 (mat_mul m (transpose mat_one)) - m12 (mat_mul m (transpose mat_one))) / k)
                       ((m02 (mat_mul m (transpose mat_one)) - m20 (mat_mul m (transpose mat_one))) / k)
                       ((m10 (mat_mul m (transpose mat_one)) - m01 (mat_mul m (transpose mat_one))) / k) = Vec real 0 0 0).
  { unfold mat_mul, transpose, mat_one. entries. f_equal; unfold Rdiv; [rewrite A|rewrite B|rewrite C]; ring. }
  rewrite E. assert (P : 0 < eps) by (rewrite eps_val; lra).
  replace (f_gt real (v_norm2 real (Vec real 0 0 0)) (eps * eps)) with false; [reflexivity|].
  symmetry. unfold f_gt, v_norm2, v_dot. reals. destruct (Rlt_dec _ _) as [L|]; [nra|reflexivity].
Qed.

(** * Quaternions *)
Lemma sqrt_pos_sq : forall t, 0 < t -> 0 < sqrt t /\ sqrt t * sqrt t = t.
Proof. intros t P. split; [apply sqrt_lt_R0; exact P|apply sqrt_sqrt; lra]. Qed.
Lemma cofactors : forall m00 m01 m02 m10 m11 m12 m20 m21 m22 : R,
  m00 * m00 + m01 * m01 + m02 * m02 = 1 ->
  m00 * m10 + m01 * m11 + m02 * m12 = 0 ->
  m00 * m20 + m01 * m21 + m02 * m22 = 0 ->
  m10 * m10 + m11 * m11 + m12 * m12 = 1 ->
  m10 * m20 + m11 * m21 + m12 * m22 = 0 ->
  m20 * m20 + m21 * m21 + m22 * m22 = 1 ->
  m00 * (m11 * m22 - m21 * m12) - m01 * (m10 * m22 - m20 * m12) + m02 * (m10 * m21 - m20 * m11) = 1 ->
  m00 = ((m11 * m22 - m12 * m21)) /\
  m01 = (- (m10 * m22 - m12 * m20)) /\
  m02 = ((m10 * m21 - m11 * m20)) /\
  m10 = (- (m01 * m22 - m02 * m21)) /\
  m11 = ((m00 * m22 - m02 * m20)) /\
  m12 = (- (m00 * m21 - m01 * m20)) /\
  m20 = ((m01 * m12 - m02 * m11)) /\
  m21 = (- (m00 * m12 - m02 * m10)) /\
  m22 = ((m00 * m11 - m01 * m10)).
Proof.
  intros m00 m01 m02 m10 m11 m12 m20 m21 m22 H00 H01 H02 H11 H12 H22 D.
  repeat split.
  - transitivity (((m11 * m22 - m12 * m21)) * (m00 * m00 + m01 * m01 + m02 * m02) + (- (m01 * m22 - m02 * m21)) * (m00 * m10 + m01 * m11 + m02 * m12) + ((m01 * m12 - m02 * m11)) * (m00 * m20 + m01 * m21 + m02 * m22)); [|rewrite H00, H01, H02; ring].
    transitivity (m00 * (m00 * (m11 * m22 - m21 * m12) - m01 * (m10 * m22 - m20 * m12) + m02 * (m10 * m21 - m20 * m11))); [rewrite D; ring|ring].
  - transitivity ((- (m10 * m22 - m12 * m20)) * (m00 * m00 + m01 * m01 + m02 * m02) + ((m00 * m22 - m02 * m20)) * (m00 * m10 + m01 * m11 + m02 * m12) + (- (m00 * m12 - m02 * m10)) * (m00 * m20 + m01 * m21 + m02 * m22)); [|rewrite H00, H01, H02; ring].
    transitivity (m01 * (m00 * (m11 * m22 - m21 * m12) - m01 * (m10 * m22 - m20 * m12) + m02 * (m10 * m21 - m20 * m11))); [rewrite D; ring|ring].
  - transitivity (((m10 * m21 - m11 * m20)) * (m00 * m00 + m01 * m01 + m02 * m02) + (- (m00 * m21 - m01 * m20)) * (m00 * m10 + m01 * m11 + m02 * m12) + ((m00 * m11 - m01 * m10)) * (m00 * m20 + m01 * m21 + m02 * m22)); [|rewrite H00, H01, H02; ring].
    transitivity (m02 * (m00 * (m11 * m22 - m21 * m12) - m01 * (m10 * m22 - m20 * m12) + m02 * (m10 * m21 - m20 * m11))); [rewrite D; ring|ring].
  - transitivity (((m11 * m22 - m12 * m21)) * (m00 * m10 + m01 * m11 + m02 * m12) + (- (m01 * m22 - m02 * m21)) * (m10 * m10 + m11 * m11 + m12 * m12) + ((m01 * m12 - m02 * m11)) * (m10 * m20 + m11 * m21 + m12 * m22)); [|rewrite H01, H11, H12; ring].
    transitivity (m10 * (m00 * (m11 * m22 - m21 * m12) - m01 * (m10 * m22 - m20 * m12) + m02 * (m10 * m21 - m20 * m11))); [rewrite D; ring|ring].
  - transitivity ((- (m10 * m22 - m12 * m20)) * (m00 * m10 + m01 * m11 + m02 * m12) + ((m00 * m22 - m02 * m20)) * (m10 * m10 + m11 * m11 + m12 * m12) + (- (m00 * m12 - m02 * m10)) * (m10 * m20 + m11 * m21 + m12 * m22)); [|rewrite H01, H11, H12; ring].
    transitivity (m11 * (m00 * (m11 * m22 - m21 * m12) - m01 * (m10 * m22 - m20 * m12) + m02 * (m10 * m21 - m20 * m11))); [rewrite D; ring|ring].
  - transitivity (((m10 * m21 - m11 * m20)) * (m00 * m10 + m01 * m11 + m02 * m12) + (- (m00 * m21 - m01 * m20)) * (m10 * m10 + m11 * m11 + m12 * m12) + ((m00 * m11 - m01 * m10)) * (m10 * m20 + m11 * m21 + m12 * m22)); [|rewrite H01, H11, H12; ring].
    transitivity (m12 * (m00 * (m11 * m22 - m21 * m12) - m01 * (m10 * m22 - m20 * m12) + m02 * (m10 * m21 - m20 * m11))); [rewrite D; ring|ring].
  - transitivity (((m11 * m22 - m12 * m21)) * (m00 * m20 + m01 * m21 + m02 * m22) + (- (m01 * m22 - m02 * m21)) * (m10 * m20 + m11 * m21 + m12 * m22) + ((m01 * m12 - m02 * m11)) * (m20 * m20 + m21 * m21 + m22 * m22)); [|rewrite H02, H12, H22; ring].
    transitivity (m20 * (m00 * (m11 * m22 - m21 * m12) - m01 * (m10 * m22 - m20 * m12) + m02 * (m10 * m21 - m20 * m11))); [rewrite D; ring|ring].
  - transitivity ((- (m10 * m22 - m12 * m20)) * (m00 * m20 + m01 * m21 + m02 * m22) + ((m00 * m22 - m02 * m20)) * (m10 * m20 + m11 * m21 + m12 * m22) + (- (m00 * m12 - m02 * m10)) * (m20 * m20 + m21 * m21 + m22 * m22)); [|rewrite H02, H12, H22; ring].
    transitivity (m21 * (m00 * (m11 * m22 - m21 * m12) - m01 * (m10 * m22 - m20 * m12) + m02 * (m10 * m21 - m20 * m11))); [rewrite D; ring|ring].
  - transitivity (((m10 * m21 - m11 * m20)) * (m00 * m20 + m01 * m21 + m02 * m22) + (- (m00 * m21 - m01 * m20)) * (m10 * m20 + m11 * m21 + m12 * m22) + ((m00 * m11 - m01 * m10)) * (m20 * m20 + m21 * m21 + m22 * m22)); [|rewrite H02, H12, H22; ring].
    transitivity (m22 * (m00 * (m11 * m22 - m21 * m12) - m01 * (m10 * m22 - m20 * m12) + m02 * (m10 * m21 - m20 * m11))); [rewrite D; ring|ring].
Qed.
(** The products of two components, four times, are entries of the matrix. *)
Record products (m : mat3) (w i j k : R) : Prop := Products {
  p_ww : w * w = (1 + m00 m + m11 m + m22 m) / 4; p_ii : i * i = (1 + m00 m - m11 m - m22 m) / 4;
  p_jj : j * j = (1 + m11 m - m00 m - m22 m) / 4; p_kk : k * k = (1 + m22 m - m00 m - m11 m) / 4;
  p_wi : w * i = (m21 m - m12 m) / 4; p_wj : w * j = (m02 m - m20 m) / 4; p_wk : w * k = (m10 m - m01 m) / 4;
  p_ij : i * j = (m01 m + m10 m) / 4; p_ik : i * k = (m02 m + m20 m) / 4; p_jk : j * k = (m12 m + m21 m) / 4 }.
Lemma half_square : forall r t, 0 < r -> r * r = t -> (1 / 4 * (r * 2)) * (1 / 4 * (r * 2)) = t / 4.
Proof. intros r t P <-. field. Qed.
Lemma half_one : forall r a, 0 < r -> (1 / 4 * (r * 2)) * (a / (r * 2)) = a / 4.
Proof. intros. field. lra. Qed.
Lemma one_half : forall r a, 0 < r -> (a / (r * 2)) * (1 / 4 * (r * 2)) = a / 4.
Proof. intros. field. lra. Qed.
Lemma one_one : forall r t a b c, 0 < r -> r * r = t -> a * b = t * c -> (a / (r * 2)) * (b / (r * 2)) = c / 4.
Proof. intros r t a b c P <- E. transitivity (a * b / (r * r * 4)); [field; lra|]. rewrite E. field. lra. Qed.
Lemma quat_products : forall m, proper m -> let q := quat_of real (columns m) in products m (qw _ q) (qi _ q) (qj _ q) (qk _ q).
Proof.
  intros m Pm. pose proof (rows_ortho _ Pm) as (R0 & R1 & R2 & R3 & R4 & R5).
  destruct Pm as (C0 & C1 & C2 & C3 & C4 & C5 & D). destruct m as [m00 m01 m02 m10 m11 m12 m20 m21 m22].
  unfold mdot, mdet in *. cbn [PoseReal.m00 PoseReal.m01 PoseReal.m02 PoseReal.m10 PoseReal.m11 PoseReal.m12 PoseReal.m20 PoseReal.m21 PoseReal.m22] in *.
  destruct (cofactors m00 m01 m02 m10 m11 m12 m20 m21 m22) as (K0 & K1 & K2 & K3 & K4 & K5 & K6 & K7 & K8); try lra.
  set (A := m21 - m12). set (B := m02 - m20). set (C := m10 - m01). set (P := m01 + m10). set (Q := m02 + m20). set (S := m12 + m21).
  set (t0 := 1 + m00 + m11 + m22). set (t1 := 1 + m00 - m11 - m22). set (t2 := 1 + m11 - m00 - m22). set (t3 := 1 + m22 - m00 - m11).
  assert (AA : A * A = t0 * t1) by (unfold A, t0, t1; lra). assert (BB : B * B = t0 * t2) by (unfold B, t0, t2; lra).
  assert (CC : C * C = t0 * t3) by (unfold C, t0, t3; lra). assert (PP : P * P = t1 * t2) by (unfold P, t1, t2; lra).
  assert (QQ : Q * Q = t1 * t3) by (unfold Q, t1, t3; lra). assert (SS : S * S = t2 * t3) by (unfold S, t2, t3; lra).
  assert (AB : A * B = t0 * P) by (unfold A, B, t0, P; lra). assert (AC : A * C = t0 * Q) by (unfold A, C, t0, Q; lra).
  assert (BC : B * C = t0 * S) by (unfold B, C, t0, S; lra). assert (AP : A * P = t1 * B) by (unfold A, B, t1, P; lra).
  assert (AQ : A * Q = t1 * C) by (unfold A, C, t1, Q; lra). assert (PQ : P * Q = t1 * S) by (unfold P, Q, t1, S; lra).
  assert (BP : B * P = t2 * A) by (unfold A, B, t2, P; lra). assert (BS : B * S = t2 * C) by (unfold B, C, t2, S; lra).
  assert (PS : P * S = t2 * Q) by (unfold P, Q, t2, S; lra). assert (CQ : C * Q = t3 * A) by (unfold A, C, t3, Q; lra).
  assert (CS : C * S = t3 * B) by (unfold B, C, t3, S; lra). assert (QS : Q * S = t3 * P) by (unfold P, Q, t3, S; lra).
  assert (T : t0 + t1 + t2 + t3 = 4) by (unfold t0, t1, t2, t3; ring).
  assert (T0 : m00 + m11 + m22 + 1 = t0) by (unfold t0; ring).
  unfold quat_of, columns. cbn [PoseReal.m00 PoseReal.m01 PoseReal.m02 PoseReal.m10 PoseReal.m11 PoseReal.m12 PoseReal.m20 PoseReal.m21 PoseReal.m22].
  unfold f_gt, f_lit. reals. fold A B C P Q S t1 t2 t3. rewrite T0.
  cbv zeta. clear R0 R1 R2 R3 R4 R5 C0 C1 C2 C3 C4 C5 D K0 K1 K2 K3 K4 K5 K6 K7 K8.
  assert (Z1 : t1 - t2 = 2 * (m00 - m11)) by (unfold t1, t2; ring). assert (Z2 : t1 - t3 = 2 * (m00 - m22)) by (unfold t1, t3; ring).
  assert (Z3 : t2 - t3 = 2 * (m11 - m22)) by (unfold t2, t3; ring).
  assert (AA' : A * A = t1 * t0) by lra. assert (BB' : B * B = t2 * t0) by lra. assert (CC' : C * C = t3 * t0) by lra.
  assert (PP' : P * P = t2 * t1) by lra. assert (QQ' : Q * Q = t3 * t1) by lra. assert (SS' : S * S = t3 * t2) by lra.
  destruct (Rlt_dec 0 (m00 + m11 + m22)) as [L|L].
  { assert (G : 0 < t0) by lra. destruct (sqrt_pos_sq _ G) as [Rp Rs]. set (r := sqrt t0) in *.
    exact (Products (Mat3 m00 m01 m02 m10 m11 m12 m20 m21 m22) _ _ _ _ (half_square r t0 Rp Rs) (one_one r t0 A A t1 Rp Rs AA) (one_one r t0 B B t2 Rp Rs BB) (one_one r t0 C C t3 Rp Rs CC)
      (half_one r A Rp) (half_one r B Rp) (half_one r C Rp) (one_one r t0 A B P Rp Rs AB) (one_one r t0 A C Q Rp Rs AC) (one_one r t0 B C S Rp Rs BC)). }
  destruct (Rlt_dec m11 m00) as [L1|L1]; [destruct (Rlt_dec m22 m00) as [L2|L2]|]; cbn [andb].
  { assert (G : 0 < t1) by lra. destruct (sqrt_pos_sq _ G) as [Rp Rs]. set (r := sqrt t1) in *.
    exact (Products (Mat3 m00 m01 m02 m10 m11 m12 m20 m21 m22) _ _ _ _ (one_one r t1 A A t0 Rp Rs AA') (half_square r t1 Rp Rs) (one_one r t1 P P t2 Rp Rs PP) (one_one r t1 Q Q t3 Rp Rs QQ)
      (one_half r A Rp) (one_one r t1 A P B Rp Rs AP) (one_one r t1 A Q C Rp Rs AQ) (half_one r P Rp) (half_one r Q Rp) (one_one r t1 P Q S Rp Rs PQ)). }
  all: destruct (Rlt_dec m22 m11) as [L3|L3].
  { assert (G : 0 < t2) by lra. destruct (sqrt_pos_sq _ G) as [Rp Rs]. set (r := sqrt t2) in *.
    exact (Products (Mat3 m00 m01 m02 m10 m11 m12 m20 m21 m22) _ _ _ _ (one_one r t2 B B t0 Rp Rs BB') (one_one r t2 P P t1 Rp Rs PP') (half_square r t2 Rp Rs) (one_one r t2 S S t3 Rp Rs SS)
          (one_one r t2 B P A Rp Rs BP) (one_half r B Rp) (one_one r t2 B S C Rp Rs BS) (one_half r P Rp) (one_one r t2 P S Q Rp Rs PS) (half_one r S Rp)). }
  { assert (G : 0 < t3) by lra. destruct (sqrt_pos_sq _ G) as [Rp Rs]. set (r := sqrt t3) in *.
    exact (Products (Mat3 m00 m01 m02 m10 m11 m12 m20 m21 m22) _ _ _ _ (one_one r t3 C C t0 Rp Rs CC') (one_one r t3 Q Q t1 Rp Rs QQ') (one_one r t3 S S t2 Rp Rs SS') (half_square r t3 Rp Rs)
          (one_one r t3 C Q A Rp Rs CQ) (one_one r t3 C S B Rp Rs CS) (one_half r C Rp) (one_one r t3 Q S P Rp Rs QS) (one_half r Q Rp) (one_half r S Rp)). }
  { assert (G : 0 < t2) by lra. destruct (sqrt_pos_sq _ G) as [Rp Rs]. set (r := sqrt t2) in *.
    exact (Products (Mat3 m00 m01 m02 m10 m11 m12 m20 m21 m22) _ _ _ _ (one_one r t2 B B t0 Rp Rs BB') (one_one r t2 P P t1 Rp Rs PP') (half_square r t2 Rp Rs) (one_one r t2 S S t3 Rp Rs SS)
          (one_one r t2 B P A Rp Rs BP) (one_half r B Rp) (one_one r t2 B S C Rp Rs BS) (one_half r P Rp) (one_one r t2 P S Q Rp Rs PS) (half_one r S Rp)). }
  { assert (G : 0 < t3) by lra. destruct (sqrt_pos_sq _ G) as [Rp Rs]. set (r := sqrt t3) in *.
    exact (Products (Mat3 m00 m01 m02 m10 m11 m12 m20 m21 m22) _ _ _ _ (one_one r t3 C C t0 Rp Rs CC') (one_one r t3 Q Q t1 Rp Rs QQ') (one_one r t3 S S t2 Rp Rs SS') (half_square r t3 Rp Rs)
          (one_one r t3 C Q A Rp Rs CQ) (one_one r t3 C S B Rp Rs CS) (one_half r C Rp) (one_one r t3 Q S P Rp Rs QS) (one_half r Q Rp) (one_half r S Rp)). }
Qed.
Lemma quat_matrix : forall m w i j k, products m w i j k -> rot_of real (Quat real w i j k) = columns m.
Proof.
  intros m w i j k [ww ii jj kk wi wj wk ij ik jk]. unfold rot_of, columns. cbn [qw qi qj qk]. reals. cbv zeta.
  rewrite ww, ii, jj, kk, wi, wj, wk, ij, ik, jk. f_equal; [f_equal|]; f_equal; field.
Qed.
Lemma quat_round : forall m, proper m -> rot_of real (quat_of real (columns m)) = columns m.
Proof.
  intros m P. pose proof (quat_products m P) as H. destruct (quat_of real (columns m)) as [w i j k]. cbn [qw qi qj qk] in H.
  apply quat_matrix. exact H.
Qed.

(** * The iteration converges for rotations of at most 1.8 rad *)
Definition gain_of (r : R) : R := 2 * sin r / (1 + 2 * cos r + eps).
Lemma cos_nonneg : forall r, Rabs r <= PI / 2 -> 0 <= cos r.
Proof. intros r B. assert (- (PI / 2) <= r <= PI / 2) by (revert B; unfold Rabs; destruct Rcase_abs; lra). apply cos_ge_0; lra. Qed.
Lemma eps_pos : 0 < eps.
Proof. rewrite eps_val. lra. Qed.
Section Converge.
  Variables x y z : R.
  Hypothesis U : x * x + y * y + z * z = 1.
  Lemma step_turn : forall th phi, 0 <= 1 + 2 * cos (th - phi) -> step (columns (turn x y z th)) (columns (turn x y z phi)) =
    if Rlt_dec eps (Rabs (gain_of (th - phi))) then Some (columns (turn x y z (phi + gain_of (th - phi)))) else None.
  Proof.
    intros th phi B. rewrite step_columns. cbv zeta. rewrite turn_transpose, (turn_mul x y z U). replace (th + - phi) with (th - phi) by ring.
    set (r := th - phi) in *. pose proof eps_pos as E0.
    pose proof (rod_trace x y z (sin r) (cos r) U) as Tr. fold (turn x y z r) in Tr. rewrite Tr. clear Tr. rewrite (Rabs_pos_eq (1 + 2 * cos r)) by lra.
    pose proof (rod_skew x y z (sin r) (cos r)) as (S1 & S2 & S3). fold (turn x y z r) in S1, S2, S3. rewrite S1, S2, S3. clear S1 S2 S3.
    set (k := 1 + 2 * cos r + eps). assert (K : 0 < k) by (unfold k; lra). set (g := gain_of r).
    assert (Eg : forall u : R, 2 * sin r * u / k = g * u :> R) by (intros u; unfold g, gain_of; fold k; field; lra). rewrite !Eg. clear Eg.
    assert (N2 : v_norm2 real (Vec real (g * x) (g * y) (g * z)) = g * g :> R).
    { unfold v_norm2, v_dot. reals. transitivity (g * g * (x * x + y * y + z * z)); [ring|rewrite U; ring]. }
    assert (N1 : v_norm real (Vec real (g * x) (g * y) (g * z)) = Rabs g :> R).
    { unfold v_norm. rewrite N2. change (f_sqrt real (g * g)) with (sqrt (Rsqr g)). apply sqrt_Rsqr_abs. }
    unfold v_normalize. rewrite N1, N2. unfold f_gt. reals.
    assert (Eq : (if Rlt_dec (eps * eps) (g * g) then true else false) = (if Rlt_dec eps (Rabs g) then true else false)).
    { assert (Sq : g * g = Rabs g * Rabs g) by (rewrite <- Rabs_mult, Rabs_pos_eq; nra). pose proof (Rabs_pos g).
      destruct (Rlt_dec (eps * eps) (g * g)), (Rlt_dec eps (Rabs g)); try reflexivity; exfalso; nra. }
    rewrite Eq. destruct (Rlt_dec eps (Rabs g)) as [L|L]; [|reflexivity]. f_equal.
    assert (T : from_axis_angle real cos sin (v_unscale real (Vec real (g * x) (g * y) (g * z)) (Rabs g)) (Rabs g) = columns (turn x y z g)).
    { unfold v_unscale, v_map. reals. destruct (Rle_dec 0 g) as [G|G].
      - rewrite (Rabs_pos_eq g G) in *. replace (g * x / g) with x by (field; lra). replace (g * y / g) with y by (field; lra).
        replace (g * z / g) with z by (field; lra). apply axis_angle. exact U.
      - rewrite (Rabs_left g) in * by lra. replace (g * x / - g) with (- x) by (field; lra). replace (g * y / - g) with (- y) by (field; lra).
        replace (g * z / - g) with (- z) by (field; lra). rewrite axis_angle by (rewrite <- U; ring). rewrite turn_opposite, Ropp_involutive. reflexivity. }
    rewrite T, r_mul_columns, (turn_mul x y z U). f_equal. f_equal. ring.
  Qed.
End Converge.
(** Bounds of sine and cosine by their series. *)
Lemma sin_between : forall r, 0 <= r <= 4 -> r - r * r * r / 6 <= sin r <= r - r * r * r / 6 + r * r * r * r * r / 120.
Proof.
  intros r B. destruct (pre_sin_bound r 0 (proj1 B) (proj2 B)) as [L H]. unfold sin_approx, sin_term in L, H.
  cbn [Nat.mul Nat.add sum_f_R0 pow fact INR] in L, H. split; lra.
Qed.
Lemma cos_between : forall r, -2 <= r <= 2 -> 1 - r * r / 2 + r * r * r * r / 24 - r * r * r * r * r * r / 720 <= cos r <= 1 - r * r / 2 + r * r * r * r / 24.
Proof.
  intros r B. destruct (pre_cos_bound r 0 (proj1 B) (proj2 B)) as [_ H]. destruct (pre_cos_bound r 1 (proj1 B) (proj2 B)) as [L _]. unfold cos_approx, cos_term in L, H.
  cbn [Nat.mul Nat.add sum_f_R0 pow fact INR] in L, H. split; lra.
Qed.
Lemma gain_pos : forall r, 0 <= r <= PI / 2 -> 6 / 10 * r <= gain_of r <= 14 / 10 * r.
Proof.
  intros r B. pose proof pi_bounds as P. assert (B' : 0 <= r <= 158 / 100) by lra.
  destruct (sin_between r ltac:(lra)) as [S1 S2]. destruct (cos_between r ltac:(lra)) as [C1 C2].
  pose proof (cos_nonneg r ltac:(rewrite Rabs_pos_eq; lra)) as C0. pose proof eps_pos as E0. assert (E1 : eps <= 1 / 1000) by (rewrite eps_val; lra).
  set (k := 1 + 2 * cos r + eps). assert (K : 0 < k) by (unfold k; lra).
  assert (G : gain_of r * k = 2 * sin r) by (unfold gain_of; fold k; field; lra).
  assert (X : 0 <= r * r <= 25 / 10) by nra. set (q := r * r) in *.
  split.
  - apply (Rmult_le_reg_r k); [exact K|]. rewrite G. unfold k.
    assert (H : r * (6 / 10 * (1 + 2 * cos r + eps)) <= r * (2 - q / 3)); [apply Rmult_le_compat_l; [lra|]|unfold q in *; lra].
    assert (cos r <= 1 - q / 2 + q * q / 24) by (unfold q in *; lra). assert (q * q <= 25 / 10 * q) by nra. lra.
  - apply (Rmult_le_reg_r k); [exact K|]. rewrite G. unfold k.
    assert (H : r * (2 - q / 3 + q * q / 60) <= r * (14 / 10 * (1 + 2 * cos r + eps))); [apply Rmult_le_compat_l; [lra|]|unfold q in *; lra].
    assert (1 - q / 2 + q * q / 24 - q * q * q / 720 <= cos r) by (unfold q in *; lra).
    assert (q * q * q <= 25 / 10 * (q * q)) by nra. nra.
Qed.
Lemma gain_odd : forall r, gain_of (- r) = - gain_of r.
Proof. intros. unfold gain_of. rewrite sin_neg, cos_neg. unfold Rdiv. ring. Qed.
Lemma gain_bounds : forall r, Rabs r <= PI / 2 -> 6 / 10 * Rabs r <= Rabs (gain_of r) <= 14 / 10 * Rabs r /\ Rabs (r - gain_of r) <= 4 / 10 * Rabs r.
Proof.
  assert (Pos : forall r, 0 <= r <= PI / 2 -> 6 / 10 * Rabs r <= Rabs (gain_of r) <= 14 / 10 * Rabs r /\ Rabs (r - gain_of r) <= 4 / 10 * Rabs r).
  { intros r B. pose proof (gain_pos r B). rewrite (Rabs_pos_eq r), (Rabs_pos_eq (gain_of r)) by lra. split; [lra|]. apply Rabs_le. lra. }
  intros r B. destruct (Rle_dec 0 r) as [N|N].
  - apply Pos. rewrite Rabs_pos_eq in B by exact N. lra.
  - assert (B' : 0 <= - r <= PI / 2) by (rewrite Rabs_left in B by lra; lra). destruct (Pos (- r) B') as [H1 H2].
    rewrite gain_odd, !Rabs_Ropp in H1. rewrite gain_odd in H2. replace (- r - - gain_of r) with (- (r - gain_of r)) in H2 by ring. rewrite !Rabs_Ropp in H2. split; assumption.
Qed.
(** Up to 1.8 rad the first rounds bring the angle below a quarter turn. *)
Lemma factorials : INR (fact 0) = 1 /\ INR (fact 1) = 1 /\ INR (fact 2) = 2 /\ INR (fact 3) = 6 /\ INR (fact 4) = 24 /\ INR (fact 5) = 120 /\ INR (fact 6) = 720 /\
  INR (fact 7) = 5040 /\ INR (fact 8) = 40320 /\ INR (fact 9) = 362880 /\ INR (fact 10) = 3628800.
Proof.
  assert (S0 : forall n, INR (fact (S n)) = INR (S n) * INR (fact n)) by (intros n; rewrite <- mult_INR; reflexivity).
  assert (F0 : INR (fact 0) = 1) by reflexivity.
  pose proof (S0 0%nat) as F1. rewrite F0 in F1. pose proof (S0 1%nat) as F2. rewrite F1 in F2. pose proof (S0 2%nat) as F3. rewrite F2 in F3.
  pose proof (S0 3%nat) as F4. rewrite F3 in F4. pose proof (S0 4%nat) as F5. rewrite F4 in F5. pose proof (S0 5%nat) as F6. rewrite F5 in F6.
  pose proof (S0 6%nat) as F7. rewrite F6 in F7. pose proof (S0 7%nat) as F8. rewrite F7 in F8. pose proof (S0 8%nat) as F9. rewrite F8 in F9.
  pose proof (S0 9%nat) as F10. rewrite F9 in F10. clear S0.
  rewrite F0, F1, F2, F3, F4, F5, F6, F7, F8, F9, F10. clear. cbn [INR]. repeat split; lra.
Qed.
Lemma sin_close : forall r, 0 <= r <= 4 -> sin r <= r - r ^ 3 / 6 + r ^ 5 / 120 - r ^ 7 / 5040 + r ^ 9 / 362880.
Proof.
  intros r B. destruct (pre_sin_bound r 1 (proj1 B) (proj2 B)) as [_ H]. unfold sin_approx, sin_term in H.
  change (2 * (1 + 1))%nat with 4%nat in H. cbn [sum_f_R0] in H. change (2 * 0 + 1)%nat with 1%nat in H. change (2 * 1 + 1)%nat with 3%nat in H.
  change (2 * 2 + 1)%nat with 5%nat in H. change (2 * 3 + 1)%nat with 7%nat in H. change (2 * 4 + 1)%nat with 9%nat in H.
  destruct factorials as (F0 & F1 & F2 & F3 & F4 & F5 & F6 & F7 & F8 & F9 & F10). rewrite F1, F3, F5, F7, F9 in H. eapply Rle_trans; [exact H|]. clear. cbn [pow]. lra.
Qed.
Lemma cos_close : forall r, -2 <= r <= 2 -> 1 - r ^ 2 / 2 + r ^ 4 / 24 - r ^ 6 / 720 + r ^ 8 / 40320 - r ^ 10 / 3628800 <= cos r.
Proof.
  intros r B. destruct (pre_cos_bound r 2 (proj1 B) (proj2 B)) as [L _]. unfold cos_approx, cos_term in L.
  change (2 * 2 + 1)%nat with 5%nat in L. cbn [sum_f_R0] in L. change (2 * 0)%nat with 0%nat in L. change (2 * 1)%nat with 2%nat in L. change (2 * 2)%nat with 4%nat in L.
  change (2 * 3)%nat with 6%nat in L. change (2 * 4)%nat with 8%nat in L. change (2 * 5)%nat with 10%nat in L.
  destruct factorials as (F0 & F1 & F2 & F3 & F4 & F5 & F6 & F7 & F8 & F9 & F10). rewrite F0, F2, F4, F6, F8, F10 in L. eapply Rle_trans; [|exact L]. clear. cbn [pow]. lra.
Qed.
(** The gain grows with the angle. *)
Lemma gain_grows : forall r c, 0 <= r <= c -> c <= 18 / 10 -> gain_of r <= gain_of c.
Proof.
  intros r c B C. pose proof eps_pos as E0. assert (E1 : eps <= 1 / 1000) by (rewrite eps_val; lra).
  assert (K : forall q, 0 <= q <= 18 / 10 -> 1 / 2 < 1 + 2 * cos q + eps).
  { intros q Q. pose proof (cos_close q ltac:(lra)) as L. destruct (Rle_dec q 1) as [Q1|Q1].
    - destruct (cos_between q ltac:(lra)) as [L1 _]. assert (0 <= q * q <= 1) by nra. assert (q * q * q * q * q * q <= 1) by nra. nra.
    - assert (D : cos (18 / 10) <= cos q) by (pose proof pi_bounds; apply cos_decr_1; lra).
      pose proof (cos_close (18 / 10) ltac:(lra)) as L2. cbn [pow] in L2. lra. }
  pose proof (K r ltac:(lra)) as Kr. pose proof (K c ltac:(lra)) as Kc. unfold gain_of.
  apply Rmult_le_reg_r with ((1 + 2 * cos r + eps) * (1 + 2 * cos c + eps)); [apply Rmult_lt_0_compat; lra|].
  replace (2 * sin r / (1 + 2 * cos r + eps) * ((1 + 2 * cos r + eps) * (1 + 2 * cos c + eps))) with (2 * sin r * (1 + 2 * cos c + eps)) by (field; lra).
  replace (2 * sin c / (1 + 2 * cos c + eps) * ((1 + 2 * cos r + eps) * (1 + 2 * cos c + eps))) with (2 * sin c * (1 + 2 * cos r + eps)) by (field; lra).
  set (m := (c + r) / 2). set (d := (c - r) / 2). assert (Ec : c = m + d) by (unfold m, d; field). assert (Er : r = m - d) by (unfold m, d; field).
  assert (Sc : sin c = sin m * cos d + cos m * sin d) by (rewrite Ec; apply sin_plus). assert (Sr : sin r = sin m * cos d - cos m * sin d) by (rewrite Er; apply sin_minus).
  assert (Cc : cos c = cos m * cos d - sin m * sin d) by (rewrite Ec; apply cos_plus). assert (Cr : cos r = cos m * cos d + sin m * sin d) by (rewrite Er; apply cos_minus).
  assert (Sd : 0 <= sin d) by (pose proof pi_bounds; apply sin_ge_0; unfold d; lra).
  assert (Cd : 6 / 10 <= cos d).
  { pose proof (cos_close d ltac:(unfold d; lra)) as L. destruct (cos_between d ltac:(unfold d; lra)) as [L1 _]. assert (Bd : 0 <= d <= 9 / 10) by (unfold d; lra).
    clear - L1 Bd. assert (X : 0 <= d * d <= 81 / 100) by nra. set (q := d * d) in *. assert (1 - q / 2 + q * q / 24 - q * q * q / 720 <= cos d) by (unfold q in *; lra). assert (q * q * q <= q * q) by nra. nra. }
  assert (Cm : - (3 / 10) <= cos m).
  { assert (Bm : 0 <= m <= 18 / 10) by (unfold m; lra). pose proof (K m Bm). lra. }
  pose proof (sin2_cos2 m) as Qm. unfold Rsqr in Qm. set (sm := sin m) in *. set (cm := cos m) in *. set (sd := sin d) in *. set (cd := cos d) in *.
  rewrite Sc, Sr, Cc, Cr. clearbody sm cm sd cd.
  assert (G : 2 * (sm * cd + cm * sd) * (1 + 2 * (cm * cd + sm * sd) + eps) - 2 * (sm * cd - cm * sd) * (1 + 2 * (cm * cd - sm * sd) + eps) =
    4 * sd * ((1 + eps) * cm + 2 * cd * (sm * sm + cm * cm))) by ring.
  rewrite Qm in G. assert (0 <= sd * ((1 + eps) * cm + 2 * cd * 1)); [apply Rmult_le_pos; [lra|]|].
  - assert (0 <= (1 + eps) * (cm + 3 / 10)) by (apply Rmult_le_pos; lra). lra.
  - lra.
Qed.
Lemma gain_at : forall c g, 0 <= c <= 18 / 10 -> 0 <= g ->
  2 * (c - c ^ 3 / 6 + c ^ 5 / 120 - c ^ 7 / 5040 + c ^ 9 / 362880) <= g * (1 + 2 * (1 - c ^ 2 / 2 + c ^ 4 / 24 - c ^ 6 / 720 + c ^ 8 / 40320 - c ^ 10 / 3628800)) ->
  0 < 1 + 2 * (1 - c ^ 2 / 2 + c ^ 4 / 24 - c ^ 6 / 720 + c ^ 8 / 40320 - c ^ 10 / 3628800) -> gain_of c <= g.
Proof.
  intros c g B G H K. pose proof (sin_close c ltac:(lra)) as S. pose proof (cos_close c ltac:(lra)) as C. pose proof eps_pos as E0.
  set (s := c - c ^ 3 / 6 + c ^ 5 / 120 - c ^ 7 / 5040 + c ^ 9 / 362880) in *.
  set (k := 1 - c ^ 2 / 2 + c ^ 4 / 24 - c ^ 6 / 720 + c ^ 8 / 40320 - c ^ 10 / 3628800) in *. clearbody s k.
  apply Rmult_le_reg_r with (1 + 2 * cos c + eps); [lra|]. replace (gain_of c * (1 + 2 * cos c + eps)) with (2 * sin c) by (unfold gain_of; field; lra). nra.
Qed.
Lemma gains : gain_of (18 / 10) <= 358 / 100 /\ gain_of (179 / 100) <= 346 / 100 /\ gain_of (176 / 100) <= 32 / 10 /\ gain_of (168 / 100) <= 26 / 10 /\ gain_of (17 / 10) <= 27 / 10 /\ gain_of (16 / 10) <= 22 / 10.
Proof. repeat split; apply gain_at; try lra; cbn [pow]; lra. Qed.
Lemma gain_large : forall r, 157 / 100 <= r <= 18 / 10 -> 9 / 10 <= gain_of r.
Proof.
  intros r B. pose proof pi_bounds as P. assert (H : gain_of (PI / 2) <= gain_of r \/ r < PI / 2) by (destruct (Rle_dec (PI / 2) r); [left; apply gain_grows; lra|right; lra]).
  destruct H as [H|H]; [pose proof (gain_pos (PI / 2) ltac:(lra))|pose proof (gain_pos r ltac:(lra))]; nra.
Qed.
Lemma first_rounds : forall r, 157 / 100 <= r <= 18 / 10 ->
  (r <= 17 / 10 -> Rabs (r - gain_of r) <= 157 / 100) /\ (r <= 179 / 100 -> Rabs (r - gain_of r) <= 17 / 10) /\ Rabs (r - gain_of r) <= 179 / 100.
Proof.
  intros r B. pose proof (gain_large r B) as L. destruct gains as (G1 & G2 & G3 & G4 & G5 & G6).
  assert (D1 : forall c, r <= c -> c <= 18 / 10 -> gain_of r <= gain_of c) by (intros; apply gain_grows; lra).
  assert (A : forall k, r - gain_of r <= k -> - k <= r - gain_of r -> Rabs (r - gain_of r) <= k) by (intros; apply Rabs_le; lra).
  split; [|split].
  - intros H. pose proof (D1 (17 / 10) H ltac:(lra)). apply A; lra.
  - intros H. apply A; [lra|]. destruct (Rle_dec r (16 / 10)) as [X|X]; [pose proof (D1 (16 / 10) X ltac:(lra)); lra|].
    destruct (Rle_dec r (176 / 100)) as [Y|Y]; [pose proof (D1 (176 / 100) Y ltac:(lra)); lra|]. pose proof (D1 (179 / 100) H ltac:(lra)). lra.
  - apply A; [lra|]. destruct (Rle_dec r (168 / 100)) as [X|X]; [pose proof (D1 (168 / 100) X ltac:(lra)); lra|].
    destruct (Rle_dec r (179 / 100)) as [Y|Y]; [pose proof (D1 (179 / 100) Y ltac:(lra)); lra|]. pose proof (D1 (18 / 10) ltac:(lra) ltac:(lra)). lra.
Qed.
Section Loop.
  Variables x y z : R.
  Hypothesis U : x * x + y * y + z * z = 1.
  (** What the loop leaves. *)
  Lemma extract_turn : forall n th phi, Rabs (th - phi) <= PI / 2 -> 14 / 10 * ((4 / 10) ^ n * Rabs (th - phi)) <= eps ->
    exists phi', extract real cos sin n (columns (turn x y z th)) (columns (turn x y z phi)) = columns (turn x y z phi') /\ Rabs (th - phi') <= 2 * eps.
  Proof.
    pose proof eps_pos as E0. induction n as [|n IH]; intros th phi B H.
    - exists phi. split; [reflexivity|]. cbn [pow] in H. lra.
    - cbn [extract]. rewrite (step_turn x y z U th phi) by (pose proof (cos_nonneg _ B); lra). destruct (gain_bounds _ B) as [G1 G2]. destruct (Rlt_dec eps (Rabs (gain_of (th - phi)))) as [L|L].
      + assert (E : th - (phi + gain_of (th - phi)) = th - phi - gain_of (th - phi)) by ring. pose proof (Rabs_pos (th - phi)) as A.
        apply IH; rewrite E; [lra|]. cbn [pow] in H.
        assert (Q : (4 / 10) ^ n * Rabs (th - phi - gain_of (th - phi)) <= (4 / 10) ^ n * (4 / 10 * Rabs (th - phi))) by (apply Rmult_le_compat_l; [apply pow_le; lra|exact G2]).
        lra.
      + exists phi. split; [reflexivity|]. lra.
  Qed.
  (** More rounds than needed change nothing. *)
  Lemma extract_more : forall n k th phi, Rabs (th - phi) <= PI / 2 -> 14 / 10 * ((4 / 10) ^ n * Rabs (th - phi)) <= eps ->
    exists phi', extract real cos sin (k + n) (columns (turn x y z th)) (columns (turn x y z phi)) = columns (turn x y z phi') /\ Rabs (th - phi') <= 2 * eps.
  Proof.
    intros n k th phi B H. apply extract_turn; [exact B|]. pose proof (Rabs_pos (th - phi)) as A. eapply Rle_trans; [|exact H].
    apply Rmult_le_compat_l; [lra|]. apply Rmult_le_compat_r; [exact A|]. rewrite pow_add.
    assert (P1 : 0 <= (4 / 10) ^ n) by (apply pow_le; lra). assert (P2 : 0 <= (4 / 10) ^ k <= 1).
    { split; [apply pow_le; lra|]. rewrite <- (pow1 k). apply pow_incr. lra. }
    nra.
  Qed.
  Lemma rounds_enough : forall r, Rabs r <= 158 / 100 -> 14 / 10 * ((4 / 10) ^ 45 * Rabs r) <= eps.
  Proof.
    intros th B2. pose proof (Rabs_pos th).
    assert (Q : (4 / 10) ^ 45 <= / 4503599627370496 * (/ 100)); [|assert (0 <= (4 / 10) ^ 45) by (apply pow_le; lra); rewrite eps_val; nra].
    replace 45%nat with (5 * 9)%nat by reflexivity. rewrite pow_mult.
    assert (A1 : (4 / 10) ^ 5 = 1024 / 100000) by (cbn [pow]; lra). rewrite A1. replace ((1024 / 100000) ^ 9) with ((1024 / 100000) ^ 3 * (1024 / 100000) ^ 3 * (1024 / 100000) ^ 3) by (cbn [pow]; ring).
    assert (A3 : 0 <= (1024 / 100000) ^ 3 <= 1074 / 1000000000) by (cbn [pow]; lra). set (b := (1024 / 100000) ^ 3) in *. clearbody b.
    assert (A6 : 0 <= b * b <= 11535 / 10000000000000000) by nra. set (c := b * b) in *. clearbody c.
    assert (A9 : c * b <= 124 / 100000000000000000000) by nra. lra.
  Qed.
  Lemma quarter_turn : forall k th phi, Rabs (th - phi) <= PI / 2 ->
    exists phi', extract real cos sin (k + 45) (columns (turn x y z th)) (columns (turn x y z phi)) = columns (turn x y z phi') /\ Rabs (th - phi') <= 2 * eps.
  Proof. intros k th phi B. apply extract_more; [exact B|]. pose proof pi_bounds. apply rounds_enough. lra. Qed.
  (** One of the first rounds. *)
  Lemma early_round : forall n th phi bound, Rabs (th - phi) <= bound -> bound <= 18 / 10 ->
    Rabs (th - phi) <= PI / 2 \/ 157 / 100 <= Rabs (th - phi) /\
    extract real cos sin (S n) (columns (turn x y z th)) (columns (turn x y z phi)) =
      extract real cos sin n (columns (turn x y z th)) (columns (turn x y z (phi + gain_of (th - phi)))) /\
    Rabs (th - (phi + gain_of (th - phi))) = Rabs (Rabs (th - phi) - gain_of (Rabs (th - phi))).
  Proof.
    intros n th phi b B C. destruct (Rle_dec (Rabs (th - phi)) (PI / 2)) as [L|L]; [left; exact L|right]. pose proof pi_bounds as P.
    split; [lra|]. set (r := th - phi) in *. replace (th - (phi + gain_of r)) with (r - gain_of r) by (unfold r; ring).
    assert (G : Rabs (gain_of r) = Rabs (gain_of (Rabs r)) /\ Rabs (r - gain_of r) = Rabs (Rabs r - gain_of (Rabs r)) /\ cos r = cos (Rabs r)).
    { destruct (Rle_dec 0 r) as [N|N]; [rewrite (Rabs_pos_eq r N); auto|]. rewrite (Rabs_left r) by lra. rewrite gain_odd, cos_neg, Rabs_Ropp.
      split; [reflexivity|]. split; [|reflexivity]. replace (- r - - gain_of r) with (- (r - gain_of r)) by ring. rewrite Rabs_Ropp. reflexivity. }
    destruct G as (G1 & G2 & G3). pose proof (gain_large (Rabs r) ltac:(lra)) as Lg. pose proof eps_pos. assert (E1 : eps <= 1 / 1000) by (rewrite eps_val; lra).
    assert (C0 : 0 <= 1 + 2 * cos (Rabs r)).
    { pose proof (cos_close (18 / 10) ltac:(lra)) as L2. cbn [pow] in L2. assert (cos (18 / 10) <= cos (Rabs r)) by (apply cos_decr_1; lra). lra. }
    split; [|exact G2]. cbn [extract]. rewrite (step_turn x y z U) by (fold r; rewrite G3; exact C0). fold r.
    rewrite G1, (Rabs_pos_eq (gain_of (Rabs r))) by lra. destruct (Rlt_dec eps (gain_of (Rabs r))) as [_|N]; [reflexivity|lra].
  Qed.
  Lemma extract_wide : forall k th phi, Rabs (th - phi) <= 18 / 10 ->
    exists phi', extract real cos sin (S (S (S (k + 45)))) (columns (turn x y z th)) (columns (turn x y z phi)) = columns (turn x y z phi') /\ Rabs (th - phi') <= 2 * eps.
  Proof.
    intros k th phi B. pose proof pi_bounds as P.
    assert (Q : forall k phi, Rabs (th - phi) <= 17 / 10 ->
      exists phi', extract real cos sin (S (k + 45)) (columns (turn x y z th)) (columns (turn x y z phi)) = columns (turn x y z phi') /\ Rabs (th - phi') <= 2 * eps).
    { clear k phi B. intros k phi B. destruct (early_round (k + 45) th phi _ B ltac:(lra)) as [L|(L & E & A)]; [exact (quarter_turn (S k) th phi L)|].
      rewrite E. apply quarter_turn. rewrite A. destruct (first_rounds (Rabs (th - phi)) ltac:(lra)) as (H & _). specialize (H B). lra. }
    assert (Q2 : forall k phi, Rabs (th - phi) <= 179 / 100 ->
      exists phi', extract real cos sin (S (S (k + 45))) (columns (turn x y z th)) (columns (turn x y z phi)) = columns (turn x y z phi') /\ Rabs (th - phi') <= 2 * eps).
    { clear k phi B. intros k phi B. destruct (early_round (S (k + 45)) th phi _ B ltac:(lra)) as [L|(L & E & A)]; [exact (quarter_turn (S (S k)) th phi L)|].
      rewrite E. apply Q. rewrite A. destruct (first_rounds (Rabs (th - phi)) ltac:(lra)) as (_ & H & _). exact (H B). }
    destruct (early_round (S (S (k + 45))) th phi _ B ltac:(lra)) as [L|(L & E & A)]; [exact (quarter_turn (S (S (S k))) th phi L)|].
    rewrite E. apply Q2. rewrite A. destruct (first_rounds (Rabs (th - phi)) ltac:(lra)) as (_ & _ & H). exact H.
  Qed.
  Lemma from_matrix_turn : forall th, Rabs th <= 18 / 10 ->
    exists th', frommat (columns (turn x y z th)) = columns (turn x y z th') /\ Rabs (th - th') <= 2 * eps.
  Proof.
    intros th B. unfold from_matrix. replace (N.to_nat (2 ^ 64 - 1)) with (S (S (S (N.to_nat (2 ^ 64 - 1 - 48) + 45)))).
    2: { transitivity (N.to_nat ((2 ^ 64 - 1 - 48) + 48)); [rewrite Nnat.N2Nat.inj_add; change (N.to_nat 48) with 48%nat; lia|f_equal]. }
    rewrite r_one_columns, <- (turn_0 x y z). apply extract_wide. rewrite Rminus_0_r. exact B.
  Qed.
  (** An angle for which the iteration goes to and fro for ever. *)
  Lemma to_and_fro : forall th, 0 < th < 2 -> gain_of th = 2 * th -> 0 <= 1 + 2 * cos th -> 1 <= th -> forall n,
    extract real cos sin (n + n) (columns (turn x y z th)) (columns (turn x y z 0)) = columns (turn x y z 0) /\
    extract real cos sin (S (n + n)) (columns (turn x y z th)) (columns (turn x y z 0)) = columns (turn x y z (2 * th)).
  Proof.
    intros th B G C H. pose proof eps_pos. assert (E1 : eps <= 1 / 1000) by (rewrite eps_val; lra).
    assert (F : forall n, extract real cos sin (S n) (columns (turn x y z th)) (columns (turn x y z 0)) = extract real cos sin n (columns (turn x y z th)) (columns (turn x y z (2 * th)))).
    { intros n. cbn [extract]. rewrite (step_turn x y z U) by (rewrite Rminus_0_r; exact C). rewrite Rminus_0_r, G, Rplus_0_l. rewrite Rabs_pos_eq by lra.
      destruct (Rlt_dec eps (2 * th)); [reflexivity|lra]. }
    assert (K : forall n, extract real cos sin (S n) (columns (turn x y z th)) (columns (turn x y z (2 * th))) = extract real cos sin n (columns (turn x y z th)) (columns (turn x y z 0))).
    { intros n. cbn [extract]. replace (step (columns (turn x y z th)) (columns (turn x y z (2 * th)))) with (Some (columns (turn x y z 0))); [reflexivity|].
      rewrite (step_turn x y z U); replace (th - 2 * th) with (- th) by ring; [|rewrite cos_neg; exact C]. rewrite gain_odd, G, Rabs_Ropp, Rabs_pos_eq by lra.
      destruct (Rlt_dec eps (2 * th)); [|lra]. f_equal. f_equal. f_equal. ring. }
    induction n as [|n [I1 I2]].
    - split; [reflexivity|]. rewrite F. reflexivity.
    - replace (S n + S n)%nat with (S (S (n + n))) by lia. split; [rewrite F, K; exact I1|]. rewrite F, K. exact I2.
  Qed.
End Loop.
Lemma cycle_angle : exists th, 18 / 10 <= th <= 182 / 100 /\ gain_of th = 2 * th /\ 0 <= 1 + 2 * cos th.
Proof.
  set (h := fun t => 2 * sin t - 2 * t * (1 + 2 * cos t + eps)). pose proof eps_pos as E0. assert (E1 : eps <= 1 / 10000000) by (rewrite eps_val; lra).
  assert (Cn : continuity h) by (unfold h; reg).
  assert (H1 : h (18 / 10) < 0).
  { unfold h. pose proof (sin_close (18 / 10) ltac:(lra)) as S. pose proof (cos_close (18 / 10) ltac:(lra)) as C. cbn [pow] in S, C. lra. }
  assert (H2 : 0 < h (182 / 100)).
  { unfold h. destruct (pre_sin_bound (182 / 100) 1 ltac:(lra) ltac:(lra)) as [S _]. destruct (pre_cos_bound (182 / 100) 1 ltac:(lra) ltac:(lra)) as [_ C].
    unfold sin_approx, sin_term in S. unfold cos_approx, cos_term in C.
    change (2 * 1 + 1)%nat with 3%nat in S. cbn [sum_f_R0] in S. change (2 * 0 + 1)%nat with 1%nat in S. change (2 * 1 + 1)%nat with 3%nat in S. change (2 * 2 + 1)%nat with 5%nat in S. change (2 * 3 + 1)%nat with 7%nat in S.
    change (2 * (1 + 1))%nat with 4%nat in C. cbn [sum_f_R0] in C. change (2 * 0)%nat with 0%nat in C. change (2 * 1)%nat with 2%nat in C. change (2 * 2)%nat with 4%nat in C. change (2 * 3)%nat with 6%nat in C. change (2 * 4)%nat with 8%nat in C.
    destruct factorials as (F0 & F1 & F2 & F3 & F4 & F5 & F6 & F7 & F8 & F9 & F10). rewrite F1, F3, F5, F7 in S. rewrite F0, F2, F4, F6, F8 in C.
    cbn [pow] in S, C. lra. }
  destruct (IVT h (18 / 10) (182 / 100) Cn ltac:(lra) H1 H2) as (t & B & Z). exists t. split; [lra|].
  assert (C : 0 <= 1 + 2 * cos t).
  { pose proof pi_bounds. pose proof (cos_close (182 / 100) ltac:(lra)) as L. cbn [pow] in L. assert (cos (182 / 100) <= cos t) by (apply cos_decr_1; lra). lra. }
  split; [|exact C]. unfold h in Z. unfold gain_of. apply Rmult_eq_reg_r with (1 + 2 * cos t + eps); [|lra].
  replace (2 * sin t / (1 + 2 * cos t + eps) * (1 + 2 * cos t + eps)) with (2 * sin t) by (field; lra). lra.
Qed.
Lemma from_matrix_cycle : exists th, 18 / 10 <= th <= 182 / 100 /\ forall x y z, x * x + y * y + z * z = 1 ->
  frommat (columns (turn x y z th)) = columns (turn x y z (2 * th)).
Proof.
  destruct cycle_angle as (th & B & G & C). exists th. split; [exact B|]. intros x y z U. unfold from_matrix.
  replace (N.to_nat (2 ^ 64 - 1)) with (S (N.to_nat (2 ^ 63 - 1) + N.to_nat (2 ^ 63 - 1))).
  2: { transitivity (N.to_nat (1 + (2 ^ 63 - 1) + (2 ^ 63 - 1))); [rewrite !Nnat.N2Nat.inj_add; reflexivity|f_equal]. }
  rewrite r_one_columns, <- (turn_0 x y z). apply (to_and_fro x y z U th ltac:(lra) G C ltac:(lra)).
Qed.
