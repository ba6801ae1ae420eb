(** C73: the impedance controllers of two example programs. *)
From Coq Require Import List ZArith NArith Bool Reals Lra Lia Psatz.
From Verif Require Import NumOps NumReal RateModel ConvertModel PoseReal Properties_Pose Properties_Rotation
  IsometryModel IsometryReal Properties_Isometry ImpedanceModel.
Import ListNotations.
Open Scope R_scope.

(** * Specification *)
(** The two halves of a velocity or wrench. *)
Definition front (l : list R) : triple := (nth 0 l 0, nth 1 l 0, nth 2 l 0).
Definition back (l : list R) : triple := (nth 3 l 0, nth 4 l 0, nth 5 l 0).
Definition vector_of (v : vec real) : triple := (vx _ v, vy _ v, vz _ v).
Definition size2 (v : triple) : R := let '(x, y, z) := v in x * x + y * y + z * z.
Definition combine3 (a : R) (u : triple) (b : R) (v : triple) : triple :=
  let '(x, y, z) := u in let '(x', y', z') := v in (a * x + b * x', a * y + b * y', a * z + b * z').
(** The Jacobian array has seven columns of six elements: the velocity of the end effector. *)
Definition velocity_at (jacobian dq : list R) (i : nat) : R :=
  fold_right Rplus 0 (map (fun k => nth k dq 0 * nth (6 * k + i) jacobian 0) (seq 0 7)).
Definition velocity_of (jacobian dq : list R) : list R := map (velocity_at jacobian dq) (seq 0 6).
(** The power of joint torques. *)
Definition power (dq tau : list R) : R := fold_right Rplus 0 (map (fun k => nth k dq 0 * nth k tau 0) (seq 0 7)).
(** Energy of the springs; [c] is the product of the two unit quaternions, the cosine of half the angle between them. *)
Definition spring_energy (kt kr : R) (p p_d : triple) (c : R) : R :=
  kt / 2 * size2 (combine3 1 p (-1) p_d) + 2 * kr * (1 - Rabs c).

(** * Proofs *)
Lemma seven : forall A (l : list A), length l = 7%nat -> exists a b c d e f g, l = [a; b; c; d; e; f; g].
Proof. intros A l H. do 7 (destruct l as [|? l]; [discriminate|]). destruct l; [|discriminate]. repeat eexists. Qed.
Lemma six : forall A (l : list A), length l = 6%nat -> exists a b c d e f, l = [a; b; c; d; e; f].
Proof. intros A l H. do 6 (destruct l as [|? l]; [discriminate|]). destruct l; [|discriminate]. repeat eexists. Qed.
Lemma forty_two : forall (l : list R), length l = 42%nat -> exists c0 c1 c2 c3 c4 c5 c6,
  l = c0 ++ c1 ++ c2 ++ c3 ++ c4 ++ c5 ++ c6 /\ Forall (fun c => length c = 6%nat) [c0; c1; c2; c3; c4; c5; c6].
Proof.
  intros l H. do 42 (destruct l as [|? l]; [discriminate|]). destruct l; [|discriminate].
  match goal with |- context [[?a0;?a1;?a2;?a3;?a4;?a5;?b0;?b1;?b2;?b3;?b4;?b5;?c0;?c1;?c2;?c3;?c4;?c5;?d0;?d1;?d2;?d3;?d4;?d5;?e0;?e1;?e2;?e3;?e4;?e5;?f0;?f1;?f2;?f3;?f4;?f5;?g0;?g1;?g2;?g3;?g4;?g5]] =>
    exists [a0;a1;a2;a3;a4;a5], [b0;b1;b2;b3;b4;b5], [c0;c1;c2;c3;c4;c5], [d0;d1;d2;d3;d4;d5], [e0;e1;e2;e3;e4;e5], [f0;f1;f2;f3;f4;f5], [g0;g1;g2;g3;g4;g5] end.
  split; [reflexivity|]. repeat constructor.
Qed.
Ltac columns_out J HJ :=
  let c0 := fresh "c" in let c1 := fresh "c" in let c2 := fresh "c" in let c3 := fresh "c" in let c4 := fresh "c" in let c5 := fresh "c" in let c6 := fresh "c" in
  destruct (forty_two J HJ) as (c0 & c1 & c2 & c3 & c4 & c5 & c6 & -> & HF);
  repeat match goal with H : Forall _ (_ :: _) |- _ => inversion H; clear H; subst end;
  repeat match goal with H : length ?c = 6%nat |- _ => destruct (six _ _ H) as (? & ? & ? & ? & ? & ? & ->); clear H end.
Lemma mulv_velocity : forall J dq, length J = 42%nat -> length dq = 7%nat -> mulv 6 (columns6 J) dq = velocity_of J dq.
Proof.
  intros J dq HJ Hq. destruct (seven _ _ Hq) as (? & ? & ? & ? & ? & ? & ? & ->). columns_out J HJ.
  unfold columns6, velocity_of, velocity_at. cbn [seq map firstn skipn Nat.mul Nat.add app mulv addl scalel map2 repeat fold_right nth].
  repeat (f_equal; try ring).
Qed.
Lemma mult_power : forall J f dq, length J = 42%nat -> length f = 6%nat -> length dq = 7%nat ->
  power dq (mult (columns6 J) f) = dotl (velocity_of J dq) f.
Proof.
  intros J f dq HJ Hf Hq. destruct (seven _ _ Hq) as (? & ? & ? & ? & ? & ? & ? & ->). destruct (six _ _ Hf) as (? & ? & ? & ? & ? & ? & ->). columns_out J HJ.
  unfold columns6, velocity_of, velocity_at, power, mult. cbn [seq map firstn skipn Nat.mul Nat.add app dotl fold_right nth]. ring.
Qed.

(** Every array gives a unit quaternion, also one which is not a pose. *)
Lemma extract_proper : forall n m a, proper a -> exists b, extract real cos sin n m (columns a) = columns b /\ proper b.
Proof.
  induction n as [|n IH]; intros m a P; [exists a; split; [reflexivity|exact P]|]. cbn [extract].
  destruct (columns_onto m) as [mm ->]. rewrite step_columns. cbv zeta. set (k := Rabs _ + eps).
  match goal with |- context [v_norm2 real ?w] => set (w0 := w) end.
  unfold f_gt. cbn [f_lt real]. destruct (Rlt_dec (eps * eps) (v_norm2 real w0)) as [L|]; [|exists a; split; [reflexivity|exact P]].
  assert (L0 : 0 < v_norm2 real w0) by (pose proof eps_pos; nra). clearbody w0. destruct w0 as [x y z].
  unfold v_norm2, v_dot in L0. cbn [f_add f_mul real vx vy vz] in L0. unfold v_normalize, v_unscale, v_map. cbn [f_div real vx vy vz].
  set (N := v_norm real (Vec real x y z)).
  assert (EN : N = sqrt (x * x + y * y + z * z) :> R) by reflexivity. assert (HN : (N : R) * N = x * x + y * y + z * z) by (rewrite EN; apply sqrt_sqrt; lra).
  assert (Np : 0 < (N : R)) by (rewrite EN; apply sqrt_lt_R0; exact L0).
  assert (U : x / N * (x / N) + y / N * (y / N) + z / N * (z / N) = 1).
  { transitivity ((x * x + y * y + z * z) / ((N : R) * N)); [field; lra|]. rewrite <- HN. field. lra. }
  rewrite (axis_angle _ _ _ U), r_mul_columns. apply IH. apply proper_mul; [|exact P]. apply turn_proper. exact U.
Qed.
Lemma one_proper : proper mat_one.
Proof. unfold proper, mdot, mdet, mat_one. entries. repeat split; lra. Qed.
Theorem C72_unit : forall a, unit_quaternion (fst (array_to_isometry real cos sin a)).
Proof.
  intros a. unfold array_to_isometry, from_matrix. cbn [fst]. rewrite r_one_columns.
  destruct (extract_proper (N.to_nat (2 ^ 64 - 1)) (rotation_columns real a) _ one_proper) as (b & E & P). rewrite E.
  exact (proj1 (quat_turns b (0, 0, 0) P)).
Qed.
Print Assumptions C72_unit.

(** * The wrench *)
Definition vec_part (q : quat real) : triple := (qi _ q, qj _ q, qk _ q).
Lemma unit_dot : forall q, unit_quaternion q -> q_dot q q = 1.
Proof. intros [w i j k] U. unfold unit_quaternion, q_dot in *. cbn [qw qi qj qk] in *. lra. Qed.
Lemma normalize_unit : forall q, q_dot q q = 1 -> q_normalize q = q.
Proof. intros [w i j k] U. unfold q_normalize. rewrite U, sqrt_1. cbn [qw qi qj qk]. f_equal; field. Qed.
Lemma neg_dot : forall q, q_dot (q_neg q) (q_neg q) = q_dot q q.
Proof. intros [w i j k]. unfold q_dot, q_neg. cbn [qw qi qj qk]. ring. Qed.
(** Turning a vector by the quaternion of the pose: from the axes of the end effector to those of the base. *)
Lemma error_vector : forall q d, unit_quaternion q -> let e := q_mul (q_conj q) d in
  vector_of (r_apply (rot_of real q) (Vec real (qi _ e) (qj _ e) (qk _ e))) = vec_part (q_mul d (q_conj q)).
Proof.
  intros [w i j k] [a b c e0] U. unfold unit_quaternion in U. cbn [qw qi qj qk] in U.
  unfold vector_of, vec_part, r_apply, rot_of, q_mul, q_conj. cbn [qw qi qj qk vx vy vz f_add f_sub f_mul f_int real].
  set (u := w * w + i * i + j * j + k * k) in *.
  f_equal; [f_equal|].
  - transitivity (u * (- a * i + b * w - c * k + e0 * j)); [unfold u; ring|rewrite U; ring].
  - transitivity (u * (- a * j + b * k + c * w - e0 * i)); [unfold u; ring|rewrite U; ring].
  - transitivity (u * (- a * k - b * j + c * i + e0 * w)); [unfold u; ring|rewrite U; ring].
Qed.
Definition sign_of (c : R) : R := if Rlt_dec c 0 then -1 else 1.
Lemma orientation_error_is : forall q d, unit_quaternion q ->
  let '(x, y, z) := vec_part (q_mul d (q_conj q)) in let s := sign_of (q_dot d q) in orientation_error q d = [- (s * x); - (s * y); - (s * z)].
Proof.
  intros q d U. destruct (vec_part (q_mul d (q_conj q))) as [[x y] z] eqn:E. cbv zeta. unfold orientation_error, sign_of.
  pose proof (unit_dot q U) as Q. destruct (Rlt_dec (q_dot d q) 0) as [L|L].
  - rewrite normalize_unit by (rewrite neg_dot; exact Q).
    pose proof (error_vector q d U) as V. cbv zeta in V. rewrite E in V. unfold vector_of in V. destruct q as [w i j k], d as [a b c e0].
    unfold q_mul, q_conj, q_neg, r_apply, rot_of in *. cbn [qw qi qj qk vx vy vz f_add f_sub f_mul f_int real] in *.
    injection V as V1 V2 V3. f_equal; [|f_equal; [|f_equal]]; [rewrite <- V1|rewrite <- V2|rewrite <- V3]; ring.
  - rewrite normalize_unit by exact Q. pose proof (error_vector q d U) as V. cbv zeta in V. rewrite E in V. cbv zeta. set (v := r_apply (rot_of real q) _) in *. clearbody v. destruct v as [r1 r2 r3].
    unfold vector_of in V. cbn [vx vy vz] in *. injection V as -> -> ->. f_equal; [|f_equal; [|f_equal]]; ring.
Qed.
Lemma wrench_is : forall kt kr q p d p_d v1 v2 v3 w1 w2 w3, unit_quaternion q ->
  let '(x, y, z) := vec_part (q_mul d (q_conj q)) in let s := sign_of (q_dot d q) in
  task_wrench kt kr (q, p) (d, p_d) [v1; v2; v3; w1; w2; w3] =
  [- kt * (vx _ p - vx _ p_d) - 2 * sqrt kt * v1; - kt * (vy _ p - vy _ p_d) - 2 * sqrt kt * v2; - kt * (vz _ p - vz _ p_d) - 2 * sqrt kt * v3;
   kr * (s * x) - 2 * sqrt kr * w1; kr * (s * y) - 2 * sqrt kr * w2; kr * (s * z) - 2 * sqrt kr * w3].
Proof.
  intros. pose proof (orientation_error_is q d H) as O. destruct (vec_part (q_mul d (q_conj q))) as [[x y] z]. cbv zeta in *.
  unfold task_wrench. cbn [fst snd]. rewrite O. unfold position_error, stiffness, damping, diagonal, apply_diagonal, subl. cbn [app map2 map].
  repeat (f_equal; try ring).
Qed.
(** A spring and a damper which act on the end effector: the force pulls it to the desired position; the moment turns it
    the shorter way to the desired orientation, which is [t] about the axis [n] away; the damping is 2 sqrt(k). *)
Theorem C73_wrench : forall kt kr q p d p_d n t v, length v = 6%nat -> unit_quaternion q -> unit_axis n -> 0 <= t < PI ->
  let '(n1, n2, n3) := n in
  (let h := hamilton (cos (t / 2), sin (t / 2) * n1, sin (t / 2) * n2, sin (t / 2) * n3) (components q) in
   components d = h \/ components (q_neg d) = h) ->
  length (task_wrench kt kr (q, p) (d, p_d) v) = 6%nat /\
  front (task_wrench kt kr (q, p) (d, p_d) v) = combine3 (- kt) (combine3 1 (vector_of p) (-1) (vector_of p_d)) (- (2 * sqrt kt)) (front v) /\
  back (task_wrench kt kr (q, p) (d, p_d) v) = combine3 (kr * sin (t / 2)) n (- (2 * sqrt kr)) (back v).
Proof.
  intros kt kr q p d p_d [[n1 n2] n3] t v Lv U An Bt H. destruct (six _ _ Lv) as (v1 & v2 & v3 & w1 & w2 & w3 & ->).
  pose proof (wrench_is kt kr q p d p_d v1 v2 v3 w1 w2 w3 U) as W.
  assert (C : 0 < cos (t / 2)) by (apply cos_gt_0; lra). set (c := cos (t / 2)) in *. set (s := sin (t / 2)) in *. clearbody c s.
  assert (E : exists x y z, vec_part (q_mul d (q_conj q)) = (x, y, z) /\ sign_of (q_dot d q) * x = s * n1 /\ sign_of (q_dot d q) * y = s * n2 /\ sign_of (q_dot d q) * z = s * n3).
  { destruct q as [w i j k], d as [a b e f]. unfold unit_quaternion in U. cbn [qw qi qj qk] in U. unfold components, hamilton, q_neg in H. cbn [qw qi qj qk] in H.
    unfold vec_part, q_mul, q_conj, q_dot. cbn [qw qi qj qk]. do 3 eexists. split; [reflexivity|].
    set (u := w * w + i * i + j * j + k * k) in *.
    assert (D : forall r, r * u = r) by (intros; rewrite U; ring).
    unfold sign_of. destruct H as [H|H]; injection H as Ha Hb He Hf.
    - subst a b e f. match goal with |- context [Rlt_dec ?x 0] => assert (X : x = c) by (transitivity (c * u); [unfold u; ring|apply D]); rewrite X end.
      destruct (Rlt_dec c 0); [lra|]. repeat split; [transitivity (s * n1 * u)|transitivity (s * n2 * u)|transitivity (s * n3 * u)]; try apply D; unfold u; ring.
    - assert (Ea : a = - (c * w - s * n1 * i - s * n2 * j - s * n3 * k)) by lra. assert (Eb : b = - (c * i + s * n1 * w + s * n2 * k - s * n3 * j)) by lra.
      assert (Ee : e = - (c * j - s * n1 * k + s * n2 * w + s * n3 * i)) by lra. assert (Ef : f = - (c * k + s * n1 * j - s * n2 * i + s * n3 * w)) by lra.
      clear Ha Hb He Hf. subst a b e f. match goal with |- context [Rlt_dec ?x 0] => assert (X : x = - c) by (transitivity (- c * u); [unfold u; ring|apply D]); rewrite X end.
      destruct (Rlt_dec (- c) 0); [|lra]. repeat split; [transitivity (s * n1 * u)|transitivity (s * n2 * u)|transitivity (s * n3 * u)]; try apply D; unfold u; ring. }
  destruct E as (x & y & z & E & E1 & E2 & E3). rewrite E in W. cbv zeta in W. rewrite W, E1, E2, E3.
  split; [reflexivity|]. unfold front, back, combine3, vector_of. cbn [nth]. split; (f_equal; [f_equal|]); ring.
Qed.
Print Assumptions C73_wrench.
(** The quaternion of an axis and half the angle turns by the angle. *)
Theorem C73_half_angle : forall n1 n2 n3 t v, unit_axis (n1, n2, n3) ->
  quaternion_turns (Quat real (cos (t / 2)) (sin (t / 2) * n1) (sin (t / 2) * n2) (sin (t / 2) * n3)) v (turned_about (n1, n2, n3) t v).
Proof.
  intros n1 n2 n3 t [[x y] z] U. cbn [unit_axis] in U. unfold quaternion_turns, turned_about, components, conjugate, hamilton. cbn [qw qi qj qk].
  assert (C2 : cos t = cos (t / 2) * cos (t / 2) - sin (t / 2) * sin (t / 2)) by (rewrite <- cos_plus; f_equal; lra).
  assert (S2 : sin t = 2 * sin (t / 2) * cos (t / 2)) by (replace t with (2 * (t / 2)) at 1 by lra; apply sin_2a).
  pose proof (sin2_cos2 (t / 2)) as Q. unfold Rsqr in Q. rewrite C2, S2. set (c := cos (t / 2)) in *. set (s := sin (t / 2)) in *. clearbody c s. clear C2 S2.
  assert (One : 1 - (c * c - s * s) = 2 * (s * s)) by lra.
  assert (G : forall r, r * (n1 * n1 + n2 * n2 + n3 * n3) = r) by (intros; rewrite U; ring).
  rewrite One. f_equal; [f_equal; [f_equal|]|].
  - ring.
  - transitivity (x * (c * c - s * s * (n1 * n1 + n2 * n2 + n3 * n3)) + (n2 * z - n3 * y) * (2 * s * c) + n1 * ((n1 * x + n2 * y + n3 * z) * (2 * (s * s)))); [ring|rewrite G; ring].
  - transitivity (y * (c * c - s * s * (n1 * n1 + n2 * n2 + n3 * n3)) + (n3 * x - n1 * z) * (2 * s * c) + n2 * ((n1 * x + n2 * y + n3 * z) * (2 * (s * s)))); [ring|rewrite G; ring].
  - transitivity (z * (c * c - s * s * (n1 * n1 + n2 * n2 + n3 * n3)) + (n1 * y - n2 * x) * (2 * s * c) + n3 * ((n1 * x + n2 * y + n3 * z) * (2 * (s * s)))); [ring|rewrite G; ring].
Qed.
Print Assumptions C73_half_angle.

(** * The impedance controller *)
Lemma self_vec : forall q, vec_part (q_mul q (q_conj q)) = (0, 0, 0).
Proof. intros [w i j k]. unfold vec_part, q_mul, q_conj. cbn [qw qi qj qk]. f_equal; [f_equal|]; ring. Qed.
Lemma wrench_rest : forall kt kr q p, unit_quaternion q -> task_wrench kt kr (q, p) (q, p) [0; 0; 0; 0; 0; 0] = [0; 0; 0; 0; 0; 0].
Proof.
  intros. pose proof (wrench_is kt kr q p q p 0 0 0 0 0 0 H) as W. rewrite self_vec in W. cbv zeta in W. rewrite W. repeat (f_equal; try ring).
Qed.
Lemma velocity_rest : forall J, velocity_of J (repeat 0 7) = [0; 0; 0; 0; 0; 0].
Proof. intros. unfold velocity_of, velocity_at. cbn [seq map fold_right repeat nth]. repeat (f_equal; try ring). Qed.
(** At rest in the pose read before the start, no torque but that of the model is commanded. *)
Theorem C73_equilibrium : forall coriolis jacobian pose, length jacobian = 42%nat -> length coriolis = 7%nat ->
  impedance_torques coriolis jacobian pose (repeat 0 7) pose = coriolis.
Proof.
  intros co J a HJ Hc. unfold impedance_torques, task_torques. rewrite mulv_velocity by (try exact HJ; reflexivity). rewrite velocity_rest.
  pose proof (C72_unit a) as U. destruct (array_to_isometry real cos sin a) as [q p]. cbn [fst] in U. rewrite wrench_rest by exact U.
  destruct (seven _ _ Hc) as (? & ? & ? & ? & ? & ? & ? & ->). columns_out J HJ.
  unfold columns6, mult. cbn [seq map firstn skipn Nat.mul Nat.add app dotl addl map2]. repeat (f_equal; try ring).
Qed.
Print Assumptions C73_equilibrium.

(** The controller is a passive spring and damper: along every motion the power which the torques bring into the arm is
    what the springs lose, less what the dampers take. *)
Section Motion.
  Variables (kt kr : R) (p1 p2 p3 q0 q1 q2 q3 : R -> R) (d : quat real) (p_d : vec real).
  Let place s := Vec real (p1 s) (p2 s) (p3 s).
  Let attitude_at s := Quat real (q0 s) (q1 s) (q2 s) (q3 s).
  Let product s := q_dot d (attitude_at s).
  Let energy s := spring_energy kt kr (vector_of (place s)) (vector_of p_d) (product s).
  Variables (t v1 v2 v3 w1 w2 w3 : R).
  Hypothesis V1 : derivable_pt_lim p1 t v1.
  Hypothesis V2 : derivable_pt_lim p2 t v2.
  Hypothesis V3 : derivable_pt_lim p3 t v3.
  (* the quaternion turns with the angular velocity: its derivative is half the product *)
  Let rate_q := hamilton (0, w1, w2, w3) (components (attitude_at t)).
  Hypothesis W0 : derivable_pt_lim q0 t (let '(a, _, _, _) := rate_q in a / 2).
  Hypothesis W1 : derivable_pt_lim q1 t (let '(_, b, _, _) := rate_q in b / 2).
  Hypothesis W2 : derivable_pt_lim q2 t (let '(_, _, c, _) := rate_q in c / 2).
  Hypothesis W3 : derivable_pt_lim q3 t (let '(_, _, _, e) := rate_q in e / 2).
  Hypothesis U : unit_quaternion (attitude_at t).
  Hypothesis Nz : product t <> 0.
  Let turn_rate := let '(x, y, z) := vec_part (q_mul d (q_conj (attitude_at t))) in (w1 * x + w2 * y + w3 * z) / 2.
  Lemma product_rate : derivable_pt_lim product t turn_rate.
  Proof.
    assert (E : turn_rate = qi _ d * (let '(_, b, _, _) := rate_q in b / 2) + qj _ d * (let '(_, _, c, _) := rate_q in c / 2) +
       qk _ d * (let '(_, _, _, e) := rate_q in e / 2) + qw _ d * (let '(a, _, _, _) := rate_q in a / 2)).
    { unfold turn_rate, rate_q, vec_part, q_mul, q_conj, hamilton, components, attitude_at. cbn [qw qi qj qk]. field. }
    rewrite E. unfold product, q_dot, attitude_at. cbn [qw qi qj qk].
    apply (derivable_pt_lim_plus (fun s => qi _ d * q1 s + qj _ d * q2 s + qk _ d * q3 s) (fun s => qw _ d * q0 s)).
    - apply (derivable_pt_lim_plus (fun s => qi _ d * q1 s + qj _ d * q2 s) (fun s => qk _ d * q3 s)).
      + apply (derivable_pt_lim_plus (fun s => qi _ d * q1 s) (fun s => qj _ d * q2 s)).
        * exact (derivable_pt_lim_scal q1 (qi _ d) t _ W1).
        * exact (derivable_pt_lim_scal q2 (qj _ d) t _ W2).
      + exact (derivable_pt_lim_scal q3 (qk _ d) t _ W3).
    - exact (derivable_pt_lim_scal q0 (qw _ d) t _ W0).
  Qed.
  Lemma square_rate : forall f l c, derivable_pt_lim f t l -> derivable_pt_lim (fun s => (1 * f s + -1 * c) * (1 * f s + -1 * c)) t (2 * (f t - c) * l).
  Proof.
    intros f l c D. assert (D1 : derivable_pt_lim (fun s => 1 * f s + -1 * c) t l).
    { replace l with (1 * l + 0) by ring. apply (derivable_pt_lim_plus (fun s => 1 * f s) (fun _ => -1 * c)); [exact (derivable_pt_lim_scal f 1 t l D)|].
      exact (derivable_pt_lim_const (-1 * c) t). }
    replace (2 * (f t - c) * l) with (l * (1 * f t + -1 * c) + (1 * f t + -1 * c) * l) by ring. exact (derivable_pt_lim_mult _ _ t l l D1 D1).
  Qed.
  Lemma abs_rate : derivable_pt_lim (fun s => Rabs (product s)) t (sign_of (product t) * turn_rate).
  Proof.
    pose proof product_rate as P. unfold sign_of. destruct (Rlt_dec (product t) 0) as [L|L].
    - exact (derivable_pt_lim_comp product Rabs t turn_rate (-1) P (Rabs_derive_2 _ L)).
    - assert (G : product t > 0) by (destruct (Rdichotomy _ _ Nz); [contradiction|assumption]).
      exact (derivable_pt_lim_comp product Rabs t turn_rate 1 P (Rabs_derive_1 _ G)).
  Qed.
  Lemma energy_rate : derivable_pt_lim energy t
    (kt * ((p1 t - vx _ p_d) * v1 + (p2 t - vy _ p_d) * v2 + (p3 t - vz _ p_d) * v3) - 2 * kr * (sign_of (product t) * turn_rate)).
  Proof.
    unfold energy, spring_energy, size2, combine3, vector_of, place. cbn [vx vy vz].
    replace (kt * ((p1 t - vx _ p_d) * v1 + (p2 t - vy _ p_d) * v2 + (p3 t - vz _ p_d) * v3) - 2 * kr * (sign_of (product t) * turn_rate))
      with (kt / 2 * (2 * (p1 t - vx _ p_d) * v1 + 2 * (p2 t - vy _ p_d) * v2 + 2 * (p3 t - vz _ p_d) * v3) + 2 * kr * (0 - sign_of (product t) * turn_rate)) by field.
    apply (derivable_pt_lim_plus (fun s => kt / 2 * ((1 * p1 s + -1 * vx _ p_d) * (1 * p1 s + -1 * vx _ p_d) + (1 * p2 s + -1 * vy _ p_d) * (1 * p2 s + -1 * vy _ p_d) +
      (1 * p3 s + -1 * vz _ p_d) * (1 * p3 s + -1 * vz _ p_d))) (fun s => 2 * kr * (1 - Rabs (product s)))).
    - apply (derivable_pt_lim_scal (fun s => (1 * p1 s + -1 * vx _ p_d) * (1 * p1 s + -1 * vx _ p_d) + (1 * p2 s + -1 * vy _ p_d) * (1 * p2 s + -1 * vy _ p_d) +
        (1 * p3 s + -1 * vz _ p_d) * (1 * p3 s + -1 * vz _ p_d))).
      apply (derivable_pt_lim_plus (fun s => (1 * p1 s + -1 * vx _ p_d) * (1 * p1 s + -1 * vx _ p_d) + (1 * p2 s + -1 * vy _ p_d) * (1 * p2 s + -1 * vy _ p_d))
        (fun s => (1 * p3 s + -1 * vz _ p_d) * (1 * p3 s + -1 * vz _ p_d))); [|apply square_rate; exact V3].
      apply (derivable_pt_lim_plus (fun s => (1 * p1 s + -1 * vx _ p_d) * (1 * p1 s + -1 * vx _ p_d)) (fun s => (1 * p2 s + -1 * vy _ p_d) * (1 * p2 s + -1 * vy _ p_d)));
        apply square_rate; assumption.
    - apply (derivable_pt_lim_scal (fun s => 1 - Rabs (product s))). apply (derivable_pt_lim_minus (fun _ => 1) (fun s => Rabs (product s))); [apply derivable_pt_lim_const|exact abs_rate].
  Qed.
  Variables jacobian dq : list R.
  Hypothesis LJ : length jacobian = 42%nat.
  Hypothesis Lq : length dq = 7%nat.
  Hypothesis Vel : velocity_of jacobian dq = [v1; v2; v3; w1; w2; w3].
  Lemma passive : exists e', derivable_pt_lim energy t e' /\
    power dq (task_torques kt kr jacobian (attitude_at t, place t) (d, p_d) dq) =
      - e' - 2 * sqrt kt * size2 (v1, v2, v3) - 2 * sqrt kr * size2 (w1, w2, w3).
  Proof.
    eexists. split; [exact energy_rate|]. unfold task_torques. rewrite mulv_velocity by assumption. rewrite Vel.
    pose proof (wrench_is kt kr (attitude_at t) (place t) d p_d v1 v2 v3 w1 w2 w3 U) as W. unfold turn_rate. fold (product t) in W.
    destruct (vec_part (q_mul d (q_conj (attitude_at t)))) as [[x y] z]. cbv zeta in W. rewrite W.
    rewrite mult_power by (try assumption; reflexivity). rewrite Vel. unfold place, size2. cbn [dotl vx vy vz]. field.
  Qed.
End Motion.
Theorem C73_passive : forall kt kr p1 p2 p3 q0 q1 q2 q3 d p_d t jacobian dq,
  let place s := Vec real (p1 s) (p2 s) (p3 s) in let attitude s := Quat real (q0 s) (q1 s) (q2 s) (q3 s) in
  let velocity := velocity_of jacobian dq in
  length jacobian = 42%nat -> length dq = 7%nat ->
  (* position and orientation move with the velocity which the Jacobian gives *)
  derivable_pt_lim p1 t (nth 0 velocity 0) -> derivable_pt_lim p2 t (nth 1 velocity 0) -> derivable_pt_lim p3 t (nth 2 velocity 0) ->
  (let '(a, b, c, e) := hamilton (0, nth 3 velocity 0, nth 4 velocity 0, nth 5 velocity 0) (components (attitude t)) in
   derivable_pt_lim q0 t (a / 2) /\ derivable_pt_lim q1 t (b / 2) /\ derivable_pt_lim q2 t (c / 2) /\ derivable_pt_lim q3 t (e / 2)) ->
  unit_quaternion (attitude t) -> q_dot d (attitude t) <> 0 ->
  exists e', derivable_pt_lim (fun s => spring_energy kt kr (vector_of (place s)) (vector_of p_d) (q_dot d (attitude s))) t e' /\
    power dq (task_torques kt kr jacobian (attitude t, place t) (d, p_d) dq) =
      - e' - 2 * sqrt kt * size2 (front velocity) - 2 * sqrt kr * size2 (back velocity).
Proof.
  intros kt kr p1 p2 p3 q0 q1 q2 q3 d p_d t J dq place at_ vel LJ Lq D1 D2 D3 DQ U Nz.
  destruct (hamilton (0, nth 3 vel 0, nth 4 vel 0, nth 5 vel 0) (components (at_ t))) as [[[a b] c] e] eqn:EH. destruct DQ as (Q0 & Q1 & Q2 & Q3).
  assert (Vel : velocity_of J dq = [nth 0 vel 0; nth 1 vel 0; nth 2 vel 0; nth 3 vel 0; nth 4 vel 0; nth 5 vel 0]) by reflexivity.
  apply (passive kt kr p1 p2 p3 q0 q1 q2 q3 d p_d t _ _ _ (nth 3 vel 0) (nth 4 vel 0) (nth 5 vel 0) D1 D2 D3); try assumption; fold (at_ t); rewrite EH; assumption.
Qed.
Print Assumptions C73_passive.

(** * The mirroring robot *)
Definition across (v : triple) : triple := let '(x, y, z) := v in (x, - y, z).
(** The desired pose is the mirror image of the guided robot's pose: a direction and its image turn alike. *)
Theorem C73_mirror : forall q p v v', unit_quaternion q -> quaternion_turns q v v' ->
  unit_quaternion (fst (mirrored (q, p))) /\ quaternion_turns (fst (mirrored (q, p))) (across v) (across v') /\
  vector_of (snd (mirrored (q, p))) = across (vector_of p).
Proof.
  intros [w i j k] p [[x y] z] [[x' y'] z'] U H. unfold mirrored. cbn [fst snd qw qi qj qk].
  assert (U' : unit_quaternion (Quat real w (- i) j (- k))) by (unfold unit_quaternion in *; cbn [qw qi qj qk] in *; lra).
  rewrite normalize_unit by (apply unit_dot; exact U'). split; [exact U'|]. split; [|reflexivity].
  unfold quaternion_turns, components, conjugate, hamilton, across in *. cbn [qw qi qj qk] in *. injection H as H0 H1 H2 H3.
  f_equal; [f_equal; [f_equal|]|]; lra.
Qed.
Print Assumptions C73_mirror.

Lemma dotl_cons : forall x a y b, dotl (x :: a) (y :: b) = x * y + dotl a b. Proof. reflexivity. Qed.
Lemma dotl_sub : forall a b c, length b = length c -> dotl a (subl b c) = dotl a b - dotl a c.
Proof.
  induction a as [|x a IH]; intros [|y b] [|z c] L; try discriminate; cbn [dotl subl map2]; try ring.
  fold (subl b c). rewrite IH by (injection L; auto). ring.
Qed.
Lemma subl_length : forall a b, length a = length b -> length (subl a b) = length a.
Proof. induction a as [|x a IH]; intros [|y b] L; try discriminate; [reflexivity|]. cbn [subl map2 length]. fold (subl a b). rewrite IH; auto. Qed.
Lemma scalel_length : forall k a, length (scalel k a) = length a.
Proof. intros. apply map_length. Qed.
Lemma columns6_length : forall J, length (columns6 J) = 7%nat. Proof. reflexivity. Qed.
(** [pinv], by its columns, is the pseudo-inverse of the transposed Jacobian: two of the four equations of Penrose. *)
Definition pseudo_inverse (jacobian : list R) (pinv : list (list R)) : Prop :=
  (forall f, length f = 6%nat -> mult (columns6 jacobian) (mulv 6 pinv (mult (columns6 jacobian) f)) = mult (columns6 jacobian) f) /\
  (forall x y, length x = 7%nat -> length y = 7%nat ->
     dotl (mult (columns6 jacobian) (mulv 6 pinv x)) y = dotl x (mult (columns6 jacobian) (mulv 6 pinv y))).
Lemma power_dot : forall dq tau, length dq = 7%nat -> length tau = 7%nat -> power dq tau = dotl dq tau.
Proof.
  intros dq tau H1 H2. destruct (seven _ _ H1) as (? & ? & ? & ? & ? & ? & ? & ->). destruct (seven _ _ H2) as (? & ? & ? & ? & ? & ? & ? & ->).
  unfold power. cbn [seq map fold_right nth dotl]. ring.
Qed.
(** The torques towards the home configuration are orthogonal to the torques of every wrench at the end effector. *)
Theorem C73_nullspace : forall jacobian pinv home q f, length home = 7%nat -> length q = 7%nat -> length f = 6%nat -> pseudo_inverse jacobian pinv ->
  power (mult (columns6 jacobian) f) (nullspace_torques jacobian pinv home q) = 0.
Proof.
  intros J pinv home q f Lh Lq Lf (P1 & P2). unfold nullspace_torques. cbv zeta. set (x := scalel 5 (subl home q)).
  assert (Lx : length x = 7%nat) by (unfold x; rewrite scalel_length, subl_length; congruence).
  assert (LJ : forall g, length (mult (columns6 J) g) = 7%nat) by (intros; unfold mult; rewrite map_length; reflexivity).
  rewrite power_dot; [|apply LJ|rewrite subl_length; [exact Lx|rewrite LJ; exact Lx]].
  rewrite dotl_sub by (rewrite LJ; exact Lx). rewrite <- (P2 (mult (columns6 J) f) x) by (try apply LJ; exact Lx). rewrite P1 by exact Lf. ring.
Qed.
Print Assumptions C73_nullspace.
Lemma dotl_self : forall a, 0 <= dotl a a.
Proof. induction a as [|x a IH]; cbn [dotl]; [lra|]. nra. Qed.
Lemma dotl_scale : forall k a b, dotl (scalel k a) b = k * dotl a b.
Proof. intros k. induction a as [|x a IH]; intros [|y b]; cbn [dotl scalel map]; try ring. fold (scalel k a). rewrite IH. ring. Qed.
Lemma mulv_length : forall cols x, Forall (fun c => length c = 6%nat) cols -> length (mulv 6 cols x) = 6%nat.
Proof.
  intros cols x H. revert x. induction H as [|c cols Hc _ IH]; intros [|k x]; [reflexivity| reflexivity | reflexivity|]. cbn [mulv].
  specialize (IH x). destruct (six _ _ Hc) as (? & ? & ? & ? & ? & ? & ->). destruct (six _ _ IH) as (? & ? & ? & ? & ? & ? & ->). reflexivity.
Qed.
(** And they pull home: their power along the way home is a fifth of the sum of their squares. *)
Theorem C73_homewards : forall jacobian pinv home q, length home = 7%nat -> length q = 7%nat ->
  Forall (fun c => length c = 6%nat) pinv -> pseudo_inverse jacobian pinv ->
  let tau := nullspace_torques jacobian pinv home q in
  5 * power (subl home q) tau = dotl tau tau.
Proof.
  intros J pinv home q Lh Lq Lp P tau. pose proof P as (P1 & P2).
  assert (LJ : forall g, length (mult (columns6 J) g) = 7%nat) by (intros; unfold mult; rewrite map_length; reflexivity).
  set (x := scalel 5 (subl home q)). assert (Lx : length x = 7%nat) by (unfold x; rewrite scalel_length, subl_length; congruence).
  assert (Lt : length tau = 7%nat) by (unfold tau, nullspace_torques; cbv zeta; fold x; rewrite subl_length; [exact Lx|rewrite LJ; exact Lx]).
  rewrite power_dot; [|rewrite subl_length; congruence|exact Lt]. rewrite <- dotl_scale. fold x.
  assert (Z : dotl (mult (columns6 J) (mulv 6 pinv x)) tau = 0).
  { rewrite <- power_dot by (try apply LJ; exact Lt). apply C73_nullspace; try assumption. apply mulv_length. exact Lp. }
  assert (S : forall a b c, length a = length b -> dotl (subl a b) c = dotl a c - dotl b c).
  { induction a as [|u a IH]; intros [|v b] [|w c] L; try discriminate; cbn [dotl subl map2]; try ring. fold (subl a b). rewrite IH by (injection L; auto). ring. }
  replace (dotl tau tau) with (dotl (subl x (mult (columns6 J) (mulv 6 pinv x))) tau) by reflexivity.
  rewrite S by (rewrite LJ; exact Lx). rewrite Z. ring.
Qed.
Print Assumptions C73_homewards.

(** * The channel between the two robots *)
Section ChannelFacts.
  Context {A : Type}.
  Definition sent (l : list (@channel_event A)) : list A := flat_map (fun e => match e with Sent p => [p] | Taken => [] end) l.
  Definition takes (l : list (@channel_event A)) : nat := length (filter (fun e => match e with Taken => true | _ => false end) l).
  (** How many of the poses have been received: each time one more, if one has been sent. *)
  Fixpoint received (before : nat) (done : nat) (l : list (@channel_event A)) : list nat :=
    match l with
    | [] => []
    | Sent _ :: l => received (S before) done l
    | Taken :: l => let n := Nat.min (S done) before in n :: received before n l
    end.
  Definition nth_pose (initial : A) (poses : list A) (n : nat) : A := nth n (initial :: poses) initial.

  Lemma nth_pose_in : forall (i : A) s t n, (n <= length s)%nat -> nth_pose i (s ++ t) n = nth_pose i s n.
  Proof. intros i s t [|n] H; [reflexivity|]. unfold nth_pose. cbn [nth]. apply app_nth1. lia. Qed.
  Lemma channel_from : forall l (i : A) s d u, (d <= length s)%nat ->
    let '(queue, last, used) := fold_left channel_step l (skipn d s, nth_pose i s d, u) in
    exists d', (d' <= length (s ++ sent l))%nat /\ queue = skipn d' (s ++ sent l) /\ last = nth_pose i (s ++ sent l) d' /\
      used = rev (map (nth_pose i (s ++ sent l)) (received (length s) d l)) ++ u.
  Proof.
    induction l as [|[p|] l IH]; intros i s d u Hd.
    - cbn [fold_left sent flat_map received map rev app]. rewrite app_nil_r. exists d. repeat split; auto.
    - cbn [fold_left channel_step]. replace (skipn d s ++ [p]) with (skipn d (s ++ [p])) by (rewrite skipn_app; replace (d - length s)%nat with 0%nat by lia; reflexivity).
      rewrite <- (nth_pose_in i s [p] d Hd). specialize (IH i (s ++ [p]) d u ltac:(rewrite app_length; lia)).
      cbn [sent flat_map received]. fold (sent l). rewrite (app_length s [p]) in IH. replace (length s + length [p])%nat with (S (length s)) in IH by (cbn [length]; lia).
      rewrite <- (app_assoc s [p]) in IH. exact IH.
    - cbn [fold_left channel_step]. cbn [sent flat_map received app]. fold (sent l). destruct (Nat.eq_dec d (length s)) as [E|E].
      + rewrite E, skipn_all, Nat.min_r by lia.
        specialize (IH i s (length s) (nth_pose i s (length s) :: u) ltac:(lia)). rewrite skipn_all in IH.
        destruct (fold_left channel_step l _) as [[queue last] used]. destruct IH as (d' & H1 & H2 & H3 & H4). exists d'. repeat split; auto.
        rewrite H4. cbn [map rev]. rewrite <- app_assoc. cbn [app]. rewrite nth_pose_in by lia. reflexivity.
      + assert (X : exists p r, skipn d s = p :: r /\ r = skipn (S d) s /\ p = nth_pose i s (S d)).
        { clear - Hd E. revert d Hd E. unfold nth_pose. cbn [nth]. induction s as [|x s IHs]; intros d Hd E; cbn [length] in *; [lia|]. destruct d as [|d]; [exists x, s; repeat split; reflexivity|].
          destruct (IHs d ltac:(lia) ltac:(lia)) as (p & r & H1 & H2 & H3). exists p, r. cbn [skipn]. repeat split; auto. }
        destruct X as (p & r & E1 & E2 & E3). rewrite E1, E2, E3, Nat.min_l by lia.
        specialize (IH i s (S d) (nth_pose i s (S d) :: u) ltac:(lia)).
        destruct (fold_left channel_step l _) as [[queue last] used]. destruct IH as (d' & H1 & H2 & H3 & H4). exists d'. repeat split; auto.
        rewrite H4. cbn [map rev]. rewrite <- app_assoc. cbn [app]. rewrite nth_pose_in by lia. reflexivity.
  Qed.
  (** Number [0] is the pose read before the joint motions, number [n] the [n]th pose sent: the poses used are found by counting. *)
  Theorem C73_channel : forall (initial : A) l,
    rev (snd (channel_run initial l)) = map (nth_pose initial (sent l)) (received 0 0 l).
  Proof.
    intros i l. pose proof (channel_from l i [] 0 [] (Nat.le_refl 0)) as H. unfold channel_run. cbn [skipn nth_pose nth app length] in H.
    replace (nth_pose i [] 0) with i in H by reflexivity. destruct (fold_left channel_step l ([], i, [])) as [[queue last] used].
    destruct H as (d' & _ & _ & _ & H). cbn [snd]. rewrite H, app_nil_r, rev_involutive. reflexivity.
  Qed.
  Definition waiting (initial : A) l : nat := length (fst (fst (channel_run initial l))).
  Lemma waiting_sent : forall (i : A) l p, waiting i (l ++ [Sent p]) = S (waiting i l).
  Proof.
    intros. unfold waiting, channel_run. rewrite fold_left_app. cbn [fold_left]. destruct (fold_left channel_step l ([], i, [])) as [[q la] u].
    cbn [channel_step fst]. rewrite app_length. cbn [length]. lia.
  Qed.
  Lemma waiting_taken : forall (i : A) l, waiting i (l ++ [Taken]) = pred (waiting i l).
  Proof.
    intros. unfold waiting, channel_run. rewrite fold_left_app. cbn [fold_left]. destruct (fold_left channel_step l ([], i, [])) as [[[|p q] la] u]; reflexivity.
  Qed.
  Lemma sent_app : forall l m : list (@channel_event A), sent (l ++ m) = sent l ++ sent m.
  Proof. intros. unfold sent. apply flat_map_app. Qed.
  Lemma takes_app : forall l m : list (@channel_event A), takes (l ++ m) = (takes l + takes m)%nat.
  Proof. intros. unfold takes. rewrite filter_app, app_length. reflexivity. Qed.
  (** The mirroring robot never catches up: as long as the guided robot keeps sending, a delay only grows. *)
  Theorem C73_lag : forall (initial : A) l0 l1, (forall n, (takes (firstn n l1) <= length (sent (firstn n l1)))%nat) ->
    (waiting initial (l0 ++ l1) + takes l1 = waiting initial l0 + length (sent l1))%nat.
  Proof.
    intros i l0 l1. induction l1 as [|e l1 IH] using rev_ind; intros H.
    - rewrite app_nil_r. cbn. lia.
    - assert (H1 : forall n, (takes (firstn n l1) <= length (sent (firstn n l1)))%nat).
      { intros n. destruct (Nat.le_gt_cases n (length l1)) as [L|L].
        - specialize (H n). rewrite firstn_app in H. replace (n - length l1)%nat with 0%nat in H by lia. cbn [firstn] in H. rewrite app_nil_r in H. exact H.
        - rewrite firstn_all2 by lia. specialize (H (length l1)). rewrite firstn_app, firstn_all, Nat.sub_diag in H. cbn [firstn] in H. rewrite app_nil_r in H. exact H. }
      specialize (IH H1). rewrite app_assoc, sent_app, takes_app, app_length. destruct e as [p|].
      + rewrite waiting_sent. cbn [sent flat_map takes filter length app]. lia.
      + rewrite waiting_taken. cbn [sent flat_map takes filter length app].
        specialize (H (S (length l1))). rewrite firstn_all2 in H by (rewrite app_length; cbn [length]; lia).
        rewrite sent_app, takes_app, app_length in H. cbn [sent flat_map takes filter length app] in H. lia.
  Qed.
End ChannelFacts.
Print Assumptions C73_channel.
Print Assumptions C73_lag.
(** Three poses were sent before the mirroring robot started: it stays three poses behind; a robot which started first uses the initial pose. *)
Example C73_channel_ex :
  rev (snd (channel_run 0%nat [Taken; Sent 1%nat; Taken; Taken; Sent 2%nat; Sent 3%nat; Taken])) = [0; 1; 1; 2]%nat /\
  (let l1 := [Sent 4%nat; Taken; Sent 5%nat; Taken] in (forall n, (takes (firstn n l1) <= length (sent (firstn n l1)))%nat) /\
   waiting 0%nat ([Sent 1%nat; Sent 2%nat; Sent 3%nat] ++ l1) = 3%nat /\
   rev (snd (channel_run 0%nat ([Sent 1%nat; Sent 2%nat; Sent 3%nat] ++ l1))) = [1; 2]%nat).
Proof.
  split; [reflexivity|]. cbv zeta. split; [|split; reflexivity].
  intros n. destruct n as [|[|[|[|[|n]]]]]; cbn; lia.
Qed.

(** * Concrete cases *)
(** A Jacobian whose first six columns are the unit vectors and whose last is zero, and the pseudo-inverse of its transpose. *)
Definition unit6 (k : nat) : list R := map (fun i => if Nat.eqb i k then 1 else 0) (seq 0 6).
Definition sample_jacobian : list R := flat_map unit6 (seq 0 7).
Example C73_nullspace_ex : pseudo_inverse sample_jacobian (columns6 sample_jacobian) /\ Forall (fun c => length c = 6%nat) (columns6 sample_jacobian) /\
  nullspace_torques sample_jacobian (columns6 sample_jacobian) [0; 0; 0; 0; 0; 0; 1] [1; 2; 3; 4; 5; 6; 7] = [0; 0; 0; 0; 0; 0; -30].
Proof.
  unfold sample_jacobian, unit6. cbn [seq map flat_map app Nat.eqb].
  split; [split|split; [repeat constructor|]].
  - intros f Lf. destruct (six _ _ Lf) as (? & ? & ? & ? & ? & ? & ->). unfold columns6, mult. cbn [seq map firstn skipn Nat.mul Nat.add app dotl mulv addl scalel map2 repeat].
    repeat (f_equal; try ring).
  - intros x y Lx Ly. destruct (seven _ _ Lx) as (? & ? & ? & ? & ? & ? & ? & ->). destruct (seven _ _ Ly) as (? & ? & ? & ? & ? & ? & ? & ->).
    unfold columns6, mult. cbn [seq map firstn skipn Nat.mul Nat.add app dotl mulv addl scalel map2 repeat]. ring.
  - unfold nullspace_torques, columns6, mult. cbn [seq map firstn skipn Nat.mul Nat.add app dotl mulv addl subl scalel map2 repeat]. repeat (f_equal; try ring).
Qed.
(** A sixth of a turn about the z axis away, two centimetres off and at rest. *)
Example C73_wrench_ex : let q := Quat real 1 0 0 0 in let d := Quat real (cos (PI / 3 / 2)) 0 0 (sin (PI / 3 / 2)) in
  unit_quaternion q /\ task_wrench 150 10 (q, Vec real (3/10) 0 (1/2)) (d, Vec real (32/100) 0 (1/2)) [0; 0; 0; 0; 0; 0] = [3; 0; 0; 0; 0; 5].
Proof.
  cbv zeta. assert (U : unit_quaternion (Quat real 1 0 0 0)) by (unfold unit_quaternion; cbn [qw qi qj qk]; ring). split; [exact U|].
  assert (A : unit_axis (0, 0, 1)) by (cbn [unit_axis]; ring).
  pose proof PI_RGT_0 as Pp.
  destruct (C73_wrench 150 10 _ (Vec real (3/10) 0 (1/2)) (Quat real (cos (PI / 3 / 2)) 0 0 (sin (PI / 3 / 2))) (Vec real (32/100) 0 (1/2)) (0, 0, 1) (PI / 3) [0;0;0;0;0;0] eq_refl U A ltac:(lra)) as (L & F & B).
  { left. unfold components, hamilton. cbn [qw qi qj qk]. f_equal; [f_equal; [f_equal|]|]; ring. }
  destruct (six _ _ L) as (a & b & c & d & e & f & E). rewrite E in *. unfold front, back, combine3, vector_of in F, B. cbn [nth vx vy vz] in F, B.
  injection F as F1 F2 F3. injection B as B1 B2 B3. rewrite B1, B2, B3, F1, F2, F3. replace (PI / 3 / 2) with (PI / 6) by field. rewrite sin_PI6. repeat (f_equal; try field).
Qed.
(** The end effector moves and turns along with one joint: the hypotheses of [C73_passive] are met. *)
Example C73_passive_ex : let J := sample_jacobian in let dq := [1; 0; 0; 0; 0; 2; 0] in
  let q0 := cos in let q3 := sin in let attitude s := Quat real (q0 s) 0 0 (q3 s) in
  length J = 42%nat /\ velocity_of J dq = [1; 0; 0; 0; 0; 2] /\ derivable_pt_lim (fun s => s) 0 (nth 0 (velocity_of J dq) 0) /\
  (let '(a, b, c, e) := hamilton (0, nth 3 (velocity_of J dq) 0, nth 4 (velocity_of J dq) 0, nth 5 (velocity_of J dq) 0) (components (attitude 0)) in
   derivable_pt_lim q0 0 (a / 2) /\ derivable_pt_lim (fun _ => 0) 0 (b / 2) /\ derivable_pt_lim (fun _ => 0) 0 (c / 2) /\ derivable_pt_lim q3 0 (e / 2)) /\
  unit_quaternion (attitude 0) /\ q_dot (Quat real 1 0 0 0) (attitude 0) <> 0.
Proof.
  cbv zeta. assert (V : velocity_of sample_jacobian [1; 0; 0; 0; 0; 2; 0] = [1; 0; 0; 0; 0; 2]).
  { unfold velocity_of, velocity_at, sample_jacobian, unit6. cbn [seq map flat_map app Nat.eqb fold_right nth Nat.mul Nat.add]. repeat (f_equal; try ring). }
  rewrite V. cbn [nth]. split; [reflexivity|]. split; [reflexivity|]. split; [exact (derivable_pt_lim_id 0)|]. unfold components, hamilton, unit_quaternion, q_dot. cbn [qw qi qj qk]. rewrite cos_0, sin_0.
  split; [|split; [ring|lra]].
  split; [replace ((0 * 1 - 0 * 0 - 0 * 0 - 2 * 0) / 2) with (- sin 0) by (rewrite sin_0; field); apply derivable_pt_lim_cos|].
  split; [replace ((0 * 0 + 0 * 1 + 0 * 0 - 2 * 0) / 2) with 0 by field; apply derivable_pt_lim_const|].
  split; [replace ((0 * 0 - 0 * 0 + 0 * 1 + 2 * 0) / 2) with 0 by field; apply derivable_pt_lim_const|].
  replace ((0 * 0 + 0 * 0 - 0 * 0 + 2 * 1) / 2) with (cos 0) by (rewrite cos_0; field). apply derivable_pt_lim_sin.
Qed.

(** * The two closures *)
(** The torque of a wrench at joint [k]. *)
Definition joint_torque (jacobian wrench : list R) (k : nat) : R := fold_right Rplus 0 (map (fun i => nth (6 * k + i) jacobian 0 * nth i wrench 0) (seq 0 6)).
(** The desired orientation is the present one turned by [t] about [n]. *)
Definition apart (q d : quat real) (n : triple) (t : R) : Prop :=
  let '(n1, n2, n3) := n in let h := hamilton (cos (t / 2), sin (t / 2) * n1, sin (t / 2) * n2, sin (t / 2) * n3) (components q) in
  components d = h \/ components (q_neg d) = h.
(** The wrench of springs and critical dampers. *)
Record spring_damper (kt kr : R) (p p_d n : triple) (t : R) (velocity wrench : list R) : Prop := {
  sd_force : front wrench = combine3 (- kt) (combine3 1 p (-1) p_d) (- (2 * sqrt kt)) (front velocity);
  sd_moment : back wrench = combine3 (kr * sin (t / 2)) n (- (2 * sqrt kr)) (back velocity) }.
Lemma mult_nth : forall J f k, length J = 42%nat -> length f = 6%nat -> (k < 7)%nat -> nth k (mult (columns6 J) f) 0 = joint_torque J f k.
Proof.
  intros J f k HJ Hf Hk. destruct (six _ _ Hf) as (? & ? & ? & ? & ? & ? & ->). columns_out J HJ.
  unfold columns6, mult, joint_torque. do 7 (destruct k as [|k]; [cbn [seq map firstn skipn Nat.mul Nat.add app dotl fold_right nth]; ring|]). lia.
Qed.
Lemma task_is : forall kt kr J pose pose_d dq n t, length J = 42%nat -> length dq = 7%nat -> unit_quaternion (fst pose) -> unit_axis n -> 0 <= t < PI ->
  apart (fst pose) (fst pose_d) n t ->
  exists wrench, length wrench = 6%nat /\ spring_damper kt kr (vector_of (snd pose)) (vector_of (snd pose_d)) n t (velocity_of J dq) wrench /\
    task_torques kt kr J pose pose_d dq = mult (columns6 J) wrench.
Proof.
  intros kt kr J [q p] [d p_d] dq n t HJ Hq U An Bt Ap. cbn [fst snd] in *. unfold task_torques. rewrite mulv_velocity by assumption.
  exists (task_wrench kt kr (q, p) (d, p_d) (velocity_of J dq)).
  assert (W : length (task_wrench kt kr (q, p) (d, p_d) (velocity_of J dq)) = 6%nat /\
    front (task_wrench kt kr (q, p) (d, p_d) (velocity_of J dq)) = combine3 (- kt) (combine3 1 (vector_of p) (-1) (vector_of p_d)) (- (2 * sqrt kt)) (front (velocity_of J dq)) /\
    back (task_wrench kt kr (q, p) (d, p_d) (velocity_of J dq)) = combine3 (kr * sin (t / 2)) n (- (2 * sqrt kr)) (back (velocity_of J dq))).
  { pose proof (C73_wrench kt kr q p d p_d n t (velocity_of J dq) eq_refl U An Bt) as W. unfold apart in Ap. destruct n as [[n1 n2] n3]. exact (W Ap). }
  destruct W as (W1 & W2 & W3). split; [exact W1|]. split; [split; assumption|reflexivity].
Qed.
Lemma addl_nth : forall a b k, length a = length b -> nth k (addl a b) 0 = nth k a 0 + nth k b 0.
Proof. induction a as [|x a IH]; intros [|y b] k L; try discriminate; destruct k as [|k]; cbn [addl map2 nth]; try ring. apply IH. injection L. auto. Qed.
Lemma addl_length : forall a b, length a = length b -> length (addl a b) = length a.
Proof. induction a as [|x a IH]; intros [|y b] L; try discriminate; [reflexivity|]. cbn [addl map2 length]. fold (addl a b). rewrite IH; auto. Qed.
(** The impedance controller: 150 N/m and 10 Nm/rad about the pose read before the start. *)
Theorem C73_impedance : forall coriolis jacobian pose initial dq n t, length jacobian = 42%nat -> length coriolis = 7%nat -> length dq = 7%nat ->
  let now := array_to_isometry real cos sin pose in let desired := array_to_isometry real cos sin initial in
  unit_axis n -> 0 <= t < PI -> apart (fst now) (fst desired) n t ->
  exists wrench, spring_damper 150 10 (vector_of (snd now)) (vector_of (snd desired)) n t (velocity_of jacobian dq) wrench /\
    length (impedance_torques coriolis jacobian pose dq initial) = 7%nat /\
    forall k, (k < 7)%nat -> nth k (impedance_torques coriolis jacobian pose dq initial) 0 = nth k coriolis 0 + joint_torque jacobian wrench k.
Proof.
  intros co J a i dq n t HJ Hc Hq now desired An Bt Ap. destruct (task_is 150 10 J now desired dq n t HJ Hq (C72_unit a) An Bt Ap) as (w & Lw & S & E).
  exists w. split; [exact S|]. unfold impedance_torques. fold now desired. rewrite E.
  assert (Lm : length (mult (columns6 J) w) = length co) by (unfold mult; rewrite map_length, Hc; reflexivity).
  split; [rewrite addl_length by exact Lm; congruence|]. intros k Hk. rewrite addl_nth by exact Lm. rewrite mult_nth by assumption. ring.
Qed.
Print Assumptions C73_impedance.
(** The mirroring robot: 400 N/m and 50 Nm/rad about the mirror image of the pose taken from the channel, and torques which pull
    home, orthogonal to those of every wrench. *)
Theorem C73_mirror_torques : forall coriolis jacobian pinv pose q dq home taken n t, length jacobian = 42%nat -> length coriolis = 7%nat -> length dq = 7%nat ->
  length q = 7%nat -> length home = 7%nat -> Forall (fun c => length c = 6%nat) pinv -> pseudo_inverse jacobian pinv ->
  let now := array_to_isometry real cos sin pose in let guided := array_to_isometry real cos sin taken in
  unit_axis n -> 0 <= t < PI -> apart (fst now) (fst (mirrored guided)) n t ->
  exists wrench homewards, spring_damper 400 50 (vector_of (snd now)) (across (vector_of (snd guided))) n t (velocity_of jacobian dq) wrench /\
    length homewards = 7%nat /\ (forall f, length f = 6%nat -> power (map (joint_torque jacobian f) (seq 0 7)) homewards = 0) /\
    0 <= power (map2 Rminus home q) homewards /\
    length (mirror_torques coriolis jacobian pinv pose q dq home taken) = 7%nat /\
    forall k, (k < 7)%nat -> nth k (mirror_torques coriolis jacobian pinv pose q dq home taken) 0 =
      joint_torque jacobian wrench k + nth k homewards 0 + nth k coriolis 0.
Proof.
  intros co J pinv a q dq home taken n t HJ Hc Hd Hq Hh Hp P now guided An Bt Ap.
  destruct (task_is 400 50 J now (mirrored guided) dq n t HJ Hd (C72_unit a) An Bt Ap) as (w & Lw & S & E).
  exists w, (nullspace_torques J pinv home q).
  assert (Pos : vector_of (snd (mirrored guided)) = across (vector_of (snd guided))) by (destruct guided as [gq gp]; reflexivity).
  rewrite Pos in S. split; [exact S|].
  assert (LJ : forall g, length (mult (columns6 J) g) = 7%nat) by (intros; unfold mult; rewrite map_length; reflexivity).
  assert (Ln : length (nullspace_torques J pinv home q) = 7%nat).
  { unfold nullspace_torques. cbv zeta. rewrite subl_length; rewrite scalel_length, subl_length; rewrite ?LJ; congruence. }
  split; [exact Ln|]. split.
  { intros f Lf. transitivity (power (mult (columns6 J) f) (nullspace_torques J pinv home q)); [|apply C73_nullspace; assumption].
    unfold power. f_equal. apply map_ext_in. intros k Hk. apply in_seq in Hk. rewrite mult_nth by (try assumption; lia). f_equal.
    rewrite (nth_indep _ 0 (joint_torque J f 0)) by (rewrite map_length, seq_length; lia). rewrite map_nth, seq_nth by lia. reflexivity. }
  split. { pose proof (C73_homewards J pinv home q Hh Hq Hp P) as Hw. cbv zeta in Hw. unfold subl in Hw. pose proof (dotl_self (nullspace_torques J pinv home q)). lra. }
  unfold mirror_torques. fold now guided. rewrite E.
  assert (L1 : length (addl (mult (columns6 J) w) (nullspace_torques J pinv home q)) = 7%nat) by (rewrite addl_length; rewrite LJ; [reflexivity|congruence]).
  split; [rewrite addl_length; congruence|]. intros k Hk. rewrite !addl_nth by (rewrite ?LJ; congruence). rewrite mult_nth by assumption. ring.
Qed.
Print Assumptions C73_mirror_torques.

Ltac as_real := match goal with |- @eq _ ?x ?y => change (@eq R x y) end.
(** Two orientations which are not half a turn apart are apart by some angle about some axis, so the theorems speak of all of them. *)
Theorem C73_apart : forall q d, unit_quaternion q -> unit_quaternion d -> q_dot d q <> 0 ->
  exists n t, unit_axis n /\ 0 <= t < PI /\ apart q d n t.
Proof.
  intros q d Uq Ud Nz.
  assert (G : forall d, unit_quaternion d -> 0 < q_dot d q -> exists n1 n2 n3 t, unit_axis (n1, n2, n3) /\ 0 <= t < PI /\
    components d = hamilton (cos (t / 2), sin (t / 2) * n1, sin (t / 2) * n2, sin (t / 2) * n3) (components q)).
  { clear d Ud Nz. intros d Ud Pos.
    assert (E : components d = hamilton (components (q_mul d (q_conj q))) (components q)).
    { destruct q as [w i j k], d as [a b c e]. unfold unit_quaternion in Uq. cbn [qw qi qj qk] in Uq. unfold components, hamilton, q_mul, q_conj. cbn [qw qi qj qk].
      set (u := w * w + i * i + j * j + k * k) in *.
      assert (D : forall r : R, r = r * u) by (intros; rewrite Uq; ring). rewrite (D a), (D b), (D c), (D e) at 1. unfold u. clear.
      f_equal; [f_equal; [f_equal|]|]; as_real; ring. }
    assert (N : unit_quaternion (q_mul d (q_conj q))).
    { destruct q as [w i j k], d as [a b c e]. unfold unit_quaternion, q_mul, q_conj in *. cbn [qw qi qj qk] in *.
      transitivity ((a * a + b * b + c * c + e * e) * (w * w + i * i + j * j + k * k)); [ring|rewrite Uq, Ud; ring]. }
    assert (W : qw _ (q_mul d (q_conj q)) = q_dot d q :> R) by (destruct q as [w i j k], d as [a b c e]; unfold q_mul, q_conj, q_dot; cbn [qw qi qj qk]; as_real; ring).
    destruct (q_mul d (q_conj q)) as [r x y z]. unfold unit_quaternion in N. unfold components in E at 2. cbn [qw qi qj qk] in *. rewrite <- W in Pos. clear W.
    assert (R1 : r <= 1) by nra. assert (Hc : cos (acos r) = r) by (apply cos_acos; lra).
    pose proof (acos_bound r) as Ab. assert (Lt : acos r < PI / 2).
    { destruct (Rle_lt_dec (PI / 2) (acos r)) as [L|L]; [|exact L]. exfalso. assert (cos (acos r) <= cos (PI / 2)) by (apply cos_decr_1; lra). rewrite cos_PI2 in *. lra. }
    assert (Sp : 0 <= sin (acos r)) by (apply sin_ge_0; lra). pose proof (sin2_cos2 (acos r)) as Q. unfold Rsqr in Q. rewrite Hc in Q.
    assert (Tw : 2 * acos r / 2 = acos r) by field.
    destruct (Req_dec (sin (acos r)) 0) as [Z|Z].
    - exists 1, 0, 0, (2 * acos r). rewrite Tw, Hc, Z. split; [cbn [unit_axis]; ring|]. split; [lra|]. rewrite E. rewrite Z in Q. f_equal.
      assert (x = 0) by nra. assert (y = 0) by nra. assert (z = 0) by nra. subst. f_equal; [f_equal; [f_equal|]|]; as_real; ring.
    - exists (x / sin (acos r)), (y / sin (acos r)), (z / sin (acos r)), (2 * acos r). rewrite Tw, Hc. set (s := sin (acos r)) in *. clearbody s.
      split; [cbn [unit_axis]; transitivity ((x * x + y * y + z * z) / (s * s)); [field; exact Z|]; replace (x * x + y * y + z * z) with (s * s) by lra; field; exact Z|].
      split; [lra|]. rewrite E. f_equal. f_equal; [f_equal; [f_equal|]|]; symmetry; as_real; field; exact Z. }
  destruct (Rlt_dec 0 (q_dot d q)) as [L|L].
  - destruct (G d Ud L) as (n1 & n2 & n3 & t & A & B & C). exists (n1, n2, n3), t. split; [exact A|]. split; [exact B|]. left. exact C.
  - destruct (G (q_neg d)) as (n1 & n2 & n3 & t & A & B & C).
    + destruct d as [a b c e]. unfold unit_quaternion, q_neg in *. cbn [qw qi qj qk] in *. lra.
    + assert (X : q_dot (q_neg d) q = - q_dot d q) by (destruct q as [w i j k], d as [a b c e]; unfold q_dot, q_neg; cbn [qw qi qj qk]; ring). rewrite X.
      destruct (Rdichotomy _ _ Nz); [lra|contradiction].
    + exists (n1, n2, n3), t. split; [exact A|]. split; [exact B|]. right. exact C.
Qed.
Print Assumptions C73_apart.
