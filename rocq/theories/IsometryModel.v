(** /repo/src/utils.rs 11-21 [array_to_isometry] for any arithmetic: the rotation of a column-major
    pose becomes a unit quaternion.

    The two functions of nalgebra 0.23 (Cargo.toml 82) which it calls are written out here, because
    what they do decides what the pose functions of the library do.  nalgebra is not part of /repo;
    they follow its published source: [Rotation3::from_matrix] is the iteration of Mueller et al.,
    "A Robust Method to Extract the Rotational Part of Deformations", started at the identity, and
    the conversion of a rotation to a quaternion distinguishes four cases.  Cosine and sine are
    parameters. *)
From Coq Require Import List ZArith NArith Bool.
From Verif Require Import NumOps RateModel ConvertModel.
Import ListNotations.

Section Isometry.
  Variable O : num.
  Variables f_cos f_sin : F O -> F O.
  Notation F := (F O).
  Notation vec := (vec O).
  Notation rot := (rot O).
  Declare Scope num_scope.
  Delimit Scope num_scope with num.
  Infix "+" := (f_add O) : num_scope.
  Infix "-" := (f_sub O) : num_scope.
  Infix "*" := (f_mul O) : num_scope.
  Infix "/" := (f_div O) : num_scope.

  (** nalgebra: [Vector3::cross] *)
  Definition v_cross (a b : vec) : vec :=
    Vec O (vy _ a * vz _ b - vz _ a * vy _ b)%num (vz _ a * vx _ b - vx _ a * vz _ b)%num (vx _ a * vy _ b - vy _ a * vx _ b)%num.
  (** nalgebra: the product of two matrices given by their columns *)
  Definition r_mul (a b : rot) : rot :=
    let '(a0, a1, a2) := a in
    let col v := Vec O (vx _ a0 * vx _ v + vx _ a1 * vy _ v + vx _ a2 * vz _ v)%num
                       (vy _ a0 * vx _ v + vy _ a1 * vy _ v + vy _ a2 * vz _ v)%num
                       (vz _ a0 * vx _ v + vz _ a1 * vy _ v + vz _ a2 * vz _ v)%num in
    let '(b0, b1, b2) := b in (col b0, col b1, col b2).
  Definition r_one : rot :=
    let z := f_int O 0 in let e := f_int O 1 in (Vec O e z z, Vec O z e z, Vec O z z e).
  (** f64::EPSILON *)
  Definition EPSILON : F := f_lit O 1 (2 ^ 52).
  (** nalgebra: [Rotation3::from_axis_angle] *)
  Definition from_axis_angle (u : vec) (angle : F) : rot :=
    if f_eq O angle (f_int O 0) then r_one
    else
      let x := vx _ u in let y := vy _ u in let z := vz _ u in
      let s := f_sin angle in let c := f_cos angle in let d := (f_int O 1 - c)%num in
      (Vec O (x * x + (f_int O 1 - x * x) * c)%num (x * y * d + z * s)%num (x * z * d - y * s)%num,
       Vec O (x * y * d - z * s)%num (y * y + (f_int O 1 - y * y) * c)%num (y * z * d + x * s)%num,
       Vec O (x * z * d + y * s)%num (y * z * d - x * s)%num (z * z + (f_int O 1 - z * z) * c)%num).
  (** nalgebra: one round of [Rotation3::from_matrix_eps] with eps = f64::EPSILON; [None] leaves the loop *)
  Definition extract_step (m r : rot) : option rot :=
    let '(m0, m1, m2) := m in let '(r0, r1, r2) := r in
    let axis := v_add O (v_add O (v_cross r0 m0) (v_cross r1 m1)) (v_cross r2 m2) in
    let denom := (v_dot O r0 m0 + v_dot O r1 m1 + v_dot O r2 m2)%num in
    let w := v_unscale O axis (f_abs O denom + EPSILON)%num in
    if f_gt O (v_norm2 O w) (EPSILON * EPSILON)%num
    then Some (r_mul (from_axis_angle (v_normalize O w) (v_norm O w)) r)
    else None.
  (** nalgebra: [Rotation3::from_matrix_eps]: at most [n] rounds *)
  Fixpoint extract (n : nat) (m r : rot) : rot :=
    match n with
    | 0%nat => r
    | S n => match extract_step m r with Some r => extract n m r | None => r end
    end.
  (** nalgebra: [Rotation3::from_matrix]: at most usize::MAX rounds, beginning with the identity *)
  Definition from_matrix (m : rot) : rot := extract (N.to_nat (2 ^ 64 - 1)) m r_one.

  Record quat := Quat { qw : F; qi : F; qj : F; qk : F }.
  (** nalgebra: [UnitQuaternion::from_rotation_matrix] *)
  Definition quat_of (m : rot) : quat :=
    let '(c0, c1, c2) := m in
    let m00 := vx _ c0 in let m10 := vy _ c0 in let m20 := vz _ c0 in
    let m01 := vx _ c1 in let m11 := vy _ c1 in let m21 := vz _ c1 in
    let m02 := vx _ c2 in let m12 := vy _ c2 in let m22 := vz _ c2 in
    let one := f_int O 1 in let two := f_int O 2 in let quarter := f_lit O 1 4 in
    let tr := (m00 + m11 + m22)%num in
    if f_gt O tr (f_int O 0) then
      let d := (f_sqrt O (tr + one) * two)%num in
      Quat (quarter * d)%num ((m21 - m12) / d)%num ((m02 - m20) / d)%num ((m10 - m01) / d)%num
    else if f_gt O m00 m11 && f_gt O m00 m22 then
      let d := (f_sqrt O (one + m00 - m11 - m22) * two)%num in
      Quat ((m21 - m12) / d)%num (quarter * d)%num ((m01 + m10) / d)%num ((m02 + m20) / d)%num
    else if f_gt O m11 m22 then
      let d := (f_sqrt O (one + m11 - m00 - m22) * two)%num in
      Quat ((m02 - m20) / d)%num ((m01 + m10) / d)%num (quarter * d)%num ((m12 + m21) / d)%num
    else
      let d := (f_sqrt O (one + m22 - m00 - m11) * two)%num in
      Quat ((m10 - m01) / d)%num ((m02 + m20) / d)%num ((m12 + m21) / d)%num (quarter * d)%num.
  (** nalgebra: [UnitQuaternion::to_rotation_matrix] *)
  Definition rot_of (q : quat) : rot :=
    let w := qw q in let i := qi q in let j := qj q in let k := qk q in
    let two := f_int O 2 in
    let ww := (w * w)%num in let ii := (i * i)%num in let jj := (j * j)%num in let kk := (k * k)%num in
    let ij := (i * j * two)%num in let wk := (w * k * two)%num in let wj := (w * j * two)%num in
    let ik := (i * k * two)%num in let jk := (j * k * two)%num in let wi := (w * i * two)%num in
    (Vec O (ww + ii - jj - kk)%num (wk + ij)%num (ik - wj)%num,
     Vec O (ij - wk)%num (ww - ii + jj - kk)%num (wi + jk)%num,
     Vec O (wj + ik)%num (jk - wi)%num (ww - ii - jj + kk)%num).

  (** utils.rs 12-16: the upper left part of a column-major array *)
  Definition rotation_columns (a : list F) : rot :=
    let e i := nth i a (f_int O 0) in
    (Vec O (e 0%nat) (e 1%nat) (e 2%nat), Vec O (e 4%nat) (e 5%nat) (e 6%nat), Vec O (e 8%nat) (e 9%nat) (e 10%nat)).
  (** utils.rs 11-21 *)
  Definition array_to_isometry (a : list F) : quat * vec :=
    (quat_of (from_matrix (rotation_columns a)), translation O a).
  (** The rotation matrix of the isometry. *)
  Definition orientation (a : list F) : rot := rot_of (fst (array_to_isometry a)).
End Isometry.
