(** Ideal arithmetic: the operations on real numbers. *)
From Coq Require Import List ZArith Bool Reals Lra.
From Verif Require Import NumOps.
Open Scope R_scope.

(** Without rounding, infinities and NaN: every value is finite; the sign of zero is positive. *)
Definition real : num := {|
  F := R;
  f_add := Rplus; f_sub := Rminus; f_mul := Rmult; f_div := Rdiv; f_neg := Ropp; f_sqrt := sqrt;
  f_min := Rmin; f_max := Rmax; f_abs := Rabs;
  f_lt := fun x y => if Rlt_dec x y then true else false;
  f_eq := fun x y => if Req_EM_T x y then true else false;
  f_finite := fun _ => true;
  f_sign_positive := fun x => if Rle_dec 0 x then true else false;
  f_int := IZR; f_pi := PI
|}.

Lemma real_all_finite : forall l, all_finite real l = true.
Proof. induction l as [|a l IH]; [reflexivity|exact IH]. Qed.
