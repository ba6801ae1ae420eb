(** The arithmetic of the program: IEEE-754 binary64, rounding to nearest even (Flocq). *)
From Coq Require Import List ZArith NArith Bool Reals Lra Lia.
From Flocq Require Import Core IEEE754.BinarySingleNaN IEEE754.Binary IEEE754.Bits.
From Verif Require Import NumOps.
Open Scope Z_scope.

Definition b64_lt (x y : binary64) : bool :=
  match b64_compare x y with Some Lt => true | _ => false end.
Definition b64_eq (x y : binary64) : bool :=
  match b64_compare x y with Some Eq => true | _ => false end.
Definition b64_nan (x : binary64) : bool := Binary.is_nan 53 1024 x.
Definition b64_fin (x : binary64) : bool := Binary.is_finite 53 1024 x.
(** An integer of magnitude below 2^53. *)
Definition b64_int (z : Z) : binary64 := b64_of_bits
  (match z with
   | Z0 => 0
   | Zpos p | Zneg p =>
       let e := Z.log2 (Zpos p) in
       (if z <? 0 then 2 ^ 63 else 0) + (1023 + e) * 2 ^ 52 + (Zpos p * 2 ^ (52 - e) - 2 ^ 52)
   end).

(** f64::min / f64::max: a NaN argument is ignored.  Which of two zeros is returned is
    unspecified by Rust; here the first. *)
Definition float : num := {|
  F := binary64;
  f_add := b64_plus mode_NE; f_sub := b64_minus mode_NE; f_mul := b64_mult mode_NE; f_div := b64_div mode_NE;
  f_neg := b64_opp; f_sqrt := b64_sqrt mode_NE;
  f_min := fun x y => if b64_nan x then y else if b64_nan y then x else if b64_lt y x then y else x;
  f_max := fun x y => if b64_nan x then y else if b64_nan y then x else if b64_lt x y then y else x;
  f_abs := b64_abs;
  f_lt := b64_lt; f_eq := b64_eq;
  f_finite := b64_fin;
  f_sign_positive := fun x => negb (Bsign 53 1024 x);
  f_int := b64_int;
  f_pi := b64_of_bits 0x400921FB54442D18
|}.

Definition bits (x : binary64) : N := Z.to_N (bits_of_b64 x).
Definition of_bits (n : N) : binary64 := b64_of_bits (Z.of_N n).
Example int_1000 : bits (b64_int 1000) = 0x408f400000000000%N /\ bits (b64_int 1) = 0x3ff0000000000000%N /\
  bits (f_lit float 1 1000) = 0x3f50624dd2f1a9fc%N /\ bits (b64_int (-2)) = 0xc000000000000000%N /\ bits (b64_int 0) = 0%N.
Proof. vm_compute. auto. Qed.
