(** The arithmetic used by the numeric code, as a record of operations on f64 values.  It is
    instantiated with the real numbers in NumReal.v (ideal arithmetic) and with IEEE-754 binary64
    in NumFloat.v (the arithmetic of the program). *)
From Coq Require Import List ZArith.
Import ListNotations.

Record num := Num {
  F : Type;
  f_add : F -> F -> F;
  f_sub : F -> F -> F;
  f_mul : F -> F -> F;
  f_div : F -> F -> F;
  f_neg : F -> F;
  f_sqrt : F -> F;
  (* f64::min and f64::max: a NaN argument is ignored *)
  f_min : F -> F -> F;
  f_max : F -> F -> F;
  f_abs : F -> F;
  (* comparisons are false on NaN *)
  f_lt : F -> F -> bool;
  f_eq : F -> F -> bool;
  f_finite : F -> bool;
  f_sign_positive : F -> bool;
  (* an integer, exactly representable *)
  f_int : Z -> F;
  (* std::f64::consts::PI *)
  f_pi : F
}.

Section Derived.
  Variable O : num.
  (** A decimal literal n / d (f64 literals are correctly rounded, and so is the division of two
      exactly representable integers). *)
  Definition f_lit (n d : Z) : F O := f_div O (f_int O n) (f_int O d).
  (** x.powf(2.): taken to be the rounded product. *)
  Definition f_sqr (x : F O) : F O := f_mul O x x.
  (** x > y *)
  Definition f_gt (x y : F O) : bool := f_lt O y x.
  (** "assert!" over the elements of an array *)
  Definition all_finite (l : list (F O)) : bool := forallb (f_finite O) l.
End Derived.

(** The index loops "for i in 0..n" over arrays of equal length. *)
Fixpoint map2 {A B C} (f : A -> B -> C) (l : list A) (m : list B) : list C :=
  match l, m with a :: l, b :: m => f a b :: map2 f l m | _, _ => [] end.
(** The same with a body which can panic. *)
Fixpoint sequence {A} (l : list (option A)) : option (list A) :=
  match l with
  | [] => Some []
  | Some a :: l => match sequence l with Some r => Some (a :: r) | None => None end
  | None :: _ => None
  end.
