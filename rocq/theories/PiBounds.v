(** Bounds of pi, by Machin's series of the standard library. *)
From Coq Require Import Reals Lra Machin Ratan.
Open Scope R_scope.

Lemma pi_bounds : 3141592653589793/1000000000000000 <= PI <= 3141592653589794/1000000000000000.
Proof.
  destruct (PI_2_3_7_ineq 8) as [L U]. cbn [Nat.mul Nat.add] in L, U.
  unfold sum_f_R0, tg_alt, PI_2_3_7_tg, Ratan_seq in L, U. cbn [Nat.mul Nat.add pow INR] in L, U.
  split; lra.
Qed.
