(** C41 in binary64: the generator with the arithmetic of the program. *)
From Coq Require Import List ZArith NArith Bool.
From Flocq Require Import IEEE754.Binary IEEE754.Bits.
From Verif Require Import NumOps NumFloat MotionModel.
Import ListNotations.

Definition all7 (z : Z) : list (F float) := repeat (f_int float z) 7.

(** Test: the values listed in the unit test in /repo/src/utils.rs 209-317 (ten digits, one of the seven equal joints). *)
Definition expected : list Z := [0; 5530250639; 39797560667; 119316767252; 247269374226; 413503552091; 594617125921; 759517111365; 885383294079; 962671162562; 995169538648; 1000000000000]%Z.
Definition close (e : Z) (o : list (F float) * bool) : bool :=
  forallb (fun x => f_lt float (f_abs float (f_sub float x (f_lit float e 1000000000000))) (f_lit float 1 10000000000)) (fst o).
Example generator_test :
  let out := generate float (generator_new float (f_int float 1) (all7 1)) ((all7 0, f_int float 0) :: repeat (all7 9, f_lit float 1 10) 11) in
  map2 close expected out = repeat true 12 /\ map snd out = repeat false 11 ++ [true].
Proof. vm_compute. split; reflexivity. Qed.

(** C41: with the speed factor 0, which the documentation allows, the very first command is the goal itself. *)
Theorem C41_zero_speed_refuted : exists goal q0,
  map bits q0 = repeat 0%N 7 /\ map bits goal = repeat 0x3ff0000000000000%N 7 /\
  map (fun o => (map bits (fst o), snd o)) (generate float (generator_new float (f_int float 0) goal) [(q0, f_int float 0)]) =
    [(repeat 0x3ff0000000000000%N 7, true)].
Proof. exists (all7 1), (all7 0). split; [vm_compute; reflexivity|]. split; vm_compute; reflexivity. Qed.
Print Assumptions C41_zero_speed_refuted.
