(** What commands of well-typed programs have to look like, on bit patterns. *)
From Coq Require Import List NArith ZArith Bool.
From Verif Require Import WireModel RobotModel.
Import ListNotations.
Open Scope N_scope.

(** A bit pattern of a finite double: the exponent field is not all ones. *)
Definition finite_bits (b : N) : Prop := b < 2 ^ 64 /\ (b / 2 ^ 52) mod 2 ^ 11 <> 2 ^ 11 - 1.
Definition one_bits : N := 0x3ff0000000000000.
Definition minus_one_bits : N := 0xbff0000000000000.
(** Every number of a motion command. *)
Definition motion_numbers (m : motion_command) : list N :=
  mc_q_c m ++ mc_dq_c m ++ mc_O_T_EE_c m ++ mc_O_dP_EE_c m ++ mc_elbow_c m.

Definition elbow_valid (m : motion_command) : Prop :=
  if mc_valid_elbow m
  then exists angle sign, mc_elbow_c m = [angle; sign] /\ (sign = one_bits \/ sign = minus_one_bits)
  else mc_elbow_c m = [0; 0].

(** Numbers which a motion of kind [g] does not use are zero. *)
Definition unused_zero (g : move_mg) (m : motion_command) : Prop :=
  (g <> MmJointPosition -> mc_q_c m = repeat 0 7) /\
  (g <> MmJointVelocity -> mc_dq_c m = repeat 0 7) /\
  (g <> MmCartesianPosition -> mc_O_T_EE_c m = repeat 0 16) /\
  (g <> MmCartesianVelocity -> mc_O_dP_EE_c m = repeat 0 6) /\
  (g = MmJointPosition \/ g = MmJointVelocity -> mc_elbow_c m = [0; 0] /\ mc_valid_elbow m = false).

(** The numbers a motion of kind [g] is about, and how many there are. *)
Definition own_values (g : move_mg) (m : motion_command) : list N :=
  match g with
  | MmJointPosition => mc_q_c m
  | MmJointVelocity => mc_dq_c m
  | MmCartesianPosition => mc_O_T_EE_c m
  | MmCartesianVelocity => mc_O_dP_EE_c m
  end.
Definition dimension (g : move_mg) : nat :=
  match g with MmJointPosition | MmJointVelocity => 7 | MmCartesianPosition => 16 | MmCartesianVelocity => 6 end.
