(** C66: the constants of the rate limiters. *)
From Coq Require Import List NArith ZArith Bool Lia Lra Reals.
From Flocq Require Import Core IEEE754.BinarySingleNaN IEEE754.Binary IEEE754.Bits.
From Verif Require Import NumOps NumFloat FloatFacts RateModel.
Import ListNotations.
Open Scope Z_scope.

(** Limits of the robot as documented by the manufacturer, in thousandths (rad, m and Nm; per second, per second squared,
    per second cubed): velocity, acceleration and jerk of the joints, of translation, rotation and elbow; rate of torques. *)
Definition documented : list Z :=
  [2175; 2175; 2175; 2175; 2610; 2610; 2610; 15000; 7500; 10000; 12500; 15000; 20000; 20000;
   7500000; 3750000; 5000000; 6250000; 7500000; 10000000; 10000000;
   2000; 13000; 6500000; 2500; 25000; 12500000; 2175; 10000; 5000000;
   1000000; 1000000; 1000000; 1000000; 1000000; 1000000; 1000000].
Definition constants : list binary64 :=
  MAX_JOINT_VELOCITY float ++ MAX_JOINT_ACCELERATION float ++ MAX_JOINT_JERK float ++
  [MAX_TRANSLATIONAL_VELOCITY float; MAX_TRANSLATIONAL_ACCELERATION float; MAX_TRANSLATIONAL_JERK float;
   MAX_ROTATIONAL_VELOCITY float; MAX_ROTATIONAL_ACCELERATION float; MAX_ROTATIONAL_JERK float;
   MAX_ELBOW_VELOCITY float; MAX_ELBOW_ACCELERATION float; MAX_ELBOW_JERK float] ++ MAX_TORQUE_RATE float.
(** Finite, and below the limit by 0.0009 to 0.00103. *)
Definition just_below (c : binary64) (limit : Z) : Prop :=
  b64_fin c = true /\ (IZR limit / 1000 - 103/100000 <= val c <= IZR limit / 1000 - 90/100000)%R.

Definition below (c : full_float) (limit : Z) : bool :=
  match c with
  | F754_finite false m e => (e <=? 0) && ((limit * 100 - 103) * 2 ^ (- e) <=? Zpos m * 100000) && (Zpos m * 100000 <=? (limit * 100 - 90) * 2 ^ (- e))
  | _ => false
  end.
Lemma below_ok : forall c l, below (Binary.B2FF 53 1024 c) l = true -> just_below c l.
Proof.
  intros c l H. destruct (Binary.B2FF 53 1024 c) as [| | |[|] m e] eqn:E; try discriminate H. cbn [below] in H.
  apply andb_prop in H. destruct H as [H H3]. apply andb_prop in H. destruct H as [H1 H2]. apply Zle_bool_imp_le in H1. apply Zle_bool_imp_le in H2. apply Zle_bool_imp_le in H3.
  destruct (val_finite c false m e E) as [F V]. split; [exact F|]. rewrite V. cbn [cond_Zopp].
  apply IZR_le in H2. apply IZR_le in H3. rewrite !mult_IZR, !minus_IZR, !mult_IZR in H2, H3.
  assert (P : (bpow radix2 e * IZR (2 ^ (- e)) = 1)%R).
  { replace (IZR (2 ^ (- e))) with (bpow radix2 (- e)); [rewrite <- bpow_plus; replace (e + - e) with 0 by lia; reflexivity|].
    rewrite <- IZR_Zpower by lia. reflexivity. }
  pose proof (bpow_gt_0 radix2 e) as B. set (b := bpow radix2 e) in *. set (p := IZR (2 ^ (- e))) in *. clearbody b p.
  set (x := IZR (Zpos m)) in *. clearbody x. set (y := IZR l) in *. clearbody y.
  apply (Rmult_le_compat_r b) in H2; [|lra]. apply (Rmult_le_compat_r b) in H3; [|lra].
  replace ((y * 100 - 103) * p * b)%R with ((y * 100 - 103) * (b * p))%R in H2 by ring. replace ((y * 100 - 90) * p * b)%R with ((y * 100 - 90) * (b * p))%R in H3 by ring.
  rewrite P in H2, H3. lra.
Qed.
Lemma below_all : forall cs ls, length cs = length ls -> forallb (fun p => below (fst p) (snd p)) (combine (map (Binary.B2FF 53 1024) cs) ls) = true -> Forall2 just_below cs ls.
Proof.
  induction cs as [|c cs IH]; intros [|l ls] L H; try discriminate L; [constructor|]. cbn [map combine forallb fst snd] in H. apply andb_prop in H. destruct H as [H1 H2].
  constructor; [apply below_ok, H1|apply IH; [injection L; auto|exact H2]].
Qed.
(** C66: every constant used by the rate limiters is below the limit of the robot it stands for, and close to it. *)
Theorem C66_constants : Forall2 just_below constants documented.
Proof. apply below_all; [reflexivity|vm_compute; reflexivity]. Qed.
Print Assumptions C66_constants.
(** 37 constants. *)
Example C66_ex : length constants = 37%nat /\ length documented = 37%nat.
Proof. split; reflexivity. Qed.
