(** The joint motion generator in binary64: relative errors of its plan, bounds of its values. *)
From Coq Require Import List NArith ZArith Bool Lia Lra Arith Reals.
From Flocq Require Import Core Relative IEEE754.BinarySingleNaN IEEE754.Binary IEEE754.Bits.
From Verif Require Import NumOps NumFloat FloatFacts SizeFacts TwistFloats.
Import ListNotations.
Open Scope R_scope.

(** * Relative errors: x is r up to k units of 2^-52 *)
Definition u : R := / 4503599627370496.
Definition rel (k : R) (x : binary64) (r : R) : Prop := b64_fin x = true /\ exists d, val x = r * (1 + d) /\ Rabs d <= k * u.
Definition normal (r : R) : Prop := bpow radix2 (-900) <= Rabs r <= bpow radix2 900.

Lemma rel_rnd : forall x, bpow radix2 (-950) <= Rabs x -> exists d, rnd x = x * (1 + d) /\ Rabs d <= eps.
Proof.
  intros x H. destruct (relative_error_N_FLT_ex radix2 (-1074) 53 eq_refl (fun z => negb (Z.even z)) x) as (d & D & E).
  - eapply Rle_trans; [|exact H]. apply bpow_le. lia.
  - exists d. split; [exact E|]. eapply Rle_trans; [exact D|]. change (bpow radix2 (- (53) + 1)) with (/ 4503599627370496). unfold eps. lra.
Qed.
Lemma prod_near : forall a b A B, Rabs a <= A -> Rabs b <= B -> exists c, (1 + a) * (1 + b) = 1 + c /\ Rabs c <= A + B + A * B.
Proof.
  intros a b A B HA HB. exists (a + b + a * b). split; [ring|]. pose proof (Rabs_pos a). pose proof (Rabs_pos b).
  eapply Rle_trans; [apply Rabs_triang|]. apply Rplus_le_compat; [eapply Rle_trans; [apply Rabs_triang|lra]|].
  rewrite Rabs_mult. apply Rmult_le_compat; lra.
Qed.
Lemma inv_near : forall a A, Rabs a <= A -> A <= / 1000 -> exists c, / (1 + a) = 1 + c /\ Rabs c <= A + 2 * (A * A).
Proof.
  intros a A HA HB. assert (P : 0 < 1 + a) by (revert HA; unfold Rabs; destruct (Rcase_abs a); lra).
  exists (- a / (1 + a)). split; [field; lra|]. unfold Rdiv. rewrite Rabs_mult, Rabs_Ropp, (Rabs_pos_eq (/ (1 + a))) by (left; apply Rinv_0_lt_compat, P).
  pose proof (Rabs_pos a) as PA.
  assert (I : / (1 + a) <= 1 + 2 * A).
  { assert (L : 1 - A <= 1 + a) by (revert HA; unfold Rabs; destruct (Rcase_abs a); lra).
    apply Rle_trans with (/ (1 - A)); [apply Rinv_le; lra|]. apply Rmult_le_reg_r with (1 - A); [lra|]. rewrite Rinv_l by lra. nra. }
  apply Rle_trans with (A * (1 + 2 * A)); [|lra]. apply Rmult_le_compat; [exact PA|left; apply Rinv_0_lt_compat, P|exact HA|exact I].
Qed.
Lemma rel_le : forall k l x r, rel k x r -> k <= l -> rel l x r.
Proof. intros k l x r (F & d & E & D) H. split; [exact F|]. exists d. split; [exact E|]. eapply Rle_trans; [exact D|]. apply Rmult_le_compat_r; [unfold u; lra|exact H]. Qed.
Lemma rel_exact : forall x, b64_fin x = true -> rel 0 x (val x).
Proof. intros x H. split; [exact H|]. exists 0. split; [ring|rewrite Rabs_R0; lra]. Qed.
Lemma normal_factor : forall r d, normal r -> Rabs d <= / 1000 -> bpow radix2 (-950) <= Rabs (r * (1 + d)) <= bpow radix2 901.
Proof.
  intros r d [L H] D. rewrite Rabs_mult. assert (B : / 2 <= Rabs (1 + d) <= 2) by (revert D; unfold Rabs; destruct (Rcase_abs d); destruct (Rcase_abs (1 + d)); lra).
  split.
  - apply Rle_trans with (bpow radix2 (-900) * / 2).
    + change (/ 2) with (bpow radix2 (-1)). rewrite <- bpow_plus. apply bpow_le. lia.
    + apply Rmult_le_compat; [apply bpow_ge_0|lra|exact L|lra].
  - change 901%Z with (900 + 1)%Z. rewrite bpow_plus. change (bpow radix2 1) with 2. apply Rmult_le_compat; [apply Rabs_pos|apply Rabs_pos|exact H|lra].
Qed.
(** One rounding. *)
Lemma rel_round : forall k l r d, normal r -> 0 <= k <= 100000 -> Rabs d <= k * u + l -> 0 <= l <= u / 4 ->
  exists c, rnd (r * (1 + d)) = r * (1 + c) /\ Rabs c <= (k + 1) * u.
Proof.
  intros k l r d N K D L. assert (D' : Rabs d <= / 1000) by (unfold u in *; lra).
  destruct (normal_factor r d N D') as [B _]. destruct (rel_rnd _ B) as (e & E & He). rewrite E.
  destruct (prod_near d e _ _ D He) as (c & C & Hc). exists c. split; [rewrite Rmult_assoc, C; reflexivity|].
  eapply Rle_trans; [exact Hc|]. unfold u, eps in *. nra.
Qed.
Lemma rel_mul : forall k l x y r s, rel k x r -> rel l y s -> 0 <= k <= 10000 -> 0 <= l <= 10000 -> normal (r * s) ->
  rel (k + l + 1) (b64_mult mode_NE x y) (r * s).
Proof.
  intros k l x y r s (Fx & d & Ex & Dx) (Fy & e & Ey & Dy) K L N.
  destruct (prod_near d e _ _ Dx Dy) as (c & C & Hc).
  assert (P : val x * val y = r * s * (1 + c)) by (rewrite Ex, Ey, <- C; ring).
  assert (Hq : Rabs c <= (k + l) * u + u / 4) by (unfold u in *; nra).
  destruct (mult_ok x y 901 Fx Fy ltac:(lia)) as [Fz Vz].
  { rewrite P. apply normal_factor; [exact N|]. unfold u in *. lra. }
  destruct (rel_round (k + l) (u / 4) (r * s) c N) as (z & Z & Hz); [lra|exact Hq|unfold u; lra|].
  split; [exact Fz|]. exists z. rewrite Vz, P. auto.
Qed.
Lemma rel_div : forall k l x y r s, rel k x r -> rel l y s -> 0 <= k <= 10000 -> 0 <= l <= 10000 -> s <> 0 -> normal (r / s) ->
  rel (k + l + 1) (b64_div mode_NE x y) (r / s).
Proof.
  intros k l x y r s (Fx & d & Ex & Dx) (Fy & e & Ey & Dy) K L S N.
  assert (U : l * u <= / 1000) by (unfold u; lra).
  destruct (inv_near e _ Dy U) as (e' & E' & He'). destruct (prod_near d e' _ _ Dx He') as (c & C & Hc).
  assert (Pe : 1 + e <> 0) by (revert Dy; unfold Rabs; destruct (Rcase_abs e); unfold u in *; lra).
  assert (P : val x / val y = r / s * (1 + c)) by (rewrite Ex, Ey, <- C, <- E'; field; auto).
  assert (Hq : Rabs c <= (k + l) * u + u / 4) by (unfold u in *; nra).
  destruct (div_ok x y 901 Fx Fy) as [Fz Vz].
  { rewrite Ey. apply Rmult_integral_contrapositive_currified; assumption. }
  { lia. }
  { rewrite P. apply normal_factor; [exact N|]. unfold u in *. lra. }
  destruct (rel_round (k + l) (u / 4) (r / s) c N) as (z & Z & Hz); [lra|exact Hq|unfold u; lra|].
  split; [exact Fz|]. exists z. rewrite Vz, P. auto.
Qed.
Lemma rel_add : forall k x y r s, rel k x r -> rel k y s -> 0 <= k <= 10000 -> 0 <= r -> 0 <= s -> normal (r + s) ->
  rel (k + 1) (b64_plus mode_NE x y) (r + s).
Proof.
  intros k x y r s (Fx & d & Ex & Dx) (Fy & e & Ey & Dy) K R S N.
  assert (P0 : 0 < r + s) by (destruct N as [N _]; pose proof (bpow_gt_0 radix2 (-900)); revert N; rewrite Rabs_pos_eq by lra; lra).
  set (c := (r * d + s * e) / (r + s)). assert (P : val x + val y = (r + s) * (1 + c)) by (rewrite Ex, Ey; unfold c; field; lra).
  assert (Hc : Rabs c <= k * u).
  { unfold c, Rdiv. rewrite Rabs_mult, (Rabs_pos_eq (/ _)) by (left; apply Rinv_0_lt_compat, P0). apply div_le; [exact P0|].
    eapply Rle_trans; [apply Rabs_triang|]. rewrite !Rabs_mult, (Rabs_pos_eq r), (Rabs_pos_eq s) by assumption. nra. }
  destruct (plus_ok x y 901 Fx Fy ltac:(lia)) as [Fz Vz].
  { rewrite P. apply normal_factor; [exact N|]. unfold u in *. lra. }
  destruct (rel_round k (u / 4) (r + s) c N) as (z & Z & Hz); [lra|unfold u in *; lra|unfold u; lra|].
  split; [exact Fz|]. exists z. rewrite Vz, P. auto.
Qed.
Lemma sqrt_near : forall d A, Rabs d <= A -> A <= / 1000 -> exists c, sqrt (1 + d) = 1 + c /\ Rabs c <= A.
Proof.
  intros d A D L. exists (sqrt (1 + d) - 1). split; [ring|]. assert (- A <= d <= A) by (revert D; unfold Rabs; destruct (Rcase_abs d); lra).
  apply Rabs_le. split.
  - apply Rle_trans with (sqrt ((1 - A) * (1 - A)) - 1); [rewrite sqrt_square by lra; lra|]. apply Rplus_le_compat_r, sqrt_le_1; nra.
  - apply Rle_trans with (sqrt ((1 + A) * (1 + A)) - 1); [|rewrite sqrt_square by lra; lra]. apply Rplus_le_compat_r, sqrt_le_1; nra.
Qed.
Lemma rel_sqrt : forall k x r, rel k x r -> 0 <= k <= 10000 -> 0 < r -> normal (sqrt r) -> rel (k + 1) (b64_sqrt mode_NE x) (sqrt r).
Proof.
  intros k x r (Fx & d & Ex & Dx) K R N. assert (U : k * u <= / 1000) by (unfold u; lra).
  assert (P1 : 0 <= 1 + d) by (revert Dx; unfold Rabs; destruct (Rcase_abs d); unfold u in *; lra).
  destruct (sqrt_of x Fx) as [Fz Vz]; [rewrite Ex; apply Rmult_le_pos; lra|].
  destruct (sqrt_near d _ Dx U) as (c & C & Hc).
  split; [exact Fz|]. rewrite Vz, Ex, sqrt_mult by lra. rewrite C.
  destruct (rel_round k (u / 4) (sqrt r) c N) as (z & Z & Hz); [lra|unfold u in *; lra|unfold u; lra|]. exists z. auto.
Qed.
Lemma rel_abs : forall k x r, rel k x r -> 0 <= k <= 10000 -> rel k (b64_abs x) (Rabs r).
Proof.
  intros k x r (Fx & d & Ex & Dx) K. split; [unfold b64_fin, b64_abs in *; rewrite Binary.is_finite_Babs; exact Fx|]. exists d. split; [|exact Dx].
  unfold val, b64_abs. rewrite Binary.B2R_Babs. fold (val x). rewrite Ex, Rabs_mult. f_equal. apply Rabs_pos_eq.
  revert Dx; unfold Rabs; destruct (Rcase_abs d); unfold u in *; lra.
Qed.
Lemma rel_bounds : forall k x r, rel k x r -> 0 <= k <= 10000 -> 0 <= r -> r * (1 - / 100000000000) <= val x <= r * (1 + / 100000000000).
Proof.
  intros k x r (_ & d & E & D) K R. rewrite E. assert (- / 100000000000 <= d <= / 100000000000).
  { revert D; unfold Rabs; destruct (Rcase_abs d); unfold u in *; lra. }
  split; apply Rmult_le_compat_l; lra.
Qed.

(** * The same with a range, which excludes overflow and underflow *)
Definition mid (n : Z) (r : R) : Prop := bpow radix2 (- n) <= Rabs r <= bpow radix2 n.
Definition relm (k : R) (n : Z) (x : binary64) (r : R) : Prop := rel k x r /\ mid n r /\ (0 <= n)%Z /\ 0 <= k.
Lemma mid_le : forall n m r, mid n r -> (n <= m)%Z -> mid m r.
Proof. intros n m r [L H] E. split; [eapply Rle_trans; [|exact L]|eapply Rle_trans; [exact H|]]; apply bpow_le; lia. Qed.
Lemma mid_normal : forall n r, mid n r -> (n <= 900)%Z -> normal r.
Proof. intros n r H E. apply (mid_le n 900 r H E). Qed.
Lemma mid_mul : forall n m r s, mid n r -> mid m s -> mid (n + m) (r * s).
Proof.
  intros n m r s [L H] [L' H']. unfold mid. rewrite Z.opp_add_distr, !bpow_plus, Rabs_mult.
  split; apply Rmult_le_compat; try apply bpow_ge_0; try apply Rabs_pos; assumption.
Qed.
Lemma mid_nz : forall n r, mid n r -> r <> 0.
Proof. intros n r [L _] ->. rewrite Rabs_R0 in L. pose proof (bpow_gt_0 radix2 (- n)). lra. Qed.
Lemma mid_inv : forall n r, mid n r -> mid n (/ r).
Proof.
  intros n r M. pose proof (mid_nz n r M) as Z. destruct M as [L H]. pose proof (bpow_gt_0 radix2 (- n)). pose proof (bpow_gt_0 radix2 n).
  unfold mid. rewrite Rabs_inv. rewrite bpow_opp in *. split.
  - apply Rinv_le; [lra|exact H].
  - rewrite <- (Rinv_inv (bpow radix2 n)). apply Rinv_le; [apply Rinv_0_lt_compat; lra|exact L].
Qed.
Lemma mid_div : forall n m r s, mid n r -> mid m s -> mid (n + m) (r / s).
Proof. intros n m r s H H'. apply mid_mul; [exact H|apply mid_inv, H']. Qed.
Lemma mid_add : forall n m r s, mid n r -> mid m s -> 0 <= r -> 0 <= s -> (0 <= n)%Z -> (0 <= m)%Z -> mid (n + m + 1) (r + s).
Proof.
  intros n m r s [L H] [L' H'] R S N M. unfold mid. rewrite Rabs_pos_eq in * by lra. split.
  - apply Rle_trans with (bpow radix2 (- n)); [apply bpow_le; lia|lra].
  - rewrite <- double. apply Rplus_le_compat; [eapply Rle_trans; [exact H|apply bpow_le; lia]|eapply Rle_trans; [exact H'|apply bpow_le; lia]].
Qed.
Lemma mid_sqrt : forall n r, mid n r -> 0 < r -> (0 <= n)%Z -> mid n (sqrt r).
Proof.
  intros n r [L H] R N. unfold mid. rewrite Rabs_pos_eq in * by (try apply sqrt_pos; lra).
  assert (Q : forall e, bpow radix2 e * bpow radix2 e = bpow radix2 (e + e)) by (intros e; rewrite bpow_plus; reflexivity).
  split.
  - rewrite <- (sqrt_square (bpow radix2 (- n))) by apply bpow_ge_0. apply sqrt_le_1_alt. rewrite Q. eapply Rle_trans; [|exact L]. apply bpow_le. lia.
  - rewrite <- (sqrt_square (bpow radix2 n)) by apply bpow_ge_0. apply sqrt_le_1_alt. rewrite Q. eapply Rle_trans; [exact H|]. apply bpow_le. lia.
Qed.
Lemma relm_mul : forall k l n m x y r s, relm k n x r -> relm l m y s -> k <= 10000 -> l <= 10000 -> (n + m <= 900)%Z ->
  relm (k + l + 1) (n + m) (b64_mult mode_NE x y) (r * s).
Proof.
  intros k l n m x y r s (R & M & N & K) (R' & M' & N' & K') Hk Hl E. pose proof (mid_mul _ _ _ _ M M') as P.
  split; [apply rel_mul; try assumption; try lra; eapply mid_normal; [exact P|exact E]|]. split; [exact P|]. split; [lia|lra].
Qed.
Lemma relm_div : forall k l n m x y r s, relm k n x r -> relm l m y s -> k <= 10000 -> l <= 10000 -> (n + m <= 900)%Z ->
  relm (k + l + 1) (n + m) (b64_div mode_NE x y) (r / s).
Proof.
  intros k l n m x y r s (R & M & N & K) (R' & M' & N' & K') Hk Hl E. pose proof (mid_div _ _ _ _ M M') as P.
  split; [apply rel_div; try assumption; try lra; [eapply mid_nz, M'|eapply mid_normal; [exact P|exact E]]|]. split; [exact P|]. split; [lia|lra].
Qed.
Lemma relm_add : forall k l n m x y r s, relm k n x r -> relm l m y s -> 0 <= r -> 0 <= s -> k + l <= 10000 -> (n + m <= 890)%Z ->
  relm (k + l + 1) (n + m + 1) (b64_plus mode_NE x y) (r + s).
Proof.
  intros k l n m x y r s (R & M & N & K) (R' & M' & N' & K') Pr Ps Hk E. pose proof (mid_add _ _ _ _ M M' Pr Ps N N') as P.
  split; [apply rel_add; try assumption; try lra; [apply (rel_le k); [exact R|lra]|apply (rel_le l); [exact R'|lra]|eapply mid_normal; [exact P|lia]]|].
  split; [exact P|]. split; [lia|lra].
Qed.
Lemma relm_sqrt : forall k n x r, relm k n x r -> 0 < r -> k <= 10000 -> (n <= 900)%Z -> relm (k + 1) n (b64_sqrt mode_NE x) (sqrt r).
Proof.
  intros k n x r (R & M & N & K) P Hk E. pose proof (mid_sqrt _ _ M P N) as Q.
  split; [apply rel_sqrt; try assumption; try lra; eapply mid_normal; [exact Q|exact E]|]. split; [exact Q|]. split; [lia|lra].
Qed.
Lemma relm_abs : forall k n x r, relm k n x r -> k <= 10000 -> relm k n (b64_abs x) (Rabs r).
Proof.
  intros k n x r (R & M & N & K) Hk. split; [apply rel_abs; [exact R|lra]|]. split; [unfold mid; rewrite Rabs_Rabsolu; exact M|]. auto.
Qed.
Lemma relm_exact : forall n x, b64_fin x = true -> mid n (val x) -> (0 <= n)%Z -> relm 0 n x (val x).
Proof. intros n x F M N. split; [apply rel_exact, F|]. split; [exact M|]. split; [exact N|lra]. Qed.
Lemma mid_of : forall n r, / IZR (2 ^ n) <= Rabs r <= IZR (2 ^ n) -> (0 <= n)%Z -> mid n r.
Proof.
  intros n r [L H] N. unfold mid. rewrite bpow_opp. rewrite <- (IZR_Zpower radix2 n) by exact N. split; assumption.
Qed.
Lemma small_int : forall z m e, Binary.B2FF 53 1024 (b64_int z) = F754_finite false m e -> IZR z = IZR (Zpos m) * bpow radix2 e ->
  (0 < z <= 16)%Z -> relm 0 4 (f_int float z) (IZR z).
Proof.
  intros z m e H E Hz. destruct (val_finite _ _ _ _ H) as [F V]. cbn [cond_Zopp] in V. rewrite <- E in V. rewrite <- V.
  apply relm_exact; [exact F|rewrite V|lia]. apply mid_of; [|lia]. change (2 ^ 4)%Z with 16%Z. assert (1 <= IZR z <= 16) by (split; apply IZR_le; lia).
  rewrite Rabs_pos_eq; lra.
Qed.
Lemma int_1 : relm 0 4 (f_int float 1) 1.
Proof. apply (small_int 1 4503599627370496 (-52)); [vm_compute; reflexivity|change (bpow radix2 (-52)) with (/ 4503599627370496); lra|lia]. Qed.
Lemma int_2 : relm 0 4 (f_int float 2) 2.
Proof. apply (small_int 2 4503599627370496 (-51)); [vm_compute; reflexivity|change (bpow radix2 (-51)) with (/ 2251799813685248); lra|lia]. Qed.
Lemma int_3 : relm 0 4 (f_int float 3) 3.
Proof. apply (small_int 3 6755399441055744 (-51)); [vm_compute; reflexivity|change (bpow radix2 (-51)) with (/ 2251799813685248); lra|lia]. Qed.
Lemma int_4 : relm 0 4 (f_int float 4) 4.
Proof. apply (small_int 4 4503599627370496 (-50)); [vm_compute; reflexivity|change (bpow radix2 (-50)) with (/ 1125899906842624); lra|lia]. Qed.
Lemma int_5 : relm 0 4 (f_int float 5) 5.
Proof. apply (small_int 5 5629499534213120 (-50)); [vm_compute; reflexivity|change (bpow radix2 (-50)) with (/ 1125899906842624); lra|lia]. Qed.
Lemma literal : forall x s m e r, Binary.B2FF 53 1024 x = F754_finite s m e -> r = IZR (cond_Zopp s (Zpos m)) * bpow radix2 e -> / 16 <= Rabs r <= 16 -> relm 0 4 x r.
Proof.
  intros x s m e r H E B. destruct (val_finite _ _ _ _ H) as [F V]. rewrite <- E in V. rewrite <- V in *.
  apply relm_exact; [exact F| |lia]. apply mid_of; [|lia]. change (2 ^ 4)%Z with 16%Z. lra.
Qed.
Lemma lit_32 : relm 0 4 (f_lit float 3 2) (3 / 2).
Proof. apply (literal _ false 6755399441055744 (-52)); [vm_compute; reflexivity|cbn [cond_Zopp]; change (bpow radix2 (-52)) with (/ 4503599627370496); lra|rewrite Rabs_pos_eq; lra]. Qed.
Lemma lit_12 : relm 0 4 (f_lit float 1 2) (1 / 2).
Proof. apply (literal _ false 4503599627370496 (-53)); [vm_compute; reflexivity|cbn [cond_Zopp]; change (bpow radix2 (-53)) with (/ 9007199254740992); lra|rewrite Rabs_pos_eq; lra]. Qed.
Lemma lit_20_10 : relm 0 4 (f_lit float 20 10) 2.
Proof. apply (literal _ false 4503599627370496 (-51)); [vm_compute; reflexivity|cbn [cond_Zopp]; change (bpow radix2 (-51)) with (/ 2251799813685248); lra|rewrite Rabs_pos_eq; lra]. Qed.
Lemma lit_20_8 : relm 0 4 (f_lit float 20 8) (5 / 2).
Proof. apply (literal _ false 5629499534213120 (-51)); [vm_compute; reflexivity|cbn [cond_Zopp]; change (bpow radix2 (-51)) with (/ 2251799813685248); lra|rewrite Rabs_pos_eq; lra]. Qed.
Lemma int_m1 : relm 0 4 (f_int float (-1)) (-1).
Proof. apply (literal _ true 4503599627370496 (-52)); [vm_compute; reflexivity|cbn [cond_Zopp Z.opp]; change (bpow radix2 (-52)) with (/ 4503599627370496); lra|rewrite Rabs_left; lra]. Qed.
(** [DELTA_Q_MOTION_FINISHED] *)
Lemma finished_val : b64_fin (f_lit float 1 1000000) = true /\ / 1000001 <= val (f_lit float 1 1000000) <= / 1000000 * (1 + u).
Proof.
  destruct (val_finite (f_lit float 1 1000000) false 4722366482869645 (-72)) as [F V]; [vm_compute; reflexivity|]. split; [exact F|]. rewrite V. cbn [cond_Zopp].
  change (bpow radix2 (-72)) with (/ 4722366482869645213696). unfold u. lra.
Qed.
