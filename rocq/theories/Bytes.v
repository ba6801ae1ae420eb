(** Bytes and little-endian integers.

    Mirrors the integer encoding of bincode 1.3 in its default configuration
    (fixed-width, little-endian), which /repo/src/network.rs 392-398
    ([serialize]/[deserialize]) uses.  An [f64] travels as its 64-bit pattern,
    so on the wire it is an integer below 2^64. *)
From Coq Require Import List NArith ZArith Lia Bool Arith.
From Coq Require Import Init.Byte Strings.Byte.
Import ListNotations.
Open Scope N_scope.

(** A byte from a number; only ever applied to numbers below 256. *)
Definition byte_of (n : N) : byte :=
  match of_N n with Some b => b | None => x00 end.

(** Little-endian encoding of [v] in [k] bytes (bincode fixed-width integer). *)
Fixpoint le_bytes (k : nat) (v : N) : list byte :=
  match k with
  | O => []
  | S k' => byte_of (v mod 256) :: le_bytes k' (v / 256)
  end.

(** Value of a little-endian byte string. *)
Fixpoint le_val (l : list byte) : N :=
  match l with
  | [] => 0
  | b :: t => to_N b + 256 * le_val t
  end.

Lemma to_N_lt : forall b, to_N b < 256.
Proof. intros b. pose proof (to_N_bounded b). lia. Qed.

Lemma to_N_byte_of : forall n, n < 256 -> to_N (byte_of n) = n.
Proof.
  intros n H. unfold byte_of. destruct (of_N n) eqn:E.
  - apply to_of_N in E. exact E.
  - apply of_N_None_iff in E. lia.
Qed.

Lemma byte_of_to_N : forall b, byte_of (to_N b) = b.
Proof. intros b. unfold byte_of. rewrite of_to_N. reflexivity. Qed.

Lemma to_N_inj : forall a b, to_N a = to_N b -> a = b.
Proof. intros a b H. rewrite <- (byte_of_to_N a), <- (byte_of_to_N b), H. reflexivity. Qed.

Lemma le_bytes_length : forall k v, length (le_bytes k v) = k.
Proof. induction k; intros; cbn; [reflexivity|]. rewrite IHk. reflexivity. Qed.

Lemma le_val_bound : forall l, le_val l < 256 ^ N.of_nat (length l).
Proof.
  induction l as [|b l IH].
  - cbn. lia.
  - cbn [le_val length]. rewrite Nat2N.inj_succ, N.pow_succ_r'.
    pose proof (to_N_lt b). nia.
Qed.

Lemma le_val_bytes : forall k v, v < 256 ^ N.of_nat k -> le_val (le_bytes k v) = v.
Proof.
  induction k; intros v H.
  - cbn in *. lia.
  - rewrite Nat2N.inj_succ, N.pow_succ_r' in H. cbn [le_bytes le_val].
    rewrite to_N_byte_of by (apply N.mod_lt; lia).
    rewrite IHk.
    + pose proof (N.div_mod v 256). lia.
    + apply N.div_lt_upper_bound; lia.
Qed.

Lemma le_bytes_val : forall l, le_bytes (length l) (le_val l) = l.
Proof.
  induction l as [|b l IH]; [reflexivity|].
  cbn [length le_val le_bytes].
  pose proof (to_N_lt b) as Hb.
  replace ((to_N b + 256 * le_val l) mod 256) with (to_N b).
  2:{ rewrite (N.mul_comm 256), N.mod_add by lia. rewrite N.mod_small; auto. }
  replace ((to_N b + 256 * le_val l) / 256) with (le_val l).
  2:{ rewrite (N.mul_comm 256), N.div_add by lia. rewrite N.div_small by auto. lia. }
  rewrite byte_of_to_N, IH. reflexivity.
Qed.

Lemma le_bytes_inj : forall k v w,
  v < 256 ^ N.of_nat k -> w < 256 ^ N.of_nat k -> le_bytes k v = le_bytes k w -> v = w.
Proof.
  intros k v w Hv Hw H. rewrite <- (le_val_bytes k v), <- (le_val_bytes k w), H; auto.
Qed.

(** [slice b o n] is the [n] bytes of [b] from offset [o]; used in specifications. *)
Definition slice {A} (b : list A) (o n : nat) : list A := firstn n (skipn o b).

Lemma slice_0_app : forall A (a b : list A) n, length a = n -> slice (a ++ b) 0 n = a.
Proof.
  intros A a b n <-. unfold slice. rewrite skipn_O.
  rewrite firstn_app, Nat.sub_diag, firstn_all, firstn_O, app_nil_r. reflexivity.
Qed.

Lemma slice_0_all : forall A (a : list A) n, length a = n -> slice a 0 n = a.
Proof. intros A a n <-. unfold slice. rewrite skipn_O, firstn_all. reflexivity. Qed.

Lemma slice_app_r : forall A (a b : list A) k o n,
  length a = k -> slice (a ++ b) (k + o) n = slice b o n.
Proof.
  intros A a b k o n <-. unfold slice.
  rewrite skipn_app, skipn_all2 by lia. cbn.
  replace (length a + o - length a)%nat with o by lia. reflexivity.
Qed.

Lemma slice_length : forall A (a : list A) o n, (o + n <= length a)%nat -> length (slice a o n) = n.
Proof. intros. unfold slice. rewrite firstn_length, skipn_length. lia. Qed.

Lemma skipn_skipn : forall A x y (l : list A), skipn x (skipn y l) = skipn (x + y) l.
Proof.
  intros A x y. induction y as [|y IH]; intros l.
  - rewrite Nat.add_0_r. reflexivity.
  - rewrite Nat.add_succ_r. destruct l as [|a l]; [destruct x; reflexivity|]. cbn. apply IH.
Qed.
