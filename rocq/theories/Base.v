(** * Base: bytes, integers of the C++ code, results of operations

    Models include/basic_types.hxx (ulong = 64 bit unsigned, int32, ushort,
    uint, byte) and include/pp_util.hxx (sz_int = 4, sz_ulong = 8, sz_byte = 1). *)

From Coq Require Export List NArith ZArith Bool Lia Strings.Byte.
From Coq Require Export ZifyBool ZifyNat ZifyN.
Export ListNotations.
Ltac Zify.zify_post_hook ::= Z.div_mod_to_equations.

Arguments N.add : simpl never.
Arguments N.sub : simpl never.
Arguments N.mul : simpl never.
Arguments N.div : simpl never.
Arguments N.modulo : simpl never.
Arguments N.pow : simpl never.
Arguments Z.add : simpl never.
Arguments Z.sub : simpl never.
Arguments Z.mul : simpl never.
Arguments Z.div : simpl never.
Arguments Z.modulo : simpl never.
Arguments Z.pow : simpl never.

(** Exceptions thrown by the code (std::out_of_range, std::overflow_error,
    std::range_error, std::ios::failure, std::runtime_error,
    std::invalid_argument). *)
Inductive exn :=
| OutOfRange | OverflowError | RangeError | IosFailure | RuntimeError | InvalidArgument.

(** Undefined behaviour of the C++ program, as a distinct outcome. *)
Inductive ubkind :=
| OutOfBoundsRead | OutOfBoundsWrite | NullDeref | NullString | UseAfterFree | SignedOverflow.

(** Outcome of an operation. *)
Inductive res (A : Type) :=
| Ok (a : A)
| Throw (e : exn)
| UB (u : ubkind).
Arguments Ok {A} a.
Arguments Throw {A} e.
Arguments UB {A} u.

Definition is_ok {A} (r : res A) : bool := match r with Ok _ => true | _ => false end.
Definition is_ub {A} (r : res A) : bool := match r with UB _ => true | _ => false end.

Definition res_bind {A B} (r : res A) (f : A -> res B) : res B :=
  match r with Ok a => f a | Throw e => Throw e | UB u => UB u end.

(** Conversions between the numbers of the model and bytes. *)
Definition nbyte (n : N) : byte :=
  match Byte.of_N (n mod 256) with Some b => b | None => x00 end.

Definition byteN (b : byte) : N := Byte.to_N b.

Definition two31 : N := 2147483648.
Definition two32 : N := 4294967296.
Definition two64 : N := 18446744073709551616.

(** ulong subtraction (wraps modulo 2^64, as size_t / ulong do in C++). *)
Definition wsub (a b : N) : N := (a + (two64 - b mod two64)) mod two64.

(** int32 value range and the conversion (int32)x of a wider integer. *)
Definition is_int32 (z : Z) : Prop := (- 2147483648 <= z < 2147483648)%Z.
Definition to_int32 (z : Z) : Z := ((z + 2147483648) mod 4294967296 - 2147483648)%Z.
(** (ulong)z of an int32 value. *)
Definition ulong_of_Z (z : Z) : N := Z.to_N (z mod 18446744073709551616)%Z.

Definition is_ulong (n : N) : Prop := (n < two64)%N.

(** Little-endian byte strings. *)
Fixpoint le (k : nat) (n : N) : list byte :=
  match k with
  | O => []
  | S k => nbyte n :: le k (n / 256)
  end.

Fixpoint of_le (l : list byte) : N :=
  match l with
  | [] => 0
  | b :: l => byteN b + 256 * of_le l
  end.

Definition lenN {A} (l : list A) : N := N.of_nat (length l).

(** ** Lemmas *)

Lemma byteN_lt b : (byteN b < 256)%N.
Proof. unfold byteN. pose proof (Byte.to_N_bounded b). lia. Qed.

Lemma byteN_nbyte n : byteN (nbyte n) = (n mod 256)%N.
Proof.
  unfold nbyte, byteN.
  destruct (Byte.of_N (n mod 256)) as [b|] eqn:E.
  - apply Byte.to_of_N. exact E.
  - apply Byte.of_N_None_iff in E. lia.
Qed.

Lemma nbyte_byteN b : nbyte (byteN b) = b.
Proof.
  unfold nbyte. rewrite N.mod_small by apply byteN_lt.
  unfold byteN. rewrite Byte.of_to_N. reflexivity.
Qed.

Lemma byteN_inj a b : byteN a = byteN b -> a = b.
Proof. intros H. rewrite <- (nbyte_byteN a), <- (nbyte_byteN b), H. reflexivity. Qed.

Lemma nbyte_mod n : nbyte (n mod 256) = nbyte n.
Proof. apply byteN_inj. rewrite !byteN_nbyte. lia. Qed.

Lemma le_length k n : length (le k n) = k.
Proof. revert n; induction k; intros; cbn; auto. Qed.

Lemma of_le_le k n : of_le (le k n) = (n mod 256 ^ N.of_nat k)%N.
Proof.
  revert n; induction k as [|k IH]; intros n.
  - cbn [le of_le]. change (256 ^ N.of_nat 0)%N with 1%N. symmetry. apply N.mod_1_r.
  - cbn [le of_le]. rewrite IH, byteN_nbyte.
    replace (N.of_nat (S k)) with (N.succ (N.of_nat k)) by lia.
    rewrite N.pow_succ_r'.
    rewrite (N.mod_mul_r n 256 (256 ^ N.of_nat k)).
    + lia.
    + lia.
    + apply N.pow_nonzero; lia.
Qed.

Lemma of_le_lt l : (of_le l < 256 ^ N.of_nat (length l))%N.
Proof.
  induction l as [|b l IH].
  - cbn [of_le length]. change (256 ^ N.of_nat 0)%N with 1%N. lia.
  - cbn [of_le length]. replace (N.of_nat (S (length l))) with (N.succ (N.of_nat (length l))) by lia.
    rewrite N.pow_succ_r'. pose proof (byteN_lt b). nia.
Qed.

Lemma le_of_le l : le (length l) (of_le l) = l.
Proof.
  induction l as [|b l IH]; cbn [length of_le le]; auto.
  f_equal.
  - apply byteN_inj. rewrite byteN_nbyte. pose proof (byteN_lt b).
    replace ((byteN b + 256 * of_le l) mod 256)%N with (byteN b) by lia. reflexivity.
  - pose proof (byteN_lt b).
    replace ((byteN b + 256 * of_le l) / 256)%N with (of_le l) by lia. exact IH.
Qed.

Lemma of_le_le8 n : is_ulong n -> of_le (le 8 n) = n.
Proof.
  intros H. rewrite of_le_le. apply N.mod_small.
  unfold is_ulong, two64 in H. change (256 ^ N.of_nat 8)%N with 18446744073709551616%N. exact H.
Qed.

Lemma of_le_le4 n : (n < two32)%N -> of_le (le 4 n) = n.
Proof.
  intros H. rewrite of_le_le. apply N.mod_small.
  change (256 ^ N.of_nat 4)%N with 4294967296%N. exact H.
Qed.

Lemma of_le_le2 n : (n < 65536)%N -> of_le (le 2 n) = n.
Proof.
  intros H. rewrite of_le_le. apply N.mod_small.
  change (256 ^ N.of_nat 2)%N with 65536%N. exact H.
Qed.

Lemma wsub_le a b : (b <= a)%N -> is_ulong a -> wsub a b = (a - b)%N.
Proof. unfold wsub, is_ulong, two64. intros. rewrite (N.mod_small b) by lia. lia. Qed.

Lemma to_int32_id z : is_int32 z -> to_int32 z = z.
Proof. unfold is_int32, to_int32. intros. rewrite Z.mod_small; lia. Qed.

Lemma to_int32_range z : is_int32 (to_int32 z).
Proof. unfold is_int32, to_int32. lia. Qed.

Lemma firstn_app_exact {A} (a b : list A) n : length a = n -> firstn n (a ++ b) = a.
Proof. intros <-. rewrite firstn_app, firstn_all, Nat.sub_diag. cbn. apply app_nil_r. Qed.

Lemma skipn_app_exact {A} (a b : list A) n : length a = n -> skipn n (a ++ b) = b.
Proof. intros <-. rewrite skipn_app, skipn_all, Nat.sub_diag. reflexivity. Qed.

Lemma firstn_app_le {A} (a b : list A) n : (n <= length a)%nat -> firstn n (a ++ b) = firstn n a.
Proof. intros. rewrite firstn_app. replace (n - length a)%nat with 0%nat by lia. cbn. apply app_nil_r. Qed.

Lemma skipn_app_le {A} (a b : list A) n : (n <= length a)%nat -> skipn n (a ++ b) = skipn n a ++ b.
Proof. intros. rewrite skipn_app. replace (n - length a)%nat with 0%nat by lia. reflexivity. Qed.

Lemma skipn_app_ge {A} (a b : list A) n : (length a <= n)%nat -> skipn n (a ++ b) = skipn (n - length a) b.
Proof. intros. rewrite skipn_app, skipn_all2 by lia. reflexivity. Qed.

Lemma firstn_app_ge {A} (a b : list A) n : (length a <= n)%nat -> firstn n (a ++ b) = a ++ firstn (n - length a) b.
Proof. intros. rewrite firstn_app, (firstn_all2 a) by lia. reflexivity. Qed.

Lemma skipn_skipn {A} (l : list A) a b : skipn a (skipn b l) = skipn (b + a) l.
Proof.
  revert l; induction b as [|b IH]; intros l; cbn; auto.
  destruct l; cbn; auto. apply skipn_nil.
Qed.

Lemma skipn_firstn_comm' {A} (l : list A) a b : skipn a (firstn b l) = firstn (b - a) (skipn a l).
Proof. apply skipn_firstn_comm. Qed.
