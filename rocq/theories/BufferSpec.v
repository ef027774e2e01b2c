(** * Abstract buffers

    A buffer, seen from the API: [adata] are its size() bytes, [apos] is pos().
    This file is the specification; nothing in it refers to the memory layout. *)

From Verif Require Import Base.
Local Open Scope N_scope.

Record abuf := mkAbuf { apos : nat; adata : list byte }.

Definition asize (a : abuf) : nat := length (adata a).

(** sizes below 2^31, position inside the data *)
Definition wf_abuf (a : abuf) : Prop := (apos a <= asize a)%nat /\ lenN (adata a) < 2147483648.

(** the bytes before the position / not yet read or written *)
Definition aread (a : abuf) : list byte := firstn (apos a) (adata a).
Definition arest (a : abuf) : list byte := skipn (apos a) (adata a).

(** overwrite the bytes at the position and advance *)
Definition aput (a : abuf) (bs : list byte) : abuf :=
  mkAbuf (apos a + length bs)
         (firstn (apos a) (adata a) ++ bs ++ skipn (apos a + length bs) (adata a)).

(** advance over n bytes *)
Definition askip (a : abuf) (n : nat) : abuf := mkAbuf (apos a + n) (adata a).

Definition aseek (a : abuf) (p : nat) : abuf := mkAbuf (Nat.min p (asize a)) (adata a).

(** two's complement reading of 4 little-endian bytes *)
Definition int32_of_bytes (bs : list byte) : Z :=
  let v := Z.of_N (of_le bs) in (if v <? 2147483648 then v else v - 4294967296)%Z.

(** outcome of writing bytes: all or nothing *)
Definition aput_op (a : abuf) (bs : list byte) : res unit * abuf :=
  if (asize a - apos a <? length bs)%nat then (Throw OverflowError, a) else (Ok tt, aput a bs).
(** outcome of reading n bytes: all or nothing *)
Definition aget_op {A} (a : abuf) (n : nat) (f : list byte -> A) : res A * abuf :=
  if (asize a - apos a <? n)%nat then (Throw OverflowError, a)
  else (Ok (f (firstn n (arest a))), askip a n).

(** position of the first NUL byte *)
Fixpoint first_nul (l : list byte) : option nat :=
  match l with
  | [] => None
  | b :: l => if Byte.eqb b x00 then Some 0%nat else option_map S (first_nul l)
  end.

(** get_str: the bytes up to the next NUL, if there is one and it is not the
    next byte *)
Definition aget_str (a : abuf) : res (option (list byte)) * abuf :=
  match first_nul (arest a) with
  | Some (S k) => (Ok (Some (firstn (S k) (arest a))), askip a (S k + 1))
  | _ => (Ok None, a)
  end.

(** ** Operations of the buffer API on a single buffer (put(const buffer&) and
    get(bufptr&) involve two buffers and are specified separately) *)
Inductive bop :=
| OGetInt | OGetUlong | OGetByte | OGetStr | OSetPos (p : N)
| OPutByte (b : byte) | OPutInt (z : Z) | OPutUlong (n : N) | OPutStr (s : list byte).

Inductive bval :=
| VUnit | VInt (z : Z) | VUlong (n : N) | VByte (b : byte) | VStr (s : option (list byte)).

Definition rmap {A B} (f : A -> B) (r : res A) : res B :=
  match r with Ok a => Ok (f a) | Throw e => Throw e | UB u => UB u end.
Definition pmap {A B C} (f : A -> B) (r : res A * C) : res B * C := (rmap f (fst r), snd r).

(** What each operation does to a buffer: a put either writes all its bytes at
    the position and advances, or throws and does nothing; a get either returns
    the next bytes and advances, or throws and does nothing. *)
Definition spec_op (o : bop) (a : abuf) : res bval * abuf :=
  match o with
  | OGetInt => pmap VInt (aget_op a 4 int32_of_bytes)
  | OGetUlong => pmap VUlong (aget_op a 8 of_le)
  | OGetByte => pmap VByte (aget_op a 1 (hd x00))
  | OGetStr => pmap VStr (aget_str a)
  | OSetPos p => (Ok VUnit, mkAbuf (N.to_nat (N.min p (lenN (adata a)))) (adata a))
  | OPutByte b => pmap (fun _ => VUnit) (aput_op a [b])
  | OPutInt z => pmap (fun _ => VUnit) (aput_op a (le 4 (Z.to_N (z mod 4294967296))))
  | OPutUlong n => pmap (fun _ => VUnit) (aput_op a (le 8 n))
  | OPutStr s => pmap (fun _ => VUnit) (aput_op a (s ++ [x00]))
  end.

(** Typed values and the bytes they occupy *)
Inductive tval :=
| TByte (b : byte) | TInt (z : Z) | TUlong (n : N) | TStr (s : list byte) | TBytes (bs : list byte).

Definition tval_size (v : tval) : nat :=
  match v with
  | TByte _ => 1 | TInt _ => 4 | TUlong _ => 8 | TStr s => length s + 1 | TBytes bs => length bs
  end.

Definition no_nul (s : list byte) : Prop := ~ In x00 s.

Definition tval_ok (v : tval) : Prop :=
  match v with
  | TByte _ => True
  | TInt z => is_int32 z
  | TUlong n => is_ulong n
  | TStr s => s <> [] /\ no_nul s
  | TBytes bs => True
  end.

Definition total_size (vs : list tval) : nat := fold_right (fun v n => tval_size v + n)%nat 0%nat vs.
