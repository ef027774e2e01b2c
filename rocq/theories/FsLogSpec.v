(** * FsLogSpec: the indexed log that the file log store is meant to be

    An indexed log is a first index and a list of entries; nothing here knows
    about files or caches (include/log_store.hxx gives the same contract in
    comments). *)

From Verif Require Import Base Codec CodecSpec Msg FsLogStore.
Local Open Scope N_scope.

Record alog := mkAL { al_start : N; al_ents : list entry_val }.

Definition a_empty : alog := mkAL 1 [].
Definition a_next (l : alog) : N := al_start l + lenN (al_ents l).
(** the entry with index [i] *)
Definition a_get (l : alog) (i : N) : option entry_val :=
  if i <? al_start l then None else nth_error (al_ents l) (N.to_nat (i - al_start l)).
(** keep the entries below [i], then [es] *)
Definition a_replace (l : alog) (i : N) (es : list entry_val) : alog :=
  mkAL (al_start l) (firstn (N.to_nat (i - al_start l)) (al_ents l) ++ es).
(** drop everything up to and including [k] *)
Definition a_compact (l : alog) (k : N) : alog :=
  mkAL (k + 1) (skipn (N.to_nat (k + 1 - al_start l)) (al_ents l)).
(** the entries with index in [a, b), where start <= a *)
Definition a_range (l : alog) (a b : N) : list entry_val :=
  firstn (N.to_nat (b - a)) (skipn (N.to_nat (a - al_start l)) (al_ents l)).
Definition a_last (l : alog) : entry_val := last (al_ents l) empty_entry.

(** sizes *)
Definition esize (e : entry_val) : N := 9 + lenN (ev_data e).
Fixpoint dsize (es : list entry_val) : N :=
  match es with [] => 0 | e :: es => esize e + dsize es end.
Definition entry_ok (e : entry_val) : Prop := is_ulong (ev_term e) /\ esize e < two31.
(** the limits of the int arithmetic and of buffer sizes *)
Definition small (l : alog) : Prop :=
  1 <= al_start l /\ al_start l + lenN (al_ents l) < 1152921504606846976 /\
  lenN (al_ents l) < 268435456 /\ Forall entry_ok (al_ents l).

(** the bytes of entries on disk and of their offsets, the first being [base] *)
Definition enc (e : entry_val) : list byte := entry_bytes (ev_term e) (ev_type e) (ev_data e).
Definition encs (es : list entry_val) : list byte := concat (map enc es).
Fixpoint offs (base : N) (es : list entry_val) : list byte :=
  match es with [] => [] | e :: es => le 8 base ++ offs (base + esize e) es end.

(** the pack format: size of the offsets, size of the data, offsets, data *)
Definition pack_bytes (base : N) (es : list entry_val) : list byte :=
  int_b (Z.of_N (8 * lenN es)) ++ int_b (Z.of_N (dsize es)) ++ offs base es ++ encs es.
Definition pack_small (es : list entry_val) : Prop := 8 + 8 * lenN es + dsize es < two31.

(** ** Operations and their meaning *)
Inductive lop :=
| LAppend (e : entry_val)
| LWriteAt (i : N) (e : entry_val)
| LApplyPack (i base : N) (es : list entry_val)   (* apply_pack(i, pack_bytes base es) *)
| LCompact (k : N)
| LReopen (buf_size : Z)                          (* destroy the object, open the folder again *)
| LNextSlot | LStartIndex | LLast
| LEntryAt (i : N) | LTermAt (i : N)
| LLogEntries (a b : N)
| LPack (i : N) (cnt : Z).

Inductive lret :=
| RUnit | RIdx (n : N) | RBool (b : bool)
| REntry (e : option entry_val)
| REntries (es : option (list (option entry_val)))
| RBytes (bs : list byte).

Definition rmap {A B} (f : A -> B) (p : res A * store) : res B * store :=
  (match fst p with Ok a => Ok (f a) | Throw e => Throw e | UB u => UB u end, snd p).

(** the operation on the modelled store *)
Definition run_lop (op : lop) (s : store) : res lret * store :=
  match op with
  | LAppend e => rmap RIdx (append e s)
  | LWriteAt i e => rmap (fun _ => RUnit) (write_at i e s)
  | LApplyPack i base es => rmap (fun _ => RUnit) (apply_pack i (pack_bytes base es) s)
  | LCompact k => rmap RBool (compact k s)
  | LReopen z => rmap (fun _ => RUnit) (open_store (close s) z)
  | LNextSlot => (Ok (RIdx (next_slot s)), s)
  | LStartIndex => (Ok (RIdx (start_index s)), s)
  | LLast => (Ok (REntry (Some (last_entry s))), s)
  | LEntryAt i => rmap REntry (entry_at i s)
  | LTermAt i => rmap RIdx (term_at i s)
  | LLogEntries a b => rmap REntries (log_entries a b s)
  | LPack i cnt => rmap RBytes (pack i cnt s)
  end.

(** the answer an indexed log gives; a pack starts with the data offset of its
    first entry, i.e. the size of all entries before it *)
Definition spec_ans (l : alog) (op : lop) : res lret :=
  match op with
  | LAppend _ => Ok (RIdx (a_next l))
  | LWriteAt i _ => if (i <? al_start l) || (a_next l <? i) then Throw RangeError else Ok RUnit
  | LApplyPack _ _ _ => Ok RUnit
  | LCompact k => if k <? al_start l then Throw RangeError else Ok (RBool true)
  | LReopen _ => Ok RUnit
  | LNextSlot => Ok (RIdx (a_next l))
  | LStartIndex => Ok (RIdx (al_start l))
  | LLast => Ok (REntry (Some (a_last l)))
  | LEntryAt i => if i <? al_start l then Throw RangeError else Ok (REntry (a_get l i))
  | LTermAt i => match a_get l i with Some e => Ok (RIdx (ev_term e)) | None => Throw RangeError end
  | LLogEntries a b =>
      if a <? al_start l then Throw RangeError
      else if (b <=? a) || (a_next l <=? a) then Ok (REntries None)
      else Ok (REntries (Some (map Some (a_range l a b))))
  | LPack i cnt =>
      if i <? al_start l then Throw RangeError
      else if a_next l <=? i then Ok (RBytes [])
      else Ok (RBytes (pack_bytes (dsize (a_range l (al_start l) i)) (a_range l i (i + Z.to_N cnt))))
  end.

(** the log afterwards *)
Definition spec_next (l : alog) (op : lop) : alog :=
  match op with
  | LAppend e => a_replace l (a_next l) [e]
  | LWriteAt i e => if (i <? al_start l) || (a_next l <? i) then l else a_replace l i [e]
  | LApplyPack i _ es => a_replace l i es
  | LCompact k => if k <? al_start l then l else a_compact l k
  | _ => l
  end.

(** The file log store keeps stale bytes behind the new last entry when an
    overwrite does not shorten the index file and the data gets shorter. *)
Definition cut_ok (l l' : alog) : Prop :=
  lenN (al_ents l') < lenN (al_ents l) \/ dsize (al_ents l) <= dsize (al_ents l').

(** Conditions under which the store is proved to behave like the log; [c] is
    the first index held in the in-memory cache. *)
Definition op_ok (c : N) (l : alog) (op : lop) : Prop :=
  match op with
  | LAppend e => entry_ok e
  | LWriteAt i e =>
      al_start l <= i <= a_next l -> entry_ok e /\ cut_ok l (a_replace l i [e]) /\ c <= i
  | LApplyPack i base es =>
      al_start l <= i <= a_next l /\ es <> [] /\ Forall entry_ok es /\ pack_small es /\
      base + dsize es < two64 /\ cut_ok l (a_replace l i es)
  | LReopen z => z <> 0%Z /\ is_int32 z
  | LTermAt i => i < a_next l
  | LLogEntries a b => is_ulong b /\ (b <= a \/ c <= b)
  | LPack i cnt => is_ulong i /\ (0 < cnt)%Z /\ is_int32 cnt /\ pack_small (a_range l i (i + Z.to_N cnt))
  | LEntryAt i => is_ulong i
  | _ => True
  end /\ small (spec_next l op).

(** ** Histories *)

(** the first cached index after an operation, [mx] being the cache limit *)
Definition reload_window (mx : N) (l : alog) : N := al_start l + (lenN (al_ents l) - mx).
Definition spec_window (mx c : N) (l : alog) (op : lop) : N :=
  match op with
  | LAppend _ => N.max c (a_next l + 1 - mx)
  | LWriteAt i _ => if (i <? al_start l) || (a_next l <? i) then c else N.max c (i + 1 - mx)
  | LApplyPack _ _ _ => reload_window mx (spec_next l op)
  | LCompact k => if k <? al_start l then c else reload_window mx (spec_next l op)
  | LReopen z => reload_window (cache_limit z) l
  | _ => c
  end.
Definition spec_limit (mx : N) (op : lop) : N := match op with LReopen z => cache_limit z | _ => mx end.

Fixpoint ops_ok (mx c : N) (l : alog) (ops : list lop) : Prop :=
  match ops with
  | [] => True
  | op :: ops => op_ok c l op /\ ops_ok (spec_limit mx op) (spec_window mx c l op) (spec_next l op) ops
  end.

(** the same for an unlimited cache: no mention of cached indices *)
Fixpoint ops_ok_unlimited (l : alog) (ops : list lop) : Prop :=
  match ops with
  | [] => True
  | op :: ops => op_ok (al_start l) l op /\ (match op with LReopen z => (z < 0)%Z | _ => True end) /\
                 ops_ok_unlimited (spec_next l op) ops
  end.

Fixpoint spec_run (l : alog) (ops : list lop) : alog :=
  match ops with [] => l | op :: ops => spec_run (spec_next l op) ops end.
Fixpoint spec_answers (l : alog) (ops : list lop) : list (res lret) :=
  match ops with [] => [] | op :: ops => spec_ans l op :: spec_answers (spec_next l op) ops end.

Fixpoint run_lops (ops : list lop) (s : store) : list (res lret) * store :=
  match ops with
  | [] => ([], s)
  | op :: ops => let '(r, s) := run_lop op s in let '(rs, s) := run_lops ops s in (r :: rs, s)
  end.

(** a store that was created in an empty folder with cache size [z] and then
    used by [ops] *)
Definition used (z : Z) (ops : list lop) (s : store) : Prop :=
  exists s0 rs, open_store empty_folder z = (Ok tt, s0) /\ run_lops ops s0 = (rs, s).

(** the folder of a store in which [l] was saved correctly *)
Definition disk_of (l : alog) : folder := mkFolder (offs 0 (al_ents l)) (encs (al_ents l)) (le 8 (al_start l)).

(** Operations that do not reload the log from the files, with no condition on
    the sizes of overwritten entries. *)
Definition mem_op_ok (l : alog) (op : lop) : Prop :=
  match op with
  | LAppend e => entry_ok e
  | LWriteAt i e => al_start l <= i <= a_next l -> entry_ok e
  | LTermAt i => i < a_next l
  | LEntryAt i => is_ulong i
  | LLogEntries a b => is_ulong b
  | LNextSlot | LStartIndex | LLast => True
  | _ => False
  end /\ small (spec_next l op).
Fixpoint mem_ops_ok (l : alog) (ops : list lop) : Prop :=
  match ops with [] => True | op :: ops => mem_op_ok l op /\ mem_ops_ok (spec_next l op) ops end.
