(** * FsLogCrash: what a crash inside an operation of the file log store leaves

    An operation that changes the log changes up to three files one after the
    other.  A crash between two of these changes leaves a folder that no call
    returns with; the next start opens it (src/fs_log_store.cxx:171-251).  The
    constructor reads log.idx, log.data and log.sti only: the backups which
    compact writes (src/fs_log_store.cxx:653-690) are never looked at again, so
    they are left out here.

    Simplifications: one write, truncate or remove either happened or did not
    (for half-written records see FsLogTorn.v), and what was written stays written. *)

From Verif Require Import Base Codec CodecSpec Msg FsLogStore FsLogSpec.
Local Open Scope N_scope.

(** How far an operation got. *)
Inductive stage :=
| Untouched    (* nothing reached the files *)
| IndexOnly    (* the new offsets are written to the index file, the data file is as before *)
| DataOnly     (* the new bytes are written to the data file, the index file is as before *)
| DataCut      (* compact: the data file is truncated too, the index file is as before *)
| Both         (* both files are written, the one that is truncated last still has its old tail *)
| IndexCut     (* the index file is as it will be, the data file still has its old tail *)
| FilesCut     (* compact: both files are as they will be, the start index is as before *)
| Finished.    (* everything reached the files *)

(** A file of which the operation makes [new], after the writes and before the
    truncation: what was behind the new content is still there. *)
Definition over (old new : list byte) : list byte := new ++ skipn (length new) old.

(** compact(k) empties the log, src/fs_log_store.cxx:694 *)
Definition empties (k : N) (s : store) : bool := wsub (wadd (s_start s) (s_entries s)) 1 <=? k.

(** The folder a crash leaves.  append: src/fs_log_store.cxx:284-290; write_at:
    327-349; apply_pack: 594-626.  The index file is flushed first, but an
    entry larger than the stream's buffer goes to the data file at once.
    compact: 753-800 (the data file first, then the index file, then the start
    index) or, when nothing is kept, 697-720 (both files removed, then the
    start index).  [None]: the operation has no such stage. *)
Definition crash_folder (op : lop) (g : stage) (s : store) : option folder :=
  let a := close s in
  let b := close (snd (run_lop op s)) in
  match op, g with
  | _, Untouched => Some a
  | _, Finished => Some b
  | (LAppend _ | LWriteAt _ _ | LApplyPack _ _ _), IndexOnly => Some (mkFolder (over (d_idx a) (d_idx b)) (d_dat a) (d_sti a))
  | (LAppend _ | LWriteAt _ _ | LApplyPack _ _ _), DataOnly => Some (mkFolder (d_idx a) (over (d_dat a) (d_dat b)) (d_sti a))
  | (LAppend _ | LWriteAt _ _ | LApplyPack _ _ _), Both =>
      Some (mkFolder (over (d_idx a) (d_idx b)) (over (d_dat a) (d_dat b)) (d_sti a))
  | (LAppend _ | LWriteAt _ _ | LApplyPack _ _ _), IndexCut => Some (mkFolder (d_idx b) (over (d_dat a) (d_dat b)) (d_sti a))
  | LCompact k, DataOnly => if empties k s then None else Some (mkFolder (d_idx a) (over (d_dat a) (d_dat b)) (d_sti a))
  | LCompact k, DataCut => if empties k s then None else Some (mkFolder (d_idx a) (d_dat b) (d_sti a))
  | LCompact k, Both => if empties k s then None else Some (mkFolder (over (d_idx a) (d_idx b)) (d_dat b) (d_sti a))
  | LCompact k, IndexCut => if empties k s then Some (mkFolder (d_idx b) (d_dat a) (d_sti a)) else None
  | LCompact k, FilesCut => Some (mkFolder (d_idx b) (d_dat b) (d_sti a))
  | _, _ => None
  end.

(** The operations that change the log. *)
Definition changes (op : lop) : Prop :=
  match op with LAppend _ | LWriteAt _ _ | LApplyPack _ _ _ | LCompact _ => True | _ => False end.

(** The store answers as the log [l]. *)
Definition answers_as (s : store) (l : alog) : Prop :=
  start_index s = al_start l /\ next_slot s = a_next l /\
  forall i, is_ulong i -> fst (entry_at i s) = if i <? al_start l then Throw RangeError else Ok (a_get l i).
