(** * LogFault: file system errors inside append and compact of the log store

    The model of FsLogStore has files that always take what is written, and
    calls of the file system that succeed.  Here one of them fails.

    Simplifications: one failure per call (but log.data may be impossible to
    remove, see [restored]); what a stream could not write is lost; a file that
    could be created once can be created again. *)

From Verif Require Import Base Codec CodecSpec Msg FsLogStore FsLogSpec FsLogCrash.
Local Open Scope nat_scope.

(** ** append, src/fs_log_store.cxx:276-297 *)

(** A stream that was to write [bs] at the end of its file and got [n] bytes of
    it into the file. *)
Definition wrote (n : nat) (bs : list byte) (f : file) : file :=
  let d := f_data f ++ firstn n bs in mkFile d (lenN d) (n <? length bs).

Inductive afault :=
| InWrite (q : nat)       (* :286, an entry larger than the stream's buffer: its write fails after q bytes *)
| InFlush (p q : nat).    (* :289-290: p bytes of the offset and q bytes of the entry get written *)

(** The call and the store after it; [None]: nothing fails.  In the first case
    operator<< throws (src/buffer.cxx:278-281) before the cache and the number
    of entries change, and the offset is in the other stream's buffer, to be
    written when that is flushed or closed; in the second case the check at
    :291-294 throws, after they have changed. *)
Definition append_fails (e : entry_val) (f : afault) (s : store) : option (res N * store) :=
  let off := le 8 (lenN (f_data (s_dat s))) in
  match f with
  | InWrite q =>
      if q <? length (enc e)
      then Some (Throw IosFailure, set_idx (wrote 8 off (s_idx s)) (set_dat (wrote q (enc e) (s_dat s)) s)) else None
  | InFlush p q =>
      if (p <? 8) || (q <? length (enc e))
      then Some (Throw RuntimeError,
             mkStore (wrote p off (s_idx s)) (wrote q (enc e) (s_dat s)) (s_sti s) (wadd (s_entries s) 1) (s_start s)
               (c_append (s_cache s) e) (s_buf_size s))
      else None
  end.

(** ** compact, src/fs_log_store.cxx:644-850 *)
Inductive cfault :=
| NoBackup      (* :667-691: a backup file cannot be created *)
| NoRemoveIdx   (* :711: all entries go: log.idx cannot be removed *)
| NoRemoveDat   (* :713: log.data cannot be removed *)
| NoReopen      (* :715-724: they are removed and cannot be created *)
| NoTruncDat    (* :763: some entries stay: log.data cannot be truncated *)
| NoOpenDat     (* :765-768: log.data cannot be opened again *)
| NoTruncIdx    (* :786: log.idx cannot be truncated *)
| NoOpenIdx.    (* :788-790: log.idx cannot be opened again *)

(** log.data when the error occurs *)
Definition data_then (f : cfault) (k : N) (s : store) : option (list byte) :=
  let a := d_dat (close s) in
  let b := d_dat (close (snd (run_lop (LCompact k) s))) in
  match f, empties k s with
  | (NoRemoveIdx | NoRemoveDat), true => Some a
  | NoReopen, true => Some []
  | NoTruncDat, false => Some (over a b)
  | (NoOpenDat | NoTruncIdx | NoOpenIdx), false => Some b
  | _, _ => None
  end.

(** :810-850, restoring the files.  All three are removed; log.idx and log.sti
    are created and opened.  In place of log.data the backup log.data.bak is
    created anew (:823), which empties it, and log.data is opened for reading
    and writing (:825), which fails unless it is still there ([stays]: it could
    not be removed).  If it fails, an exception is thrown (:833-836) before
    anything is copied. *)
Definition restored (stays : bool) (dat : list byte) (s : store) : res bool * store :=
  if stays then
    (Ok false, set_idx (f_insert (d_idx (close s)) empty_file) (set_dat (f_insert [] (f_reopen (mkFile dat 0 false)))
                 (set_sti (f_insert (d_sti (close s)) empty_file) s)))
  else (Throw RuntimeError, set_idx empty_file (set_dat (set_fail empty_file) (set_sti empty_file s))).

(** The call and the store after it; [None]: it does not come to this error. *)
Definition compact_fails (f : cfault) (stays : bool) (k : N) (s : store) : option (res bool * store) :=
  if (k <? s_start s)%N then None
  else match f with
  | NoBackup => Some (Ok false, set_idx (f_seek 0 (s_idx s)) (set_dat (f_seek 0 (s_dat s)) (set_sti (f_seek 0 (s_sti s)) s)))
  | _ => match data_then f k s with Some dat => Some (restored stays dat s) | None => None end
  end.
