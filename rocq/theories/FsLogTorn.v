(** * FsLogTorn: half-written records of the file log store

    FsLogCrash lets every write happen or not.  Here a crash may come in the
    middle of a write: any number of the bytes that an operation writes are in
    the file, the rest of the file is as before.

    Simplifications: the bytes of one write reach the file from the first to
    the last, and those of the index file and those of the data file
    independently of each other. *)

From Verif Require Import Base Codec CodecSpec Msg FsLogStore FsLogSpec FsLogCrash.
Local Open Scope nat_scope.

(** A file of which an operation makes [new], when [n] bytes of it are right. *)
Definition torn (n : nat) (old new : list byte) : list byte := firstn n new ++ skipn n old.

Inductive half :=
| Writes (i j : nat)   (* the index file is right up to byte i, the data file up to byte j, nothing is truncated yet *)
| Start (k : nat).     (* both files are as they will be, and k bytes of the start index are written *)

(** The folder a crash leaves.  append: src/fs_log_store.cxx:284-290; write_at:
    327-334; apply_pack: 594-604; compact: 725-731 and 796-801 (the start
    index).  [None]: no such point. *)
Definition half_folder (op : lop) (h : half) (s : store) : option folder :=
  let a := close s in
  let b := close (snd (run_lop op s)) in
  match op, h with
  | (LAppend _ | LWriteAt _ _ | LApplyPack _ _ _), Writes i j =>
      if (i <=? length (d_idx b)) && (j <=? length (d_dat b))
      then Some (mkFolder (torn i (d_idx a) (d_idx b)) (torn j (d_dat a) (d_dat b)) (d_sti a)) else None
  | LCompact _, Start k =>
      if k <=? length (d_sti b) then Some (mkFolder (d_idx b) (d_dat b) (torn k (d_sti a) (d_sti b))) else None
  | _, _ => None
  end.

(** The first start in an empty folder writes the start index 1 to log.sti
    (src/fs_log_store.cxx:236-245): [k] of its bytes. *)
Definition half_started (k : nat) : folder := mkFolder [] [] (firstn k (le 8 1)).
