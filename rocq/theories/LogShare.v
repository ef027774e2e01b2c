(** * LogShare: the file log store used by several threads

    append, write_at, apply_pack and compact hold store_lock_ from beginning to
    end (src/fs_log_store.cxx:276-297, 299-367, 567-642, 644-808), and so do
    next_slot, start_index and pack.  The reads entry_at, term_at, log_entries
    and last_entry first look at the cache, which has a lock of its own
    (include/fs_log_store.hxx:37-85), and take store_lock_ only for what the
    cache does not hold.  They can therefore see the cache while another thread
    is in the middle of a change.

    Simplifications: one look at the cache and one stretch under store_lock_ is
    one step (the locks make them so); memory is sequentially consistent; the
    value of an entry does not change once it is in the cache.  An operation
    that throws changes the cache at its end. *)

From Verif Require Import Base Codec CodecSpec Msg FsLogStore FsLogSpec.
Local Open Scope N_scope.
Local Open Scope sm_scope.

(** ** The parts of the reads *)

(** src/fs_log_store.cxx:449-480: entry_at after the cache had nothing *)
Definition entry_rest (index : N) : SM (option entry_val) :=
  start <- sget s_start ;;
  entries <- sget s_entries ;;
  if index <? start then sfail RangeError
  else
    check_io ;;;
    if wadd start entries <=? index then sret None
    else
      idx_do (f_seek (wmul (wsub index start) 8)) ;;;
      d_pos <- read_idx_ulong ;;
      end_d_pos <- read_idx_ulong ;;
      dat_do (f_seek d_pos) ;;;
      bs <- read_dat (ulong_of_Z (int_of_ulong (wsub end_d_pos d_pos))) ;;
      e <- slift (dec_entry bs) ;;
      sret (Some e).

(** src/fs_log_store.cxx:490-512: term_at when the index is not in the cache *)
Definition term_rest (index : N) : SM N :=
  start <- sget s_start ;;
  if index <? start then sfail RangeError
  else
    check_io ;;;
    idx_do (f_seek (wmul (ulong_of_Z (int_of_ulong (wsub index start))) 8)) ;;;
    p <- read_idx_ulong ;;
    dat_do (f_seek p) ;;;
    bs <- read_dat 8 ;;
    sret (of_le bs).

(** src/fs_log_store.cxx:371-393: log_entries up to the look at the cache; the
    first offset, the first index of the store and the end of the range, unless
    there is nothing to return *)
Definition range_bounds (start end_ : N) (s : store) : res (option (N * N * N)) :=
  let sstart := s_start s in
  let entries := s_entries s in
  if start <? sstart then Throw RangeError
  else if (end_ <=? start) || (wadd sstart entries <=? start) then Ok None
  else
    let lstart := wsub start sstart in
    let lend := wsub end_ sstart in
    let lend := if entries <? lend then entries else lend in
    if lend <=? lstart then Ok None
    else Ok (Some (lstart, sstart, wadd lend sstart)).

(** src/fs_log_store.cxx:402-438: log_entries after the look at the cache, when
    the range begins before [first], the first cached index *)
Definition range_rest (lstart sstart first : N) (results : list (option entry_val)) : SM (option (list (option entry_val))) :=
  check_io ;;;
  let lend := wsub first sstart in
  idx_do (f_seek (wmul lstart 8)) ;;;
  data_start <- read_idx_ulong ;;
  r <- log_entries_loop (Z.to_nat (int_of_ulong (wsub lend lstart))) 0 data_start results ;;
  sret (Some r).

(** ** Reading threads *)
Inductive call := QEntry (i : N) | QTerm (i : N) | QRange (a b : N) | QLast.

(** the same call for a single thread *)
Definition call_op (q : call) : lop :=
  match q with QEntry i => LEntryAt i | QTerm i => LTermAt i | QRange a b => LLogEntries a b | QLast => LLast end.

(** How far a call is. *)
Inductive pc :=
| Called
| First                          (* term_at: first_idx() is not above the index *)
| Within                         (* term_at: and last_idx() is above it *)
| Locked                         (* entry_at, term_at: not in the cache, store_lock_ is needed *)
| Bounds (lstart sstart good_end : N)                              (* log_entries: the range is known *)
| Filled (lstart sstart first : N) (results : list (option entry_val))  (* log_entries: and what the cache had *)
| Gave (r : res lret).

Definition to_ret {A} (f : A -> lret) (r : res A) : res lret :=
  match r with Ok a => Ok (f a) | Throw e => Throw e | UB u => UB u end.
Definition gave (p : res lret * store) : option (pc * store) := Some (Gave (fst p), snd p).

(** One step of a call; [free]: no other thread holds store_lock_.  [None]: it
    has to wait for the lock, or is over.  entry_at: src/fs_log_store.cxx:441-481,
    term_at: 483-513, log_entries: 369-439, last_entry: 265-274. *)
Definition reader_step (q : call) (p : pc) (free : bool) (s : store) : option (pc * store) :=
  let c := s_cache s in
  match q, p with
  | QEntry i, Called =>
      match c_at c i with
      | Some e => Some (Gave (Ok (REntry (Some e))), s)
      | None => Some (Locked, s)
      end
  | QEntry i, Locked => if free then gave (rmap REntry (entry_rest i s)) else None
  | QTerm i, Called => Some (if c_start c <=? i then First else Locked, s)
  | QTerm i, First => Some (if i <? c_last_idx c then Within else Locked, s)
  | QTerm i, Within => Some (Gave (to_ret RIdx (c_get_term c i)), s)
  | QTerm i, Locked => if free then gave (rmap RIdx (term_rest i s)) else None
  | QRange a b, Called =>
      if free then
        match range_bounds a b s with
        | Ok (Some (lstart, sstart, good_end)) => Some (Bounds lstart sstart good_end, s)
        | Ok None => Some (Gave (Ok (REntries None)), s)
        | Throw e => Some (Gave (Throw e), s)
        | UB u => Some (Gave (UB u), s)
        end
      else None
  | QRange a b, Bounds lstart sstart good_end =>
      match c_fill c a good_end with
      | Ok results =>
          if a <? c_start c then Some (Filled lstart sstart (c_start c) results, s)
          else Some (Gave (Ok (REntries (Some results))), s)
      | Throw e => Some (Gave (Throw e), s)
      | UB u => Some (Gave (UB u), s)
      end
  | QRange a b, Filled lstart sstart first results =>
      if free then gave (rmap REntries (range_rest lstart sstart first results s)) else None
  | QLast, Called => Some (Gave (Ok (REntry (Some (last_entry s)))), s)
  | _, _ => None
  end.

(** ** Changes *)

(** the cache while fill_buffer fills it with [c_buf f], from empty to full
    (src/fs_log_store.cxx:859-889: one append to the cache per entry) *)
Definition filling (f : cache) : list cache :=
  map (fun n => mkCache (c_start f) (firstn n (c_buf f)) (c_max f)) (seq 0 (S (length (c_buf f)))).

(** The values the cache takes while an operation runs.  append:
    src/fs_log_store.cxx:287; write_at: 356-361 (trim, then append); apply_pack:
    640-641 and compact: 805-806 (reset, then fill_buffer); compact of
    everything: 735 (reset). *)
Definition cache_steps (op : lop) (s : store) : list cache :=
  let f := s_cache (snd (run_lop op s)) in
  match fst (run_lop op s), op with
  | Ok _, LAppend _ => [f]
  | Ok _, LWriteAt i _ => [c_trim (s_cache s) i; f]
  | Ok _, LApplyPack _ _ _ => filling f
  | Ok _, LCompact _ => filling f
  | _, _ => []
  end.

(** ** All threads *)
Record reader := mkRd {
  rd_call : call;
  rd_since : nat;     (* how many changes were over when the call was made *)
  rd_at : nat;        (* how many changes had begun when it made its last step *)
  rd_pc : pc }.

(** [y_ahead]: the change under way, if any: the values the cache is still to
    take and the store it ends with.  [y_ops]: all changes begun. *)
Record shared := mkSh {
  y_store : store;
  y_ahead : option (list cache * store);
  y_ops : list lop;
  y_readers : list reader }.

Definition begun (y : shared) : nat := length (y_ops y).
Definition ended (y : shared) : nat := match y_ahead y with None => begun y | Some _ => pred (begun y) end.
Definition free (y : shared) : bool := match y_ahead y with None => true | Some _ => false end.

Inductive turn :=
| EBegin (op : lop)      (* a thread gets store_lock_ for a change *)
| ECache                 (* the change goes on to its next change of the cache *)
| EEnd                   (* the change is over, store_lock_ is released *)
| ECall (q : call)       (* a thread calls a read *)
| ERead (n : nat).       (* the n-th call makes a step *)

Definition is_change (op : lop) : bool :=
  match op with LAppend _ | LWriteAt _ _ | LApplyPack _ _ _ | LCompact _ => true | _ => false end.

Fixpoint set_nth {A} (n : nat) (x : A) (l : list A) : list A :=
  match l, n with
  | [], _ => []
  | _ :: l, O => x :: l
  | y :: l, S n => y :: set_nth n x l
  end.

Definition ev_step (y : shared) (v : turn) : option shared :=
  match v, y_ahead y with
  | EBegin op, None =>
      if is_change op then
        Some (mkSh (y_store y) (Some (cache_steps op (y_store y), snd (run_lop op (y_store y)))) (y_ops y ++ [op]) (y_readers y))
      else None
  | ECache, Some (c :: cs, s') => Some (mkSh (set_cache c (y_store y)) (Some (cs, s')) (y_ops y) (y_readers y))
  | EEnd, Some ([], s') => Some (mkSh s' None (y_ops y) (y_readers y))
  | ECall q, _ => Some (mkSh (y_store y) (y_ahead y) (y_ops y) (y_readers y ++ [mkRd q (ended y) (begun y) Called]))
  | ERead n, _ =>
      match nth_error (y_readers y) n with
      | Some t =>
          match reader_step (rd_call t) (rd_pc t) (free y) (y_store y) with
          | Some (p, s) => Some (mkSh s (y_ahead y) (y_ops y) (set_nth n (mkRd (rd_call t) (rd_since t) (begun y) p) (y_readers y)))
          | None => None
          end
      | None => None
      end
  | _, _ => None
  end.

Fixpoint ev_run (vs : list turn) (y : shared) : option shared :=
  match vs with
  | [] => Some y
  | v :: vs => match ev_step y v with Some y => ev_run vs y | None => None end
  end.

(** A store before any other thread uses it. *)
Definition share (s : store) : shared := mkSh s None [] [].
