(** * FsLogStore: the file-based log store

    Models include/fs_log_store.hxx and src/fs_log_store.cxx on the byte level.
    The three std::fstream objects are files with one joint read/write position
    and a sticky failbit (seekg clears eofbit only; open clears all flags).

    Simplifications: single-threaded use (for several threads see LogShare.v);
    the operating system calls open, remove and truncate succeed, so the error
    branches of compact (810-849) are not reached; log entries have a non-null
    payload buffer and are values (the store keeps the caller's pointer); a
    fresh buffer filled by operator>> and read with get_ulong is [of_le] of the
    bytes read (proved in CodecProofs/RpcProofs); unflushed stream contents are
    visible to later operations on the same stream (flush matters only for
    crashes, see FsLogCrash.v). *)

From Verif Require Import Base Codec CodecSpec Msg.
Local Open Scope N_scope.

Definition w64 (n : N) : N := n mod two64.
Definition wadd (a b : N) : N := w64 (a + b).
Definition wmul (a b : N) : N := w64 (a * b).
Definition int_of_ulong (n : N) : Z := to_int32 (Z.of_N n).

(** ** Files *)
Record file := mkFile { f_data : list byte; f_pos : N; f_fail : bool }.

Definition set_fail (f : file) : file := mkFile (f_data f) (f_pos f) true.

(** seekg/seekp(off): nothing if the failbit is set; offsets that do not fit
    std::streamoff are negative and make the seek fail *)
Definition f_seek (off : N) (f : file) : file :=
  if f_fail f then f
  else if 9223372036854775808 <=? off then set_fail f
  else mkFile (f_data f) off false.

Definition f_seek_end (f : file) : file :=
  if f_fail f then f else mkFile (f_data f) (lenN (f_data f)) false.

(** tellg/tellp converted to ulong: -1 on failure *)
Definition f_tell (f : file) : N := if f_fail f then two64 - 1 else f_pos f.

(** operator>> (src/buffer.cxx:286-303) with a buffer of [n] unread bytes *)
Definition f_read (n : N) (f : file) : res (list byte) * file :=
  if f_fail f then (Throw IosFailure, f)
  else if f_pos f + n <=? lenN (f_data f) then
    (Ok (firstn (N.to_nat n) (skipn (N.to_nat (f_pos f)) (f_data f))),
     mkFile (f_data f) (f_pos f + n) false)
  else (Throw IosFailure, mkFile (f_data f) (N.max (f_pos f) (lenN (f_data f))) true).

(** the bytes of a file after writing [bs] at offset [p]; a gap is zero-filled *)
Definition write_bytes (d : list byte) (p : N) (bs : list byte) : list byte :=
  match bs with
  | [] => d
  | _ => firstn (N.to_nat p) (d ++ repeat x00 (N.to_nat p - length d)) ++ bs
         ++ skipn (N.to_nat p + length bs) d
  end.

(** std::ostream::write *)
Definition f_write_raw (bs : list byte) (f : file) : file :=
  if f_fail f then f
  else mkFile (write_bytes (f_data f) (f_pos f) bs) (f_pos f + lenN bs) false.

(** operator<< (src/buffer.cxx:269-284) *)
Definition f_write (bs : list byte) (f : file) : res unit * file :=
  if f_fail f then (Throw IosFailure, f) else (Ok tt, f_write_raw bs f).

(** close; open(in|out|binary|ate) *)
Definition f_reopen (f : file) : file := mkFile (f_data f) (lenN (f_data f)) false.

(** close; truncate(path, n); open(in|out|binary|ate) *)
Definition f_truncate (n : N) (f : file) : file :=
  f_reopen (mkFile (firstn (N.to_nat n) (f_data f) ++ repeat x00 (N.to_nat n - length (f_data f))) 0 false).

Definition empty_file : file := mkFile [] 0 false.

(** ** Entries: log_entry::serialize / deserialize on plain bytes (see Codec.v) *)
Definition enc_entry (e : entry_val) : res (list byte) :=
  if two31 <=? 9 + lenN (ev_data e) then Throw OutOfRange
  else Ok (entry_bytes (ev_term e) (ev_type e) (ev_data e)).

Definition dec_entry (bs : list byte) : res entry_val :=
  if lenN bs <? 9 then Throw OverflowError
  else Ok (mkEV (of_le (firstn 8 bs)) (hd x00 (skipn 8 bs)) (skipn 9 bs)).

(** buffer::alloc(n) succeeds *)
Definition can_alloc (n : N) : res unit := if two31 <=? n then Throw OutOfRange else Ok tt.

(** ** The cache, include/fs_log_store.hxx:28-85 *)
Record cache := mkCache { c_start : N; c_buf : list entry_val; c_max : N }.

(** include/fs_log_store.hxx:37-45 *)
Definition c_last_idx (c : cache) : N := wadd (c_start c) (lenN (c_buf c)).

(** include/fs_log_store.hxx:47-54 *)
Definition c_last_entry (c : cache) : option entry_val :=
  match c_buf c with [] => None | e :: l => Some (last l e) end.

(** src/fs_log_store.cxx:79-89 *)
Definition c_at (c : cache) (idx : N) : option entry_val :=
  let idx_within_buf := wsub idx (c_start c) in
  if (lenN (c_buf c) <=? idx_within_buf) || (idx <? c_start c) then None
  else nth_error (c_buf c) (N.to_nat idx_within_buf).

(** include/fs_log_store.hxx:61-68; the index is cast to int *)
Definition c_get_term (c : cache) (index : N) : res N :=
  if (index <? c_start c) || (wadd (c_start c) (lenN (c_buf c)) <=? index) then Ok 0
  else match nth_error (c_buf c) (Z.to_nat (int_of_ulong (wsub index (c_start c)))) with
       | Some e => if (int_of_ulong (wsub index (c_start c)) <? 0)%Z then UB OutOfBoundsRead else Ok (ev_term e)
       | None => UB OutOfBoundsRead
       end.

(** buf_[k] for an int k; std::vector::operator[] does not check *)
Definition c_elem (c : cache) (k : Z) : res (option entry_val) :=
  if (k <? 0)%Z then UB OutOfBoundsRead
  else match nth_error (c_buf c) (Z.to_nat k) with
       | Some e => Ok (Some e)
       | None => UB OutOfBoundsRead
       end.

Fixpoint c_elems (c : cache) (k : Z) (n : nat) : res (list (option entry_val)) :=
  match n with
  | O => Ok []
  | S n => res_bind (c_elem c k) (fun e => res_bind (c_elems c (k + 1) n) (fun l => Ok (e :: l)))
  end.

(** src/fs_log_store.cxx:92-123; the returned index is c_start *)
Definition c_fill (c : cache) (start end_ : N) : res (list (option entry_val)) :=
  if end_ <? c_start c then Ok []
  else
    let offset := int_of_ulong (wsub start (c_start c)) in
    if (0 <? offset)%Z then
      c_elems c offset (Z.to_nat (int_of_ulong (wsub end_ start)))
    else
      res_bind (c_elems c 0 (Z.to_nat (int_of_ulong (wsub end_ (c_start c))))) (fun l =>
      Ok (repeat None (Z.to_nat (- offset)) ++ l)).

(** src/fs_log_store.cxx:126-139 *)
Definition c_trim (c : cache) (start : N) : cache :=
  if start <? c_start c then c
  else
    let index := wsub start (c_start c) in
    if index <? lenN (c_buf c) then mkCache (c_start c) (firstn (N.to_nat index) (c_buf c)) (c_max c)
    else c.

(** src/fs_log_store.cxx:141-150 *)
Definition c_append (c : cache) (e : entry_val) : cache :=
  let buf := c_buf c ++ [e] in
  if c_max c <? lenN buf then mkCache (wadd (c_start c) 1) (tl buf) (c_max c)
  else mkCache (c_start c) buf (c_max c).

(** include/fs_log_store.hxx:75-79 *)
Definition c_reset (c : cache) (start : N) : cache := mkCache start [] (c_max c).

(** ** The store *)
Record store := mkStore {
  s_idx : file; s_dat : file; s_sti : file;
  s_entries : N; s_start : N; s_cache : cache; s_buf_size : N }.

(** Store operations: exceptions keep the changes made so far. *)
Definition SM (A : Type) := store -> res A * store.
Definition sret {A} (a : A) : SM A := fun s => (Ok a, s).
Definition sfail {A} (r : exn) : SM A := fun s => (Throw r, s).
Definition slift {A} (r : res A) : SM A := fun s => (r, s).
Definition sbind {A B} (m : SM A) (f : A -> SM B) : SM B :=
  fun s => match m s with
           | (Ok a, s) => f a s
           | (Throw e, s) => (Throw e, s)
           | (UB u, s) => (UB u, s)
           end.
Declare Scope sm_scope.
Delimit Scope sm_scope with sm.
Notation "x <- m ;; k" := (sbind m (fun x => k)) (at level 61, m at next level, right associativity) : sm_scope.
Notation "m ;;; k" := (sbind m (fun _ => k)) (at level 61, right associativity) : sm_scope.
Local Open Scope sm_scope.

Definition sget {A} (f : store -> A) : SM A := fun s => (Ok (f s), s).
Definition set_idx (f : file) (s : store) : store :=
  mkStore f (s_dat s) (s_sti s) (s_entries s) (s_start s) (s_cache s) (s_buf_size s).
Definition set_dat (f : file) (s : store) : store :=
  mkStore (s_idx s) f (s_sti s) (s_entries s) (s_start s) (s_cache s) (s_buf_size s).
Definition set_sti (f : file) (s : store) : store :=
  mkStore (s_idx s) (s_dat s) f (s_entries s) (s_start s) (s_cache s) (s_buf_size s).
Definition set_entries (n : N) (s : store) : store :=
  mkStore (s_idx s) (s_dat s) (s_sti s) n (s_start s) (s_cache s) (s_buf_size s).
Definition set_start (n : N) (s : store) : store :=
  mkStore (s_idx s) (s_dat s) (s_sti s) (s_entries s) n (s_cache s) (s_buf_size s).
Definition set_cache (c : cache) (s : store) : store :=
  mkStore (s_idx s) (s_dat s) (s_sti s) (s_entries s) (s_start s) c (s_buf_size s).
Definition smod (f : store -> store) : SM unit := fun s => (Ok tt, f s).

Definition idx_do (f : file -> file) : SM unit := smod (fun s => set_idx (f (s_idx s)) s).
Definition dat_do (f : file -> file) : SM unit := smod (fun s => set_dat (f (s_dat s)) s).
Definition sti_do (f : file -> file) : SM unit := smod (fun s => set_sti (f (s_sti s)) s).
Definition on_idx {A} (m : file -> res A * file) : SM A := fun s => let '(r, f) := m (s_idx s) in (r, set_idx f s).
Definition on_dat {A} (m : file -> res A * file) : SM A := fun s => let '(r, f) := m (s_dat s) in (r, set_dat f s).
Definition on_sti {A} (m : file -> res A * file) : SM A := fun s => let '(r, f) := m (s_sti s) in (r, set_sti f s).
Definition cache_do (f : cache -> cache) : SM unit := smod (fun s => set_cache (f (s_cache s)) s).

(** bufptr b(buffer::alloc(8)); idx_file_ >> *b; b->get_ulong() *)
Definition read_idx_ulong : SM N := bs <- on_idx (f_read 8) ;; sret (of_le bs).
(** bufptr b(buffer::alloc(n)); data_file_ >> *b *)
Definition read_dat (n : N) : SM (list byte) := slift (can_alloc n) ;;; on_dat (f_read n).

(** src/fs_log_store.cxx:291-294 and elsewhere: if (!data_file_ || !idx_file_) throw *)
Definition check_io : SM unit :=
  fun s => if f_fail (s_dat s) || f_fail (s_idx s) then (Throw RuntimeError, s) else (Ok tt, s).

(** src/fs_log_store.cxx:859-889.  The loop runs over the remaining bytes of
    idx_buf; it gets one step of fuel per byte. *)
Fixpoint fill_loop (fuel : nat) (idx_rest : list byte) (data_start : N) : SM N :=
  match idx_rest with
  | [] => sret data_start
  | _ =>
    match fuel with
    | O => sret data_start
    | S fuel =>
      if lenN idx_rest <? 8 then sfail OverflowError
      else
        let data_end := of_le (firstn 8 idx_rest) in
        bs <- read_dat (wsub data_end data_start) ;;
        e <- slift (dec_entry bs) ;;
        cache_do (fun c => c_append c e) ;;;
        fill_loop fuel (skipn 8 idx_rest) data_end
    end
  end.

Definition fill_buffer : SM unit :=
  first_idx <- sget (fun s => c_start (s_cache s)) ;;
  idx_do f_seek_end ;;; dat_do f_seek_end ;;;
  idx_file_len <- sget (fun s => f_tell (s_idx s)) ;;
  data_file_len <- sget (fun s => f_tell (s_dat s)) ;;
  idx_failed <- sget (fun s => f_fail (s_idx s)) ;;
  if (0 <? idx_file_len) && negb idx_failed then
    start <- sget s_start ;;
    let idx_pos := wmul (wsub first_idx start) 8 in
    idx_do (f_seek idx_pos) ;;;
    slift (can_alloc (wsub idx_file_len idx_pos)) ;;;
    idx_buf <- on_idx (f_read (wsub idx_file_len idx_pos)) ;;
    if lenN idx_buf <? 8 then sfail OverflowError
    else
      let data_start := of_le (firstn 8 idx_buf) in
      dat_do (f_seek data_start) ;;;
      data_start <- fill_loop (length idx_buf) (skipn 8 idx_buf) data_start ;;
      bs <- read_dat (wsub data_file_len data_start) ;;
      e <- slift (dec_entry bs) ;;
      cache_do (fun c => c_append c e)
  else sret tt.

(** src/fs_log_store.cxx:248-249, :640, :805 *)
Definition first_cached (entries start buf_size : N) : N :=
  if buf_size <? entries then wsub (wadd entries start) buf_size else start.

(** What the folder holds. *)
Record folder := mkFolder { d_idx : list byte; d_dat : list byte; d_sti : list byte }.
Definition empty_folder : folder := mkFolder [] [] [].
Definition close (s : store) : folder := mkFolder (f_data (s_idx s)) (f_data (s_dat s)) (f_data (s_sti s)).

(** src/fs_log_store.cxx:180: buf_size < 0 means the largest int *)
Definition cache_limit (buf_size : Z) : N := if (buf_size <? 0)%Z then 2147483647 else Z.to_N buf_size.

(** src/fs_log_store.cxx:171-251 *)
Definition open_store (d : folder) (buf_size : Z) : res unit * store :=
  let bs := cache_limit buf_size in
  let s0 := mkStore (f_reopen (mkFile (d_idx d) 0 false)) (f_reopen (mkFile (d_dat d) 0 false))
              (f_reopen (mkFile (d_sti d) 0 false)) 0 1 (mkCache 1 [] bs) bs in
  ((if 0 <? f_tell (s_sti s0) then
      sti_do (f_seek 0) ;;;
      v <- on_sti (f_read 8) ;;
      smod (set_start (of_le v)) ;;;
      len <- sget (fun s => f_tell (s_idx s)) ;;
      smod (set_entries (len / 8))
    else
      smod (set_start 1) ;;;
      sti_do (f_seek 0) ;;;
      on_sti (f_write (le 8 1)) ;;;
      smod (set_entries 0)) ;;;
   smod (fun s => set_cache (mkCache (first_cached (s_entries s) (s_start s) bs) [] bs) s) ;;;
   fill_buffer) s0.

(** src/fs_log_store.cxx:253-263 *)
Definition next_slot (s : store) : N := wadd (s_start s) (s_entries s).
Definition start_index (s : store) : N := s_start s.

(** src/fs_log_store.cxx:77: the dummy entry *)
Definition empty_entry : entry_val := mkEV 0 x01 [].

(** src/fs_log_store.cxx:265-274 *)
Definition last_entry (s : store) : entry_val :=
  match c_last_entry (s_cache s) with Some e => e | None => empty_entry end.

(** src/fs_log_store.cxx:276-297 *)
Definition append (e : entry_val) : SM N :=
  idx_do f_seek_end ;;; dat_do f_seek_end ;;;
  pos <- sget (fun s => f_tell (s_dat s)) ;;
  on_idx (f_write (le 8 pos)) ;;;
  entry_buf <- slift (enc_entry e) ;;
  on_dat (f_write entry_buf) ;;;
  cache_do (fun c => c_append c e) ;;;
  smod (fun s => set_entries (wadd (s_entries s) 1) s) ;;;
  check_io ;;;
  sget (fun s => wsub (wadd (s_start s) (s_entries s)) 1).

(** src/fs_log_store.cxx:299-367 *)
Definition write_at (index : N) (e : entry_val) : SM unit :=
  start <- sget s_start ;;
  entries <- sget s_entries ;;
  if (index <? start) || (wadd start entries <? index) then sfail RangeError
  else
    let local_idx := wadd (wsub index start) 1 in
    let idx_pos := wmul (wsub local_idx 1) 8 in
    (if local_idx <=? entries then
       idx_do (f_seek idx_pos) ;;;
       p <- read_idx_ulong ;;
       dat_do (f_seek p)
     else dat_do f_seek_end) ;;;
    idx_do (f_seek idx_pos) ;;;
    data_pos <- sget (fun s => f_tell (s_dat s)) ;;
    on_idx (f_write (le 8 data_pos)) ;;;
    ebuf <- slift (enc_entry e) ;;
    on_dat (f_write ebuf) ;;;
    ndata_len <- sget (fun s => f_tell (s_dat s)) ;;
    nidx_len <- sget (fun s => f_tell (s_idx s)) ;;
    idx_do f_seek_end ;;;
    idx_len <- sget (fun s => f_tell (s_idx s)) ;;
    (if nidx_len <? idx_len then
       idx_do (f_truncate nidx_len) ;;; dat_do (f_truncate ndata_len)
     else sret tt) ;;;
    (if local_idx <=? entries then cache_do (fun c => c_trim c index) else sret tt) ;;;
    cache_do (fun c => c_append c e) ;;;
    smod (set_entries local_idx) ;;;
    check_io.

(** src/fs_log_store.cxx:428-434: replace the i-th result if there is one, emplace_back otherwise *)
Fixpoint set_or_push {A} (i : nat) (x : A) (l : list A) : list A :=
  match l, i with
  | [], _ => [x]
  | _ :: l, O => x :: l
  | y :: l, S i => y :: set_or_push i x l
  end.

(** src/fs_log_store.cxx:416-435 *)
Fixpoint log_entries_loop (n : nat) (i : nat) (data_start : N) (results : list (option entry_val))
  : SM (list (option entry_val)) :=
  match n with
  | O => sret results
  | S n =>
      data_end <- read_idx_ulong ;;
      let data_sz := int_of_ulong (wsub data_end data_start) in
      dat_do (f_seek data_start) ;;;
      bs <- read_dat (ulong_of_Z data_sz) ;;
      e <- slift (dec_entry bs) ;;
      log_entries_loop n (S i) data_end (set_or_push i (Some e) results)
  end.

(** src/fs_log_store.cxx:369-439 *)
Definition log_entries (start end_ : N) : SM (option (list (option entry_val))) :=
  sstart <- sget s_start ;;
  entries <- sget s_entries ;;
  if start <? sstart then sfail RangeError
  else if (end_ <=? start) || (wadd sstart entries <=? start) then sret None
  else
    let lstart := wsub start sstart in
    let lend := wsub end_ sstart in
    let lend := if entries <? lend then entries else lend in
    let good_end := wadd lend sstart in
    if lend <=? lstart then sret None
    else
      c <- sget s_cache ;;
      results <- slift (c_fill c start good_end) ;;
      let buffer_first_idx := c_start c in
      if start <? buffer_first_idx then
        check_io ;;;
        let lend := wsub buffer_first_idx sstart in
        idx_do (f_seek (wmul lstart 8)) ;;;
        data_start <- read_idx_ulong ;;
        r <- log_entries_loop (Z.to_nat (int_of_ulong (wsub lend lstart))) 0 data_start results ;;
        sret (Some r)
      else sret (Some results).

(** src/fs_log_store.cxx:441-481 *)
Definition entry_at (index : N) : SM (option entry_val) :=
  c <- sget s_cache ;;
  match c_at c index with
  | Some e => sret (Some e)
  | None =>
      start <- sget s_start ;;
      entries <- sget s_entries ;;
      if index <? start then sfail RangeError
      else
        check_io ;;;
        if wadd start entries <=? index then sret None
        else
          idx_do (f_seek (wmul (wsub index start) 8)) ;;;
          d_pos <- read_idx_ulong ;;
          end_d_pos <- read_idx_ulong ;;
          dat_do (f_seek d_pos) ;;;
          bs <- read_dat (ulong_of_Z (int_of_ulong (wsub end_d_pos d_pos))) ;;
          e <- slift (dec_entry bs) ;;
          sret (Some e)
  end.

(** src/fs_log_store.cxx:483-513 *)
Definition term_at (index : N) : SM N :=
  c <- sget s_cache ;;
  if (c_start c <=? index) && (index <? c_last_idx c) then slift (c_get_term c index)
  else
    start <- sget s_start ;;
    if index <? start then sfail RangeError
    else
      check_io ;;;
      idx_do (f_seek (wmul (ulong_of_Z (int_of_ulong (wsub index start))) 8)) ;;;
      p <- read_idx_ulong ;;
      dat_do (f_seek p) ;;;
      bs <- read_dat 8 ;;
      sret (of_le bs).

(** src/fs_log_store.cxx:515-565; [cnt] is an int32 converted to ulong by the
    addition *)
Definition pack (index : N) (cnt : Z) : SM (list byte) :=
  start <- sget s_start ;;
  entries <- sget s_entries ;;
  if index <? start then sfail RangeError
  else
    check_io ;;;
    let offset := wsub index start in
    if entries <=? offset then sret []
    else
      let end_offset := N.min (wadd offset (ulong_of_Z cnt)) entries in
      idx_do (f_seek (wmul (ulong_of_Z (int_of_ulong offset)) 8)) ;;;
      let idx_sz := wmul (ulong_of_Z (int_of_ulong (wsub end_offset offset))) 8 in
      slift (can_alloc idx_sz) ;;;
      idx_buf <- on_idx (f_read idx_sz) ;;
      end_of_data <- (if end_offset =? entries then
                        dat_do f_seek_end ;;; sget (fun s => f_tell (s_dat s))
                      else read_idx_ulong) ;;
      if lenN idx_buf <? 8 then sfail OverflowError
      else
        let start_of_data := of_le (firstn 8 idx_buf) in
        dat_do (f_seek start_of_data) ;;;
        data_buf <- read_dat (ulong_of_Z (int_of_ulong (wsub end_of_data start_of_data))) ;;
        slift (can_alloc (2 * 4 + lenN idx_buf + lenN data_buf)) ;;;
        sret (int_b (Z.of_N (lenN idx_buf)) ++ int_b (Z.of_N (lenN data_buf)) ++ idx_buf ++ data_buf).

(** src/fs_log_store.cxx:599-604 *)
Fixpoint adjust_loop (n : nat) (rest : list byte) (delta : N) : SM unit :=
  match n with
  | O => sret tt
  | S n =>
      if lenN rest <? 8 then sfail OverflowError
      else idx_do (f_write_raw (le 8 (wadd (of_le (firstn 8 rest)) delta))) ;;;
           adjust_loop n (skipn 8 rest) delta
  end.

(** src/fs_log_store.cxx:567-642.  [pack] is the unread part of the pack
    buffer.  Writing with a length that is negative or exceeds the pack reads
    outside the buffer. *)
Definition apply_pack (index : N) (pk : list byte) : SM unit :=
  if lenN pk <? 8 then sfail OverflowError
  else
    let idx_len := to_int32 (Z.of_N (of_le (firstn 4 pk))) in
    let data_len := to_int32 (Z.of_N (of_le (firstn 4 (skipn 4 pk)))) in
    let rest := skipn 8 pk in
    start <- sget s_start ;;
    entries <- sget s_entries ;;
    let local_idx := wsub index start in
    (if local_idx =? entries then idx_do f_seek_end ;;; dat_do f_seek_end
     else
       idx_do (f_seek (wmul local_idx 8)) ;;;
       p <- read_idx_ulong ;;
       idx_do (f_seek (wmul local_idx 8)) ;;;
       dat_do (f_seek p)) ;;;
    prev_data_pos <- sget (fun s => f_tell (s_dat s)) ;;
    if lenN rest <? 8 then sfail OverflowError
    else
      let first_idx := of_le (firstn 8 rest) in
      (if prev_data_pos =? first_idx then
         if ((idx_len <? 0) || (Z.of_N (lenN rest) <? idx_len))%Z%bool then slift (UB OutOfBoundsRead)
         else idx_do (f_write_raw (firstn (Z.to_nat idx_len) rest))
       else adjust_loop (Z.to_nat ((idx_len + 7) / 8)) rest (wsub prev_data_pos first_idx)) ;;;
      (if ((data_len <? 0) || (idx_len <? 0) || (Z.of_N (lenN rest) <? idx_len + data_len))%Z%bool
       then slift (UB OutOfBoundsRead)
       else dat_do (f_write_raw (firstn (Z.to_nat data_len) (skipn (Z.to_nat idx_len) rest)))) ;;;
      idx_pos <- sget (fun s => f_tell (s_idx s)) ;;
      data_pos <- sget (fun s => f_tell (s_dat s)) ;;
      idx_do f_seek_end ;;; dat_do f_seek_end ;;;
      idx_end <- sget (fun s => f_tell (s_idx s)) ;;
      (if idx_pos <? idx_end then idx_do (f_truncate idx_pos) ;;; dat_do (f_truncate data_pos) else sret tt) ;;;
      check_io ;;;
      smod (set_entries (wadd local_idx (Z.to_N idx_len / 8))) ;;;
      smod (fun s => set_cache (c_reset (s_cache s) (first_cached (s_entries s) (s_start s) (s_buf_size s))) s) ;;;
      fill_buffer.

(** [bak] << f.rdbuf(): everything from the current position of [f] *)
Definition rest_of (f : file) : list byte := skipn (N.to_nat (f_pos f)) (f_data f).
Definition at_end (f : file) : file := mkFile (f_data f) (N.max (f_pos f) (lenN (f_data f))) (f_fail f).

(** f << bak.rdbuf(): inserting nothing sets the failbit *)
Definition f_insert (bs : list byte) (f : file) : file :=
  match bs with [] => set_fail f | _ => f_write_raw bs f end.

(** src/fs_log_store.cxx:773-782 *)
Fixpoint compact_loop (n : nat) (bak : list byte) (data_pos : N) : SM unit :=
  match n with
  | O => sret tt
  | S n =>
      if lenN bak <? 8 then sfail IosFailure
      else on_idx (f_write (le 8 (wsub (of_le (firstn 8 bak)) data_pos))) ;;;
           compact_loop n (skipn 8 bak) data_pos
  end.

(** src/fs_log_store.cxx:644-808 *)
Definition compact (last_log_index : N) : SM bool :=
  start <- sget s_start ;;
  entries <- sget s_entries ;;
  if last_log_index <? start then sfail RangeError
  else
    idx_do (f_seek 0) ;;; dat_do (f_seek 0) ;;; sti_do (f_seek 0) ;;;
    idx_bak <- sget (fun s => rest_of (s_idx s)) ;;
    dat_bak <- sget (fun s => rest_of (s_dat s)) ;;
    idx_do at_end ;;; dat_do at_end ;;; sti_do at_end ;;;
    if wsub (wadd start entries) 1 <=? last_log_index then
      idx_do (fun _ => empty_file) ;;; dat_do (fun _ => empty_file) ;;;
      sti_do (f_seek 0) ;;;
      on_sti (f_write (le 8 (wadd last_log_index 1))) ;;;
      smod (set_start (wadd last_log_index 1)) ;;;
      smod (set_entries 0) ;;;
      cache_do (fun c => c_reset c (wadd last_log_index 1)) ;;;
      sret true
    else
      let idx_pos := wmul (wadd (wsub last_log_index start) 1) 8 in
      idx_do (f_seek idx_pos) ;;;
      data_pos <- read_idx_ulong ;;
      idx_do f_seek_end ;;; dat_do f_seek_end ;;;
      idx_end <- sget (fun s => f_tell (s_idx s)) ;;
      dat_end <- sget (fun s => f_tell (s_dat s)) ;;
      let idx_len := wsub idx_end idx_pos in
      let data_len := wsub dat_end data_pos in
      dat_do (f_seek 0) ;;;
      dat_do (f_insert (skipn (N.to_nat data_pos) dat_bak)) ;;;
      dat_do (f_truncate data_len) ;;;
      idx_do (f_seek 0) ;;;
      compact_loop (N.to_nat (idx_len / 8)) (skipn (N.to_nat idx_pos) idx_bak) data_pos ;;;
      idx_do (f_truncate idx_len) ;;;
      sti_do (f_seek 0) ;;;
      on_sti (f_write (le 8 (wadd last_log_index 1))) ;;;
      smod (set_entries (wsub entries (wadd (wsub last_log_index start) 1))) ;;;
      smod (set_start (wadd last_log_index 1)) ;;;
      smod (fun s => set_cache (c_reset (s_cache s) (first_cached (s_entries s) (s_start s) (s_buf_size s))) s) ;;;
      fill_buffer ;;;
      sret true.
