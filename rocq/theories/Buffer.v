(** * Buffer: the raw memory block behind cornerstone::buffer

    Models src/buffer.cxx and include/buffer.hxx.  A [block] is the memory
    obtained by `new char[...]` in buffer::alloc: header bytes followed by the
    data bytes.  Reads and writes of data outside the block are the outcome
    [UB].  Operations return an outcome and the block afterwards.

    Simplifications: the target is little-endian (as the macros of
    src/buffer.cxx:21-53 require for the flag bit of small blocks); reads of the
    header itself are not checked against the block length (theorem
    [reachable_block_header] in BufferProofs.v shows that they are inside);
    pointers returned by data()/get_str are represented by the bytes they
    point to. *)

From Verif Require Import Base.
Local Open Scope N_scope.

Definition block := list byte.

(** Checked access to the bytes of a block. *)
Definition load (m : block) (off n : N) : res (list byte) :=
  if off + n <=? lenN m
  then Ok (firstn (N.to_nat n) (skipn (N.to_nat off) m))
  else UB OutOfBoundsRead.

Definition splice (m : block) (off : nat) (bs : list byte) : block :=
  firstn off m ++ bs ++ skipn (off + length bs) m.

Definition store (m : block) (off : N) (bs : list byte) : res block :=
  if off + lenN bs <=? lenN m
  then Ok (splice m (N.to_nat off) bs)
  else UB OutOfBoundsWrite.

(** ((uint* )(p))[k] and ((ushort* )(p))[k] *)
Definition uint_at (m : block) (k : nat) : N := of_le (firstn 4 (skipn (4 * k) m)).
Definition ushort_at (m : block) (k : nat) : N := of_le (firstn 2 (skipn (2 * k) m)).
Definition set_uint (m : block) (k : nat) (v : N) : block := splice m (4 * k) (le 4 v).
Definition set_ushort (m : block) (k : nat) (v : N) : block := splice m (2 * k) (le 2 v).

(** src/buffer.cxx:21 __is_big_block *)
Definition is_big (m : block) : bool := N.testbit (uint_at m 0) 31.

(** src/buffer.cxx:29-32 __size_of_block, __pos_of_block; 93-101 size(), pos() *)
Definition buf_size (m : block) : N :=
  if is_big m then N.lxor (uint_at m 0) two31 else ushort_at m 0.
Definition buf_pos (m : block) : N :=
  if is_big m then uint_at m 1 else ushort_at m 1.

(** src/buffer.cxx:50-52 __data_of_block; 103-106 data(): offset of the data
    pointer inside the block *)
Definition data_off (m : block) : N :=
  if is_big m then 8 + uint_at m 1 else 4 + ushort_at m 1.

(** src/buffer.cxx:33-41 __mv_fw_block *)
Definition mv_fw (m : block) (d : N) : block :=
  if is_big m then set_uint m 1 ((uint_at m 1 + d) mod two32)
  else set_ushort m 1 ((ushort_at m 1 + d mod 65536) mod 65536).

(** src/buffer.cxx:42-50 __set_block_pos *)
Definition set_block_pos (m : block) (p : N) : block :=
  if is_big m then set_uint m 1 (p mod two32) else set_ushort m 1 (p mod 65536).

(** src/buffer.cxx:64-83 buffer::alloc.  [junk] is the uninitialised content of
    the memory returned by new[]. *)
Definition junk_bytes (junk : nat -> byte) (n : N) : list byte :=
  map junk (seq 0 (N.to_nat n)).

Definition alloc (junk : nat -> byte) (size : N) : res block :=
  if 0x80000000 <=? size then Throw OutOfRange
  else if 0x8000 <=? size then
    let p := junk_bytes junk (size + 8) in
    let p := set_uint p 0 (size mod two32) in
    let p := set_uint p 1 0 in
    Ok (set_uint p 0 (N.lor (uint_at p 0) two31))
  else
    let p := junk_bytes junk (size + 4) in
    let p := set_ushort p 0 (size mod 65536) in
    Ok (set_ushort p 1 0).

(** size() - pos() in size_t arithmetic *)
Definition avail (m : block) : N := wsub (buf_size m) (buf_pos m).

(** the accumulation loop of get_int, src/buffer.cxx:117-122 *)
Fixpoint sum_int (i : Z) (val : Z) (bs : list byte) : Z :=
  match bs with
  | [] => val
  | b :: bs =>
      sum_int (i + 1) (to_int32 (val + to_int32 (Z.shiftl (Z.of_N (byteN b)) (i * 8)))) bs
  end.

(** src/buffer.cxx:108-126 *)
Definition get_int (m : block) : res Z * block :=
  if avail m <? 4 then (Throw OverflowError, m)
  else match load m (data_off m) 4 with
       | Ok bs => (Ok (sum_int 0 0 bs), mv_fw m 4)
       | Throw e => (Throw e, m)
       | UB u => (UB u, m)
       end.

(** the accumulation loop of get_ulong, src/buffer.cxx:137-142 *)
Fixpoint sum_ulong (i : N) (val : N) (bs : list byte) : N :=
  match bs with
  | [] => val
  | b :: bs => sum_ulong (i + 1) ((val + N.shiftl (byteN b) (i * 8)) mod two64) bs
  end.

(** src/buffer.cxx:128-146 *)
Definition get_ulong (m : block) : res N * block :=
  if avail m <? 8 then (Throw OverflowError, m)
  else match load m (data_off m) 8 with
       | Ok bs => (Ok (sum_ulong 0 0 bs), mv_fw m 8)
       | Throw e => (Throw e, m)
       | UB u => (UB u, m)
       end.

(** src/buffer.cxx:148-159 *)
Definition get_byte (m : block) : res byte * block :=
  if avail m <? 1 then (Throw OverflowError, m)
  else match load m (data_off m) 1 with
       | Ok bs => (Ok (hd x00 bs), mv_fw m 1)
       | Throw e => (Throw e, m)
       | UB u => (UB u, m)
       end.

(** src/buffer.cxx:161-165 *)
Definition set_pos (m : block) (p : N) : block :=
  set_block_pos m (if buf_size m <? p then buf_size m else p).

(** number of bytes before the first NUL (or the end) *)
Fixpoint scan_nul (l : list byte) : nat :=
  match l with
  | [] => 0%nat
  | b :: l => if byteN b =? 0 then 0%nat else S (scan_nul l)
  end.

(** src/buffer.cxx:167-182; [None] is nilptr, [Some s] the C string returned *)
Definition get_str (m : block) : res (option (list byte)) * block :=
  let p := buf_pos m in
  let s := buf_size m in
  match (if p <? s then load m (data_off m) (s - p) else Ok []) with
  | Ok d =>
      let i := scan_nul d in
      if (s <=? p + N.of_nat i) || (N.of_nat i =? 0) then (Ok None, m)
      else (Ok (Some (firstn i d)), mv_fw m (N.of_nat i + 1))
  | Throw e => (Throw e, m)
  | UB u => (UB u, m)
  end.

(** the common tail of the put functions: write [bs] at data(), move forward *)
Definition put_at (m : block) (bs : list byte) : res unit * block :=
  match store m (data_off m) bs with
  | Ok m' => (Ok tt, mv_fw m' (lenN bs))
  | Throw e => (Throw e, m)
  | UB u => (UB u, m)
  end.

(** src/buffer.cxx:184-194 *)
Definition put_byte (b : byte) (m : block) : res unit * block :=
  if avail m <? 1 then (Throw OverflowError, m) else put_at m [b].

(** the bytes written by put(int32), src/buffer.cxx:203-207 *)
Definition int_bytes (val : Z) : list byte :=
  map (fun i => nbyte (Z.to_N (Z.shiftr val (i * 8) mod 256))) [0%Z; 1%Z; 2%Z; 3%Z].

(** src/buffer.cxx:196-210 *)
Definition put_int (val : Z) (m : block) : res unit * block :=
  if avail m <? 4 then (Throw OverflowError, m) else put_at m (int_bytes val).

(** the bytes written by put(ulong), src/buffer.cxx:219-223 *)
Definition ulong_bytes (val : N) : list byte :=
  map (fun i => nbyte (N.shiftr val (i * 8))) [0; 1; 2; 3; 4; 5; 6; 7].

(** src/buffer.cxx:212-226 *)
Definition put_ulong (val : N) (m : block) : res unit * block :=
  if avail m <? 8 then (Throw OverflowError, m) else put_at m (ulong_bytes val).

(** src/buffer.cxx:228-243 (the terminating NUL is written after the string) *)
Definition put_str (s : list byte) (m : block) : res unit * block :=
  if avail m <? lenN s + 1 then (Throw OverflowError, m) else put_at m (s ++ [x00]).

(** src/buffer.cxx:245-250 buffer::get(bufptr& dst); result: outcome, source
    afterwards, destination afterwards.  There is no bounds check on the source. *)
Definition get_buf (src dst : block) : res unit * block * block :=
  let sz := avail dst in
  match load src (data_off src) sz with
  | Ok bs =>
      match store dst (data_off dst) bs with
      | Ok dst' => (Ok tt, mv_fw src sz, dst')
      | Throw e => (Throw e, src, dst)
      | UB u => (UB u, src, dst)
      end
  | Throw e => (Throw e, src, dst)
  | UB u => (UB u, src, dst)
  end.

(** src/buffer.cxx:252-267 buffer::put(const buffer&) *)
Definition put_buf (src : block) (m : block) : res unit * block :=
  if avail m <? avail src then (Throw OverflowError, m)
  else match load src (data_off src) (avail src) with
       | Ok bs => put_at m bs
       | Throw e => (Throw e, m)
       | UB u => (UB u, m)
       end.

(** src/buffer.cxx:85-91 buffer::copy *)
Definition buf_copy (junk : nat -> byte) (src : block) : res block :=
  res_bind (alloc junk (avail src)) (fun o =>
  let '(r, o) := put_buf src o in
  res_bind r (fun _ => Ok (set_pos o 0))).

(** src/buffer.cxx:269-284 operator<<: the bytes written to the stream (the
    buffer is not changed) *)
Definition stream_out (m : block) : res (list byte) := load m (data_off m) (avail m).

(** src/buffer.cxx:286-303 operator>>: store the bytes delivered by the stream
    at data(); the position is not moved *)
Definition stream_in (m : block) (bs : list byte) : res block := store m (data_off m) bs.
