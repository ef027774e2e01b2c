(** * Properties of buffer (C01-C07)

    Specification vocabulary: BufferSpec.v.  [reachable n b]: the memory block
    [b] was allocated by buffer::alloc(n) with arbitrary uninitialised content
    and then changed by any sequence of API operations.  [view b]: what the API
    shows of it (pos(), the size() data bytes). *)

From Verif Require Import Base Buffer BufferSpec BufferProofs BufferTop.
Local Open Scope N_scope.

(** C01: no operation on a reachable block has undefined behaviour; size() is
    the allocated size, pos() <= size(), the block is never resized, and an
    operation that throws leaves every byte of the block (header included) as
    it was. *)
Theorem C01_buffer_safe n b :
  reachable n b ->
  buf_size b = n /\ buf_pos b <= n /\
  (forall o r b', run_op o b = (r, b') ->
     is_ub r = false /\ length b' = length b /\ buf_size b' = n /\ buf_pos b' <= n /\
     (forall e, r = Throw e -> b' = b)) /\
  (forall m src r b', reachable m src -> put_buf src b = (r, b') ->
     is_ub r = false /\ length b' = length b /\ buf_size b' = n /\ buf_pos b' <= n /\
     (forall e, r = Throw e -> b' = b)).
Proof. exact (buffer_safe n b). Qed.
Print Assumptions C01_buffer_safe.

(** C01 (functional part): every operation has exactly the effect the
    specification gives it, on blocks of either layout. *)
Theorem C01_buffer_refines n b o r b' :
  reachable n b -> run_op o b = (r, b') -> (r, view b') = spec_op o (view b).
Proof. exact (reachable_refines n b o r b'). Qed.
Print Assumptions C01_buffer_refines.

(** the memory holding the header is part of the block *)
Theorem C01_header_inside n b :
  reachable n b ->
  length b = ((if is_big b then 8 else 4) + N.to_nat n)%nat /\ is_big b = (0x8000 <=? n).
Proof. exact (reachable_block_header n b). Qed.
Print Assumptions C01_header_inside.

Example C01_example :
  exists b, reachable 40000 b /\ buf_pos b = 39999 /\ fst (run_op (OPutByte x01) b) = Ok VUnit
            /\ fst (run_op (OPutInt 7) b) = Throw OverflowError.
Proof.
  exists (set_pos (ex_block x05 40000) 39999).
  split; [eapply (r_op 40000 _ (OSetPos 39999)); [apply ex_block_reachable; reflexivity|reflexivity]|].
  vm_compute. auto.
Qed.

(** C02 *)
Theorem C02_typed_round_trip junk n b vs :
  alloc junk n = Ok b ->
  Forall tval_ok vs ->
  N.of_nat (total_size vs) <= n ->
  exists b1 b2,
    write_vals junk vs b = (Ok tt, b1) /\
    read_vals junk vs (set_pos b1 0) = (Ok vs, b2) /\
    buf_pos b2 = buf_pos b1 /\ buf_pos b1 = N.of_nat (total_size vs).
Proof. exact (typed_round_trip junk n b vs). Qed.
Print Assumptions C02_typed_round_trip.

Example C02_example :
  let vs := [TInt (-5); TUlong 18446744073709551615; TStr [x61; x62]; TByte xff; TBytes []; TBytes [x00; x01]] in
  Forall tval_ok vs /\ N.of_nat (total_size vs) <= 18 /\ exists b, alloc (fun _ => xaa) 18 = Ok b.
Proof.
  split; [|split].
  - repeat constructor; cbn; try discriminate.
    unfold no_nul. intros [H|[H|[]]]; discriminate.
  - vm_compute. discriminate.
  - eexists. vm_compute. reflexivity.
Qed.

(** C03: little-endian two's complement, neighbouring bytes untouched; reading
    is the inverse for all byte strings. *)
Theorem C03_put_ulong_layout n b v b' :
  reachable n b -> is_ulong v -> put_ulong v b = (Ok tt, b') ->
  apos (view b') = (apos (view b) + 8)%nat /\
  (forall i, nth i (adata (view b')) x00 =
     if (apos (view b) <=? i)%nat && (i <? apos (view b) + 8)%nat
     then nbyte (v / 256 ^ N.of_nat (i - apos (view b)))
     else nth i (adata (view b)) x00).
Proof. exact (put_ulong_layout n b v b'). Qed.
Print Assumptions C03_put_ulong_layout.

Theorem C03_put_int_layout n b v b' :
  reachable n b -> is_int32 v -> put_int v b = (Ok tt, b') ->
  apos (view b') = (apos (view b) + 4)%nat /\
  (forall i, nth i (adata (view b')) x00 =
     if (apos (view b) <=? i)%nat && (i <? apos (view b) + 4)%nat
     then nbyte (Z.to_N ((v / 256 ^ Z.of_nat (i - apos (view b))) mod 256))
     else nth i (adata (view b)) x00).
Proof. exact (put_int_layout n b v b'). Qed.
Print Assumptions C03_put_int_layout.

(** the decoders: [get_ulong]/[get_int] return the unique 64-bit / two's
    complement 32-bit number whose bytes these are *)
Theorem C03_get_ulong n b v b' :
  reachable n b -> get_ulong b = (Ok v, b') ->
  is_ulong v /\ view b' = askip (view b) 8 /\
  (forall i, (i < 8)%nat -> nth (apos (view b) + i) (adata (view b)) x00 = nbyte (v / 256 ^ N.of_nat i)).
Proof. exact (get_ulong_layout n b v b'). Qed.
Print Assumptions C03_get_ulong.

Theorem C03_get_int n b v b' :
  reachable n b -> get_int b = (Ok v, b') ->
  is_int32 v /\ view b' = askip (view b) 4 /\
  (forall i, (i < 4)%nat -> nth (apos (view b) + i) (adata (view b)) x00 =
                            nbyte (Z.to_N ((v / 256 ^ Z.of_nat i) mod 256))).
Proof. exact (get_int_layout n b v b'). Qed.
Print Assumptions C03_get_int.

Example C03_example :
  exists b', reachable 12 (ex_block x07 12) /\ put_int (-2) (ex_block x07 12) = (Ok tt, b') /\
             adata (view b') = [xfe; xff; xff; xff; x07; x07; x07; x07; x07; x07; x07; x07].
Proof.
  exists (snd (put_int (-2) (ex_block x07 12))).
  split; [apply ex_block_reachable; reflexivity|]. split; vm_compute; reflexivity.
Qed.

(** C04 *)
Theorem C04_alloc junk n :
  (n >= 2147483648 -> alloc junk n = Throw OutOfRange) /\
  (n < 2147483648 -> exists b, alloc junk n = Ok b /\ buf_size b = n /\ buf_pos b = 0 /\
                     length (adata (view b)) = N.to_nat n).
Proof. exact (alloc_spec junk n). Qed.
Print Assumptions C04_alloc.

(** the kind of the block (the flag shared with the position field) never flips *)
Theorem C04_kind_stable n b : reachable n b -> is_big b = (0x8000 <=? n).
Proof. exact (fun R => proj2 (reachable_block_header n b R)). Qed.
Print Assumptions C04_kind_stable.

(** set_pos reaches every position up to the size, and clamps beyond *)
Theorem C04_set_pos n b p : reachable n b -> buf_pos (set_pos b p) = N.min p n.
Proof. exact (set_pos_reach n b p). Qed.
Print Assumptions C04_set_pos.

Example C04_example :
  buf_pos (set_pos (ex_block xff 32767) 32767) = 32767 /\ buf_size (set_pos (ex_block xff 32767) 32767) = 32767
  /\ buf_pos (set_pos (ex_block xff 32768) 99999) = 32768 /\ buf_size (set_pos (ex_block xff 32768) 99999) = 32768.
Proof. vm_compute. auto. Qed.

(** C05 is false of the code: get(dst) over-reads the source. *)
Theorem C05_get_buf_refuted :
  exists n m src dst, reachable n src /\ reachable m dst /\
    fst (fst (get_buf src dst)) = UB OutOfBoundsRead.
Proof. exact get_buf_overread. Qed.
Print Assumptions C05_get_buf_refuted.

(** C05, what holds: it is undefined exactly when the source has fewer bytes
    left than the destination has room; otherwise it copies and advances.
    Missing for C05: rejection (an exception) in the first case. *)
Theorem C05_get_buf_partial n m src dst r s' d' :
  reachable n src -> reachable m dst -> get_buf src dst = (r, s', d') ->
  (is_ub r = true <-> n - buf_pos src < m - buf_pos dst) /\
  (n - buf_pos src >= m - buf_pos dst ->
     r = Ok tt /\
     view s' = askip (view src) (N.to_nat (m - buf_pos dst)) /\
     apos (view d') = apos (view dst) /\
     adata (view d') = aread (view dst) ++ firstn (N.to_nat (m - buf_pos dst)) (arest (view src))).
Proof. exact (get_buf_ub_iff n m src dst r s' d'). Qed.
Print Assumptions C05_get_buf_partial.

Example C05_example :
  reachable 10 (ex_block x07 10) /\ reachable 4 (ex_block x08 4) /\
  10 - buf_pos (ex_block x07 10) >= 4 - buf_pos (ex_block x08 4).
Proof.
  split; [apply ex_block_reachable; reflexivity|]. split; [apply ex_block_reachable; reflexivity|].
  vm_compute. discriminate.
Qed.

(** C06 is false for the empty string: get_str yields nil and does not advance. *)
Theorem C06_empty_string_refuted :
  exists n b b', reachable n b /\ put_str [] b = (Ok tt, b') /\
    fst (get_str (set_pos b' (buf_pos b))) <> Ok (Some []).
Proof. exact empty_string_witness. Qed.
Print Assumptions C06_empty_string_refuted.

(** ... in fact for every block *)
Theorem C06_empty_string_always_lost n b b' :
  reachable n b -> put_str [] b = (Ok tt, b') ->
  get_str (set_pos b' (buf_pos b)) = (Ok None, set_pos b' (buf_pos b)).
Proof. exact (empty_str_lost n b b'). Qed.
Print Assumptions C06_empty_string_always_lost.

(** C06, what holds: all non-empty NUL-free strings.  Missing: the empty one. *)
Theorem C06_string_round_trip_partial n b s b' :
  reachable n b -> s <> [] -> no_nul s -> put_str s b = (Ok tt, b') ->
  fst (get_str (set_pos b' (buf_pos b))) = Ok (Some s).
Proof. exact (str_round_trip n b s b'). Qed.
Print Assumptions C06_string_round_trip_partial.

Example C06_example :
  exists b', reachable 5 (ex_block x07 5) /\ put_str [x61; x62; x63; x64] (ex_block x07 5) = (Ok tt, b').
Proof.
  exists (snd (put_str [x61; x62; x63; x64] (ex_block x07 5))).
  split; [apply ex_block_reachable; reflexivity|]. vm_compute. reflexivity.
Qed.

(** C07 *)
Theorem C07_put_buffer n m b src r b' :
  reachable n b -> reachable m src -> put_buf src b = (r, b') ->
  (m - buf_pos src <= n - buf_pos b ->
     r = Ok tt /\ apos (view b') = (apos (view b) + length (arest (view src)))%nat /\
     adata (view b') = aread (view b) ++ arest (view src) ++
                       skipn (apos (view b) + length (arest (view src))) (adata (view b))) /\
  (m - buf_pos src > n - buf_pos b -> r = Throw OverflowError /\ b' = b).
Proof. exact (put_buf_spec n m b src r b'). Qed.
Print Assumptions C07_put_buffer.

Theorem C07_copy junk n src :
  reachable n src ->
  exists b, buf_copy junk src = Ok b /\ view b = mkAbuf 0 (arest (view src)) /\
            buf_size b = n - buf_pos src /\ buf_pos b = 0.
Proof. exact (buf_copy_spec junk n src). Qed.
Print Assumptions C07_copy.

Example C07_example :
  reachable 10 (set_pos (ex_block x07 10) 3) /\
  buf_size (unblock (buf_copy (fun _ => x00) (set_pos (ex_block x07 10) 3))) = 7.
Proof.
  split; [eapply (r_op 10 _ (OSetPos 3)); [apply ex_block_reachable; reflexivity|reflexivity]|].
  vm_compute. reflexivity.
Qed.
