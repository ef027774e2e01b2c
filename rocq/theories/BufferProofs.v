(** * The raw block refines the abstract buffer *)

From Verif Require Import Base Buffer BufferSpec.
Local Open Scope N_scope.

(** the memory layout of an abstract buffer *)
Definition mk_block (a : abuf) : block :=
  let s := lenN (adata a) in
  let p := N.of_nat (apos a) in
  if s <? 0x8000 then le 2 s ++ le 2 p ++ adata a
  else le 4 (s + two31) ++ le 4 p ++ adata a.

Lemma of_le_app a b : of_le (a ++ b) = of_le a + 256 ^ lenN a * of_le b.
Proof.
  induction a as [|x a IH]; cbn [of_le app].
  - change (256 ^ lenN (@nil byte)) with 1. lia.
  - rewrite IH. unfold lenN. cbn [length].
    replace (N.of_nat (S (length a))) with (N.succ (N.of_nat (length a))) by lia.
    rewrite N.pow_succ_r'. lia.
Qed.

Lemma testbit31 n : n < two32 -> N.testbit n 31 = (two31 <=? n).
Proof.
  intros H. rewrite N.testbit_eqb. change (2 ^ 31) with 2147483648.
  unfold two31, two32 in *.
  destruct (2147483648 <=? n) eqn:E; lia.
Qed.

Lemma land_two31 n : n < two31 -> N.land n two31 = 0.
Proof.
  intros H. apply N.bits_inj. intros i. rewrite N.land_spec, N.bits_0.
  change two31 with (2 ^ 31) in *. rewrite N.pow2_bits_eqb.
  destruct (N.eqb_spec 31 i); [|apply andb_false_r].
  subst i. rewrite andb_true_r. rewrite testbit31.
  - change (2 ^ 31) with two31 in *. lia.
  - change (2^31) with two31 in *. unfold two31, two32 in *. lia.
Qed.

Lemma lxor_two31 n : n < two31 -> N.lxor (n + two31) two31 = n.
Proof.
  intros H. rewrite N.add_nocarry_lxor by (apply land_two31; auto).
  rewrite N.lxor_assoc, N.lxor_nilpotent. apply N.lxor_0_r.
Qed.

Lemma lor_two31 n : n < two31 -> N.lor n two31 = n + two31.
Proof.
  intros H. rewrite N.add_nocarry_lxor by (apply land_two31; auto).
  symmetry. apply N.lxor_lor. apply land_two31; auto.
Qed.

Section Layout.
Variable a : abuf.
Hypothesis wf : wf_abuf a.

Let s := lenN (adata a).
Let p := N.of_nat (apos a).

Lemma wf_ps : p <= s.
Proof. destruct wf as [H _]. unfold p, s, lenN, asize in *. lia. Qed.
Lemma wf_s : s < two31.
Proof. destruct wf as [_ H]. exact H. Qed.

Lemma small_layout : s < 0x8000 -> mk_block a = le 2 s ++ le 2 p ++ adata a.
Proof. intros H. unfold mk_block. fold s p. destruct (N.ltb_spec s 0x8000); [reflexivity|lia]. Qed.
Lemma big_layout : 0x8000 <= s -> mk_block a = le 4 (s + two31) ++ le 4 p ++ adata a.
Proof. intros H. unfold mk_block. fold s p. destruct (N.ltb_spec s 0x8000); [lia|reflexivity]. Qed.

Lemma small_word : s < 0x8000 -> uint_at (mk_block a) 0 = s + 65536 * p.
Proof.
  intros H. rewrite small_layout by auto. unfold uint_at.
  change (4 * 0)%nat with 0%nat. cbn [skipn]. rewrite app_assoc.
  rewrite firstn_app_exact by (rewrite app_length, !le_length; reflexivity).
  rewrite of_le_app. unfold lenN. rewrite le_length. change (256 ^ N.of_nat 2) with 65536.
  pose proof wf_ps.
  rewrite !of_le_le2 by lia. reflexivity.
Qed.

Lemma big_word : 0x8000 <= s -> uint_at (mk_block a) 0 = s + two31.
Proof.
  intros H. rewrite big_layout by auto. unfold uint_at.
  change (4 * 0)%nat with 0%nat. cbn [skipn].
  rewrite firstn_app_exact by apply le_length.
  apply of_le_le4. pose proof wf_s. unfold two31, two32 in *. lia.
Qed.

Lemma is_big_mk : is_big (mk_block a) = negb (s <? 0x8000).
Proof.
  unfold is_big. pose proof wf_ps. pose proof wf_s. destruct (N.ltb_spec s 0x8000) as [L|G]; cbn [negb].
  - rewrite small_word by auto. rewrite testbit31; unfold two31, two32 in *; lia.
  - rewrite big_word by auto. rewrite testbit31; unfold two31, two32 in *; lia.
Qed.

Lemma buf_size_mk : buf_size (mk_block a) = s.
Proof.
  unfold buf_size. rewrite is_big_mk. pose proof wf_s. destruct (N.ltb_spec s 0x8000) as [L|G]; cbn [negb].
  - rewrite small_layout by auto. unfold ushort_at. change (2 * 0)%nat with 0%nat. cbn [skipn].
    rewrite firstn_app_exact by apply le_length. apply of_le_le2. lia.
  - rewrite big_word by auto. apply lxor_two31. auto.
Qed.

Lemma ushort1_mk : s < 0x8000 -> ushort_at (mk_block a) 1 = p.
Proof.
  intros H. rewrite small_layout by auto. unfold ushort_at. change (2 * 1)%nat with 2%nat.
  rewrite skipn_app_exact by apply le_length.
  rewrite firstn_app_exact by apply le_length. apply of_le_le2. pose proof wf_ps. lia.
Qed.

Lemma uint1_mk : 0x8000 <= s -> uint_at (mk_block a) 1 = p.
Proof.
  intros H. rewrite big_layout by auto. unfold uint_at. change (4 * 1)%nat with 4%nat.
  rewrite skipn_app_exact by apply le_length.
  rewrite firstn_app_exact by apply le_length. apply of_le_le4.
  pose proof wf_ps. pose proof wf_s. unfold two31, two32 in *. lia.
Qed.

Lemma buf_pos_mk : buf_pos (mk_block a) = p.
Proof.
  unfold buf_pos. rewrite is_big_mk. destruct (N.ltb_spec s 0x8000) as [L|G]; cbn [negb].
  - apply ushort1_mk; auto.
  - apply uint1_mk; auto.
Qed.

Definition hlen (a : abuf) : nat := if lenN (adata a) <? 0x8000 then 4 else 8.

Lemma data_off_mk : data_off (mk_block a) = N.of_nat (hlen a) + p.
Proof.
  unfold data_off, hlen. rewrite is_big_mk. fold s. destruct (N.ltb_spec s 0x8000) as [L|G]; cbn [negb].
  - rewrite ushort1_mk; auto.
  - rewrite uint1_mk; auto.
Qed.

Lemma avail_mk : avail (mk_block a) = N.of_nat (asize a - apos a).
Proof.
  unfold avail. rewrite buf_size_mk, buf_pos_mk. pose proof wf_ps. pose proof wf_s.
  rewrite wsub_le.
  - unfold s, p, lenN, asize. lia.
  - auto.
  - unfold is_ulong, two64, two31 in *. lia.
Qed.

Lemma length_mk : length (mk_block a) = (hlen a + asize a)%nat.
Proof.
  unfold mk_block, hlen, asize. destruct (N.ltb_spec (lenN (adata a)) 0x8000);
    rewrite !app_length, !le_length; lia.
Qed.

Lemma skipn_mk n : skipn (hlen a + n) (mk_block a) = skipn n (adata a).
Proof.
  unfold mk_block, hlen. destruct (N.ltb_spec (lenN (adata a)) 0x8000).
  - rewrite app_assoc, skipn_app_ge by (rewrite app_length, !le_length; lia).
    rewrite app_length, !le_length. f_equal. lia.
  - rewrite app_assoc, skipn_app_ge by (rewrite app_length, !le_length; lia).
    rewrite app_length, !le_length. f_equal. lia.
Qed.

Lemma load_mk n :
  load (mk_block a) (data_off (mk_block a)) (N.of_nat n) =
  if (n <=? asize a - apos a)%nat then Ok (firstn n (arest a)) else UB OutOfBoundsRead.
Proof.
  unfold load. rewrite data_off_mk. unfold lenN. rewrite length_mk.
  destruct wf as [W _]. unfold p.
  destruct (Nat.leb_spec n (asize a - apos a)) as [L|G].
  - destruct (N.leb_spec (N.of_nat (hlen a) + N.of_nat (apos a) + N.of_nat n)
                         (N.of_nat (hlen a + asize a))); [|lia].
    f_equal. rewrite Nnat.Nat2N.id. f_equal.
    replace (N.to_nat (N.of_nat (hlen a) + N.of_nat (apos a))) with (hlen a + apos a)%nat by lia.
    rewrite skipn_mk. reflexivity.
  - destruct (N.leb_spec (N.of_nat (hlen a) + N.of_nat (apos a) + N.of_nat n)
                         (N.of_nat (hlen a + asize a))); [lia|reflexivity].
Qed.

End Layout.

(** writing the position field *)
Lemma set_pos_mk a k :
  wf_abuf a -> N.of_nat k <= lenN (adata a) ->
  set_block_pos (mk_block a) (N.of_nat k) = mk_block (mkAbuf k (adata a)).
Proof.
  intros wf Hk. pose proof (wf_s a wf) as Hs. unfold two31 in Hs.
  unfold set_block_pos. rewrite is_big_mk by auto.
  destruct (N.ltb_spec (lenN (adata a)) 0x8000) as [L|G]; cbn [negb].
  - rewrite small_layout by auto. unfold mk_block; cbn [apos adata].
    destruct (N.ltb_spec (lenN (adata a)) 0x8000); [|lia].
    unfold set_ushort, splice. change (2 * 1)%nat with 2%nat. rewrite le_length.
    rewrite firstn_app_exact by apply le_length.
    rewrite (app_assoc _ _ (adata a)) at 1.
    rewrite skipn_app_exact by (rewrite app_length, !le_length; reflexivity).
    rewrite N.mod_small by lia. reflexivity.
  - rewrite big_layout by auto. unfold mk_block; cbn [apos adata].
    destruct (N.ltb_spec (lenN (adata a)) 0x8000); [lia|].
    unfold set_uint, splice. change (4 * 1)%nat with 4%nat. rewrite le_length.
    rewrite firstn_app_exact by apply le_length.
    rewrite (app_assoc _ _ (adata a)) at 1.
    rewrite skipn_app_exact by (rewrite app_length, !le_length; reflexivity).
    rewrite N.mod_small by (unfold two32; lia). reflexivity.
Qed.

Lemma mv_fw_set a d :
  wf_abuf a -> N.of_nat (apos a + d) <= lenN (adata a) ->
  mv_fw (mk_block a) (N.of_nat d) = mk_block (askip a d).
Proof.
  intros wf H. unfold askip. rewrite <- set_pos_mk by auto.
  pose proof (wf_s a wf) as Hs. unfold two31 in Hs.
  unfold mv_fw, set_block_pos. rewrite is_big_mk by auto.
  destruct (N.ltb_spec (lenN (adata a)) 0x8000) as [L|G]; cbn [negb].
  - rewrite ushort1_mk by auto. f_equal. rewrite (N.mod_small (N.of_nat d)) by lia.
    f_equal. lia.
  - rewrite uint1_mk by auto. f_equal. f_equal. lia.
Qed.

Lemma aput_size a bs : (length bs <= asize a - apos a)%nat -> (apos a <= asize a)%nat ->
  asize (aput a bs) = asize a.
Proof.
  intros H H0. unfold aput, asize in *. cbn [adata]. rewrite !app_length, firstn_length, skipn_length. lia.
Qed.

Lemma aput_wf a bs : wf_abuf a -> (length bs <= asize a - apos a)%nat -> wf_abuf (aput a bs).
Proof.
  intros [H1 H2] H. pose proof (aput_size a bs H H1) as E. split.
  - rewrite E. unfold aput; cbn [apos]. lia.
  - unfold lenN, asize in *. rewrite E. auto.
Qed.

Lemma askip_wf a n : wf_abuf a -> (n <= asize a - apos a)%nat -> wf_abuf (askip a n).
Proof. intros [H1 H2] H. split; unfold askip, asize in *; cbn [apos adata]; lia. Qed.

Lemma aseek_wf a n : wf_abuf a -> wf_abuf (aseek a n).
Proof. intros [H1 H2]. split; unfold aseek, asize in *; cbn [apos adata]; lia. Qed.

Lemma splice_mk a bs :
  wf_abuf a -> (length bs <= asize a - apos a)%nat ->
  splice (mk_block a) (hlen a + apos a) bs =
  mk_block (mkAbuf (apos a) (adata (aput a bs))).
Proof.
  intros wf H. destruct wf as [W1 W2].
  pose proof (aput_size a bs H W1) as E. unfold asize in E.
  unfold mk_block; cbn [apos adata]. unfold lenN in *. rewrite E. fold (lenN (adata a)).
  unfold hlen, aput; cbn [adata apos].
  destruct (N.ltb_spec (lenN (adata a)) 0x8000) as [L|G].
  - rewrite (app_assoc (le 2 (lenN (adata a)))), (app_assoc (le 2 (lenN (adata a)))). unfold splice.
    rewrite firstn_app_ge by (rewrite app_length, !le_length; lia).
    rewrite skipn_app_ge by (rewrite app_length, !le_length; lia).
    rewrite app_length, !le_length. rewrite <- !app_assoc.
    replace (4 + apos a - (2 + 2))%nat with (apos a) by lia.
    replace (4 + apos a + length bs - (2 + 2))%nat with (apos a + length bs)%nat by lia.
    reflexivity.
  - rewrite (app_assoc (le 4 (lenN (adata a) + two31))), (app_assoc (le 4 (lenN (adata a) + two31))). unfold splice.
    rewrite firstn_app_ge by (rewrite app_length, !le_length; lia).
    rewrite skipn_app_ge by (rewrite app_length, !le_length; lia).
    rewrite app_length, !le_length. rewrite <- !app_assoc.
    replace (8 + apos a - (4 + 4))%nat with (apos a) by lia.
    replace (8 + apos a + length bs - (4 + 4))%nat with (apos a + length bs)%nat by lia.
    reflexivity.
Qed.

Lemma store_mk a bs :
  wf_abuf a ->
  store (mk_block a) (data_off (mk_block a)) bs =
  if (length bs <=? asize a - apos a)%nat then Ok (mk_block (mkAbuf (apos a) (adata (aput a bs))))
  else UB OutOfBoundsWrite.
Proof.
  intros wf. unfold store. rewrite data_off_mk by auto. unfold lenN. rewrite length_mk.
  pose proof wf as [W _].
  destruct (Nat.leb_spec (length bs) (asize a - apos a)) as [L|G].
  - destruct (N.leb_spec (N.of_nat (hlen a) + N.of_nat (apos a) + N.of_nat (length bs))
                         (N.of_nat (hlen a + asize a))); [|lia].
    f_equal.
    replace (N.to_nat (N.of_nat (hlen a) + N.of_nat (apos a))) with (hlen a + apos a)%nat by lia.
    apply splice_mk; auto.
  - destruct (N.leb_spec (N.of_nat (hlen a) + N.of_nat (apos a) + N.of_nat (length bs))
                         (N.of_nat (hlen a + asize a))); [lia|reflexivity].
Qed.

Lemma put_at_mk a bs :
  wf_abuf a -> (length bs <= asize a - apos a)%nat ->
  put_at (mk_block a) bs = (Ok tt, mk_block (aput a bs)).
Proof.
  intros wf H. unfold put_at. rewrite store_mk by auto.
  destruct (Nat.leb_spec (length bs) (asize a - apos a)); [|lia].
  f_equal. unfold lenN. pose proof (aput_wf a bs wf H) as W'.
  pose proof wf as [W1 W2].
  pose proof (aput_size a bs H W1) as E.
  rewrite mv_fw_set.
  - reflexivity.
  - split; cbn [apos adata]; unfold asize in *; cbn [adata].
    + lia.
    + destruct W'; auto.
  - cbn [apos adata]. unfold lenN. unfold asize in *. lia.
Qed.

Lemma put_need_mk a bs n :
  wf_abuf a -> n = lenN bs ->
  (if avail (mk_block a) <? n then (Throw OverflowError, mk_block a) else put_at (mk_block a) bs)
  = (fst (aput_op a bs), mk_block (snd (aput_op a bs))).
Proof.
  intros wf ->. rewrite avail_mk by auto. unfold aput_op, lenN.
  destruct (N.ltb_spec (N.of_nat (asize a - apos a)) (N.of_nat (length bs)));
  destruct (Nat.ltb_spec (asize a - apos a) (length bs)); try lia; cbn [fst snd]; auto.
  apply put_at_mk; auto.
Qed.

(** byte-level characterisation of the integer encoders and decoders *)
Lemma ulong_bytes_le v : ulong_bytes v = le 8 v.
Proof.
  unfold ulong_bytes. cbn [map]. repeat rewrite N.shiftr_div_pow2.
  cbn [le].
  assert (forall x y, x mod 256 = y mod 256 -> nbyte x = nbyte y) as E.
  { intros x y H. apply byteN_inj. rewrite !byteN_nbyte. auto. }
  rewrite !N.div_div by lia.
  repeat (f_equal; try (apply E; f_equal)); change (0 * 8) with 0; rewrite ?N.pow_0_r, ?N.div_1_r; auto.
Qed.

Lemma int_bytes_le v : int_bytes v = le 4 (Z.to_N (v mod 4294967296)).
Proof.
  unfold int_bytes. cbn [map le].
  repeat rewrite Z.shiftr_div_pow2 by lia.
  change (2 ^ (0 * 8))%Z with 1%Z. change (2 ^ (1 * 8))%Z with 256%Z.
  change (2 ^ (2 * 8))%Z with 65536%Z. change (2 ^ (3 * 8))%Z with 16777216%Z.
  assert (forall x y, x mod 256 = y mod 256 -> nbyte x = nbyte y) as E.
  { intros x y H. apply byteN_inj. rewrite !byteN_nbyte. auto. }
  rewrite !N.div_div by lia. change (256 * 256) with 65536. change (65536 * 256) with 16777216.
  f_equal; [|f_equal; [|f_equal; [|f_equal]]]; apply E; clear E; lia.
Qed.

Lemma sum_ulong_le bs i v :
  v < 256 ^ i -> i + lenN bs <= 8 ->
  sum_ulong i v bs = v + 256 ^ i * of_le bs.
Proof.
  revert i v; induction bs as [|b bs IH]; intros i v Hv Hi; cbn [sum_ulong of_le].
  - lia.
  - unfold lenN in Hi. cbn [length] in Hi.
    assert (Hp : N.shiftl (byteN b) (i * 8) = byteN b * 256 ^ i).
    { rewrite N.shiftl_mul_pow2. f_equal. rewrite (N.mul_comm i 8), N.pow_mul_r. reflexivity. }
    rewrite Hp. pose proof (byteN_lt b).
    assert (Hs : 256 ^ (i + 1) = 256 * 256 ^ i) by (rewrite N.add_1_r; apply N.pow_succ_r').
    assert (Hb : v + byteN b * 256 ^ i < 256 ^ (i + 1)) by (rewrite Hs; nia).
    assert (Hm : 256 ^ (i + 1) <= two64).
    { change two64 with (256 ^ 8). apply N.pow_le_mono_r; lia. }
    rewrite N.mod_small by lia.
    rewrite IH; auto.
    + rewrite Hs. lia.
    + unfold lenN. lia.
Qed.

Lemma sum_ulong_8 bs : length bs = 8%nat -> sum_ulong 0 0 bs = of_le bs.
Proof.
  intros H. rewrite sum_ulong_le.
  - rewrite N.pow_0_r. lia.
  - reflexivity.
  - unfold lenN. rewrite H. lia.
Qed.

Lemma sum_int_4 bs : length bs = 4%nat -> sum_int 0 0 bs = int32_of_bytes bs.
Proof.
  intros H. destruct bs as [|b0 [|b1 [|b2 [|b3 [|]]]]]; try discriminate. clear H.
  unfold int32_of_bytes. cbn [sum_int of_le].
  pose proof (byteN_lt b0). pose proof (byteN_lt b1). pose proof (byteN_lt b2). pose proof (byteN_lt b3).
  rewrite !Z.shiftl_mul_pow2 by lia.
  change (2 ^ (0 * 8))%Z with 1%Z. change (2 ^ ((0+1) * 8))%Z with 256%Z.
  change (2 ^ ((0+1+1) * 8))%Z with 65536%Z. change (2 ^ ((0+1+1+1) * 8))%Z with 16777216%Z.
  set (x0 := byteN b0) in *. set (x1 := byteN b1) in *. set (x2 := byteN b2) in *. set (x3 := byteN b3) in *.
  clearbody x0 x1 x2 x3.
  rewrite (to_int32_id (Z.of_N x0 * 1)) by (unfold is_int32; lia).
  rewrite (to_int32_id (0 + Z.of_N x0 * 1)) by (unfold is_int32; lia).
  rewrite (to_int32_id (Z.of_N x1 * 256)) by (unfold is_int32; lia).
  rewrite (to_int32_id (0 + Z.of_N x0 * 1 + Z.of_N x1 * 256)) by (unfold is_int32; lia).
  rewrite (to_int32_id (Z.of_N x2 * 65536)) by (unfold is_int32; lia).
  rewrite (to_int32_id (0 + Z.of_N x0 * 1 + Z.of_N x1 * 256 + Z.of_N x2 * 65536)) by (unfold is_int32; lia).
  unfold to_int32.
  match goal with |- context [Z.of_N ?t] => match t with (x0 + _) => set (V := t) end end.
  destruct (Z.ltb_spec (Z.of_N V) 2147483648); unfold V in *; lia.
Qed.

Lemma int32_of_le v : is_int32 v -> int32_of_bytes (le 4 (Z.to_N (v mod 4294967296))) = v.
Proof.
  unfold is_int32, int32_of_bytes. intros H. rewrite of_le_le4 by (unfold two32; lia).
  rewrite Z2N.id by lia.
  destruct (Z.ltb_spec (v mod 4294967296) 2147483648); lia.
Qed.

Lemma int32_of_bytes_range bs : length bs = 4%nat -> is_int32 (int32_of_bytes bs).
Proof.
  intros H. rewrite <- sum_int_4 by auto.
  destruct bs as [|b0 [|b1 [|b2 [|b3 [|]]]]]; try discriminate. cbn [sum_int]. apply to_int32_range.
Qed.

(** ** Refinement of each operation *)

Definition lift {A} (r : res A * abuf) : res A * block := (fst r, mk_block (snd r)).

Ltac get_tac wf :=
  rewrite avail_mk by auto; unfold aget_op, lift.

Lemma firstn_arest_len a n : (n <= asize a - apos a)%nat -> length (firstn n (arest a)) = n.
Proof. intros. unfold arest, asize in *. rewrite firstn_length, skipn_length. lia. Qed.

Lemma get_int_mk a : wf_abuf a -> get_int (mk_block a) = lift (aget_op a 4 int32_of_bytes).
Proof.
  intros wf. unfold get_int. get_tac wf. pose proof wf as [W1 W2].
  destruct (N.ltb_spec (N.of_nat (asize a - apos a)) 4);
  destruct (Nat.ltb_spec (asize a - apos a) 4); try lia; cbn [fst snd]; auto.
  change 4 with (N.of_nat 4) at 1. rewrite load_mk by auto.
  destruct (Nat.leb_spec 4 (asize a - apos a)); [|lia].
  rewrite sum_int_4 by (apply firstn_arest_len; lia).
  change 4 with (N.of_nat 4). rewrite mv_fw_set; auto. unfold asize, lenN in *. lia.
Qed.

Lemma get_ulong_mk a : wf_abuf a -> get_ulong (mk_block a) = lift (aget_op a 8 of_le).
Proof.
  intros wf. unfold get_ulong. get_tac wf. pose proof wf as [W1 W2].
  destruct (N.ltb_spec (N.of_nat (asize a - apos a)) 8);
  destruct (Nat.ltb_spec (asize a - apos a) 8); try lia; cbn [fst snd]; auto.
  change 8 with (N.of_nat 8) at 1. rewrite load_mk by auto.
  destruct (Nat.leb_spec 8 (asize a - apos a)); [|lia].
  rewrite sum_ulong_8 by (apply firstn_arest_len; lia).
  change 8 with (N.of_nat 8). rewrite mv_fw_set; auto. unfold asize, lenN in *. lia.
Qed.

Lemma get_byte_mk a : wf_abuf a -> get_byte (mk_block a) = lift (aget_op a 1 (hd x00)).
Proof.
  intros wf. unfold get_byte. get_tac wf. pose proof wf as [W1 W2].
  destruct (N.ltb_spec (N.of_nat (asize a - apos a)) 1);
  destruct (Nat.ltb_spec (asize a - apos a) 1); try lia; cbn [fst snd]; auto.
  change 1 with (N.of_nat 1) at 1. rewrite load_mk by auto.
  destruct (Nat.leb_spec 1 (asize a - apos a)); [|lia].
  change 1 with (N.of_nat 1). rewrite mv_fw_set; auto. unfold asize, lenN in *. lia.
Qed.

Lemma put_byte_mk a b : wf_abuf a -> put_byte b (mk_block a) = lift (aput_op a [b]).
Proof. intros wf. apply put_need_mk; auto. Qed.

Lemma put_int_mk a v : wf_abuf a ->
  put_int v (mk_block a) = lift (aput_op a (le 4 (Z.to_N (v mod 4294967296)))).
Proof.
  intros wf. unfold put_int. rewrite int_bytes_le. apply put_need_mk; auto.
Qed.

Lemma put_ulong_mk a v : wf_abuf a -> put_ulong v (mk_block a) = lift (aput_op a (le 8 v)).
Proof. intros wf. unfold put_ulong. rewrite ulong_bytes_le. apply put_need_mk; auto. Qed.

Lemma put_str_mk a s : wf_abuf a -> put_str s (mk_block a) = lift (aput_op a (s ++ [x00])).
Proof.
  intros wf. apply put_need_mk; auto. unfold lenN. rewrite app_length. cbn [length]. lia.
Qed.

Lemma set_pos_mk' a k : wf_abuf a -> set_pos (mk_block a) (N.of_nat k) = mk_block (aseek a k).
Proof.
  intros wf. unfold set_pos. rewrite buf_size_mk by auto.
  replace (if lenN (adata a) <? N.of_nat k then lenN (adata a) else N.of_nat k)
    with (N.of_nat (Nat.min k (asize a))).
  - rewrite set_pos_mk; auto. unfold lenN, asize. lia.
  - unfold lenN, asize. destruct (N.ltb_spec (N.of_nat (length (adata a))) (N.of_nat k)); lia.
Qed.

Lemma set_pos_mkN a k : wf_abuf a ->
  set_pos (mk_block a) k = mk_block (mkAbuf (N.to_nat (N.min k (lenN (adata a)))) (adata a)).
Proof.
  intros wf. unfold set_pos. rewrite buf_size_mk by auto.
  rewrite <- set_pos_mk; auto; [|lia].
  f_equal. destruct (N.ltb_spec (lenN (adata a)) k); lia.
Qed.

Lemma scan_nul_spec l :
  match first_nul l with
  | Some k => scan_nul l = k /\ (k < length l)%nat
  | None => scan_nul l = length l
  end.
Proof.
  induction l as [|b l IH]; cbn [first_nul scan_nul length]; auto.
  destruct (N.eqb_spec (byteN b) 0) as [E|E].
  - assert (b = x00) as -> by (apply byteN_inj; rewrite E; reflexivity).
    cbn. lia.
  - destruct (Byte.eqb b x00) eqn:F.
    + apply Byte.byte_dec_bl in F. subst b. exfalso. apply E. reflexivity.
    + destruct (first_nul l) as [k|]; cbn [option_map]; [destruct IH; split; lia| lia].
Qed.

Lemma get_str_mk a : wf_abuf a -> get_str (mk_block a) = lift (aget_str a).
Proof.
  intros wf. unfold get_str. rewrite buf_pos_mk, buf_size_mk by auto.
  pose proof wf as [W1 W2].
  assert (H : (if N.of_nat (apos a) <? lenN (adata a)
          then load (mk_block a) (data_off (mk_block a)) (lenN (adata a) - N.of_nat (apos a))
          else Ok []) = Ok (arest a)).
  { destruct (N.ltb_spec (N.of_nat (apos a)) (lenN (adata a))) as [L|G].
    - replace (lenN (adata a) - N.of_nat (apos a)) with (N.of_nat (asize a - apos a))
        by (unfold lenN, asize in *; lia).
      rewrite load_mk by auto. destruct (Nat.leb_spec (asize a - apos a) (asize a - apos a)); [|lia].
      f_equal. apply firstn_all2. unfold arest, asize. rewrite skipn_length. lia.
    - f_equal. unfold arest. rewrite skipn_all2; auto. unfold lenN in G. lia. }
  rewrite H. clear H.
  pose proof (scan_nul_spec (arest a)) as S. unfold aget_str, lift.
  assert (Hl : length (arest a) = (asize a - apos a)%nat) by (unfold arest, asize; apply skipn_length).
  destruct (first_nul (arest a)) as [k|].
  - destruct S as [-> Lk]. destruct k as [|k].
    + rewrite orb_true_r. reflexivity.
    + destruct (N.leb_spec (lenN (adata a)) (N.of_nat (apos a) + N.of_nat (S k))) as [Q|Q].
      { unfold lenN, asize in *. lia. }
      destruct (N.eqb_spec (N.of_nat (S k)) 0); [lia|]. cbn [orb fst snd].
      f_equal.
      replace (N.of_nat (S k) + 1) with (N.of_nat (S k + 1)) by lia.
      apply mv_fw_set; auto. unfold lenN, asize in *. lia.
  - rewrite S. destruct (N.leb_spec (lenN (adata a)) (N.of_nat (apos a) + N.of_nat (length (arest a)))) as [Q|Q].
    + reflexivity.
    + unfold lenN, asize in *. lia.
Qed.

Lemma get_buf_mk a d :
  wf_abuf a -> wf_abuf d ->
  get_buf (mk_block a) (mk_block d) =
  if (asize d - apos d <=? asize a - apos a)%nat
  then (Ok tt, mk_block (askip a (asize d - apos d)),
        mk_block (mkAbuf (apos d) (adata (aput d (firstn (asize d - apos d) (arest a))))))
  else (UB OutOfBoundsRead, mk_block a, mk_block d).
Proof.
  intros wa wd. unfold get_buf. rewrite (avail_mk d) by auto. rewrite load_mk by auto.
  destruct (Nat.leb_spec (asize d - apos d) (asize a - apos a)) as [L|G]; [|reflexivity].
  rewrite store_mk by auto. rewrite firstn_arest_len by auto.
  destruct (Nat.leb_spec (asize d - apos d) (asize d - apos d)); [|lia].
  rewrite mv_fw_set; auto. destruct wa. unfold asize, lenN in *. lia.
Qed.

Lemma put_buf_mk a src :
  wf_abuf a -> wf_abuf src ->
  put_buf (mk_block src) (mk_block a) = lift (aput_op a (arest src)).
Proof.
  intros wa ws. unfold put_buf. rewrite (avail_mk src), (avail_mk a) by auto.
  rewrite load_mk by auto. destruct (Nat.leb_spec (asize src - apos src) (asize src - apos src)); [|lia].
  assert (Hl : length (arest src) = (asize src - apos src)%nat) by (unfold arest, asize; apply skipn_length).
  rewrite firstn_all2 by lia.
  unfold aput_op, lift. rewrite Hl.
  destruct (N.ltb_spec (N.of_nat (asize a - apos a)) (N.of_nat (asize src - apos src)));
  destruct (Nat.ltb_spec (asize a - apos a) (asize src - apos src)); try lia; cbn [fst snd]; auto.
  apply put_at_mk; auto. lia.
Qed.

Lemma aput_op_wf a bs : wf_abuf a -> wf_abuf (snd (aput_op a bs)).
Proof.
  intros wf. unfold aput_op. destruct (Nat.ltb_spec (asize a - apos a) (length bs)); cbn [snd]; auto.
  apply aput_wf; auto.
Qed.

Lemma aget_op_wf {A} a n (f : list byte -> A) : wf_abuf a -> wf_abuf (snd (aget_op a n f)).
Proof.
  intros wf. unfold aget_op. destruct (Nat.ltb_spec (asize a - apos a) n); cbn [snd]; auto.
  apply askip_wf; auto.
Qed.

Lemma aget_str_wf a : wf_abuf a -> wf_abuf (snd (aget_str a)).
Proof.
  intros wf. unfold aget_str. pose proof (scan_nul_spec (arest a)) as S.
  destruct (first_nul (arest a)) as [[|k]|]; cbn [snd]; auto.
  apply askip_wf; auto. destruct S as [_ L]. unfold arest in L. rewrite skipn_length in L. unfold asize. lia.
Qed.

(** ** Allocation *)
Lemma junk_len junk n : length (junk_bytes junk n) = N.to_nat n.
Proof. unfold junk_bytes. rewrite map_length, seq_length. reflexivity. Qed.

Definition fresh (junk : nat -> byte) (n : N) : abuf :=
  mkAbuf 0 (skipn (if n <? 0x8000 then 4 else 8) (junk_bytes junk (n + (if n <? 0x8000 then 4 else 8)))).

Lemma fresh_size junk n : lenN (adata (fresh junk n)) = n.
Proof.
  unfold fresh, lenN; cbn [adata]. rewrite skipn_length, junk_len.
  destruct (N.ltb_spec n 0x8000); lia.
Qed.

Lemma fresh_asize junk n : asize (fresh junk n) = N.to_nat n.
Proof. pose proof (fresh_size junk n) as H. unfold lenN in H. unfold asize. lia. Qed.

Lemma fresh_wf junk n : n < two31 -> wf_abuf (fresh junk n).
Proof. intros H. split; [cbn; lia| rewrite fresh_size; exact H]. Qed.

Lemma alloc_mk junk n : n < two31 -> alloc junk n = Ok (mk_block (fresh junk n)).
Proof.
  intros H. unfold alloc. unfold two31 in H.
  destruct (N.leb_spec 0x80000000 n); [lia|].
  unfold mk_block. rewrite fresh_size.
  destruct (N.ltb_spec n 0x8000) as [L|G]; destruct (N.leb_spec 0x8000 n); try lia.
  - f_equal. unfold fresh; cbn [apos adata].
    destruct (N.ltb_spec n 0x8000); [|lia].
    set (j := junk_bytes junk (n + 4)).
    assert (Hj : length j = (N.to_nat n + 4)%nat) by (unfold j; rewrite junk_len; lia).
    unfold set_ushort, splice. rewrite !le_length.
    change (2 * 0)%nat with 0%nat. change (2 * 1)%nat with 2%nat. rewrite firstn_O, app_nil_l.
    change (0 + 2)%nat with 2%nat. change (2 + 2)%nat with 4%nat.
    rewrite firstn_app_exact by apply le_length.
    rewrite skipn_app_ge by (rewrite le_length; lia). rewrite le_length.
    rewrite skipn_skipn. change (2 + (4 - 2))%nat with 4%nat.
    rewrite N.mod_small by lia. change (N.of_nat 0) with 0. reflexivity.
  - f_equal. unfold fresh; cbn [apos adata].
    destruct (N.ltb_spec n 0x8000); [lia|].
    set (j := junk_bytes junk (n + 8)).
    assert (Hj : length j = (N.to_nat n + 8)%nat) by (unfold j; rewrite junk_len; lia).
    unfold set_uint, uint_at, splice. rewrite !le_length.
    change (4 * 0)%nat with 0%nat. change (4 * 1)%nat with 4%nat. rewrite !firstn_O, !app_nil_l, !skipn_O.
    change (0 + 4)%nat with 4%nat. change (4 + 4)%nat with 8%nat.
    rewrite !(firstn_app_exact (le 4 (n mod two32))) by apply le_length.
    rewrite (skipn_app_exact (le 4 (n mod two32))) by apply le_length.
    rewrite (skipn_app_ge (le 4 (n mod two32)) _ 8) by (rewrite le_length; lia). rewrite le_length.
    rewrite skipn_skipn. change (4 + (8 - 4))%nat with 8%nat.
    rewrite N.mod_small by (unfold two32; lia).
    rewrite of_le_le4 by (unfold two32; lia).
    rewrite lor_two31 by (unfold two31; lia). reflexivity.
Qed.

Lemma alloc_throws junk n : two31 <= n -> alloc junk n = Throw OutOfRange.
Proof. unfold alloc, two31. intros H. destruct (N.leb_spec 0x80000000 n); [auto|lia]. Qed.

Lemma buf_copy_mk junk a : wf_abuf a ->
  buf_copy junk (mk_block a) = Ok (mk_block (mkAbuf 0 (arest a))).
Proof.
  intros wf. pose proof wf as [W1 W2]. unfold buf_copy.
  rewrite avail_mk by auto.
  assert (Hn : N.of_nat (asize a - apos a) < two31) by (unfold two31, asize, lenN in *; lia).
  rewrite alloc_mk by auto. cbn [res_bind].
  pose proof (fresh_wf junk _ Hn) as Wf.
  rewrite put_buf_mk by auto. unfold aput_op.
  assert (Hl : length (arest a) = (asize a - apos a)%nat) by (unfold arest, asize; apply skipn_length).
  set (f := fresh junk (N.of_nat (asize a - apos a))) in *.
  assert (Hf : asize f = (asize a - apos a)%nat) by (unfold f; rewrite fresh_asize; lia).
  assert (Hp : apos f = 0%nat) by reflexivity.
  destruct (Nat.ltb_spec (asize f - apos f) (length (arest a))) as [L|G]; [lia|].
  unfold lift; cbn [fst snd res_bind]. change 0 with (N.of_nat 0).
  rewrite set_pos_mk' by (apply aput_wf; auto).
  f_equal. f_equal. unfold aseek. cbn [Nat.min]. f_equal.
  unfold aput; cbn [adata]. rewrite Hp, firstn_O, app_nil_l.
  rewrite skipn_all2; [apply app_nil_r|]. unfold asize in *. lia.
Qed.

Lemma stream_out_mk a : wf_abuf a -> stream_out (mk_block a) = Ok (arest a).
Proof.
  intros wf. unfold stream_out. rewrite avail_mk by auto. rewrite load_mk by auto.
  destruct (Nat.leb_spec (asize a - apos a) (asize a - apos a)); [|lia].
  rewrite firstn_all2; auto. unfold arest, asize. rewrite skipn_length. lia.
Qed.

Lemma stream_in_mk a bs : wf_abuf a -> length bs = (asize a - apos a)%nat ->
  stream_in (mk_block a) bs = Ok (mk_block (mkAbuf (apos a) (aread a ++ bs))).
Proof.
  intros wf H. unfold stream_in. rewrite store_mk by auto. rewrite H.
  destruct (Nat.leb_spec (asize a - apos a) (asize a - apos a)); [|lia].
  f_equal. f_equal. f_equal. unfold aput; cbn [adata]. unfold aread. f_equal.
  destruct wf as [W _]. rewrite skipn_all2; [apply app_nil_r|]. unfold asize in *. lia.
Qed.
