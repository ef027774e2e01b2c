(** * Proofs about the RPC framing *)

From Verif Require Import Base Buffer BufferSpec BufferProofs BufferTop Codec CodecSpec CodecProofs Msg Rpc RpcSpec.
Local Open Scope N_scope.

Lemma int_b_len z : length (int_b z) = 4%nat.
Proof. unfold int_b. apply le_length. Qed.

Lemma ev_bytes_len v : lenN (ev_bytes v) = 13 + lenN (ev_data v).
Proof. unfold ev_bytes. lens. lia. Qed.

(** ** Client *)

Lemma fits_app d r : lenN (d ++ r) < two31 -> fits (d ++ r).
Proof. auto. Qed.

Ltac szs := unfold fits, two31 in *; rewrite ?lenN_app in *; unfold lenN in *;
  rewrite ?app_length, ?skipn_length, ?le_length, ?int_b_len in *; cbn [length] in *;
  rewrite ?app_length in *; lia.

Lemma rpc_entry_buf_ok junk v e :
  entry_is v e -> lenN (ev_bytes v) < two31 -> rpc_entry_buf junk e = Ok (bk [] (ev_bytes v)).
Proof.
  intros (E1 & E2 & n & b & E3 & R & E4) H. unfold rpc_entry_buf. rewrite E3, E1, E2.
  destruct (reachable_bk _ _ R) as (d & r & F & -> & _ & D & _).
  rewrite E4 in D. rewrite ev_bytes_len in H. rewrite D in H.
  assert (E : set_pos (bk d r) 0 = bk [] (d ++ r)).
  { pose proof (bseek0_bk d r F) as E. unfold bseek in E. congruence. }
  rewrite E, buf_size_bk by auto.
  assert (I : to_int32 (Z.of_N (lenN (d ++ r))) = Z.of_nat (length (d ++ r))).
  { rewrite to_int32_id; unfold is_int32; szs. }
  rewrite I.
  apply build_bk.
  - szs.
  - rewrite ev_bytes_len, D. lia.
  - intros x Hx.
    assert (Lx : length x = (13 + length (d ++ r))%nat) by (unfold lenN in *; lia).
    erewrite bbind_ok by (apply put_ulong_bk; [exact (ltac:(szs) : fits x)|lia]).
    erewrite bbind_ok by (apply put_byte_bk; szs).
    erewrite bbind_ok by (apply put_int_bk; szs).
    rewrite put_buf_bk by szs.
    cbn [app]. rewrite !skipn_skipn. unfold ev_bytes. rewrite D. rewrite <- !app_assoc.
    cbn [app]. fin_bk.
Qed.

Lemma rpc_entry_bufs_ok junk vs : forall es acc,
  Forall2 entry_is vs es -> (0 <= acc)%Z -> (acc + Z.of_N (lenN (evs_bytes vs)) <= 2147483647)%Z ->
  rpc_entry_bufs junk es acc =
  Ok (map (bk []) (map ev_bytes vs), (acc + Z.of_N (lenN (evs_bytes vs)))%Z).
Proof.
  induction vs as [|v vs IH]; intros es acc H Ha Hs; inversion H; subst.
  - cbn. f_equal. f_equal. lia.
  - cbn [rpc_entry_bufs]. unfold evs_bytes in *. cbn [map concat] in *. rewrite lenN_app in Hs.
    rewrite rpc_entry_buf_ok with (v := v) by (auto; unfold two31; lia). cbn [res_bind].
    rewrite buf_size_bk by (unfold fits, two31; cbn [app]; lia). cbn [app].
    rewrite to_int32_id by (unfold is_int32; lia).
    destruct (Z.ltb_spec 2147483647 (acc + Z.of_N (lenN (ev_bytes v)))); [lia|].
    rewrite IH by (auto; lia). cbn [res_bind]. f_equal. f_equal. rewrite lenN_app. lia.
Qed.

Lemma stream_out_bk d r : fits (d ++ r) -> stream_out (bk d r) = Ok r.
Proof. intros F. unfold bk. rewrite stream_out_mk by (apply bk_wf; auto). rewrite bk_rest. reflexivity. Qed.

Lemma stream_in_bk r x : fits r -> length x = length r -> stream_in (bk [] r) x = Ok (bk [] x).
Proof.
  intros F L. unfold bk. rewrite stream_in_mk.
  - unfold aread; cbn [apos adata length app firstn]. reflexivity.
  - apply (bk_wf []); auto.
  - unfold asize; cbn [apos adata length app]. lia.
Qed.

Lemma req_bytes_len q : lenN (req_bytes q) = 45 + lenN (evs_bytes (rq_entries q)).
Proof. unfold req_bytes. lens. lia. Qed.

Lemma ev_bytes_fit vs : lenN (evs_bytes vs) < two31 -> Forall (fun x => fits x) (map ev_bytes vs).
Proof.
  intros H. apply Forall_forall. intros x Hx. pose proof (concat_part _ _ Hx) as P.
  unfold evs_bytes in H. unfold fits. lia.
Qed.

Lemma rpc_encode_ok junk q r :
  req_is q r -> 45 + lenN (evs_bytes (rq_entries q)) < two31 ->
  rpc_encode junk r = Ok (req_bytes q).
Proof.
  intros (E1 & E2 & E3 & E4 & E5 & E6 & E7 & E8) H. unfold rpc_encode.
  rewrite rpc_entry_bufs_ok with (vs := rq_entries q) by (auto; unfold two31 in *; lia). cbn [res_bind].
  change (Z.of_N RPC_REQ_HEADER_SIZE) with 45%Z. rewrite Z.add_0_l.
  set (D := evs_bytes (rq_entries q)) in *.
  destruct (Z.ltb_spec 2147483647 (45 + Z.of_N (lenN D))); [unfold two31 in *; lia|].
  assert (U : ulong_of_Z (45 + Z.of_N (lenN D)) = 45 + lenN D).
  { unfold ulong_of_Z. rewrite Z.mod_small by (unfold two31 in *; lia). lia. }
  rewrite U. rewrite E1, E2, E3, E4, E5, E6, E7.
  erewrite build_bk with (out := req_bytes q).
  - cbn [res_bind]. apply stream_out_bk. unfold fits; cbn [app]. rewrite req_bytes_len. exact H.
  - exact H.
  - apply req_bytes_len.
  - intros x Hx.
    assert (Lx : length x = (45 + length D)%nat) by (unfold lenN in *; lia).
    erewrite bbind_ok by (apply put_byte_bk; [exact (ltac:(szs) : fits x)|lia]).
    erewrite bbind_ok by (apply put_int_bk; szs).
    erewrite bbind_ok by (apply put_int_bk; szs).
    erewrite bbind_ok by (apply put_ulong_bk; szs).
    erewrite bbind_ok by (apply put_ulong_bk; szs).
    erewrite bbind_ok by (apply put_ulong_bk; szs).
    erewrite bbind_ok by (apply put_ulong_bk; szs).
    erewrite bbind_ok by (apply put_int_bk; szs).
    rewrite put_all_bk.
    + fold (evs_bytes (rq_entries q)). fold D. cbn [app]. rewrite !skipn_skipn.
      unfold req_bytes. fold D. rewrite <- !app_assoc. cbn [app]. fin_bk.
    + apply ev_bytes_fit. fold D. lia.
    + szs.
    + fold (evs_bytes (rq_entries q)). fold D. szs.
Qed.

Lemma resp_encode_ok junk r : resp_encode junk r = Ok (resp_bytes r).
Proof.
  unfold resp_encode. erewrite build_bk with (out := resp_bytes r).
  - cbn [res_bind]. apply stream_out_bk. unfold fits, two31; cbn [app]. unfold resp_bytes. lens. lia.
  - unfold RPC_RESP_HEADER_SIZE, two31. lia.
  - unfold resp_bytes, RPC_RESP_HEADER_SIZE. lens. lia.
  - intros x Hx. assert (Lx : length x = 26%nat) by (unfold lenN, RPC_RESP_HEADER_SIZE in *; lia).
    erewrite bbind_ok by (apply put_byte_bk; [exact (ltac:(szs) : fits x)|lia]).
    erewrite bbind_ok by (apply put_int_bk; szs).
    erewrite bbind_ok by (apply put_int_bk; szs).
    erewrite bbind_ok by (apply put_ulong_bk; szs).
    erewrite bbind_ok by (apply put_ulong_bk; szs).
    rewrite put_byte_bk by szs.
    cbn [app]. rewrite !skipn_skipn. unfold resp_bytes. rewrite <- !app_assoc. cbn [app]. fin_bk.
Qed.

Lemma get_ulong_bk1 d n r : fits (d ++ le 8 n ++ r) -> is_ulong n ->
  get_ulong (bk d (le 8 n ++ r)) = (Ok n, bk (d ++ le 8 n) r).
Proof. exact (get_ulong_bk d n r). Qed.

Lemma resp_decode_ok junk r : resp_ok r -> resp_decode junk (resp_bytes r) = Ok r.
Proof.
  intros (H1 & H2 & H3 & H4). unfold resp_decode.
  destruct (alloc_bk junk RPC_RESP_HEADER_SIZE) as (x & Lx & ->); [unfold RPC_RESP_HEADER_SIZE, two31; lia|].
  cbn [res_bind].
  assert (Lb : lenN (resp_bytes r) = RPC_RESP_HEADER_SIZE).
  { unfold resp_bytes, RPC_RESP_HEADER_SIZE. lens. lia. }
  assert (Fb : fits (resp_bytes r)) by (unfold fits; rewrite Lb; unfold RPC_RESP_HEADER_SIZE, two31; lia).
  rewrite stream_in_bk; [|unfold fits; rewrite Lx; unfold RPC_RESP_HEADER_SIZE, two31; lia
                         |unfold lenN in *; lia].
  cbn [res_bind]. unfold resp_bytes in *. cbn [app] in *.
  erewrite bbind_ok by (apply get_byte_bk; exact Fb).
  erewrite bbind_ok by (apply get_int_bk; auto; rewrite <- ?app_assoc; exact Fb).
  erewrite bbind_ok by (apply get_int_bk; auto; rewrite <- ?app_assoc; exact Fb).
  erewrite bbind_ok by (apply get_ulong_bk; auto; rewrite <- ?app_assoc; exact Fb).
  erewrite bbind_ok by (apply get_ulong_bk; auto; rewrite <- ?app_assoc; exact Fb).
  erewrite bbind_ok by (apply get_byte_bk; rewrite <- ?app_assoc; exact Fb).
  unfold bret. cbn [fst]. destruct r as [a b c d e f]; cbn. destruct f; reflexivity.
Qed.

(** ** Server *)

(** decoding log data, on plain bytes *)
Fixpoint parse (fuel : nat) (r : list byte) : res (list entry_val) :=
  match r with
  | [] => Ok []
  | _ :: _ =>
    match fuel with
    | O => Throw RuntimeError
    | S fuel =>
      if (length r <? 8)%nat then Throw OverflowError
      else if (length r <? 9)%nat then Throw OverflowError
      else if (length r <? 13)%nat then Throw OverflowError
      else
        let term := of_le (firstn 8 r) in
        let t := hd x00 (skipn 8 r) in
        let sz := int32_of_bytes (firstn 4 (skipn 9 r)) in
        let r := skipn 13 r in
        if (sz <? 0)%Z then Throw OutOfRange
        else if (length r <? Z.to_nat sz)%nat then UB OutOfBoundsRead
        else match parse fuel (skipn (Z.to_nat sz) r) with
             | Ok l => Ok (mkEV term t (firstn (Z.to_nat sz) r) :: l)
             | Throw e => Throw e
             | UB u => UB u
             end
    end
  end.

Definition raw_of (v : entry_val) : raw_entry := mkRaw (ev_term v) (ev_type v) (Some (bk [] (ev_data v))).

Lemma get_bk_any {A} d r n (f : list byte -> A) : fits (d ++ r) ->
  lift (aget_op (mkAbuf (length d) (d ++ r)) n f) =
  if (length r <? n)%nat then (Throw OverflowError, bk d r)
  else (Ok (f (firstn n r)), bk (d ++ firstn n r) (skipn n r)).
Proof.
  intros F. unfold aget_op, asize. cbn [apos adata]. rewrite app_length, bk_rest.
  replace (length d + length r - length d)%nat with (length r) by lia.
  destruct (Nat.ltb_spec (length r) n) as [L|G]; [reflexivity|].
  unfold lift; cbn [fst snd]. f_equal. unfold bk, askip. cbn [apos adata].
  rewrite <- app_assoc, firstn_skipn, app_length, firstn_length. do 2 f_equal. lia.
Qed.

Lemma get_ulong_bk_any d r : fits (d ++ r) ->
  get_ulong (bk d r) = if (length r <? 8)%nat then (Throw OverflowError, bk d r)
                       else (Ok (of_le (firstn 8 r)), bk (d ++ firstn 8 r) (skipn 8 r)).
Proof. intros F. unfold bk at 1. rewrite get_ulong_mk by (apply bk_wf; auto). apply get_bk_any; auto. Qed.

Lemma get_int_bk_any d r : fits (d ++ r) ->
  get_int (bk d r) = if (length r <? 4)%nat then (Throw OverflowError, bk d r)
                       else (Ok (int32_of_bytes (firstn 4 r)), bk (d ++ firstn 4 r) (skipn 4 r)).
Proof. intros F. unfold bk at 1. rewrite get_int_mk by (apply bk_wf; auto). apply get_bk_any; auto. Qed.

Lemma get_byte_bk_any d r : fits (d ++ r) ->
  get_byte (bk d r) = if (length r <? 1)%nat then (Throw OverflowError, bk d r)
                       else (Ok (hd x00 r), bk (d ++ firstn 1 r) (skipn 1 r)).
Proof.
  intros F. destruct r as [|b r].
  - cbn [length Nat.ltb Nat.leb]. unfold bk. rewrite get_byte_mk by (apply bk_wf; auto).
    unfold aget_op, asize; cbn [apos adata]. rewrite app_length. cbn [length].
    destruct (Nat.ltb_spec (length d + 0 - length d) 1); [reflexivity|lia].
  - cbn [length]. destruct (Nat.ltb_spec (S (length r)) 1); [lia|]. rewrite get_byte_bk by auto. reflexivity.
Qed.

Lemma int32_of_bytes_range l : length l = 4%nat -> (-2147483648 <= int32_of_bytes l <= 2147483647)%Z.
Proof.
  intros H. unfold int32_of_bytes. pose proof (of_le_lt l) as B. rewrite H in B.
  change (256 ^ N.of_nat 4) with 4294967296 in B.
  unfold to_int32.
  repeat match goal with |- context [if ?c then _ else _] => destruct c eqn:?; try lia end;
  try (match goal with |- context [(?a mod ?b)%Z] => pose proof (Z.mod_pos_bound a b ltac:(lia)) end; lia).
Qed.

Lemma get_buf_bk d r x : fits (d ++ r) -> fits x ->
  get_buf (bk d r) (bk [] x) =
  if (length x <=? length r)%nat
  then (Ok tt, bk (d ++ firstn (length x) r) (skipn (length x) r), bk [] (firstn (length x) r))
  else (UB OutOfBoundsRead, bk d r, bk [] x).
Proof.
  intros F Fx. unfold bk at 1 2. rewrite get_buf_mk by (apply bk_wf; auto).
  unfold asize; cbn [apos adata length app]. rewrite app_length.
  replace (length d + length r - length d)%nat with (length r) by lia. rewrite Nat.sub_0_r.
  destruct (Nat.leb_spec (length x) (length r)) as [L|G]; [|reflexivity].
  rewrite bk_rest. f_equal.
  - f_equal. unfold bk, askip. cbn [apos adata].
    rewrite <- app_assoc, firstn_skipn, app_length, firstn_length. do 2 f_equal. lia.
  - unfold bk. cbn [length app]. f_equal. f_equal. unfold aput; cbn [adata apos].
    cbn [firstn app]. rewrite skipn_all2; [apply app_nil_r|]. rewrite firstn_length. lia.
Qed.

Lemma read_entries_bk junk fuel : forall d r,
  fits (d ++ r) ->
  fst (read_entries junk fuel (bk d r)) =
  match parse fuel r with
  | Ok l => Ok (map raw_of l)
  | Throw e => Throw e
  | UB u => UB u
  end.
Proof.
  induction fuel as [|fuel IH]; intros d r F; cbn [read_entries];
    rewrite buf_pos_bk, buf_size_bk, lenN_app by auto;
    (destruct (N.ltb_spec (lenN d) (lenN d + lenN r)) as [L|G];
     [destruct r as [|b r]; [rewrite lenN_nil in L; lia|]
     |destruct r as [|b r]; [reflexivity|rewrite lenN_cons in G; lia]]).
  - reflexivity.
  - cbn [parse]. set (x := b :: r) in *. clearbody x. clear L.
    unfold bbind at 1. rewrite get_ulong_bk_any by auto.
    destruct (Nat.ltb_spec (length x) 8) as [L8|G8]; [reflexivity|].
    assert (F1 : fits ((d ++ firstn 8 x) ++ skipn 8 x)) by (rewrite <- app_assoc, firstn_skipn; auto).
    unfold bbind at 1. rewrite get_byte_bk_any by auto. rewrite skipn_length.
    destruct (Nat.ltb_spec (length x) 9) as [L9|G9].
    { destruct (Nat.ltb_spec (length x - 8) 1); [reflexivity|lia]. }
    destruct (Nat.ltb_spec (length x - 8) 1); [lia|].
    rewrite skipn_skipn. change (8 + 1)%nat with 9%nat.
    assert (F2 : fits (((d ++ firstn 8 x) ++ firstn 1 (skipn 8 x)) ++ skipn 9 x)).
    { change 9%nat with (8 + 1)%nat. rewrite <- skipn_skipn, <- app_assoc, firstn_skipn. auto. }
    unfold bbind at 1. rewrite get_int_bk_any by auto. rewrite skipn_length.
    destruct (Nat.ltb_spec (length x) 13) as [L13|G13].
    { destruct (Nat.ltb_spec (length x - 9) 4); [reflexivity|lia]. }
    destruct (Nat.ltb_spec (length x - 9) 4); [lia|].
    rewrite skipn_skipn. change (9 + 4)%nat with 13%nat.
    set (sz := int32_of_bytes (firstn 4 (skipn 9 x))).
    assert (Hsz : (-2147483648 <= sz <= 2147483647)%Z).
    { apply int32_of_bytes_range. rewrite firstn_length, skipn_length. lia. }
    set (d' := (((d ++ firstn 8 x) ++ firstn 1 (skipn 8 x)) ++ firstn 4 (skipn 9 x))).
    assert (F3 : fits (d' ++ skipn 13 x)).
    { unfold d'. change 13%nat with (9 + 4)%nat. rewrite <- skipn_skipn, <- app_assoc, firstn_skipn. auto. }
    destruct (Z.ltb_spec sz 0) as [Neg|Pos].
    { rewrite alloc_throws; [reflexivity|].
      unfold ulong_of_Z, two31. rewrite <- (Z.mod_add sz 1) by lia. rewrite Z.mod_small by lia. lia. }
    assert (U : ulong_of_Z sz = Z.to_N sz) by (unfold ulong_of_Z; rewrite Z.mod_small by lia; reflexivity).
    destruct (alloc_bk junk (ulong_of_Z sz)) as (y & Ly & ->); [rewrite U; unfold two31; lia|].
    rewrite U in Ly. assert (Ly' : length y = Z.to_nat sz) by (unfold lenN in Ly; lia).
    rewrite get_buf_bk by (auto; unfold fits; rewrite Ly; unfold two31; lia).
    rewrite Ly'.
    destruct (Nat.leb_spec (Z.to_nat sz) (length (skipn 13 x))) as [Lz|Gz];
      (destruct (Nat.ltb_spec (length (skipn 13 x)) (Z.to_nat sz)); [lia|]) || 
      (destruct (Nat.ltb_spec (length (skipn 13 x)) (Z.to_nat sz)); [reflexivity|lia]).
    assert (F4 : fits ((d' ++ firstn (Z.to_nat sz) (skipn 13 x)) ++ skipn (Z.to_nat sz) (skipn 13 x))).
    { rewrite <- app_assoc, firstn_skipn. auto. }
    specialize (IH _ _ F4).
    destruct (read_entries junk fuel _) as [res log]. cbn [fst] in IH. subst res.
    destruct (parse fuel (skipn (Z.to_nat sz) (skipn 13 x))); reflexivity.
Qed.

(** enough iterations *)
Lemma parse_fuel fuel : forall r, (length r < fuel)%nat ->
  parse fuel r <> Throw RuntimeError.
Proof.
  induction fuel as [|fuel IH]; intros r H; [lia|]. cbn [parse].
  destruct r as [|b r]; [discriminate|]. set (x := b :: r) in *. clearbody x.
  destruct (Nat.ltb_spec (length x) 8); [discriminate|].
  destruct (Nat.ltb_spec (length x) 9); [discriminate|].
  destruct (Nat.ltb_spec (length x) 13); [discriminate|].
  destruct (Z.ltb_spec (int32_of_bytes (firstn 4 (skipn 9 x))) 0); [discriminate|].
  match goal with |- context [if ?c then _ else _] => destruct c; [discriminate|] end.
  match goal with |- context [parse fuel ?y] => assert (P : parse fuel y <> Throw RuntimeError) end.
  { apply IH. rewrite !skipn_length. lia. }
  destruct (parse fuel _); try discriminate. congruence.
Qed.

Lemma parse_more f1 f2 : forall r, parse f1 r <> Throw RuntimeError -> (f1 <= f2)%nat -> parse f2 r = parse f1 r.
Proof.
  revert f2. induction f1 as [|f1 IH]; intros f2 r H L.
  - destruct r; [|cbn in H; congruence]. destruct f2; reflexivity.
  - destruct f2 as [|f2]; [lia|]. cbn [parse] in *. destruct r as [|b r]; [reflexivity|].
    set (x := b :: r) in *. clearbody x.
    destruct (Nat.ltb_spec (length x) 8); [reflexivity|].
    destruct (Nat.ltb_spec (length x) 9); [reflexivity|].
    destruct (Nat.ltb_spec (length x) 13); [reflexivity|].
    destruct (Z.ltb_spec (int32_of_bytes (firstn 4 (skipn 9 x))) 0); [reflexivity|].
    match goal with |- context [if ?c then _ else _] => destruct c; [reflexivity|] end.
    rewrite IH; auto; [|lia]. intros E. rewrite E in H. congruence.
Qed.

(** one step of [parse] on a well-formed start *)
Lemma parse_hdr fuel term t z r : is_ulong term -> is_int32 z ->
  parse (S fuel) (le 8 term ++ [t] ++ int_b z ++ r) =
  if (z <? 0)%Z then Throw OutOfRange
  else if (length r <? Z.to_nat z)%nat then UB OutOfBoundsRead
  else match parse fuel (skipn (Z.to_nat z) r) with
       | Ok l => Ok (mkEV term t (firstn (Z.to_nat z) r) :: l)
       | Throw e => Throw e
       | UB u => UB u
       end.
Proof.
  intros Ht Hz.
  assert (L : (13 <= length (le 8 term ++ [t] ++ int_b z ++ r))%nat).
  { rewrite !app_length, le_length, int_b_len. cbn [length]. lia. }
  assert (S8 : skipn 8 (le 8 term ++ [t] ++ int_b z ++ r) = [t] ++ int_b z ++ r)
    by (apply skipn_app_exact, le_length).
  assert (S9 : skipn 9 (le 8 term ++ [t] ++ int_b z ++ r) = int_b z ++ r).
  { change 9%nat with (8 + 1)%nat. rewrite <- skipn_skipn, S8. apply skipn_app_exact; reflexivity. }
  assert (S13 : skipn 13 (le 8 term ++ [t] ++ int_b z ++ r) = r).
  { change 13%nat with (9 + 4)%nat. rewrite <- skipn_skipn, S9. apply skipn_app_exact, int_b_len. }
  assert (F8 : firstn 8 (le 8 term ++ [t] ++ int_b z ++ r) = le 8 term) by (apply firstn_app_exact, le_length).
  assert (F4 : firstn 4 (int_b z ++ r) = int_b z) by (apply firstn_app_exact, int_b_len).
  revert L S8 S9 S13 F8. generalize (le 8 term ++ [t] ++ int_b z ++ r) as x. intros x L S8 S9 S13 F8.
  destruct x as [|b x]; [cbn in L; lia|]. cbn [parse]. set (y := b :: x) in *. clearbody y.
  destruct (Nat.ltb_spec (length y) 8); [lia|].
  destruct (Nat.ltb_spec (length y) 9); [lia|].
  destruct (Nat.ltb_spec (length y) 13); [lia|].
  rewrite F8, S8, S9, S13, F4, of_le_le8 by auto. unfold int_b. rewrite int32_of_le by auto. reflexivity.
Qed.

Lemma parse_evs vs : forall fuel, Forall (fun v => is_ulong (ev_term v)) vs -> lenN (evs_bytes vs) < two31 ->
  (length vs <= fuel)%nat -> parse fuel (evs_bytes vs) = Ok vs.
Proof.
  induction vs as [|v vs IH]; intros fuel H L Hf; [destruct fuel; reflexivity|].
  inversion H; subst. cbn [length] in Hf. destruct fuel as [|fuel]; [lia|].
  unfold evs_bytes in *. cbn [map concat] in *. rewrite lenN_app, ev_bytes_len in L.
  unfold ev_bytes at 1. rewrite <- !app_assoc.
  rewrite parse_hdr by (auto; unfold is_int32; unfold lenN, two31 in *; lia).
  destruct (Z.ltb_spec (Z.of_nat (length (ev_data v))) 0); [lia|].
  rewrite Nat2Z.id, app_length.
  destruct (Nat.ltb_spec (length (ev_data v) + length (concat (map ev_bytes vs))) (length (ev_data v))); [lia|].
  rewrite skipn_app_exact, firstn_app_exact by reflexivity.
  rewrite IH by (auto; lia). destruct v; reflexivity.
Qed.

Lemma evs_count vs : (length vs <= length (evs_bytes vs))%nat.
Proof.
  induction vs as [|v vs IH]; unfold evs_bytes in *; cbn [map concat length]; [lia|].
  rewrite app_length. pose proof (ev_bytes_len v). unfold lenN in *. lia.
Qed.

(** the session on a header and data *)
Definition hdr_bytes (t : byte) (src dst : Z) (term lt li c : N) (sz : Z) : list byte :=
  [t] ++ int_b src ++ int_b dst ++ le 8 term ++ le 8 lt ++ le 8 li ++ le 8 c ++ int_b sz.

Lemma hdr_bytes_len t src dst term lt li c sz : length (hdr_bytes t src dst term lt li c sz) = 45%nat.
Proof. unfold hdr_bytes. rewrite !app_length, !le_length, !int_b_len. reflexivity. Qed.

(** every 45 bytes are the header of some values *)
Lemma int_b_of l : length l = 4%nat -> int_b (int32_of_bytes l) = l /\ is_int32 (int32_of_bytes l).
Proof.
  intros H. pose proof (int32_of_bytes_range l H) as R. split; [|unfold is_int32; lia].
  unfold int_b. pose proof (of_le_lt l) as B. rewrite H in B. change (256 ^ N.of_nat 4) with 4294967296 in B.
  assert (E : Z.to_N (int32_of_bytes l mod 4294967296) = of_le l).
  { unfold int32_of_bytes, to_int32 in *.
    repeat match goal with |- context [if ?c then _ else _] => destruct c eqn:? end; try lia;
    match goal with |- Z.to_N ?x = _ => assert (X : x = Z.of_N (of_le l)) by (Z.div_mod_to_equations; lia); rewrite X; lia end. }
  rewrite E. rewrite <- H at 1. apply le_of_le.
Qed.

Lemma hdr_surj x : length x = 45%nat ->
  exists t src dst term lt li c sz,
    x = hdr_bytes t src dst term lt li c sz /\ is_int32 src /\ is_int32 dst /\ is_ulong term /\
    is_ulong lt /\ is_ulong li /\ is_ulong c /\ is_int32 sz.
Proof.
  intros H.
  assert (cut : forall k (y : list byte), (k <= length y)%nat -> exists a b, y = a ++ b /\ length a = k /\ length b = (length y - k)%nat).
  { intros k y L. exists (firstn k y), (skipn k y). rewrite firstn_skipn, firstn_length, skipn_length. repeat split; lia. }
  assert (ul : forall y : list byte, length y = 8%nat -> exists n, y = le 8 n /\ is_ulong n).
  { intros y Ly. exists (of_le y). split; [rewrite <- Ly at 1; symmetry; apply le_of_le|].
    unfold is_ulong. pose proof (of_le_lt y) as B. rewrite Ly in B. exact B. }
  destruct (cut 1%nat x ltac:(lia)) as (x1 & y1 & -> & L1 & M1). rewrite app_length in *.
  destruct (cut 4%nat y1 ltac:(lia)) as (x2 & y2 & -> & L2 & M2). rewrite app_length in *.
  destruct (cut 4%nat y2 ltac:(lia)) as (x3 & y3 & -> & L3 & M3). rewrite app_length in *.
  destruct (cut 8%nat y3 ltac:(lia)) as (x4 & y4 & -> & L4 & M4). rewrite app_length in *.
  destruct (cut 8%nat y4 ltac:(lia)) as (x5 & y5 & -> & L5 & M5). rewrite app_length in *.
  destruct (cut 8%nat y5 ltac:(lia)) as (x6 & y6 & -> & L6 & M6). rewrite app_length in *.
  destruct (cut 8%nat y6 ltac:(lia)) as (x7 & x8 & -> & L7 & L8). rewrite app_length in *.
  destruct x1 as [|t [|? ?]]; cbn in L1; try lia.
  destruct (int_b_of x2 L2) as [E2 I2]. destruct (int_b_of x3 L3) as [E3 I3].
  destruct (ul x4 L4) as (n4 & -> & U4). destruct (ul x5 L5) as (n5 & -> & U5).
  destruct (ul x6 L6) as (n6 & -> & U6). destruct (ul x7 L7) as (n7 & -> & U7).
  destruct (int_b_of x8 ltac:(lia)) as [E8 I8].
  exists t, (int32_of_bytes x2), (int32_of_bytes x3), n4, n5, n6, n7, (int32_of_bytes x8).
  unfold hdr_bytes. rewrite E2, E3, E8. split; [reflexivity|]. do 6 (split; [assumption|]). assumption.
Qed.

Section Session.
Variables (junk : nat -> byte) (t : byte) (src dst : Z) (term lt li c : N) (sz : Z).
Hypotheses (Hsrc : is_int32 src) (Hdst : is_int32 dst) (Ht : is_ulong term) (Hlt : is_ulong lt)
  (Hli : is_ulong li) (Hc : is_ulong c) (Hsz : is_int32 sz).
Let H := hdr_bytes t src dst term lt li c sz.

Lemma H_fits : fits H.
Proof. unfold fits, lenN, H. rewrite hdr_bytes_len. unfold two31. lia. Qed.

Lemma read_complete_bk ds r lg log :
  ds ++ r = H -> ((0 < sz)%Z -> lg = bk [] log /\ fits log) ->
  fst (read_complete junk (bk ds r) lg) =
  (if (0 <? sz)%Z then
     match parse (S (length log)) log with
     | Ok l => Ok (mkReq term t src dst lt li c (map raw_of l), snd (read_entries junk (S (length log)) (bk [] log)))
     | Throw e => Throw e
     | UB u => UB u
     end
   else Ok (mkReq term t src dst lt li c [], lg)) /\
  snd (read_complete junk (bk ds r) lg) = bk H [].
Proof.
  intros E F. pose proof H_fits as FH. unfold read_complete.
  erewrite bbind_ok by (apply bseek0_bk; rewrite E; exact FH). rewrite E.
  unfold H, hdr_bytes in *. cbn [app] in *.
  erewrite bbind_ok by (apply get_byte_bk; exact FH).
  erewrite bbind_ok by (apply get_int_bk; auto; rewrite <- ?app_assoc; exact FH).
  erewrite bbind_ok by (apply get_int_bk; auto; rewrite <- ?app_assoc; exact FH).
  erewrite bbind_ok by (apply get_ulong_bk; auto; rewrite <- ?app_assoc; exact FH).
  erewrite bbind_ok by (apply get_ulong_bk; auto; rewrite <- ?app_assoc; exact FH).
  erewrite bbind_ok by (apply get_ulong_bk; auto; rewrite <- ?app_assoc; exact FH).
  erewrite bbind_ok by (apply get_ulong_bk; auto; rewrite <- ?app_assoc; exact FH).
  rewrite <- (app_nil_r (int_b sz)).
  erewrite bbind_ok.
  2:{ apply get_int_bk; [rewrite ?app_nil_r, <- ?app_assoc; exact FH|auto]. }
  rewrite <- ?app_assoc. cbn [app]. rewrite ?app_nil_r.
  destruct (Z.ltb_spec 0 sz) as [P|NP]; [|split; reflexivity].
  destruct (F P) as [-> F']. clear F. rename F' into F.
  assert (E0 : set_pos (bk [] log) 0 = bk [] log).
  { pose proof (bseek0_bk [] log F) as E0. unfold bseek in E0. cbn [app] in E0. congruence. }
  rewrite E0, buf_size_bk by auto. cbn [app]. unfold lenN. rewrite Nnat.Nat2N.id.
  pose proof (read_entries_bk junk (S (length log)) [] log F) as RE.
  destruct (read_entries junk (S (length log)) (bk [] log)) as [res lg']. cbn [fst snd] in *. subst res.
  destruct (parse (S (length log)) log); split; reflexivity.
Qed.

Lemma set_pos_41 x : length x = 45%nat ->
  set_pos (bk [] x) (RPC_REQ_HEADER_SIZE - 4) = bk (firstn 41 x) (skipn 41 x).
Proof.
  intros L. unfold bk. change (RPC_REQ_HEADER_SIZE - 4) with (N.of_nat 41).
  rewrite set_pos_mk'.
  - unfold aseek; cbn [adata app]. f_equal. f_equal; [|rewrite firstn_skipn; reflexivity].
    unfold asize; cbn [adata]. rewrite firstn_length. lia.
  - apply (bk_wf []). unfold fits, lenN, two31; cbn [app]. lia.
Qed.

(** the exact behaviour of one session step on a header followed by a stream *)
Lemma session_step_spec hdr log stream :
  length hdr = 45%nat ->
  session_step junk (bk [] hdr) log (H ++ stream) =
  if ((sz <? 0) || (16777216 <? sz))%Z%bool then SStop
  else if (sz =? 0)%Z then SReq (mkReq term t src dst lt li c []) (bk [] H) log stream
  else if (length stream <? Z.to_nat sz)%nat then SWait
  else
    let data := firstn (Z.to_nat sz) stream in
    match parse (S (length data)) data with
    | Ok l => SReq (mkReq term t src dst lt li c (map raw_of l)) (bk [] H)
                (snd (read_entries junk (S (length data)) (bk [] data))) (skipn (Z.to_nat sz) stream)
    | Throw _ => SStop
    | UB u => SUB u
    end.
Proof.
  intros Lh. assert (Fh : fits hdr) by (unfold fits, lenN; rewrite Lh; unfold two31; lia). unfold session_step.
  assert (LH : length H = 45%nat) by apply hdr_bytes_len.
  change (N.to_nat RPC_REQ_HEADER_SIZE) with 45%nat.
  destruct (N.ltb_spec (lenN (H ++ stream)) RPC_REQ_HEADER_SIZE) as [Lt|_].
  { rewrite lenN_app in Lt. unfold lenN, RPC_REQ_HEADER_SIZE in Lt. lia. }
  rewrite firstn_app_exact, skipn_app_exact by auto.
  rewrite stream_in_bk by (auto; lia).
  rewrite set_pos_41 by auto.
  assert (FH := H_fits).
  assert (EH : firstn 41 H = [t] ++ int_b src ++ int_b dst ++ le 8 term ++ le 8 lt ++ le 8 li ++ le 8 c
               /\ skipn 41 H = int_b sz).
  { assert (EQ : H = ([t] ++ int_b src ++ int_b dst ++ le 8 term ++ le 8 lt ++ le 8 li ++ le 8 c) ++ int_b sz).
    { unfold H, hdr_bytes. rewrite <- !app_assoc. reflexivity. }
    assert (L41 : length ([t] ++ int_b src ++ int_b dst ++ le 8 term ++ le 8 lt ++ le 8 li ++ le 8 c) = 41%nat).
    { rewrite !app_length, !le_length, !int_b_len. reflexivity. }
    rewrite EQ. split; [apply firstn_app_exact|apply skipn_app_exact]; exact L41. }
  destruct EH as [EH1 EH2].
  assert (G : get_int (bk (firstn 41 H) (skipn 41 H)) = (Ok sz, bk H [])).
  { pose proof (firstn_skipn 41 H) as FS. rewrite EH2 in *. rewrite <- (app_nil_r (int_b sz)).
    unfold int_b at 1. rewrite get_int_bk;
      [fold (int_b sz); rewrite FS; reflexivity|fold (int_b sz); rewrite app_nil_r, FS; exact FH|exact Hsz]. }
  rewrite G.
  destruct ((sz <? 0) || (16777216 <? sz))%Z%bool eqn:B; [reflexivity|].
  apply orb_false_iff in B as [B1 B2]. apply Z.ltb_ge in B1, B2.
  destruct (Z.eqb_spec sz 0) as [E0|N0].
  - destruct (read_complete_bk H [] log [] (app_nil_r _) ltac:(lia)) as [R1 R2].
    destruct (read_complete junk (bk H []) log) as [res hd']. cbn [fst snd] in *. subst res hd'.
    destruct (Z.ltb_spec 0 sz); [lia|].
    assert (E : set_pos (bk H []) 0 = bk [] H).
    { pose proof (bseek0_bk H []) as E. rewrite app_nil_r in E. specialize (E FH). unfold bseek in E. congruence. }
    rewrite E. reflexivity.
  - assert (U : ulong_of_Z sz = Z.to_N sz) by (unfold ulong_of_Z; rewrite Z.mod_small by lia; reflexivity).
    destruct (alloc_bk junk (ulong_of_Z sz)) as (y & Ly & ->); [rewrite U; unfold two31; lia|].
    rewrite U in Ly.
    destruct (N.ltb_spec (lenN stream) (Z.to_N sz)) as [Ls|Gs];
      destruct (Nat.ltb_spec (length stream) (Z.to_nat sz)) as [Ls'|Gs']; try (unfold lenN in *; lia); [reflexivity|].
    set (data := firstn (Z.to_nat sz) stream).
    assert (Ld : length data = Z.to_nat sz) by (unfold data; rewrite firstn_length; lia).
    rewrite stream_in_bk; [|unfold fits; rewrite Ly; unfold two31; lia|unfold lenN in Ly; lia].
    assert (Fd : fits data) by (unfold fits, lenN; rewrite Ld; unfold two31; lia).
    destruct (read_complete_bk H [] (bk [] data) data (app_nil_r _) (fun _ => conj eq_refl Fd)) as [R1 R2].
    destruct (read_complete junk (bk H []) (bk [] data)) as [res hd']. cbn [fst snd] in *. subst res hd'.
    destruct (Z.ltb_spec 0 sz); [|lia].
    assert (E : set_pos (bk H []) 0 = bk [] H).
    { pose proof (bseek0_bk H []) as E. rewrite app_nil_r in E. specialize (E FH). unfold bseek in E. congruence. }
    cbv zeta. destruct (parse (S (length data)) data); [rewrite E; reflexivity|reflexivity|reflexivity].
Qed.
End Session.

Lemma raw_of_is v : fits (ev_data v) -> entry_is v (raw_of v).
Proof.
  intros F. split; [reflexivity|]. split; [reflexivity|].
  exists (lenN (ev_data v)), (bk [] (ev_data v)). split; [reflexivity|].
  split; [exact (bk_reachable _ F)|]. rewrite (view_bk [] _ F). reflexivity.
Qed.

Lemma raw_of_all vs : lenN (evs_bytes vs) < two31 -> Forall2 entry_is vs (map raw_of vs).
Proof.
  induction vs as [|v vs IH]; intros L; cbn [map]; constructor.
  - apply raw_of_is. unfold evs_bytes in L. cbn [map concat] in L. rewrite lenN_app, ev_bytes_len in L.
    unfold fits. lia.
  - apply IH. unfold evs_bytes in *. cbn [map concat] in L. rewrite lenN_app in L. lia.
Qed.

(** the state of a session between two requests *)
Definition idle (hdr : block) : Prop := reachable 45 hdr /\ buf_pos hdr = 0.

Lemma idle_bk hdr : idle hdr -> exists h, length h = 45%nat /\ hdr = bk [] h.
Proof.
  intros [R P]. destruct (reachable_mk _ _ R) as ([p l] & W & -> & L). cbn [adata] in L.
  rewrite buf_pos_mk in P by auto. cbn [apos] in P. exists l. split; [unfold lenN in L; lia|].
  unfold bk. cbn [length app]. do 2 f_equal. lia.
Qed.

Lemma bk_idle h : length h = 45%nat -> idle (bk [] h).
Proof.
  intros L. assert (F : fits h) by (unfold fits, lenN; rewrite L; unfold two31; lia).
  split; [|rewrite buf_pos_bk; auto].
  pose proof (bk_reachable _ F) as R. unfold lenN in R. rewrite L in R. exact R.
Qed.

Lemma req_bytes_hdr q : req_bytes q =
  hdr_bytes (rq_type q) (rq_src q) (rq_dst q) (rq_term q) (rq_last_term q) (rq_last_idx q) (rq_commit q)
    (Z.of_N (lenN (evs_bytes (rq_entries q)))) ++ evs_bytes (rq_entries q).
Proof. unfold req_bytes, hdr_bytes. rewrite <- !app_assoc. reflexivity. Qed.

Lemma session_step_req junk hdr log q rest :
  idle hdr -> req_ok q -> lenN (evs_bytes (rq_entries q)) <= 16777216 ->
  exists q' hdr' log', session_step junk hdr log (req_bytes q ++ rest) = SReq q' hdr' log' rest /\
    idle hdr' /\ req_is q q'.
Proof.
  intros I (H1 & H2 & H3 & H4 & H5 & H6 & H7) L. destruct (idle_bk _ I) as (h & Lh & ->).
  rewrite req_bytes_hdr. set (D := evs_bytes (rq_entries q)) in *.
  rewrite <- app_assoc.
  rewrite session_step_spec by (auto; unfold is_int32; lia).
  replace ((Z.of_N (lenN D) <? 0) || (16777216 <? Z.of_N (lenN D)))%Z%bool with false by lia.
  destruct (Z.eqb_spec (Z.of_N (lenN D)) 0) as [E0|N0].
  - assert (ED : D = []) by (destruct D; auto; rewrite lenN_cons in E0; lia).
    assert (EE : rq_entries q = []).
    { unfold D in ED. destruct (rq_entries q) as [|v vs]; auto. exfalso.
      apply (f_equal lenN) in ED. unfold evs_bytes in ED. cbn [map concat] in ED.
      rewrite lenN_app, ev_bytes_len, lenN_nil in ED. lia. }
    rewrite ED. cbn [app]. do 3 eexists. split; [reflexivity|].
    split; [apply bk_idle, hdr_bytes_len|].
    unfold req_is. rewrite EE. cbn. repeat (split; [reflexivity|]). constructor.
  - rewrite app_length. replace (Z.to_nat (Z.of_N (lenN D))) with (length D) by (unfold lenN; lia).
    destruct (Nat.ltb_spec (length D + length rest) (length D)); [lia|].
    rewrite firstn_app_exact, skipn_app_exact by reflexivity. cbv zeta.
    assert (P : parse (S (length D)) D = Ok (rq_entries q)).
    { apply parse_evs; auto; [fold D; unfold two31; lia|].
      pose proof (evs_count (rq_entries q)) as C. fold D in C. lia. }
    rewrite P. do 3 eexists. split; [reflexivity|]. split; [apply bk_idle, hdr_bytes_len|].
    unfold req_is. cbn. repeat (split; [reflexivity|]). apply raw_of_all. fold D. unfold two31. lia.
Qed.

Lemma session_run_reqs junk qs : forall n hdr log rest,
  idle hdr -> Forall req_ok qs -> Forall (fun q => lenN (evs_bytes (rq_entries q)) <= 16777216) qs ->
  (length qs <= n)%nat ->
  exists qs' hdr' log',
    session_run junk n hdr log (concat (map req_bytes qs) ++ rest) =
    (let '(l, s) := session_run junk (n - length qs) hdr' log' rest in (qs' ++ l, s)) /\
    idle hdr' /\ Forall2 req_is qs qs'.
Proof.
  induction qs as [|q qs IH]; intros n hdr log rest I H1 H2 Hn.
  - exists [], hdr, log. cbn [length map concat app]. rewrite Nat.sub_0_r. split; [|split; [auto|constructor]].
    destruct (session_run junk n hdr log rest); reflexivity.
  - inversion H1; subst. inversion H2; subst. cbn [length] in Hn. destruct n as [|n]; [lia|].
    cbn [map concat]. rewrite <- app_assoc.
    destruct (session_step_req junk hdr log q (concat (map req_bytes qs) ++ rest) I) as (q' & h' & l' & E & I' & R); auto.
    destruct (IH n h' l' rest I') as (qs' & h2 & l2 & E2 & I2 & R2); auto; [lia|].
    exists (q' :: qs'), h2, l2. split; [|split; [auto|constructor; auto]].
    cbn [session_run]. rewrite E, E2. cbn [length Nat.sub].
    destruct (session_run junk (n - length qs) h2 l2 rest). reflexivity.
Qed.

(** what UB of the decoder means *)
Lemma parse_ub fuel : forall r u, parse fuel r = UB u -> overrun r.
Proof.
  induction fuel as [|fuel IH]; intros r u; cbn [parse].
  - destruct r; discriminate.
  - destruct r as [|b r]; [discriminate|]. set (x := b :: r). clearbody x.
    destruct (Nat.ltb_spec (length x) 8); [discriminate|].
    destruct (Nat.ltb_spec (length x) 9); [discriminate|].
    destruct (Nat.ltb_spec (length x) 13) as [|L]; [discriminate|].
    set (z := int32_of_bytes (firstn 4 (skipn 9 x))).
    assert (Lz : length (firstn 4 (skipn 9 x)) = 4%nat) by (rewrite firstn_length, skipn_length; lia).
    destruct (int_b_of _ Lz) as [Ez Iz]. fold z in Ez, Iz.
    assert (EX : x = le 8 (of_le (firstn 8 x)) ++ [hd x00 (skipn 8 x)] ++ int_b z ++ skipn 13 x).
    { rewrite Ez. rewrite <- (firstn_skipn 8 x) at 1. f_equal.
      - assert (L8 : length (firstn 8 x) = 8%nat) by (rewrite firstn_length; lia).
        rewrite <- L8 at 2. symmetry. apply le_of_le.
      - assert (E1 : skipn 8 x = [hd x00 (skipn 8 x)] ++ skipn 9 x).
        { change 9%nat with (8 + 1)%nat. rewrite <- skipn_skipn.
          assert (L1 : (1 <= length (skipn 8 x))%nat) by (rewrite skipn_length; lia).
          destruct (skipn 8 x); [cbn in L1; lia|reflexivity]. }
        rewrite E1 at 1. f_equal. rewrite <- (firstn_skipn 4 (skipn 9 x)) at 1.
        rewrite skipn_skipn. reflexivity. }
    assert (UT : is_ulong (of_le (firstn 8 x))).
    { pose proof (of_le_lt (firstn 8 x)) as B. replace (length (firstn 8 x)) with 8%nat in B by (rewrite firstn_length; lia). exact B. }
    destruct (Z.ltb_spec z 0) as [|Pz]; [discriminate|].
    destruct (Nat.ltb_spec (length (skipn 13 x)) (Z.to_nat z)) as [Lo|Go].
    + intros _. rewrite EX. apply ov_here; auto. unfold lenN. unfold is_int32 in Iz. lia.
    + destruct (parse fuel (skipn (Z.to_nat z) (skipn 13 x))) eqn:P; try discriminate. intros _.
      pose proof (IH _ _ P) as O.
      rewrite EX.
      pose proof (ov_later (mkEV (of_le (firstn 8 x)) (hd x00 (skipn 8 x)) (firstn (Z.to_nat z) (skipn 13 x))) _ UT O) as Q.
      unfold ev_bytes in Q. cbn [ev_term ev_type ev_data] in Q. rewrite <- !app_assoc in Q.
      rewrite firstn_skipn in Q. rewrite firstn_length in Q.
      replace (Z.of_nat (Nat.min (Z.to_nat z) (length (skipn 13 x)))) with z in Q by lia. exact Q.
Qed.

Lemma overrun_parse r : overrun r -> lenN r < two31 -> forall fuel, (length r <= fuel)%nat -> parse fuel r = UB OutOfBoundsRead.
Proof.
  induction 1 as [term t size r Ht Hs | v r Hv O IH]; intros L fuel Hf.
  - destruct fuel as [|fuel]; [rewrite app_length, le_length in Hf; lia|].
    rewrite parse_hdr by (auto; unfold is_int32; lia).
    destruct (Z.ltb_spec size 0); [lia|].
    destruct (Nat.ltb_spec (length r) (Z.to_nat size)); [reflexivity|unfold lenN in Hs; lia].
  - rewrite lenN_app, ev_bytes_len in L.
    rewrite app_length in Hf. pose proof (ev_bytes_len v) as EL. unfold lenN in EL.
    destruct fuel as [|fuel]; [lia|].
    unfold ev_bytes. rewrite <- !app_assoc.
    rewrite parse_hdr by (auto; unfold is_int32; unfold lenN, two31 in *; lia).
    destruct (Z.ltb_spec (Z.of_nat (length (ev_data v))) 0); [lia|].
    rewrite Nat2Z.id, app_length.
    destruct (Nat.ltb_spec (length (ev_data v) + length r) (length (ev_data v))); [lia|].
    rewrite skipn_app_exact by reflexivity. rewrite IH by lia. reflexivity.
Qed.

(** the log data the session will decode from a stream, if it gets that far *)
Definition announced (stream : list byte) : Z := int32_of_bytes (firstn 4 (skipn 41 stream)).

Lemma announced_hdr t src dst term lt li c sz r : is_int32 sz ->
  announced (hdr_bytes t src dst term lt li c sz ++ r) = sz.
Proof.
  intros H. unfold announced, hdr_bytes.
  replace (([t] ++ int_b src ++ int_b dst ++ le 8 term ++ le 8 lt ++ le 8 li ++ le 8 c ++ int_b sz) ++ r)
    with (([t] ++ int_b src ++ int_b dst ++ le 8 term ++ le 8 lt ++ le 8 li ++ le 8 c) ++ int_b sz ++ r)
    by (rewrite <- !app_assoc; reflexivity).
  rewrite skipn_app_exact by (rewrite !app_length, !le_length, !int_b_len; reflexivity).
  rewrite firstn_app_exact by apply int_b_len. unfold int_b. apply int32_of_le, H.
Qed.

Lemma session_ub_iff junk hdr log stream :
  idle hdr ->
  ((exists u, session_step junk hdr log stream = SUB u) <->
   (45 <= length stream)%nat /\ (0 < announced stream <= 16777216)%Z /\
   (Z.to_nat (announced stream) <= length (skipn 45 stream))%nat /\
   overrun (firstn (Z.to_nat (announced stream)) (skipn 45 stream))).
Proof.
  intros I. destruct (idle_bk _ I) as (h & Lh & ->).
  destruct (Nat.leb_spec 45 (length stream)) as [L|G].
  2:{ split; [intros [u E]|lia]. unfold session_step in E.
      destruct (N.ltb_spec (lenN stream) RPC_REQ_HEADER_SIZE) as [|C]; [discriminate|].
      unfold lenN, RPC_REQ_HEADER_SIZE in C. lia. }
  destruct (hdr_surj (firstn 45 stream)) as (t & src & dst & term & lt & li & c & sz & E & H1 & H2 & H3 & H4 & H5 & H6 & H7);
    [rewrite firstn_length; lia|].
  assert (ES : stream = hdr_bytes t src dst term lt li c sz ++ skipn 45 stream).
  { rewrite <- E, firstn_skipn. reflexivity. }
  set (rest := skipn 45 stream) in *. clearbody rest.
  assert (EA : announced stream = sz) by (rewrite ES; apply announced_hdr; auto).
  rewrite EA. rewrite ES. rewrite session_step_spec by auto.
  destruct ((sz <? 0) || (16777216 <? sz))%Z%bool eqn:B.
  { split; [intros [u X]; discriminate|]. intros (_ & X & _). lia. }
  destruct (Z.eqb_spec sz 0) as [E0|N0].
  { split; [intros [u X]; discriminate|]. intros (_ & X & _). lia. }
  destruct (Nat.ltb_spec (length rest) (Z.to_nat sz)) as [Lr|Gr].
  { split; [intros [u X]; discriminate|]. intros (_ & _ & X & _). lia. }
  cbv zeta. set (data := firstn (Z.to_nat sz) rest).
  assert (Ld : length data = Z.to_nat sz) by (unfold data; rewrite firstn_length; lia).
  split.
  - intros [u X]. destruct (parse (S (length data)) data) eqn:P; try discriminate.
    apply parse_ub in P. repeat split; auto; try lia. rewrite app_length, hdr_bytes_len. lia.
  - intros (_ & _ & _ & O). rewrite (overrun_parse _ O); [eexists; reflexivity| |lia].
    unfold lenN. rewrite Ld. unfold two31. lia.
Qed.

(** any entry that makes the log data exceed 16 MiB closes the session *)
Lemma session_too_big junk hdr log q rest :
  idle hdr -> req_ok q -> 16777216 < lenN (evs_bytes (rq_entries q)) -> lenN (evs_bytes (rq_entries q)) < two31 ->
  session_step junk hdr log (req_bytes q ++ rest) = SStop.
Proof.
  intros I (H1 & H2 & H3 & H4 & H5 & H6 & H7) L U. destruct (idle_bk _ I) as (h & Lh & ->).
  rewrite req_bytes_hdr, <- app_assoc.
  rewrite session_step_spec by (auto; unfold is_int32, two31 in *; lia).
  replace ((Z.of_N (lenN (evs_bytes (rq_entries q))) <? 0) ||
           (16777216 <? Z.of_N (lenN (evs_bytes (rq_entries q)))))%Z%bool with true by lia.
  reflexivity.
Qed.
