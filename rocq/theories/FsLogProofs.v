(** * The file log store refines the indexed log *)

From Verif Require Import Base Codec CodecSpec CodecProofs Msg FsLogStore FsLogSpec.
Local Open Scope N_scope.
Local Open Scope sm_scope.

Lemma sbind_ok {A B} (m : SM A) (f : A -> SM B) s a s' : m s = (Ok a, s') -> sbind m f s = f a s'.
Proof. unfold sbind. intros ->. reflexivity. Qed.

(** ** Sizes and offsets *)
Lemma lenN_map {A B} (f : A -> B) l : lenN (map f l) = lenN l.
Proof. unfold lenN. rewrite map_length. reflexivity. Qed.
Lemma lenN_enc e : lenN (enc e) = esize e.
Proof. unfold enc, entry_bytes, esize. rewrite !lenN_app, lenN_le. change (lenN [ev_type e]) with 1. lia. Qed.
Lemma length_enc e : length (enc e) = N.to_nat (esize e).
Proof. pose proof (lenN_enc e). unfold lenN in H. lia. Qed.
Lemma encs_cons e es : encs (e :: es) = enc e ++ encs es.
Proof. reflexivity. Qed.
Lemma encs_app a b : encs (a ++ b) = encs a ++ encs b.
Proof. unfold encs. rewrite map_app, concat_app. reflexivity. Qed.
Lemma lenN_encs es : lenN (encs es) = dsize es.
Proof. induction es; [reflexivity|]. rewrite encs_cons, lenN_app, lenN_enc, IHes. reflexivity. Qed.
Lemma length_encs es : length (encs es) = N.to_nat (dsize es).
Proof. pose proof (lenN_encs es). unfold lenN in H. lia. Qed.
Lemma dsize_app a b : dsize (a ++ b) = dsize a + dsize b.
Proof. induction a; cbn [app dsize]; lia. Qed.
Lemma offs_app b x y : offs b (x ++ y) = offs b x ++ offs (b + dsize x) y.
Proof.
  revert b; induction x as [|e x IH]; intros b; cbn [app offs dsize].
  - rewrite N.add_0_r. reflexivity.
  - rewrite IH, <- app_assoc. do 3 f_equal. lia.
Qed.
Lemma lenN_offs b es : lenN (offs b es) = 8 * lenN es.
Proof.
  revert b; induction es as [|e es IH]; intros b; cbn [offs]; [reflexivity|].
  rewrite lenN_app, lenN_le, IH, lenN_cons. lia.
Qed.
Lemma length_offs b es : length (offs b es) = (8 * length es)%nat.
Proof. pose proof (lenN_offs b es). unfold lenN in H. lia. Qed.

Lemma dsize_bound es : Forall entry_ok es -> dsize es <= lenN es * two31.
Proof.
  unfold two31. induction 1 as [|e es H HF IH]; cbn [dsize]; [lia|].
  rewrite lenN_cons. destruct H as [_ H]. unfold two31 in H. lia.
Qed.
Lemma dsize_small l : small l -> dsize (al_ents l) < 576460752303423488.
Proof. intros (_ & _ & H & F). apply dsize_bound in F. unfold two31 in F. lia. Qed.
Lemma esize_ge e : 9 <= esize e.
Proof. unfold esize. lia. Qed.

Lemma enc_ok e : entry_ok e -> enc_entry e = Ok (enc e).
Proof.
  intros [_ H]. unfold enc_entry. unfold esize in H.
  destruct (N.leb_spec two31 (9 + lenN (ev_data e))); [lia|reflexivity].
Qed.
Lemma dec_enc e : entry_ok e -> dec_entry (enc e) = Ok e.
Proof.
  intros [H _]. unfold dec_entry. rewrite lenN_enc. pose proof (esize_ge e).
  destruct (N.ltb_spec (esize e) 9); [lia|].
  unfold enc, entry_bytes. rewrite (app_assoc (le 8 _)).
  rewrite (skipn_app_exact (le 8 (ev_term e) ++ [ev_type e]) (ev_data e) 9) by (rewrite app_length, le_length; reflexivity).
  rewrite <- app_assoc. rewrite firstn_app_exact by apply le_length.
  rewrite skipn_app_exact by apply le_length.
  rewrite of_le_le8 by exact H. destruct e; reflexivity.
Qed.

(** ** Splitting a log at an index *)
Lemma split_nth {A} (es : list A) (k : nat) : (k < length es)%nat ->
  exists x e y, es = x ++ e :: y /\ length x = k.
Proof.
  intros H. destruct (nth_error es k) as [e|] eqn:E; [|apply nth_error_None in E; lia].
  destruct (nth_error_split _ _ E) as (x & y & -> & L). eauto.
Qed.

(** ** Files *)
Lemma f_read_at a b c p n : p = lenN a -> n = lenN b ->
  f_read n (mkFile (a ++ b ++ c) p false) = (Ok b, mkFile (a ++ b ++ c) (p + n) false).
Proof.
  intros -> ->. unfold f_read. cbn [f_fail f_pos f_data]. rewrite !lenN_app.
  destruct (N.leb_spec (lenN a + lenN b) (lenN a + (lenN b + lenN c))); [|lia].
  unfold lenN. rewrite !Nat2N.id. rewrite skipn_app_exact, firstn_app_exact by reflexivity. reflexivity.
Qed.

Definition mk f g st n s c b := mkStore f g st n s c b.

Lemma read_idx_at a v rest p g st n s c b : p = lenN a -> is_ulong v ->
  read_idx_ulong (mkStore (mkFile (a ++ le 8 v ++ rest) p false) g st n s c b) =
  (Ok v, mkStore (mkFile (a ++ le 8 v ++ rest) (p + 8) false) g st n s c b).
Proof.
  intros Hp Hv. unfold read_idx_ulong, sbind, on_idx. cbn [s_idx].
  rewrite f_read_at by (auto; rewrite lenN_le; reflexivity).
  unfold set_idx, sret. cbn [s_idx s_dat s_sti s_entries s_start s_cache s_buf_size].
  rewrite of_le_le8 by auto. reflexivity.
Qed.

Lemma read_dat_at a bs rest p m f st n s c b : p = lenN a -> m = lenN bs -> m < two31 ->
  read_dat m (mkStore f (mkFile (a ++ bs ++ rest) p false) st n s c b) =
  (Ok bs, mkStore f (mkFile (a ++ bs ++ rest) (p + m) false) st n s c b).
Proof.
  intros Hp Hm Hlt. unfold read_dat, sbind, slift, can_alloc, on_dat.
  destruct (N.leb_spec two31 m); [lia|]. cbn [s_dat].
  rewrite f_read_at by auto. reflexivity.
Qed.

Lemma write_end d p bs : p = lenN d -> write_bytes d p bs = d ++ bs.
Proof.
  intros ->. unfold write_bytes. destruct bs as [|x bs]; [rewrite app_nil_r; reflexivity|].
  unfold lenN. rewrite Nat2N.id, Nat.sub_diag. cbn [repeat]. rewrite app_nil_r, firstn_all.
  rewrite skipn_all2 by (cbn [length]; lia). rewrite app_nil_r. reflexivity.
Qed.
Lemma write_mid a b bs p : p = lenN a -> bs <> [] ->
  write_bytes (a ++ b) p bs = a ++ bs ++ skipn (length bs) b.
Proof.
  intros -> H. unfold write_bytes. destruct bs as [|x bs]; [congruence|].
  unfold lenN. rewrite Nat2N.id.
  replace (length a - length (a ++ b))%nat with 0%nat by (rewrite app_length; lia).
  cbn [repeat]. rewrite app_nil_r, firstn_app_exact by reflexivity.
  rewrite skipn_app_ge by lia. do 3 f_equal. lia.
Qed.

Lemma f_seek_ok off d p : off < 9223372036854775808 -> f_seek off (mkFile d p false) = mkFile d off false.
Proof. intros H. unfold f_seek. cbn [f_fail f_data]. destruct (N.leb_spec 9223372036854775808 off); [lia|reflexivity]. Qed.

Lemma wadd_small a b : a + b < two64 -> wadd a b = a + b.
Proof. intros. unfold wadd, w64. apply N.mod_small; auto. Qed.
Lemma wmul_small a b : a * b < two64 -> wmul a b = a * b.
Proof. intros. unfold wmul, w64. apply N.mod_small; auto. Qed.
Lemma wsub_small a b : b <= a -> a < two64 -> wsub a b = a - b.
Proof. intros. apply wsub_le; auto. Qed.
Lemma int_small n : n < two31 -> int_of_ulong n = Z.of_N n.
Proof. intros. unfold int_of_ulong. apply to_int32_id. unfold is_int32, two31 in *. lia. Qed.
Lemma ulong_small z : (0 <= z < 9223372036854775808)%Z -> ulong_of_Z z = Z.to_N z.
Proof. intros. unfold ulong_of_Z. rewrite Z.mod_small by lia. reflexivity. Qed.

(** ** The invariant *)
Record R (s : store) (l : alog) : Prop := mkR {
  R_idx : f_data (s_idx s) = offs 0 (al_ents l);
  R_dat : f_data (s_dat s) = encs (al_ents l);
  R_sti : f_data (s_sti s) = le 8 (al_start l);
  R_idx_ok : f_fail (s_idx s) = false;
  R_dat_ok : f_fail (s_dat s) = false;
  R_sti_ok : f_fail (s_sti s) = false;
  R_entries : s_entries s = lenN (al_ents l);
  R_start : s_start s = al_start l;
  R_small : small l;
  R_c_lo : al_start l <= c_start (s_cache s);
  R_c_hi : c_start (s_cache s) <= a_next l;
  R_c_buf : c_buf (s_cache s) = skipn (N.to_nat (c_start (s_cache s) - al_start l)) (al_ents l);
  R_c_len : lenN (c_buf (s_cache s)) <= c_max (s_cache s);
  R_c_max : c_max (s_cache s) = s_buf_size s;
  R_c_ge1 : 1 <= s_buf_size s;
  R_c_nonempty : al_ents l <> [] -> c_start (s_cache s) < a_next l }.

(** *** fill_buffer *)
Lemma c_append_room c e : lenN (c_buf c) < c_max c ->
  c_append c e = mkCache (c_start c) (c_buf c ++ [e]) (c_max c).
Proof.
  intros H. unfold c_append. rewrite lenN_app. change (lenN [e]) with 1.
  destruct (N.ltb_spec (c_max c) (lenN (c_buf c) + 1)); [lia|reflexivity].
Qed.

(** The loop, from the point where the data offset of entry [e] is known. *)
Lemma fill_loop_ok es : forall fuel (pre : list byte) e buf f st n s cs mx b pos,
  Forall entry_ok (e :: es) ->
  lenN pre + dsize (e :: es) < 9223372036854775808 ->
  lenN buf + lenN (e :: es) <= mx ->
  (8 * length es <= fuel)%nat ->
  pos = lenN pre ->
  exists x last,
    e :: es = x ++ [last] /\
    fill_loop fuel (offs (lenN pre + esize e) es) (lenN pre)
      (mkStore f (mkFile (pre ++ encs (e :: es)) pos false) st n s (mkCache cs buf mx) b) =
    (Ok (lenN pre + dsize x),
     mkStore f (mkFile (pre ++ encs (e :: es)) (lenN pre + dsize x) false) st n s (mkCache cs (buf ++ x) mx) b).
Proof.
  induction es as [|e' es IH]; intros fuel pre e buf f st n s cs mx b pos F B M Fu ->.
  - exists [], e. split; [reflexivity|]. cbn [offs].
    destruct fuel; cbn [fill_loop]; unfold sret; rewrite app_nil_r; cbn [dsize]; rewrite N.add_0_r; reflexivity.
  - inversion F as [|? ? He F']; subst.
    pose proof (esize_ge e') as G. cbn [dsize] in B. rewrite !lenN_cons in M.
    destruct fuel as [|fuel]; [cbn [length] in Fu; lia|].
    assert (Hl: lenN (pre ++ enc e) = lenN pre + esize e) by (rewrite lenN_app, lenN_enc; reflexivity).
    specialize (IH fuel (pre ++ enc e) e' (buf ++ [e]) f st n s cs mx b (lenN pre + esize e)).
    rewrite Hl in IH.
    destruct IH as (x & last & E & IH); auto.
    { cbn [dsize]. lia. }
    { rewrite lenN_app, !lenN_cons, lenN_nil. lia. }
    { cbn [length] in Fu. lia. }
    exists (e :: x), last. split; [rewrite E; reflexivity|].
    cbn [fill_loop].
    assert (O: offs (lenN pre + esize e) (e' :: es) = le 8 (lenN pre + esize e) ++ offs (lenN pre + esize e + esize e') es) by reflexivity.
    rewrite O.
    assert (NE: exists b0 r0, le 8 (lenN pre + esize e) ++ offs (lenN pre + esize e + esize e') es = b0 :: r0).
    { cbn [le app]. eauto. }
    destruct NE as (b0 & r0 & NE).
    transitivity ((if lenN (le 8 (lenN pre + esize e) ++ offs (lenN pre + esize e + esize e') es) <? 8 then sfail OverflowError
      else let data_end := of_le (firstn 8 (le 8 (lenN pre + esize e) ++ offs (lenN pre + esize e + esize e') es)) in
        bs <- read_dat (wsub data_end (lenN pre)) ;;
        e0 <- slift (dec_entry bs) ;;
        cache_do (fun c => c_append c e0) ;;;
        fill_loop fuel (skipn 8 (le 8 (lenN pre + esize e) ++ offs (lenN pre + esize e + esize e') es)) data_end)
       (mkStore f (mkFile (pre ++ encs (e :: e' :: es)) (lenN pre) false) st n s (mkCache cs buf mx) b)).
    { rewrite NE. reflexivity. }
    rewrite lenN_app, lenN_le. destruct (N.ltb_spec (N.of_nat 8 + lenN (offs (lenN pre + esize e + esize e') es)) 8); [lia|].
    rewrite firstn_app_exact by apply le_length. rewrite skipn_app_exact by apply le_length.
    rewrite of_le_le8 by (unfold is_ulong, two64; lia). cbv zeta.
    rewrite wsub_small by (unfold two64; lia).
    rewrite (encs_cons e).
    destruct He as [He1 He2].
    erewrite sbind_ok by (apply read_dat_at; [reflexivity|rewrite lenN_enc; lia|lia]).
    rewrite dec_enc by (split; auto).
    erewrite sbind_ok by reflexivity.
    unfold sbind at 1, cache_do, smod, set_cache. cbn [s_idx s_dat s_sti s_entries s_start s_cache s_buf_size].
    rewrite c_append_room by (cbn [c_buf c_max]; lia). cbn [c_start c_buf c_max].
    replace (lenN pre + (lenN pre + esize e - lenN pre)) with (lenN pre + esize e) by lia.
    rewrite (app_assoc pre). rewrite IH. cbn [dsize]. rewrite <- (app_assoc buf). cbn [app].
    rewrite <- !N.add_assoc. reflexivity.
Qed.

(** Entries from [x] on are loaded when the cache is empty and starts there. *)
Lemma fill_buffer_ok x y sti n s mx b ip dp ib db :
  ib = false -> db = false ->
  Forall entry_ok (x ++ y) -> lenN (x ++ y) < 268435456 -> s + lenN (x ++ y) < 1152921504606846976 ->
  (y = [] -> x = []) -> lenN y <= mx ->
  exists ip' dp',
    fill_buffer (mkStore (mkFile (offs 0 (x ++ y)) ip ib) (mkFile (encs (x ++ y)) dp db) sti n s
                   (mkCache (s + lenN x) [] mx) b) =
    (Ok tt, mkStore (mkFile (offs 0 (x ++ y)) ip' false) (mkFile (encs (x ++ y)) dp' false) sti n s
                   (mkCache (s + lenN x) y mx) b).
Proof.
  intros -> -> F L SL NE M.
  pose proof (dsize_bound _ F) as DB. unfold two31 in DB.
  unfold fill_buffer.
  erewrite sbind_ok by reflexivity. cbn [c_start s_cache].
  do 5 (erewrite sbind_ok by reflexivity).
  unfold set_idx, set_dat, f_seek_end. cbn [s_idx s_dat s_sti s_entries s_start s_cache s_buf_size f_fail f_data f_tell f_pos].
  unfold f_tell. cbn [f_fail f_pos].
  rewrite lenN_offs, lenN_encs.
  destruct y as [|e y].
  { rewrite (NE eq_refl). cbn [app offs encs map concat lenN length].
    change (8 * N.of_nat 0) with 0. cbn [N.ltb N.compare andb]. unfold sret. eauto. }
  rewrite lenN_app, lenN_cons in *. rewrite dsize_app in *.
  destruct (N.ltb_spec 0 (8 * (lenN x + (1 + lenN y)))) as [_|]; [|lia]. cbn [andb negb].
  erewrite sbind_ok by reflexivity. cbn [s_start].
  rewrite (wsub_small (s + lenN x) s) by (unfold two64; lia).
  replace (s + lenN x - s) with (lenN x) by lia.
  rewrite wmul_small by (unfold two64; lia).
  unfold sbind at 1, idx_do at 1, smod, set_idx. cbn [s_idx s_dat s_sti s_entries s_start s_cache s_buf_size].
  rewrite f_seek_ok by lia.
  rewrite wsub_small by (unfold two64; lia).
  unfold can_alloc. destruct (N.leb_spec two31 (8 * (lenN x + (1 + lenN y)) - lenN x * 8)) as [HH|_]; [unfold two31 in HH; lia|].
  erewrite sbind_ok by reflexivity.
  rewrite offs_app, N.add_0_l.
  set (OX := offs 0 x). set (OY := offs (dsize x) (e :: y)).
  assert (RI: forall g st' n' s' c' b', on_idx (f_read (8 * (lenN x + (1 + lenN y)) - lenN x * 8))
     (mkStore (mkFile (OX ++ OY) (lenN x * 8) false) g st' n' s' c' b') =
     (Ok OY, mkStore (mkFile (OX ++ OY) (lenN x * 8 + (8 * (lenN x + (1 + lenN y)) - lenN x * 8)) false) g st' n' s' c' b')).
  { intros. unfold on_idx. cbn [s_idx]. pose proof (f_read_at OX OY [] (lenN x * 8) (8 * (lenN x + (1 + lenN y)) - lenN x * 8)) as FR.
    rewrite !app_nil_r in FR. rewrite FR.
    - reflexivity.
    - unfold OX. rewrite lenN_offs. lia.
    - unfold OY. rewrite lenN_offs, lenN_cons. lia. }
  erewrite sbind_ok by apply RI.
  assert (LOY: lenN OY = 8 * (1 + lenN y)) by (unfold OY; rewrite lenN_offs, lenN_cons; lia).
  destruct (N.ltb_spec (lenN OY) 8) as [|_]; [lia|].
  assert (OYE: OY = le 8 (dsize x) ++ offs (dsize x + esize e) y) by reflexivity.
  cbn [dsize] in DB.
  assert (F8: of_le (firstn 8 OY) = dsize x).
  { rewrite OYE, firstn_app_exact by apply le_length. apply of_le_le8. unfold is_ulong, two64; lia. }
  assert (S8: skipn 8 OY = offs (dsize x + esize e) y).
  { rewrite OYE, skipn_app_exact by apply le_length. reflexivity. }
  cbv zeta. rewrite F8, S8.
  unfold sbind at 1, dat_do, smod, set_dat. cbn [s_idx s_dat s_sti s_entries s_start s_cache s_buf_size].
  rewrite f_seek_ok by lia.
  rewrite encs_app.
  destruct (fill_loop_ok y (length OY) (encs x) e [] (mkFile (OX ++ OY) (lenN x * 8 + (8 * (lenN x + (1 + lenN y)) - lenN x * 8)) false)
              sti n s (s + lenN x) mx b (dsize x)) as (z & la & E & FL).
  { apply Forall_app in F. tauto. }
  { rewrite lenN_encs. cbn [dsize]. lia. }
  { rewrite lenN_nil, lenN_cons. lia. }
  { unfold lenN in LOY. lia. }
  { rewrite lenN_encs. reflexivity. }
  rewrite lenN_encs in FL.
  erewrite sbind_ok by exact FL.
  assert (D: dsize (e :: y) = dsize z + esize la) by (rewrite E, dsize_app; cbn [dsize]; lia).
  assert (Ela: entry_ok la).
  { apply Forall_app in F. destruct F as [_ F]. rewrite E in F. apply Forall_app in F. destruct F as [_ F]. inversion F; auto. }
  destruct Ela as [Ela1 Ela2].
  rewrite E, encs_app. unfold encs at 3. cbn [map concat].
  replace (dsize (z ++ [la])) with (dsize z + esize la) by (rewrite <- E; lia).
  cbn [dsize] in D.
  rewrite wsub_small by (unfold two64; lia).
  replace (dsize x + (dsize z + esize la) - (dsize x + dsize z)) with (esize la) by lia.
  rewrite (app_assoc (encs x)).
  erewrite sbind_ok by (apply read_dat_at; [rewrite lenN_app, !lenN_encs; reflexivity|rewrite lenN_enc; reflexivity|exact Ela2]).
  rewrite dec_enc by (split; auto).
  erewrite sbind_ok by reflexivity.
  unfold cache_do, smod, set_cache. cbn [s_idx s_dat s_sti s_entries s_start s_cache s_buf_size].
  rewrite c_append_room.
  2:{ cbn [c_buf c_max app]. assert (lenN (e :: y) = lenN z + 1) by (rewrite E, lenN_app; reflexivity).
      rewrite lenN_cons in H. lia. }
  cbn [c_start c_buf c_max]. eexists _, _. f_equal. f_equal. rewrite <- app_assoc. reflexivity.
Qed.
