(** * Each store operation refines the indexed log *)

From Verif Require Import Base Codec CodecSpec CodecProofs Msg FsLogStore FsLogSpec FsLogProofs.
Local Open Scope N_scope.
Local Open Scope sm_scope.

Ltac sfields := cbn [s_idx s_dat s_sti s_entries s_start s_cache s_buf_size f_data f_pos f_fail
                     c_start c_buf c_max al_start al_ents] in *.

Lemma firstn_len_le {A} n (l : list A) : (length l <= n)%nat -> firstn n l = l.
Proof. apply firstn_all2. Qed.

(** the explicit form of a store satisfying the invariant *)
Lemma R_explicit s l : R s l ->
  exists x y ip dp sp,
    al_ents l = x ++ y /\ (y = [] -> x = []) /\
    s = mkStore (mkFile (offs 0 (x ++ y)) ip false) (mkFile (encs (x ++ y)) dp false)
          (mkFile (le 8 (al_start l)) sp false) (lenN (x ++ y)) (al_start l)
          (mkCache (al_start l + lenN x) y (s_buf_size s)) (s_buf_size s) /\
    lenN y <= s_buf_size s /\ 1 <= s_buf_size s.
Proof.
  intros [H1 H2 H3 H4 H5 H6 H7 H8 H9 H10 H11 H12 H13 H14 H15 H16].
  destruct s as [[id ip ib] [dd dp db] [sd sp sb] n st [cs cb cm] b], l as [ls le0].
  sfields. subst.
  set (k := N.to_nat (cs - ls)) in *.
  assert (Hk: (k <= length le0)%nat) by (unfold a_next, lenN in *; sfields; unfold k; lia).
  exists (firstn k le0), (skipn k le0), ip, dp, sp.
  rewrite firstn_skipn.
  assert (HL: lenN (firstn k le0) = N.of_nat k).
  { unfold lenN. rewrite firstn_length. lia. }
  split; [reflexivity|]. split.
  { intros E. destruct le0 as [|e0 le0]; [destruct k; reflexivity|].
    assert (length (skipn k (e0 :: le0)) = 0%nat) by (rewrite E; reflexivity).
    rewrite skipn_length in H. specialize (H16 ltac:(discriminate)). unfold a_next, lenN in H16. sfields.
    unfold k in *. lia. }
  rewrite HL. split; [|split; auto].
  f_equal. f_equal. unfold k. lia.
Qed.

Lemma R_mk x y st ip dp sp b l :
  al_ents l = x ++ y -> al_start l = st -> (y = [] -> x = []) -> lenN y <= b -> 1 <= b -> small l ->
  R (mkStore (mkFile (offs 0 (x ++ y)) ip false) (mkFile (encs (x ++ y)) dp false)
          (mkFile (le 8 st) sp false) (lenN (x ++ y)) st
          (mkCache (st + lenN x) y b) b) l.
Proof.
  intros E <- NE Hy Hb Sm. constructor; sfields; auto; rewrite ?E; auto.
  - lia.
  - unfold a_next. rewrite E, lenN_app. lia.
  - replace (N.to_nat (al_start l + lenN x - al_start l)) with (length x) by (unfold lenN; lia).
    rewrite skipn_app_exact; reflexivity.
  - intros HH. unfold a_next. rewrite E, lenN_app. destruct y as [|e y]; [exfalso; apply HH; rewrite NE by auto; reflexivity|].
    rewrite lenN_cons. lia.
Qed.

(** ** append *)
Lemma c_append_cases c e : 1 <= c_max c -> lenN (c_buf c) <= c_max c ->
  c_start c + lenN (c_buf c) < 1152921504606846976 ->
  exists p q, c_buf c = p ++ q /\
    c_append c e = mkCache (c_start c + lenN p) (q ++ [e]) (c_max c) /\ lenN (q ++ [e]) <= c_max c.
Proof.
  intros H1 H2 H3. unfold c_append. rewrite lenN_app. change (lenN [e]) with 1.
  destruct (N.ltb_spec (c_max c) (lenN (c_buf c) + 1)).
  - destruct (c_buf c) as [|h t]; [rewrite lenN_nil in *; lia|]. exists [h], t. rewrite lenN_cons in *. cbn [app tl].
    rewrite wadd_small by (unfold two64; lia). change (lenN [h]) with 1. repeat split.
    rewrite lenN_app. change (lenN [e]) with 1. lia.
  - exists [], (c_buf c). rewrite lenN_app. change (lenN [e]) with 1. rewrite lenN_nil, N.add_0_r. repeat split; auto; lia.
Qed.

(** ending in a state whose cache got one more entry *)
Lemma R_append_cache x y e st ip dp sp b l :
  al_start l = st -> al_ents l = (x ++ y) ++ [e] -> small l -> lenN y <= b -> 1 <= b ->
  R (mkStore (mkFile (offs 0 ((x ++ y) ++ [e])) ip false) (mkFile (encs ((x ++ y) ++ [e])) dp false)
          (mkFile (le 8 st) sp false) (lenN ((x ++ y) ++ [e])) st
          (c_append (mkCache (st + lenN x) y b) e) b) l.
Proof.
  intros Hst Hl Sm Hy Hb. pose proof Sm as (S0 & S1 & S2 & S3). rewrite Hl in *.
  rewrite !lenN_app in S1. change (lenN [e]) with 1 in S1.
  destruct (c_append_cases (mkCache (st + lenN x) y b) e) as (p & q & Ep & Ec & Hq); sfields; auto.
  { rewrite Hst in S1. lia. }
  rewrite Ec. subst y.
  replace ((x ++ p ++ q) ++ [e]) with ((x ++ p) ++ q ++ [e]) in * by (rewrite !app_assoc; reflexivity).
  rewrite <- N.add_assoc, <- lenN_app.
  apply R_mk; auto.
  intros Q. destruct q; discriminate Q.
Qed.

Lemma c_append_start c e : 1 <= c_max c -> lenN (c_buf c) <= c_max c ->
  c_start c + lenN (c_buf c) < 1152921504606846976 ->
  c_start (c_append c e) = N.max (c_start c) (c_start c + lenN (c_buf c) + 1 - c_max c).
Proof.
  intros H1 H2 H3. unfold c_append. rewrite lenN_app. change (lenN [e]) with 1.
  destruct (N.ltb_spec (c_max c) (lenN (c_buf c) + 1)); sfields.
  - rewrite wadd_small by (unfold two64; lia). lia.
  - lia.
Qed.

Lemma append_ok s l e : R s l -> entry_ok e -> small (a_replace l (a_next l) [e]) ->
  exists s', append e s = (Ok (a_next l), s') /\ R s' (a_replace l (a_next l) [e]) /\
    c_start (s_cache s') = N.max (c_start (s_cache s)) (a_next l + 1 - s_buf_size s) /\ s_buf_size s' = s_buf_size s.
Proof.
  intros HR He Sm. pose proof (R_small _ _ HR) as Sl.
  destruct (R_explicit _ _ HR) as (x & y & ip & dp & sp & E & NE & Es & Hy & Hb).
  set (b := s_buf_size s) in *. clearbody b. subst s. clear HR.
  destruct l as [st es]. sfields. subst es.
  assert (E1: a_replace (mkAL st (x ++ y)) (a_next (mkAL st (x ++ y))) [e] = mkAL st ((x ++ y) ++ [e])).
  { unfold a_replace, a_next. sfields. rewrite firstn_all2 by (unfold lenN; lia). reflexivity. }
  rewrite E1 in *. unfold a_next. sfields.
  pose proof (dsize_small _ Sl) as DS. destruct Sl as (S0 & S1 & S2 & S3). sfields.
  unfold append.
  do 3 (erewrite sbind_ok by reflexivity).
  unfold set_idx, set_dat, f_seek_end. sfields. unfold f_tell. sfields.
  unfold sbind at 1, on_idx, f_write, f_write_raw. sfields. rewrite write_end by reflexivity.
  rewrite enc_ok by auto. erewrite sbind_ok by reflexivity.
  unfold sbind at 1, on_dat, f_write, f_write_raw, set_idx, set_dat. sfields. rewrite write_end by reflexivity.
  unfold cache_do, smod, sbind at 1, set_cache. sfields.
  unfold sbind at 1, set_entries. sfields.
  unfold sbind at 1, check_io. sfields. cbn [orb].
  unfold sget. sfields.
  rewrite (wadd_small (lenN (x ++ y)) 1) by (unfold two64; lia).
  rewrite wadd_small by (unfold two64; lia). rewrite wsub_small by (unfold two64; lia).
  eexists. split; [f_equal; f_equal; lia|]. sfields.
  split; [|split; [|reflexivity]].
  2:{ rewrite c_append_start; sfields; rewrite ?lenN_app in *; try lia. }
  rewrite lenN_encs.
  assert (EO: offs 0 ((x ++ y) ++ [e]) = offs 0 (x ++ y) ++ le 8 (dsize (x ++ y))).
  { rewrite (offs_app 0 (x ++ y) [e]). cbn [offs]. rewrite app_nil_r, N.add_0_l. reflexivity. }
  assert (EE: encs ((x ++ y) ++ [e]) = encs (x ++ y) ++ enc e).
  { rewrite (encs_app (x ++ y) [e]). cbn [encs map concat]. rewrite app_nil_r. reflexivity. }
  rewrite <- EO, <- EE.
  replace (lenN (x ++ y) + 1) with (lenN ((x ++ y) ++ [e])) by (rewrite (lenN_app (x ++ y)); change (lenN [e]) with 1; lia).
  apply R_append_cache; auto.
Qed.

(** ** write_at *)
Lemma f_truncate_at a r p n fl : n = lenN a -> f_truncate n (mkFile (a ++ r) p fl) = mkFile a (lenN a) false.
Proof.
  intros ->. unfold f_truncate, f_reopen. sfields. unfold lenN. rewrite Nat2N.id.
  rewrite firstn_app_exact by reflexivity.
  replace (length a - length (a ++ r))%nat with 0%nat by (rewrite app_length; lia).
  cbn [repeat]. rewrite app_nil_r. reflexivity.
Qed.

Lemma enc_nonempty e : enc e <> [].
Proof. intros H. pose proof (lenN_enc e). rewrite H, lenN_nil in H0. pose proof (esize_ge e). lia. Qed.

Lemma write_at_out s l i e : R s l -> (i <? al_start l) || (a_next l <? i) = true ->
  write_at i e s = (Throw RangeError, s).
Proof.
  intros HR H. pose proof (R_small _ _ HR) as (S0 & S1 & S2 & S3).
  unfold write_at. do 2 (erewrite sbind_ok by reflexivity).
  rewrite (R_start _ _ HR), (R_entries _ _ HR). rewrite wadd_small by (unfold two64; lia).
  unfold a_next in H. rewrite H. reflexivity.
Qed.

Lemma write_at_ok s l i e : R s l -> al_start l <= i <= a_next l -> entry_ok e ->
  small (a_replace l i [e]) -> cut_ok l (a_replace l i [e]) -> c_start (s_cache s) <= i ->
  exists s', write_at i e s = (Ok tt, s') /\ R s' (a_replace l i [e]) /\
    c_start (s_cache s') = N.max (c_start (s_cache s)) (i + 1 - s_buf_size s) /\ s_buf_size s' = s_buf_size s.
Proof.
  intros HR Hi He Sm Cut Hc. pose proof (R_small _ _ HR) as Sl.
  destruct (R_explicit _ _ HR) as (x & y & ip & dp & sp & E & NE & Es & Hy & Hb).
  set (b := s_buf_size s) in *. clearbody b. subst s. clear HR.
  destruct l as [st es]. sfields. subst es. unfold a_next in Hi. sfields.
  pose proof (dsize_small _ Sl) as DS. destruct Sl as (S0 & S1 & S2 & S3). sfields.
  unfold write_at. do 2 (erewrite sbind_ok by reflexivity). sfields.
  rewrite wadd_small by (unfold two64; lia).
  replace ((i <? st) || (st + lenN (x ++ y) <? i)) with false by lia.
  rewrite (wsub_small i st) by (unfold two64; lia).
  rewrite (wadd_small (i - st) 1) by (unfold two64; lia).
  rewrite (wsub_small (i - st + 1) 1) by (unfold two64; lia).
  replace (i - st + 1 - 1) with (i - st) by lia.
  rewrite wmul_small by (unfold two64; lia). cbv zeta.
  destruct (N.leb_spec (i - st + 1) (lenN (x ++ y))) as [HL|HL].
  - (* overwrite *)
    destruct (split_nth y (N.to_nat (i - st - lenN x))) as (p & e0 & q & Ey & Hp).
    { rewrite lenN_app in HL. unfold lenN in *. lia. }
    assert (Hi': i = st + lenN (x ++ p)) by (rewrite lenN_app; unfold lenN in *; lia).
    clear Hp. subst y i.
    replace (st + lenN (x ++ p) - st) with (lenN (x ++ p)) in * by lia.
    assert (E1: a_replace (mkAL st (x ++ p ++ e0 :: q)) (st + lenN (x ++ p)) [e] = mkAL st ((x ++ p) ++ [e])).
    { unfold a_replace. sfields. replace (N.to_nat (st + lenN (x ++ p) - st)) with (length (x ++ p)) by (unfold lenN; lia).
      rewrite app_assoc, firstn_app_exact by reflexivity. reflexivity. }
    rewrite E1 in *. clear E1.
    assert (EO: offs 0 (x ++ p ++ e0 :: q) = offs 0 (x ++ p) ++ le 8 (dsize (x ++ p)) ++ offs (dsize (x ++ p) + esize e0) q).
    { rewrite app_assoc, offs_app. reflexivity. }
    assert (EE: encs (x ++ p ++ e0 :: q) = encs (x ++ p) ++ enc e0 ++ encs q).
    { rewrite app_assoc, encs_app. reflexivity. }
    set (u := x ++ p) in *.
    replace (x ++ p ++ e0 :: q) with (u ++ e0 :: q) in * by (unfold u; rewrite app_assoc; reflexivity).
    rewrite lenN_app, lenN_cons in *. rewrite dsize_app in DS. cbn [dsize] in DS.
    rewrite EO, EE. set (OR := offs (dsize u + esize e0) q).
    erewrite (sbind_ok (sbind (idx_do _) _)).
    2:{ erewrite sbind_ok by (unfold idx_do, smod, set_idx; sfields; rewrite f_seek_ok by lia; reflexivity).
        erewrite sbind_ok by (apply read_idx_at; [rewrite lenN_offs; lia|unfold is_ulong, two64; lia]).
        unfold dat_do, smod, set_dat. sfields. rewrite f_seek_ok by lia. reflexivity. }
    unfold sbind at 1, idx_do at 1, smod, set_idx. sfields. rewrite f_seek_ok by lia.
    erewrite sbind_ok by reflexivity. sfields. unfold f_tell at 1. sfields.
    unfold sbind at 1, on_idx, f_write, f_write_raw, set_idx. sfields.
    rewrite write_mid by (try (intros Q; discriminate Q); rewrite lenN_offs; lia).
    rewrite le_length, skipn_app_exact by apply le_length. rewrite lenN_le.
    rewrite enc_ok by auto. erewrite sbind_ok by reflexivity.
    unfold sbind at 1, on_dat, f_write, f_write_raw, set_dat. sfields.
    rewrite write_mid by (try apply enc_nonempty; rewrite lenN_encs; reflexivity).
    do 2 (erewrite sbind_ok by reflexivity). unfold f_tell. sfields.
    unfold sbind at 1, idx_do at 1, smod, set_idx, f_seek_end. sfields.
    erewrite sbind_ok by reflexivity. sfields.
    rewrite !lenN_app, !lenN_offs, lenN_le. unfold OR. rewrite lenN_offs. rewrite lenN_enc.
    fold OR.
    assert (T1: offs 0 u ++ le 8 (dsize u) = offs 0 (u ++ [e])).
    { rewrite offs_app. cbn [offs]. rewrite app_nil_r, N.add_0_l. reflexivity. }
    assert (T2: encs u ++ enc e = encs (u ++ [e])).
    { rewrite encs_app. cbn [encs map concat]. rewrite app_nil_r. reflexivity. }
    assert (TC: c_trim (mkCache (st + lenN x) (p ++ e0 :: q) b) (st + lenN u) = mkCache (st + lenN x) p b).
    { unfold c_trim. sfields. unfold u. rewrite lenN_app.
      destruct (N.ltb_spec (st + (lenN x + lenN p)) (st + lenN x)); [lia|].
      rewrite wsub_small by (unfold u in *; rewrite lenN_app in *; unfold two64; lia).
      replace (st + (lenN x + lenN p) - (st + lenN x)) with (lenN p) by lia.
      rewrite lenN_app, lenN_cons. destruct (N.ltb_spec (lenN p) (lenN p + (1 + lenN q))); [|lia].
      f_equal. apply firstn_app_exact. unfold lenN. lia. }
    assert (Fin: forall ip dp, R (mkStore (mkFile (offs 0 (u ++ [e])) ip false) (mkFile (encs (u ++ [e])) dp false)
          (mkFile (le 8 st) sp false) (lenN u + 1) st
          (c_append (mkCache (st + lenN x) p b) e) b) (mkAL st (u ++ [e]))).
    { intros. replace (lenN u + 1) with (lenN ((x ++ p) ++ [e])) by (unfold u; rewrite !lenN_app; change (lenN [e]) with 1; lia).
      unfold u. apply R_append_cache; auto. rewrite ?lenN_app, ?lenN_cons in Hy; lia. }
    destruct q as [|e1 q].
    + (* last entry *)
      change (lenN (@nil entry_val)) with 0. destruct (N.ltb_spec (lenN u * 8 + N.of_nat 8) (8 * lenN u + (N.of_nat 8 + 8 * 0))); [lia|].
      erewrite sbind_ok by reflexivity.
      unfold sbind at 1, cache_do at 1, smod, set_cache. sfields. rewrite TC.
      unfold sbind at 1, cache_do at 1, smod, set_cache. sfields.
      unfold sbind at 1, smod, set_entries. sfields. unfold check_io. sfields. cbn [orb].
      eexists. split; [reflexivity|]. sfields.
      split; [|split; [|reflexivity]].
      2:{ rewrite c_append_start; sfields; unfold u in *; rewrite ?lenN_app, ?lenN_cons in *; try lia. }
      destruct Cut as [Cut|Cut]; sfields.
      { rewrite !lenN_app in Cut. change (lenN [e]) with 1 in Cut. change (lenN [e0]) with 1 in Cut. lia. }
      rewrite !dsize_app in Cut. cbn [dsize] in Cut.
      unfold OR. cbn [offs encs map concat]. rewrite !app_nil_r.
      rewrite skipn_all2 by (rewrite !length_enc; lia). rewrite app_nil_r.
      rewrite T1, T2. apply Fin.
    + rewrite lenN_cons in *.
      destruct (N.ltb_spec (lenN u * 8 + N.of_nat 8) (8 * lenN u + (N.of_nat 8 + 8 * (1 + lenN q)))); [|lia].
      erewrite (sbind_ok (sbind (idx_do _) _)).
      2:{ unfold sbind, idx_do, dat_do, smod, set_idx, set_dat. sfields.
          rewrite !app_assoc.
          rewrite (f_truncate_at (offs 0 u ++ le 8 (dsize u))) by (rewrite lenN_app, lenN_offs, lenN_le; lia).
          rewrite (f_truncate_at (encs u ++ enc e)) by (rewrite lenN_app, lenN_encs, lenN_enc; lia).
          reflexivity. }
      unfold sbind at 1, cache_do at 1, smod, set_cache. sfields. rewrite TC.
      unfold sbind at 1, cache_do at 1, smod, set_cache. sfields.
      unfold sbind at 1, smod, set_entries. sfields. unfold check_io. sfields. cbn [orb].
      eexists. split; [reflexivity|]. sfields. rewrite T1, T2.
      split; [|split; [|reflexivity]].
      2:{ rewrite c_append_start; sfields; unfold u in *; rewrite ?lenN_app, ?lenN_cons in *; try lia. }
      apply Fin.
  - (* at the end *)
    assert (Hi': i = st + lenN (x ++ y)) by lia. subst i.
    replace (st + lenN (x ++ y) - st) with (lenN (x ++ y)) in * by lia.
    assert (E1: a_replace (mkAL st (x ++ y)) (st + lenN (x ++ y)) [e] = mkAL st ((x ++ y) ++ [e])).
    { unfold a_replace. sfields. rewrite firstn_all2 by (unfold lenN; lia). reflexivity. }
    rewrite E1 in *.
    erewrite sbind_ok by reflexivity. unfold set_dat, f_seek_end. sfields.
    unfold sbind at 1, idx_do at 1, smod, set_idx. sfields. rewrite f_seek_ok by lia.
    erewrite sbind_ok by reflexivity. sfields. unfold f_tell at 1. sfields.
    unfold sbind at 1, on_idx, f_write, f_write_raw, set_idx. sfields.
    rewrite write_end by (rewrite lenN_offs; lia). rewrite lenN_le.
    rewrite enc_ok by auto. erewrite sbind_ok by reflexivity.
    unfold sbind at 1, on_dat, f_write, f_write_raw, set_dat. sfields.
    rewrite write_end by reflexivity.
    do 2 (erewrite sbind_ok by reflexivity). unfold f_tell. sfields.
    unfold sbind at 1, idx_do at 1, smod, set_idx, f_seek_end. sfields.
    erewrite sbind_ok by reflexivity. sfields.
    rewrite (lenN_app (offs _ _)), lenN_offs, lenN_le.
    destruct (N.ltb_spec (lenN (x ++ y) * 8 + N.of_nat 8) (8 * lenN (x ++ y) + N.of_nat 8)); [lia|].
    do 2 (erewrite sbind_ok by reflexivity).
    unfold sbind at 1, cache_do at 1, smod, set_cache. sfields.
    unfold sbind at 1, smod, set_entries. sfields. unfold check_io. sfields. cbn [orb].
    eexists. split; [reflexivity|]. sfields.
    split; [|split; [|reflexivity]].
    2:{ rewrite c_append_start; sfields; rewrite ?lenN_app, ?lenN_cons in *; try lia. }
    assert (T1: offs 0 (x ++ y) ++ le 8 (lenN (encs (x ++ y))) = offs 0 ((x ++ y) ++ [e])).
    { rewrite (offs_app 0 (x ++ y)), lenN_encs. cbn [offs]. rewrite app_nil_r, N.add_0_l. reflexivity. }
    assert (T2: encs (x ++ y) ++ enc e = encs ((x ++ y) ++ [e])).
    { rewrite (encs_app (x ++ y)). cbn [encs map concat]. rewrite app_nil_r. reflexivity. }
    rewrite T1, T2.
    replace (lenN (x ++ y) + 1) with (lenN ((x ++ y) ++ [e])) by (rewrite (lenN_app (x ++ y)); reflexivity).
    apply R_append_cache; auto.
Qed.
