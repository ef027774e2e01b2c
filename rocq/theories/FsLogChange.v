(** * apply_pack, compact and reopening refine the indexed log *)

From Verif Require Import Base Codec CodecSpec CodecProofs Msg FsLogStore FsLogSpec FsLogProofs FsLogOps FsLogReads.
Local Open Scope N_scope.
Local Open Scope sm_scope.

(** the window that is cached after (re)loading *)
Lemma window_split (es : list entry_val) st b : 1 <= b -> st + lenN es < 1152921504606846976 ->
  exists x y, es = x ++ y /\ (y = [] -> x = []) /\ lenN y <= b /\
    first_cached (lenN es) st b = st + lenN x.
Proof.
  intros Hb Hs. unfold first_cached. destruct (N.ltb_spec b (lenN es)) as [L|L].
  - exists (firstn (N.to_nat (lenN es - b)) es), (skipn (N.to_nat (lenN es - b)) es).
    rewrite firstn_skipn. split; [reflexivity|].
    assert (length (skipn (N.to_nat (lenN es - b)) es) = N.to_nat b) by (rewrite skipn_length; unfold lenN in *; lia).
    split; [|split].
    + intros E. rewrite E in H. cbn [length] in H. lia.
    + unfold lenN at 1. rewrite H. lia.
    + rewrite wadd_small by (unfold two64; lia). rewrite wsub_small by (unfold two64; lia).
      assert (lenN (firstn (N.to_nat (lenN es - b)) es) = lenN es - b) by (unfold lenN in *; rewrite firstn_length; lia).
      lia.
  - exists [], es. cbn [app]. rewrite lenN_nil, N.add_0_r. auto.
Qed.

Lemma reload_ok es st b ip dp sp n :
  1 <= b -> small (mkAL st es) -> n = lenN es ->
  exists s', fill_buffer (mkStore (mkFile (offs 0 es) ip false) (mkFile (encs es) dp false)
                (mkFile (le 8 st) sp false) n st (mkCache (first_cached n st b) [] b) b) = (Ok tt, s') /\
             R s' (mkAL st es) /\ c_start (s_cache s') = first_cached n st b /\ s_buf_size s' = b.
Proof.
  intros Hb Sm ->. pose proof Sm as (S0 & S1 & S2 & S3). sfields.
  destruct (window_split es st b Hb S1) as (x & y & -> & NE & Hy & EF). rewrite EF.
  destruct (fill_buffer_ok x y (mkFile (le 8 st) sp false) (lenN (x ++ y)) st b b ip dp false false) as (ip' & dp' & FB); auto.
  rewrite FB. eexists. split; [reflexivity|]. split; [apply R_mk; auto|]. split; reflexivity.
Qed.

(** ** Reopening *)
Lemma reopen_ok s l z : R s l -> z <> 0%Z -> is_int32 z ->
  exists s', open_store (close s) z = (Ok tt, s') /\ R s' l /\
    c_start (s_cache s') = first_cached (lenN (al_ents l)) (al_start l) (cache_limit z) /\ s_buf_size s' = cache_limit z.
Proof.
  intros HR Hz Hz32. pose proof (R_small _ _ HR) as Sl.
  destruct l as [st es].
  unfold open_store, close. cbn [d_idx d_dat d_sti].
  rewrite (R_idx _ _ HR), (R_dat _ _ HR), (R_sti _ _ HR). sfields.
  pose proof Sl as (S0 & S1 & S2 & S3). sfields.
  set (b := cache_limit z).
  assert (Hb: 1 <= b) by (unfold b, cache_limit; destruct (Z.ltb_spec z 0); lia).
  cbv zeta. unfold f_reopen. sfields. unfold f_tell at 1. sfields. rewrite lenN_le.
  destruct (N.ltb_spec 0 (N.of_nat 8)); [|lia].
  erewrite (sbind_ok (sbind (sti_do _) _)).
  2:{ unfold sbind at 1, sti_do, smod, set_sti. sfields. rewrite f_seek_ok by lia.
      erewrite sbind_ok.
      2:{ unfold on_sti. sfields.
          pose proof (f_read_at [] (le 8 st) [] 0 8 eq_refl eq_refl) as FR. rewrite app_nil_r in FR. cbn [app] in FR.
          rewrite FR. reflexivity. }
      rewrite of_le_le8 by (unfold is_ulong, two64; lia).
      unfold sbind, smod, set_start, set_entries, set_sti, sget. sfields. unfold f_tell. sfields.
      rewrite lenN_offs. replace (8 * lenN es / 8) with (lenN es) by lia. reflexivity. }
  unfold sbind at 1, smod, set_cache. sfields.
  destruct (reload_ok es st b (lenN (offs 0 es)) (lenN (encs es)) (0 + 8) (lenN es) Hb Sl eq_refl) as (s' & E & RR & CC & BB).
  rewrite lenN_offs in E. rewrite E. eauto.
Qed.

(** ** apply_pack *)
Lemma adjust_arith b k d : b + k < two64 -> d + k < two64 -> wadd (b + k) (wsub d b) = d + k.
Proof. unfold wadd, w64, wsub, two64. intros. rewrite (N.mod_small b) by lia. lia. Qed.

Lemma adjust_loop_ok es : forall k base d rest a t g sti n st c b,
  base + k + dsize es < two64 -> d + k + dsize es < two64 ->
  adjust_loop (length es) (offs (base + k) es ++ rest) (wsub d base)
    (mkStore (mkFile (a ++ t) (lenN a) false) g sti n st c b) =
  (Ok tt, mkStore (mkFile (a ++ offs (d + k) es ++ skipn (8 * length es) t) (lenN a + 8 * lenN es) false) g sti n st c b).
Proof.
  induction es as [|e es IH]; intros k base d rest a t g sti n st c b H1 H2; cbn [length adjust_loop offs dsize] in *.
  - cbn [app Nat.mul skipn]. unfold sret. change (lenN (@nil entry_val)) with 0. do 3 f_equal. lia.
  - rewrite <- app_assoc. rewrite lenN_app, lenN_le.
    destruct (N.ltb_spec (N.of_nat 8 + lenN (offs (base + k + esize e) es ++ rest)) 8); [lia|].
    rewrite firstn_app_exact, skipn_app_exact by apply le_length.
    rewrite of_le_le8 by (unfold is_ulong; lia). rewrite adjust_arith by lia.
    unfold sbind, idx_do, smod, set_idx, f_write_raw. sfields.
    rewrite write_mid by (try (intros Q; discriminate Q); reflexivity).
    rewrite le_length, lenN_le.
    replace (base + k + esize e) with (base + (k + esize e)) by lia.
    rewrite (app_assoc a).
    replace (lenN a + N.of_nat 8) with (lenN (a ++ le 8 (d + k))) by (rewrite lenN_app, lenN_le; reflexivity).
    rewrite IH by lia.
    rewrite lenN_app, lenN_le, lenN_cons, <- !app_assoc, skipn_skipn.
    replace (8 + 8 * length es)%nat with (8 * S (length es))%nat by lia.
    replace (d + (k + esize e)) with (d + k + esize e) by lia.
    do 3 f_equal. lia.
Qed.

Lemma offs_nonempty b es : es <> [] -> offs b es <> [].
Proof. destruct es; [congruence|]. intros _ Q. cbn [offs] in Q. discriminate Q. Qed.
Lemma encs_nonempty es : es <> [] -> encs es <> [].
Proof.
  destruct es as [|e es]; [congruence|]. intros _ Q. rewrite encs_cons in Q.
  apply app_eq_nil in Q. destruct Q as [Q _]. exact (enc_nonempty _ Q).
Qed.

Lemma apply_pack_ok s l i base es' : R s l -> al_start l <= i <= a_next l -> es' <> [] -> Forall entry_ok es' ->
  pack_small es' -> base + dsize es' < two64 -> cut_ok l (a_replace l i es') -> small (a_replace l i es') ->
  exists s', apply_pack i (pack_bytes base es') s = (Ok tt, s') /\ R s' (a_replace l i es') /\
    c_start (s_cache s') = first_cached (lenN (al_ents (a_replace l i es'))) (al_start l) (s_buf_size s) /\
    s_buf_size s' = s_buf_size s.
Proof.
  intros HR Hi Hne Fe HP HB Cut Sm. pose proof (R_small _ _ HR) as Sl.
  destruct (R_explicit _ _ HR) as (x0 & y0 & ip & dp & sp & E & NE & Es & Hy & Hb).
  destruct l as [st es]. sfields. rewrite <- E in Es. clear E NE.
  set (b := s_buf_size s) in *. clearbody b. subst s. clear HR.
  unfold a_next in Hi. sfields. unfold a_replace in *. sfields.
  pose proof (dsize_small _ Sl) as DS. destruct Sl as (S0 & S1 & S2 & S3). sfields.
  pose proof (dsize_small _ Sm) as DS'.
  set (u := firstn (N.to_nat (i - st)) es) in *. set (w := skipn (N.to_nat (i - st)) es).
  assert (Ees: es = u ++ w) by (unfold u, w; rewrite firstn_skipn; reflexivity).
  assert (Lu: lenN u = i - st) by (unfold u, lenN in *; rewrite firstn_length; lia).
  clearbody u w. subst es.
  unfold pack_small, two31 in HP.
  unfold apply_pack, pack_bytes.
  rewrite !int_b_small by (unfold two31; lia).
  rewrite lenN_app, lenN_le, lenN_app, lenN_le.
  destruct (N.ltb_spec (N.of_nat 4 + (N.of_nat 4 + lenN (offs base es' ++ encs es'))) 8); [lia|]. clear H.
  rewrite (firstn_app_exact (le 4 (8 * lenN es'))) by apply le_length.
  rewrite (skipn_app_exact (le 4 (8 * lenN es')) _ 4) by apply le_length.
  rewrite (firstn_app_exact (le 4 (dsize es'))) by apply le_length.
  rewrite (app_assoc (le 4 (8 * lenN es'))).
  rewrite (skipn_app_exact (le 4 (8 * lenN es') ++ le 4 (dsize es'))) by (rewrite app_length, !le_length; reflexivity).
  rewrite !of_le_le4 by (unfold two32; lia).
  rewrite !to_int32_id by (unfold is_int32; lia).
  cbv zeta.
  do 2 (erewrite sbind_ok by reflexivity). sfields.
  rewrite (wsub_small i st) by (unfold two64; lia). rewrite <- Lu.
  rewrite !lenN_app in *. rewrite !dsize_app in *. unfold cut_ok in Cut. sfields. rewrite !lenN_app, !dsize_app in Cut.
  (* seek to the insertion point *)
  erewrite (sbind_ok (if lenN u =? lenN u + lenN w then _ else _) _ _ tt
     (mkStore (mkFile (offs 0 (u ++ w)) (lenN u * 8) false) (mkFile (encs (u ++ w)) (dsize u) false)
          (mkFile (le 8 st) sp false) (lenN u + lenN w) st (mkCache (st + lenN x0) y0 b) b)).
  2:{ destruct (N.eqb_spec (lenN u) (lenN u + lenN w)) as [Q|Q].
      - assert (w = []) by (destruct w; [reflexivity|rewrite lenN_cons in *; lia]). subst w. rewrite app_nil_r.
        unfold sbind, idx_do, dat_do, smod, set_idx, set_dat, f_seek_end. sfields. rewrite lenN_offs, lenN_encs.
        do 3 f_equal. lia.
      - destruct w as [|e w]; [rewrite lenN_nil in *; lia|]. rewrite idx_split, N.add_0_l.
        rewrite wmul_small by (unfold two64; lia).
        unfold sbind at 1, idx_do at 1, smod, set_idx. sfields. rewrite f_seek_ok by lia.
        erewrite sbind_ok by (apply read_idx_at; [rewrite lenN_offs; lia|unfold is_ulong, two64; lia]).
        unfold sbind, idx_do, dat_do, smod, set_idx, set_dat. sfields. rewrite !f_seek_ok by lia. reflexivity. }
  erewrite sbind_ok by reflexivity. sfields. unfold f_tell at 1 2 3 4. sfields.
  assert (Le': 1 <= lenN es') by (destruct es'; [congruence|rewrite lenN_cons; lia]).
  rewrite lenN_offs, lenN_encs. destruct (N.ltb_spec (8 * lenN es' + dsize es') 8); [lia|]. clear H.
  assert (F8: of_le (firstn 8 (offs base es' ++ encs es')) = base).
  { destruct es' as [|e' es']; [congruence|]. cbn [offs]. rewrite <- app_assoc, firstn_app_exact by apply le_length.
    apply of_le_le8. unfold is_ulong. lia. }
  rewrite F8.
  (* the index records *)
  erewrite (sbind_ok (if dsize u =? base then _ else _) _ _ tt
     (mkStore (mkFile (offs 0 u ++ offs (dsize u) es' ++ skipn (8 * length es') (offs (dsize u) w)) (lenN u * 8 + 8 * lenN es') false)
          (mkFile (encs (u ++ w)) (dsize u) false)
          (mkFile (le 8 st) sp false) (lenN u + lenN w) st (mkCache (st + lenN x0) y0 b) b)).
  2:{ rewrite offs_app, N.add_0_l. destruct (N.eqb_spec (dsize u) base) as [Q|Q].
      - subst base.
        replace ((Z.of_N (8 * lenN es') <? 0) || (Z.of_N (8 * lenN es' + dsize es') <? Z.of_N (8 * lenN es')))%Z%bool with false by lia.
        rewrite firstn_app_exact by (rewrite length_offs; unfold lenN; lia).
        unfold idx_do, smod, set_idx, f_write_raw. sfields.
        rewrite write_mid by (try (apply offs_nonempty; auto); rewrite lenN_offs; lia).
        rewrite lenN_offs, length_offs. reflexivity.
      - replace (Z.to_nat ((Z.of_N (8 * lenN es') + 7) / 8)) with (length es').
        2:{ unfold lenN. lia. }
        replace (offs base es') with (offs (base + 0) es') by (rewrite N.add_0_r; reflexivity).
        replace (lenN u * 8) with (lenN (offs 0 u)) by (rewrite lenN_offs; lia).
        rewrite adjust_loop_ok by (unfold two64 in *; lia). rewrite N.add_0_r. reflexivity. }
  (* the data *)
  replace ((Z.of_N (dsize es') <? 0) || (Z.of_N (8 * lenN es') <? 0)
           || (Z.of_N (8 * lenN es' + dsize es') <? Z.of_N (8 * lenN es') + Z.of_N (dsize es')))%Z%bool with false by lia.
  rewrite skipn_app_exact by (rewrite length_offs; unfold lenN; lia).
  rewrite firstn_all2 by (rewrite length_encs; lia).
  unfold sbind at 1, dat_do at 1, smod, set_dat, f_write_raw. sfields.
  rewrite encs_app. rewrite write_mid by (try (apply encs_nonempty; auto); rewrite lenN_encs; reflexivity).
  rewrite lenN_encs.
  do 2 (erewrite sbind_ok by reflexivity). unfold f_tell. sfields.
  do 2 (erewrite sbind_ok by reflexivity). unfold set_idx, set_dat, f_seek_end. sfields.
  erewrite sbind_ok by reflexivity. sfields.
  assert (T1: offs 0 u ++ offs (dsize u) es' = offs 0 (u ++ es')) by (rewrite offs_app, N.add_0_l; reflexivity).
  assert (T2: encs u ++ encs es' = encs (u ++ es')) by (rewrite encs_app; reflexivity).
  assert (Lsk: lenN (skipn (8 * length es') (offs (dsize u) w)) = 8 * (lenN w - lenN es')).
  { unfold lenN. rewrite skipn_length, length_offs. lia. }
  rewrite !lenN_app, !lenN_offs, Lsk.
  match goal with |- context [sbind (if ?c then ?A else ?B) ?k ?s0] =>
    assert (TR: exists ip1 dp1, (if c then A else B) s0 =
      (Ok tt, mkStore (mkFile (offs 0 (u ++ es')) ip1 false) (mkFile (encs (u ++ es')) dp1 false)
          (mkFile (le 8 st) sp false) (lenN u + lenN w) st (mkCache (st + lenN x0) y0 b) b))
  end.
  { destruct (N.ltb_spec (lenN u * 8 + 8 * lenN es') (8 * lenN u + (8 * lenN es' + 8 * (lenN w - lenN es')))) as [Q|Q].
    - eexists _, _. unfold sbind, idx_do, dat_do, smod, set_idx, set_dat. sfields.
      rewrite !app_assoc. rewrite T1, T2.
      rewrite (f_truncate_at (offs 0 (u ++ es'))) by (rewrite lenN_offs, lenN_app; lia).
      rewrite (f_truncate_at (encs (u ++ es'))) by (rewrite lenN_encs, dsize_app; lia). reflexivity.
    - rewrite (skipn_all2 (offs (dsize u) w)) by (rewrite length_offs; unfold lenN in *; lia).
      rewrite (skipn_all2 (encs w)) by (rewrite !length_encs; lia).
      rewrite !app_nil_r, T1, T2. unfold sret. eauto. }
  destruct TR as (ip1 & dp1 & TR). erewrite sbind_ok by exact TR.
  unfold sbind at 1, check_io. sfields. cbn [orb].
  unfold sbind at 1, smod, set_entries. sfields.
  unfold sbind at 1, smod, set_cache, c_reset. sfields.
  replace (Z.to_N (Z.of_N (8 * lenN es')) / 8) with (lenN es') by lia.
  rewrite wadd_small by (unfold two64; lia).
  destruct (reload_ok (u ++ es') st b ip1 dp1 sp (lenN u + lenN es') Hb Sm) as (s' & EF & RR & CC & BB).
  { rewrite lenN_app. reflexivity. }
  exists s'. split; [exact EF|]. split; [exact RR|]. split; [exact CC|exact BB].
Qed.

(** ** compact *)
Lemma compact_loop_ok es : forall k d a t g sti n st c b,
  d + k + dsize es < two64 ->
  compact_loop (length es) (offs (d + k) es) d
    (mkStore (mkFile (a ++ t) (lenN a) false) g sti n st c b) =
  (Ok tt, mkStore (mkFile (a ++ offs k es ++ skipn (8 * length es) t) (lenN a + 8 * lenN es) false) g sti n st c b).
Proof.
  induction es as [|e es IH]; intros k d a t g sti n st c b H1; cbn [length compact_loop offs dsize] in *.
  - cbn [app Nat.mul skipn]. unfold sret. change (lenN (@nil entry_val)) with 0. do 3 f_equal. lia.
  - rewrite lenN_app, lenN_le.
    destruct (N.ltb_spec (N.of_nat 8 + lenN (offs (d + k + esize e) es)) 8); [lia|].
    rewrite firstn_app_exact, skipn_app_exact by apply le_length.
    rewrite of_le_le8 by (unfold is_ulong; lia). rewrite wsub_small by lia.
    replace (d + k - d) with k by lia.
    unfold sbind, on_idx, f_write, set_idx, f_write_raw. sfields.
    rewrite write_mid by (try (intros Q; discriminate Q); reflexivity).
    rewrite le_length, lenN_le.
    replace (d + k + esize e) with (d + (k + esize e)) by lia.
    rewrite (app_assoc a).
    replace (lenN a + N.of_nat 8) with (lenN (a ++ le 8 k)) by (rewrite lenN_app, lenN_le; reflexivity).
    rewrite IH by lia.
    rewrite lenN_app, lenN_le, lenN_cons, <- !app_assoc, skipn_skipn.
    replace (8 + 8 * length es)%nat with (8 * S (length es))%nat by lia.
    do 3 f_equal. lia.
Qed.

Lemma compact_low s l k : R s l -> k < al_start l -> compact k s = (Throw RangeError, s).
Proof.
  intros HR H. unfold compact. do 2 (erewrite sbind_ok by reflexivity). rewrite (R_start _ _ HR).
  destruct (N.ltb_spec k (al_start l)); [reflexivity|lia].
Qed.

Lemma compact_ok s l k : R s l -> al_start l <= k -> small (a_compact l k) ->
  exists s', compact k s = (Ok true, s') /\ R s' (a_compact l k) /\
    c_start (s_cache s') = first_cached (lenN (al_ents (a_compact l k))) (k + 1) (s_buf_size s) /\
    s_buf_size s' = s_buf_size s.
Proof.
  intros HR Hk Sm. pose proof (R_small _ _ HR) as Sl.
  destruct (R_explicit _ _ HR) as (x0 & y0 & ip & dp & sp & E & NE & Es & Hy & Hb).
  destruct l as [st es]. sfields. rewrite <- E in Es. clear E NE.
  set (b := s_buf_size s) in *. clearbody b. subst s. clear HR.
  unfold a_compact in *. sfields.
  pose proof (dsize_small _ Sl) as DS. destruct Sl as (S0 & S1 & S2 & S3). sfields.
  pose proof Sm as (T0 & T1 & T2 & T3). sfields.
  unfold compact. do 2 (erewrite sbind_ok by reflexivity). sfields.
  destruct (N.ltb_spec k st); [lia|]. clear H.
  do 3 (erewrite sbind_ok by reflexivity).
  unfold set_idx, set_dat, set_sti. sfields. rewrite !f_seek_ok by lia.
  do 5 (erewrite sbind_ok by reflexivity). unfold rest_of, at_end, set_idx, set_dat, set_sti. sfields.
  cbn [N.to_nat skipn].
  rewrite (wadd_small k 1) by (unfold two64; lia).
  rewrite (wadd_small st (lenN es)) by (unfold two64; lia). rewrite (wsub_small (st + lenN es) 1) by (unfold two64; lia).
  assert (WS: forall v, write_bytes (le 8 st) 0 (le 8 v) = le 8 v).
  { intros v. rewrite (write_mid [] (le 8 st)) by (try (intros Q; discriminate Q); reflexivity).
    rewrite le_length. rewrite skipn_all2 by (rewrite le_length; lia). rewrite app_nil_r. reflexivity. }
  destruct (N.leb_spec (st + lenN es - 1) k) as [Q|Q].
  - (* everything *)
    assert (Esk: skipn (N.to_nat (k + 1 - st)) es = []) by (apply skipn_all2; unfold lenN in *; lia).
    rewrite Esk in *.
    do 3 (erewrite sbind_ok by reflexivity).
    unfold set_idx, set_dat, set_sti. sfields. rewrite f_seek_ok by lia.
    unfold sbind at 1, on_sti, f_write, f_write_raw, set_sti. sfields. rewrite WS.
    do 3 (erewrite sbind_ok by reflexivity). unfold set_start, set_entries, set_cache, c_reset, sret. sfields.
    eexists. split; [reflexivity|]. sfields. unfold first_cached. change (lenN (@nil entry_val)) with 0.
    destruct (N.ltb_spec b 0); [lia|]. split; [|split; reflexivity].
    pose proof (R_mk [] [] (k + 1) 0 0 (0 + lenN (le 8 (k + 1))) b (mkAL (k + 1) [])) as RM.
    cbn [app] in RM. rewrite !lenN_nil, N.add_0_r in RM. apply RM; auto; try lia.
  - (* a proper prefix *)
    set (u := firstn (N.to_nat (k + 1 - st)) es). set (w := skipn (N.to_nat (k + 1 - st)) es) in *.
    assert (Ees: es = u ++ w) by (unfold u, w; rewrite firstn_skipn; reflexivity).
    assert (Lu: lenN u = k + 1 - st) by (unfold u, lenN in *; rewrite firstn_length; lia).
    clearbody u w. subst es. rewrite !lenN_app in *. rewrite dsize_app in DS.
    rewrite (wsub_small k st) by (unfold two64; lia). rewrite (wadd_small (k - st) 1) by (unfold two64; lia).
    replace (k - st + 1) with (lenN u) by lia. rewrite wmul_small by (unfold two64; lia).
    assert (Hw: exists e w', w = e :: w').
    { destruct w; [rewrite lenN_nil in *; lia|eauto]. }
    assert (RI: forall g sti n' s' c' b', read_idx_ulong (mkStore (mkFile (offs 0 (u ++ w)) (lenN u * 8) false) g sti n' s' c' b') =
       (Ok (dsize u), mkStore (mkFile (offs 0 (u ++ w)) (lenN u * 8 + 8) false) g sti n' s' c' b')).
    { intros. destruct Hw as (e & w' & ->). rewrite idx_split, N.add_0_l.
      apply read_idx_at; [rewrite lenN_offs; lia|unfold is_ulong, two64; lia]. }
    unfold sbind at 1, idx_do at 1, smod, set_idx. sfields. rewrite f_seek_ok by lia.
    erewrite sbind_ok by apply RI.
    do 4 (erewrite sbind_ok by reflexivity). unfold f_tell, set_idx, set_dat, f_seek_end. sfields.
    rewrite lenN_offs, lenN_encs, lenN_app, dsize_app.
    rewrite (wsub_small (8 * (lenN u + lenN w)) (lenN u * 8)) by (unfold two64; lia).
    rewrite (wsub_small (dsize u + dsize w) (dsize u)) by (unfold two64; lia).
    replace (8 * (lenN u + lenN w) - lenN u * 8) with (8 * lenN w) by lia.
    replace (dsize u + dsize w - dsize u) with (dsize w) by lia. cbv zeta.
    unfold sbind at 1, dat_do at 1, smod, set_dat. sfields. rewrite f_seek_ok by lia.
    rewrite (encs_app u w). rewrite skipn_app_exact by (rewrite length_encs; reflexivity).
    assert (NEw: encs w <> []) by (apply encs_nonempty; destruct Hw as (e & w' & ->); discriminate).
    erewrite sbind_ok.
    2:{ unfold dat_do, smod, set_dat, f_insert. destruct (encs w) as [|b0 r0] eqn:EW; [congruence|].
        rewrite <- EW. unfold f_write_raw. sfields. rewrite (write_mid [] (encs u ++ encs w)) by (auto; rewrite EW; discriminate).
        cbn [app]. reflexivity. }
    erewrite sbind_ok.
    2:{ unfold dat_do, smod, set_dat. sfields. rewrite f_truncate_at by (rewrite lenN_encs; reflexivity). reflexivity. }
    erewrite sbind_ok.
    2:{ unfold idx_do, smod, set_idx. sfields. rewrite f_seek_ok by lia. reflexivity. }
    rewrite (offs_app 0 u w), N.add_0_l.
    rewrite skipn_app_exact by (rewrite length_offs; unfold lenN; lia).
    replace (N.to_nat (8 * lenN w / 8)) with (length w) by (unfold lenN; lia).
    erewrite sbind_ok.
    2:{ pose proof (compact_loop_ok w 0 (dsize u) []) as CL. rewrite N.add_0_r in CL. cbn [app] in CL.
        change (lenN (@nil byte)) with 0 in CL. apply CL. unfold two64. lia. }
    erewrite sbind_ok.
    2:{ unfold idx_do, smod, set_idx. sfields. rewrite f_truncate_at by (rewrite lenN_offs; reflexivity). reflexivity. }
    unfold sbind at 1, sti_do at 1, smod, set_sti. sfields. rewrite f_seek_ok by lia.
    unfold sbind at 1, on_sti, f_write, f_write_raw, set_sti. sfields. rewrite WS.
    do 3 (erewrite sbind_ok by reflexivity). unfold set_start, set_entries, set_cache, c_reset. sfields.
    rewrite wsub_small by (unfold two64; lia). replace (lenN u + lenN w - lenN u) with (lenN w) by lia.
    destruct (reload_ok w (k + 1) b (lenN (offs 0 w)) (lenN (encs w)) (0 + lenN (le 8 (k + 1))) (lenN w) Hb Sm eq_refl) as (s' & EF & RR & CC & BB).
    erewrite sbind_ok by exact EF.
    exists s'. split; [reflexivity|]. auto.
Qed.
