(** * In-memory behaviour for arbitrary overwrites (unlimited cache), crashes
      during append, very long logs *)

From Verif Require Import Base Codec CodecSpec CodecProofs Msg FsLogStore FsLogSpec FsLogProofs FsLogOps FsLogReads FsLogChange FsLogTop.
Local Open Scope N_scope.
Local Open Scope sm_scope.

Definition ostr (os : list N) : list byte := concat (map (le 8) os).

Lemma lenN_ostr os : lenN (ostr os) = 8 * lenN os.
Proof.
  induction os as [|o os IH]; [reflexivity|]. unfold ostr in *. cbn [map concat].
  rewrite lenN_app, lenN_le, IH, lenN_cons. lia.
Qed.
Lemma ostr_app a b : ostr (a ++ b) = ostr a ++ ostr b.
Proof. unfold ostr. rewrite map_app, concat_app. reflexivity. Qed.
Lemma ostr_cons o os : ostr (o :: os) = le 8 o ++ ostr os.
Proof. reflexivity. Qed.

Lemma ostr_snoc a o : ostr (a ++ [o]) = ostr a ++ le 8 o.
Proof. rewrite ostr_app, ostr_cons. unfold ostr at 3. cbn [map concat]. rewrite app_nil_r. reflexivity. Qed.

(** bounds of the offsets: the k-th is at most k * 2^31 *)
Definition bounded (os : list N) : Prop := forall a o b, os = a ++ o :: b -> o <= lenN a * two31.

Record W (s : store) (l : alog) : Prop := mkW {
  W_idx : exists os, f_data (s_idx s) = ostr os /\ lenN os = lenN (al_ents l) /\ bounded os;
  W_dat : lenN (f_data (s_dat s)) <= lenN (al_ents l) * two31;
  W_idx_ok : f_fail (s_idx s) = false;
  W_dat_ok : f_fail (s_dat s) = false;
  W_entries : s_entries s = lenN (al_ents l);
  W_start : s_start s = al_start l;
  W_small : small l;
  W_c_start : c_start (s_cache s) = al_start l;
  W_c_buf : c_buf (s_cache s) = al_ents l;
  W_c_max : c_max (s_cache s) = 2147483647 }.

Lemma lenN_write d p bs : lenN (write_bytes d p bs) <= N.max (lenN d) (p + lenN bs).
Proof.
  unfold write_bytes. destruct bs as [|b0 bs]; [lia|].
  rewrite !lenN_app. unfold lenN. rewrite firstn_length, app_length, repeat_length, skipn_length. lia.
Qed.

Lemma bounded_snoc os o : bounded os -> o <= lenN os * two31 -> bounded (os ++ [o]).
Proof.
  intros B H a x b E. destruct (exists_last (l := x :: b)) as (b' & z & E'); [discriminate|].
  rewrite E' in E. rewrite app_assoc in E. apply app_inj_tail in E. destruct E as [E1 E2]. subst z.
  destruct b' as [|y b'].
  - cbn [app] in E'. injection E' as -> ->. rewrite app_nil_r in E1. subst os. exact H.
  - cbn [app] in E'. injection E' as -> E'. eapply B. rewrite E1. reflexivity.
Qed.
Lemma bounded_prefix a b : bounded (a ++ b) -> bounded a.
Proof. intros B x o y E. eapply B. rewrite E, <- app_assoc. reflexivity. Qed.

Lemma entry_len e : entry_ok e -> lenN (enc e) <= two31.
Proof. intros [_ H]. rewrite lenN_enc. lia. Qed.

Lemma append_W s l e : W s l -> entry_ok e -> small (a_replace l (a_next l) [e]) ->
  exists s', append e s = (Ok (a_next l), s') /\ W s' (a_replace l (a_next l) [e]).
Proof.
  intros [(os & Hi1 & Hi2 & Hi3) Hd Hif Hdf He Hst Sl Hcs Hcb Hcm] Eo Sm.
  destruct s as [[id ip ib] [dd dp db] [sd sp sb] n st [cs cb cm] b], l as [ls es]. sfields. subst.
  unfold a_replace, a_next in *. sfields. rewrite firstn_all2 in * by (unfold lenN; lia).
  pose proof Sl as (S0 & S1 & S2 & S3). sfields.
  unfold append.
  do 3 (erewrite sbind_ok by reflexivity).
  unfold set_idx, set_dat, f_seek_end. sfields. unfold f_tell. sfields.
  unfold sbind at 1, on_idx, f_write, f_write_raw. sfields. rewrite write_end by reflexivity.
  rewrite enc_ok by auto. erewrite sbind_ok by reflexivity.
  unfold sbind at 1, on_dat, f_write, f_write_raw, set_idx, set_dat. sfields. rewrite write_end by reflexivity.
  unfold cache_do, smod, sbind at 1, set_cache. sfields.
  unfold sbind at 1, set_entries. sfields.
  unfold sbind at 1, check_io. sfields. cbn [orb].
  unfold sget. sfields.
  rewrite (wadd_small (lenN es) 1) by (unfold two64; lia).
  rewrite wadd_small by (unfold two64; lia). rewrite wsub_small by (unfold two64; lia).
  eexists. split; [f_equal; f_equal; lia|].
  rewrite c_append_room by (sfields; lia).
  pose proof (entry_len e Eo) as El.
  assert (Ln: lenN (es ++ [e]) = lenN es + 1) by (rewrite lenN_app; reflexivity).
  constructor; sfields; auto; rewrite ?Ln.
  - exists (os ++ [lenN dd]). split; [rewrite ostr_snoc; reflexivity|].
    split; [rewrite lenN_app; change (lenN [lenN dd]) with 1; lia|].
    apply bounded_snoc; auto. rewrite Hi2. exact Hd.
  - rewrite lenN_app. lia.
Qed.

Lemma split_prefix {A} (l : list A) n : (n <= length l)%nat -> exists a b, l = a ++ b /\ length a = n.
Proof. intros H. exists (firstn n l), (skipn n l). rewrite firstn_skipn, firstn_length. split; [reflexivity|lia]. Qed.

Lemma write_at_W s l i e : W s l -> al_start l <= i <= a_next l -> entry_ok e -> small (a_replace l i [e]) ->
  exists s', write_at i e s = (Ok tt, s') /\ W s' (a_replace l i [e]).
Proof.
  intros [(os & Hi1 & Hi2 & Hi3) Hd Hif Hdf He Hst Sl Hcs Hcb Hcm] Hi Eo Sm.
  destruct s as [[id ip ib] [dd dp db] [sd sp sb] n st [cs cb cm] b], l as [ls es]. sfields. subst.
  unfold a_replace, a_next in *. sfields.
  pose proof Sl as (S0 & S1 & S2 & S3). sfields. unfold two31 in *.
  pose proof (entry_len e Eo) as El. unfold two31 in El.
  unfold write_at. do 2 (erewrite sbind_ok by reflexivity). sfields.
  rewrite wadd_small by (unfold two64; lia).
  replace ((i <? ls) || (ls + lenN es <? i)) with false by lia.
  rewrite (wsub_small i ls) by (unfold two64; lia).
  rewrite (wadd_small (i - ls) 1) by (unfold two64; lia).
  rewrite (wsub_small (i - ls + 1) 1) by (unfold two64; lia).
  replace (i - ls + 1 - 1) with (i - ls) by lia.
  rewrite wmul_small by (unfold two64; lia). cbv zeta.
  destruct (split_prefix os (N.to_nat (i - ls))) as (oa & ob & Eos & Loa); [unfold lenN in *; lia|].
  destruct (split_prefix es (N.to_nat (i - ls))) as (u & w & Ees & Lu); [unfold lenN in *; lia|].
  assert (Loa': lenN oa = i - ls) by (unfold lenN; lia). assert (Lu': lenN u = i - ls) by (unfold lenN; lia).
  subst os es. rewrite !lenN_app in *.
  rewrite (firstn_app_exact u w) in * by auto.
  rewrite ostr_app.
  (* position of the new record *)
  erewrite (sbind_ok (if i - ls + 1 <=? lenN u + lenN w then _ else _)).
  2:{ instantiate (1 := mkStore (mkFile (ostr oa ++ ostr ob) (match ob with [] => ip | _ => (i - ls) * 8 + 8 end) false)
        (mkFile dd (match ob with [] => lenN dd | o :: _ => o end) false) (mkFile sd sp sb) (lenN u + lenN w) ls (mkCache ls (u ++ w) 2147483647) b).
      instantiate (1 := tt).
      destruct (N.leb_spec (i - ls + 1) (lenN u + lenN w)) as [Q|Q].
      - destruct ob as [|o ob]; [change (lenN (@nil N)) with 0 in *; lia|].
        assert (Ho: o <= lenN oa * 2147483648) by (eapply Hi3; reflexivity).
        rewrite ostr_cons.
        unfold sbind at 1, idx_do, smod, set_idx. sfields. rewrite f_seek_ok by lia.
        erewrite sbind_ok by (apply read_idx_at; [rewrite lenN_ostr; lia|unfold is_ulong, two64; lia]).
        unfold dat_do, smod, set_dat. sfields. rewrite f_seek_ok by lia. reflexivity.
      - assert (ob = []) by (destruct ob; [reflexivity|rewrite lenN_cons in *; lia]). subst ob.
        unfold dat_do, smod, set_dat, f_seek_end. sfields. reflexivity. }
  set (p := match ob with [] => lenN dd | o :: _ => o end).
  assert (Hp: p <= lenN oa * 2147483648).
  { unfold p. destruct ob as [|o ob]; [|eapply Hi3; reflexivity].
    change (lenN (@nil N)) with 0 in *. assert (lenN w = 0) by lia. lia. }
  unfold sbind at 1, idx_do at 1, smod, set_idx. sfields. rewrite f_seek_ok by lia.
  erewrite sbind_ok by reflexivity. sfields. unfold f_tell at 1. sfields.
  unfold sbind at 1, on_idx, f_write, f_write_raw, set_idx. sfields.
  assert (WI: write_bytes (ostr oa ++ ostr ob) ((i - ls) * 8) (le 8 p) = ostr oa ++ le 8 p ++ ostr (tl ob)).
  { rewrite write_mid by (try (intros Q; discriminate Q); rewrite lenN_ostr; lia). rewrite le_length.
    do 2 f_equal. destruct ob as [|o ob]; [reflexivity|]. rewrite ostr_cons, skipn_app_exact by apply le_length. reflexivity. }
  rewrite WI, lenN_le.
  rewrite enc_ok by auto. erewrite sbind_ok by reflexivity.
  unfold sbind at 1, on_dat, f_write, f_write_raw, set_dat. sfields.
  do 2 (erewrite sbind_ok by reflexivity). unfold f_tell. sfields.
  unfold sbind at 1, idx_do at 1, smod, set_idx, f_seek_end. sfields.
  erewrite sbind_ok by reflexivity. sfields.
  rewrite !lenN_app, !lenN_ostr, lenN_le.
  set (dd' := write_bytes dd p (enc e)).
  assert (Ldd: lenN dd' <= N.max (lenN dd) (p + lenN (enc e))) by apply lenN_write.
  assert (Fin: forall c', c' = mkCache ls (u ++ [e]) 2147483647 -> forall dat' ip' dp', lenN dat' <= (lenN u + 1) * 2147483648 ->
     W (mkStore (mkFile (ostr oa ++ le 8 p) ip' false) (mkFile dat' dp' false) (mkFile sd sp sb) (i - ls + 1) ls c' b) (mkAL ls (u ++ [e]))).
  { intros c' -> dat' ip' dp' HL. assert (Ln: lenN (u ++ [e]) = lenN u + 1) by (rewrite lenN_app; reflexivity).
    constructor; sfields; auto; rewrite ?Ln; try lia.
    - exists (oa ++ [p]). split; [rewrite ostr_snoc; reflexivity|].
      split; [rewrite lenN_app; change (lenN [p]) with 1; lia|].
      apply bounded_snoc; [eapply bounded_prefix; exact Hi3|exact Hp].
    - exact HL. }
  assert (CT: forall c, c = mkCache ls (u ++ w) 2147483647 ->
     c_append (if i - ls + 1 <=? lenN u + lenN w then c_trim c i else c) e = mkCache ls (u ++ [e]) 2147483647).
  { intros c ->. assert (Ec: (if i - ls + 1 <=? lenN u + lenN w then c_trim (mkCache ls (u ++ w) 2147483647) i else mkCache ls (u ++ w) 2147483647) = mkCache ls u 2147483647).
    { destruct (N.leb_spec (i - ls + 1) (lenN u + lenN w)).
      - unfold c_trim. sfields. destruct (N.ltb_spec i ls); [lia|]. rewrite wsub_small by (unfold two64; lia).
        rewrite lenN_app. destruct (N.ltb_spec (i - ls) (lenN u + lenN w)); [|lia]. f_equal. apply firstn_app_exact. lia.
      - assert (w = []) by (destruct w; [reflexivity|rewrite lenN_cons in *; lia]). subst w. rewrite app_nil_r. reflexivity. }
    rewrite Ec. rewrite c_append_room by (sfields; lia). reflexivity. }
  assert (TW: lenN (tl ob) = lenN ob - 1) by (destruct ob; [reflexivity|cbn [tl]; rewrite lenN_cons; lia]).
  rewrite TW.
  match goal with |- context [sbind (if ?c then ?A else ?B) ?k ?s0] =>
    assert (TR: exists dat' ip' dp', lenN dat' <= (lenN u + 1) * 2147483648 /\ (if c then A else B) s0 =
      (Ok tt, mkStore (mkFile (ostr oa ++ le 8 p) ip' false) (mkFile dat' dp' false)
          (mkFile sd sp sb) (lenN u + lenN w) ls (mkCache ls (u ++ w) 2147483647) b))
  end.
  { destruct (N.ltb_spec ((i - ls) * 8 + N.of_nat 8) (8 * lenN oa + (N.of_nat 8 + 8 * (lenN ob - 1)))) as [Q|Q].
    - eexists _, _, _. split; cycle 1.
      + unfold sbind, idx_do, dat_do, smod, set_idx, set_dat. sfields. rewrite (app_assoc (ostr oa)).
        rewrite (f_truncate_at (ostr oa ++ le 8 p)) by (rewrite lenN_app, lenN_ostr, lenN_le; lia).
        unfold f_truncate, f_reopen. reflexivity.
      + sfields. unfold lenN at 1. rewrite app_length, firstn_length, repeat_length. unfold lenN in *. lia.
    - unfold sret. eexists dd', _, _. split; [|].
      + assert (lenN ob <= 1) by lia. assert (lenN w <= 1) by lia.
        unfold p in *. destruct ob as [|o ob].
        * change (lenN (@nil N)) with 0 in *. lia.
        * lia.
      + assert (tl ob = []) as ->.
        { destruct ob as [|o [|o1 ob]]; [reflexivity|reflexivity|]. rewrite !lenN_cons in Q. lia. }
        unfold ostr at 2. cbn [map concat]. rewrite app_nil_r. reflexivity. }
  destruct TR as (dat' & ip' & dp' & HL & TR). erewrite sbind_ok by exact TR.
  specialize (CT _ eq_refl).
  destruct (i - ls + 1 <=? lenN u + lenN w).
  - unfold sbind at 1, cache_do at 1, smod, set_cache. sfields.
    unfold sbind at 1, cache_do at 1, smod, set_cache. sfields. rewrite CT.
    unfold sbind at 1, smod, set_entries. sfields. unfold check_io. sfields. cbn [orb].
    eexists. split; [reflexivity|]. apply Fin; auto.
  - erewrite sbind_ok by reflexivity.
    unfold sbind at 1, cache_do at 1, smod, set_cache. sfields. rewrite CT.
    unfold sbind at 1, smod, set_entries. sfields. unfold check_io. sfields. cbn [orb].
    eexists. split; [reflexivity|]. apply Fin; auto.
Qed.

Lemma W_check_io s l : W s l -> check_io s = (Ok tt, s).
Proof. intros H. unfold check_io. rewrite (W_dat_ok _ _ H), (W_idx_ok _ _ H). reflexivity. Qed.

Lemma entry_at_W s l i : W s l -> is_ulong i ->
  entry_at i s = ((if i <? al_start l then Throw RangeError else Ok (a_get l i)), s).
Proof.
  intros HW Hu. pose proof (W_small _ _ HW) as (S0 & S1 & S2 & S3). unfold is_ulong in Hu.
  unfold entry_at. erewrite sbind_ok by reflexivity. unfold c_at.
  rewrite (W_c_start _ _ HW), (W_c_buf _ _ HW).
  destruct (N.ltb_spec i (al_start l)) as [L|L].
  - rewrite orb_true_r. do 2 (erewrite sbind_ok by reflexivity). rewrite (W_start _ _ HW).
    destruct (N.ltb_spec i (al_start l)); [reflexivity|lia].
  - rewrite orb_false_r, wsub_small by lia.
    unfold a_get. destruct (N.ltb_spec i (al_start l)); [lia|].
    destruct (N.leb_spec (lenN (al_ents l)) (i - al_start l)) as [Q|Q].
    + do 2 (erewrite sbind_ok by reflexivity). rewrite (W_start _ _ HW), (W_entries _ _ HW).
      destruct (N.ltb_spec i (al_start l)); [lia|]. erewrite sbind_ok by (eapply W_check_io; eauto).
      rewrite wadd_small by (unfold two64; lia). destruct (N.leb_spec (al_start l + lenN (al_ents l)) i); [|lia].
      unfold sret. f_equal. f_equal. symmetry. apply nth_error_None. unfold lenN in *. lia.
    + destruct (nth_error (al_ents l) (N.to_nat (i - al_start l))) eqn:E; [reflexivity|].
      apply nth_error_None in E. unfold lenN in *. lia.
Qed.

Lemma term_at_W s l i : W s l -> i < a_next l ->
  term_at i s = (match a_get l i with Some e => Ok (ev_term e) | None => Throw RangeError end, s).
Proof.
  intros HW Hi. pose proof (W_small _ _ HW) as (S0 & S1 & S2 & S3). unfold a_next in Hi.
  unfold term_at. erewrite sbind_ok by reflexivity. unfold c_last_idx, c_get_term, a_get.
  rewrite (W_c_start _ _ HW), (W_c_buf _ _ HW). rewrite wadd_small by (unfold two64; lia).
  destruct (N.leb_spec (al_start l) i) as [L|L].
  - destruct (N.ltb_spec i (al_start l + lenN (al_ents l))); [|lia]. cbn [andb].
    destruct (N.ltb_spec i (al_start l)); [lia|]. destruct (N.leb_spec (al_start l + lenN (al_ents l)) i); [lia|]. cbn [orb].
    rewrite wsub_small by (unfold two64; lia). rewrite int_small by (unfold two31; lia).
    replace (Z.to_nat (Z.of_N (i - al_start l))) with (N.to_nat (i - al_start l)) by lia.
    destruct (Z.ltb_spec (Z.of_N (i - al_start l)) 0); [lia|].
    destruct (nth_error (al_ents l) (N.to_nat (i - al_start l))) eqn:E; [reflexivity|].
    apply nth_error_None in E. unfold lenN in *. lia.
  - cbn [andb]. erewrite sbind_ok by reflexivity. rewrite (W_start _ _ HW).
    destruct (N.ltb_spec i (al_start l)); [reflexivity|lia].
Qed.

Lemma log_entries_W s l a b : W s l -> is_ulong b ->
  log_entries a b s =
    ((if a <? al_start l then Throw RangeError
      else if (b <=? a) || (a_next l <=? a) then Ok None
      else Ok (Some (map Some (a_range l a b)))), s).
Proof.
  intros HW Hu. pose proof (W_small _ _ HW) as (S0 & S1 & S2 & S3). unfold is_ulong in Hu.
  unfold log_entries. do 2 (erewrite sbind_ok by reflexivity). rewrite (W_start _ _ HW), (W_entries _ _ HW). unfold a_next.
  destruct l as [st es]. sfields.
  destruct (N.ltb_spec a st) as [L1|L1]; [reflexivity|].
  rewrite wadd_small by (unfold two64; lia).
  destruct (N.leb_spec b a) as [L2|L2]; cbn [orb]; [reflexivity|].
  destruct (N.leb_spec (st + lenN es) a) as [L3|L3]; [reflexivity|].
  rewrite (wsub_small a st) by lia. rewrite (wsub_small b st) by lia. cbv zeta.
  set (lend := if lenN es <? b - st then lenN es else b - st).
  assert (Hlend: lend = N.min (b - st) (lenN es)).
  { unfold lend. destruct (N.ltb_spec (lenN es) (b - st)); lia. }
  clearbody lend. rewrite wadd_small by (unfold two64; lia).
  destruct (N.leb_spec lend (a - st)); [lia|].
  erewrite sbind_ok by reflexivity. unfold c_fill. rewrite (W_c_start _ _ HW). sfields.
  destruct (N.ltb_spec (lend + st) st); [lia|].
  destruct (N.ltb_spec a st); [lia|].
  rewrite (wsub_small a) by (unfold two64; lia). rewrite int_small by (unfold two31; lia).
  rewrite (wsub_small (lend + st) a), (wsub_small (lend + st) st) by (unfold two64; lia).
  rewrite !int_small by (unfold two31; lia).
  assert (AR: a_range (mkAL st es) a b = firstn (N.to_nat (lend + st - a)) (skipn (N.to_nat (a - st)) es)).
  { unfold a_range. sfields.
    destruct (N.leb_spec (b - st) (lenN es)) as [Q|Q].
    - f_equal. lia.
    - rewrite !firstn_all2; auto; rewrite skipn_length; unfold lenN in *; lia. }
  rewrite AR. pose proof (W_c_buf _ _ HW) as CB. sfields.
  destruct (Z.ltb_spec 0 (Z.of_N (a - st))) as [P|P].
  - replace (Z.of_N (a - st)) with (Z.of_nat (N.to_nat (a - st))) by lia.
    rewrite c_elems_ok by (rewrite CB; unfold lenN in *; lia). rewrite CB.
    erewrite sbind_ok by reflexivity. unfold sret.
    replace (Z.to_nat (Z.of_N (lend + st - a))) with (N.to_nat (lend + st - a)) by lia. reflexivity.
  - assert (a = st) by lia. subst a. rewrite (c_elems_ok _ _ 0) by (rewrite CB; unfold lenN in *; lia). rewrite CB.
    cbn [res_bind]. replace (st - st) with 0 by lia.
    cbn [Z.of_N Z.opp Z.to_nat repeat app N.to_nat skipn]. erewrite sbind_ok by reflexivity. unfold sret.
    replace (Z.to_nat (Z.of_N (lend + st - st))) with (N.to_nat (lend + st - st)) by lia. reflexivity.
Qed.

Lemma mem_step s l op : W s l -> mem_op_ok l op ->
  exists s', run_lop op s = (spec_ans l op, s') /\ W s' (spec_next l op).
Proof.
  intros HW [Hop Sm]. pose proof (W_small _ _ HW) as (S0 & S1 & S2 & S3).
  destruct op; cbn [run_lop spec_ans spec_next] in *; try contradiction.
  - destruct (append_W s l e HW Hop Sm) as (s' & E & HW'). rewrite E. unfold rmap. cbn [fst snd]. eauto.
  - destruct ((i <? al_start l) || (a_next l <? i)) eqn:Ei.
    + exists s. split; [|auto]. unfold write_at. do 2 (erewrite sbind_ok by reflexivity).
      rewrite (W_start _ _ HW), (W_entries _ _ HW). rewrite wadd_small by (unfold two64; lia).
      unfold a_next in Ei. rewrite Ei. reflexivity.
    + destruct (write_at_W s l i e HW ltac:(lia) (Hop ltac:(lia)) Sm) as (s' & E & HW').
      rewrite E. unfold rmap. cbn [fst snd]. eauto.
  - exists s. split; [|auto]. unfold next_slot. rewrite (W_start _ _ HW), (W_entries _ _ HW).
    rewrite wadd_small by (unfold two64; lia). reflexivity.
  - exists s. split; [|auto]. unfold start_index. rewrite (W_start _ _ HW). reflexivity.
  - exists s. split; [|auto]. do 4 f_equal. unfold last_entry, c_last_entry, a_last. rewrite (W_c_buf _ _ HW).
    destruct (al_ents l) as [|e es]; [reflexivity|]. rewrite last_cons. reflexivity.
  - rewrite (entry_at_W s l i HW Hop). unfold rmap. cbn [fst snd]. exists s. split; [|auto].
    destruct (i <? al_start l); reflexivity.
  - rewrite (term_at_W s l i HW Hop). unfold rmap. cbn [fst snd]. exists s. split; [|auto].
    destruct (a_get l i); reflexivity.
  - rewrite (log_entries_W s l a b HW Hop). unfold rmap. cbn [fst snd]. exists s. split; [|auto].
    destruct (a <? al_start l); [reflexivity|]. destruct ((b <=? a) || (a_next l <=? a)); reflexivity.
Qed.

Lemma mem_run ops : forall s l, W s l -> mem_ops_ok l ops ->
  exists s', run_lops ops s = (spec_answers l ops, s') /\ W s' (spec_run l ops).
Proof.
  induction ops as [|op ops IH]; intros s l HW H; cbn [run_lops spec_answers spec_run].
  - eauto.
  - destruct H as [H1 H2]. destruct (mem_step s l op HW H1) as (s1 & E & HW1).
    rewrite E. destruct (IH s1 (spec_next l op) HW1 H2) as (s2 & E2 & HW2). rewrite E2. eauto.
Qed.

Lemma ostr_offs es : forall base, exists os, offs base es = ostr os /\ lenN os = lenN es /\
  (Forall entry_ok es -> forall a o b, os = a ++ o :: b -> o <= base + lenN a * two31).
Proof.
  induction es as [|e es IH]; intros base.
  - exists []. split; [reflexivity|]. split; [reflexivity|]. intros _ a o b E. destruct a; discriminate.
  - destruct (IH (base + esize e)) as (os & E1 & E2 & E3). exists (base :: os).
    cbn [offs]. rewrite E1, ostr_cons, !lenN_cons, E2. split; [reflexivity|]. split; [reflexivity|].
    intros F a o b E. inversion F as [|? ? [_ He] F']; subst. destruct a as [|a0 a].
    + cbn [app] in E. injection E as -> _. lia.
    + cbn [app] in E. injection E as <- E. specialize (E3 F' _ _ _ E). rewrite lenN_cons. lia.
Qed.

Lemma R_W s l : R s l -> s_buf_size s = 2147483647 -> c_start (s_cache s) = al_start l -> W s l.
Proof.
  intros HR B C. pose proof (R_small _ _ HR) as Sl.
  assert (F: Forall entry_ok (al_ents l)) by (destruct Sl as (_ & _ & _ & F); auto).
  constructor; try (apply HR).
  - rewrite (R_idx _ _ HR). destruct (ostr_offs (al_ents l) 0) as (os & E1 & E2 & E3).
    exists os. split; [auto|]. split; [auto|]. intros a o b E. specialize (E3 F a o b E). lia.
  - rewrite (R_dat _ _ HR), lenN_encs. apply dsize_bound. exact F.
  - exact C.
  - rewrite (R_c_buf _ _ HR), C, N.sub_diag. reflexivity.
  - rewrite (R_c_max _ _ HR). exact B.
Qed.

(** ** Opening a folder in which a log was saved *)
Lemma open_disk l z : small l -> z <> 0%Z -> is_int32 z ->
  exists s', open_store (disk_of l) z = (Ok tt, s') /\ R s' l /\
    c_start (s_cache s') = reload_window (cache_limit z) l /\ s_buf_size s' = cache_limit z.
Proof.
  intros Sm Hz Hz32.
  assert (HR: R (mkStore (mkFile (offs 0 (al_ents l)) 0 false) (mkFile (encs (al_ents l)) 0 false) (mkFile (le 8 (al_start l)) 0 false)
     (lenN (al_ents l)) (al_start l) (mkCache (al_start l) (al_ents l) (lenN (al_ents l) + 1)) (lenN (al_ents l) + 1)) l).
  { pose proof (R_mk [] (al_ents l) (al_start l) 0 0 0 (lenN (al_ents l) + 1) l) as RM. cbn [app] in RM.
    change (lenN (@nil entry_val)) with 0 in RM. rewrite N.add_0_r in RM. apply RM; auto; lia. }
  destruct (reopen_ok _ _ z HR Hz Hz32) as (s' & E & HR' & C & B).
  exists s'. split; [exact E|]. split; [exact HR'|]. split; [|exact B].
  rewrite C. destruct Sm as (_ & S1 & _). unfold reload_window. apply first_cached_small. exact S1.
Qed.

(** ** Too many entries *)
Lemma open_too_many l z : 268435456 <= lenN (al_ents l) -> al_start l + lenN (al_ents l) < 1152921504606846976 ->
  dsize (al_ents l) < 9223372036854775808 -> (z < 0)%Z ->
  fst (open_store (disk_of l) z) = Throw OutOfRange.
Proof.
  intros H1 H2 H3 Hz. destruct l as [st es]. sfields.
  unfold open_store, disk_of, cache_limit. cbn [d_idx d_dat d_sti]. sfields.
  destruct (Z.ltb_spec z 0); [|lia].
  cbv zeta. unfold f_reopen. sfields. unfold f_tell at 1. sfields. rewrite lenN_le.
  destruct (N.ltb_spec 0 (N.of_nat 8)); [|lia].
  erewrite (sbind_ok (sbind (sti_do _) _)).
  2:{ unfold sbind at 1, sti_do, smod, set_sti. sfields. rewrite f_seek_ok by lia.
      erewrite sbind_ok.
      2:{ unfold on_sti. sfields.
          pose proof (f_read_at [] (le 8 st) [] 0 8 eq_refl eq_refl) as FR. rewrite app_nil_r in FR. cbn [app] in FR.
          rewrite FR. reflexivity. }
      rewrite of_le_le8 by (unfold is_ulong, two64; lia).
      unfold sbind, smod, set_start, set_entries, set_sti, sget. sfields. unfold f_tell. sfields.
      rewrite lenN_offs. replace (8 * lenN es / 8) with (lenN es) by lia. reflexivity. }
  unfold sbind at 1, smod, set_cache. sfields.
  rewrite first_cached_small by lia.
  unfold fill_buffer. erewrite sbind_ok by reflexivity. sfields.
  do 5 (erewrite sbind_ok by reflexivity).
  unfold set_idx, set_dat, f_seek_end. sfields. unfold f_tell. sfields. rewrite lenN_offs, lenN_encs.
  destruct (N.ltb_spec 0 (8 * lenN es)); [|lia]. cbn [andb negb].
  erewrite sbind_ok by reflexivity. sfields.
  rewrite (wsub_small _ st) by (unfold two64; lia). rewrite wmul_small by (unfold two64; lia).
  unfold sbind at 1, idx_do, smod, set_idx. sfields. rewrite f_seek_ok by lia.
  rewrite wsub_small by (unfold two64; lia).
  unfold can_alloc. match goal with |- context [two31 <=? ?x] => destruct (N.leb_spec two31 x) as [Q|Q] end.
  - reflexivity.
  - exfalso. unfold two31 in Q. lia.
Qed.
