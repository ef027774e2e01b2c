(** * Reading operations of the store refine the indexed log *)

From Verif Require Import Base Codec CodecSpec CodecProofs Msg FsLogStore FsLogSpec FsLogProofs FsLogOps.
Local Open Scope N_scope.
Local Open Scope sm_scope.

(** Moving file positions keeps the invariant. *)
Lemma R_move ip dp s l : R s l ->
  R (mkStore (mkFile (f_data (s_idx s)) ip false) (mkFile (f_data (s_dat s)) dp false) (s_sti s) (s_entries s)
       (s_start s) (s_cache s) (s_buf_size s)) l.
Proof. intros [? ? ? ? ? ? ? ? ? ? ? ? ? ? ? ?]. constructor; sfields; auto. Qed.

Definition moved (s s' : store) (l : alog) : Prop := R s' l /\ s_cache s' = s_cache s.

Lemma moved_refl s l : R s l -> moved s s l.
Proof. split; auto. Qed.

Lemma idx_split p e q base : offs base (p ++ e :: q) = offs base p ++ le 8 (base + dsize p) ++ offs (base + dsize p + esize e) q.
Proof. rewrite offs_app. reflexivity. Qed.
Lemma dat_split p e q : encs (p ++ e :: q) = encs p ++ enc e ++ encs q.
Proof. rewrite encs_app. reflexivity. Qed.

Lemma in_ok p e q : Forall entry_ok (p ++ e :: q) -> entry_ok e.
Proof. intros F. apply Forall_app in F. destruct F as [_ F]. inversion F; auto. Qed.

Lemma a_get_at st p e q : a_get (mkAL st (p ++ e :: q)) (st + lenN p) = Some e.
Proof.
  unfold a_get. sfields. destruct (N.ltb_spec (st + lenN p) st); [lia|].
  replace (N.to_nat (st + lenN p - st)) with (length p) by (unfold lenN; lia).
  rewrite nth_error_app2, Nat.sub_diag by lia. reflexivity.
Qed.

Lemma check_io_ok s l : R s l -> check_io s = (Ok tt, s).
Proof. intros H. unfold check_io. rewrite (R_dat_ok _ _ H), (R_idx_ok _ _ H). reflexivity. Qed.

(** ** entry_at *)
Lemma entry_at_ok s l i : R s l -> is_ulong i ->
  exists s', entry_at i s = ((if i <? al_start l then Throw RangeError else Ok (a_get l i)), s') /\ moved s s' l.
Proof.
  intros HR Hu. pose proof (R_small _ _ HR) as Sl.
  pose proof (check_io_ok _ _ HR) as CIO.
  pose proof HR as HR'.
  destruct (R_explicit _ _ HR) as (x & y & ip & dp & sp & E & NE & Es & Hy & Hb).
  destruct l as [st es]. sfields. subst es.
  pose proof (dsize_small _ Sl) as DS. destruct Sl as (S0 & S1 & S2 & S3). sfields. rewrite lenN_app in *. rewrite dsize_app in DS.
  unfold is_ulong in Hu.
  unfold entry_at. erewrite sbind_ok by reflexivity.
  assert (Ec: s_cache s = mkCache (st + lenN x) y (s_buf_size s)) by (rewrite Es; reflexivity).
  assert (Est: s_start s = st) by (rewrite Es; reflexivity).
  assert (Een: s_entries s = lenN x + lenN y) by (rewrite Es; sfields; rewrite ?lenN_app; reflexivity).
  rewrite Ec. unfold c_at. sfields.
  destruct (N.ltb_spec i (st + lenN x)) as [Lo|Lo].
  - rewrite orb_true_r. do 2 (erewrite sbind_ok by reflexivity). rewrite Est, Een.
    destruct (N.ltb_spec i st) as [L1|L1].
    + eexists. split; [reflexivity|]. apply moved_refl; auto.
    + erewrite sbind_ok by exact CIO.
      rewrite wadd_small by (unfold two64; lia). destruct (N.leb_spec (st + (lenN x + lenN y)) i); [lia|].
      destruct (split_nth x (N.to_nat (i - st))) as (p & e & q & Ex & Hp); [unfold lenN in *; lia|].
      assert (i = st + lenN p) by (unfold lenN in *; lia). subst i. clear Hp Lo H L1. subst x.
      destruct (q ++ y) as [|e1 r] eqn:Eq.
      { destruct q; [|discriminate]. cbn [app] in Eq. subst y. specialize (NE eq_refl). destruct p; discriminate. }
      assert (EE: (p ++ e :: q) ++ y = p ++ e :: e1 :: r) by (rewrite <- app_assoc; cbn [app]; rewrite Eq; reflexivity).
      rewrite Es. rewrite EE.
      rewrite lenN_app, lenN_cons in S1, S2. rewrite dsize_app in DS. cbn [dsize] in DS.
      rewrite (wsub_small (st + lenN p) st) by (unfold two64; lia).
      replace (st + lenN p - st) with (lenN p) by lia.
      rewrite wmul_small by (unfold two64; lia).
      pose proof S3 as S3'. rewrite EE in S3'. apply in_ok in S3'. destruct S3' as [He1 He2].
      rewrite idx_split, dat_split. rewrite N.add_0_l. cbn [offs].
      unfold sbind at 1, idx_do at 1, smod, set_idx. sfields. rewrite f_seek_ok by lia.
      erewrite sbind_ok by (apply read_idx_at; [rewrite lenN_offs; lia|unfold is_ulong, two64; lia]).
      set (O2 := offs (dsize p + esize e + esize e1) r).
      rewrite (app_assoc (offs 0 p)).
      erewrite sbind_ok by (apply read_idx_at; [rewrite lenN_app, lenN_le, lenN_offs; lia|unfold is_ulong, two64; lia]).
      unfold sbind at 1, dat_do at 1, smod, set_dat. sfields. rewrite f_seek_ok by lia.
      rewrite wsub_small by (unfold two64; lia). replace (dsize p + esize e - dsize p) with (esize e) by lia.
      rewrite int_small by auto. rewrite ulong_small by (unfold two31 in He2; lia). rewrite N2Z.id.
      erewrite sbind_ok by (apply read_dat_at; [rewrite lenN_encs; reflexivity|rewrite lenN_enc; reflexivity|auto]).
      rewrite dec_enc by (split; auto). erewrite sbind_ok by reflexivity.
      rewrite <- (app_assoc (offs 0 p)).
      assert (A0: a_get (mkAL st (p ++ e :: e1 :: r)) (st + lenN p) = Some e) by apply a_get_at.
      rewrite A0. unfold sret. eexists. split; [reflexivity|].
      split; [|rewrite ?Ec; reflexivity].
      rewrite Es in HR'. rewrite EE in HR'.
      pose proof (fun a b => R_move a b _ _ HR') as RM. sfields.
      rewrite idx_split, dat_split in RM. rewrite N.add_0_l in RM. cbn [offs] in RM. apply RM.
  - rewrite orb_false_r.
    assert (i <? st = false) as -> by lia.
    rewrite wsub_small by lia.
    destruct (N.leb_spec (lenN y) (i - (st + lenN x))) as [Hi|Hi].
    + do 2 (erewrite sbind_ok by reflexivity). rewrite Est, Een.
      assert (i <? st = false) as -> by lia.
      erewrite sbind_ok by exact CIO. rewrite wadd_small by (unfold two64; lia).
      destruct (N.leb_spec (st + (lenN x + lenN y)) i); [|lia].
      eexists. split; [|apply moved_refl; auto]. unfold sret. f_equal. f_equal.
      unfold a_get. sfields. assert (i <? st = false) as -> by lia. symmetry. apply nth_error_None.
      rewrite app_length. unfold lenN in *. lia.
    + destruct (split_nth y (N.to_nat (i - (st + lenN x)))) as (p & e & q & Ey & Hp); [unfold lenN in *; lia|].
      assert (i = st + lenN (x ++ p)) by (rewrite lenN_app; unfold lenN in *; lia).
      rewrite Ey. rewrite <- Hp. rewrite nth_error_app2, Nat.sub_diag by lia. cbn [nth_error].
      unfold sret. eexists. split; [|apply moved_refl; subst y; auto].
      rewrite (app_assoc x), H, a_get_at. reflexivity.
Qed.

(** ** term_at *)
Lemma term_at_ok s l i : R s l -> i < a_next l ->
  exists s', term_at i s =
    (match a_get l i with Some e => Ok (ev_term e) | None => Throw RangeError end, s') /\ moved s s' l.
Proof.
  intros HR Hn. pose proof (R_small _ _ HR) as Sl.
  pose proof (check_io_ok _ _ HR) as CIO.
  pose proof HR as HR'.
  destruct (R_explicit _ _ HR) as (x & y & ip & dp & sp & E & NE & Es & Hy & Hb).
  destruct l as [st es]. sfields. subst es. unfold a_next in Hn. sfields.
  pose proof (dsize_small _ Sl) as DS. destruct Sl as (S0 & S1 & S2 & S3). sfields. rewrite lenN_app in *. rewrite dsize_app in DS.
  unfold term_at. erewrite sbind_ok by reflexivity.
  assert (Ec: s_cache s = mkCache (st + lenN x) y (s_buf_size s)) by (rewrite Es; reflexivity).
  assert (Est: s_start s = st) by (rewrite Es; reflexivity).
  rewrite Ec. unfold c_last_idx, c_get_term. sfields.
  rewrite !wadd_small by (unfold two64; lia).
  destruct (N.leb_spec (st + lenN x) i) as [Lo|Lo].
  - destruct (N.ltb_spec i (st + lenN x + lenN y)) as [Hi|Hi]; [|lia]. cbn [andb].
    destruct (N.ltb_spec i (st + lenN x)); [lia|]. destruct (N.leb_spec (st + lenN x + lenN y) i); [lia|]. cbn [orb].
    rewrite wsub_small by (unfold two64; lia). rewrite int_small by (unfold two31; lia).
    destruct (split_nth y (N.to_nat (i - (st + lenN x)))) as (p & e & q & Ey & Hp); [unfold lenN in *; lia|].
    assert (Hi': i = st + lenN (x ++ p)) by (rewrite lenN_app; unfold lenN in *; lia).
    replace (Z.to_nat (Z.of_N (i - (st + lenN x)))) with (length p) by lia.
    rewrite Ey. rewrite nth_error_app2, Nat.sub_diag by lia. cbn [nth_error].
    destruct (Z.ltb_spec (Z.of_N (i - (st + lenN x))) 0); [lia|].
    eexists. split; [|apply moved_refl; subst y; auto].
    unfold slift. rewrite (app_assoc x), Hi', a_get_at. reflexivity.
  - cbn [andb]. erewrite sbind_ok by reflexivity. rewrite Est.
    destruct (N.ltb_spec i st) as [L1|L1].
    + eexists. split; [|apply moved_refl; auto]. unfold a_get. sfields.
      destruct (N.ltb_spec i st); [reflexivity|lia].
    + erewrite sbind_ok by exact CIO.
      destruct (split_nth x (N.to_nat (i - st))) as (p & e & q & Ex & Hp); [unfold lenN in *; lia|].
      assert (i = st + lenN p) by (unfold lenN in *; lia). subst i. clear Hp Lo L1. subst x.
      assert (EE: (p ++ e :: q) ++ y = p ++ e :: (q ++ y)) by (rewrite <- app_assoc; reflexivity).
      rewrite Es. rewrite EE.
      rewrite lenN_app, lenN_cons in S1, S2. rewrite dsize_app in DS. cbn [dsize] in DS.
      rewrite (wsub_small (st + lenN p) st) by (unfold two64; lia).
      replace (st + lenN p - st) with (lenN p) by lia.
      rewrite int_small by (unfold two31; lia). rewrite ulong_small by lia. rewrite N2Z.id.
      rewrite wmul_small by (unfold two64; lia).
      pose proof S3 as S3'. rewrite EE in S3'. apply in_ok in S3'. destruct S3' as [He1 He2].
      rewrite idx_split, dat_split. rewrite N.add_0_l.
      unfold sbind at 1, idx_do at 1, smod, set_idx. sfields. rewrite f_seek_ok by lia.
      erewrite sbind_ok by (apply read_idx_at; [rewrite lenN_offs; lia|unfold is_ulong, two64; lia]).
      unfold sbind at 1, dat_do at 1, smod, set_dat. sfields. rewrite f_seek_ok by lia.
      assert (En: enc e ++ encs (q ++ y) = le 8 (ev_term e) ++ ([ev_type e] ++ ev_data e) ++ encs (q ++ y)).
      { unfold enc, entry_bytes. rewrite <- app_assoc. reflexivity. }
      rewrite En.
      erewrite sbind_ok by (apply read_dat_at; [rewrite lenN_encs; reflexivity|rewrite lenN_le; reflexivity|unfold two31; lia]).
      rewrite of_le_le8 by auto. rewrite a_get_at. unfold sret. eexists. split; [reflexivity|].
      split; [|rewrite ?Ec; reflexivity].
      rewrite Es in HR'. rewrite EE in HR'.
      pose proof (fun a b => R_move a b _ _ HR') as RM. sfields.
      rewrite idx_split, dat_split in RM. rewrite N.add_0_l in RM. rewrite En in RM. apply RM.
Qed.

(** ** log_entries *)
Lemma c_elems_ok c n : forall k,
  (k + n <= length (c_buf c))%nat ->
  c_elems c (Z.of_nat k) n = Ok (map Some (firstn n (skipn k (c_buf c)))).
Proof.
  induction n as [|n IH]; intros k H; [reflexivity|].
  cbn [c_elems]. unfold c_elem. destruct (Z.ltb_spec (Z.of_nat k) 0); [lia|]. rewrite Nat2Z.id.
  destruct (split_nth (c_buf c) k) as (p & e & q & Ey & Hp); [lia|].
  rewrite Ey. subst k. rewrite nth_error_app2, Nat.sub_diag by lia. cbn [nth_error res_bind].
  replace (Z.of_nat (length p) + 1)%Z with (Z.of_nat (S (length p))) by lia. rewrite IH by lia. cbn [res_bind].
  rewrite Ey. rewrite (skipn_app_exact p (e :: q) (length p)) by reflexivity. cbn [firstn map].
  replace (p ++ e :: q) with ((p ++ [e]) ++ q) by (rewrite <- app_assoc; reflexivity).
  rewrite skipn_app_exact by (rewrite app_length; cbn [length]; lia). reflexivity.
Qed.

Lemma set_or_push_at {A} (pre : list A) x y l : set_or_push (length pre) x (pre ++ y :: l) = pre ++ x :: l.
Proof. induction pre as [|z pre IH]; cbn [length app set_or_push]; [reflexivity|]. rewrite IH. reflexivity. Qed.

Lemma log_entries_loop_ok x2 : forall x1 y pre tl sti n st c b dp,
  y <> [] -> Forall entry_ok (x1 ++ x2 ++ y) -> dsize (x1 ++ x2 ++ y) < 9223372036854775808 ->
  exists ip' dp',
  log_entries_loop (length x2) (length pre) (dsize x1) (pre ++ repeat None (length x2) ++ tl)
    (mkStore (mkFile (offs 0 (x1 ++ x2 ++ y)) (8 * (lenN x1 + 1)) false)
             (mkFile (encs (x1 ++ x2 ++ y)) dp false) sti n st c b) =
  (Ok (pre ++ map Some x2 ++ tl),
   mkStore (mkFile (offs 0 (x1 ++ x2 ++ y)) ip' false)
             (mkFile (encs (x1 ++ x2 ++ y)) dp' false) sti n st c b).
Proof.
  induction x2 as [|e x2 IH]; intros x1 y pre tl sti n st c b dp Hy F D; cbn [length repeat map app log_entries_loop].
  - unfold sret. eauto.
  - destruct (x2 ++ y) as [|e1 r] eqn:Eq.
    { destruct x2, y; try discriminate. congruence. }
    rewrite idx_split, dat_split, N.add_0_l. cbn [offs].
    assert (He: entry_ok e) by (apply in_ok in F; auto). destruct He as [He1 He2].
    rewrite dsize_app in D. cbn [app dsize] in D. rewrite Eq in D. cbn [dsize] in D.
    set (O2 := offs (dsize x1 + esize e + esize e1) r).
    rewrite (app_assoc (offs 0 x1)).
    erewrite sbind_ok by (apply read_idx_at; [rewrite lenN_app, lenN_le, lenN_offs; lia|unfold is_ulong, two64; lia]).
    unfold sbind at 1, dat_do at 1, smod, set_dat. sfields. rewrite f_seek_ok by lia.
    rewrite wsub_small by (unfold two64; lia). replace (dsize x1 + esize e - dsize x1) with (esize e) by lia.
    rewrite int_small by auto. rewrite ulong_small by (unfold two31 in He2; lia). rewrite N2Z.id.
    erewrite sbind_ok by (apply read_dat_at; [rewrite lenN_encs; reflexivity|rewrite lenN_enc; reflexivity|auto]).
    rewrite dec_enc by (split; auto). erewrite sbind_ok by reflexivity.
    rewrite set_or_push_at.
    rewrite <- (app_assoc (offs 0 x1)).
    assert (J: forall u, pre ++ Some e :: u = (pre ++ [Some e]) ++ u) by (intros; rewrite <- app_assoc; reflexivity).
    rewrite (J (repeat None (length x2) ++ tl)), (J (map Some x2 ++ tl)).
    replace (S (length pre)) with (length (pre ++ [Some e])) by (rewrite app_length; cbn [length]; lia).
    destruct (IH (x1 ++ [e]) y (pre ++ [Some e]) tl sti n st c b (dsize x1 + esize e)) as (ip' & dp' & IHe); auto.
    { rewrite <- app_assoc. cbn [app]. cbn [app] in F. exact F. }
    { rewrite <- app_assoc. cbn [app]. rewrite dsize_app. cbn [dsize]. rewrite Eq. cbn [dsize]. lia. }
    exists ip', dp'.
    assert (A1: (x1 ++ [e]) ++ x2 ++ y = x1 ++ e :: e1 :: r) by (rewrite <- app_assoc; cbn [app]; rewrite Eq; reflexivity).
    rewrite A1, idx_split, dat_split, N.add_0_l in IHe. cbn [offs] in IHe. fold O2 in IHe.
    rewrite dsize_app in IHe. cbn [dsize] in IHe. rewrite N.add_0_r in IHe.
    rewrite lenN_app in IHe. change (lenN [e]) with 1 in IHe.
    replace (8 * (lenN x1 + 1) + 8) with (8 * (lenN x1 + 1 + 1)) by lia.
    exact IHe.
Qed.

Lemma log_entries_ok s l a b : R s l -> is_ulong b -> b <= a \/ c_start (s_cache s) <= b ->
  exists s', log_entries a b s =
    ((if a <? al_start l then Throw RangeError
      else if (b <=? a) || (a_next l <=? a) then Ok None
      else Ok (Some (map Some (a_range l a b)))), s') /\ moved s s' l.
Proof.
  intros HR Hu Hc. pose proof (R_small _ _ HR) as Sl.
  pose proof (check_io_ok _ _ HR) as CIO.
  pose proof HR as HR'.
  destruct (R_explicit _ _ HR) as (x & y & ip & dp & sp & E & NE & Es & Hy & Hb).
  destruct l as [st es]. sfields. subst es. unfold a_next. sfields.
  pose proof (dsize_small _ Sl) as DS. destruct Sl as (S0 & S1 & S2 & S3). sfields. rewrite lenN_app in *.
  unfold is_ulong in Hu.
  assert (Ec: s_cache s = mkCache (st + lenN x) y (s_buf_size s)) by (rewrite Es; reflexivity).
  assert (Est: s_start s = st) by (rewrite Es; reflexivity).
  assert (Een: s_entries s = lenN x + lenN y) by (rewrite Es; sfields; rewrite ?lenN_app; reflexivity).
  rewrite Ec in Hc. sfields.
  unfold log_entries. do 2 (erewrite sbind_ok by reflexivity). rewrite Est, Een.
  destruct (N.ltb_spec a st) as [L1|L1]; [eexists; split; [reflexivity|apply moved_refl; auto]|].
  rewrite wadd_small by (unfold two64; lia).
  destruct (N.leb_spec b a) as [L2|L2]; cbn [orb]; [eexists; split; [reflexivity|apply moved_refl; auto]|].
  destruct (N.leb_spec (st + (lenN x + lenN y)) a) as [L3|L3]; [eexists; split; [reflexivity|apply moved_refl; auto]|].
  destruct Hc as [Hc|Hc]; [lia|].
  rewrite (wsub_small a st) by lia. rewrite (wsub_small b st) by lia. cbv zeta.
  set (lend := if lenN x + lenN y <? b - st then lenN x + lenN y else b - st).
  assert (Hlend: lend = N.min (b - st) (lenN x + lenN y)).
  { unfold lend. destruct (N.ltb_spec (lenN x + lenN y) (b - st)); lia. }
  clearbody lend. rewrite wadd_small by (unfold two64; lia).
  destruct (N.leb_spec lend (a - st)); [lia|].
  erewrite sbind_ok by reflexivity. rewrite Ec. unfold c_fill. sfields.
  destruct (N.ltb_spec (lend + st) (st + lenN x)); [lia|].
  destruct (N.ltb_spec a (st + lenN x)) as [Lo|Lo].
  - (* starts before the cache *)
    assert (W: int_of_ulong (wsub a (st + lenN x)) = (- Z.of_N (st + lenN x - a))%Z).
    { unfold int_of_ulong, wsub. rewrite (N.mod_small (st + lenN x)) by (unfold two64; lia).
      rewrite (N.mod_small (a + (two64 - (st + lenN x)))) by (unfold two64; lia).
      unfold to_int32, two64. lia. }
    rewrite W. destruct (Z.ltb_spec 0 (- Z.of_N (st + lenN x - a))) as [|_]; [lia|].
    rewrite (wsub_small (lend + st)) by (unfold two64; lia). rewrite int_small by (unfold two31; lia).
    rewrite (c_elems_ok _ _ 0) by (sfields; unfold lenN in *; lia). sfields. cbn [skipn res_bind].
    erewrite sbind_ok by reflexivity.
    erewrite sbind_ok by exact CIO.
    rewrite (wsub_small (st + lenN x)) by (unfold two64; lia).
    replace (st + lenN x - st) with (lenN x) by lia.
    rewrite wmul_small by (unfold two64; lia).
    assert (Hx: exists x1 x2, x = x1 ++ x2 /\ lenN x1 = a - st).
    { exists (firstn (N.to_nat (a - st)) x), (skipn (N.to_nat (a - st)) x). rewrite firstn_skipn. split; [reflexivity|].
      unfold lenN in *. rewrite firstn_length. lia. }
    destruct Hx as (x1 & x2 & -> & Hx1). rewrite lenN_app in *.
    assert (Hx2: exists e0 q, x2 = e0 :: q).
    { destruct x2; [rewrite lenN_nil in *; lia|eauto]. }
    rewrite Es. rewrite <- (app_assoc x1) in *.
    unfold sbind at 1, idx_do at 1, smod, set_idx. sfields. rewrite f_seek_ok by lia.
    assert (RI: forall g stf n' s' c' b', read_idx_ulong (mkStore (mkFile (offs 0 (x1 ++ x2 ++ y)) ((a - st) * 8) false) g stf n' s' c' b') =
       (Ok (dsize x1), mkStore (mkFile (offs 0 (x1 ++ x2 ++ y)) (8 * (lenN x1 + 1)) false) g stf n' s' c' b')).
    { intros. destruct Hx2 as (e0 & q & ->). cbn [app]. rewrite idx_split, N.add_0_l.
      rewrite read_idx_at.
      - do 3 f_equal. lia.
      - rewrite lenN_offs. lia.
      - rewrite dsize_app in DS. unfold is_ulong, two64. lia. }
    erewrite sbind_ok by apply RI.
    destruct (log_entries_loop_ok x2 x1 y [] (map Some (firstn (N.to_nat (lend + st - (st + (lenN x1 + lenN x2)))) y))
       (mkFile (le 8 st) sp false) (lenN x1 + lenN x2 + lenN y) st (mkCache (st + (lenN x1 + lenN x2)) y (s_buf_size s)) (s_buf_size s) dp)
       as (ip' & dp' & LL); auto.
    { intros ->. specialize (NE eq_refl). destruct Hx2 as (e0 & q & ->). destruct x1; discriminate. }
    { lia. }
    cbn [app length] in LL.
    rewrite (wsub_small (lenN x1 + lenN x2) (a - st)) by (unfold two64; lia).
    rewrite (int_small (lenN x1 + lenN x2 - (a - st))) by (unfold two31; lia).
    replace (Z.to_nat (Z.of_N (lenN x1 + lenN x2 - (a - st)))) with (length x2) by (unfold lenN in *; lia).
    replace (Z.to_nat (- - Z.of_N (st + (lenN x1 + lenN x2) - a))) with (length x2) by (unfold lenN in *; lia).
    replace (Z.to_nat (Z.of_N (lend + st - (st + (lenN x1 + lenN x2))))) with (N.to_nat (lend + st - (st + (lenN x1 + lenN x2)))) by lia.
    erewrite sbind_ok by exact LL.
    unfold sret. eexists. split.
    { f_equal. f_equal. f_equal. rewrite <- map_app. f_equal. unfold a_range. sfields.
      rewrite skipn_app_exact by (unfold lenN in *; lia).
      rewrite firstn_app_ge by (unfold lenN in *; lia). f_equal.
      destruct (N.leb_spec (b - st) (lenN x1 + lenN x2 + lenN y)) as [Q|Q].
      - f_equal. unfold lenN in *. lia.
      - rewrite !firstn_all2 by (unfold lenN in *; lia). reflexivity. }
    split; [|reflexivity].
    rewrite Es in HR'. exact (R_move ip' dp' _ _ HR').
  - (* entirely in the cache *)
    assert (G: (if (0 <? int_of_ulong (wsub a (st + lenN x)))%Z
      then c_elems (mkCache (st + lenN x) y (s_buf_size s)) (int_of_ulong (wsub a (st + lenN x)))
             (Z.to_nat (int_of_ulong (wsub (lend + st) a)))
      else res_bind (c_elems (mkCache (st + lenN x) y (s_buf_size s)) 0 (Z.to_nat (int_of_ulong (wsub (lend + st) (st + lenN x)))))
             (fun l => Ok (repeat None (Z.to_nat (- int_of_ulong (wsub a (st + lenN x)))) ++ l))) =
      Ok (map Some (a_range (mkAL st (x ++ y)) a b))).
    { rewrite (wsub_small a) by (unfold two64; lia). rewrite int_small by (unfold two31; lia).
      rewrite (wsub_small (lend + st) a), (wsub_small (lend + st) (st + lenN x)) by (unfold two64; lia).
      rewrite !int_small by (unfold two31; lia).
      assert (AR: a_range (mkAL st (x ++ y)) a b = firstn (N.to_nat (lend + st - a)) (skipn (N.to_nat (a - (st + lenN x))) y)).
      { unfold a_range. sfields. rewrite skipn_app_ge by (unfold lenN in *; lia).
        replace (N.to_nat (a - st) - length x)%nat with (N.to_nat (a - (st + lenN x))) by (unfold lenN in *; lia).
        destruct (N.leb_spec (b - st) (lenN x + lenN y)) as [Q|Q].
        - f_equal. lia.
        - rewrite !firstn_all2; auto; rewrite skipn_length; unfold lenN in *; lia. }
      rewrite AR.
      destruct (Z.ltb_spec 0 (Z.of_N (a - (st + lenN x)))) as [P|P].
      - replace (Z.of_N (a - (st + lenN x))) with (Z.of_nat (N.to_nat (a - (st + lenN x)))) by lia.
        rewrite c_elems_ok by (sfields; unfold lenN in *; lia). sfields.
        replace (Z.to_nat (Z.of_N (lend + st - a))) with (N.to_nat (lend + st - a)) by lia. reflexivity.
      - assert (a = st + lenN x) by lia. subst a. rewrite (c_elems_ok _ _ 0) by (sfields; unfold lenN in *; lia). sfields.
        cbn [res_bind]. replace (st + lenN x - (st + lenN x)) with 0 by lia.
        cbn [Z.of_N Z.opp Z.to_nat repeat app N.to_nat skipn].
        replace (Z.to_nat (Z.of_N (lend + st - (st + lenN x)))) with (N.to_nat (lend + st - (st + lenN x))) by lia. reflexivity. }
    rewrite G. erewrite sbind_ok by reflexivity.
    eexists. split; [reflexivity|apply moved_refl; auto].
Qed.

(** ** pack *)
Lemma int_b_small n : n < two31 -> int_b (Z.of_N n) = le 4 n.
Proof. intros H. unfold int_b. rewrite Z.mod_small by (unfold two31 in H; lia). rewrite N2Z.id. reflexivity. Qed.

Lemma pack_ok s l i cnt : R s l -> is_ulong i -> (0 < cnt)%Z -> is_int32 cnt -> pack_small (a_range l i (i + Z.to_N cnt)) ->
  exists s' r, pack i cnt s = (r, s') /\ moved s s' l /\
    (if i <? al_start l then r = Throw RangeError
     else if a_next l <=? i then r = Ok []
     else r = Ok (pack_bytes (dsize (a_range l (al_start l) i)) (a_range l i (i + Z.to_N cnt)))).
Proof.
  intros HR Hu Hcnt Hc32 HP. pose proof (R_small _ _ HR) as Sl.
  pose proof (check_io_ok _ _ HR) as CIO.
  pose proof HR as HR'.
  destruct (R_explicit _ _ HR) as (x0 & y0 & ip & dp & sp & E & NE & Es & Hy & Hb).
  unfold pack. do 2 (erewrite sbind_ok by reflexivity).
  rewrite (R_start _ _ HR), (R_entries _ _ HR).
  destruct l as [st es]. sfields. unfold a_next. sfields.
  rewrite <- E in Es. unfold is_ulong in Hu. unfold is_int32 in Hc32.
  pose proof (dsize_small _ Sl) as DS. destruct Sl as (S0 & S1 & S2 & S3). sfields.
  destruct (N.ltb_spec i st) as [L1|L1].
  { eexists _, _. split; [reflexivity|]. split; [apply moved_refl; auto|reflexivity]. }
  erewrite sbind_ok by exact CIO. rewrite wsub_small by lia. cbv zeta.
  destruct (N.leb_spec (st + lenN es) i) as [L2|L2].
  { destruct (N.leb_spec (lenN es) (i - st)) as [Q|Q]; [|lia].
    eexists _, _. split; [reflexivity|]. split; [apply moved_refl; auto|reflexivity]. }
  destruct (N.leb_spec (lenN es) (i - st)) as [Q|Q]; [lia|]. clear Q.
  rewrite (ulong_small cnt) by lia. rewrite wadd_small by (unfold two64; lia).
  unfold a_range in *. sfields.
  replace (i + Z.to_N cnt - i) with (Z.to_N cnt) in * by lia.
  replace (N.to_nat (st - st)) with 0%nat by lia. rewrite skipn_O.
  set (x := firstn (N.to_nat (i - st)) es).
  set (m := firstn (N.to_nat (Z.to_N cnt)) (skipn (N.to_nat (i - st)) es)) in *.
  set (r := skipn (N.to_nat (Z.to_N cnt)) (skipn (N.to_nat (i - st)) es)).
  assert (Ees: es = x ++ m ++ r) by (unfold x, m, r; rewrite !firstn_skipn; reflexivity).
  assert (Lx: lenN x = i - st) by (unfold x, lenN in *; rewrite firstn_length; lia).
  assert (Lm: lenN m = N.min (Z.to_N cnt) (lenN es - (i - st))).
  { unfold m, lenN in *. rewrite firstn_length, skipn_length. lia. }
  assert (Lr: lenN r = lenN es - (lenN x + lenN m)).
  { rewrite Ees at 1. rewrite !lenN_app. lia. }
  clearbody x m r. clear E. subst es.
  rewrite !lenN_app in *. rewrite !dsize_app in DS. unfold pack_small, two31 in HP.
  assert (Eend: N.min (i - st + Z.to_N cnt) (lenN x + (lenN m + lenN r)) = lenN x + lenN m) by lia.
  rewrite Eend. rewrite (wsub_small (lenN x + lenN m)) by (unfold two64; lia).
  replace (lenN x + lenN m - (i - st)) with (lenN m) by lia. rewrite <- Lx.
  rewrite !int_small by (unfold two31; lia). rewrite !ulong_small by lia. rewrite !N2Z.id.
  rewrite !wmul_small by (unfold two64; lia).
  assert (Hm: exists e0 q, m = e0 :: q).
  { destruct m; [rewrite lenN_nil in *; lia|eauto]. }
  rewrite Es. rewrite !offs_app, N.add_0_l, !encs_app.
  unfold sbind at 1, idx_do at 1, smod, set_idx. sfields. rewrite f_seek_ok by lia.
  unfold can_alloc at 1. destruct (N.leb_spec two31 (lenN m * 8)) as [Q|_]; [unfold two31 in Q; lia|].
  erewrite sbind_ok by reflexivity.
  erewrite sbind_ok.
  2:{ unfold on_idx. sfields. rewrite f_read_at by (rewrite lenN_offs; lia). reflexivity. }
  unfold set_idx. sfields.
  assert (EOD: forall ip0 dp0, ip0 = lenN x * 8 + lenN m * 8 -> exists ip1 dp1,
     (if lenN x + lenN m =? lenN x + (lenN m + lenN r) then
                        dat_do f_seek_end ;;; sget (fun s => f_tell (s_dat s))
                      else read_idx_ulong)
     (mkStore (mkFile (offs 0 x ++ offs (dsize x) m ++ offs (dsize x + dsize m) r) ip0 false)
        (mkFile (encs x ++ encs m ++ encs r) dp0 false) (mkFile (le 8 st) sp false) (lenN x + (lenN m + lenN r)) st
        (mkCache (st + lenN x0) y0 (s_buf_size s)) (s_buf_size s)) =
     (Ok (dsize x + dsize m),
     (mkStore (mkFile (offs 0 x ++ offs (dsize x) m ++ offs (dsize x + dsize m) r) ip1 false)
        (mkFile (encs x ++ encs m ++ encs r) dp1 false) (mkFile (le 8 st) sp false) (lenN x + (lenN m + lenN r)) st
        (mkCache (st + lenN x0) y0 (s_buf_size s)) (s_buf_size s)))).
  { intros ip0 dp0 ->. destruct (N.eqb_spec (lenN x + lenN m) (lenN x + (lenN m + lenN r))) as [Q|Q].
    - assert (r = []) by (destruct r; [reflexivity|rewrite lenN_cons in *; lia]). subst r.
      unfold sbind, dat_do, smod, set_dat, f_seek_end, sget. sfields. unfold f_tell. sfields.
      eexists _, _. f_equal. f_equal. change (encs []) with (@nil byte). rewrite app_nil_r, lenN_app, !lenN_encs. reflexivity.
    - destruct r as [|e r]; [rewrite lenN_nil in *; lia|]. cbn [offs]. rewrite (app_assoc (offs 0 x)).
      eexists _, _. apply read_idx_at.
      + rewrite lenN_app, !lenN_offs. lia.
      + unfold is_ulong, two64. lia. }
  match goal with |- context [mkFile (offs 0 x ++ _) ?ip0 false] => destruct (EOD ip0 dp eq_refl) as (ip1 & dp1 & EODe) end.
  erewrite sbind_ok by exact EODe.
  rewrite lenN_offs.
  destruct (N.ltb_spec (8 * lenN m) 8) as [Q|_].
  { destruct Hm as (e0 & q & ->). rewrite lenN_cons in Q. lia. }
  assert (F8: of_le (firstn 8 (offs (dsize x) m)) = dsize x).
  { destruct Hm as (e0 & q & ->). cbn [offs]. rewrite firstn_app_exact by apply le_length.
    apply of_le_le8. unfold is_ulong, two64. lia. }
  rewrite F8. rewrite wsub_small by (unfold two64; lia).
  replace (dsize x + dsize m - dsize x) with (dsize m) by lia.
  rewrite int_small by (unfold two31; lia). rewrite ulong_small by lia. rewrite N2Z.id.
  unfold sbind at 1, dat_do at 1, smod, set_dat. sfields. rewrite f_seek_ok by lia.
  erewrite sbind_ok by (apply read_dat_at; [rewrite lenN_encs; reflexivity|rewrite lenN_encs; reflexivity|unfold two31; lia]).
  rewrite lenN_encs. unfold can_alloc. destruct (N.leb_spec two31 (2 * 4 + 8 * lenN m + dsize m)) as [Q|_]; [unfold two31 in Q; lia|].
  erewrite sbind_ok by reflexivity. unfold sret.
  eexists _, _. split; [reflexivity|]. split.
  - split; [|rewrite Es; reflexivity]. rewrite Es in HR'. pose proof (fun a b => R_move a b _ _ HR') as RM. sfields.
    rewrite !offs_app, N.add_0_l, !encs_app in RM. apply RM.
  - unfold pack_bytes. reflexivity.
Qed.
