(** * Half-written records of the file log store (C96, C21)

    What the next start finds after a crash in the middle of a write. *)

From Verif Require Import Base Codec CodecSpec CodecProofs Msg BufferProofs FsLogStore FsLogSpec FsLogProofs FsLogOps FsLogReads FsLogChange
  FsLogTop FsLogWeak FsLogCrash FsLogTorn P_LogStore P_Crash.
From Coq Require Import Lia.
Local Open Scope N_scope.
Local Open Scope sm_scope.

(** ** An index file that is not a sequence of offsets *)
Lemma sbind_throw {A B} (m : SM A) (k : A -> SM B) s ex s' : m s = (Throw ex, s') -> sbind m k s = (Throw ex, s').
Proof. intros E. unfold sbind. rewrite E. reflexivity. Qed.

Lemma fill_loop_ragged : forall fuel rest ds s, lenN rest mod 8 <> 0 -> (length rest <= fuel)%nat ->
  exists ex s', fill_loop fuel rest ds s = (Throw ex, s').
Proof.
  induction fuel as [|fuel IH]; intros rest ds s Hr Hf.
  { destruct rest; [|cbn [length] in Hf; lia]. exfalso. apply Hr. reflexivity. }
  destruct rest as [|b r]; [exfalso; apply Hr; reflexivity|]. set (rest := b :: r) in *.
  change (exists ex s', (if lenN rest <? 8 then sfail OverflowError
      else
        let data_end := of_le (firstn 8 rest) in
        bs <- read_dat (wsub data_end ds) ;;
        e <- slift (dec_entry bs) ;;
        cache_do (fun c => c_append c e) ;;;
        fill_loop fuel (skipn 8 rest) data_end) s = (Throw ex, s')).
  destruct (N.ltb_spec (lenN rest) 8) as [L|L]; [eexists _, _; reflexivity|]. cbv zeta.
  unfold sbind at 1. destruct (read_dat (wsub (of_le (firstn 8 rest)) ds) s) as [[bs|ex|u] s1] eqn:E1.
  - unfold sbind at 1. unfold slift. unfold dec_entry. destruct (lenN bs <? 9); [eexists _, _; reflexivity|].
    unfold sbind at 1, cache_do, smod. cbv beta iota. apply IH.
    + unfold lenN in *. rewrite skipn_length. replace (N.of_nat (length rest - 8)) with (N.of_nat (length rest) - 8) by lia.
      intros Q. apply Hr. replace (N.of_nat (length rest)) with (N.of_nat (length rest) - 8 + 1 * 8) by lia.
      rewrite N.mod_add by lia. exact Q.
    + rewrite skipn_length. unfold lenN in L. lia.
  - eexists _, _. reflexivity.
  - exfalso. unfold read_dat, can_alloc in E1. unfold sbind, slift, on_dat, f_read in E1.
    destruct (two31 <=? _); [discriminate E1|]. destruct (f_fail (s_dat s)); [discriminate E1|].
    destruct (_ <=? lenN _); discriminate E1.
Qed.

(** [open_prefix] for an index file of any length *)
Lemma open_prefix_any st os dat z : st < two64 ->
  open_store (mkFolder os dat (le 8 st)) z =
  fill_buffer (mkStore (mkFile os (lenN os) false) (mkFile dat (lenN dat) false) (mkFile (le 8 st) (0 + 8) false) (lenN os / 8) st
                 (mkCache (first_cached (lenN os / 8) st (cache_limit z)) [] (cache_limit z)) (cache_limit z)).
Proof.
  intros S0. unfold open_store. cbn [d_idx d_dat d_sti]. cbv zeta. unfold f_reopen. sfields. unfold f_tell at 1. sfields. rewrite lenN_le.
  destruct (N.ltb_spec 0 (N.of_nat 8)); [|lia].
  erewrite (sbind_ok (sbind (sti_do _) _)).
  2:{ unfold sbind at 1, sti_do, smod, set_sti. sfields. rewrite f_seek_ok by lia.
      erewrite sbind_ok.
      2:{ unfold on_sti. sfields.
          pose proof (f_read_at [] (le 8 st) [] 0 8 eq_refl eq_refl) as FR. rewrite app_nil_r in FR. cbn [app] in FR.
          rewrite FR. reflexivity. }
      rewrite of_le_le8 by (unfold is_ulong; exact S0).
      unfold sbind, smod, set_start, set_entries, set_sti, sget. sfields. unfold f_tell. sfields. reflexivity. }
  unfold sbind at 1, smod, set_cache. sfields. reflexivity.
Qed.

Lemma open_ragged st os dat z : 1 <= st -> st + lenN os < 4611686018427387904 -> lenN os mod 8 <> 0 ->
  exists ex, fst (open_store (mkFolder os dat (le 8 st)) z) = Throw ex.
Proof.
  intros S0 S1 Hr. rewrite open_prefix_any by (unfold two64; lia).
  set (n := lenN os / 8). set (b := cache_limit z).
  assert (Hn: 8 * n <= lenN os) by (unfold n; apply N.mul_div_le; lia).
  assert (L0: 0 < lenN os) by (destruct (N.eq_0_gt_0_cases (lenN os)) as [Q|Q]; [rewrite Q in Hr; exfalso; apply Hr; reflexivity|exact Q]).
  assert (FC: exists m, first_cached n st b = st + m /\ m <= n).
  { unfold first_cached. destruct (N.ltb_spec b n) as [Q|Q].
    - exists (n - b). rewrite wadd_small by (unfold two64; lia). rewrite wsub_small by (unfold two64; lia). lia.
    - exists 0. lia. }
  destruct FC as (m & FC & Hm). rewrite FC.
  unfold fill_buffer. erewrite sbind_ok by reflexivity. sfields.
  do 5 (erewrite sbind_ok by reflexivity).
  unfold set_idx, set_dat, f_seek_end. sfields. unfold f_tell. sfields.
  destruct (N.ltb_spec 0 (lenN os)) as [_|]; [|lia]. cbn [andb negb].
  erewrite sbind_ok by reflexivity. sfields.
  rewrite (wsub_small (st + m) st) by (unfold two64; lia). replace (st + m - st) with m by lia.
  rewrite wmul_small by (unfold two64; lia).
  unfold sbind at 1, idx_do at 1, smod, set_idx. sfields. rewrite f_seek_ok by lia.
  rewrite wsub_small by (unfold two64; lia).
  unfold can_alloc. destruct (N.leb_spec two31 (lenN os - m * 8)) as [Q|Q]; [eexists; reflexivity|].
  erewrite sbind_ok by reflexivity.
  set (OX := firstn (N.to_nat (m * 8)) os). set (OY := skipn (N.to_nat (m * 8)) os).
  assert (EO: os = OX ++ OY) by (unfold OX, OY; rewrite firstn_skipn; reflexivity).
  assert (LX: lenN OX = m * 8) by (unfold OX, lenN; rewrite firstn_length; unfold lenN in *; lia).
  assert (LY: lenN OY = lenN os - m * 8) by (rewrite EO, lenN_app in *; lia).
  assert (RI: forall g st' n' s' c' b', on_idx (f_read (lenN os - m * 8))
     (mkStore (mkFile os (m * 8) false) g st' n' s' c' b') =
     (Ok OY, mkStore (mkFile os (m * 8 + (lenN os - m * 8)) false) g st' n' s' c' b')).
  { intros. unfold on_idx. cbn [s_idx]. pose proof (f_read_at OX OY [] (m * 8) (lenN os - m * 8)) as FR.
    rewrite !app_nil_r in FR. rewrite <- EO in FR. rewrite FR; auto. }
  erewrite sbind_ok by apply RI.
  destruct (N.ltb_spec (lenN OY) 8) as [L8|L8]; [eexists; reflexivity|].
  cbv zeta. unfold sbind at 1, dat_do, smod, set_dat. sfields.
  match goal with |- context [fill_loop ?f ?r ?d] => set (fu := f); set (re := r); set (da := d) end.
  assert (HR: lenN re mod 8 <> 0).
  { unfold re, lenN in *. rewrite skipn_length. replace (N.of_nat (length OY - 8)) with (N.of_nat (length OY) - 8) by lia.
    intros Z. apply Hr. replace (N.of_nat (length os)) with (N.of_nat (length OY) - 8 + (m + 1) * 8) by lia.
    rewrite N.mod_add by lia. exact Z. }
  match goal with |- context [fill_loop fu re da] =>
    match goal with |- context [sbind (fill_loop fu re da) ?k ?s] =>
      destruct (fill_loop_ragged fu re da s HR) as (ex & s' & E); [unfold fu, re; rewrite skipn_length; lia|];
      rewrite (sbind_throw _ k _ _ _ E) end end.
  eexists. reflexivity.
Qed.

(** ** Bytes of a file that is being written *)
Lemma torn_all old new : torn (length new) old new = over old new.
Proof. unfold torn, over. rewrite firstn_all. reflexivity. Qed.
Lemma torn_app x old new n : (n <= length new)%nat -> torn (length x + n) (x ++ old) (x ++ new) = x ++ torn n old new.
Proof.
  intros H. unfold torn. rewrite firstn_app_2, <- app_assoc. f_equal. f_equal. rewrite skipn_app_ge by lia. f_equal. lia.
Qed.
Lemma torn_end x new n : torn (length x + n) x (x ++ new) = x ++ firstn n new.
Proof.
  unfold torn. rewrite firstn_app_2, <- app_assoc. f_equal. rewrite skipn_all2 by lia. apply app_nil_r.
Qed.
Lemma length_torn n old new : (n <= length new)%nat -> length (torn n old new) = Nat.max n (length old).
Proof. intros H. unfold torn. rewrite app_length, firstn_length, skipn_length. lia. Qed.

(** what is left of an entry of which [b] bytes were written *)
Definition cut_entry (b : nat) (e : entry_val) : entry_val := mkEV (ev_term e) (ev_type e) (firstn (b - 9) (ev_data e)).
Lemma enc_cut b e : (9 <= b)%nat -> enc (cut_entry b e) = firstn b (enc e).
Proof.
  intros H. unfold enc, entry_bytes, cut_entry. cbn [ev_term ev_type ev_data].
  rewrite firstn_app, le_length. rewrite (firstn_all2 (le 8 (ev_term e))) by (rewrite le_length; lia). f_equal.
  replace (b - 8)%nat with (S (b - 9)) by lia. reflexivity.
Qed.

(** ** append *)
(** The bytes of one append: [a] of the eight of its offset and [b] of those of
    its entry have reached the files. *)
Definition append_torn (e : entry_val) (a b : nat) (s : store) (d : folder) : Prop :=
  (a <= 8)%nat /\ half_folder (LAppend e) (Writes (length (d_idx (close s)) + a) (length (d_dat (close s)) + b)) s = Some d.

Lemma replace_end l e : a_replace l (a_next l) [e] = mkAL (al_start l) (al_ents l ++ [e]).
Proof. unfold a_replace, a_next. f_equal. f_equal. apply firstn_all2. unfold lenN. lia. Qed.
Lemma append_torn_folder z ops e s a b d : z <> 0%Z -> is_int32 z ->
  ops_ok (cache_limit z) 1 a_empty (ops ++ [LAppend e]) -> used z ops s -> append_torn e a b s d ->
  let l := spec_run a_empty ops in
  d = mkFolder (offs 0 (al_ents l) ++ firstn a (le 8 (dsize (al_ents l)))) (encs (al_ents l) ++ firstn b (enc e)) (le 8 (al_start l)) /\
  (a <= 8)%nat /\ (b <= length (enc e))%nat.
Proof.
  intros Hz Hz32 H U [Ha Hd] l.
  pose proof (ends_a z ops _ s Hz Hz32 H U) as Ea. pose proof (ends_b z ops _ s Hz Hz32 H U) as Eb.
  fold l in Ea, Eb. cbn [spec_next] in Eb. rewrite replace_end in Eb.
  unfold half_folder in Hd. rewrite Ea, Eb in Hd. unfold disk_of in Hd. cbn [d_idx d_dat d_sti al_start al_ents] in Hd.
  rewrite offs_app, encs_app, encs_one, N.add_0_l in Hd. cbn [offs] in Hd. rewrite app_nil_r in Hd.
  match type of Hd with context [if ?c then _ else _] => destruct c eqn:C end; [|discriminate Hd].
  apply andb_prop in C. destruct C as [_ C]. apply Nat.leb_le in C. rewrite app_length in C.
  injection Hd as <-. rewrite !torn_end. split; [reflexivity|]. split; [exact Ha|lia].
Qed.

(** What the next start finds, for every number of bytes. *)
Theorem C96_append : forall z z' ops e s a b d,
  z <> 0%Z -> is_int32 z -> z' <> 0%Z -> is_int32 z' ->
  ops_ok (cache_limit z) 1 a_empty (ops ++ [LAppend e]) -> used z ops s -> append_torn e a b s d ->
  let l := spec_run a_empty ops in
  (* nothing was written, or nothing of the offset and the log was empty: the log as it was *)
  (a = 0%nat -> b = 0%nat \/ al_ents l = [] -> exists s', open_store d z' = (Ok tt, s') /\ answers_as s' l) /\
  (* nothing of the offset: the bytes of the new entry belong to the last one before *)
  (forall x la, a = 0%nat -> al_ents l = x ++ [la] -> esize la + esize e < two31 ->
     exists s', open_store d z' = (Ok tt, s') /\
       answers_as s' (mkAL (al_start l) (x ++ [mkEV (ev_term la) (ev_type la) (ev_data la ++ firstn b (enc e))]))) /\
  (* a piece of the offset, or no term and type of the entry: the store cannot be opened *)
  ((0 < a < 8)%nat \/ a = 8%nat /\ (b < 9)%nat -> exists ex, fst (open_store d z') = Throw ex) /\
  (* the offset and more: the entry is there, without the end of its data *)
  (a = 8%nat -> (9 <= b)%nat -> exists s', open_store d z' = (Ok tt, s') /\
     answers_as s' (mkAL (al_start l) (al_ents l ++ [mkEV (ev_term e) (ev_type e) (firstn (b - 9) (ev_data e))]))).
Proof.
  intros z z' ops e s a b d Hz Hz32 Hz' Hz32' H U T l.
  destruct (append_torn_folder z ops e s a b d Hz Hz32 H U T) as (-> & Ha & Hb). fold l.
  pose proof (R_small _ _ (ends_R z ops _ s Hz Hz32 H U)) as Sm. pose proof (R_small _ _ (ends_R' z ops _ s Hz Hz32 H U)) as Sm'.
  fold l in Sm, Sm'. cbn [spec_next] in Sm'. rewrite replace_end in Sm'. clear H U T. clearbody l.
  pose proof (dsize_small _ Sm) as DS.
  destruct l as [st es]. cbn [al_start al_ents] in *.
  split; [|split; [|split]].
  - intros -> [-> | ->]; cbn [firstn]; rewrite app_nil_r.
    + rewrite app_nil_r. exact (open_answers (mkAL st es) z' Sm Hz' Hz32').
    + cbn [offs]. apply open_empty; auto. destruct Sm as (S0 & S1 & _). cbn [al_start al_ents] in *. lia.
  - intros x la -> Ee Sz. subst es. cbn [firstn]. rewrite app_nil_r.
    set (la' := mkEV (ev_term la) (ev_type la) (ev_data la ++ firstn b (enc e))).
    assert (E1: enc la' = enc la ++ firstn b (enc e)).
    { unfold enc at 1 2, entry_bytes, la'. cbn [ev_term ev_type ev_data]. rewrite <- app_assoc. reflexivity. }
    assert (X: mkFolder (offs 0 (x ++ [la])) (encs (x ++ [la]) ++ firstn b (enc e)) (le 8 st) = disk_of (mkAL st (x ++ [la']))).
    { unfold disk_of. cbn [al_start al_ents]. rewrite !offs_app, !encs_app, !encs_one, E1, <- app_assoc. reflexivity. }
    rewrite X. apply open_answers; auto. destruct Sm as (S0 & S1 & S2 & S3). unfold small. cbn [al_start al_ents] in *.
    rewrite lenN_app in *. change (lenN [la]) with 1 in *. change (lenN [la']) with 1.
    split; [exact S0|]. split; [lia|]. split; [lia|]. apply Forall_app in S3. destruct S3 as [F1 F2]. apply Forall_app. split; [exact F1|].
    inversion F2 as [|? ? [G1 G2] _]; subst. constructor; [|constructor]. split; [exact G1|].
    rewrite <- lenN_enc, E1, lenN_app, lenN_enc. unfold lenN. rewrite firstn_length. pose proof (lenN_enc e) as Le. unfold lenN in Le. lia.
  - destruct Sm as (S0 & S1 & S2 & S3). cbn [al_start al_ents] in *. intros [A|[-> B]].
    + apply open_ragged; auto.
      * rewrite lenN_app, lenN_offs. unfold lenN at 2. rewrite firstn_length, le_length. lia.
      * rewrite lenN_app, lenN_offs. unfold lenN at 2. rewrite firstn_length, le_length.
        replace (8 * lenN es + N.of_nat (Nat.min a 8)) with (N.of_nat a + lenN es * 8) by lia. rewrite N.mod_add by lia.
        rewrite N.mod_small by lia. lia.
    + rewrite firstn_all2 by (rewrite le_length; lia).
      assert (X: offs 0 es ++ le 8 (dsize es) = offs 0 (es ++ [e])) by (rewrite offs_app; cbn [offs]; rewrite app_nil_r, N.add_0_l; reflexivity).
      rewrite X. apply open_short; auto. rewrite lenN_app, lenN_encs. unfold lenN. rewrite firstn_length. lia.
  - intros -> B. rewrite firstn_all2 by (rewrite le_length; lia).
    fold (cut_entry b e). rewrite <- (enc_cut b e B).
    assert (X: mkFolder (offs 0 es ++ le 8 (dsize es)) (encs es ++ enc (cut_entry b e)) (le 8 st) = disk_of (mkAL st (es ++ [cut_entry b e]))).
    { unfold disk_of. cbn [al_start al_ents]. rewrite offs_app, encs_app, encs_one, N.add_0_l. cbn [offs]. rewrite app_nil_r. reflexivity. }
    rewrite X. apply open_answers; auto. destruct Sm' as (S0 & S1 & S2 & S3). unfold small. cbn [al_start al_ents] in *.
    rewrite lenN_app in *. change (lenN [e]) with 1 in *. change (lenN [cut_entry b e]) with 1.
    split; [exact S0|]. split; [lia|]. split; [lia|]. apply Forall_app in S3. destruct S3 as [F1 F2]. apply Forall_app. split; [exact F1|].
    inversion F2 as [|? ? [G1 G2] _]; subst. constructor; [|constructor]. split; [exact G1|].
    rewrite <- lenN_enc, enc_cut by exact B. unfold lenN. rewrite firstn_length. pose proof (lenN_enc e) as Le. unfold lenN in Le. lia.
Qed.
Print Assumptions C96_append.

(** A store answers as one log only. *)
Lemma answers_one s l l' : answers_as s l -> answers_as s l' -> a_next l < two64 -> l = l'.
Proof.
  intros (A1 & A2 & A3) (B1 & B2 & B3) Sm. rewrite A1 in B1. rewrite A2 in B2.
  destruct l as [st es], l' as [st' es']. unfold a_next in *. cbn [al_start al_ents] in *. subst st'. f_equal.
  assert (L: length es = length es') by (unfold lenN in B2; lia).
  apply nth_ext with (d := mkEV 0 x00 []) (d' := mkEV 0 x00 []); [exact L|]. intros n Hn.
  assert (U: is_ulong (st + N.of_nat n)) by (unfold is_ulong; unfold lenN in Sm; lia).
  pose proof (A3 _ U) as E. rewrite (B3 _ U) in E. unfold a_get in E. cbn [al_start al_ents] in E.
  destruct (N.ltb_spec (st + N.of_nat n) st) as [Q|_]; [lia|].
  replace (N.to_nat (st + N.of_nat n - st)) with n in E by lia. injection E as E.
  rewrite (nth_error_nth' es' (mkEV 0 x00 [])) in E by lia. rewrite (nth_error_nth' es (mkEV 0 x00 [])) in E by lia.
  injection E as E. symmetry. exact E.
Qed.

(** The log of before or after: exactly when all or nothing was written, or
    nothing of the offset while the log was empty. *)
Theorem C21_crash_points : forall z z' ops e s a b d,
  z <> 0%Z -> is_int32 z -> z' <> 0%Z -> is_int32 z' ->
  ops_ok (cache_limit z) 1 a_empty (ops ++ [LAppend e]) -> used z ops s -> append_torn e a b s d ->
  let l := spec_run a_empty ops in
  (forall x la, al_ents l = x ++ [la] -> esize la + esize e < two31) ->
  ((exists s', open_store d z' = (Ok tt, s') /\ (answers_as s' l \/ answers_as s' (spec_run a_empty (ops ++ [LAppend e])))) <->
   a = 0%nat /\ (b = 0%nat \/ al_ents l = []) \/ a = 8%nat /\ b = length (enc e)).
Proof.
  intros z z' ops e s a b d Hz Hz32 Hz' Hz32' H U T l Sz.
  pose proof (append_torn_folder z ops e s a b d Hz Hz32 H U T) as (_ & Ha & Hb).
  pose proof (C96_append z z' ops e s a b d Hz Hz32 Hz' Hz32' H U T) as (P1 & P2 & P3 & P4). fold l in P1, P2, P3, P4.
  pose proof (R_small _ _ (ends_R z ops _ s Hz Hz32 H U)) as Sm. pose proof (R_small _ _ (ends_R' z ops _ s Hz Hz32 H U)) as Sm'.
  rewrite spec_run_snoc. fold l in Sm, Sm' |- *. cbn [spec_next] in *. rewrite replace_end in *.
  assert (N1: a_next l < two64) by (destruct Sm as (_ & S1 & _); unfold a_next, two64; lia).
  assert (N2: a_next (mkAL (al_start l) (al_ents l ++ [e])) < two64) by (destruct Sm' as (_ & S1 & _); unfold a_next, two64; lia).
  assert (Le: length (enc e) = (9 + length (ev_data e))%nat) by (rewrite length_enc; unfold esize, lenN; lia).
  clear H U T Sm Sm'. clearbody l. split.
  - intros (s' & E & An). destruct (Nat.eq_dec a 0) as [A0|A0].
    + left. split; [exact A0|]. destruct (Nat.eq_dec b 0) as [B0|B0]; [left; exact B0|right].
      destruct (al_ents l) as [|e1 r] eqn:El; [reflexivity|exfalso].
      destruct (exists_last (l := e1 :: r)) as (x & la & Ex); [discriminate|]. rewrite Ex in *.
      destruct (P2 x la A0 eq_refl (Sz x la eq_refl)) as (s2 & E2 & A2). rewrite E in E2. injection E2 as <-.
      destruct An as [An|An].
      * pose proof (answers_one _ _ _ An A2 N1) as Q. destruct l as [st es]. cbn [al_ents al_start] in *. subst es. injection Q as Q.
        apply app_inj_tail in Q. destruct Q as [_ Q]. destruct la as [t ty dt]. cbn [ev_term ev_type ev_data] in Q.
        injection Q as Q. apply (f_equal (@length byte)) in Q. rewrite app_length, firstn_length in Q. lia.
      * pose proof (answers_one _ _ _ An A2 N2) as Q. injection Q as Q.
        apply (f_equal (@length entry_val)) in Q. rewrite !app_length in Q. cbn [length] in Q. lia.
    + right. destruct (Nat.eq_dec a 8) as [A8|A8].
      2:{ exfalso. destruct P3 as (ex & P3); [left; lia|]. rewrite E in P3. discriminate P3. }
      split; [exact A8|]. destruct (Nat.lt_ge_cases b 9) as [B9|B9].
      { exfalso. destruct P3 as (ex & P3); [right; auto|]. rewrite E in P3. discriminate P3. }
      destruct (P4 A8 B9) as (s2 & E2 & A2). rewrite E in E2. injection E2 as <-.
      destruct An as [An|An].
      * exfalso. pose proof (answers_one _ _ _ An A2 N1) as Q. destruct l as [st es]. cbn [al_ents al_start] in Q. injection Q as Q.
        apply (f_equal (@length entry_val)) in Q. rewrite !app_length in Q. cbn [length] in Q. lia.
      * pose proof (answers_one _ _ _ An A2 N2) as Q. injection Q as Q.
        apply app_inv_head in Q. destruct e as [t ty dt]. cbn [ev_term ev_type ev_data] in *. injection Q as Q.
        apply (f_equal (@length byte)) in Q. rewrite firstn_length in Q. lia.
  - intros [[A B]|[A B]].
    + destruct (P1 A B) as (s' & E & An). eauto.
    + destruct (P4 A) as (s' & E & An); [lia|]. exists s'. split; [exact E|]. right.
      replace (firstn (b - 9) (ev_data e)) with (ev_data e) in An by (rewrite firstn_all2; [reflexivity|lia]).
      destruct e as [t ty dt]. exact An.
Qed.
Print Assumptions C21_crash_points.

(** ** write_at *)
Lemma torn_low x o w n : (n <= length x)%nat -> torn n (x ++ o) (x ++ w) = x ++ o.
Proof.
  intros H. unfold torn. rewrite firstn_app. replace (n - length x)%nat with 0%nat by lia. cbn [firstn]. rewrite app_nil_r.
  rewrite skipn_app. replace (n - length x)%nat with 0%nat by lia. cbn [skipn]. rewrite app_assoc, firstn_skipn. reflexivity.
Qed.

(** write_at over an existing entry, any number of bytes written: the store
    opens with as many entries as before, and every entry below the index is as
    it was. *)
Theorem C96_overwrite_keeps_below_partial : forall z z' ops i e s p q d,
  z <> 0%Z -> is_int32 z -> z' <> 0%Z -> is_int32 z' ->
  ops_ok (cache_limit z) 1 a_empty (ops ++ [LWriteAt i e]) -> used z ops s ->
  let l := spec_run a_empty ops in
  al_start l <= i < a_next l -> entry_ok e -> dsize (skipn (N.to_nat (i - al_start l)) (al_ents l)) < two31 ->
  half_folder (LWriteAt i e) (Writes p q) s = Some d ->
  exists s' l', open_store d z' = (Ok tt, s') /\ answers_as s' l' /\
    al_start l' = al_start l /\ a_next l' = a_next l /\ (forall j, j < i -> a_get l' j = a_get l j).
Proof.
  intros z z' ops i e s p q d Hz Hz32 Hz' Hz32' H U l Hi He Sz Hd.
  pose proof (ends_R z ops _ s Hz Hz32 H U) as HR. pose proof (ends_a z ops _ s Hz Hz32 H U) as Ea. pose proof (ends_b z ops _ s Hz Hz32 H U) as Eb.
  fold l in HR, Ea, Eb. pose proof (R_small _ _ HR) as Sm.
  assert (En: spec_next l (LWriteAt i e) = a_replace l i [e]).
  { cbn [spec_next]. destruct (N.ltb_spec i (al_start l)); [lia|]. destruct (N.ltb_spec (a_next l) i); [lia|]. reflexivity. }
  rewrite En in *. clear En HR H U.
  destruct (log_at l i Hi) as (x & e0 & y & El & Ei). clearbody l.
  destruct l as [st es]. cbn [al_start al_ents] in *. injection El as ->. subst i.
  rewrite replace_at in *.
  replace (st + lenN x - st) with (lenN x) in Sz by lia.
  assert (Sz': dsize (e0 :: y) < two31).
  { unfold lenN in Sz. rewrite Nat2N.id, skipn_app_exact in Sz by reflexivity. exact Sz. }
  destruct Sm as (S0 & S1 & S2 & S3). cbn [al_start al_ents] in *.
  pose proof (proj1 (Forall_app _ _ _) S3) as [Fx Fy].
  unfold half_folder in Hd. rewrite Ea, Eb in Hd. unfold disk_of in Hd. cbn [al_start al_ents d_idx d_dat d_sti] in Hd.
  match type of Hd with context [if ?c then _ else _] => destruct c eqn:C end; [|discriminate Hd].
  apply andb_prop in C. destruct C as [C1 C2]. apply Nat.leb_le in C1. apply Nat.leb_le in C2.
  assert (Tx: torn p (offs 0 (x ++ e0 :: y)) (offs 0 (x ++ [e])) = offs 0 (x ++ e0 :: y)).
  { assert (Q: offs 0 (x ++ e0 :: y) = offs 0 (x ++ [e]) ++ offs (dsize x + esize e0) y).
    { rewrite !offs_app, N.add_0_l. cbn [offs]. rewrite app_nil_r, <- app_assoc. reflexivity. }
    rewrite Q. rewrite <- (app_nil_r (offs 0 (x ++ [e]))) at 2. apply torn_low. exact C1. }
  assert (Td: exists D, torn q (encs (x ++ e0 :: y)) (encs (x ++ [e])) = encs x ++ D /\ dsize (e0 :: y) <= lenN D <= N.max (dsize (e0 :: y)) (esize e)).
  { rewrite !encs_app, encs_one in *. destruct (Nat.le_gt_cases q (length (encs x))) as [Q|Q].
    - exists (encs (e0 :: y)). rewrite torn_low by exact Q. split; [reflexivity|]. rewrite lenN_encs. lia.
    - rewrite app_length in C2. exists (torn (q - length (encs x)) (encs (e0 :: y)) (enc e)).
      replace q with (length (encs x) + (q - length (encs x)))%nat at 1 by lia.
      rewrite torn_app by lia. split; [reflexivity|]. unfold lenN at 1 2. rewrite length_torn by lia.
      pose proof (lenN_encs (e0 :: y)) as L1. pose proof (lenN_enc e) as L2. unfold lenN in L1, L2. lia. }
  destruct Td as (D & Td & LD). rewrite Tx, Td in Hd.
  assert (Ed: d = mkFolder (offs 0 (x ++ e0 :: y)) (encs x ++ D) (le 8 st)) by congruence. clear Hd. subst d.
  destruct (blocks y e0 (dsize x) D Fy) as (es2 & A1 & A2 & A3 & A4).
  { lia. }
  { pose proof (last_size y e0). destruct He as [_ He].
    destruct (N.max_spec (dsize (e0 :: y)) (esize e)) as [[? Mx]|[? Mx]]; rewrite Mx in LD; lia. }
  assert (L2: lenN es2 = lenN (e0 :: y)) by (unfold lenN; rewrite A1; reflexivity).
  set (l' := mkAL st (x ++ es2)).
  assert (X: mkFolder (offs 0 (x ++ e0 :: y)) (encs x ++ D) (le 8 st) = disk_of l').
  { unfold disk_of, l'. cbn [al_start al_ents]. rewrite !offs_app, N.add_0_l, A2, encs_app, A3. reflexivity. }
  rewrite X. destruct (open_answers l' z') as (s' & E & An); auto.
  { unfold small, l'. cbn [al_start al_ents]. rewrite lenN_app in *. rewrite L2. split; [exact S0|]. split; [lia|]. split; [lia|]. apply Forall_app. auto. }
  exists s', l'. split; [exact E|]. split; [exact An|]. split; [reflexivity|].
  split; [unfold a_next, l'; cbn [al_start al_ents]; rewrite !lenN_app, L2; reflexivity|].
  intros j Hj. unfold l'. rewrite !get_prefix by exact Hj. reflexivity.
Qed.
Print Assumptions C96_overwrite_keeps_below_partial.

(** ** The start index *)
Lemma le_split k m n : (k <= m)%nat -> of_le (firstn k (le m n)) = n mod 256 ^ N.of_nat k.
Proof.
  revert m n. induction k as [|k IH]; intros m n H; [rewrite N.mod_1_r; reflexivity|].
  destruct m as [|m]; [lia|]. cbn [le firstn of_le]. rewrite IH by lia.
  assert (B: byteN (nbyte n) = n mod 256) by apply byteN_nbyte. rewrite B.
  rewrite Nat2N.inj_succ, N.pow_succ_r'. rewrite N.mod_mul_r by (try lia; apply N.pow_nonzero; lia). reflexivity.
Qed.
Lemma le_skip k m n : (k <= m)%nat -> of_le (skipn k (le m n)) = n mod 256 ^ N.of_nat m / 256 ^ N.of_nat k.
Proof.
  intros H. pose proof (of_le_le m n) as E. rewrite <- (firstn_skipn k (le m n)), of_le_app, le_split in E by exact H.
  unfold lenN in E. rewrite firstn_length, le_length, Nat.min_l in E by exact H. rewrite <- E.
  set (B := 256 ^ N.of_nat k). assert (B0: B <> 0) by (apply N.pow_nonzero; lia).
  rewrite N.mul_comm, N.div_add by exact B0. rewrite (N.div_small (n mod B)) by (apply N.mod_lt; exact B0). lia.
Qed.
(** the low bytes of the new index and the high bytes of the old *)
Lemma torn_index k old new : (k <= 8)%nat -> old <= new -> is_ulong new ->
  of_le (torn k (le 8 old) (le 8 new)) <= new.
Proof.
  intros H L U. unfold torn. rewrite of_le_app. rewrite le_split by exact H. unfold lenN. rewrite firstn_length, le_length, Nat.min_l by exact H.
  rewrite le_skip by exact H. assert (T: old mod 256 ^ N.of_nat 8 = old) by (apply N.mod_small; change (256 ^ N.of_nat 8) with two64; unfold is_ulong in U; lia).
  rewrite T. set (B := 256 ^ N.of_nat k). assert (B0: B <> 0) by (apply N.pow_nonzero; lia).
  pose proof (N.div_le_mono old new B B0 L) as M. pose proof (N.div_mod new B B0) as DM.
  pose proof (N.mul_le_mono_l _ _ B M). lia.
Qed.

(** compact, [k] bytes of the start index written: the entries that are kept
    begin at the index made of these bytes and the old ones behind them. *)
Theorem C96_start_torn : forall z z' ops c s k d,
  z <> 0%Z -> is_int32 z -> z' <> 0%Z -> is_int32 z' ->
  ops_ok (cache_limit z) 1 a_empty (ops ++ [LCompact c]) -> used z ops s ->
  let l := spec_run a_empty ops in
  al_start l <= c -> half_folder (LCompact c) (Start k) s = Some d ->
  let st := of_le (firstn k (le 8 (c + 1)) ++ skipn k (le 8 (al_start l))) in
  st <= c + 1 /\
  (1 <= st -> exists s', open_store d z' = (Ok tt, s') /\
     answers_as s' (mkAL st (skipn (N.to_nat (c + 1 - al_start l)) (al_ents l)))).
Proof.
  intros z z' ops c s k d Hz Hz32 Hz' Hz32' H U l Hc Hd st.
  pose proof (ends_R z ops _ s Hz Hz32 H U) as HR. pose proof (ends_R' z ops _ s Hz Hz32 H U) as HR'.
  pose proof (ends_a z ops _ s Hz Hz32 H U) as Ea. pose proof (ends_b z ops _ s Hz Hz32 H U) as Eb.
  fold l in HR, HR', Ea, Eb. pose proof (R_small _ _ HR) as Sm. pose proof (R_small _ _ HR') as Sm'.
  assert (En: spec_next l (LCompact c) = a_compact l c).
  { cbn [spec_next]. destruct (N.ltb_spec c (al_start l)); [lia|]. reflexivity. }
  rewrite En in *. clear En HR HR' H U. subst st. clearbody l.
  unfold half_folder in Hd. rewrite Ea, Eb in Hd. destruct l as [st0 es]. unfold a_compact, disk_of, small in *. cbn [al_start al_ents d_idx d_dat d_sti] in *.
  rewrite le_length in Hd. destruct (Nat.leb_spec k 8) as [K|]; [|discriminate Hd].
  match type of Hd with Some ?f = _ => assert (Ed: d = f) by congruence end. clear Hd. subst d.
  set (st := of_le (firstn k (le 8 (c + 1)) ++ skipn k (le 8 st0))).
  assert (Lst: st <= c + 1). { apply (torn_index k st0 (c + 1)); [exact K|lia|]. unfold is_ulong, two64. lia. }
  split; [exact Lst|]. intros S0.
  assert (X: torn k (le 8 st0) (le 8 (c + 1)) = le 8 st).
  { unfold st. fold (torn k (le 8 st0) (le 8 (c + 1))). set (bs := torn _ _ _).
    assert (L8: length bs = 8%nat) by (unfold bs; rewrite length_torn by (rewrite le_length; exact K); rewrite le_length; lia).
    rewrite <- L8. symmetry. apply le_of_le. }
  rewrite X. apply (open_answers (mkAL st (skipn (N.to_nat (c + 1 - st0)) es))); auto.
  unfold small. cbn [al_start al_ents]. destruct Sm' as (_ & T1 & T2 & T3). split; [exact S0|]. split; [lia|]. auto.
Qed.
Print Assumptions C96_start_torn.

(** The first start: with a piece of the start index the folder can never be
    opened again. *)
Theorem C96_first_start : forall z k, z <> 0%Z -> is_int32 z -> (k <= 8)%nat ->
  ((exists s, open_store (half_started k) z = (Ok tt, s) /\ answers_as s a_empty) <-> k = 0%nat \/ k = 8%nat).
Proof.
  intros z k Hz Hz32 K. split.
  - intros (s & E & _). destruct (Nat.eq_dec k 0) as [|K0]; [left; assumption|]. destruct (Nat.eq_dec k 8) as [|K8]; [right; assumption|]. exfalso.
    unfold open_store, half_started in E. cbn [d_idx d_dat d_sti] in E. cbv zeta in E.
    assert (L: lenN (firstn k (le 8 1)) = N.of_nat k) by (unfold lenN; rewrite firstn_length, le_length; f_equal; lia).
    set (B := firstn k (le 8 1)) in *. clearbody B.
    unfold f_reopen in E. sfields. unfold f_tell at 1 in E. sfields. rewrite L in E.
    destruct (N.ltb_spec 0 (N.of_nat k)) as [_|]; [|lia].
    unfold sbind at 1 in E. unfold sbind at 1 in E. unfold sti_do, smod, set_sti in E. sfields. rewrite f_seek_ok in E by lia.
    unfold sbind at 1 in E. unfold on_sti, f_read in E. sfields. rewrite L in E.
    destruct (N.leb_spec (0 + 8) (N.of_nat k)) as [|_]; [lia|]. discriminate E.
  - intros [-> | ->].
    + change (half_started 0) with empty_folder. destruct (open_fresh z Hz Hz32) as (s & E & HR & _). exists s. split; [exact E|apply R_answers; exact HR].
    + change (half_started 8) with (disk_of a_empty). apply open_answers; auto. unfold small, a_empty. cbn [al_start al_ents].
      split; [lia|]. split; [reflexivity|]. split; [reflexivity|constructor].
Qed.
Print Assumptions C96_first_start.

(** ** What is not so *)
Lemma torn_exists z ops e s a b : z <> 0%Z -> is_int32 z ->
  ops_ok (cache_limit z) 1 a_empty (ops ++ [LAppend e]) -> used z ops s -> (a <= 8)%nat -> (b <= length (enc e))%nat ->
  exists d, append_torn e a b s d.
Proof.
  intros Hz Hz32 H U Ha Hb. unfold append_torn, half_folder.
  rewrite (ends_a z ops _ s Hz Hz32 H U), (ends_b z ops _ s Hz Hz32 H U). cbn [spec_next]. rewrite replace_end.
  unfold disk_of. cbn [d_idx d_dat d_sti al_start al_ents]. rewrite offs_app, encs_app, encs_one, !app_length. cbn [offs]. rewrite app_nil_r, le_length.
  match goal with |- context [if ?c then _ else _] => assert (C: c = true) end.
  { apply andb_true_intro. split; apply Nat.leb_le; lia. }
  rewrite C. eauto.
Qed.

(** Whatever the history and whatever the entry, there is a point inside append
    at which a crash leaves a folder that can never be opened again. *)
Theorem C21_lost_refuted : forall z z' ops e s,
  z <> 0%Z -> is_int32 z -> z' <> 0%Z -> is_int32 z' ->
  ops_ok (cache_limit z) 1 a_empty (ops ++ [LAppend e]) -> used z ops s ->
  exists a b d ex, append_torn e a b s d /\ fst (open_store d z') = Throw ex.
Proof.
  intros z z' ops e s Hz Hz32 Hz' Hz32' H U.
  destruct (torn_exists z ops e s 8 0 Hz Hz32 H U) as (d & T); [lia|lia|].
  pose proof (C96_append z z' ops e s 8 0 d Hz Hz32 Hz' Hz32' H U T) as (_ & _ & P & _).
  destruct P as (ex & E); [right; lia|]. eauto 6.
Qed.
Print Assumptions C21_lost_refuted.

(** Whatever the history, an entry with data can be cut short without anybody
    noticing: after the crash the store opens, has the index of the entry, and
    returns under it an entry of the same term and type with less data. *)
Theorem C96_cut_refuted : forall z z' ops e s,
  z <> 0%Z -> is_int32 z -> z' <> 0%Z -> is_int32 z' ->
  ops_ok (cache_limit z) 1 a_empty (ops ++ [LAppend e]) -> used z ops s -> ev_data e <> [] ->
  let i := a_next (spec_run a_empty ops) in
  exists a b d s', append_torn e a b s d /\ open_store d z' = (Ok tt, s') /\ next_slot s' = i + 1 /\
    fst (entry_at i s') = Ok (Some (mkEV (ev_term e) (ev_type e) [])).
Proof.
  intros z z' ops e s Hz Hz32 Hz' Hz32' H U De i.
  destruct (torn_exists z ops e s 8 9 Hz Hz32 H U) as (d & T); [lia|rewrite length_enc; unfold esize; lia|].
  pose proof (C96_append z z' ops e s 8 9 d Hz Hz32 Hz' Hz32' H U T) as (_ & _ & _ & P).
  destruct P as (s' & E & (A1 & A2 & A3)); [reflexivity|lia|].
  pose proof (R_small _ _ (ends_R z ops _ s Hz Hz32 H U)) as Sm.
  subst i. set (l := spec_run a_empty ops) in *.
  exists 8%nat, 9%nat, d, s'. split; [exact T|]. split; [exact E|].
  split; [rewrite A2; unfold a_next; cbn [al_start al_ents]; rewrite lenN_app; change (lenN [mkEV (ev_term e) (ev_type e) (firstn (9 - 9) (ev_data e))]) with 1; lia|].
  rewrite A3 by (unfold is_ulong, two64, a_next; destruct Sm as (_ & S1 & _); lia). cbn [al_start].
  destruct (N.ltb_spec (a_next l) (al_start l)) as [Q|_]; [unfold a_next in Q; lia|]. f_equal.
  unfold a_get, a_next. cbn [al_start al_ents]. destruct (N.ltb_spec (al_start l + lenN (al_ents l)) (al_start l)) as [Q|_]; [lia|].
  rewrite nth_error_app2 by (unfold lenN; lia).
  replace (N.to_nat (al_start l + lenN (al_ents l) - al_start l) - length (al_ents l))%nat with 0%nat by (unfold lenN; lia). reflexivity.
Qed.
Print Assumptions C96_cut_refuted.

(** compact(511) of a log that begins at 511, one byte of the start index
    written: the entry of index 512 is found under 256. *)
Definition high : list lop := [LCompact 510; LAppend big; LAppend tiny].
Theorem C96_start_refuted : exists s d s',
  used (-1) high s /\ ops_ok (cache_limit (-1)) 1 a_empty (high ++ [LCompact 511]) /\
  start_index s = 511 /\ fst (entry_at 512 s) = Ok (Some tiny) /\
  half_folder (LCompact 511) (Start 1) s = Some d /\ open_store d (-1) = (Ok tt, s') /\
  start_index s' = 256 /\ next_slot s' = 257 /\ fst (entry_at 256 s') = Ok (Some tiny).
Proof.
  eexists _, _, _. split; [run_it|]. split; [hist|]. split; [vm_compute; reflexivity|]. split; [vm_compute; reflexivity|].
  split; [vm_compute; reflexivity|]. split; [vm_compute; reflexivity|].
  split; [vm_compute; reflexivity|]. split; vm_compute; reflexivity.
Qed.
Print Assumptions C96_start_refuted.

(** ** Examples *)
Example C96_append_example : exists s d, used (-1) three s /\ ops_ok (cache_limit (-1)) 1 a_empty (three ++ [LAppend long]) /\
  append_torn long 8 20 s d /\ al_ents (spec_run a_empty three) = [big; big] ++ [big] /\ esize big + esize long < two31 /\ ev_data long <> [].
Proof.
  eexists _, _. split; [run_it|]. split; [hist|]. split; [split; [lia|vm_compute; reflexivity]|].
  split; [reflexivity|]. split; [vm_compute; reflexivity|discriminate].
Qed.
Example C96_overwrite_example : exists s d, used (-1) three s /\ ops_ok (cache_limit (-1)) 1 a_empty (three ++ [LWriteAt 2 long]) /\
  half_folder (LWriteAt 2 long) (Writes 13 17) s = Some d /\
  al_start (spec_run a_empty three) <= 2 < a_next (spec_run a_empty three) /\ entry_ok long /\
  dsize (skipn (N.to_nat (2 - al_start (spec_run a_empty three))) (al_ents (spec_run a_empty three))) < two31.
Proof.
  eexists _, _. split; [run_it|]. split; [hist|]. split; [vm_compute; reflexivity|].
  split; [split; vm_compute; [discriminate|reflexivity]|]. split; [eok|vm_compute; reflexivity].
Qed.
Example C96_start_torn_example : exists s d, used (-1) high s /\ ops_ok (cache_limit (-1)) 1 a_empty (high ++ [LCompact 511]) /\
  al_start (spec_run a_empty high) <= 511 /\ half_folder (LCompact 511) (Start 1) s = Some d /\
  1 <= of_le (firstn 1 (le 8 (511 + 1)) ++ skipn 1 (le 8 (al_start (spec_run a_empty high)))).
Proof.
  eexists _, _. split; [run_it|]. split; [hist|]. split; [vm_compute; discriminate|]. split; vm_compute; [reflexivity|discriminate].
Qed.
