(** * Crashes inside the operations of the file log store (C21, C85)

    What the next start finds after a crash at any stage of append, write_at,
    apply_pack and compact. *)

From Verif Require Import Base Codec CodecSpec CodecProofs Msg FsLogStore FsLogSpec FsLogProofs FsLogOps FsLogReads FsLogChange
  FsLogTop FsLogWeak FsLogCrash P_LogStore.
From Coq Require Import Lia.
Local Open Scope N_scope.
Local Open Scope sm_scope.

(** ** Before and after *)
Lemma ops_ok_prefix ops op : forall mx c l, ops_ok mx c l (ops ++ [op]) -> ops_ok mx c l ops.
Proof. induction ops as [|o ops IH]; intros mx c l H; cbn [app ops_ok] in *; [exact I|]. destruct H. split; eauto. Qed.
Lemma spec_run_snoc ops op : forall l, spec_run l (ops ++ [op]) = spec_next (spec_run l ops) op.
Proof. induction ops as [|o ops IH]; intros l; cbn [app spec_run]; auto. Qed.
Lemma run_lops_snoc ops op : forall s, snd (run_lops (ops ++ [op]) s) = snd (run_lop op (snd (run_lops ops s))).
Proof.
  induction ops as [|o ops IH]; intros s; cbn [app run_lops].
  - cbn [snd]. destruct (run_lop op s) as [r s']. reflexivity.
  - destruct (run_lop o s) as [r s1]. specialize (IH s1).
    destruct (run_lops (ops ++ [op]) s1) as [r1 s2]. destruct (run_lops ops s1) as [r2 s3]. cbn [snd] in *. exact IH.
Qed.
Lemma used_snoc z ops op s : used z ops s -> used z (ops ++ [op]) (snd (run_lop op s)).
Proof.
  intros (s0 & rs & E & H). pose proof (run_lops_snoc ops op s0) as X. rewrite H in X. cbn [snd] in X.
  destruct (run_lops (ops ++ [op]) s0) as [rs' s'] eqn:E'. cbn [snd] in X. subst s'. exists s0, rs'. auto.
Qed.

Section Ends.
  Variables (z : Z) (ops : list lop) (op : lop) (s : store).
  Hypotheses (Hz : z <> 0%Z) (Hz32 : is_int32 z) (H : ops_ok (cache_limit z) 1 a_empty (ops ++ [op])) (U : used z ops s).
  Let l := spec_run a_empty ops.

  Lemma ends_R : R s l.
  Proof. exact (used_R _ _ _ Hz Hz32 (ops_ok_prefix _ _ _ _ _ H) U). Qed.
  Lemma ends_R' : R (snd (run_lop op s)) (spec_next l op).
  Proof. unfold l. rewrite <- spec_run_snoc. exact (used_R _ _ _ Hz Hz32 H (used_snoc _ _ op _ U)). Qed.
  Lemma ends_a : close s = disk_of l.
  Proof. exact (close_R _ _ ends_R). Qed.
  Lemma ends_b : close (snd (run_lop op s)) = disk_of (spec_next l op).
  Proof. exact (close_R _ _ ends_R'). Qed.
End Ends.

Lemma R_answers s l : R s l -> answers_as s l.
Proof.
  intros HR. pose proof (R_small _ _ HR) as (_ & SS & _).
  split; [unfold start_index; rewrite (R_start _ _ HR); reflexivity|].
  split; [unfold next_slot; rewrite (R_start _ _ HR), (R_entries _ _ HR), wadd_small by (unfold two64; lia); reflexivity|].
  intros i Hi. destruct (entry_at_ok s l i HR Hi) as (s1 & E1 & _). rewrite E1. reflexivity.
Qed.
Lemma open_answers l z : small l -> z <> 0%Z -> is_int32 z -> exists s, open_store (disk_of l) z = (Ok tt, s) /\ answers_as s l.
Proof. intros Sm Hz Hz32. destruct (open_disk l z Sm Hz Hz32) as (s & E & HR & _). exists s. split; [exact E|apply R_answers; exact HR]. Qed.

Lemma stage_first op s : crash_folder op Untouched s = Some (close s).
Proof. destruct op; reflexivity. Qed.
Lemma stage_last op s : crash_folder op Finished s = Some (close (snd (run_lop op s))).
Proof. destruct op; reflexivity. Qed.

(** A crash before anything reached the files: the store opens and holds the
    log as it was.  After everything reached the files: as it is after the
    operation. *)
Theorem C21_before_and_after_partial : forall z z' ops op s d,
  z <> 0%Z -> is_int32 z -> z' <> 0%Z -> is_int32 z' ->
  ops_ok (cache_limit z) 1 a_empty (ops ++ [op]) -> used z ops s ->
  (crash_folder op Untouched s = Some d ->
   exists s', open_store d z' = (Ok tt, s') /\ answers_as s' (spec_run a_empty ops)) /\
  (crash_folder op Finished s = Some d ->
   exists s', open_store d z' = (Ok tt, s') /\ answers_as s' (spec_run a_empty (ops ++ [op]))).
Proof.
  intros z z' ops op s d Hz Hz32 Hz' Hz32' H U.
  pose proof (ends_R z ops op s Hz Hz32 H U) as HR. pose proof (ends_R' z ops op s Hz Hz32 H U) as HR'.
  rewrite spec_run_snoc. split; intros Hd.
  - rewrite stage_first, (close_R _ _ HR) in Hd. injection Hd as <-.
    exact (open_answers _ z' (R_small _ _ HR) Hz' Hz32').
  - rewrite stage_last, (close_R _ _ HR') in Hd. injection Hd as <-.
    exact (open_answers _ z' (R_small _ _ HR') Hz' Hz32').
Qed.
Print Assumptions C21_before_and_after_partial.

(** ** Bytes cut into blocks *)
(** Nine or more bytes are the encoding of some entry. *)
Definition dec9 (bs : list byte) : entry_val := mkEV (of_le (firstn 8 bs)) (hd x00 (skipn 8 bs)) (skipn 9 bs).
Lemma enc_dec9 bs : 9 <= lenN bs -> enc (dec9 bs) = bs /\ esize (dec9 bs) = lenN bs /\ is_ulong (ev_term (dec9 bs)).
Proof.
  intros L. assert (L8: length (firstn 8 bs) = 8%nat) by (rewrite firstn_length; unfold lenN in L; lia).
  assert (E: enc (dec9 bs) = bs).
  { unfold enc, entry_bytes, dec9. cbn [ev_term ev_type ev_data]. rewrite <- L8 at 1. rewrite le_of_le.
    rewrite <- (firstn_skipn 8 bs) at 4. f_equal.
    assert (S: skipn 9 bs = tl (skipn 8 bs)).
    { clear. destruct bs as [|a0 bs]; [reflexivity|]. do 8 (destruct bs as [|? bs]; [reflexivity|]). reflexivity. }
    rewrite S. destruct (skipn 8 bs) as [|c r] eqn:Q; [|reflexivity].
    assert (length (skipn 8 bs) = 0%nat) as X by (rewrite Q; reflexivity). rewrite skipn_length in X. unfold lenN in L. lia. }
  split; [exact E|]. split; [rewrite <- lenN_enc, E; reflexivity|].
  unfold dec9. cbn [ev_term]. unfold is_ulong. pose proof (of_le_lt (firstn 8 bs)) as B. rewrite L8 in B. exact B.
Qed.

(** Data at least as long as the entries, read with their offsets: every block
    but the last keeps its size. *)
Lemma blocks es : forall e0 b D, Forall entry_ok (e0 :: es) -> dsize (e0 :: es) <= lenN D ->
  esize (last es e0) + (lenN D - dsize (e0 :: es)) < two31 ->
  exists es2, length es2 = length (e0 :: es) /\ offs b es2 = offs b (e0 :: es) /\ encs es2 = D /\ Forall entry_ok es2.
Proof.
  induction es as [|e1 es IH]; intros e0 b D F L S.
  - cbn [last dsize] in *. pose proof (esize_ge e0). rewrite N.add_0_r in L, S.
    destruct (enc_dec9 D) as (E1 & E2 & E3); [lia|].
    exists [dec9 D]. split; [reflexivity|]. split; [reflexivity|].
    split; [unfold encs; cbn [map concat]; rewrite E1; apply app_nil_r|].
    constructor; [split; [exact E3|rewrite E2; lia]|constructor].
  - inversion F as [|? ? He F']; subst. set (n := N.to_nat (esize e0)).
    assert (Ln: lenN (firstn n D) = esize e0).
    { unfold lenN. rewrite firstn_length. unfold n. cbn [dsize] in L. unfold lenN in L. lia. }
    assert (Ls: lenN (skipn n D) = lenN D - esize e0).
    { unfold lenN. rewrite skipn_length. unfold n. lia. }
    pose proof (esize_ge e0).
    destruct (enc_dec9 (firstn n D)) as (E1 & E2 & E3); [lia|].
    destruct (IH e1 (b + esize e0) (skipn n D)) as (es2 & A1 & A2 & A3 & A4); auto.
    { rewrite Ls. cbn [dsize] in *. lia. }
    { rewrite Ls. assert (LL: last (e1 :: es) e0 = last es e1) by apply last_cons. rewrite LL in S. cbn [dsize] in *. lia. }
    exists (dec9 (firstn n D) :: es2). split; [cbn [length] in *; lia|].
    split; [cbn [offs]; rewrite E2, Ln, A2; reflexivity|].
    split; [rewrite encs_cons, E1, A3, firstn_skipn; reflexivity|].
    constructor; [split; [exact E3|rewrite E2, Ln; apply He]|exact A4].
Qed.

(** ** Overwriting *)
Lemma over_idx x e0 y e : over (offs 0 (x ++ e0 :: y)) (offs 0 (x ++ [e])) = offs 0 (x ++ e0 :: y).
Proof.
  unfold over. rewrite length_offs, app_length. cbn [length].
  assert (E: offs 0 (x ++ e0 :: y) = offs 0 (x ++ [e]) ++ offs (dsize x + esize e0) y).
  { rewrite !offs_app, N.add_0_l. cbn [offs]. rewrite app_nil_r, <- app_assoc. reflexivity. }
  rewrite E. f_equal. rewrite skipn_app_exact; [reflexivity|]. rewrite length_offs, app_length. reflexivity.
Qed.
Lemma encs_one e : encs [e] = enc e.
Proof. unfold encs. cbn [map concat]. apply app_nil_r. Qed.
Lemma over_dat x e0 y e : over (encs (x ++ e0 :: y)) (encs (x ++ [e])) = encs x ++ over (encs (e0 :: y)) (enc e).
Proof.
  unfold over. rewrite !encs_app, encs_one, <- app_assoc. f_equal. f_equal.
  rewrite app_length. rewrite skipn_app_ge by lia. f_equal. lia.
Qed.
Lemma lenN_over a b : lenN (over a b) = N.max (lenN a) (lenN b).
Proof. unfold over. rewrite lenN_app. unfold lenN. rewrite skipn_length. lia. Qed.
Lemma last_size es : forall e0, esize (last es e0) <= dsize (e0 :: es).
Proof.
  induction es as [|e1 es IH]; intros e0; [cbn [last dsize]; lia|].
  assert (LL: last (e1 :: es) e0 = last es e1) by apply last_cons. rewrite LL. specialize (IH e1). cbn [dsize] in *. lia.
Qed.
Lemma get_prefix st x y i : i < st + lenN x -> a_get (mkAL st (x ++ y)) i = a_get (mkAL st x) i.
Proof.
  intros H. unfold a_get. cbn [al_start al_ents]. destruct (N.ltb_spec i st); [reflexivity|].
  apply nth_error_app1. unfold lenN in H. lia.
Qed.
Lemma log_at l i : al_start l <= i < a_next l -> exists x e0 y, l = mkAL (al_start l) (x ++ e0 :: y) /\ i = al_start l + lenN x.
Proof.
  intros [A B]. unfold a_next in B. destruct (split_nth (al_ents l) (N.to_nat (i - al_start l))) as (x & e0 & y & E & L).
  { unfold lenN in B. lia. }
  exists x, e0, y. split; [rewrite <- E; destruct l; reflexivity|]. unfold lenN. lia.
Qed.
Lemma replace_at st x e0 y e : a_replace (mkAL st (x ++ e0 :: y)) (st + lenN x) [e] = mkAL st (x ++ [e]).
Proof.
  unfold a_replace. cbn [al_start al_ents]. f_equal. f_equal.
  replace (st + lenN x - st) with (lenN x) by lia. unfold lenN. rewrite Nat2N.id, firstn_app_exact by reflexivity. reflexivity.
Qed.

(** write_at over an existing entry: whatever the stage of the crash, the store
    opens, and it has kept the first index and every entry below the one that
    was overwritten; it holds something at the overwritten index. *)
Theorem C85_overwrite_keeps_below_partial : forall z z' ops i e s g d,
  z <> 0%Z -> is_int32 z -> z' <> 0%Z -> is_int32 z' ->
  ops_ok (cache_limit z) 1 a_empty (ops ++ [LWriteAt i e]) -> used z ops s ->
  let l := spec_run a_empty ops in
  al_start l <= i < a_next l -> entry_ok e -> dsize (skipn (N.to_nat (i - al_start l)) (al_ents l)) < two31 ->
  crash_folder (LWriteAt i e) g s = Some d ->
  exists s' l', open_store d z' = (Ok tt, s') /\ answers_as s' l' /\
    al_start l' = al_start l /\ i < a_next l' <= a_next l /\ (forall j, j < i -> a_get l' j = a_get l j).
Proof.
  intros z z' ops i e s g d Hz Hz32 Hz' Hz32' H U l Hi He Sz Hd.
  pose proof (ends_R z ops _ s Hz Hz32 H U) as HR. pose proof (ends_R' z ops _ s Hz Hz32 H U) as HR'.
  pose proof (ends_a z ops _ s Hz Hz32 H U) as Ea. pose proof (ends_b z ops _ s Hz Hz32 H U) as Eb.
  fold l in HR, HR', Ea, Eb.
  pose proof (R_small _ _ HR) as Sm. pose proof (R_small _ _ HR') as Sm'.
  assert (En: spec_next l (LWriteAt i e) = a_replace l i [e]).
  { cbn [spec_next]. destruct (N.ltb_spec i (al_start l)); [lia|]. destruct (N.ltb_spec (a_next l) i); [lia|]. reflexivity. }
  rewrite En in *. clear En HR HR' H U.
  destruct (log_at l i Hi) as (x & e0 & y & El & Ei). clearbody l.
  assert (X: exists l', d = disk_of l' /\ small l' /\ al_start l' = al_start l /\ i < a_next l' <= a_next l /\
             (forall j, j < i -> a_get l' j = a_get l j)).
  2:{ destruct X as (l' & -> & Q & P). destruct (open_answers l' z' Q Hz' Hz32') as (s' & E & A). exists s', l'. split; [exact E|]. split; [exact A|exact P]. }
  destruct l as [st es]. cbn [al_start al_ents] in *. injection El as ->. subst i.
  rewrite replace_at in *.
  replace (st + lenN x - st) with (lenN x) in Sz by lia.
  assert (Sz': dsize (e0 :: y) < two31).
  { unfold lenN in Sz. rewrite Nat2N.id, skipn_app_exact in Sz by reflexivity. exact Sz. }
  destruct Sm as (S0 & S1 & S2 & S3). cbn [al_start al_ents] in *.
  pose proof (proj1 (Forall_app _ _ _) S3) as [Fx Fy].
  assert (Old: exists l', disk_of (mkAL st (x ++ e0 :: y)) = disk_of l' /\ small l' /\ al_start l' = st /\ st + lenN x < a_next l' <= a_next (mkAL st (x ++ e0 :: y)) /\
             (forall j, j < st + lenN x -> a_get l' j = a_get (mkAL st (x ++ e0 :: y)) j)).
  { exists (mkAL st (x ++ e0 :: y)). split; [reflexivity|]. split; [unfold small; cbn [al_start al_ents]; auto|].
    split; [reflexivity|]. split; [|reflexivity]. unfold a_next. cbn [al_start al_ents]. rewrite lenN_app, lenN_cons. lia. }
  assert (Mix: exists l', mkFolder (offs 0 (x ++ e0 :: y)) (encs x ++ over (encs (e0 :: y)) (enc e)) (le 8 st) = disk_of l' /\ small l' /\ al_start l' = st /\
             st + lenN x < a_next l' <= a_next (mkAL st (x ++ e0 :: y)) /\
             (forall j, j < st + lenN x -> a_get l' j = a_get (mkAL st (x ++ e0 :: y)) j)).
  { destruct (blocks y e0 (dsize x) (over (encs (e0 :: y)) (enc e)) Fy) as (es2 & A1 & A2 & A3 & A4).
    { rewrite lenN_over, lenN_encs. lia. }
    { rewrite lenN_over, lenN_encs, lenN_enc. pose proof (last_size y e0). destruct He as [_ He].
      destruct (N.max_spec (dsize (e0 :: y)) (esize e)) as [[? ->]|[? ->]]; lia. }
    assert (L2: lenN es2 = lenN (e0 :: y)) by (unfold lenN; rewrite A1; reflexivity).
    exists (mkAL st (x ++ es2)). split.
    { unfold disk_of. cbn [al_start al_ents]. rewrite !offs_app, N.add_0_l, A2, encs_app, A3. reflexivity. }
    split; [unfold small; cbn [al_start al_ents]; rewrite lenN_app in *; rewrite L2; split; [exact S0|]; split; [lia|]; split; [lia|]; apply Forall_app; auto|].
    split; [reflexivity|]. split; [unfold a_next; cbn [al_start al_ents]; rewrite !lenN_app, L2, lenN_cons; lia|].
    intros j Hj. rewrite !get_prefix by exact Hj. reflexivity. }
  unfold crash_folder in Hd. rewrite Ea, Eb in Hd. unfold disk_of in Hd. cbn [al_start al_ents d_idx d_dat d_sti] in Hd.
  rewrite over_idx, over_dat in Hd.
  destruct g; try discriminate Hd; injection Hd as <-; try exact Old; try exact Mix.
  - (* the index file is cut *)
    set (D := over (encs (e0 :: y)) (enc e)).
    assert (LD: lenN D = N.max (dsize (e0 :: y)) (esize e)) by (unfold D; rewrite lenN_over, lenN_encs, lenN_enc; reflexivity).
    pose proof (esize_ge e). destruct He as [He1 He2].
    destruct (enc_dec9 D) as (E1 & E2 & E3); [lia|].
    exists (mkAL st (x ++ [dec9 D])). split.
    { unfold disk_of. cbn [al_start al_ents]. rewrite !offs_app, encs_app, encs_one. cbn [offs]. rewrite E1. reflexivity. }
    split; [unfold small; cbn [al_start al_ents]; rewrite lenN_app, lenN_cons in *; rewrite lenN_nil; split; [exact S0|]; split; [lia|]; split; [lia|]|].
    { apply Forall_app. split; [exact Fx|]. constructor; [split; [exact E3|rewrite E2, LD; lia]|constructor]. }
    split; [reflexivity|]. split; [unfold a_next; cbn [al_start al_ents]; rewrite !lenN_app, !lenN_cons, lenN_nil; lia|].
    intros j Hj. rewrite !get_prefix by exact Hj. reflexivity.
  - (* everything is done *)
    exists (mkAL st (x ++ [e])). split; [reflexivity|]. split; [exact Sm'|]. split; [reflexivity|].
    split; [unfold a_next; cbn [al_start al_ents]; rewrite !lenN_app, !lenN_cons, lenN_nil; lia|].
    intros j Hj. rewrite !get_prefix by exact Hj. reflexivity.
Qed.
Print Assumptions C85_overwrite_keeps_below_partial.

Lemma ops_ok_last ops op : forall mx c l, ops_ok mx c l (ops ++ [op]) -> exists c', op_ok c' (spec_run l ops) op.
Proof. induction ops as [|o ops IH]; intros mx c l H; cbn [app ops_ok spec_run] in *; [destruct H; eauto|]. destruct H. eauto. Qed.

(** Overwriting the last entry with one that is not shorter: at every stage of
    the crash, the store opens with the log before or after. *)
Theorem C85_overwrite_last_partial : forall z z' ops i e s g d,
  z <> 0%Z -> is_int32 z -> z' <> 0%Z -> is_int32 z' ->
  ops_ok (cache_limit z) 1 a_empty (ops ++ [LWriteAt i e]) -> used z ops s ->
  let l := spec_run a_empty ops in
  al_start l <= i -> i + 1 = a_next l ->
  crash_folder (LWriteAt i e) g s = Some d ->
  exists s', open_store d z' = (Ok tt, s') /\
    (answers_as s' l \/ answers_as s' (spec_run a_empty (ops ++ [LWriteAt i e]))).
Proof.
  intros z z' ops i e s g d Hz Hz32 Hz' Hz32' H U l Hi Hn Hd.
  pose proof (ends_R z ops _ s Hz Hz32 H U) as HR. pose proof (ends_R' z ops _ s Hz Hz32 H U) as HR'.
  pose proof (ends_a z ops _ s Hz Hz32 H U) as Ea. pose proof (ends_b z ops _ s Hz Hz32 H U) as Eb.
  rewrite spec_run_snoc. destruct (ops_ok_last _ _ _ _ _ H) as (c' & [Hop _]).
  fold l in HR, HR', Ea, Eb, Hop |- *.
  pose proof (R_small _ _ HR) as Sm. pose proof (R_small _ _ HR') as Sm'.
  assert (En: spec_next l (LWriteAt i e) = a_replace l i [e]).
  { cbn [spec_next]. destruct (N.ltb_spec i (al_start l)); [lia|]. destruct (N.ltb_spec (a_next l) i); [lia|]. reflexivity. }
  rewrite En in *. clear En HR HR' H U. destruct Hop as (He & Cut & _); [lia|].
  destruct (log_at l i) as (x & e0 & y & El & Ei); [lia|]. clearbody l.
  assert (X: d = disk_of l \/ d = disk_of (a_replace l i [e])).
  2:{ destruct X as [-> | ->].
      - destruct (open_answers _ z' Sm Hz' Hz32') as (s' & E & A). eauto.
      - destruct (open_answers _ z' Sm' Hz' Hz32') as (s' & E & A). eauto. }
  clear Sm Sm'. destruct l as [st es]. cbn [al_start al_ents] in *. injection El as ->. subst i.
  rewrite replace_at in *. unfold a_next in Hn. cbn [al_start al_ents] in Hn. rewrite lenN_app, lenN_cons in Hn.
  destruct y as [|e1 y]; [|rewrite lenN_cons in Hn; lia].
  unfold cut_ok in Cut. cbn [al_ents] in Cut. rewrite !lenN_app, !dsize_app in Cut. cbn [dsize] in Cut.
  assert (Sz: esize e0 <= esize e) by (destruct Cut as [Cut|Cut]; [change (lenN [e]) with 1 in Cut; change (lenN [e0]) with 1 in Cut; lia|lia]).
  assert (Ov: over (encs [e0]) (enc e) = enc e).
  { unfold over. rewrite encs_one, skipn_all2; [apply app_nil_r|]. rewrite !length_enc. lia. }
  assert (Ei: offs 0 (x ++ [e0]) = offs 0 (x ++ [e])) by (rewrite !offs_app; reflexivity).
  unfold crash_folder in Hd. rewrite Ea, Eb in Hd. unfold disk_of in Hd. cbn [al_start al_ents d_idx d_dat d_sti] in Hd.
  rewrite over_idx, over_dat, Ov in Hd. unfold disk_of. cbn [al_start al_ents].
  assert (Ex: encs (x ++ [e]) = encs x ++ enc e) by (rewrite encs_app, encs_one; reflexivity).
  destruct g; try discriminate Hd; injection Hd as <-; auto; right; rewrite Ex; try rewrite Ei; reflexivity.
Qed.
Print Assumptions C85_overwrite_last_partial.

(** ** Compacting *)
Lemma nth_after {A} (m : list A) : forall c j, nth_error (skipn c m) j = nth_error m (c + j).
Proof. induction m as [|x m IH]; intros [|c] j; cbn [skipn]; auto; [destruct j; reflexivity|apply IH]. Qed.
(** The start index is written last: a crash just before leaves the entries
    that are kept under the old start index.  The store opens, and every index
    shows the entry that belongs [k + 1 - start] places further up. *)
Theorem C85_compact_shifts : forall z z' ops k s d,
  z <> 0%Z -> is_int32 z -> z' <> 0%Z -> is_int32 z' ->
  ops_ok (cache_limit z) 1 a_empty (ops ++ [LCompact k]) -> used z ops s ->
  let l := spec_run a_empty ops in
  al_start l <= k -> crash_folder (LCompact k) FilesCut s = Some d ->
  exists s' l', open_store d z' = (Ok tt, s') /\ answers_as s' l' /\ al_start l' = al_start l /\
    a_next l' = al_start l + (a_next l - (k + 1)) /\
    (forall j, al_start l <= j -> a_get l' j = a_get l (j + (k + 1 - al_start l))).
Proof.
  intros z z' ops k s d Hz Hz32 Hz' Hz32' H U l Hk Hd.
  pose proof (ends_R z ops _ s Hz Hz32 H U) as HR. pose proof (ends_R' z ops _ s Hz Hz32 H U) as HR'.
  pose proof (ends_a z ops _ s Hz Hz32 H U) as Ea. pose proof (ends_b z ops _ s Hz Hz32 H U) as Eb.
  fold l in HR, HR', Ea, Eb. pose proof (R_small _ _ HR) as Sm. pose proof (R_small _ _ HR') as Sm'.
  assert (En: spec_next l (LCompact k) = a_compact l k).
  { cbn [spec_next]. destruct (N.ltb_spec k (al_start l)); [lia|]. reflexivity. }
  rewrite En in *. clear En HR HR' H U. clearbody l.
  unfold crash_folder in Hd. rewrite Ea, Eb in Hd. injection Hd as <-.
  destruct l as [st es]. unfold a_compact, disk_of, small in *. cbn [al_start al_ents d_idx d_dat d_sti] in *.
  set (l' := mkAL st (skipn (N.to_nat (k + 1 - st)) es)).
  assert (Q: small l').
  { unfold small, l'. cbn [al_start al_ents]. destruct Sm as (S0 & S1 & S2 & S3). destruct Sm' as (_ & T1 & T2 & T3). split; [exact S0|]. split; [lia|]. auto. }
  destruct (open_answers l' z' Q Hz' Hz32') as (s' & E & A). exists s', l'. split; [exact E|]. split; [exact A|]. split; [reflexivity|].
  split.
  { unfold l', a_next. cbn [al_start al_ents]. unfold lenN. rewrite skipn_length. lia. }
  intros j Hj. unfold l', a_get. cbn [al_start al_ents].
  destruct (N.ltb_spec j st); [lia|]. destruct (N.ltb_spec (j + (k + 1 - st)) st); [lia|].
  rewrite nth_after. f_equal. lia.
Qed.
Print Assumptions C85_compact_shifts.

(** What opening does up to loading the cache. *)
Lemma open_prefix st n os dat z : st < two64 -> lenN os = 8 * n ->
  open_store (mkFolder os dat (le 8 st)) z =
  fill_buffer (mkStore (mkFile os (lenN os) false) (mkFile dat (lenN dat) false) (mkFile (le 8 st) (0 + 8) false) n st
                 (mkCache (first_cached n st (cache_limit z)) [] (cache_limit z)) (cache_limit z)).
Proof.
  intros S0 Lo. unfold open_store. cbn [d_idx d_dat d_sti]. cbv zeta. unfold f_reopen. sfields. unfold f_tell at 1. sfields. rewrite lenN_le.
  destruct (N.ltb_spec 0 (N.of_nat 8)); [|lia].
  erewrite (sbind_ok (sbind (sti_do _) _)).
  2:{ unfold sbind at 1, sti_do, smod, set_sti. sfields. rewrite f_seek_ok by lia.
      erewrite sbind_ok.
      2:{ unfold on_sti. sfields.
          pose proof (f_read_at [] (le 8 st) [] 0 8 eq_refl eq_refl) as FR. rewrite app_nil_r in FR. cbn [app] in FR.
          rewrite FR. reflexivity. }
      rewrite of_le_le8 by (unfold is_ulong; exact S0).
      unfold sbind, smod, set_start, set_entries, set_sti, sget. sfields. unfold f_tell. sfields.
      rewrite Lo. replace (8 * n / 8) with n by lia. reflexivity. }
  unfold sbind at 1, smod, set_cache. sfields. reflexivity.
Qed.

(** A folder with an empty index file is an empty log, whatever the data file holds. *)
Lemma open_empty st dat z : st < 4611686018427387904 -> z <> 0%Z -> is_int32 z ->
  exists s, open_store (mkFolder [] dat (le 8 st)) z = (Ok tt, s) /\ answers_as s (mkAL st []).
Proof.
  intros S0 Hz Hz32.
  rewrite (open_prefix (st) 0 [] dat z) by (try reflexivity; unfold two64; lia).
  set (b := cache_limit z).
  assert (Hb: 1 <= b) by (unfold b, cache_limit; destruct (Z.ltb_spec z 0); lia).
  assert (F0: first_cached 0 (st) b = st) by (unfold first_cached; destruct (N.ltb_spec b 0); [lia|reflexivity]).
  rewrite F0.
  eexists. split.
  { unfold fill_buffer. erewrite sbind_ok by reflexivity. do 5 (erewrite sbind_ok by reflexivity). reflexivity. }
  split; [reflexivity|].
  split.
  { transitivity (wadd (st) 0); [reflexivity|]. rewrite wadd_small by (unfold two64; lia). reflexivity. }
  intros i Hi. unfold set_dat, set_idx. sfields. unfold entry_at. erewrite sbind_ok by reflexivity. sfields. unfold c_at. cbn [c_buf c_start].
  change (lenN (@nil entry_val)) with 0. destruct (N.leb_spec 0 (wsub i (st))); [|lia]. cbn [orb].
  do 2 (erewrite sbind_ok by reflexivity). sfields.
  destruct (N.ltb_spec i (st)) as [|Q]; [reflexivity|].
  erewrite sbind_ok by reflexivity. rewrite wadd_small by (unfold two64; lia). rewrite N.add_0_r.
  destruct (N.leb_spec (st) i); [|lia].
  unfold a_get. cbn [al_start al_ents]. destruct (N.ltb_spec i (st)); [lia|].
  destruct (N.to_nat (i - st)); reflexivity.
Qed.

(** Compacting everything removes both files before the start index is
    written: a crash between leaves an empty log that starts where the old one
    did, so the next index falls back to the old start. *)
Theorem C85_compact_all_loses : forall z z' ops k s g d,
  z <> 0%Z -> is_int32 z -> z' <> 0%Z -> is_int32 z' ->
  ops_ok (cache_limit z) 1 a_empty (ops ++ [LCompact k]) -> used z ops s ->
  let l := spec_run a_empty ops in
  al_start l <= k -> a_next l <= k + 1 -> g = IndexCut \/ g = FilesCut -> crash_folder (LCompact k) g s = Some d ->
  exists s', open_store d z' = (Ok tt, s') /\ answers_as s' (mkAL (al_start l) []).
Proof.
  intros z z' ops k s g d Hz Hz32 Hz' Hz32' H U l Hk Hn Hg Hd.
  pose proof (ends_R z ops _ s Hz Hz32 H U) as HR. pose proof (ends_R' z ops _ s Hz Hz32 H U) as HR'.
  pose proof (ends_a z ops _ s Hz Hz32 H U) as Ea. pose proof (ends_b z ops _ s Hz Hz32 H U) as Eb.
  fold l in HR, HR', Ea, Eb. pose proof (R_small _ _ HR) as Sm.
  assert (En: spec_next l (LCompact k) = mkAL (k + 1) []).
  { cbn [spec_next]. destruct (N.ltb_spec k (al_start l)); [lia|]. unfold a_compact. rewrite skipn_all2; [reflexivity|].
    unfold a_next, lenN in Hn. lia. }
  rewrite En in *.
  assert (Hd': exists dat, d = mkFolder [] dat (le 8 (al_start l))).
  { unfold crash_folder in Hd. rewrite Ea, Eb in Hd. destruct Hg as [-> | ->].
    - destruct (empties k s); [|discriminate Hd]. injection Hd as <-. eexists. reflexivity.
    - injection Hd as <-. eexists. reflexivity. }
  destruct Hd' as (dat & ->). destruct Sm as (S0 & S1 & S2 & S3). apply open_empty; auto; lia.
Qed.
Print Assumptions C85_compact_all_loses.

(** ** Appending *)
Lemma fill_loop_any es : forall fuel base e D pos f st n s c b,
  Forall entry_ok (e :: es) -> base + dsize (e :: es) < 9223372036854775808 -> (8 * length es <= fuel)%nat ->
  exists x last, e :: es = x ++ [last] /\
    ((exists ex s', fill_loop fuel (offs (base + esize e) es) base (mkStore f (mkFile D pos false) st n s c b) = (Throw ex, s')) \/
     (exists pos' c', fill_loop fuel (offs (base + esize e) es) base (mkStore f (mkFile D pos false) st n s c b) =
        (Ok (base + dsize x), mkStore f (mkFile D pos' false) st n s c' b))).
Proof.
  induction es as [|e' es IH]; intros fuel base e D pos f st n s c b F B Fu.
  - exists [], e. split; [reflexivity|]. right. exists pos, c. cbn [offs]. cbn [dsize]. rewrite N.add_0_r.
    destruct fuel; reflexivity.
  - inversion F as [|? ? He F']; subst. cbn [dsize] in B. destruct fuel as [|fuel]; [cbn [length] in Fu; lia|].
    assert (Fu': (8 * length es <= fuel)%nat) by (cbn [length] in Fu; lia).
    assert (B': base + esize e + dsize (e' :: es) < 9223372036854775808) by (cbn [dsize]; lia).
    destruct (IH fuel (base + esize e) e' D pos f st n s c b F' B' Fu') as (x & la & E & _).
    exists (e :: x), la. split; [rewrite E; reflexivity|].
    assert (O: offs (base + esize e) (e' :: es) = le 8 (base + esize e) ++ offs (base + esize e + esize e') es) by reflexivity.
    assert (NE: exists b0 r0, le 8 (base + esize e) ++ offs (base + esize e + esize e') es = b0 :: r0) by (cbn [le app]; eauto).
    destruct NE as (b0 & r0 & NE).
    assert (Step: fill_loop (S fuel) (offs (base + esize e) (e' :: es)) base (mkStore f (mkFile D pos false) st n s c b) =
      (bs <- read_dat (esize e) ;; e0 <- slift (dec_entry bs) ;; cache_do (fun c => c_append c e0) ;;;
       fill_loop fuel (offs (base + esize e + esize e') es) (base + esize e)) (mkStore f (mkFile D pos false) st n s c b)).
    { rewrite O.
      transitivity ((if lenN (le 8 (base + esize e) ++ offs (base + esize e + esize e') es) <? 8 then sfail OverflowError
        else let data_end := of_le (firstn 8 (le 8 (base + esize e) ++ offs (base + esize e + esize e') es)) in
          bs <- read_dat (wsub data_end base) ;;
          e0 <- slift (dec_entry bs) ;;
          cache_do (fun c => c_append c e0) ;;;
          fill_loop fuel (skipn 8 (le 8 (base + esize e) ++ offs (base + esize e + esize e') es)) data_end)
         (mkStore f (mkFile D pos false) st n s c b)).
      { rewrite NE. reflexivity. }
      rewrite lenN_app, lenN_le.
      destruct (N.ltb_spec (N.of_nat 8 + lenN (offs (base + esize e + esize e') es)) 8); [lia|].
      rewrite firstn_app_exact by apply le_length. rewrite skipn_app_exact by apply le_length.
      rewrite of_le_le8 by (unfold is_ulong, two64; lia). cbv zeta.
      rewrite wsub_small by (unfold two64; lia). replace (base + esize e - base) with (esize e) by lia. reflexivity. }
    rewrite Step. clear Step. destruct He as [He1 He2].
    assert (RD: read_dat (esize e) (mkStore f (mkFile D pos false) st n s c b) =
      if pos + esize e <=? lenN D
      then (Ok (firstn (N.to_nat (esize e)) (skipn (N.to_nat pos) D)), mkStore f (mkFile D (pos + esize e) false) st n s c b)
      else (Throw IosFailure, mkStore f (mkFile D (N.max pos (lenN D)) true) st n s c b)).
    { unfold read_dat, can_alloc. destruct (N.leb_spec two31 (esize e)); [lia|].
      unfold sbind, slift, on_dat. sfields. unfold f_read. sfields. destruct (pos + esize e <=? lenN D); reflexivity. }
    destruct (pos + esize e <=? lenN D).
    2:{ left. eexists _, _. unfold sbind at 1. rewrite RD. reflexivity. }
    rewrite (sbind_ok _ _ _ _ _ RD). clear RD. set (bs := firstn (N.to_nat (esize e)) (skipn (N.to_nat pos) D)).
    destruct (dec_entry bs) as [v|ex|u] eqn:Ed.
    2:{ left. eexists _, _. reflexivity. }
    2:{ exfalso. unfold dec_entry in Ed. destruct (lenN bs <? 9); discriminate Ed. }
    erewrite sbind_ok by reflexivity. erewrite sbind_ok by reflexivity. unfold set_cache. sfields.
    destruct (IH fuel (base + esize e) e' D (pos + esize e) f st n s (c_append c v) b F' B' Fu') as (x' & la' & E' & [G|G]).
    + left. exact G.
    + right. rewrite E in E'. apply app_inj_tail in E'. destruct E' as [<- _].
      destruct G as (pos' & c' & G). exists pos', c'. rewrite G. cbn [dsize]. rewrite N.add_assoc. reflexivity.
Qed.

(** A data file in which the last entry has fewer than nine bytes. *)
Lemma open_short st es t D z : small (mkAL st (es ++ [t])) -> lenN D < dsize es + 9 -> z <> 0%Z -> is_int32 z ->
  exists ex, fst (open_store (mkFolder (offs 0 (es ++ [t])) D (le 8 st)) z) = Throw ex.
Proof.
  intros Sm HD Hz Hz32. pose proof (dsize_small _ Sm) as DS. destruct Sm as (S0 & S1 & S2 & S3). cbn [al_start al_ents] in *.
  set (b := cache_limit z).
  assert (Hb: 1 <= b) by (unfold b, cache_limit; destruct (Z.ltb_spec z 0); lia).
  rewrite (open_prefix st (lenN (es ++ [t]))) by (try apply lenN_offs; unfold two64; lia). fold b.
  destruct (window_split (es ++ [t]) st b Hb S1) as (x & y & E & NE & Hy & EF). rewrite EF.
  destruct y as [|e y].
  { rewrite (NE eq_refl) in E. cbn [app] in E. destruct es; discriminate E. }
  unfold fill_buffer. erewrite sbind_ok by reflexivity. sfields.
  do 5 (erewrite sbind_ok by reflexivity).
  unfold set_idx, set_dat, f_seek_end. sfields. unfold f_tell. sfields.
  rewrite E in *. rewrite lenN_offs, lenN_app, lenN_cons in *. rewrite dsize_app in *.
  destruct (N.ltb_spec 0 (8 * (lenN x + (1 + lenN y)))) as [_|]; [|lia]. cbn [andb negb].
  erewrite sbind_ok by reflexivity. sfields.
  rewrite (wsub_small (st + lenN x) st) by (unfold two64; lia).
  replace (st + lenN x - st) with (lenN x) by lia.
  rewrite wmul_small by (unfold two64; lia).
  unfold sbind at 1, idx_do at 1, smod, set_idx. sfields.
  rewrite f_seek_ok by lia.
  rewrite wsub_small by (unfold two64; lia).
  unfold can_alloc. destruct (N.leb_spec two31 (8 * (lenN x + (1 + lenN y)) - lenN x * 8)) as [HH|_]; [unfold two31 in HH; lia|].
  erewrite sbind_ok by reflexivity.
  rewrite offs_app, N.add_0_l.
  set (OX := offs 0 x). set (OY := offs (dsize x) (e :: y)).
  assert (RI: forall g st' n' s' c' b', on_idx (f_read (8 * (lenN x + (1 + lenN y)) - lenN x * 8))
     (mkStore (mkFile (OX ++ OY) (lenN x * 8) false) g st' n' s' c' b') =
     (Ok OY, mkStore (mkFile (OX ++ OY) (lenN x * 8 + (8 * (lenN x + (1 + lenN y)) - lenN x * 8)) false) g st' n' s' c' b')).
  { intros. unfold on_idx. cbn [s_idx]. pose proof (f_read_at OX OY [] (lenN x * 8) (8 * (lenN x + (1 + lenN y)) - lenN x * 8)) as FR.
    rewrite !app_nil_r in FR. rewrite FR.
    - reflexivity.
    - unfold OX. rewrite lenN_offs. lia.
    - unfold OY. rewrite lenN_offs, lenN_cons. lia. }
  erewrite sbind_ok by apply RI.
  assert (LOY: lenN OY = 8 * (1 + lenN y)) by (unfold OY; rewrite lenN_offs, lenN_cons; lia).
  destruct (N.ltb_spec (lenN OY) 8) as [|_]; [lia|].
  assert (OYE: OY = le 8 (dsize x) ++ offs (dsize x + esize e) y) by reflexivity.
  assert (F8: of_le (firstn 8 OY) = dsize x).
  { rewrite OYE, firstn_app_exact by apply le_length. apply of_le_le8. unfold is_ulong, two64; lia. }
  assert (S8: skipn 8 OY = offs (dsize x + esize e) y).
  { rewrite OYE, skipn_app_exact by apply le_length. reflexivity. }
  cbv zeta. rewrite F8, S8.
  unfold sbind at 1, dat_do, smod, set_dat. sfields.
  rewrite f_seek_ok by lia.
  match goal with |- context [mkCache ?a ?q ?m] => set (c := mkCache a q m) end.
  match goal with |- context [mkStore ?f _ ?t ?n ?s _ _] => set (f0 := f); set (t0 := t); set (n0 := n) end.
  destruct (fill_loop_any y (length OY) (dsize x) e D (dsize x) f0 t0 n0 st c b) as (zs & la & Ez & [G|G]).
  { apply Forall_app in S3. tauto. }
  { lia. }
  { unfold OY. rewrite length_offs. cbn [length]. lia. }
  - destruct G as (ex & s' & G). exists ex. unfold sbind at 1. rewrite G. reflexivity.
  - destruct G as (pos' & c' & G). erewrite sbind_ok by exact G. clear G.
    rewrite Ez in E. rewrite !app_assoc in E. apply app_inj_tail in E. destruct E as [E _].
    assert (DX: dsize x + dsize zs = dsize es) by (rewrite <- !dsize_app, E; reflexivity).
    assert (DB: dsize x + dsize zs < 9223372036854775808).
    { rewrite Ez, dsize_app in DS. lia. }
    unfold read_dat, can_alloc. destruct (N.le_gt_cases (dsize es) (lenN D)) as [Q|Q].
    + rewrite wsub_small by (unfold two64; lia). rewrite DX.
      destruct (N.leb_spec two31 (lenN D - dsize es)) as [Q1|_]; [unfold two31 in Q1; lia|].
      unfold sbind, slift, on_dat. sfields. unfold f_read. sfields.
      destruct (pos' + (lenN D - dsize es) <=? lenN D); [|eexists; reflexivity].
      unfold dec_entry.
      match goal with |- context [lenN ?bs <? 9] => assert (lenN bs < 9) by (unfold lenN; rewrite firstn_length; unfold lenN in *; lia) end.
      match goal with |- context [lenN ?bs <? 9] => destruct (N.ltb_spec (lenN bs) 9); [|lia] end. eexists. reflexivity.
    + assert (W: two31 <= wsub (lenN D) (dsize x + dsize zs)).
      { unfold wsub, two31, two64. rewrite N.mod_small by lia. lia. }
      destruct (N.leb_spec two31 (wsub (lenN D) (dsize x + dsize zs))); [|lia]. eexists. reflexivity.
Qed.

Lemma open_torn st es t z : small (mkAL st (es ++ t)) -> t <> [] -> z <> 0%Z -> is_int32 z ->
  exists ex, fst (open_store (mkFolder (offs 0 (es ++ t)) (encs es) (le 8 st)) z) = Throw ex.
Proof.
  intros Sm Ht Hz Hz32. destruct (exists_last Ht) as (t' & la & ->). rewrite app_assoc in *.
  apply open_short; auto. rewrite lenN_encs, dsize_app. lia.
Qed.

(** An operation that adds entries behind the last one (append, write_at at the
    next index, apply_pack at the next index): a crash after the index file is
    written and before the data file is leaves a store that cannot be opened
    any more, whatever its history and whatever the cache size. *)
Theorem C21_append_torn : forall z z' ops op s d t,
  z <> 0%Z -> is_int32 z -> z' <> 0%Z -> is_int32 z' ->
  ops_ok (cache_limit z) 1 a_empty (ops ++ [op]) -> used z ops s ->
  al_ents (spec_run a_empty (ops ++ [op])) = al_ents (spec_run a_empty ops) ++ t -> t <> [] ->
  crash_folder op IndexOnly s = Some d ->
  exists ex, fst (open_store d z') = Throw ex.
Proof.
  intros z z' ops op s d t Hz Hz32 Hz' Hz32' H U Et Ht Hd.
  pose proof (ends_a z ops _ s Hz Hz32 H U) as Ea. pose proof (ends_b z ops _ s Hz Hz32 H U) as Eb.
  pose proof (R_small _ _ (ends_R' z ops _ s Hz Hz32 H U)) as Sm.
  rewrite spec_run_snoc in Et. set (l := spec_run a_empty ops) in *.
  assert (Es: al_start (spec_next l op) = al_start l).
  { destruct op; try discriminate Hd; cbn [spec_next]; try reflexivity. destruct (_ || _); reflexivity. }
  assert (X: d = mkFolder (offs 0 (al_ents l ++ t)) (encs (al_ents l)) (le 8 (al_start l))).
  { assert (Y: d = mkFolder (over (d_idx (close s)) (d_idx (close (snd (run_lop op s))))) (d_dat (close s)) (d_sti (close s)))
      by (unfold crash_folder in Hd; destruct op; try discriminate Hd; injection Hd as <-; reflexivity).
    rewrite Y, Ea, Eb. unfold disk_of. cbn [d_idx d_dat d_sti]. f_equal. rewrite Et. unfold over.
    rewrite skipn_all2; [apply app_nil_r|]. rewrite !length_offs, app_length. lia. }
  subst d. apply open_torn; auto. unfold small in *. cbn [al_start al_ents]. rewrite Et, Es in Sm. exact Sm.
Qed.
Print Assumptions C21_append_torn.

(** The other way round, the data file first (entries larger than the stream's
    buffer): the store opens, all entries but the last are as they were, and the
    last one has grown by the bytes of the new entries. *)
Theorem C21_append_data_first : forall z z' ops op s d x la t,
  z <> 0%Z -> is_int32 z -> z' <> 0%Z -> is_int32 z' ->
  ops_ok (cache_limit z) 1 a_empty (ops ++ [op]) -> used z ops s ->
  let l := spec_run a_empty ops in
  al_ents l = x ++ [la] -> al_ents (spec_run a_empty (ops ++ [op])) = al_ents l ++ t -> esize la + dsize t < two31 ->
  crash_folder op DataOnly s = Some d -> (forall k, op <> LCompact k) ->
  exists s', open_store d z' = (Ok tt, s') /\
    answers_as s' (mkAL (al_start l) (x ++ [mkEV (ev_term la) (ev_type la) (ev_data la ++ encs t)])).
Proof.
  intros z z' ops op s d x la t Hz Hz32 Hz' Hz32' H U l El Et Sz Hd Nk.
  pose proof (ends_a z ops _ s Hz Hz32 H U) as Ea. pose proof (ends_b z ops _ s Hz Hz32 H U) as Eb.
  pose proof (R_small _ _ (ends_R z ops _ s Hz Hz32 H U)) as Sm.
  rewrite spec_run_snoc in Et. fold l in Ea, Eb, Et, Sm.
  set (l' := mkAL (al_start l) (x ++ [mkEV (ev_term la) (ev_type la) (ev_data la ++ encs t)])).
  assert (X: d = disk_of l').
  { assert (Y: d = mkFolder (d_idx (close s)) (over (d_dat (close s)) (d_dat (close (snd (run_lop op s))))) (d_sti (close s)))
      by (unfold crash_folder in Hd; destruct op; try discriminate Hd; try (injection Hd as <-; reflexivity); exfalso; eapply Nk; reflexivity).
    rewrite Y, Ea, Eb. unfold disk_of, l'. cbn [d_idx d_dat d_sti al_start al_ents]. rewrite Et. unfold over.
    rewrite skipn_all2 by (rewrite !length_encs, dsize_app; lia). rewrite app_nil_r, El. f_equal.
    - rewrite !offs_app. reflexivity.
    - rewrite !encs_app, !encs_one, <- app_assoc. f_equal. }
  subst d. apply open_answers; auto. unfold l'. destruct Sm as (S0 & S1 & S2 & S3). rewrite El in S1, S2, S3.
  unfold small. cbn [al_start al_ents]. rewrite lenN_app in *. change (lenN [la]) with 1 in *.
  match goal with |- context [lenN [?v]] => change (lenN [v]) with 1 end.
  split; [exact S0|]. split; [lia|]. split; [lia|]. apply Forall_app in S3. destruct S3 as [F1 F2]. apply Forall_app. split; [exact F1|].
  inversion F2 as [|? ? [G1 G2] _]; subst. constructor; [|constructor]. split; [exact G1|].
  unfold esize in *. cbn [ev_data]. rewrite lenN_app, lenN_encs. lia.
Qed.
Print Assumptions C21_append_data_first.

(** ** What is not so *)
Definition three : list lop := [LAppend big; LAppend big; LAppend big].
Definition long : entry_val := ev 5 (repeat x61 18).

(** Overwriting the first of three entries with a longer one, crash before the
    truncation: the second entry has a term that nobody ever wrote, made of the
    payload of the new entry. *)
Theorem C85_overwrite_mixes_refuted : exists s d s',
  used (-1) three s /\ ops_ok (cache_limit (-1)) 1 a_empty (three ++ [LWriteAt 1 long]) /\
  crash_folder (LWriteAt 1 long) Both s = Some d /\ open_store d (-1) = (Ok tt, s') /\ next_slot s' = 4 /\
  fst (entry_at 2 s') = Ok (Some (mkEV 7016996765293437281 x61 [x61; x61; x61])).
Proof.
  eexists _, _, _. split; [run_it|]. split; [hist|]. split; [vm_compute; reflexivity|]. split; [vm_compute; reflexivity|].
  split; vm_compute; reflexivity.
Qed.
Print Assumptions C85_overwrite_mixes_refuted.

(** The same, crash between the truncation of the index file and that of the
    data file: the new entry has the bytes of the old ones behind its own. *)
Theorem C85_overwrite_stale_refuted : exists s d s',
  used (-1) [LAppend big; LAppend tiny] s /\ ops_ok (cache_limit (-1)) 1 a_empty ([LAppend big; LAppend tiny] ++ [LWriteAt 1 tiny]) /\
  crash_folder (LWriteAt 1 tiny) IndexCut s = Some d /\ open_store d (-1) = (Ok tt, s') /\ next_slot s' = 2 /\
  fst (entry_at 1 s') = Ok (Some (ev 2 ([x64; x62; x63] ++ enc tiny))).
Proof.
  eexists _, _, _. split; [run_it|]. split; [hist|]. split; [vm_compute; reflexivity|]. split; [vm_compute; reflexivity|].
  split; vm_compute; reflexivity.
Qed.
Print Assumptions C85_overwrite_stale_refuted.

(** apply_pack over existing entries does not keep them either when only the
    offsets of the pack have reached the index file: the entries show pieces of
    the old data. *)
Theorem C85_pack_mixes_refuted : exists s d s',
  used (-1) three s /\ ops_ok (cache_limit (-1)) 1 a_empty (three ++ [LApplyPack 1 0 [tiny; long]]) /\
  crash_folder (LApplyPack 1 0 [tiny; long]) IndexOnly s = Some d /\ open_store d (-1) = (Ok tt, s') /\ next_slot s' = 4 /\
  fst (entry_at 1 s') = Ok (Some (ev 1 [x61])) /\
  fst (entry_at 2 s') = Ok (Some (mkEV 90978 x00 [x00; x01; x61; x62; x63])).
Proof.
  eexists _, _, _. split; [run_it|]. split; [hist|]. split; [vm_compute; reflexivity|]. split; [vm_compute; reflexivity|].
  repeat split; vm_compute; reflexivity.
Qed.
Print Assumptions C85_pack_mixes_refuted.

(** Compacting one of three entries: after the data file is moved, the entries
    that are kept are unreadable under their old offsets; after it is cut, or
    after the index file is written, the store cannot be opened. *)
Definition mixed_sizes : list lop := [LAppend tiny; LAppend big; LAppend tiny].
Theorem C85_compact_moves_refuted : exists s d1 s1 d2 d3,
  used (-1) mixed_sizes s /\ ops_ok (cache_limit (-1)) 1 a_empty (mixed_sizes ++ [LCompact 1]) /\
  crash_folder (LCompact 1) DataOnly s = Some d1 /\ open_store d1 (-1) = (Ok tt, s1) /\
  fst (entry_at 2 s) = Ok (Some big) /\ fst (entry_at 2 s1) = Ok (Some (mkEV 156514 x00 [x00; x01; x64])) /\
  crash_folder (LCompact 1) DataCut s = Some d2 /\ fst (open_store d2 (-1)) = Throw OverflowError /\
  crash_folder (LCompact 1) Both s = Some d3 /\ fst (open_store d3 (-1)) = Throw OverflowError.
Proof.
  eexists _, _, _, _, _. split; [run_it|]. split; [hist|]. split; [vm_compute; reflexivity|]. split; [vm_compute; reflexivity|].
  split; [vm_compute; reflexivity|]. split; [vm_compute; reflexivity|]. split; [vm_compute; reflexivity|].
  split; [vm_compute; reflexivity|]. split; vm_compute; reflexivity.
Qed.
Print Assumptions C85_compact_moves_refuted.

(** ** Examples *)
Definition at_stage (ops : list lop) (op : lop) (g : stage) (s : store) (d : folder) : Prop :=
  used (-1) ops s /\ ops_ok (cache_limit (-1)) 1 a_empty (ops ++ [op]) /\ crash_folder op g s = Some d.
Ltac stg := eexists _, _; split; [run_it|]; split; [hist|vm_compute; reflexivity].

Example C21_before_and_after_example :
  (exists s d, at_stage three (LCompact 2) Untouched s d) /\ (exists s d, at_stage three (LCompact 2) Finished s d).
Proof. split; stg. Qed.
Example C85_overwrite_keeps_below_example : (exists s d, at_stage three (LWriteAt 2 long) Both s d) /\
  al_start (spec_run a_empty three) <= 2 < a_next (spec_run a_empty three) /\ entry_ok long /\
  dsize (skipn (N.to_nat (2 - al_start (spec_run a_empty three))) (al_ents (spec_run a_empty three))) < two31.
Proof. split; [stg|]. split; [split; vm_compute; [discriminate|reflexivity]|]. split; [eok|vm_compute; reflexivity]. Qed.
Example C85_overwrite_last_example : (exists s d, at_stage three (LWriteAt 3 long) DataOnly s d) /\
  al_start (spec_run a_empty three) <= 3 /\ 3 + 1 = a_next (spec_run a_empty three).
Proof. split; [stg|]. split; vm_compute; [discriminate|reflexivity]. Qed.
Example C85_compact_shifts_example : (exists s d, at_stage mixed_sizes (LCompact 1) FilesCut s d) /\
  al_start (spec_run a_empty mixed_sizes) <= 1 /\ a_get (spec_run a_empty mixed_sizes) 1 <> a_get (spec_run a_empty mixed_sizes) 2.
Proof. split; [stg|]. split; vm_compute; discriminate. Qed.
Example C85_compact_all_loses_example : (exists s d, at_stage three (LCompact 3) IndexCut s d) /\ (exists s d, at_stage three (LCompact 3) FilesCut s d) /\
  al_start (spec_run a_empty three) <= 3 /\ a_next (spec_run a_empty three) <= 3 + 1.
Proof. split; [stg|]. split; [stg|]. split; vm_compute; discriminate. Qed.
Example C21_append_torn_example : (exists s d, at_stage three (LAppend tiny) IndexOnly s d) /\
  (exists s d, at_stage three (LWriteAt 4 tiny) IndexOnly s d) /\ (exists s d, at_stage three (LApplyPack 4 0 [tiny; big]) IndexOnly s d) /\
  al_ents (spec_run a_empty (three ++ [LApplyPack 4 0 [tiny; big]])) = al_ents (spec_run a_empty three) ++ [tiny; big].
Proof. split; [stg|]. split; [stg|]. split; [stg|]. vm_compute. reflexivity. Qed.
Example C21_append_data_first_example : (exists s d, at_stage three (LAppend long) DataOnly s d) /\
  al_ents (spec_run a_empty three) = [big; big] ++ [big] /\
  al_ents (spec_run a_empty (three ++ [LAppend long])) = al_ents (spec_run a_empty three) ++ [long] /\ esize big + dsize [long] < two31.
Proof. split; [stg|]. split; [reflexivity|]. split; vm_compute; reflexivity. Qed.
