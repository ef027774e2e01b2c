(** * Histories of store operations *)

From Verif Require Import Base Codec CodecSpec CodecProofs Msg FsLogStore FsLogSpec FsLogProofs FsLogOps FsLogReads FsLogChange.
Local Open Scope N_scope.

Lemma first_cached_small n st b : st + n < 1152921504606846976 -> first_cached n st b = st + (n - b).
Proof.
  intros H. unfold first_cached. destruct (N.ltb_spec b n).
  - rewrite wadd_small, wsub_small by (unfold two64 in *; try rewrite wadd_small; unfold two64; lia). lia.
  - lia.
Qed.

Lemma last_cons {A} (h : list A) : forall d d', last (d :: h) d' = last h d.
Proof.
  induction h as [|b h IH]; intros d d'; [reflexivity|].
  change (last (d :: b :: h) d') with (last (b :: h) d'). rewrite !IH. reflexivity.
Qed.
Lemma last_app_cons {A} (t : list A) d h d' : last (t ++ d :: h) d' = last h d.
Proof.
  induction t as [|a t IH]; cbn [app]; [apply last_cons|].
  destruct (t ++ d :: h) eqn:Q; [destruct t; discriminate|]. exact IH.
Qed.

Lemma op_step s l op : R s l -> op_ok (c_start (s_cache s)) l op ->
  exists s', run_lop op s = (spec_ans l op, s') /\ R s' (spec_next l op) /\
    c_start (s_cache s') = spec_window (s_buf_size s) (c_start (s_cache s)) l op /\
    s_buf_size s' = spec_limit (s_buf_size s) op.
Proof.
  intros HR [Hop Sm]. pose proof (R_small _ _ HR) as Sl. pose proof Sl as (S0 & S1 & S2 & S3).
  destruct op; cbn [run_lop spec_ans spec_next spec_window spec_limit] in *.
  - destruct (append_ok s l e HR Hop Sm) as (s' & E & HR' & C & B). rewrite E. unfold rmap. cbn [fst snd]. eauto.
  - destruct ((i <? al_start l) || (a_next l <? i)) eqn:Ei.
    + rewrite (write_at_out s l i e HR Ei). unfold rmap. cbn [fst snd]. eauto 6.
    + destruct Hop as (He & Cut & Hc); [lia|].
      destruct (write_at_ok s l i e HR ltac:(lia) He Sm Cut Hc) as (s' & E & HR' & C & B).
      rewrite E. unfold rmap. cbn [fst snd]. eauto 6.
  - destruct Hop as (Hi & Hne & Fe & HP & HB & Cut).
    destruct (apply_pack_ok s l i base es HR Hi Hne Fe HP HB Cut Sm) as (s' & E & HR' & C & B).
    rewrite E. unfold rmap. cbn [fst snd]. exists s'. split; [reflexivity|]. split; [auto|]. split; [|auto].
    rewrite C. destruct Sm as (? & Sm & _). unfold reload_window. apply first_cached_small. exact Sm.
  - destruct (N.ltb_spec k (al_start l)) as [L|L].
    + rewrite (compact_low s l k HR L). unfold rmap. cbn [fst snd]. eauto 6.
    + destruct (compact_ok s l k HR L Sm) as (s' & E & HR' & C & B).
      rewrite E. unfold rmap. cbn [fst snd]. exists s'. split; [reflexivity|]. split; [auto|]. split; [|auto].
      rewrite C. destruct Sm as (? & Sm & _). unfold reload_window. apply first_cached_small. exact Sm.
  - destruct Hop as [Hz Hz32]. destruct (reopen_ok s l buf_size HR Hz Hz32) as (s' & E & HR' & C & B).
    rewrite E. unfold rmap. cbn [fst snd]. exists s'. split; [reflexivity|]. split; [auto|]. split; [|auto].
    rewrite C. unfold reload_window. apply first_cached_small. exact S1.
  - exists s. split; [|auto]. unfold next_slot. rewrite (R_start _ _ HR), (R_entries _ _ HR).
    rewrite wadd_small by (unfold two64; lia). reflexivity.
  - exists s. split; [|auto]. unfold start_index. rewrite (R_start _ _ HR). reflexivity.
  - exists s. split; [|auto]. do 4 f_equal. unfold last_entry, c_last_entry, a_last.
    destruct (R_explicit _ _ HR) as (x & y & ip & dp & sp & E & NE & Es & Hy & Hb).
    rewrite Es, E. sfields. destruct y as [|e y].
    + rewrite (NE eq_refl). reflexivity.
    + rewrite last_app_cons. reflexivity.
  - destruct (entry_at_ok s l i HR Hop) as (s' & E & HR' & C). rewrite E. unfold rmap. cbn [fst snd].
    exists s'. rewrite C. split; [|split; [auto|split; [reflexivity|]]].
    { destruct (i <? al_start l); reflexivity. }
    rewrite <- (R_c_max _ _ HR'), <- (R_c_max _ _ HR), C. reflexivity.
  - destruct (term_at_ok s l i HR Hop) as (s' & E & HR' & C). rewrite E. unfold rmap. cbn [fst snd].
    exists s'. rewrite C. split; [|split; [auto|split; [reflexivity|]]].
    { destruct (a_get l i); reflexivity. }
    rewrite <- (R_c_max _ _ HR'), <- (R_c_max _ _ HR), C. reflexivity.
  - destruct Hop as [Hu Hc]. destruct (log_entries_ok s l a b HR Hu Hc) as (s' & E & HR' & C). rewrite E. unfold rmap. cbn [fst snd].
    exists s'. rewrite C. split; [|split; [auto|split; [reflexivity|]]].
    { destruct (a <? al_start l); [reflexivity|]. destruct ((b <=? a) || (a_next l <=? a)); reflexivity. }
    rewrite <- (R_c_max _ _ HR'), <- (R_c_max _ _ HR), C. reflexivity.
  - destruct Hop as (Hu & Hc & Hc32 & HP). destruct (pack_ok s l i cnt HR Hu Hc Hc32 HP) as (s' & r & E & [HR' C] & Hr).
    rewrite E. unfold rmap. cbn [fst snd].
    exists s'. rewrite C. split; [|split; [auto|split; [reflexivity|]]].
    { destruct (i <? al_start l); [subst r; reflexivity|]. destruct (a_next l <=? i); subst r; reflexivity. }
    rewrite <- (R_c_max _ _ HR'), <- (R_c_max _ _ HR), C. reflexivity.
Qed.

Lemma run_ok ops : forall s l, R s l -> ops_ok (s_buf_size s) (c_start (s_cache s)) l ops ->
  exists s', run_lops ops s = (spec_answers l ops, s') /\ R s' (spec_run l ops).
Proof.
  induction ops as [|op ops IH]; intros s l HR H; cbn [run_lops spec_answers spec_run].
  - eauto.
  - destruct H as [H1 H2]. destruct (op_step s l op HR H1) as (s1 & E & HR1 & C & B).
    rewrite E. destruct (IH s1 (spec_next l op) HR1) as (s2 & E2 & HR2).
    { rewrite C, B. exact H2. }
    rewrite E2. eauto.
Qed.

Lemma small_empty : small a_empty.
Proof. unfold small, a_empty. sfields. change (lenN (@nil entry_val)) with 0. split; [lia|]. split; [lia|]. split; [lia|constructor]. Qed.

Lemma open_fresh z : z <> 0%Z -> is_int32 z ->
  exists s0, open_store empty_folder z = (Ok tt, s0) /\ R s0 a_empty /\
    c_start (s_cache s0) = 1 /\ s_buf_size s0 = cache_limit z.
Proof.
  intros Hz Hz32. unfold open_store, empty_folder. cbn [d_idx d_dat d_sti].
  set (b := cache_limit z).
  assert (Hb: 1 <= b) by (unfold b, cache_limit; destruct (Z.ltb_spec z 0); lia). clearbody b.
  cbv zeta. unfold f_reopen. sfields. unfold f_tell at 1. sfields. change (lenN (@nil byte)) with 0.
  cbn [N.ltb N.compare].
  unfold sbind at 2. unfold smod at 1.
  assert (W: write_bytes [] 0 (le 8 1) = le 8 1) by (apply (write_end [] 0); reflexivity).
  erewrite (sbind_ok (fun s => _)).
  2:{ unfold sbind at 1, sti_do, smod, set_sti, set_start. sfields. rewrite f_seek_ok by lia.
      unfold sbind at 1, on_sti, f_write, f_write_raw, set_sti. sfields. rewrite W. 
      unfold set_entries. sfields. reflexivity. }
  unfold sbind at 1, smod, set_cache. sfields.
  destruct (reload_ok [] 1 b 0 0 (0 + lenN (le 8 1)) 0 Hb small_empty eq_refl) as (s' & E & RR & CC & BB).
  cbn [offs encs map concat] in E. change (le 8 1) with (le 8 1) in E.
  exists s'. split; [exact E|]. split; [exact RR|]. split; [|exact BB].
  rewrite CC. unfold first_cached. destruct (N.ltb_spec b 0); [lia|reflexivity].
Qed.

Lemma used_ok z ops : z <> 0%Z -> is_int32 z -> ops_ok (cache_limit z) 1 a_empty ops ->
  exists s0 s, open_store empty_folder z = (Ok tt, s0) /\ run_lops ops s0 = (spec_answers a_empty ops, s) /\ R s (spec_run a_empty ops).
Proof.
  intros Hz Hz32 H. destruct (open_fresh z Hz Hz32) as (s0 & E & HR & C & B).
  destruct (run_ok ops s0 a_empty HR) as (s & E2 & HR2); [rewrite C, B; auto|]. eauto 6.
Qed.

Lemma used_R z ops s : z <> 0%Z -> is_int32 z -> ops_ok (cache_limit z) 1 a_empty ops -> used z ops s ->
  R s (spec_run a_empty ops).
Proof.
  intros Hz Hz32 H (s0 & rs & E1 & E2). destruct (used_ok z ops Hz Hz32 H) as (s0' & s' & E1' & E2' & HR).
  rewrite E1 in E1'. injection E1' as <-. rewrite E2 in E2'. injection E2' as _ <-. exact HR.
Qed.

Lemma unlimited_ops ops : forall l, small l -> ops_ok_unlimited l ops -> ops_ok 2147483647 (al_start l) l ops.
Proof.
  induction ops as [|op ops IH]; intros l Sl H; cbn [ops_ok ops_ok_unlimited] in *; [exact I|].
  destruct H as (H1 & H2 & H3). split; [exact H1|].
  assert (Sn: small (spec_next l op)) by (destruct H1; auto).
  assert (EL: spec_limit 2147483647 op = 2147483647).
  { destruct op; try reflexivity. cbn [spec_limit]. unfold cache_limit. destruct (Z.ltb_spec buf_size 0); [reflexivity|lia]. }
  rewrite EL.
  assert (EW: spec_window 2147483647 (al_start l) l op = al_start (spec_next l op)).
  { pose proof Sl as (_ & _ & S2 & _). pose proof Sn as (_ & _ & S2' & _).
    destruct op; cbn [spec_window spec_next al_start a_replace a_compact] in *; unfold a_next, reload_window in *; cbn [al_start al_ents a_replace a_compact] in *; try lia.
    - destruct ((i <? al_start l) || (al_start l + lenN (al_ents l) <? i)) eqn:Q; cbn [al_start a_replace]; lia.
    - destruct (N.ltb_spec k (al_start l)); cbn [al_start al_ents a_compact] in *; lia.
    - unfold cache_limit. destruct (Z.ltb_spec buf_size 0); lia. }
  rewrite EW. apply IH; auto.
Qed.

(** what is on disk *)
Lemma close_R s l : R s l -> close s = disk_of l.
Proof. intros HR. unfold close, disk_of. rewrite (R_idx _ _ HR), (R_dat _ _ HR), (R_sti _ _ HR). reflexivity. Qed.
