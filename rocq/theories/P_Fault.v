(** * File system errors inside append and compact of the log store (C97) *)

From Verif Require Import Base Codec CodecSpec CodecProofs Msg BufferProofs FsLogStore FsLogSpec FsLogProofs FsLogOps FsLogReads FsLogChange
  FsLogTop FsLogWeak FsLogCrash FsLogTorn LogFault LogShare P_LogStore P_Crash P_Torn P_LogShare.
From Coq Require Import Lia.
Local Open Scope N_scope.
Local Open Scope sm_scope.

(** Every further append throws. *)
Definition takes_no_more (s : store) : Prop :=
  forall es, Forall entry_ok es -> Forall (fun r => r = Throw IosFailure) (fst (run_lops (map LAppend es) s)).

Lemma dead_append e s : f_fail (s_idx s) = true \/ f_fail (s_dat s) = true -> entry_ok e ->
  exists s', run_lop (LAppend e) s = (Throw IosFailure, s') /\ (f_fail (s_idx s') = true \/ f_fail (s_dat s') = true).
Proof.
  intros F L. destruct s as [[id ip ifl] [dd dp dfl] sti n st c b]. cbn [s_idx s_dat f_fail] in F.
  unfold run_lop, rmap, append. unfold sbind at 1. unfold idx_do, smod, set_idx. sfields. unfold sbind at 1. unfold dat_do, smod, set_dat. sfields.
  unfold sbind at 1. unfold sget. sfields. unfold sbind at 1. unfold on_idx. sfields. unfold f_write, f_seek_end. sfields.
  destruct ifl.
  - sfields. eexists. split; [reflexivity|]. left. reflexivity.
  - destruct F as [F|F]; [discriminate F|]. subst dfl. sfields. unfold sbind at 1. unfold slift, enc_entry.
    destruct (N.leb_spec two31 (9 + lenN (ev_data e))) as [Q|_]; [destruct L as [_ L]; unfold esize in L; lia|].
    unfold sbind at 1. unfold on_dat, f_write_raw. sfields. eexists. split; [reflexivity|]. right. reflexivity.
Qed.
Lemma dead_takes s : f_fail (s_idx s) = true \/ f_fail (s_dat s) = true -> takes_no_more s.
Proof.
  intros F es. revert s F. induction es as [|e es IH]; intros s F A; cbn [map run_lops]; [constructor|].
  inversion A as [|? ? A1 A2]; subst. destruct (dead_append e s F A1) as (s1 & E & F1). rewrite E.
  specialize (IH s1 F1 A2). destruct (run_lops (map LAppend es) s1) as [rs s2]. cbn [fst] in *. constructor; [reflexivity|exact IH].
Qed.

(** ** append *)
Lemma append_cache e s : f_fail (s_idx s) = false -> f_fail (s_dat s) = false -> entry_ok e ->
  s_cache (snd (append e s)) = c_append (s_cache s) e.
Proof.
  intros F G He. destruct s as [[id ip ifl] [dd dp dfl] sti n st c b]. cbn [s_idx s_dat f_fail s_cache] in *. subst ifl dfl.
  unfold append. unfold sbind at 1. unfold idx_do, smod, set_idx. sfields. unfold sbind at 1. unfold dat_do, smod, set_dat. sfields.
  unfold sbind at 1. unfold sget. sfields. unfold sbind at 1. unfold on_idx. sfields. unfold f_write, f_seek_end, f_write_raw. sfields.
  unfold sbind at 1. unfold slift, enc_entry.
  destruct (N.leb_spec two31 (9 + lenN (ev_data e))) as [Q|_]; [destruct He as [_ L]; unfold esize in L; lia|].
  unfold sbind at 1. unfold on_dat. sfields. unfold sbind at 1. unfold cache_do, smod, set_cache. sfields.
  unfold sbind at 1. unfold set_entries. sfields. unfold sbind at 1. unfold check_io. sfields. reflexivity.
Qed.

Section Append.
  Variables (z : Z) (ops : list lop) (e : entry_val) (s : store).
  Hypotheses (Hz : z <> 0%Z) (Hz32 : is_int32 z) (H : ops_ok (cache_limit z) 1 a_empty (ops ++ [LAppend e])) (U : used z ops s).
  Let l := spec_run a_empty ops.

  Lemma fails_torn f r s' : append_fails e f s = Some (r, s') ->
    exists a b, append_torn e a b s (close s') /\ (a < 8 \/ b < length (enc e))%nat /\
      (a = 8%nat \/ exists p q, f = InFlush p q).
  Proof.
    intros E. pose proof (ends_R z ops _ s Hz Hz32 H U) as HR. fold l in HR.
    assert (X: forall p q s2, (p < 8 \/ q < length (enc e))%nat ->
      close s2 = mkFolder (f_data (s_idx s) ++ firstn p (le 8 (lenN (f_data (s_dat s))))) (f_data (s_dat s) ++ firstn q (enc e)) (f_data (s_sti s)) ->
      append_torn e (Nat.min p 8) (Nat.min q (length (enc e))) s (close s2)).
    { intros p q s2 _ C. destruct (torn_exists z ops e s (Nat.min p 8) (Nat.min q (length (enc e))) Hz Hz32 H U) as (d & T); [lia|lia|].
      destruct (append_torn_folder z ops e s _ _ d Hz Hz32 H U T) as (Ed & _ & _). fold l in Ed.
      assert (Q: close s2 = d); [|rewrite Q; exact T]. rewrite C, Ed. rewrite (R_idx _ _ HR), (R_dat _ _ HR), (R_sti _ _ HR), lenN_encs.
      assert (F1: firstn (Nat.min p 8) (le 8 (dsize (al_ents l))) = firstn p (le 8 (dsize (al_ents l)))).
      { destruct (Nat.min_spec p 8) as [[? ->]|[? ->]]; [reflexivity|]. rewrite !firstn_all2; [reflexivity| |]; rewrite le_length; lia. }
      assert (F2: firstn (Nat.min q (length (enc e))) (enc e) = firstn q (enc e)).
      { destruct (Nat.min_spec q (length (enc e))) as [[? ->]|[? ->]]; [reflexivity|]. rewrite !firstn_all2; [reflexivity| |]; lia. }
      rewrite F1, F2. reflexivity. }
    destruct f as [q|p q]; unfold append_fails in E.
    - destruct (Nat.ltb_spec q (length (enc e))) as [L|]; [|discriminate E]. injection E as <- <-.
      exists (Nat.min 8 8), (Nat.min q (length (enc e))). split; [apply X; [right; exact L|reflexivity]|].
      split; [right; lia|left; reflexivity].
    - destruct ((p <? 8)%nat || (q <? length (enc e))%nat) eqn:L; [|discriminate E]. injection E as <- <-.
      apply orb_prop in L. rewrite !Nat.ltb_lt in L.
      exists (Nat.min p 8), (Nat.min q (length (enc e))). split; [apply X; [exact L|reflexivity]|].
      split; [lia|right; eauto].
  Qed.

  (** after a failed append no start finds the entry *)
  Lemma fails_lost f r s' z' s2 : append_fails e f s = Some (r, s') -> z' <> 0%Z -> is_int32 z' ->
    (forall x la, al_ents l = x ++ [la] -> esize la + esize e < two31) ->
    open_store (close s') z' = (Ok tt, s2) -> ~ answers_as s2 (spec_run a_empty (ops ++ [LAppend e])).
  Proof.
    intros E Hz' Hz32' Sz O An. destruct (fails_torn f r s' E) as (a & b & T & L & _).
    pose proof (C21_crash_points z z' ops e s a b _ Hz Hz32 Hz' Hz32' H U T Sz) as [P _].
    destruct P as [[A B]|[A B]]; [exists s2; split; [exact O|right; exact An]| |lia].
    pose proof (C96_append z z' ops e s a b _ Hz Hz32 Hz' Hz32' H U T) as (P1 & _).
    destruct (P1 A B) as (s3 & E3 & A3). rewrite O in E3. injection E3 as <-.
    pose proof (R_small _ _ (ends_R z ops _ s Hz Hz32 H U)) as (_ & S1 & _).
    pose proof (answers_one _ _ _ A3 An) as Q. fold l in Q, S1. rewrite spec_run_snoc in Q. fold l in Q. cbn [spec_next] in Q. rewrite replace_end in Q.
    assert (N1: a_next l < two64) by (unfold a_next, two64; lia). specialize (Q N1). apply (f_equal (fun m => length (al_ents m))) in Q.
    cbn [al_ents] in Q. rewrite app_length in Q. cbn [length] in Q. lia.
  Qed.
End Append.

(** An append that fails while it flushes reports an error, but the store counts
    the entry and answers with it; no start ever finds it, and the store takes
    no more entries. *)
Theorem C97_append_counts_refuted : forall z ops e p q s r s',
  z <> 0%Z -> is_int32 z -> ops_ok (cache_limit z) 1 a_empty (ops ++ [LAppend e]) -> used z ops s ->
  append_fails e (InFlush p q) s = Some (r, s') ->
  let l := spec_run a_empty ops in
  (forall x la, al_ents l = x ++ [la] -> esize la + esize e < two31) ->
  r = Throw RuntimeError /\ next_slot s' = a_next l + 1 /\ fst (entry_at (a_next l) s') = Ok (Some e) /\ takes_no_more s' /\
  (forall z' s2, z' <> 0%Z -> is_int32 z' -> open_store (close s') z' = (Ok tt, s2) ->
     ~ answers_as s2 (spec_run a_empty (ops ++ [LAppend e]))).
Proof.
  intros z ops e p q s r s' Hz Hz32 H U E l Sz.
  pose proof (ends_R z ops _ s Hz Hz32 H U) as HR. pose proof (ends_R' z ops _ s Hz Hz32 H U) as HR'. fold l in HR, HR'.
  cbn [spec_next] in HR'. rewrite replace_end in HR'.
  pose proof (R_small _ _ HR) as (S0 & S1 & S2 & S3).
  assert (He: entry_ok e).
  { destruct (ops_ok_last _ _ _ _ _ H) as (c & He & _). exact He. }
  pose proof (fails_lost z ops e s Hz Hz32 H U (InFlush p q) r s') as FL.
  assert (FL': forall z' s2, z' <> 0%Z -> is_int32 z' -> open_store (close s') z' = (Ok tt, s2) -> ~ answers_as s2 (spec_run a_empty (ops ++ [LAppend e]))).
  { intros z' s2 A B C. exact (FL z' s2 E A B Sz C). }
  clear FL. unfold append_fails in E.
  destruct ((p <? 8)%nat || (q <? length (enc e))%nat) eqn:L; [|discriminate E].
  assert (Er: r = Throw RuntimeError) by congruence. split; [exact Er|].
  match type of E with Some (_, ?st) = _ => assert (Es: s' = st) by congruence end. clear E.
  split.
  { rewrite Es. unfold next_slot. cbn [s_start s_entries]. rewrite (R_start _ _ HR), (R_entries _ _ HR).
    rewrite !wadd_small by (rewrite ?wadd_small; unfold two64; lia). unfold a_next. lia. }
  split.
  { rewrite entry_parts.
    assert (C: c_at (s_cache s') (a_next l) = Some e).
    { assert (Cs: s_cache s' = s_cache (snd (run_lop (LAppend e) s))).
      { rewrite Es. cbn [s_cache]. symmetry. rewrite <- (append_cache e s (R_idx_ok _ _ HR) (R_dat_ok _ _ HR) He).
        unfold run_lop, rmap. destruct (append e s) as [[?|?|?] ?]; reflexivity. }
      rewrite Cs. rewrite (R_c_at _ _ _ HR') by (unfold is_ulong, two64, a_next; lia).
      pose proof (R_c_nonempty _ _ HR') as NE. cbn [al_ents] in NE.
      assert (NN: al_ents l ++ [e] <> []) by (destruct (al_ents l); discriminate). specialize (NE NN).
      unfold a_next in NE |- *. cbn [al_start al_ents] in NE. rewrite lenN_app in NE. change (lenN [e]) with 1 in NE.
      match goal with |- context [?i <? ?c] => destruct (N.ltb_spec i c); [lia|] end.
      unfold a_get. cbn [al_start al_ents]. match goal with |- context [?i <? ?c] => destruct (N.ltb_spec i c); [lia|] end.
      rewrite nth_error_app2 by (unfold lenN; lia).
      match goal with |- nth_error _ ?n = _ => replace n with 0%nat by (unfold lenN; lia) end. reflexivity. }
    rewrite C. reflexivity. }
  split; [|exact FL'].
  apply dead_takes. rewrite Es. cbn [s_idx s_dat wrote f_fail]. apply orb_prop in L. rewrite le_length. exact L.
Qed.
Print Assumptions C97_append_counts_refuted.

(** An append that fails while it writes reports an error and leaves the number
    of entries and the cache as they were, but no start finds the log as it was:
    the folder cannot be opened, or has the entry cut short. *)
Theorem C97_append_write_refuted : forall z ops e q s r s',
  z <> 0%Z -> is_int32 z -> ops_ok (cache_limit z) 1 a_empty (ops ++ [LAppend e]) -> used z ops s ->
  append_fails e (InWrite q) s = Some (r, s') ->
  let l := spec_run a_empty ops in
  r = Throw IosFailure /\ next_slot s' = a_next l /\ s_cache s' = s_cache s /\ takes_no_more s' /\
  (forall z', z' <> 0%Z -> is_int32 z' ->
     ((q < 9)%nat -> exists ex, fst (open_store (close s') z') = Throw ex) /\
     ((9 <= q)%nat -> exists s2, open_store (close s') z' = (Ok tt, s2) /\
        answers_as s2 (mkAL (al_start l) (al_ents l ++ [mkEV (ev_term e) (ev_type e) (firstn (q - 9) (ev_data e))])))).
Proof.
  intros z ops e q s r s' Hz Hz32 H U E l.
  pose proof (ends_R z ops _ s Hz Hz32 H U) as HR. fold l in HR. pose proof (R_small _ _ HR) as (S0 & S1 & S2 & S3).
  assert (T: (q < length (enc e))%nat /\ append_torn e 8 q s (close s')).
  { pose proof (fails_torn z ops e s Hz Hz32 H U (InWrite q) r s' E) as (a & b & T & L & [A|(p & q' & A)]); [|discriminate A]. subst a.
    unfold append_fails in E. destruct (Nat.ltb_spec q (length (enc e))) as [Q|]; [|discriminate E]. split; [exact Q|].
    destruct (append_torn_folder z ops e s 8 b _ Hz Hz32 H U T) as (Ed & _ & Hb). injection E as <- <-.
    apply (f_equal d_dat) in Ed. cbn [d_dat close set_idx set_dat s_dat f_data wrote] in Ed. fold l in Ed. rewrite (R_dat _ _ HR) in Ed.
    apply app_inv_head in Ed. apply (f_equal (@length byte)) in Ed. rewrite !firstn_length in Ed. replace q with b by lia.
    replace q with b in T by lia. exact T. }
  destruct T as [Q T]. unfold append_fails in E. destruct (Nat.ltb_spec q (length (enc e))); [|lia].
  assert (Er: r = Throw IosFailure) by congruence. split; [exact Er|].
  match type of E with Some (_, ?st) = _ => assert (Es: s' = st) by congruence end. clear E.
  split.
  { rewrite Es. unfold next_slot, set_idx, set_dat. cbn [s_start s_entries]. rewrite (R_start _ _ HR), (R_entries _ _ HR).
    rewrite wadd_small by (unfold two64; lia). reflexivity. }
  split; [rewrite Es; reflexivity|].
  split; [apply dead_takes; rewrite Es; right; cbn [set_idx set_dat s_dat wrote f_fail]; apply Nat.ltb_lt; exact Q|].
  intros z' Hz' Hz32'. pose proof (C96_append z z' ops e s 8 q _ Hz Hz32 Hz' Hz32' H U T) as (_ & _ & P3 & P4).
  split; [intros L; apply P3; right; auto|intros L; exact (P4 eq_refl L)].
Qed.
Print Assumptions C97_append_write_refuted.

(** ** compact *)
(** Whatever the history: if a call of the file system fails once the backups are
    made, compact throws and nothing is left: the next start finds an empty log
    that begins at index 1. *)
Theorem C97_compact_lost_refuted : forall z z' ops k f s r s',
  z <> 0%Z -> is_int32 z -> z' <> 0%Z -> is_int32 z' ->
  ops_ok (cache_limit z) 1 a_empty ops -> used z ops s -> f <> NoBackup ->
  compact_fails f false k s = Some (r, s') ->
  r = Throw RuntimeError /\ takes_no_more s' /\
  exists s2, open_store (close s') z' = (Ok tt, s2) /\ answers_as s2 (mkAL 1 []).
Proof.
  intros z z' ops k f s r s' Hz Hz32 Hz' Hz32' H U Hf E. unfold compact_fails in E.
  destruct (k <? s_start s); [discriminate E|].
  assert (X: exists dat, (r, s') = restored false dat s).
  { destruct f; try congruence; destruct (data_then _ k s) as [dat|]; try discriminate E; exists dat; congruence. }
  destruct X as (dat & X). unfold restored in X. injection X as -> ->. split; [reflexivity|].
  split; [apply dead_takes; right; reflexivity|].
  change (close _) with empty_folder. destruct (open_fresh z' Hz' Hz32') as (s2 & O & HR2 & _). exists s2. split; [exact O|apply R_answers; exact HR2].
Qed.
Print Assumptions C97_compact_lost_refuted.

(** If no backup can be made, compact answers false, and the log is as it was,
    for further calls and for the next start. *)
Theorem C97_no_backup_partial : forall z z' ops k stays s r s',
  z <> 0%Z -> is_int32 z -> z' <> 0%Z -> is_int32 z' ->
  ops_ok (cache_limit z) 1 a_empty ops -> used z ops s ->
  compact_fails NoBackup stays k s = Some (r, s') ->
  let l := spec_run a_empty ops in
  r = Ok false /\ answers_as s' l /\
  (exists s2, open_store (close s') z' = (Ok tt, s2) /\ answers_as s2 l) /\
  (forall e, entry_ok e -> small (mkAL (al_start l) (al_ents l ++ [e])) -> fst (append e s') = Ok (a_next l)).
Proof.
  intros z z' ops k stays s r s' Hz Hz32 Hz' Hz32' H U E l. unfold compact_fails in E. destruct (k <? s_start s); [discriminate E|].
  injection E as <- <-. pose proof (used_R _ _ _ Hz Hz32 H U) as HR. fold l in HR.
  set (s' := set_idx _ _).
  assert (HR': R s' l).
  { unfold s'. destruct HR. destruct s as [[id ip ifl] [dd dp dfl] [sd sp sfl] n st c b]. cbn [s_idx s_dat s_sti f_fail] in *. subst.
    unfold set_idx, set_dat, set_sti, f_seek. sfields.
    destruct (N.leb_spec 9223372036854775808 0) as [Q|_]; [lia|]. constructor; sfields; auto. }
  split; [reflexivity|]. split; [apply R_answers; exact HR'|]. split.
  { rewrite (close_R _ _ HR'). exact (open_answers _ z' (R_small _ _ HR') Hz' Hz32'). }
  intros e He Sm. destruct (append_ok s' l e HR' He) as (s3 & Q & _); [rewrite replace_end; exact Sm|]. rewrite Q. reflexivity.
Qed.
Print Assumptions C97_no_backup_partial.

(** If log.data can be removed neither while everything is discarded nor while
    the files are restored, the next start finds the log as it was; until then
    the store takes no more entries. *)
Theorem C97_stays_partial : forall z z' ops k f s r s',
  z <> 0%Z -> is_int32 z -> z' <> 0%Z -> is_int32 z' ->
  ops_ok (cache_limit z) 1 a_empty ops -> used z ops s -> f = NoRemoveIdx \/ f = NoRemoveDat ->
  compact_fails f true k s = Some (r, s') ->
  let l := spec_run a_empty ops in
  r = Ok false /\ takes_no_more s' /\ exists s2, open_store (close s') z' = (Ok tt, s2) /\ answers_as s2 l.
Proof.
  intros z z' ops k f s r s' Hz Hz32 Hz' Hz32' H U Hf E l. unfold compact_fails in E. destruct (k <? s_start s); [discriminate E|].
  pose proof (used_R _ _ _ Hz Hz32 H U) as HR. fold l in HR.
  assert (X: (r, s') = restored true (d_dat (close s)) s).
  { unfold data_then in E. destruct Hf as [-> | ->]; destruct (empties k s); try discriminate E; congruence. }
  unfold restored in X. apply pair_equal_spec in X. destruct X as [-> ->]. split; [reflexivity|]. split; [apply dead_takes; right; reflexivity|].
  assert (C: close (set_idx (f_insert (d_idx (close s)) empty_file) (set_dat (f_insert [] (f_reopen (mkFile (d_dat (close s)) 0 false)))
                 (set_sti (f_insert (d_sti (close s)) empty_file) s))) = disk_of l).
  { assert (I: forall bs, f_data (f_insert bs empty_file) = bs).
    { intros [|b bs]; [reflexivity|]. unfold f_insert, f_write_raw, empty_file. cbn [f_fail f_data f_pos]. unfold write_bytes.
      cbn [N.to_nat firstn app Nat.sub repeat Nat.add]. rewrite skipn_nil, app_nil_r. reflexivity. }
    unfold close at 1. unfold set_idx, set_dat, set_sti. cbn [s_idx s_dat s_sti]. rewrite !I. unfold close. cbn [d_idx d_dat d_sti f_insert set_fail f_reopen f_data].
    rewrite (R_idx _ _ HR), (R_dat _ _ HR), (R_sti _ _ HR). reflexivity. }
  rewrite C. exact (open_answers _ z' (R_small _ _ HR) Hz' Hz32').
Qed.
Print Assumptions C97_stays_partial.

(** ** Examples *)
Example C97_append_example : exists s r1 s1 r2 s2, used (-1) three s /\ ops_ok (cache_limit (-1)) 1 a_empty (three ++ [LAppend long]) /\
  append_fails long (InFlush 8 20) s = Some (r1, s1) /\ append_fails long (InWrite 20) s = Some (r2, s2) /\
  (forall x la, al_ents (spec_run a_empty three) = x ++ [la] -> esize la + esize long < two31).
Proof.
  eexists _, _, _, _, _. split; [run_it|]. split; [hist|]. split; [vm_compute; reflexivity|]. split; [vm_compute; reflexivity|].
  intros x la E. change (al_ents (spec_run a_empty three)) with ([big; big] ++ [big]) in E. apply app_inj_tail in E. destruct E as [_ <-]. vm_compute. reflexivity.
Qed.
Example C97_compact_example : exists s r1 s1 r2 s2 r3 s3 r4 s4, used (-1) three s /\ ops_ok (cache_limit (-1)) 1 a_empty three /\
  compact_fails NoTruncDat false 1 s = Some (r1, s1) /\ compact_fails NoReopen false 3 s = Some (r2, s2) /\
  compact_fails NoBackup false 1 s = Some (r3, s3) /\ compact_fails NoRemoveDat true 3 s = Some (r4, s4).
Proof.
  eexists _, _, _, _, _, _, _, _, _. split; [run_it|]. split; [hist|].
  split; [vm_compute; reflexivity|]. split; [vm_compute; reflexivity|]. split; vm_compute; reflexivity.
Qed.
