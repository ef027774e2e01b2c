(** * Properties C14-C20: the file log store

    [used z ops s]: [s] was created in an empty folder with cache size [z] and
    went through the operations [ops].  [ops_ok] lists the conditions under
    which the store is proved to be an indexed log; the [_refuted] theorems show
    that each of them is needed. *)

From Verif Require Import Base Codec CodecSpec Msg FsLogStore FsLogSpec FsLogProofs FsLogOps FsLogReads FsLogChange FsLogTop FsLogWeak.
Local Open Scope N_scope.

Definition ev (t : N) (d : list byte) : entry_val := mkEV t x01 d.
Definition big : entry_val := ev 1 [x61; x62; x63].
Definition tiny : entry_val := ev 2 [x64].

Ltac ulong := unfold is_ulong, two64; lia.

(** Computable versions of the conditions, for the examples. *)
Definition entry_okb (e : entry_val) : bool := (ev_term e <? two64) && (esize e <? two31).
Definition smallb (l : alog) : bool :=
  (1 <=? al_start l) && (al_start l + lenN (al_ents l) <? 1152921504606846976) && (lenN (al_ents l) <? 268435456) &&
  forallb entry_okb (al_ents l).
Definition cut_okb (l l' : alog) : bool := (lenN (al_ents l') <? lenN (al_ents l)) || (dsize (al_ents l) <=? dsize (al_ents l')).
Definition int32b (z : Z) : bool := ((-2147483648 <=? z) && (z <? 2147483648))%Z.
Definition op_okb (c : N) (l : alog) (op : lop) : bool :=
  match op with
  | LAppend e => entry_okb e
  | LWriteAt i e => negb ((al_start l <=? i) && (i <=? a_next l)) || (entry_okb e && cut_okb l (a_replace l i [e]) && (c <=? i))
  | LApplyPack i base es =>
      (al_start l <=? i) && (i <=? a_next l) && (0 <? lenN es) && forallb entry_okb es &&
      (8 + 8 * lenN es + dsize es <? two31) && (base + dsize es <? two64) && cut_okb l (a_replace l i es)
  | LReopen z => negb (z =? 0)%Z && int32b z
  | LTermAt i => i <? a_next l
  | LLogEntries a b => (b <? two64) && ((b <=? a) || (c <=? b))
  | LPack i cnt => (i <? two64) && (0 <? cnt)%Z && int32b cnt &&
      (8 + 8 * lenN (a_range l i (i + Z.to_N cnt)) + dsize (a_range l i (i + Z.to_N cnt)) <? two31)
  | LEntryAt i => i <? two64
  | _ => true
  end && smallb (spec_next l op).
Fixpoint ops_okb (mx c : N) (l : alog) (ops : list lop) : bool :=
  match ops with
  | [] => true
  | op :: ops => op_okb c l op && ops_okb (spec_limit mx op) (spec_window mx c l op) (spec_next l op) ops
  end.
Fixpoint ops_ok_unlimitedb (l : alog) (ops : list lop) : bool :=
  match ops with
  | [] => true
  | op :: ops => op_okb (al_start l) l op && (match op with LReopen z => (z <? 0)%Z | _ => true end) &&
                 ops_ok_unlimitedb (spec_next l op) ops
  end.

Lemma entry_okb_ok e : entry_okb e = true -> entry_ok e.
Proof. unfold entry_okb, entry_ok, is_ulong. intros H. apply andb_prop in H. destruct H as [H1 H2]. split; lia. Qed.
Lemma entries_okb_ok es : forallb entry_okb es = true -> Forall entry_ok es.
Proof. intros H. apply Forall_forall. intros e He. apply entry_okb_ok. rewrite forallb_forall in H. auto. Qed.
Lemma smallb_ok l : smallb l = true -> small l.
Proof.
  unfold smallb, small. intros H. repeat (apply andb_prop in H; destruct H as [H ?]).
  split; [lia|]. split; [lia|]. split; [lia|]. apply entries_okb_ok. auto.
Qed.
Lemma cut_okb_ok l l' : cut_okb l l' = true -> cut_ok l l'.
Proof. unfold cut_okb, cut_ok. intros H. apply orb_prop in H. destruct H; [left|right]; lia. Qed.
Lemma op_okb_ok c l op : op_okb c l op = true -> op_ok c l op.
Proof.
  unfold op_okb, op_ok. intros H. apply andb_prop in H. destruct H as [H Hs]. apply smallb_ok in Hs.
  split; [|exact Hs].
  destruct op; auto using entry_okb_ok;
    repeat match goal with H : (_ && _)%bool = true |- _ => apply andb_prop in H; destruct H end;
    unfold is_ulong, is_int32, int32b, pack_small in *.
  - intros Hi. apply orb_prop in H. destruct H as [H|H]; [apply negb_true_iff in H; lia|].
    apply andb_prop in H; destruct H as [H ?]. apply andb_prop in H; destruct H as [H ?].
    split; [apply entry_okb_ok; auto|]. split; [apply cut_okb_ok; auto|lia].
  - split; [lia|]. split; [intros ->; discriminate|]. split; [apply entries_okb_ok; auto|].
    split; [lia|]. split; [lia|]. apply cut_okb_ok. auto.
  - split; [|lia]. intros ->. discriminate.
  - lia.
  - lia.
  - split; [lia|]. apply orb_prop in H0. destruct H0; [left|right]; lia.
  - split; [lia|]. split; [lia|]. split; lia.
Qed.
Lemma ops_okb_ok mx c l ops : ops_okb mx c l ops = true -> ops_ok mx c l ops.
Proof.
  revert mx c l. induction ops as [|op ops IH]; intros mx c l H; cbn [ops_okb ops_ok] in *; [exact I|].
  apply andb_prop in H. destruct H. split; auto using op_okb_ok.
Qed.
Lemma ops_ok_unlimitedb_ok l ops : ops_ok_unlimitedb l ops = true -> ops_ok_unlimited l ops.
Proof.
  revert l. induction ops as [|op ops IH]; intros l H; cbn [ops_ok_unlimitedb ops_ok_unlimited] in *; [exact I|].
  apply andb_prop in H. destruct H as [H ?]. apply andb_prop in H. destruct H.
  split; [apply op_okb_ok; auto|]. split; [|auto]. destruct op; auto. lia.
Qed.

Ltac eok := apply entry_okb_ok; vm_compute; reflexivity.
Ltac sml := apply smallb_ok; vm_compute; reflexivity.
Ltac run_it := eexists _, _; split; [vm_compute; reflexivity | vm_compute; reflexivity].
Ltac hist := first [apply ops_okb_ok | apply ops_ok_unlimitedb_ok]; vm_compute; reflexivity.

(** ** C14 *)
Theorem C14_indexed_log_partial : forall ops,
  ops_ok_unlimited a_empty ops ->
  exists s0 s, open_store empty_folder (-1) = (Ok tt, s0) /\
               run_lops ops s0 = (spec_answers a_empty ops, s).
Proof.
  intros ops H. apply unlimited_ops in H; [|apply small_empty].
  destruct (used_ok (-1) ops) as (s0 & s & E1 & E2 & _); [lia|unfold is_int32; lia|exact H|eauto].
Qed.
Print Assumptions C14_indexed_log_partial.

(** With a limited cache of at least one entry, given where the cache starts. *)
Theorem C14_limited_cache_partial : forall z ops,
  (0 < z)%Z -> is_int32 z -> ops_ok (cache_limit z) 1 a_empty ops ->
  exists s0 s, open_store empty_folder z = (Ok tt, s0) /\
               run_lops ops s0 = (spec_answers a_empty ops, s).
Proof.
  intros z ops Hz Hz32 H. destruct (used_ok z ops) as (s0 & s & E1 & E2 & _); [lia|auto|exact H|eauto].
Qed.
Print Assumptions C14_limited_cache_partial.

(** As long as nothing is reloaded from the files, any overwrite is allowed. *)
Theorem C14_in_memory_partial : forall ops ops',
  ops_ok_unlimited a_empty ops -> mem_ops_ok (spec_run a_empty ops) ops' ->
  exists s0 s, open_store empty_folder (-1) = (Ok tt, s0) /\
               run_lops (ops ++ ops') s0 = (spec_answers a_empty ops ++ spec_answers (spec_run a_empty ops) ops', s).
Proof.
  intros ops ops' H H'. pose proof (unlimited_ops _ _ small_empty H) as H1.
  destruct (open_fresh (-1)) as (s0 & E0 & HR0 & C0 & B0); [lia|unfold is_int32; lia|].
  assert (G: forall o s l, ops_ok_unlimited l o -> R s l -> s_buf_size s = 2147483647 -> c_start (s_cache s) = al_start l ->
     exists s', run_lops o s = (spec_answers l o, s') /\ W s' (spec_run l o)).
  { induction o as [|op o IH]; intros s l Ho HR B C; cbn [run_lops spec_answers spec_run].
    - exists s. split; [reflexivity|]. apply R_W; auto.
    - pose proof (unlimited_ops _ _ (R_small _ _ HR) Ho) as [Hk _]. rewrite <- C in Hk.
      destruct (op_step s l op HR Hk) as (s1 & E & HR1 & C1 & B1). rewrite E.
      cbn [ops_ok_unlimited] in Ho. destruct Ho as (Ho1 & Ho2 & Ho3).
      destruct (IH s1 (spec_next l op) Ho3 HR1) as (s2 & E2 & HW2).
      + rewrite B1, B. destruct op; try reflexivity. cbn [spec_limit]. unfold cache_limit.
        destruct (Z.ltb_spec buf_size 0); [reflexivity|lia].
      + rewrite C1, B, C. pose proof (R_small _ _ HR) as (_ & _ & S2 & _). pose proof (R_small _ _ HR1) as (_ & _ & S2' & _).
        destruct op; cbn [spec_window spec_next al_start a_replace a_compact] in *; unfold a_next, reload_window in *; cbn [al_start al_ents a_replace a_compact] in *; try lia.
        * destruct ((i <? al_start l) || (al_start l + lenN (al_ents l) <? i)) eqn:Q; cbn [al_start a_replace]; lia.
        * destruct (N.ltb_spec k (al_start l)); cbn [al_start al_ents a_compact] in *; lia.
        * unfold cache_limit. destruct (Z.ltb_spec buf_size 0); lia.
      + rewrite E2. eauto. }
  destruct (G ops s0 a_empty H HR0 B0 C0) as (s1 & E1 & HW1).
  destruct (mem_run ops' s1 _ HW1 H') as (s2 & E2 & _).
  exists s0, s2. split; [exact E0|].
  assert (RA: forall o1 o2 s, run_lops (o1 ++ o2) s =
     (fst (run_lops o1 s) ++ fst (run_lops o2 (snd (run_lops o1 s))), snd (run_lops o2 (snd (run_lops o1 s))))).
  { induction o1 as [|op o1 IH]; intros o2 s; cbn [app run_lops fst snd]; [destruct (run_lops o2 s); reflexivity|].
    destruct (run_lop op s) as [r s']. rewrite IH. destruct (run_lops o1 s') as [rs s'']. reflexivity. }
  rewrite RA, E1. cbn [fst snd]. rewrite E2. reflexivity.
Qed.
Print Assumptions C14_in_memory_partial.

Definition ex_ops : list lop :=
  [LAppend big; LAppend tiny; LWriteAt 1 tiny; LAppend big; LAppend tiny; LPack 2 5; LApplyPack 2 7 [tiny];
   LEntryAt 2; LTermAt 1; LLogEntries 1 9; LCompact 1; LReopen (-1); LStartIndex; LNextSlot; LLast].

Example C14_example : ops_ok_unlimited a_empty ex_ops.
Proof. hist. Qed.

(** A one-byte last entry replaced a three-byte one; after reopening, the entry
    has two stale bytes. *)
Definition bad_ops : list lop := [LAppend big; LWriteAt 1 tiny; LReopen (-1); LEntryAt 1].
Theorem C14_refuted :
  exists s0 s, open_store empty_folder (-1) = (Ok tt, s0) /\
    run_lops bad_ops s0 = ([Ok (RIdx 1); Ok RUnit; Ok RUnit; Ok (REntry (Some (ev 2 [x64; x62; x63])))], s) /\
    spec_answers a_empty bad_ops = [Ok (RIdx 1); Ok RUnit; Ok RUnit; Ok (REntry (Some tiny))].
Proof. eexists _, _. split; [vm_compute; reflexivity|]. split; vm_compute; reflexivity. Qed.
Print Assumptions C14_refuted.

(** ** C15 *)
Theorem C15_reopen_partial : forall z z' ops s,
  z <> 0%Z -> is_int32 z -> z' <> 0%Z -> is_int32 z' ->
  ops_ok (cache_limit z) 1 a_empty ops -> used z ops s ->
  exists s', open_store (close s) z' = (Ok tt, s') /\
    start_index s' = start_index s /\ next_slot s' = next_slot s /\ last_entry s' = last_entry s /\
    forall i, is_ulong i -> fst (entry_at i s') = fst (entry_at i s).
Proof.
  intros z z' ops s Hz Hz32 Hz' Hz32' H U.
  pose proof (used_R z ops s Hz Hz32 H U) as HR. set (l := spec_run a_empty ops) in *.
  destruct (reopen_ok s l z' HR Hz' Hz32') as (s' & E & HR' & _ & _).
  exists s'. split; [exact E|].
  assert (Q: forall op, op = LStartIndex \/ op = LNextSlot \/ op = LLast -> fst (run_lop op s') = fst (run_lop op s)).
  { intros op Hop. destruct (op_step s l op HR) as (s1 & E1 & _).
    { split; [destruct Hop as [->|[->| ->]]; exact I|]. destruct Hop as [->|[->| ->]]; apply (R_small _ _ HR). }
    destruct (op_step s' l op HR') as (s2 & E2 & _).
    { split; [destruct Hop as [->|[->| ->]]; exact I|]. destruct Hop as [->|[->| ->]]; apply (R_small _ _ HR). }
    rewrite E1, E2. reflexivity. }
  split; [pose proof (Q LStartIndex ltac:(auto)) as X; cbn [run_lop fst] in X; congruence|].
  split; [pose proof (Q LNextSlot ltac:(auto)) as X; cbn [run_lop fst] in X; congruence|].
  split; [pose proof (Q LLast ltac:(auto)) as X; cbn [run_lop fst] in X; congruence|].
  intros i Hi. destruct (entry_at_ok s l i HR Hi) as (s1 & E1 & _). destruct (entry_at_ok s' l i HR' Hi) as (s2 & E2 & _).
  rewrite E1, E2. reflexivity.
Qed.
Print Assumptions C15_reopen_partial.
Example C15_example : exists s, ops_ok (cache_limit (-1)) 1 a_empty ex_ops /\ used (-1) ex_ops s /\
  al_ents (spec_run a_empty ex_ops) = [tiny].
Proof.
  pose proof (unlimited_ops _ _ small_empty C14_example) as H.
  destruct (used_ok (-1) ex_ops) as (s0 & s & E1 & E2 & _); [lia|unfold is_int32; lia|exact H|].
  exists s. split; [exact H|]. split; [exists s0; eauto|reflexivity].
Qed.

(** Reopening changes the last entry after it was overwritten by a shorter one. *)
Theorem C15_stale_tail_refuted : exists s s',
  used (-1) [LAppend big; LWriteAt 1 tiny] s /\ open_store (close s) (-1) = (Ok tt, s') /\
  fst (entry_at 1 s) = Ok (Some tiny) /\ fst (entry_at 1 s') = Ok (Some (ev 2 [x64; x62; x63])).
Proof.
  eexists _, _. split; [run_it|].
  split; [vm_compute; reflexivity|]. split; vm_compute; reflexivity.
Qed.
Print Assumptions C15_stale_tail_refuted.

(** A log of 2^28 entries or more cannot be opened with the default cache. *)
Theorem C15_long_log_refuted : forall l,
  268435456 <= lenN (al_ents l) -> al_start l + lenN (al_ents l) < 1152921504606846976 ->
  dsize (al_ents l) < 9223372036854775808 ->
  fst (open_store (disk_of l) (-1)) = Throw OutOfRange.
Proof. intros l H1 H2 H3. apply open_too_many; auto. lia. Qed.
Print Assumptions C15_long_log_refuted.
Example C15_long_log_example : exists l, lenN (al_ents l) = 268435456 /\
  al_start l + lenN (al_ents l) < 1152921504606846976 /\ dsize (al_ents l) < 9223372036854775808.
Proof.
  exists (mkAL 1 (repeat tiny (N.to_nat 268435456))). cbn [al_ents al_start].
  assert (L: lenN (repeat tiny (N.to_nat 268435456)) = 268435456) by (unfold lenN; rewrite repeat_length; apply N2Nat.id).
  rewrite L. split; [reflexivity|]. split; [lia|].
  assert (F: Forall entry_ok (repeat tiny (N.to_nat 268435456))).
  { apply Forall_forall. intros e He. apply repeat_spec in He. subst e. eok. }
  apply dsize_bound in F. rewrite L in F. unfold two31 in F. lia.
Qed.

(** ** C16 *)
Theorem C16_overwrite_partial : forall z z' ops s i e,
  z <> 0%Z -> is_int32 z -> z' <> 0%Z -> is_int32 z' ->
  ops_ok (cache_limit z) 1 a_empty (ops ++ [LWriteAt i e]) -> used z ops s ->
  al_start (spec_run a_empty ops) <= i <= a_next (spec_run a_empty ops) ->
  exists s1 s2, write_at i e s = (Ok tt, s1) /\ open_store (close s1) z' = (Ok tt, s2) /\
    fst (entry_at i s2) = Ok (Some e) /\ next_slot s2 = i + 1 /\
    forall j, j < i -> fst (entry_at j s2) = fst (entry_at j s).
Proof.
  intros z z' ops s i e Hz Hz32 Hz' Hz32' H U Hi.
  assert (G: forall o mx c l, ops_ok mx c l (o ++ [LWriteAt i e]) -> ops_ok mx c l o).
  { induction o as [|op o IH]; intros mx c l HH; cbn [app ops_ok] in *; [exact I|]. destruct HH. split; auto. }
  pose proof (used_R z ops s Hz Hz32 (G _ _ _ _ H) U) as HR.
  assert (K: op_ok (c_start (s_cache s)) (spec_run a_empty ops) (LWriteAt i e)).
  { destruct (open_fresh z Hz Hz32) as (s0 & E0 & HR0 & C0 & B0). destruct U as (s0' & rs & E1 & E2).
    rewrite E0 in E1. injection E1 as <-.
    rewrite <- B0, <- C0 in H. clear G C0 B0 E0 Hi HR. revert s0 rs s HR0 H E2. generalize a_empty as l.
    induction ops as [|op o IH]; intros l s0 rs s HR0 H E2; cbn [app run_lops spec_run ops_ok] in *.
    - injection E2 as _ <-. destruct H; auto.
    - destruct H as [H1 H2]. destruct (op_step s0 l op HR0 H1) as (s1 & X & HR1 & C1 & B1). rewrite X in E2.
      destruct (run_lops o s1) as [rs1 s1'] eqn:Y. injection E2 as _ <-.
      eapply IH; [exact HR1| |exact Y]. rewrite C1, B1. exact H2. }
  set (l := spec_run a_empty ops) in *.
  destruct K as [K Sm]. destruct (K Hi) as (He & Cut & Hc). cbn [spec_next] in Sm.
  replace ((i <? al_start l) || (a_next l <? i)) with false in Sm by lia.
  destruct (write_at_ok s l i e HR Hi He Sm Cut Hc) as (s1 & E1 & HR1 & _ & _).
  destruct (reopen_ok s1 _ z' HR1 Hz' Hz32') as (s2 & E2 & HR2 & _ & _).
  exists s1, s2. split; [exact E1|]. split; [exact E2|].
  pose proof (R_small _ _ HR) as (S0 & S1 & S2 & S3). unfold a_next in Hi.
  assert (Hu: is_ulong i) by ulong.
  assert (Lf: length (firstn (N.to_nat (i - al_start l)) (al_ents l)) = N.to_nat (i - al_start l)).
  { rewrite firstn_length. unfold lenN in *. lia. }
  split; [|split].
  - destruct (entry_at_ok s2 _ i HR2 Hu) as (s3 & E3 & _). rewrite E3. cbn [fst al_start a_replace].
    destruct (N.ltb_spec i (al_start l)); [lia|]. f_equal.
    unfold a_get, a_replace. cbn [al_start al_ents]. destruct (N.ltb_spec i (al_start l)); [lia|].
    rewrite nth_error_app2 by lia. rewrite Lf, Nat.sub_diag. reflexivity.
  - unfold next_slot. rewrite (R_start _ _ HR2), (R_entries _ _ HR2). unfold a_replace. cbn [al_start al_ents].
    rewrite CodecProofs.lenN_app. change (lenN [e]) with 1.
    assert (lenN (firstn (N.to_nat (i - al_start l)) (al_ents l)) = i - al_start l) by (unfold lenN; lia).
    rewrite H0. rewrite wadd_small by (unfold two64; lia). lia.
  - intros j Hj. assert (Hju: is_ulong j) by (unfold is_ulong in *; lia).
    destruct (entry_at_ok s2 _ j HR2 Hju) as (s3 & E3 & _). destruct (entry_at_ok s l j HR Hju) as (s4 & E4 & _).
    rewrite E3, E4. cbn [fst al_start a_replace].
    destruct (N.ltb_spec j (al_start l)); [reflexivity|]. f_equal. unfold a_get, a_replace. cbn [al_start al_ents].
    destruct (N.ltb_spec j (al_start l)); [lia|].
    rewrite nth_error_app1 by lia. rewrite <- (firstn_skipn (N.to_nat (i - al_start l)) (al_ents l)) at 2.
    rewrite nth_error_app1 by lia. reflexivity.
Qed.
Print Assumptions C16_overwrite_partial.
Example C16_example : exists s, ops_ok (cache_limit (-1)) 1 a_empty ([LAppend tiny; LAppend tiny] ++ [LWriteAt 2 big]) /\
  used (-1) [LAppend tiny; LAppend tiny] s.
Proof.
  assert (H: ops_ok_unlimited a_empty ([LAppend tiny; LAppend tiny] ++ [LWriteAt 2 big])).
  { hist. }
  eexists. split; [apply (unlimited_ops _ _ small_empty H)|]. run_it.
Qed.

Theorem C16_shorter_last_refuted : exists s s1 s2,
  used (-1) [LAppend big] s /\ write_at 1 tiny s = (Ok tt, s1) /\
  open_store (close s1) (-1) = (Ok tt, s2) /\ fst (entry_at 1 s2) <> Ok (Some tiny).
Proof.
  eexists _, _, _. split; [run_it|].
  split; [vm_compute; reflexivity|]. split; [vm_compute; reflexivity|]. vm_compute. discriminate.
Qed.
Print Assumptions C16_shorter_last_refuted.

(** ** C17 *)
Theorem C17_cache_size_partial : forall z1 z2 ops s1 s2,
  z1 <> 0%Z -> is_int32 z1 -> z2 <> 0%Z -> is_int32 z2 ->
  ops_ok (cache_limit z1) 1 a_empty ops -> ops_ok (cache_limit z2) 1 a_empty ops ->
  open_store empty_folder z1 = (Ok tt, s1) -> open_store empty_folder z2 = (Ok tt, s2) ->
  fst (run_lops ops s1) = fst (run_lops ops s2) /\ fst (run_lops ops s1) = spec_answers a_empty ops.
Proof.
  intros z1 z2 ops s1 s2 H1 H1' H2 H2' O1 O2 E1 E2.
  destruct (used_ok z1 ops H1 H1' O1) as (a & a' & F1 & G1 & _). destruct (used_ok z2 ops H2 H2' O2) as (b & b' & F2 & G2 & _).
  rewrite E1 in F1. injection F1 as <-. rewrite E2 in F2. injection F2 as <-. rewrite G1, G2. split; reflexivity.
Qed.
Print Assumptions C17_cache_size_partial.

Definition ex_ops2 : list lop :=
  [LAppend big; LAppend tiny; LAppend big; LAppend tiny; LEntryAt 1; LTermAt 2; LLogEntries 1 4; LWriteAt 3 tiny;
   LReopen 2; LEntryAt 2; LCompact 1; LLast].
Example C17_example : ops_ok (cache_limit 2) 1 a_empty ex_ops2 /\ ops_ok (cache_limit 3) 1 a_empty ex_ops2.
Proof. split; hist. Qed.

(** Overwriting an entry that precedes the cached ones leaves stale entries in
    the cache: the same calls answer differently with cache sizes 1 and 3. *)
Definition low_write : list lop := [LAppend big; LAppend big; LAppend big; LWriteAt 1 tiny; LNextSlot; LLast; LEntryAt 1].
Theorem C17_write_below_cache_refuted : exists s1 s3,
  open_store empty_folder 1 = (Ok tt, s1) /\ open_store empty_folder 3 = (Ok tt, s3) /\
  nth_error (fst (run_lops low_write s3)) 6 = Some (Ok (REntry (Some tiny))) /\
  nth_error (fst (run_lops low_write s1)) 6 = Some (Throw IosFailure).
Proof. eexists _, _. split; [vm_compute; reflexivity|]. split; [vm_compute; reflexivity|]. split; vm_compute; reflexivity. Qed.
Print Assumptions C17_write_below_cache_refuted.

(** With cache size 0 the last entry is never found. *)
Theorem C17_zero_cache_refuted : exists s0 s,
  open_store empty_folder 0 = (Ok tt, s0) /\ append big s0 = (Ok 1, s) /\
  last_entry s = empty_entry /\ fst (entry_at 1 s) = Throw IosFailure /\
  fst (open_store (close s) 0) = Throw OverflowError.
Proof. eexists _, _. split; [vm_compute; reflexivity|]. split; [vm_compute; reflexivity|]. split; [|split]; vm_compute; reflexivity. Qed.
Print Assumptions C17_zero_cache_refuted.

(** ** C18 *)
Theorem C18_range_partial : forall z ops s a b,
  z <> 0%Z -> is_int32 z -> ops_ok (cache_limit z) 1 a_empty ops -> used z ops s ->
  is_ulong b -> (b <= a \/ c_start (s_cache s) <= b) ->
  fst (log_entries a b s) =
    let l := spec_run a_empty ops in
    if a <? al_start l then Throw RangeError
    else if (b <=? a) || (a_next l <=? a) then Ok None
    else Ok (Some (map Some (a_range l a b))).
Proof.
  intros z ops s a b Hz Hz32 H U Hb Hc. pose proof (used_R z ops s Hz Hz32 H U) as HR.
  destruct (log_entries_ok s _ a b HR Hb Hc) as (s' & E & _). rewrite E. reflexivity.
Qed.
Print Assumptions C18_range_partial.
(** the range really is the entries at a, a+1, ..., b-1 that exist *)
Theorem C18_range_entries : forall l a b k, al_start l <= a ->
  nth_error (a_range l a b) (N.to_nat k) = if (a + k <? b) then a_get l (a + k) else None.
Proof.
  intros l a b k Ha. unfold a_range, a_get. destruct (N.ltb_spec (a + k) (al_start l)); [lia|].
  destruct (N.ltb_spec (a + k) b).
  - assert (NF: forall (x : list entry_val) n i, (i < n)%nat -> nth_error (firstn n x) i = nth_error x i).
    { induction x as [|e x IH]; intros n i Hi; [rewrite firstn_nil; reflexivity|].
      destruct n; [lia|]. destruct i; cbn [firstn nth_error]; [reflexivity|]. apply IH. lia. }
    rewrite NF by lia.
    assert (NS: forall (x : list entry_val) n i, nth_error (skipn n x) i = nth_error x (n + i)).
    { induction x as [|e x IH]; intros n i; [rewrite skipn_nil; destruct (n + i)%nat, i; reflexivity|].
      destruct n; [reflexivity|]. cbn [skipn plus nth_error]. apply IH. }
    rewrite NS. f_equal. lia.
  - apply nth_error_None. rewrite firstn_length. lia.
Qed.
Print Assumptions C18_range_entries.
Example C18_example : exists s, used (-1) ex_ops s /\ ops_ok (cache_limit (-1)) 1 a_empty ex_ops /\ c_start (s_cache s) <= 3.
Proof.
  pose proof (unlimited_ops _ _ small_empty C14_example) as H.
  exists (snd (run_lops ex_ops (snd (open_store empty_folder (-1))))). split; [|split; [exact H|vm_compute; discriminate]].
  exists (snd (open_store empty_folder (-1))), (fst (run_lops ex_ops (snd (open_store empty_folder (-1))))).
  split; [vm_compute; reflexivity|apply surjective_pairing].
Qed.

(** With a cache of one entry, asking for entry 1 only returns entries 1 and 2. *)
Theorem C18_before_cache_refuted : exists s,
  used 1 [LAppend big; LAppend tiny; LAppend big] s /\
  fst (log_entries 1 2 s) = Ok (Some [Some big; Some tiny]).
Proof. eexists. split; [run_it|]. vm_compute. reflexivity. Qed.
Print Assumptions C18_before_cache_refuted.

(** ** C19 *)
Theorem C19_pack_apply_partial : forall z1 ops1 s1 z2 ops2 s2 i cnt j,
  z1 <> 0%Z -> is_int32 z1 -> ops_ok (cache_limit z1) 1 a_empty ops1 -> used z1 ops1 s1 ->
  z2 <> 0%Z -> is_int32 z2 -> ops_ok (cache_limit z2) 1 a_empty ops2 -> used z2 ops2 s2 ->
  let l1 := spec_run a_empty ops1 in
  let l2 := spec_run a_empty ops2 in
  let m := a_range l1 i (i + Z.to_N cnt) in
  al_start l1 <= i < a_next l1 -> (0 < cnt)%Z -> is_int32 cnt -> pack_small m ->
  al_start l2 <= j <= a_next l2 -> small (a_replace l2 j m) -> cut_ok l2 (a_replace l2 j m) ->
  exists bytes s1' s2', pack i cnt s1 = (Ok bytes, s1') /\ apply_pack j bytes s2 = (Ok tt, s2') /\
    next_slot s2' = j + lenN m /\
    forall k, is_ulong k -> fst (entry_at k s2') =
      if k <? al_start l2 then Throw RangeError
      else if k <? j then fst (entry_at k s2)
      else Ok (nth_error m (N.to_nat (k - j))).
Proof.
  intros z1 ops1 s1 z2 ops2 s2 i cnt j A1 A2 A3 A4 B1 B2 B3 B4 l1 l2 m Hi Hc Hc32 HP Hj Sm Cut.
  pose proof (used_R _ _ _ A1 A2 A3 A4) as HR1. pose proof (used_R _ _ _ B1 B2 B3 B4) as HR2. fold l1 in HR1. fold l2 in HR2.
  pose proof (R_small _ _ HR1) as S1. pose proof (R_small _ _ HR2) as S2.
  assert (Hiu: is_ulong i) by (destruct S1 as (_ & ? & _); unfold a_next in Hi; ulong).
  destruct (pack_ok s1 l1 i cnt HR1 Hiu Hc Hc32 HP) as (s1' & r & E1 & _ & Hr).
  destruct (N.ltb_spec i (al_start l1)); [lia|]. destruct (N.leb_spec (a_next l1) i); [lia|]. subst r.
  assert (Sub: forall b, (b <= i)%N -> dsize (a_range l1 (al_start l1) b) + dsize (a_range l1 b (b + Z.to_N cnt)) <= dsize (al_ents l1)).
  { intros b Hb. unfold a_range. rewrite N.sub_diag. rewrite skipn_O.
    replace (b + Z.to_N cnt - b) with (Z.to_N cnt) by lia.
    rewrite <- (firstn_skipn (N.to_nat (b - al_start l1)) (al_ents l1)) at 3. rewrite dsize_app.
    rewrite <- (firstn_skipn (N.to_nat (Z.to_N cnt)) (skipn (N.to_nat (b - al_start l1)) (al_ents l1))) at 2.
    rewrite dsize_app. lia. }
  specialize (Sub i ltac:(lia)). fold m in Sub. pose proof (dsize_small _ S1) as DS1.
  assert (Hne: m <> []).
  { unfold m, a_range. intros Q. assert (length (firstn (N.to_nat (i + Z.to_N cnt - i)) (skipn (N.to_nat (i - al_start l1)) (al_ents l1))) = 0%nat) by (rewrite Q; reflexivity).
    rewrite firstn_length, skipn_length in H1. unfold a_next, lenN in *. lia. }
  assert (Fm: Forall entry_ok m).
  { destruct Sm as (_ & _ & _ & F). unfold a_replace in F. cbn [al_ents] in F. apply Forall_app in F. tauto. }
  destruct (apply_pack_ok s2 l2 j _ m HR2 Hj Hne Fm HP ltac:(unfold two64; apply N.le_lt_trans with (dsize (al_ents l1)); [exact Sub|lia]) Cut Sm)
    as (s2' & E2 & HR2' & _ & _).
  eexists _, s1', s2'. split; [exact E1|]. split; [exact E2|].
  assert (Lf: length (firstn (N.to_nat (j - al_start l2)) (al_ents l2)) = N.to_nat (j - al_start l2)).
  { rewrite firstn_length. unfold a_next, lenN in *. lia. }
  split.
  - unfold next_slot. rewrite (R_start _ _ HR2'), (R_entries _ _ HR2'). pose proof Sm as (_ & SS & _). unfold a_replace in *. cbn [al_start al_ents] in *.
    rewrite CodecProofs.lenN_app in *. rewrite wadd_small by (unfold two64; lia). unfold lenN in *. lia.
  - intros k Hk. destruct (entry_at_ok s2' _ k HR2' Hk) as (s3 & E3 & _). rewrite E3. cbn [fst al_start a_replace].
    destruct (N.ltb_spec k (al_start l2)) as [L|L]; [reflexivity|].
    unfold a_get, a_replace. cbn [al_start al_ents]. destruct (N.ltb_spec k (al_start l2)); [lia|].
    destruct (N.ltb_spec k j) as [Q|Q].
    + destruct (entry_at_ok s2 l2 k HR2 Hk) as (s4 & E4 & _). rewrite E4. cbn [fst].
      destruct (N.ltb_spec k (al_start l2)); [lia|]. unfold a_get. destruct (N.ltb_spec k (al_start l2)); [lia|]. f_equal.
      rewrite nth_error_app1 by lia. rewrite <- (firstn_skipn (N.to_nat (j - al_start l2)) (al_ents l2)) at 2.
      rewrite nth_error_app1 by lia. reflexivity.
    + f_equal. rewrite nth_error_app2 by lia. f_equal. lia.
Qed.
Print Assumptions C19_pack_apply_partial.
Example C19_example : exists s1 s2,
  used 1 [LAppend big; LAppend tiny; LAppend big] s1 /\ used (-1) [LAppend tiny; LAppend tiny] s2 /\
  ops_ok (cache_limit 1) 1 a_empty [LAppend big; LAppend tiny; LAppend big] /\
  ops_ok (cache_limit (-1)) 1 a_empty [LAppend tiny; LAppend tiny] /\
  let m := a_range (spec_run a_empty [LAppend big; LAppend tiny; LAppend big]) 2 (2 + Z.to_N 5) in
  let l2 := spec_run a_empty [LAppend tiny; LAppend tiny] in
  m = [tiny; big] /\ pack_small m /\ small (a_replace l2 2 m) /\ cut_ok l2 (a_replace l2 2 m).
Proof.
  eexists _, _. split; [run_it|]. split; [run_it|].
  split; [hist|].
  split; [hist|].
  split; [reflexivity|]. split; [vm_compute; reflexivity|]. split; [sml|]. right. vm_compute. discriminate.
Qed.

(** Applying a pack over a longer tail with the same number of entries leaves
    stale bytes in the last entry, at once. *)
Theorem C19_stale_tail_refuted : exists s1 s2 bytes s1' s2',
  used (-1) [LAppend tiny] s1 /\ used (-1) [LAppend big] s2 /\
  pack 1 1 s1 = (Ok bytes, s1') /\ apply_pack 1 bytes s2 = (Ok tt, s2') /\
  fst (entry_at 1 s1') = Ok (Some tiny) /\ fst (entry_at 1 s2') = Ok (Some (ev 2 [x64; x62; x63])).
Proof.
  eexists _, _, _, _, _. split; [run_it|]. split; [run_it|].
  split; [vm_compute; reflexivity|]. split; [vm_compute; reflexivity|]. split; vm_compute; reflexivity.
Qed.
Print Assumptions C19_stale_tail_refuted.

(** ** C20 *)
Theorem C20_compact_partial : forall z ops s k,
  z <> 0%Z -> is_int32 z -> ops_ok (cache_limit z) 1 a_empty ops -> used z ops s ->
  let l := spec_run a_empty ops in
  (k < al_start l -> compact k s = (Throw RangeError, s)) /\
  (al_start l <= k -> k + 1 + lenN (al_ents l) < 1152921504606846976 ->
   exists s', compact k s = (Ok true, s') /\ start_index s' = k + 1 /\ next_slot s' = N.max (next_slot s) (k + 1) /\
     forall i, is_ulong i -> fst (entry_at i s') =
       if i <=? k then Throw RangeError else fst (entry_at i s)).
Proof.
  intros z ops s k Hz Hz32 H U l. pose proof (used_R _ _ _ Hz Hz32 H U) as HR. fold l in HR.
  pose proof (R_small _ _ HR) as (S0 & S1 & S2 & S3).
  split; [intros Hk; apply compact_low with (l := l); auto|].
  intros Hk Hk2.
  assert (Sm: small (a_compact l k)).
  { unfold a_compact. split; [cbn [al_start]; lia|]. cbn [al_start al_ents].
    assert (lenN (skipn (N.to_nat (k + 1 - al_start l)) (al_ents l)) <= lenN (al_ents l)) by (unfold lenN; rewrite skipn_length; lia).
    split; [lia|]. split; [lia|].
    rewrite <- (firstn_skipn (N.to_nat (k + 1 - al_start l)) (al_ents l)) in S3. apply Forall_app in S3. tauto. }
  destruct (compact_ok s l k HR Hk Sm) as (s' & E & HR' & _ & _).
  exists s'. split; [exact E|].
  split; [unfold start_index; rewrite (R_start _ _ HR'); reflexivity|].
  split.
  - unfold next_slot. rewrite (R_start _ _ HR'), (R_entries _ _ HR'), (R_start _ _ HR), (R_entries _ _ HR).
    pose proof Sm as (_ & SS & _). rewrite !wadd_small by (unfold two64; lia).
    unfold a_compact. cbn [al_start al_ents]. unfold lenN. rewrite skipn_length. lia.
  - intros i Hi. destruct (entry_at_ok s' _ i HR' Hi) as (s1 & E1 & _). destruct (entry_at_ok s l i HR Hi) as (s2 & E2 & _).
    rewrite E1, E2. cbn [fst al_start a_compact].
    destruct (N.ltb_spec i (k + 1)), (N.leb_spec i k); try lia; [reflexivity|].
    destruct (N.ltb_spec i (al_start l)); [lia|]. f_equal.
    unfold a_get, a_compact. cbn [al_start al_ents]. destruct (N.ltb_spec i (k + 1)), (N.ltb_spec i (al_start l)); try lia.
    assert (NS: forall (x : list entry_val) n q, nth_error (skipn n x) q = nth_error x (n + q)).
    { induction x as [|e x IH]; intros n q; [rewrite skipn_nil; destruct (n + q)%nat, q; reflexivity|].
      destruct n; [reflexivity|]. cbn [skipn plus nth_error]. apply IH. }
    rewrite NS. f_equal. lia.
Qed.
Print Assumptions C20_compact_partial.
Example C20_example : exists s, used 1 [LAppend big; LAppend tiny; LAppend big] s /\
  ops_ok (cache_limit 1) 1 a_empty [LAppend big; LAppend tiny; LAppend big] /\
  exists s', compact 1 s = (Ok true, s') /\ fst (entry_at 2 s') = Ok (Some tiny).
Proof.
  eexists. split; [run_it|].
  split; [hist|].
  eexists. split; [vm_compute; reflexivity|vm_compute; reflexivity].
Qed.

(** Compaction reloads the cache from the files and so also shows the stale
    bytes behind a shortened last entry. *)
Theorem C20_stale_tail_refuted : exists s s',
  used (-1) [LAppend big; LAppend big; LWriteAt 2 tiny] s /\ compact 1 s = (Ok true, s') /\
  fst (entry_at 2 s) = Ok (Some tiny) /\ fst (entry_at 2 s') = Ok (Some (ev 2 [x64; x62; x63])).
Proof.
  eexists _, _. split; [run_it|]. split; [vm_compute; reflexivity|]. split; vm_compute; reflexivity.
Qed.
Print Assumptions C20_stale_tail_refuted.
