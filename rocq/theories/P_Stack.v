(** * A server on the file log store (C98) *)

From Verif Require Import Base Buffer Codec CodecSpec CodecProofs Msg FsLogStore FsLogSpec FsLogProofs FsLogOps FsLogReads FsLogChange
  FsLogTop FsLogWeak FsLogCrash FsLogTorn P_LogStore P_Crash P_Torn Alog Raft RaftQuiet RaftWalk RaftTrace RaftTrace2 RaftTrace3 NodeSpec NodeLife NodeExamples
  ServerSpec NodeFacts AppendFacts Stack.
From Coq Require Import Lia.
Local Open Scope N_scope.

(** ** The log of the server and the operations of the store *)
Lemma reads_next l op : reads op = true -> spec_next l op = l.
Proof. destruct op; intros H; try discriminate H; reflexivity. Qed.
Lemma reads_only l ops : Forall (fun op => reads op = true) ops -> spec_run l ops = l.
Proof. induction 1; cbn [spec_run]; [reflexivity|]. rewrite reads_next by assumption. exact IHForall. Qed.
Lemma spec_run_app a b : forall l, spec_run l (a ++ b) = spec_run (spec_run l a) b.
Proof. induction a as [|o a IH]; intros l; cbn [app spec_run]; auto. Qed.

Lemma does_app p : forall q ops, does (p ++ q) ops -> exists a b, ops = a ++ b /\ does p a /\ does q b.
Proof.
  intros q ops H. remember (p ++ q) as l eqn:E. revert p q E.
  induction H; intros p q E.
  - destruct p; [|discriminate]. destruct q; [|discriminate]. exists [], []. repeat constructor.
  - destruct p as [|b p].
    + cbn [app] in E. subst q. exists [], ops. split; [reflexivity|]. split; [constructor|]. apply D_other; assumption.
    + cbn [app] in E. injection E as -> E. destruct (IHdoes _ _ E) as (u & v & -> & Hu & Hv). exists u, v.
      split; [reflexivity|]. split; [apply D_other; assumption|assumption].
  - destruct p as [|b p].
    + cbn [app] in E. subst q. exists [], (op :: ops). split; [reflexivity|]. split; [constructor|]. apply D_write; assumption.
    + cbn [app] in E. injection E as -> E. destruct (IHdoes _ _ E) as (u & v & -> & Hu & Hv). exists (op :: u), v.
      split; [reflexivity|]. split; [apply D_write; assumption|assumption].
  - destruct (IHdoes _ _ E) as (u & v & -> & Hu & Hv). exists (op :: u), v.
    split; [reflexivity|]. split; [apply D_read; assumption|assumption].
Qed.
Lemma does_none l ops : Forall (fun a => log_act a = false) l -> does l ops -> Forall (fun op => reads op = true) ops.
Proof.
  intros F H. induction H.
  - constructor.
  - apply IHdoes. inversion F; assumption.
  - exfalso. inversion F; subst. destruct a; cbn [log_op log_act] in *; try contradiction; discriminate.
  - constructor; auto.
Qed.
Lemma does_one a ops : log_act a = true -> does [a] ops ->
  exists x op y, ops = x ++ op :: y /\ log_op a op /\ Forall (fun op => reads op = true) x /\ Forall (fun op => reads op = true) y.
Proof.
  intros La H. remember [a] as l eqn:E. induction H; try discriminate.
  - injection E as -> ->. congruence.
  - injection E as -> ->. exists [], op, ops. split; [reflexivity|]. split; [assumption|]. split; [constructor|].
    eapply does_none; [|exact H0]. constructor.
  - destruct (IHdoes E) as (x & o & y & -> & Ho & Hx & Hy). exists (op :: x), o, y.
    split; [reflexivity|]. split; [assumption|]. split; [constructor; assumption|assumption].
Qed.
(** no write of the log, no change *)
Lemma other_fold l : forall d, Forall (fun a => log_act a = false) l -> dk_log (fold_left disk_apply l d) = dk_log d.
Proof.
  induction l as [|a l IH]; intros d F; [reflexivity|]. inversion F; subst. cbn [fold_left]. rewrite IH by assumption.
  destruct a; try discriminate; reflexivity.
Qed.
Lemma other_step n n' l ops : Forall (fun a => log_act a = false) l -> n_disk n' = fold_left disk_apply l (n_disk n) -> does l ops ->
  n_log n' = spec_run (n_log n) ops.
Proof.
  intros F E H. unfold n_log at 1. rewrite E, other_fold by assumption.
  rewrite (reads_only _ ops) by (eapply does_none; eassumption). reflexivity.
Qed.
Lemma one_step a n ops l' : log_act a = true -> does [a] ops ->
  (forall op, log_op a op -> spec_next (n_log n) op = l') -> l' = spec_run (n_log n) ops.
Proof.
  intros La H E. destruct (does_one a ops La H) as (x & op & y & -> & Ho & Hx & Hy).
  rewrite spec_run_app, (reads_only _ x Hx). cbn [spec_run]. rewrite (E op Ho), (reads_only _ y Hy). reflexivity.
Qed.

Lemma astep_ops ev n l n' ops : astep ev n l n' -> does l ops -> n_log n' = spec_run (n_log n) ops.
Proof.
  intros H D. assert (E := astep_disk _ _ _ _ H).
  destruct H;
    try (eapply (other_step n); [|exact E|exact D]; repeat constructor; fail);
    try (eapply (other_step n); [|exact E|exact D]; destruct a; try contradiction; repeat constructor; fail).
  - destruct H as (ps & q & j & En & _ & _ & _ & Hl). apply (other_step n _ l); [|exact E|exact D].
    eapply Forall_impl; [|exact Hl]. intros a Ha. destruct a; try contradiction; reflexivity.
  - apply (other_step n _ l); [|exact E|exact D]. eapply Forall_impl; [|exact H0].
    intros a Ha. destruct a; try contradiction; reflexivity.
  - eapply one_step; [|exact D|]; [reflexivity|]. intros op ->. reflexivity.
  - eapply one_step; [|exact D|]; [reflexivity|]. intros op ->. reflexivity.
  - eapply one_step; [|exact D|]; [reflexivity|]. intros op ->. cbn [spec_next].
    destruct (N.ltb_spec i (al_start (n_log n))); [lia|]. destruct (N.ltb_spec (a_next (n_log n)) i); [lia|]. reflexivity.
  - eapply one_step; [|exact D|]; [reflexivity|]. intros op ->. reflexivity.
  - apply (other_step n _ l); [|exact E|exact D]. destruct H1 as (F & _). eapply Forall_impl; [|exact F].
    intros a [Ha| ->]; [destruct a; try contradiction; reflexivity|reflexivity].
  - eapply one_step; [|exact D|]; [reflexivity|]. intros op [base ->]. reflexivity.
  - eapply one_step; [|exact D|]; [reflexivity|]. intros op ->. cbn [spec_next].
    destruct (N.ltb_spec k (al_start (n_log n))); [lia|]. reflexivity.
Qed.
Lemma tr_ops ev n l n' : tr ev n l n' -> forall ops, does l ops -> n_log n' = spec_run (n_log n) ops.
Proof.
  induction 1; intros ops D.
  - symmetry. apply reads_only. eapply does_none; [|exact D]. constructor.
  - destruct (does_app _ _ _ D) as (a & b & -> & Da & Db). rewrite spec_run_app, <- (astep_ops _ _ _ _ _ H Da). apply IHtr, Db.
Qed.

(** ** Every life on the files is a life *)
Lemma run_split a b : forall s l, R s l -> ops_ok (s_buf_size s) (c_start (s_cache s)) l (a ++ b) ->
  let s' := snd (run_lops a s) in
  fst (run_lops a s) = spec_answers l a /\ R s' (spec_run l a) /\ ops_ok (s_buf_size s') (c_start (s_cache s')) (spec_run l a) b.
Proof.
  induction a as [|op a IH]; intros s l HR H; cbn [app run_lops spec_run spec_answers].
  - cbn [fst snd]. auto.
  - cbn [app ops_ok] in H. destruct H as [H1 H2]. destruct (op_step s l op HR H1) as (s1 & E & HR1 & C & B).
    rewrite E. rewrite <- C, <- B in H2. destruct (IH s1 (spec_next l op) HR1 H2) as (X1 & X2 & X3).
    destruct (run_lops a s1) as [rs s2]. cbn [fst snd] in *. rewrite X1. auto.
Qed.
Lemma found_same d : found (dk_log d) d = d.
Proof. destruct d; reflexivity. Qed.
Lemma dk_log_start id pm d : n_log (start_node id pm d) = dk_log d.
Proof. unfold start_node. destruct (dk_state d) as [[t v]|]; reflexivity. Qed.

(** the state the files and the server are in *)
Definition in_step (x : fsys) (y : sys) : Prop :=
  match x, y with
  | FUp n s, Up m => n = m /\ R s (n_log n)
  | FDown d f, Down d' => d = d' /\ (f = disk_of (dk_log d) \/ f = empty_folder /\ dk_log d = a_empty) /\ small (dk_log d)
  | _, _ => False
  end.
(** the conditions of C14 on what is still to come *)
Definition to_come (x : fsys) (ops : list lop) : Prop :=
  match x with
  | FUp n s => ops_ok (s_buf_size s) (c_start (s_cache s)) (n_log n) ops
  | FDown d _ => forall mx c, ops_ok mx c (dk_log d) ops
  end.

Lemma open_either d f z : f = disk_of (dk_log d) \/ f = empty_folder /\ dk_log d = a_empty -> small (dk_log d) -> z <> 0%Z -> is_int32 z ->
  exists s', open_store f z = (Ok tt, s') /\ R s' (dk_log d) /\
    c_start (s_cache s') = reload_window (cache_limit z) (dk_log d) /\ s_buf_size s' = cache_limit z.
Proof.
  intros [-> | [-> ->]] Sm Hz Hz32; [apply open_disk; assumption|].
  destruct (open_fresh z Hz Hz32) as (s0 & E & HR & C & B). exists s0. split; [exact E|]. split; [exact HR|]. split; [|exact B].
  rewrite C. reflexivity.
Qed.

Lemma down_again mx c l ops : ops_ok mx c l ops -> (exists z rest, ops = LReopen z :: rest) \/ ops = [] -> forall mx' c', ops_ok mx' c' l ops.
Proof. intros H [(z & rest & ->)| ->] mx' c'; [exact H|exact I]. Qed.
Lemma down_ops id pm d f h ops x : flife id pm (FDown d f) h ops x -> (exists z rest, ops = LReopen z :: rest) \/ ops = [].
Proof. intros H. inversion H; subst; [right; reflexivity|left; eauto]. Qed.

Lemma flife_life id pm : forall x h ops x', flife id pm x h ops x' -> forall y, in_step x y -> to_come x ops ->
  exists y', life id pm y h y' /\ in_step x' y' /\ dk_log (sys_disk y') = spec_run (dk_log (sys_disk y)) ops.
Proof.
  induction 1; intros y I T.
  - exists y. split; [constructor|]. split; [exact I|reflexivity].
  - destruct y as [m|]; [|contradiction]. destruct I as [<- HR]. cbn [to_come] in T.
    destruct (run_split _ _ _ _ HR T) as (_ & HR' & T').
    assert (L: n_log n' = spec_run (n_log n) ops).
    { eapply tr_ops; [|eassumption]. refine (proj1 (run_event_tr e n _ _ _ _ H)). apply (R_small _ _ HR). }
    rewrite <- L in HR', T'. destruct (IHflife (Up n')) as (y' & Ly & Iy & Ey); [split; [reflexivity|exact HR'] | exact T' |].
    exists y'. split; [eapply L_event; eassumption|]. split; [exact Iy|]. rewrite Ey, spec_run_app. f_equal. exact L.
  - destruct y as [m|]; [|contradiction]. destruct I as [<- HR]. cbn [to_come] in T.
    destruct (run_split _ _ _ _ HR T) as (_ & HR' & T').
    assert (L: n_log n' = spec_run (n_log n) ops).
    { eapply tr_ops; [|eassumption]. refine (proj1 (run_event_tr e n _ _ _ _ H)). apply (R_small _ _ HR). }
    rewrite <- L in HR', T'. destruct (IHflife (Down (n_disk n'))) as (y' & Ly & Iy & Ey).
    { split; [reflexivity|]. split; [left; apply close_R; exact HR'|exact (R_small _ _ HR')]. }
    { cbn [to_come]. eapply down_again; [exact T'|eapply down_ops; eassumption]. }
    exists y'. split; [eapply L_stop; eassumption|]. split; [exact Iy|]. rewrite Ey, spec_run_app. f_equal. exact L.
  - destruct y as [m|]; [|contradiction]. destruct I as [<- HR]. cbn [to_come] in T.
    destruct (run_split _ _ _ _ HR T) as (_ & HR' & T').
    assert (L: dk_log (fold_left disk_apply p (n_disk n)) = spec_run (n_log n) ops).
    { assert (HT := proj1 (run_event_tr e n (proj1 (R_small _ _ HR)) _ _ _ H)).
      destruct (tr_prefix _ _ _ _ HT p q eq_refl) as (n1 & HT1). rewrite <- (tr_disk _ _ _ _ HT1).
      exact (tr_ops _ _ _ _ HT1 _ H0). }
    rewrite <- L in HR', T'. destruct (IHflife (Down (fold_left disk_apply p (n_disk n)))) as (y' & Ly & Iy & Ey).
    { split; [reflexivity|]. split; [left; apply close_R; exact HR'|exact (R_small _ _ HR')]. }
    { cbn [to_come]. eapply down_again; [exact T'|eapply down_ops; eassumption]. }
    exists y'. split; [eapply L_crash; eassumption|]. split; [exact Iy|]. rewrite Ey, spec_run_app. f_equal. exact L.
  - destruct y as [|d']; [contradiction|]. destruct I as (<- & Df & Sm). cbn [to_come] in T.
    pose proof (T 0 0) as T0. cbn [ops_ok] in T0. destruct T0 as [[[Hz Hz32] _] T1].
    destruct (open_either d f z Df Sm Hz Hz32) as (s' & E & HR & B & C).
    rewrite H in E. injection E as <-.
    assert (A := R_answers _ _ HR).
    assert (El: dk_log d = l).
    { eapply answers_one; [exact A|exact H0|]. destruct Sm as (_ & S1 & _). unfold a_next, two64. lia. }
    subst l. rewrite found_same in *.
    destruct (IHflife (Up (start_node id pm d))) as (y' & Ly & Iy & Ey).
    { split; [reflexivity|]. rewrite dk_log_start. exact HR. }
    { cbn [to_come]. rewrite dk_log_start. rewrite B, C. exact T1. }
    exists y'. split; [apply L_start; exact Ly|]. split; [exact Iy|]. rewrite Ey. cbn [sys_disk spec_run spec_next]. f_equal. apply dk_log_start.
Qed.

Lemma R_agree s l : R s l -> answers_all s l.
Proof.
  intros HR. split; [apply R_answers; exact HR|]. split.
  - assert (O: op_ok (c_start (s_cache s)) l LLast) by (split; [exact I|exact (R_small _ _ HR)]).
    destruct (op_step s l LLast HR O) as (s' & E & _). cbn [run_lop spec_ans] in E. congruence.
  - intros i e Hi He. destruct (term_at_ok s l i HR) as (s' & E & _); [apply a_get_some in He; lia|]. rewrite E, He. reflexivity.
Qed.

(** A server that started on an empty folder: whatever happened, the run is a
    run of the server on an indexed log (so every property of such runs holds
    of it), every answer of the store was the one of that log, the store agrees
    with the server's log at the end, and after a stop or a crash the folder
    opens with exactly the server's log.  [ops_ok] has the conditions of C14 on
    the calls of the store; missing: [C98_restart_refuted]. *)
Theorem C98_on_files_partial : forall id pm d z s0 h ops x,
  z <> 0%Z -> is_int32 z -> dk_log d = a_empty -> open_store empty_folder z = (Ok tt, s0) ->
  flife id pm (FUp (start_node id pm d) s0) h ops x ->
  ops_ok (cache_limit z) 1 a_empty ops ->
  exists y, life id pm (Up (start_node id pm d)) h y /\
    fst (run_lops ops s0) = spec_answers a_empty ops /\
    dk_log (sys_disk y) = spec_run a_empty ops /\
    match x with
    | FUp n s => y = Up n /\ answers_all s (n_log n)
    | FDown d' f => y = Down d' /\
        forall z', z' <> 0%Z -> is_int32 z' -> exists s', open_store f z' = (Ok tt, s') /\ answers_all s' (dk_log d')
    end.
Proof.
  intros id pm d z s0 h ops x Hz Hz32 Hd Ho HF Ok.
  destruct (open_fresh z Hz Hz32) as (s0' & E & HR & C & B). rewrite Ho in E. injection E as <-.
  destruct (flife_life id pm _ _ _ _ HF (Up (start_node id pm d))) as (y & Ly & Iy & Ey).
  { split; [reflexivity|]. rewrite dk_log_start, Hd. exact HR. }
  { cbn [to_come]. rewrite dk_log_start, Hd, B, C. exact Ok. }
  exists y. split; [exact Ly|].
  destruct (run_ok ops s0 a_empty HR) as (s & Er & _); [rewrite B, C; exact Ok|].
  split; [rewrite Er; reflexivity|]. split.
  { rewrite Ey. f_equal. cbn [sys_disk]. etransitivity; [apply dk_log_start|exact Hd]. }
  destruct x as [n t|d' f], y as [m|d'']; try contradiction; cbn [in_step] in Iy.
  - destruct Iy as [<- HR']. split; [reflexivity|apply R_agree; exact HR'].
  - destruct Iy as (<- & Df & Sm). split; [reflexivity|]. intros z' Hz' Hz32'.
    destruct (open_either d' f z' Df Sm Hz' Hz32') as (s' & E' & HR' & _). exists s'. split; [exact E'|apply R_agree; exact HR'].
Qed.
Print Assumptions C98_on_files_partial.

(** ** The last entry replaced by a shorter one *)
(** what is left in the file: the new entry with the end of the old one *)
Definition stale (e e0 : entry_val) : entry_val :=
  mkEV (ev_term e) (ev_type e) (ev_data e ++ skipn (length (ev_data e)) (ev_data e0)).
Lemma enc_stale e e0 : enc (stale e e0) = enc e ++ skipn (length (enc e)) (enc e0).
Proof.
  unfold enc, entry_bytes, stale. cbn [ev_term ev_type ev_data].
  assert (L: forall t (y : byte) d d', skipn (length (le 8 t ++ [y] ++ d)) (le 8 (ev_term e0) ++ [ev_type e0] ++ d') = skipn (length d) d').
  { intros t y d d'. rewrite !app_length, le_length. cbn [length].
    rewrite skipn_app, skipn_all2 by (rewrite le_length; lia). rewrite le_length. cbn [app].
    replace (8 + (1 + length d) - 8)%nat with (S (length d)) by lia. reflexivity. }
  rewrite L, <- !app_assoc. reflexivity.
Qed.

Lemma write_last s st x e0 e : R s (mkAL st (x ++ [e0])) -> entry_ok e -> esize e <= esize e0 ->
  exists s', write_at (st + lenN x) e s = (Ok tt, s') /\ close s' = disk_of (mkAL st (x ++ [stale e e0])) /\
    last_entry s' = e.
Proof.
  intros HR He Hs. pose proof (R_small _ _ HR) as Sl.
  destruct (R_explicit _ _ HR) as (v & w & ip & dp & sp & E & NE & Es & Hy & Hb).
  set (b := s_buf_size s) in *. clearbody b. subst s. clear HR. cbn [al_ents al_start] in *.
  assert (Ew: exists p, w = p ++ [e0] /\ x = v ++ p).
  { destruct (exists_last (l := w)) as (p & a & Ew).
    - intros ->. rewrite (NE eq_refl) in E. destruct x; discriminate.
    - subst w. rewrite app_assoc in E. apply app_inj_tail in E. destruct E as [-> <-]. exists p. auto. }
  destruct Ew as (p & -> & ->).
  pose proof (dsize_small _ Sl) as DS. destruct Sl as (S0 & S1 & S2 & S3). cbn [al_start al_ents] in *.
  rewrite app_assoc in *. set (u := v ++ p) in *.
  rewrite lenN_app in S1, S2. change (lenN [e0]) with 1 in S1, S2.
  unfold write_at. do 2 (erewrite sbind_ok by reflexivity). sfields.
  rewrite lenN_app. change (lenN [e0]) with 1.
  rewrite wadd_small by (unfold two64; lia).
  replace ((st + lenN u <? st) || (st + (lenN u + 1) <? st + lenN u)) with false by lia.
  rewrite (wsub_small (st + lenN u) st) by (unfold two64; lia).
  replace (st + lenN u - st) with (lenN u) by lia.
  rewrite (wadd_small (lenN u) 1) by (unfold two64; lia).
  rewrite (wsub_small (lenN u + 1) 1) by (unfold two64; lia).
  replace (lenN u + 1 - 1) with (lenN u) by lia.
  rewrite wmul_small by (unfold two64; lia). cbv zeta.
  destruct (N.leb_spec (lenN u + 1) (lenN u + 1)) as [_|]; [|lia].
  assert (EO: offs 0 (u ++ [e0]) = offs 0 u ++ le 8 (dsize u) ++ []).
  { rewrite offs_app. reflexivity. }
  assert (EE: encs (u ++ [e0]) = encs u ++ enc e0 ++ []).
  { rewrite encs_app. reflexivity. }
  rewrite dsize_app in DS. cbn [dsize] in DS. rewrite EO, EE.
  erewrite (sbind_ok (sbind (idx_do _) _)).
  2:{ erewrite sbind_ok by (unfold idx_do, smod, set_idx; sfields; rewrite f_seek_ok by lia; reflexivity).
      erewrite sbind_ok by (apply read_idx_at; [rewrite lenN_offs; lia|unfold is_ulong, two64; lia]).
      unfold dat_do, smod, set_dat. sfields. rewrite f_seek_ok by lia. reflexivity. }
  unfold sbind at 1, idx_do at 1, smod, set_idx. sfields. rewrite f_seek_ok by lia.
  erewrite sbind_ok by reflexivity. sfields. unfold f_tell at 1. sfields.
  unfold sbind at 1, on_idx, f_write, f_write_raw, set_idx. sfields.
  rewrite write_mid by (try (intros Q; discriminate Q); rewrite lenN_offs; lia).
  rewrite le_length, skipn_app_exact by apply le_length. rewrite lenN_le.
  rewrite enc_ok by auto. erewrite sbind_ok by reflexivity.
  unfold sbind at 1, on_dat, f_write, f_write_raw, set_dat. sfields.
  rewrite write_mid by (try apply enc_nonempty; rewrite lenN_encs; reflexivity).
  do 2 (erewrite sbind_ok by reflexivity). unfold f_tell. sfields.
  unfold sbind at 1, idx_do at 1, smod, set_idx, f_seek_end. sfields.
  erewrite sbind_ok by reflexivity. sfields.
  rewrite !app_nil_r, !lenN_app, !lenN_offs, lenN_le, lenN_enc.
  destruct (N.ltb_spec (lenN u * 8 + N.of_nat 8) (8 * lenN u + N.of_nat 8)); [lia|].
  erewrite sbind_ok by reflexivity.
  assert (TC: c_trim (mkCache (st + lenN v) (p ++ [e0]) b) (st + lenN u) = mkCache (st + lenN v) p b).
  { unfold c_trim. sfields. unfold u. rewrite lenN_app.
    destruct (N.ltb_spec (st + (lenN v + lenN p)) (st + lenN v)); [lia|].
    rewrite wsub_small by (unfold u in *; rewrite lenN_app in *; unfold two64; lia).
    replace (st + (lenN v + lenN p) - (st + lenN v)) with (lenN p) by lia.
    rewrite lenN_app. change (lenN [e0]) with 1. destruct (N.ltb_spec (lenN p) (lenN p + 1)); [|lia].
    f_equal. apply firstn_app_exact. unfold lenN. lia. }
  unfold sbind at 1, cache_do at 1, smod, set_cache. sfields. rewrite TC.
  unfold sbind at 1, cache_do at 1, smod, set_cache. sfields.
  unfold sbind at 1, smod, set_entries. sfields. unfold check_io. sfields. cbn [orb].
  eexists. split; [reflexivity|]. split.
  - unfold close, disk_of. sfields. f_equal.
    + rewrite offs_app. reflexivity.
    + rewrite encs_app. cbn [encs map concat]. rewrite app_nil_r, enc_stale. reflexivity.
  - unfold last_entry, c_last_entry. sfields.
    rewrite c_append_room by (sfields; rewrite ?lenN_app in *; change (lenN [e0]) with 1 in *; change (lenN [e]) with 1 in *; lia).
    sfields. destruct p as [|a p]; [reflexivity|]. cbn [app]. apply last_last.
Qed.

Lemma stale_other e e0 : (length (ev_data e) < length (ev_data e0))%nat -> stale e e0 <> e.
Proof.
  intros H Q. apply (f_equal (fun v => length (ev_data v))) in Q. unfold stale in Q. cbn [ev_data] in Q.
  rewrite app_length, skipn_length in Q. lia.
Qed.
Lemma esize_data e : esize e = 9 + N.of_nat (length (ev_data e)).
Proof. unfold esize, lenN. reflexivity. Qed.
Lemma does_skip l ops : Forall (fun a => log_act a = false) l -> forall l', does l' ops -> does (l ++ l') ops.
Proof. induction 1; intros l' D; [exact D|]. cbn [app]. apply D_other; auto. Qed.

(** Whatever happened so far, a follower with an entry [e0] at the end of its
    log gets from the leader a shorter entry [e] of another term in its place:
    it answers that it has stored [e], its log and its store have [e], and
    after a crash (in any later event, here before its first action) it starts
    with an entry that nobody ever sent: [e] with the end of [e0]. *)
Theorem C98_restart_refuted : forall id pm d z s0 h ops n s now q e e0,
  z <> 0%Z -> is_int32 z -> dk_log d = a_empty -> open_store empty_folder z = (Ok tt, s0) ->
  flife id pm (FUp (start_node id pm d) s0) h ops (FUp n s) ->
  ops_ok (cache_limit z) 1 a_empty ops ->
  rq_type q = append_entries_request -> n_term n <= rq_term q -> (n_role n = Leader -> n_term n < rq_term q) ->
  in_reach n q -> consistent n q -> rq_entries q = [e] -> entry_ok e ->
  let i := rq_last_idx q + 1 in
  a_next (n_log n) = i + 1 -> a_get (n_log n) i = Some e0 -> ev_term e0 <> ev_term e ->
  (length (ev_data e) < length (ev_data e0))%nat ->
  exists r n1 s1 l, run_event (ERequest now q) n = (ROk (Response r), n1, l) /\ rs_accepted r = true /\
    flife id pm (FUp n s) [mkObs (ERequest now q) l (Some (Response r))] [LWriteAt i e] (FUp n1 s1) /\
    a_get (n_log n1) i = Some e /\ last_entry s1 = e /\
    forall z' ev, z' <> 0%Z -> is_int32 z' ->
      exists n2 s2, flife id pm (FUp n1 s1) [mkObs ev [] None] [LReopen z'] (FUp n2 s2) /\
        a_get (n_log n2) i = Some (mkEV (ev_term e) (ev_type e) (ev_data e ++ skipn (length (ev_data e)) (ev_data e0))) /\
        a_get (n_log n2) i <> Some e.
Proof.
  intros id pm d z s0 h ops n s now q e e0 Hz Hz32 Hd Ho HF Ok Ht Hge Hl Hr Hc He Oke i Hn Hg Hte Hlen.
  assert (HR: R s (n_log n)).
  { destruct (open_fresh z Hz Hz32) as (s0' & E & HR & C & B). rewrite Ho in E. injection E as <-.
    destruct (flife_life id pm _ _ _ _ HF (Up (start_node id pm d))) as (y & Ly & Iy & Ey).
    { split; [reflexivity|]. rewrite dk_log_start, Hd. exact HR. }
    { cbn [to_come]. rewrite dk_log_start, Hd, B, C. exact Ok. }
    destruct y as [m|]; [|contradiction]. destruct Iy as [_ HR']. exact HR'. }
  assert (Hs: 1 <= al_start (n_log n)) by apply (R_small _ _ HR).
  assert (Ap : process_req now q n = after (arrived_acts (rq_term q) n) (handle_append_entries q (arrived (rq_term q) n))).
  { rewrite process_peer_req; rewrite Ht; reflexivity. }
  set (n0 := arrived (rq_term q) n) in *.
  assert (T1 : rq_term q = n_term n0 /\ n_role n0 <> Leader /\ n_log n0 = n_log n /\ dk_snp (n_disk n0) = dk_snp (n_disk n)).
  { unfold n0, arrived. destruct (n_term n <? rq_term q) eqn:E.
    - change (n_steps (with_term (rq_term q) n)) with (n_steps n).
      destruct (0 <? n_steps n)%Z; (split; [reflexivity|]; split; [discriminate|]; repeat split).
    - destruct (0 <? n_steps n)%Z; (split; [cbn [set_steps n_term]; lia|]; split; [cbn [set_steps n_role]; intros Q; specialize (Hl Q); lia|]; repeat split). }
  destruct T1 as (T1 & R1 & L1 & S1).
  assert (Hr1 : in_reach n0 q) by (unfold in_reach; rewrite L1, S1; exact Hr).
  assert (Hc1 : consistent n0 q) by (unfold consistent; rewrite L1, S1; exact Hc).
  assert (Hs1 : 1 <= al_start (n_log n0)) by (rewrite L1; exact Hs).
  assert (Ev : exists r l, run_event (ERequest now q) n = (ROk (Response r), followed_leader q n0, l) /\ rs_accepted r = true /\
     l = arrived_acts (rq_term q) n ++ heard_acts n0 ++ install_acts (n_log n0) i (rq_entries q)).
  { cbn [run_event]. erewrite bind_ok by (rewrite Ap, (ae_accept q n0 T1 R1 Hs1 Hr1 Hc1); reflexivity).
    unfold after, ret. cbn [fst snd]. eexists _, _. split; [reflexivity|]. split; [reflexivity|]. rewrite app_nil_r. reflexivity. }
  destruct Ev as (r & l & Ev & Hacc & El).
  assert (Al: already (n_log n) i [e] = 0%nat).
  { cbn [already]. rewrite Hg. replace (ev_term e0 =? ev_term e) with false by lia. reflexivity. }
  assert (Dl: does l [LWriteAt i e]).
  { rewrite El, He, L1. apply does_skip.
    { unfold arrived_acts. destruct (n_term n <? rq_term q); [|constructor]. destruct (n_catching n); repeat constructor. }
    apply does_skip. { unfold heard_acts. destruct (n_catching n0), (n_role n0); repeat constructor. }
    unfold install_acts. rewrite Al. cbn [skipn]. replace (i + N.of_nat 0) with i by lia. rewrite Hg.
    apply does_skip. { destruct (beq (ev_type e0) app_log); repeat constructor. }
    apply D_write; [reflexivity|]. rewrite <- (app_nil_r (pre i e ++ append_acts (i + 1) [])).
    apply does_skip; [|constructor]. cbn [append_acts]. rewrite app_nil_r. unfold pre. destruct (beq (ev_type e) app_log); repeat constructor. }
  (* the log ends with e0 *)
  assert (Ex: exists x, n_log n = mkAL (al_start (n_log n)) (x ++ [e0]) /\ i = al_start (n_log n) + lenN x).
  { pose proof (a_get_some _ _ _ Hg) as Hi. destruct (log_at (n_log n) i Hi) as (x & a & y & E1 & E2).
    assert (y = []) as ->.
    { rewrite E1 in Hn. unfold a_next in Hn. cbn [al_start al_ents] in Hn. rewrite lenN_app, lenN_cons in Hn.
      destruct y; [reflexivity|]. rewrite lenN_cons in Hn. lia. }
    exists x. split; [|exact E2]. rewrite E1. f_equal. f_equal. f_equal.
    rewrite E1, E2 in Hg. unfold a_get in Hg. cbn [al_start al_ents] in Hg.
    destruct (N.ltb_spec (al_start (n_log n) + lenN x) (al_start (n_log n))); [lia|].
    rewrite nth_error_app2 in Hg by (unfold lenN; lia).
    replace (N.to_nat (al_start (n_log n) + lenN x - al_start (n_log n)) - length x)%nat with 0%nat in Hg by (unfold lenN; lia).
    cbn [nth_error] in Hg. congruence. }
  destruct Ex as (x & Ex & Ei). set (st := al_start (n_log n)) in *.
  rewrite Ex in HR. pose proof (R_small _ _ HR) as Sm.
  destruct (write_last s st x e0 e HR Oke) as (s1 & W1 & W2 & W3); [rewrite !esize_data; lia|].
  assert (Rl: snd (run_lops [LWriteAt i e] s) = s1).
  { cbn [run_lops run_lop]. rewrite Ei, W1. reflexivity. }
  assert (Ln1: n_log (followed_leader q n0) = mkAL st (x ++ [e])).
  { change (n_log (followed_leader q n0)) with (installed (n_log n0) i (rq_entries q)). rewrite L1, He.
    unfold installed. rewrite Al. cbn [length Nat.eqb skipn]. replace (i + N.of_nat 0) with i by lia.
    rewrite Ex, Ei. unfold a_replace. cbn [al_start al_ents].
    replace (N.to_nat (st + lenN x - st)) with (length x) by (unfold lenN; lia). rewrite firstn_app_exact by reflexivity. reflexivity. }
  assert (Get: forall y, a_get (mkAL st (x ++ [y])) i = Some y).
  { intros y. unfold a_get. cbn [al_start al_ents]. rewrite Ei. destruct (N.ltb_spec (st + lenN x) st); [lia|].
    rewrite nth_error_app2 by (unfold lenN; lia).
    replace (N.to_nat (st + lenN x - st) - length x)%nat with 0%nat by (unfold lenN; lia). reflexivity. }
  exists r, (followed_leader q n0), s1, l. split; [exact Ev|]. split; [exact Hacc|]. split.
  { refine (F_event id pm n s (ERequest now q) (ROk (Response r)) _ l [] [LWriteAt i e] [] _ Ev eq_refl Dl _). rewrite Rl. constructor. }
  split; [rewrite Ln1; apply Get|]. split; [exact W3|].
  intros z' ev Hz' Hz32'.
  assert (Sm': small (mkAL st (x ++ [stale e e0]))).
  { destruct Sm as (A1 & A2 & A3 & A4). cbn [al_start al_ents] in *. unfold small. cbn [al_start al_ents].
    rewrite lenN_app in *. change (lenN [stale e e0]) with 1. change (lenN [e0]) with 1 in A2, A3.
    split; [exact A1|]. split; [exact A2|]. split; [exact A3|]. apply Forall_app in A4. destruct A4 as [A4 A5].
    apply Forall_app. split; [exact A4|]. constructor; [|constructor]. inversion A5; subst. destruct H1 as [_ B2].
    split; [apply Oke|]. rewrite esize_data in *. unfold stale. cbn [ev_data]. rewrite app_length, skipn_length. lia. }
  destruct (open_answers _ z' Sm' Hz' Hz32') as (s2 & O2 & A2).
  destruct (run_event ev (followed_leader q n0)) as [[r' n'] l'] eqn:Ev'.
  exists (start_node id pm (found (mkAL st (x ++ [stale e e0])) (n_disk (followed_leader q n0)))), s2.
  split.
  { change [LReopen z'] with ([] ++ [LReopen z']). eapply (F_crash id pm _ _ ev _ _ [] l' _ [] [LReopen z']); [exact Ev'|constructor|].
    cbn [fold_left run_lops snd]. rewrite W2. eapply F_start; [exact O2|exact A2|]. constructor. }
  rewrite dk_log_start. unfold found. cbn [dk_log]. rewrite Get. split; [reflexivity|].
  intros Q. injection Q as Q. exact (stale_other e e0 Hlen Q).
Qed.
Print Assumptions C98_restart_refuted.

(** ** Cases *)
Ltac does_all := repeat first [apply D_nil | apply D_write; [reflexivity|] | apply D_other; [reflexivity|]].
Definition ex_s0 : store := Eval vm_compute in snd (open_store empty_folder (-1)).
Lemma ex_open : open_store empty_folder (-1) = (Ok tt, ex_s0).
Proof. vm_compute. reflexivity. Qed.
Lemma start_from id pm d f z l h ops x : small l -> z <> 0%Z -> is_int32 z -> f = disk_of l ->
  (forall s, open_store f z = (Ok tt, s) -> flife id pm (FUp (start_node id pm (found l d)) s) h ops x) ->
  flife id pm (FDown d f) h (LReopen z :: ops) x.
Proof.
  intros Sm Hz Hz32 -> H. destruct (open_answers l z Sm Hz Hz32) as (s & E & A). eapply F_start; [exact E|exact A|]. apply H, E.
Qed.

(** Two entries arrive, a crash, a start, one more entry arrives. *)
Example C98_on_files_example : exists h ops x,
  open_store empty_folder (-1) = (Ok tt, ex_s0) /\
  flife 1 ex_prm (FUp (start_node 1 ex_prm ex_disk) ex_s0) h ops x /\
  ops_ok (cache_limit (-1)) 1 a_empty ops /\ dk_log ex_disk = a_empty /\
  spec_run a_empty ops = mkAL 1 [ex_ent 1 x61; ex_ent 1 x62; ex_ent 1 x63] /\ length h = 3%nat /\
  match x with FUp n _ => n_role n = Follower | FDown _ _ => False end.
Proof.
  do 3 eexists. split; [exact ex_open|]. split.
  { refine (F_event _ _ _ _ (ERequest 0 (ex_ae 1 2 0 0 0 [ex_ent 1 x61; ex_ent 1 x62])) _ _ _ _ [LAppend (ex_ent 1 x61); LAppend (ex_ent 1 x62)] _ _ _ _ _ _);
      [vm_compute; reflexivity | reflexivity | does_all |].
    refine (F_crash _ _ _ _ EElection _ _ [] _ _ [] _ _ _ _ _); [vm_compute; reflexivity | constructor |].
    apply (start_from _ _ _ _ (-1) (mkAL 1 [ex_ent 1 x61; ex_ent 1 x62])); [sml | lia | unfold is_int32; lia | vm_compute; reflexivity |].
    intros s E. vm_compute in E. assert (Es := f_equal snd E). cbn [snd] in Es. subst s. clear E.
    refine (F_event _ _ _ _ (ERequest 0 (ex_ae 1 2 1 2 0 [ex_ent 1 x63])) _ _ _ _ [LAppend (ex_ent 1 x63)] _ _ _ _ _ _);
      [vm_compute; reflexivity | reflexivity | does_all |].
    apply F_nil. }
  split; [apply (unlimited_ops _ _ small_empty); hist|].
  split; [reflexivity|]. split; [vm_compute; reflexivity|]. split; reflexivity.
Qed.

(** a long entry of term 1, then the leader of term 2 with a short one *)
Definition long_req : req := ex_ae 1 2 0 0 0 [big].
Definition short_req : req := ex_ae 2 3 0 0 0 [tiny].
Example C98_restart_example : exists h n s,
  flife 1 ex_prm (FUp (start_node 1 ex_prm ex_disk) ex_s0) h [LAppend big] (FUp n s) /\
  ops_ok (cache_limit (-1)) 1 a_empty [LAppend big] /\
  rq_type short_req = append_entries_request /\ n_term n <= rq_term short_req /\ n_role n <> Leader /\
  in_reach n short_req /\ consistent n short_req /\ rq_entries short_req = [tiny] /\ entry_ok tiny /\
  a_next (n_log n) = rq_last_idx short_req + 1 + 1 /\ a_get (n_log n) (rq_last_idx short_req + 1) = Some big /\
  ev_term big <> ev_term tiny /\ (length (ev_data tiny) < length (ev_data big))%nat.
Proof.
  do 3 eexists. split.
  { refine (F_event _ _ _ _ (ERequest 0 long_req) _ _ _ _ [LAppend big] [] _ _ _ _ _);
      [vm_compute; reflexivity | reflexivity | does_all | apply F_nil]. }
  split; [apply (unlimited_ops _ _ small_empty); hist|].
  split; [reflexivity|]. split; [vm_compute; discriminate|]. split; [discriminate|].
  split; [split; [right; vm_compute; discriminate | left; reflexivity]|]. split; [left; reflexivity|].
  split; [reflexivity|]. split; [eok|]. split; [reflexivity|]. split; [reflexivity|]. split; [vm_compute; discriminate|]. cbn. lia.
Qed.

(** Such an entry reaches the state machine: the server commits at index 1 an
    entry that no request it ever got had. *)
Definition mixed : entry_val := ev 2 [x64; x62; x63].
Theorem C98_commit_refuted : exists h ops n s,
  flife 1 ex_prm (FUp (start_node 1 ex_prm ex_disk) ex_s0) h ops (FUp n s) /\
  In (1, mixed) (commits (acts_of h)) /\
  (forall now q l a, In (mkObs (ERequest now q) l a) h -> ~ In mixed (rq_entries q)) /\
  (exists now q l r, In (mkObs (ERequest now q) l (Some (Response r))) h /\ rs_accepted r = true /\ rq_entries q = [tiny] /\ rq_last_idx q = 0).
Proof.
  do 4 eexists. split.
  { refine (F_event _ _ _ _ (ERequest 0 long_req) _ _ _ _ [LAppend big] _ _ _ _ _ _);
      [vm_compute; reflexivity | reflexivity | does_all |].
    refine (F_event _ _ _ _ (ERequest 0 short_req) _ _ _ _ [LWriteAt 1 tiny] _ _ _ _ _ _);
      [vm_compute; reflexivity | reflexivity | does_all |].
    refine (F_crash _ _ _ _ EElection _ _ [] _ _ [] _ _ _ _ _); [vm_compute; reflexivity | constructor |].
    apply (start_from _ _ _ _ (-1) (mkAL 1 [mixed])); [sml | lia | unfold is_int32; lia | vm_compute; reflexivity |].
    intros s E. vm_compute in E. assert (Es := f_equal snd E). cbn [snd] in Es. subst s. clear E.
    refine (F_event _ _ _ _ (ERequest 0 (ex_ae 2 3 2 1 1 [])) _ _ _ _ [] _ _ _ _ _ _);
      [vm_compute; reflexivity | reflexivity | does_all |].
    refine (F_event _ _ _ _ ECommit _ _ _ _ [] _ _ _ _ _ _);
      [vm_compute; reflexivity | reflexivity | does_all |].
    apply F_nil. }
  split; [vm_compute; auto|]. split.
  { intros now q l a H. cbn [In] in H. repeat (destruct H as [H|H]; [|]); try contradiction;
      injection H; intros; subst; try discriminate; cbn; intuition discriminate. }
  eexists 0, short_req, _, _. split; [right; left; reflexivity|]. split; [reflexivity|]. split; reflexivity.
Qed.
Print Assumptions C98_commit_refuted.
