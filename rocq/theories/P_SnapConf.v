(** * P_SnapConf: the membership stored in a snapshot (C69) *)

From Verif Require Import Base Buffer Codec CodecSpec Msg FsLogStore FsLogSpec Alog Raft RaftQuiet RaftTrace RaftTrace2 RaftTrace3 RaftWalk WalkAll NodeSpec NodeLife ServerSpec NodeFacts AppendFacts NodeExamples Cluster ClusterElect ClusterExamples ClusterElectS ClusterWalkS ClusterRunS P_Commit P_Out Runs ServeFacts P_Serve P_Snap P_Compact.
Local Open Scope N_scope.

(** ** Specification

    A configuration knows the index of its entry and the index of the entry of its
    predecessor.  The one in force at index [k] is found by going back from the
    current one until the index is not above [k]. *)
Inductive in_force (lg : alog) (k : N) : cluster_config -> cluster_config -> Prop :=
| F_here : forall c, cc_log_idx c <= k -> in_force lg k c c
| F_back : forall c e c1 c2, k < cc_log_idx c -> a_get lg (cc_prev_log_idx c) = Some e -> parse_cfg (ev_data e) = Ok c1 ->
    in_force lg k c1 c2 -> in_force lg k c c2.
(** going back leads to an entry that has been compacted *)
Inductive compacted (lg : alog) (k : N) : cluster_config -> Prop :=
| C_here : forall c, k < cc_log_idx c -> 0 < cc_prev_log_idx c -> cc_prev_log_idx c < al_start lg -> compacted lg k c
| C_back : forall c e c1, k < cc_log_idx c -> a_get lg (cc_prev_log_idx c) = Some e -> parse_cfg (ev_data e) = Ok c1 ->
    compacted lg k c1 -> compacted lg k c.
(** the predecessors lie further and further back *)
Inductive goes_back (lg : alog) : cluster_config -> Prop :=
| G_back : forall c, (forall e c1, a_get lg (cc_prev_log_idx c) = Some e -> parse_cfg (ev_data e) = Ok c1 ->
    cc_prev_log_idx c1 < cc_prev_log_idx c /\ goes_back lg c1) -> goes_back lg c.

(** ** The search *)
Definition found (lg : alog) (k : N) (c c' : cluster_config) : Prop :=
  in_force lg k c c' \/ (k < cc_log_idx c' /\ cc_prev_log_idx c' < al_start lg /\ (cc_prev_log_idx c' = 0 \/ compacted lg k c)).
Lemma find_conf_found : forall f k c n r n' l, 1 <= al_start (n_log n) -> goes_back (n_log n) c -> cc_prev_log_idx c < N.of_nat f \/ (0 < f)%nat /\ a_next (n_log n) <= cc_prev_log_idx c ->
  find_conf f k c n = (r, n', l) -> n' = n /\ l = [] /\ r <> RExit /\ forall c', r = ROk c' -> found (n_log n) k c c'.
Proof.
  induction f as [|f IH]; intros k c n r n' l Hst G Hf E; [cbn in Hf; lia|].
  cbn [find_conf] in E. unfold start_index_ in E. rewrite bind_get in E.
  destruct (k <? cc_log_idx c) eqn:E1; cbn [andb] in E.
  2:{ cbn in E. inversion E; subst. repeat split; try discriminate. intros c' X. inversion X; subst. left. apply F_here. lia. }
  destruct (al_start (n_log n) <=? cc_prev_log_idx c) eqn:E2.
  2:{ cbn in E. inversion E; subst. repeat split; try discriminate. intros c' X. inversion X; subst. right. split; [lia|]. split; [lia|].
      destruct (N.eq_dec (cc_prev_log_idx c') 0) as [Z|Z]; [left; exact Z | right; apply C_here; lia]. }
  unfold log_entry_at in E. rewrite bind_assoc, bind_get in E. replace (cc_prev_log_idx c <? al_start (n_log n)) with false in E by lia. rewrite bind_ret in E.
  destruct (a_get (n_log n) (cc_prev_log_idx c)) as [e|] eqn:Ee.
  2:{ cbn in E. inversion E; subst. repeat split; discriminate. }
  cbn [deref] in E. rewrite bind_ret in E. destruct (parse_cfg (ev_data e)) as [c1|x|u] eqn:Ep.
  2,3: cbn in E; inversion E; subst; repeat split; discriminate.
  rewrite (bind_ok _ _ (lift (Ok c1)) _ n c1 n []) in E by reflexivity. rewrite after_nil in E.
  inversion G as [c0 Gc EE]; subst c0. destruct (Gc _ _ Ee Ep) as [G1 G2].
  assert (Hn := a_get_some _ _ _ Ee). assert (Hf' : cc_prev_log_idx c1 < N.of_nat f \/ (0 < f)%nat /\ a_next (n_log n) <= cc_prev_log_idx c1) by lia.
  destruct (IH k c1 n r n' l Hst G2 Hf' E) as (A1 & A2 & A3 & A4). split; [exact A1|]. split; [exact A2|]. split; [exact A3|]. intros c' X.
  destruct (A4 c' X) as [F|[F1 [F0 [F2|F2]]]]; [left; eapply F_back; try eassumption; lia | right; auto | right; split; [exact F1|]; split; [exact F0|]; right; eapply C_back; try eassumption; lia].
Qed.

Lemma not_created : forall (l : list act) s, Forall (creates (fun _ => False)) l -> In (ACreateSnapshot s) l -> False.
Proof. intros l s F H. rewrite Forall_forall in F. exact (F _ H). Qed.
Lemma snapshot_found : forall i n r n' l s, 1 <= al_start (n_log n) -> goes_back (n_log n) (n_config n) -> snapshot_and_compact i n = (r, n', l) -> In (ACreateSnapshot s) l ->
  n_log n' = n_log n /\ n_config n' = n_config n /\ n_snp n' = n_snp n /\ sn_last_log_idx s = i /\
  (in_force (n_log n) i (n_config n) (sn_config s) \/ exists ls, n_snp n = Some ls /\ sn_config s = sn_config ls /\ compacted (n_log n) i (n_config n)).
Proof.
  intros i n r n' l s Hst G E Hin. unfold snapshot_and_compact in E. rewrite bind_get in E. cbv zeta in E.
  destruct (_ || _); [cbn in E; inversion E; subst; destruct Hin|]. destruct (_ && negb (n_snp_busy n)); [|cbn in E; inversion E; subst; destruct Hin].
  unfold catch in E. rewrite bind_modify in E. set (m := set_snp_busy true n) in *.
  destruct (find_conf (N.to_nat (a_next (n_log n))) i (n_config n) m) as [[r1 m1] l1] eqn:Ef.
  assert (Hf : cc_prev_log_idx (n_config n) < N.of_nat (N.to_nat (a_next (n_log m))) \/ (0 < N.to_nat (a_next (n_log m)))%nat /\ a_next (n_log m) <= cc_prev_log_idx (n_config n)).
  { change (n_log m) with (n_log n). unfold a_next. lia. }
  destruct (find_conf_found _ _ _ m _ _ _ Hst G Hf Ef) as (-> & -> & Hx & Hfound). change (n_log m) with (n_log n) in *.
  destruct r1 as [c|x|u|]; [|unfold bind in E; rewrite Ef in E; cbn in E; inversion E; subst; destruct Hin..].
  specialize (Hfound c eq_refl). rewrite (bind_ok _ _ _ _ _ _ _ _ Ef), after_nil in E. unfold start_index_ in E. rewrite bind_get in E. change (n_log m) with (n_log n) in E.
  assert (Tail : forall c2 r2 n2 l2, (match (t <- log_term_at i ;; emit (ACreateSnapshot (mkSnp i t 0 c2))) m with
      | (RThrow _, n1, l1) => let '(r, n3, l3) := modify (set_snp_busy false) n1 in (r, n3, l1 ++ l3) | x => x end) = (r2, n2, l2) -> In (ACreateSnapshot s) l2 ->
      n_log n2 = n_log n /\ n_config n2 = n_config n /\ n_snp n2 = n_snp n /\ sn_last_log_idx s = i /\ sn_config s = c2).
  { clear. intros c2 r2 n2 l2 E Hin. unfold log_term_at in E. rewrite bind_assoc, bind_get in E. change (n_log m) with (n_log n) in E.
    destruct (i <? al_start (n_log n)); [cbn in E; inversion E; subst; destruct Hin|].
    destruct (a_get (n_log n) i) as [e|]; [|cbn in E; inversion E; subst; destruct Hin]. rewrite bind_ret in E. cbn in E. inversion E; subst.
    destruct Hin as [Hin|[]]. inversion Hin; subst. repeat split. }
  destruct Hfound as [F|[F1 [F0 F2]]].
  - assert (cc_log_idx c <= i) by (clear - F; induction F; assumption). replace (i <? cc_log_idx c) with false in E by lia. cbn [andb] in E. rewrite bind_ret in E.
    destruct (Tail c _ _ _ E Hin) as (T1 & T2 & T3 & T4 & T5). repeat (split; [assumption|]). left. rewrite T5. exact F.
  - replace (i <? cc_log_idx c) with true in E by lia. cbn [andb] in E.
    destruct ((0 <? cc_prev_log_idx c) && (cc_prev_log_idx c <? al_start (n_log n))) eqn:E3.
    + destruct F2 as [F2|F2]; [lia|]. destruct (n_snp n) as [ls|] eqn:Es.
      2:{ cbn in E. inversion E; subst. destruct Hin as [Hin|[]]. discriminate. }
      rewrite bind_ret in E. destruct (Tail (sn_config ls) _ _ _ E Hin) as (T1 & T2 & T3 & T4 & T5). repeat (split; [assumption|]). right. exists ls. auto.
    + destruct (cc_prev_log_idx c =? 0) eqn:E4.
      { cbn in E. inversion E; subst. destruct Hin as [Hin|[]]. discriminate. }
      lia.
Qed.

(** ** C69 *)

(** A snapshot asked for holds the configuration in force at its last entry, or, when that
    has been compacted, the one of the last snapshot.  Missing: the process can end instead
    ([C69_exit_refuted]); configurations whose predecessors do not lie further back. *)
Theorem C69_in_force_partial : forall n r n' l s, 1 <= al_start (n_log n) -> run_event ECommit n = (r, n', l) -> In (ACreateSnapshot s) l -> goes_back (n_log n') (n_config n') ->
  in_force (n_log n') (sn_last_log_idx s) (n_config n') (sn_config s) \/
  exists ls, n_snp n' = Some ls /\ sn_config s = sn_config ls /\ compacted (n_log n') (sn_last_log_idx s) (n_config n').
Proof.
  intros n r n' l s Hst H Hin G. cbn [run_event] in H. unfold bind in H. destruct (commit_step n) as [[r0 n0] l0] eqn:E.
  assert (X : n' = n0 /\ l = l0) by (destruct r0 as [[]| | |]; cbn in H; inversion H; subst; rewrite ?app_nil_r; auto).
  destruct X as (-> & ->). clear H.
  destruct (N.lt_decidable (n_smc n) (n_quick n)) as [D1|D1]; [|rewrite commit_step_idle in E by tauto; inversion E; subst; destruct Hin].
  destruct (N.lt_decidable (n_smc n + 1) (a_next (n_log n))) as [D2|D2]; [|rewrite commit_step_idle in E by tauto; inversion E; subst; destruct Hin].
  rewrite (commit_step_eq n D1 D2) in E. set (i := n_smc n + 1) in *. apply catch_exit in E. destruct E as (r1 & l1 & E & C).
  assert (Hin1 : In (ACreateSnapshot s) l1).
  { destruct C as [(_ & -> & _)|(_ & ->)]; [exact Hin|]. apply in_app_or in Hin. destruct Hin as [Hin|[Hin|[]]]; [exact Hin | discriminate]. }
  clear Hin C. set (m := set_smc i n) in *.
  unfold log_entry_at in E. rewrite bind_assoc, bind_get in E. destruct (i <? al_start (n_log m)); [cbn in E; inversion E; subst; destruct Hin1|].
  rewrite bind_ret in E. destruct (a_get (n_log m) i) as [e|]; [|cbn in E; inversion E; subst; destruct Hin1]. cbn [deref] in E. rewrite bind_ret in E.
  unfold apply_entry in E.
  match type of E with bind ?a _ _ = _ => assert (W : ht (acts (creates (fun _ => False))) yes a m /\ ht (asks i (n_log n)) yes a m) end.
  { assert (Wr : forall c x, ht (acts (creates (fun _ => False))) yes (reconfigure c) x) by (intros; unfold reconfigure; open_prims; wall ltac:(repeat constructor)).
    assert (Wr2 : forall c x, ht (asks i (n_log n)) yes (reconfigure c) x) by (intros; unfold reconfigure; open_prims; wall askt).
    split; open_prims; [repeat first [apply Wr | wstep ltac:(repeat constructor)] | repeat first [apply Wr2 | wstep askt]]. }
  destruct W as [W1 W2]. unfold bind in E.
  match type of E with match ?a with _ => _ end = _ => destruct a as [[r2 n2] l2] eqn:E2 end.
  destruct (W1 _ _ _ E2) as [K1 _]. destruct (W2 _ _ _ E2) as [K2 _]. specialize (K2 eq_refl). destruct K2 as (K2 & _).
  destruct r2 as [[]|x|u|]; [|inversion E; subst; destruct (not_created _ _ K1 Hin1)..].
  destruct (snapshot_and_compact i n2) as [[r3 n3] l3] eqn:E3. inversion E; subst. apply in_app_or in Hin1.
  destruct Hin1 as [Hin1|Hin1]; [destruct (not_created _ _ K1 Hin1)|].
  assert (Same : n_log n0 = n_log n2 /\ n_config n0 = n_config n2).
  { assert (W : ht (fun a _ b => n_log b = n_log a /\ n_config b = n_config a) yes (snapshot_and_compact i) n2).
    { assert (P : preorder (fun a (_ : list act) b => n_log b = n_log a /\ n_config b = n_config a)) by (split; [auto|]; intros a la b lb c [A1 A2] [B1 B2]; split; congruence).
      unfold snapshot_and_compact, start_index_. open_prims. repeat first [apply find_conf_rel; exact _ | wstep ltac:(split; reflexivity)]. }
    apply (W _ _ _ E3). }
  destruct Same as [S1 S2]. rewrite S1, S2 in *.
  destruct (snapshot_found i n2 _ _ _ s ltac:(rewrite K2; exact Hst) G E3 Hin1) as (T1 & T2 & T3 & T4 & T5). rewrite T4. destruct T5 as [T5|(ls & T5 & T6)]; [left; exact T5 | right].
  exists ls. split; [rewrite T3; exact T5 | exact T6].
Qed.

(** Applying an entry does not end the process, snapshot or not, unless the current
    configuration is newer than the entry. *)
Theorem C69_goes_on_partial : forall n e, n_smc n < n_quick n -> a_get (n_log n) (n_smc n + 1) = Some e -> ev_type e <> conf_log ->
  cc_log_idx (n_config n) <= n_smc n + 1 ->
  exists n' l, run_event ECommit n = (ROk Nothing, n', l) /\ n_smc n' = n_smc n + 1 /\ (ev_type e = app_log -> In (ACommit (n_smc n + 1) e) l) /\
    forall s, In (ACreateSnapshot s) l -> s = mkSnp (n_smc n + 1) (ev_term e) 0 (n_config n).
Proof.
  intros n e Hq He Ht Hc. assert (Hs := a_get_some _ _ _ He). assert (Hn : n_smc n + 1 < a_next (n_log n)) by lia.
  cbn [run_event]. unfold bind. rewrite (commit_step_eq n Hq Hn). set (i := n_smc n + 1) in *.
  assert (Sn : forall m, n_log m = n_log n -> n_config m = n_config n -> exists n2 l2, snapshot_and_compact i m = (ROk tt, n2, l2) /\ n_smc n2 = n_smc m /\
            forall s, In (ACreateSnapshot s) l2 -> s = mkSnp i (ev_term e) 0 (n_config n)).
  { intros m Hl Hm. unfold snapshot_and_compact. rewrite bind_get. cbv zeta.
    destruct (_ || _); [eexists _, _; split; [reflexivity|]; split; [reflexivity | intros s []]|].
    destruct (_ && negb (n_snp_busy m)); [|eexists _, _; split; [reflexivity|]; split; [reflexivity | intros s []]].
    unfold catch. rewrite bind_modify. set (m1 := set_snp_busy true m). rewrite Hm.
    rewrite (bind_ok _ _ _ _ _ _ _ _ (find_conf_now _ i (n_config n) m1 Hc)), after_nil. unfold start_index_. rewrite bind_get.
    replace (i <? cc_log_idx (n_config n)) with false by lia. cbn [andb]. rewrite bind_ret. unfold log_term_at. rewrite bind_assoc, bind_get.
    change (n_log m1) with (n_log m). rewrite Hl. replace (i <? al_start (n_log n)) with false by lia. rewrite He, bind_ret. cbn.
    eexists _, _. split; [reflexivity|]. split; [reflexivity|]. intros s [E|[]]. inversion E. reflexivity. }
  unfold catch, log_entry_at. rewrite bind_assoc, bind_get. change (n_log (set_smc i n)) with (n_log n). replace (i <? al_start (n_log n)) with false by lia.
  rewrite bind_ret, He. cbn [deref]. rewrite bind_ret. unfold apply_entry. destruct (beq (ev_type e) app_log) eqn:Ea.
  - rewrite bind_emit. set (m := set_disk _ _). destruct (Sn m eq_refl eq_refl) as (n2 & l2 & E2 & E3 & E4). rewrite E2. cbn [after].
    eexists _, _. cbn. split; [reflexivity|]. split; [rewrite E3; reflexivity|]. rewrite app_nil_r. split; [intros _; left; reflexivity|]. intros s [X|X]; [discriminate | apply E4, X].
  - replace (beq (ev_type e) conf_log) with false.
    2:{ symmetry. destruct (beq (ev_type e) conf_log) eqn:Ec; [|reflexivity]. apply Byte.byte_dec_bl in Ec. contradiction. }
    rewrite bind_ret. destruct (Sn (set_smc i n) eq_refl eq_refl) as (n2 & l2 & E2 & E3 & E4). rewrite E2.
    eexists _, _. cbn. split; [reflexivity|]. split; [rewrite E3; reflexivity|]. rewrite app_nil_r. split; [|exact E4].
    intros X. rewrite X in Ea. discriminate.
Qed.

(** In a cluster with fixed membership every snapshot that a server asks for, makes or
    installs holds the servers of the cluster. *)
Theorem C69_fixed_partial : forall servers prm w0 w, cluster_okay servers -> initial servers w0 -> reach servers prm w0 w ->
  forall i s, In i (ids servers) ->
  In (ACreateSnapshot s) (w_acts w i) \/ (exists data, In (ASnapshotMade s data) (w_acts w i)) \/ In (AApplySnapshot s) (w_acts w i) ->
  cc_servers (sn_config s) = servers.
Proof.
  intros servers prm w0 w HC HI HR i s Hi H. assert (O := u_o servers w (reach_winv_s servers prm HC w0 w HI HR) i Hi). rewrite Forall_forall in O.
  destruct H as [H|[(data & H)|H]]; apply (O _ H).
Qed.

(** server 1 leads term 1 and copies the configuration and two entries to server 2, which leads term 2
    before it has applied the first entry: its configuration gets index 4, without predecessor.
    When it applies entry 3 it is to make a snapshot, finds no configuration for it and
    ends its own process. *)
Definition early_cmds : list kcmd :=
  [KStart 1; KStart 2; KStart 3; KDo 1 EElection; KRpc 1 2 0; KDo 1 (EReplicate 0 [x61]); KDo 1 (EReplicate 0 [x62]); KRpc 1 2 0; KRpc 1 2 0;
   KDo 2 EElection; KRpc 2 3 0; KRpc 2 3 0; KRpc 2 3 0; KRpc 2 3 0; KDo 2 ECommit; KDo 2 ECommit]%Z.
Definition early : world := ex_run_with (snp_prm 2 0) early_cmds.
Lemma early_reach : reach ex_servers (fun _ => snp_prm 2 0) ex_world early.
Proof. apply ex_reach_with. Qed.
Opaque early.
Theorem C69_exit_refuted : exists servers prm w0 w i n e n',
  cluster_okay servers /\ initial servers w0 /\ reach servers prm w0 w /\ In i (ids servers) /\ w_sys w i = Up n /\
  n_smc n < n_quick n /\ a_get (n_log n) (n_smc n + 1) = Some e /\ ev_type e = app_log /\
  run_event ECommit n = (RExit, n', [ACommit (n_smc n + 1) e; AExit (-1)]).
Proof.
  exists ex_servers, (fun _ => snp_prm 2 0), ex_world, early, 2%Z, (node_of early 2), (mkEV 1 app_log [x62]). eexists.
  split; [exact ex_okay|]. split; [exact ex_initial|]. split; [exact early_reach|]. split; [right; left; reflexivity|].
  split; [apply node_of_up; vm_compute; reflexivity|]. split; [vm_compute; reflexivity|]. split; [vm_compute; reflexivity|]. split; [reflexivity|].
  vm_compute. reflexivity.
Qed.

(** ** Examples *)

(** the leader of [lag_cmds] is about to apply entry 3 and to make a snapshot *)
Definition asking : node := node_of (ex_run_with (snp_prm 2 0) (firstn 16 lag_cmds)) 1.
Example C69_example : exists r n' l s, 1 <= al_start (n_log asking) /\ run_event ECommit asking = (r, n', l) /\ In (ACreateSnapshot s) l /\ goes_back (n_log n') (n_config n') /\
  sn_last_log_idx s = 3 /\ cc_log_idx (sn_config s) = 1.
Proof.
  eexists _, _, _, (mkSnp 3 1 0 (mkCfg 1 0 (cc_servers ex_cfg))). split; [vm_compute; discriminate|]. split; [vm_compute; reflexivity|].
  split; [right; left; reflexivity|]. split; [|split; reflexivity]. constructor. intros e c1 H. vm_compute in H. discriminate.
Qed.
(** two configurations: the snapshot at 3 gets the older one *)
Definition cfg_a : cluster_config := mkCfg 1 0 (cc_servers ex_cfg).
Definition cfg_b : cluster_config := mkCfg 4 1 [ex_srv 1; ex_srv 2].
Definition two_cfgs : node :=
  set_config cfg_b (set_quick 4 (set_smc 2 (set_disk (mkDisk None cfg_a (mkAL 1 [conf_entry 1 cfg_a; ex_ent 1 x61; ex_ent 1 x62; conf_entry 1 cfg_b]) 0 None []) (start_node 1 (snp_prm 2 0) ex_disk)))).
Example C69_example_two : exists n' l s, run_event ECommit two_cfgs = (ROk Nothing, n', l) /\ In (ACreateSnapshot s) l /\
  goes_back (n_log n') (n_config n') /\ n_config n' = cfg_b /\ in_force (n_log n') 3 cfg_b (sn_config s) /\ sn_config s = cfg_a.
Proof.
  eexists _, _, (mkSnp 3 1 0 cfg_a). split; [vm_compute; reflexivity|]. split; [right; left; reflexivity|].
  assert (G : parse_cfg (cfg_bytes cfg_a) = Ok cfg_a) by (vm_compute; reflexivity).
  split; [|split; [reflexivity|]; split; [|reflexivity]].
  - constructor. intros e c1 H1 H2. vm_compute in H1. inversion H1; subst e. change (parse_cfg (cfg_bytes cfg_a) = Ok c1) in H2. rewrite G in H2. inversion H2; subst. split; [reflexivity|].
    constructor. intros e c1 H3. vm_compute in H3. discriminate.
  - eapply F_back; [reflexivity | vm_compute; reflexivity | exact G | apply F_here; vm_compute; discriminate].
Qed.
Example C69_fixed_example : In 1%Z (ids ex_servers) /\ In (ACreateSnapshot (mkSnp 3 1 0 cfg_a)) (w_acts (lag 0) 1%Z) /\
  reach ex_servers (fun _ => snp_prm 2 0) ex_world (lag 0).
Proof.
  split; [left; reflexivity|]. split; [|apply ex_reach_with]. assert (G : asked_snp (w_acts (lag 0) 1%Z) = Some (mkSnp 3 1 0 cfg_a)) by (vm_compute; reflexivity).
  eapply asked_snp_in; eassumption.
Qed.
Example C69_goes_on_example : n_smc asking < n_quick asking /\ a_get (n_log asking) (n_smc asking + 1) = Some (mkEV 1 app_log [x62]) /\ cc_log_idx (n_config asking) <= n_smc asking + 1.
Proof. split; [vm_compute; reflexivity|]. split; [vm_compute; reflexivity | vm_compute; discriminate]. Qed.

Print Assumptions C69_in_force_partial.
Print Assumptions C69_goes_on_partial.
Print Assumptions C69_fixed_partial.
Print Assumptions C69_exit_refuted.
