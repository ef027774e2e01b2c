(** * P_Config: configuration changes (C44, C46, C59) and removed peers (C55) *)

From Verif Require Import Base Buffer BufferSpec BufferProofs BufferTop Codec CodecSpec CodecProofs Msg FsLogStore FsLogSpec Alog Raft RaftQuiet RaftWalk NodeSpec ServerSpec NodeFacts NodeExamples PeerInv P_Leader P_Peer P_Out P_Api WalkAll.
Local Open Scope N_scope.

(** ** C46: after a committed change the peers are the other members *)
Definition peer_set (n : node) : list Z := map p_id (n_peers n).
Definition members (c : cluster_config) : list Z := map sc_id (cc_servers c).

Lemma ids_upd : forall id f l, (forall p, p_id (f p) = p_id p) -> map p_id (upd_peers id f l) = map p_id l.
Proof. intros id f l H. unfold upd_peers. induction l as [|p l IH]; cbn [map]; [reflexivity|]. rewrite IH. f_equal. destruct (_ =? _)%Z; auto. Qed.
Lemma find_peer_none : forall id l, find_peer id l = None <-> ~ In id (map p_id l).
Proof.
  intros id l. unfold find_peer. induction l as [|p l IH]; cbn [find map In]; [tauto|]. destruct (p_id p =? id)%Z eqn:E.
  - apply Z.eqb_eq in E. split; [discriminate | intros H; destruct H; left; exact E].
  - apply Z.eqb_neq in E. rewrite IH. tauto.
Qed.
Lemma cfg_server_in : forall c id, cfg_server c id <> None <-> In id (members c).
Proof.
  intros c id. unfold cfg_server, members. induction (cc_servers c) as [|s l IH]; cbn [find map In]; [tauto|]. destruct (sc_id s =? id)%Z eqn:E.
  - apply Z.eqb_eq in E. split; [intros _; left; exact E | discriminate].
  - apply Z.eqb_neq in E. rewrite IH. tauto.
Qed.

Definition kid : rel := keeps (fun n => (n_id n, peer_set n)).
#[export] Instance kid_pre : preorder kid := keeps_pre _ _.
Ltac tkid := unfold kid, keeps, peer_set, upd_peer; repeat match goal with |- context [match ?x with _ => _ end] => destruct x end; cbn [n_id n_peers set_peers set_join set_uid set_disk];
  rewrite ?ids_upd by reflexivity; reflexivity.

Lemma reconf_peers : forall c n n' l, reconfigure c n = (ROk tt, n', l) -> In (n_id n) (members c) -> ~ In (n_id n) (peer_set n) ->
  n_config n' = c /\ forall i, In i (peer_set n') <-> i <> n_id n /\ In i (members c).
Proof.
  intros c n n' l E Hm Hs.
  set (added := filter (fun s => match find_peer (sc_id s) (n_peers n) with None => negb (n_id n =? sc_id s)%Z | Some _ => false end) (cc_servers c)).
  set (removed := map p_id (filter (fun p => match cfg_server c (p_id p) with None => true | Some _ => false end) (n_peers n))).
  assert (Hadd : forall i, In i (map sc_id added) <-> In i (members c) /\ i <> n_id n /\ ~ In i (peer_set n)).
  { intros i. unfold added, members. rewrite in_map_iff. setoid_rewrite filter_In. rewrite in_map_iff. split.
    - intros (s & <- & Hin & Hf). destruct (find_peer (sc_id s) (n_peers n)) eqn:Ef; [discriminate|]. apply find_peer_none in Ef.
      split; [exists s; split; [reflexivity | exact Hin]|]. split; [|exact Ef]. apply negb_true_iff, Z.eqb_neq in Hf. congruence.
    - intros ((s & <- & Hin) & Hn & Hp). exists s. split; [reflexivity|]. split; [exact Hin|]. apply find_peer_none in Hp. rewrite Hp.
      apply negb_true_iff, Z.eqb_neq. congruence. }
  assert (Hrem : forall i, In i removed <-> In i (peer_set n) /\ ~ In i (members c)).
  { intros i. unfold removed, peer_set. rewrite !in_map_iff. setoid_rewrite filter_In. split.
    - intros (p & <- & Hin & Hf). split; [exists p; split; [reflexivity | exact Hin]|]. rewrite <- cfg_server_in. destruct (cfg_server c (p_id p)); [discriminate | congruence].
    - intros ((p & <- & Hin) & Hf). exists p. split; [reflexivity|]. split; [exact Hin|]. rewrite <- cfg_server_in in Hf. destruct (cfg_server c (p_id p)); [|reflexivity]. destruct Hf. discriminate. }
  assert (K : ht any (fun _ n' => n_config n' = c /\ forall i, In i (peer_set n') <-> (In i (peer_set n) \/ In i (map sc_id added)) /\ ~ In i removed) (reconfigure c) n).
  { unfold reconfigure. apply ht_bget. cbv zeta. fold added. fold removed.
    assert (Es : cfg_server c (n_id n) <> None) by (apply cfg_server_in; exact Hm). destruct (cfg_server c (n_id n)); [|destruct (Es eq_refl)]. rewrite app_nil_r.
    eapply ht_bind with (Q1 := fun _ n1 => n_id n1 = n_id n /\ forall i, In i (peer_set n1) <-> In i (peer_set n) \/ In i (map sc_id added)); [exact _ | |].
    - clear. generalize added as ss. intros ss.
      assert (G : forall m, (n_id m = n_id n) -> ht any (fun _ n1 => n_id n1 = n_id n /\ forall i, In i (peer_set n1) <-> In i (peer_set m) \/ In i (map sc_id ss))
        (for_each ss (fun s => bind (make_peer s) (fun p => bind next_slot_ (fun nx => bind (modify (fun n => match find_peer (sc_id s) (n_peers n) with
                     | None => set_peers (n_peers n ++ [p_set_next nx p]) n | Some _ => n end)) (fun _ => bind (get n_role) (fun r =>
          match r with Leader => bind (enable_hb_for_peer (sc_id s)) (fun _ => bind (get n_join) (fun j => match j with
            Some jp => when (p_id jp =? sc_id s)%Z (bind (modify (upd_peer (PPeer (sc_id s)) (p_set_next (p_next jp)))) (fun _ => modify (set_join None))) | None => ret tt end)) | _ => ret tt end)))))) m).
      { induction ss as [|s ss IH]; intros m Hid; cbn [for_each].
        - apply ht_ret; [exact _|]. split; [exact Hid|]. intros i. cbn [map In]. tauto.
        - eapply ht_bind with (Q1 := fun _ n1 => n_id n1 = n_id n /\ forall i, In i (peer_set n1) <-> In i (peer_set m) \/ i = sc_id s); [exact _ | |].
          + unfold make_peer, next_slot_. apply ht_assoc, ht_bget. apply ht_assoc, ht_bmodify; [exact _ | exact I|]. apply ht_bret, ht_bget.
            set (m1 := set_uid _ m). set (p := p_set_next _ _).
            apply ht_bmodify; [exact _ | exact I|]. set (m2 := match find_peer (sc_id s) (n_peers m1) with None => _ | Some _ => _ end).
            assert (M2 : n_id m2 = n_id n /\ forall i, In i (peer_set m2) <-> In i (peer_set m) \/ i = sc_id s).
            { unfold m2. destruct (find_peer (sc_id s) (n_peers m1)) eqn:Ef.
              - split; [exact Hid|]. intros i. apply find_peer_in in Ef. destruct Ef as [Ef1 Ef2]. change (peer_set m1) with (peer_set m). split; [tauto|]. intros [H| ->]; [exact H|].
                unfold peer_set. rewrite <- Ef2. apply in_map. exact Ef1.
              - split; [exact Hid|]. intros i. unfold peer_set. cbn [n_peers set_peers]. rewrite map_app, in_app_iff. change (n_peers m1) with (n_peers m). cbn [map In]. change (p_id p) with (sc_id s). intuition congruence. }
            clearbody m2. destruct M2 as [M2a M2b].
            assert (KK : ht kid yes (bind (get n_role) (fun r =>
              match r with Leader => bind (enable_hb_for_peer (sc_id s)) (fun _ => bind (get n_join) (fun j => match j with
                Some jp => when (p_id jp =? sc_id s)%Z (bind (modify (upd_peer (PPeer (sc_id s)) (p_set_next (p_next jp)))) (fun _ => modify (set_join None))) | None => ret tt end)) | _ => ret tt end)) m2).
            { unfold enable_hb_for_peer. wall ltac:(tkid). }
            intros r n1 l1 E1. split; [exact I|]. intros a _. destruct (KK _ _ _ E1) as [KK1 _]. unfold kid, keeps in KK1. injection KK1 as K1 K2. rewrite K1, K2. split; assumption.
          + intros u n1 l1 _ _ [Q1 Q2]. specialize (IH n1 Q1). intros r n2 l2 E2. destruct (IH _ _ _ E2) as [_ IH2]. split; [exact I|]. intros a Ea. destruct (IH2 _ Ea) as [I1 I2].
            split; [exact I1|]. intros i. rewrite I2, Q2. cbn [map In]. intuition congruence. }
      apply G. reflexivity.
    - intros u n1 l1 _ _ [Q1 Q2].
      eapply ht_bind with (Q1 := fun _ n2 => forall i, In i (peer_set n2) <-> In i (peer_set n1) /\ ~ In i removed); [exact _ | |].
      + assert (Hr : ~ In (n_id n) removed) by (rewrite Hrem; tauto). revert Hr. clear. generalize removed as rs. intros rs Hr.
        revert n1. induction rs as [|x rs IH]; intros m; cbn [for_each].
        * apply ht_ret; [exact _|]. intros i. cbn [In]. tauto.
        * cbn [In] in Hr. assert (Ex : (x =? n_id n)%Z = false) by (apply Z.eqb_neq; intuition congruence).
          apply ht_assoc, ht_bget. rewrite Ex. cbn [andb]. apply ht_bmodify; [exact _ | exact I|].
          intros r n2 l2 E2. destruct (IH ltac:(tauto) _ _ _ _ E2) as [_ I2]. split; [exact I|]. intros a Ea i. rewrite (I2 _ Ea). unfold peer_set. cbn [n_peers set_peers]. unfold rm_peer.
          rewrite !in_map_iff. setoid_rewrite filter_In. cbn [In]. split.
          { intros ((p & <- & Hin & Hf) & Hn). apply negb_true_iff, Z.eqb_neq in Hf. split; [exists p; split; [reflexivity | exact Hin] | intros [H|H]; congruence]. }
          { intros ((p & <- & Hin) & Hn). split; [|tauto]. exists p. split; [reflexivity|]. split; [exact Hin|]. apply negb_true_iff, Z.eqb_neq. intuition congruence. }
      + intros u2 n2 l2 _ _ Q3. apply ht_modify; [exact I|]. split; [reflexivity|]. intros i. change (peer_set (set_config c n2)) with (peer_set n2). rewrite Q3, Q2. tauto. }
  destruct (K _ _ _ E) as [_ K1]. destruct (K1 _ eq_refl) as [K2 K3]. split; [exact K2|]. intros i. rewrite K3, Hadd, Hrem.
  destruct (in_dec Z.eq_dec i (peer_set n)); destruct (in_dec Z.eq_dec i (members c)); intuition congruence.
Qed.

(** C46.  When the committing thread applies a configuration entry newer than the
    configuration in use that still contains this server, the peers afterwards are
    exactly the other members, and the configuration in use is the new one. *)
Theorem C46_peers_partial : forall id pm d h n r n' l en c,
  life id pm (Down d) h (Up n) -> run_event ECommit n = (r, n', l) -> goes_on r = true ->
  n_smc n < n_quick n -> a_get (n_log n) (n_smc n + 1) = Some en -> ev_type en = conf_log -> parse_cfg (ev_data en) = Ok c ->
  In (n_id n) (members c) -> cc_log_idx (n_config n) < cc_log_idx c ->
  n_config n' = c /\ NoDup (peer_set n') /\ forall i, In i (peer_set n') <-> i <> n_id n /\ In i (members c).
Proof.
  intros id pm d h n r n' l en c HL E Go Hq Hg Ht Hp Hm Hc.
  pose proof (life_pinv _ _ _ _ _ HL I) as PI. destruct (run_event_kinv ECommit n _ _ _ E) as [[_ PI'] _]. specialize (PI' PI).
  destruct PI as (_ & _ & _ & Hs). destruct PI' as (_ & _ & Nd & _).
  assert (K : ht any (fun _ n' => n_config n' = c /\ forall i, In i (peer_set n') <-> i <> n_id n /\ In i (members c)) (run_event ECommit) n).
  { cbn [run_event]. eapply ht_bind; [exact _ | | intros u n1 l1 _ _ Q; apply ht_ret; [exact _ | exact Q]].
    unfold commit_step. apply ht_bget.
    assert (Eb : (n_smc n <? n_quick n) && (n_smc n <? a_next (n_log n) - 1) = true).
    { apply andb_true_intro. split; apply N.ltb_lt; [exact Hq|]. pose proof (a_get_some _ _ _ Hg). unfold a_next in *. lia. }
    rewrite Eb. apply ht_catch; [exact _ | | intros; apply ht_exit; exact I]. apply ht_bmodify; [exact _ | exact I|].
    unfold log_entry_at. apply ht_assoc, ht_bget. change (n_log (set_smc (n_smc n + 1) n)) with (n_log n).
    destruct (n_smc n + 1 <? al_start (n_log n)); [apply ht_bthrow; exact _|]. apply ht_bret. rewrite Hg. cbn [deref]. apply ht_bret.
    eapply ht_bind with (Q1 := fun _ n' => n_config n' = c /\ forall i, In i (peer_set n') <-> i <> n_id n /\ In i (members c)); [exact _ | |].
    - rewrite Ht. change (beq conf_log app_log) with false. change (beq conf_log conf_log) with true. cbv iota.
      rewrite Hp. apply ht_blift; [exact _|]. intros c0 E0. injection E0 as <-. apply ht_bemit; [exact _ | exact I|]. apply ht_bmodify; [exact _ | exact I|]. apply ht_bget.
      set (n1 := set_changing false _). assert (E1 : (cc_log_idx (n_config n1) <? cc_log_idx c) = true) by (apply N.ltb_lt; exact Hc). rewrite E1. cbn [when].
      eapply ht_bind with (Q1 := fun _ n' => n_config n' = c /\ forall i, In i (peer_set n') <-> i <> n_id n /\ In i (members c)); [exact _ | |].
      + intros r2 n2 l2 E2. split; [exact I|]. intros [] ->. apply (reconf_peers c n1 n2 l2 E2 Hm Hs).
      + intros u n2 l2 _ _ Q. apply ht_bget, ht_bget. match goal with |- ht _ _ (when ?b _) _ => destruct b end; cbn [when]; [apply ht_modify; [exact I | exact Q] | apply ht_ret; [exact _ | exact Q]].
    - intros u n2 l2 _ _ Q.
      assert (KS : forall k m, ht (keeps (fun n => (n_config n, peer_set n))) yes (snapshot_and_compact k) m) by (intros; unfold snapshot_and_compact; open_prims; wall ltac:(kp)).
      intros r3 n3 l3 E3. split; [exact I|]. intros _ _. destruct (KS _ _ _ _ _ E3) as [KK _]. unfold keeps in KK. injection KK as K1 K2. rewrite K1, K2. exact Q. }
  destruct r as [a|ex| |]; try discriminate.
  - destruct (K _ _ _ E) as [_ K1]. destruct (K1 _ eq_refl) as [K2 K3]. split; [exact K2|]. split; [exact Nd | exact K3].
  - exfalso. clear - E. cbn [run_event] in E. unfold bind in E. destruct (commit_step n) as [[x n1] l1] eqn:E1.
    assert (x = RThrow ex) by (destruct x; try discriminate; inversion E; reflexivity). subst x. unfold commit_step in E1. rewrite bind_get in E1.
    destruct (_ && _); [|discriminate]. unfold catch in E1. match type of E1 with match ?m with _ => _ end = _ => destruct m as [[x n2] l2] end. destruct x; discriminate.
Qed.

(** The full statement fails: after losing a leadership in which it had written the first
    configuration entry at a high index, the server ignores the configurations with
    lower indices that the next leader commits, and keeps a removed server as peer. *)
Definition ex_cfg5 (i p : N) (k : nat) : cluster_config := mkCfg i p (firstn k (map ex_srv [1; 2; 3; 4; 5]%Z)).
Definition ex_disk5 : disk := mkDisk None (ex_cfg5 0 0 5) a_empty 0 None [].
Definition ex_conf_evs : list event :=
  [ERequest 0 (ex_ae 1 2 0 0 0 [conf_entry 1 (ex_cfg5 1 0 5); ex_ent 1 x61; ex_ent 1 x62]);
   EElection; ERpc 9 1 false (ex_vote 2 1 1 3) (Some (ex_vresp 2 3)); ERpc 9 2 false (ex_vote 2 1 1 3) (Some (ex_vresp 2 4));
   ERequest 10 (ex_ae 3 3 0 0 2 [conf_entry 3 (ex_cfg5 1 0 5); conf_entry 3 (ex_cfg5 2 1 4)]); ECommit].
Lemma runs_life : forall id pm n h n', runs n h n' -> life id pm (Up n) h (Up n').
Proof. induction 1 as [n|n e r n1 l h n2 E G R IH]; [constructor|]. eapply L_event; eassumption. Qed.
Theorem C46_peers_refuted : exists id pm d h n r n' l en c i,
  disk_okay d /\ life id pm (Down d) h (Up n) /\ run_event ECommit n = (r, n', l) /\ goes_on r = true /\
  n_smc n < n_quick n /\ a_get (n_log n) (n_smc n + 1) = Some en /\ ev_type en = conf_log /\ parse_cfg (ev_data en) = Ok c /\
  cc_log_idx c = n_smc n + 1 /\ In (n_id n) (members c) /\ In i (peer_set n') /\ ~ In i (members c).
Proof.
  set (x := run_evs (start_node 1 ex_prm ex_disk5) ex_conf_evs). set (y := run_event ECommit (snd x)).
  exists 1%Z, ex_prm, ex_disk5, (fst x), (snd x), (ROk Nothing), (snd (fst y)), (snd y), (conf_entry 3 (ex_cfg5 2 1 4)), (ex_cfg5 2 1 4), 5%Z.
  split; [unfold disk_okay; vm_compute; discriminate|]. split; [apply L_start, runs_life, run_evs_runs|].
  split; [apply pair3; vm_compute; reflexivity|]. split; [reflexivity|]. split; [vm_compute; reflexivity|]. split; [vm_compute; reflexivity|].
  split; [reflexivity|]. split; [vm_compute; reflexivity|]. split; [vm_compute; reflexivity|]. split; [vm_compute; auto|]. split; [vm_compute; auto 10|].
  vm_compute. intuition discriminate.
Qed.
(** the partial theorem at work: server 3 is removed from a cluster of three *)
Definition ex_cfg2 : cluster_config := mkCfg 2 1 [ex_srv 1; ex_srv 2; ex_srv 4].
Example C46_example :
  let x := run_evs (start_node 1 ex_prm ex_disk) [ERequest 0 (ex_ae 1 2 0 0 2 [conf_entry 1 (cfg_set_log_idx 1 ex_cfg); conf_entry 1 ex_cfg2]); ECommit] in
  let y := run_event ECommit (snd x) in
  n_smc (snd x) < n_quick (snd x) /\ a_get (n_log (snd x)) (n_smc (snd x) + 1) = Some (conf_entry 1 ex_cfg2) /\ parse_cfg (cfg_bytes ex_cfg2) = Ok ex_cfg2 /\
  cc_log_idx (n_config (snd x)) < cc_log_idx ex_cfg2 /\ fst (fst y) = ROk Nothing /\ peer_set (snd x) = [2; 3]%Z /\ peer_set (snd (fst y)) = [2; 4]%Z.
Proof. vm_compute. repeat split. Qed.

(** ** C55: answers from servers that have been removed *)

(** The statement fails: the callback of an outstanding request uses the peer object
    after it has been destroyed. Server 3 has not answered the last append-entries
    request when its removal commits. *)
Definition ex_cfg_12 : cluster_config := mkCfg 4 1 [ex_srv 1; ex_srv 2].
Definition ex_rm3 : req := mkReq 0 remove_server_request 0 0 0 0 0 [mkEV 0 cluster_server (int_b 3)].
Definition ex_leave3 : req := mkReq 1 leave_cluster_request 1 3 0 3 3 [].
Definition ex_rm3_cmds : list cmd := ex_busy_cmds ++
  [CEvent (ERequest 1000 ex_rm3); CEvent (EHeartbeat 3);
   CEvent (ERpc 1001 1 true ex_leave3 (Some (mkResp 1 leave_cluster_response 3 1 4 true)));
   CEvent (ERpc 1002 0 false (ex_ae 1 1 0 0 0 []) (Some (ex_aer 1 2 5))); CEvent ECommit].
Definition ex_rm3_run : list obs * sys := run_cmds 1 ex_prm (Down ex_disk) ex_rm3_cmds.
Theorem C55_removed_refuted : exists id pm d h n uid q,
  disk_okay d /\ life id pm (Down d) h (Up n) /\
  (* an append-entries request was sent to the peer object and never answered *)
  In (ASend uid false q) (acts_of h) /\ rq_type q = append_entries_request /\
  (forall o now q' r, In o h -> o_event o <> ERpc now uid false q' r) /\
  (* the server it was sent to is not a member any more *)
  ~ In (rq_dst q) (peer_set n) /\ ~ In (rq_dst q) (members (n_config n)) /\
  (* whatever arrives now, an answer or an error *)
  forall now r, run_event (ERpc now uid false q r) n = (RUB UseAfterFree, n, []).
Proof.
  exists 1%Z, ex_prm, ex_disk, (fst ex_rm3_run), (up_node (snd ex_rm3_run)), 1, (mkReq 1 append_entries_request 1 3 0 0 0 [conf_entry 1 (cfg_set_log_idx 1 ex_cfg)]).
  split; [unfold disk_okay; vm_compute; discriminate|].
  split. { replace (Up (up_node (snd ex_rm3_run))) with (snd ex_rm3_run) by (vm_compute; reflexivity). apply run_cmds_life. }
  split; [vm_compute; tauto|]. split; [reflexivity|].
  split. { intros o now q' r Hin E. assert (F : forallb (fun o => match o_event o with ERpc _ 1 false _ _ => false | _ => true end) (fst ex_rm3_run) = true) by (vm_compute; reflexivity).
    rewrite forallb_forall in F. specialize (F o Hin). rewrite E in F. discriminate. }
  split; [vm_compute; intuition discriminate|]. split; [vm_compute; intuition discriminate|].
  intros now r. assert (L : live_ref 1 (up_node (snd ex_rm3_run)) = None) by (vm_compute; reflexivity).
  cbn [run_event]. unfold rpc_done. rewrite bind_assoc, bind_get, L. reflexivity.
Qed.

(** What does hold: as long as the object exists, an answer that names a server which is
    not a peer is ignored apart from the state of the connection, and so is any error. *)
Definition hidden (p : peer) : N * srv_config * N * N * bool * bool * bool * N * option (snapshot * N) :=
  (p_uid p, p_cfg p, p_next p, p_match p, p_pending p, p_hb_on p, p_hb_sched p, p_last_resp p, p_sync p).
Theorem C55_not_a_peer_partial : forall now uid q r n ref,
  live_ref uid n = Some ref ->
  (forall rs, r = Some rs -> ~ In (rs_src rs) (peer_set n)) ->
  exists ps j, run_event (ERpc now uid false q r) n = (ROk Nothing, set_peers ps (set_join j n), []) /\
    map hidden ps = map hidden (n_peers n) /\ option_map hidden j = option_map hidden (n_join n).
Proof.
  intros now uid q r n ref L Hr.
  assert (U : forall f m, (forall p, hidden (f p) = hidden p) -> exists ps j, upd_peer ref f m = set_peers ps (set_join j m) /\
    map hidden ps = map hidden (n_peers m) /\ option_map hidden j = option_map hidden (n_join m)).
  { intros f m Hf. unfold upd_peer. destruct ref as [id|].
    - exists (upd_peers id f (n_peers m)), (n_join m). split; [destruct m; reflexivity|]. split; [|reflexivity]. unfold upd_peers. rewrite map_map. apply map_ext. intros p. destruct (_ =? _)%Z; auto.
    - exists (n_peers m), (option_map f (n_join m)). split; [destruct m; reflexivity|]. split; [reflexivity|]. destruct (n_join m); cbn; [rewrite Hf|]; reflexivity. }
  assert (IDS : forall f m, (forall p, hidden (f p) = hidden p) -> peer_set (upd_peer ref f m) = peer_set m).
  { intros f m Hf. unfold peer_set, upd_peer. destruct ref; [|reflexivity]. cbn [n_peers set_peers]. apply ids_upd. intros p. specialize (Hf p). unfold hidden in Hf. unfold p_id. congruence. }
  assert (Fin : forall g m f1 f2, (forall p, hidden (f1 p) = hidden p) -> (forall p, hidden (f2 p) = hidden p) -> (m = n \/ m = upd_peer ref f1 n) -> g = upd_peer ref f2 m ->
     exists ps j, g = set_peers ps (set_join j n) /\ map hidden ps = map hidden (n_peers n) /\ option_map hidden j = option_map hidden (n_join n)).
  { intros g m f1 f2 H1 H2 Hm ->. destruct (U f2 m H2) as (ps & j & -> & A & B). destruct Hm as [->| ->]; [exists ps, j; auto|].
    destruct (U f1 n H1) as (ps1 & j1 & E1 & A1 & B1). rewrite E1 in *. exists ps, j. split; [destruct n; reflexivity|]. split; [rewrite A; exact A1 | rewrite B; exact B1]. }
  cbn [run_event]. unfold rpc_done. rewrite bind_assoc, bind_get, L. 
  set (b := beq _ _ || beq _ _). set (m := if b then upd_peer ref (p_set_busy false) n else n).
  assert (Em : forall B (k : unit -> M B), bind (when b (modify (upd_peer ref (p_set_busy false)))) k n = k tt m)
    by (intros B k; unfold m; destruct b; cbn [when]; [apply bind_modify | apply bind_ret]).
  rewrite bind_assoc, Em.
  assert (Hm : m = n \/ m = upd_peer ref (p_set_busy false) n) by (unfold m; destruct b; auto).
  destruct r as [rs|].
  - rewrite bind_assoc, bind_modify. unfold handle_peer_resp. rewrite bind_assoc, bind_get.
    assert (Ef : find_peer (rs_src rs) (n_peers (upd_peer ref (p_resume (n_prm n)) m)) = None).
    { apply find_peer_none. change (~ In (rs_src rs) (peer_set (upd_peer ref (p_resume (n_prm n)) m))). rewrite IDS by reflexivity. destruct Hm as [->| ->]; [|rewrite IDS by reflexivity]; apply Hr; reflexivity. }
    rewrite Ef, bind_ret. destruct (Fin _ m (p_set_busy false) (p_resume (n_prm n)) ltac:(reflexivity) ltac:(reflexivity) Hm eq_refl) as (ps & j & -> & A & B).
    exists ps, j. split; [reflexivity | split; assumption].
  - rewrite bind_assoc, bind_modify. cbn [when]. rewrite bind_ret.
    destruct (Fin _ m (p_set_busy false) (p_slow_down (n_prm n)) ltac:(reflexivity) ltac:(reflexivity) Hm eq_refl) as (ps & j & -> & A & B).
    exists ps, j. split; [reflexivity | split; assumption].
Qed.
Example C55_example : live_ref 0 ex_l = Some (PPeer 2) /\ ~ In 7%Z (peer_set ex_l).
Proof. split; [vm_compute; reflexivity | vm_compute; intuition discriminate]. Qed.

(** ** C44: one configuration change at a time *)

(** Refuted: two servers are asked to leave one after the other; both accept; the leader
    appends the second configuration while the first is not committed. *)
Definition ex_two_cmds : list cmd := ex_busy_cmds ++
  [CEvent (ERequest 1000 ex_rm); CEvent (ERequest 1000 ex_rm3);
   CEvent (ERpc 1001 0 true ex_leave (Some (mkResp 1 leave_cluster_response 2 1 4 true)))].
Definition ex_two_run : list obs * sys := run_cmds 1 ex_prm (Down ex_disk) ex_two_cmds.
Definition conf_pending (n : node) (i : N) : Prop :=
  exists e, n_quick n < i /\ a_get (n_log n) i = Some e /\ ev_type e = conf_log.
Theorem C44_two_changes_refuted : exists id pm d h n e r n' l i en,
  disk_okay d /\ life id pm (Down d) h (Up n) /\ n_role n = Leader /\ conf_pending n i /\
  run_event e n = (ROk r, n', l) /\ n_role n' = Leader /\ In (AAppend en) l /\ ev_type en = conf_log.
Proof.
  set (n := up_node (snd ex_two_run)). set (e := ERpc 1002 1 true ex_leave3 (Some (mkResp 1 leave_cluster_response 3 1 4 true))). set (x := run_event e n).
  exists 1%Z, ex_prm, ex_disk, (fst ex_two_run), n, e, Nothing, (snd (fst x)), (snd x), 4, (conf_entry 1 (mkCfg 5 1 [ex_srv 1; ex_srv 2])).
  split; [unfold disk_okay; vm_compute; discriminate|].
  split. { replace (Up n) with (snd ex_two_run) by (vm_compute; reflexivity). apply run_cmds_life. }
  split; [vm_compute; reflexivity|]. split. { exists (conf_entry 1 (mkCfg 4 1 [ex_srv 1; ex_srv 3])). split; [vm_compute; reflexivity|]. split; vm_compute; reflexivity. }
  split; [apply pair3; vm_compute; reflexivity|]. split; [vm_compute; reflexivity|]. split; [vm_compute; auto | reflexivity].
Qed.

(** Proved: while a change is in progress a leader refuses to start another one, and
    nothing except the confirmation of an invitation or leave request sent before
    makes it append a configuration entry of its own. *)
Definition conf_act (a : act) : Prop :=
  match a with
  | AAppend e => ev_type e = conf_log
  | ASend _ _ q => rq_type q = join_cluster_request \/ rq_type q = leave_cluster_request
  | _ => False end.
Definition r44 : rel := fun n l n' =>
  n_config n' = n_config n /\ (cc_log_idx (n_config n) <> 0 -> Forall (fun a => ~ conf_act a) l) /\ (n_changing n = true -> n_changing n' = true).
#[export] Instance r44_pre : preorder r44.
Proof.
  split; unfold r44; [intros; split; [reflexivity | split; [constructor | auto]]|].
  intros n l n1 l1 n2 (A1 & B1 & C1) (A2 & B2 & C2). split; [congruence|]. split; [|auto]. intros H. apply Forall_app. split; [auto | apply B2; congruence].
Qed.
Ltac t44 := unfold r44, upd_peer; split; [repeat match goal with |- context [match ?x with _ => _ end] => destruct x end; reflexivity|];
  split; [intros; first [apply Forall_nil | apply Forall_cons; [cbn; first [tauto | discriminate | intros [X|X]; discriminate | assumption | congruence] | apply Forall_nil]]
         | repeat match goal with |- context [match ?x with _ => _ end] => destruct x end; cbn; auto].
Definition bulkt (q : req) : Prop := rq_type q = append_entries_request \/ rq_type q = install_snapshot_request.
Ltac q44 :=
  match goal with
  | |- ht _ _ (ret _) _ => apply ht_ret; [exact _ | first [left; reflexivity | right; reflexivity]]
  | |- ht _ _ (throw _) _ => apply ht_throw; exact _
  | |- ht _ _ (ub _) _ => apply ht_ub; exact _
  | |- ht _ _ (system_exit _) _ => apply ht_exit; t44
  | |- ht _ _ (bind (get _) _) _ => apply ht_bget; cbv beta
  | |- ht _ _ (bind (ret _) _) _ => apply ht_bret; cbv beta
  | |- ht _ _ (bind (throw _) _) _ => apply ht_bthrow; exact _
  | |- ht _ _ (bind (ub _) _) _ => apply ht_bub; exact _
  | |- ht _ _ (bind (system_exit _) _) _ => apply ht_bexit; [exact _ | t44]
  | |- ht _ _ (bind (bind _ _) _) _ => apply ht_assoc; cbv beta
  | |- ht _ _ (bind (if ?b then _ else _) _) _ => destruct b eqn:?
  | |- ht _ _ (bind (match ?x with _ => _ end) _) _ => destruct x eqn:?
  | |- ht _ _ (bind _ _) _ => eapply ht_seq; [exact _ | | intros ? ? ? _ _; cbv beta]
  | |- ht _ _ (if ?b then _ else _) _ => destruct b eqn:?
  | |- ht _ _ (match ?x with _ => _ end) _ => destruct x eqn:?
  | _ => first [hyp_leaf | wstep ltac:(t44)]
  end.
Lemma cae_44 : forall r n, ht r44 (fun q _ => bulkt q) (create_append_entries_req r) n.
Proof.
  assert (W_tfl : forall i n, ht r44 yes (term_for_log i) n) by (intros; unfold term_for_log; open_prims; wall ltac:(t44)).
  intros r n. unfold create_append_entries_req, create_sync_snapshot_req, the_peer, log_entries_. repeat q44.
Qed.
Lemma send_44 : forall r ext q n, bulkt q -> ht r44 yes (send_req r ext q) n.
Proof.
  intros r ext q n H. unfold send_req, the_peer.
  wall ltac:(split; [reflexivity | split; [intros _; apply Forall_cons; [|apply Forall_nil]; cbn; destruct H as [H|H]; rewrite H; intros [X|X]; discriminate | cbn; auto]]).
Qed.
Ltac base44 :=
  assert (W_tfl : forall i n, ht r44 yes (term_for_log i) n) by (intros; unfold term_for_log; open_prims; wall ltac:(t44));
  assert (W_rat : forall i n, ht r44 yes (request_append_entries_to i) n) by
    (intros; unfold request_append_entries_to, the_peer; repeat
      match goal with
      | |- ht _ _ (bind (create_append_entries_req _) _) _ => eapply ht_bind; [exact _ | apply cae_44 | intros ? ? ? _ _ ?; cbv beta in *]
      | H : bulkt ?q |- ht _ _ (send_req _ _ ?q) _ => apply send_44; exact H
      | _ => wstep ltac:(t44) end);
  assert (W_com : forall i n, ht r44 yes (commit i) n) by (intros; unfold commit; open_prims; wall ltac:(t44));
  assert (W_rae : forall n, ht r44 yes request_append_entries n) by (intros; unfold request_append_entries; open_prims; wall ltac:(t44));
  assert (W_isl : forall now n, ht r44 yes (is_leader now) n) by (intros; unfold is_leader; open_prims; wall ltac:(t44));
  walk_down r44 ltac:(t44); walk_hb r44 ltac:(t44).

(** the events that are considered: no confirmation of an earlier invitation or leave
    request, nothing that comes from another leader, no client entries that pretend
    to be configurations *)
Definition ordinary (n : node) (e : event) : Prop :=
  match e with
  | EHeartbeat _ | ESnapshot _ _ _ | EReplicate _ _ | EAppend _ _ | EAddSrv _ _ | ERemoveSrv _ _ => True
  | ERequest _ q => rq_type q = add_server_request \/ rq_type q = remove_server_request \/
                    (rq_type q = client_request /\ forall e, In e (rq_entries q) -> ev_type e <> conf_log)
  | ERpc _ _ ext _ _ => ext = false /\ n_done n = true
  | _ => False end.
Theorem C44_one_change_partial : forall e n r n' l,
  n_changing n = true -> cc_log_idx (n_config n) <> 0 -> ordinary n e -> run_event e n = (r, n', l) ->
  n_changing n' = true /\ n_config n' = n_config n /\ forall a, In a l -> ~ conf_act a.
Proof.
  intros e n r n' l Hc H0 Ho E.
  cut (ht (fun n l n' => n_changing n = true -> cc_log_idx (n_config n) <> 0 -> n_changing n' = true /\ n_config n' = n_config n /\ Forall (fun a => ~ conf_act a) l) yes (run_event e) n).
  { intros K. destruct (K _ _ _ E) as [K1 _]. destruct (K1 Hc H0) as (A & B & C). split; [exact A | split; [exact B|]]. intros a Ha. rewrite Forall_forall in C. apply C, Ha. }
  assert (Weak : ht r44 yes (run_event e) n -> ht (fun n l n' => n_changing n = true -> cc_log_idx (n_config n) <> 0 -> n_changing n' = true /\ n_config n' = n_config n /\ Forall (fun a => ~ conf_act a) l) yes (run_event e) n).
  { intros K r1 n1 l1 E1. destruct (K _ _ _ E1) as [(K1 & K2 & K3) _]. split; [|intros; exact I]. auto. }
  clear E r n' l. base44.
  assert (Cli : forall t es n, (forall e, In e es -> ev_type e <> conf_log) -> ht r44 yes (cli_append t es) n).
  { intros t es. induction es as [|x es IH]; intros m Hx; cbn [cli_append]; [apply ht_ret; [exact _ | exact I]|]. unfold log_append, next_slot_.
    assert (Hx1 : ev_type x <> conf_log) by (apply Hx; left; reflexivity).
    repeat match goal with
    | |- ht _ _ (cli_append _ _) _ => apply IH; intros e0 He0; apply Hx; right; exact He0
    | _ => wstep ltac:(first [t44 | split; [reflexivity | split; [intros _; apply Forall_cons; [exact Hx1 | apply Forall_nil] | cbn; auto]]]) end. }
  assert (Ref : forall now q, rq_type q = add_server_request \/ rq_type q = remove_server_request -> forall r n' l, process_req now q n = (r, n', l) -> n' = n /\ l = []).
  { intros now q Ht r n' l Ep. destruct (C58_refuses now q n Hc Ht) as (x & Ex & _). cbn [run_event] in Ex. unfold bind in Ex. rewrite Ep in Ex.
    destruct r; cbn in Ex; rewrite ?app_nil_r in Ex; inversion Ex; subst; split; reflexivity. }
  assert (WP : forall now q, (rq_type q = add_server_request \/ rq_type q = remove_server_request \/ (rq_type q = client_request /\ forall e, In e (rq_entries q) -> ev_type e <> conf_log)) ->
     ht (fun n1 l n' => r44 n1 l n') yes (process_req now q) n).
  { intros now q [Ht|[Ht|[Ht He]]] r1 n1 l1 E1.
    1, 2: destruct (Ref now q ltac:(tauto) _ _ _ E1) as [-> ->]; split; [apply p_refl | intros; exact I].
    rewrite process_cli_req in E1 by exact Ht. revert E1.
    assert (K : ht r44 yes (handle_cli_req now q) n).
    { unfold handle_cli_req, next_slot_. repeat match goal with |- ht _ _ (cli_append _ _) _ => apply Cli; exact He | _ => first [hyp_leaf | wstep ltac:(t44)] end. }
    intros E1. exact (K _ _ _ E1). }
  destruct e; cbn [ordinary] in Ho; try destruct Ho; apply Weak; cbn [run_event].
  - wall ltac:(t44).
  - eapply ht_seq; [exact _ | apply WP; left; assumption | intros; apply ht_ret; [exact _ | exact I]].
  - eapply ht_seq; [exact _ | apply WP; right; assumption | intros; apply ht_ret; [exact _ | exact I]].
  - subst ext. eapply ht_seq; [exact _ | | intros; apply ht_ret; [exact _ | exact I]].
    assert (W_aes : forall r n, ht r44 yes (handle_append_entries_resp r) n) by (intros; unfold handle_append_entries_resp; open_prims; wall ltac:(t44)).
    assert (W_iss : forall r n, ht r44 yes (handle_install_snapshot_resp r) n) by (intros; unfold handle_install_snapshot_resp; open_prims; wall ltac:(t44)).
    unfold rpc_done. apply ht_bget. destruct (live_ref uid n); [|apply ht_ub; exact _].
    eapply ht_bind with (Q1 := fun _ n1 => n_done n1 = true); [exact _ | |].
    { match goal with |- ht _ _ (when ?b _) _ => destruct b end; cbn [when]; [apply ht_modify; [t44 | unfold upd_peer; destruct p; assumption] | apply ht_ret; [exact _ | assumption]]. }
    intros [] n1 l1 _ _ Hd. destruct r as [rs|]; [|apply ht_bmodify; [exact _ | t44 | cbn [when]; apply ht_ret; [exact _ | exact I]]].
    apply ht_bmodify; [exact _ | t44|]. unfold handle_peer_resp. apply ht_bget. destruct (find_peer _ _); [|apply ht_ret; [exact _ | exact I]].
    apply ht_bmodify; [exact _ | t44|]. set (m := upd_peer _ _ _). assert (Hd2 : n_done m = true) by (unfold m, upd_peer; destruct p; exact Hd). clearbody m.
    eapply ht_bind with (Q1 := fun b m1 => b = false -> n_done m1 = true); [exact _ | |].
    { intros r2 n2 l2 E2. split; [apply (W_upt _ _ _ _ _ E2)|]. intros a -> ->. rewrite update_term_eq in E2. destruct (_ <? _); inversion E2; subst. exact Hd2. }
    intros b n2 l2 _ _ Hb. destruct b; [apply ht_ret; [exact _ | exact I]|]. specialize (Hb eq_refl).
    destruct (beq (rs_type rs) vote_response); [|wall ltac:(t44)].
    unfold handle_voting_resp. apply ht_bget. destruct (negb _); [apply ht_ret; [exact _ | exact I]|]. rewrite Hb. apply ht_ret; [exact _ | exact I].
  - unfold on_snapshot_completed. open_prims. wall ltac:(t44).
  - unfold replicate_log. open_prims. wall ltac:(t44).
  - unfold append_entries. destruct logs as [|x logs]; [wall ltac:(t44)|]. unfold send_msg_to_leader. repeat apply ht_assoc. apply ht_bget.
    destruct (_ =? _)%Z; [wall ltac:(t44)|]. destruct (_ =? _)%Z; [|wall ltac:(t44)].
    apply ht_assoc. eapply ht_seq; [exact _ | apply WP; right; right | intros; wall ltac:(t44)]. split; [reflexivity|]. cbn [api_req rq_entries]. intros e He.
    apply in_map_iff in He. destruct He as (y & <- & _). discriminate.
  - unfold add_srv, send_msg_to_leader. repeat apply ht_assoc. apply ht_bget.
    destruct (_ =? _)%Z; [wall ltac:(t44)|]. destruct (_ =? _)%Z; [|wall ltac:(t44)].
    apply ht_assoc. eapply ht_seq; [exact _ | apply WP; left; reflexivity | intros; wall ltac:(t44)].
  - unfold remove_srv, send_msg_to_leader. repeat apply ht_assoc. apply ht_bget.
    destruct (_ =? _)%Z; [wall ltac:(t44)|]. destruct (_ =? _)%Z; [|wall ltac:(t44)].
    apply ht_assoc. eapply ht_seq; [exact _ | apply WP; right; left; reflexivity | intros; wall ltac:(t44)].
Qed.
Example C44_example : let n := snd (fst (run_event (ERpc 1001 1 true ex_leave3 (Some (mkResp 1 leave_cluster_response 3 1 4 true))) ex_rm_node)) in
  n_changing n = true /\ cc_log_idx (n_config n) = 1 /\ n_role n = Leader /\ n_done n = true /\ ordinary n (ERequest 0 ex_rm3).
Proof. cbv zeta. split; [vm_compute; reflexivity|]. split; [vm_compute; reflexivity|]. split; [vm_compute; reflexivity|]. split; [vm_compute; reflexivity|]. right. left. reflexivity. Qed.

(** The flag that guards this is also cleared too early: a new leader writes its own
    configuration entry behind one it inherited; when the inherited entry is applied the
    flag is cleared, and an add-server request is accepted and completed although the
    leader's own entry is not committed. *)
Definition ex_prm1 : params := mkParams 300 150 75 25 1000 10 0 0 1 10000 false true.
Definition ex_add4 : req := mkReq 0 add_server_request 0 0 0 0 0 [mkEV 0 cluster_server (srv_bytes (ex_srv 4))].
Definition ex_early_cmds : list cmd :=
  [CStart; CEvent (ERequest 0 (ex_ae 1 2 0 0 0 [conf_entry 1 (mkCfg 1 0 (cc_servers ex_cfg))])); CEvent EElection;
   CEvent (ERpc 10 1 false (mkReq 2 vote_request 1 3 1 1 0 []) (Some (ex_vresp 2 3)));
   CEvent (ERpc 11 1 false (mkReq 2 append_entries_request 1 3 0 0 0 []) (Some (mkResp 2 append_entries_response 3 1 2 true)));
   CEvent ECommit].
Definition ex_early_run : list obs * sys := run_cmds 1 ex_prm1 (Down ex_disk) ex_early_cmds.
Theorem C44_early_refuted : exists id pm d h n now q r n' l i,
  disk_okay d /\ life id pm (Down d) h (Up n) /\ n_role n = Leader /\ conf_pending n i /\
  rq_type q = add_server_request /\ run_event (ERequest now q) n = (ROk (Response r), n', l) /\ rs_accepted r = true /\
  exists now' uid j r' n'' l' en, In (ASend uid true j) l /\ run_event (ERpc now' uid true j (Some r')) n' = (ROk Nothing, n'', l') /\
    conf_pending n' i /\ In (AAppend en) l' /\ ev_type en = conf_log.
Proof.
  set (n := up_node (snd ex_early_run)). set (x := run_event (ERequest 12 ex_add4) n).
  set (j := mkReq 2 join_cluster_request 1 4 0 2 1 [conf_entry 2 (mkCfg 2 0 (cc_servers ex_cfg))] : req).
  set (y := run_event (ERpc 13 3 true j (Some (mkResp 2 join_cluster_response 4 1 2 true))) (snd (fst x))).
  exists 1%Z, ex_prm1, ex_disk, (fst ex_early_run), n, 12, ex_add4, (mkResp 2 add_server_response 1 1 3 true), (snd (fst x)), (snd x), 2.
  split; [unfold disk_okay; vm_compute; discriminate|].
  split. { replace (Up n) with (snd ex_early_run) by (vm_compute; reflexivity). apply run_cmds_life. }
  split; [vm_compute; reflexivity|]. split. { exists (conf_entry 2 (mkCfg 2 0 (cc_servers ex_cfg))). split; [vm_compute; reflexivity|]. split; vm_compute; reflexivity. }
  split; [reflexivity|]. split; [apply pair3; vm_compute; reflexivity|]. split; [reflexivity|].
  exists 13, 3, j, (mkResp 2 join_cluster_response 4 1 2 true), (snd (fst y)), (snd y), (conf_entry 2 (mkCfg 3 2 (cc_servers ex_cfg ++ [ex_srv 4]))).
  split; [vm_compute; auto|]. split; [apply pair3; vm_compute; reflexivity|]. split. { exists (conf_entry 2 (mkCfg 2 0 (cc_servers ex_cfg))). split; [vm_compute; reflexivity|]. split; vm_compute; reflexivity. }
  split; [vm_compute; auto | reflexivity].
Qed.

(** ** C59: a leader without an uncommitted configuration accepts a change *)

(** Refuted: a follower stores a configuration entry behind an ordinary one; the next
    leader overwrites the ordinary entry, which discards both; the follower is never told
    that the configuration entry is gone. As leader it refuses every change although all
    its entries are committed. *)
Definition ex_disk1 : disk := mkDisk (Some (1, (-1)%Z)) (mkCfg 1 0 (cc_servers ex_cfg)) (mkAL 1 [conf_entry 1 (mkCfg 1 0 (cc_servers ex_cfg))]) 1 None [].
Definition ex_stuck_cmds : list cmd :=
  [CStart; CEvent (ERequest 0 (ex_ae 1 2 1 1 1 [ex_ent 1 x61; conf_entry 1 (mkCfg 3 1 [ex_srv 1; ex_srv 2])]));
   CEvent (ERequest 0 (ex_ae 2 3 1 1 2 [ex_ent 2 x62])); CEvent ECommit; CEvent EElection;
   CEvent (ERpc 10 1 false (mkReq 3 vote_request 1 3 2 2 0 []) (Some (ex_vresp 3 3)))].
Definition ex_stuck_run : list obs * sys := run_cmds 1 ex_prm (Down ex_disk1) ex_stuck_cmds.
Theorem C59_blocked_refuted : exists id pm d h n c,
  disk_okay d /\ life id pm (Down d) h (Up n) /\ n_role n = Leader /\ n_smc n = a_next (n_log n) - 1 /\ (forall i, ~ conf_pending n i) /\
  srv_ok c /\ ~ In (sc_id c) (map p_id (n_peers n)) /\ sc_id c <> n_id n /\
  forall now, exists r, run_event (ERequest now (api_req add_server_request [mkEV 0 cluster_server (srv_bytes c)])) n = (ROk (Response r), n, []) /\ rs_accepted r = false.
Proof.
  set (n := up_node (snd ex_stuck_run)). exists 1%Z, ex_prm, ex_disk1, (fst ex_stuck_run), n, (ex_srv 4).
  split; [unfold disk_okay; vm_compute; discriminate|].
  split. { replace (Up n) with (snd ex_stuck_run) by (vm_compute; reflexivity). apply run_cmds_life. }
  split; [vm_compute; reflexivity|]. split; [vm_compute; reflexivity|].
  split. { intros i (e & A & B & C). apply a_get_some in B. replace (n_quick n) with 2 in A by (vm_compute; reflexivity). replace (a_next (n_log n)) with 3 in B by (vm_compute; reflexivity). lia. }
  split. { unfold srv_ok, is_int32, ex_srv, no_nul; cbn. split; [lia|]. split; [discriminate|]. intuition discriminate. }
  split; [vm_compute; intuition discriminate|]. split; [vm_compute; discriminate|].
  intros now. destruct (C58_refuses now (api_req add_server_request [mkEV 0 cluster_server (srv_bytes (ex_srv 4))]) n ltac:(vm_compute; reflexivity) ltac:(left; reflexivity)) as (x & E & H).
  assert (Ex : x = ROk (Response (mkResp 3 add_server_response 1 1 0 false))).
  { replace x with (fst (fst (run_event (ERequest now (api_req add_server_request [mkEV 0 cluster_server (srv_bytes (ex_srv 4))])) n))) by (rewrite E; reflexivity). vm_compute. reflexivity. }
  rewrite Ex in E. eexists. split; [exact E | reflexivity].
Qed.

Lemma bind_lift_ok : forall A B (a : A) (k : A -> M B) n, bind (lift (Ok a)) k n = k a n.
Proof. intros. unfold bind, lift. destruct (k a n) as [[r n'] l]. reflexivity. Qed.
Lemma buffer_of_ok : forall bs, lenN bs < two31 -> buffer_of bs = Ok (bk [] bs).
Proof.
  intros bs H. unfold buffer_of. destruct (stream_in_fresh junk0 bs H) as (src & -> & E). cbn [res_bind]. rewrite E. reflexivity.
Qed.
Lemma parse_srv_ok : forall c, srv_ok c -> lenN (srv_bytes c) < two31 -> parse_srv (srv_bytes c) = Ok c.
Proof.
  intros c H L. unfold parse_srv, parse. rewrite buffer_of_ok by exact L. cbn [res_bind].
  pose proof (srv_deserialize_ok [] c [] H) as E. rewrite !app_nil_r in E. cbn [app] in E. rewrite E by exact L. reflexivity.
Qed.
Lemma int_b_len : forall z, lenN (int_b z) = 4.
Proof. intros z. unfold int_b, lenN. rewrite le_length. reflexivity. Qed.
Lemma parse_int_ok : forall z, is_int32 z -> parse_int (int_b z) = Ok z.
Proof.
  intros z H. unfold parse_int, parse. rewrite buffer_of_ok by (rewrite int_b_len; unfold two31; lia). cbn [res_bind].
  pose proof (get_int_bk [] z []) as E. rewrite !app_nil_r in E. cbn [app] in E. unfold int_b. rewrite E; [reflexivity | | exact H].
  unfold fits. fold (int_b z). rewrite int_b_len. unfold two31. lia.
Qed.

(** Proved: a leader that takes no change to be in progress accepts a request to add any
    server it does not know, and invites that server with its current configuration;
    it accepts a request to remove any of its peers, and asks that peer to leave. *)
Theorem C59_add_partial : forall now c n,
  n_role n = Leader -> n_changing n = false -> srv_ok c -> lenN (srv_bytes c) < two31 ->
  ~ In (sc_id c) (map p_id (n_peers n)) -> sc_id c <> n_id n ->
  exists r n' uid q, run_event (ERequest now (api_req add_server_request [mkEV 0 cluster_server (srv_bytes c)])) n = (ROk (Response r), n', [ASend uid true q]) /\
    rs_accepted r = true /\ n_peers n' = n_peers n /\ n_log n' = n_log n /\ n_config n' = n_config n /\
    (exists p, n_join n' = Some p /\ p_uid p = uid /\ p_cfg p = c) /\
    rq_type q = join_cluster_request /\ rq_term q = n_term n /\ rq_src q = n_id n /\ rq_dst q = sc_id c /\ rq_entries q = [conf_entry (n_term n) (n_config n)].
Proof.
  intros now c n Hr Hc Hs Hl Hp Hi. cbn [run_event].
  assert (Ep : exists r n' uid q, process_req now (api_req add_server_request [mkEV 0 cluster_server (srv_bytes c)]) n = (ROk r, n', [ASend uid true q]) /\
    rs_accepted r = true /\ n_peers n' = n_peers n /\ n_log n' = n_log n /\ n_config n' = n_config n /\
    (exists p, n_join n' = Some p /\ p_uid p = uid /\ p_cfg p = c) /\
    rq_type q = join_cluster_request /\ rq_term q = n_term n /\ rq_src q = n_id n /\ rq_dst q = sc_id c /\ rq_entries q = [conf_entry (n_term n) (n_config n)]).
  { rewrite process_ext by reflexivity. unfold handle_extended_msg. cbn [api_req rq_type]. change (beq add_server_request add_server_request) with true. cbv iota.
    unfold handle_add_srv_req. rewrite bind_get. cbn [api_req rq_entries ev_type ev_data]. change (beq cluster_server cluster_server) with true. cbn [negb].
    rewrite Hr, parse_srv_ok by assumption. rewrite bind_lift_ok.
    replace (match find_peer (sc_id c) (n_peers n) with Some _ => true | None => false end) with false.
    2:{ destruct (find_peer (sc_id c) (n_peers n)) as [p|] eqn:E; [|reflexivity]. apply find_peer_in in E. destruct E as [E1 E2]. exfalso. apply Hp. rewrite <- E2. apply in_map, E1. }
    replace (n_id n =? sc_id c)%Z with false by (symmetry; apply Z.eqb_neq; congruence). cbn [orb]. rewrite Hc.
    do 4 eexists. split; [reflexivity|]. cbn. repeat (split; [reflexivity|]). split; [eexists; split; [reflexivity | split; reflexivity]|]. repeat (split; [reflexivity|]). reflexivity. }
  destruct Ep as (r & n' & uid & q & E & Rest). exists r, n', uid, q. split; [|exact Rest]. unfold bind. rewrite E. reflexivity.
Qed.
Theorem C59_remove_partial : forall now id n p,
  n_role n = Leader -> n_changing n = false -> is_int32 id -> id <> n_id n -> find_peer id (n_peers n) = Some p ->
  exists r q, run_event (ERequest now (api_req remove_server_request [mkEV 0 cluster_server (int_b id)])) n = (ROk (Response r), n, [ASend (p_uid p) true q]) /\
    rs_accepted r = true /\ rq_type q = leave_cluster_request /\ rq_term q = n_term n /\ rq_src q = n_id n /\ rq_dst q = id.
Proof.
  intros now id n p Hr Hc Hz Hi Hp. cbn [run_event].
  assert (Ep : exists r q, process_req now (api_req remove_server_request [mkEV 0 cluster_server (int_b id)]) n = (ROk r, n, [ASend (p_uid p) true q]) /\
    rs_accepted r = true /\ rq_type q = leave_cluster_request /\ rq_term q = n_term n /\ rq_src q = n_id n /\ rq_dst q = id).
  { rewrite process_ext by reflexivity. unfold handle_extended_msg. cbn [api_req rq_type]. change (beq remove_server_request add_server_request) with false. change (beq remove_server_request remove_server_request) with true. cbv iota.
    unfold handle_rm_srv_req. rewrite bind_get. cbn [api_req rq_entries ev_type ev_data]. rewrite int_b_len. change (4 =? 4) with true. cbn [negb].
    rewrite Hr, Hc, parse_int_ok by assumption. rewrite bind_lift_ok.
    replace (id =? n_id n)%Z with false by (symmetry; apply Z.eqb_neq; exact Hi). rewrite Hp.
    unfold send_req, the_peer. rewrite !bind_assoc, bind_get. cbn [get_peer]. rewrite Hp, bind_ret.
    destruct n; do 2 eexists. split; [reflexivity|]. repeat (split; [reflexivity|]). reflexivity. }
  destruct Ep as (r & q & E & Rest). exists r, q. split; [|exact Rest]. unfold bind. rewrite E. reflexivity.
Qed.
Example C59_example : n_role ex_l = Leader /\ n_changing (snd (fst (run_event ECommit (up_node (snd (run_cmds 1 ex_prm (Down ex_disk) ex_busy_cmds)))))) = false /\
  srv_ok (ex_srv 4) /\ find_peer 2 (n_peers ex_l) <> None.
Proof.
  split; [vm_compute; reflexivity|]. split; [vm_compute; reflexivity|]. split; [|vm_compute; discriminate].
  unfold srv_ok, is_int32, ex_srv, no_nul; cbn. split; [lia|]. split; [discriminate|]. intuition discriminate.
Qed.
Print Assumptions C46_peers_partial.
Print Assumptions C46_peers_refuted.
Print Assumptions C55_removed_refuted.
Print Assumptions C55_not_a_peer_partial.
Print Assumptions C44_two_changes_refuted.
Print Assumptions C44_one_change_partial.
Print Assumptions C44_early_refuted.
Print Assumptions C59_blocked_refuted.
Print Assumptions C59_add_partial.
Print Assumptions C59_remove_partial.
