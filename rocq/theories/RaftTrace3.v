(** * RaftTrace3: responses, committing, snapshots, API calls; every event is a
      sequence of guarded steps *)

From Verif Require Import Base Buffer Codec CodecSpec Msg FsLogStore FsLogSpec Alog Raft RaftQuiet RaftTrace RaftTrace2.
Local Open Scope N_scope.

Lemma upd_role : forall r f n, n_role (upd_peer r f n) = n_role n.
Proof. intros [id|] f n; reflexivity. Qed.

Lemma need_send_tr : forall ev id n (need : bool),
  ht (tr ev) yes (role <- get n_role ;; match role with
      | Leader => when need (request_append_entries_to id ;;; ret tt)
      | _ => ret tt end) n.
Proof.
  intros ev id n need. hstep. destruct (n_role n) eqn:Er; try (hstep; exact I).
  hstep; [|exact I]. apply ht_seq; [exact _ | apply rae_to_tr; left; exact Er|]. intros. hstep. exact I.
Qed.

Lemma handle_append_entries_resp_tr : forall now uid q r n, rs_type r = append_entries_response ->
  ht (tr (ERpc now uid false q (Some r))) yes (handle_append_entries_resp r) n.
Proof.
  intros now uid q r n Hty. unfold handle_append_entries_resp. hstep. destruct (find_peer (rs_src r) (n_peers n)); [|hstep; exact I].
  cbv zeta. apply ht_seq; [exact _ | |].
  2:{ intros need n1 l1 _ _. apply need_send_tr. }
  hstep.
  - hstep; [apply upd_peer_tr; reflexivity|]. hstep. apply ht_seq; [exact _ | apply commit_tr; right; right; right; right; left; eauto 6|]. intros u n1 l1 _ _.
    eapply ht_bind; [exact _ | apply the_peer_ht; exact _|]. intros p0 n2 l2 _ _ [-> Hp].
    hstep; [apply upd_peer_tr; reflexivity|]. unfold next_slot_. hstep. hstep. exact I.
  - hstep; [|hstep; exact I]. apply upd_peer_tr. intros p0.
    destruct ((0 <? rs_next_idx r) && (rs_next_idx r <? p_next p0)); [reflexivity|]. destruct (0 <? p_next p0); reflexivity.
Qed.

Lemma handle_install_snapshot_resp_tr : forall ev r n, ht (tr ev) yes (handle_install_snapshot_resp r) n.
Proof.
  intros ev r n. unfold handle_install_snapshot_resp. hstep. destruct (find_peer (rs_src r) (n_peers n)) as [p|]; [|hstep; exact I].
  cbv zeta. apply ht_seq; [exact _ | |].
  2:{ intros need n1 l1 _ _. apply need_send_tr. }
  hstep; [|hstep; exact I]. destruct (p_sync p) as [[s o]|]; [|hstep; exact I].
  hstep.
  - hstep; [apply upd_peer_tr; reflexivity|]. unfold next_slot_. hstep. hstep. exact I.
  - hstep; [apply upd_peer_tr; reflexivity|]. hstep. exact I.
Qed.

Lemma existsb_in : forall x l, existsb (Z.eqb x) l = false -> ~ In x l.
Proof.
  intros x l H Hin. assert (E : existsb (Z.eqb x) l = true); [|congruence].
  apply existsb_exists. exists x. split; [exact Hin | lia].
Qed.

Lemma handle_voting_resp_tr : forall now uid q r n, rs_type r = vote_response ->
  In (rs_src r) (map p_id (n_peers n)) ->
  ht (tr (ERpc now uid false q (Some r))) yes (handle_voting_resp r) n.
Proof.
  intros now uid q r n Ht Hin. unfold handle_voting_resp. set (ev := ERpc now uid false q (Some r)).
  hstep. hstep; [hstep; exact I|]. hstep; [hstep; exact I|]. hstep; [hstep; exact I|].
  set (n1 := set_done (n_done n) (set_votes (if rs_accepted r then n_votes n + 1 else n_votes n)%Z (set_voted (rs_src r :: n_voted n) n))).
  apply htp_start. pstep.
  match goal with |- htp _ _ (bind (when _ _) ?f) _ _ _ => assert (G : ht (tr ev) yes (f tt) n1) end.
  2:{ unfold when at 1. assert (HC : tr ev n [] n1).
      { apply tr_one. apply (A_count ev n now uid q r (n_done n)); try assumption; [reflexivity | lia | apply existsb_in; assumption]. }
      destruct (rs_accepted r).
      - pstep. apply htp_stop; [exact _ | |].
        + replace (set_votes _ (set_voted _ n)) with n1 by (destruct n; reflexivity). exact HC.
        + replace (set_votes _ (set_voted _ n)) with n1 by (destruct n; reflexivity). exact G.
      - apply htp_stop; [exact _ | |].
        + replace (set_voted _ n) with n1 by (destruct n; reflexivity). exact HC.
        + hstep. replace (set_voted _ n) with n1 by (destruct n; reflexivity). exact G. }
  cbv beta. hstep.
  eapply (ht_bind _ _ _ (fun _ n2 => n2 = n1 \/ n2 = set_done true n1)).
  { hstep; [|left; reflexivity]. hstep; [apply tr_one, A_done | right; reflexivity]. }
  intros u n2 l2 _ _ Hn2. hstep; [|exact I]. hstep; [apply tr_one, A_done|].
  forget. apply become_leader_tr; [destruct Hn2 as [-> | ->]; assumption | intros q0 [now0 E0]; discriminate].
Qed.

Lemma handle_prevote_resp_tr : forall now uid q r n, rs_type r = prevote_response ->
  ht (tr (ERpc now uid true q (Some r))) yes (handle_prevote_resp r) n.
Proof.
  intros now uid q r n Ht. unfold handle_prevote_resp. hstep.
  destruct (n_prevote n) as [[acc voted]|] eqn:Ep; [|hstep; exact I].
  destruct (set_add (rs_src r) voted) as [voted' added]. hstep; [hstep; exact I|]. cbv zeta.
  hstep; [benign|]. hstep.
  - apply become_candidate_tr. right. split; [discriminate|]. exists now, uid, q, r. auto.
  - hstep; [|hstep; exact I]. hstep; [benign|]. forget. apply restart_timer_tr.
Qed.

Lemma handle_peer_resp_tr : forall now uid q r n,
  ht (tr (ERpc now uid false q (Some r))) yes (handle_peer_resp now r) n.
Proof.
  intros now uid q r n. unfold handle_peer_resp. hstep.
  destruct (find_peer (rs_src r) (n_peers n)) as [p|] eqn:Ef; [|hstep; exact I].
  hstep; [apply upd_peer_tr; reflexivity|]. nm n1.
  assert (Hi : map p_id (n_peers n1) = map p_id (n_peers n)).
  { assert (C : core n1 = core n) by (apply upd_peer_core; reflexivity). unfold core in C. congruence. }
  eapply ht_bind; [exact _ | apply update_term_tr; right; exists now, uid, q, r; auto|].
  intros up n2 l2 _ _ (_ & U). destruct U as (_ & _ & _ & _ & U & _).
  hstep; [hstep; exact I|].
  destruct (beq (rs_type r) vote_response) eqn:E1.
  { apply handle_voting_resp_tr; [apply beq_eq, E1|]. rewrite U, Hi.
    apply find_peer_in in Ef. destruct Ef as [Ef <-]. apply in_map. exact Ef. }
  destruct (beq (rs_type r) append_entries_response) eqn:E2; [apply handle_append_entries_resp_tr, beq_eq, E2|].
  destruct (beq (rs_type r) install_snapshot_response) eqn:E3; [apply handle_install_snapshot_resp_tr|].
  hstep. auto.
Qed.

(** ** Changing the configuration *)
Lemma sync_log_tr : forall ev i n, conf_event ev = true -> ht (tr ev) yes (sync_log_to_new_srv i) n.
Proof.
  intros ev i n Hc. unfold sync_log_to_new_srv. hstep. cbv zeta. hstep.
  - destruct (n_to_add n); cbn [deref]; [|hstep]. hstep. hstep.
    eapply ht_bind; [exact _ | apply log_append_tr, A_cappend; [exact Hc | reflexivity]|]. intros x n1 l1 _ _ (-> & ->).
    hstep; [benign|]. apply raes_tr. right. exact Hc.
  - eapply ht_bind; [exact _ | apply the_peer_ht; exact _|]. intros j n1 l1 _ _ [-> Hj].
    eapply (ht_bind _ _ _ (fun q n' => rq_type q = install_snapshot_request \/ rq_type q = sync_log_request)).
    + hstep.
      * intros r n' l E. destruct (create_sync_snapshot_ht PJoin i (n_term n) (n_quick n) n _ _ _ E) as [Hq HQ]. split.
        -- apply quiet_tr; [exact Hq | right; right; exact Hc | repeat right; exact Hc].
        -- intros a Ea. left. apply (HQ a Ea).
      * unfold log_pack_. hstep. hstep. hstep; [hstep|]. hstep; hstep; hstep; right; reflexivity.
    + intros q n1 l2 _ _ Hq. unfold send_req.
      eapply ht_bind; [exact _ | apply the_peer_ht; exact _|]. intros p n2 l3 _ _ [-> Hp].
      hstep; [|exact I]. replace (set_disk _ n1) with n1 by (destruct n1; reflexivity).
      destruct Hq as [Hq|Hq].
      * apply tr_one, A_csend; assumption.
      * apply tr_benign; [reflexivity|]. constructor; [|constructor]. split; [reflexivity|]. rewrite Hq. reflexivity.
Qed.

Lemma rm_srv_tr : forall ev id n, conf_event ev = true -> ht (tr ev) yes (rm_srv_from_cluster id) n.
Proof.
  intros ev id n Hc. unfold rm_srv_from_cluster, append_config. hstep. cbv zeta. hstep; [benign|]. hstep.
  eapply ht_bind; [exact _ | apply log_append_tr, A_cappend; [exact Hc | reflexivity]|]. intros x n1 l1 _ _ (-> & ->).
  apply raes_tr. right. exact Hc.
Qed.

Lemma handle_ext_resp_tr : forall now uid q r n,
  ht (tr (ERpc now uid true q (Some r))) yes (handle_ext_resp r) n.
Proof.
  intros now uid q r n. unfold handle_ext_resp. set (ev := ERpc now uid true q (Some r)). hstep. cbv zeta.
  assert (HC : forall b, (b = sync_log_response \/ b = join_cluster_response \/ b = leave_cluster_response \/ b = install_snapshot_response) ->
                 rs_type r = b -> conf_event ev = true).
  { intros b H E. unfold ev. cbn [conf_event]. rewrite E. destruct H as [->|[->|[->| ->]]]; reflexivity. }
  destruct (beq (rs_type r) sync_log_response) eqn:E1.
  { apply beq_eq in E1. destruct (n_join n); [|hstep; exact I]. hstep; [apply upd_peer_tr; reflexivity|].
    apply sync_log_tr. eapply HC; [|exact E1]. auto. }
  destruct (beq (rs_type r) join_cluster_response) eqn:E2.
  { apply beq_eq in E2. destruct (n_join n); [|hstep; exact I]. hstep; [|exact I].
    apply sync_log_tr. eapply HC; [|exact E2]. auto. }
  destruct (beq (rs_type r) leave_cluster_response) eqn:E3.
  { apply beq_eq in E3. hstep; [|exact I]. apply rm_srv_tr. eapply HC; [|exact E3]. auto. }
  destruct (beq (rs_type r) install_snapshot_response) eqn:E4.
  { apply beq_eq in E4. destruct (n_join n) as [j|]; [|hstep; exact I]. hstep; [hstep; exact I|].
    destruct (p_sync j) as [[s o]|]; [|hstep; auto].
    apply ht_seq; [exact _ | hstep; (hstep; [apply upd_peer_tr; reflexivity | exact I])|].
    intros u n1 l1 _ _. eapply ht_bind; [exact _ | apply the_peer_ht; exact _|]. intros p0 n2 l2 _ _ [-> Hp].
    apply sync_log_tr. eapply HC; [|exact E4]. auto. }
  destruct (beq (rs_type r) prevote_response) eqn:E5; [apply handle_prevote_resp_tr, beq_eq, E5|].
  hstep. auto.
Qed.

Lemma slow_down_id : forall pm p, p_id (p_slow_down pm p) = p_id p.
Proof. intros. unfold p_slow_down. cbv zeta. repeat match goal with |- context [if ?b then _ else _] => destruct b end; reflexivity. Qed.

Lemma handle_ext_resp_err_tr : forall now uid q n,
  ht (tr (ERpc now uid true q None)) yes (handle_ext_resp_err q) n.
Proof.
  intros now uid q n. unfold handle_ext_resp_err. cbv zeta. hstep; [|hstep; exact I]. hstep.
  destruct (get_peer _ n) as [p|]; [|hstep; exact I]. hstep.
  - destruct (beq (rq_type q) leave_cluster_request) eqn:El.
    + apply ht_seq; [exact _ | hstep; [|exact I]; hstep; [apply tr_one, A_rmpeer; exact El | exact I]|].
      intros u n1 l1 _ _. apply rm_srv_tr. exact El.
    + hstep; [benign|]. hstep; [benign | exact I].
  - hstep; [apply upd_peer_tr; apply slow_down_id|]. hstep; [benign | exact I].
Qed.

Lemma rpc_done_tr : forall now uid ext q res n,
  ht (tr (ERpc now uid ext q res)) yes (rpc_done now uid ext q res) n.
Proof.
  intros now uid ext q res n. unfold rpc_done. hstep. destruct (live_ref uid n) as [ref|]; [|hstep].
  apply ht_seq; [exact _ | hstep; [|exact I]; hstep; [apply upd_peer_tr; reflexivity | exact I]|].
  intros u n1 l1 _ _. destruct res as [r|].
  - hstep; [apply upd_peer_tr; reflexivity|]. destruct ext; [apply handle_ext_resp_tr | apply handle_peer_resp_tr].
  - hstep; [apply upd_peer_tr; apply slow_down_id|]. hstep; [|exact I]. subst ext. apply handle_ext_resp_err_tr.
Qed.

(** ** Committing *)
Lemma find_conf_tr : forall ev fuel i c n, ht (tr ev) (fun _ n' => n' = n) (find_conf fuel i c) n.
Proof.
  intros ev fuel. induction fuel as [|fuel IH]; intros i c n; cbn [find_conf]; [hstep; reflexivity|].
  unfold start_index_, log_entry_at. hstep. hstep; [|hstep; reflexivity].
  hstep. hstep. hstep; [hstep|]. hstep. destruct (a_get _ _); cbn [deref]; [|hstep]. hstep. hstep. apply IH.
Qed.

Lemma snapshot_and_compact_tr : forall ev i n, ht (tr ev) yes (snapshot_and_compact i) n.
Proof.
  intros ev i n. unfold snapshot_and_compact. hstep. cbv zeta. hstep; [hstep; exact I|]. hstep; [|hstep; exact I].
  apply ht_catch; [exact _ | |].
  - hstep; [benign|]. eapply ht_bind; [exact _ | apply find_conf_tr|]. intros c n1 l1 _ _ ->.
    unfold start_index_. hstep.
    eapply ht_bind; [exact _ | |].
    { instantiate (1 := fun _ _ => True). hstep; [destruct (n_snp n); hstep; auto|]. hstep; hstep; auto. }
    intros c2 n2 l2 _ _ _. unfold log_term_at. hstep. hstep. hstep; [hstep|].
    destruct (a_get _ _); hstep. hstep; [benign | exact I].
  - intros e n1 l1 _ _. hstep; [benign | exact I].
Qed.

Lemma on_snapshot_completed_tr : forall s d ok n,
  ht (tr (ESnapshot s d ok)) yes (on_snapshot_completed s d ok) n.
Proof.
  intros s d ok n. unfold on_snapshot_completed.
  assert (Hs : exists s0 d0 ok0, ESnapshot s d ok = ESnapshot s0 d0 ok0) by (exists s, d, ok; reflexivity).
  apply ht_seq; [exact _ | |].
  - hstep; [|exact I]. hstep; [apply tr_one, A_snp; [exact I | right; exact Hs]|]. hstep; [benign|]. hstep.
    hstep; [|exact I]. apply ht_seq; [exact _ | forget; apply log_compact_tr; right; exact Hs|]. intros. hstep. exact I.
  - intros. hstep; [benign | exact I].
Qed.

Lemma commit_step_tr : forall n, ht (tr ECommit) yes commit_step n.
Proof.
  intros n. unfold commit_step. hstep. hstep; [|hstep; exact I].
  apply ht_catch; [exact _ | | intros; hstep; auto]. cbv zeta.
  assert (H1 : n_smc n < n_quick n /\ n_smc n + 1 < a_next (n_log n)) by (split; lia).
  hstep. { apply tr_one, A_smc; [reflexivity | apply H1 | apply H1]. }
  nm n1. unfold log_entry_at. hstep. hstep. hstep; [hstep|]. hstep.
  destruct (a_get (n_log n1) (n_smc n + 1)) as [e|] eqn:Ea; cbn [deref]; [|hstep]. hstep.
  apply ht_seq; [exact _ | | intros; apply snapshot_and_compact_tr].
  destruct (beq (ev_type e) app_log) eqn:E1.
  { hstep; [|exact I]. apply tr_one. apply (A_commit ECommit n1); [reflexivity | reflexivity | exact Ea | apply beq_eq, E1]. }
  destruct (beq (ev_type e) conf_log) eqn:E2; [|hstep; exact I].
  hstep.
  assert (Hs : cfg_source ECommit n1 a).
  { left. split; [reflexivity|]. exists e. split; [exact Ea|]. split; [apply beq_eq, E2 | exact H]. }
  hstep. { apply tr_one, A_saveconf. exact Hs. }
  hstep; [benign|]. hstep.
  apply ht_seq; [exact _ | |].
  { hstep; [|exact I]. forget. apply reconfigure_tr. exact Hs. }
  intros u n2 l2 _ _. hstep. hstep. hstep; [|exact I]. hstep; [|exact I]. apply tr_one, A_uncatch. reflexivity.
Qed.

(** ** API calls *)
Lemma replicate_log_tr : forall now data n, ht (tr (EReplicate now data)) yes (replicate_log now data) n.
Proof.
  intros now data n. unfold replicate_log. eapply ht_bind; [exact _ | apply is_leader_tr|]. intros b n1 l1 _ _ (C1 & Hb).
  destruct b; cbn [negb]; [|hstep; exact I].
  assert (Hr : n_role n1 = Leader) by (rewrite (core_role _ _ C1); apply Hb; reflexivity).
  hstep. eapply ht_bind; [exact _ | apply log_append_tr, A_lappend; [exact Hr | reflexivity | right; split; reflexivity]|].
  intros i n2 l2 _ _ (-> & ->). apply ht_seq; [exact _ | apply raes_tr; left; exact Hr|]. intros. hstep. exact I.
Qed.

Lemma send_msg_tr : forall ev now q n,
  (forall n1, ht (tr ev) yes (process_req now q) n1) -> ht (tr ev) yes (send_msg_to_leader now q) n.
Proof.
  intros ev now q n Hp. unfold send_msg_to_leader. hstep. hstep; [hstep; exact I|]. hstep.
  - apply ht_seq; [exact _ | apply Hp|]. intros. hstep. exact I.
  - hstep; [hstep; [benign | hstep; exact I]|]. hstep; [|hstep; exact I]. hstep; [benign|]. hstep; [benign|]. hstep. exact I.
Qed.

(** ** Every event, whatever its outcome *)
Theorem run_event_tr : forall e n, 1 <= al_start (n_log n) -> ht (tr e) yes (run_event e) n.
Proof.
  intros e n Hst. destruct e; cbn [run_event].
  - apply ht_seq; [exact _ | apply handle_election_timeout_tr | intros; hstep; exact I].
  - apply ht_seq; [exact _ | apply handle_hb_timeout_tr | intros; hstep; exact I].
  - apply ht_seq; [exact _ | apply process_req_tr, Hst | intros; hstep; exact I].
  - apply ht_seq; [exact _ | apply rpc_done_tr | intros; hstep; exact I].
  - unfold retry. hstep; [|hstep; exact I].
    replace (set_disk _ n) with n by (destruct n; reflexivity). apply tr_one, A_retry. reflexivity.
  - apply ht_seq; [exact _ | apply commit_step_tr | intros; hstep; exact I].
  - apply ht_seq; [exact _ | apply on_snapshot_completed_tr | intros; hstep; exact I].
  - apply ht_seq; [exact _ | apply replicate_log_tr | intros; hstep; exact I].
  - apply ht_seq; [exact _ | | intros; hstep; exact I]. unfold append_entries. destruct logs as [|l0 logs]; [hstep; exact I|].
    apply send_msg_tr. intros n1. unfold process_req. cbv zeta.
    change (rq_type (api_req client_request (map (mkEV 0 app_log) (l0 :: logs)))) with client_request.
    hstep; [discriminate|]. hstep.
    change (beq client_request append_entries_request) with false. change (beq client_request vote_request) with false.
    change (beq client_request client_request) with true. cbv iota.
    apply handle_cli_req_tr. intros t e Hin. cbn [api_req rq_entries] in Hin. apply in_map_iff in Hin.
    destruct Hin as (d & <- & Hd). split; [reflexivity | exact Hd].
  - apply ht_seq; [exact _ | | intros; hstep; exact I]. apply send_msg_tr. intros n1. unfold process_req. cbv zeta.
    cbn [api_req rq_type]. hstep; [discriminate|]. hstep. apply handle_add_srv_tr.
  - apply ht_seq; [exact _ | | intros; hstep; exact I]. apply send_msg_tr. intros n1. unfold process_req. cbv zeta.
    cbn [api_req rq_type]. hstep; [discriminate|]. hstep. apply handle_rm_srv_tr.
Qed.

(** The start index never falls below 1. *)
Lemma astep_start : forall ev n l n', astep ev n l n' -> 1 <= al_start (n_log n) -> 1 <= al_start (n_log n').
Proof.
  intros ev n l n' H Hst. destruct H; try exact Hst.
  - destruct (quiet_log _ _ _ H) as (-> & _). exact Hst.
  - destruct (core_upd _ _ H) as (-> & _). exact Hst.
  - destruct H1 as (H1 & H2 & H3). unfold n_log in *. rewrite H3. clear H3 H2 H H0.
    revert n Hst. induction l as [|a l IH]; intros n Hst; [exact Hst|]. cbn [fold_left].
    inversion H1; subst. specialize (IH H3 (apply_act a n)). apply IH.
    destruct H2 as [H2 | ->]; [destruct a; try contradiction; exact Hst | exact Hst].
  - unfold apply_act, n_log. cbn. lia.
  - destruct a; try contradiction; exact Hst.
Qed.
Lemma tr_start : forall ev n l n', tr ev n l n' -> 1 <= al_start (n_log n) -> 1 <= al_start (n_log n').
Proof. intros ev n l n' H. induction H; intros; [assumption|]. apply IHtr. eapply astep_start; eassumption. Qed.

(** ** The disk follows the actions, also half way *)
Lemma benign_disk : forall a d, benign_act a -> disk_apply d a = d.
Proof. intros a d H. destruct a; try contradiction; reflexivity. Qed.
Lemma benign_fold : forall l d, Forall benign_act l -> fold_left disk_apply l d = d.
Proof.
  induction l as [|a l IH]; intros d H; [reflexivity|]. inversion H; subst. cbn [fold_left].
  rewrite benign_disk by assumption. apply IH. assumption.
Qed.
Lemma quiet_fold : forall n q l d, Forall (ae_act n q) l -> fold_left disk_apply l d = d.
Proof.
  intros n q. induction l as [|a l IH]; intros d H; [reflexivity|]. inversion H; subst. cbn [fold_left].
  replace (disk_apply d a) with d by (destruct a; try contradiction; reflexivity). apply IH. assumption.
Qed.

Lemma astep_disk : forall ev n l n', astep ev n l n' -> n_disk n' = fold_left disk_apply l (n_disk n).
Proof.
  intros ev n l n' H. destruct H; try reflexivity.
  - destruct H as (ps & q & j & -> & _ & _ & _ & Hl). rewrite (quiet_fold _ _ _ _ Hl). reflexivity.
  - rewrite benign_fold by assumption. apply core_disk. assumption.
  - apply H1.
Qed.
Lemma tr_disk : forall ev n l n', tr ev n l n' -> n_disk n' = fold_left disk_apply l (n_disk n).
Proof.
  intros ev n l n' H. induction H; [reflexivity|]. rewrite fold_left_app, <- (astep_disk _ _ _ _ H). exact IHtr.
Qed.

Lemma astep_prefix : forall ev n l n' p s, astep ev n l n' -> l = p ++ s -> p <> [] -> s <> [] ->
  exists n1, astep ev n p n1.
Proof.
  intros ev n l n' p s H E Hp Hs.
  destruct H; try (exfalso; apply (f_equal (@length act)) in E; rewrite app_length in E; destruct p; [congruence|]; destruct s; [congruence|]; cbn [length] in E; lia).
  - subst l. exists n'. apply A_quiet.
    + destruct H as (ps & q & j & -> & H1 & H2 & H3 & H4). exists ps, q, j. repeat (split; [assumption || reflexivity|]).
      apply Forall_app in H4. apply H4.
    + destruct H0 as [H0 H0q]. split; [|exact H0q]. destruct H0 as [H0|[H0|H0]]; [left; exact H0 | right; left | right; right; exact H0]. apply Forall_app in H0. apply H0.
  - subst l. exists n'. apply A_benign; [assumption|]. apply Forall_app in H0. apply H0.
  - subst l. destruct H1 as (H1 & H2 & H3). apply Forall_app in H1.
    exists (set_disk (fold_left disk_apply p (n_disk n)) n). apply (A_reconf ev n c); [exact H | exact H0|].
    split; [apply H1|]. split; [destruct n; reflexivity | reflexivity].
Qed.

(** at every point between two actions the server is in a state reached by guarded steps *)
Lemma tr_prefix : forall ev n l n', tr ev n l n' -> forall p s, l = p ++ s -> exists n1, tr ev n p n1.
Proof.
  intros ev n l n' H. induction H; intros p s E.
  - destruct p; [|discriminate]. exists n. constructor.
  - destruct (le_lt_dec (length p) (length l)) as [Hle|Hgt].
    + assert (El : l = p ++ firstn (length l - length p) s).
      { assert (E2 := f_equal (firstn (length l)) E). rewrite firstn_app, firstn_all, Nat.sub_diag, firstn_O, app_nil_r in E2.
        rewrite firstn_app in E2. rewrite firstn_all2 in E2 by lia. exact E2. }
      destruct p as [|a p]; [exists n; constructor|].
      destruct (firstn (length l - length (a :: p)) s) as [|b s2] eqn:Es.
      * rewrite app_nil_r in El. subst l. exists n1. apply tr_one. exact H.
      * destruct (astep_prefix _ _ _ _ _ _ H El) as (m & Hm); [discriminate | discriminate|].
        exists m. apply tr_one. exact Hm.
    + assert (Ep : p = l ++ skipn (length l) p /\ l1 = skipn (length l) p ++ s).
      { assert (E1 := f_equal (firstn (length l)) E). assert (E2 := f_equal (skipn (length l)) E).
        rewrite firstn_app, firstn_all, Nat.sub_diag, firstn_O, app_nil_r in E1.
        rewrite firstn_app in E1. replace (length l - length p)%nat with 0%nat in E1 by lia. rewrite firstn_O, app_nil_r in E1.
        rewrite skipn_app, skipn_all, Nat.sub_diag, skipn_O in E2. cbn [app] in E2.
        rewrite skipn_app in E2. replace (length l - length p)%nat with 0%nat in E2 by lia. rewrite skipn_O in E2.
        split; [|exact E2]. rewrite E1 at 1. symmetry. apply firstn_skipn. }
      destruct Ep as [Ep E1]. destruct (IHtr _ _ E1) as (m & Hm). exists m. rewrite Ep. econstructor; eassumption.
Qed.
