(** * WalkAll: one tactic that walks through every handler with a relation *)

From Verif Require Import Base Buffer Codec CodecSpec Msg FsLogStore FsLogSpec Alog Raft RaftQuiet RaftWalk NodeSpec NodeFacts.
Local Open Scope N_scope.

Section Loops.
  Context (R : rel) {P : preorder R}.
  Ltac go one := unfold log_append, log_write_at, log_entry_at, log_term_at, next_slot_, start_index_, deref; walk one.
  Lemma cli_append_gen : (forall n e, R n [AAppend e] (set_disk (disk_apply (n_disk n) (AAppend e)) n)) ->
    (forall n i e, R n [APreCommit i e] (set_disk (disk_apply (n_disk n) (APreCommit i e)) n)) -> forall t es n, ht R yes (cli_append t es) n.
  Proof. intros H1 H2 t es. induction es; intros n; cbn [cli_append]; go ltac:(first [apply H1 | apply H2]). apply IHes. Qed.
  Lemma skip_gen : forall es i n, ht R yes (skip_matching i es) n.
  Proof. induction es; intros i n; cbn [skip_matching]; go idtac. apply IHes. Qed.
  Lemma overwrite_gen : (forall n i e, R n [AWriteAt i e] (set_disk (disk_apply (n_disk n) (AWriteAt i e)) n)) ->
    (forall n i e, R n [APreCommit i e] (set_disk (disk_apply (n_disk n) (APreCommit i e)) n)) ->
    (forall n i e, R n [ARollback i e] (set_disk (disk_apply (n_disk n) (ARollback i e)) n)) ->
    (forall n b, R n [] (set_changing b n)) -> forall es i n, ht R yes (overwrite i es) n.
  Proof. intros H1 H2 H3 H4 es. induction es; intros i n; cbn [overwrite]; go ltac:(first [apply H1 | apply H2 | apply H3 | apply H4]). apply IHes. Qed.
  Lemma append_rest_gen : (forall n e, R n [AAppend e] (set_disk (disk_apply (n_disk n) (AAppend e)) n)) ->
    (forall n i e, R n [APreCommit i e] (set_disk (disk_apply (n_disk n) (APreCommit i e)) n)) ->
    (forall n b, R n [] (set_changing b n)) -> forall es n, ht R yes (append_rest es) n.
  Proof. intros H1 H2 H4 es. induction es; intros n; cbn [append_rest]; go ltac:(first [apply H1 | apply H2 | apply H4]). apply IHes. Qed.
  Lemma find_conf_gen : forall k i c n, ht R yes (find_conf k i c) n.
  Proof. induction k; intros i c n; cbn [find_conf]; go idtac. apply IHk. Qed.
End Loops.

Ltac hyp_leaf :=
  match goal with
  | H : forall n, ht ?R yes ?m n |- ht ?R yes ?m _ => apply H
  | H : forall a n, ht ?R yes (?f a) n |- ht ?R yes (?f _) _ => apply H
  | H : forall a b n, ht ?R yes (?f a b) n |- ht ?R yes (?f _ _) _ => apply H
  | H : forall a b c n, ht ?R yes (?f a b c) n |- ht ?R yes (?f _ _ _) _ => apply H
  | H : forall a b c d n, ht ?R yes (?f a b c d) n |- ht ?R yes (?f _ _ _ _) _ => apply H
  end.
Ltac loop_leaf one :=
  match goal with
  | |- ht _ _ (cli_append _ _) _ => apply cli_append_gen; [exact _ | intros; one ..]
  | |- ht _ _ (skip_matching _ _) _ => apply skip_gen; exact _
  | |- ht _ _ (overwrite _ _) _ => apply overwrite_gen; [exact _ | intros; one ..]
  | |- ht _ _ (append_rest _) _ => apply append_rest_gen; [exact _ | intros; one ..]
  | |- ht _ _ (find_conf _ _ _) _ => apply find_conf_gen; exact _
  end.
Ltac wall one := repeat first [hyp_leaf | loop_leaf one | wstep one].
Ltac open_prims := unfold log_entry_at, log_term_at, log_entries_, log_compact, log_pack_, log_apply_pack, log_write_at, log_append, next_slot_, start_index_, last_entry_, deref,
  restart_election_timer, stop_election_timer, save_state, send_req, the_peer, peer_ids, enable_hb_for_peer, make_peer.
(** functions below the handlers *)
Ltac walk_base R one :=
  assert (W_tfl : forall i n, ht R yes (term_for_log i) n) by (intros; unfold term_for_log; open_prims; wall one);
  assert (W_snp : forall r a b c n, ht R yes (create_sync_snapshot_req r a b c) n) by (intros; unfold create_sync_snapshot_req; open_prims; wall one);
  assert (W_cae : forall r n, ht R yes (create_append_entries_req r) n) by (intros; unfold create_append_entries_req; open_prims; wall one);
  assert (W_rat : forall i n, ht R yes (request_append_entries_to i) n) by (intros; unfold request_append_entries_to; open_prims; wall one);
  assert (W_com : forall i n, ht R yes (commit i) n) by (intros; unfold commit; open_prims; wall one);
  assert (W_rae : forall n, ht R yes request_append_entries n) by (intros; unfold request_append_entries; open_prims; wall one);
  assert (W_isl : forall now n, ht R yes (is_leader now) n) by (intros; unfold is_leader; open_prims; wall one).
Ltac walk_down R one :=
  assert (W_bef : forall n, ht R yes become_follower n) by (intros; unfold become_follower; open_prims; wall one);
  assert (W_upt : forall t n, ht R yes (update_term t) n) by (intros; unfold update_term; open_prims; wall one).
Ltac walk_reconf R one :=
  assert (W_rec : forall c n, ht R yes (reconfigure c) n) by (intros; unfold reconfigure; open_prims; wall one).
Ltac walk_lead R one :=
  assert (W_bel : forall n, ht R yes become_leader n) by (intros; unfold become_leader; open_prims; wall one).
Ltac walk_cand R one :=
  assert (W_rqv : forall n, ht R yes request_vote n) by (intros; unfold request_vote; open_prims; wall one);
  assert (W_bec : forall n, ht R yes become_candidate n) by (intros; unfold become_candidate; open_prims; wall one).
Ltac walk_prevote R one :=
  assert (W_rqp : forall n, ht R yes request_prevote n) by (intros; unfold request_prevote; open_prims; wall one).
Ltac walk_election R one :=
  assert (W_het : forall n, ht R yes handle_election_timeout n) by (intros; unfold handle_election_timeout; open_prims; wall one).
Ltac walk_hb R one :=
  assert (W_hbt : forall i n, ht R yes (handle_hb_timeout i) n) by (intros; unfold handle_hb_timeout; open_prims; wall one).
Ltac walk_reqs R one :=
  assert (W_aer : forall q n, ht R yes (handle_append_entries q) n) by (intros; unfold handle_append_entries; open_prims; wall one);
  assert (W_vrq : forall q n, ht R yes (handle_vote_req q) n) by (intros; unfold handle_vote_req; open_prims; wall one);
  assert (W_cli : forall now q n, ht R yes (handle_cli_req now q) n) by (intros; unfold handle_cli_req; open_prims; wall one);
  assert (W_add : forall q n, ht R yes (handle_add_srv_req q) n) by (intros; unfold handle_add_srv_req, invite_srv_to_join_cluster; open_prims; wall one);
  assert (W_rmv : forall q n, ht R yes (handle_rm_srv_req q) n) by (intros; unfold handle_rm_srv_req; open_prims; wall one);
  assert (W_syn : forall q n, ht R yes (handle_log_sync_req q) n) by (intros; unfold handle_log_sync_req; open_prims; wall one);
  assert (W_ins : forall q n, ht R yes (handle_install_snapshot_req q) n) by (intros; unfold handle_install_snapshot_req, handle_snapshot_sync_req; open_prims; wall one);
  assert (W_pre : forall q n, ht R yes (handle_prevote_req q) n) by (intros; unfold handle_prevote_req; open_prims; wall one).
Ltac walk_join R one :=
  assert (W_joi : forall q n, ht R yes (handle_join_cluster_req q) n) by (intros; unfold handle_join_cluster_req; open_prims; wall one).
Ltac walk_leave R one :=
  assert (W_lea : forall q n, ht R yes (handle_leave_cluster_req q) n) by (intros; unfold handle_leave_cluster_req; open_prims; wall one).
Ltac walk_process R one :=
  assert (W_ext : forall q n, ht R yes (handle_extended_msg q) n) by (intros; unfold handle_extended_msg; open_prims; wall one);
  assert (W_pro : forall now q n, ht R yes (process_req now q) n) by (intros; unfold process_req; open_prims; wall one).
Ltac walk_resps R one :=
  assert (W_aes : forall r n, ht R yes (handle_append_entries_resp r) n) by (intros; unfold handle_append_entries_resp; open_prims; wall one);
  assert (W_iss : forall r n, ht R yes (handle_install_snapshot_resp r) n) by (intros; unfold handle_install_snapshot_resp; open_prims; wall one);
  assert (W_vrs : forall r n, ht R yes (handle_voting_resp r) n) by (intros; unfold handle_voting_resp; open_prims; wall one);
  assert (W_per : forall now r n, ht R yes (handle_peer_resp now r) n) by (intros; unfold handle_peer_resp; open_prims; wall one);
  assert (W_stn : forall i n, ht R yes (sync_log_to_new_srv i) n) by (intros; unfold sync_log_to_new_srv; open_prims; wall one);
  assert (W_rms : forall i n, ht R yes (rm_srv_from_cluster i) n) by (intros; unfold rm_srv_from_cluster, append_config; open_prims; wall one);
  assert (W_err : forall q n, ht R yes (handle_ext_resp_err q) n) by (intros; unfold handle_ext_resp_err; open_prims; wall one).
Ltac walk_prevote_resp R one :=
  assert (W_prs : forall r n, ht R yes (handle_prevote_resp r) n) by (intros; unfold handle_prevote_resp; open_prims; wall one).
Ltac walk_ext_resp R one :=
  assert (W_her : forall r n, ht R yes (handle_ext_resp r) n) by (intros; unfold handle_ext_resp; open_prims; wall one).
Ltac walk_rest R one :=
  assert (W_cst : forall n, ht R yes commit_step n) by (intros; unfold commit_step, snapshot_and_compact; open_prims; wall one);
  assert (W_snc : forall s d ok n, ht R yes (on_snapshot_completed s d ok) n) by (intros; unfold on_snapshot_completed; open_prims; wall one);
  assert (W_rep : forall now d n, ht R yes (replicate_log now d) n) by (intros; unfold replicate_log; open_prims; wall one).
Ltac walk_api R one :=
  assert (W_smt : forall now q n, ht R yes (send_msg_to_leader now q) n) by (intros; unfold send_msg_to_leader; open_prims; wall one);
  assert (W_app : forall now l n, ht R yes (append_entries now l) n) by (intros ? l ?; unfold append_entries; destruct l; open_prims; wall one);
  assert (W_ads : forall now c n, ht R yes (add_srv now c) n) by (intros; unfold add_srv; wall one);
  assert (W_rvs : forall now c n, ht R yes (remove_srv now c) n) by (intros; unfold remove_srv; wall one).
Ltac walk_rpc R one :=
  assert (W_rpc : forall now uid ext q r n, ht R yes (rpc_done now uid ext q r) n) by (intros; unfold rpc_done; open_prims; wall one).
(** everything *)
Ltac walk_everything R one :=
  walk_base R one; walk_down R one; walk_reconf R one; walk_lead R one; walk_cand R one; walk_prevote R one; walk_election R one; walk_hb R one;
  walk_reqs R one; walk_join R one; walk_leave R one; walk_process R one; walk_resps R one; walk_prevote_resp R one; walk_ext_resp R one; walk_rest R one; walk_api R one; walk_rpc R one.
Ltac walk_event one := cbn [run_event]; unfold retry; (wall one || idtac).

(** the identifier and the parameters of a server never change *)
Lemma walk_test : forall e n, ht (keeps (fun n => (n_id n, n_prm n))) yes (run_event e) n.
Proof.
  set (R := keeps (fun n => (n_id n, n_prm n))). assert (P : preorder R) by exact _.
  walk_everything R ltac:(unfold R; kp).
  intros e n. destruct e; cbn [run_event]; unfold retry; wall ltac:(unfold R; kp).
  apply W_rpc.
Qed.
