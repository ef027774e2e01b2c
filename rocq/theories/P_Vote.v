(** * Properties C28, C39, C53: vote and pre-vote requests, responses *)

From Verif Require Import Base Buffer Codec CodecSpec Msg FsLogStore FsLogSpec Alog Raft RaftQuiet RaftWalk NodeSpec NodeExamples ServerSpec NodeFacts.
Local Open Scope N_scope.

(** what the code compares with is the end of the log *)
Lemma vote_log_okay_spec : forall q n, end_in_log n ->
  vote_log_okay q (n_log n) = true <-> up_to_date (rq_last_term q) (rq_last_idx q) n.
Proof.
  intros q n [H1 H2].
  assert (HT : ev_term (a_last (n_log n)) = last_term n).
  { unfold last_term, last_index. destruct (al_ents (n_log n)) as [|e es] eqn:E.
    - destruct H2 as [H2|H2]; [|destruct H2; reflexivity]. unfold a_next, a_last. rewrite E, H2. reflexivity.
    - rewrite a_last_get by (rewrite E; discriminate).
      replace (a_next (n_log n) - 1 =? 0) with false; [reflexivity|]. unfold a_next, lenN in *. rewrite E.
      cbn [length]. symmetry. apply N.eqb_neq. lia. }
  unfold vote_log_okay, up_to_date. rewrite HT. fold (last_index n). split.
  - intros H. apply orb_prop in H. destruct H as [H|H]; [left; lia | right]. apply andb_prop in H. lia.
  - intros [H|[H G]]; apply orb_true_iff; [left; lia | right]. apply andb_true_iff. lia.
Qed.

(** ** C28: a vote is granted exactly to an up-to-date candidate of the current term

    [t] and [v] are the server's term and vote once it has noticed the term of
    the request.  Apart from noticing the term ([arrived]) only the vote changes.
    Missing: a log whose last entry is compacted away ([C28_vote_refuted]). *)
Theorem C28_vote_partial : forall now q n,
  rq_type q = vote_request -> end_in_log n ->
  let t := N.max (n_term n) (rq_term q) in
  let v := if n_term n <? rq_term q then (-1)%Z else n_vote n in
  let n1 := arrived (rq_term q) n in
  exists r n' l, run_event (ERequest now q) n = (ROk (Response r), n', l) /\
    (rs_accepted r = true <->
       rq_term q = t /\ (v = (-1)%Z \/ v = rq_src q) /\ up_to_date (rq_last_term q) (rq_last_idx q) n) /\
    n' = (if rs_accepted r
          then set_disk (disk_with_state (rq_term q) (rq_src q) (n_disk n1)) (set_vote (rq_src q) n1) else n1) /\
    n_log n' = n_log n /\ n_term n' = t.
Proof.
  intros now q n Ht He t v n1.
  assert (Ap : process_req now q n = after (arrived_acts (rq_term q) n) (handle_vote_req q n1))
    by (rewrite process_peer_req; rewrite Ht; reflexivity).
  assert (F : n_term n1 = t /\ n_vote n1 = v /\ n_log n1 = n_log n).
  { unfold n1, t, v, arrived. destruct (n_term n <? rq_term q) eqn:E.
    - change (n_steps (with_term (rq_term q) n)) with (n_steps n).
      destruct (0 <? n_steps n)%Z; (split; [cbn; lia|]; split; reflexivity).
    - destruct (0 <? n_steps n)%Z; (split; [cbn [set_steps n_term]; lia|]; split; reflexivity). }
  destruct F as (F1 & F2 & F3).
  assert (Hv := vote_log_okay_spec q n He).
  unfold handle_vote_req in Ap. rewrite bind_get in Ap. rewrite F1, F2, F3 in Ap.
  destruct ((rq_term q =? t) && vote_log_okay q (n_log n) && ((v =? rq_src q)%Z || (v =? -1)%Z)) eqn:G.
  - apply andb_prop in G. destruct G as [G G3]. apply andb_prop in G. destruct G as [G1 G2].
    rewrite bind_modify in Ap. unfold save_state in Ap. rewrite bind_assoc, bind_get, bind_assoc, bind_get, bind_emit in Ap.
    change (n_term (set_vote (rq_src q) n1)) with (n_term n1) in Ap. rewrite F1 in Ap.
    cbn [run_event]. erewrite bind_ok by (rewrite Ap; reflexivity). unfold after, ret. cbn [fst snd].
    eexists _, _, _. split; [reflexivity|]. split.
    { split; [|reflexivity]. intros _. split; [lia|]. split; [|apply Hv, G2].
      apply orb_prop in G3. destruct G3; [right | left]; lia. }
    cbn [rs_accepted accept]. replace (rq_term q) with t by lia.
    split; [reflexivity|]. split; [exact F3 | exact F1].
  - cbn [run_event]. erewrite bind_ok by (rewrite Ap; reflexivity). unfold after, ret. cbn [fst snd].
    eexists _, _, _. split; [reflexivity|]. split.
    { split; [discriminate|]. intros (H1 & H2 & H3). exfalso. apply Hv in H3.
      assert (GG : (rq_term q =? t) && vote_log_okay q (n_log n) && ((v =? rq_src q)%Z || (v =? -1)%Z) = true).
      { rewrite H3. destruct H2; lia. }
      congruence. }
    split; [reflexivity|]. split; [exact F3 | exact F1].
Qed.

(** a follower in term 2 whose log ends with (2, 3) *)
Definition ex_v1 : node :=
  start_node 1 ex_prm (mkDisk (Some (2, (-1)%Z)) ex_cfg (mkAL 1 [ex_ent 1 x61; ex_ent 2 x62; ex_ent 2 x63]) 0 None []).
Example C28_example : end_in_log ex_v1 /\
  map (fun q => match fst (fst (run_event (ERequest 0 q) ex_v1)) with ROk (Response r) => Some (rs_accepted r) | _ => None end)
    [ex_vote 2 2 2 3; ex_vote 2 2 2 2; ex_vote 3 2 1 9; ex_vote 3 2 3 1; ex_vote 1 2 9 9]
  = [Some true; Some false; Some false; Some true; Some false].
Proof. split; [split; [cbn; lia | left; reflexivity] | vm_compute; reflexivity]. Qed.

(** A server that has compacted its whole log (three entries of term 3, a
    snapshot covering all, no reserved items) votes for a candidate whose last
    entry has term 1. *)
Definition ex_prm0 : params := mkParams 300 150 75 25 1000 10 1 0 100 0 false true.
Definition ex_snp3 : snapshot := mkSnp 3 3 0 ex_cfg.
Definition ex_compacted : list obs * sys :=
  run_cmds 1 ex_prm0 (Down ex_disk)
    [CStart; CEvent (ERequest 0 (ex_ae 3 2 0 0 3 [ex_ent 3 x61; ex_ent 3 x62; ex_ent 3 x63]));
     CEvent ECommit; CEvent ECommit; CEvent (ESnapshot ex_snp3 [] false); CEvent ECommit; CEvent (ESnapshot ex_snp3 [x00] true)].
Definition up_of (id : Z) (pm : params) (s : sys) : node := match s with Up n => n | Down d => start_node id pm d end.
Theorem C28_vote_refuted : exists id pm d h n now q,
  disk_okay d /\ life id pm (Down d) h (Up n) /\ rq_type q = vote_request /\
  ~ up_to_date (rq_last_term q) (rq_last_idx q) n /\
  exists r n' l, run_event (ERequest now q) n = (ROk (Response r), n', l) /\ rs_accepted r = true.
Proof.
  exists 1%Z, ex_prm0, ex_disk, (fst ex_compacted), (up_of 1 ex_prm0 (snd ex_compacted)), 0, (ex_vote 4 3 1 2).
  split; [unfold disk_okay; cbn; lia|]. split.
  { replace (Up (up_of 1 ex_prm0 (snd ex_compacted))) with (snd ex_compacted) by (vm_compute; reflexivity). apply run_cmds_life. }
  split; [reflexivity|].
  assert (E : last_term (up_of 1 ex_prm0 (snd ex_compacted)) = 3) by (vm_compute; reflexivity).
  split; [unfold up_to_date; rewrite E; cbn; lia|].
  eexists _, _, _. split; [vm_compute; reflexivity | reflexivity].
Qed.

(** ** C39: a pre-vote request has no effect on the server asked *)
Theorem C39_prevote_no_effect : forall now q n, rq_type q = prevote_request ->
  exists r, run_event (ERequest now q) n = (ROk (Response r), n, []).
Proof.
  intros now q n Ht. eexists. apply run_request. rewrite (process_prevote now q n Ht). unfold handle_prevote_req. rewrite bind_get.
  reflexivity.
Qed.
(** ... and is granted as stated.  Missing: a log whose last entry is compacted away
    ([C39_prevote_refuted]). *)
Theorem C39_prevote_granted_partial : forall now q n r n' l, rq_type q = prevote_request -> end_in_log n ->
  run_event (ERequest now q) n = (ROk (Response r), n', l) ->
  rs_accepted r = true <->
    n_term n <= rq_term q /\ up_to_date (rq_last_term q) (rq_last_idx q) n /\
    (pm_defensive (n_prm n) = true -> n_prevote n <> None).
Proof.
  intros now q n r n' l Ht He H. assert (Hv := vote_log_okay_spec q n He). apply run_request in H.
  rewrite (process_prevote now q n Ht) in H. unfold handle_prevote_req in H. rewrite bind_get in H.
  unfold ret in H. inversion H; subst. clear H.
  destruct (vote_log_okay q (n_log n')) eqn:G; [assert (HV := proj1 Hv eq_refl) | assert (HV : ~ up_to_date (rq_last_term q) (rq_last_idx q) n') by (intros X; apply Hv in X; discriminate)];
  destruct (n_term n' <=? rq_term q) eqn:G2; cbn [andb];
  destruct (pm_defensive (n_prm n')); try destruct (n_prevote n'); cbn [andb rs_accepted resp_of accept];
  (split; [first [discriminate | intros _; split; [lia|]; split; [exact HV|]; intros; discriminate] | intros (X1 & X2 & X3); try reflexivity; try contradiction; try lia; exfalso; apply X3; reflexivity]).
Qed.
Definition ex_pv : req := mkReq 2 prevote_request 2 1 2 3 0 [].
Example C39_example : rq_type ex_pv = prevote_request /\ end_in_log ex_v1 /\
  fst (fst (run_event (ERequest 0 ex_pv) ex_v1)) = ROk (Response (mkResp 2 prevote_response 1 2 0 false)) /\
  fst (fst (run_event (ERequest 0 ex_pv) (set_prevote (Some (1%Z, [1%Z])) ex_v1))) = ROk (Response (mkResp 2 prevote_response 1 2 4 true)).
Proof. split; [reflexivity|]. split; [split; [cbn; lia | left; reflexivity]|]. split; vm_compute; reflexivity. Qed.

(** A server that has compacted its whole log grants a pre-vote to a requester whose last
    entry has an older term. *)
Definition ex_prm1d : params := mkParams 300 150 75 25 1000 10 1 0 100 0 true false.
Definition ex_compacted_d : list obs * sys :=
  run_cmds 1 ex_prm1d (Down ex_disk)
    [CStart; CEvent (ERequest 0 (ex_ae 3 2 0 0 3 [ex_ent 3 x61; ex_ent 3 x62; ex_ent 3 x63]));
     CEvent ECommit; CEvent ECommit; CEvent (ESnapshot ex_snp3 [] false); CEvent ECommit; CEvent (ESnapshot ex_snp3 [x00] true)].
Theorem C39_prevote_refuted : exists id pm d h n now q,
  disk_okay d /\ life id pm (Down d) h (Up n) /\ rq_type q = prevote_request /\
  ~ up_to_date (rq_last_term q) (rq_last_idx q) n /\
  exists r n' l, run_event (ERequest now q) n = (ROk (Response r), n', l) /\ rs_accepted r = true.
Proof.
  exists 1%Z, ex_prm1d, ex_disk, (fst ex_compacted_d), (up_of 1 ex_prm1d (snd ex_compacted_d)), 0, (mkReq 4 prevote_request 3 1 1 2 0 []).
  split; [unfold disk_okay; cbn; lia|]. split.
  { replace (Up (up_of 1 ex_prm1d (snd ex_compacted_d))) with (snd ex_compacted_d) by (vm_compute; reflexivity). apply run_cmds_life. }
  split; [reflexivity|].
  assert (E : last_term (up_of 1 ex_prm1d (snd ex_compacted_d)) = 3) by (vm_compute; reflexivity).
  split; [unfold up_to_date; rewrite E; cbn; lia|].
  eexists _, _, _. split; [vm_compute; reflexivity | reflexivity].
Qed.

(** ** C53: responses carry the server's identity and term *)
Definition response_type (t : byte) : byte :=
  if beq t vote_request then vote_response
  else if beq t append_entries_request then append_entries_response
  else if beq t client_request then append_entries_response
  else if beq t add_server_request then add_server_response
  else if beq t remove_server_request then remove_server_response
  else if beq t sync_log_request then sync_log_response
  else if beq t join_cluster_request then join_cluster_response
  else if beq t leave_cluster_request then leave_cluster_response
  else if beq t install_snapshot_request then install_snapshot_response
  else if beq t prevote_request then prevote_response
  else x00.
(** requests that come from clients and administrators; the others come from servers *)
Definition from_client (t : byte) : bool := beq t client_request || beq t add_server_request || beq t remove_server_request.

Ltac run_any :=
  repeat match goal with
  | |- ht any _ (bind (get _) _) _ => apply ht_bget; cbv beta
  | |- ht any _ (ret _) _ => apply ht_ret; [exact _|]
  | |- ht any _ (system_exit _) _ => apply ht_exit; exact I
  | |- ht any _ (bind _ _) _ => eapply ht_seq; [exact _ | apply any_yes | intros ? ? ? _ _]
  | |- ht any _ (if ?b then _ else _) _ => destruct b eqn:?
  | |- ht any _ (match ?b with _ => _ end) _ => destruct b eqn:?
  end.

(** source, type, destination and term of a response *)
Definition speaks (r : resp_msg) (id dst : Z) (ty : byte) (t : N) : Prop :=
  rs_src r = id /\ rs_type r = ty /\ rs_dst r = dst /\ rs_term r = t.
Lemma ext_speaks : forall q n, beq (rq_type q) install_snapshot_request = false ->
  beq (rq_type q) vote_request = false -> beq (rq_type q) append_entries_request = false -> beq (rq_type q) client_request = false ->
  ht any (fun r _ => speaks r (n_id n) (if from_client (rq_type q) then n_leader n else rq_src q) (response_type (rq_type q)) (n_term n))
    (handle_extended_msg q) n.
Proof.
  intros q n H1 H2 H3 H4. unfold handle_extended_msg, response_type, from_client. rewrite H1, H2, H3, H4. cbn [orb].
  destruct (beq (rq_type q) add_server_request); [unfold handle_add_srv_req; run_any; repeat split|].
  destruct (beq (rq_type q) remove_server_request); [unfold handle_rm_srv_req; run_any; repeat split|].
  destruct (beq (rq_type q) sync_log_request); [unfold handle_log_sync_req; run_any; repeat split|].
  destruct (beq (rq_type q) join_cluster_request); [unfold handle_join_cluster_req; run_any; repeat split|].
  destruct (beq (rq_type q) leave_cluster_request); [unfold handle_leave_cluster_req; run_any; repeat split|].
  destruct (beq (rq_type q) prevote_request); [unfold handle_prevote_req; run_any|run_any].
  destruct (pm_defensive (n_prm n)); destruct ((n_term n <=? rq_term q) && _); try destruct (n_prevote n); repeat split.
Qed.
Lemma install_speaks : forall q n,
  ht any (fun r _ => speaks r (n_id n) (rq_src q) install_snapshot_response (n_term n)) (handle_install_snapshot_req q) n.
Proof.
  intros q n. unfold handle_install_snapshot_req.
  run_any; try match goal with |- speaks (if ?b then _ else _) _ _ _ _ => destruct b end; repeat split.
Qed.
Lemma vote_speaks : forall q n,
  ht keeps_term (fun r _ => speaks r (n_id n) (rq_src q) vote_response (n_term n)) (handle_vote_req q) n.
Proof.
  intros q n. unfold handle_vote_req, save_state. hstep. hstep.
  - hstep; [reflexivity|]. hstep. hstep. hstep. hstep. hstep; [reflexivity|]. hstep. repeat split.
  - hstep. repeat split.
Qed.
Lemma quiet_keeps : forall A (m : M A) n (Q : A -> node -> Prop), ht quiet Q m n -> ht keeps_term Q m n.
Proof. intros A m n Q H. eapply ht_rel; [exact H|]. intros l n' Hq. unfold keeps_term. apply (quiet_log _ _ _ Hq). Qed.
Lemma skip_keeps : forall es i n, ht keeps_term yes (skip_matching i es) n.
Proof.
  induction es as [|e es IH]; intros i n; cbn [skip_matching]; [hstep; exact I|].
  unfold next_slot_, log_term_at. hstep. hstep; [|hstep; exact I]. hstep. hstep.
  hstep; [hstep|]. destruct (a_get (n_log n) i); [|hstep]. hstep. hstep; [apply IH | hstep; exact I].
Qed.
Lemma overwrite_keeps : forall es i n, ht keeps_term yes (overwrite i es) n.
Proof.
  induction es as [|e es IH]; intros i n; cbn [overwrite]; [hstep; exact I|].
  unfold next_slot_, log_entry_at, log_write_at. hstep. hstep; [|hstep; exact I]. hstep. hstep.
  hstep; [hstep|]. hstep. unfold deref. destruct (a_get (n_log n) i); [|hstep]. hstep.
  eapply ht_seq; [exact _ | destruct (beq (ev_type e0) app_log); cbn [when]; [apply ht_emit; [reflexivity | exact I] | hstep; exact I] | intros ? ? ? _ _].
  eapply ht_seq; [exact _ | destruct (beq (ev_type e0) conf_log); cbn [when]; [apply ht_modify; [reflexivity | exact I] | hstep; exact I] | intros ? ? ? _ _].
  hstep. hstep. hstep; [hstep|]. hstep; [reflexivity|].
  eapply ht_seq; [exact _ | destruct (beq (ev_type e) app_log); cbn [when]; [apply ht_emit; [reflexivity | exact I] | hstep; exact I] | intros ? ? ? _ _].
  eapply ht_seq; [exact _ | destruct (beq (ev_type e) conf_log); cbn [when]; [apply ht_modify; [reflexivity | exact I] | hstep; exact I] | intros ? ? ? _ _].
  apply IH.
Qed.
Lemma append_keeps : forall es n, ht keeps_term yes (append_rest es) n.
Proof.
  induction es as [|e es IH]; intros n; cbn [append_rest]; [hstep; exact I|].
  unfold log_append, next_slot_. hstep. hstep. hstep. hstep; [reflexivity|]. hstep.
  eapply ht_seq; [exact _ | destruct (beq (ev_type e) conf_log); cbn [when]; [apply ht_modify; [reflexivity | exact I] | hstep; exact I] | intros ? ? ? _ _].
  eapply ht_seq; [exact _ | destruct (beq (ev_type e) app_log); cbn [when]; [apply ht_emit; [reflexivity | exact I] | hstep; exact I] | intros ? ? ? _ _].
  apply IH.
Qed.
Lemma timer_keeps : forall n, ht keeps_term yes restart_election_timer n.
Proof. intros n. unfold restart_election_timer. hstep. hstep; [hstep; exact I|]. hstep; [reflexivity|]. apply ht_emit; [reflexivity | exact I]. Qed.
Lemma ae_speaks : forall q n,
  ht keeps_term (fun r _ => speaks r (n_id n) (rq_src q) append_entries_response (n_term n)) (handle_append_entries q) n.
Proof.
  intros q n. unfold handle_append_entries. hstep.
  eapply ht_seq; [exact _ | | intros ? ? ? _ _].
  { destruct (rq_term q =? n_term n); cbn [when]; [|hstep; exact I]. destruct (n_role n).
    - apply timer_keeps.
    - unfold become_follower. hstep; [reflexivity|]. hstep; [reflexivity|]. hstep; [reflexivity|]. hstep; [reflexivity|]. eapply ht_seq; [exact _ | apply timer_keeps | intros ? ? ? _ _]. apply ht_emit; [reflexivity | exact I].
    - apply ht_exit. reflexivity. }
  unfold next_slot_. hstep. eapply ht_seq; [exact _ | | intros ? ? ? _ _].
  { destruct (rq_last_idx q =? 0); [hstep; exact I|]. destruct (_ <? _); [|hstep; exact I].
    eapply ht_bind; [exact _ | apply term_for_log_ht; [exact _ | reflexivity] | intros ? ? ? _ _ _]. hstep; exact I. }
  destruct (_ || _); [hstep; repeat split|].
  eapply ht_seq; [exact _ | apply skip_keeps | intros ? ? ? _ _].
  eapply ht_seq; [exact _ | apply overwrite_keeps | intros ? ? ? _ _].
  eapply ht_seq; [exact _ | apply append_keeps | intros ? ? ? _ _].
  hstep; [reflexivity|]. eapply ht_seq; [exact _ | apply quiet_keeps, commit_ht | intros ? ? ? _ _]. hstep. repeat split.
Qed.
Lemma is_leader_same : forall now n,
  ht any (fun _ n' => n_id n' = n_id n /\ n_term n' = n_term n /\ n_leader n' = n_leader n /\ n_role n' = n_role n) (is_leader now) n.
Proof.
  intros now n. unfold is_leader. hstep. hstep; [|hstep; repeat split].
  hstep; [exact I|]. hstep; hstep; repeat split.
Qed.

Theorem C53_response : forall now q n r n' l,
  run_event (ERequest now q) n = (ROk (Response r), n', l) ->
  rs_src r = n_id n /\ rs_type r = response_type (rq_type q) /\
  (from_client (rq_type q) = false -> rs_dst r = rq_src q) /\
  (rq_type q = vote_request \/ rq_type q = append_entries_request -> rs_term r = n_term n') /\
  (rq_type q = vote_request \/ rq_type q = append_entries_request \/ rq_type q = install_snapshot_request ->
     rq_term q <= rs_term r) /\
  (rq_type q = client_request \/ rq_type q = add_server_request \/ rq_type q = remove_server_request ->
     rs_dst r = n_leader n \/ rs_dst r = (-1)%Z).
Proof.
  intros now q n r n' l H. apply run_request in H.
  destruct (peer_type (rq_type q)) eqn:Ep.
  - rewrite (process_peer_req now q n Ep) in H.
    assert (F : n_id (arrived (rq_term q) n) = n_id n /\ n_term (arrived (rq_term q) n) = N.max (n_term n) (rq_term q)).
    { unfold arrived. destruct (n_term n <? rq_term q) eqn:E.
      - change (n_steps (with_term (rq_term q) n)) with (n_steps n). destruct (0 <? n_steps n)%Z; (split; [reflexivity | cbn; lia]).
      - destruct (0 <? n_steps n)%Z; (split; [reflexivity | cbn [set_steps n_term]; lia]). }
    destruct F as [F1 F2]. set (n1 := arrived (rq_term q) n) in *.
    unfold response_type, from_client. unfold peer_type in Ep.
    destruct (beq (rq_type q) append_entries_request) eqn:E1.
    { apply Byte.byte_dec_bl in E1. destruct (handle_append_entries q n1) as [[x n2] l2] eqn:E. inversion H; subst.
      destruct (ae_speaks q n1 _ _ _ E) as [K S]. specialize (S r eq_refl). destruct S as (S1 & S2 & S3 & S4). unfold keeps_term in K.
      rewrite E1. cbn. repeat split; try congruence; [intros _; lia|]. intros [X|[X|X]]; discriminate. }
    destruct (beq (rq_type q) vote_request) eqn:E2.
    { apply Byte.byte_dec_bl in E2. destruct (handle_vote_req q n1) as [[x n2] l2] eqn:E. inversion H; subst.
      destruct (vote_speaks q n1 _ _ _ E) as [K S]. specialize (S r eq_refl). destruct S as (S1 & S2 & S3 & S4). unfold keeps_term in K.
      rewrite E2. cbn. repeat split; try congruence; [intros _; lia|]. intros [X|[X|X]]; discriminate. }
    cbn [orb] in Ep. apply Byte.byte_dec_bl in Ep. destruct (handle_install_snapshot_req q n1) as [[x n2] l2] eqn:E. inversion H; subst.
    destruct (install_speaks q n1 _ _ _ E) as [_ S]. specialize (S r eq_refl). destruct S as (S1 & S2 & S3 & S4).
    rewrite Ep. cbn. repeat split; try congruence.
    + intros [X|X]; discriminate.
    + intros _. lia.
    + intros [X|[X|X]]; discriminate.
  - assert (En : rq_type q <> vote_request /\ rq_type q <> append_entries_request /\ rq_type q <> install_snapshot_request).
    { repeat split; intros X; rewrite X in Ep; discriminate. }
    destruct En as (N1 & N2 & N3). rewrite (process_other_req now q n Ep) in H.
    apply orb_false_iff in Ep. destruct Ep as [Ep E3]. apply orb_false_iff in Ep. destruct Ep as [E1 E2].
    destruct (beq (rq_type q) client_request) eqn:E4.
    + assert (S : ht any (fun r _ => rs_src r = n_id n /\ rs_type r = append_entries_response /\ (rs_dst r = n_leader n \/ rs_dst r = (-1)%Z)) (handle_cli_req now q) n).
      { unfold handle_cli_req. eapply ht_bind; [exact _ | apply is_leader_same|]. intros b n1 l1 _ _ (K1 & K2 & K3 & K4).
        run_any; cbn; rewrite ?K1, ?K3; (split; [reflexivity|]; split; [reflexivity|]; tauto). }
      destruct (S _ _ _ H) as [_ P]. specialize (P r eq_refl). destruct P as (P1 & P2 & P3).
      apply Byte.byte_dec_bl in E4. unfold response_type, from_client. rewrite E4. cbn.
      repeat split; try congruence; intros; intuition congruence.
    + destruct (ext_speaks q n E3 E2 E1 E4 _ _ _ H) as [_ S]. specialize (S r eq_refl). destruct S as (S1 & S2 & S3 & S4).
      split; [exact S1|]. split; [exact S2|]. split; [intros X; rewrite X in S3; exact S3|].
      split; [intros [X|X]; contradiction|]. split; [intros [X|[X|X]]; contradiction|].
      intros X. left. replace (from_client (rq_type q)) with true in S3; [exact S3|].
      unfold from_client. destruct X as [X|[X|X]]; rewrite X; reflexivity.
Qed.
Example C53_example :
  run_event (ERequest 0 (ex_vote 3 2 3 1)) ex_v1
  = (ROk (Response (mkResp 3 vote_response 1 2 4 true)), snd (fst (run_event (ERequest 0 (ex_vote 3 2 3 1)) ex_v1)),
     [ASaveState 3 (-1); ATimer true; ABecomeFollower; ASaveState 3 2]).
Proof. vm_compute. reflexivity. Qed.

Print Assumptions C28_vote_partial.
Print Assumptions C28_vote_refuted.
Print Assumptions C39_prevote_no_effect.
Print Assumptions C39_prevote_granted_partial.
Print Assumptions C39_prevote_refuted.
Print Assumptions C53_response.
