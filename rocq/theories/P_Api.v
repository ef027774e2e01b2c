(** * Properties C54, C57 and C58: malformed administrative requests, results of
      the asynchronous API, restart *)

From Verif Require Import Base Buffer Codec CodecSpec Msg FsLogStore FsLogSpec Alog Raft RaftQuiet RaftWalk NodeSpec NodeFacts NodeExamples P_Leader P_Peer.
Local Open Scope N_scope.

(** ** C58 *)
Lemma start_ids : forall id pm l u i, In i (map p_id (start_peers id pm u l)) <-> i <> id /\ In i (map sc_id l).
Proof.
  intros id pm l. induction l as [|s l IH]; intros u i; cbn [start_peers map].
  - cbn. tauto.
  - destruct (sc_id s =? id)%Z eqn:E.
    + rewrite IH. cbn. split; [tauto|]. intros [H [H1|H1]]; [lia | tauto].
    + cbn [map]. change (p_id (new_peer u s pm)) with (sc_id s). cbn [In]. rewrite in_map_iff. split.
      * intros [<-|(p & <- & Hp)]; [split; [lia | auto]|]. apply filter_In in Hp. destruct Hp as [Hp _].
        assert (X : In (p_id p) (map p_id (start_peers id pm (u + 1) l))) by (apply in_map, Hp). apply IH in X. tauto.
      * intros [H [->|H1]]; [auto|]. destruct (Z.eq_dec (sc_id s) i) as [e|e]; [auto|]. right.
        assert (X : In i (map p_id (start_peers id pm (u + 1) l))) by (apply IH; auto). apply in_map_iff in X. destruct X as (p & <- & Hp).
        exists p. split; [reflexivity|]. apply filter_In. split; [exact Hp|]. destruct (p_id p =? sc_id s)%Z eqn:F; [lia | reflexivity].
Qed.
Lemma nth_skipn : forall A (l : list A) a k, nth_error (skipn a l) k = nth_error l (a + k).
Proof. intros A l. induction l as [|x l IH]; intros a k; [rewrite skipn_nil; destruct (a + k)%nat, k; reflexivity|]. destruct a; [reflexivity|]. cbn. apply IH. Qed.
Lemma pending_spec : forall d, pending_config d = true <->
  exists i e, dk_commit d < i /\ a_get (dk_log d) i = Some e /\ ev_type e = conf_log.
Proof.
  intros d. unfold pending_config. set (s := al_start (dk_log d)). set (from := N.max (dk_commit d + 1) s). rewrite existsb_exists. split.
  - intros (e & Hin & Ht). apply In_nth_error in Hin. destruct Hin as (k & Hk). rewrite nth_skipn in Hk.
    exists (from + N.of_nat k), e. split; [lia|]. split.
    + unfold a_get. fold s. replace (from + N.of_nat k <? s) with false by lia. rewrite <- Hk. f_equal. lia.
    + unfold beq in Ht. apply Byte.byte_dec_bl. exact Ht.
  - intros (i & e & Hi & Hg & Ht). exists e. assert (B := a_get_some _ _ _ Hg). fold s in B. split.
    + unfold a_get in Hg. fold s in Hg. replace (i <? s) with false in Hg by lia. apply nth_error_In with (n := N.to_nat (i - from)).
      rewrite nth_skipn. rewrite <- Hg. f_equal. lia.
    + rewrite Ht. reflexivity.
Qed.
(** a server that starts has what was stored: term and vote, log, membership; a
    configuration change is pending iff a configuration entry is above the index
    the state machine reports as committed *)
Theorem C58_restart : forall id pm d, let n := start_node id pm d in
  n_role n = Follower /\ (n_term n, n_vote n) = saved d /\ n_log n = dk_log d /\ n_config n = dk_config d /\
  (forall i, In i (map p_id (n_peers n)) <-> i <> id /\ In i (map sc_id (cc_servers (dk_config d)))) /\
  (n_changing n = true <-> exists i e, dk_commit d < i /\ a_get (dk_log d) i = Some e /\ ev_type e = conf_log).
Proof.
  intros id pm d n. subst n. assert (S := start_ids id pm (cc_servers (dk_config d)) 0). assert (P := pending_spec d). unfold start_node, saved.
  destruct (match dk_state d with Some x => x | None => _ end) as [t v]. cbn [n_role n_term n_vote n_log n_disk n_config n_peers n_changing].
  split; [reflexivity|]. split; [reflexivity|]. split; [reflexivity|]. split; [reflexivity|]. split; [exact S | exact P].
Qed.
(** and a server with a pending change, wherever it comes from, refuses another *)
Theorem C58_refuses : forall now q n, n_changing n = true ->
  rq_type q = add_server_request \/ rq_type q = remove_server_request ->
  exists x, run_event (ERequest now q) n = (x, n, []) /\ (forall r, x = ROk (Response r) -> rs_accepted r = false).
Proof.
  intros now q n Hc Ht.
  assert (G : forall (m : M resp_msg) x, m n = (x, n, []) -> (forall r, x = ROk r -> rs_accepted r = false) ->
    exists x, bind m (fun r => ret (Response r)) n = (x, n, []) /\ (forall r, x = ROk (Response r) -> rs_accepted r = false)).
  { intros m x E Hx. unfold bind. rewrite E. destruct x as [r|e|u|]; cbn [ret]; (eexists; split; [reflexivity|]); intros r0 H; inversion H; subst. apply Hx. reflexivity. }
  assert (X : exists x, process_req now q n = (x, n, []) /\ (forall r, x = ROk r -> rs_accepted r = false)).
  { unfold process_req, handle_extended_msg. destruct Ht as [-> | ->].
    - change (beq add_server_request append_entries_request || beq add_server_request vote_request || beq add_server_request install_snapshot_request) with false.
      change (beq add_server_request append_entries_request) with false. change (beq add_server_request vote_request) with false. change (beq add_server_request client_request) with false.
      change (beq add_server_request add_server_request) with true. cbn [when]. rewrite bind_ret. unfold handle_add_srv_req. rewrite bind_get.
      destruct (rq_entries q) as [|e [|]]; try (eexists; split; [reflexivity|]; intros r H; inversion H; reflexivity).
      destruct (negb _); [eexists; split; [reflexivity|]; intros r H; inversion H; reflexivity|].
      destruct (n_role n); try (eexists; split; [reflexivity|]; intros r H; inversion H; reflexivity).
      unfold lift, bind. destruct (parse_srv (ev_data e)); try (eexists; split; [reflexivity|]; intros r H; inversion H; reflexivity).
      destruct (_ || _); [eexists; split; [reflexivity|]; intros r H; inversion H; reflexivity|]. rewrite Hc. eexists. split; [reflexivity|]. intros r H. inversion H. reflexivity.
    - change (beq remove_server_request append_entries_request || beq remove_server_request vote_request || beq remove_server_request install_snapshot_request) with false.
      change (beq remove_server_request append_entries_request) with false. change (beq remove_server_request vote_request) with false. change (beq remove_server_request client_request) with false.
      change (beq remove_server_request add_server_request) with false. change (beq remove_server_request remove_server_request) with true. cbn [when]. rewrite bind_ret. unfold handle_rm_srv_req. rewrite bind_get.
      destruct (rq_entries q) as [|e [|]]; try (eexists; split; [reflexivity|]; intros r H; inversion H; reflexivity).
      destruct (negb _); [eexists; split; [reflexivity|]; intros r H; inversion H; reflexivity|].
      destruct (n_role n); try (eexists; split; [reflexivity|]; intros r H; inversion H; reflexivity).
      rewrite Hc. eexists. split; [reflexivity|]. intros r H. inversion H. reflexivity. }
  destruct X as (x & E & Hx). cbn [run_event]. exact (G _ x E Hx).
Qed.
(** the disk of a server that crashed as leader with an uncommitted configuration entry *)
Definition ex_crash : list obs * sys := run_cmds 1 ex_prm (Down ex_disk) (ex_lead_cmds ++ [CCrash (EReplicate 1000 [x63]) 1]).
Definition ex_crash_disk : disk := match snd ex_crash with Down d => d | Up n => n_disk n end.
Example C58_example : life 1 ex_prm (Down ex_disk) (fst ex_crash) (Down ex_crash_disk) /\
  (let n := start_node 1 ex_prm ex_crash_disk in
   n_term n = 1 /\ n_vote n = 1%Z /\ a_next (n_log n) = 5 /\ map p_id (n_peers n) = [2; 3]%Z /\ n_changing n = true).
Proof.
  split.
  - replace (Down ex_crash_disk) with (snd ex_crash) by (vm_compute; reflexivity). apply run_cmds_life.
  - cbv zeta. split; [vm_compute; reflexivity|]. split; [vm_compute; reflexivity|]. split; [vm_compute; reflexivity|]. split; vm_compute; reflexivity.
Qed.

(** ** C57 *)
(** the request each API call stands for (include/raft_server.hxx:71-93) *)
Definition api_call (e : event) : option (N * req) :=
  match e with
  | EAppend now (d :: ds) => Some (now, api_req client_request (map (mkEV 0 app_log) (d :: ds)))
  | EAddSrv now c => Some (now, api_req add_server_request [mkEV 0 cluster_server (srv_bytes c)])
  | ERemoveSrv now id => Some (now, api_req remove_server_request [mkEV 0 cluster_server (int_b id)])
  | _ => None
  end.
Lemma api_run : forall e now q n, api_call e = Some (now, q) -> run_event e n = bind (send_msg_to_leader now q) (fun r => ret (Async r)) n.
Proof. intros e now q n H. destruct e; try discriminate; cbn in H; [destruct logs; [discriminate|]|..]; injection H as <- <-; reflexivity. Qed.
(** no leader known: false at once, and nothing happens *)
Theorem C57_no_leader : forall e now q n, api_call e = Some (now, q) -> n_leader n = (-1)%Z ->
  run_event e n = (ROk (Async (Now false)), n, []).
Proof.
  intros e now q n H Hl. rewrite (api_run _ _ _ _ H). unfold send_msg_to_leader. rewrite bind_assoc, bind_get, Hl. reflexivity.
Qed.
(** the server itself is the leader it knows: the verdict is that of handling
    the request here, with the same effects *)
Theorem C57_local : forall e now q n, api_call e = Some (now, q) -> n_leader n <> (-1)%Z -> n_leader n = n_id n ->
  match run_event (ERequest now q) n with
  | (ROk (Response r), n', l) => run_event e n = (ROk (Async (Now (rs_accepted r))), n', l)
  | (ROk _, _, _) => False
  | (RThrow x, n', l) => run_event e n = (RThrow x, n', l)
  | (RUB x, n', l) => run_event e n = (RUB x, n', l)
  | (RExit, n', l) => run_event e n = (RExit, n', l)
  end.
Proof.
  intros e now q n H Hl Hi. rewrite (api_run _ _ _ _ H). unfold send_msg_to_leader. rewrite bind_assoc, bind_get.
  replace (n_leader n =? -1)%Z with false by lia. replace (n_leader n =? n_id n)%Z with true by lia.
  cbn [run_event]. rewrite bind_assoc. unfold bind, ret. destruct (process_req now q n) as [[[r|x|u|] n1] l]; rewrite ?app_nil_r; reflexivity.
Qed.
(** another server is the leader: exactly one copy of the request goes there, over the client that
    was made for it before or to its configured endpoint, and the result comes with the answer; false
    at once if there is neither *)
Theorem C57_forward : forall e now q n, api_call e = Some (now, q) -> n_leader n <> (-1)%Z -> n_leader n <> n_id n ->
  (exists ep, In (n_leader n, ep) (n_clients n) /\ run_event e n = (ROk (Async Later), n, [AForward (n_leader n) ep q])) \/
  ((forall ep, ~ In (n_leader n, ep) (n_clients n)) /\
   ((exists s, In s (cc_servers (n_config n)) /\ sc_id s = n_leader n /\
      run_event e n = (ROk (Async Later), set_clients ((n_leader n, sc_endpoint s) :: n_clients n) n, [AForward (n_leader n) (sc_endpoint s) q])) \/
    ((forall s, In s (cc_servers (n_config n)) -> sc_id s <> n_leader n) /\ run_event e n = (ROk (Async (Now false)), n, [])))).
Proof.
  intros e now q n H Hl Hi. rewrite (api_run _ _ _ _ H). unfold send_msg_to_leader. rewrite bind_assoc, bind_get.
  replace (n_leader n =? -1)%Z with false by lia. replace (n_leader n =? n_id n)%Z with false by lia. unfold cfg_server.
  destruct (find _ (n_clients n)) as [[i ep]|] eqn:C.
  { apply find_some in C. destruct C as [C1 C2]. cbn in C2. left. exists ep. replace i with (n_leader n) in C1 by lia. split; [exact C1|].
    rewrite bind_assoc, bind_emit. unfold after, ret. cbn. rewrite ?bind_ret. cbn. unfold bind, ret. cbn. destruct n; reflexivity. }
  right. split; [intros ep X; assert (Y := find_none _ _ C _ X); cbn in Y; lia|].
  destruct (find _ (cc_servers _)) as [s|] eqn:F.
  - apply find_some in F. destruct F as [F1 F2]. left. exists s. split; [exact F1|]. split; [lia|].
    unfold bind, modify, emit, ret. cbn. destruct n; reflexivity.
  - right. split; [|reflexivity]. intros s Hs. assert (Y := find_none _ _ F s Hs). cbn in Y. lia.
Qed.
(** what a forwarded request's result is set to: the leader's verdict, or an error *)
Lemma forward_result_eq : forall x, forward_result x =
  match x with Some r => (rs_accepted r, false) | None => (false, true) end.
Proof. reflexivity. Qed.
(** an empty batch *)
Theorem C57_empty : forall now n, run_event (EAppend now []) n = (ROk (Async (Now false)), n, []).
Proof. reflexivity. Qed.
Example C57_example :
  let q := api_req client_request [mkEV 0 app_log [x61]] in
  api_call (EAppend 1000 [[x61]]) = Some (1000, q) /\
  n_leader (start_node 1 ex_prm ex_disk) = (-1)%Z /\
  n_leader ex_l = n_id ex_l /\ fst (fst (run_event (EAppend 1000 [[x61]]) ex_l)) = ROk (Async (Now true)) /\
  (let n := snd (fst (run_event (ERequest 0 (ex_ae 1 2 0 0 0 [])) (start_node 1 ex_prm ex_disk))) in
   n_leader n = 2%Z /\ n_id n = 1%Z /\ snd (run_event (EAppend 1000 [[x61]]) n) = [AForward 2 (sc_endpoint (ex_srv 2)) q]).
Proof.
  cbv zeta. split; [reflexivity|]. split; [vm_compute; reflexivity|]. split; [vm_compute; reflexivity|]. split; [vm_compute; reflexivity|].
  split; [vm_compute; reflexivity|]. split; vm_compute; reflexivity.
Qed.

(** ** C54 *)
(** an administrative request must carry exactly one entry, of the right type
    (remove-server: of four bytes) *)
Definition carries (q : req) (ok : entry_val -> Prop) : Prop := exists e, rq_entries q = [e] /\ ok e.
Definition wrong_shape (q : req) : Prop :=
  (rq_type q = add_server_request /\ ~ carries q (fun e => ev_type e = cluster_server)) \/
  (rq_type q = remove_server_request /\ ~ carries q (fun e => lenN (ev_data e) = 4)) \/
  (rq_type q = join_cluster_request /\ ~ carries q (fun e => ev_type e = conf_log)) \/
  (rq_type q = sync_log_request /\ ~ carries q (fun e => ev_type e = log_pack)).
Lemma beq_eq : forall a b, beq a b = true -> a = b.
Proof. intros a b H. apply Byte.byte_dec_bl. exact H. Qed.
Lemma one_entry : forall (q : req) (ok : entry_val -> Prop) (okb : entry_val -> bool), (forall e, okb e = true -> ok e) -> ~ carries q ok ->
  (forall e, rq_entries q <> [e]) \/ exists e, rq_entries q = [e] /\ okb e = false.
Proof.
  intros q ok okb Hb Hn. destruct (rq_entries q) as [|e [|e2 es]] eqn:E; [left; discriminate | | left; discriminate].
  right. exists e. split; [reflexivity|]. destruct (okb e) eqn:O; [|reflexivity]. exfalso. apply Hn. exists e. split; [exact E | auto].
Qed.
Lemma process_ext : forall now q n, beq (rq_type q) append_entries_request || beq (rq_type q) vote_request || beq (rq_type q) install_snapshot_request = false ->
  beq (rq_type q) client_request = false -> process_req now q n = handle_extended_msg q n.
Proof.
  intros now q n H1 H2. unfold process_req. rewrite H1. cbn [when]. rewrite bind_ret. apply orb_false_iff in H1. destruct H1 as [H1 _]. apply orb_false_iff in H1. destruct H1 as [H1 H3].
  rewrite H1, H3, H2. reflexivity.
Qed.
(** wrong number or type of entries: refused, nothing changes, nothing is sent
    or written *)
Theorem C54_wrong_shape_partial : forall now q n, wrong_shape q ->
  exists r, run_event (ERequest now q) n = (ROk (Response r), n, []) /\ rs_accepted r = false.
Proof.
  intros now q n H.
  assert (G : exists r, process_req now q n = (ROk r, n, []) /\ rs_accepted r = false).
  { destruct H as [[Ht H]|[[Ht H]|[[Ht H]|[Ht H]]]]; rewrite process_ext by (rewrite Ht; reflexivity); unfold handle_extended_msg; rewrite Ht.
    - change (beq add_server_request add_server_request) with true. cbv iota. unfold handle_add_srv_req. rewrite bind_get.
      destruct (one_entry _ _ (fun e => beq (ev_type e) cluster_server) (fun e => beq_eq _ _) H) as [H1|(e & H1 & H2)].
      + destruct (rq_entries q) as [|e [|]]; try (eexists; split; reflexivity). exfalso. apply (H1 e). reflexivity.
      + rewrite H1, H2. eexists; split; reflexivity.
    - change (beq remove_server_request add_server_request) with false. change (beq remove_server_request remove_server_request) with true. cbv iota. unfold handle_rm_srv_req. rewrite bind_get.
      destruct (one_entry q (fun e => lenN (ev_data e) = 4) (fun e => lenN (ev_data e) =? 4) (fun e X => proj1 (N.eqb_eq _ _) X) H) as [H1|(e & H1 & H2)].
      + destruct (rq_entries q) as [|e [|]]; try (eexists; split; reflexivity). exfalso. apply (H1 e). reflexivity.
      + rewrite H1, H2. eexists; split; reflexivity.
    - change (beq join_cluster_request add_server_request) with false. change (beq join_cluster_request remove_server_request) with false. change (beq join_cluster_request sync_log_request) with false.
      change (beq join_cluster_request join_cluster_request) with true. cbv iota. unfold handle_join_cluster_req. rewrite bind_get.
      destruct (one_entry _ _ (fun e => beq (ev_type e) conf_log) (fun e => beq_eq _ _) H) as [H1|(e & H1 & H2)].
      + destruct (rq_entries q) as [|e [|]]; try (eexists; split; reflexivity). exfalso. apply (H1 e). reflexivity.
      + rewrite H1, H2. eexists; split; reflexivity.
    - change (beq sync_log_request add_server_request) with false. change (beq sync_log_request remove_server_request) with false. change (beq sync_log_request sync_log_request) with true.
      cbv iota. unfold handle_log_sync_req. rewrite bind_get.
      destruct (one_entry _ _ (fun e => beq (ev_type e) log_pack) (fun e => beq_eq _ _) H) as [H1|(e & H1 & H2)].
      + destruct (rq_entries q) as [|e [|]]; try (eexists; split; reflexivity). exfalso. apply (H1 e). reflexivity.
      + rewrite H1, H2. eexists; split; reflexivity. }
  destruct G as (r & E & Hr). exists r. split; [|exact Hr]. cbn [run_event]. unfold bind. rewrite E. reflexivity.
Qed.
(** an add-server request whose entry does not decode to a server: no effect
    either, and never accepted (the RPC layer sees the exception) *)
Theorem C54_add_undecodable_partial : forall now q n e, rq_type q = add_server_request -> rq_entries q = [e] -> (forall c, parse_srv (ev_data e) <> Ok c) ->
  exists x, run_event (ERequest now q) n = (x, n, []) /\ forall r, x = ROk (Response r) -> rs_accepted r = false.
Proof.
  intros now q n e Ht He Hp.
  assert (G : exists x, process_req now q n = (x, n, []) /\ forall r, x = ROk r -> rs_accepted r = false).
  { rewrite process_ext by (rewrite Ht; reflexivity). unfold handle_extended_msg. rewrite Ht. change (beq add_server_request add_server_request) with true. cbv iota. unfold handle_add_srv_req. rewrite bind_get, He.
    destruct (negb _); [eexists; split; [reflexivity|]; intros r H; inversion H; reflexivity|].
    destruct (n_role n); try (eexists; split; [reflexivity|]; intros r H; inversion H; reflexivity).
    unfold lift, bind. destruct (parse_srv (ev_data e)) as [c| |]; [exfalso; apply (Hp c); reflexivity|..]; eexists; (split; [reflexivity|]); intros r H; inversion H. }
  destruct G as (x & E & Hx). cbn [run_event]. unfold bind. rewrite E. destruct x as [r|ex|u|]; cbn [ret]; (eexists; split; [reflexivity|]); intros r0 H; inversion H; subst. apply Hx. reflexivity.
Qed.
(** an install-snapshot request with wrong entries: not accepted; log,
    configuration, snapshot and commit index stay (term, role and timer follow
    the request's term as for every request of another server) *)
Theorem C54_install_partial : forall now q n x n' l, rq_type q = install_snapshot_request -> ~ carries q (fun e => ev_type e = snp_sync_req) ->
  run_event (ERequest now q) n = (x, n', l) ->
  n_log n' = n_log n /\ n_config n' = n_config n /\ map p_id (n_peers n') = map p_id (n_peers n) /\ n_snp n' = n_snp n /\ n_smc n' = n_smc n /\ n_quick n' = n_quick n /\
  dk_snp (n_disk n') = dk_snp (n_disk n) /\ dk_snp_data (n_disk n') = dk_snp_data (n_disk n) /\ dk_config (n_disk n') = dk_config (n_disk n) /\ dk_commit (n_disk n') = dk_commit (n_disk n) /\
  forall r, x = ROk (Response r) -> rs_accepted r = false.
Proof.
  intros now q n x n' l Ht Hc H.
  set (f := fun n => (n_log n, n_config n, map p_id (n_peers n), n_snp n, n_smc n, n_quick n, (dk_snp (n_disk n), dk_snp_data (n_disk n), dk_config (n_disk n), dk_commit (n_disk n)))).
  assert (G : ht (keeps f) (fun a _ => match a with Response r => rs_accepted r = false | _ => True end) (run_event (ERequest now q)) n).
  { cbn [run_event]. unfold process_req. rewrite Ht.
    change (beq install_snapshot_request append_entries_request || beq install_snapshot_request vote_request || beq install_snapshot_request install_snapshot_request) with true.
    change (beq install_snapshot_request append_entries_request) with false. change (beq install_snapshot_request vote_request) with false. change (beq install_snapshot_request client_request) with false.
    unfold handle_extended_msg. rewrite Ht.
    change (beq install_snapshot_request add_server_request) with false. change (beq install_snapshot_request remove_server_request) with false. change (beq install_snapshot_request sync_log_request) with false.
    change (beq install_snapshot_request join_cluster_request) with false. change (beq install_snapshot_request leave_cluster_request) with false. change (beq install_snapshot_request install_snapshot_request) with true.
    cbn [when]. unfold handle_install_snapshot_req.
    assert (K : forall n l n', map p_id (n_peers n') = map p_id (n_peers n) -> n_log n' = n_log n -> n_config n' = n_config n -> n_snp n' = n_snp n -> n_smc n' = n_smc n -> n_quick n' = n_quick n ->
      dk_snp (n_disk n') = dk_snp (n_disk n) -> dk_snp_data (n_disk n') = dk_snp_data (n_disk n) -> dk_config (n_disk n') = dk_config (n_disk n) -> dk_commit (n_disk n') = dk_commit (n_disk n) -> keeps f n l n').
    { intros n0 l0 n0' A1 A2 A3 A4 A5 A6 A7 A8 A9 A10. unfold keeps, f. congruence. }
    assert (W : forall n, ht (keeps f) yes (update_term (rq_term q) ;;; s <- get n_steps ;; when (0 <? s)%Z (modify (set_steps 2))) n).
    { intros n0. unfold update_term, become_follower, restart_election_timer, save_state. walk ltac:(apply K; try reflexivity; cbn; rewrite ?map_map; reflexivity). }
    apply ht_assoc. apply ht_seq; [exact _ | apply W|]. intros u n1 l1 _ _. apply ht_assoc. apply ht_bget. apply ht_assoc. apply ht_seq; [exact _ | |].
    { unfold become_follower, restart_election_timer. walk ltac:(apply K; try reflexivity; cbn; rewrite ?map_map; reflexivity). }
    intros u2 n2 l2 _ _. destruct (negb (n_catching n1) && (rq_term q <? n_term n1)); [apply ht_bret, ht_ret; [exact _ | reflexivity]|].
    destruct (one_entry _ _ (fun e => beq (ev_type e) snp_sync_req) (fun e => beq_eq _ _) Hc) as [H1|(e & H1 & H2)].
    - destruct (rq_entries q) as [|e [|]]; try (apply ht_bret, ht_ret; [exact _ | reflexivity]). exfalso. apply (H1 e). reflexivity.
    - rewrite H1, H2. cbn [negb]. apply ht_bret, ht_ret; [exact _ | reflexivity]. }
  destruct (G _ _ _ H) as [Hk Hr]. unfold keeps, f in Hk. injection Hk as A1 A2 A3 A4 A5 A6 A7 A8 A9 A10.
  repeat (split; [assumption|]). intros r E. exact (Hr _ E).
Qed.
(** an invitation with undecodable content is not refused without effect: the
    leader below forgets its role and its term *)
Definition ex_bad_join : req := mkReq 0 join_cluster_request 3 1 0 0 0 [mkEV 0 conf_log [x00]].
Theorem C54_refuted : exists id pm d h n now q e n' l, life id pm (Down d) h (Up n) /\
  rq_type q = join_cluster_request /\ rq_entries q = [e] /\ (forall c, parse_cfg (ev_data e) <> Ok c) /\
  run_event (ERequest now q) n = (RThrow OverflowError, n', l) /\
  n_role n = Leader /\ n_role n' = Follower /\ n_term n' < n_term n /\ In (ASaveState (n_term n') (-1)) l.
Proof.
  set (x := run_event (ERequest 1000 ex_bad_join) ex_l).
  exists 1%Z, ex_prm, ex_disk, (fst ex_lead), ex_l, 1000, ex_bad_join, (mkEV 0 conf_log [x00]), (snd (fst x)), (snd x).
  split. { replace (Up ex_l) with (snd ex_lead) by (vm_compute; reflexivity). apply run_cmds_life. }
  split; [reflexivity|]. split; [reflexivity|]. split; [intros c H; vm_compute in H; discriminate|].
  split; [apply pair3; vm_compute; reflexivity|]. split; [vm_compute; reflexivity|]. split; [vm_compute; reflexivity|]. split; [vm_compute; reflexivity|]. vm_compute. left. reflexivity.
Qed.
(** a remove-server request's entry may be of any type *)
Theorem C54_remove_type_refuted : exists id pm d h n now q r n' l, life id pm (Down d) h (Up n) /\
  rq_type q = remove_server_request /\ ~ carries q (fun e => ev_type e = cluster_server) /\
  run_event (ERequest now q) n = (ROk (Response r), n', l) /\ rs_accepted r = true /\ l <> [].
Proof.
  set (q := mkReq 0 remove_server_request 0 0 0 0 0 [mkEV 0 log_pack (int_b 2)] : req).
  set (n := up_node (snd (run_cmds 1 ex_prm (Down ex_disk) ex_busy_cmds))).
  set (x := run_event (ERequest 1000 q) n).
  exists 1%Z, ex_prm, ex_disk, (fst (run_cmds 1 ex_prm (Down ex_disk) ex_busy_cmds)), n, 1000, q, (mkResp 1 remove_server_response 1 1 4 true), (snd (fst x)), (snd x).
  split. { replace (Up n) with (snd (run_cmds 1 ex_prm (Down ex_disk) ex_busy_cmds)) by (vm_compute; reflexivity). apply run_cmds_life. }
  split; [reflexivity|]. split; [intros (e & E & T); injection E as <-; discriminate|].
  split; [apply pair3; vm_compute; reflexivity|]. split; [reflexivity|]. intros H. apply (f_equal (@length _)) in H. vm_compute in H. discriminate.
Qed.
Example C54_example : wrong_shape (mkReq 0 add_server_request 0 0 0 0 0 [mkEV 0 conf_log [x00]]) /\
  wrong_shape (mkReq 0 remove_server_request 0 0 0 0 0 []) /\ (forall c, parse_srv [x00] <> Ok c).
Proof.
  split; [left; split; [reflexivity|]; intros (e & E & T); injection E as <-; discriminate|].
  split; [right; left; split; [reflexivity|]; intros (e & E & T); discriminate|]. intros c H. vm_compute in H. discriminate.
Qed.
Print Assumptions C54_wrong_shape_partial.
Print Assumptions C54_add_undecodable_partial.
Print Assumptions C54_install_partial.
Print Assumptions C54_refuted.
Print Assumptions C54_remove_type_refuted.
Print Assumptions C57_no_leader.
Print Assumptions C57_local.
Print Assumptions C57_forward.
Print Assumptions C57_empty.
Print Assumptions C58_restart.
Print Assumptions C58_refuses.
