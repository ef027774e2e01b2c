(** * RaftTrace: every event of a server is a sequence of guarded atomic steps

    [astep ev n l n'] lists what may happen while the server handles event [ev]:
    the fields that matter for safety change only in the ways listed, each under
    the condition written with it.  [run_event_tr] proves that every event,
    whatever its outcome, is such a sequence; properties of all executions are
    then proved step by step. *)

From Verif Require Import Base Buffer Codec CodecSpec Msg FsLogStore FsLogSpec Raft RaftQuiet RaftWalk.
Local Open Scope N_scope.

(** the fields a benign step leaves alone *)
Definition core (n : node) :=
  (n_id n, n_prm n, n_role n, (n_term n, n_vote n), (n_votes n, n_voted n, n_done n),
   (n_quick n, n_smc n), n_disk n, n_catching n, n_config n, n_steps n, map p_id (n_peers n)).

Definition ext_type (t : byte) : bool :=
  beq t prevote_request || beq t leave_cluster_request || beq t join_cluster_request || beq t sync_log_request.

Definition benign_act (a : act) : Prop :=
  match a with
  | APreCommit _ _ | ARollback _ _ | ACreateSnapshot _ | AForward _ _ _ | ARetryLater _ _
  | ATimer _ | AHbTimer _ | AExit _ | ABecomeFollower => True
  | ASend _ ext q => ext = true /\ ext_type (rq_type q) = true
  | _ => False
  end.
Definition no_send (a : act) : Prop := match a with ASend _ _ _ => False | _ => True end.

(** events that belong to a change of the configuration *)
Definition conf_event (ev : event) : bool :=
  match ev with
  | ERpc _ _ true _ (Some r) =>
      beq (rs_type r) sync_log_response || beq (rs_type r) join_cluster_response
      || beq (rs_type r) leave_cluster_response || beq (rs_type r) install_snapshot_response
  | ERpc _ _ true q None => beq (rq_type q) leave_cluster_request
  | _ => false
  end.
(** entries offered by clients in an event *)
Definition client_entry (ev : event) (e : entry_val) : Prop :=
  match ev with
  | ERequest _ q => rq_type q = client_request /\ exists e0, In e0 (rq_entries q) /\ ev_type e0 = ev_type e /\ ev_data e0 = ev_data e
  | EReplicate _ data => ev_type e = app_log /\ ev_data e = data
  | EAppend _ logs => ev_type e = app_log /\ In (ev_data e) logs
  | _ => False
  end.
Definition req_of (ev : event) (q : req) : Prop := exists now, ev = ERequest now q.

(** the request's previous entry and its first [k] entries agree in term with the log *)
Definition ae_match (q : req) (l : alog) (k : nat) : Prop :=
  (rq_last_idx q = 0 \/ rq_last_idx q < al_start l \/
   exists e, a_get l (rq_last_idx q) = Some e /\ ev_term e = rq_last_term q) /\
  forall j e, (j < k)%nat -> nth_error (rq_entries q) j = Some e ->
    exists e', a_get l (rq_last_idx q + 1 + N.of_nat j) = Some e' /\ ev_term e' = ev_term e.

(** the configuration in the snapshot that an install-snapshot request carries *)
Definition snp_conf (q : req) (c : cluster_config) : Prop :=
  exists e s, rq_entries q = [e] /\ parse_sync (ev_data e) = Ok s /\ c = sn_config (sv_snp s).
(** a configuration that is about to be saved or used *)
Definition cfg_source (ev : event) (n : node) (c : cluster_config) : Prop :=
  (ev = ECommit /\ exists e, a_get (n_log n) (n_smc n) = Some e /\ ev_type e = conf_log /\ parse_cfg (ev_data e) = Ok c) \/
  (exists q, req_of ev q /\ (rq_type q = install_snapshot_request /\ snp_conf q c \/ rq_type q = join_cluster_request)).

(** members of a configuration, for the server itself and its peers *)
Definition cfg_ids (c : cluster_config) : list Z := map sc_id (cc_servers c).
Definition members (n : node) : list Z := n_id n :: map p_id (n_peers n).

Definition same_members (c : cluster_config) (n : node) : Prop :=
  forall id, In id (cfg_ids c) <-> In id (members n).

(** changing the peers towards configuration [c] *)
Definition reconfigured (c : cluster_config) : rel := fun n l n' =>
  Forall (fun a => benign_act a \/ a = ASaveConfig c) l /\
  core (set_peers (n_peers n) (set_disk (n_disk n) n')) = core n /\
  n_disk n' = fold_left disk_apply l (n_disk n).

Definition apply_act (a : act) (n : node) : node := set_disk (disk_apply (n_disk n) a) n.

(** where a commit index comes from: it stays, there are no peers, an append-entries request whose
    entries are all in the log, a log pack, an append-entries response, a change of the configuration *)
Definition quick_from (ev : event) (n : node) (i : N) : Prop :=
  i = n_quick n \/ n_peers n = [] \/
  (exists q, req_of ev q /\ rq_type q = append_entries_request /\ n_role n = Follower /\ rq_term q = n_term n /\
     ae_match q (n_log n) (length (rq_entries q)) /\ i = rq_commit q) \/
  (exists q, req_of ev q /\ rq_type q = sync_log_request) \/
  (exists now uid q r, ev = ERpc now uid false q (Some r) /\ rs_type r = append_entries_response) \/
  conf_event ev = true.

Inductive astep (ev : event) : node -> list act -> node -> Prop :=
| A_quiet : forall n l n', quiet n l n' ->
    (n_role n = Leader \/ Forall no_send l \/ conf_event ev = true) /\ quick_from ev n (n_quick n') -> astep ev n l n'
| A_benign : forall n l n', core n' = core n -> Forall benign_act l -> astep ev n l n'
| A_steps : forall n v, (0 < n_steps n)%Z \/ (exists q, req_of ev q /\ rq_type q = leave_cluster_request) ->
    astep ev n [] (set_steps v n)
| A_leave : forall n c, ev = EElection -> (0 < n_steps n)%Z ->
    astep ev n [ASaveConfig c] (apply_act (ASaveConfig c) (set_config c (set_steps 0 n)))
| A_bump : forall n t, n_term n < t ->
    (exists q, req_of ev q /\ rq_term q = t) \/ (exists a b q r, ev = ERpc a b false q (Some r) /\ rs_term r = t) ->
    astep ev n [ASaveState t (-1)]
      (apply_act (ASaveState t (-1)) (set_role Follower (set_voted [] (set_votes 0 (set_done false (set_vote (-1) (set_term t n)))))))
| A_down : forall n, astep ev n [] (set_role Follower n)
| A_cand : forall n,
    (ev = EElection /\ n_catching n = false /\ n_role n <> Leader) \/
    (n_prevote n <> None /\ exists a b q r, ev = ERpc a b true q (Some r) /\ rs_type r = prevote_response) ->
    astep ev n [ASaveState (n_term n + 1) (-1)]
      (apply_act (ASaveState (n_term n + 1) (-1))
        (set_done false (set_voted [] (set_votes 0 (set_role Candidate (set_vote (-1) (set_term (n_term n + 1) n)))))))
| A_self : forall n, n_role n = Candidate -> n_vote n = (-1)%Z -> n_votes n = 0%Z -> n_voted n = [] ->
    astep ev n [ASaveState (n_term n) (n_id n)]
      (set_voted [n_id n] (set_votes 1 (apply_act (ASaveState (n_term n) (n_id n)) (set_vote (n_id n) n))))
| A_vreq : forall n uid q, n_role n = Candidate -> n_vote n = n_id n ->
    rq_type q = vote_request -> rq_term q = n_term n -> rq_src q = n_id n ->
    rq_last_idx q = a_next (n_log n) - 1 -> prev_term n (rq_last_idx q) (rq_last_term q) ->
    astep ev n [ASend uid false q] n
| A_count : forall n a b q r d, ev = ERpc a b false q (Some r) -> rs_type r = vote_response ->
    rs_term r = n_term n -> n_done n = false -> ~ In (rs_src r) (n_voted n) -> In (rs_src r) (map p_id (n_peers n)) ->
    astep ev n [] (set_done d (set_votes (if rs_accepted r then n_votes n + 1 else n_votes n)%Z (set_voted (rs_src r :: n_voted n) n)))
| A_done : forall n, astep ev n [] (set_done true n)
| A_lead : forall n, majority n (n_votes n) = true -> (forall q, ~ req_of ev q) ->
    astep ev n [ABecomeLeader (n_term n)] (set_role Leader n)
| A_lappend : forall n e, n_role n = Leader -> ev_term e = n_term n ->
    (e = conf_entry (n_term n) (n_config n) /\ forall q, ~ req_of ev q) \/ client_entry ev e ->
    astep ev n [AAppend e] (apply_act (AAppend e) n)
| A_cappend : forall n e, conf_event ev = true -> ev_term e = n_term n ->
    astep ev n [AAppend e] (apply_act (AAppend e) n)
| A_fwrite : forall n q k e i, req_of ev q -> rq_type q = append_entries_request ->
    n_role n = Follower -> rq_term q = n_term n -> ae_match q (n_log n) k ->
    nth_error (rq_entries q) k = Some e -> i = rq_last_idx q + 1 + N.of_nat k ->
    al_start (n_log n) <= i < a_next (n_log n) /\ (forall e', a_get (n_log n) i = Some e' -> ev_term e' <> ev_term e) ->
    astep ev n [AWriteAt i e] (apply_act (AWriteAt i e) n)
| A_fappend : forall n q k e, req_of ev q -> rq_type q = append_entries_request ->
    n_role n = Follower -> rq_term q = n_term n -> ae_match q (n_log n) k ->
    nth_error (rq_entries q) k = Some e -> a_next (n_log n) = rq_last_idx q + 1 + N.of_nat k ->
    astep ev n [AAppend e] (apply_act (AAppend e) n)
| A_grant : forall n q, req_of ev q -> rq_type q = vote_request ->
    rq_term q = n_term n -> vote_log_okay q (n_log n) = true -> n_vote n = rq_src q \/ n_vote n = (-1)%Z ->
    astep ev n [ASaveState (n_term n) (rq_src q)] (apply_act (ASaveState (n_term n) (rq_src q)) (set_vote (rq_src q) n))
| A_resave : forall n q, req_of ev q -> rq_type q = install_snapshot_request ->
    astep ev n [ASaveState (n_term n) (n_vote n)] (apply_act (ASaveState (n_term n) (n_vote n)) n)
| A_join : forall n q, req_of ev q -> rq_type q = join_cluster_request -> n_catching n = false ->
    astep ev n [ASaveState (rq_term q) (-1)]
      (apply_act (ASaveState (rq_term q) (-1))
        (set_term (rq_term q) (set_vote (-1) (set_quick 0 (set_smc 0 (set_role Follower (set_catching true n)))))))
| A_smc : forall n, ev = ECommit -> n_smc n < n_quick n -> n_smc n + 1 < a_next (n_log n) ->
    astep ev n [] (set_smc (n_smc n + 1) n)
| A_commit : forall n i e, ev = ECommit -> i = n_smc n -> a_get (n_log n) i = Some e -> ev_type e = app_log ->
    astep ev n [ACommit i e] (apply_act (ACommit i e) n)
| A_saveconf : forall n c, cfg_source ev n c ->
    astep ev n [ASaveConfig c] (apply_act (ASaveConfig c) n)
| A_reconf : forall n c l n', cfg_source ev n c -> ~ same_members c n -> reconfigured c n l n' -> astep ev n l n'
| A_setconf : forall n c, cfg_source ev n c \/ (n_role n = Leader /\ cc_servers c = cc_servers (n_config n)) ->
    astep ev n [] (set_config c n)
| A_rmpeer : forall n ps, conf_event ev = true -> astep ev n [] (set_peers ps n)
| A_uncatch : forall n, ev = ECommit -> astep ev n [] (set_catching false n)
| A_pack : forall n q i es, req_of ev q -> rq_type q = sync_log_request -> n_catching n = true ->
    al_start (n_log n) <= i <= a_next (n_log n) -> 
    astep ev n [AApplyPack i es] (apply_act (AApplyPack i es) n)
| A_compact : forall n k, (exists q, req_of ev q /\ rq_type q = install_snapshot_request) \/
                          (exists s d ok, ev = ESnapshot s d ok) ->
    al_start (n_log n) <= k ->
    astep ev n [ACompact k] (apply_act (ACompact k) n)
| A_snp : forall n a, match a with ASaveSnpData _ _ _ | AApplySnapshot _ | ASnapshotMade _ _ => True | _ => False end ->
    (exists q, req_of ev q /\ rq_type q = install_snapshot_request) \/ (exists s d ok, ev = ESnapshot s d ok) ->
    astep ev n [a] (apply_act a n)
| A_install : forall n i, (exists q, req_of ev q /\ rq_type q = install_snapshot_request) ->
    astep ev n [] (set_quick i (set_smc i n))
| A_csend : forall n uid q, conf_event ev = true -> rq_type q = install_snapshot_request ->
    astep ev n [ASend uid true q] n
| A_retry : forall n uid q, ev = ERetry uid q -> astep ev n [ASend uid true q] n.

Inductive tr (ev : event) : node -> list act -> node -> Prop :=
| T_nil : forall n, tr ev n [] n
| T_step : forall n l n1 l1 n2, astep ev n l n1 -> tr ev n1 l1 n2 -> tr ev n (l ++ l1) n2.

#[global] Instance tr_pre : forall ev, preorder (tr ev).
Proof.
  intros ev. split; [intros n; constructor|].
  intros n l n1 l1 n2 H H2. revert l1 n2 H2. induction H; intros l2 n3 H2; [exact H2|].
  rewrite <- app_assoc. econstructor; [exact H | apply IHtr, H2].
Qed.

Lemma tr_one : forall ev n l n', astep ev n l n' -> tr ev n l n'.
Proof. intros ev n l n' H. rewrite <- (app_nil_r l). econstructor; [exact H | constructor]. Qed.

Lemma tr_benign : forall ev n l n', core n' = core n -> Forall benign_act l -> tr ev n l n'.
Proof. intros. apply tr_one, A_benign; assumption. Qed.

Ltac benign := apply tr_benign; [reflexivity | repeat constructor].
Ltac benign1 a := apply tr_benign; [destruct a; reflexivity | repeat constructor].

Lemma exit_tr : forall ev n c, tr ev n [AExit c] n.
Proof. intros. benign. Qed.
#[global] Hint Resolve exit_tr : core.

Lemma upd_peer_core : forall r f n, (forall p, p_id (f p) = p_id p) -> core (upd_peer r f n) = core n.
Proof.
  intros [id|] f n Hf; [|reflexivity]. unfold core, upd_peer.
  cbn [n_id n_prm n_role n_term n_vote n_votes n_voted n_done n_quick n_smc n_disk n_catching n_config n_steps n_peers set_peers].
  f_equal. unfold upd_peers. rewrite map_map. apply map_ext. intros p. destruct (p_id p =? id)%Z; [apply Hf | reflexivity].
Qed.
Lemma upd_peer_tr : forall ev r f n, (forall p, p_id (f p) = p_id p) -> tr ev n [] (upd_peer r f n).
Proof. intros. apply tr_benign; [apply upd_peer_core; assumption | constructor]. Qed.

(** what a quiet step is in a role *)
Lemma quiet_tr : forall ev n l n', quiet n l n' ->
  (n_role n = Leader \/ Forall no_send l \/ conf_event ev = true) -> quick_from ev n (n_quick n') -> tr ev n l n'.
Proof. intros. apply tr_one, A_quiet; [|split]; assumption. Qed.
(** requests alone leave the commit index *)
Lemma rae_to_quick : forall id n, ht (keeps n_quick) yes (request_append_entries_to id) n.
Proof.
  intros id n. unfold request_append_entries_to, create_append_entries_req, create_sync_snapshot_req, term_for_log, send_req, the_peer, log_term_at, log_entries_, start_index_, next_slot_. walk ltac:(kp).
Qed.
Lemma raes_quick : forall n, n_peers n <> [] -> ht (keeps n_quick) yes request_append_entries n.
Proof.
  intros n Hp. unfold request_append_entries, peer_ids. apply ht_bget. destruct (n_peers n) as [|p ps]; [congruence|]. cbn [map].
  apply for_each_yes; [exact _|]. intros a n0 _. apply ht_seq; [exact _ | apply rae_to_quick|]. intros. apply ht_ret; [exact _ | exact I].
Qed.
Lemma raes_from : forall ev n r n' l, request_append_entries n = (r, n', l) -> quick_from ev n (n_quick n').
Proof.
  intros ev n r n' l E. destruct (n_peers n) as [|p ps] eqn:Ep; [right; left; exact Ep|]. left.
  apply (proj1 (raes_quick n ltac:(rewrite Ep; discriminate) _ _ _ E)).
Qed.
Lemma bind_cons : forall A B (m : M A) (f : A -> M B) n a, m n = (ROk a, n, []) -> bind m f n = f a n.
Proof. intros A B m f n a E. unfold bind. rewrite E. destruct (f a n) as [[r n1] l]. reflexivity. Qed.
Lemma commit_quick_or : forall t n r n' l, commit t n = (r, n', l) -> n_quick n' = n_quick n \/ n_quick n' = t.
Proof.
  intros t n r n' l E. unfold commit in E. rewrite (bind_cons _ _ _ _ _ (n_quick n)) in E by reflexivity.
  destruct (n_quick n <? t); [|inversion E; left; reflexivity]. right.
  match type of E with bind _ ?f _ = _ => assert (W : ht (keeps n_quick) yes (f tt) (set_quick t n)) end.
  { unfold peer_ids. apply ht_bget. destruct (n_role (set_quick t n)); try (apply ht_ret; [exact _ | exact I]). apply ht_bget.
    apply for_each_yes; [exact _|]. intros a n0 _. apply ht_seq; [exact _ | apply rae_to_quick|]. intros. walk ltac:(kp). }
  unfold bind at 1 in E. unfold modify at 1 in E.
  match type of W with ht _ _ ?c _ => destruct (c (set_quick t n)) as [[r2 n2] l2] eqn:E2 end.
  inversion E; subst. apply (proj1 (W _ _ _ E2)).
Qed.

Lemma raes_tr : forall ev n, n_role n = Leader \/ conf_event ev = true ->
  ht (tr ev) yes request_append_entries n.
Proof.
  intros ev n H r n' l E. destruct (request_append_entries_ht n _ _ _ E) as [Hq _]. split; [|intros; exact I].
  apply quiet_tr; [exact Hq | tauto | eapply raes_from; exact E].
Qed.
Lemma rae_to_tr : forall ev n id, n_role n = Leader \/ conf_event ev = true ->
  ht (tr ev) yes (request_append_entries_to id) n.
Proof.
  intros ev n id H r n' l E. destruct (request_append_entries_to_ht id n _ _ _ E) as [Hq _]. split; [|intros; exact I].
  apply quiet_tr; [exact Hq | tauto | left; apply (proj1 (rae_to_quick id n _ _ _ E))].
Qed.

(** the commit index alone, when not leader *)
Lemma commit_no_send : forall t n r n' l, n_role n <> Leader -> commit t n = (r, n', l) -> Forall no_send l.
Proof.
  intros t n r n' l Hr H. unfold commit in H. cbv beta iota zeta delta [bind get] in H.
  destruct (n_quick n <? t); [|inversion H; constructor].
  cbv beta iota zeta delta [bind modify get] in H. cbn [set_quick n_role] in H.
  destruct (n_role n); try (inversion H; constructor). congruence.
Qed.
Lemma commit_tr : forall ev t n, quick_from ev n t -> ht (tr ev) yes (commit t) n.
Proof.
  intros ev t n Hf r n' l E. split; [|intros; exact I].
  apply quiet_tr; [apply (commit_ht t n _ _ _ E)| |destruct (commit_quick_or _ _ _ _ _ E) as [-> | ->]; [left; reflexivity | exact Hf]].
  destruct (n_role n) eqn:Er; [right; left | right; left | left; reflexivity];
    apply (commit_no_send t n r n' l); congruence.
Qed.
(** ... and what it leaves alone *)
Lemma commit_keeps : forall ev t n, quick_from ev n t ->
  ht (tr ev) (fun _ n' => exists ps q j, n' = set_quick q (set_join j (set_peers ps n)) /\ Forall2 same_obj (n_peers n) ps) (commit t) n.
Proof.
  intros ev t n Hf r n' l E. split; [apply (commit_tr ev t n Hf _ _ _ E)|].
  intros a _. destruct (commit_ht t n _ _ _ E) as [(ps & q & j & H1 & H2 & H3 & H4 & H5) _].
  exists ps, q, j. split; assumption.
Qed.

Lemma restart_timer_tr : forall ev n,
  ht (tr ev) (fun _ n' => n' = n \/ n' = set_timer true n) restart_election_timer n.
Proof.
  intros ev n. unfold restart_election_timer. hstep. hstep; [hstep; left; reflexivity|].
  hstep; [benign|]. hstep; [benign|]. right. destruct n; reflexivity.
Qed.

Lemma restart_told_tr : forall ev n,
  ht (tr ev) (fun _ n' => n' = n \/ n' = set_timer true n) (restart_election_timer ;;; emit ABecomeFollower) n.
Proof.
  intros ev n. eapply ht_bind; [exact _ | apply restart_timer_tr|]. cbv beta. intros _ l1 n1 _ _ Hn.
  hstep; [benign|]. destruct Hn as [-> | ->]; [left | right]; destruct n; reflexivity.
Qed.

Lemma map_disable_ids : forall l, map p_id (map p_disable_hb l) = map p_id l.
Proof. intros l. rewrite map_map. apply map_ext. reflexivity. Qed.

(** after [become_follower]: the same server, as a follower *)
Definition followed (n n' : node) : Prop :=
  n_role n' = Follower /\ core (set_role (n_role n) n') = core n.

Lemma become_follower_tr : forall ev n,
  ht (tr ev) (fun _ n' => followed n n') become_follower n.
Proof.
  intros ev n. unfold become_follower.
  hstep; [benign|]. hstep.
  { apply tr_benign; [|constructor]. unfold core. cbn. rewrite map_disable_ids. reflexivity. }
  hstep; [benign|]. hstep; [apply tr_one, A_down|].
  eapply ht_conseq; [apply restart_told_tr|]. cbv beta.
  intros _ l n' _ [-> | ->]; (split; [reflexivity|]; unfold core; cbn; rewrite map_disable_ids; reflexivity).
Qed.

(** [update_term] *)
Definition updated (t : N) (n n' : node) : Prop :=
  n_term n' = N.max (n_term n) t /\ n_log n' = n_log n /\ n_catching n' = n_catching n /\ n_id n' = n_id n /\
  map p_id (n_peers n') = map p_id (n_peers n) /\ n_prm n' = n_prm n /\ n_smc n' = n_smc n /\ n_quick n' = n_quick n /\
  n_steps n' = n_steps n /\ n_config n' = n_config n /\
  (n_term n < t -> n_role n' = Follower /\ n_vote n' = (-1)%Z) /\ (t <= n_term n -> n' = n).

Lemma htp_bind : forall (R : rel) (P : preorder R) A B (Q1 : A -> node -> Prop) (Q : B -> node -> Prop) (m : M A) (f : A -> M B) n0 p n,
  htp R Q1 m n0 p n -> (forall a n1 l1, R n0 (p ++ l1) n1 -> Q1 a n1 -> ht R Q (f a) n1) ->
  htp R Q (bind m f) n0 p n.
Proof.
  intros R P A B Q1 Q m f n0 p n Hm Hf r n' l H. unfold bind in H.
  destruct (m n) as [[x n1] l1] eqn:E. destruct (Hm _ _ _ E) as [HR HQ]. destruct x as [a|e|u|].
  - destruct (f a n1) as [[r2 n2] l2] eqn:E2. inversion H; subst.
    destruct (Hf a n1 l1 HR (HQ _ eq_refl) _ _ _ E2) as [HR2 HQ2].
    split; [rewrite app_assoc; eapply p_trans; eassumption | exact HQ2].
  - inversion H; subst. split; [exact HR | discriminate].
  - inversion H; subst. split; [exact HR | discriminate].
  - inversion H; subst. split; [exact HR | discriminate].
Qed.
Lemma become_follower_htp : forall ev n0 p n,
  (forall n', core n' = core (set_role Follower n) -> tr ev n0 p n') ->
  htp (tr ev) (fun _ n' => core n' = core (set_role Follower n)) become_follower n0 p n.
Proof.
  intros ev n0 p n H. unfold become_follower. repeat pstep.
  match goal with |- htp _ _ _ _ _ ?x => assert (C : core x = core (set_role Follower n)); [|generalize dependent x] end.
  { unfold core. cbn. rewrite map_disable_ids. reflexivity. }
  intros n1 C. apply htp_stop; [exact _ | apply H, C|].
  eapply ht_conseq; [apply restart_told_tr|]. cbv beta. intros _ l n' _ [-> | ->]; exact C.
Qed.

Lemma update_term_tr : forall ev t n,
  (exists q, req_of ev q /\ rq_term q = t) \/ (exists a b q r, ev = ERpc a b false q (Some r) /\ rs_term r = t) ->
  ht (tr ev) (fun b n' => b = (n_term n <? t) /\ updated t n n') (update_term t) n.
Proof.
  intros ev t n Hs. unfold update_term. hstep. hstep.
  2:{ hstep. split; [lia|]. unfold updated. repeat (split; [reflexivity || lia|]). reflexivity. }
  apply htp_start. unfold save_state. do 12 try pstep.
  eapply htp_bind; [exact _ | apply become_follower_htp|].
  { intros n' C. apply (T_step ev n [ASaveState t (-1)] (apply_act (ASaveState t (-1))
      (set_role Follower (set_voted [] (set_votes 0 (set_done false (set_vote (-1) (set_term t n))))))) []).
    - apply (A_bump ev n t); [lia | exact Hs].
    - apply tr_benign; [exact C | constructor]. }
  intros u n2 l2 _ F2. hstep.
  unfold core in F2. injection F2. clear F2 Hs. intros.
  split; [lia|]. unfold updated, n_log.
  match goal with H : n_disk n2 = _ |- _ => rewrite H end.
  repeat (split; [assumption || reflexivity || lia|]).
  split; [intros _; split; assumption | lia].
Qed.

(** ** Elections *)
Lemma core_role : forall n n', core n' = core n -> n_role n' = n_role n.
Proof. intros n n' H. unfold core in H. congruence. Qed.
Lemma core_disk : forall n n', core n' = core n -> n_disk n' = n_disk n.
Proof. intros n n' H. unfold core in H. congruence. Qed.
Lemma core_term : forall n n', core n' = core n -> n_term n' = n_term n.
Proof. intros n n' H. unfold core in H. congruence. Qed.
Lemma core_config : forall n n', core n' = core n -> n_config n' = n_config n.
Proof. intros n n' H. unfold core in H. congruence. Qed.

Lemma log_append_tr : forall ev e n, astep ev n [AAppend e] (apply_act (AAppend e) n) ->
  ht (tr ev) (fun i n' => i = a_next (n_log n) /\ n' = apply_act (AAppend e) n) (log_append e) n.
Proof.
  intros ev e n H. unfold log_append, next_slot_. hstep. hstep; [apply tr_one, H|]. hstep. split; reflexivity.
Qed.

Lemma enable_hb_tr : forall ev id n, ht (tr ev) (fun _ n' => core n' = core n) (enable_hb_for_peer id) n.
Proof.
  intros ev id n. unfold enable_hb_for_peer. hstep. hstep; [apply upd_peer_tr; reflexivity|].
  hstep; [benign|]. etransitivity; [reflexivity|]. apply upd_peer_core. reflexivity.
Qed.

Lemma become_leader_tr : forall ev n, majority n (n_votes n) = true -> (forall q, ~ req_of ev q) ->
  ht (tr ev) (fun _ n' => n_role n' = Leader) become_leader n.
Proof.
  intros ev n Hm Hev. unfold become_leader, stop_election_timer, peer_ids, next_slot_.
  hstep. hstep; [benign|]. hstep; [benign|].
  match goal with |- ht _ _ _ ?x => set (n0 := x) end.
  apply htp_start. repeat pstep. apply htp_stop; [exact _ | |].
  { apply (T_step ev n0 [ABecomeLeader (n_term n0)] (set_role Leader n0) []).
    - apply A_lead; [exact Hm | exact Hev].
    - benign. }
  match goal with |- ht _ _ _ ?x => set (n1 := x) end.
  eapply ht_bind; [exact _ | apply (ht_for_each _ _ _ _ (fun n' => core n' = core n1)); [reflexivity|] |].
  { intros i n2 _ Hc. hstep; [apply upd_peer_tr; reflexivity|].
    eapply ht_conseq; [apply enable_hb_tr|]. cbv beta. intros _ l n' _ H. rewrite H.
    rewrite upd_peer_core by reflexivity. exact Hc. }
  intros u n2 l2 _ _ Hc. hstep.
  assert (Hr2 : n_role n2 = Leader) by (rewrite (core_role _ _ Hc); reflexivity).
  eapply (ht_bind _ _ _ (fun _ n3 => n_role n3 = Leader)).
  { hstep; [|exact Hr2]. hstep.
    hstep. { apply tr_one, A_setconf. right. split; [exact Hr2 | reflexivity]. }
    apply ht_seq; [exact _ | |].
    { eapply ht_conseq; [apply log_append_tr | intros; exact I].
      apply A_lappend; [exact Hr2 | |].
      - cbn. rewrite (core_term _ _ Hc). reflexivity.
      - left. split; [|exact Hev]. cbn. rewrite (core_term _ _ Hc). reflexivity. }
    intros i n3 l3 E3 _. hstep; [benign|].
    unfold log_append, next_slot_ in E3. cbv beta iota delta [bind get emit ret] in E3. inversion E3; subst. exact Hr2. }
  intros u3 n3 l3 _ _ Hr3. intros r n' l E. destruct (request_append_entries_ht n3 _ _ _ E) as [Hq _].
  split; [apply quiet_tr; [exact Hq | left; exact Hr3 | eapply raes_from; exact E] | intros _ _; destruct (quiet_log _ _ _ Hq) as (_ & _ & _ & Hx & _); congruence].
Qed.

Lemma core_upd : forall n n', core n' = core n -> n_log n' = n_log n /\ n_term n' = n_term n /\ n_id n' = n_id n /\
  n_role n' = n_role n /\ n_vote n' = n_vote n /\ n_disk n' = n_disk n.
Proof. intros n n' H. unfold core, n_log in *. injection H. intros. repeat split; congruence. Qed.

Lemma request_vote_tr : forall ev n, n_role n = Candidate -> n_vote n = (-1)%Z -> n_votes n = 0%Z -> n_voted n = [] ->
  (forall q, ~ req_of ev q) -> ht (tr ev) yes request_vote n.
Proof.
  intros ev n H1 H2 H3 H4 Hev. unfold request_vote, save_state, peer_ids, next_slot_.
  apply htp_start. repeat pstep. apply htp_stop; [exact _ | |].
  { match goal with |- tr _ _ _ ?x =>
      replace x with (set_voted [n_id n] (set_votes 1 (apply_act (ASaveState (n_term n) (n_id n)) (set_vote (n_id n) n))))
        by (destruct n; cbn in *; subst; reflexivity) end.
    apply tr_one. exact (A_self ev n H1 H2 H3 H4). }
  match goal with |- ht _ _ _ ?x => set (n1 := x) end.
  hstep.
  - hstep; [apply tr_one, A_done|].
    eapply ht_conseq; [apply become_leader_tr; assumption | intros; exact I].
  - hstep. eapply ht_conseq; [apply (ht_for_each _ _ _ _ (fun n' => core n' = core n1)); [reflexivity|] | intros; exact I].
    intros i n2 _ Hc. hstep. destruct (core_upd _ _ Hc) as (C1 & C2 & C3 & C4 & C5 & C6).
    eapply ht_bind; [exact _ | apply term_for_log_ht; [exact _ | auto]|]. intros lt n3 l3 _ _ [-> Hp].
    unfold send_req. eapply ht_bind; [exact _ | apply the_peer_ht; exact _|]. intros p n3 l4 _ _ [-> Hg].
    hstep; [|exact Hc].
    replace (set_disk _ n2) with n2 by (destruct n2; reflexivity).
    apply tr_one, A_vreq; cbn [rq_type rq_term rq_src rq_last_idx rq_last_term].
    + rewrite C4. exact H1.
    + rewrite C5, C3. reflexivity.
    + reflexivity.
    + rewrite C2. reflexivity.
    + rewrite C3. reflexivity.
    + reflexivity.
    + exact Hp.
Qed.

Lemma become_candidate_tr : forall ev n,
  (ev = EElection /\ n_catching n = false /\ n_role n <> Leader) \/
  (n_prevote n <> None /\ exists a b q r, ev = ERpc a b true q (Some r) /\ rs_type r = prevote_response) ->
  ht (tr ev) yes become_candidate n.
Proof.
  intros ev n Hg. unfold become_candidate, save_state.
  apply htp_start. repeat pstep. apply htp_stop; [exact _ | |].
  { apply (T_step ev n [ASaveState (n_term n + 1) (-1)] (apply_act (ASaveState (n_term n + 1) (-1))
        (set_done false (set_voted [] (set_votes 0 (set_role Candidate (set_vote (-1) (set_term (n_term n + 1) n))))))) []).
    - apply A_cand. exact Hg.
    - benign. }
  apply ht_seq; [exact _ | apply request_vote_tr; [reflexivity..|]|].
  { intros q0 [now E]. destruct Hg as [(Hg & _)|(_ & a & b & q & r & Hg & _)]; rewrite Hg in E; discriminate. }
  intros u n1 l1 _ _. hstep. hstep; try (hstep; exact I).
  all: eapply ht_conseq; [apply restart_timer_tr | intros; exact I].
Qed.

Lemma send_benign_tr : forall ev r q n, ext_type (rq_type q) = true ->
  ht (tr ev) (fun _ n' => core n' = core n) (send_req r true q) n.
Proof.
  intros ev r q n H. unfold send_req. eapply ht_bind; [exact _ | apply the_peer_ht; exact _|].
  intros p n1 l1 _ _ [-> Hp]. hstep; [|reflexivity].
  apply tr_benign; [reflexivity|]. constructor; [|constructor]. split; [reflexivity | exact H].
Qed.

Lemma request_prevote_tr : forall n, n_catching n = false -> n_role n <> Leader ->
  ht (tr EElection) yes request_prevote n.
Proof.
  intros n Hc Hr. unfold request_prevote, peer_ids, next_slot_. hstep.
  destruct (map p_id (n_peers n)) as [|i0 ids].
  { apply become_candidate_tr. left. auto. }
  hstep. hstep. destruct (match n_prevote n with Some x => x | None => (0%Z, []) end) as [acc voted].
  hstep; [benign|].
  match goal with |- ht _ _ _ ?x => set (n1 := x) end.
  eapply ht_conseq; [apply (ht_for_each _ _ _ _ (fun _ => True)); [exact I|] | intros; exact I].
  intros i n2 _ _. hstep. hstep.
  eapply ht_bind; [exact _ | apply term_for_log_ht; [exact _ | auto]|]. intros lt n3 l3 _ _ [-> Hp].
  eapply ht_conseq; [apply send_benign_tr; reflexivity | intros; exact I].
Qed.

Lemma handle_election_timeout_tr : forall n, ht (tr EElection) yes handle_election_timeout n.
Proof.
  intros n. unfold handle_election_timeout. hstep; [benign|].
  match goal with |- ht _ _ _ ?x => set (n1 := x) end. hstep.
  destruct (0 <? n_steps n1)%Z eqn:Es.
  { destruct (n_steps n1 - 1 =? 0)%Z eqn:E1.
    - apply htp_start. pstep.
      destruct (cfg_server (n_config n1) (n_id n1)) as [s|].
      + repeat pstep. apply htp_stop; [exact _ | |].
        * replace (n_steps n1 - 1)%Z with 0%Z by lia. apply tr_one, A_leave; [reflexivity | lia].
        * hstep. auto.
      + apply htp_stop; [exact _ | apply tr_one, A_steps; left; lia |]. hstep. hstep. auto.
    - hstep; [apply tr_one, A_steps; left; lia|].
      eapply ht_conseq; [apply restart_timer_tr | intros; exact I]. }
  destruct (n_catching n1) eqn:Ec.
  { eapply ht_conseq; [apply restart_timer_tr | intros; exact I]. }
  destruct (n_role n1) eqn:Er.
  - destruct (pm_prevote (n_prm n1)).
    + assert (Hp : ht (tr EElection) yes request_prevote n1).
      { apply request_prevote_tr; congruence. }
      destruct (n_prevote n1) as [[a [|x l]]|]; [exact Hp | hstep; exact I | exact Hp].
    + apply become_candidate_tr. left. rewrite Er. split; [reflexivity|]. split; [exact Ec | discriminate].
  - apply become_candidate_tr. left. rewrite Er. split; [reflexivity|]. split; [exact Ec | discriminate].
  - hstep. auto.
Qed.

Lemma handle_hb_timeout_tr : forall id n, ht (tr (EHeartbeat id)) yes (handle_hb_timeout id) n.
Proof.
  intros id n. unfold handle_hb_timeout. hstep; [apply upd_peer_tr; reflexivity|]. hstep. hstep.
  match goal with |- ht _ _ _ ?x => set (n1 := x) end.
  destruct (n_role n1) eqn:Er; try (hstep; exact I).
  destruct (get_peer (PPeer id) n1); [|hstep; exact I].
  apply ht_seq; [exact _ | apply rae_to_tr; left; exact Er|]. intros b n2 l2 _ _.
  eapply ht_bind; [exact _ | apply the_peer_ht; exact _|]. intros p0 n3 l3 _ _ [-> Hp].
  hstep; [|exact I]. hstep; [apply upd_peer_tr; reflexivity|]. hstep; [benign | exact I].
Qed.

(** ** Reconfiguration *)
Lemma members_same : forall c n, same_members c n ->
  filter (fun s => match find_peer (sc_id s) (n_peers n) with None => negb (n_id n =? sc_id s)%Z | Some _ => false end) (cc_servers c) = [] /\
  filter (fun p => match cfg_server c (p_id p) with None => true | Some _ => false end) (n_peers n) = [] /\
  cfg_server c (n_id n) <> None.
Proof.
  intros c n H. unfold same_members in H.
  assert (G : forall (A : Type) (f : A -> bool) (l : list A), (forall x, In x l -> f x = false) -> filter f l = []).
  { intros A f l. induction l as [|x l IH]; intros Hf; [reflexivity|]. cbn [filter].
    rewrite (Hf x (or_introl eq_refl)). apply IH. intros y Hy. apply Hf. right. exact Hy. }
  assert (S : forall id, In id (cfg_ids c) -> cfg_server c id <> None).
  { intros id Hin E. unfold cfg_server in E. unfold cfg_ids in Hin. apply in_map_iff in Hin.
    destruct Hin as (s & Hs & Hin). apply (find_none _ _ E) in Hin. lia. }
  repeat split.
  - apply G. intros s Hs.
    assert (Hin : In (sc_id s) (members n)) by (apply H; apply in_map; exact Hs).
    destruct (find_peer (sc_id s) (n_peers n)) eqn:E; [reflexivity|].
    destruct Hin as [<-|Hin]; [lia|]. apply in_map_iff in Hin. destruct Hin as (p & Hp & Hin).
    unfold find_peer in E. apply (find_none _ _ E) in Hin. lia.
  - apply G. intros p Hp. assert (Hs := S (p_id p)).
    destruct (cfg_server c (p_id p)); [reflexivity|]. exfalso. apply Hs; [|reflexivity].
    apply H. right. apply in_map. exact Hp.
  - apply S. apply H. left. reflexivity.
Qed.

Lemma same_members_dec : forall c n, {same_members c n} + {~ same_members c n}.
Proof.
  intros c n.
  assert (D : forall a b : list Z, {incl a b} + {~ incl a b}).
  { intros a b. destruct (Forall_dec (fun x => In x b) (fun x => in_dec Z.eq_dec x b) a) as [H|H].
    - left. intros x Hx. rewrite Forall_forall in H. apply H, Hx.
    - right. intros Hi. apply H. apply Forall_forall. exact Hi. }
  destruct (D (cfg_ids c) (members n)) as [H1|H1]; [destruct (D (members n) (cfg_ids c)) as [H2|H2]|].
  - left. intros id. split; [apply H1 | apply H2].
  - right. intros H. apply H2. intros id Hid. apply H, Hid.
  - right. intros H. apply H1. intros id Hid. apply H, Hid.
Qed.

#[global] Instance reconfigured_pre : forall c, preorder (reconfigured c).
Proof.
  intros c. split.
  - intros n. split; [constructor|]. split; destruct n; reflexivity.
  - intros n l n1 l1 n2 (A1 & A2 & A3) (B1 & B2 & B3). split; [apply Forall_app; split; assumption|].
    split; [|rewrite fold_left_app; congruence].
    unfold core in *. cbn in *. injection A2. injection B2. intros. congruence.
Qed.

Lemma reconf_peers : forall c n ps, reconfigured c n [] (set_peers ps n).
Proof. intros c n ps. split; [constructor|]. split; destruct n; reflexivity. Qed.
Lemma reconf_upd : forall c n r f, (forall p, p_id (f p) = p_id p) -> reconfigured c n [] (upd_peer r f n).
Proof. intros c n r f H. split; [constructor|]. destruct r; split; destruct n; reflexivity. Qed.

(** exactly the same members: only the configuration is replaced *)
Lemma reconfigure_same : forall c n, same_members c n -> reconfigure c n = (ROk tt, set_config c n, []).
Proof.
  intros c n H. destruct (members_same c n H) as (H1 & H2 & H3).
  unfold reconfigure. unfold bind at 1, get at 1. rewrite H1, H2.
  destruct (cfg_server c (n_id n)); [|contradiction]. reflexivity.
Qed.

Lemma reconfigure_tr : forall ev c n, cfg_source ev n c ->
  ht (tr ev) (fun _ n' => n_config n' = c /\ n_disk n' = n_disk n /\
     n_term n' = n_term n /\ n_vote n' = n_vote n /\ n_smc n' = n_smc n /\ n_id n' = n_id n /\ n_catching n' = n_catching n)
    (reconfigure c) n.
Proof.
  intros ev c n Hs. destruct (same_members_dec c n) as [Hm|Hm].
  { intros r n' l E. rewrite (reconfigure_same c n Hm) in E. inversion E; subst. split.
    - apply tr_one, A_setconf. left. exact Hs.
    - intros _ _. repeat split. }
  unfold reconfigure. hstep. cbv zeta.
  match goal with |- ht _ _ (bind ?m1 (fun _ => bind ?m2 _)) _ =>
    assert (HR : ht (reconfigured c) (fun _ n' => n_disk n' = n_disk n) (bind m1 (fun _ => m2)) n) end.
  { eapply (ht_bind _ _ _ (fun _ n' => n_disk n' = n_disk n)).
    - eapply (ht_for_each _ _ _ _ (fun n1 => n_disk n1 = n_disk n)); [reflexivity|].
      intros s n1 _ Hd. unfold make_peer, next_slot_. hstep. hstep. hstep. hstep.
      { split; [constructor|]. split; destruct n1; reflexivity. }
      hstep. hstep. hstep.
      { cbn [n_peers set_uid]. destruct (find_peer (sc_id s) (n_peers n1)); split; try constructor; destruct n1; reflexivity. }
      match goal with |- ht _ _ _ ?x => assert (Hd2 : n_disk x = n_disk n); [|generalize dependent x] end.
      { cbn [n_peers set_uid]. destruct (find_peer (sc_id s) (n_peers n1)); exact Hd. }
      intros n2 Hd2. hstep. destruct (n_role n2); try (hstep; exact Hd2).
      eapply (ht_bind _ _ _ (fun _ n' => n_disk n' = n_disk n)).
      { unfold enable_hb_for_peer. hstep. hstep; [apply reconf_upd; reflexivity|].
        hstep; [split; [constructor; [left; exact I | constructor]|]; split; destruct n2; reflexivity | exact Hd2]. }
      intros _ n3 l3 _ _ Hd3. hstep. hstep; [|hstep; exact Hd3]. hstep; [|exact Hd3].
      hstep; [apply reconf_upd; reflexivity|]. hstep; [|exact Hd3].
      split; [constructor|]. split; destruct n3; reflexivity.
    - intros _ n1 l1 _ _ Hd. eapply (ht_for_each _ _ _ _ (fun n1 => n_disk n1 = n_disk n)); [exact Hd|].
      intros id n2 _ Hd2. hstep. hstep.
      + hstep.
        { split; [constructor; [right; reflexivity | constructor]|]. split; destruct n2; reflexivity. }
        hstep. split; [constructor; [left; exact I | constructor]|]. split; destruct n2; reflexivity.
      + hstep; [apply reconf_peers | exact Hd2]. }
  assert (HT : forall (A : Type) (Q : A -> node -> Prop) (m : M A), ht (reconfigured c) Q m n -> ht (tr ev) (fun a n' => Q a n' /\ core (set_peers (n_peers n) (set_disk (n_disk n) n')) = core n) m n).
  { intros A Q m H r n' l E. destruct (H _ _ _ E) as [H1 H2]. split.
    - apply tr_one. eapply A_reconf; eassumption.
    - intros a Ea. split; [apply H2, Ea | apply H1]. }
  match goal with |- ht _ _ (bind ?m1 (fun _ => bind ?m2 (fun _ => ?m3))) _ =>
    assert (Hx : ht (tr ev) (fun _ n' => n_config n' = c /\ n_disk n' = n_disk n /\
     n_term n' = n_term n /\ n_vote n' = n_vote n /\ n_smc n' = n_smc n /\ n_id n' = n_id n /\ n_catching n' = n_catching n)
       (bind (bind m1 (fun _ => m2)) (fun _ => m3)) n) end.
  { eapply ht_bind; [exact _ | apply HT, HR|]. cbv beta.
    intros _ n1 l1 _ _ [Hd Hc]. unfold core in Hc. cbn in Hc. injection Hc. intros. hstep.
    - apply tr_one, A_setconf. left. destruct Hs as [(E & e & G1 & G2) | G]; [left | right; exact G].
      split; [exact E|]. exists e. unfold n_log in *. rewrite Hd. replace (n_smc n1) with (n_smc n) by congruence. auto.
    - cbn. repeat split; congruence. }
  intros r n' l E. apply (Hx r n' l). rewrite <- E. clear. unfold bind.
  match goal with |- context [for_each ?a ?f n] => destruct (for_each a f n) as [[[u|e|u|] n1] l1] end; try reflexivity.
  match goal with |- context [for_each ?a ?f n1] => destruct (for_each a f n1) as [[[u2|e|u2|] n2] l2] end; try reflexivity.
  cbv beta iota zeta delta [modify]. rewrite !app_nil_r. reflexivity.
Qed.
