(** * PeerWalk: one walk through all events for every relation that only looks
      at the peers and at what is sent *)

From Verif Require Import Base Buffer Codec CodecSpec Msg FsLogStore FsLogSpec Alog Raft RaftQuiet RaftWalk NodeSpec NodeFacts.
Local Open Scope N_scope.

(** everything the bookkeeping of peers consists of *)
Definition pview (n : node) := (n_peers n, n_join n, n_uid n, n_prm n, n_id n).
Definition no_send (a : act) : Prop := match a with ASend _ _ _ => False | _ => True end.
(** the requests of which a peer gets one at a time (src/peer.cxx:24-32) *)
Definition bulk (q : req) : bool := beq (rq_type q) append_entries_request || beq (rq_type q) install_snapshot_request.
(** changes of one peer: indices, pending flag, heartbeat task, last response,
    snapshot transfer *)
Inductive pfun (pm : params) : (peer -> peer) -> Prop :=
| PF_next : forall v, pfun pm (p_set_next v)
| PF_sync : forall v, pfun pm (p_set_sync v)
| PF_pending : forall v, pfun pm (p_set_pending v)
| PF_last : forall v, pfun pm (p_set_last_resp v)
| PF_acc : forall a b, pfun pm (fun p => p_set_match a (p_set_next b p))
| PF_hb : forall (on : peer -> bool) s, pfun pm (fun p => p_set_hb (on p) s p)
| PF_enable : pfun pm (fun p => p_set_hb true true (p_resume pm p))
| PF_resume : pfun pm (p_resume pm)
| PF_back : forall k, pfun pm (fun p => if (0 <? k) && (k <? p_next p) then p_set_next k p else if 0 <? p_next p then p_set_next (p_next p - 1) p else p)
| PF_snp : forall a b, pfun pm (fun p => p_set_pending false (p_set_sync None (p_set_match a (p_set_next b p))))
| PF_join : forall a b, pfun pm (fun p => p_set_match a (p_set_next b (p_resume pm p)))
| PF_joinsnp : forall a b, pfun pm (fun p => p_set_match a (p_set_next b (p_set_sync None p))).
(** reconfigure: a new member, unless its id is there already *)
Definition insert_peer (id : Z) (nx : N) (p : peer) (n : node) : node :=
  match find_peer id (n_peers n) with None => set_peers (n_peers n ++ [p_set_next nx p]) n | Some _ => n end.

Ltac open_log := unfold log_entry_at, log_term_at, log_entries_, log_compact, log_pack_, log_apply_pack, log_write_at, log_append, next_slot_, start_index_, last_entry_, deref.
Ltac open_peer := unfold enable_hb_for_peer, become_follower, restart_election_timer, stop_election_timer, save_state, send_req, the_peer, peer_ids.

Section All.
  Context (R : rel) {P : preorder R}.
  Hypothesis Hsame : forall n n' l, pview n' = pview n -> Forall no_send l -> R n l n'.
  Hypothesis Hother : forall n uid ext q p, In p (n_peers n) \/ n_join n = Some p -> p_uid p = uid ->
    (ext = true /\ n_join n = Some p) \/ bulk q = false -> R n [ASend uid ext q] n.
  Hypothesis Hupd : forall r f n, pfun (n_prm n) f -> R n [] (upd_peer r f n).
  Hypothesis Hdisable : forall n, R n [] (set_peers (map p_disable_hb (n_peers n)) n).
  Hypothesis Hnojoin : forall n, R n [] (set_join None n).
  Hypothesis Hremove : forall id n, R n [] (set_peers (rm_peer id (n_peers n)) n).
  Hypothesis Hinsert : forall s n nx, sc_id s <> n_id n ->
    R n [] (insert_peer (sc_id s) nx (new_peer (n_uid n) s (n_prm n)) (set_uid (n_uid n + 1) n)).
  Hypothesis Hjoin : forall s n, R n [] (set_join (Some (new_peer (n_uid n) s (n_prm n))) (set_uid (n_uid n + 1) n)).
  Hypothesis Hsend : forall id n, ht R yes (request_append_entries_to id) n.
  Hypothesis Hid : forall n l n', R n l n' -> n_id n' = n_id n /\ n_prm n' = n_prm n.

  Ltac one := idtac;
    match goal with
    | |- R ?n _ (set_join None ?n) => apply Hnojoin
    | |- R ?n _ (set_peers (rm_peer _ (n_peers ?n)) ?n) => apply Hremove
    | |- R ?n _ (set_peers (map p_disable_hb (n_peers ?n)) ?n) => apply Hdisable
    | |- R ?n _ (upd_peer _ _ ?n) => apply Hupd; constructor
    | |- R _ [] _ => apply Hsame; [reflexivity | constructor]
    | |- R _ [_] _ => apply Hsame; [reflexivity | constructor; [exact I | constructor]]
    end.

  Lemma cli_append_all : forall t es n, ht R yes (cli_append t es) n.
  Proof. induction es; intros n; cbn [cli_append]; open_log; walk one. apply IHes. Qed.
  Lemma skip_all : forall es i n, ht R yes (skip_matching i es) n.
  Proof. induction es; intros i n; cbn [skip_matching]; open_log; walk one. apply IHes. Qed.
  Lemma overwrite_all : forall es i n, ht R yes (overwrite i es) n.
  Proof. induction es; intros i n; cbn [overwrite]; open_log; walk one. apply IHes. Qed.
  Lemma append_rest_all : forall es n, ht R yes (append_rest es) n.
  Proof. induction es; intros n; cbn [append_rest]; open_log; walk one. apply IHes. Qed.
  Lemma find_conf_all : forall k i c n, ht R yes (find_conf k i c) n.
  Proof. induction k; intros i c n; cbn [find_conf]; open_log; walk one. apply IHk. Qed.
  Lemma enable_all : forall id n, ht R yes (enable_hb_for_peer id) n.
  Proof.
    intros id n. unfold enable_hb_for_peer. apply ht_bget. eapply ht_seq; [exact _ | | intros; walk one].
    apply ht_modify; [apply Hupd; constructor | exact I].
  Qed.

  Lemma add_peer_all : forall s n B (k : M B), sc_id s <> n_id n ->
    (forall n', n_id n' = n_id n -> ht R yes k n') ->
    ht R yes (p <- make_peer s ;; nx <- next_slot_ ;; modify (insert_peer (sc_id s) nx p) ;;; k) n.
  Proof.
    intros s n B k Hs Hf. unfold make_peer, next_slot_. apply ht_assoc, ht_bget, ht_assoc, htp_start. pstep.
    intros r n' l E. rewrite bind_ret, bind_get, bind_modify in E.
    assert (K := Hinsert s n (a_next (n_log n)) Hs).
    destruct (Hf _ (proj1 (Hid _ _ _ K)) _ _ _ E) as [H1 H2]. split; [|exact H2]. eapply p_trans; [exact K | exact H1].
  Qed.
  Lemma new_join_all : forall s n B (k : M B), (forall n', ht R yes k n') ->
    ht R yes (p <- make_peer s ;; modify (set_join (Some p)) ;;; k) n.
  Proof.
    intros s n B k Hk. unfold make_peer. apply ht_assoc, ht_bget, ht_assoc, htp_start. pstep.
    intros r n' l E. rewrite bind_ret, bind_modify in E.
    destruct (Hk _ _ _ _ E) as [H1 H2]. split; [|exact H2]. eapply p_trans; [apply (Hjoin s n) | exact H1].
  Qed.
  Lemma reconfigure_all : forall c n, ht R yes (reconfigure c) n.
  Proof.
    intros c n. unfold reconfigure. apply ht_bget. set (added := filter _ _). set (removed := map p_id _ ++ _).
    apply ht_seq; [exact _ | | intros u1 n1 l1 _ H1].
    - assert (Hadd : forall s, In s added -> sc_id s <> n_id n).
      { intros s Hs. unfold added in Hs. apply filter_In in Hs. destruct Hs as [_ Hs]. destruct (find_peer _ _); [discriminate|].
        intros X. rewrite X, Z.eqb_refl in Hs. discriminate. }
      clearbody added. apply ht_conseq with (Q := fun _ n1 => n_id n1 = n_id n); [|intros; exact I].
      apply ht_for_each; [exact _ | reflexivity|]. intros s n1 Hin He. specialize (Hadd s Hin).
      eapply ht_conseq; [|intros a l n2 K _; rewrite (proj1 (Hid _ _ _ K)); exact He].
      apply (add_peer_all s n1); [congruence|]. intros n2 _. apply ht_bget. destruct (n_role n2); try (walk one; fail).
      eapply ht_seq; [exact _ | apply enable_all|]. intros; walk one.
    - walk one.
  Qed.

  (** a message to an existing peer object that is not append-entries *)
  Lemma send_all : forall r ext q n, (r = PJoin /\ ext = true) \/ bulk q = false -> ht R yes (send_req r ext q) n.
  Proof.
    intros r ext q n Hq. unfold send_req, the_peer. apply ht_assoc, ht_bget. destruct (get_peer r n) as [p|] eqn:G; [|apply ht_bub; exact _].
    apply ht_bret. intros r' n' l E. unfold emit in E. cbn [disk_apply] in E. injection E as <- <- <-.
    replace (set_disk (n_disk n) n) with n by (destruct n; reflexivity). split; [|intros; exact I].
    apply (Hother n _ _ _ p); [|reflexivity |].
    - destruct r; cbn in G; [left | right; exact G]. unfold find_peer in G. apply find_some in G. tauto.
    - destruct Hq as [[-> ->]|Hq]; [left; split; [reflexivity | exact G] | right; exact Hq].
  Qed.
  Lemma snp_req_all : forall r a b c n, ht R yes (create_sync_snapshot_req r a b c) n.
  Proof. intros r a b c n. unfold create_sync_snapshot_req. open_peer. walk one. Qed.
  Lemma term_for_log_all : forall i n, ht R yes (term_for_log i) n.
  Proof. intros i n. unfold term_for_log. open_log. walk one. Qed.

  Ltac leaf1 :=
    match goal with
    | |- ht _ _ (cli_append _ _) _ => apply cli_append_all
    | |- ht _ _ (skip_matching _ _) _ => apply skip_all
    | |- ht _ _ (overwrite _ _) _ => apply overwrite_all
    | |- ht _ _ (append_rest _) _ => apply append_rest_all
    | |- ht _ _ (find_conf _ _ _) _ => apply find_conf_all
    | |- ht _ _ (reconfigure _) _ => apply reconfigure_all
    | |- ht _ _ (request_append_entries_to _) _ => apply Hsend
    | |- ht _ _ (create_sync_snapshot_req _ _ _ _) _ => apply snp_req_all
    | |- ht _ _ (term_for_log _) _ => apply term_for_log_all
    | |- ht _ _ (send_req PJoin true _) _ => apply send_all; left; split; reflexivity
    | |- ht _ _ (send_req _ _ (mkReq _ _ _ _ _ _ _ _)) _ => apply send_all; right; reflexivity
    | |- ht _ _ (enable_hb_for_peer _) _ => apply enable_all
    | |- ht _ _ (bind (make_peer _) _) _ => apply new_join_all; intros ?
    end.
  Ltac open1 := unfold become_follower, restart_election_timer, stop_election_timer, save_state, the_peer, peer_ids.
  Ltac walk1 := repeat first [leaf1 | wstep one].

  Lemma commit_all : forall k n, ht R yes (commit k) n.
  Proof. intros k n. unfold commit. open1. walk1. Qed.
  Lemma request_all : forall n, ht R yes request_append_entries n.
  Proof. intros n. unfold request_append_entries, commit. open1. open_log. walk1. Qed.
  Lemma update_term_all : forall t n, ht R yes (update_term t) n.
  Proof. intros t n. unfold update_term. open1. walk1. Qed.
  Lemma is_leader_all : forall now n, ht R yes (is_leader now) n.
  Proof. intros now n. unfold is_leader. walk1. Qed.

  Section Lead.
  (** becoming leader makes every peer free *)
  Hypothesis Hlead : forall n, ht R yes become_leader n.
  Lemma candidate_all : forall n, ht R yes become_candidate n.
  Proof.
    intros n. unfold become_candidate, request_vote. open1. open_log.
    repeat first [match goal with |- ht _ _ become_leader _ => apply Hlead end | leaf1 | wstep one].
  Qed.
  Lemma election_all : forall n, ht R yes handle_election_timeout n.
  Proof.
    intros n. unfold handle_election_timeout, request_prevote. open1. open_log.
    repeat first [match goal with |- ht _ _ become_candidate _ => apply candidate_all end | leaf1 | wstep one].
  Qed.
  Ltac leaf2 :=
    match goal with
    | |- ht _ _ (update_term _) _ => apply update_term_all
    | |- ht _ _ become_leader _ => apply Hlead
    | |- ht _ _ become_candidate _ => apply candidate_all
    | |- ht _ _ (is_leader _) _ => apply is_leader_all
    | |- ht _ _ (commit _) _ => apply commit_all
    | |- ht _ _ request_append_entries _ => apply request_all
    | |- _ => leaf1
    end.
  Ltac walk2 := repeat first [leaf2 | wstep one].
  Lemma process_all : forall now q n, ht R yes (process_req now q) n.
  Proof.
    intros now q n. unfold process_req, handle_extended_msg. wstep one; [walk2|].
    wstep one; [unfold handle_append_entries; open1; open_log; walk2|].
    wstep one; [unfold handle_vote_req; open1; open_log; walk2|].
    wstep one; [unfold handle_cli_req; open1; open_log; walk2|].
    wstep one; [unfold handle_add_srv_req, invite_srv_to_join_cluster; open1; open_log; walk2|].
    wstep one; [unfold handle_rm_srv_req; open1; open_log; walk2|].
    wstep one; [unfold handle_log_sync_req; open1; open_log; walk2|].
    wstep one; [unfold handle_join_cluster_req; open1; open_log; walk2|].
    wstep one; [unfold handle_leave_cluster_req; open1; open_log; walk2|].
    wstep one; [unfold handle_install_snapshot_req, handle_snapshot_sync_req; open1; open_log; walk2|].
    wstep one; [unfold handle_prevote_req; open1; open_log; walk2|]. walk2.
  Qed.
  Lemma peer_resp_all : forall now r n, ht R yes (handle_peer_resp now r) n.
  Proof.
    intros now r n. unfold handle_peer_resp, handle_voting_resp, handle_append_entries_resp, handle_install_snapshot_resp. open1. open_log. walk2.
  Qed.
  Lemma ext_resp_all : forall r n, ht R yes (handle_ext_resp r) n.
  Proof.
    intros r n. unfold handle_ext_resp, sync_log_to_new_srv, rm_srv_from_cluster, append_config, handle_prevote_resp. open1. open_log. walk2.
  Qed.
  Lemma other_all : forall e n, match e with ERpc _ _ _ _ _ | ERetry _ _ => False | _ => True end -> ht R yes (run_event e) n.
  Proof.
    assert (S : forall now q n, ht R yes (send_msg_to_leader now q) n).
    { intros now q n. unfold send_msg_to_leader. repeat first [match goal with |- ht _ _ (process_req _ _) _ => apply process_all end | wstep one]. }
    intros e n He. destruct e; try contradiction; cbn [run_event]; (wstep one; [|walk2]).
    - apply election_all.
    - unfold handle_hb_timeout. open1. walk2.
    - apply process_all.
    - unfold commit_step, snapshot_and_compact. open1. open_log. walk2.
    - unfold on_snapshot_completed. open_log. walk2.
    - unfold replicate_log. open_log. walk2.
    - unfold append_entries. destruct logs; [walk2 | apply S].
    - apply S.
    - apply S.
  Qed.
  End Lead.
  (** enough for becoming leader: making the peers free is in the relation *)
  Hypothesis Hfree : forall id n nx, R n [] (upd_peer (PPeer id) (fun p => p_set_busy false (p_set_sync None (p_set_next nx p))) n).
  Lemma leader_all : forall n, ht R yes become_leader n.
  Proof.
    intros n. unfold become_leader. open1. open_log.
    repeat first [match goal with |- ht _ _ request_append_entries _ => apply request_all
                             | |- R ?n _ (upd_peer _ (fun p => p_set_busy false _) ?n) => apply Hfree end | leaf1 | wstep ltac:(first [apply Hfree | one])].
  Qed.
End All.
