(** * P_Timer: the election timer (C40) *)

From Verif Require Import Base Buffer Codec CodecSpec Msg FsLogStore FsLogSpec Alog Raft RaftQuiet RaftWalk NodeSpec ServerSpec NodeFacts NodeLife AppendFacts NodeExamples P_Leader P_Peer WalkAll Wp.
Local Open Scope N_scope.

(** a server without pre-votes that is not joining and has a leader's role or a pending election timeout *)
Definition fine (pm : params) (c : bool) (pv : option (Z * list Z)) (r : role) (t : bool) : Prop :=
  pm_prevote pm = false /\ c = false /\ pv = None /\ (r = Leader \/ t = true).
Definition timed (n : node) : Prop := fine (n_prm n) (n_catching n) (n_prevote n) (n_role n) (n_timer n).
Definition R40 : rel := fun n l n' => timed n -> timed n'.
#[export] Instance R40_pre : preorder R40.
Proof. split; unfold R40; auto. Qed.

Ltac tm := unfold R40, upd_peer; intros ?T; repeat match goal with |- context [match ?x with _ => _ end] => destruct x end; first [exact T | destruct T as (? & ? & ? & ?); unfold timed, fine in *; cbn in *; auto].

Lemma ht_assume : forall (m : M unit) n, (timed n -> ht R40 yes m n) -> ht R40 yes m n.
Proof. intros m n H r n' l E. split; [intros T; exact (proj1 (H T r n' l E) T) | intros; exact I]. Qed.
Lemma ht_wp : forall A (m : M A) n, (timed n -> wp (fun _ => timed) timed timed m n) -> ht R40 yes m n.
Proof. intros A m n H r n' l E. split; [|intros; exact I]. intros T. specialize (H T _ _ _ E). destruct r; exact H. Qed.
Lemma restart_timed : forall n, pm_prevote (n_prm n) = false -> n_catching n = false -> n_prevote n = None ->
  exists n' l, restart_election_timer n = (ROk tt, n', l) /\ timed n'.
Proof.
  intros n H1 H2 H3. eexists _, _. split; [unfold restart_election_timer; rewrite bind_get, H2, bind_modify; reflexivity|].
  repeat split; try assumption. right. reflexivity.
Qed.
Lemma restart_wp : forall (E X : node -> Prop) n, pm_prevote (n_prm n) = false -> n_catching n = false -> n_prevote n = None ->
  wp (fun _ => timed) E X restart_election_timer n.
Proof. intros E X n H1 H2 H3. destruct (restart_timed n H1 H2 H3) as (n' & l & Er & T). eapply wp_eq; eassumption. Qed.
Lemma restart_R : forall n, ht R40 yes restart_election_timer n.
Proof. intros n. apply ht_wp. intros (T1 & T2 & T3 & T4). apply restart_wp; assumption. Qed.
Lemma become_follower_R : forall n, ht R40 yes become_follower n.
Proof. intros n. apply ht_wp. intros (T1 & T2 & T3 & T4). unfold become_follower. do 8 wps. apply wp_bind.
  eapply wp_mono; [| | |apply restart_wp; try assumption; reflexivity]; cbv beta; [|intros n1 T; exact T|intros n1 T; exact T]. intros _ n1 T. wps. exact T.
Qed.
Lemma stop_eq : forall n, stop_election_timer n = (ROk tt, set_disk (disk_apply (n_disk n) (ATimer false)) (set_timer false n), [ATimer false]).
Proof. reflexivity. Qed.

Definition K40 : rel := keeps (fun n => (n_prm n, n_catching n, n_prevote n, n_role n)).
#[export] Instance K40_pre : preorder K40 := keeps_pre _ _.
Lemma reconfigure_K : forall c n, ht K40 yes (reconfigure c) n.
Proof. walk_base K40 ltac:(unfold K40; kp). walk_reconf K40 ltac:(unfold K40; kp). exact W_rec. Qed.

(** installing a snapshot stops the timer and starts it again *)
Lemma snapshot_sync_timed : forall s n, timed n -> wp (fun _ => timed) timed (fun _ => True) (handle_snapshot_sync_req s) n.
Proof.
  intros s n T. unfold handle_snapshot_sync_req. wps. wps. wps.
  assert (T1 : timed (set_disk (disk_apply (n_disk n) (ASaveSnpData (sv_snp s) (sv_offset s) (sv_data s))) n)) by exact T.
  revert T1. generalize (set_disk (disk_apply (n_disk n) (ASaveSnpData (sv_snp s) (sv_offset s) (sv_data s))) n). clear n T. intros n T.
  destruct (sv_done s); [|wps; exact T]. wps. wps. destruct (n_role n) eqn:Er; [|wps; exact I|wps; exact I].
  wps. apply (wp_ht R40).
  { unfold log_compact. wall ltac:(unfold R40; tm). }
  intros l n1 H1. split; [|split; [wps; exact I | exact I]]. intros [|]; [|wps; apply H1, T].
  assert (T1 := H1 T). clear H1 T Er n. wps. eapply wp_eq; [apply stop_eq|]. wps. wps. wps.
  set (n2 := set_disk _ _). eapply wp_ht; [apply reconfigure_K|]. intros l2 n3 H. split; [|split; [wps; exact I | exact I]]. intros _.
  assert (K : n_prm n3 = n_prm n1 /\ n_catching n3 = n_catching n1 /\ n_prevote n3 = n_prevote n1) by (unfold K40, keeps in H; inversion H; repeat split).
  clear H. clearbody n2. destruct T1 as (T1 & T2 & T3 & T4). destruct K as (K1 & K2 & K3).
  wps. wps. wps. wps. wps. wps. wps. wps. unfold save_state. do 6 wps. wps. wps. apply wp_bind.
  eapply wp_mono; [| | |apply (restart_wp (fun _ => False) (fun _ => False)); cbn; congruence]; [intros ? ? T; wps; exact T | intros ? [] | intros ? []].
Qed.

(** the last entry of a log has a term *)
Lemma term_last : forall (Q : N -> node -> Prop) (E X : node -> Prop) n, 1 <= al_start (n_log n) -> (forall t, Q t n) -> X n -> wp Q E X (term_for_log (a_next (n_log n) - 1)) n.
Proof.
  intros Q E X n Hs HQ HX. set (i := a_next (n_log n) - 1). unfold term_for_log. destruct (i =? 0) eqn:E0; [wps; apply HQ|].
  unfold start_index_. wps. wps. destruct (al_start (n_log n) <=? i) eqn:E1.
  - destruct (a_get_in (n_log n) i ltac:(unfold i in *; lia)) as (e & Ge). unfold log_term_at. wps. wps.
    replace (i <? al_start (n_log n)) with false by lia. rewrite Ge. wps. apply HQ.
  - wps. wps. destruct (dk_snp (n_disk n)) as [s|]; [|wps; exact HX]. destruct (i =? sn_last_log_idx s); wps; [apply HQ | exact HX].
Qed.

Definition base (n : node) : Prop := pm_prevote (n_prm n) = false /\ n_catching n = false /\ n_prevote n = None.
Lemma become_leader_timed : forall n, base n -> wp (fun _ => timed) timed timed become_leader n.
Proof.
  intros n (H1 & H2 & H3). unfold become_leader. wps. eapply wp_eq; [apply stop_eq|]. wps. wps.
  set (n1 := set_role Leader _). assert (T : timed n1) by (repeat split; cbn; auto). clearbody n1. clear n H1 H2 H3.
  apply (wp_ht R40); [|intros l n' H; split; [intros _|split]; apply H, T]. clear T.
  walk_base R40 ltac:(unfold R40; tm). open_prims. wall ltac:(unfold R40; tm).
Qed.
Lemma become_leader_R : forall n, ht R40 yes become_leader n.
Proof. intros n. apply ht_wp. intros (T1 & T2 & T3 & T4). apply become_leader_timed. repeat split; assumption. Qed.

Lemma request_vote_base : forall n, 1 <= al_start (n_log n) -> base n -> n_role n <> Leader ->
  wp (fun _ n' => base n' /\ (n_role n' = Leader -> timed n')) timed (fun _ => True) request_vote n.
Proof.
  intros n Hs B Hr. unfold request_vote, save_state. repeat wps.
  match goal with |- context [majority ?x ?y] => set (n1 := x) end.
  assert (B1 : base n1) by exact B. assert (Hs1 : 1 <= al_start (n_log n1)) by exact Hs. assert (Hr1 : n_role n1 <> Leader) by exact Hr.
  clearbody n1. generalize (n_id n). clear n Hs B Hr. intros me. destruct (majority n1 (n_votes n1)).
  - wps. wps. eapply wp_mono; [| | |apply become_leader_timed; exact B1]; auto.
    intros u n T. cbv beta in T. split; [|auto]. destruct T as (T1 & T2 & T3 & _). repeat split; assumption.
  - unfold peer_ids. wps. wps. set (S := fun n => base n /\ 1 <= al_start (n_log n) /\ n_role n <> Leader).
    apply (wp_mono _ (fun _ => S) _ (fun _ => False) _ (fun _ => True)); [|intros ? []|auto|].
    { intros _ n (S1 & S2 & S3). split; [exact S1 | intros; contradiction]. }
    apply wp_for_each; [|split; [|split]; assumption]. intros x n _ (S1 & S2 & S3). unfold next_slot_. wps. wps. wps.
    apply term_last; [exact S2| |exact I]. intros t. unfold send_req, the_peer. repeat wps.
    destruct (get_peer (PPeer x) n); cbn [deref]; repeat wps; [|exact I]. split; [exact S1|]. split; assumption.
Qed.
Lemma become_candidate_timed : forall n, 1 <= al_start (n_log n) -> pm_prevote (n_prm n) = false -> n_catching n = false ->
  wp (fun _ => timed) timed (fun _ => True) become_candidate n.
Proof.
  intros n Hs H1 H2. unfold become_candidate. do 14 wps. wps. unfold save_state. do 5 wps. apply wp_bind.
  eapply wp_mono; [| | |apply request_vote_base]; cbv beta; [| auto | auto | exact Hs | repeat split; assumption | discriminate].
  intros _ n1 [B T]. wps. wps. destruct B as (B1 & B2 & B3). destruct (n_role n1) eqn:Er; [apply restart_wp; assumption | apply restart_wp; assumption | wps; auto].
Qed.
Lemma election_timed : forall n, 1 <= al_start (n_log n) -> timed n -> wp (fun _ => timed) timed (fun _ => True) handle_election_timeout n.
Proof.
  intros n Hs (T1 & T2 & T3 & T4). unfold handle_election_timeout. wps. wps. wps. wps. cbn [n_steps set_timer n_catching n_role n_config n_id n_prm].
  destruct (0 <? n_steps n)%Z.
  - wps. wps. destruct (n_steps n - 1 =? 0)%Z; [|apply restart_wp; assumption]. wps.
    destruct (cfg_server _ _); repeat wps; exact I.
  - change (n_catching (set_timer false n)) with (n_catching n). rewrite T2. change (n_role (set_timer false n)) with (n_role n).
    change (n_prm (set_timer false n)) with (n_prm n). rewrite T1.
    destruct (n_role n); [apply become_candidate_timed; assumption | apply become_candidate_timed; assumption | wps; exact I].
Qed.

Definition join_type (q : req) : bool := beq (rq_type q) join_cluster_request.
Lemma event_timed : forall e n, 1 <= al_start (n_log n) -> timed n -> (forall now q, e = ERequest now q -> join_type q = false) ->
  wp (fun _ => timed) timed (fun _ => True) (run_event e) n.
Proof.
  assert (W_bef := become_follower_R). assert (W_res := restart_R). assert (W_bel := become_leader_R).
  walk_base R40 ltac:(unfold R40; tm).
  assert (W_upt : forall t n, ht R40 yes (update_term t) n) by (intros; unfold update_term, save_state; wall ltac:(unfold R40; tm)).
  walk_reconf R40 ltac:(unfold R40; tm). walk_hb R40 ltac:(unfold R40; tm).
  assert (W_aer : forall q n, ht R40 yes (handle_append_entries q) n).
  { intros; unfold handle_append_entries, next_slot_. wall ltac:(unfold R40; tm). }
  assert (W_vrq : forall q n, ht R40 yes (handle_vote_req q) n) by (intros; unfold handle_vote_req; open_prims; wall ltac:(unfold R40; tm)).
  assert (W_cli : forall now q n, ht R40 yes (handle_cli_req now q) n) by (intros; unfold handle_cli_req; open_prims; wall ltac:(unfold R40; tm)).
  assert (W_add : forall q n, ht R40 yes (handle_add_srv_req q) n) by (intros; unfold handle_add_srv_req, invite_srv_to_join_cluster; open_prims; wall ltac:(unfold R40; tm)).
  assert (W_rmv : forall q n, ht R40 yes (handle_rm_srv_req q) n) by (intros; unfold handle_rm_srv_req; open_prims; wall ltac:(unfold R40; tm)).
  assert (W_syn : forall q n, ht R40 yes (handle_log_sync_req q) n) by (intros; unfold handle_log_sync_req; open_prims; wall ltac:(unfold R40; tm)).
  assert (W_pre : forall q n, ht R40 yes (handle_prevote_req q) n) by (intros; unfold handle_prevote_req; open_prims; wall ltac:(unfold R40; tm)).
  walk_leave R40 ltac:(unfold R40; tm). walk_resps R40 ltac:(unfold R40; tm).
  assert (W_prs : forall r n, ht R40 yes (handle_prevote_resp r) n).
  { intros r n. apply ht_assume. intros (_ & _ & T & _). unfold handle_prevote_resp. apply ht_bget. rewrite T. apply ht_ret; [exact _ | exact I]. }
  walk_ext_resp R40 ltac:(unfold R40; tm). walk_rest R40 ltac:(unfold R40; tm).
  walk_rpc R40 ltac:(unfold R40; tm).
  assert (P : forall now q n, peer_type (rq_type q) = false -> join_type q = false -> ht R40 yes (process_req now q) n).
  { intros now q n H1 H2. unfold process_req. unfold peer_type in H1. rewrite H1. cbn [when]. apply ht_bret.
    destruct (beq (rq_type q) append_entries_request); [apply W_aer|]. destruct (beq (rq_type q) vote_request); [apply W_vrq|].
    destruct (beq (rq_type q) client_request); [apply W_cli|]. unfold handle_extended_msg. unfold join_type in H2. rewrite H2.
    apply orb_false_elim in H1. destruct H1 as [_ H1]. rewrite H1. wall ltac:(unfold R40; tm). }
  assert (S : forall now q n, peer_type (rq_type q) = false -> join_type q = false -> ht R40 yes (send_msg_to_leader now q) n).
  { intros now q n H1 H2. unfold send_msg_to_leader.
    repeat match goal with
    | |- ht _ _ (process_req _ _) _ => apply P; assumption
    | _ => wstep ltac:(unfold R40; tm)
    end. }
  assert (Z : forall A (m : M A) n, timed n -> ht R40 yes m n -> wp (fun _ => timed) timed (fun _ => True) m n).
  { intros A m n T H. apply (wp_ht R40 _ m n); [exact H|]. intros l n' K. split; [intros _; apply K, T|]. split; [apply K, T | exact I]. }
  assert (In : forall q n, timed n -> wp (fun _ => timed) timed (fun _ => True) (handle_install_snapshot_req q) n).
  { intros q n T. unfold handle_install_snapshot_req. wps. wps. wps. eapply wp_mono; [| | |apply (Z unit (when ((rq_term q =? n_term n) && negb (n_catching n))
      match n_role n with Follower => restart_election_timer | Candidate => become_follower | Leader => system_exit (-1) end) n T)]; cbv beta; [|auto|auto|].
    - intros _ n1 T1. destruct (negb (n_catching n) && (rq_term q <? n_term n)); [wps; exact T1|].
      destruct (rq_entries q) as [|e [|e2 es]]; [wps; exact T1 | | wps; exact T1]. destruct (negb (beq (ev_type e) snp_sync_req)); [wps; exact T1|].
      wps. wps. destruct (parse_sync (ev_data e)) as [s|x|u]; [|exact T1|exact I]. wps. wps. destruct (sn_last_log_idx (sv_snp s) <=? n_smc n1); [wps; exact T1|].
      wps. eapply wp_mono; [| | |apply snapshot_sync_timed; exact T1]; cbv beta; [|auto|auto]. intros ok n2 T2. wps. exact T2.
    - wall ltac:(unfold R40; tm). }
  intros e n Hs T HJ. destruct e; cbn [run_event]; unfold retry, add_srv, append_entries, remove_srv;
    try solve [apply Z; [exact T|]; wall ltac:(unfold R40; tm); apply W_rpc].
  - wps. eapply wp_mono; [| | |apply election_timed; eassumption]; cbv beta; [|auto|auto]. intros _ n1 T1. wps. exact T1.
  - wps. eapply wp_mono with (Q := fun _ => timed) (E := timed) (X := fun _ => True); [intros a n1 T1; wps; exact T1 | auto | auto |].
    destruct (peer_type (rq_type q)) eqn:Ep; [|apply Z; [exact T|]; apply P; [exact Ep | apply (HJ _ _ eq_refl)]].
    intros r n' l Er. rewrite process_peer_req in Er by exact Ep.
    assert (T1 : timed (arrived (rq_term q) n)).
    { destruct T as (T1 & T2 & T3 & T4). unfold arrived. destruct (n_term n <? rq_term q).
      - unfold with_term. cbn [n_steps]. destruct (0 <? _)%Z; repeat split; cbn; auto; right; rewrite T2, orb_true_r; reflexivity.
      - destruct (0 <? n_steps n)%Z; repeat split; auto. }
    unfold after in Er. injection Er as Er En _.
    assert (H : wp (fun _ => timed) timed (fun _ => True) (if beq (rq_type q) append_entries_request then handle_append_entries q
      else if beq (rq_type q) vote_request then handle_vote_req q else handle_install_snapshot_req q) (arrived (rq_term q) n)).
    { destruct (beq _ _); [apply Z; auto|]. destruct (beq _ _); [apply Z; auto|]. apply In, T1. }
    destruct ((if beq (rq_type q) append_entries_request then handle_append_entries q
      else if beq (rq_type q) vote_request then handle_vote_req q else handle_install_snapshot_req q) (arrived (rq_term q) n)) as [[r1 n1] l1] eqn:E1.
    specialize (H _ _ _ E1). cbn [fst snd] in *. subst. exact H.
  - apply Z; [exact T|]. destruct logs; (eapply ht_seq; [exact _ | | intros; apply ht_ret; [exact _ | exact I]]); [apply ht_ret; [exact _ | exact I]|].
    apply S; reflexivity.
  - apply Z; [exact T|]. eapply ht_seq; [exact _ | apply S; reflexivity | intros; apply ht_ret; [exact _ | exact I]].
  - apply Z; [exact T|]. eapply ht_seq; [exact _ | apply S; reflexivity | intros; apply ht_ret; [exact _ | exact I]].
Qed.

Lemma start_timed : forall id pm d, pm_prevote pm = false -> timed (start_node id pm d).
Proof. intros id pm d H. unfold start_node. destruct (dk_state d) as [[t v]|]; repeat split; cbn; auto. Qed.

(** C40: a server that is not leader has an election timeout pending.  What is missing: servers
    with pre-votes enabled and servers that were asked to join a cluster, for which it does not
    hold *)
Theorem C40_timer_pending_partial : forall id pm d h n, disk_okay d -> pm_prevote pm = false ->
  life id pm (Down d) h (Up n) -> without join_cluster_request h -> n_role n <> Leader -> n_timer n = true.
Proof.
  intros id pm d h n D HP L W R. 
  assert (G : forall s h s', life id pm s h s' -> okay id s -> without join_cluster_request h ->
            match s with Up n => timed n | Down _ => True end -> match s' with Up n => timed n | Down _ => True end).
  { clear - HP. intros s h s' L. induction L; intros O W T; auto.
    - assert (O0 := O). destruct O as (O1 & O2 & O3). assert (W2 : without join_cluster_request h) by (intros o Ho; apply W; right; exact Ho).
      assert (K := event_timed e n O1 T). assert (J : forall now q, e = ERequest now q -> join_type q = false).
      { intros now q ->. unfold join_type. destruct (beq (rq_type q) join_cluster_request) eqn:E; [|reflexivity].
        exfalso. apply (W _ (or_introl eq_refl)). exists now, q. split; [reflexivity | apply Byte.byte_dec_bl, E]. }
      specialize (K J _ _ _ H). apply IHL; [|assumption|].
      + apply (life_okay id pm (Up n) [mkObs e l (answer_of r)] (Up n')); [|exact O0]. eapply L_event; [eassumption | assumption | constructor].
      + destruct r; try discriminate; exact K.
    - assert (W2 : without join_cluster_request h) by (intros o Ho; apply W; right; exact Ho). apply IHL; [|assumption|exact I].
      apply (life_okay id pm (Up n) [mkObs e l None] (Down (n_disk n'))); [|exact O]. eapply L_stop; [eassumption | assumption | constructor].
    - assert (W2 : without join_cluster_request h) by (intros o Ho; apply W; right; exact Ho). apply IHL; [|assumption|exact I].
      apply (life_okay id pm (Up n) [mkObs e p None] (Down (fold_left disk_apply p (n_disk n)))); [|exact O]. eapply L_crash; [eassumption | constructor].
    - apply IHL; [|assumption|apply start_timed, HP].
      apply (life_okay id pm (Down d) [] (Up (start_node id pm d))); [|exact O]. apply L_start. constructor. }
  destruct (G _ _ _ L D W I) as (_ & _ & _ & [T|T]); [contradiction | exact T].
Qed.

(** ** Where it does not hold *)

(** with pre-votes: the pre-vote requests that follow an election timeout all fail; the server is
    a follower that waits for nothing *)
Definition ex_pre_prm : params := mkParams 300 150 75 25 1000 10 0 0 100 10000 true false.
Definition ex_pre_q (j : Z) : req := mkReq 0 prevote_request 1 j 0 0 0 [].
Definition ex_pre_cmds : list cmd := [CStart; CEvent EElection; CEvent (ERpc 0 0 true (ex_pre_q 2) None); CEvent (ERpc 0 1 true (ex_pre_q 3) None)].
Definition ex_pre_run : list obs * sys := run_cmds 1 ex_pre_prm (Down ex_disk) ex_pre_cmds.
Theorem C40_prevote_refuted : exists id pm d h n, disk_okay d /\ life id pm (Down d) h (Up n) /\ without join_cluster_request h /\
  n_role n = Follower /\ n_catching n = false /\ n_steps n = 0%Z /\ n_timer n = false /\
  (forall u x q, In (ASend u x q) (acts_of h) -> exists o, In o h /\ o_event o = ERpc 0 u x q None) /\
  (exists u q, In (ASend u true q) (acts_of h)).
Proof.
  exists 1%Z, ex_pre_prm, ex_disk, (fst ex_pre_run), (up_node (snd ex_pre_run)).
  split; [unfold disk_okay; cbn; lia|]. split.
  { replace (Up (up_node (snd ex_pre_run))) with (snd ex_pre_run) by (vm_compute; reflexivity). apply run_cmds_life. }
  split; [apply withoutb_ok; vm_compute; reflexivity|].
  split; [vm_compute; reflexivity|]. split; [vm_compute; reflexivity|]. split; [vm_compute; reflexivity|]. split; [vm_compute; reflexivity|].
  assert (A : flat_map (fun a => match a with ASend u x q => [(u, x, q)] | _ => [] end) (acts_of (fst ex_pre_run)) = [(0, true, ex_pre_q 2); (1, true, ex_pre_q 3)]) by (vm_compute; reflexivity).
  assert (In1 : forall u x q, In (ASend u x q) (acts_of (fst ex_pre_run)) <-> In (u, x, q) [(0, true, ex_pre_q 2); (1, true, ex_pre_q 3)]).
  { intros u x q. rewrite <- A, in_flat_map. split; [intros H; exists (ASend u x q); split; [exact H | left; reflexivity]|].
    intros (a & Ha & H). destruct a; try solve [destruct H]. destruct H as [H|[]]. injection H as <- <- <-. exact Ha. }
  assert (Ob : forall k e, nth_error (map o_event (fst ex_pre_run)) k = Some e -> exists o, In o (fst ex_pre_run) /\ o_event o = e).
  { intros k e H. apply nth_error_In, in_map_iff in H. destruct H as (o & H1 & H2). exists o. split; assumption. }
  split.
  - intros u x q H. apply In1 in H. destruct H as [H|[H|[]]]; injection H as <- <- <-; [apply (Ob 1%nat) | apply (Ob 2%nat)]; vm_compute; reflexivity.
  - exists 0, (ex_pre_q 2). apply In1. left. reflexivity.
Qed.

(** a joining server: the timeout that fires while it is catching up is not renewed, and nothing
    starts the timer when it has become a member *)
Definition ex_joined_cfg : cluster_config := mkCfg 2 1 (cc_servers ex_cfg).
Definition ex_joined_cmds : list cmd :=
  [CStart; CEvent (ERequest 0 (ex_join 1 2)); CEvent EElection;
   CEvent (ERequest 0 (mkReq 1 sync_log_request 2 1 0 0 2 [mkEV 1 log_pack (pack_bytes 0 [ex_ent 1 x7a; conf_entry 1 ex_joined_cfg])]));
   CEvent ECommit; CEvent ECommit].
Definition ex_joined_run : list obs * sys := run_cmds 1 ex_prm (Down ex_disk) ex_joined_cmds.
Theorem C40_joined_refuted : exists id pm d h n, disk_okay d /\ pm_prevote pm = false /\ life id pm (Down d) h (Up n) /\
  n_role n = Follower /\ n_catching n = false /\ n_steps n = 0%Z /\ n_timer n = false /\
  (exists i e, In (ACommit i e) (acts_of h)) /\ forall u x q, ~ In (ASend u x q) (acts_of h).
Proof.
  exists 1%Z, ex_prm, ex_disk, (fst ex_joined_run), (up_node (snd ex_joined_run)).
  split; [unfold disk_okay; cbn; lia|]. split; [reflexivity|]. split.
  { replace (Up (up_node (snd ex_joined_run))) with (snd ex_joined_run) by (vm_compute; reflexivity). apply run_cmds_life. }
  split; [vm_compute; reflexivity|]. split; [vm_compute; reflexivity|]. split; [vm_compute; reflexivity|]. split; [vm_compute; reflexivity|].
  split; [exists 1, (ex_ent 1 x7a); vm_compute; auto 20|]. intros u x q. vm_compute. intuition discriminate.
Qed.

(** the hypotheses of the theorem are met: a candidate that lost an election *)
Example C40_example : let x := run_cmds 1 ex_prm (Down ex_disk) [CStart; CEvent EElection; CEvent (ERequest 0 (ex_vote 5 2 0 0)); CEvent EElection] in
  exists n, life 1 ex_prm (Down ex_disk) (fst x) (Up n) /\ without join_cluster_request (fst x) /\ n_role n = Candidate /\ n_term n = 6 /\ n_timer n = true.
Proof.
  intros x. exists (up_node (snd x)). split.
  { replace (Up (up_node (snd x))) with (snd x) by (vm_compute; reflexivity). apply run_cmds_life. }
  split; [apply withoutb_ok; vm_compute; reflexivity|]. repeat split; vm_compute; reflexivity.
Qed.

(** ** C24, at the server: an election timeout whose cancellation came too late

    become_leader cancels the timer, but a worker may already be inside the handler and wait for the
    server's lock ([C24_race_refuted] in P_Sched).  The new leader then ends its process. *)
Theorem C24_leader_exits_refuted : (forall n, n_role n = Leader -> n_steps n = 0%Z -> n_catching n = false ->
    exists n', run_event EElection n = (RExit, n', [AExit (-1)])) /\
  exists id pm d h n, disk_okay d /\ life id pm (Down d) h (Up n) /\ n_role n = Leader /\ n_steps n = 0%Z /\ n_catching n = false /\ n_timer n = false.
Proof.
  split.
  - intros n R S C. eexists. cbn [run_event]. unfold handle_election_timeout, modify, get, bind, system_exit. cbn. rewrite S, C, R. cbn. reflexivity.
  - exists 1%Z, ex_prm, ex_disk, (fst ex_lead), ex_l. split; [unfold disk_okay; cbn; lia|]. split.
    { replace (Up ex_l) with (snd ex_lead) by (vm_compute; reflexivity). apply run_cmds_life. }
    repeat split; vm_compute; reflexivity.
Qed.

Print Assumptions C24_leader_exits_refuted.
Print Assumptions C40_timer_pending_partial.
Print Assumptions C40_prevote_refuted.
Print Assumptions C40_joined_refuted.
