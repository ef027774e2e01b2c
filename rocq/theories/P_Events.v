(** * P_Events: the event listener (C103) *)

From Verif Require Import Base Buffer Codec CodecSpec Msg FsLogStore FsLogSpec Alog Raft NodeSpec NodeExamples ServerSpec NodeFacts RaftQuiet RaftWalk WalkAll Wp Events.
Local Open Scope N_scope.

Lemma hears_app : forall l l' b, hears b (l ++ l') = match hears b l with Some c => hears c l' | None => None end.
Proof. induction l as [|a l IH]; intros l' b; [reflexivity|]. destruct a; cbn [app hears]; try apply IH. destruct b; [reflexivity | apply IH]. Qed.

(** a leader has counted its votes; nobody asks for pre-votes *)
Definition sound (n : node) : Prop := pm_prevote (n_prm n) = false /\ n_prevote n = None /\ (n_role n = Leader -> n_done n = true).
Definition R103 : rel := fun n l n' => sound n -> hears (leads n) l = Some (leads n') /\ sound n'.
#[export] Instance R103_pre : preorder R103.
Proof.
  split; unfold R103; [intros n S; split; [reflexivity | exact S]|].
  intros n1 l1 n2 l2 n3 H1 H2 S. destruct (H1 S) as [A B]. destruct (H2 B) as [C D]. rewrite hears_app, A. split; assumption.
Qed.
Ltac te := unfold R103, upd_peer; intros ?T; repeat match goal with |- context [match ?x with _ => _ end] => destruct x end;
  first [split; [reflexivity | exact T] | destruct T as (? & ? & ?); unfold sound, leads in *; cbn in *; auto].

Lemma ht_assume : forall A (m : M A) n, (sound n -> ht R103 yes m n) -> ht R103 yes m n.
Proof. intros A m n H r n' l E. split; [intros T; exact (proj1 (H T r n' l E) T) | intros; exact I]. Qed.

(** ** Stepping down *)
Lemma become_follower_R : forall n, ht R103 yes become_follower n.
Proof.
  intros n r n' l E. split; [|intros; exact I]. intros (S1 & S2 & S3).
  unfold become_follower, restart_election_timer in E. unfold bind, get, modify, emit, ret in E. cbn -[disk_apply] in E.
  destruct (n_catching n); inversion E; subst; (split; [destruct n; reflexivity|]; unfold sound; cbn; split; [exact S1|]; split; [reflexivity | discriminate]).
Qed.
Lemma update_term_R : forall t n, ht R103 yes (update_term t) n.
Proof.
  intros t n r n' l E. split; [|intros; exact I]. rewrite update_term_eq in E. intros (S1 & S2 & S3). destruct (n_term n <? t) eqn:Et; inversion E; subst.
  - unfold arrived_acts. rewrite Et. split; [destruct (n_catching n); reflexivity|]. split; [exact S1|]. split; [reflexivity | discriminate].
  - split; [reflexivity|]. repeat split; assumption.
Qed.

(** ** Taking the lead *)
(** what follows the call of the listener, with the present term, the log end and the members *)
Definition lead_on (t : N) : M unit :=
  nx <- next_slot_ ;;
  ids <- peer_ids ;;
  for_each ids (fun i =>
    modify (upd_peer (PPeer i) (fun p => p_set_busy false (p_set_sync None (p_set_next nx p)))) ;;;
    enable_hb_for_peer i) ;;;
  c <- get n_config ;;
  when (cc_log_idx c =? 0)
    (nx <- next_slot_ ;;
     modify (set_config (cfg_set_log_idx nx c)) ;;;
     log_append (conf_entry t (cfg_set_log_idx nx c)) ;;;
     modify (set_changing true)) ;;;
  request_append_entries.
Lemma lead_on_R : forall t n, ht R103 yes (lead_on t) n.
Proof. walk_base R103 te. intros t n. unfold lead_on. open_prims. wall te. Qed.
Definition in_lead (n : node) : node :=
  set_disk (disk_apply (n_disk n) (ABecomeLeader (n_term n))) (set_join None (set_leader (n_id n) (set_role Leader (set_disk (disk_apply (n_disk n) (ATimer false)) (set_timer false n))))).
Lemma become_leader_eq : forall n, become_leader n = after [ATimer false; ABecomeLeader (n_term n)] (lead_on (n_term n) (in_lead n)).
Proof.
  intros n. unfold become_leader. erewrite bind_ok by (unfold stop_election_timer; rewrite bind_modify; reflexivity).
  rewrite bind_modify, bind_get, bind_modify, bind_modify, bind_get, bind_emit.
  match goal with |- after _ (after [ABecomeLeader ?t] (_ ?x)) = _ =>
    assert (X : x = in_lead n) by (destruct n; reflexivity); rewrite X; clear X; assert (Y : t = n_term n) by (destruct n; reflexivity); rewrite Y; clear Y end.
  unfold lead_on. cbv beta.
  match goal with |- after _ (after _ ?z) = _ => generalize z end. intros [[r m] l]. reflexivity.
Qed.
Lemma become_leader_R : forall n r n' l, become_leader n = (r, n', l) -> pm_prevote (n_prm n) = false -> n_prevote n = None -> n_done n = true -> n_role n <> Leader ->
  hears false l = Some (leads n') /\ sound n'.
Proof.
  intros n r n' l E P1 P2 D Hr. rewrite become_leader_eq in E. 
  assert (S1 : sound (in_lead n)) by (split; [exact P1|]; split; [exact P2 | intros; exact D]).
  assert (S2 : leads (in_lead n) = true) by reflexivity. revert E S1 S2. generalize (in_lead n). intros n1 E S1 S2.
  destruct (lead_on (n_term n) n1) as [[r1 n2] l1] eqn:E1. unfold after in E. cbn [fst snd] in E. injection E as <- <- <-.
  destruct (proj1 (lead_on_R _ _ _ _ _ E1) S1) as [A B]. split; [|exact B]. rewrite S2 in A. exact A.
Qed.
Lemma lead_R : forall n, n_done n = true -> n_role n <> Leader -> ht R103 yes become_leader n.
Proof.
  intros n D Hr r n' l E. split; [|intros; exact I]. intros (S1 & S2 & _).
  assert (B : leads n = false) by (unfold leads; destruct (n_role n); congruence). rewrite B.
  exact (become_leader_R n r n' l E S1 S2 D Hr).
Qed.
Lemma request_vote_R : forall n, n_role n <> Leader -> ht R103 yes request_vote n.
Proof.
  intros n Hr. unfold request_vote, save_state. walk_base R103 te.
  do 30 try (first [hstep; [te; fail|] | hstep]). 
  - apply lead_R; [reflexivity | exact Hr].
  - open_prims. wall te.
Qed.
Definition cand (n : node) : node :=
  set_done false (set_voted [] (set_votes 0 (set_role Candidate (set_vote (-1) (set_term (n_term n + 1) (set_prevote None n)))))).
Definition campaign : M unit :=
  save_state ;;;
  request_vote ;;;
  r <- get n_role ;;
  match r with Leader => ret tt | _ => restart_election_timer end.
Lemma become_candidate_eq : forall n, become_candidate n = campaign (cand n).
Proof. intros n. unfold become_candidate. rewrite !bind_modify. unfold campaign. cbv beta.
  match goal with |- _ ?x = _ => assert (X : x = cand n) by (destruct n; reflexivity); rewrite X; clear X end. generalize (cand n). reflexivity.
Qed.
Lemma campaign_R : forall n, n_role n <> Leader -> ht R103 yes campaign n.
Proof.
  intros n Hr. unfold campaign, save_state, restart_election_timer.
  eapply ht_bind with (Q1 := fun _ x => n_role x = n_role n); [exact _ | repeat (hstep; [te|] || hstep); reflexivity|].
  intros _ l1 m1 _ _ X. eapply ht_seq; [exact _ | apply request_vote_R; congruence|]. intros. wall te.
Qed.
Lemma become_candidate_R : forall n, n_role n <> Leader -> ht R103 yes become_candidate n.
Proof.
  intros n Hr r n' l E. split; [|intros; exact I]. intros (S1 & S2 & S3). rewrite become_candidate_eq in E.
  assert (B : leads n = false) by (unfold leads; destruct (n_role n); congruence). rewrite B.
  assert (X : n_role (cand n) = Candidate /\ sound (cand n)) by (split; [reflexivity|]; split; [exact S1|]; split; [reflexivity | discriminate]).
  revert X E. generalize (cand n). intros m [X1 X2] E.
  assert (Hm : n_role m <> Leader) by congruence. destruct (proj1 (campaign_R m Hm _ _ _ E) X2) as [A C].
  split; [|exact C]. rewrite <- A. unfold leads. rewrite X1. reflexivity.
Qed.
Lemma election_R : forall n, ht R103 yes handle_election_timeout n.
Proof.
  intros n. apply ht_assume. intros (S1 & S2 & S3). unfold handle_election_timeout, restart_election_timer. hstep; [te|]. hstep.
  change (n_prm (set_timer false n)) with (n_prm n). rewrite S1.
  destruct (0 <? n_steps (set_timer false n))%Z; [wall te|]. destruct (n_catching (set_timer false n)); [wall te|].
  destruct (n_role (set_timer false n)) eqn:Er; [apply become_candidate_R; congruence | apply become_candidate_R; congruence | wall te].
Qed.
Lemma voting_R : forall r n, ht R103 yes (handle_voting_resp r) n.
Proof.
  intros r n. apply ht_assume. intros (S1 & S2 & S3). unfold handle_voting_resp. hstep.
  destruct (negb _); [wall te|]. destruct (n_done n) eqn:D; [wall te|]. assert (Hr : n_role n <> Leader) by (intros X; specialize (S3 X); congruence).
  destruct (existsb _ _); [wall te|]. clear S1 S2 S3 D.
  hstep; [te|]. eapply ht_bind with (Q1 := fun _ m => n_role m <> Leader); [exact _ | destruct (rs_accepted r); cbn [when]; (hstep; [te|] || hstep; exact Hr)|].
  intros _ m l1 _ _ Hm. clear n Hr. rename m into n, Hm into Hr. hstep.
  eapply ht_bind with (Q1 := fun _ m => n_role m <> Leader); [exact _ | destruct (Nat.leb _ _); cbn [when]; (hstep; [te|] || hstep; exact Hr)|].
  generalize (majority n (n_votes n)). intros b _ m l2 _ _ Hm. clear n Hr. destruct b; cbn [when]; [|hstep; exact I].
  hstep; [te|]. apply lead_R; [reflexivity | exact Hm].
Qed.

(** ** Every event *)
Definition join_type (q : req) : bool := beq (rq_type q) join_cluster_request.
Lemma event_R : forall e n, (forall now q, e = ERequest now q -> join_type q = false) -> ht R103 yes (run_event e) n.
Proof.
  assert (W_bef := become_follower_R). assert (W_upt := update_term_R). assert (W_het := election_R). assert (W_vrs := voting_R).
  walk_base R103 te. walk_reconf R103 te. walk_hb R103 te. walk_reqs R103 te. walk_leave R103 te.
  assert (W_prs : forall r n, ht R103 yes (handle_prevote_resp r) n).
  { intros r n. apply ht_assume. intros (_ & T & _). unfold handle_prevote_resp. apply ht_bget. rewrite T. apply ht_ret; [exact _ | exact I]. }
  assert (W_aes : forall r n, ht R103 yes (handle_append_entries_resp r) n) by (intros; unfold handle_append_entries_resp; open_prims; wall te).
  assert (W_iss : forall r n, ht R103 yes (handle_install_snapshot_resp r) n) by (intros; unfold handle_install_snapshot_resp; open_prims; wall te).
  assert (W_per : forall now r n, ht R103 yes (handle_peer_resp now r) n) by (intros; unfold handle_peer_resp; open_prims; wall te).
  assert (W_stn : forall i n, ht R103 yes (sync_log_to_new_srv i) n) by (intros; unfold sync_log_to_new_srv; open_prims; wall te).
  assert (W_rms : forall i n, ht R103 yes (rm_srv_from_cluster i) n) by (intros; unfold rm_srv_from_cluster, append_config; open_prims; wall te).
  assert (W_err : forall q n, ht R103 yes (handle_ext_resp_err q) n) by (intros; unfold handle_ext_resp_err; open_prims; wall te).
  walk_ext_resp R103 te. walk_rest R103 te. walk_rpc R103 te.
  assert (P : forall now q n, join_type q = false -> ht R103 yes (process_req now q) n).
  { intros now q n H. unfold process_req, handle_extended_msg. unfold join_type in H. rewrite H. wall te. }
  assert (S : forall now q n, join_type q = false -> ht R103 yes (send_msg_to_leader now q) n).
  { intros now q n H. unfold send_msg_to_leader.
    repeat match goal with
    | |- ht _ _ (process_req _ _) _ => apply P; assumption
    | _ => wstep te
    end. }
  intros e n HJ. destruct e; cbn [run_event]; unfold retry, add_srv, append_entries, remove_srv; try solve [wall te; apply W_rpc].
  - eapply ht_seq; [exact _ | apply P, (HJ _ _ eq_refl) | intros; apply ht_ret; [exact _ | exact I]].
  - destruct logs; (eapply ht_seq; [exact _ | | intros; apply ht_ret; [exact _ | exact I]]); [apply ht_ret; [exact _ | exact I]|]. apply S; reflexivity.
  - eapply ht_seq; [exact _ | apply S; reflexivity | intros; apply ht_ret; [exact _ | exact I]].
  - eapply ht_seq; [exact _ | apply S; reflexivity | intros; apply ht_ret; [exact _ | exact I]].
Qed.

(** C103: What an application that listens takes the server for is what the server is, after
    every event since the process was started; and it is never told twice in a row that the
    server becomes leader.  What is missing: servers that are asked to join a cluster, for which it
    does not hold, and servers with pre-votes enabled. *)
Theorem C103_listener_partial : forall id pm d h n, pm_prevote pm = false -> runs (start_node id pm d) h n -> without join_cluster_request h ->
  hears false (acts_of h) = Some (leads n).
Proof.
  intros id pm d h n HP R W. assert (S : sound (start_node id pm d) /\ leads (start_node id pm d) = false).
  { unfold start_node. destruct (dk_state d) as [[t v]|]; (split; [|reflexivity]); (split; [exact HP|]; split; [reflexivity | discriminate]). }
  destruct S as [S L]. rewrite <- L. clear HP L. induction R as [n|n e r n' l h n2 E G R IH]; [reflexivity|].
  assert (J : forall now q, e = ERequest now q -> join_type q = false).
  { intros now q ->. unfold join_type. destruct (beq (rq_type q) join_cluster_request) eqn:X; [|reflexivity].
    exfalso. apply (W _ (or_introl eq_refl)). exists now, q. split; [reflexivity | apply Byte.byte_dec_bl, X]. }
  destruct (proj1 (event_R e n J _ _ _ E) S) as [A B]. unfold acts_of. cbn [map concat o_acts]. rewrite hears_app, A.
  apply IH; [intros o Ho; apply W; right; exact Ho | exact B].
Qed.

(** ** A leader that joins another cluster *)
Definition RQ : rel := fun n l n' => n_role n' = n_role n /\ forall b, hears b l = Some b.
#[export] Instance RQ_pre : preorder RQ.
Proof.
  split; unfold RQ; [intros n; split; reflexivity|].
  intros n1 l1 n2 l2 n3 [A B] [C D]. split; [congruence|]. intros b. rewrite hears_app, B. apply D.
Qed.
Ltac tq := unfold RQ, upd_peer; repeat match goal with |- context [match ?x with _ => _ end] => destruct x end; split; reflexivity.

(** Every leader that is asked to join a cluster becomes a follower, and the listener is
    told nothing: the application goes on taking the server for a leader. *)
Theorem C103_joins_unheard_refuted : forall now q n r n' l e, rq_type q = join_cluster_request -> rq_entries q = [e] -> ev_type e = conf_log ->
  n_role n = Leader -> n_catching n = false -> run_event (ERequest now q) n = (r, n', l) ->
  leads n' = false /\ hears true l = Some true.
Proof.
  intros now q n r n' l e Hq He Ht Hr Hc E.
  assert (K : exists r1, handle_join_cluster_req q n = (r1, n', l)).
  { cbn [run_event] in E. unfold process_req, handle_extended_msg in E. rewrite Hq in E. cbn [when orb] in E.
    change (beq join_cluster_request append_entries_request) with false in E. change (beq join_cluster_request vote_request) with false in E.
    change (beq join_cluster_request install_snapshot_request) with false in E. change (beq join_cluster_request client_request) with false in E.
    change (beq join_cluster_request add_server_request) with false in E. change (beq join_cluster_request remove_server_request) with false in E.
    change (beq join_cluster_request sync_log_request) with false in E. change (beq join_cluster_request join_cluster_request) with true in E.
    cbn [orb when] in E. cbv iota in E. rewrite bind_assoc, bind_ret in E. unfold bind in E. destruct (handle_join_cluster_req q n) as [[x m] k].
    destruct x; unfold ret in E; injection E as _ <- <-; rewrite ?app_nil_r; eexists; reflexivity. }
  destruct K as (r1 & K). unfold handle_join_cluster_req in K. rewrite bind_get, He, Ht, Hc in K. change (negb (beq conf_log conf_log)) with false in K. cbv iota in K.
  rewrite !bind_modify in K. 
  match type of K with _ ?x = _ => assert (X : n_role x = Follower) by reflexivity; revert X K; generalize x end.
  intros m X. match goal with |- ?f m = _ -> _ => assert (Q : ht RQ yes f m) end.
  { clear. walk_base RQ tq. walk_reconf RQ tq. open_prims. wall tq. }
  intros K. destruct (proj1 (Q _ _ _ K)) as [A B]. split; [unfold leads; rewrite A, X; reflexivity | apply B].
Qed.

(** ** Examples *)
Fixpoint go (n : node) (es : list event) : list obs * node :=
  match es with
  | [] => ([], n)
  | e :: es => let '(r, n', l) := run_event e n in let '(h, m) := go n' es in (mkObs e l (answer_of r) :: h, m)
  end.
Fixpoint goes (n : node) (es : list event) : bool :=
  match es with
  | [] => true
  | e :: es => let '(r, n', l) := run_event e n in goes_on r && goes n' es
  end.
Lemma go_runs : forall es n, goes n es = true -> runs n (fst (go n es)) (snd (go n es)).
Proof.
  induction es as [|e es IH]; intros n H; cbn [go goes] in *; [constructor|]. destruct (run_event e n) as [[r n'] l] eqn:E.
  apply andb_prop in H. destruct H as [G H]. specialize (IH n' H). destruct (go n' es) as [h m]. cbn [fst snd] in *. eapply R_event; eassumption.
Qed.

(** server 1 of three campaigns, is elected by server 2, leads, and gives way to a candidate
    of a later term *)
Definition ex_heard : list event :=
  [EElection; ERpc 0 0 false (mkReq 1 vote_request 1 2 0 0 0 []) (Some (mkResp 1 vote_response 2 1 1 true));
   ERequest 0 (ex_vote 5 2 9 9); EElection].
Example C103_listener_example : let x := go (start_node 1 ex_prm ex_disk) ex_heard in
  pm_prevote ex_prm = false /\ runs (start_node 1 ex_prm ex_disk) (fst x) (snd x) /\ without join_cluster_request (fst x) /\
  filter (fun a => match a with ABecomeLeader _ | ABecomeFollower => true | _ => false end) (acts_of (fst x)) = [ABecomeLeader 1; ABecomeFollower] /\
  n_role (snd x) = Candidate.
Proof.
  cbv zeta. split; [reflexivity|]. split; [apply go_runs; vm_compute; reflexivity|]. split; [|split; [vm_compute; reflexivity | vm_compute; reflexivity]].
  intros o Ho (now & q & E & T).
  assert (F : forallb (fun o => match o_event o with ERequest _ q => negb (join_type q) | _ => true end) (fst (go (start_node 1 ex_prm ex_disk) ex_heard)) = true) by (vm_compute; reflexivity).
  rewrite forallb_forall in F. specialize (F o Ho). rewrite E in F. unfold join_type in F. rewrite T in F. discriminate F.
Qed.

(** a new server, started on its own, elects itself; asked to join a cluster it follows, and the
    listener has heard nothing but that it became leader *)
Definition ex_alone_disk : disk := mkDisk None (mkCfg 0 0 [ex_srv 1]) a_empty 0 None [].
Definition ex_alone : list event := [EElection; ERequest 0 (ex_join 3 2)].
Example C103_joins_unheard_example : let x := go (start_node 1 ex_prm ex_alone_disk) ex_alone in
  runs (start_node 1 ex_prm ex_alone_disk) (fst x) (snd x) /\ hears false (acts_of (fst x)) = Some true /\ n_role (snd x) = Follower.
Proof. cbv zeta. split; [apply go_runs; vm_compute; reflexivity|]. split; vm_compute; reflexivity. Qed.

Print Assumptions C103_listener_partial.
Print Assumptions C103_joins_unheard_refuted.
