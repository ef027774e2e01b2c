(** * P_Leave: leaving the cluster (C56) and joining it (C52) *)

From Verif Require Import Base Buffer Codec CodecSpec Msg FsLogStore FsLogSpec Alog Raft RaftQuiet RaftWalk NodeSpec ServerSpec NodeFacts NodeExamples P_Leader P_Peer P_Out WalkAll.
Local Open Scope N_scope.

(** ** C56: the countdown of a server that was asked to leave *)

(** news from a leader or candidate: an append-entries, vote or snapshot request *)
Definition news (e : event) : Prop := exists now q, e = ERequest now q /\ peer_type (rq_type q) = true.
(** a leave request that was accepted *)
Definition leave_accepted (o : obs) : Prop :=
  exists now q r, o_event o = ERequest now q /\ rq_type q = leave_cluster_request /\ o_answer o = Some (Response r) /\ rs_accepted r = true.

(** what the other events do to the countdown: nothing *)
Definition R56 : rel := keeps n_steps.
#[export] Instance R56_pre : preorder R56 := keeps_pre _ n_steps.
Definition leave_type (q : req) : bool := beq (rq_type q) leave_cluster_request.

Lemma steps_kept : forall e n, e <> EElection -> ~ news e -> (forall now q, e = ERequest now q -> leave_type q = false) ->
  ht R56 yes (run_event e) n.
Proof.
  walk_base R56 ltac:(unfold R56; kp). walk_down R56 ltac:(unfold R56; kp). walk_reconf R56 ltac:(unfold R56; kp). walk_lead R56 ltac:(unfold R56; kp).
  walk_cand R56 ltac:(unfold R56; kp). walk_prevote R56 ltac:(unfold R56; kp). walk_hb R56 ltac:(unfold R56; kp). walk_reqs R56 ltac:(unfold R56; kp).
  walk_join R56 ltac:(unfold R56; kp). walk_resps R56 ltac:(unfold R56; kp). walk_prevote_resp R56 ltac:(unfold R56; kp).
  walk_ext_resp R56 ltac:(unfold R56; kp). walk_rest R56 ltac:(unfold R56; kp). walk_rpc R56 ltac:(unfold R56; kp).
  assert (P : forall now q n, peer_type (rq_type q) = false -> leave_type q = false -> ht R56 yes (process_req now q) n).
  { intros now q n H1 H2. unfold process_req. unfold peer_type in H1. rewrite H1. cbn [when]. apply ht_bret.
    destruct (beq (rq_type q) append_entries_request); [apply W_aer|]. destruct (beq (rq_type q) vote_request); [apply W_vrq|].
    destruct (beq (rq_type q) client_request); [apply W_cli|]. unfold handle_extended_msg. unfold leave_type in H2. rewrite H2.
    wall ltac:(unfold R56; kp). }
  assert (S : forall now q n, peer_type (rq_type q) = false -> leave_type q = false -> ht R56 yes (send_msg_to_leader now q) n).
  { intros now q n H1 H2. unfold send_msg_to_leader.
    repeat match goal with
    | |- ht _ _ (process_req _ _) _ => apply P; assumption
    | _ => wstep ltac:(unfold R56; kp)
    end. }
  intros e n He Hn Hl. destruct e; cbn [run_event]; unfold retry, add_srv, append_entries, remove_srv; try (wall ltac:(unfold R56; kp); apply W_rpc).
  - destruct (He eq_refl).
  - eapply ht_seq; [exact _ | apply P | intros; apply ht_ret; [exact _ | exact I]].
    + destruct (peer_type (rq_type q)) eqn:E; [|reflexivity]. exfalso. apply Hn. exists now, q. split; [reflexivity | exact E].
    + apply (Hl _ _ eq_refl).
  - destruct logs; (eapply ht_seq; [exact _ | | intros; apply ht_ret; [exact _ | exact I]]); [apply ht_ret; [exact _ | exact I]|].
    apply S; reflexivity.
  - eapply ht_seq; [exact _ | apply S; reflexivity | intros; apply ht_ret; [exact _ | exact I]].
  - eapply ht_seq; [exact _ | apply S; reflexivity | intros; apply ht_ret; [exact _ | exact I]].
Qed.

Lemma steps_news : forall now q n r n' l, peer_type (rq_type q) = true -> run_event (ERequest now q) n = (r, n', l) ->
  n_steps n' = if (0 <? n_steps n)%Z then 2%Z else n_steps n.
Proof.
  intros now q n r n' l Hp H.
  assert (A : n_steps (arrived (rq_term q) n) = if (0 <? n_steps n)%Z then 2%Z else n_steps n).
  { unfold arrived. destruct (_ <? _); cbn [with_term n_steps]; unfold with_term; cbn [n_steps]; destruct (0 <? n_steps n)%Z; reflexivity. }
  assert (K : forall q n, ht R56 yes (if beq (rq_type q) append_entries_request then handle_append_entries q
      else if beq (rq_type q) vote_request then handle_vote_req q else handle_install_snapshot_req q) n).
  { walk_base R56 ltac:(unfold R56; kp). walk_down R56 ltac:(unfold R56; kp). walk_reconf R56 ltac:(unfold R56; kp). walk_reqs R56 ltac:(unfold R56; kp).
    clear q n r n' l Hp H A. intros q n. destruct (beq _ _); [apply W_aer|]. destruct (beq _ _); [apply W_vrq | apply W_ins]. }
  cbn [run_event] in H. unfold bind in H. rewrite process_peer_req in H by exact Hp. unfold after in H.
  specialize (K q (arrived (rq_term q) n)).
  destruct ((if beq (rq_type q) append_entries_request then handle_append_entries q
      else if beq (rq_type q) vote_request then handle_vote_req q else handle_install_snapshot_req q) (arrived (rq_term q) n)) as [[x n1] l1] eqn:E.
  destruct (K _ _ _ E) as [K1 _]. unfold R56, keeps in K1. cbn [fst snd] in H.
  assert (En : n' = n1) by (destruct x; inversion H; subst; reflexivity). subst n'. rewrite K1. exact A.
Qed.

Lemma steps_leave : forall now q n r n' l, rq_type q = leave_cluster_request -> run_event (ERequest now q) n = (r, n', l) ->
  exists rs, r = ROk (Response rs) /\ if rs_accepted rs then n_steps n' = 2%Z else n_steps n' = n_steps n.
Proof.
  intros now q n r n' l Ht H. cbn [run_event] in H. unfold bind in H. rewrite process_leave in H by exact Ht.
  unfold handle_leave_cluster_req, bind, get in H. destruct (n_changing n); cbn in H; inversion H; subst; (eexists; split; [reflexivity|]); cbn; reflexivity.
Qed.

Lemma steps_election : forall n r n' l, run_event EElection n = (r, n', l) -> goes_on r = true ->
  (n_steps n <= 0 /\ n_steps n' = n_steps n)%Z \/ (2 <= n_steps n /\ n_steps n' = n_steps n - 1)%Z.
Proof.
  intros n r n' l H G.
  assert (K : forall n, ht R56 yes request_prevote n /\ ht R56 yes become_candidate n).
  { walk_base R56 ltac:(unfold R56; kp). walk_lead R56 ltac:(unfold R56; kp). walk_cand R56 ltac:(unfold R56; kp). walk_prevote R56 ltac:(unfold R56; kp).
    intros n0. split; [apply W_rqp | apply W_bec]. }
  cbn [run_event] in H. unfold handle_election_timeout in H. rewrite bind_assoc, bind_modify, bind_assoc, bind_get in H.
  set (n1 := set_timer false n) in *. assert (E1 : n_steps n1 = n_steps n) by reflexivity. rewrite E1 in H.
  destruct (0 <? n_steps n)%Z eqn:Ep.
  - apply Z.ltb_lt in Ep. rewrite bind_assoc, bind_modify in H. destruct (n_steps n - 1 =? 0)%Z eqn:Eq.
    + exfalso. destruct (cfg_server (n_config n1) (n_id n1)) as [s|].
      * rewrite bind_assoc, bind_assoc, bind_modify, bind_emit in H. unfold bind, system_exit, after in H. cbn in H. inversion H; subst. discriminate.
      * rewrite bind_assoc, bind_ret in H. unfold bind, system_exit in H. inversion H; subst. discriminate.
    + right. apply Z.eqb_neq in Eq. split; [lia|]. unfold restart_election_timer in H. rewrite bind_assoc, bind_get in H.
      destruct (n_catching _); cbn in H; inversion H; subst; reflexivity.
  - left. apply Z.ltb_ge in Ep. split; [exact Ep|]. rewrite <- E1.
    assert (Q : ht R56 yes (bind (if n_catching n1 then restart_election_timer else
      match n_role n1 with Leader => system_exit (-1) | Follower => if pm_prevote (n_prm n1) then match n_prevote n1 with Some (_, _ :: _) => ret tt | _ => request_prevote end else become_candidate | Candidate => become_candidate end)
      (fun _ => ret Nothing)) n1).
    { unfold restart_election_timer. repeat match goal with
      | |- ht _ _ request_prevote _ => apply K
      | |- ht _ _ become_candidate _ => apply K
      | _ => wstep ltac:(unfold R56; kp) end. }
    destruct (Q _ _ _ H) as [Q1 _]. exact Q1.
Qed.

(** the state of the countdown as the history explains it *)
Definition counting (h : list obs) (k : Z) : Prop :=
  (k <= 0 \/ (k = 2 /\ exists o, In o h /\ leave_accepted o) \/
   (k = 1 /\ exists h1 o h2, h = h1 ++ o :: h2 /\ o_event o = EElection /\ (exists o', In o' h1 /\ leave_accepted o') /\
      forall o', In o' h2 -> o_event o' <> EElection /\ ~ news (o_event o') /\ ~ leave_accepted o'))%Z.

Ltac kept H n := match type of H with run_event ?e _ = _ =>
  apply (steps_kept e n ltac:(discriminate) ltac:(intros (? & ? & ? & _); discriminate) ltac:(intros; discriminate) _ _ _ H) end.
Lemma counting_step : forall h n e r n' l, counting h (n_steps n) -> run_event e n = (r, n', l) -> goes_on r = true ->
  counting (h ++ [mkObs e l (answer_of r)]) (n_steps n').
Proof.
  intros h n e r n' l C H G.
  assert (Same : n_steps n' = n_steps n -> e <> EElection -> ~ news e -> ~ leave_accepted (mkObs e l (answer_of r)) -> counting (h ++ [mkObs e l (answer_of r)]) (n_steps n')).
  { intros Es N1 N2 N3. rewrite Es. destruct C as [C|[[C (o & Ho & La)]|[C (h1 & o & h2 & Eh & Eo & (o' & Ho' & La) & N)]]].
    - left. exact C.
    - right. left. split; [exact C|]. exists o. split; [apply in_or_app; left; exact Ho | exact La].
    - right. right. split; [exact C|]. exists h1, o, (h2 ++ [mkObs e l (answer_of r)]). split; [rewrite Eh, <- app_assoc; reflexivity|].
      split; [exact Eo|]. split; [exists o'; split; assumption|]. intros o1 Ho1. apply in_app_or in Ho1. destruct Ho1 as [Ho1|[<-|[]]]; [apply N, Ho1|].
      split; [exact N1 | split; [exact N2 | exact N3]]. }
  assert (La2 : (0 < n_steps n)%Z -> exists o, In o h /\ leave_accepted o).
  { intros Hp. destruct C as [C|[[C X]|[C (h1 & o & h2 & -> & _ & (o' & Ho' & La) & _)]]]; [lia | exact X |].
    exists o'. split; [apply in_or_app; left; exact Ho' | exact La]. }
  destruct e.
  - destruct (steps_election _ _ _ _ H G) as [[H1 H2]|[H1 H2]]; [left; rewrite H2; exact H1|].
    destruct C as [C|[[C X]|[C _]]]; [lia | | lia]. right. right. split; [rewrite H2, C; reflexivity|].
    exists h, (mkObs EElection l (answer_of r)), []. split; [reflexivity|]. split; [reflexivity|]. split; [exact X|]. intros ? [].
  - apply Same; [|discriminate | intros (? & ? & ? & _); discriminate | intros (? & ? & ? & ? & _); discriminate].
    kept H n.
  - destruct (peer_type (rq_type q)) eqn:Ep.
    + rewrite (steps_news _ _ _ _ _ _ Ep H). destruct (0 <? n_steps n)%Z eqn:E0.
      * apply Z.ltb_lt in E0. right. left. split; [reflexivity|]. destruct (La2 E0) as (o & Ho & La). exists o. split; [apply in_or_app; left; exact Ho | exact La].
      * left. apply Z.ltb_ge, E0.
    + destruct (leave_type q) eqn:El.
      * unfold leave_type, beq in El. apply Byte.byte_dec_bl in El. destruct (steps_leave _ _ _ _ _ _ El H) as (rs & -> & A).
        destruct (rs_accepted rs) eqn:Ea.
        -- right. left. split; [exact A|]. exists (mkObs (ERequest now q) l (Some (Response rs))). split; [apply in_or_app; right; left; reflexivity|].
           exists now, q, rs. split; [reflexivity | split; [exact El | split; [reflexivity | exact Ea]]].
        -- apply Same; [exact A | discriminate | | ].
           ++ intros (now' & q' & E & Hp). injection E as _ <-. congruence.
           ++ intros (now' & q' & rs' & _ & _ & Er & Ha). cbn in Er. injection Er as <-. congruence.
      * assert (Nn : ~ news (ERequest now q)) by (intros (now' & q' & E & Hp); injection E as _ <-; congruence).
        apply Same; [|discriminate | exact Nn|].
        -- apply (steps_kept (ERequest now q) n ltac:(discriminate) Nn ltac:(intros ? ? E; injection E as _ <-; exact El) _ _ _ H).
        -- intros (now' & q' & rs' & E & Hl & _). cbn in E. injection E as _ <-. unfold leave_type in El. rewrite Hl in El. discriminate.
  - apply Same; [|discriminate | intros (? & ? & ? & _); discriminate | intros (? & ? & ? & ? & _); discriminate].
    kept H n.
  - apply Same; [|discriminate | intros (? & ? & ? & _); discriminate | intros (? & ? & ? & ? & _); discriminate].
    kept H n.
  - apply Same; [|discriminate | intros (? & ? & ? & _); discriminate | intros (? & ? & ? & ? & _); discriminate].
    kept H n.
  - apply Same; [|discriminate | intros (? & ? & ? & _); discriminate | intros (? & ? & ? & ? & _); discriminate].
    kept H n.
  - apply Same; [|discriminate | intros (? & ? & ? & _); discriminate | intros (? & ? & ? & ? & _); discriminate].
    kept H n.
  - apply Same; [|discriminate | intros (? & ? & ? & _); discriminate | intros (? & ? & ? & ? & _); discriminate].
    kept H n.
  - apply Same; [|discriminate | intros (? & ? & ? & _); discriminate | intros (? & ? & ? & ? & _); discriminate].
    kept H n.
  - apply Same; [|discriminate | intros (? & ? & ? & _); discriminate | intros (? & ? & ? & ? & _); discriminate].
    kept H n.
Qed.
Lemma counting_runs : forall n h n', runs n h n' -> forall h0, counting h0 (n_steps n) -> counting (h0 ++ h) (n_steps n').
Proof.
  induction 1 as [n|n e r n1 l h n2 E G R IH]; intros h0 C; [rewrite app_nil_r; exact C|].
  replace (h0 ++ _ :: h) with ((h0 ++ [mkObs e l (answer_of r)]) ++ h) by (rewrite <- app_assoc; reflexivity).
  apply IH. eapply counting_step; eassumption.
Qed.

(** what a server may save as its configuration *)
Definition sv (P : cluster_config -> Prop) : rel := acts (fun a => match a with ASaveConfig c => P c | _ => True end).
#[export] Instance sv_pre : forall P, preorder (sv P) := fun P => acts_pre _.
Ltac svt := unfold sv, acts; repeat constructor.
Ltac svp Pc := unfold sv, acts; first [apply Forall_nil | apply Forall_cons; [first [exact I | exact Pc | apply Pc] | apply Forall_nil]].
Definition none (c : cluster_config) : Prop := False.

Lemma reconf_saves : forall (P : cluster_config -> Prop) c n, P c -> ht (sv P) (fun _ n' => n_config n' = c) (reconfigure c) n.
Proof.
  intros P c n Hc. unfold reconfigure, make_peer, next_slot_, enable_hb_for_peer. apply ht_bget. cbv zeta.
  eapply ht_seq; [exact _ | wall ltac:(svt)|]. intros a n1 l1 _ _.
  eapply ht_seq; [exact _ | wall ltac:(svp Hc)|]. intros a2 n2 l2 _ _.
  apply ht_modify; [svt | reflexivity].
Qed.
Definition jrel : rel := fun n l n' => n_catching n' = n_catching n /\ (n_catching n = true -> Forall (fun a => match a with ASaveConfig _ => False | _ => True end) l).
#[export] Instance jrel_pre : preorder jrel.
Proof.
  split.
  - intros n. split; [reflexivity | constructor].
  - intros n l n1 l1 n2 [H1 H2] [H3 H4]. split; [congruence|]. intros H. apply Forall_app. split; [auto | apply H4; congruence].
Qed.
Ltac jr := unfold jrel; split; [cbn; repeat match goal with |- context [match ?x with _ => _ end] => destruct x end; reflexivity | intros; repeat constructor].
Lemma reconf_joining : forall c n, ht jrel yes (reconfigure c) n.
Proof.
  intros c n. unfold reconfigure, make_peer, next_slot_, enable_hb_for_peer. apply ht_bget. cbv zeta.
  eapply ht_seq; [exact _ | wall ltac:(unfold upd_peer; jr)|]. intros a n1 l1 _ _.
  eapply ht_seq; [exact _ | |].
  - apply for_each_yes; [exact _|]. intros id n2 _. apply ht_bget.
    destruct ((id =? n_id n)%Z && negb (n_catching n2)) eqn:E.
    + apply andb_prop in E. destruct E as [_ E]. apply negb_true_iff in E.
      apply ht_bemit; [exact _| |].
      * split; [reflexivity | congruence].
      * apply ht_exit. split; [reflexivity | intros H; repeat constructor].
    + apply ht_modify; [jr | exact I].
  - intros a2 n2 l2 _ _. apply ht_modify; [jr | exact I].
Qed.

(** every event by which a server may save a configuration *)
Inductive may_save (n : node) : event -> cluster_config -> Prop :=
| Save_leave : forall c, n_steps n = 1%Z -> may_save n EElection c
| Save_commit : forall en c, n_smc n < n_quick n -> a_get (n_log n) (n_smc n + 1) = Some en -> ev_type en = conf_log ->
    parse_cfg (ev_data en) = Ok c -> may_save n ECommit c
| Save_snapshot : forall now q e s, rq_type q = install_snapshot_request -> rq_entries q = [e] -> parse_sync (ev_data e) = Ok s -> sv_done s = true ->
    may_save n (ERequest now q) (sn_config (sv_snp s)).

Lemma saves_only : forall e n, ht (sv (may_save n e)) yes (run_event e) n.
Proof.
  assert (Weak : forall P A (m : M A) n, ht (sv none) yes m n -> ht (sv P) yes m n).
  { intros P A m n H r n' l E. destruct (H _ _ _ E) as [H1 _]. split; [|intros; exact I]. unfold sv, acts in *. eapply Forall_impl; [|exact H1].
    intros a Ha. destruct a; auto. destruct Ha. }
  set (R := sv none) in Weak. assert (PR : preorder R) by (unfold R; exact _).
  walk_base R ltac:(unfold R; svt). walk_down R ltac:(unfold R; svt). walk_lead R ltac:(unfold R; svt).
  walk_cand R ltac:(unfold R; svt). walk_prevote R ltac:(unfold R; svt). walk_hb R ltac:(unfold R; svt).
  assert (W_aer : forall q n, ht R yes (handle_append_entries q) n) by (intros; unfold handle_append_entries; open_prims; wall ltac:(unfold R; svt)).
  assert (W_vrq : forall q n, ht R yes (handle_vote_req q) n) by (intros; unfold handle_vote_req; open_prims; wall ltac:(unfold R; svt)).
  assert (W_cli : forall now q n, ht R yes (handle_cli_req now q) n) by (intros; unfold handle_cli_req; open_prims; wall ltac:(unfold R; svt)).
  assert (W_add : forall q n, ht R yes (handle_add_srv_req q) n) by (intros; unfold handle_add_srv_req, invite_srv_to_join_cluster; open_prims; wall ltac:(unfold R; svt)).
  assert (W_rmv : forall q n, ht R yes (handle_rm_srv_req q) n) by (intros; unfold handle_rm_srv_req; open_prims; wall ltac:(unfold R; svt)).
  assert (W_syn : forall q n, ht R yes (handle_log_sync_req q) n) by (intros; unfold handle_log_sync_req; open_prims; wall ltac:(unfold R; svt)).
  assert (W_pre : forall q n, ht R yes (handle_prevote_req q) n) by (intros; unfold handle_prevote_req; open_prims; wall ltac:(unfold R; svt)).
  walk_leave R ltac:(unfold R; svt). walk_resps R ltac:(unfold R; svt). walk_prevote_resp R ltac:(unfold R; svt). walk_ext_resp R ltac:(unfold R; svt).
  walk_rpc R ltac:(unfold R; svt).
  assert (W_snc : forall s d ok n, ht R yes (on_snapshot_completed s d ok) n) by (intros; unfold on_snapshot_completed; open_prims; wall ltac:(unfold R; svt)).
  assert (W_rep : forall now d n, ht R yes (replicate_log now d) n) by (intros; unfold replicate_log; open_prims; wall ltac:(unfold R; svt)).
  assert (W_sac : forall k n, ht R yes (snapshot_and_compact k) n) by (intros; unfold snapshot_and_compact; open_prims; wall ltac:(unfold R; svt)).
  assert (W_joi : forall q n, ht R yes (handle_join_cluster_req q) n).
  { intros q n. unfold handle_join_cluster_req. apply ht_bget. cbv zeta.
    destruct (rq_entries q) as [|e [|]]; try (apply ht_ret; [exact _ | exact I]). destruct (negb _); [apply ht_ret; [exact _ | exact I]|].
    destruct (n_catching n); [apply ht_ret; [exact _ | exact I]|].
    apply ht_bmodify; [exact _ | unfold R; svt|].
    assert (J : forall m : M resp_msg, (forall n1, ht jrel yes m n1) -> ht R yes m (set_catching true n)).
    { intros m Hm r n' l E. destruct (Hm _ _ _ _ E) as [[_ H2] _]. split; [|intros; exact I]. unfold R, sv, acts. eapply Forall_impl; [|apply H2; reflexivity].
      intros a Ha. destruct a; auto. }
    apply J. intros n1.
    unfold save_state, next_slot_. repeat match goal with |- ht _ _ (reconfigure _) _ => apply reconf_joining | _ => wstep ltac:(jr) end. }
  assert (W_ins : forall now q n, rq_type q = install_snapshot_request -> forall n0, ht (sv (may_save n0 (ERequest now q))) yes (handle_install_snapshot_req q) n).
  { intros now q n Ht n0. unfold handle_install_snapshot_req. apply ht_bget. cbv zeta.
    eapply ht_seq; [exact _ | apply Weak; open_prims; wall ltac:(unfold R; svt) | intros a n1 l1 _ _].
    destruct (negb (n_catching n) && _); [apply ht_ret; [exact _ | exact I]|].
    destruct (rq_entries q) as [|e [|]] eqn:Ee; try (apply ht_ret; [exact _ | exact I]). destruct (negb _); [apply ht_ret; [exact _ | exact I]|].
    apply ht_blift; [exact _|]. intros s Es. apply ht_bget. destruct (_ <=? _); [apply ht_ret; [exact _ | exact I]|].
    eapply ht_seq; [exact _ | | intros a2 n2 l2 _ _; apply ht_ret; [exact _ | exact I]].
    unfold handle_snapshot_sync_req. apply ht_catch; [exact _ | | intros; apply ht_exit; svt].
    apply ht_bemit; [exact _ | svt|]. destruct (sv_done s) eqn:Ed; [|apply ht_ret; [exact _ | exact I]]. apply ht_bget.
    destruct (n_role _); try (apply ht_exit; svt).
    assert (Pc : may_save n0 (ERequest now q) (sn_config (sv_snp s))) by (eapply Save_snapshot; eassumption).
    eapply ht_seq; [exact _ | unfold log_compact; wall ltac:(svt) | intros a3 n3 l3 _ _]. destruct a3; [|apply ht_ret; [exact _ | exact I]].
    eapply ht_seq; [exact _ | unfold stop_election_timer; wall ltac:(svt) | intros a4 n4 l4 _ _].
    apply ht_bemit; [exact _ | svt|].
    eapply ht_bind; [exact _ | apply (reconf_saves _ _ _ Pc) | intros a5 n5 l5 _ _ Hc].
    apply ht_bget. apply ht_bemit; [exact _ | rewrite Hc; svp Pc|].
    unfold save_state, restart_election_timer. wall ltac:(svt). }
  assert (W_pro : forall now q n n0, ht (sv (may_save n0 (ERequest now q))) yes (process_req now q) n).
  { intros now q n n0. unfold process_req. eapply ht_seq; [exact _ | apply Weak; wall ltac:(unfold R; svt) | intros a n1 l1 _ _].
    destruct (beq (rq_type q) append_entries_request); [apply Weak, W_aer|]. destruct (beq (rq_type q) vote_request); [apply Weak, W_vrq|].
    destruct (beq (rq_type q) client_request); [apply Weak, W_cli|]. unfold handle_extended_msg.
    repeat match goal with |- ht _ _ (if beq ?x ?y then _ else _) _ => destruct (beq x y) eqn:? end;
      first [apply Weak; solve [apply W_add | apply W_rmv | apply W_syn | apply W_joi | apply W_lea | apply W_pre | apply ht_exit; unfold R; svt] | apply W_ins].
    match goal with H : beq (rq_type q) install_snapshot_request = true |- _ => apply Byte.byte_dec_bl in H; exact H end. }
  assert (W_smt : forall now q n, rq_type q <> install_snapshot_request -> ht R yes (send_msg_to_leader now q) n).
  { intros now q n Hq. unfold send_msg_to_leader.
    repeat match goal with
    | |- ht _ _ (process_req _ _) ?m =>
        let E := fresh in intros r0 n0 l0 E; destruct (W_pro _ _ _ (set_steps 0 (set_smc 1 (set_quick 0 m))) _ _ _ E) as [HF _]; split; [|intros; exact I];
        unfold R, sv, acts in *; eapply Forall_impl; [|exact HF]; intros [] HH; auto; inversion HH; subst; congruence
    | _ => wstep ltac:(unfold R; svt) end. }
  intros e n. destruct e; try solve [apply Weak; cbn [run_event]; unfold retry; wall ltac:(unfold R; svt); apply W_rpc].
  - (* election *)
    cbn [run_event]. unfold handle_election_timeout. eapply ht_seq; [exact _ | | intros; apply ht_ret; [exact _ | exact I]].
    apply ht_bmodify; [exact _ | svt|]. apply ht_bget. destruct (0 <? n_steps _)%Z eqn:Ep.
    + apply ht_bmodify; [exact _ | svt|]. destruct (n_steps (set_timer false n) - 1 =? 0)%Z eqn:E1.
      * assert (Pc : forall c, may_save n EElection c) by (intros c; constructor; apply Z.eqb_eq in E1; cbn in E1; lia).
        wall ltac:(svp Pc).
      * apply Weak. open_prims. wall ltac:(unfold R; svt).
    + apply Weak. unfold restart_election_timer. wall ltac:(unfold R; svt).
  - (* request *) cbn [run_event]. eapply ht_seq; [exact _ | apply W_pro | intros; apply ht_ret; [exact _ | exact I]].
  - (* commit *)
    cbn [run_event]. eapply ht_seq; [exact _ | | intros; apply ht_ret; [exact _ | exact I]]. unfold commit_step. apply ht_bget.
    destruct ((n_smc n <? n_quick n) && _) eqn:Eq; [|apply ht_ret; [exact _ | exact I]]. apply andb_prop in Eq. destruct Eq as [Eq _]. apply N.ltb_lt in Eq.
    apply ht_catch; [exact _ | | intros; apply ht_exit; svt]. apply ht_bmodify; [exact _ | svt|].
    unfold log_entry_at. apply ht_assoc. apply ht_bget. cbv beta. change (n_log (set_smc (n_smc n + 1) n)) with (n_log n).
    destruct (n_smc n + 1 <? al_start (n_log n)); [apply ht_bthrow; exact _|]. apply ht_bret.
    destruct (a_get (n_log n) (n_smc n + 1)) as [en|] eqn:Een; cbn [deref]; [|apply ht_bub; exact _]. apply ht_bret.
    eapply ht_seq; [exact _ | | intros; apply Weak, W_sac]. destruct (beq (ev_type en) app_log); [apply ht_emit; [svt | exact I]|].
    destruct (beq (ev_type en) conf_log) eqn:Ec; [|apply ht_ret; [exact _ | exact I]]. unfold beq in Ec. apply Byte.byte_dec_bl in Ec.
    apply ht_blift; [exact _|]. intros c Epc.
    assert (Pc : may_save n ECommit c) by (eapply Save_commit; eassumption).
    apply ht_bemit; [exact _ | svp Pc|].
    repeat match goal with |- ht _ _ (reconfigure _) _ => eapply ht_yes; apply reconf_saves; exact Pc | _ => wstep ltac:(svt) end.
  - apply Weak. cbn [run_event]. unfold append_entries. destruct logs; wall ltac:(unfold R; svt). apply W_smt. discriminate.
  - apply Weak. cbn [run_event]. unfold add_srv. wall ltac:(unfold R; svt). apply W_smt. discriminate.
  - apply Weak. cbn [run_event]. unfold remove_srv. wall ltac:(unfold R; svt). apply W_smt. discriminate.
Qed.

(** C56.  Whatever configuration a server that has been running since its start
    saves, it is one that was committed or came with a complete snapshot, or the
    server was counting down after an accepted leave request: then the event is
    an election timeout, the previous timeout came after the accepted leave
    request, and between the two timeouts no news arrived. *)
Theorem C56_leave : forall id pm d h n e r n' l c,
  runs (start_node id pm d) h n -> run_event e n = (r, n', l) -> In (ASaveConfig c) l ->
  (e = EElection /\
   exists h1 o h2, h = h1 ++ o :: h2 /\ o_event o = EElection /\ (exists o', In o' h1 /\ leave_accepted o') /\
     forall o', In o' h2 -> o_event o' <> EElection /\ ~ news (o_event o') /\ ~ leave_accepted o') \/
  (e = ECommit /\ n_smc n < n_quick n /\
   exists en, a_get (n_log n) (n_smc n + 1) = Some en /\ ev_type en = conf_log /\ parse_cfg (ev_data en) = Ok c) \/
  (exists now q e1 s, e = ERequest now q /\ rq_type q = install_snapshot_request /\ rq_entries q = [e1] /\
     parse_sync (ev_data e1) = Ok s /\ sv_done s = true /\ c = sn_config (sv_snp s)).
Proof.
  intros id pm d h n e r n' l c HR E Hin. destruct (saves_only e n _ _ _ E) as [F _]. unfold sv, acts in F. rewrite Forall_forall in F. specialize (F _ Hin). cbv beta iota in F.
  inversion F as [c0 Hs | en c0 Hq Hg Ht Hp | now q e1 s Ht He Hp Hd]; subst.
  - left. split; [reflexivity|].
    assert (C0 : counting [] (n_steps (start_node id pm d))) by (left; unfold start_node; destruct (match dk_state d with Some x => x | None => _ end); cbn; lia).
    pose proof (counting_runs _ _ _ HR [] C0) as C. cbn [app] in C. destruct C as [C|[[C _]|[_ C]]]; [lia | lia | exact C].
  - right. left. split; [reflexivity|]. split; [exact Hq|]. exists en. split; [exact Hg | split; [exact Ht | exact Hp]].
  - right. right. exists now, q, e1, s. repeat (split; [first [reflexivity | assumption]|]). reflexivity.
Qed.

(** a follower is asked to leave, hears from the leader after one timeout, then
    two timeouts pass: only then it removes itself *)
Definition ex_leave_q : req := mkReq 1 leave_cluster_request 2 1 0 0 0 [].
Definition ex_leave_evs : list event :=
  [ERequest 0 (ex_ae 1 2 0 0 0 [ex_ent 1 x61]); ERequest 1 ex_leave_q; EElection; ERequest 2 (ex_ae 1 2 1 1 1 []); EElection; ECommit].
Example C56_example :
  let x := run_evs (start_node 1 ex_prm ex_disk) ex_leave_evs in
  let y := run_event EElection (snd x) in
  runs (start_node 1 ex_prm ex_disk) (fst x) (snd x) /\ length (fst x) = 6%nat /\
  snd y = [ASaveConfig (mkCfg 0 0 [ex_srv 2; ex_srv 3]); AExit (-1)].
Proof. cbv zeta. split; [apply run_evs_runs|]. split; vm_compute; reflexivity. Qed.

(** ** C52: a joining server does not campaign *)

(** asking for votes or pre-votes *)
Definition campaigns (a : act) : Prop :=
  match a with ASend _ _ q => rq_type q = vote_request \/ rq_type q = prevote_request | _ => False end.
(** the server's committing thread has applied a configuration with the server in it *)
Definition member_committed (id : Z) (o : obs) : Prop :=
  o_event o = ECommit /\ exists c, In (ASaveConfig c) (o_acts o) /\ cfg_server c id <> None.

(** what every event of a joining server without a pre-vote does *)
Definition r52 : rel := fun n l n' =>
  Forall (fun a => ~ campaigns a) l /\ (n_role n' = Candidate -> n_role n = Candidate) /\ (n_prevote n = None -> n_prevote n' = None) /\ n_id n' = n_id n.
#[export] Instance r52_pre : preorder r52.
Proof.
  split.
  - intros n. split; [constructor | auto].
  - intros n l n1 l1 n2 (A1 & B1 & C1 & D1) (A2 & B2 & C2 & D2). split; [apply Forall_app; split; assumption|]. split; [auto|]. split; [auto | congruence].
Qed.
Ltac t52 := unfold r52, upd_peer; split; [first [apply Forall_nil | apply Forall_cons; [cbn; first [tauto | intros [X|X]; cbn in X; discriminate] | apply Forall_nil]]
  | repeat match goal with |- context [match ?x with _ => _ end] => destruct x end; first [solve [cbn; auto] | cbn; split; [discriminate | auto]]].

Definition bulk_type (q : req) : Prop := rq_type q = append_entries_request \/ rq_type q = install_snapshot_request.
(** one step with a postcondition *)
Ltac qstep tac post :=
  match goal with
  | |- ht _ _ (ret _) _ => apply ht_ret; [exact _ | post]
  | |- ht _ _ (throw _) _ => apply ht_throw; exact _
  | |- ht _ _ (ub _) _ => apply ht_ub; exact _
  | |- ht _ _ (system_exit _) _ => apply ht_exit; tac
  | |- ht _ _ (bind (get _) _) _ => apply ht_bget; cbv beta
  | |- ht _ _ (bind (ret _) _) _ => apply ht_bret; cbv beta
  | |- ht _ _ (bind (throw _) _) _ => apply ht_bthrow; exact _
  | |- ht _ _ (bind (ub _) _) _ => apply ht_bub; exact _
  | |- ht _ _ (bind (system_exit _) _) _ => apply ht_bexit; [exact _ | tac]
  | |- ht _ _ (bind (bind _ _) _) _ => apply ht_assoc; cbv beta
  | |- ht _ _ (bind (if ?b then _ else _) _) _ => destruct b eqn:?
  | |- ht _ _ (bind (match ?x with _ => _ end) _) _ => destruct x eqn:?
  | |- ht _ _ (bind _ _) _ => eapply ht_seq; [exact _ | | intros ? ? ? _ _; cbv beta]
  | |- ht _ _ (if ?b then _ else _) _ => destruct b eqn:?
  | |- ht _ _ (match ?x with _ => _ end) _ => destruct x eqn:?
  | _ => first [hyp_leaf | wstep tac]
  end.
Lemma cae_typed : forall r n, ht r52 (fun q _ => bulk_type q) (create_append_entries_req r) n.
Proof.
  assert (W_tfl : forall i n, ht r52 yes (term_for_log i) n) by (intros; unfold term_for_log; open_prims; wall ltac:(t52)).
  intros r n. unfold create_append_entries_req, create_sync_snapshot_req, the_peer, log_entries_.
  repeat qstep ltac:(t52) ltac:(first [left; reflexivity | right; reflexivity]).
Qed.
Lemma css_typed : forall r a b c n, ht r52 (fun q _ => bulk_type q) (create_sync_snapshot_req r a b c) n.
Proof.
  intros. unfold create_sync_snapshot_req, the_peer. repeat qstep ltac:(t52) ltac:(first [left; reflexivity | right; reflexivity]).
Qed.
Lemma send_typed : forall r ext q n, bulk_type q -> ht r52 yes (send_req r ext q) n.
Proof.
  intros r ext q n H. unfold send_req, the_peer. wall ltac:(unfold r52; split; [apply Forall_cons; [|apply Forall_nil]; cbn; destruct H as [H|H]; rewrite H; intros [X|X]; discriminate | cbn; auto]).
Qed.
(** everything that is not a campaign *)
Ltac base52 :=
  assert (W_tfl : forall i n, ht r52 yes (term_for_log i) n) by (intros; unfold term_for_log; open_prims; wall ltac:(t52));
  assert (W_rat : forall i n, ht r52 yes (request_append_entries_to i) n) by
    (intros i n; unfold request_append_entries_to, the_peer; repeat
      match goal with
      | |- ht _ _ (bind (create_append_entries_req _) _) _ => eapply ht_bind; [exact _ | apply cae_typed | intros ? ? ? _ _ ?; cbv beta in *]
      | H : bulk_type ?q |- ht _ _ (send_req _ _ ?q) _ => apply send_typed; exact H
      | _ => wstep ltac:(t52) end);
  assert (W_com : forall i n, ht r52 yes (commit i) n) by (intros; unfold commit; open_prims; wall ltac:(t52));
  assert (W_rae : forall n, ht r52 yes request_append_entries n) by (intros; unfold request_append_entries; open_prims; wall ltac:(t52));
  assert (W_isl : forall now n, ht r52 yes (is_leader now) n) by (intros; unfold is_leader; open_prims; wall ltac:(t52));
  walk_down r52 ltac:(t52); walk_reconf r52 ltac:(t52); walk_lead r52 ltac:(t52); walk_hb r52 ltac:(t52); walk_reqs r52 ltac:(t52); walk_join r52 ltac:(t52); walk_leave r52 ltac:(t52);
  walk_process r52 ltac:(t52); walk_rest r52 ltac:(t52); walk_api r52 ltac:(t52);
  assert (W_aes : forall r n, ht r52 yes (handle_append_entries_resp r) n) by (intros; unfold handle_append_entries_resp; open_prims; wall ltac:(t52));
  assert (W_iss : forall r n, ht r52 yes (handle_install_snapshot_resp r) n) by (intros; unfold handle_install_snapshot_resp; open_prims; wall ltac:(t52));
  assert (W_vrs : forall r n, ht r52 yes (handle_voting_resp r) n) by (intros; unfold handle_voting_resp; open_prims; wall ltac:(t52));
  assert (W_per : forall now r n, ht r52 yes (handle_peer_resp now r) n) by (intros; unfold handle_peer_resp; open_prims; wall ltac:(t52));
  assert (W_rms : forall i n, ht r52 yes (rm_srv_from_cluster i) n) by (intros; unfold rm_srv_from_cluster, append_config; open_prims; wall ltac:(t52));
  assert (W_stn : forall i n, ht r52 yes (sync_log_to_new_srv i) n) by
    (intros i n; unfold sync_log_to_new_srv, deref, log_append, next_slot_, log_pack_, the_peer; repeat
      match goal with
      | |- ht _ _ (bind (create_sync_snapshot_req _ _ _ _) _) _ => eapply ht_bind; [exact _ | apply css_typed | intros ? ? ? _ _ ?; cbv beta in *]
      | H : bulk_type ?q |- ht _ _ (send_req _ _ ?q) _ => apply send_typed; exact H
      | |- ht _ _ (send_req _ _ (mkReq _ _ _ _ _ _ _ _)) _ => unfold send_req, the_peer
      | |- ht _ yes (bind (if ?b then _ else _) _) _ => destruct b eqn:?
      | _ => first [hyp_leaf | wstep ltac:(t52)] end);
  assert (W_err : forall q n, ht r52 yes (handle_ext_resp_err q) n) by (intros; unfold handle_ext_resp_err; open_prims; wall ltac:(t52)).
Lemma r52_events : forall e n, n_catching n = true -> n_prevote n = None ->
  (forall uid q, e = ERetry uid q -> rq_type q = sync_log_request \/ rq_type q = join_cluster_request \/ rq_type q = leave_cluster_request) ->
  ht r52 yes (run_event e) n.
Proof.
  base52. intros e n Hc Hp Hr. destruct e; try solve [cbn [run_event]; wall ltac:(t52)].
  - cbn [run_event]. unfold handle_election_timeout. eapply ht_seq; [exact _ | | intros; apply ht_ret; [exact _ | exact I]].
    apply ht_bmodify; [exact _ | t52|]. apply ht_bget. cbn [set_timer n_steps n_catching]. rewrite Hc.
    unfold restart_election_timer. wall ltac:(t52).
  - cbn [run_event]. eapply ht_seq; [exact _ | | intros; apply ht_ret; [exact _ | exact I]].
    assert (X : forall r n, n_prevote n = None -> ht r52 yes (handle_ext_resp r) n).
    { intros r0 n0 Hp0. unfold handle_ext_resp. apply ht_bget. cbv zeta.
      repeat match goal with |- ht _ _ (handle_prevote_resp _) _ => unfold handle_prevote_resp; apply ht_bget; rewrite Hp0; apply ht_ret; [exact _ | exact I]
        | |- ht _ _ (the_peer _) _ => unfold the_peer | _ => first [hyp_leaf | wstep ltac:(t52)] end. }
    unfold rpc_done. apply ht_bget. destruct (live_ref uid n); [|apply ht_ub; exact _].
    eapply ht_bind with (Q1 := fun _ n' => n_prevote n' = None); [exact _ | |].
    { destruct (_ || _); cbn [when]; [apply ht_modify; [t52|] | apply ht_ret; [exact _ | exact Hp]]. unfold upd_peer. destruct p; exact Hp. }
    intros [] n1 l1 _ _ Hp1. destruct r; [|wall ltac:(t52)].
    apply ht_bmodify; [exact _ | t52|]. destruct ext; [apply X; unfold upd_peer; destruct p; exact Hp1 | apply W_per].
  - cbn [run_event]. unfold retry. eapply ht_seq; [exact _ | | intros; apply ht_ret; [exact _ | exact I]].
    apply ht_emit; [|exact I]. split; [apply Forall_cons; [|apply Forall_nil] | cbn; auto]. cbn.
    destruct (Hr _ _ eq_refl) as [E|[E|E]]; rewrite E; intros [X|X]; discriminate.
Qed.

(** the joining phase only ends when a configuration with the server is committed *)
Definition jc : rel := fun n _ n' => n_id n' = n_id n /\ (n_catching n = true -> n_catching n' = true).
#[export] Instance jc_pre : preorder jc.
Proof. split; unfold jc; intros; [auto|]. destruct H, H0. split; [congruence | auto]. Qed.
Ltac tjc := unfold jc, upd_peer; repeat match goal with |- context [match ?x with _ => _ end] => destruct x end; cbn; auto.
Definition jm (n : node) (l : list act) (n' : node) : Prop :=
  n_id n' = n_id n /\ (n_catching n = true -> n_catching n' = true \/ exists c, In (ASaveConfig c) l /\ cfg_server c (n_id n) <> None).
#[export] Instance jm_pre : preorder jm.
Proof.
  split; unfold jm; [auto|]. intros n l n1 l1 n2 [H1 H2] [H3 H4]. split; [congruence|]. intros H.
  destruct (H2 H) as [H5|(c & Hc & Hm)]; [destruct (H4 H5) as [H6|(c & Hc & Hm)]; [left; exact H6|]|]; right; exists c;
    (split; [apply in_or_app; auto | congruence]).
Qed.
Lemma joining_events : forall e n, ht (fun n l n' => n_id n' = n_id n /\ (n_catching n = true -> n_catching n' = true \/ (e = ECommit /\ exists c, In (ASaveConfig c) l /\ cfg_server c (n_id n) <> None))) yes (run_event e) n.
Proof.
  walk_base jc ltac:(tjc). walk_down jc ltac:(tjc). walk_reconf jc ltac:(tjc). walk_lead jc ltac:(tjc). walk_cand jc ltac:(tjc). walk_prevote jc ltac:(tjc).
  walk_election jc ltac:(tjc). walk_hb jc ltac:(tjc). walk_reqs jc ltac:(tjc). walk_join jc ltac:(tjc). walk_leave jc ltac:(tjc). walk_process jc ltac:(tjc).
  walk_resps jc ltac:(tjc). walk_prevote_resp jc ltac:(tjc). walk_ext_resp jc ltac:(tjc).
  assert (W_snc : forall s d ok n, ht jc yes (on_snapshot_completed s d ok) n) by (intros; unfold on_snapshot_completed; open_prims; wall ltac:(tjc)).
  assert (W_rep : forall now d n, ht jc yes (replicate_log now d) n) by (intros; unfold replicate_log; open_prims; wall ltac:(tjc)).
  assert (W_sac : forall k n, ht jc yes (snapshot_and_compact k) n) by (intros; unfold snapshot_and_compact; open_prims; wall ltac:(tjc)).
  walk_api jc ltac:(tjc). walk_rpc jc ltac:(tjc).
  intros e n.
  assert (Weak : ht jc yes (run_event e) n -> ht (fun n l n' => n_id n' = n_id n /\ (n_catching n = true -> n_catching n' = true \/ (e = ECommit /\ exists c, In (ASaveConfig c) l /\ cfg_server c (n_id n) <> None))) yes (run_event e) n).
  { intros H r n' l E. destruct (H _ _ _ E) as [[H0 H1] _]. split; [|intros; exact I]. split; [exact H0 | intros Hc; left; auto]. }
  destruct e; try (apply Weak; solve [cbn [run_event]; unfold retry; wall ltac:(tjc); apply W_rpc]). clear Weak.
  assert (X : ht jm yes (run_event ECommit) n).
  { assert (Weak : forall A (m : M A) n, ht jc yes m n -> ht jm yes m n).
    { intros A m n0 H r n' l E. destruct (H _ _ _ E) as [[H0 H1] _]. split; [|intros; exact I]. split; [exact H0 | intros Hc; left; auto]. }
    cbn [run_event]. eapply ht_seq; [exact _ | | intros; apply ht_ret; [exact _ | exact I]]. unfold commit_step. apply ht_bget. destruct (_ && _); [|apply ht_ret; [exact _ | exact I]].
    apply ht_catch; [exact _ | | intros; apply Weak; wall ltac:(tjc)]. apply ht_bmodify; [exact _ | split; cbn; auto|].
    eapply ht_seq; [exact _ | apply Weak; open_prims; wall ltac:(tjc) | intros o n1 l1 _ _]. eapply ht_seq; [exact _ | apply Weak; unfold deref; wall ltac:(tjc) | intros en n2 l2 _ _].
    eapply ht_seq; [exact _ | | intros; apply Weak, W_sac]. destruct (beq (ev_type en) app_log); [apply Weak; wall ltac:(tjc)|].
    destruct (beq (ev_type en) conf_log); [|apply Weak; wall ltac:(tjc)]. apply ht_blift; [exact _|]. intros c _.
    clear - W_rec. intros r n' l E.
    (* after saving [c] *)
    assert (K : ht (fun _ l n' => n_id n' = n_id n2 /\ (n_catching n2 = true -> n_catching n' = true \/ cfg_server c (n_id n2) <> None)) yes
      (bind (modify (set_changing false)) (fun _ => bind (get n_config) (fun cur => bind (when (cc_log_idx cur <? cc_log_idx c) (reconfigure c)) (fun _ =>
        bind (get n_catching) (fun catching => bind (get n_id) (fun id => when (catching && match cfg_server c id with Some _ => true | None => false end) (modify (set_catching false)))))))) 
      (set_disk (disk_apply (n_disk n2) (ASaveConfig c)) n2)).
    { intros r1 n3 l3 E1. split; [|intros; exact I]. rewrite bind_modify, bind_get in E1. set (n4 := set_changing false _) in E1.
      assert (W : ht jc yes (when (cc_log_idx (n_config n4) <? cc_log_idx c) (reconfigure c)) n4) by (destruct (_ <? _); cbn [when]; [apply W_rec | apply ht_ret; [exact _ | exact I]]).
      unfold bind in E1 at 1. destruct (when _ (reconfigure c) n4) as [[x n5] l5] eqn:E5. destruct (W _ _ _ E5) as [[W1 W2] _].
      assert (I4 : n_id n4 = n_id n2) by reflexivity. assert (C4 : n_catching n4 = n_catching n2) by reflexivity.
      destruct x; try (inversion E1; subst; split; [congruence | intros H; left; apply W2; congruence]).
      rewrite bind_get, bind_get in E1. destruct (n_catching n5) eqn:C5; cbn [andb] in E1.
      - destruct (cfg_server c (n_id n5)) eqn:Es; cbn [when] in E1; inversion E1; subst; cbn; (split; [congruence|]); intros _; [right; rewrite <- I4, <- W1, Es; discriminate | left; exact C5].
      - cbn [when] in E1. inversion E1; subst. split; [congruence|]. intros H. left. rewrite <- C4 in H. specialize (W2 H). congruence. }
    rewrite bind_emit in E. unfold after in E.
    match type of E with (fst (fst ?x), _, _) = _ => destruct x as [[r1 n3] l3] eqn:E1 end. cbn [fst snd] in E. injection E as <- <- <-.
    destruct (K _ _ _ E1) as [[K1 K2] _]. split; [|intros; exact I]. split; [exact K1|]. intros H. destruct (K2 H) as [K3|K3]; [left; exact K3|].
    right. exists c. split; [left; reflexivity | exact K3]. }
  intros r n' l E. destruct (X _ _ _ E) as [[H0 H1] _]. split; [|intros; exact I]. split; [exact H0|]. intros Hc. destruct (H1 Hc) as [H2|H2]; [left; exact H2 | right; split; [reflexivity | exact H2]].
Qed.

(** C52.  From accepting an invitation (with no pre-vote of its own in progress)
    until its committing thread applies a configuration with this server in it,
    the server asks nobody for a vote or a pre-vote and does not become candidate. *)
Theorem C52_joining_partial : forall n0 now q r n l h n',
  run_event (ERequest now q) n0 = (ROk (Response r), n, l) -> rq_type q = join_cluster_request -> rs_accepted r = true ->
  n_prevote n0 = None ->
  runs n h n' -> retries_okay h -> (forall o, In o h -> ~ member_committed (n_id n0) o) ->
  (forall a, In a (l ++ acts_of h) -> ~ campaigns a) /\ n_role n' <> Candidate.
Proof.
  intros n0 now q r n l h n' E Ht Ha Hp HR Hre Hm.
  assert (J : n_catching n = true /\ n_role n = Follower /\ n_prevote n = None /\ n_id n = n_id n0 /\ Forall (fun a => ~ campaigns a) l).
  { apply run_request in E. rewrite process_join in E by exact Ht. unfold handle_join_cluster_req in E. rewrite bind_get in E.
    destruct (rq_entries q) as [|e [|]]; try (inversion E; subst; discriminate Ha). destruct (negb _); [inversion E; subst; discriminate Ha|].
    destruct (n_catching n0) eqn:Ec; [inversion E; subst; discriminate Ha|].
    rewrite !bind_modify in E. set (n1 := set_term _ _) in E.
    assert (K : ht (both r52 (both (keeps n_role) (both jc (keeps n_prevote)))) yes (bind save_state (fun _ => bind (lift (parse_cfg (ev_data e))) (fun c => bind (reconfigure c) (fun _ => bind next_slot_ (fun nx =>
      ret (accept nx (resp_of (n_term n0) join_cluster_response (n_id n0) (rq_src q)))))))) n1).
    { unfold reconfigure. open_prims. wall ltac:(unfold both; split; [t52 | split; [kp | split; [tjc | kp]]]). }
    destruct (K _ _ _ E) as [(K1 & K2 & K3 & K4) _]. unfold keeps in *. destruct K1 as (K1 & _ & _ & K5). destruct K3 as [_ K3].
    split; [apply K3; reflexivity|]. split; [exact K2|]. split; [rewrite K4; exact Hp|]. split; [exact K5 | exact K1]. }
  clear E. destruct J as (Jc & Jr & Jp & Ji & Jl). rewrite <- Ji in Hm. clear Ji Hp Ha Ht.
  assert (G : n_role n <> Candidate) by (rewrite Jr; discriminate). clear Jr.
  assert (X : Forall (fun a => ~ campaigns a) (acts_of h) /\ n_role n' <> Candidate).
  { induction HR as [n|n e r1 n1 l1 h n2 E1 Go R1 IH]; [split; [constructor | exact G]|].
    destruct (r52_events e n Jc Jp ltac:(intros uid q1 ->; eapply Hre; left; reflexivity) _ _ _ E1) as [(A1 & A2 & A3 & A4) _].
    destruct (joining_events e n _ _ _ E1) as [[_ B] _].
    assert (C1 : n_catching n1 = true).
    { destruct (B Jc) as [B1|(-> & c & Hin & Hc)]; [exact B1|]. exfalso. apply (Hm (mkObs ECommit l1 (answer_of r1)) (or_introl eq_refl)). split; [reflexivity|]. exists c. split; assumption. }
    destruct IH as [I1 I2]; auto.
    - intros uid q1 l2 a Hin. eapply Hre. right. exact Hin.
    - intros o Ho. rewrite A4. apply Hm. right. exact Ho.
    - split; [|exact I2]. unfold acts_of in *. cbn [map concat o_acts]. apply Forall_app. split; assumption. }
  destruct X as [X1 X2]. split; [|exact X2]. intros a Hin. apply in_app_or in Hin. rewrite Forall_forall in X1, Jl. destruct Hin; auto.
Qed.

(** Two ways the full statement fails. First: a pre-vote that was started before the
    invitation goes on, and its answers make the joining server a candidate. *)
Definition ex_pv_prm : params := mkParams 300 150 75 25 1000 10 0 0 100 10000 true true.
Definition ex_pv_q : req := mkReq 0 prevote_request 1 2 0 0 0 [].
Theorem C52_prevote_refuted : exists id pm d h0 n0 now q r n l e r1 n1 l1 a,
  disk_okay d /\ runs (start_node id pm d) h0 n0 /\
  run_event (ERequest now q) n0 = (ROk (Response r), n, l) /\ rq_type q = join_cluster_request /\ rs_accepted r = true /\
  run_event e n = (ROk r1, n1, l1) /\ In a l1 /\ campaigns a /\ n_role n1 = Candidate.
Proof.
  set (x := run_evs (start_node 1 ex_pv_prm ex_disk) [EElection]).
  set (y := run_event (ERequest 5 (ex_join 7 9)) (snd x)).
  set (z := run_event (ERpc 6 0 true ex_pv_q (Some (mkResp 0 prevote_response 2 1 1 true))) (snd (fst y))).
  exists 1%Z, ex_pv_prm, ex_disk, (fst x), (snd x), 5, (ex_join 7 9), (mkResp 0 join_cluster_response 1 9 1 true), (snd (fst y)), (snd y),
    (ERpc 6 0 true ex_pv_q (Some (mkResp 0 prevote_response 2 1 1 true))), Nothing, (snd (fst z)), (snd z), (ASend 0 false (mkReq 8 vote_request 1 2 0 0 0 [])).
  split; [unfold disk_okay; vm_compute; discriminate|]. split; [apply run_evs_runs|].
  split; [apply pair3; vm_compute; reflexivity|]. split; [reflexivity|]. split; [reflexivity|].
  split; [apply pair3; vm_compute; reflexivity|]. split; [vm_compute; auto|]. split; [left; reflexivity | vm_compute; reflexivity].
Qed.
(** Second: that the server is joining is not on disk; after a restart it campaigns. *)
Theorem C52_restart_refuted : exists id pm d now q r h0 d1 n l a,
  disk_okay d /\ life id pm (Down d) h0 (Down d1) /\ (exists l, In (mkObs (ERequest now q) l (Some (Response r))) h0) /\
  rq_type q = join_cluster_request /\ rs_accepted r = true /\ (forall o, In o h0 -> ~ member_committed id o) /\
  run_event EElection (start_node id pm d1) = (ROk Nothing, n, l) /\ In a l /\ campaigns a.
Proof.
  set (x := run_cmds 1 ex_prm (Down ex_disk) [CStart; CEvent (ERequest 5 (ex_join 7 9)); CCrash ECommit 0]).
  set (d1 := sys_disk (snd x)). set (y := run_event EElection (start_node 1 ex_prm d1)).
  exists 1%Z, ex_prm, ex_disk, 5, (ex_join 7 9), (mkResp 0 join_cluster_response 1 9 1 true), (fst x), d1, (snd (fst y)), (snd y), (ASend 0 false (mkReq 8 vote_request 1 2 0 0 0 [])).
  split; [unfold disk_okay; vm_compute; discriminate|].
  split. { replace (Down d1) with (snd x) by (vm_compute; reflexivity). apply run_cmds_life. }
  split. { exists (o_acts (nth 0 (fst x) (mkObs ECommit [] None))). vm_compute. left. reflexivity. }
  split; [reflexivity|]. split; [reflexivity|].
  split. { intros o Ho (Ee & c & Hc & _). assert (F : forallb (fun o => match o_event o with ECommit => match o_acts o with [] => true | _ => false end | _ => true end) (fst x) = true) by (vm_compute; reflexivity).
    rewrite forallb_forall in F. specialize (F o Ho). rewrite Ee in F. destruct (o_acts o); [exact Hc | discriminate]. }
  split; [apply pair3; vm_compute; reflexivity|]. split; [vm_compute; auto | left; reflexivity].
Qed.
(** the partial theorem applies: an invited server, timeouts and messages, nothing sent *)
Example C52_example :
  let x := run_event (ERequest 5 (ex_join 7 9)) (start_node 1 ex_prm ex_disk) in
  let y := run_evs (snd (fst x)) [EElection; ERequest 6 (ex_ae 7 9 0 0 1 [ex_ent 7 x61]); ECommit; EElection; ERequest 7 (ex_vote 9 2 9 9)] in
  fst (fst x) = ROk (Response (mkResp 0 join_cluster_response 1 9 1 true)) /\ length (fst y) = 5%nat /\
  forallb (fun o => match o_event o with ECommit => negb (existsb (fun a => match a with ASaveConfig _ => true | _ => false end) (o_acts o)) | _ => true end) (fst y) = true /\
  n_catching (snd y) = true.
Proof. vm_compute. repeat split. Qed.
Print Assumptions C56_leave.
Print Assumptions C52_joining_partial.
Print Assumptions C52_prevote_refuted.
Print Assumptions C52_restart_refuted.
