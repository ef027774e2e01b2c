(** * Properties C31, C32, C33: the commit index and the state machine *)

From Coq Require Import Sorting.Sorted Sorting.Permutation.
From Verif Require Import Base Buffer Codec CodecSpec Msg FsLogStore FsLogSpec Alog Raft RaftQuiet RaftTrace RaftTrace2 RaftTrace3
  RaftWalk NodeSpec NodeLife NodeExamples ServerSpec NodeFacts.
Local Open Scope N_scope.

(** ** C31: the commit index never goes backwards *)
Definition is_req (ty : byte) (e : event) : Prop := exists now q, e = ERequest now q /\ rq_type q = ty.

Lemma astep_commit : forall ev n l n', astep ev n l n' -> ~ is_req join_cluster_request ev -> ~ is_req install_snapshot_request ev ->
  n_quick n <= n_quick n' /\ n_smc n <= n_smc n'.
Proof.
  intros ev n l n' H Hj Hi.
  assert (J : forall q, req_of ev q -> rq_type q <> join_cluster_request).
  { intros q [now E] Ht. apply Hj. exists now, q. split; assumption. }
  assert (I : forall q, req_of ev q -> rq_type q <> install_snapshot_request).
  { intros q [now E] Ht. apply Hi. exists now, q. split; assumption. }
  destruct H; try (cbn; lia).
  - destruct H as (ps & q & j & -> & Hq & _). cbn. lia.
  - unfold core in H. injection H. intros. lia.
  - destruct (J q H H0).
  - destruct H1 as (_ & C & _). unfold core in C. cbn in C. injection C. intros. lia.
  - destruct H as (q & H1 & H2). destruct (I q H1 H2).
Qed.
Lemma tr_commit : forall ev n l n', tr ev n l n' -> ~ is_req join_cluster_request ev -> ~ is_req install_snapshot_request ev ->
  n_quick n <= n_quick n' /\ n_smc n <= n_smc n'.
Proof.
  intros ev n l n' H Hj Hi. induction H; [lia|]. apply (fun X => astep_commit _ _ _ _ X Hj Hi) in H. lia.
Qed.

(** Missing: installing a snapshot older than the commit index ([C31_commit_index_refuted]). *)
Theorem C31_commit_index_partial : forall e n r n' l,
  1 <= al_start (n_log n) -> run_event e n = (r, n', l) ->
  ~ is_req join_cluster_request e -> ~ is_req install_snapshot_request e ->
  n_quick n <= n_quick n'.
Proof. intros e n r n' l Hs H Hj Hi. apply (tr_commit e n l n' (proj1 (run_event_tr e n Hs _ _ _ H)) Hj Hi). Qed.

(** the applied index: every event but a join request *)
Definition same_or (i : N) : rel := fun n _ n' => n_smc n' = n_smc n \/ n_smc n' = i.
#[local] Instance same_or_pre : forall i, preorder (same_or i).
Proof. intros i. split; unfold same_or; intros; [left; reflexivity | intuition congruence]. Qed.
Lemma sync_smc : forall s n, ht (same_or (sn_last_log_idx (sv_snp s))) yes (handle_snapshot_sync_req s) n.
Proof.
  intros s n. unfold handle_snapshot_sync_req, log_compact, stop_election_timer, reconfigure, make_peer, enable_hb_for_peer,
    next_slot_, save_state, restart_election_timer.
  walk ltac:(first [right; reflexivity | left; kp]).
Qed.
Theorem C31_applied_index : forall e n r n' l,
  1 <= al_start (n_log n) -> run_event e n = (r, n', l) -> ~ is_req join_cluster_request e -> n_smc n <= n_smc n'.
Proof.
  intros e n r n' l Hs H Hj. assert (T := proj1 (run_event_tr e n Hs _ _ _ H)).
  destruct e; try (apply (tr_commit _ _ _ _ T Hj); intros (now' & q' & X & _); discriminate).
  destruct (beq (rq_type q) install_snapshot_request) eqn:E.
  2:{ apply (tr_commit _ _ _ _ T Hj). intros (now' & q' & X & Ht). inversion X; subst. rewrite Ht in E. discriminate. }
  clear T. apply Byte.byte_dec_bl in E. cbn [run_event] in H. unfold bind in H.
  destruct (process_req now q n) as [[x n1] l1] eqn:Ep.
  assert (G : n_smc n <= n_smc n1).
  { rewrite (process_install now q n E) in Ep.
    assert (S1 : n_smc (arrived (rq_term q) n) = n_smc n).
    { unfold arrived. destruct (n_term n <? rq_term q).
      - change (n_steps (with_term (rq_term q) n)) with (n_steps n). destruct (0 <? n_steps n)%Z; reflexivity.
      - destruct (0 <? n_steps n)%Z; reflexivity. }
    destruct (handle_install_snapshot_req q (arrived (rq_term q) n)) as [[y n2] l2] eqn:Eh. inversion Ep; subst. clear Ep.
    rewrite <- S1. generalize dependent (arrived (rq_term q) n). intros m Eh _.
    assert (W : ht (fun a _ b => n_smc a <= n_smc b) yes (handle_install_snapshot_req q) m).
    { assert (PR : preorder (fun a (_ : list act) b => n_smc a <= n_smc b)) by (split; intros; lia).
      unfold handle_install_snapshot_req. wstep idtac. eapply ht_bind; [exact _ | | intros ? m1 ? _ _ HQ].
      - assert (K : ht (keeps n_smc) yes
          (when ((rq_term q =? n_term m) && negb (n_catching m))
             match n_role m with Candidate => become_follower | Leader => system_exit (-1) | Follower => restart_election_timer end) m).
        { unfold become_follower, restart_election_timer. walk kp. }
        eapply ht_rel; [exact K|]. unfold keeps. intros; lia.
      - destruct (_ && _); [wstep idtac|]. destruct (rq_entries q) as [|e0 [|? ?]]; [wstep idtac| |wstep idtac].
        destruct (negb (beq _ _)); [wstep idtac|]. wstep idtac. wstep idtac.
        match goal with |- context [?x <=? n_smc m1] => destruct (x <=? n_smc m1) eqn:El end; [wstep idtac|].
        eapply ht_bind; [exact _ | | intros; wstep idtac].
        intros r0 m2 l0 E0. split; [|intros; exact I].
        destruct (sync_smc _ m1 _ _ _ E0) as [[S|S] _]; lia. }
    apply (W _ _ _ Eh). }
  destruct x; inversion H; subst; exact G.
Qed.
Example C31_example : 1 <= al_start (n_log (start_node 1 ex_prm ex_disk)) /\
  ~ is_req join_cluster_request (ERequest 0 (ex_ae 1 2 0 0 1 [ex_ent 1 x61])) /\
  n_quick (snd (fst (run_event (ERequest 0 (ex_ae 1 2 0 0 1 [ex_ent 1 x61])) (start_node 1 ex_prm ex_disk)))) = 1.
Proof.
  split; [cbn; lia|]. split; [|vm_compute; reflexivity]. intros (now & q & E & H). inversion E; subst. discriminate.
Qed.

(** A follower that knows index 3 to be committed but has applied nothing yet
    is sent a snapshot up to index 2. *)
Definition ex_snp (i : N) (done : bool) : req :=
  mkReq 1 install_snapshot_request 2 1 0 0 0
    [mkEV 1 snp_sync_req (sync_bytes (mkSnp i 1 1 ex_cfg) 0 done [x78])].
Definition ex_behind : list obs * sys :=
  run_cmds 1 ex_prm (Down ex_disk)
    [CStart; CEvent (ERequest 0 (ex_ae 1 2 0 0 3 [ex_ent 1 x61; ex_ent 1 x62; ex_ent 1 x63]))].
Theorem C31_commit_index_refuted : exists id pm d h n now q r n' l,
  disk_okay d /\ life id pm (Down d) h (Up n) /\ ~ is_req join_cluster_request (ERequest now q) /\
  run_event (ERequest now q) n = (ROk (Response r), n', l) /\ n_quick n' < n_quick n.
Proof.
  set (x := run_event (ERequest 0 (ex_snp 2 true)) (up_node (snd ex_behind))).
  exists 1%Z, ex_prm, ex_disk, (fst ex_behind), (up_node (snd ex_behind)), 0, (ex_snp 2 true).
  exists (accept 1 (resp_of 1 install_snapshot_response 1 2)), (snd (fst x)), (snd x).
  split; [unfold disk_okay; cbn; lia|]. split.
  { replace (Up (up_node (snd ex_behind))) with (snd ex_behind) by (vm_compute; reflexivity). apply run_cmds_life. }
  split; [intros (now & q & X & H); inversion X; subst; discriminate|].
  split; [apply pair3; vm_compute; reflexivity | vm_compute; reflexivity].
Qed.

(** ** C32: entries are applied one after the other *)
(** configurations saved, and everything applied to the state machine *)
Fixpoint confs (l : list act) : list cluster_config :=
  match l with
  | [] => []
  | ASaveConfig c :: l => c :: confs l
  | _ :: l => confs l
  end.
Lemma commits_app : forall a b, commits (a ++ b) = commits a ++ commits b.
Proof. induction a as [|x a IH]; intros b; [reflexivity|]. destruct x; cbn [commits app]; rewrite IH; reflexivity. Qed.
Lemma confs_app : forall a b, confs (a ++ b) = confs a ++ confs b.
Proof. induction a as [|x a IH]; intros b; [reflexivity|]. destruct x; cbn [confs app]; rewrite IH; reflexivity. Qed.

(** parts of the committer that apply nothing *)
Definition plain (a : act) : Prop := match a with ACommit _ _ | AApplySnapshot _ => False | _ => True end.
Definition plainc (a : act) : Prop := match a with ACommit _ _ | AApplySnapshot _ | ASaveConfig _ => False | _ => True end.
Lemma plain_commits : forall l, Forall plain l -> commits l = [].
Proof. induction l as [|a l IH]; intros H; [reflexivity|]. inversion H; subst. destruct a; try contradiction; apply IH; assumption. Qed.
Lemma plainc_confs : forall l, Forall plainc l -> confs l = [] /\ commits l = [].
Proof. induction l as [|a l IH]; intros H; [split; reflexivity|]. inversion H; subst. destruct a; try contradiction; apply IH; assumption. Qed.


Definition calm : rel := both (keeps n_smc) (both (keeps n_config) (acts plainc)).
Lemma find_conf_calm : forall k c cfg n, ht calm yes (find_conf k c cfg) n.
Proof.
  induction k as [|k IH]; intros c cfg n; cbn [find_conf]; unfold start_index_, log_entry_at, deref;
    repeat first [apply IH | wstep idtac].
Qed.
Ltac calmly := unfold calm, both, acts; split; [kp | split; [kp | repeat constructor]].
Lemma snapshot_calm : forall i n, ht calm yes (snapshot_and_compact i) n.
Proof.
  intros i n. unfold snapshot_and_compact, start_index_, log_term_at. repeat first [apply find_conf_calm | wstep calmly].
Qed.
Lemma reconfigure_plain : forall c n, ht (both (keeps n_smc) (acts plain)) yes (reconfigure c) n.
Proof.
  intros c n. unfold reconfigure, make_peer, enable_hb_for_peer, next_slot_.
  walk ltac:(unfold both, acts; split; [kp | repeat constructor]).
Qed.
Lemma reconfigure_sets : forall c n, ht any (fun _ n' => n_config n' = c) (reconfigure c) n.
Proof.
  intros c n. unfold reconfigure. apply ht_bget.
  eapply ht_seq; [exact _ | apply any_yes | intros ? ? ? _ _].
  eapply ht_seq; [exact _ | apply any_yes | intros ? ? ? _ _].
  apply ht_modify; [exact I | reflexivity].
Qed.

Definition apply_entry (i : N) (e : entry_val) : M unit :=
  (if beq (ev_type e) app_log then emit (ACommit i e)
   else if beq (ev_type e) conf_log then
     c <- lift (parse_cfg (ev_data e)) ;;
     emit (ASaveConfig c) ;;;
     modify (set_changing false) ;;;
     cur <- get n_config ;;
     when (cc_log_idx cur <? cc_log_idx c) (reconfigure c) ;;;
     catching <- get n_catching ;;
     id <- get n_id ;;
     when (catching && match cfg_server c id with Some _ => true | None => false end)
       (modify (set_catching false))
   else ret tt) ;;;
  snapshot_and_compact i.
Lemma commit_step_eq : forall n, n_smc n < n_quick n -> n_smc n + 1 < a_next (n_log n) ->
  commit_step n =
    catch (o <- log_entry_at (n_smc n + 1) ;; e <- deref o ;; apply_entry (n_smc n + 1) e) (system_exit (-1)) (set_smc (n_smc n + 1) n).
Proof.
  intros n H1 H2. unfold commit_step. rewrite bind_get.
  replace (n_smc n <? n_quick n) with true by (symmetry; apply N.ltb_lt; exact H1).
  replace (n_smc n <? a_next (n_log n) - 1) with true by (symmetry; apply N.ltb_lt; lia).
  cbn [andb]. unfold catch. rewrite bind_modify. reflexivity.
Qed.
Lemma commit_step_idle : forall n, ~ (n_smc n < n_quick n /\ n_smc n + 1 < a_next (n_log n)) -> commit_step n = (ROk tt, n, []).
Proof.
  intros n H. unfold commit_step. rewrite bind_get.
  destruct (n_smc n <? n_quick n) eqn:E1; [|reflexivity]. destruct (n_smc n <? a_next (n_log n) - 1) eqn:E2; [|reflexivity].
  exfalso. apply H. lia.
Qed.
Lemma catch_exit : forall A (m : M A) n r n' l, catch m (system_exit (-1)) n = (r, n', l) ->
  exists r0 l0, m n = (r0, n', l0) /\ ((r = r0 /\ l = l0 /\ goes_on r = match r0 with ROk _ => true | _ => false end) \/
     (r = RExit /\ l = l0 ++ [AExit (-1)])).
Proof.
  intros A m n r n' l H. unfold catch in H. destruct (m n) as [[r0 n0] l0]. destruct r0; cbn in H; inversion H; subst; eauto 10.
Qed.
Lemma plain_of_c : forall l, Forall plainc l -> Forall plain l.
Proof. intros l H. eapply Forall_impl; [|exact H]. intros [] Ha; try contradiction; exact I. Qed.

Lemma apply_app : forall i e n r n' l, ev_type e = app_log -> apply_entry i e n = (r, n', l) ->
  n_smc n' = n_smc n /\ n_config n' = n_config n /\ exists l2, l = ACommit i e :: l2 /\ Forall plainc l2.
Proof.
  intros i e n r n' l Ht H. unfold apply_entry in H. rewrite Ht in H.
  change (beq app_log app_log) with true in H. cbv beta iota in H. rewrite bind_emit in H.
  destruct (snapshot_and_compact i _) as [[r0 n0] l0] eqn:E. inversion H; subst.
  destruct (snapshot_calm _ _ _ _ _ E) as ((S1 & S2 & S3) & _). split; [exact S1|]. split; [exact S2|]. exists l0. split; [reflexivity | exact S3].
Qed.
Lemma apply_conf : forall i e c n r n' l, ev_type e = conf_log -> parse_cfg (ev_data e) = Ok c -> apply_entry i e n = (r, n', l) ->
  n_smc n' = n_smc n /\ (exists l2, l = ASaveConfig c :: l2 /\ Forall plain l2) /\
  (r = ROk tt -> n_config n' = if cc_log_idx (n_config n) <? cc_log_idx c then c else n_config n).
Proof.
  intros i e c n r n' l Ht Hc H. unfold apply_entry in H. rewrite Ht in H.
  change (beq conf_log app_log) with false in H. change (beq conf_log conf_log) with true in H. cbv beta iota in H.
  rewrite Hc in H. change (lift (Ok c)) with (ret c) in H. rewrite bind_assoc, bind_ret in H. cbv beta in H.
  rewrite bind_assoc, bind_emit in H. cbv beta in H. rewrite bind_assoc, bind_modify in H. cbv beta in H. rewrite bind_assoc, bind_get in H.
  set (n1 := set_changing false (set_disk (disk_apply (n_disk n) (ASaveConfig c)) n)) in *.
  change (n_smc n) with (n_smc n1). change (n_config n) with (n_config n1). generalize dependent n1. intros n1 H.
  match type of H with after _ (?m n1) = _ =>
    assert (W : ht (both (keeps n_smc) (acts plain)) (fun _ n2 => n_config n2 = if cc_log_idx (n_config n1) <? cc_log_idx c then c else n_config n1) m n1);
    [|destruct (m n1) as [[r1 n2] l1] eqn:E] end.
  - apply ht_assoc.
    eapply (ht_bind _ _ _ (fun _ n2 => n_config n2 = if cc_log_idx (n_config n1) <? cc_log_idx c then c else n_config n1)).
    + destruct (cc_log_idx (n_config n1) <? cc_log_idx c); cbn [when]; [|apply ht_ret; [exact _ | reflexivity]].
      intros r0 n0 l0 E0. split; [apply (reconfigure_plain c n1 _ _ _ E0)|].
      intros a Ea. apply (proj2 (reconfigure_sets c n1 _ _ _ E0) a Ea).
    + intros u n2 l2 _ _ HQ r0 n0 l0 E0.
      assert (T : calm n2 l0 n0).
      { match type of E0 with ?m n2 = _ => assert (T : ht calm yes m n2) end; [|apply (T _ _ _ E0)].
        repeat first [apply snapshot_calm | wstep calmly]. }
      destruct T as (T1 & T2 & T3). split; [split; [exact T1 | apply plain_of_c, T3]|].
      intros a _. rewrite T2. exact HQ.
  - inversion H; subst. destruct (W _ _ _ E) as [[W1 W2] W3]. split; [exact W1|].
    split; [exists l1; split; [reflexivity | exact W2]|]. intros ->. apply (W3 tt eq_refl).
Qed.
Lemma apply_other : forall i e n r n' l, ev_type e <> app_log -> (ev_type e = conf_log -> forall c, parse_cfg (ev_data e) <> Ok c) ->
  apply_entry i e n = (r, n', l) -> n_smc n' = n_smc n /\ n_config n' = n_config n /\ Forall plainc l.
Proof.
  intros i e n r n' l Ha Hc H. unfold apply_entry in H.
  destruct (beq (ev_type e) app_log) eqn:E1; [apply Byte.byte_dec_bl in E1; contradiction|].
  assert (T : calm n l n'); [|exact T].
  destruct (beq (ev_type e) conf_log) eqn:E2.
  - apply Byte.byte_dec_bl in E2. unfold bind at 1 2, lift in H. specialize (Hc E2).
    destruct (parse_cfg (ev_data e)) as [c| |]; [destruct (Hc c eq_refl)| |]; inversion H; subst; apply p_refl.
  - rewrite bind_ret in H. apply (snapshot_calm _ _ _ _ _ H).
Qed.

(** the committer takes the next entry if there is one that is committed *)
Theorem C32_apply_one : forall n r n' l, run_event ECommit n = (r, n', l) ->
  (n_smc n < n_quick n /\ n_smc n + 1 < a_next (n_log n) ->
     n_smc n' = n_smc n + 1 /\
     (forall e, a_get (n_log n) (n_smc n + 1) = Some e -> ev_type e = app_log ->
        commits l = [(n_smc n + 1, e)] /\ confs l = [] /\ n_config n' = n_config n) /\
     (forall e c, a_get (n_log n) (n_smc n + 1) = Some e -> ev_type e = conf_log -> parse_cfg (ev_data e) = Ok c ->
        commits l = [] /\ In (ASaveConfig c) l /\
        (r = ROk Nothing -> n_config n' = if cc_log_idx (n_config n) <? cc_log_idx c then c else n_config n)) /\
     (forall e, a_get (n_log n) (n_smc n + 1) = Some e -> ev_type e <> app_log -> commits l = []) /\
     (a_get (n_log n) (n_smc n + 1) = None -> commits l = [] /\ goes_on r = false)) /\
  (~ (n_smc n < n_quick n /\ n_smc n + 1 < a_next (n_log n)) -> n' = n /\ l = []).
Proof.
  intros n r n' l H. cbn [run_event] in H. unfold bind in H.
  destruct (commit_step n) as [[r0 n0] l0] eqn:E.
  assert (X : n' = n0 /\ l = l0 /\ goes_on r = goes_on r0 /\ (r = ROk Nothing -> r0 = ROk tt)).
  { destruct r0 as [[]| | |]; cbn in H; inversion H; subst; rewrite ?app_nil_r; repeat split; congruence. }
  destruct X as (-> & -> & Hg & Hr). clear H. split.
  - intros [H1 H2]. rewrite (commit_step_eq n H1 H2) in E. apply catch_exit in E.
    destruct E as (r1 & l1 & E & C).
    assert (Cc : commits l0 = commits l1 /\ confs l0 = confs l1 /\ (forall a, In a l1 -> In a l0) /\ (r0 = ROk tt -> r1 = ROk tt)
                 /\ (r1 <> ROk tt -> goes_on r0 = false)).
    { destruct C as [(-> & -> & C) | (-> & ->)].
      - repeat split; try tauto. intros Hn. rewrite C. destruct r1 as [[]| | |]; [destruct (Hn eq_refl)| | |]; reflexivity.
      - rewrite commits_app, confs_app, !app_nil_r. repeat split; try discriminate. intros a Ha. apply in_or_app. left. exact Ha. }
    destruct Cc as (-> & -> & Ci & Ck & Cx). clear C. unfold log_entry_at in E. rewrite bind_assoc, bind_get in E.
    change (n_log (set_smc (n_smc n + 1) n)) with (n_log n) in E.
    set (i := n_smc n + 1) in *. set (m := set_smc i n) in *.
    assert (Hm : n_smc m = i) by reflexivity. assert (Hmc : n_config m = n_config n) by reflexivity.
    destruct (a_get (n_log n) i) as [e|] eqn:Ee.
    + assert (Hs : al_start (n_log n) <= i) by (apply a_get_some in Ee; lia).
      replace (i <? al_start (n_log n)) with false in E by lia. rewrite bind_ret in E. cbv beta in E. cbn [deref] in E. rewrite bind_ret in E.
      split; [|split; [|split; [|split]]].
      * destruct (Byte.byte_eq_dec (ev_type e) app_log) as [Ha|Ha].
        { destruct (apply_app _ _ _ _ _ _ Ha E) as (S1 & _). congruence. }
        destruct (Byte.byte_eq_dec (ev_type e) conf_log) as [Hc|Hc].
        { destruct (parse_cfg (ev_data e)) as [c| |] eqn:Ep.
          - destruct (apply_conf _ _ _ _ _ _ _ Hc Ep E) as (S1 & _). congruence.
          - destruct (apply_other i e m r1 n0 l1 Ha) as (S1 & _); [intros _ c; rewrite Ep; discriminate | exact E | congruence].
          - destruct (apply_other i e m r1 n0 l1 Ha) as (S1 & _); [intros _ c; rewrite Ep; discriminate | exact E | congruence]. }
        destruct (apply_other i e m r1 n0 l1 Ha) as (S1 & _); [contradiction | exact E | congruence].
      * intros e0 X Ha. inversion X; subst e0. destruct (apply_app _ _ _ _ _ _ Ha E) as (_ & S2 & l2 & -> & S3).
        destruct (plainc_confs _ S3) as [P1 P2]. cbn [commits confs]. rewrite P1, P2. rewrite S2. tauto.
      * intros e0 c X Hc Ep. inversion X; subst e0. destruct (apply_conf _ _ _ _ _ _ _ Hc Ep E) as (_ & (l2 & -> & S3) & S4).
        cbn [commits]. rewrite (plain_commits _ S3). split; [reflexivity|]. split; [apply Ci; left; reflexivity|].
        intros Hk. rewrite (S4 (Ck (Hr Hk))), Hmc. reflexivity.
      * intros e0 X Ha. inversion X; subst e0.
        destruct (Byte.byte_eq_dec (ev_type e) conf_log) as [Hc|Hc].
        { destruct (parse_cfg (ev_data e)) as [c| |] eqn:Ep.
          - destruct (apply_conf _ _ _ _ _ _ _ Hc Ep E) as (_ & (l2 & -> & S3) & S4). cbn [commits]. apply plain_commits, S3.
          - destruct (apply_other i e m r1 n0 l1 Ha) as (_ & _ & S3); [intros _ c; rewrite Ep; discriminate | exact E | apply plainc_confs, S3].
          - destruct (apply_other i e m r1 n0 l1 Ha) as (_ & _ & S3); [intros _ c; rewrite Ep; discriminate | exact E | apply plainc_confs, S3]. }
        destruct (apply_other i e m r1 n0 l1 Ha) as (_ & _ & S3); [contradiction | exact E | apply plainc_confs, S3].
      * discriminate.
    + assert (R1 : n0 = m /\ l1 = [] /\ r1 <> ROk tt).
      { destruct (i <? al_start (n_log n)); cbn in E; inversion E; subst; repeat split; discriminate. }
      destruct R1 as (-> & -> & Rx). split; [exact Hm|].
      split; [discriminate|]. split; [discriminate|]. split; [discriminate|].
      intros _. split; [reflexivity|]. rewrite Hg. apply Cx, Rx.
  - intros Hn. rewrite (commit_step_idle n Hn) in E. inversion E; subst. split; reflexivity.
Qed.
Definition ex_two : list obs * sys :=
  run_cmds 1 ex_prm (Down ex_disk)
    [CStart; CEvent (ERequest 0 (ex_ae 1 2 0 0 2 [ex_ent 1 x61; conf_entry 1 (mkCfg 2 0 (cc_servers ex_cfg)); ex_ent 1 x63])); CEvent ECommit].
Example C32_apply_one_example :
  n_smc (up_node (snd ex_two)) = 1 /\ n_quick (up_node (snd ex_two)) = 2 /\ a_next (n_log (up_node (snd ex_two))) = 4 /\
  commits (acts_of (fst ex_two)) = [(1, ex_ent 1 x61)] /\
  n_config (snd (fst (run_event ECommit (up_node (snd ex_two))))) = mkCfg 2 0 (cc_servers ex_cfg).
Proof. vm_compute. repeat split. Qed.

(** Over a whole life: what is applied, by index.  A snapshot brings the state
    machine to its last index. *)
Fixpoint applies (l : list act) : list N :=
  match l with
  | [] => []
  | ACommit i _ :: l => i :: applies l
  | AApplySnapshot s :: l => sn_last_log_idx s :: applies l
  | _ :: l => applies l
  end.
Lemma applies_app : forall a b, applies (a ++ b) = applies a ++ applies b.
Proof. induction a as [|x a IH]; intros b; [reflexivity|]. destruct x; cbn [applies app]; rewrite IH; reflexivity. Qed.
Lemma plain_applies : forall l, Forall plain l -> applies l = [].
Proof. induction l as [|a l IH]; intros H; [reflexivity|]. inversion H; subst. destruct a; try contradiction; apply IH; assumption. Qed.
Lemma applies_commits : forall l i e, In (i, e) (commits l) -> In i (applies l).
Proof.
  induction l as [|a l IH]; intros i e H; [destruct H|]. destruct a; cbn [commits applies] in *; try (eapply IH; exact H).
  - destruct H as [H|H]; [inversion H; left; reflexivity | right; eapply IH; exact H].
  - right. eapply IH. exact H.
Qed.
Lemma last_indep : forall (l : list N) a b, l <> [] -> last l a = last l b.
Proof.
  induction l as [|x l IH]; intros a b H; [contradiction|]. destruct l as [|y l]; [reflexivity|].
  change (last (y :: l) a = last (y :: l) b). apply IH. discriminate.
Qed.
Lemma fold_commit : forall l d, dk_commit (fold_left disk_apply l d) = last (applies l) (dk_commit d).
Proof.
  induction l as [|a l IH]; intros d; [reflexivity|]. cbn [fold_left]. rewrite IH. destruct a; try reflexivity.
  - cbn [disk_apply dk_commit applies]. destruct (applies l) as [|x y]; [reflexivity|]. change (last (x :: y) i = last (x :: y) (dk_commit d)). apply last_indep. discriminate.
  - cbn [disk_apply dk_commit applies]. destruct (applies l) as [|x y]; [reflexivity|]. change (last (x :: y) (sn_last_log_idx s) = last (x :: y) (dk_commit d)). apply last_indep. discriminate.
Qed.

(** installing a snapshot *)
Definition snp_rest (s : sync_val) : M bool :=
  reconfigure (sn_config (sv_snp s)) ;;;
  c <- get n_config ;;
  emit (ASaveConfig c) ;;;
  modify (set_smc (sn_last_log_idx (sv_snp s))) ;;;
  modify (set_quick (sn_last_log_idx (sv_snp s))) ;;;
  save_state ;;;
  modify (set_snp (Some (mkSnp (sn_last_log_idx (sv_snp s)) (sn_last_log_term (sv_snp s)) (sn_size (sv_snp s)) c))) ;;;
  restart_election_timer ;;;
  ret true.
Lemma snp_rest_ht : forall s n, ht (acts plain) (fun _ n' => n_smc n' = sn_last_log_idx (sv_snp s)) (snp_rest s) n.
Proof.
  intros s n. unfold snp_rest.
  eapply ht_seq; [exact _ | eapply ht_rel; [apply reconfigure_plain | intros l n' [_ H]; exact H] | intros ? n1 ? _ _]. clear n.
  apply ht_bget. eapply ht_seq; [exact _ | apply ht_emit; [repeat constructor | exact I] | intros ? n2 ? _ _].
  generalize (n_config n1). intros c. clear n1.
  eapply ht_bind; [exact _ | apply (ht_modify _ (fun _ n' => n_smc n' = sn_last_log_idx (sv_snp s))); [constructor | reflexivity] | intros ? n3 ? _ _ H3].
  intros r n' l E.
  match type of E with ?m n3 = _ => assert (W : ht (both (keeps n_smc) (acts plain)) yes m n3) end.
  { unfold save_state, restart_election_timer. walk ltac:(unfold both, acts; split; [kp | repeat constructor]). }
  destruct (W _ _ _ E) as [[W1 W2] _]. split; [exact W2|]. intros _ _. rewrite W1. exact H3.
Qed.
Lemma sync_applies : forall s n r n' l, handle_snapshot_sync_req s n = (r, n', l) ->
  applies l = [] \/ (applies l = [sn_last_log_idx (sv_snp s)] /\ (goes_on r = true -> n_smc n' = sn_last_log_idx (sv_snp s))).
Proof.
  intros s n r n' l H. unfold handle_snapshot_sync_req in H. apply catch_exit in H. destruct H as (r0 & l0 & E & C).
  assert (G : applies l0 = [] \/ (applies l0 = [sn_last_log_idx (sv_snp s)] /\ (forall b, r0 = ROk b -> n_smc n' = sn_last_log_idx (sv_snp s)))).
  2:{ destruct C as [(-> & -> & C) | (-> & ->)].
      - destruct G as [G|[G1 G2]]; [left; exact G|]. right. split; [exact G1|]. intros Hg. rewrite C in Hg.
        destruct r0; try discriminate. apply (G2 a eq_refl).
      - rewrite applies_app, app_nil_r. destruct G as [G|[G1 G2]]; [left; exact G|]. right. split; [exact G1 | discriminate]. }
  clear C r l. rewrite bind_emit in E. cbv beta in E. set (n1 := set_disk _ n) in *. clearbody n1. clear n.
  destruct (sv_done s); [|inversion E; subst; left; reflexivity].
  rewrite bind_get in E. destruct (n_role n1); [|inversion E; subst; left; reflexivity..].
  destruct (log_compact (sn_last_log_idx (sv_snp s)) n1) as [[rc n2] l2] eqn:Ec.
  assert (Hl2 : applies l2 = []).
  { apply plain_applies. assert (W : ht (acts plain) yes (log_compact (sn_last_log_idx (sv_snp s))) n1).
    { unfold log_compact. walk ltac:(repeat constructor). }
    apply (W _ _ _ Ec). }
  unfold bind at 1 in E. rewrite Ec in E. destruct rc as [[]| | |].
  2: { cbn in E. inversion E; subst. rewrite app_nil_r. left. exact Hl2. }
  2-4: cbn in E; inversion E; subst; left; exact Hl2.
  unfold stop_election_timer in E. rewrite bind_assoc, bind_modify in E. cbv beta in E. rewrite bind_emit in E. cbv beta in E. rewrite bind_emit in E. cbv beta in E.
  match type of E with context [bind (reconfigure ?a) ?b ?m] => change (bind (reconfigure a) b m) with (snp_rest s m) in E; set (n3 := m) in * end.
  destruct (snp_rest s n3) as [[r4 n4] l4] eqn:E4. destruct (snp_rest_ht _ _ _ _ _ E4) as [W1 W2].
  cbn in E. inversion E; subst. right. cbn [applies]. rewrite applies_app. cbn [applies]. rewrite Hl2. cbn [app applies].
  rewrite (plain_applies _ W1). split; [reflexivity|]. exact W2.
Qed.

Lemma install_applies : forall q n r n' l, handle_install_snapshot_req q n = (r, n', l) ->
  applies l = [] \/ exists i, applies l = [i] /\ n_smc n < i /\ (goes_on r = true -> n_smc n' = i).
Proof.
  intros q n r n' l H. unfold handle_install_snapshot_req in H. rewrite bind_get in H.
  match type of H with bind ?m _ n = _ => destruct (m n) as [[r1 n1] l1] eqn:E1; assert (W : ht (both (keeps n_smc) (acts plain)) yes m n) end.
  { unfold become_follower, restart_election_timer. walk ltac:(unfold both, acts; split; [kp | repeat constructor]). }
  destruct (W _ _ _ E1) as [[W1 W2] _]. apply plain_applies in W2. clear W.
  destruct r1 as [[]| | |]; [|unfold bind at 1 in H; rewrite E1 in H; inversion H; subst; left; exact W2..]. unfold keeps in W1.
  rewrite (bind_ok _ _ _ _ _ _ _ _ E1) in H.
  match type of H with after _ ?x = _ => destruct x as [[r2 n2] l2] eqn:E end. inversion H; subst. clear H.
  rewrite applies_app, W2. cbn [app].
  destruct (_ && _); [inversion E; subst; left; reflexivity|].
  destruct (rq_entries q) as [|e0 [|? ?]]; [inversion E; subst; left; reflexivity | | inversion E; subst; left; reflexivity].
  destruct (negb _); [inversion E; subst; left; reflexivity|].
  unfold bind at 1, lift in E. destruct (parse_sync (ev_data e0)) as [s| |]; [|inversion E; subst; left; reflexivity..].
  rewrite bind_get in E. destruct (sn_last_log_idx (sv_snp s) <=? n_smc n1) eqn:El; [inversion E; subst; left; reflexivity|].
  unfold bind in E. destruct (handle_snapshot_sync_req s n1) as [[r3 n3] l3] eqn:E3.
  assert (X : n3 = n' /\ l3 = l2 /\ goes_on r = goes_on r3).
  { destruct r3; cbn in E; inversion E; subst; rewrite ?app_nil_r; repeat split. }
  destruct X as (-> & -> & Hg).
  destruct (sync_applies _ _ _ _ _ E3) as [G|[G1 G2]]; [left; exact G|].
  right. eexists. split; [exact G1|]. split; [lia|]. rewrite Hg. exact G2.
Qed.

Lemma astep_plain : forall ev n l n', astep ev n l n' -> ~ is_req install_snapshot_request ev -> ev <> ECommit ->
  (forall s d ok, ev <> ESnapshot s d ok) -> Forall plain l.
Proof.
  intros ev n l n' H Hi Hc Hs. destruct H; try (repeat constructor; fail).
  - destruct H as (ps & q & j & _ & _ & _ & _ & Hl). eapply Forall_impl; [|exact Hl]. intros [] Ha; try contradiction; exact I.
  - eapply Forall_impl; [|exact H0]. intros [] Ha; try contradiction; exact I.
  - contradiction.
  - destruct H1 as (H1 & _). eapply Forall_impl; [|exact H1]. intros a [Ha|Ha]; [|subst a; exact I]. destruct a; try contradiction; exact I.
  - destruct H0 as [(q & [now E] & Ht)|(s & d & ok & E)]; [destruct Hi; exists now, q; split; assumption | destruct (Hs _ _ _ E)].
Qed.
Lemma tr_plain : forall ev n l n', tr ev n l n' -> ~ is_req install_snapshot_request ev -> ev <> ECommit ->
  (forall s d ok, ev <> ESnapshot s d ok) -> Forall plain l.
Proof. intros ev n l n' H Hi Hc Hs. induction H; [constructor|]. apply Forall_app. split; [eapply astep_plain; eassumption | assumption]. Qed.

Lemma event_applies : forall e n r n' l, 1 <= al_start (n_log n) -> run_event e n = (r, n', l) -> ~ is_req join_cluster_request e ->
  applies l = [] \/ exists i, applies l = [i] /\ n_smc n < i /\ (goes_on r = true -> i <= n_smc n').
Proof.
  intros e n r n' l Hs H Hj. assert (T := proj1 (run_event_tr e n Hs _ _ _ H)).
  destruct e; try (left; apply plain_applies, (tr_plain _ _ _ _ T); [intros (now' & q' & X & _) | | intros]; discriminate).
  - destruct (beq (rq_type q) install_snapshot_request) eqn:E.
    2:{ left. apply plain_applies, (tr_plain _ _ _ _ T); [intros (now' & q' & X & Ht); inversion X; subst; rewrite Ht in E; discriminate | discriminate | discriminate]. }
    clear T. apply Byte.byte_dec_bl in E. cbn [run_event] in H. unfold bind in H.
    destruct (process_req now q n) as [[x n1] l1] eqn:Ep.
    assert (X : n1 = n' /\ l1 = l /\ goes_on r = goes_on x).
    { destruct x; cbn in H; inversion H; subst; rewrite ?app_nil_r; repeat split. }
    destruct X as (-> & -> & Hg). rewrite (process_install now q n E) in Ep.
    assert (S1 : n_smc (arrived (rq_term q) n) = n_smc n).
    { unfold arrived. destruct (n_term n <? rq_term q).
      - change (n_steps (with_term (rq_term q) n)) with (n_steps n). destruct (0 <? n_steps n)%Z; reflexivity.
      - destruct (0 <? n_steps n)%Z; reflexivity. }
    assert (S2 : applies (arrived_acts (rq_term q) n) = []).
    { unfold arrived_acts. destruct (n_term n <? rq_term q), (n_catching n); reflexivity. }
    destruct (handle_install_snapshot_req q (arrived (rq_term q) n)) as [[y n2] l2] eqn:Eh. inversion Ep; subst. clear Ep.
    rewrite applies_app, S2. cbn [app]. rewrite <- S1, Hg.
    destruct (install_applies _ _ _ _ _ Eh) as [G|(i & G1 & G2 & G3)]; [left; exact G|]. right. exists i.
    split; [exact G1|]. split; [exact G2|]. intros Hx. rewrite (G3 Hx). lia.
  - destruct (C32_apply_one n r n' l H) as [C1 C2].
    destruct (N.lt_decidable (n_smc n) (n_quick n)) as [D1|D1]; [|destruct (C2 (fun z => D1 (proj1 z))) as [_ ->]; left; reflexivity].
    destruct (N.lt_decidable (n_smc n + 1) (a_next (n_log n))) as [D2|D2]; [|destruct (C2 (fun z => D2 (proj2 z))) as [_ ->]; left; reflexivity].
    clear C2. destruct (C1 (conj D1 D2)) as (S1 & S2 & _ & S4 & S5). clear C1.
    assert (A : applies l = map fst (commits l)).
    { assert (Q : forall a, In a l -> match a with AApplySnapshot _ => False | _ => True end).
      { clear - T. remember ECommit as ev. induction T; [intros a []|]. intros a Ha. apply in_app_or in Ha. destruct Ha as [Ha|Ha]; [|apply (IHT a Ha)].
        subst ev. clear IHT T. destruct H; try (destruct Ha as [<-|[]]; exact I); try destruct Ha as [].
        - destruct H as (ps & q & j & _ & _ & _ & _ & Hl). rewrite Forall_forall in Hl. specialize (Hl _ Ha). destruct a; try contradiction; exact I.
        - rewrite Forall_forall in H0. specialize (H0 _ Ha). destruct a; try contradiction; exact I.
        - destruct H1 as (H1 & _). rewrite Forall_forall in H1. destruct (H1 _ Ha) as [Hb|Hb]; [|subst a; exact I]. destruct a; try contradiction; exact I.
        - destruct H0 as [(q & [now E] & Ht)|(s & d & ok & E)]; discriminate.
        - contradiction. }
      clear - Q. induction l as [|a l IH]; [reflexivity|].
      assert (IH' := IH (fun b Hb => Q b (or_intror Hb))). specialize (Q a (or_introl eq_refl)).
      destruct a; cbn [applies commits map fst]; try contradiction; rewrite IH'; reflexivity. }
    rewrite A. destruct (a_get (n_log n) (n_smc n + 1)) as [e|] eqn:Ee.
    + destruct (Byte.byte_eq_dec (ev_type e) app_log) as [Ha|Ha].
      * right. exists (n_smc n + 1). destruct (S2 e eq_refl Ha) as (-> & _). split; [reflexivity|]. split; lia.
      * left. rewrite (S4 e eq_refl Ha). reflexivity.
    + left. destruct (S5 eq_refl) as [-> _]. reflexivity.
  - left. apply plain_applies. cbn [run_event] in H.
    match type of H with ?m n = _ => assert (W : ht (acts plain) yes m n) end.
    { unfold on_snapshot_completed, log_compact. walk ltac:(repeat constructor). }
    apply (W _ _ _ H).
Qed.

(** Across crashes and restarts, everything given to the state machine has a
    higher index than what it was given before.  (Joining another cluster starts
    over.) *)
Lemma prefix_one : forall (p q : list N), p ++ q = [] \/ (exists i, p ++ q = [i]) -> p = [] \/ p = p ++ q.
Proof.
  intros p q H. destruct p as [|x p]; [left; reflexivity|]. right. destruct H as [H|[i H]]; [discriminate|].
  cbn in *. inversion H. apply app_eq_nil in H2. destruct H2 as [-> ->]. reflexivity.
Qed.
Lemma life_applies : forall id pm s h s', life id pm s h s' -> okay id s -> without join_cluster_request h ->
  match s with Up n => dk_commit (n_disk n) <= n_smc n | Down _ => True end ->
  StronglySorted N.lt (dk_commit (sys_disk s) :: applies (acts_of h)) /\
  match s' with Up n => dk_commit (n_disk n) <= n_smc n | Down _ => True end.
Proof.
  intros id pm s h s' H. induction H; intros Hok Hw Hc.
  - split; [constructor; constructor | exact Hc].
  - apply without_cons in Hw. destruct Hw as [Hg Hw].
    assert (Hj : ~ is_req join_cluster_request e) by (intros (now & q & E & Ht); apply Hg; exists now, q; split; assumption).
    destruct Hok as (O1 & O2 & O3). assert (T := proj1 (run_event_tr e n O1 _ _ _ H)).
    assert (Hok' : okay id (Up n')).
    { split; [eapply tr_start; eassumption|]. split; [eapply tr_synced; eassumption|]. rewrite (tr_id _ _ _ _ T). exact O3. }
    assert (M := C31_applied_index e n r n' l O1 H Hj).
    assert (D : dk_commit (n_disk n') = last (applies l) (dk_commit (n_disk n))) by (rewrite (tr_disk _ _ _ _ T); apply fold_commit).
    unfold acts_of in *. cbn [map concat o_acts sys_disk] in *. rewrite applies_app.
    destruct (event_applies e n r n' l O1 H Hj) as [A|(i & A & A1 & A2)]; rewrite A in *; cbn [last app] in *.
    + destruct (IHlife Hok' Hw ltac:(lia)) as [I1 I2]. split; [|exact I2]. rewrite D in I1. exact I1.
    + specialize (A2 H0). destruct (IHlife Hok' Hw ltac:(lia)) as [I1 I2]. split; [|exact I2]. rewrite D in I1.
      constructor; [exact I1|]. inversion I1; subst. constructor; [lia|]. eapply Forall_impl; [|exact H5]. intros a Ha. cbv beta in Ha. lia.
  - apply without_cons in Hw. destruct Hw as [Hg Hw].
    assert (Hj : ~ is_req join_cluster_request e) by (intros (now & q & E & Ht); apply Hg; exists now, q; split; assumption).
    destruct Hok as (O1 & O2 & O3). assert (T := proj1 (run_event_tr e n O1 _ _ _ H)).
    assert (Hok' : okay id (Down (n_disk n'))) by (eapply tr_start; eassumption).
    assert (D : dk_commit (n_disk n') = last (applies l) (dk_commit (n_disk n))) by (rewrite (tr_disk _ _ _ _ T); apply fold_commit).
    unfold acts_of in *. cbn [map concat o_acts sys_disk] in *. rewrite applies_app.
    destruct (IHlife Hok' Hw I) as [I1 I2]. split; [|exact I2]. rewrite D in I1.
    destruct (event_applies e n r n' l O1 H Hj) as [A|(i & A & A1 & A2)]; rewrite A in *; cbn [last app] in *; [exact I1|].
    constructor; [exact I1|]. inversion I1; subst. constructor; [lia|]. eapply Forall_impl; [|exact H5]. intros a Ha. cbv beta in Ha. lia.
  - apply without_cons in Hw. destruct Hw as [Hg Hw].
    assert (Hj : ~ is_req join_cluster_request e) by (intros (now & q0 & E & Ht); apply Hg; exists now, q0; split; assumption).
    destruct Hok as (O1 & O2 & O3). assert (T := proj1 (run_event_tr e n O1 _ _ _ H)).
    destruct (tr_prefix _ _ _ _ T p q eq_refl) as (n1 & T1).
    assert (Hok' : okay id (Down (fold_left disk_apply p (n_disk n)))).
    { rewrite <- (tr_disk _ _ _ _ T1). apply (tr_start _ _ _ _ T1 O1). }
    unfold acts_of in *. cbn [map concat o_acts sys_disk] in *. rewrite applies_app.
    destruct (IHlife Hok' Hw I) as [I1 I2]. split; [|exact I2]. rewrite fold_commit in I1.
    assert (A := event_applies e n r n' (p ++ q) O1 H Hj). rewrite applies_app in A.
    destruct (prefix_one (applies p) (applies q)) as [P|P].
    { destruct A as [A|(i & A & _)]; [left; exact A | right; exists i; exact A]. }
    + rewrite P in *. exact I1.
    + rewrite <- P in A. destruct A as [A|(i & A & A1 & A2)]; rewrite A in *; cbn [last app] in *; [exact I1|].
      constructor; [exact I1|]. inversion I1; subst. constructor; [lia|]. eapply Forall_impl; [|exact H4]. intros a Ha. cbv beta in Ha. lia.
  - assert (Hok' : okay id (Up (start_node id pm d))).
    { split; [unfold n_log; rewrite start_disk; exact Hok|]. split; [apply start_synced | apply start_id]. }
    cbn [sys_disk] in *. rewrite start_disk in IHlife. apply (IHlife Hok' Hw).
    unfold start_node. destruct (dk_state d) as [[t v]|]; cbn; lia.
Qed.
Theorem C32_in_order : forall id pm d h s,
  disk_okay d -> life id pm (Down d) h s -> without join_cluster_request h ->
  StronglySorted N.lt (dk_commit d :: applies (acts_of h)).
Proof. intros id pm d h s Hd H Hw. apply (life_applies id pm (Down d) h s H Hd Hw I). Qed.
Definition ex_apply : list obs * sys :=
  run_cmds 1 ex_prm (Down ex_disk)
    [CStart; CEvent (ERequest 0 (ex_ae 1 2 0 0 3 [ex_ent 1 x61; ex_ent 1 x62; ex_ent 1 x63])); CEvent ECommit;
     CCrash ECommit 1; CStart; CEvent (ERequest 0 (ex_ae 1 2 1 3 3 [])); CEvent ECommit; CEvent ECommit].
Example C32_in_order_example : disk_okay ex_disk /\ life 1 ex_prm (Down ex_disk) (fst ex_apply) (snd ex_apply) /\
  without join_cluster_request (fst ex_apply) /\ applies (acts_of (fst ex_apply)) = [1; 2; 3].
Proof.
  split; [unfold disk_okay; cbn; lia|]. split; [apply run_cmds_life|].
  split; [apply withoutb_ok; vm_compute; reflexivity | vm_compute; reflexivity].
Qed.

(** While the server runs and installs no snapshot, there are no gaps: the
    entries applied, configurations and empty entries included, have the indexes
    n_smc n + 1, n_smc n + 2, ..., n_smc n'. *)
Fixpoint apps (i : N) (es : list entry_val) : list (N * entry_val) :=
  match es with
  | [] => []
  | e :: es => (if beq (ev_type e) app_log then [(i, e)] else []) ++ apps (i + 1) es
  end.
Lemma apps_app : forall a i b, apps i (a ++ b) = apps i a ++ apps (i + lenN a) b.
Proof.
  induction a as [|e a IH]; intros i b; [cbn [apps app]; f_equal; unfold lenN; cbn; lia|].
  cbn [apps app]. rewrite IH, app_assoc. do 2 f_equal. unfold lenN. cbn [length]. lia.
Qed.
Theorem C32_no_gaps : forall n h n',
  1 <= al_start (n_log n) -> runs n h n' ->
  without join_cluster_request h -> without install_snapshot_request h ->
  exists es, n_smc n' = n_smc n + lenN es /\ commits (acts_of h) = apps (n_smc n + 1) es.
Proof.
  intros n h n' Hs H. revert Hs. induction H; intros Hs Hj Hi; [exists []; split; [unfold lenN; cbn; lia | reflexivity]|].
  apply without_cons in Hj. destruct Hj as [Hj Hjw]. apply without_cons in Hi. destruct Hi as [Hi Hiw].
  assert (Hj' : ~ is_req join_cluster_request e) by (intros (now & q & E & Ht); apply Hj; exists now, q; split; assumption).
  assert (Hi' : ~ is_req install_snapshot_request e) by (intros (now & q & E & Ht); apply Hi; exists now, q; split; assumption).
  assert (T := proj1 (run_event_tr e n Hs _ _ _ H)).
  destruct (IHruns (tr_start _ _ _ _ T Hs) Hjw Hiw) as (es & E1 & E2). clear IHruns.
  assert (X : exists e0, n_smc n' = n_smc n + lenN e0 /\ commits l = apps (n_smc n + 1) e0).
  { assert (Quiet : Forall plain l -> n_smc n' = n_smc n -> exists e0, n_smc n' = n_smc n + lenN e0 /\ commits l = apps (n_smc n + 1) e0).
    { intros P S. exists []. rewrite (plain_commits _ P). split; [unfold lenN; cbn; lia | reflexivity]. }
    assert (SMC : e <> ECommit -> n_smc n' = n_smc n).
    { intros Hc. clear - T Hj' Hi' Hc. induction T; [reflexivity|]. rewrite IHT by assumption. clear IHT T.
      destruct H; try reflexivity; try contradiction.
      - destruct H as (ps & q & j & -> & _). reflexivity.
      - unfold core in H. injection H. intros. congruence.
      - destruct Hj'. destruct H as [now E]. exists now, q. split; assumption.
      - destruct H1 as (_ & C & _). unfold core in C. cbn in C. injection C. intros. congruence.
      - destruct H as (q & [now E] & Ht). destruct Hi'. exists now, q. split; assumption. }
    destruct e; try (apply Quiet; [apply (tr_plain _ _ _ _ T Hi'); [discriminate | intros; discriminate] | apply SMC; discriminate]).
    - destruct (C32_apply_one n r n' l H) as [C1 C2].
      destruct (N.lt_decidable (n_smc n) (n_quick n)) as [D1|D1];
        [|destruct (C2 (fun z => D1 (proj1 z))) as [-> ->]; exists []; split; [unfold lenN; cbn; lia | reflexivity]].
      destruct (N.lt_decidable (n_smc n + 1) (a_next (n_log n))) as [D2|D2];
        [|destruct (C2 (fun z => D2 (proj2 z))) as [-> ->]; exists []; split; [unfold lenN; cbn; lia | reflexivity]].
      destruct (C1 (conj D1 D2)) as (S1 & S2 & _ & S4 & S5).
      destruct (a_get (n_log n) (n_smc n + 1)) as [e|] eqn:Ee.
      + exists [e]. split; [exact S1|]. cbn [apps]. rewrite app_nil_r. destruct (beq (ev_type e) app_log) eqn:Hb.
        * apply Byte.byte_dec_bl in Hb. apply (S2 e eq_refl Hb).
        * apply (S4 e eq_refl). intros Hx. rewrite Hx in Hb. discriminate.
      + destruct (S5 eq_refl) as [_ S6]. congruence.
    - apply Quiet; [|apply SMC; discriminate]. cbn [run_event] in H.
      match type of H with ?m n = _ => assert (W : ht (acts plain) yes m n) end.
      { unfold on_snapshot_completed, log_compact. walk ltac:(repeat constructor). }
      apply (W _ _ _ H). }
  destruct X as (e0 & X1 & X2). exists (e0 ++ es). split.
  - rewrite E1, X1. unfold lenN. rewrite app_length. lia.
  - unfold acts_of in *. cbn [map concat o_acts]. rewrite commits_app, X2, E2, apps_app, X1.
    do 2 f_equal. lia.
Qed.
Example C32_no_gaps_example : exists h n', runs (start_node 1 ex_prm ex_disk) h n' /\ length h = 3%nat /\ n_smc n' = 2.
Proof.
  set (e1 := ERequest 0 (ex_ae 1 2 0 0 2 [ex_ent 1 x61; conf_entry 1 (mkCfg 2 0 (cc_servers ex_cfg)); ex_ent 1 x63])).
  set (x1 := run_event e1 (start_node 1 ex_prm ex_disk)). set (x2 := run_event ECommit (snd (fst x1))). set (x3 := run_event ECommit (snd (fst x2))).
  exists [mkObs e1 (snd x1) (answer_of (fst (fst x1))); mkObs ECommit (snd x2) (answer_of (fst (fst x2))); mkObs ECommit (snd x3) (answer_of (fst (fst x3)))], (snd (fst x3)).
  split; [|split; [reflexivity | vm_compute; reflexivity]].
  apply (R_event _ _ _ (snd (fst x1))); [apply pair3; reflexivity | vm_compute; reflexivity|].
  apply (R_event _ _ _ (snd (fst x2))); [apply pair3; reflexivity | vm_compute; reflexivity|].
  apply (R_event _ _ _ (snd (fst x3))); [apply pair3; reflexivity | vm_compute; reflexivity | constructor].
Qed.

(** ** C33: the commit index and the majority *)
Definition reached (v : N) (l : list N) : nat := length (filter (N.leb v) l).
Definition majority_reached (v : N) (l : list N) : Prop := (length l < 2 * reached v l)%nat.

Lemma insert_perm : forall x l, Permutation (insert_desc x l) (x :: l).
Proof.
  intros x. induction l as [|y l IH]; cbn [insert_desc]; [reflexivity|]. destruct (y <=? x); [reflexivity|].
  rewrite IH. apply perm_swap.
Qed.
Lemma sort_perm : forall l, Permutation (sort_desc l) l.
Proof. induction l as [|x l IH]; [reflexivity|]. cbn [sort_desc fold_right]. rewrite insert_perm. apply perm_skip, IH. Qed.
Definition ge (a b : N) : Prop := b <= a.
Lemma insert_sorted : forall x l, StronglySorted ge l -> StronglySorted ge (insert_desc x l).
Proof.
  intros x. induction l as [|y l IH]; intros H; cbn [insert_desc]; [repeat constructor|].
  inversion H; subst. destruct (y <=? x) eqn:E.
  - constructor; [exact H|]. constructor; [unfold ge; lia|]. eapply Forall_impl; [|exact H3]. unfold ge. intros; lia.
  - constructor; [apply IH; assumption|]. apply (Permutation_Forall (Permutation_sym (insert_perm x l))).
    constructor; [unfold ge; lia | assumption].
Qed.
Lemma sort_sorted : forall l, StronglySorted ge (sort_desc l).
Proof. induction l as [|x l IH]; [constructor|]. apply insert_sorted, IH. Qed.
Lemma filter_perm : forall (f : N -> bool) l m, Permutation l m -> Permutation (filter f l) (filter f m).
Proof.
  intros f l m H. induction H; cbn [filter]; [constructor | | |].
  - destruct (f x); [apply perm_skip|]; assumption.
  - destruct (f x), (f y); try reflexivity. apply perm_swap.
  - etransitivity; eassumption.
Qed.
Lemma reached_perm : forall v l m, Permutation l m -> reached v l = reached v m.
Proof. intros v l m H. apply Permutation_length, filter_perm, H. Qed.
(** in a descending list the first k+1 entries reach the k-th *)
Lemma sorted_reached : forall l k, StronglySorted ge l -> (k < length l)%nat -> (k < reached (nth k l 0%N) l)%nat.
Proof.
  induction l as [|x l IH]; intros k H Hk; [cbn in Hk; lia|]. inversion H; subst.
  destruct k as [|k]; cbn [nth]; unfold reached; cbn [filter].
  - replace (x <=? x) with true by lia. cbn. lia.
  - cbn in Hk. assert (G := IH k H2 ltac:(lia)).
    assert (Hx : nth k l 0 <= x). { rewrite Forall_forall in H3. apply H3, nth_In. lia. }
    replace (nth k l 0 <=? x) with true by lia. cbn [length]. unfold reached in G. lia.
Qed.
Lemma filter_none : forall (f : N -> bool) l, (forall x, In x l -> f x = false) -> filter f l = [].
Proof.
  induction l as [|x l IH]; intros H; [reflexivity|]. cbn [filter]. rewrite (H x (or_introl eq_refl)). apply IH. intros y Hy. apply H. right. exact Hy.
Qed.
Lemma sorted_above : forall l k v, StronglySorted ge l -> (k < length l)%nat -> nth k l 0 < v -> (reached v l <= k)%nat.
Proof.
  induction l as [|x l IH]; intros k v H Hk Hv; [cbn in Hk; lia|]. inversion H; subst.
  destruct k as [|k]; cbn [nth] in Hv; unfold reached; cbn [filter].
  - replace (v <=? x) with false by lia. rewrite filter_none; [reflexivity|].
    intros y Hy. rewrite Forall_forall in H3. specialize (H3 y Hy). unfold ge in H3. lia.
  - cbn in Hk. assert (G := IH k v H2 ltac:(lia) Hv). unfold reached in G. destruct (v <=? x); cbn [length]; lia.
Qed.
Lemma majority_index : forall l, l <> [] ->
  majority_reached (nth (Nat.div (length l) 2) (sort_desc l) 0) l /\
  forall v, majority_reached v l -> v <= nth (Nat.div (length l) 2) (sort_desc l) 0.
Proof.
  intros l Hl. assert (Hp := sort_perm l). assert (Hs := sort_sorted l).
  assert (Hlen : length (sort_desc l) = length l) by (apply Permutation_length, Hp).
  assert (H0 : (0 < length l)%nat) by (destruct l; [contradiction | cbn; lia]).
  assert (Hk : (Nat.div (length l) 2 < length (sort_desc l))%nat) by (rewrite Hlen; apply Nat.div_lt; lia).
  assert (Hd := Nat.div_mod (length l) 2 ltac:(lia)). assert (Hm := Nat.mod_upper_bound (length l) 2 ltac:(lia)).
  split.
  - unfold majority_reached. rewrite <- (reached_perm _ _ _ Hp). assert (G := sorted_reached _ _ Hs Hk). lia.
  - intros v Hv. destruct (N.le_gt_cases v (nth (Nat.div (length l) 2) (sort_desc l) 0)) as [|G]; [assumption|].
    apply (sorted_above _ _ _ Hs Hk) in G. rewrite (reached_perm _ _ _ Hp) in G. unfold majority_reached in Hv. lia.
Qed.

(** what the leader knows about each member: its own log end, and the match
    index each peer reported *)
Definition pview (n : node) : list (Z * N) * N * alog * N :=
  (map (fun p => (p_id p, p_match p)) (n_peers n), n_quick n, n_log n, n_term n).
Lemma upd_pview : forall r f n, (forall p, p_id (f p) = p_id p /\ p_match (f p) = p_match p) -> pview (upd_peer r f n) = pview n.
Proof.
  intros [id|] f n H; [|reflexivity]. unfold pview, upd_peer, upd_peers. cbn [n_peers set_peers n_quick n_log n_disk n_term].
  f_equal. f_equal. f_equal. rewrite map_map. apply map_ext. intros p. destruct (p_id p =? id)%Z; [|reflexivity].
  destruct (H p) as [-> ->]. reflexivity.
Qed.
Lemma upd_quick : forall r f n, n_quick (upd_peer r f n) = n_quick n.
Proof. intros [id|] f n; reflexivity. Qed.
Lemma commit_quick : forall i n r n' l, commit i n = (r, n', l) -> n_quick n' = N.max (n_quick n) i.
Proof.
  intros i n r n' l H. unfold commit in H. rewrite bind_get in H. destruct (n_quick n <? i) eqn:E.
  - rewrite bind_modify in H. assert (Hq : n_quick (set_quick i n) = i) by reflexivity. generalize dependent (set_quick i n). intros m H Hq.
    match type of H with ?c m = _ => assert (W : ht (keeps n_quick) yes c m) end.
    { open_send. walk ltac:(first [reflexivity | apply upd_quick]). }
    rewrite (proj1 (W _ _ _ H)), Hq. lia.
  - inversion H; subst. lia.
Qed.

Definition match_of (r : resp_msg) (n : node) : list N :=
  (a_next (n_log n) - 1) :: map (fun p => if (p_id p =? rs_src r)%Z then rs_next_idx r - 1 else p_match p) (n_peers n).
Theorem C33_majority : forall now uid q r n x n' l,
  live_ref uid n <> None -> find_peer (rs_src r) (n_peers n) <> None ->
  rs_type r = append_entries_response -> rs_accepted r = true -> rs_term r <= n_term n -> 1 <= rs_next_idx r ->
  run_event (ERpc now uid false q (Some r)) n = (x, n', l) ->
  exists target, n_quick n' = N.max (n_quick n) target /\
    majority_reached target (match_of r n) /\
    forall v, majority_reached v (match_of r n) -> v <= target.
Proof.
  intros now uid q r n x n' l Hu Hf Ht Ha Hterm Hn H.
  assert (Hne : match_of r n <> []) by discriminate.
  exists (nth (Nat.div (length (match_of r n)) 2) (sort_desc (match_of r n)) 0).
  split; [|apply majority_index, Hne].
  cbn [run_event] in H.
  assert (K : forall m r1 n1 l1, pview m = pview n -> handle_append_entries_resp r m = (r1, n1, l1) ->
     n_quick n1 = N.max (n_quick n) (nth (Nat.div (length (match_of r n)) 2) (sort_desc (match_of r n)) 0)).
  { intros m r1 n1 l1 Hv H1. unfold pview in Hv. injection Hv as V1 V2 V3 _. unfold handle_append_entries_resp in H1. rewrite bind_get in H1.
    assert (Hfm : find_peer (rs_src r) (n_peers m) <> None).
    { intros C. apply Hf. unfold find_peer in *. clear - V1 C. revert V1 C. generalize (n_peers n) as a, (n_peers m) as b.
      induction a as [|p a IH]; intros [|p' b] V C; [reflexivity | discriminate | discriminate|]. cbn [map find] in *. injection V as H0 H1 H2.
      rewrite H0 in C. destruct (p_id p =? rs_src r)%Z; [discriminate|]. apply (IH b); assumption. }
    destruct (find_peer (rs_src r) (n_peers m)) as [p0|]; [|contradiction].
    rewrite Ha, bind_assoc, bind_modify in H1. cbv beta in H1. rewrite bind_assoc, bind_get in H1. cbv zeta in H1.
    set (m1 := upd_peer _ _ m) in *.
    assert (L : (a_next (n_log m1) - 1) :: map p_match (n_peers m1) = match_of r n).
    { unfold match_of. rewrite <- V3. change (n_log m1) with (n_log m). f_equal. unfold m1, upd_peer, upd_peers. cbn [n_peers set_peers].
      rewrite map_map. clear - V1 Hn. revert V1. generalize (n_peers n) as a, (n_peers m) as b.
      induction a as [|p a IH]; intros [|p' b] V; [reflexivity | discriminate | discriminate|]. cbn [map] in *. injection V as H0 H1 H2.
      f_equal; [|apply IH; assumption]. rewrite H0. destruct (p_id p =? rs_src r)%Z; [|assumption].
      cbn [p_set_match p_set_next p_match]. unfold pred64. replace (rs_next_idx r =? 0) with false by lia. reflexivity. }
    rewrite L in H1.
    assert (Lk : (length (n_peers m1) + 1)%nat = length (match_of r n)).
    { rewrite <- L. cbn [length]. rewrite map_length. lia. }
    rewrite Lk in H1. rewrite <- V2. change (n_quick m) with (n_quick m1). generalize dependent m1. intros m1 H1 _ _.
    rewrite bind_assoc in H1. unfold bind at 1 in H1.
    match type of H1 with context [commit ?t m1] => destruct (commit t m1) as [[rc mc] lc] eqn:Ec end.
    apply commit_quick in Ec. rewrite <- Ec. destruct rc as [[]| | |]; [|inversion H1; subst; reflexivity..].
    match type of H1 with context [bind ?a ?b mc] => 
      assert (W : ht (keeps n_quick) yes (bind a b) mc); [|destruct (bind a b mc) as [[rw nw] lw] eqn:Ew] end.
    { open_send. walk ltac:(first [reflexivity | apply upd_quick]). }
    inversion H1; subst. apply (proj1 (W _ _ _ Ew)). }
  unfold rpc_done in H. rewrite bind_assoc, bind_get in H. destruct (live_ref uid n) as [ref|]; [|contradiction]. clear Hu.
  set (n1 := if (beq (rq_type q) append_entries_request || beq (rq_type q) install_snapshot_request) then upd_peer ref (p_set_busy false) n else n).
  assert (N1 : pview n1 = pview n) by (unfold n1; destruct (_ || _); [apply upd_pview; intros; split; reflexivity | reflexivity]).
  assert (E1 : forall A (f : unit -> M A), bind (when (beq (rq_type q) append_entries_request || beq (rq_type q) install_snapshot_request)
        (modify (upd_peer ref (p_set_busy false)))) f n = f tt n1).
  { intros A f. unfold n1. destruct (_ || _); cbn [when]; [apply bind_modify | apply bind_ret]. }
  rewrite bind_assoc, E1 in H. cbv beta in H. rewrite bind_assoc, bind_modify in H.
  set (n2 := upd_peer ref (p_resume (n_prm n)) n1) in *.
  assert (N2 : pview n2 = pview n) by (unfold n2; rewrite upd_pview; [exact N1 | intros; split; reflexivity]).
  clearbody n2. clear n1 N1 E1. unfold handle_peer_resp in H. rewrite bind_assoc, bind_get in H.
  unfold bind at 1 in H.
  match type of H with match ?m n2 with _ => _ end = _ => destruct (m n2) as [[rm nm] lm] eqn:Em end.
  assert (Hq : n_quick nm = N.max (n_quick n) (nth (Nat.div (length (match_of r n)) 2) (sort_desc (match_of r n)) 0)).
  2:{ destruct rm; cbn in H; inversion H; subst; exact Hq. }
  clear H. assert (N2' := N2). unfold pview in N2'. injection N2' as V1 V2 V3 V4.
  assert (Hfm : find_peer (rs_src r) (n_peers n2) <> None).
  { intros C. apply Hf. unfold find_peer in *. clear - V1 C. revert V1 C. generalize (n_peers n) as a, (n_peers n2) as b.
    induction a as [|p a IH]; intros [|p' b] V C; [reflexivity | discriminate | discriminate|]. cbn [map find] in *. injection V as H0 H1 H2.
    rewrite H0 in C. destruct (p_id p =? rs_src r)%Z; [discriminate|]. apply (IH b); assumption. }
  destruct (find_peer (rs_src r) (n_peers n2)); [|contradiction].
  rewrite bind_modify in Em. set (n3 := upd_peer _ _ n2) in *.
  assert (N3 : pview n3 = pview n) by (unfold n3; rewrite upd_pview; [exact N2 | intros; split; reflexivity]).
  assert (T3 : n_term n3 = n_term n) by exact V4.
  rewrite (bind_ok _ _ _ _ n3 false n3 []) in Em.
  2:{ rewrite update_term_eq. replace (n_term n3 <? rs_term r) with false by lia. reflexivity. }
  rewrite after_nil, Ht in Em. change (beq append_entries_response vote_response) with false in Em.
  change (beq append_entries_response append_entries_response) with true in Em. cbv beta iota in Em.
  apply (K n3 _ _ _ N3 Em).
Qed.

(** a leader of five that hears from one peer after another *)
Definition ex_five : disk := mkDisk (Some (2, 1%Z)) (mkCfg 0 0 (map ex_srv [1; 2; 3; 4; 5]%Z)) (mkAL 1 (map (ex_ent 2) [x61; x62; x63; x64])) 0 None [].
Definition ex_leader5 : node := set_role Leader (set_peers
  (map (fun p => p_set_match (if (p_id p =? 2)%Z then 3 else if (p_id p =? 3)%Z then 1 else 0) p) (n_peers (start_node 1 ex_prm ex_five)))
  (start_node 1 ex_prm ex_five)).
Definition ex_ack (src : Z) (nx : N) : resp_msg := mkResp 2 append_entries_response src 1 nx true.
Example C33_example :
  let u := match find_peer 4 (n_peers ex_leader5) with Some p => p_uid p | None => 0 end in
  live_ref u ex_leader5 <> None /\ find_peer 4 (n_peers ex_leader5) <> None /\
  match_of (ex_ack 4 3) ex_leader5 = [4; 3; 1; 2; 0] /\
  n_quick (snd (fst (run_event (ERpc 0 u false (ex_ae 2 1 0 0 0 []) (Some (ex_ack 4 3))) ex_leader5))) = 2.
Proof.
  cbv zeta. split; [vm_compute; discriminate|]. split; [vm_compute; discriminate|]. split; vm_compute; reflexivity.
Qed.

Print Assumptions C31_commit_index_partial.
Print Assumptions C31_commit_index_refuted.
Print Assumptions C31_applied_index.
Print Assumptions C32_apply_one.
Print Assumptions C32_in_order.
Print Assumptions C32_no_gaps.
Print Assumptions C33_majority.
