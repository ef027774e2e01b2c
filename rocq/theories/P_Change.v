(** * P_Change: an accepted addition of a server is carried through or given up (C94) *)

From Verif Require Import Base Buffer BufferSpec BufferProofs Codec CodecSpec CodecProofs Msg FsLogStore FsLogSpec Alog Raft RaftQuiet RaftWalk NodeSpec ServerSpec NodeFacts NodeExamples PeerWalk PeerInv P_Leader P_Peer P_Config P_Elect P_Remove P_Join.
Local Open Scope N_scope.

(** ** Specification

    the object for the server with the number [u] is gone for good: whatever the server goes
    through from now on, an answer to a request that was sent through it, or the error that
    takes the place of an answer, is handed to memory that has been freed *)
Definition lost_for_good (n : node) (u : N) : Prop :=
  forall h n1, runs n h n1 -> forall now ext q ans, run_event (ERpc now u ext q ans) n1 = (RUB UseAfterFree, n1, []).
(** [n] is asked to add the server [c], which it does not know *)
Definition asks_to_add (c : srv_config) : req := api_req add_server_request [mkEV 0 cluster_server (srv_bytes c)].
Definition may_add (n : node) (c : srv_config) : Prop :=
  srv_ok c /\ lenN (srv_bytes c) < two31 /\ ~ In (sc_id c) (map p_id (n_peers n)) /\ sc_id c <> n_id n.
(** a configuration in the log of [n] is not committed yet *)
Definition unsettled (n : node) : Prop := exists i, conf_pending n i.

(** ** Numbers of objects are not used again *)
Definition uids (n : node) : list N := map p_uid (pool n).
Definition kdead : rel := fun n _ n' => ((n_id n' = n_id n /\ n_prm n' = n_prm n) /\ n_uid n <= n_uid n') /\
  forall u, u < n_uid n -> In u (uids n') -> In u (uids n).
#[global] Instance kdead_pre : preorder kdead.
Proof.
  split; unfold kdead; intros; [split; [split; [split; reflexivity | lia] | auto]|].
  destruct H as (((A & A') & B) & C), H0 as (((D & D') & E) & F). split; [split; [split; congruence | lia]|]. intros u Hu Hi. apply C; [exact Hu|]. apply F; [lia | exact Hi].
Qed.
Lemma kdead_same : forall n n' l, n_id n' = n_id n -> n_prm n' = n_prm n -> n_uid n' = n_uid n -> uids n' = uids n -> kdead n l n'.
Proof. intros n n' l H1 H2 H3 H4. split; [split; [split; assumption | lia]|]. intros u _. rewrite H4. auto. Qed.
Lemma kdead_less : forall n n' l, n_id n' = n_id n -> n_prm n' = n_prm n -> n_uid n' = n_uid n -> (forall p, In p (pool n') -> In p (pool n)) -> kdead n l n'.
Proof. intros n n' l H1 H2 H3 H4. split; [split; [split; assumption | lia]|]. intros u _ Hi. apply in_map_iff in Hi. destruct Hi as (p & <- & Hp). apply in_map, H4, Hp. Qed.
Lemma kdead_upd : forall r f n l, (forall p, p_uid (f p) = p_uid p) -> kdead n l (upd_peer r f n).
Proof. intros r f n l H. apply kdead_same; [destruct r; reflexivity | destruct r; reflexivity | destruct r; reflexivity | apply pool_upd; exact H]. Qed.
Lemma kdead_view : forall n n' l, pview n' = pview n -> kdead n l n'.
Proof. intros n n' l H. unfold pview in H. injection H as H1 H2 H3 H4 H5. apply kdead_same; unfold uids, pool; rewrite ?H1, ?H2; first [assumption | reflexivity]. Qed.
Lemma kdead_refl : forall n l, kdead n l n.
Proof. intros n l. apply kdead_view. reflexivity. Qed.
Lemma kdead_pfun : forall r f n l, pfun (n_prm n) f -> kdead n l (upd_peer r f n).
Proof. intros r f n l H. apply kdead_upd; intros p; apply (pfun_obj _ _ H). Qed.
Lemma kdead_disable : forall n l, kdead n l (set_peers (map p_disable_hb (n_peers n)) n).
Proof. intros n l. apply kdead_same; try reflexivity. unfold uids, pool; cbn; rewrite !map_app, map_map; reflexivity. Qed.
Lemma kdead_join_none : forall n l, kdead n l (set_join None n).
Proof. intros n l. apply kdead_less; try reflexivity. intros p Hp. unfold pool in *. cbn in Hp. rewrite app_nil_r in Hp. apply in_or_app. left. exact Hp. Qed.
Lemma kdead_rm : forall id n l, kdead n l (set_peers (rm_peer id (n_peers n)) n).
Proof.
  intros id n l. apply kdead_less; try reflexivity. intros p Hp. unfold pool in *. cbn in Hp. apply in_app_or in Hp. apply in_or_app.
  destruct Hp as [Hp|Hp]; [left; unfold rm_peer in Hp; apply filter_In in Hp; tauto | right; exact Hp].
Qed.
Lemma kdead_insert : forall n p id nx l, p_uid p = n_uid n -> kdead n l (insert_peer id nx p (set_uid (n_uid n + 1) n)).
Proof.
  intros n p id nx l Hu. unfold insert_peer. change (n_peers (set_uid _ n)) with (n_peers n).
  destruct (find_peer id (n_peers n)).
  - split; [split; [split; reflexivity | cbn; lia]|]. auto.
  - split; [split; [split; reflexivity | cbn; lia]|]. intros u Lu Hi. unfold uids, pool in *. cbn in Hi. rewrite <- app_assoc in Hi. rewrite map_app in *. cbn [map] in Hi.
    apply in_app_or in Hi. apply in_or_app. destruct Hi as [Hi|[Hi|Hi]]; [left; exact Hi | exfalso; change (p_uid p = u) in Hi; lia | right; exact Hi].
Qed.
Lemma kdead_join : forall n l p, p_uid p = n_uid n -> kdead n l (set_join (Some p) (set_uid (n_uid n + 1) n)).
Proof.
  intros n l p Hp. split; [split; [split; reflexivity | cbn; lia]|]. intros u Lu Hi. unfold uids, pool in *. cbn in Hi. rewrite map_app in *. cbn [map] in Hi.
  apply in_app_or in Hi. apply in_or_app. destruct Hi as [Hi|[Hi|[]]]; [left; exact Hi | lia].
Qed.
Lemma kdead_ids : forall n l n', kdead n l n' -> n_id n' = n_id n /\ n_prm n' = n_prm n.
Proof. intros n l n' H. apply H. Qed.
Lemma send_to_kdead : forall id n, ht kdead yes (request_append_entries_to id) n.
Proof.
  intros id n. open_send. open_peer. unfold the_peer.
  walk ltac:(first [apply kdead_upd; intros ?; reflexivity | apply kdead_view; reflexivity]).
Qed.
Ltac kdead_args := first
  [ exact kdead_pre | intros; apply kdead_view; assumption | intros; apply kdead_refl | intros; apply kdead_pfun; assumption | intros; apply kdead_disable
  | intros; apply kdead_join_none | intros; apply kdead_rm | intros; apply kdead_insert; reflexivity
  | intros; apply kdead_join; reflexivity | exact send_to_kdead | exact kdead_ids ].
Lemma leader_kdead : forall n, ht kdead yes become_leader n.
Proof. apply leader_all; try kdead_args. intros. apply kdead_upd; intros ?; reflexivity. Qed.
Lemma run_event_kdead : forall e n, ht kdead yes (run_event e) n.
Proof.
  intros e n. destruct e; try (apply other_all; first [kdead_args | exact leader_kdead | exact I]).
  - cbn [run_event]. unfold rpc_done.
    assert (A : forall r n, ht kdead yes (handle_ext_resp r) n) by (apply ext_resp_all; try kdead_args; exact leader_kdead).
    assert (B : forall now r n, ht kdead yes (handle_peer_resp now r) n) by (apply peer_resp_all; try kdead_args; exact leader_kdead).
    assert (C : forall n, ht kdead yes request_append_entries n) by (apply request_all; kdead_args).
    unfold handle_ext_resp_err, rm_srv_from_cluster, append_config, log_append, next_slot_.
    repeat first [match goal with |- ht _ _ (handle_ext_resp _) _ => apply A | |- ht _ _ (handle_peer_resp _ _) _ => apply B
        | |- ht _ _ request_append_entries _ => apply C end
      | wstep ltac:(first [apply kdead_upd; intros ?; reflexivity | apply kdead_rm | apply kdead_join_none | apply kdead_view; reflexivity])].
  - cbn [run_event]. unfold retry. walk ltac:(apply kdead_view; reflexivity).
Qed.

Lemma not_live : forall u n, ~ In u (uids n) -> live_ref u n = None.
Proof.
  intros u n H. unfold live_ref. destruct (find _ (n_peers n)) as [p|] eqn:F.
  - exfalso. apply find_some in F. destruct F as [F1 F2]. apply H. replace u with (p_uid p) by lia. apply in_map, in_or_app. left. exact F1.
  - destruct (n_join n) as [j|] eqn:J; [|reflexivity]. destruct (p_uid j =? u) eqn:E; [|reflexivity].
    exfalso. apply H. replace u with (p_uid j) by lia. apply in_map, in_or_app. right. rewrite J. left. reflexivity.
Qed.
Lemma dead_lost : forall n u, u < n_uid n -> ~ In u (uids n) -> lost_for_good n u.
Proof.
  intros n u Hu Hd h n1 R. assert (D : ~ In u (uids n1)).
  { induction R as [n|n e r n' l h n2 E G R IH]; [exact Hd|]. destruct (run_event_kdead e n _ _ _ E) as [((_ & K1) & K2) _].
    apply IH; [lia|]. intros X. apply Hd, K2; assumption. }
  intros now ext q ans. cbn [run_event]. unfold rpc_done. rewrite bind_assoc, bind_get, (not_live _ _ D). reflexivity.
Qed.

(** ** Another server is asked to be added meanwhile *)
Lemma add_eq : forall n now c, n_role n = Leader -> n_changing n = false -> may_add n c ->
  run_event (ERequest now (asks_to_add c)) n =
    (ROk (Response (mkResp (n_term n) add_server_response (n_id n) (n_leader n) (a_next (n_log n)) true)),
     set_join (Some (new_peer (n_uid n) c (n_prm n))) (set_uid (n_uid n + 1) (set_to_add (Some c) n)),
     [ASend (n_uid n) true (mkReq (n_term n) join_cluster_request (n_id n) (sc_id c) 0 (a_next (n_log n) - 1) (n_quick n) [conf_entry (n_term n) (n_config n)])]).
Proof.
  intros n now c Hr Hc (Hs & Hl & Hp & Hi). apply run_request. unfold asks_to_add. rewrite process_add by reflexivity.
  unfold handle_add_srv_req. rewrite bind_get. cbn [api_req rq_entries ev_type ev_data]. change (beq cluster_server cluster_server) with true. cbn [negb].
  rewrite Hr, parse_srv_ok by assumption. rewrite bind_lift_ok.
  replace (match find_peer (sc_id c) (n_peers n) with Some _ => true | None => false end) with false.
  2:{ destruct (find_peer (sc_id c) (n_peers n)) as [p|] eqn:E; [|reflexivity]. apply find_peer_in in E. destruct E as [E1 E2]. exfalso. apply Hp. rewrite <- E2. apply in_map, E1. }
  replace (n_id n =? sc_id c)%Z with false by (symmetry; apply Z.eqb_neq; congruence). cbn [orb]. rewrite Hc. destruct n. reflexivity.
Qed.

(** A leader that is adding a server and has not put it into a configuration yet accepts the
    request to add another server.  It forgets the first one, and the answer to the request
    that the first one has been sent is handed to freed memory. *)
Theorem C94_second_add_refuted : forall id pm d h n j now c,
  life id pm (Down d) h (Up n) -> n_role n = Leader -> n_changing n = false -> n_join n = Some j -> may_add n c ->
  exists r n' uid q, run_event (ERequest now (asks_to_add c)) n = (ROk (Response r), n', [ASend uid true q]) /\ rs_accepted r = true /\
    (exists j', n_join n' = Some j' /\ p_uid j' = uid /\ p_cfg j' = c) /\ n_to_add n' = Some c /\ uid <> p_uid j /\
    n_log n' = n_log n /\ n_config n' = n_config n /\ lost_for_good n' (p_uid j).
Proof.
  intros id pm d h n j now c HL Hr Hc Hj Hm. pose proof (life_pinv _ _ _ _ _ HL I) as (P1 & P2 & _). unfold pool in P1, P2. rewrite Hj in P1, P2.
  assert (Pj : p_uid j < n_uid n) by (apply P2, in_or_app; right; left; reflexivity).
  do 4 eexists. split; [apply add_eq; assumption|]. split; [reflexivity|]. split; [eexists; split; [reflexivity | split; reflexivity]|]. split; [reflexivity|].
  split; [cbn [p_uid new_peer]; lia|]. split; [reflexivity|]. split; [reflexivity|].
  apply dead_lost; [cbn; lia|]. unfold uids, pool. cbn [n_peers n_join set_join set_uid set_to_add]. rewrite map_app. cbn [map]. intros X. apply in_app_or in X. destruct X as [X|[X|[]]]; [|cbn [p_uid new_peer] in X; lia].
  rewrite map_app in P1. cbn [map] in P1. apply NoDup_remove_2 in P1. apply P1. rewrite app_nil_r. exact X.
Qed.

(** ** The leader is superseded meanwhile *)

(** A leader that is adding a server hears from the leader or a candidate of a higher term: it
    forgets the server, and the answer to what it has sent it is handed to freed memory. *)
Theorem C94_superseded_refuted : forall id pm d h n j now q r n' l,
  life id pm (Down d) h (Up n) -> n_join n = Some j ->
  rq_type q = append_entries_request \/ rq_type q = vote_request \/ rq_type q = install_snapshot_request ->
  n_term n < rq_term q -> run_event (ERequest now q) n = (r, n', l) -> lost_for_good n' (p_uid j).
Proof.
  intros id pm d h n j now q r n' l HL Hj Hq Ht E. pose proof (life_pinv _ _ _ _ _ HL I) as (P1 & P2 & _). unfold pool in P1, P2. rewrite Hj in P1, P2.
  assert (Pj : p_uid j < n_uid n) by (apply P2, in_or_app; right; left; reflexivity).
  assert (Pt : peer_type (rq_type q) = true) by (destruct Hq as [-> | [-> | ->]]; reflexivity).
  set (m := arrived (rq_term q) n).
  assert (Em : arrived (rq_term q) m = m).
  { unfold m, arrived. replace (n_term n <? rq_term q) with true by lia. destruct (0 <? n_steps (with_term (rq_term q) n))%Z eqn:Es; cbn [n_term set_steps with_term]; rewrite N.ltb_irrefl; [reflexivity|]. rewrite Es. reflexivity. }
  assert (Am : arrived_acts (rq_term q) m = []).
  { unfold m, arrived_acts, arrived. replace (n_term n <? rq_term q) with true by lia. destruct (0 <? _)%Z; cbn [n_term set_steps with_term]; rewrite N.ltb_irrefl; reflexivity. }
  assert (E' : exists l', run_event (ERequest now q) m = (r, n', l')).
  { cbn [run_event] in E |- *. unfold bind in E |- *. rewrite process_peer_req in E by exact Pt. rewrite process_peer_req by exact Pt. rewrite Em, Am. fold m in E.
    destruct ((if beq (rq_type q) append_entries_request then handle_append_entries q else if beq (rq_type q) vote_request then handle_vote_req q else handle_install_snapshot_req q) m) as [[x n1] l1]. unfold after in *. cbn [app]. destruct x; injection E as <- <- <-; eexists; reflexivity. }
  destruct E' as (l' & E'). destruct (run_event_kdead _ _ _ _ _ E') as [((_ & K1) & K2) _].
  assert (Um : n_uid m = n_uid n) by (unfold m, arrived; replace (n_term n <? rq_term q) with true by lia; destruct (0 <? _)%Z; reflexivity).
  assert (Lm : uids m = map p_uid (n_peers n)).
  { unfold m, arrived, uids, pool. replace (n_term n <? rq_term q) with true by lia. destruct (0 <? _)%Z; cbn [n_peers n_join set_steps with_term]; rewrite app_nil_r, map_map; reflexivity. }
  apply dead_lost; [lia|]. intros X. apply K2 in X; [|lia]. rewrite Lm in X.
  rewrite map_app in P1. cbn [map] in P1. apply NoDup_remove_2 in P1. apply P1. rewrite app_nil_r. exact X.
Qed.

(** ** The server does not answer *)

(** the leader is adding a server through the object [j] *)
Definition adds (n : node) (j : peer) : Prop := n_join n = Some j /\ live_ref (p_uid j) n = Some PJoin.
Definition with_join_cur (cur : Z) (j : peer) (n : node) : node := set_join (Some (p_set_cur cur j)) n.

Lemma adds_cur : forall n j cur, adds n j -> adds (with_join_cur cur j n) (p_set_cur cur j).
Proof.
  intros n j cur (Hj & Hl). split; [reflexivity|]. unfold live_ref, with_join_cur in *. cbn [n_peers n_join set_join p_uid p_set_cur]. rewrite Hj in Hl.
  destruct (find _ (n_peers n)) as [p|]; [exact Hl | rewrite N.eqb_refl; reflexivity].
Qed.
Lemma join_err_eq : forall n j now q, adds n j -> rq_type q = join_cluster_request \/ rq_type q = sync_log_request ->
  run_event (ERpc now (p_uid j) true q None) n =
    if (max_hb (n_prm n) <=? slower (n_prm n) (p_hb_cur j))%Z then (ROk Nothing, set_join None (set_changing false n), [])
    else (ROk Nothing, with_join_cur (slower (n_prm n) (slower (n_prm n) (p_hb_cur j))) j n, [ARetryLater (p_uid j) q]).
Proof.
  intros n j now q (Hj & Hl) Hq. cbn [run_event]. unfold rpc_done. rewrite !bind_assoc, bind_get, Hl.
  replace (beq (rq_type q) append_entries_request || beq (rq_type q) install_snapshot_request) with false by (destruct Hq as [-> | ->]; reflexivity).
  cbn [when]. rewrite !bind_assoc, bind_ret, !bind_assoc, bind_modify. unfold upd_peer at 1. rewrite Hj. cbn [option_map]. unfold handle_ext_resp_err.
  replace (beq (rq_type q) sync_log_request || beq (rq_type q) join_cluster_request || beq (rq_type q) leave_cluster_request) with true by (destruct Hq as [-> | ->]; reflexivity).
  replace (beq (rq_type q) leave_cluster_request) with false by (destruct Hq as [-> | ->]; reflexivity). cbv iota zeta.
  rewrite !bind_assoc, bind_get. cbn [get_peer n_join set_join]. change (n_prm (set_join _ n)) with (n_prm n).
  change (p_hb_cur (p_slow_down (n_prm n) j)) with (slower (n_prm n) (p_hb_cur j)).
  destruct (_ <=? _)%Z.
  - rewrite !bind_assoc, bind_modify, bind_modify. destruct n; reflexivity.
  - rewrite !bind_assoc, bind_modify. unfold bind, emit, ret, upd_peer. cbn [n_join set_join option_map disk_apply app]. destruct n; reflexivity.
Qed.
Lemma retry_eq : forall uid q n, run_event (ERetry uid q) n = (ROk Nothing, n, [ASend uid true q]).
Proof. intros uid q n. cbn [run_event]. unfold retry, bind, emit, ret. cbn [disk_apply app]. destruct n; reflexivity. Qed.

(** A server that never answers is given up after a bounded number of attempts; nothing else
    has changed. *)
Theorem C94_gives_up_partial : forall now q n j, adds n j -> rq_type q = join_cluster_request \/ rq_type q = sync_log_request -> (0 < pm_backoff (n_prm n))%Z ->
  exists k n1, (Z.of_nat k * (2 * pm_backoff (n_prm n)) <= Z.max 0 (max_hb (n_prm n) - p_hb_cur j) + pm_backoff (n_prm n))%Z /\
    tried now (p_uid j) q k n n1 /\
    run_event (ERpc now (p_uid j) true q None) n1 = (ROk Nothing, set_join None (set_changing false n), []).
Proof.
  intros now q n j Ha Hq Hb.
  assert (G : forall m n j, adds n j -> (0 < pm_backoff (n_prm n))%Z -> (max_hb (n_prm n) - p_hb_cur j <= Z.of_nat m)%Z ->
    exists k n1, (Z.of_nat k * (2 * pm_backoff (n_prm n)) <= Z.max 0 (max_hb (n_prm n) - p_hb_cur j) + pm_backoff (n_prm n))%Z /\
      tried now (p_uid j) q k n n1 /\ run_event (ERpc now (p_uid j) true q None) n1 = (ROk Nothing, set_join None (set_changing false n), [])).
  { clear n j Ha Hb. induction m as [|m IH]; intros n j Ha Hb Hm.
    - exists 0%nat, n. split; [lia|]. split; [constructor|]. rewrite (join_err_eq n j now q Ha Hq). unfold slower. replace (_ <=? _)%Z with true by lia. reflexivity.
    - assert (E := join_err_eq n j now q Ha Hq).
      destruct (max_hb (n_prm n) <=? slower (n_prm n) (p_hb_cur j))%Z eqn:El.
      + exists 0%nat, n. split; [lia|]. split; [constructor|]. exact E.
      + destruct (IH _ _ (adds_cur n j (slower (n_prm n) (slower (n_prm n) (p_hb_cur j))) Ha) Hb) as (k & n1 & K & T & R).
        { cbn [p_hb_cur p_set_cur]. change (n_prm (with_join_cur _ j n)) with (n_prm n). unfold slower in *. lia. }
        cbn [p_hb_cur p_set_cur p_uid] in K, T, R. change (n_prm (with_join_cur _ j n)) with (n_prm n) in K.
        exists (S k), n1. split; [rewrite Nat2Z.inj_succ, Z.mul_succ_l; unfold slower in *; set (b := pm_backoff (n_prm n)) in *; set (mx := max_hb (n_prm n)) in *;
          destruct (Z_le_gt_dec (p_hb_cur j + 2 * b) mx); [lia | assert (Z.of_nat k * (2 * b) <= b)%Z by lia; destruct k; [lia | nia]]|].
        split; [eapply T_more; [exact E | apply retry_eq | exact T]|]. exact R. }
  apply (G (Z.to_nat (Z.max 0 (max_hb (n_prm n) - p_hb_cur j))) n j Ha Hb). lia.
Qed.

(** After that the next server can be added. *)
Theorem C94_next_partial : forall n now c, n_role n = Leader -> may_add n c ->
  exists r n' uid q, run_event (ERequest now (asks_to_add c)) (set_join None (set_changing false n)) = (ROk (Response r), n', [ASend uid true q]) /\
    rs_accepted r = true /\ rq_type q = join_cluster_request /\ rq_dst q = sc_id c.
Proof. intros n now c Hr Hm. do 4 eexists. split; [apply add_eq; [exact Hr | reflexivity | exact Hm]|]. repeat split. Qed.

(** But so it can when a configuration written meanwhile, say to remove a member, is not
    committed yet: giving up the server also forgets that change. *)
Theorem C94_forgets_change_refuted : forall n j now q c, adds n j -> rq_type q = join_cluster_request \/ rq_type q = sync_log_request ->
  n_role n = Leader -> n_changing n = true -> unsettled n -> (max_hb (n_prm n) <= p_hb_cur j + pm_backoff (n_prm n))%Z -> may_add n c ->
  (forall now', exists r, run_event (ERequest now' (asks_to_add c)) n = (ROk (Response r), n, []) /\ rs_accepted r = false) /\
  exists n', run_event (ERpc now (p_uid j) true q None) n = (ROk Nothing, n', []) /\ unsettled n' /\
    forall now', exists r n2 uid q2, run_event (ERequest now' (asks_to_add c)) n' = (ROk (Response r), n2, [ASend uid true q2]) /\ rs_accepted r = true.
Proof.
  intros n j now q c Ha Hq Hr Hc Hu Hm Hy. split.
  - intros now'. destruct Hy as (Hs & Hl & Hp & Hi). eexists. split; [|shelve]. apply run_request. unfold asks_to_add. rewrite process_add by reflexivity.
    unfold handle_add_srv_req. rewrite bind_get. cbn [api_req rq_entries ev_type ev_data]. change (beq cluster_server cluster_server) with true. cbn [negb].
    rewrite Hr, parse_srv_ok by assumption. rewrite bind_lift_ok. destruct (_ || _); [reflexivity|]. rewrite Hc. reflexivity.
    Unshelve. reflexivity.
  - eexists. split; [rewrite (join_err_eq n j now q Ha Hq); unfold slower; replace (_ <=? _)%Z with true by lia; reflexivity|].
    split; [exact Hu|]. intros now'. do 4 eexists. split; [apply add_eq; [exact Hr | reflexivity | exact Hy] | reflexivity].
Qed.

(** While a snapshot is being sent to the server one failure is enough: nothing is sent or
    scheduled any more, and the leader goes on holding the server for one being added. *)
Theorem C94_snapshot_lost_refuted : forall n j now q, adds n j -> rq_type q = install_snapshot_request ->
  exists j', run_event (ERpc now (p_uid j) true q None) n = (ROk Nothing, set_join (Some j') n, []) /\
    p_uid j' = p_uid j /\ p_cfg j' = p_cfg j /\ p_sync j' = p_sync j /\ p_next j' = p_next j.
Proof.
  intros n j now q (Hj & Hl) Hq. eexists. split.
  - cbn [run_event]. unfold rpc_done. rewrite !bind_assoc, bind_get, Hl, Hq.
    change (beq install_snapshot_request append_entries_request || beq install_snapshot_request install_snapshot_request) with true. cbn [when].
    rewrite !bind_assoc, bind_modify, !bind_assoc, bind_modify. unfold upd_peer. cbn [n_join set_join]. rewrite Hj. cbn [option_map].
    unfold handle_ext_resp_err. rewrite Hq. change (beq install_snapshot_request sync_log_request || beq install_snapshot_request join_cluster_request || beq install_snapshot_request leave_cluster_request) with false.
    cbv iota. rewrite bind_ret. unfold ret. destruct n; reflexivity.
  - repeat split.
Qed.

(** ** A member leaves meanwhile *)

(** The configuration that adds the server is in the log but not applied.  A member that was
    asked to leave before agrees: the next configuration leaves the new server out. *)
Theorem C94_left_out_refuted : forall n now uid q r ref i e c a,
  live_ref uid n = Some ref -> rq_type q = leave_cluster_request -> rs_type r = leave_cluster_response -> rs_accepted r = true ->
  n_peers n <> [] -> has_for_idle n ->
  a_get (n_log n) i = Some e -> ev_type e = conf_log -> parse_cfg (ev_data e) = Ok c -> In a (members c) -> ~ In a (members (n_config n)) ->
  exists n' l c', run_event (ERpc now uid true q (Some r)) n = (ROk Nothing, n', l) /\
    a_get (n_log n') i = Some e /\ i < a_next (n_log n) /\ a_get (n_log n') (a_next (n_log n)) = Some (conf_entry (n_term n) c') /\
    a_next (n_log n') = a_next (n_log n) + 1 /\ ~ In a (members c').
Proof.
  intros n now uid q r ref i e c a Hl Hq Hr Ha Hp Hi Hg _ _ _ Hn.
  destruct (C83_agreed n now uid q r ref Hl Hq Hr Ha Hp Hi) as (n' & l & E & (c' & qs & (C1 & C2 & C3) & R1 & R2 & _)).
  assert (El : n_log n' = a_replace (n_log n) (a_next (n_log n)) [conf_entry (n_term n) c']).
  { rewrite R2, a_replace_plus. unfold n_log. cbn [n_disk set_peers set_changing]. destruct ref; reflexivity. }
  assert (Bi := a_get_some _ _ _ Hg).
  exists n', l, c'. split; [exact E|]. rewrite El. split; [rewrite a_get_replace_lt by lia; exact Hg|]. split; [lia|].
  split; [rewrite a_get_replace_ge by lia; rewrite N.sub_diag; reflexivity|]. split; [rewrite a_next_replace by lia; reflexivity|].
  intros X. apply Hn. unfold members in *. rewrite C3 in X. apply in_map_iff in X. destruct X as (s & <- & Hs). apply filter_In in Hs. destruct Hs as [Hs _]. apply in_map. destruct ref; exact Hs.
Qed.

(** ** Examples

    server 1 leads 2 and 3, has committed its configuration and is asked to add server 4 *)
Definition ex_cadd : node := up_node (snd (run_cmds 1 ex_prm (Down ex_disk) (ex_busy_cmds ++ [CEvent (ERequest 1000 (asks_to_add (ex_srv 4)))]))).
Definition ex_cadd_run : list obs * sys := run_cmds 1 ex_prm (Down ex_disk) (ex_busy_cmds ++ [CEvent (ERequest 1000 (asks_to_add (ex_srv 4)))]).
Definition ex_cj : peer := new_peer 3 (ex_srv 4) ex_prm.
Lemma ex_may : forall n i, (3 < i < 100)%Z -> n_id n = 1%Z -> map p_id (n_peers n) = [2; 3]%Z -> may_add n (ex_srv i).
Proof.
  intros n i Hi H1 H2. split; [|split; [|split]].
  - unfold srv_ok, is_int32, ex_srv, no_nul; cbn. split; [lia|]. split; [discriminate|]. intuition discriminate.
  - unfold srv_bytes. cbn [sc_id sc_endpoint ex_srv]. unfold int_b. rewrite !lenN_app, lenN_le. reflexivity.
  - rewrite H2; cbn; lia.
  - rewrite H1. cbn. lia.
Qed.
Example C94_example : life 1 ex_prm (Down ex_disk) (fst ex_cadd_run) (Up ex_cadd) /\ n_role ex_cadd = Leader /\ n_changing ex_cadd = false /\
  n_join ex_cadd = Some ex_cj /\ adds ex_cadd ex_cj /\ may_add ex_cadd (ex_srv 5) /\ (0 < pm_backoff (n_prm ex_cadd))%Z /\ n_term ex_cadd < rq_term (ex_ae 2 2 0 0 0 []) /\
  In (ASend 3 true (mkReq 1 join_cluster_request 1 4 0 3 3 [conf_entry 1 (cfg_set_log_idx 1 ex_cfg)])) (acts_of (fst ex_cadd_run)).
Proof.
  split. { replace (Up ex_cadd) with (snd ex_cadd_run) by (vm_compute; reflexivity). apply run_cmds_life. }
  split; [vm_compute; reflexivity|]. split; [vm_compute; reflexivity|]. split; [vm_compute; reflexivity|]. split; [split; vm_compute; reflexivity|].
  split; [apply ex_may; [lia | vm_compute; reflexivity | vm_compute; reflexivity]|]. split; [vm_compute; reflexivity|]. split; [vm_compute; reflexivity|]. vm_compute. auto 20.
Qed.
(** 3 is asked to leave, 4 is invited and does not answer once, 3 agrees *)
Definition ex_cinv : req := mkReq 1 join_cluster_request 1 4 0 3 3 [conf_entry 1 (cfg_set_log_idx 1 ex_cfg)].
Definition ex_cboth : list cmd := ex_busy_cmds ++ [CEvent (ERequest 1000 ex_rm3); CEvent (ERequest 1000 (asks_to_add (ex_srv 4)))].
Definition ex_cagree : resp_msg := mkResp 1 leave_cluster_response 3 1 4 true.
Definition ex_cforget_run : list obs * sys := run_cmds 1 ex_prm (Down ex_disk) (ex_cboth ++ [CEvent (ERpc 1001 3 true ex_cinv None); CEvent (ERpc 1001 1 true ex_leave3 (Some ex_cagree))]).
Definition ex_cforget : node := up_node (snd ex_cforget_run).
Example C94_example_forgets : life 1 ex_prm (Down ex_disk) (fst ex_cforget_run) (Up ex_cforget) /\ exists j, adds ex_cforget j /\ p_uid j = 3 /\ rq_type ex_cinv = join_cluster_request /\
  n_role ex_cforget = Leader /\ n_changing ex_cforget = true /\ unsettled ex_cforget /\ (max_hb (n_prm ex_cforget) <= p_hb_cur j + pm_backoff (n_prm ex_cforget))%Z /\ may_add ex_cforget (ex_srv 5).
Proof.
  split. { replace (Up ex_cforget) with (snd ex_cforget_run) by (vm_compute; reflexivity). apply run_cmds_life. }
  eexists. split; [split; vm_compute; reflexivity|]. split; [reflexivity|]. split; [reflexivity|]. split; [vm_compute; reflexivity|]. split; [vm_compute; reflexivity|].
  split. { exists 4, (conf_entry 1 (mkCfg 4 1 [ex_srv 1; ex_srv 2])). split; [vm_compute; reflexivity|]. split; vm_compute; reflexivity. }
  split; [vm_compute; discriminate|]. apply ex_may; [lia | vm_compute; reflexivity | vm_compute; reflexivity].
Qed.
(** 3 is asked to leave, 4 is invited and accepts, then 3 agrees *)
Definition ex_cleft_run : list obs * sys := run_cmds 1 ex_prm (Down ex_disk) (ex_cboth ++ [CEvent (ERpc 1001 3 true ex_cinv (Some (mkResp 1 join_cluster_response 4 1 4 true)))]).
Definition ex_cleft : node := up_node (snd ex_cleft_run).
Definition ex_c4 : cluster_config := mkCfg 4 1 (map ex_srv [1; 2; 3; 4]%Z).
Example C94_example_left_out : life 1 ex_prm (Down ex_disk) (fst ex_cleft_run) (Up ex_cleft) /\ n_role ex_cleft = Leader /\ live_ref 1 ex_cleft = Some (PPeer 3) /\ n_peers ex_cleft <> [] /\ has_for_idle ex_cleft /\
  a_get (n_log ex_cleft) 4 = Some (conf_entry 1 ex_c4) /\ parse_cfg (cfg_bytes ex_c4) = Ok ex_c4 /\ In 4%Z (members ex_c4) /\ ~ In 4%Z (members (n_config ex_cleft)).
Proof.
  split. { replace (Up ex_cleft) with (snd ex_cleft_run) by (vm_compute; reflexivity). apply run_cmds_life. }
  split; [vm_compute; reflexivity|]. split; [vm_compute; reflexivity|]. split; [vm_compute; discriminate|].
  split; [apply has_for_idleb_ok; [apply P_Elect.nodup_ids|]; vm_compute; reflexivity|]. split; [vm_compute; reflexivity|]. split; [vm_compute; reflexivity|].
  split; [vm_compute; auto 10 | vm_compute; intuition discriminate].
Qed.

Print Assumptions C94_second_add_refuted.
Print Assumptions C94_superseded_refuted.
Print Assumptions C94_gives_up_partial.
Print Assumptions C94_next_partial.
Print Assumptions C94_forgets_change_refuted.
Print Assumptions C94_snapshot_lost_refuted.
Print Assumptions C94_left_out_refuted.
