(** * P_Remove: how the removal of a server is carried through (C83) *)

From Coq Require String. Import String.StringSyntax.
From Verif Require Import Base Buffer Codec CodecSpec Msg FsLogStore FsLogSpec Alog Raft RaftQuiet NodeSpec ServerSpec NodeFacts AppendFacts NodeExamples
  P_Leader P_Commit Runs PeerInv ServeFacts P_Serve P_Elect P_Ack Cluster ClusterElect ClusterExamples Member MemberElect P_Member RaftTrace2.
Local Open Scope N_scope.

(** ** Offering the log to every idle peer *)
Definition offered (b : node) (p : peer) : peer :=
  if p_busy p then p else p_set_next (next_of b p) (p_set_busy true p).

Lemma offer_all : forall b, n_peers b <> [] -> NoDup (map p_id (n_peers b)) -> 1 <= al_start (n_log b) ->
  (forall p, In p (n_peers b) -> p_busy p = false -> has_entries b (next_of b p)) ->
  request_append_entries b = (ROk tt, set_peers (map (offered b) (n_peers b)) b, sends (concat (map (told b) (n_peers b)))).
Proof.
  intros b P N Hs He. unfold request_append_entries, peer_ids. rewrite bind_get.
  set (g := fun id : Z => request_append_entries_to id ;;; ret tt).
  transitivity (for_each (map p_id (n_peers b)) g b); [destruct (n_peers b); [congruence | reflexivity]|].
  assert (H := each_peer g (offered b) (fun p => sends (told b p)) b (n_peers b) []).
  cbn [app] in H. rewrite self_peers in H. unfold sends. rewrite concat_map, map_map. unfold sends in H. apply H.
  { intros p. unfold offered. destruct (p_busy p); reflexivity. }
  { exact N. }
  clear H. intros pre p post N1 Hp. unfold g, offered, told. destruct (p_busy p) eqn:Bz.
  - assert (F : find_peer (p_id p) (n_peers (set_peers (pre ++ p :: post) b)) = Some p) by (apply find_one, N1).
    rewrite (bind_ok _ _ _ _ _ _ _ _ (busy_one _ _ _ F Bz)). reflexivity.
  - rewrite (bind_ok _ _ _ _ _ _ _ _ (serve_one b pre p post N1 Hs Bz (He p Hp Bz))). reflexivity.
Qed.
Lemma told_idle : forall b l, map fst (concat (map (told b) l)) = filter (fun p => negb (p_busy p)) l.
Proof.
  intros b l. induction l as [|p l IH]; [reflexivity|]. cbn [map concat filter]. rewrite map_app, IH. unfold told. destruct (p_busy p); reflexivity.
Qed.
Lemma told_in : forall b l p q, In (p, q) (concat (map (told b) l)) -> In p l /\ p_busy p = false /\ q = log_req b p (next_of b p) (P_Ack.term_of b (next_of b p - 1)).
Proof.
  intros b l p q H. apply in_concat in H. destruct H as (x & Hx & H). apply in_map_iff in Hx. destruct Hx as (y & <- & Hy).
  unfold told in H. destruct (p_busy y) eqn:Bz; [contradiction|]. destruct H as [H|[]]. inversion H; subst. auto.
Qed.

(** ** C83: the removal of the server [id]

    [c]: the members without the server [id], for the next free index of the log *)
Definition config_without (n : node) (id : Z) (c : cluster_config) : Prop :=
  cc_log_idx c = a_next (n_log n) /\ cc_prev_log_idx c = cc_log_idx (n_config n) /\
  cc_servers c = filter (fun s => negb (sc_id s =? id)%Z) (cc_servers (n_config n)).
(** [n] appends that configuration to its log, with its term, offers every idle member the
    entries it lacks, and nothing else changes *)
Definition removes (n : node) (id : Z) (n' : node) (l : list act) : Prop :=
  exists c qs, config_without n id c /\
    l = AAppend (conf_entry (n_term n) c) :: sends qs /\
    n' = set_peers (n_peers n') (set_changing true (set_log (log_plus (n_log n) [conf_entry (n_term n) c]) n)) /\
    map fst qs = filter (fun p => negb (p_busy p)) (n_peers n) /\
    (forall p q, In (p, q) qs -> offers_entries n' p (next_of n' p) q) /\
    Forall2 (fun p p' => p' = if p_busy p then p else p_set_next (next_of n' p) (p_set_busy true p)) (n_peers n) (n_peers n').
(** [n] has no other members: it appends the configuration and all it has is committed *)
Definition removes_last (n : node) (id : Z) (n' : node) (l : list act) : Prop :=
  exists c, config_without n id c /\ l = [AAppend (conf_entry (n_term n) c)] /\
    n' = set_quick (N.max (n_quick n) (a_next (n_log n))) (set_changing true (set_log (log_plus (n_log n) [conf_entry (n_term n) c]) n)).

Lemma has_more : forall n n' e nx, al_start (n_log n') = al_start (n_log n) -> al_ents (n_log n') = al_ents (n_log n) ++ [e] -> dk_snp (n_disk n') = dk_snp (n_disk n) ->
  has_entries n nx -> has_entries n' nx.
Proof.
  intros n n' e nx E1 E2 E3 H. unfold has_entries, a_next in *. rewrite E1, E2, E3. unfold lenN in *. rewrite app_length. cbn [length].
  destruct H as [H|[H|H]]; [left; lia | right; left; exact H | right; right; exact H].
Qed.

Definition conf_of (n : node) (id : Z) : cluster_config :=
  mkCfg (a_next (n_log n)) (cc_log_idx (n_config n)) (filter (fun s => negb (sc_id s =? id)%Z) (cc_servers (n_config n))).
Definition with_conf (n : node) (id : Z) : node := set_changing true (set_log (log_plus (n_log n) [conf_entry (n_term n) (conf_of n id)]) n).

Lemma rm_eq : forall id n, rm_srv_from_cluster id n = after [AAppend (conf_entry (n_term n) (conf_of n id))] (request_append_entries (with_conf n id)).
Proof.
  intros id n. unfold rm_srv_from_cluster. rewrite bind_get, bind_modify. unfold append_config. rewrite bind_get.
  rewrite (bind_ok _ _ _ _ _ _ _ _ (log_append_eq _ _)). reflexivity.
Qed.

(** the members the leader can offer something *)
Definition has_for_idle (n : node) : Prop :=
  NoDup (map p_id (n_peers n)) /\ 1 <= al_start (n_log n) /\
  forall p, In p (n_peers n) -> p_busy p = false -> p_next p <> 0 -> has_entries n (p_next p).

Lemma rm_runs : forall id n, n_peers n <> [] -> has_for_idle n ->
  exists n' l, rm_srv_from_cluster id n = (ROk tt, n', l) /\ removes n id n' l.
Proof.
  intros id n P (N1 & Hs & He). rewrite rm_eq. set (b := with_conf n id). set (e := conf_entry (n_term n) (conf_of n id)).
  assert (Hl : n_log b = log_plus (n_log n) [e]) by reflexivity.
  assert (He2 : forall p, In p (n_peers b) -> p_busy p = false -> has_entries b (next_of b p)).
  { intros p Hp Bz. unfold next_of. destruct (p_next p =? 0) eqn:E0.
    - left. unfold a_next. rewrite Hl. unfold log_plus. cbn [al_start al_ents]. unfold lenN. rewrite app_length. cbn [length]. lia.
    - eapply (has_more n b e); [reflexivity | reflexivity | reflexivity|]. apply He; [exact Hp | exact Bz | lia]. }
  rewrite (offer_all b P N1 Hs He2). unfold after. cbn [app].
  eexists _, _. split; [reflexivity|]. exists (conf_of n id), (concat (map (told b) (n_peers b))).
  split; [split; [reflexivity | split; reflexivity]|]. split; [reflexivity|]. split; [reflexivity|]. split; [apply told_idle|].
  split.
  - intros p q Hin. apply told_in in Hin. destruct Hin as (I1 & I2 & ->). change (next_of (set_peers (map (offered b) (n_peers b)) b) p) with (next_of b p).
    destruct (term_of_known b _ Hs (He2 p I1 I2)) as (T & _). exact (offers_log b p _ _ T).
  - cbn [n_peers set_peers]. apply forall2_map. intros p _. reflexivity.
Qed.
Lemma rm_alone : forall id n, n_peers n = [] -> exists n' l, rm_srv_from_cluster id n = (ROk tt, n', l) /\ removes_last n id n' l.
Proof.
  intros id n P. rewrite rm_eq. set (b := with_conf n id). rewrite (commit_alone b P). unfold after. cbn [app].
  eexists _, _. split; [reflexivity|]. exists (conf_of n id). split; [split; [reflexivity | split; reflexivity]|]. split; [reflexivity|].
  change (n_quick b) with (n_quick n). cbn [fst snd]. f_equal. f_equal. unfold a_next. change (n_log b) with (log_plus (n_log n) [conf_entry (n_term n) (conf_of n id)]).
  unfold log_plus. cbn [al_start al_ents]. unfold lenN. rewrite app_length. cbn [length]. lia.
Qed.

Lemma not_busy_type : beq leave_cluster_request append_entries_request || beq leave_cluster_request install_snapshot_request = false.
Proof. reflexivity. Qed.
Lemma rpc_ext_ok : forall now uid q r ref n, live_ref uid n = Some ref -> rq_type q = leave_cluster_request ->
  run_event (ERpc now uid true q (Some r)) n = bind (handle_ext_resp r) (fun _ => ret Nothing) (upd_peer ref (p_resume (n_prm n)) n).
Proof.
  intros now uid q r ref n Hl Hq. cbn [run_event]. unfold rpc_done. rewrite bind_assoc, bind_get, Hl, Hq, not_busy_type. cbn [when].
  rewrite !bind_assoc, bind_ret, bind_assoc, bind_modify. reflexivity.
Qed.
Lemma rpc_ext_err : forall now uid q ref n, live_ref uid n = Some ref -> rq_type q = leave_cluster_request ->
  run_event (ERpc now uid true q None) n = bind (handle_ext_resp_err q) (fun _ => ret Nothing) (upd_peer ref (p_slow_down (n_prm n)) n).
Proof.
  intros now uid q ref n Hl Hq. cbn [run_event]. unfold rpc_done. rewrite bind_assoc, bind_get, Hl, Hq, not_busy_type. cbn [when].
  rewrite !bind_assoc, bind_ret, bind_assoc, bind_modify. reflexivity.
Qed.
Lemma peers_some : forall ref f n, n_peers n <> [] -> n_peers (upd_peer ref f n) <> [].
Proof.
  intros ref f n H. unfold upd_peer. destruct ref; [|exact H]. cbn [n_peers set_peers]. unfold upd_peers. destruct (n_peers n); [congruence | discriminate].
Qed.
Lemma idle_cur : forall ref f n, (forall p, p_id (f p) = p_id p) -> (forall p, p_busy (f p) = p_busy p) -> (forall p, p_next (f p) = p_next p) -> has_for_idle n -> has_for_idle (upd_peer ref f n).
Proof.
  intros ref f n F1 F2 F3 (N1 & Hs & He). unfold upd_peer. destruct ref as [id|]; [|exact (conj N1 (conj Hs He))].
  split; [|split].
  - cbn [n_peers set_peers]. unfold upd_peers. rewrite map_map. rewrite (map_ext _ p_id); [exact N1|]. intros p. destruct (_ =? _)%Z; [apply F1 | reflexivity].
  - exact Hs.
  - intros p Hp Bz Nz. cbn [n_peers set_peers] in Hp. unfold upd_peers in Hp. apply in_map_iff in Hp. destruct Hp as (x & <- & Hx).
    assert (K : p_busy x = false /\ p_next x = p_next (if (p_id x =? id)%Z then f x else x)).
    { destruct (_ =? _)%Z; [rewrite F2 in Bz; rewrite F3; auto | auto]. }
    destruct K as (K1 & K2). rewrite <- K2 in *. exact (He x Hx K1 Nz).
Qed.

(** The server agrees to leave: the configuration without it is appended and offered to all
    idle members, whatever the role of the server that asked is by now. *)
Theorem C83_agreed : forall n now uid q r ref, live_ref uid n = Some ref -> rq_type q = leave_cluster_request ->
  rs_type r = leave_cluster_response -> rs_accepted r = true -> n_peers n <> [] -> has_for_idle n ->
  exists n' l, run_event (ERpc now uid true q (Some r)) n = (ROk Nothing, n', l) /\
    removes (upd_peer ref (p_resume (n_prm n)) n) (rs_src r) n' l.
Proof.
  intros n now uid q r ref Hl Hq Hr Ha P He. rewrite (rpc_ext_ok now uid q r ref n Hl Hq). set (b := upd_peer ref _ n).
  destruct (rm_runs (rs_src r) b) as (n' & l & E & R).
  { apply peers_some, P. }
  { apply idle_cur; [reflexivity | reflexivity | reflexivity | exact He]. }
  exists n', l. split; [|exact R]. unfold handle_ext_resp. rewrite bind_assoc, bind_get, Hr.
  change (beq leave_cluster_response sync_log_response) with false. change (beq leave_cluster_response join_cluster_response) with false.
  change (beq leave_cluster_response leave_cluster_response) with true. cbv iota. rewrite Ha. cbn [when].
  rewrite (bind_ok _ _ _ _ _ _ _ _ E). unfold after, ret. rewrite app_nil_r. reflexivity.
Qed.

(** The server refuses: nothing happens, although the client was told that the request is accepted. *)
Theorem C83_refused : forall n now uid q r ref, live_ref uid n = Some ref -> rq_type q = leave_cluster_request ->
  rs_type r = leave_cluster_response -> rs_accepted r = false ->
  run_event (ERpc now uid true q (Some r)) n = (ROk Nothing, upd_peer ref (p_resume (n_prm n)) n, []).
Proof.
  intros n now uid q r ref Hl Hq Hr Ha. rewrite (rpc_ext_ok now uid q r ref n Hl Hq). unfold handle_ext_resp. rewrite bind_assoc, bind_get, Hr.
  change (beq leave_cluster_response sync_log_response) with false. change (beq leave_cluster_response join_cluster_response) with false.
  change (beq leave_cluster_response leave_cluster_response) with true. cbv iota. rewrite Ha. reflexivity.
Qed.

(** ** The server cannot be reached

    the interval between two messages to [p] after one more failure *)
Definition slower (pm : params) (cur : Z) : Z := Z.min (max_hb pm) (cur + pm_backoff pm)%Z.
Definition with_cur (id : Z) (cur : Z) (n : node) : node := upd_peer (PPeer id) (p_set_cur cur) n.

Lemma slow_cur : forall id p n, find_peer id (n_peers n) = Some p -> NoDup (map p_id (n_peers n)) ->
  upd_peer (PPeer id) (p_slow_down (n_prm n)) n = with_cur id (slower (n_prm n) (p_hb_cur p)) n.
Proof.
  intros id p n F N1. unfold with_cur, upd_peer. f_equal. unfold upd_peers. apply map_ext_in. intros x Hx. destruct (p_id x =? id)%Z eqn:E; [|reflexivity].
  apply Z.eqb_eq in E. rewrite (same_peer id (n_peers n) p x N1 F Hx E). reflexivity.
Qed.
Lemma cur_find : forall id p n cur, find_peer id (n_peers n) = Some p -> find_peer id (n_peers (with_cur id cur n)) = Some (p_set_cur cur p).
Proof. intros id p n cur F. unfold with_cur, upd_peer. cbn [n_peers set_peers]. rewrite find_upd by reflexivity. rewrite F. reflexivity. Qed.
Lemma cur_cur : forall id a b n, with_cur id b (with_cur id a n) = with_cur id b n.
Proof. intros id a b n. unfold with_cur, upd_peer. cbn [n_peers set_peers]. rewrite upd_upd by reflexivity. reflexivity. Qed.
Lemma cur_live : forall id cur uid n, live_ref uid (with_cur id cur n) = live_ref uid n.
Proof.
  intros id cur uid n. unfold live_ref, with_cur, upd_peer. cbn [n_peers set_peers n_join]. unfold upd_peers.
  assert (E : forall l, find (fun p => p_uid p =? uid) (map (fun p => if (p_id p =? id)%Z then p_set_cur cur p else p) l) =
    option_map (fun p => if (p_id p =? id)%Z then p_set_cur cur p else p) (find (fun p => p_uid p =? uid) l)).
  { induction l as [|x l IH]; [reflexivity|]. cbn [map find]. destruct (p_id x =? id)%Z eqn:E1; cbn [p_uid p_set_cur]; destruct (p_uid x =? uid); cbn [option_map]; rewrite ?E1; try reflexivity; exact IH. }
  rewrite E. destruct (find _ (n_peers n)) as [x|]; cbn [option_map]; [|reflexivity]. destruct (p_id x =? id)%Z; reflexivity.
Qed.

(** One failed attempt, the interval has not reached its maximum: the interval grows twice and
    the request is tried again after it. *)
Theorem C83_retried : forall n now uid q p, live_ref uid n = Some (PPeer (rq_dst q)) -> rq_type q = leave_cluster_request ->
  find_peer (rq_dst q) (n_peers n) = Some p -> p_uid p = uid -> NoDup (map p_id (n_peers n)) ->
  (p_hb_cur p + pm_backoff (n_prm n) < max_hb (n_prm n))%Z ->
  run_event (ERpc now uid true q None) n =
    (ROk Nothing, with_cur (rq_dst q) (slower (n_prm n) (p_hb_cur p + pm_backoff (n_prm n))) n, [ARetryLater uid q]) /\
  forall n1, run_event (ERetry uid q) n1 = (ROk Nothing, n1, [ASend uid true q]).
Proof.
  intros n now uid q p Hl Hq F Hu N1 Hc. split.
  - rewrite (rpc_ext_err now uid q _ n Hl Hq). rewrite (slow_cur _ p n F N1). set (b := with_cur _ _ n).
    assert (Es : slower (n_prm n) (p_hb_cur p) = (p_hb_cur p + pm_backoff (n_prm n))%Z) by (unfold slower; lia).
    assert (Fb : find_peer (rq_dst q) (n_peers b) = Some (p_set_cur (slower (n_prm n) (p_hb_cur p)) p)) by (apply cur_find, F).
    assert (Nb : NoDup (map p_id (n_peers b))).
    { unfold b, with_cur, upd_peer, upd_peers. cbn [n_peers set_peers]. rewrite map_map. rewrite (map_ext _ p_id); [exact N1|]. intros x. destruct (_ =? _)%Z; reflexivity. }
    unfold handle_ext_resp_err. rewrite Hq. change (beq leave_cluster_request sync_log_request || beq leave_cluster_request join_cluster_request || beq leave_cluster_request leave_cluster_request) with true.
    change (beq leave_cluster_request leave_cluster_request) with true. cbv iota zeta. rewrite bind_assoc, bind_get. cbn [get_peer]. rewrite Fb. cbn [p_hb_cur p_set_cur p_uid].
    change (n_prm b) with (n_prm n). replace (max_hb (n_prm n) <=? slower (n_prm n) (p_hb_cur p))%Z with false by lia.
    rewrite bind_assoc, bind_modify. change (n_prm n) with (n_prm b). rewrite (slow_cur _ _ b Fb Nb). cbn [p_hb_cur p_set_cur]. unfold b. rewrite cur_cur. change (n_prm (with_cur _ _ n)) with (n_prm n).
    rewrite Es, Hu. unfold bind, emit, ret. cbn [disk_apply app]. destruct (with_cur _ _ n) as [? ? ? ? ? ? ? ? ? ? ? ? ? ? ? ? ? ? ? ? ? ? ? ? ? dk]. reflexivity.
  - intros n1. cbn [run_event]. unfold retry, bind, emit, ret. cbn [disk_apply app]. destruct n1 as [? ? ? ? ? ? ? ? ? ? ? ? ? ? ? ? ? ? ? ? ? ? ? ? ? dk]. reflexivity.
Qed.

(** One failed attempt, the interval reaches its maximum: the server is removed without its
    consent.  If it is the only other member, it is forgotten first, so that the leader
    commits the configuration alone. *)
Theorem C83_forced : forall n now uid q p, live_ref uid n = Some (PPeer (rq_dst q)) -> rq_type q = leave_cluster_request ->
  find_peer (rq_dst q) (n_peers n) = Some p -> has_for_idle n ->
  (max_hb (n_prm n) <= p_hb_cur p + pm_backoff (n_prm n))%Z ->
  exists n' l, run_event (ERpc now uid true q None) n = (ROk Nothing, n', l) /\
    let n1 := with_cur (rq_dst q) (max_hb (n_prm n)) n in
    if Nat.eqb (length (n_peers n)) 1 then removes_last (set_peers [] n1) (rq_dst q) n' l
    else removes n1 (rq_dst q) n' l.
Proof.
  intros n now uid q p Hl Hq F He Hc. assert (N1 := proj1 He). rewrite (rpc_ext_err now uid q _ n Hl Hq). rewrite (slow_cur _ p n F N1).
  assert (Es : slower (n_prm n) (p_hb_cur p) = max_hb (n_prm n)) by (unfold slower; lia). rewrite Es. set (b := with_cur _ _ n).
  assert (Fb : find_peer (rq_dst q) (n_peers b) = Some (p_set_cur (max_hb (n_prm n)) p)) by (apply cur_find, F).
  assert (Pi : p_id p = rq_dst q) by (apply find_some in F; lia).
  assert (Lb : length (n_peers b) = length (n_peers n)) by (unfold b, with_cur, upd_peer, upd_peers; cbn [n_peers set_peers]; apply map_length).
  unfold handle_ext_resp_err. rewrite Hq. change (beq leave_cluster_request sync_log_request || beq leave_cluster_request join_cluster_request || beq leave_cluster_request leave_cluster_request) with true.
  change (beq leave_cluster_request leave_cluster_request) with true. cbv iota zeta.
  rewrite bind_assoc, bind_get. cbn [get_peer]. rewrite Fb. cbn [p_hb_cur p_set_cur]. change (n_prm b) with (n_prm n). rewrite Z.leb_refl.
  change (p_id (p_set_cur (max_hb (n_prm n)) p)) with (p_id p). rewrite Pi, Lb. rewrite bind_assoc.
  destruct (Nat.eqb (length (n_peers n)) 1) eqn:E1; cbn [when].
  - rewrite bind_modify. apply Nat.eqb_eq in E1.
    assert (Eb : rm_peer (rq_dst q) (n_peers b) = []).
    { rewrite <- Lb in E1. destruct (n_peers b) as [|x [|]] eqn:Eb; try discriminate. unfold find_peer in Fb. cbn [find] in Fb. destruct (p_id x =? rq_dst q)%Z eqn:Ex; [|discriminate].
      unfold rm_peer. cbn [filter]. rewrite Ex. reflexivity. }
    rewrite Eb. destruct (rm_alone (rq_dst q) (set_peers [] b) eq_refl) as (n' & l & E & R). exists n', l. split; [|exact R].
    rewrite (bind_ok _ _ _ _ _ _ _ _ E). unfold after, ret. rewrite app_nil_r. reflexivity.
  - rewrite bind_ret. destruct (rm_runs (rq_dst q) b) as (n' & l & E & R).
    { unfold b, with_cur. apply peers_some. intros Z. rewrite Z in F. discriminate. }
    { apply idle_cur; [reflexivity | reflexivity | reflexivity | exact He]. }
    exists n', l. split; [|exact R]. rewrite (bind_ok _ _ _ _ _ _ _ _ E). unfold after, ret. rewrite app_nil_r. reflexivity.
Qed.

(** [k] failed attempts, each followed by the next one after the time the server waits *)
Inductive tried (now : N) (uid : N) (q : req) : nat -> node -> node -> Prop :=
| T_none : forall n, tried now uid q 0 n n
| T_more : forall k n n1 n2, run_event (ERpc now uid true q None) n = (ROk Nothing, n1, [ARetryLater uid q]) ->
    run_event (ERetry uid q) n1 = (ROk Nothing, n1, [ASend uid true q]) -> tried now uid q k n1 n2 -> tried now uid q (S k) n n2.

Lemma tries : forall m now uid q n p, live_ref uid n = Some (PPeer (rq_dst q)) -> rq_type q = leave_cluster_request ->
  find_peer (rq_dst q) (n_peers n) = Some p -> p_uid p = uid -> has_for_idle n -> (0 < pm_backoff (n_prm n))%Z ->
  (max_hb (n_prm n) - p_hb_cur p <= Z.of_nat m)%Z ->
  exists k n1 n' l c, (Z.of_nat k * (2 * pm_backoff (n_prm n)) <= Z.max 0 (max_hb (n_prm n) - p_hb_cur p) + pm_backoff (n_prm n))%Z /\ tried now uid q k n n1 /\
    run_event (ERpc now uid true q None) n1 = (ROk Nothing, n', l) /\ config_without n (rq_dst q) c /\
    n_log n' = log_plus (n_log n) [conf_entry (n_term n) c] /\ n_log n1 = n_log n /\ n_config n1 = n_config n /\ n_term n1 = n_term n.
Proof.
  induction m as [|m IH]; intros now uid q n p Hl Hq F Hu He Hb Hm.
  - destruct (C83_forced n now uid q p Hl Hq F He ltac:(lia)) as (n' & l & E & R). cbv zeta in R. destruct (Nat.eqb _ 1).
    + destruct R as (c & C & -> & ->). exists 0%nat, n. eexists _, _, c. split; [lia|]. split; [constructor|]. split; [exact E|].
      split; [exact C|]. split; [reflexivity|]. split; [reflexivity|]. split; reflexivity.
    + destruct R as (c & qs & C & -> & R & _). exists 0%nat, n, n'. eexists _, c. split; [lia|]. split; [constructor|]. split; [exact E|].
      split; [exact C|]. split; [rewrite R; reflexivity|]. split; [reflexivity|]. split; reflexivity.
  - destruct (Z_lt_le_dec (p_hb_cur p + pm_backoff (n_prm n)) (max_hb (n_prm n))) as [H|H].
    + destruct (C83_retried n now uid q p Hl Hq F Hu (proj1 He) H) as (E & E2). set (n1 := with_cur _ _ n) in E.
      assert (F1 : find_peer (rq_dst q) (n_peers n1) = Some (p_set_cur (slower (n_prm n) (p_hb_cur p + pm_backoff (n_prm n))) p)) by (apply cur_find, F).
      destruct (IH now uid q n1 _ ltac:(unfold n1; rewrite cur_live; exact Hl) Hq F1 Hu) as (k & n2 & n' & l & c & K & T & E3 & C & R & R1 & R2 & R3).
      { unfold n1. apply idle_cur; [reflexivity | reflexivity | reflexivity | exact He]. }
      { exact Hb. }
      { cbn [p_hb_cur p_set_cur]. change (n_prm n1) with (n_prm n). unfold slower. lia. }
      cbn [p_hb_cur p_set_cur] in K. change (n_prm n1) with (n_prm n) in K.
      exists (S k), n2, n', l, c. split; [rewrite Nat2Z.inj_succ, Z.mul_succ_l; unfold slower in K; set (b := pm_backoff (n_prm n)) in *; set (mx := max_hb (n_prm n)) in *;
        destruct (Z_le_gt_dec (p_hb_cur p + 2 * b) mx); [lia | assert (Z.of_nat k * (2 * b) <= b)%Z by lia; destruct k; [lia | nia]]|]. split; [eapply T_more; [exact E | apply E2 | exact T]|]. split; [exact E3|].
      split; [exact C|]. split; [exact R|]. split; [exact R1|]. split; [exact R2 | exact R3].
    + destruct (C83_forced n now uid q p Hl Hq F He H) as (n' & l & E & R). cbv zeta in R. destruct (Nat.eqb _ 1).
      * destruct R as (c & C & -> & ->). exists 0%nat, n. eexists _, _, c. split; [lia|]. split; [constructor|]. split; [exact E|].
        split; [exact C|]. split; [reflexivity|]. split; [reflexivity|]. split; reflexivity.
      * destruct R as (c & qs & C & -> & R & _). exists 0%nat, n, n'. eexists _, c. split; [lia|]. split; [constructor|]. split; [exact E|].
        split; [exact C|]. split; [rewrite R; reflexivity|]. split; [reflexivity|]. split; reflexivity.
Qed.

(** The server never answers: after a bounded number of attempts it is removed all the same. *)
Theorem C83_bounded : forall now uid q n p, live_ref uid n = Some (PPeer (rq_dst q)) -> rq_type q = leave_cluster_request ->
  find_peer (rq_dst q) (n_peers n) = Some p -> p_uid p = uid -> has_for_idle n -> (0 < pm_backoff (n_prm n))%Z ->
  exists k n1 n' l c,
    (Z.of_nat k * (2 * pm_backoff (n_prm n)) <= Z.max 0 (max_hb (n_prm n) - p_hb_cur p) + pm_backoff (n_prm n))%Z /\
    tried now uid q k n n1 /\ n_log n1 = n_log n /\
    run_event (ERpc now uid true q None) n1 = (ROk Nothing, n', l) /\ config_without n (rq_dst q) c /\
    n_log n' = log_plus (n_log n) [conf_entry (n_term n) c].
Proof.
  intros now uid q n p Hl Hq F Hu He Hb.
  destruct (tries (Z.to_nat (Z.max 0 (max_hb (n_prm n) - p_hb_cur p))) now uid q n p Hl Hq F Hu He Hb ltac:(lia)) as (k & n1 & n' & l & c & K & T & E & C & R & R1 & _).
  exists k, n1, n', l, c. auto 8.
Qed.

(** Unless the intervals do not grow: then the attempts go on for ever. *)
Theorem C83_bounded_refuted : forall now uid q n p, live_ref uid n = Some (PPeer (rq_dst q)) -> rq_type q = leave_cluster_request ->
  find_peer (rq_dst q) (n_peers n) = Some p -> p_uid p = uid -> NoDup (map p_id (n_peers n)) -> pm_backoff (n_prm n) = 0%Z ->
  (p_hb_cur p < max_hb (n_prm n))%Z -> forall k, tried now uid q k n n.
Proof.
  intros now uid q n p Hl Hq F Hu N1 Hb Hc k. destruct (C83_retried n now uid q p Hl Hq F Hu N1 ltac:(lia)) as (E & E2).
  assert (Es : with_cur (rq_dst q) (slower (n_prm n) (p_hb_cur p + pm_backoff (n_prm n))) n = n).
  { replace (slower (n_prm n) (p_hb_cur p + pm_backoff (n_prm n))) with (p_hb_cur p) by (unfold slower; lia).
    unfold with_cur, upd_peer. replace (upd_peers (rq_dst q) (p_set_cur (p_hb_cur p)) (n_peers n)) with (n_peers n); [apply self_peers|].
    unfold upd_peers. rewrite <- (map_id (n_peers n)) at 1. apply map_ext_in. intros x Hx. destruct (p_id x =? rq_dst q)%Z eqn:Ex; [|reflexivity].
    apply Z.eqb_eq in Ex. rewrite (same_peer _ _ p x N1 F Hx Ex). destruct p; reflexivity. }
  rewrite Es in E. induction k as [|k IH]; [constructor|]. eapply T_more; [exact E | apply E2 | exact IH].
Qed.

(** ** What the removal of a server does not guarantee

    server [i] has heard from [x] that it agrees to leave *)
Definition agreed (w : world) (i x : Z) : Prop :=
  exists now uid q r l a, In (mkObs (ERpc now uid true q (Some r)) l a) (w_hist w i) /\
    rs_type r = leave_cluster_response /\ rs_accepted r = true /\ rs_src r = x.
Definition agreedb (w : world) (i x : Z) : bool :=
  existsb (fun o => match o_event o with ERpc _ _ true _ (Some r) => beq (rs_type r) leave_cluster_response && rs_accepted r && (rs_src r =? x)%Z | _ => false end) (w_hist w i).
Lemma agreedb_ok : forall w i x, agreedb w i x = true -> agreed w i x.
Proof.
  intros w i x H. unfold agreedb in H. apply existsb_exists in H. destruct H as ([e l a] & H1 & H2). cbn [o_event] in H2.
  destruct e as [| | |now uid [|] q [r|]| | | | | | |]; try discriminate. apply andb_prop in H2. destruct H2 as (H2 & H3). apply andb_prop in H2. destruct H2 as (H2 & H4).
  exists now, uid, q, r, l, a. split; [exact H1|]. split; [apply RaftTrace2.beq_eq, H2|]. split; [exact H4 | lia].
Qed.

(** *** Three servers

    1 leads and is asked to remove 3; 3 agrees.  Before its answer arrives, 2 becomes leader of
    the next term with the vote of 1.  Now the answer arrives: 1, which follows 2, appends the
    configuration to its log, with the term of 2.  2 replicates an entry of a client; 1 takes
    its own entry for it, because the terms are the same. *)
Definition three : list srv_config := map ex_srv [1; 2; 3]%Z.
Definition three_disk : disk := mkDisk None (mkCfg 0 0 three) a_empty 0 None [].
Definition three_world : world := mkWorld (fun _ => Down three_disk) (fun _ => []).
Definition three_run (cs : list mcmd) : world := fold_left (run_m three (fun _ => ex_prm)) cs three_world.
Definition three_asked : list mcmd :=
  (map MK [KStart 1; KStart 2; KStart 3; KDo 1 EElection; KRpc 1 2 0; KRpc 1 3 1; KRpc 1 2 0; KRpc 1 3 0; KDo 1 ECommit;
           KRpc 1 2 0; KRpc 1 3 0; KDo 2 ECommit; KDo 3 ECommit] ++
   [MAsk 1 (ERemoveSrv 0 3); MK (KDeliver 1 3 0)] ++ map MK [KDo 2 EElection; KRpc 2 1 0])%Z.
Definition three_all : world := three_run (three_asked ++
   map MK [KLate 1 3 0; KDo 2 (EAppend 0 [[x61]]); KRpc 2 1 0; KRpc 2 1 0; KRpc 2 1 0; KDo 1 ECommit; KDo 2 ECommit]%Z).
Lemma three_initial : initial three three_world.
Proof. intros i. split; [reflexivity|]. intros _. exists three_disk. split; [reflexivity|]. repeat split. Qed.
Lemma three_reach : forall cs, mreach three (fun _ => ex_prm) three_world (three_run cs).
Proof. intros cs. apply run_ms_reach. constructor. Qed.
Lemma three_ids : ids three = [1; 2; 3]%Z.
Proof. reflexivity. Qed.
Lemma three_okay : cluster_okay three.
Proof.
  unfold cluster_okay. rewrite three_ids. split.
  { repeat (constructor; [cbn; intuition lia|]). constructor. }
  split; [cbn; intuition lia|]. split; [|vm_compute; reflexivity].
  assert (G : forall i, (0 <= i < 10)%Z -> srv_ok (ex_srv i)).
  { intros i Hi. unfold srv_ok, ex_srv. cbn [sc_id sc_endpoint]. split; [unfold is_int32; lia|]. split; [discriminate|].
    intros H. vm_compute in H. intuition discriminate. }
  unfold three. cbn [map]. repeat (apply Forall_cons; [apply G; lia|]). apply Forall_nil.
Qed.
Lemma three_live : forallb (lives three_all) [1; 2; 3]%Z = true.
Proof. vm_compute. reflexivity. Qed.
Lemma three_once : forallb (fun k => once_eachb (handled_reqs three_all k) && once_eachb (answered_reqs three_all k)) [1; 2; 3]%Z = true.
Proof. vm_compute. reflexivity. Qed.
(** the entry at index [k] of the log of server [i], if the server has applied it *)
Definition applied_at (w : world) (i : Z) (k : N) : option entry_val :=
  match w_sys w i with Up n => if k <=? n_smc n then a_get (n_log n) k else None | Down _ => None end.
Lemma three_applied : (match applied_at three_all 1 2, applied_at three_all 2 2 with
  | Some e1, Some e2 => (ev_term e1 =? ev_term e2) && beq (ev_type e1) conf_log && beq (ev_type e2) app_log | _, _ => false end) = true.
Proof. vm_compute. reflexivity. Qed.

(** Servers apply the same entries: one removal from three servers is enough to break it, with
    every term having one leader, no crash, and no request handled or answered twice. *)
Theorem C83_same_entries_refuted : exists servers prm w0 w i j k e1 e2,
  cluster_okay servers /\ initial servers w0 /\ mreach servers prm w0 w /\
  (forall x, In x (ids servers) -> lives w x = true /\ NoDup (handled_reqs w x) /\ NoDup (answered_reqs w x)) /\
  applied_at w i k = Some e1 /\ applied_at w j k = Some e2 /\ ev_term e1 = ev_term e2 /\ ev_type e1 = conf_log /\ ev_type e2 = app_log.
Proof.
  assert (H := three_applied). destruct (applied_at three_all 1 2) as [e1|] eqn:E1; [|discriminate]. destruct (applied_at three_all 2 2) as [e2|] eqn:E2; [|discriminate].
  apply andb_prop in H. destruct H as (H & H3). apply andb_prop in H. destruct H as (H1 & H2).
  exists three, (fun _ => ex_prm), three_world, three_all, 1%Z, 2%Z, 2, e1, e2.
  split; [exact three_okay|]. split; [exact three_initial|]. split; [exact (three_reach _)|]. split.
  { intros x Hx. rewrite three_ids in Hx. split; [exact (proj1 (forallb_forall _ _) three_live x Hx)|].
    assert (X := proj1 (forallb_forall _ _) three_once x Hx). cbv beta in X. apply andb_true_iff in X. destruct X as [X1 X2]. split; apply once_each; assumption. }
  split; [exact E1|]. split; [exact E2|]. split; [lia|]. split; apply beq_eq; assumption.
Qed.

(** *** Two removals at once

    The leader is asked to remove 3 and then 4 from a cluster of four servers, and both agree.
    The second configuration is made from the one in use, so that 3 is in it. *)
Definition lost_all : world := four_run
  (map MK [KStart 1; KStart 2; KStart 3; KStart 4; KDo 1 EElection; KRpc 1 2 0; KRpc 1 3 0; KRpc 1 4 1;
           KRpc 1 2 0; KRpc 1 3 0; KRpc 1 4 0; KDo 1 ECommit; KRpc 1 2 0; KRpc 1 3 0; KRpc 1 4 0; KDo 2 ECommit; KDo 3 ECommit; KDo 4 ECommit] ++
   [MAsk 1 (ERemoveSrv 0 3); MAsk 1 (ERemoveSrv 0 4); MK (KRpc 1 3 0); MK (KRpc 1 4 1)] ++
   map MK [KRpc 1 2 0; KRpc 1 3 0; KRpc 1 4 0; KRpc 1 2 0; KRpc 1 3 0; KRpc 1 4 0; KDo 1 ECommit; KDo 1 ECommit])%Z.
Lemma lost_live : forallb (lives lost_all) [1; 2; 3; 4]%Z = true.
Proof. vm_compute. reflexivity. Qed.
Lemma lost_agreed : forallb (agreedb lost_all 1) [3; 4]%Z = true.
Proof. vm_compute. reflexivity. Qed.
Lemma lost_end : match w_sys lost_all 1%Z with Up n => (n_smc n =? a_next (n_log n) - 1) && negb (n_changing n) && existsb (Z.eqb 3) (map sc_id (cc_servers (n_config n))) | Down _ => false end = true.
Proof. vm_compute. reflexivity. Qed.

(** Both servers have agreed, and the leader has applied all there is in its log; yet one of them
    is a member. *)
Theorem C83_both_leave_refuted : exists servers prm w0 w i x y n,
  cluster_okay servers /\ initial servers w0 /\ mreach servers prm w0 w /\ (forall k, In k (ids servers) -> lives w k = true) /\
  x <> y /\ agreed w i x /\ agreed w i y /\ w_sys w i = Up n /\ n_smc n = a_next (n_log n) - 1 /\ n_changing n = false /\
  In x (map sc_id (cc_servers (n_config n))).
Proof.
  assert (H := lost_end). destruct (w_sys lost_all 1%Z) as [n|d] eqn:Es; [|discriminate].
  apply andb_prop in H. destruct H as (H & H3). apply andb_prop in H. destruct H as (H1 & H2). apply existsb_in in H3.
  exists four, (fun _ => ex_prm), four_world, lost_all, 1%Z, 3%Z, 4%Z, n.
  split; [exact four_okay|]. split; [exact four_initial|]. split; [exact (four_reach _)|]. split.
  { intros k Hk. exact (proj1 (forallb_forall _ _) lost_live k Hk). }
  split; [discriminate|]. split; [apply agreedb_ok; exact (proj1 (forallb_forall _ _) lost_agreed 3%Z (or_introl eq_refl))|].
  split; [apply agreedb_ok; exact (proj1 (forallb_forall _ _) lost_agreed 4%Z (or_intror (or_introl eq_refl)))|].
  split; [exact Es|]. split; [lia|]. split; [apply negb_true_iff, H2 | exact H3].
Qed.

(** *** Concrete cases of the theorems *)
Definition has_for_idleb (n : node) : bool :=
  (1 <=? al_start (n_log n)) && forallb (fun p => p_busy p || (p_next p =? 0) || has_entriesb n (p_next p)) (n_peers n).
Lemma has_for_idleb_ok : forall n, NoDup (map p_id (n_peers n)) -> has_for_idleb n = true -> has_for_idle n.
Proof.
  intros n H0 H. unfold has_for_idleb in H. apply andb_prop in H. destruct H as (H & H1). split; [exact H0|]. split; [lia|].
  intros p Hp Bz Nz. rewrite forallb_forall in H1. specialize (H1 p Hp). rewrite Bz in H1. replace (p_next p =? 0) with false in H1 by lia. apply has_entriesb_ok, H1.
Qed.
Definition ex_leave (t : N) (x : Z) (li lt : N) : req := mkReq t leave_cluster_request 1 x lt li 1 [].
Definition ex_leave_ok (x : Z) : resp_msg := mkResp 1 leave_cluster_response x 1 2 true.

(** a leader of three servers that has asked 3 to leave: it answers, or it does not *)
Definition asking : node := node_of (three_run
  (map MK [KStart 1; KStart 2; KStart 3; KDo 1 EElection; KRpc 1 2 0; KRpc 1 3 1; KRpc 1 2 0; KRpc 1 3 0; KDo 1 ECommit;
           KRpc 1 2 0; KRpc 1 3 0] ++ [MAsk 1 (ERemoveSrv 0 3)])%Z) 1.
(** the server that has lost the leadership since *)
Definition asked_before : node := node_of (three_run three_asked) 1.
Definition example_of (n : node) (q : req) (rl : role) : Prop :=
  exists p, n_role n = rl /\ find_peer (rq_dst q) (n_peers n) = Some p /\ live_ref (p_uid p) n = Some (PPeer (rq_dst q)) /\
    rq_type q = leave_cluster_request /\ has_for_idle n /\ (0 < pm_backoff (n_prm n))%Z.
Example C83_example : example_of asking (ex_leave 1 3 1 0) Leader /\ example_of asked_before (ex_leave 1 3 1 0) Follower.
Proof.
  split; (eexists; split; [vm_compute; reflexivity|]; split; [vm_compute; reflexivity|]; split; [vm_compute; reflexivity|]; split; [reflexivity|];
    split; [apply has_for_idleb_ok; [apply nodup_ids|]; vm_compute; reflexivity | vm_compute; reflexivity]).
Qed.
(** it takes two failures *)
Example C83_example_tries : exists p n1 n', find_peer 3 (n_peers asking) = Some p /\ tried 7 (p_uid p) (ex_leave 1 3 1 0) 1 asking n1 /\
  (exists l, run_event (ERpc 7 (p_uid p) true (ex_leave 1 3 1 0) None) n1 = (ROk Nothing, n', l)) /\
  length (al_ents (n_log n1)) = 1%nat /\ length (al_ents (n_log n')) = 2%nat.
Proof.
  eexists _, _, _. split; [vm_compute; reflexivity|]. split.
  { eapply T_more; [vm_compute; reflexivity | vm_compute; reflexivity | apply T_none]. }
  split; [eexists; vm_compute; reflexivity|]. split; vm_compute; reflexivity.
Qed.
(** the only other member does not answer: the leader commits alone *)
Definition two : list srv_config := map ex_srv [1; 2]%Z.
Definition two_world : world := mkWorld (fun _ => Down (mkDisk None (mkCfg 0 0 two) a_empty 0 None [])) (fun _ => []).
Definition alone : node := node_of (fold_left (run_m two (fun _ => ex_prm))
  (map MK [KStart 1; KStart 2; KDo 1 EElection; KRpc 1 2 0; KRpc 1 2 0; KDo 1 ECommit] ++ [MAsk 1 (ERemoveSrv 0 2)])%Z two_world) 1.
Example C83_example_last : example_of alone (ex_leave 1 2 1 0) Leader /\
  exists p n1 n' l, find_peer 2 (n_peers alone) = Some p /\ tried 7 (p_uid p) (ex_leave 1 2 1 0) 1 alone n1 /\
    run_event (ERpc 7 (p_uid p) true (ex_leave 1 2 1 0) None) n1 = (ROk Nothing, n', l) /\ n_peers n' = [] /\ n_quick n' = 2.
Proof.
  split.
  - eexists; split; [vm_compute; reflexivity|]; split; [vm_compute; reflexivity|]; split; [vm_compute; reflexivity|]; split; [reflexivity|];
    split; [apply has_for_idleb_ok; [apply nodup_ids|]; vm_compute; reflexivity | vm_compute; reflexivity].
  - eexists _, _, _, _. split; [vm_compute; reflexivity|]. split.
    { eapply T_more; [vm_compute; reflexivity | vm_compute; reflexivity | apply T_none]. }
    split; [vm_compute; reflexivity|]. split; vm_compute; reflexivity.
Qed.
(** without growing intervals: for ever *)
Definition flat_prm : params := mkParams 300 150 75 0 1000 10 0 0 1 0 false true.
Definition asking_flat : node := node_of (fold_left (run_m two (fun _ => flat_prm))
  (map MK [KStart 1; KStart 2; KDo 1 EElection; KRpc 1 2 0; KRpc 1 2 0; KDo 1 ECommit] ++ [MAsk 1 (ERemoveSrv 0 2)])%Z two_world) 1.
Example C83_example_flat : exists p, n_role asking_flat = Leader /\ find_peer 2 (n_peers asking_flat) = Some p /\ live_ref (p_uid p) asking_flat = Some (PPeer 2) /\
  NoDup (map p_id (n_peers asking_flat)) /\ pm_backoff (n_prm asking_flat) = 0%Z /\ (p_hb_cur p < max_hb (n_prm asking_flat))%Z.
Proof.
  eexists. split; [vm_compute; reflexivity|]. split; [vm_compute; reflexivity|]. split; [vm_compute; reflexivity|].
  split; [apply nodup_ids; vm_compute; reflexivity|]. split; vm_compute; reflexivity.
Qed.

Print Assumptions C83_agreed.
Print Assumptions C83_refused.
Print Assumptions C83_retried.
Print Assumptions C83_forced.
Print Assumptions C83_bounded.
Print Assumptions C83_bounded_refuted.
Print Assumptions C83_same_entries_refuted.
Print Assumptions C83_both_leave_refuted.
