(** * P_Safe: what applied entries can be relied on (C38, C65, C66, C67, C68)

    A cluster with fixed membership, as in P_Cluster.v.  The theorems that end in
    [_refuted] show, on runs of the model, that the server moves commit indexes where the
    Raft paper forbids it: a leader counts copies of entries of earlier terms, it counts
    acknowledgements from earlier terms in which it led, and a follower goes beyond the last
    entry that the leader's message covers.  The theorems about [careful] runs (CommitSpec.v)
    show that this is all that is wrong: in every run in which commit indexes are moved by
    the rules, applied entries are safe. *)

From Verif Require Import Base Buffer Codec CodecSpec Msg FsLogStore FsLogSpec Alog Raft RaftTrace RaftTrace2 RaftTrace3 NodeSpec NodeLife NodeExamples
  Cluster ClusterElect ClusterLog ClusterRun ClusterSafe CommitSpec SafeRun ClusterExamples CommitExamples ServerSpec P_Append P_Cluster MatchRun.
Local Open Scope N_scope.

(** a majority of the servers has entry [e] at index [k] of its log *)
Definition in_majority (servers : list srv_config) (w : world) (k : N) (e : entry_val) : Prop :=
  exists B, NoDup B /\ incl B (ids servers) /\ (length (ids servers) < 2 * length B)%nat /\ forall j, In j B -> a_get (log_of w j) k = Some e.
(** the term a server is in, running or not *)
Definition now_term (w : world) (i : Z) : N := match w_sys w i with Up n => n_term n | Down d => match dk_state d with Some (t, _) => t | None => 0 end end.

(** C38: no two servers apply different entries at the same index *)
Theorem C38_same_entry_partial : forall servers prm w0 w, cluster_okay servers -> no_snapshots prm -> (2 <= length (ids servers))%nat ->
  initial servers w0 -> careful servers prm w0 w ->
  forall i j k e f, applied servers w i k e -> applied servers w j k f -> e = f.
Proof. intros servers prm w0 w HC HS H2 I H i j k e f. exact (careful_applied servers prm HC HS H2 w0 w I H i j k e f). Qed.

(** C65: an entry that a server has applied is, from then on, in the logs of a majority *)
Theorem C65_applied_in_majority_partial : forall servers prm w0 w, cluster_okay servers -> no_snapshots prm -> (2 <= length (ids servers))%nat ->
  initial servers w0 -> careful servers prm w0 w ->
  forall i k e, applied servers w i k e -> in_majority servers w k e.
Proof.
  intros servers prm w0 w HC HS H2 I H i k e [Hi Ai]. destruct (careful_safe servers prm HC HS H2 w0 w I H) as [_ (tl & cl & vl & Sf)].
  destruct (d_app _ _ _ _ _ (s_d _ _ _ _ _ _ _ Sf) i k e Hi Ai) as (t & k' & C & Lk & G & _).
  assert (C0 := C). destruct C0 as (x & B & _ & _ & NB & IB & MB & HB). exists B. split; [exact NB|]. split; [exact IB|]. split; [exact MB|].
  intros j Hj. destruct Sf as [E L Bi V Hh D]. destruct (h_now _ _ _ _ _ _ Hh j t k' (IB j Hj) (HB j Hj)) as (_ & _ & Ag).
  change (log_of w j) with (slog (w_sys w j)). rewrite <- (Ag (fun u Hu Hl => completeness servers HC _ _ _ _ _ _ E L Bi V Hh t k' C u (proj1 Hu) Hl) k Lk). exact G.
Qed.

Lemma now_term_of : forall servers w i, einv servers (w_sys w) (w_acts w) -> In i (ids servers) -> term_of (w_sys w i) = now_term w i.
Proof.
  intros servers w i E Hi. assert (S := e_static _ _ _ E i Hi). unfold now_term, term_of. destruct (w_sys w i) as [n|d].
  - destruct S as ((_ & Sy & _) & _). cbn [sys_disk]. rewrite Sy. reflexivity.
  - cbn [sys_disk]. unfold saved. destruct (dk_state d) as [[t v]|]; reflexivity.
Qed.
(** C67: a leader has every entry that a server which is not in a later term has applied *)
Theorem C67_leader_has_applied_partial : forall servers prm w0 w, cluster_okay servers -> no_snapshots prm -> (2 <= length (ids servers))%nat ->
  initial servers w0 -> careful servers prm w0 w ->
  forall i j k e n, applied servers w i k e -> In j (ids servers) -> w_sys w j = Up n -> n_role n = Leader -> now_term w i <= n_term n ->
  a_get (n_log n) k = Some e.
Proof.
  intros servers prm w0 w HC HS H2 I H i j k e n [Hi Ai] Hj Hn Hr Le. destruct (careful_safe servers prm HC HS H2 w0 w I H) as [_ (tl & cl & vl & Sf)].
  destruct (d_app _ _ _ _ _ (s_d _ _ _ _ _ _ _ Sf) i k e Hi Ai) as (t & k' & C & Lk & G & Lt & _). destruct Sf as [E L Bi V Hh D].
  rewrite (now_term_of servers w i E Hi) in Lt. assert (Ld := e_role _ _ _ E j n Hj Hn Hr).
  assert (X := now_term_of servers w j E Hj). unfold now_term in X. rewrite Hn in X.
  assert (Y := l_led _ _ _ _ L j (n_term n) Hj Ld). rewrite Hn in Y. specialize (Y X). change (slog (Up n)) with (n_log n) in Y. rewrite Y.
  assert (Led : ledt servers (w_acts w) (n_term n)) by (exists j; auto).
  destruct (N.eq_dec t (n_term n)) as [<-|Hne]; [exact G|].
  rewrite <- (completeness servers HC _ _ _ _ _ _ E L Bi V Hh t k' C (n_term n) ltac:(lia) Led k Lk). exact G.
Qed.

(** C68: a server's log keeps every entry that the server has applied *)
Theorem C68_applied_stays_partial : forall servers prm w0 w, cluster_okay servers -> no_snapshots prm -> (2 <= length (ids servers))%nat ->
  initial servers w0 -> careful servers prm w0 w ->
  forall i k e, applied servers w i k e -> a_get (log_of w i) k = Some e.
Proof.
  intros servers prm w0 w HC HS H2 I H i k e [Hi Ai]. destruct (careful_safe servers prm HC HS H2 w0 w I H) as [_ (tl & cl & vl & Sf)].
  destruct (d_app _ _ _ _ _ (s_d _ _ _ _ _ _ _ Sf) i k e Hi Ai) as (t & k' & _ & _ & _ & _ & G). exact G.
Qed.

(** C66: when a message from a leader moves a server's commit index, the log of that server
    is, up to the last entry the message covers, the log of the leader.  (All runs, not only
    careful ones.) *)
Theorem C66_follower_has_leaders_log_partial : forall servers prm w0 w, cluster_okay servers -> no_snapshots prm -> initial servers w0 -> reach servers prm w0 w ->
  forall i j n m uid ext q now r m' l, In i (ids servers) -> In j (ids servers) ->
  w_sys w i = Up n -> n_role n = Leader -> n_term n = rq_term q ->
  sent w i uid ext q -> rq_type q = append_entries_request -> rq_dst q = j ->
  w_sys w j = Up m -> run_event (ERequest now q) m = (ROk (Response r), m', l) -> rs_accepted r = true ->
  agree (rq_last_idx q + lenN (rq_entries q)) (n_log m') (n_log n).
Proof.
  intros servers prm w0 w HC HS HI HR i j n m uid ext q now r m' l Hi Hj Hn Hr Tn Sq Tq Dq Hm Hrun Acc.
  assert (W := reach_winv servers prm HC HS w0 w HI HR). assert (E := w_e _ _ _ W).
  assert (St := e_static _ _ _ E j Hj). rewrite Hm in St. assert (Sm : al_start (n_log m) = 1) by apply St.
  assert (Ps : possible servers w j (ERequest now q)) by (left; exists i, uid, ext; auto).
  assert (HR' := Reach_S _ _ _ _ _ HR (W_event servers prm w j m _ _ _ _ Hj Hm Ps Hrun eq_refl)).
  set (w' := next_world _ _ _ _) in HR'.
  destruct (reach_winv servers prm HC HS w0 w' HI HR') as [E' (tl & L') _ _ _].
  assert (Sq' : ae_sent (w_acts w') i q).
  { split; [exact Tq|]. exists uid, ext. unfold w', w_acts, next_world. cbn [w_hist]. unfold sent, w_acts in Sq.
    destruct (Z.eq_dec i j) as [->|Hne]; [rewrite put_same | rewrite put_other by exact Hne; exact Sq]. unfold acts_of in *. rewrite map_app, concat_app. apply in_or_app. left. exact Sq. }
  destruct (e_ae _ _ _ E' i q Hi Sq') as (_ & Nd & Ld & _).
  assert (Ni : i <> j) by congruence.
  assert (P := l_ae _ _ _ _ L' i q Hi Sq').
  assert (Ei : w_sys w' i = Up n) by (unfold w', next_world; cbn [w_sys]; rewrite put_other by exact Ni; exact Hn).
  assert (Ej : w_sys w' j = Up m') by (unfold w', next_world; cbn [w_sys]; apply put_same).
  assert (Ti := now_term_of servers w' i E' Hi). unfold now_term in Ti. rewrite Ei in Ti.
  assert (El := l_led _ _ _ _ L' i (rq_term q) Hi Ld). rewrite Ei in El. specialize (El ltac:(congruence)). change (slog (Up n)) with (n_log n) in El. rewrite El.
  assert (Ml := l_logs _ _ _ _ L' j Hj). rewrite Ej in Ml. change (slog (Up m')) with (n_log m') in Ml.
  assert (S' := e_static _ _ _ E' j Hj). rewrite Ej in S'. assert (Sm' : al_start (n_log m') = 1) by apply S'.
  destruct (event_append_post now q m r m' l ltac:(lia) Tq Hrun Acc) as (_ & _ & R3).
  apply (full_agree tl (n_log m') (rq_term q) q Ml (proj1 (l_tl _ _ _ _ L' _)) Sm' (proj2 (l_tl _ _ _ _ L' _)) P R3).
Qed.
(** ... so the entries that it may apply because of the message are the leader's, if the message covers its own commit index *)
Theorem C66_applies_leaders_entries_partial : forall servers prm w0 w, cluster_okay servers -> no_snapshots prm -> initial servers w0 -> reach servers prm w0 w ->
  forall i j n m uid ext q now r m' l, In i (ids servers) -> In j (ids servers) ->
  w_sys w i = Up n -> n_role n = Leader -> n_term n = rq_term q ->
  sent w i uid ext q -> rq_type q = append_entries_request -> rq_dst q = j ->
  w_sys w j = Up m -> run_event (ERequest now q) m = (ROk (Response r), m', l) -> rs_accepted r = true ->
  rq_commit q <= rq_last_idx q + lenN (rq_entries q) ->
  forall k, n_quick m < k <= n_quick m' -> a_get (n_log m') k = a_get (n_log n) k.
Proof.
  intros servers prm w0 w HC HS HI HR i j n m uid ext q now r m' l Hi Hj Hn Hr Tn Sq Tq Dq Hm Hrun Acc Cov k Hk.
  apply (C66_follower_has_leaders_log_partial servers prm w0 w HC HS HI HR i j n m uid ext q now r m' l); try assumption.
  assert (W := reach_winv servers prm HC HS w0 w HI HR). assert (E := w_e _ _ _ W).
  assert (St := e_static _ _ _ E j Hj). rewrite Hm in St. assert (Sm : al_start (n_log m) = 1) by apply St.
  destruct (event_append_post now q m r m' l ltac:(lia) Tq Hrun Acc) as (_ & R2 & _).
  assert (Ps : possible servers w j (ERequest now q)) by (left; exists i, uid, ext; auto).
  destruct (possible_fe servers prm HC w j _ W Hj Ps) as [F _].
  assert (Tm : n_term m <= n_term m').
  { assert (X := proj1 (run_event_tr (ERequest now q) m ltac:(lia) _ _ _ Hrun)). assert (TV := tr_tv _ _ _ _ (fe_join _ F) X). apply (tv_chain_le _ _ _ TV). }
  assert (Nl : n_role m = Leader -> n_term m < rq_term q).
  { intros Rm. destruct (N.lt_ge_cases (n_term m) (rq_term q)) as [X|X]; [exact X|exfalso].
    assert (i = j) by (apply (C35_one_leader_at_a_time servers prm w0 w HC HI HR i j n m); try assumption; lia).
    destruct (e_ae _ _ _ E i q Hi) as (_ & Nd & _); [split; [exact Tq | eauto]|]. congruence. }
  destruct (C29_append_partial now q m Tq ltac:(lia) Nl ltac:(lia)) as (r1 & n1 & l1 & X1 & _ & _ & X2 & _).
  { split; [right; lia|]. destruct (N.eq_dec (rq_last_idx q) 0); [left; assumption | right; left; lia]. }
  rewrite Hrun in X1. inversion X1; subst r1 n1 l1. destruct (X2 Acc) as (_ & _ & Q & _). lia.
Qed.

(** ** Where commit indexes come from, and what is enough *)

(** C65: whenever a response moves the commit index of a server, more than half of the servers
    hold entries up to the new index: the server itself, if it counts, in its log; every other
    server has acknowledged them to this server when it was leader of some term.  (All runs.
    What is missing for C65 is that the term is the present one.) *)
Theorem C65_acknowledged_by_majority_partial : forall servers prm w0 w, cluster_okay servers -> no_snapshots prm -> (2 <= length (ids servers))%nat ->
  initial servers w0 -> reach servers prm w0 w ->
  forall i n now uid ext q r x n' l, In i (ids servers) -> w_sys w i = Up n -> possible servers w i (ERpc now uid ext q (Some r)) ->
  run_event (ERpc now uid ext q (Some r)) n = (x, n', l) -> n_quick n < n_quick n' ->
  exists B, NoDup B /\ incl B (ids servers) /\ (length (ids servers) < 2 * length B)%nat /\
    forall j, In j B -> (j = i /\ n_quick n' < a_next (n_log n)) \/ (j <> i /\ exists t, led servers w i t /\ acked w j t (n_quick n')).
Proof. intros servers prm w0 w HC HS H2 I H. exact (response_counts servers prm HC HS H2 w0 w I H). Qed.

(** C38, C65, C67, C68: three checks that each server can make on its own (CommitSpec.v, [local_rules]) are
    all that is missing *)
Theorem C38_local_rules_partial : forall servers prm w0 w, cluster_okay servers -> no_snapshots prm -> (2 <= length (ids servers))%nat ->
  initial servers w0 -> cautious servers prm w0 w ->
  forall i j k e f, applied servers w i k e -> applied servers w j k f -> e = f.
Proof. intros servers prm w0 w HC HS H2 I H. apply C38_same_entry_partial with prm w0; try assumption. apply cautious_careful; assumption. Qed.
Theorem C65_local_rules_partial : forall servers prm w0 w, cluster_okay servers -> no_snapshots prm -> (2 <= length (ids servers))%nat ->
  initial servers w0 -> cautious servers prm w0 w ->
  forall i k e, applied servers w i k e -> in_majority servers w k e.
Proof. intros servers prm w0 w HC HS H2 I H. apply C65_applied_in_majority_partial with prm w0; try assumption. apply cautious_careful; assumption. Qed.
Theorem C67_local_rules_partial : forall servers prm w0 w, cluster_okay servers -> no_snapshots prm -> (2 <= length (ids servers))%nat ->
  initial servers w0 -> cautious servers prm w0 w ->
  forall i j k e n, applied servers w i k e -> In j (ids servers) -> w_sys w j = Up n -> n_role n = Leader -> now_term w i <= n_term n ->
  a_get (n_log n) k = Some e.
Proof. intros servers prm w0 w HC HS H2 I H. apply C67_leader_has_applied_partial with prm w0; try assumption. apply cautious_careful; assumption. Qed.
Theorem C68_local_rules_partial : forall servers prm w0 w, cluster_okay servers -> no_snapshots prm -> (2 <= length (ids servers))%nat ->
  initial servers w0 -> cautious servers prm w0 w ->
  forall i k e, applied servers w i k e -> a_get (log_of w i) k = Some e.
Proof. intros servers prm w0 w HC HS H2 I H. apply C68_applied_stays_partial with prm w0; try assumption. apply cautious_careful; assumption. Qed.

(** C38: while only one term has had a leader, servers apply the same entries whatever else happens *)
Theorem C38_one_leader_so_far_partial : forall servers prm w0 w, cluster_okay servers -> no_snapshots prm -> initial servers w0 -> reach servers prm w0 w ->
  (forall i j t u, led servers w i t -> led servers w j u -> t = u) ->
  forall i j k e f, applied servers w i k e -> applied servers w j k f -> e = f.
Proof.
  intros servers prm w0 w HC HS HI HR One i j k e f Ae Af. apply (C38_same_term_same_entry_partial servers prm w0 w HC HS HI HR i j k e f Ae Af).
  destruct Ae as [Hi Ae], Af as [Hj Af]. destruct (reach_winv servers prm HC HS w0 w HI HR) as [_ (tl & L) _ _ _].
  assert (Ge := l_app _ _ _ _ L i k e Hi Ae). assert (Gf := l_app _ _ _ _ L j k f Hj Af).
  assert (X : forall t x, a_get (tl t) k = Some x -> exists i, led servers w i t).
  { intros t x G. destruct (ledt_dec servers (w_acts w) t) as [(h & Hh & Hl)|N]; [exists h; split; [exact Hh | apply leads_in, Hl]|].
    rewrite (l_none _ _ _ _ L t) in G; [rewrite get_empty in G; discriminate|]. intros h Hh Hl. apply N. exists h. auto. }
  destruct (X _ _ Ge) as (a & La), (X _ _ Gf) as (b & Lb). exact (One _ _ _ _ La Lb).
Qed.

(** ** Concrete clusters *)
Lemma applied_by : forall servers w i k e, existsb (Z.eqb i) (ids servers) = true -> In (k, e) (commits (w_acts w i)) -> applied servers w i k e.
Proof.
  intros servers w i k e Hi H. split; [apply (memb_in servers (fun _ => ex_prm)), Hi|]. induction (w_acts w i) as [|a l IH]; [destruct H|].
  destruct a; try (right; apply IH; exact H). destruct H as [H|H]; [inversion H; left; reflexivity | right; apply IH, H].
Qed.
Lemma ex_careful : forall cs, ok_ks ex_servers (fun _ => ex_prm) (rulesb ex_servers) ex_world cs = true -> careful ex_servers (fun _ => ex_prm) ex_world (ex_run cs).
Proof. intros cs H. exact (ex_careful_with ex_prm cs H). Qed.

(** *** An ordinary run obeys the rules *)
Lemma calm_careful : careful ex_servers (fun _ => ex_prm) ex_world (ex_run calm).
Proof. apply ex_careful. vm_compute. reflexivity. Qed.
Lemma ex_two : (2 <= length (ids ex_servers))%nat.
Proof. cbn. lia. Qed.
Lemma calm_1 : applied ex_servers (ex_run calm) 1%Z 2 (mkEV 1 app_log [x61]).
Proof. apply applied_by; vm_compute; auto. Qed.
Lemma calm_2 : applied ex_servers (ex_run calm) 2%Z 2 (mkEV 1 app_log [x61]).
Proof. apply applied_by; vm_compute; auto. Qed.
Example C38_careful_example : forall f, applied ex_servers (ex_run calm) 2%Z 2 f -> f = mkEV 1 app_log [x61].
Proof.
  intros f H. apply (C38_same_entry_partial ex_servers (fun _ => ex_prm) ex_world (ex_run calm) ex_okay ex_nosnap ex_two ex_initial calm_careful 2%Z 1%Z 2 f _ H calm_1).
Qed.
Example C65_example : in_majority ex_servers (ex_run calm) 2 (mkEV 1 app_log [x61]).
Proof. exact (C65_applied_in_majority_partial ex_servers (fun _ => ex_prm) ex_world (ex_run calm) ex_okay ex_nosnap ex_two ex_initial calm_careful 1%Z 2 _ calm_1). Qed.

(** the same run obeys the rules that servers can check, and has one leader *)
Lemma ex_cautious : forall cs, ok_ks ex_servers (fun _ => ex_prm) (localb ex_servers) ex_world cs = true -> cautious ex_servers (fun _ => ex_prm) ex_world (ex_run cs).
Proof. intros cs H. exact (ex_cautious_with ex_prm cs H). Qed.
Lemma calm_cautious : cautious ex_servers (fun _ => ex_prm) ex_world (ex_run calm).
Proof. apply ex_cautious. vm_compute. reflexivity. Qed.
Example C38_local_example : forall f, applied ex_servers (ex_run calm) 2%Z 2 f -> f = mkEV 1 app_log [x61].
Proof.
  intros f H. apply (C38_local_rules_partial ex_servers (fun _ => ex_prm) ex_world (ex_run calm) ex_okay ex_nosnap ex_two ex_initial calm_cautious 2%Z 1%Z 2 f _ H calm_1).
Qed.
Example C65_local_example : in_majority ex_servers (ex_run calm) 2 (mkEV 1 app_log [x61]).
Proof. exact (C65_local_rules_partial ex_servers (fun _ => ex_prm) ex_world (ex_run calm) ex_okay ex_nosnap ex_two ex_initial calm_cautious 1%Z 2 _ calm_1). Qed.
Example C68_local_example : a_get (log_of (ex_run calm) 2) 2 = Some (mkEV 1 app_log [x61]).
Proof. exact (C68_local_rules_partial ex_servers (fun _ => ex_prm) ex_world (ex_run calm) ex_okay ex_nosnap ex_two ex_initial calm_cautious 2%Z 2 _ calm_2). Qed.
Lemma calm_leads : forall i, In i (ids ex_servers) -> forallb (fun t => t =? 1) (leads (w_acts (ex_run calm) i)) = true.
Proof. intros i [<-|[<-|[<-|[]]]]; vm_compute; reflexivity. Qed.
Example C38_one_leader_example : forall f, applied ex_servers (ex_run calm) 2%Z 2 f -> f = mkEV 1 app_log [x61].
Proof.
  intros f H. apply (C38_one_leader_so_far_partial ex_servers (fun _ => ex_prm) ex_world (ex_run calm) ex_okay ex_nosnap ex_initial (ex_reach calm)) with (2%Z) (1%Z) 2; [|exact H | exact calm_1].
  assert (G : forall i t, led ex_servers (ex_run calm) i t -> t = 1).
  { intros i t [Hi Ht]. assert (X := calm_leads i Hi). rewrite forallb_forall in X. apply leads_in in Ht. specialize (X t Ht). lia. }
  intros i j t u Ht Hu. rewrite (G i t Ht), (G j u Hu). reflexivity.
Qed.

(** the answer of server 2 that lets server 1 move its commit index *)
Definition counts (w : world) : bool :=
  match pick w 1 2 0 with
  | Some (u, x, q) =>
      match answer_to q (w_hist w 2%Z), w_sys w 1%Z with
      | Some r, Up n => let '(_, n', _) := run_event (ERpc 0 u x q (Some r)) n in n_quick n <? n_quick n'
      | _, _ => false
      end
  | None => false
  end.
Lemma counts_ok : forall w, counts w = true -> exists n uid ext q r x n' l, w_sys w 1%Z = Up n /\ possible ex_servers w 1%Z (ERpc 0 uid ext q (Some r)) /\
  run_event (ERpc 0 uid ext q (Some r)) n = (x, n', l) /\ n_quick n < n_quick n'.
Proof.
  intros w H. unfold counts in H. destruct (pick w 1 2 0) as [[[u x] q]|] eqn:Pk; [|discriminate].
  destruct (pick_sent (fun _ => ex_prm) _ _ _ _ _ _ _ Pk) as [P1 P2]. destruct (answer_to q (w_hist w 2%Z)) as [r|] eqn:An; [|discriminate].
  destruct (w_sys w 1%Z) as [n|] eqn:En; [|discriminate]. destruct (run_event (ERpc 0 u x q (Some r)) n) as [[y n'] l] eqn:Er.
  exists n, u, x, q, r, y, n', l. split; [reflexivity|]. split; [|split; [exact Er | lia]]. split; [exact P1|]. rewrite P2. split; [right; left; reflexivity | apply answer_to_in, An].
Qed.
Example C65_acknowledged_example : exists n n', w_sys (ex_run (firstn 7 calm ++ [KDeliver 1 2 0]%Z)) 1%Z = Up n /\ n_quick n < n_quick n' /\
  exists B, NoDup B /\ incl B (ids ex_servers) /\ (length (ids ex_servers) < 2 * length B)%nat /\
    forall j, In j B -> (j = 1%Z /\ n_quick n' < a_next (n_log n)) \/
      (j <> 1%Z /\ exists t, led ex_servers (ex_run (firstn 7 calm ++ [KDeliver 1 2 0]%Z)) 1%Z t /\ acked (ex_run (firstn 7 calm ++ [KDeliver 1 2 0]%Z)) j t (n_quick n')).
Proof.
  destruct (counts_ok (ex_run (firstn 7 calm ++ [KDeliver 1 2 0]%Z))) as (n & uid & ext & q & r & x & n' & l & X1 & X2 & X3 & X4); [vm_compute; reflexivity|].
  exists n, n'. split; [exact X1|]. split; [exact X4|].
  exact (C65_acknowledged_by_majority_partial ex_servers (fun _ => ex_prm) ex_world _ ex_okay ex_nosnap ex_two ex_initial (ex_reach _) 1%Z n 0 uid ext q r x n' l (or_introl eq_refl) X1 X2 X3 X4).
Qed.

(** server 1 applies an entry, server 2 becomes leader of term 2: it has the entry *)
Definition calm_next : list kcmd := calm ++ [KDo 2 EElection; KRpc 2 3 0]%Z.
Lemma calm_next_careful : careful ex_servers (fun _ => ex_prm) ex_world (ex_run calm_next).
Proof. apply ex_careful. vm_compute. reflexivity. Qed.
Definition up_at (w : world) (i : Z) : node := match w_sys w i with Up n => n | Down d => start_node i ex_prm d end.
Example C67_example : exists n, w_sys (ex_run calm_next) 2%Z = Up n /\ n_role n = Leader /\ n_term n = 2 /\ a_get (n_log n) 2 = Some (mkEV 1 app_log [x61]).
Proof.
  exists (up_at (ex_run calm_next) 2). assert (E : w_sys (ex_run calm_next) 2%Z = Up (up_at (ex_run calm_next) 2)) by (vm_compute; reflexivity).
  split; [exact E|]. assert (Er : n_role (up_at (ex_run calm_next) 2) = Leader) by (vm_compute; reflexivity).
  split; [exact Er|]. split; [vm_compute; reflexivity|].
  apply (C67_leader_has_applied_partial ex_servers (fun _ => ex_prm) ex_world (ex_run calm_next) ex_okay ex_nosnap ex_two ex_initial calm_next_careful 1%Z 2%Z 2);
    [apply applied_by; vm_compute; auto | cbn; auto | exact E | exact Er | vm_compute; discriminate].
Qed.
Lemma calm_next_cautious : cautious ex_servers (fun _ => ex_prm) ex_world (ex_run calm_next).
Proof. apply ex_cautious. vm_compute. reflexivity. Qed.
Example C67_local_example : exists n, w_sys (ex_run calm_next) 2%Z = Up n /\ n_role n = Leader /\ n_term n = 2 /\ a_get (n_log n) 2 = Some (mkEV 1 app_log [x61]).
Proof.
  exists (up_at (ex_run calm_next) 2). assert (E : w_sys (ex_run calm_next) 2%Z = Up (up_at (ex_run calm_next) 2)) by (vm_compute; reflexivity).
  split; [exact E|]. assert (Er : n_role (up_at (ex_run calm_next) 2) = Leader) by (vm_compute; reflexivity).
  split; [exact Er|]. split; [vm_compute; reflexivity|].
  apply (C67_local_rules_partial ex_servers (fun _ => ex_prm) ex_world (ex_run calm_next) ex_okay ex_nosnap ex_two ex_initial calm_next_cautious 1%Z 2%Z 2);
    [apply applied_by; vm_compute; auto | cbn; auto | exact E | exact Er | vm_compute; discriminate].
Qed.
Example C68_example : a_get (log_of (ex_run calm) 2) 2 = Some (mkEV 1 app_log [x61]).
Proof. exact (C68_applied_stays_partial ex_servers (fun _ => ex_prm) ex_world (ex_run calm) ex_okay ex_nosnap ex_two ex_initial calm_careful 2%Z 2 _ calm_2). Qed.

(** *** C65: acknowledgements of earlier terms are counted

    Five servers.  Server 1 leads term 1, server 2 acknowledges two entries; server 3 leads term 2 and replaces
    them at 1 and 2; server 1 leads term 3, sends two entries to server 4 and applies the entry at index 3,
    because it still takes server 2 to have it (become_leader, src/raft_server.cxx:430-464, does not reset the
    matched index of a peer). *)
Definition five : list srv_config := map ex_srv [1; 2; 3; 4; 5]%Z.
Definition five_disk : disk := mkDisk None (mkCfg 0 0 five) a_empty 0 None [].
Definition five_world : world := mkWorld (fun _ => Down five_disk) (fun _ => []).
Definition five_run : world := fold_left (run_k five (fun _ => ex_prm))
  [KStart 1; KStart 2; KStart 3; KStart 4; KStart 5; KDo 1 EElection; KRpc 1 2 0; KRpc 1 3 0; KDo 1 (EReplicate 0 [x61]); KDo 1 (EReplicate 0 [x62]); KRpc 1 2 0; KRpc 1 2 0;
   KDo 3 EElection; KRpc 3 4 0; KRpc 3 5 0; KRpc 3 1 0; KRpc 3 2 0;
   KDo 1 EElection; KRpc 1 4 0; KRpc 1 5 0; KDo 1 (EReplicate 0 [x63]); KDo 1 (EReplicate 0 [x64]); KRpc 1 4 0; KRpc 1 4 0; KDo 1 ECommit; KDo 1 ECommit; KDo 1 ECommit]%Z five_world.
Lemma five_okay : cluster_okay five.
Proof.
  unfold cluster_okay, five, ids. cbn [map sc_id ex_srv]. split.
  { repeat (constructor; [cbn; intuition lia|]). constructor. }
  split; [cbn; intuition lia|]. split; [|vm_compute; reflexivity].
  assert (G : forall i, (0 <= i < 10)%Z -> srv_ok (ex_srv i)).
  { intros i Hi. unfold srv_ok, ex_srv. cbn [sc_id sc_endpoint]. split; [unfold is_int32; lia|]. split; [discriminate|].
    intros H. vm_compute in H. intuition discriminate. }
  repeat (apply Forall_cons; [apply G; lia|]). apply Forall_nil.
Qed.
Lemma five_initial : initial five five_world.
Proof. intros i. split; [reflexivity|]. intros _. exists five_disk. split; [reflexivity|]. repeat split. Qed.
Theorem C65_applied_in_majority_refuted : exists servers prm w0 w i k e n,
  cluster_okay servers /\ no_snapshots prm /\ initial servers w0 /\ reach servers prm w0 w /\
  w_sys w i = Up n /\ n_role n = Leader /\ ev_term e = n_term n /\ applied servers w i k e /\ ~ in_majority servers w k e.
Proof.
  set (e := match a_get (log_of five_run 1) 3 with Some e => e | None => empty_entry end).
  exists five, (fun _ => ex_prm), five_world, five_run, 1%Z, 3, e, (up_at five_run 1).
  split; [exact five_okay|]. split; [exact ex_nosnap|]. split; [exact five_initial|]. split; [apply run_ks_reach; constructor|].
  split; [vm_compute; reflexivity|]. split; [vm_compute; reflexivity|]. split; [vm_compute; reflexivity|].
  split; [apply applied_by; vm_compute; auto|]. intros (B & NB & IB & MB & HB).
  assert (X : incl B [1; 4]%Z).
  { intros j Hj. assert (Hi := IB j Hj). specialize (HB j Hj). cbn in Hi.
    destruct Hi as [<-|[<-|[<-|[<-|[<-|[]]]]]]; try (left; reflexivity); try (right; left; reflexivity); exfalso; vm_compute in HB; discriminate. }
  assert (L := NoDup_incl_length NB X). cbn in MB, L. lia.
Qed.

(** *** C67, C68: the schedule of Figure 8 (P_Cluster.v) *)
Theorem C67_leader_has_applied_refuted : exists servers prm w0 w i j k e n,
  cluster_okay servers /\ no_snapshots prm /\ initial servers w0 /\ reach servers prm w0 w /\
  applied servers w i k e /\ In j (ids servers) /\ w_sys w j = Up n /\ n_role n = Leader /\ now_term w i < n_term n /\ a_get (n_log n) k <> Some e.
Proof.
  exists ex_servers, (fun _ => ex_prm), ex_world, fig8, 1%Z, 2%Z, 2, (mkEV 1 app_log [x61]), (up_at fig8 2).
  split; [exact ex_okay|]. split; [exact ex_nosnap|]. split; [exact ex_initial|]. split; [exact fig8_reach|].
  split; [apply applied_by; vm_compute; auto|]. split; [cbn; auto|]. split; [vm_compute; reflexivity|]. split; [vm_compute; reflexivity|].
  split; [vm_compute; reflexivity|]. vm_compute. discriminate.
Qed.
(** server 3 hears the commit index and applies "a" as well, then its log is overwritten *)
Definition fig8_lost : world := ex_run (fig8_1 ++ [KDo 1 (EHeartbeat 3); KRpc 1 3 0; KDo 3 ECommit; KDo 3 ECommit]%Z ++ fig8_2).
Theorem C68_applied_stays_refuted : exists servers prm w0 w i k e f,
  cluster_okay servers /\ no_snapshots prm /\ initial servers w0 /\ reach servers prm w0 w /\
  applied servers w i k e /\ a_get (log_of w i) k = Some f /\ ev_data f <> ev_data e.
Proof.
  exists ex_servers, (fun _ => ex_prm), ex_world, fig8_lost, 3%Z, 2, (mkEV 1 app_log [x61]), (mkEV 2 app_log [x62]).
  split; [exact ex_okay|]. split; [exact ex_nosnap|]. split; [exact ex_initial|]. split; [apply ex_reach|].
  split; [apply applied_by; vm_compute; auto|]. split; [vm_compute; reflexivity|]. discriminate.
Qed.

(** *** C66: a follower goes beyond what the leader's message covers

    Append-entries messages carry at most one entry (max_append_size_ 1).  Server 2 was leader of term 2 and has "b" at
    index 4; server 1 leads term 3, has "c" at index 4 and has applied it; a late rejection makes it send server 2 an
    earlier entry with its commit index 4, and server 2 may now apply "b". *)
Definition one : params := mkParams 300 150 75 25 1000 10 0 0 1 10000 false true.
Definition beyond_0 : list kcmd :=
  [KStart 1; KStart 2; KStart 3; KDo 1 EElection; KRpc 1 2 0; KDo 1 (EReplicate 0 [x61]); KRpc 1 2 0; KRpc 1 2 0;
   KDo 1 ECommit; KDo 1 ECommit; KDo 2 EElection; KRpc 2 3 0; KDeliver 1 2 0; KDeliver 2 1 0; KDo 2 (EReplicate 0 [x62]);
   KDo 1 EElection; KRpc 1 3 0; KDo 1 (EReplicate 0 [x63]); KRpc 1 3 0; KRpc 1 3 0; KRpc 1 3 0; KRpc 1 3 0; KRpc 1 3 0; KRpc 1 3 0; KRpc 1 3 0;
   KLate 1 2 2]%Z.
Definition beyond_1 : list kcmd := [KDeliver 1 2 0; KDo 1 ECommit; KDo 1 ECommit; KDo 2 ECommit; KDo 2 ECommit; KDo 2 ECommit; KDo 2 ECommit]%Z.
(** server 2 handles the last request of server 1, a leader; [chk] holds of the leader, of server 2 before, the request, and server 2 after *)
Definition handles (chk : node -> node -> req -> node -> bool) (w : world) : bool :=
  match pick w 1 2 0, w_sys w 1%Z, w_sys w 2%Z with
  | Some (_, _, q), Up n, Up m =>
      match run_event (ERequest 0 q) m with
      | (ROk (Response r), m', _) =>
          match n_role n with
          | Leader => (n_term n =? rq_term q) && beq (rq_type q) append_entries_request && rs_accepted r && chk n m q m'
          | _ => false
          end
      | _ => false
      end
  | _, _, _ => false
  end.
Lemma handles_ok : forall chk w, handles chk w = true -> exists n m uid ext q r m' l, w_sys w 1%Z = Up n /\ n_role n = Leader /\ n_term n = rq_term q /\
    sent w 1%Z uid ext q /\ rq_type q = append_entries_request /\ rq_dst q = 2%Z /\ w_sys w 2%Z = Up m /\
    run_event (ERequest 0 q) m = (ROk (Response r), m', l) /\ rs_accepted r = true /\ chk n m q m' = true.
Proof.
  intros chk w H. unfold handles in H. destruct (pick w 1 2 0) as [[[u x] q]|] eqn:Pk; [|discriminate].
  destruct (pick_sent (fun _ => one) _ _ _ _ _ _ _ Pk) as [P1 P2].
  destruct (w_sys w 1%Z) as [n|] eqn:En; [|discriminate]. destruct (w_sys w 2%Z) as [m|] eqn:Em; [|discriminate].
  destruct (run_event (ERequest 0 q) m) as [[rr m'] l] eqn:Er. destruct rr as [[|r|b|a]| | |]; try discriminate.
  destruct (n_role n) eqn:Rn; try discriminate.
  apply andb_prop in H. destruct H as [H H4]. apply andb_prop in H. destruct H as [H H3]. apply andb_prop in H. destruct H as [H1 H2].
  exists n, m, u, x, q, r, m', l. split; [reflexivity|]. split; [exact Rn|]. split; [lia|]. split; [exact P1|]. split; [apply Byte.byte_dec_bl, H2|]. split; [exact P2|].
  split; [reflexivity|]. split; [exact Er|]. split; [exact H3 | exact H4].
Qed.
Definition beyond (n m : node) (q : req) (m' : node) : bool :=
  match a_get (n_log m') 4, a_get (n_log n) 4 with
  | Some e, Some f => (n_quick m <? 4) && (4 <=? n_quick m') && negb (ev_term e =? ev_term f)
  | _, _ => false
  end.
Theorem C66_applies_leaders_entries_refuted : exists servers prm w0 w i j n m uid ext q now r m' l k,
  cluster_okay servers /\ no_snapshots prm /\ initial servers w0 /\ reach servers prm w0 w /\ In i (ids servers) /\ In j (ids servers) /\
  w_sys w i = Up n /\ n_role n = Leader /\ n_term n = rq_term q /\
  sent w i uid ext q /\ rq_type q = append_entries_request /\ rq_dst q = j /\
  w_sys w j = Up m /\ run_event (ERequest now q) m = (ROk (Response r), m', l) /\ rs_accepted r = true /\
  n_quick m < k <= n_quick m' /\ a_get (n_log m') k <> a_get (n_log n) k.
Proof.
  destruct (handles_ok beyond (ex_run_with one beyond_0)) as (n & m & uid & ext & q & r & m' & l & X1 & X2 & X3 & X4 & X5 & X6 & X7 & X8 & X9 & X10); [vm_compute; reflexivity|].
  exists ex_servers, (fun _ => one), ex_world, (ex_run_with one beyond_0), 1%Z, 2%Z, n, m, uid, ext, q, 0, r, m', l, 4.
  split; [exact ex_okay|]. split; [intros i; reflexivity|]. split; [exact ex_initial|]. split; [apply ex_reach_with|].
  split; [left; reflexivity|]. split; [right; left; reflexivity|]. split; [exact X1|]. split; [exact X2|]. split; [exact X3|]. split; [exact X4|]. split; [exact X5|].
  split; [exact X6|]. split; [exact X7|]. split; [exact X8|]. split; [exact X9|].
  unfold beyond in X10. destruct (a_get (n_log m') 4) as [e|] eqn:Ge; [|discriminate]. destruct (a_get (n_log n) 4) as [f|] eqn:Gf; [|discriminate].
  apply andb_prop in X10. destruct X10 as [X10 Y]. apply andb_prop in X10. split; [lia|]. intros X. inversion X; subst f. rewrite N.eqb_refl in Y. discriminate.
Qed.
(** an ordinary run: the request that tells server 2 that it may apply the entry at index 2 *)
Definition covers (n m : node) (q : req) (m' : node) : bool :=
  (rq_commit q <=? rq_last_idx q + lenN (rq_entries q)) && (n_quick m <? 2) && (n_quick m' =? 2).
Definition calm_start : list kcmd := firstn 13 calm.
Example C66_example : exists n m m', w_sys (ex_run calm_start) 1%Z = Up n /\ w_sys (ex_run calm_start) 2%Z = Up m /\
  n_quick m < 2 /\ n_quick m' = 2 /\ a_get (n_log m') 2 = a_get (n_log n) 2.
Proof.
  destruct (handles_ok covers (ex_run calm_start)) as (n & m & uid & ext & q & r & m' & l & X1 & X2 & X3 & X4 & X5 & X6 & X7 & X8 & X9 & X10); [vm_compute; reflexivity|].
  apply andb_prop in X10. destruct X10 as [X10 Y]. apply andb_prop in X10. destruct X10 as [Z X10].
  exists n, m, m'. split; [exact X1|]. split; [exact X7|]. split; [lia|]. split; [lia|].
  eapply (C66_applies_leaders_entries_partial ex_servers (fun _ => ex_prm) ex_world (ex_run calm_start) ex_okay ex_nosnap ex_initial (ex_reach calm_start) 1%Z 2%Z n m uid ext q 0 r m' l);
    [left; reflexivity | right; left; reflexivity | exact X1 | exact X2 | exact X3 | exact X4 | exact X5 | exact X6 | exact X7 | exact X8 | exact X9 | lia | lia].
Qed.
(** ... and it does, although the leader has applied "c" *)
Theorem C66_follower_differs_refuted : exists servers prm w0 w i j n m k e f,
  cluster_okay servers /\ no_snapshots prm /\ initial servers w0 /\ reach servers prm w0 w /\
  w_sys w i = Up n /\ n_role n = Leader /\ w_sys w j = Up m /\ n_term m = n_term n /\ n_leader m = i /\
  applied servers w i k e /\ applied servers w j k f /\ ev_data f <> ev_data e.
Proof.
  set (w := ex_run_with one (beyond_0 ++ beyond_1)).
  exists ex_servers, (fun _ => one), ex_world, w, 1%Z, 2%Z, (up_at w 1), (up_at w 2), 4, (mkEV 3 app_log [x63]), (mkEV 2 app_log [x62]).
  split; [exact ex_okay|]. split; [intros i; reflexivity|]. split; [exact ex_initial|]. split; [apply ex_reach_with|].
  split; [vm_compute; reflexivity|]. split; [vm_compute; reflexivity|]. split; [vm_compute; reflexivity|]. split; [vm_compute; reflexivity|]. split; [vm_compute; reflexivity|].
  split; [apply applied_by; vm_compute; auto|]. split; [apply applied_by; vm_compute; auto|]. discriminate.
Qed.

Print Assumptions C38_same_entry_partial.
Print Assumptions C38_local_rules_partial.
Print Assumptions C38_one_leader_so_far_partial.
Print Assumptions C65_acknowledged_by_majority_partial.
Print Assumptions C65_local_rules_partial.
Print Assumptions C67_local_rules_partial.
Print Assumptions C68_local_rules_partial.
Print Assumptions C65_applied_in_majority_partial.
Print Assumptions C65_applied_in_majority_refuted.
Print Assumptions C66_follower_has_leaders_log_partial.
Print Assumptions C66_applies_leaders_entries_partial.
Print Assumptions C66_applies_leaders_entries_refuted.
Print Assumptions C66_follower_differs_refuted.
Print Assumptions C67_leader_has_applied_partial.
Print Assumptions C67_leader_has_applied_refuted.
Print Assumptions C68_applied_stays_partial.
Print Assumptions C68_applied_stays_refuted.
