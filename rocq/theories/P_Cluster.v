(** * P_Cluster: a cluster with fixed membership (C35, C36, C38)

    A cluster (Cluster.v): any number of servers that run the model of Raft.v, requests
    and responses lost, duplicated, delayed and reordered, servers stopping between any two
    actions and starting again, clients and the application doing what they like.  What is
    missing in the theorems named _partial: servers take no snapshots
    ([no_snapshots]: snapshot distance 0, the default).  C35 covers clusters that take,
    ship and install snapshots as well. *)

From Verif Require Import Base Buffer Codec CodecSpec Msg FsLogStore FsLogSpec Alog Raft RaftTrace NodeSpec NodeLife NodeExamples Cluster ClusterElect ClusterLog ClusterRun ClusterElectS ClusterWalkS ClusterRunS ClusterExamples.
Local Open Scope N_scope.

(** C35: no two servers ever become leader in the same term *)
Theorem C35_one_leader_per_term : forall servers prm w0 w, cluster_okay servers -> initial servers w0 -> reach servers prm w0 w ->
  forall i j t, led servers w i t -> led servers w j t -> i = j.
Proof.
  intros servers prm w0 w HC HI HR i j t [Hi Li] [Hj Lj]. destruct (reach_winv_s servers prm HC w0 w HI HR) as [E _ _ _].
  apply (elected_unique_s servers HC _ _ t i j E Hi Hj); apply (s_led _ _ _ E); try assumption; apply leads_in; assumption.
Qed.
(** a server that is in the leader's role has become leader in its term ... *)
Theorem C35_leader_led : forall servers prm w0 w, cluster_okay servers -> initial servers w0 -> reach servers prm w0 w ->
  forall i n, In i (ids servers) -> w_sys w i = Up n -> n_role n = Leader -> led servers w i (n_term n).
Proof.
  intros servers prm w0 w HC HI HR i n Hi Hn Hr. destruct (reach_winv_s servers prm HC w0 w HI HR) as [E _ _ _]. split; [exact Hi|]. apply leads_in.
  apply (s_role _ _ _ E i n Hi Hn Hr).
Qed.
(** ... so no two servers are leader of a term at a time either *)
Theorem C35_one_leader_at_a_time : forall servers prm w0 w, cluster_okay servers -> initial servers w0 -> reach servers prm w0 w ->
  forall i j n m, In i (ids servers) -> In j (ids servers) ->
  w_sys w i = Up n -> w_sys w j = Up m -> n_role n = Leader -> n_role m = Leader -> n_term n = n_term m -> i = j.
Proof.
  intros servers prm w0 w HC HI HR i j n m Hi Hj Hn Hm Rn Rm T. apply (C35_one_leader_per_term servers prm w0 w HC HI HR i j (n_term n)).
  - apply (C35_leader_led servers prm w0 w HC HI HR); assumption.
  - rewrite T. apply (C35_leader_led servers prm w0 w HC HI HR); assumption.
Qed.

(** C36: if two logs hold entries with the same index and term, they are identical up to that index *)
Theorem C36_log_matching_partial : forall servers prm w0 w, cluster_okay servers -> no_snapshots prm -> initial servers w0 -> reach servers prm w0 w ->
  forall i j k e f, In i (ids servers) -> In j (ids servers) ->
  a_get (log_of w i) k = Some e -> a_get (log_of w j) k = Some f -> ev_term e = ev_term f -> agree k (log_of w i) (log_of w j).
Proof.
  intros servers prm w0 w HC HS HI HR i j k e f Hi Hj Ge Gf T. destruct (reach_winv servers prm HC HS w0 w HI HR) as [_ (tl & L) _ _ _].
  apply (matches_agree tl _ _ k e f); try assumption; apply (l_logs _ _ _ _ L); assumption.
Qed.

(** C38, the part that holds: two servers that apply entries with the same index and the
    same term apply the same entry *)
Theorem C38_same_term_same_entry_partial : forall servers prm w0 w, cluster_okay servers -> no_snapshots prm -> initial servers w0 -> reach servers prm w0 w ->
  forall i j k e f, applied servers w i k e -> applied servers w j k f -> ev_term e = ev_term f -> e = f.
Proof.
  intros servers prm w0 w HC HS HI HR i j k e f [Hi Ae] [Hj Af] T. destruct (reach_winv servers prm HC HS w0 w HI HR) as [_ (tl & L) _ _ _].
  assert (Ge := l_app _ _ _ _ L i k e Hi Ae). assert (Gf := l_app _ _ _ _ L j k f Hj Af). rewrite T in Ge. congruence.
Qed.

(** ** Concrete clusters *)

(** server 1 leads term 1 and writes "a" at index 2, then server 2 leads term 2 with the vote of
    3 and writes "b" at index 2; neither is replicated.  Server 1 leads term 3, again with the
    vote of 3, copies its log to 3 and applies "a" ... *)
Definition fig8_1 : list kcmd :=
  [KStart 1; KStart 2; KStart 3; KDo 1 EElection; KRpc 1 2 0; KDo 1 (EReplicate 0 [x61]);
   KDo 2 EElection; KRpc 2 3 0; KDo 2 (EReplicate 0 [x62]); KDeliver 2 1 1;
   KDo 1 EElection; KRpc 1 3 0; KRpc 1 3 0; KRpc 1 3 0; KDo 1 ECommit; KDo 1 ECommit; KDo 1 ECommit]%Z.
(** ... server 2 hears of term 3, leads term 4 with the vote of 3, overwrites the log of 3 and
    applies "b" *)
Definition fig8_2 : list kcmd :=
  [KDeliver 1 2 1; KDo 2 EElection; KRpc 2 3 0; KRpc 2 3 0; KRpc 2 3 0; KRpc 2 3 0; KDo 2 ECommit; KDo 2 ECommit; KDo 2 ECommit]%Z.
Definition fig8 : world := ex_run (fig8_1 ++ fig8_2).

(** C38 as stated does not hold: the leader counts copies of an entry of an earlier term
    (handle_append_entries_resp, src/raft_server_resp_handlers.cxx), so the schedule of
    Figure 8 of the Raft paper makes two servers apply different entries at index 2 *)
Theorem C38_same_entry_refuted : exists servers prm w0 w i j k e f,
  cluster_okay servers /\ no_snapshots prm /\ initial servers w0 /\ reach servers prm w0 w /\
  applied servers w i k e /\ applied servers w j k f /\ ev_data e <> ev_data f.
Proof.
  exists ex_servers, (fun _ => ex_prm), ex_world, fig8, 1%Z, 2%Z, 2, (mkEV 1 app_log [x61]), (mkEV 2 app_log [x62]).
  split; [exact ex_okay|]. split; [exact ex_nosnap|]. split; [exact ex_initial|]. split; [apply ex_reach|].
  assert (A : forall i k e, existsb (Z.eqb i) (ids ex_servers) = true -> In (k, e) (commits (w_acts fig8 i)) -> applied ex_servers fig8 i k e).
  { intros i k e Hi H. split; [apply (memb_in ex_servers (fun _ => ex_prm)), Hi|]. induction (w_acts fig8 i) as [|a l IH]; [destruct H|].
    destruct a; try (right; apply IH; exact H). destruct H as [H|H]; [inversion H; left; reflexivity | right; apply IH, H]. }
  split; [apply A; vm_compute; auto|]. split; [apply A; vm_compute; auto|]. discriminate.
Qed.

(** an ordinary run: server 1 is elected, replicates an entry to the others, all apply it *)
Definition calm : list kcmd :=
  [KStart 1; KStart 2; KStart 3; KDo 1 EElection; KRpc 1 2 0; KDo 1 (EReplicate 0 [x61]); KRpc 1 2 0; KRpc 1 3 0; KRpc 1 2 0; KRpc 1 3 0;
   KDo 1 ECommit; KDo 1 ECommit; KDo 1 ECommit; KRpc 1 2 0; KRpc 1 3 0; KDo 2 ECommit; KDo 2 ECommit; KDo 2 ECommit]%Z.

(** the hypotheses of the theorems are met *)
Lemma fig8_reach : reach ex_servers (fun _ => ex_prm) ex_world fig8.
Proof. apply ex_reach. Qed.
Opaque fig8.
Example C35_example : led ex_servers fig8 1%Z 1 /\ led ex_servers fig8 2%Z 2 /\ led ex_servers fig8 1%Z 3 /\ led ex_servers fig8 2%Z 4 /\
  (forall j, led ex_servers fig8 j 3 -> j = 1%Z).
Proof.
  assert (A : forall i t, memb ex_servers i = true -> In t (leads (w_acts fig8 i)) -> led ex_servers fig8 i t).
  { intros i t Hi H. split; [apply (memb_in ex_servers (fun _ => ex_prm)), Hi | exact (proj1 (leads_in (w_acts fig8 i) t) H)]. }
  assert (B : led ex_servers fig8 1%Z 3) by (apply A; vm_compute; auto).
  split; [apply A; vm_compute; auto|]. split; [apply A; vm_compute; auto|]. split; [exact B|]. split; [apply A; vm_compute; auto|]. intros j Hj.
  apply (C35_one_leader_per_term ex_servers (fun _ => ex_prm) ex_world fig8 ex_okay ex_initial fig8_reach j 1%Z 3 Hj B).
Qed.
(** C35 with snapshots: server 1 leads term 1, makes a snapshot, is started again and leads
    term 2; it sends the snapshot to server 3, which installs it and leads term 3 *)
Definition shipped_prm : params := mkParams 300 150 75 25 1000 10 2 1 100 0 false true.
Definition shipped_cmds : list kcmd :=
  [KStart 1; KStart 2; KStart 3; KDo 1 EElection; KRpc 1 2 0; KRpc 1 2 0; KRpc 1 3 0;
   KDo 1 (EReplicate 0 [x61]); KRpc 1 2 0; KRpc 1 3 0; KRpc 1 3 0; KDo 1 (EReplicate 0 [x62]); KRpc 1 2 0; KRpc 1 2 0;
   KDo 1 ECommit; KDo 1 ECommit; KDo 1 ECommit; KSnap 1 [x01; x02];
   KCrash 1 (EHeartbeat 2) 0; KStart 1; KDo 1 EElection; KRpc 1 2 0; KRpc 1 3 0; KRpc 1 3 0; KRpc 1 3 0; KRpc 1 3 0;
   KDo 3 EElection; KRpc 3 1 0]%Z.
Definition shipped : world := ex_run_with shipped_prm shipped_cmds.
Lemma shipped_reach : reach ex_servers (fun _ => shipped_prm) ex_world shipped.
Proof. apply ex_reach_with. Qed.
Opaque shipped.
Lemma makes_snapshot : forall l, existsb (fun a => match a with ACreateSnapshot _ => true | _ => false end) l = true -> exists s, In (ACreateSnapshot s) l.
Proof. intros l H. apply existsb_exists in H. destruct H as (a & Ha & Pa). destruct a; try discriminate. eauto. Qed.
Lemma installs_snapshot : forall l, existsb (fun a => match a with AApplySnapshot _ => true | _ => false end) l = true -> exists s, In (AApplySnapshot s) l.
Proof. intros l H. apply existsb_exists in H. destruct H as (a & Ha & Pa). destruct a; try discriminate. eauto. Qed.
Example C35_example_snapshots : ~ no_snapshots (fun _ => shipped_prm) /\
  (exists s, In (ACreateSnapshot s) (w_acts shipped 1%Z)) /\ (exists s, In (AApplySnapshot s) (w_acts shipped 3%Z)) /\
  led ex_servers shipped 1%Z 1 /\ led ex_servers shipped 1%Z 2 /\ led ex_servers shipped 3%Z 3 /\ (forall j, led ex_servers shipped j 3 -> j = 3%Z).
Proof.
  assert (A : forall i t, memb ex_servers i = true -> In t (leads (w_acts shipped i)) -> led ex_servers shipped i t).
  { intros i t Hi H. split; [apply (memb_in ex_servers (fun _ => ex_prm)), Hi | exact (proj1 (leads_in (w_acts shipped i) t) H)]. }
  assert (B : led ex_servers shipped 3%Z 3) by (apply A; vm_compute; auto).
  split; [intros H; specialize (H 1%Z); vm_compute in H; discriminate|].
  split; [apply makes_snapshot; vm_compute; reflexivity|]. split; [apply installs_snapshot; vm_compute; reflexivity|].
  split; [apply A; vm_compute; auto|]. split; [apply A; vm_compute; auto|]. split; [exact B|]. intros j Hj.
  apply (C35_one_leader_per_term ex_servers (fun _ => shipped_prm) ex_world shipped ex_okay ex_initial shipped_reach j 3%Z 3 Hj B).
Qed.
Example C36_example : exists e f, a_get (log_of fig8 2) 2 = Some e /\ a_get (log_of fig8 3) 2 = Some f /\ ev_term e = ev_term f /\
  agree 2 (log_of fig8 2) (log_of fig8 3) /\ ~ agree 2 (log_of fig8 1) (log_of fig8 2).
Proof.
  exists (mkEV 2 app_log [x62]), (mkEV 2 app_log [x62]).
  assert (G2 : a_get (log_of fig8 2) 2 = Some (mkEV 2 app_log [x62])) by (vm_compute; reflexivity).
  assert (G3 : a_get (log_of fig8 3) 2 = Some (mkEV 2 app_log [x62])) by (vm_compute; reflexivity).
  split; [exact G2|]. split; [exact G3|]. split; [reflexivity|]. split.
  - apply (C36_log_matching_partial ex_servers (fun _ => ex_prm) ex_world fig8 ex_okay ex_nosnap ex_initial fig8_reach 2%Z 3%Z 2 _ _
      ltac:(cbn; auto) ltac:(cbn; auto) G2 G3 eq_refl).
  - intros H. specialize (H 2 (N.le_refl 2)). rewrite G2 in H. vm_compute in H. discriminate.
Qed.
Example C38_example : applied ex_servers (ex_run calm) 1%Z 2 (mkEV 1 app_log [x61]) /\ applied ex_servers (ex_run calm) 2%Z 2 (mkEV 1 app_log [x61]).
Proof.
  assert (A : forall i k e, memb ex_servers i = true -> In (k, e) (commits (w_acts (ex_run calm) i)) -> applied ex_servers (ex_run calm) i k e).
  { intros i k e Hi H. split; [apply (memb_in ex_servers (fun _ => ex_prm)), Hi|]. induction (w_acts (ex_run calm) i) as [|a l IH]; [destruct H|].
    destruct a; try (right; apply IH; exact H). destruct H as [H|H]; [inversion H; left; reflexivity | right; apply IH, H]. }
  split; apply A; vm_compute; auto.
Qed.

Print Assumptions C35_one_leader_per_term.
Print Assumptions C35_leader_led.
Print Assumptions C35_one_leader_at_a_time.
Print Assumptions C36_log_matching_partial.
Print Assumptions C38_same_term_same_entry_partial.
Print Assumptions C38_same_entry_refuted.
