(** * ClusterWalk: what servers send when nobody changes the membership *)

From Verif Require Import Base Buffer Codec CodecSpec Msg FsLogStore FsLogSpec Alog
  Raft RaftQuiet RaftWalk WalkAll NodeSpec NodeFacts Cluster ClusterElect.
Local Open Scope N_scope.

Definition ordinary (a : act) : Prop :=
  match a with
  | ASend _ true q => rq_type q = prevote_request
  | ARetryLater _ _ | ACreateSnapshot _ => False
  | _ => True
  end.
Definition r_ord : rel := fun n l n' => n_prm n' = n_prm n /\ (pm_snp_distance (n_prm n) = 0 -> Forall ordinary l).
#[global] Instance r_ord_pre : preorder r_ord.
Proof.
  split; unfold r_ord; [split; [reflexivity | intros; constructor]|].
  intros n l n1 l1 n2 [H1 H2] [H3 H4]. split; [congruence|]. intros Z. apply Forall_app. split; [apply H2, Z | apply H4; congruence].
Qed.
Ltac ord1 := split; [unfold upd_peer; repeat match goal with |- context [match ?x with _ => _ end] => destruct x end; reflexivity |
                     intros _; first [constructor; fail | constructor; [exact I | constructor] | constructor; [reflexivity | constructor]]].

Lemma snapshot_ord : forall i n, ht r_ord yes (snapshot_and_compact i) n.
Proof.
  intros i n. destruct (pm_snp_distance (n_prm n) =? 0) eqn:Z.
  - unfold snapshot_and_compact. apply ht_bget. cbv beta zeta. rewrite Z. cbn [orb]. apply ht_ret; [exact _ | exact I].
  - assert (K : ht (keeps n_prm) yes (snapshot_and_compact i) n).
    { unfold snapshot_and_compact. open_prims. wall ltac:(kp). }
    intros r n' l E. destruct (K _ _ _ E) as [H _]. split; [|intros; exact I]. split; [exact H|]. intros Z2. lia.
Qed.
Lemma event_ordinary : forall e n, fe e -> ht r_ord yes (run_event e) n.
Proof.
  set (R := r_ord). assert (P : preorder R) by exact _. assert (W_sna : forall i n, ht R yes (snapshot_and_compact i) n) by exact snapshot_ord.
  walk_base R ltac:(unfold R; ord1). walk_down R ltac:(unfold R; ord1). walk_reconf R ltac:(unfold R; ord1). walk_lead R ltac:(unfold R; ord1).
  walk_cand R ltac:(unfold R; ord1). walk_prevote R ltac:(unfold R; ord1). walk_election R ltac:(unfold R; ord1). walk_hb R ltac:(unfold R; ord1).
  assert (W_aer : forall q n, ht R yes (handle_append_entries q) n) by (intros; unfold handle_append_entries; open_prims; wall ltac:(unfold R; ord1)).
  assert (W_vrq : forall q n, ht R yes (handle_vote_req q) n) by (intros; unfold handle_vote_req; open_prims; wall ltac:(unfold R; ord1)).
  assert (W_cli : forall now q n, ht R yes (handle_cli_req now q) n) by (intros; unfold handle_cli_req; open_prims; wall ltac:(unfold R; ord1)).
  assert (W_pre : forall q n, ht R yes (handle_prevote_req q) n) by (intros; unfold handle_prevote_req; open_prims; wall ltac:(unfold R; ord1)).
  assert (W_pro : forall now q n, rq_type q = append_entries_request \/ rq_type q = vote_request \/ rq_type q = prevote_request \/ rq_type q = client_request ->
    ht R yes (process_req now q) n).
  { intros now q n H. unfold process_req, handle_extended_msg. destruct H as [H|[H|[H|H]]]; rewrite H; wall ltac:(unfold R; ord1); try discriminate. }
  assert (W_aes : forall r n, ht R yes (handle_append_entries_resp r) n) by (intros; unfold handle_append_entries_resp; open_prims; wall ltac:(unfold R; ord1)).
  assert (W_iss : forall r n, ht R yes (handle_install_snapshot_resp r) n) by (intros; unfold handle_install_snapshot_resp; open_prims; wall ltac:(unfold R; ord1)).
  assert (W_vrs : forall r n, ht R yes (handle_voting_resp r) n) by (intros; unfold handle_voting_resp; open_prims; wall ltac:(unfold R; ord1)).
  assert (W_per : forall now r n, ht R yes (handle_peer_resp now r) n) by (intros; unfold handle_peer_resp; open_prims; wall ltac:(unfold R; ord1)).
  walk_prevote_resp R ltac:(unfold R; ord1).
  assert (W_cst : forall n, ht R yes commit_step n) by (intros; unfold commit_step; open_prims; wall ltac:(unfold R; ord1)).
  assert (W_rep : forall now d n, ht R yes (replicate_log now d) n) by (intros; unfold replicate_log; open_prims; wall ltac:(unfold R; ord1)).
  assert (W_app : forall now l n, ht R yes (append_entries now l) n).
  { intros ? l ?; unfold append_entries; destruct l; unfold send_msg_to_leader; open_prims; wall ltac:(unfold R; ord1); apply W_pro; right; right; right; reflexivity. }
  intros e n F. destruct e as [| |now q|now uid ext q r| | | | | | |]; try destruct F; cbn [run_event]; wall ltac:(unfold R; ord1); try (apply W_pro; cbn in *; tauto).
  - apply W_pro. destruct H as [H|[H|H]]; [tauto | tauto|]. unfold client_req in H. tauto.
  - unfold rpc_done. destruct ext, r as [r|]; cbn in F.
    + unfold handle_ext_resp. rewrite F. wall ltac:(unfold R; ord1); discriminate.
    + unfold handle_ext_resp_err. rewrite F. wall ltac:(unfold R; ord1); discriminate.
    + wall ltac:(unfold R; ord1).
    + cbn [when]. wall ltac:(unfold R; ord1).
Qed.
