(** * P_Compact: snapshots and the log (C51, C61) *)

From Verif Require Import Base Buffer Codec CodecSpec Msg FsLogStore FsLogSpec Alog Raft RaftQuiet RaftTrace RaftTrace2 RaftTrace3 RaftWalk WalkAll NodeSpec NodeLife ServerSpec NodeFacts AppendFacts NodeExamples Cluster ClusterElect ClusterExamples P_Commit P_Out Runs ServeFacts P_Serve P_Snap.
Local Open Scope N_scope.

(** ** Which events ask for a snapshot, which compact *)
Definition creates (P : snapshot -> Prop) (a : act) : Prop := match a with ACreateSnapshot s => P s | _ => True end.
Definition compacts (P : N -> Prop) (a : act) : Prop := match a with ACompact k => P k | _ => True end.

Lemma create_only : forall e n, e <> ECommit -> ht (acts (creates (fun _ => False))) yes (run_event e) n.
Proof.
  set (R := acts (creates (fun _ => False))). assert (P : preorder R) by exact _.
  walk_base R ltac:(repeat constructor). walk_down R ltac:(repeat constructor). walk_reconf R ltac:(repeat constructor). walk_lead R ltac:(repeat constructor).
  walk_cand R ltac:(repeat constructor). walk_prevote R ltac:(repeat constructor). walk_election R ltac:(repeat constructor). walk_hb R ltac:(repeat constructor).
  walk_reqs R ltac:(repeat constructor). walk_join R ltac:(repeat constructor). walk_leave R ltac:(repeat constructor). walk_process R ltac:(repeat constructor).
  walk_resps R ltac:(repeat constructor). walk_prevote_resp R ltac:(repeat constructor). walk_ext_resp R ltac:(repeat constructor).
  assert (W_snc : forall s d ok n, ht R yes (on_snapshot_completed s d ok) n) by (intros; unfold on_snapshot_completed; open_prims; wall ltac:(repeat constructor)).
  assert (W_rep : forall now d n, ht R yes (replicate_log now d) n) by (intros; unfold replicate_log; open_prims; wall ltac:(repeat constructor)).
  walk_api R ltac:(repeat constructor). walk_rpc R ltac:(repeat constructor).
  intros e n He. destruct e; try (destruct (He eq_refl)); cbn [run_event]; unfold retry; wall ltac:(repeat constructor). apply W_rpc.
Qed.

Lemma find_conf_rel : forall (R : rel) {P : preorder R} k c cfg n, ht R yes (find_conf k c cfg) n.
Proof. intros. apply find_conf_gen. exact _. Qed.

(** the snapshot [s] ends with entry [i] of the log [lg] *)
Definition ends_at (i : N) (lg : alog) (s : snapshot) : Prop :=
  sn_last_log_idx s = i /\ exists e, a_get lg i = Some e /\ sn_last_log_term s = ev_term e.
Definition asks (i : N) (lg : alog) : rel := fun n l n' => n_log n = lg -> n_log n' = lg /\ n_smc n' = n_smc n /\ Forall (creates (ends_at i lg)) l.
#[export] Instance asks_pre : forall i lg, preorder (asks i lg).
Proof.
  intros i lg. split; [intros n H; split; [exact H | split; [reflexivity | constructor]]|].
  intros n l n1 l1 n2 H1 H2 H. destruct (H1 H) as (A1 & A2 & A3). destruct (H2 A1) as (B1 & B2 & B3).
  split; [exact B1|]. split; [congruence | apply Forall_app; auto].
Qed.
Ltac askt := idtac; let H := fresh in intros H; cbv beta delta [upd_peer]; repeat match goal with |- context [match ?x with _ => _ end] => destruct x end; (split; [exact H | split; [reflexivity | repeat constructor]]).
Lemma term_asks : forall i lg c n, ht (asks i lg) yes (t <- log_term_at i ;; emit (ACreateSnapshot (mkSnp i t 0 c))) n.
Proof.
  intros i lg c n r n' l E. split; [|intros; exact I]. intros Hl. unfold log_term_at in E. rewrite bind_assoc, bind_get in E.
  destruct (i <? al_start (n_log n)); [cbn in E; inversion E; subst; split; [reflexivity | split; [reflexivity | constructor]]|].
  destruct (a_get (n_log n) i) as [e|] eqn:Ee; [|cbn in E; inversion E; subst; split; [reflexivity | split; [reflexivity | constructor]]].
  rewrite bind_ret in E. cbn in E. inversion E; subst. split; [reflexivity|]. split; [reflexivity|]. constructor; [|constructor].
  cbn. split; [reflexivity|]. exists e. auto.
Qed.
Lemma snapshot_asks : forall i lg n, ht (asks i lg) yes (snapshot_and_compact i) n.
Proof.
  intros i lg n. unfold snapshot_and_compact, start_index_.
  repeat first [apply term_asks | apply find_conf_rel; exact _ | wstep askt].
Qed.

(** what committing one entry asks for *)
Lemma commit_asks : forall n r n' l s, run_event ECommit n = (r, n', l) -> In (ACreateSnapshot s) l ->
  n_smc n' = n_smc n + 1 /\ ends_at (n_smc n') (n_log n') s /\ n_smc n < n_quick n.
Proof.
  intros n r n' l s H Hin. cbn [run_event] in H. unfold bind in H. destruct (commit_step n) as [[r0 n0] l0] eqn:E.
  assert (X : n' = n0 /\ l = l0) by (destruct r0 as [[]| | |]; cbn in H; inversion H; subst; rewrite ?app_nil_r; auto).
  destruct X as (-> & ->). clear H.
  destruct (N.lt_decidable (n_smc n) (n_quick n)) as [D1|D1]; [|rewrite commit_step_idle in E by tauto; inversion E; subst; destruct Hin].
  destruct (N.lt_decidable (n_smc n + 1) (a_next (n_log n))) as [D2|D2]; [|rewrite commit_step_idle in E by tauto; inversion E; subst; destruct Hin].
  rewrite (commit_step_eq n D1 D2) in E. set (i := n_smc n + 1) in *.
  assert (G : ht (asks i (n_log n)) yes (catch (o <- log_entry_at i ;; e <- deref o ;; apply_entry i e) (system_exit (-1))) (set_smc i n)).
  { assert (Wr : forall c m, ht (asks i (n_log n)) yes (reconfigure c) m) by (intros; unfold reconfigure; open_prims; wall askt).
    unfold apply_entry. open_prims. repeat first [apply Wr | apply snapshot_asks | wstep askt]. }
  destruct (G _ _ _ E) as [K _]. destruct (K eq_refl) as (K1 & K2 & K3). change (n_smc (set_smc i n)) with i in K2.
  rewrite K1, K2. split; [reflexivity|]. split; [|exact D1]. rewrite Forall_forall in K3. exact (K3 _ Hin).
Qed.

(** ** C51 *)
Lemma compact_event : forall e n r n' l k, 1 <= al_start (n_log n) -> run_event e n = (r, n', l) -> In (ACompact k) l ->
  is_req install_snapshot_request e \/ exists s data ok, e = ESnapshot s data ok.
Proof.
  intros e n r n' l k Hs H Hin. assert (T := proj1 (run_event_tr e n Hs _ _ _ H)). clear H Hs. induction T as [|n0 l0 n1 l1 n2 A T IH]; [destruct Hin|].
  apply in_app_or in Hin. destruct Hin as [Hin|Hin]; [|apply IH; exact Hin].
  assert (K : (exists q, req_of e q /\ rq_type q = install_snapshot_request) \/ (exists s d ok, e = ESnapshot s d ok)).
  2: { destruct K as [(q & (now & E) & Ht)|K]; [left; exists now, q; auto | right; exact K]. }
  destruct A; try (destruct Hin as [Hin|[]]; discriminate Hin); try destruct Hin as []; try assumption.
  - destruct H as (ps & q & j & _ & _ & _ & _ & Hl). rewrite Forall_forall in Hl. destruct (Hl _ Hin).
  - rewrite Forall_forall in H0. destruct (H0 _ Hin).
  - destruct H1 as (H1 & _). rewrite Forall_forall in H1. destruct (H1 _ Hin) as [[]|X]. discriminate X.
Qed.

(** the part of an event that installs a snapshot *)
Lemma sync_compacts : forall s n r n' l k, handle_snapshot_sync_req s n = (r, n', l) -> In (ACompact k) l ->
  k = sn_last_log_idx (sv_snp s) /\ (goes_on r = true -> n_smc n' = k /\ In (AApplySnapshot (sv_snp s)) l).
Proof.
  intros s n r n' l k H Hin. unfold handle_snapshot_sync_req in H. apply catch_exit in H. destruct H as (r0 & l0 & E & C).
  assert (G : In (ACompact k) l0 -> k = sn_last_log_idx (sv_snp s) /\ (forall b, r0 = ROk b -> n_smc n' = k /\ In (AApplySnapshot (sv_snp s)) l0)).
  2:{ destruct C as [(-> & -> & C) | (-> & ->)].
      - destruct (G Hin) as (G1 & G2). split; [exact G1|]. intros Hg. rewrite C in Hg. destruct r0; try discriminate. apply (G2 a eq_refl).
      - apply in_app_or in Hin. destruct Hin as [Hin|[Hin|[]]]; [|discriminate Hin]. split; [apply (G Hin) | discriminate]. }
  clear C r l Hin. intros Hin. rewrite bind_emit in E. cbv beta in E. set (n1 := set_disk _ n) in *. clearbody n1. clear n.
  destruct (sv_done s); [|inversion E; subst; destruct Hin as [X|[]]; discriminate X].
  rewrite bind_get in E. destruct (n_role n1); [|inversion E; subst; destruct Hin as [X|[X|[]]]; discriminate X..].
  unfold log_compact in E. rewrite bind_assoc, bind_get in E.
  destruct (sn_last_log_idx (sv_snp s) <? al_start (n_log n1)); [cbn in E; inversion E; subst; destruct Hin as [X|[]]; discriminate X|].
  rewrite bind_assoc, bind_emit, bind_ret in E. cbv beta iota in E.
  unfold stop_election_timer in E. rewrite bind_assoc, bind_modify in E. cbv beta in E. rewrite bind_emit in E. cbv beta in E. rewrite bind_emit in E. cbv beta in E.
  match type of E with context [bind (reconfigure ?a) ?b ?m] => change (bind (reconfigure a) b m) with (snp_rest s m) in E; set (n3 := m) in * end.
  destruct (snp_rest s n3) as [[r4 n4] l4] eqn:E4. destruct (snp_rest_ht _ _ _ _ _ E4) as [_ W2].
  assert (W1 : ht (acts (compacts (fun _ => False))) yes (snp_rest s) n3).
  { unfold snp_rest, reconfigure. open_prims. walk ltac:(repeat constructor). }
  destruct (W1 _ _ _ E4) as [W3 _]. unfold acts in W3. rewrite Forall_forall in W3. rewrite !after_after in E. unfold after in E. cbn in E. inversion E; subst. clear E.
  destruct Hin as [X|[X|[X|[X|X]]]]; try discriminate X; [inversion X; subst | destruct (W3 _ X)].
  split; [reflexivity|]. intros b ->. split; [apply (W2 b eq_refl)|]. right. right. right. left. reflexivity.
Qed.

Ltac noin H := cbn [In app] in H; repeat (destruct H as [H|H]; [discriminate H|]); destruct H.
Lemma install_compacts : forall q n r n' l k, handle_install_snapshot_req q n = (r, n', l) -> In (ACompact k) l ->
  n_smc n < k /\ (goes_on r = true -> n_smc n' = k /\ exists s, sn_last_log_idx s = k /\ In (AApplySnapshot s) l).
Proof.
  intros q n r n' l k H Hin. unfold handle_install_snapshot_req in H. rewrite bind_get in H.
  match type of H with bind ?m _ n = _ => destruct (m n) as [[r1 n1] l1] eqn:E1; assert (W : ht (both (keeps n_smc) (acts (compacts (fun _ => False)))) yes m n) end.
  { unfold become_follower, restart_election_timer. walk ltac:(unfold both, acts; split; [kp | repeat constructor]). }
  destruct (W _ _ _ E1) as [[W1 W2] _]. unfold keeps in W1. unfold acts in W2. rewrite Forall_forall in W2. clear W.
  destruct r1 as [[]| | |]; [|unfold bind at 1 in H; rewrite E1 in H; inversion H; subst; destruct (W2 _ Hin)..].
  rewrite (bind_ok _ _ _ _ _ _ _ _ E1) in H.
  match type of H with after _ ?x = _ => destruct x as [[r2 n2] l2] eqn:E end. inversion H; subst. clear H.
  apply in_app_or in Hin. destruct Hin as [Hin|Hin]; [destruct (W2 _ Hin)|].
  destruct (_ && _); [inversion E; subst; noin Hin|].
  destruct (rq_entries q) as [|e0 [|? ?]]; [inversion E; subst; noin Hin | | inversion E; subst; noin Hin].
  destruct (negb _); [inversion E; subst; noin Hin|].
  unfold bind at 1, lift in E. destruct (parse_sync (ev_data e0)) as [s| |]; [|inversion E; subst; noin Hin..].
  rewrite bind_get in E. destruct (sn_last_log_idx (sv_snp s) <=? n_smc n1) eqn:El; [inversion E; subst; noin Hin|].
  unfold bind in E. destruct (handle_snapshot_sync_req s n1) as [[r3 n3] l3] eqn:E3.
  assert (X : n3 = n' /\ l3 = l2 /\ goes_on r = goes_on r3).
  { destruct r3; cbn in E; inversion E; subst; rewrite ?app_nil_r; repeat split. }
  destruct X as (-> & -> & Hg). destruct (sync_compacts _ _ _ _ _ _ E3 Hin) as [G1 G2].
  split; [lia|]. rewrite Hg. intros K. destruct (G2 K) as (G3 & G4). split; [exact G3|]. exists (sv_snp s). split; [congruence | apply in_or_app; right; exact G4].
Qed.

(** the server's own snapshot *)
Lemma own_eq : forall s data n,
  run_event (ESnapshot s data true) n =
  let n1 := set_snp (Some s) (set_disk (disk_apply (n_disk n) (ASnapshotMade s data)) n) in
  let k := sn_last_log_idx s - pm_reserved (n_prm n) in
  if pm_reserved (n_prm n) <? sn_last_log_idx s then
    if k <? al_start (n_log n) then (RThrow RangeError, n1, [ASnapshotMade s data])
    else (ROk Nothing, set_snp_busy false (set_disk (disk_apply (n_disk n1) (ACompact k)) n1), [ASnapshotMade s data; ACompact k])
  else (ROk Nothing, set_snp_busy false n1, [ASnapshotMade s data]).
Proof.
  intros s data n. cbn [run_event]. unfold on_snapshot_completed. cbn [when].
  rewrite !bind_assoc, bind_emit. cbv beta. rewrite !bind_assoc, bind_modify. cbv beta. rewrite !bind_assoc, bind_get. cbv beta zeta.
  change (n_prm (set_snp (Some s) (set_disk (disk_apply (n_disk n) (ASnapshotMade s data)) n))) with (n_prm n).
  destruct (pm_reserved (n_prm n) <? sn_last_log_idx s); cbn [when]; [|reflexivity].
  unfold log_compact. rewrite !bind_assoc, bind_get.
  change (n_log (set_snp (Some s) (set_disk (disk_apply (n_disk n) (ASnapshotMade s data)) n))) with (n_log n).
  destruct (sn_last_log_idx s - pm_reserved (n_prm n) <? al_start (n_log n)); reflexivity.
Qed.
Lemma failed_eq : forall s data n, run_event (ESnapshot s data false) n = (ROk Nothing, set_snp_busy false n, []).
Proof. reflexivity. Qed.

(** A snapshot the server made: it is complete before anything is removed, and the entries from
    [idx s - reserved + 1] stay, [reserved] many of those the snapshot covers. *)
Theorem C51_own_snapshot : forall s data ok n r n' l k,
  run_event (ESnapshot s data ok) n = (r, n', l) -> In (ACompact k) l ->
  l = [ASnapshotMade s data; ACompact k] /\ k + pm_reserved (n_prm n) = sn_last_log_idx s /\
  al_start (n_log n') = k + 1 /\ n_smc n' = n_smc n /\
  forall i, k < i -> a_get (n_log n') i = a_get (n_log n) i.
Proof.
  intros s data ok n r n' l k H Hin. destruct ok; [|rewrite failed_eq in H; inversion H; subst; destruct Hin].
  rewrite own_eq in H. cbv zeta in H. destruct (_ <? sn_last_log_idx s) eqn:E1; [|inversion H; subst; noin Hin].
  destruct (_ <? al_start _) eqn:E2; [inversion H; subst; noin Hin|]. inversion H; subst. clear H.
  destruct Hin as [X|[X|[]]]; [discriminate X|]. inversion X; subst. clear X.
  split; [reflexivity|]. split; [lia|]. cbn [n_log n_disk set_snp_busy set_snp set_disk disk_apply dk_log].
  split; [reflexivity|]. split; [reflexivity|]. intros i Hi. apply N.ltb_ge in E2.
  change (a_get (a_compact (n_log n) (sn_last_log_idx s - pm_reserved (n_prm n))) i = a_get (n_log n) i). rewrite a_get_compact by lia. replace (i <=? _) with false by lia. reflexivity.
Qed.

(** every snapshot the server asks for ends at or before the last applied entry *)
Lemma created_applied : forall n h n', 1 <= al_start (n_log n) -> NodeSpec.runs n h n' -> without join_cluster_request h ->
  1 <= al_start (n_log n') /\ n_prm n' = n_prm n /\ n_smc n <= n_smc n' /\ forall s, In (ACreateSnapshot s) (acts_of h) -> sn_last_log_idx s <= n_smc n'.
Proof.
  intros n h n' Hs H. revert Hs. induction H as [n|n e r n1 l h n2 E G H IH]; intros Hs Hj.
  { split; [exact Hs|]. split; [reflexivity|]. split; [lia|]. intros s []. }
  apply without_cons in Hj. destruct Hj as [Hj Hjw].
  assert (Hj' : ~ is_req join_cluster_request e) by (intros (now & q & X & Ht); apply Hj; exists now, q; split; assumption).
  destruct (IH (tr_start _ _ _ _ (proj1 (run_event_tr e n Hs _ _ _ E)) Hs) Hjw) as (I1 & I2 & I3 & I4).
  assert (M := C31_applied_index e n r n1 l Hs E Hj').
  assert (P : n_prm n1 = n_prm n) by (destruct (walk_test e n _ _ _ E) as [K _]; unfold keeps in K; congruence).
  split; [exact I1|]. split; [congruence|]. split; [lia|].
  intros s Hin. change (In (ACreateSnapshot s) (l ++ acts_of h)) in Hin. apply in_app_or in Hin. destruct Hin as [Hin|Hin]; [|apply I4; exact Hin].
  assert (De : e = ECommit \/ e <> ECommit) by (destruct e; ((left; reflexivity) || (right; discriminate))).
  destruct De as [->|De].
  - destruct (commit_asks _ _ _ _ _ E Hin) as (_ & (K & _) & _). lia.
  - destruct (create_only e n De _ _ _ E) as [K _]. unfold acts in K. rewrite Forall_forall in K. destruct (K _ Hin).
Qed.

(** Whatever the server removes from its log while it goes on, its state machine has taken in,
    and a snapshot covers it: one the server asked for and was told is complete, or one it
    installed in that step.
    Missing: joining a cluster sets the applied index back; the process can stop in the middle
    of installing a snapshot ([C51_crash_refuted]). *)
Theorem C51_compact_partial : forall id pm d h n e r n' l k,
  disk_okay d -> NodeSpec.runs (start_node id pm d) h n -> without join_cluster_request h ->
  (forall s data ok, e = ESnapshot s data ok -> In (ACreateSnapshot s) (acts_of h)) ->
  run_event e n = (r, n', l) -> goes_on r = true -> In (ACompact k) l ->
  k <= n_smc n' /\
  exists s, (In (AApplySnapshot s) l /\ sn_last_log_idx s = k) \/
            (exists data, In (ASnapshotMade s data) l /\ sn_last_log_idx s = k + pm_reserved pm).
Proof.
  intros id pm d h n e r n' l k Hd HR Hj Hc H Hg Hin.
  assert (S0 : 1 <= al_start (n_log (start_node id pm d)) /\ n_prm (start_node id pm d) = pm).
  { unfold start_node, n_log. destruct (dk_state d) as [[t v]|]; (split; [exact Hd | reflexivity]). }
  destruct S0 as [S0 P0]. destruct (created_applied _ _ _ S0 HR Hj) as (S1 & P1 & _ & A). rewrite P0 in P1.
  destruct (compact_event e n r n' l k S1 H Hin) as [(now & q & -> & Ht)|(s & data & ok & ->)].
  - cbn [run_event] in H. unfold bind in H. destruct (process_req now q n) as [[r1 n1] l1] eqn:E.
    assert (X : n' = n1 /\ l = l1 /\ goes_on r = goes_on r1) by (destruct r1; cbn in H; inversion H; subst; rewrite ?app_nil_r; auto).
    destruct X as (-> & -> & Eg). rewrite Eg in Hg. clear H Eg.
    rewrite (process_install now q n Ht) in E.
    match type of E with after ?p ?x = _ => assert (Np : ~ In (ACompact k) p); [|destruct x as [[r2 n2] l2] eqn:E2; cbn [after] in E; inversion E; subst; clear E] end.
    { unfold arrived_acts. repeat match goal with |- context [if ?b then _ else _] => destruct b end; intros X; noin X. }
    apply in_app_or in Hin. destruct Hin as [Hin|Hin]; [destruct (Np Hin)|].
    destruct (install_compacts _ _ _ _ _ _ E2 Hin) as [_ K]. destruct (K Hg) as (K1 & s & K2 & K3).
    split; [lia|]. exists s. left. split; [apply in_or_app; right; exact K3 | exact K2].
  - destruct (C51_own_snapshot _ _ _ _ _ _ _ _ H Hin) as (-> & K & _ & Es & _). rewrite P1 in K.
    assert (B := A s (Hc s data ok eq_refl)). split; [lia|]. exists s. right. exists data. split; [left; reflexivity | lia].
Qed.

(** ** C62: installing again after a crash *)
(** the last chunk of a snapshot *)
Definition last_chunk (q : req) (s : snapshot) : Prop :=
  rq_type q = install_snapshot_request /\
  exists e v, rq_entries q = [e] /\ ev_type e = snp_sync_req /\ parse_sync (ev_data e) = Ok v /\ sv_done v = true /\ sv_snp v = s.

Lemma sync_again : forall v n, sv_done v = true -> sn_last_log_idx (sv_snp v) < al_start (n_log n) ->
  exists n' l, handle_snapshot_sync_req v n = (RExit, n', l) /\ n_log n' = n_log n /\ dk_commit (n_disk n') = dk_commit (n_disk n).
Proof.
  intros v n Hd Hi. unfold handle_snapshot_sync_req. rewrite Hd. unfold catch. rewrite bind_emit. cbv beta. rewrite bind_get.
  set (n1 := set_disk _ n). assert (L : n_log n1 = n_log n) by reflexivity.
  change (n_role n1) with (n_role n). destruct (n_role n).
  - unfold log_compact. rewrite bind_assoc, bind_get, L. replace (_ <? _) with true by lia.
    cbn. eexists _, _. split; [reflexivity|]. split; reflexivity.
  - cbn. eexists _, _. split; [reflexivity|]. split; reflexivity.
  - cbn. eexists _, _. split; [reflexivity|]. split; reflexivity.
Qed.
Lemma arrived_log : forall t n, n_log (arrived t n) = n_log n /\ n_smc (arrived t n) = n_smc n /\ dk_commit (n_disk (arrived t n)) = dk_commit (n_disk n).
Proof.
  intros t n. unfold arrived. destruct (n_term n <? t); [|destruct (0 <? n_steps n)%Z; repeat split].
  match goal with |- context [if ?b then _ else _] => destruct b end; repeat split.
Qed.

(** A server whose log starts after the end of a snapshot it does not have ends its process
    when it is sent the last part of that snapshot, and the next time again: neither its log
    nor what it has applied changes. *)
Theorem C62_install_again_refuted : forall n now q s, n_term n <= rq_term q -> last_chunk q s ->
  n_smc n < sn_last_log_idx s < al_start (n_log n) ->
  exists n' l, run_event (ERequest now q) n = (RExit, n', l) /\ n_log n' = n_log n /\ dk_commit (n_disk n') = dk_commit (n_disk n).
Proof.
  intros n now q s Ht (Hty & e & v & He & Hes & Hp & Hd & Hs) [Hi1 Hi2].
  assert (G : exists n' l, handle_install_snapshot_req q (arrived (rq_term q) n) = (RExit, n', l) /\ n_log n' = n_log n /\ dk_commit (n_disk n') = dk_commit (n_disk n)).
  2:{ destruct G as (n' & l & E & G). cbn [run_event]. unfold bind at 1. rewrite (process_install now q n Hty), E. cbn [after]. eexists _, _. split; [reflexivity | exact G]. }
  destruct (arrived_log (rq_term q) n) as (A1 & A2 & A3).
  assert (T : (rq_term q <? n_term (arrived (rq_term q) n)) = false).
  { unfold arrived. destruct (n_term n <? rq_term q) eqn:E; match goal with |- context [if (0 <? ?x)%Z then _ else _] => destruct (0 <? x)%Z end; cbn; lia. }
  set (m := arrived (rq_term q) n) in *. rewrite <- A1, <- A3. rewrite <- A1 in Hi2. rewrite <- A2 in Hi1. clearbody m. clear n Ht A1 A2 A3. subst s.
  unfold handle_install_snapshot_req. rewrite bind_get.
  match goal with |- exists _ _, bind ?k _ m = _ /\ _ => assert (K : (exists m' l, k m = (ROk tt, m', l) /\ n_log m' = n_log m /\ n_smc m' = n_smc m /\ dk_commit (n_disk m') = dk_commit (n_disk m)) \/
     exists m' l, k m = (RExit, m', l) /\ n_log m' = n_log m /\ dk_commit (n_disk m') = dk_commit (n_disk m)) end.
  { destruct (_ && _) eqn:Eb; cbn [when]; [|left; exists m, []; repeat split].
    destruct (n_role m); cbn.
    - left. unfold restart_election_timer, get, bind. destruct (n_catching m); cbn; eexists _, _; repeat split.
    - left. unfold become_follower, restart_election_timer. unfold modify, get, bind; cbn. destruct (n_catching m); cbn; eexists _, _; repeat split.
    - right. eexists _, _. repeat split. }
  destruct K as [(m' & l & E & K1 & K2 & K3)|(m' & l & E & K1 & K3)].
  2:{ unfold bind. rewrite E. eexists _, _. split; [reflexivity|]. split; assumption. }
  rewrite (bind_ok _ _ _ _ _ _ _ _ E). cbv zeta. rewrite T, andb_false_r, He, Hes.
  change (negb (beq snp_sync_req snp_sync_req)) with false. cbv iota. rewrite Hp. unfold bind at 1, lift. rewrite bind_get.
  replace (_ <=? n_smc m') with false by lia. rewrite <- K1 in Hi2.
  destruct (sync_again v m' Hd ltac:(lia)) as (n2 & l2 & E2 & B1 & B2). unfold bind. rewrite E2. cbn [after].
  eexists _, _. split; [reflexivity|]. cbn [fst snd]. split; [rewrite B1; exact K1 | rewrite B2; exact K3].
Qed.

(** actions that leave the log, the applied index and the snapshot as they are *)
Definition calm_act (a : act) : Prop :=
  match a with AAppend _ | AWriteAt _ _ | AApplyPack _ _ | ACompact _ | ACommit _ _ | ASnapshotMade _ _ | AApplySnapshot _ => False | _ => True end.
Definition kept (d : disk) := (dk_log d, dk_commit d, dk_snp d).
Lemma calm_kept : forall l d, Forall calm_act l -> kept (fold_left disk_apply l d) = kept d.
Proof. induction l as [|a l IH]; intros d H; [reflexivity|]. inversion H; subst. cbn [fold_left]. rewrite IH by assumption. destruct a; try reflexivity; contradiction. Qed.

Definition install_shape (l : list act) : Prop :=
  Forall calm_act l \/ exists pre s post, l = pre ++ [ACompact (sn_last_log_idx s); ATimer false; AApplySnapshot s] ++ post /\ Forall calm_act pre /\ Forall calm_act post.
Lemma shape_app : forall a l, Forall calm_act a -> install_shape l -> install_shape (a ++ l).
Proof.
  intros a l Ha [H|(pre & s & post & -> & H1 & H2)]; [left; apply Forall_app; auto|].
  right. exists (a ++ pre), s, post. rewrite !app_assoc. split; [reflexivity|]. split; [apply Forall_app; auto | exact H2].
Qed.
Lemma shape_end : forall a l, Forall calm_act a -> install_shape l -> install_shape (l ++ a).
Proof.
  intros a l Ha [H|(pre & s & post & -> & H1 & H2)]; [left; apply Forall_app; auto|].
  right. exists pre, s, (post ++ a). rewrite <- !app_assoc. split; [reflexivity|]. split; [exact H1 | apply Forall_app; auto].
Qed.
Lemma sync_shape : forall s n r n' l, handle_snapshot_sync_req s n = (r, n', l) -> install_shape l.
Proof.
  intros s n r n' l H. unfold handle_snapshot_sync_req in H. apply catch_exit in H. destruct H as (r0 & l0 & E & C).
  assert (G : install_shape l0).
  2:{ destruct C as [(-> & -> & C) | (-> & ->)]; [exact G|]. apply shape_end; [repeat constructor | exact G]. }
  clear C r l. rewrite bind_emit in E. cbv beta in E. set (n1 := set_disk _ n) in *. clearbody n1. clear n.
  destruct (sv_done s); [|inversion E; subst; left; repeat constructor].
  rewrite bind_get in E. destruct (n_role n1); [|inversion E; subst; left; repeat constructor..].
  unfold log_compact in E. rewrite bind_assoc, bind_get in E.
  destruct (sn_last_log_idx (sv_snp s) <? al_start (n_log n1)); [cbn in E; inversion E; subst; left; repeat constructor|].
  rewrite bind_assoc, bind_emit, bind_ret in E. cbv beta iota in E.
  unfold stop_election_timer in E. rewrite bind_assoc, bind_modify in E. cbv beta in E. rewrite bind_emit in E. cbv beta in E. rewrite bind_emit in E. cbv beta in E.
  match type of E with context [bind (reconfigure ?a) ?b ?m] => change (bind (reconfigure a) b m) with (snp_rest s m) in E; set (n3 := m) in * end.
  destruct (snp_rest s n3) as [[r4 n4] l4] eqn:E4.
  assert (W1 : ht (acts calm_act) yes (snp_rest s) n3).
  { unfold snp_rest, reconfigure. open_prims. walk ltac:(repeat constructor). }
  destruct (W1 _ _ _ E4) as [W3 _]. unfold acts in W3. rewrite !after_after in E. unfold after in E. cbn in E. inversion E; subst. clear E.
  right. exists [ASaveSnpData (sv_snp s) (sv_offset s) (sv_data s)], (sv_snp s), l4. split; [reflexivity|]. split; [repeat constructor | exact W3].
Qed.
Lemma install_shape_ev : forall now q n r n' l, rq_type q = install_snapshot_request -> run_event (ERequest now q) n = (r, n', l) -> install_shape l.
Proof.
  intros now q n r n' l Ht H. cbn [run_event] in H. unfold bind in H. destruct (process_req now q n) as [[r1 n1] l1] eqn:E.
  assert (X : l = l1) by (destruct r1; cbn in H; inversion H; subst; rewrite ?app_nil_r; auto). subst l1. clear H r n'. rename n1 into n'.
  rewrite (process_install now q n Ht) in E. destruct (handle_install_snapshot_req q (arrived (rq_term q) n)) as [[r2 n2] l2] eqn:E2. inversion E; subst. clear E.
  apply shape_app. { unfold arrived_acts. repeat match goal with |- context [if ?b then _ else _] => destruct b end; repeat constructor. }
  rename E2 into H. set (m := arrived _ _) in *. clearbody m. clear n Ht. unfold handle_install_snapshot_req in H. rewrite bind_get in H.
  match type of H with bind ?k _ m = _ => destruct (k m) as [[r0 n0] l0] eqn:E1; assert (W : ht (acts calm_act) yes k m) end.
  { unfold become_follower, restart_election_timer. walk ltac:(unfold acts; repeat constructor). }
  destruct (W _ _ _ E1) as [W1 _]. unfold acts in W1. clear W.
  destruct r0 as [[]| | |]; [|unfold bind at 1 in H; rewrite E1 in H; inversion H; subst; left; exact W1..].
  rewrite (bind_ok _ _ _ _ _ _ _ _ E1) in H.
  match type of H with after _ ?x = _ => destruct x as [[r5 n5] l5] eqn:E end. inversion H; subst. clear H. apply shape_app; [exact W1|].
  destruct (_ && _); [inversion E; subst; left; constructor|].
  destruct (rq_entries q) as [|e0 [|? ?]]; [inversion E; subst; left; constructor | | inversion E; subst; left; constructor].
  destruct (negb _); [inversion E; subst; left; constructor|].
  unfold bind at 1, lift in E. destruct (parse_sync (ev_data e0)) as [s| |]; [|inversion E; subst; left; constructor..].
  rewrite bind_get in E. destruct (sn_last_log_idx (sv_snp s) <=? n_smc n0) eqn:El; [inversion E; subst; left; constructor|].
  unfold bind in E. destruct (handle_snapshot_sync_req s n0) as [[r3 n3] l3] eqn:E3.
  assert (X : l3 = l5) by (destruct r3; cbn in E; inversion E; subst; rewrite ?app_nil_r; reflexivity). subst. apply (sync_shape _ _ _ _ _ E3).
Qed.

(** The other crash points are fine: before the log is compacted the disk is as it was (the
    chunk apart), after the snapshot is applied it is there, and the log goes on behind it.
    Missing: a crash between the two ([C62_install_again_refuted], [C62_crash_refuted]). *)
Theorem C62_crash_partial : forall now q n r n' p rest,
  rq_type q = install_snapshot_request -> run_event (ERequest now q) n = (r, n', p ++ rest) ->
  let d := fold_left disk_apply p (n_disk n) in
  ((forall k, ~ In (ACompact k) p) -> dk_log d = n_log n /\ dk_commit d = dk_commit (n_disk n) /\ dk_snp d = dk_snp (n_disk n)) /\
  (forall s, In (AApplySnapshot s) p -> dk_commit d = sn_last_log_idx s /\ dk_snp d = Some s /\ al_start (dk_log d) = sn_last_log_idx s + 1).
Proof.
  intros now q n r n' p rest Ht H d. assert (Sh := install_shape_ev _ _ _ _ _ _ Ht H). clear H.
  assert (Calm : Forall calm_act p -> ((forall k, ~ In (ACompact k) p) -> dk_log d = n_log n /\ dk_commit d = dk_commit (n_disk n) /\ dk_snp d = dk_snp (n_disk n)) /\
    (forall s, In (AApplySnapshot s) p -> dk_commit d = sn_last_log_idx s /\ dk_snp d = Some s /\ al_start (dk_log d) = sn_last_log_idx s + 1)).
  { intros F. assert (K := calm_kept p (n_disk n) F). unfold kept in K. fold d in K. inversion K as [[K1 K2 K3]]. split; [intros _; auto|].
    intros s Hin. rewrite Forall_forall in F. destruct (F _ Hin). }
  destruct Sh as [F|(pre & s & post & E & F1 & F2)]; [apply Calm; apply Forall_app in F; apply F|].
  apply app_eq_app in E. destruct E as (x & [[-> E]|[-> E]]); [|apply Calm; apply Forall_app in F1; apply F1].
  destruct x as [|a x]; [rewrite app_nil_r in *; apply Calm; exact F1|]. cbn [app] in E. injection E as <- E.
  split; [intros No; destruct (No (sn_last_log_idx s)); apply in_or_app; right; left; reflexivity|].
  intros s' Hin. apply in_app_or in Hin. destruct Hin as [Hin|Hin]; [rewrite Forall_forall in F1; destruct (F1 _ Hin)|].
  destruct Hin as [X|Hin]; [discriminate X|]. destruct x as [|b x]; [destruct Hin|]. cbn [app] in E. injection E as <- E.
  destruct Hin as [X|Hin]; [discriminate X|]. destruct x as [|c x]; [destruct Hin|]. cbn [app] in E. injection E as <- E.
  assert (Fx : Forall calm_act x) by (rewrite E in F2; apply Forall_app in F2; apply F2).
  destruct Hin as [X|Hin]; [inversion X; subst s' | rewrite Forall_forall in Fx; destruct (Fx _ Hin)].
  unfold d. rewrite fold_left_app. cbn [fold_left]. set (d1 := fold_left disk_apply pre (n_disk n)).
  match goal with |- context [fold_left disk_apply x ?y] => assert (K := calm_kept x y Fx) end. unfold kept in K.
  apply pair_equal_spec in K. destruct K as [K K3]. apply pair_equal_spec in K. destruct K as [K1 K2].
  rewrite K1, K2, K3. split; [reflexivity|]. split; reflexivity.
Qed.

(** Witness: server 3 takes the last chunk of the snapshot that ends at 3, and crashes when its
    log is compacted: entries 1 and 2, which it had, are gone; nothing was applied; there is no
    snapshot. *)
Definition half_cmds : list kcmd := [KRpc 1 3 0; KRpc 1 3 0]%Z.
Definition half : world := ex_ship (half_cmds ++ [KHalf 1 3 0 3])%Z.
Definition half_up : world := ex_ship (half_cmds ++ [KHalf 1 3 0 3; KStart 3])%Z.
Definition half_q : req := match pick half_up 1 3 0 with Some (_, _, q) => q | None => ex_q0 end.
Theorem C51_crash_refuted :
  reach ex_servers (fun _ => one_byte) ex_world (ex_ship half_cmds) /\ reach ex_servers (fun _ => one_byte) ex_world half /\
  a_get (log_of (ex_ship half_cmds) 3) 1 <> None /\ a_get (log_of (ex_ship half_cmds) 3) 2 <> None /\
  exists d, w_sys half 3%Z = Down d /\ al_start (dk_log d) = 4 /\ dk_commit d = 0 /\ dk_snp d = None.
Proof.
  split; [apply ex_reach_with|]. split; [apply ex_reach_with|]. split; [vm_compute; discriminate|]. split; [vm_compute; discriminate|].
  exists (sys_disk (w_sys half 3%Z)). split; [|split; [vm_compute; reflexivity|]; split; vm_compute; reflexivity].
  assert (X : (match w_sys half 3%Z with Up _ => false | Down _ => true end) = true) by (vm_compute; reflexivity).
  destruct (w_sys half 3%Z); [discriminate | reflexivity].
Qed.
(** ... and when it is started again and gets the same message, its process ends. *)
Theorem C62_crash_refuted :
  reach ex_servers (fun _ => one_byte) ex_world half_up /\
  exists n, w_sys half_up 3%Z = Up n /\ possible ex_servers half_up 3 (ERequest 0 half_q) /\ last_chunk half_q ex_s /\
    n_term n <= rq_term half_q /\ n_smc n < sn_last_log_idx ex_s < al_start (n_log n) /\
    exists n' l, run_event (ERequest 0 half_q) n = (RExit, n', l) /\ n_log n' = n_log n /\ dk_commit (n_disk n') = dk_commit (n_disk n).
Proof.
  split; [apply ex_reach_with|]. exists (node_of half_up 3).
  assert (L : last_chunk half_q ex_s).
  { split; [vm_compute; reflexivity|]. eexists _, _. split; [vm_compute; reflexivity|]. split; [reflexivity|]. split; [vm_compute; reflexivity|]. split; reflexivity. }
  assert (T : n_term (node_of half_up 3) <= rq_term half_q) by (vm_compute; discriminate).
  assert (I : n_smc (node_of half_up 3) < sn_last_log_idx ex_s < al_start (n_log (node_of half_up 3))) by (vm_compute; split; reflexivity).
  split; [apply node_of_up; vm_compute; reflexivity|]. split; [|split; [exact L|]; split; [exact T|]; split; [exact I|]; exact (C62_install_again_refuted _ 0 _ _ T L I)].
  assert (P : exists u x, pick half_up 1 3 0 = Some (u, x, half_q)) by (eexists _, _; vm_compute; reflexivity).
  destruct P as (u & x & P). left. exists 1%Z, u, x. split; [left; reflexivity|]. exact (pick_sent (fun _ => one_byte) half_up 1 3 0 u x half_q P).
Qed.

(** ** C61: the next snapshot *)
Definition stuck : rel := fun n l n' => n_snp_busy n = true -> n_snp_busy n' = true /\ Forall (creates (fun _ => False)) l.
#[export] Instance stuck_pre : preorder stuck.
Proof.
  split; [intros n H; split; [exact H | constructor]|]. intros n l n1 l1 n2 H1 H2 H. destruct (H1 H) as (A1 & A2). destruct (H2 A1) as (B1 & B2).
  split; [exact B1 | apply Forall_app; auto].
Qed.
Ltac stk := idtac; let H := fresh in intros H; cbv beta delta [upd_peer]; repeat match goal with |- context [match ?x with _ => _ end] => destruct x end; (split; [exact H | repeat constructor]).
Lemma stuck_snp : forall i n, ht stuck yes (snapshot_and_compact i) n.
Proof.
  intros i n r n' l E. split; [|intros; exact I]. intros Hb. unfold snapshot_and_compact in E. rewrite bind_get, Hb in E. cbn [negb] in E. rewrite andb_false_r in E.
  destruct (_ || _); inversion E; subst; (split; [exact Hb | constructor]).
Qed.
Lemma stuck_event : forall e n, (forall s data ok, e <> ESnapshot s data ok) -> ht stuck yes (run_event e) n.
Proof.
  assert (P : preorder stuck) by exact _.
  walk_base stuck stk. walk_down stuck stk. walk_reconf stuck stk. walk_lead stuck stk. walk_cand stuck stk. walk_prevote stuck stk. walk_election stuck stk.
  walk_hb stuck stk. walk_reqs stuck stk. walk_join stuck stk. walk_leave stuck stk. walk_process stuck stk. walk_resps stuck stk. walk_prevote_resp stuck stk. walk_ext_resp stuck stk.
  assert (W_cst : forall n, ht stuck yes commit_step n) by (intros; unfold commit_step; open_prims; repeat first [apply stuck_snp | wall stk]).
  assert (W_rep : forall now d n, ht stuck yes (replicate_log now d) n) by (intros; unfold replicate_log; open_prims; wall stk).
  walk_api stuck stk. walk_rpc stuck stk.
  intros e n He. destruct e; try (destruct (He _ _ _ eq_refl)); cbn [run_event]; unfold retry; wall stk. apply W_rpc.
Qed.

(** If the entries to be kept reach back before the start of the log, reporting the snapshot
    throws, and from then on the server never asks for a snapshot again. *)
Theorem C61_never_again_refuted : forall s data n,
  n_snp_busy n = true -> pm_reserved (n_prm n) < sn_last_log_idx s < al_start (n_log n) + pm_reserved (n_prm n) ->
  exists n', run_event (ESnapshot s data true) n = (RThrow RangeError, n', [ASnapshotMade s data]) /\ n_snp_busy n' = true /\
  forall h n2, NodeSpec.runs n' h n2 -> (forall o s1 d1 ok, In o h -> o_event o <> ESnapshot s1 d1 ok) ->
    n_snp_busy n2 = true /\ forall s2, ~ In (ACreateSnapshot s2) (acts_of h).
Proof.
  intros s data n Hb [H1 H2]. rewrite own_eq. cbv zeta. replace (_ <? sn_last_log_idx s) with true by lia. replace (_ <? al_start _) with true by lia.
  eexists. split; [reflexivity|]. split; [exact Hb|].
  match goal with |- forall h n2, NodeSpec.runs ?x _ _ -> _ => assert (B : n_snp_busy x = true) by exact Hb; set (n1 := x) in *; clearbody n1 end. clear Hb H1 H2 n s data.
  intros h n2 HR. revert B. induction HR as [n|n e r n1 l h n2 E G HR IH]; intros B Hn; [split; [exact B | intros s2 []]|].
  assert (Ne : forall s d ok, e <> ESnapshot s d ok) by (intros s d ok; exact (Hn _ s d ok (or_introl eq_refl))).
  destruct (stuck_event e n Ne _ _ _ E) as [K _]. destruct (K B) as [K1 K2].
  destruct (IH K1 (fun o s d ok Hin => Hn o s d ok (or_intror Hin))) as [I1 I2]. split; [exact I1|].
  intros s2 Hin. change (In (ACreateSnapshot s2) (l ++ acts_of h)) in Hin. apply in_app_or in Hin. destruct Hin as [Hin|Hin]; [|exact (I2 s2 Hin)].
  rewrite Forall_forall in K2. exact (K2 _ Hin).
Qed.

(** Otherwise, or if the snapshot failed, the server is ready for the next one. *)
Lemma completed_ready : forall s data ok n,
  (ok = true -> pm_reserved (n_prm n) < sn_last_log_idx s -> al_start (n_log n) + pm_reserved (n_prm n) <= sn_last_log_idx s) ->
  exists n' l, run_event (ESnapshot s data ok) n = (ROk Nothing, n', l) /\ n_snp_busy n' = false /\ (ok = true -> n_snp n' = Some s).
Proof.
  intros s data [|] n H; [|rewrite failed_eq; eexists _, _; split; [reflexivity|]; split; [reflexivity | discriminate]].
  rewrite own_eq. cbv zeta. destruct (_ <? sn_last_log_idx s) eqn:E1.
  - replace (_ <? al_start _) with false by (specialize (H eq_refl); lia). eexists _, _. split; [reflexivity|]. split; reflexivity.
  - eexists _, _. split; [reflexivity|]. split; reflexivity.
Qed.

(** ... and asks for it when enough has been applied, if the configuration in force at that
    point can be found *)
Definition far_enough (n : node) (i : N) : Prop :=
  pm_snp_distance (n_prm n) <> 0 /\ al_start (n_log n) + pm_snp_distance (n_prm n) <= i /\ i < two64 /\
  match n_snp n with None => True | Some s => sn_last_log_idx s + pm_snp_distance (n_prm n) <= i end.
Lemma sub64_le : forall a b, b <= a -> a < two64 -> sub64 a b = a - b.
Proof. intros a b H1 H2. unfold sub64. replace (b <=? a) with true by lia. reflexivity. Qed.
Lemma find_conf_now : forall k i c n, cc_log_idx c <= i -> find_conf k i c n = (ROk c, n, []).
Proof.
  intros [|k] i c n H; [reflexivity|]. cbn [find_conf]. unfold start_index_. rewrite bind_get. replace (i <? cc_log_idx c) with false by lia. reflexivity.
Qed.
Lemma snapshot_now : forall i n e, far_enough n i -> n_snp_busy n = false -> a_get (n_log n) i = Some e -> cc_log_idx (n_config n) <= i ->
  exists n', snapshot_and_compact i n = (ROk tt, n', [ACreateSnapshot (mkSnp i (ev_term e) 0 (n_config n))]) /\ n_snp_busy n' = true.
Proof.
  intros i n e (F1 & F2 & F3 & F4) Hb He Hc. unfold snapshot_and_compact. rewrite bind_get. cbv zeta.
  replace (_ =? 0) with false by lia. rewrite sub64_le by lia. replace (_ <? pm_snp_distance (n_prm n)) with false by lia. cbn [orb]. rewrite Hb. cbn [negb].
  match goal with |- context [if ?b && true then _ else _] => replace b with true end.
  2:{ destruct (n_snp n) as [s|]; [|reflexivity]. rewrite sub64_le by lia. lia. }
  cbn [andb]. unfold catch. rewrite bind_modify. set (m := set_snp_busy true n).
  rewrite (bind_ok _ _ _ _ _ _ _ _ (find_conf_now _ i (n_config n) m Hc)). unfold start_index_. rewrite bind_get.
  replace (i <? cc_log_idx (n_config n)) with false by lia. cbn [andb]. rewrite bind_ret. unfold log_term_at. rewrite bind_assoc, bind_get.
  change (n_log m) with (n_log n). replace (i <? al_start (n_log n)) with false by lia. rewrite He, bind_ret. cbn. eexists. split; reflexivity.
Qed.
(** Missing: the case of [C61_never_again_refuted]; a configuration newer than the entry. *)
Theorem C61_next_partial : forall s data ok n1 n1' r1 l1 n e r n' l,
  (* the snapshot is reported *)
  run_event (ESnapshot s data ok) n1 = (r1, n1', l1) ->
  (ok = true -> pm_reserved (n_prm n1) < sn_last_log_idx s -> al_start (n_log n1) + pm_reserved (n_prm n1) <= sn_last_log_idx s) ->
  n_snp_busy n1' = false /\ (ok = true -> n_snp n1' = Some s) /\
  (* whenever an entry is applied while no snapshot is being made *)
  (n_snp_busy n = false -> n_smc n < n_quick n -> a_get (n_log n) (n_smc n + 1) = Some e -> ev_type e <> conf_log ->
   far_enough n (n_smc n + 1) -> cc_log_idx (n_config n) <= n_smc n + 1 -> run_event ECommit n = (r, n', l) ->
   r = ROk Nothing /\ In (ACreateSnapshot (mkSnp (n_smc n + 1) (ev_term e) 0 (n_config n))) l /\ n_snp_busy n' = true).
Proof.
  intros s data ok n1 n1' r1 l1 n e r n' l H1 Hk. destruct (completed_ready s data ok n1 Hk) as (x & y & E & B1 & B2).
  rewrite E in H1. inversion H1; subst. clear H1. split; [exact B1|]. split; [exact B2|]. clear. intros Hb Hq He Ht Hf Hc H.
  assert (Hs := a_get_some _ _ _ He). assert (Hn : n_smc n + 1 < a_next (n_log n)) by lia.
  cbn [run_event] in H. unfold bind in H. rewrite (commit_step_eq n Hq Hn) in H. set (i := n_smc n + 1) in *.
  assert (G : exists n2 l2, (o <- log_entry_at i ;; e <- deref o ;; apply_entry i e) (set_smc i n) = (ROk tt, n2, l2) /\ n_snp_busy n2 = true /\ In (ACreateSnapshot (mkSnp i (ev_term e) 0 (n_config n))) l2).
  { unfold log_entry_at. rewrite bind_assoc, bind_get. change (n_log (set_smc i n)) with (n_log n). replace (i <? al_start (n_log n)) with false by lia.
    rewrite bind_ret, He. cbn [deref]. rewrite bind_ret. unfold apply_entry. destruct (beq (ev_type e) app_log) eqn:Ea.
    - rewrite bind_emit. set (m := set_disk _ _). destruct (snapshot_now i m e) as (n2 & E2 & E3); try assumption. rewrite E2. cbn [after].
      eexists _, _. split; [reflexivity|]. split; [exact E3|]. right. left. reflexivity.
    - replace (beq (ev_type e) conf_log) with false.
      2:{ symmetry. destruct (beq (ev_type e) conf_log) eqn:Ec; [|reflexivity]. apply Byte.byte_dec_bl in Ec. contradiction. }
      rewrite bind_ret. destruct (snapshot_now i (set_smc i n) e) as (n2 & E2 & E3); try assumption. rewrite E2.
      eexists _, _. split; [reflexivity|]. split; [exact E3|]. left. reflexivity. }
  destruct G as (n2 & l2 & G1 & G2 & G3). unfold catch in H. rewrite G1 in H. cbn in H. inversion H; subst. rewrite app_nil_r. split; [reflexivity|]. split; assumption.
Qed.

(** ** Examples *)
(** a follower gets three entries, applies two, is asked for a snapshot ... *)
Definition one_left : params := snp_prm 2 1.
Definition own_es : list event := [ERequest 0 (ex_ae 1 2 0 0 3 [ex_ent 1 x61; ex_ent 1 x62; ex_ent 1 x63]); ECommit; ECommit; ECommit].
Definition own_run := run_evs (start_node 1 one_left ex_disk) own_es.
Definition own_snp : snapshot := mkSnp 3 1 0 ex_cfg.
Definition own_n : node := snd own_run.
Example C51_own_example : exists n' l, disk_okay ex_disk /\ NodeSpec.runs (start_node 1 one_left ex_disk) (fst own_run) own_n /\ without join_cluster_request (fst own_run) /\
  In (ACreateSnapshot own_snp) (acts_of (fst own_run)) /\
  run_event (ESnapshot own_snp [x01] true) own_n = (ROk Nothing, n', l) /\ In (ACompact 2) l /\ n_smc n' = 3 /\ n_log n' = mkAL 3 [ex_ent 1 x63].
Proof.
  eexists _, _. split; [unfold disk_okay; cbn; lia|]. split; [apply run_evs_runs|]. split; [apply withoutb_ok; vm_compute; reflexivity|].
  split; [apply asked_snp_in; vm_compute; reflexivity|]. split; [apply pair3; vm_compute; reflexivity|]. split; [vm_compute; auto|]. split; vm_compute; reflexivity.
Qed.
(** ... and one that installs a snapshot *)
Definition inst_q : req := mkReq 1 install_snapshot_request 2 1 1 3 3 [mkEV 1 snp_sync_req (sync_bytes ex_s 0 true [x01; x02])].
Example C51_installed_example : exists n' l, run_event (ERequest 0 inst_q) (start_node 1 one_left ex_disk) = (ROk (Response (mkResp 1 install_snapshot_response 1 2 2 true)), n', l) /\
  In (ACompact 3) l /\ n_smc n' = 3.
Proof. eexists _, _. split; [apply pair3; vm_compute; reflexivity|]. split; [vm_compute; auto 10 | vm_compute; reflexivity]. Qed.
(** the same, and the process crashes after the snapshot was applied *)
Example C62_partial_example : exists r n' p rest, run_event (ERequest 0 inst_q) (start_node 1 one_left ex_disk) = (r, n', p ++ rest) /\ rq_type inst_q = install_snapshot_request /\
  In (AApplySnapshot ex_s) p /\ length p = 8%nat /\ rest <> [].
Proof.
  set (x := run_event (ERequest 0 inst_q) (start_node 1 one_left ex_disk)). exists (fst (fst x)), (snd (fst x)), (firstn 8 (snd x)), (skipn 8 (snd x)).
  rewrite firstn_skipn. split; [destruct x as [[? ?] ?]; reflexivity|]. split; [reflexivity|]. split; [vm_compute; auto 10|]. split; [vm_compute; reflexivity | vm_compute; discriminate].
Qed.

(** Server 3 keeps three entries, the others none.  It installs the snapshot that ends at 3, gets
    three entries more and makes a snapshot at 6: its log starts at 4. *)
Definition keep3 : params := mkParams 300 150 75 25 1000 10 2 1 100 3 false true.
Definition mixed (i : Z) : params := if (i =? 3)%Z then keep3 else one_byte.
Definition mixed_cmds : list kcmd := (again_cmds ++
  [KDeliver 1 3 0; KRpc 1 3 0; KRpc 1 3 0; KRpc 1 3 0; KRpc 1 3 0; KRpc 1 2 0; KRpc 1 2 0;
   KDo 1 (EReplicate 0 [x63]); KRpc 1 2 0; KRpc 1 3 0; KDo 1 (EReplicate 0 [x64]); KRpc 1 2 0; KRpc 1 3 0;
   KDo 1 (EReplicate 0 [x65]); KRpc 1 2 0; KRpc 1 3 0; KRpc 1 2 0; KRpc 1 3 0; KDo 1 (EHeartbeat 3); KRpc 1 3 0;
   KDo 3 ECommit; KDo 3 ECommit; KDo 3 ECommit])%Z.
Definition mixed_w : world := fold_left (run_k ex_servers mixed) mixed_cmds ex_world.
Definition mixed_snp : snapshot := mkSnp 6 2 0 (mkCfg 1 0 (cc_servers ex_cfg)).
Example C61_never_again_example : reach ex_servers mixed ex_world mixed_w /\
  exists n, w_sys mixed_w 3%Z = Up n /\ possible ex_servers mixed_w 3 (ESnapshot mixed_snp [x01] true) /\
    n_snp_busy n = true /\ pm_reserved (n_prm n) < sn_last_log_idx mixed_snp < al_start (n_log n) + pm_reserved (n_prm n).
Proof.
  split; [apply run_ks_reach; constructor|]. exists (node_of mixed_w 3). split; [apply node_of_up; vm_compute; reflexivity|].
  split; [apply asked_snp_in; vm_compute; reflexivity|]. split; [vm_compute; reflexivity|]. vm_compute. split; reflexivity.
Qed.
(** a server that is ready, applies, and asks *)
Definition next_n : node := snd (run_evs (start_node 1 one_left ex_disk) (firstn 3 own_es)).
Example C61_next_example :
  (exists n1' l1, run_event (ESnapshot own_snp [x01] true) own_n = (ROk Nothing, n1', l1)) /\ pm_reserved (n_prm own_n) < sn_last_log_idx own_snp /\
  al_start (n_log own_n) + pm_reserved (n_prm own_n) <= sn_last_log_idx own_snp /\
  n_snp_busy next_n = false /\ n_smc next_n < n_quick next_n /\ n_smc next_n + 1 = 3 /\ a_get (n_log next_n) 3 = Some (ex_ent 1 x63) /\
  far_enough next_n 3 /\ cc_log_idx (n_config next_n) <= 3.
Proof.
  split; [eexists _, _; apply pair3; vm_compute; reflexivity|]. split; [vm_compute; reflexivity|]. split; [vm_compute; discriminate|]. split; [vm_compute; reflexivity|].
  split; [vm_compute; reflexivity|]. split; [vm_compute; reflexivity|]. split; [vm_compute; reflexivity|].
  split; [|vm_compute; discriminate]. unfold far_enough. split; [vm_compute; discriminate|]. split; [vm_compute; discriminate|]. split; [vm_compute; reflexivity | vm_compute; exact I].
Qed.

Print Assumptions C51_own_snapshot.
Print Assumptions C51_compact_partial.
Print Assumptions C51_crash_refuted.
Print Assumptions C61_never_again_refuted.
Print Assumptions C61_next_partial.
Print Assumptions C62_install_again_refuted.
Print Assumptions C62_crash_refuted.
Print Assumptions C62_crash_partial.
