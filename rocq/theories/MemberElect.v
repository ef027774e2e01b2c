(** * MemberElect: votes and elections in a cluster whose members change *)

From Verif Require Import Base Buffer Codec CodecSpec Msg FsLogStore FsLogSpec Alog P_Vote
  Raft RaftQuiet RaftWalk WalkAll RaftTrace RaftTrace2 RaftTrace3 NodeSpec NodeLife NodeFacts Cluster ClusterElect ClusterLog ClusterRun Member.
Local Open Scope N_scope.

(** ** Requests that are sent again later *)
Definition no_retry (a : act) : Prop := match a with ARetryLater _ q => rq_type q <> vote_request | _ => True end.
Definition r_retry : rel := fun n l n' => Forall no_retry l.
#[global] Instance r_retry_pre : preorder r_retry.
Proof. split; unfold r_retry; [constructor|]. intros. apply Forall_app. split; assumption. Qed.
Ltac retry1 := unfold r_retry; first [constructor; fail | constructor; [exact I | constructor]].
Lemma event_retry : forall e n, ht r_retry yes (run_event e) n.
Proof.
  set (R := r_retry). assert (P : preorder R) by exact _.
  walk_base R ltac:(unfold R; retry1). walk_down R ltac:(unfold R; retry1). walk_reconf R ltac:(unfold R; retry1). walk_lead R ltac:(unfold R; retry1).
  walk_cand R ltac:(unfold R; retry1). walk_prevote R ltac:(unfold R; retry1). walk_election R ltac:(unfold R; retry1). walk_hb R ltac:(unfold R; retry1).
  walk_reqs R ltac:(unfold R; retry1). walk_join R ltac:(unfold R; retry1). walk_leave R ltac:(unfold R; retry1). walk_process R ltac:(unfold R; retry1).
  assert (W_aes : forall r n, ht R yes (handle_append_entries_resp r) n) by (intros; unfold handle_append_entries_resp; open_prims; wall ltac:(unfold R; retry1)).
  assert (W_iss : forall r n, ht R yes (handle_install_snapshot_resp r) n) by (intros; unfold handle_install_snapshot_resp; open_prims; wall ltac:(unfold R; retry1)).
  assert (W_vrs : forall r n, ht R yes (handle_voting_resp r) n) by (intros; unfold handle_voting_resp; open_prims; wall ltac:(unfold R; retry1)).
  assert (W_per : forall now r n, ht R yes (handle_peer_resp now r) n) by (intros; unfold handle_peer_resp; open_prims; wall ltac:(unfold R; retry1)).
  assert (W_stn : forall i n, ht R yes (sync_log_to_new_srv i) n) by (intros; unfold sync_log_to_new_srv; open_prims; wall ltac:(unfold R; retry1)).
  assert (W_rms : forall i n, ht R yes (rm_srv_from_cluster i) n) by (intros; unfold rm_srv_from_cluster, append_config; open_prims; wall ltac:(unfold R; retry1)).
  assert (W_err : forall q n, ht R yes (handle_ext_resp_err q) n).
  { intros q n. unfold handle_ext_resp_err. destruct (beq (rq_type q) sync_log_request || beq (rq_type q) join_cluster_request || beq (rq_type q) leave_cluster_request) eqn:Et.
    - assert (Q : rq_type q <> vote_request) by (intros T; rewrite T in Et; discriminate).
      open_prims. wall ltac:(unfold R; first [retry1 | unfold r_retry; constructor; [exact Q | constructor]]).
    - wall ltac:(unfold R; retry1). }
  walk_prevote_resp R ltac:(unfold R; retry1). walk_ext_resp R ltac:(unfold R; retry1). walk_rest R ltac:(unfold R; retry1). walk_api R ltac:(unfold R; retry1). walk_rpc R ltac:(unfold R; retry1).
  intros e n. destruct e; cbn [run_event]; unfold retry; wall ltac:(unfold R; retry1). apply W_rpc.
Qed.

(** ** Which events can make a server leader *)
Definition may_lead (e : event) : bool :=
  match e with
  | EElection => true
  | ERpc _ _ false _ _ => true
  | ERpc _ _ true _ (Some r) => beq (rs_type r) prevote_response
  | _ => false
  end.
Definition r_led : rel := fun n l n' => leads l = [].
#[global] Instance r_led_pre : preorder r_led.
Proof. split; unfold r_led; [reflexivity|]. intros. rewrite leads_app, H, H0. reflexivity. Qed.
Lemma event_led : forall e n, may_lead e = false -> ht r_led yes (run_event e) n.
Proof.
  set (R := r_led). assert (P : preorder R) by exact _.
  walk_base R ltac:(unfold R; reflexivity). walk_down R ltac:(unfold R; reflexivity). walk_reconf R ltac:(unfold R; reflexivity). walk_hb R ltac:(unfold R; reflexivity).
  walk_reqs R ltac:(unfold R; reflexivity). walk_join R ltac:(unfold R; reflexivity). walk_leave R ltac:(unfold R; reflexivity). walk_process R ltac:(unfold R; reflexivity).
  assert (W_stn : forall i n, ht R yes (sync_log_to_new_srv i) n) by (intros; unfold sync_log_to_new_srv; open_prims; wall ltac:(unfold R; reflexivity)).
  assert (W_rms : forall i n, ht R yes (rm_srv_from_cluster i) n) by (intros; unfold rm_srv_from_cluster, append_config; open_prims; wall ltac:(unfold R; reflexivity)).
  assert (W_err : forall q n, ht R yes (handle_ext_resp_err q) n) by (intros; unfold handle_ext_resp_err; open_prims; wall ltac:(unfold R; reflexivity)).
  walk_rest R ltac:(unfold R; reflexivity). walk_api R ltac:(unfold R; reflexivity).
  intros e n F. destruct e as [| |now q|now uid ext q r| | | | | | |]; cbn [run_event]; unfold retry; try discriminate; wall ltac:(unfold R; reflexivity).
  unfold rpc_done. destruct ext; [|discriminate]. destruct r as [r|]; cbn in F; [|wall ltac:(unfold R; reflexivity)].
  unfold handle_ext_resp. rewrite F. open_prims. wall ltac:(unfold R; reflexivity).
Qed.
Lemma may_lead_peers : forall e n l n', may_lead e = true -> tr e n l n' -> map p_id (n_peers n') = map p_id (n_peers n).
Proof.
  intros e n l n' M H. induction H as [|n l n1 l1 n2 H T IH]; [reflexivity|]. rewrite IH. clear IH T.
  assert (Q : forall q, ~ req_of e q) by (intros q [now ->]; discriminate).
  assert (C : conf_event e = false).
  { destruct e as [| | |now uid ext q r| | | | | | |]; try reflexivity. destruct ext, r as [r|]; try reflexivity; try discriminate. cbn in *.
    apply Byte.byte_dec_bl in M. rewrite M. reflexivity. }
  assert (NC : e <> ECommit) by (intros ->; discriminate).
  destruct H; try reflexivity; try congruence.
  - destruct H as (ps & q & j & -> & _ & H & _). cbn. clear -H. induction H; [reflexivity|]. cbn [map]. f_equal; [|exact IHForall2]. destruct H as [_ H]. unfold p_id. congruence.
  - unfold core in H. injection H. intros. congruence.
  - destruct H as [(H & _)|(q & H & _)]; [contradiction | destruct (Q q H)].
Qed.

(** ** Invitations of new servers *)
Definition untouched (q : req) (n : node) : Prop :=
  n_vote n = (-1)%Z /\ n_term n <= rq_term q /\ n_votes n = 0%Z /\ n_role n = Follower.
Definition join_ok (e : event) (n : node) : Prop := no_join e \/ exists q, req_of e q /\ rq_type q = join_cluster_request /\ untouched q n.
Lemma astep_tv2 : forall e n l n', join_ok e n -> astep e n l n' -> tv_chain (tv n) (saves l) (tv n') /\ join_ok e n'.
Proof.
  intros e n l n' [J|(q & Q & Ty & U)] H; [split; [apply (astep_tv e n l n' J H) | left; exact J]|].
  destruct U as (U1 & U2 & U3 & U4).
  assert (Same : forall q', req_of e q' -> q' = q) by (intros q' [now' E']; destruct Q as [now E]; congruence).
  assert (Ne : forall e0, (forall now q, e0 <> ERequest now q) -> e <> e0) by (intros e0 H0 ->; destruct Q as [now Q]; exact (H0 _ _ Q)).
  assert (NR : forall a b c q0 r, e <> ERpc a b c q0 r) by (intros; apply Ne; intros; discriminate).
  assert (K : forall m, core m = core n -> join_ok e m).
  { intros m Em. right. exists q. split; [exact Q|]. split; [exact Ty|]. unfold core in Em. injection Em. intros. unfold untouched. repeat split; try congruence; lia. }
  assert (K2 : forall m, n_vote m = n_vote n -> n_term m = n_term n -> n_votes m = n_votes n -> n_role m = n_role n -> join_ok e m).
  { intros m E1 E2 E3 E4. right. exists q. split; [exact Q|]. split; [exact Ty|]. unfold untouched. rewrite E1, E2, E3, E4. auto. }
  assert (Bad : forall q' t, req_of e q' -> rq_type q' = t -> t <> join_cluster_request -> False).
  { intros q' t Q' T' D. rewrite (Same q' Q') in T'. congruence. }
  destruct H; try (split; [constructor | apply K2; reflexivity]);
    try (exfalso; match goal with H : e = _ |- _ => revert H; apply Ne; intros; discriminate end);
    try (exfalso; match goal with Q' : req_of e ?q', T : rq_type ?q' = _ |- _ => apply (Bad q' _ Q' T); discriminate end).
  - destruct H as (ps & q0 & j & -> & _ & _ & _ & Hl). split; [rewrite (saves_ae _ _ _ Hl); constructor | apply K2; reflexivity].
  - split; [|apply K, H]. rewrite (saves_benign _ H0). unfold tv. destruct (core_upd _ _ H) as (_ & -> & _ & _ & -> & _). constructor.
  - assert (E : t = rq_term q).
    { destruct H0 as [(q' & Q' & E)|(a & b & q' & r & E & _)]; [rewrite <- E; f_equal; apply Same, Q' | destruct (NR _ _ _ _ _ E)]. }
    split; [cbn [saves]; econstructor; [left; cbn; lia | constructor]|]. right. exists q. split; [exact Q|]. split; [exact Ty|].
    unfold untouched; cbn. split; [reflexivity|]. split; [lia|]. split; reflexivity.
  - split; [constructor|]. right. exists q. split; [exact Q|]. split; [exact Ty|]. unfold untouched; cbn. auto.
  - exfalso. destruct H as [(H & _)|(_ & a & b & q' & r & H & _)]; [revert H; apply Ne; intros; discriminate | destruct (NR _ _ _ _ _ H)].
  - congruence.
  - exfalso. apply (H0 q Q).
  - rewrite (Same _ H). split; [cbn [saves]; econstructor; [|constructor] |].
    + unfold tv_step, tv; cbn. destruct (N.eq_dec (n_term n) (rq_term q)) as [Et|Et]; [right; rewrite Et; split; [reflexivity | left; exact U1] | left; lia].
    + right. exists q. split; [exact Q|]. split; [exact Ty|]. unfold untouched; cbn. split; [reflexivity|]. split; [lia|]. auto.
  - destruct H1 as (H1 & H2 & H3). unfold core in H2. cbn in H2. injection H2. intros. split; [|apply K2; congruence].
    rewrite (saves_conf _ _ H1). unfold tv. replace (n_term n') with (n_term n) by congruence. replace (n_vote n') with (n_vote n) by congruence. constructor.
  - destruct a; try contradiction; (split; [apply TV_nil | apply K2; reflexivity]).
Qed.

(** ** The invariant *)
Section MemberElect.
  Variable servers : list srv_config.
  Variable prm : Z -> params.
  Hypothesis Hneg : ~ In (-1)%Z (ids servers).
  Let ids := ids servers.

  Definition fresh_up (A : list act) (x : sys) : Prop :=
    match x with Up n => saves A = [] -> n_votes n = 0%Z /\ n_role n = Follower | Down _ => True end.
  Record minv (s : Z -> sys) (A : Z -> list act) : Prop := mkMinv {
    m_ok : forall i, In i ids -> okay i (s i);
    m_tv : forall i, In i ids -> tv_chain (0, (-1)%Z) (saves (A i)) (saved (sys_disk (s i)));
    m_ballot : forall i, In i ids -> ballot servers A i (s i);
    m_new : forall i, In i ids -> fresh_up (A i) (s i);
    m_vq : forall k uid ext q, In k ids -> In (ASend uid ext q) (A k) -> rq_type q = vote_request -> rq_src q = k /\ saves (A k) <> []
  }.

  (** what the cluster guarantees for an event *)
  Definition mbacked (A : Z -> list act) (i : Z) (e : event) : Prop :=
    match e with
    | ERpc _ _ false q (Some r) => rs_type r = vote_response ->
        saves (A i) <> [] /\ In (rs_src r) ids /\ (rs_accepted r = true -> voted A (rs_term r) i (rs_src r))
    | ERetry _ q => rq_type q <> vote_request
    | _ => True
    end.
  Lemma grow : forall (A : Z -> list act) i l j, saves (A j) <> [] -> saves (put A i (A i ++ l) j) <> [].
  Proof.
    intros A i l j H. destruct (Z.eq_dec j i) as [->|Hn]; [|rewrite put_other by exact Hn; exact H].
    rewrite put_same, saves_app. intros E. apply app_eq_nil in E. apply H, E.
  Qed.
  Lemma mbacked_mono : forall A i l j e, mbacked A j e -> mbacked (put A i (A i ++ l)) j e.
  Proof.
    intros A i l j e H. destruct e as [| |now q|now uid ext q r| | | | | | |]; cbn in *; try exact I; try exact H.
    destruct ext, r; try exact I. intros T. destruct (H T) as (H1 & H2 & H3). split; [apply grow, H1|]. split; [exact H2|]. intros Ha. apply voted_mono, H3, Ha.
  Qed.

  Lemma astep_ballot2 : forall A i e n l n', In i ids -> n_id n = i -> join_ok e n -> mbacked A i e ->
    astep e n l n' -> ballot servers A i (Up n) -> ballot servers (put A i (A i ++ l)) i (Up n').
  Proof.
    intros A i e n l n' Hi Sid J K H B. apply (ballot_mono servers A i l) in B.
    destruct H; try (exact B); try (apply ballot_none; reflexivity).
    - destruct H as (ps & q & j & -> & _). exact B.
    - unfold core in H. injection H. intros. apply (ballot_same servers _ _ n); congruence.
    - exists [n_id n]. split; [constructor; [intros [] | constructor]|]. split; [intros x Hx; exact Hx|].
      split; [intros x [<-|[]]; rewrite Sid; exact Hi|]. split; [reflexivity|]. intros j [<-|[]]. unfold voted.
      rewrite Sid, put_same, saves_app. apply in_or_app. right. left. reflexivity.
    - destruct B as (C & C1 & C2 & C3 & C4 & C5). subst e. destruct (K H0) as (_ & K2 & K3). destruct (rs_accepted r) eqn:Ea.
      + exists (rs_src r :: C). split; [constructor; [intros Hc; apply H3, C2, Hc | exact C1]|].
        split; [intros x [<-|Hx]; [left; reflexivity | right; apply C2, Hx]|].
        split; [intros x [<-|Hx]; [exact K2 | apply C3, Hx]|]. split; [cbn [length n_votes set_votes set_done]; cbn; lia|].
        intros j [<-|Hj]; [|apply C5, Hj]. apply voted_mono. cbn. rewrite <- H1. apply K3. reflexivity.
      + exists C. split; [exact C1|]. split; [intros x Hx; right; apply C2, Hx|]. split; [exact C3|]. split; [exact C4 | exact C5].
    - apply ballot_none. cbn. destruct J as [J|(q' & _ & _ & U)]; [destruct (J q H H0) | apply U].
    - destruct H1 as (_ & H1 & _). unfold core in H1. cbn in H1. injection H1. intros. apply (ballot_same servers _ _ n); congruence.
  Qed.
  Lemma astep_fresh : forall A e n l n' i, mbacked A i e -> astep e n l n' -> fresh_up (A i) (Up n) -> fresh_up (A i ++ l) (Up n').
  Proof.
    intros A e n l n' i K H F. unfold fresh_up in *. intros E. rewrite saves_app in E. apply app_eq_nil in E. destruct E as [E1 E2].
    destruct (F E1) as [F1 F2].
    destruct H; try (split; assumption); try discriminate.
    - destruct H as (ps & q & j & -> & _). split; assumption.
    - unfold core in H. injection H. intros. split; congruence.
    - split; [exact F1 | reflexivity].
    - exfalso. subst e. destruct (K H0) as (K1 & _). apply K1, E1.
    - exfalso. unfold majority in H. rewrite F1 in H. apply Z.ltb_lt in H.
      assert (X := Z.div_pos (Z.of_nat (length (n_peers n)) + 1) 2 ltac:(lia) ltac:(lia)). lia.
    - destruct H1 as (_ & H1 & _). unfold core in H1. cbn in H1. injection H1. intros. split; congruence.
  Qed.
  Lemma astep_vq : forall e n l n', (forall uid q, e = ERetry uid q -> rq_type q <> vote_request) -> astep e n l n' ->
    forall uid ext q, In (ASend uid ext q) l -> rq_type q = vote_request -> rq_src q = n_id n /\ n_vote n = n_id n.
  Proof.
    intros e n l n' Hr H uid ext q Hin Ht.
    destruct H; try (destruct Hin as [Hin|[]]; discriminate); try destruct Hin as [].
    - destruct H as (ps & q0 & j & -> & _ & _ & _ & Hl). rewrite Forall_forall in Hl. specialize (Hl _ Hin). cbn in Hl.
      destruct Hl as (_ & [Hl|Hl] & _); destruct Hl as (Hl & _); rewrite Hl in Ht; discriminate.
    - rewrite Forall_forall in H0. specialize (H0 _ Hin). cbn in H0. destruct H0 as [_ H0]. rewrite Ht in H0. discriminate.
    - inversion H6; subst. split; congruence.
    - contradiction.
    - destruct H1 as (H1 & _). rewrite Forall_forall in H1. destruct (H1 _ Hin) as [H2|H2]; [|discriminate].
      cbn in H2. destruct H2 as [_ H2]. rewrite Ht in H2. discriminate.
    - subst a. contradiction.
    - contradiction.
    - inversion H1; subst. rewrite H0 in Ht. discriminate.
    - contradiction.
    - inversion H0; subst. exfalso. apply (Hr uid q eq_refl Ht).
    - contradiction.
  Qed.

  Lemma minv_step : forall s A i n e l n', minv s A -> In i ids -> s i = Up n -> join_ok e n -> mbacked A i e -> astep e n l n' ->
    minv (put s i (Up n')) (put A i (A i ++ l)).
  Proof.
    intros s A i n e l n' [E1 E2 E3 E4 E5] Hi Hs J K H.
    assert (O := E1 i Hi). rewrite Hs in O. destruct O as (O1 & Ssy & Sid).
    assert (B := E3 i Hi). rewrite Hs in B. assert (V := E2 i Hi). rewrite Hs in V. cbn [sys_disk] in V.
    assert (F := E4 i Hi). rewrite Hs in F.
    destruct (astep_tv2 _ _ _ _ J H) as [TV _]. rewrite <- Ssy in TV.
    assert (Sy' : saved (n_disk n') = tv n') by (eapply astep_synced; eassumption). rewrite <- Sy' in TV.
    split.
    - intros j Hj. destruct (Z.eq_dec j i) as [->|Hn]; [|rewrite put_other by exact Hn; apply E1, Hj].
      rewrite put_same. split; [eapply astep_start; eassumption|]. split; [exact Sy'|]. rewrite (astep_id _ _ _ _ H). exact Sid.
    - intros j Hj. destruct (Z.eq_dec j i) as [->|Hn]; [|rewrite !put_other by exact Hn; apply E2, Hj].
      rewrite !put_same, saves_app. eapply tv_chain_app; [exact V | exact TV].
    - intros j Hj. destruct (Z.eq_dec j i) as [->|Hn]; [|rewrite (put_other _ s) by exact Hn; apply ballot_mono, E3, Hj].
      rewrite (put_same _ s). eapply astep_ballot2; eassumption.
    - intros j Hj. destruct (Z.eq_dec j i) as [->|Hn]; [|rewrite !put_other by exact Hn; apply E4, Hj].
      rewrite !put_same. eapply astep_fresh; eassumption.
    - intros k uid ext q Hk Hq T. destruct (Z.eq_dec k i) as [->|Hn].
      2:{ rewrite put_other in Hq by exact Hn. destruct (E5 k uid ext q Hk Hq T) as [X Y]. split; [exact X | apply grow, Y]. }
      rewrite put_same in Hq. apply in_app_or in Hq. destruct Hq as [Hq|Hq]; [destruct (E5 i uid ext q Hk Hq T) as [X Y]; split; [exact X | apply grow, Y]|].
      destruct (astep_vq e n l n') with (uid := uid) (ext := ext) (q := q) as [X Y]; try assumption.
      { intros u q0 ->. exact K. }
      split; [congruence|]. apply grow. intros Z0. rewrite Z0 in V. inversion V. unfold synced, tv in Ssy. rewrite <- H1 in Ssy. injection Ssy. intros. apply Hneg. replace (-1)%Z with i by congruence. exact Hi.
  Qed.
  Lemma minv_ext : forall s s' A A', (forall i, s' i = s i) -> (forall i, A' i = A i) -> minv s A -> minv s' A'.
  Proof.
    intros s s' A A' HS HA [E1 E2 E3 E4 E5]. split.
    - intros i Hi. rewrite HS. auto.
    - intros i Hi. rewrite HS, HA. auto.
    - intros i Hi. rewrite HS. specialize (E3 i Hi). unfold ballot in *. destruct (s i) as [n|d]; [|exact I].
      destruct E3 as (B & H1 & H2 & H3 & H4 & H5). exists B. repeat (split; [assumption|]). intros j Hj. unfold voted. rewrite HA. apply H5, Hj.
    - intros i Hi. rewrite HS, HA. auto.
    - intros k uid ext q Hk Hq T. rewrite HA in *. apply (E5 k uid ext q Hk Hq T).
  Qed.
  Lemma put_twice : forall X (f : Z -> X) i a b j, put (put f i a) i b j = put f i b j.
  Proof. intros. unfold put. destruct (j =? i)%Z; reflexivity. Qed.
  Lemma minv_tr : forall e n l n', tr e n l n' -> forall s A i, minv s A -> In i ids -> s i = Up n -> join_ok e n -> mbacked A i e ->
    minv (put s i (Up n')) (put A i (A i ++ l)) /\ join_ok e n'.
  Proof.
    intros e n l n' H. induction H as [n|n l n1 l1 n2 H T IH]; intros s A i M Hi Hs J K.
    - split; [|exact J]. eapply minv_ext; [| |exact M].
      + intros j. destruct (Z.eq_dec j i) as [->|Hn]; [rewrite put_same; congruence | rewrite put_other by exact Hn; reflexivity].
      + intros j. destruct (Z.eq_dec j i) as [->|Hn]; [rewrite put_same, app_nil_r; reflexivity | rewrite put_other by exact Hn; reflexivity].
    - assert (M1 := minv_step s A i n e l n1 M Hi Hs J K H). destruct (astep_tv2 _ _ _ _ J H) as [_ J1].
      destruct (IH (put s i (Up n1)) (put A i (A i ++ l)) i M1 Hi) as [M2 J2]; [apply put_same | exact J1 | apply mbacked_mono, K|]. split; [|exact J2].
      eapply minv_ext; [| |exact M2].
      + intros j. symmetry. apply put_twice.
      + intros j. rewrite put_twice, put_same, app_assoc. reflexivity.
  Qed.
  Lemma minv_disk : forall s A i x, minv s A -> In i ids -> okay i x -> sys_disk x = sys_disk (s i) -> ballot servers A i x -> fresh_up (A i) x -> minv (put s i x) A.
  Proof.
    intros s A i x [E1 E2 E3 E4 E5] Hi Ox Dx Bx Fx. split.
    - intros j Hj. destruct (Z.eq_dec j i) as [->|Hn]; [rewrite put_same; exact Ox | rewrite put_other by exact Hn; apply E1, Hj].
    - intros j Hj. destruct (Z.eq_dec j i) as [->|Hn]; [rewrite put_same, Dx; apply E2, Hi | rewrite put_other by exact Hn; apply E2, Hj].
    - intros j Hj. destruct (Z.eq_dec j i) as [->|Hn]; [rewrite put_same; exact Bx | rewrite put_other by exact Hn; apply E3, Hj].
    - intros j Hj. destruct (Z.eq_dec j i) as [->|Hn]; [rewrite put_same; exact Fx | rewrite put_other by exact Hn; apply E4, Hj].
    - exact E5.
  Qed.

  Record mwinv (w : world) : Prop := mkMwinv {
    mw_m : minv (w_sys w) (w_acts w);
    mw_r : forall i uid q, In i ids -> In (ARetryLater uid q) (w_acts w i) -> rq_type q <> vote_request;
    mw_a : forall j q r, In j ids -> answered w j q r -> answer_good w j q r
  }.
  Lemma may_backed : forall w i e, mwinv w -> In i ids -> may_happen servers w i e -> mbacked (w_acts w) i e.
  Proof.
    intros w i e [M R A] Hi P. destruct e as [| |now q|now uid ext q r|uid q| |sn d ok| | | |]; try exact I.
    - destruct P as [P|P]; [|destruct P]. destruct ext, r as [r|]; try exact I. cbn in P |- *. destruct P as (Hq & Hd & Ha). intros T.
      destruct (A _ _ _ Hd Ha) as (A1 & A2 & A3). assert (Tq : rq_type q = vote_request).
      { rewrite T in A2. unfold response_type in A2. repeat match type of A2 with context [if beq ?a ?b then _ else _] => destruct (beq a b) eqn:?E; try discriminate end.
        apply Byte.byte_dec_bl, E. }
      destruct (m_vq _ _ M i uid false q Hi Hq Tq) as [S1 S2]. split; [exact S2|]. rewrite A1. split; [exact Hd|]. intros Hacc. unfold voted. rewrite <- S1 at 1.
      apply A3; [exact Tq | exact Hacc|]. rewrite S1. intros ->. exact (Hneg Hi).
    - destruct P as [P|P]; [|destruct P]. cbn in *. apply (R i uid q Hi P).
  Qed.
  Lemma mwinv_event : forall w i n e l n' x a, mwinv w -> In i ids -> w_sys w i = Up n -> join_ok e n -> mbacked (w_acts w) i e ->
    tr e n l n' -> Forall no_retry l -> (x = Up n' \/ x = Down (n_disk n')) ->
    (forall now q r, e = ERequest now q -> a = Some (Response r) ->
       rs_src r = i /\ rs_type r = response_type (rq_type q) /\
       (rq_type q = vote_request -> rs_accepted r = true -> saved (n_disk n') = (rs_term r, rq_src q))) ->
    mwinv (next_world w i x [mkObs e l a]).
  Proof.
    intros w i n e l n' x a [M R A] Hi Hs J K HT Hr Hx Ha.
    destruct (minv_tr e n l n' HT _ _ i M Hi Hs J K) as [M' _].
    assert (XA := acts_next w i x e l a).
    assert (M2 : minv (put (w_sys w) i x) (put (w_acts w) i (w_acts w i ++ l))).
    { destruct Hx as [-> | ->]; [exact M'|].
      assert (M3 : minv (put (put (w_sys w) i (Up n')) i (Down (n_disk n'))) (put (w_acts w) i (w_acts w i ++ l))).
      { apply minv_disk; try exact I; try assumption; [|rewrite put_same; reflexivity]. assert (X := m_ok _ _ M' i Hi). rewrite put_same in X. apply X. }
      eapply minv_ext; [| |exact M3]; intros j; [rewrite put_twice|]; reflexivity. }
    split.
    - eapply minv_ext; [intros; reflexivity | exact XA | exact M2].
    - intros j uid q Hj Hin. rewrite XA in Hin. destruct (Z.eq_dec j i) as [->|Hne]; [rewrite put_same in Hin | rewrite put_other in Hin by exact Hne; apply (R j uid q Hj Hin)].
      apply in_app_or in Hin. destruct Hin as [Hin|Hin]; [apply (R i uid q Hi Hin)|]. rewrite Forall_forall in Hr. apply (Hr _ Hin).
    - intros j q r Hj (now & l0 & Hin). unfold next_world in Hin. cbn [w_hist] in Hin.
      assert (Old : answered w j q r -> answer_good (next_world w i x [mkObs e l a]) j q r).
      { intros Ho2. destruct (A j q r Hj Ho2) as (A1 & A2 & A3). split; [exact A1|]. split; [exact A2|]. intros T Hacc Hm. rewrite XA.
        apply (voted_mono _ i l (rs_term r) (rq_src q) j). apply A3; assumption. }
      destruct (Z.eq_dec j i) as [->|Hne]; [rewrite put_same in Hin | rewrite put_other in Hin by exact Hne; apply Old; exists now, l0; exact Hin].
      apply in_app_or in Hin. destruct Hin as [Hin|[Hin|[]]]; [apply Old; exists now, l0; exact Hin|]. inversion Hin; subst e l0 a.
      destruct (Ha now q r eq_refl eq_refl) as (A1 & A2 & A3). split; [exact A1|]. split; [exact A2|]. intros T Hacc Hm. rewrite XA, put_same.
      assert (V := m_tv _ _ M' i Hi). rewrite !put_same in V. cbn [sys_disk] in V. rewrite (A3 T Hacc) in V.
      apply tv_chain_last in V. destruct V as [V|V]; [inversion V; congruence | exact V].
  Qed.

  Lemma no_saves : forall l, (forall t v, ~ In (ASaveState t v) l) -> saves l = [].
  Proof.
    induction l as [|a l IH]; intros H; [reflexivity|]. assert (G : saves l = []) by (apply IH; intros t v Hin; apply (H t v); right; exact Hin).
    destruct a; cbn [saves]; try exact G. exfalso. eapply H. left. reflexivity.
  Qed.
  Lemma req_dec : forall e, no_join e \/ exists q, req_of e q /\ rq_type q = join_cluster_request.
  Proof.
    intros e. destruct e as [| |now q| | | | | | | |]; try (left; intros q1 [now1 E1]; discriminate).
    destruct (beq (rq_type q) join_cluster_request) eqn:E; [right; exists q; split; [exists now; reflexivity | apply Byte.byte_dec_bl, E]|].
    left. intros q' [now' E'] T. inversion E'; subst q'. rewrite T in E. discriminate.
  Qed.
  Lemma joins_ok : forall w i n e l a x, mwinv w -> In i ids -> w_sys w i = Up n -> new_joins (next_world w i x [mkObs e l a]) -> join_ok e n.
  Proof.
    intros w i n e l a x [M _ _] Hi Hs HJ. destruct (req_dec e) as [D|(q & Q & T)]; [left; exact D|]. right. exists q. split; [exact Q|]. split; [exact T|].
    assert (S0 : saves (w_acts w i) = []).
    { apply no_saves. apply (HJ i (w_hist w i) (mkObs e l a) []).
      - unfold next_world. cbn [w_hist]. rewrite put_same. reflexivity.
      - destruct Q as [now Q]. exists now, q. split; [exact Q | exact T]. }
    assert (F := m_new _ _ M i Hi). rewrite Hs in F. destruct (F S0) as [F1 F2].
    assert (V := m_tv _ _ M i Hi). rewrite S0, Hs in V. inversion V as [x0 E1 E2 E3|]. cbn [sys_disk] in *.
    assert (O := m_ok _ _ M i Hi). rewrite Hs in O. destruct O as (_ & Sy & _). unfold synced, tv in Sy. rewrite <- E3 in Sy. injection Sy. intros E4 E5.
    split; [congruence|]. split; [lia|]. split; assumption.
  Qed.
  Lemma joins_before : forall w i x o, new_joins (next_world w i x o) -> new_joins w.
  Proof.
    intros w i x o H j h ob h' E G. destruct (Z.eq_dec j i) as [->|Hn].
    - apply (H i h ob (h' ++ o)); [|exact G]. unfold next_world. cbn [w_hist]. rewrite put_same, E, <- app_assoc. reflexivity.
    - apply (H j h ob h'); [|exact G]. unfold next_world. cbn [w_hist]. rewrite put_other by exact Hn. exact E.
  Qed.
  Lemma mstep_before : forall w w', mstep servers prm w w' -> new_joins w' -> new_joins w.
  Proof. intros w w' H J. destruct H; eapply joins_before; exact J. Qed.

  (** a step of a running server as a sequence of atomic steps *)
  Lemma mwinv_step : forall w w', mwinv w -> mstep servers prm w w' -> new_joins w' -> mwinv w'.
  Proof.
    intros w w' W H HJ. assert (M := mw_m w W). destruct H.
    - assert (O := m_ok _ _ M i H). rewrite H0 in O. destruct O as (St & Ssy & Sid).
      assert (HT := proj1 (run_event_tr e n St _ _ _ H2)). assert (HR := proj1 (event_retry e n _ _ _ H2)).
      eapply (mwinv_event w i n e l n'); try eassumption.
      + eapply joins_ok; eassumption.
      + apply may_backed; assumption.
      + auto.
      + intros now q r0 -> Ea. destruct r as [a| | |]; try discriminate. cbn in Ea. inversion Ea; subst a.
        destruct (C53_response _ _ _ _ _ _ H2) as (R1 & R2 & _ & R3 & _). split; [congruence|]. split; [exact R2|]. intros T Hacc.
        destruct (event_vote_post _ _ _ _ _ _ St T H2 Hacc) as [V1 V2]. rewrite (tr_synced _ _ _ _ HT Ssy). unfold tv. rewrite V1. rewrite R3 by auto. reflexivity.
    - assert (O := m_ok _ _ M i H). rewrite H0 in O. destruct O as (St & Ssy & Sid).
      assert (HT := proj1 (run_event_tr e n St _ _ _ H2)). assert (HR := proj1 (event_retry e n _ _ _ H2)).
      eapply (mwinv_event w i n e l n'); try eassumption.
      + eapply joins_ok; eassumption.
      + apply may_backed; assumption.
      + auto.
      + intros; discriminate.
    - assert (O := m_ok _ _ M i H). rewrite H0 in O. destruct O as (St & Ssy & Sid).
      assert (HT := proj1 (run_event_tr e n St _ _ _ H2)). assert (HR := proj1 (event_retry e n _ _ _ H2)).
      destruct (tr_prefix _ _ _ _ HT p q eq_refl) as (n1 & HT1).
      rewrite <- (tr_disk _ _ _ _ HT1). apply Forall_app in HR. destruct HR as [HR _].
      eapply (mwinv_event w i n e p n1); try eassumption.
      + eapply joins_ok; eassumption.
      + apply may_backed; assumption.
      + auto.
      + intros; discriminate.
    - destruct W as [_ R A].
      assert (XA : forall j, w_acts (next_world w i (Up (start_node i (prm i) d)) []) j = w_acts w j).
      { intros j. unfold w_acts, next_world. cbn [w_hist]. destruct (Z.eq_dec j i) as [->|Hne]; [rewrite put_same, app_nil_r | rewrite put_other by exact Hne]; reflexivity. }
      split.
      + eapply minv_ext; [intros; reflexivity | exact XA|]. cbn [next_world w_sys].
        assert (O := m_ok _ _ M i H). rewrite H0 in O.
        apply minv_disk; try assumption.
        * split; [unfold n_log; rewrite start_disk; exact O|]. split; [apply start_synced | apply start_id].
        * rewrite H0. cbn [sys_disk]. apply start_disk.
        * apply ballot_none. unfold start_node. destruct (match dk_state d with Some x => x | None => (0, (-1)%Z) end); reflexivity.
        * intros _. unfold start_node. destruct (match dk_state d with Some x => x | None => (0, (-1)%Z) end); split; reflexivity.
      + intros j uid q Hj Hin. rewrite XA in Hin. apply (R j uid q Hj Hin).
      + intros j q r Hj (now & l0 & Hin). destruct (A j q r Hj) as (A1 & A2 & A3).
        { exists now, l0. unfold next_world in Hin. cbn [w_hist] in Hin. destruct (Z.eq_dec j i) as [->|Hne]; [rewrite put_same, app_nil_r in Hin | rewrite put_other in Hin by exact Hne]; exact Hin. }
        split; [exact A1|]. split; [exact A2|]. rewrite XA. exact A3.
  Qed.
  Lemma mwinv_blank : forall w, blank servers w -> mwinv w.
  Proof.
    intros w I. assert (XA : forall j, w_acts w j = []) by (intros j; unfold w_acts; rewrite (proj1 (I j)); reflexivity).
    assert (XD : forall j, In j ids -> exists d, w_sys w j = Down d /\ dk_state d = None /\ 1 <= al_start (dk_log d)) by (intros j; apply I).
    split; [split| |].
    - intros j Hj. destruct (XD j Hj) as (d & -> & _ & D). exact D.
    - intros j Hj. destruct (XD j Hj) as (d & -> & D & _). rewrite XA. cbn [sys_disk saves]. unfold saved. rewrite D. constructor.
    - intros j Hj. destruct (XD j Hj) as (d & -> & _). exact Logic.I.
    - intros j Hj. destruct (XD j Hj) as (d & -> & _). exact Logic.I.
    - intros k u x q Hk Hq. rewrite XA in Hq. destruct Hq.
    - intros j u q Hj Hq. rewrite XA in Hq. destruct Hq.
    - intros j q r Hj (now & l & Hin). rewrite (proj1 (I j)) in Hin. destruct Hin.
  Qed.
  Lemma mreach_before : forall w0 w, mreach servers prm w0 w -> new_joins w -> new_joins w0.
  Proof. intros w0 w H. induction H; intros J; [exact J|]. apply IHmreach. eapply mstep_before; eassumption. Qed.
  Theorem mreach_inv : forall w0 w, blank servers w0 -> mreach servers prm w0 w -> new_joins w -> mwinv w.
  Proof. intros w0 w B H. induction H; intros J; [apply mwinv_blank, B|]. eapply mwinv_step; [apply IHmreach; eapply mstep_before; eassumption | eassumption | exact J]. Qed.

  (** ** Taking over *)
  Lemma tr_leads : forall e n l n', tr e n l n' -> forall t, In (ABecomeLeader t) l ->
    exists l1 n1 l2, tr e n l1 n1 /\ l = l1 ++ l2 /\ t = n_term n1 /\ majority n1 (n_votes n1) = true.
  Proof.
    intros e n l n' H. induction H as [|n l n1 l1 n2 H T IH]; intros t Hin; [destruct Hin|].
    apply in_app_or in Hin. destruct Hin as [Hin|Hin].
    - destruct (astep_leads _ _ _ _ H) as [L|(L & Mj & _)]; [apply leads_in in Hin; rewrite L in Hin; destruct Hin|].
      rewrite L in Hin. destruct Hin as [Hin|[]]. inversion Hin. exists [], n, (l ++ l1). split; [constructor|]. split; [reflexivity|]. split; [reflexivity | exact Mj].
    - destruct (IH t Hin) as (a & m & b & A1 & A2 & A3 & A4). exists (l ++ a), m, b. split; [econstructor; eassumption|].
      split; [rewrite A2, app_assoc; reflexivity|]. split; assumption.
  Qed.
  Lemma in_put : forall A i l1 l2 t c j, voted (put A i (A i ++ l1)) t c j -> voted (put A i (A i ++ (l1 ++ l2))) t c j.
  Proof.
    intros A i l1 l2 t c j H. unfold voted in *. destruct (Z.eq_dec j i) as [->|Hn]; [rewrite put_same in * | rewrite put_other in * by exact Hn; exact H].
    rewrite !saves_app in *. apply in_app_or in H. apply in_or_app. destruct H as [H|H]; [left; exact H | right; apply in_or_app; left; exact H].
  Qed.
  Lemma saves_in : forall l t v, In (t, v) (saves l) <-> In (ASaveState t v) l.
  Proof.
    induction l as [|a l IH]; intros t v; [reflexivity|]. destruct a; cbn [saves In]; rewrite ?IH; try (split; [intros H; right; exact H | intros [H|H]; [discriminate | exact H]]).
    split; (intros [H|H]; [left; inversion H; reflexivity | right; exact H]).
  Qed.
  Definition backers (w : world) (t : N) (i : Z) (m : nat) : Prop :=
    exists B, NoDup B /\ incl B ids /\ (m < 2 * length B)%nat /\ forall j, In j B -> In (ASaveState t i) (w_acts w j).
  Lemma elect_tr : forall w i n e l n' t, mwinv w -> In i ids -> w_sys w i = Up n -> join_ok e n -> mbacked (w_acts w) i e -> tr e n l n' ->
    In (ABecomeLeader t) l -> may_lead e = true -> forall x a, backers (next_world w i x [mkObs e l a]) t i (S (length (n_peers n))).
  Proof.
    intros w i n e l n' t [M _ _] Hi Hs J K T Hin ML x a. destruct (tr_leads _ _ _ _ T t Hin) as (l1 & n1 & l2 & T1 & El & Et & Mj).
    destruct (minv_tr e n l1 n1 T1 _ _ i M Hi Hs J K) as [M1 _].
    assert (B := m_ballot _ _ M1 i Hi). rewrite put_same in B. destruct B as (B & B1 & B2 & B3 & B4 & B5).
    exists B. split; [exact B1|]. split; [exact B3|].
    assert (P := may_lead_peers _ _ _ _ ML T1). assert (Lp : length (n_peers n1) = length (n_peers n)) by (apply (f_equal (@length Z)) in P; rewrite !map_length in P; exact P).
    split.
    - unfold majority in Mj. apply Z.ltb_lt in Mj. rewrite Lp, <- B4 in Mj. assert (Y := Z.mul_succ_div_gt (Z.of_nat (length (n_peers n)) + 1) 2 ltac:(lia)). lia.
    - intros j Hj. rewrite acts_next. apply saves_in. rewrite Et, El. apply in_put, B5, Hj.
  Qed.
  Lemma acts_other : forall w i x o j, j <> i -> w_acts (next_world w i x o) j = w_acts w j.
  Proof. intros w i x o j Hn. unfold w_acts, next_world. cbn [w_hist]. rewrite put_other by exact Hn. reflexivity. Qed.
  Lemma app_same : forall A (a l : list A), a = a ++ l -> l = [].
  Proof. intros A a l H. apply (f_equal (@length A)) in H. rewrite app_length in H. destruct l; [reflexivity | cbn in H; lia]. Qed.
  Lemma takes_backers : forall w w' i t m, mwinv w -> new_joins w' -> takes_over servers prm w w' i t m -> backers w' t i m.
  Proof.
    intros w w' i t m W HJ (Hi & H & n & l & Hs & El & Hin & Em).
    assert (M := mw_m w W). destruct H as [k n0 e r n' l0 H H0 H1 H2 H3|k n0 e r n' l0 H H0 H1 H2 H3|k n0 e r n' p q H H0 H1 H2|k d H H0].
    4:{ exfalso. assert (Z0 : w_acts (next_world w k (Up (start_node k (prm k) d)) []) i = w_acts w i).
        { unfold w_acts, next_world. cbn [w_hist]. destruct (Z.eq_dec i k) as [->|Hne]; [rewrite put_same, app_nil_r | rewrite put_other by exact Hne]; reflexivity. }
        rewrite Z0 in El. apply app_same in El. rewrite El in Hin. destruct Hin. }
    all: destruct (Z.eq_dec i k) as [->|Hne]; [|exfalso; rewrite acts_other in El by exact Hne; apply app_same in El; rewrite El in Hin; destruct Hin].
    all: rewrite acts_next, put_same in El; apply app_inv_head in El; rewrite H0 in Hs; inversion Hs; subst n0.
    all: assert (O := m_ok _ _ M k H); rewrite H0 in O; destruct O as (St & Ssy & Sid).
    all: assert (HT := proj1 (run_event_tr e n St _ _ _ H2)).
    all: assert (J : join_ok e n) by (eapply joins_ok; eassumption).
    all: assert (K : mbacked (w_acts w) k e) by (apply may_backed; assumption).
    all: rewrite Em.
    - subst l0. assert (ML : may_lead e = true).
      { destruct (may_lead e) eqn:E; [reflexivity|]. assert (X := proj1 (event_led e n E _ _ _ H2)). unfold r_led in X. apply leads_in in Hin. rewrite X in Hin. destruct Hin. }
      eapply elect_tr; eassumption.
    - subst l0. assert (ML : may_lead e = true).
      { destruct (may_lead e) eqn:E; [reflexivity|]. assert (X := proj1 (event_led e n E _ _ _ H2)). unfold r_led in X. apply leads_in in Hin. rewrite X in Hin. destruct Hin. }
      eapply elect_tr; eassumption.
    - subst l. destruct (tr_prefix _ _ _ _ HT p q eq_refl) as (n1 & HT1). assert (ML : may_lead e = true).
      { destruct (may_lead e) eqn:E; [reflexivity|]. assert (X := proj1 (event_led e n E _ _ _ H2)). unfold r_led in X. rewrite leads_app in X. apply app_eq_nil in X.
        apply leads_in in Hin. rewrite (proj1 X) in Hin. destruct Hin. }
      eapply elect_tr; eassumption.
  Qed.
  Lemma mreach_grow : forall w0 w, mreach servers prm w0 w -> forall i, incl (w_acts w0 i) (w_acts w i).
  Proof.
    intros w0 w H. induction H as [|w w' H IH S]; intros i a Ha; [exact Ha|]. specialize (IH i a Ha). destruct S as [k n0 e r n' l0|k n0 e r n' l0|k n0 e r n' p q|k d].
    1-3: rewrite acts_next; (destruct (Z.eq_dec i k) as [->|Hn]; [rewrite put_same; apply in_or_app; left; exact IH | rewrite put_other by exact Hn; exact IH]).
    unfold w_acts, next_world in *. cbn [w_hist]. destruct (Z.eq_dec i k) as [->|Hne]; [rewrite put_same, app_nil_r | rewrite put_other by exact Hne]; exact IH.
  Qed.
  Lemma backers_one : forall w t i j m1 m2, mwinv w -> In i ids -> In j ids -> backers w t i m1 -> backers w t j m2 ->
    (length ids < Nat.div m1 2 + Nat.div m2 2 + 2)%nat -> i = j.
  Proof.
    intros w t i j m1 m2 [M _ _] Hi Hj (B & B1 & B2 & B3 & B4) (C & C1 & C2 & C3 & C4) L.
    assert (LB : (Nat.div m1 2 < length B)%nat) by (apply Nat.div_lt_upper_bound; lia).
    assert (LC : (Nat.div m2 2 < length C)%nat) by (apply Nat.div_lt_upper_bound; lia).
    destruct (pigeon servers B C B1 C1 B2 C2 ltac:(fold ids; lia)) as (k & KB & KC).
    assert (V := m_tv _ _ M k (B2 k KB)). assert (X1 := B4 k KB). assert (X2 := C4 k KC). apply saves_in in X1. apply saves_in in X2.
    assert (Nm : forall x, In x ids -> x <> (-1)%Z) by (intros x Hx ->; exact (Hneg Hx)).
    assert (Y := tv_chain_vote _ _ _ V (t, i) (t, j)). cbn in Y. apply Y; auto.
  Qed.
End MemberElect.
