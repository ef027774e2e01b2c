(** * ClusterElectS: elections in a cluster with fixed membership whose servers take and
      install snapshots *)

From Verif Require Import Base Buffer BufferSpec BufferProofs Codec CodecSpec CodecProofs Msg FsLogStore FsLogSpec Alog
  Raft P_Config RaftQuiet RaftTrace RaftTrace2 RaftTrace3 NodeSpec NodeLife Cluster ClusterElect.
Local Open Scope N_scope.

Section ElectS.
  Variable servers : list srv_config.
  Hypothesis HC : cluster_okay servers.
  Let ids := ids servers.
  Notation pids := (pids servers).
  Notation good := (good servers).
  Notation goodlog := (goodlog servers).
  Notation ballot := (ballot servers).
  Notation elected := (elected servers).
  Notation ae_good := (ae_good servers).
  Notation backed := (backed servers).
  Notation entries_good := (entries_good servers).

  Notation pigeon := (pigeon servers).
  Notation elected_mono := (elected_mono servers).
  Notation backed_mono := (backed_mono servers).
  Notation goodlog_append := (goodlog_append servers).
  Notation goodlog_write := (goodlog_write servers).
  Notation pids_in := (pids_in servers).
  Notation ballot_mono := (ballot_mono servers).
  Notation ballot_same := (ballot_same servers).
  Notation ballot_none := (ballot_none servers).
  Notation ae_msg_good := (ae_msg_good servers).
  Notation ids_pos := (ids_pos servers HC).
  Notation good_parse := (good_parse servers HC).
  Notation pids_len := (pids_len servers HC).
  Notation start_pids := (start_pids servers HC).
  Notation start_n := (start_n servers HC).

  (** events of a cluster with fixed membership *)
  Definition fs (e : event) : Prop :=
    match e with
    | ERequest _ q => rq_type q = append_entries_request \/ rq_type q = vote_request \/ rq_type q = prevote_request \/ client_req q \/
        (rq_type q = install_snapshot_request /\ forall c, snp_conf q c -> cc_servers c = servers)
    | ERpc _ _ true q None => rq_type q = prevote_request
    | ERpc _ _ true q (Some r) => rs_type r = prevote_response
    | EElection | EHeartbeat _ | ECommit | EReplicate _ _ | EAppend _ _ | ERpc _ _ false _ _ | ESnapshot _ _ _ => True
    | _ => False
    end.
  Lemma fs_conf : forall e, fs e -> conf_event e = false.
  Proof.
    intros e F. destruct e as [| | |now uid ext q r| | | | | | |]; try reflexivity. destruct ext, r as [r|]; try reflexivity; cbn in *.
    - rewrite F. reflexivity.
    - rewrite F. reflexivity.
  Qed.
  Lemma fs_req : forall e q ty, fs e -> req_of e q -> rq_type q = ty ->
    ty <> append_entries_request -> ty <> vote_request -> ty <> prevote_request -> ty <> client_request -> ty <> install_snapshot_request -> False.
  Proof.
    intros e q ty F [now ->] T H1 H2 H3 H4 H5. cbn in F. destruct F as [F|[F|[F|[[F _]|[F _]]]]]; congruence.
  Qed.
  Lemma fs_snp : forall e q c, fs e -> req_of e q -> rq_type q = install_snapshot_request -> snp_conf q c -> cc_servers c = servers.
  Proof.
    intros e q c F [now ->] T S. cbn in F. destruct F as [F|[F|[F|[[F _]|[_ F]]]]]; try (rewrite F in T; discriminate). apply F, S.
  Qed.
  Ltac not_fs := exfalso; match goal with
    | F : fs ?e, Q : req_of ?e ?q, T : rq_type ?q = ?t |- _ => apply (fs_req e q t F Q T); discriminate
    | F : fs ?e, Q : exists q, req_of ?e q /\ rq_type q = ?t |- _ => destruct Q as (? & Q & T); apply (fs_req e _ t F Q T); discriminate
    | F : fs ?e, H : conf_event ?e = true |- _ => rewrite (fs_conf e F) in H; discriminate
    | F : fs ?e, H : ?e = _ |- _ => rewrite H in F; destruct F
    end.

  (** ** The invariant *)
  Definition static_s (i : Z) (x : sys) : Prop :=
    (match x with
     | Up n => n_id n = i /\ synced n /\ map p_id (n_peers n) = pids i /\ cc_servers (n_config n) = servers /\ n_steps n = 0%Z
     | Down _ => True
     end) /\
    1 <= al_start (dk_log (sys_disk x)) /\ cc_servers (dk_config (sys_disk x)) = servers /\ goodlog (dk_log (sys_disk x)).
  Record einv_s (s : Z -> sys) (A : Z -> list act) : Prop := mkEinv_s {
    s_static : forall i, In i ids -> static_s i (s i);
    s_tv : forall i, In i ids -> tv_chain (0, (-1)%Z) (saves (A i)) (saved (sys_disk (s i)));
    s_ballot : forall i, In i ids -> ballot A i (s i);
    s_led : forall i t, In i ids -> In t (leads (A i)) -> elected A t i /\ t <= term_of (s i);
    s_role : forall i n, In i ids -> s i = Up n -> n_role n = Leader -> In (n_term n) (leads (A i));
    s_ae : forall k q, In k ids -> ae_sent A k q -> ae_good A k q;
    s_sent : forall k uid q, In k ids -> In (ASend uid false q) (A k) ->
      (rq_type q = append_entries_request \/ rq_type q = vote_request \/ rq_type q = install_snapshot_request) /\ rq_src q = k
  }.

  Lemma elected_unique_s : forall s A t i j, einv_s s A -> In i ids -> In j ids -> elected A t i -> elected A t j -> i = j.
  Proof.
    intros s A t i j [_ TV _ _ _ _ _] Hi Hj (B & NB & IB & LB & VB) (C & NC & IC & LC & VC).
    destruct (pigeon B C NB NC IB IC ltac:(lia)) as (k & KB & KC).
    specialize (VB k KB). specialize (VC k KC). unfold voted in *.
    apply (tv_chain_vote _ _ _ (TV k (IB k KB)) (t, i) (t, j)); try (right; assumption); try reflexivity; cbn; apply ids_pos; assumption.
  Qed.

  Lemma source_servers_s : forall i e n c, static_s i (Up n) -> fs e -> cfg_source e n c -> cc_servers c = servers.
  Proof.
    intros i e n c (_ & _ & _ & G) F [(_ & en & H1 & H2 & H3)|(q & Q & [[T S]|T])]; [|apply (fs_snp e q); assumption|not_fs].
    apply (good_parse en); [apply (G _ _ H1) | exact H2 | exact H3].
  Qed.
  Lemma source_same_s : forall i e n c, In i ids -> static_s i (Up n) -> fs e -> cfg_source e n c -> same_members c n.
  Proof.
    intros i e n c Hi S F H id. unfold cfg_ids, members. rewrite (source_servers_s i e n c S F H).
    destruct S as ((-> & _ & -> & _) & _). cbn [In]. rewrite pids_in. fold (Cluster.ids servers). fold ids.
    split; [intros H1; destruct (Z.eq_dec i id); auto | intros [<-|[H1 _]]; auto].
  Qed.
  Lemma client_good_s : forall e x, fs e -> client_entry e x -> good x.
  Proof.
    intros e x F H T. exfalso. destruct e as [| |now q|now uid ext q r| | | | | | |]; cbn in *; try contradiction.
    - destruct H as (H1 & e0 & H2 & H3 & _). destruct F as [F|[F|[F|[[_ F]|[F _]]]]]; try (rewrite F in H1; discriminate). apply (F e0 H2). congruence.
    - destruct H as [H _]. rewrite T in H. discriminate.
    - destruct H as [H _]. rewrite T in H. discriminate.
  Qed.

  Lemma goodlog_compact : forall l k, al_start l <= k -> goodlog l -> goodlog (a_compact l k).
  Proof. intros l k L G j e H. rewrite a_get_compact in H by lia. destruct (j <=? k); [discriminate | apply (G j e H)]. Qed.
  Lemma astep_static_s : forall i e n l n', In i ids -> static_s i (Up n) -> fs e -> entries_good e -> astep e n l n' -> static_s i (Up n').
  Proof.
    intros i e n l n' Hi S F G H. assert (S0 := S). destruct S as ((Sid & Ssy & Sp & Sc & Sst) & Slog & Sdc & Sg). cbn [sys_disk] in *.
    assert (Sy : synced n') by (eapply astep_synced; eassumption).
    assert (Id : n_id n' = i) by (rewrite (astep_id _ _ _ _ H); exact Sid).
    unfold static_s; cbn [sys_disk].
    destruct H; try solve [not_fs];
      try (split; [split; [exact Id|]; split; [exact Sy|]; split; [exact Sp|]; split; [exact Sc | exact Sst] | split; [exact Slog|]; split; [exact Sdc | exact Sg]]; fail).
    - destruct H as (ps & q & j & -> & _ & H & _). split; [|split; [exact Slog|]; split; [exact Sdc | exact Sg]].
      split; [exact Id|]. split; [exact Sy|]. split; [|split; [exact Sc | exact Sst]]. cbn. rewrite <- Sp. clear -H.
      induction H; [reflexivity|]. cbn [map]. f_equal; [|exact IHForall2]. destruct H as [_ H]. unfold p_id. congruence.
    - unfold core in H. injection H. intros.
      split; [split; [exact Id|]; split; [exact Sy|]; split; [congruence|]; split; congruence|].
      split; [congruence|]. split; [congruence|]. replace (n_disk n') with (n_disk n) by congruence. exact Sg.
    - destruct H as [H|H]; [lia | not_fs].
    - lia.
    - split; [split; [exact Id|]; split; [exact Sy|]; split; [exact Sp|]; split; [exact Sc | exact Sst]|].
      cbn [apply_act set_disk n_disk disk_apply dk_log dk_config]. rewrite al_start_replace. split; [exact Slog|]. split; [exact Sdc|]. apply goodlog_append; [exact Sg|].
      destruct H1 as [[-> _]|H1]; [intros _; exists (n_config n); split; [reflexivity | exact Sc] | eapply client_good_s; eassumption].
    - split; [split; [exact Id|]; split; [exact Sy|]; split; [exact Sp|]; split; [exact Sc | exact Sst]|].
      cbn [apply_act set_disk n_disk disk_apply dk_log dk_config]. rewrite al_start_replace. split; [exact Slog|]. split; [exact Sdc|]. apply goodlog_write; [exact (proj1 H6) | exact Sg|].
      specialize (G q H H0). rewrite Forall_forall in G. apply G. eapply nth_error_In; eassumption.
    - split; [split; [exact Id|]; split; [exact Sy|]; split; [exact Sp|]; split; [exact Sc | exact Sst]|].
      cbn [apply_act set_disk n_disk disk_apply dk_log dk_config]. rewrite al_start_replace. split; [exact Slog|]. split; [exact Sdc|]. apply goodlog_append; [exact Sg|].
      specialize (G q H H0). rewrite Forall_forall in G. apply G. eapply nth_error_In; eassumption.
    - split; [split; [exact Id|]; split; [exact Sy|]; split; [exact Sp|]; split; [exact Sc | exact Sst]|]. cbn.
      split; [exact Slog|]. split; [|exact Sg]. eapply source_servers_s; eassumption.
    - exfalso. apply H0. eapply source_same_s; eassumption.
    - split; [|split; [exact Slog|]; split; [exact Sdc | exact Sg]].
      split; [exact Id|]. split; [exact Sy|]. split; [exact Sp|]. split; [|exact Sst]. cbn.
      destruct H as [H|[_ H]]; [eapply source_servers_s; eassumption | congruence].
    - split; [split; [exact Id|]; split; [exact Sy|]; split; [exact Sp|]; split; [exact Sc | exact Sst]|].
      cbn [apply_act set_disk n_disk disk_apply dk_log dk_config]. split; [cbn; lia|]. split; [exact Sdc|]. apply goodlog_compact; [assumption | exact Sg].
    - split; [split; [exact Id|]; split; [exact Sy|]; split; [exact Sp|]; split; [exact Sc | exact Sst]|].
      destruct a; try contradiction; (split; [exact Slog|]; split; [exact Sdc | exact Sg]).
  Qed.

  Lemma fs_join : forall e, fs e -> no_join e.
  Proof. intros e F q Q T. not_fs. Qed.

  Lemma astep_ballot_s : forall A i e n l n', In i ids -> static_s i (Up n) -> fs e -> backed A i e ->
    astep e n l n' -> ballot A i (Up n) -> ballot (put A i (A i ++ l)) i (Up n').
  Proof.
    intros A i e n l n' Hi ((Sid & Ssy & Sp & _) & _) F K H B. apply (ballot_mono A i l) in B.
    destruct H; try solve [not_fs]; try (exact B); try (apply ballot_none; reflexivity).
    - destruct H as (ps & q & j & -> & _). exact B.
    - unfold core in H. injection H. intros. apply (ballot_same _ _ n); congruence.
    - exists [n_id n]. split; [constructor; [intros [] | constructor]|]. split; [intros x Hx; exact Hx|].
      split; [intros x [<-|[]]; rewrite Sid; exact Hi|]. split; [reflexivity|]. intros j [<-|[]]. unfold voted.
      rewrite Sid, put_same, saves_app. apply in_or_app. right. left. reflexivity.
    - destruct B as (C & C1 & C2 & C3 & C4 & C5). destruct (rs_accepted r) eqn:Ea.
      + exists (rs_src r :: C). split; [constructor; [intros Hc; apply H3, C2, Hc | exact C1]|].
        split; [intros x [<-|Hx]; [left; reflexivity | right; apply C2, Hx]|].
        rewrite Sp in H4. apply pids_in in H4.
        split; [intros x [<-|Hx]; [apply H4 | apply C3, Hx]|]. split; [cbn [length n_votes set_votes set_done]; cbn; lia|].
        intros j [<-|Hj]; [|apply C5, Hj]. apply voted_mono. cbn. rewrite <- H1. subst e. apply K; assumption.
      + exists C. split; [exact C1|]. split; [intros x Hx; right; apply C2, Hx|]. split; [exact C3|]. split; [exact C4 | exact C5].
    - destruct H1 as (_ & H1 & _). unfold core in H1. cbn in H1. injection H1. intros. apply (ballot_same _ _ n); congruence.
  Qed.

  Lemma ballot_elected_s : forall A i n, In i ids -> static_s i (Up n) -> ballot A i (Up n) -> majority n (n_votes n) = true -> elected A (n_term n) i.
  Proof.
    intros A i n Hi ((Sid & Ssy & Sp & _) & _) (B & B1 & B2 & B3 & B4 & B5) M. exists B. split; [exact B1|]. split; [exact B3|].
    split; [|exact B5]. unfold majority in M. apply Z.ltb_lt in M.
    assert (L : length (n_peers n) = length (pids i)) by (rewrite <- Sp, map_length; reflexivity).
    assert (L2 := pids_len i Hi). rewrite L, <- B4 in M.
    assert (X : (Z.of_nat (length (pids i)) + 1 < 2 * Z.of_nat (length B))%Z).
    { assert (Y := Z.mul_succ_div_gt (Z.of_nat (length (pids i)) + 1) 2 ltac:(lia)). lia. }
    lia.
  Qed.

  Lemma astep_role_s : forall e n l n', fs e -> astep e n l n' -> n_role n' = Leader ->
    (n_role n = Leader /\ n_term n' = n_term n) \/ In (ABecomeLeader (n_term n')) l.
  Proof.
    intros e n l n' F H R. destruct H; try solve [not_fs]; try (left; split; [exact R | reflexivity]); try discriminate.
    - destruct H as (ps & q & j & -> & _). left. split; [exact R | reflexivity].
    - unfold core in H. injection H. intros. left. split; congruence.
    - right. left. reflexivity.
    - destruct H1 as (_ & H1 & _). unfold core in H1. cbn in H1. injection H1. intros. left. split; congruence.
  Qed.

  (** append-entries requests sent in a step *)
  Lemma astep_ae_s : forall i e n l n', fs e -> static_s i (Up n) -> astep e n l n' -> forall uid ext q,
    In (ASend uid ext q) l -> rq_type q = append_entries_request ->
    n_role n = Leader /\ ae_msg n q /\ In (rq_dst q) (map p_id (n_peers n)) /\ n_term n' = n_term n /\ n_disk n' = n_disk n /\ n_role n' = n_role n.
  Proof.
    intros i e n l n' F (_ & Slog & _) H uid ext q Hin T. cbn [sys_disk] in Slog.
    destruct H; try solve [not_fs]; try (destruct Hin as [Hin|[]]; discriminate); try destruct Hin as [].
    - destruct H as (ps & q0 & j & -> & _ & _ & _ & Hl). rewrite Forall_forall in Hl. specialize (Hl _ Hin). cbn in Hl.
      destruct Hl as (_ & [Hl|Hl] & _ & p & Hp & _ & Hd); [|destruct Hl as (Hl & _); rewrite Hl in T; discriminate].
      split; [|split; [exact Hl|]; split; [rewrite Hd; apply in_map, Hp | repeat split; reflexivity]].
      destruct H0 as [[H0|[H0|H0]] _]; [exact H0 | | not_fs]. exfalso. rewrite Forall_forall in H0. apply (H0 _ Hin).
    - rewrite Forall_forall in H0. specialize (H0 _ Hin). cbn in H0. destruct H0 as [_ H0]. rewrite T in H0. discriminate.
    - inversion H6; subst. rewrite H1 in T. discriminate.
    - contradiction.
    - destruct H1 as (H1 & _). rewrite Forall_forall in H1. destruct (H1 _ Hin) as [H2|H2]; [|discriminate].
      cbn in H2. destruct H2 as [_ H2]. rewrite T in H2. discriminate.
    - subst a. contradiction.
    - contradiction.
  Qed.
  (** every other request *)
  Lemma astep_sent_s : forall i e n l n', fs e -> static_s i (Up n) -> astep e n l n' -> forall uid q,
    In (ASend uid false q) l -> (rq_type q = append_entries_request \/ rq_type q = vote_request \/ rq_type q = install_snapshot_request) /\ rq_src q = i.
  Proof.
    intros i e n l n' F ((<- & _) & Slog & _) H uid q Hin. cbn [sys_disk] in Slog.
    destruct H; try solve [not_fs]; try (destruct Hin as [Hin|[]]; discriminate); try destruct Hin as [].
    - destruct H as (ps & q0 & j & -> & _ & _ & _ & Hl). rewrite Forall_forall in Hl. specialize (Hl _ Hin). cbn in Hl.
      destruct Hl as (_ & [Hl|Hl] & _); [|destruct Hl as (Hl1 & _ & Hl2 & _); auto]. destruct Hl as (H1 & _ & H2 & _). auto.
    - rewrite Forall_forall in H0. specialize (H0 _ Hin). cbn in H0. destruct H0 as [H0 _]. discriminate.
    - inversion H6; subst. auto.
    - contradiction.
    - destruct H1 as (H1 & _). rewrite Forall_forall in H1. destruct (H1 _ Hin) as [H2|H2]; [|discriminate].
      cbn in H2. destruct H2 as [H2 _]. discriminate.
    - subst a. contradiction.
    - contradiction.
  Qed.
  Lemma einv_step_s : forall s A i n e l n', einv_s s A -> In i ids -> s i = Up n -> fs e -> backed A i e -> astep e n l n' ->
    einv_s (put s i (Up n')) (put A i (A i ++ l)).
  Proof.
    intros s A i n e l n' E Hi Hs F K H. destruct E as [E1 E2 E3 E4 E5 E6 E7].
    assert (S := E1 i Hi). rewrite Hs in S. assert (S0 := S). destruct S as ((Sid & Ssy & Sp & Sc & Sst) & Slog & Sdc & Sg). cbn [sys_disk] in *.
    assert (B := E3 i Hi). rewrite Hs in B. assert (V := E2 i Hi). rewrite Hs in V. cbn [sys_disk] in V.
    assert (G : entries_good e).
    { intros q [now ->] T. destruct (K T) as (k & Hk & Hq & _). apply (E6 k q Hk Hq). }
    assert (TV := astep_tv _ _ _ _ (fs_join e F) H). rewrite <- Ssy in TV.
    assert (Sy' : saved (n_disk n') = tv n') by (eapply astep_synced; eassumption). rewrite <- Sy' in TV.
    assert (M : term_of (Up n) <= term_of (Up n')) by apply (tv_chain_le _ _ _ TV).
    split.
    - intros j Hj. destruct (Z.eq_dec j i) as [->|Hn]; [|rewrite put_other by exact Hn; apply E1, Hj].
      rewrite put_same. eapply astep_static_s; eassumption.
    - intros j Hj. destruct (Z.eq_dec j i) as [->|Hn]; [|rewrite !put_other by exact Hn; apply E2, Hj].
      rewrite !put_same, saves_app. eapply tv_chain_app; [exact V | exact TV].
    - intros j Hj. destruct (Z.eq_dec j i) as [->|Hn]; [|rewrite (put_other _ s) by exact Hn; apply ballot_mono, E3, Hj].
      rewrite (put_same _ s). eapply astep_ballot_s; eassumption.
    - intros j t Hj Ht. destruct (Z.eq_dec j i) as [->|Hn].
      2:{ rewrite put_other in Ht by exact Hn. rewrite (put_other _ s) by exact Hn. split; [apply elected_mono|]; apply E4; assumption. }
      rewrite put_same, leads_app in Ht. rewrite (put_same _ s). apply in_app_or in Ht. destruct Ht as [Ht|Ht].
      + destruct (E4 i t Hi Ht) as [X Y]. split; [apply elected_mono, X|]. rewrite Hs in Y. lia.
      + destruct (astep_leads _ _ _ _ H) as [L|(L & Mj & L2)]; [rewrite L in Ht; destruct Ht|]. rewrite L in Ht. destruct Ht as [<-|[]].
        split; [apply elected_mono, ballot_elected_s; assumption|]. unfold term_of, sys_disk in *. rewrite Ssy in M. exact M.
    - intros j m Hj Hm R. destruct (Z.eq_dec j i) as [->|Hn].
      2:{ rewrite put_other in Hm by exact Hn. apply leads_mono. apply (E5 j m); assumption. }
      rewrite put_same in Hm. inversion Hm; subst m. rewrite put_same, leads_app. apply in_or_app.
      destruct (astep_role_s _ _ _ _ F H R) as [[R1 R2]|R1]; [left; rewrite R2; apply (E5 i n); assumption | right; apply leads_in, R1].
    - intros k q Hk (T & uid & ext & Hq).
      assert (Old : ae_sent A k q -> ae_good (put A i (A i ++ l)) k q).
      { intros Ho. destruct (E6 k q Hk Ho) as (X1 & X2 & X3 & X4). repeat (split; [assumption|]). split; [apply leads_mono, X3 | exact X4]. }
      destruct (Z.eq_dec k i) as [->|Hn].
      2:{ rewrite put_other in Hq by exact Hn. apply Old. split; [exact T|]. eauto. }
      rewrite put_same in Hq. apply in_app_or in Hq. destruct Hq as [Hq|Hq]; [apply Old; split; [exact T | eauto]|].
      destruct (astep_ae_s _ _ _ _ _ F S0 H _ _ _ Hq T) as (R & Ms & Hd & _). assert (Ms0 := Ms). destruct Ms as (_ & M2 & M3 & _).
      split; [congruence|]. split; [rewrite Sp in Hd; apply pids_in in Hd; apply Hd|].
      split; [|eapply ae_msg_good; eassumption]. rewrite M2. apply leads_mono. apply (E5 i n); assumption.
    - intros k uid q Hk Hq. destruct (Z.eq_dec k i) as [->|Hn]; [|rewrite put_other in Hq by exact Hn; apply (E7 k uid q Hk Hq)].
      rewrite put_same in Hq. apply in_app_or in Hq. destruct Hq as [Hq|Hq]; [apply (E7 i uid q Hk Hq)|]. eapply astep_sent_s; eassumption.
  Qed.

  (** stopping and starting *)
  Lemma einv_disk_s : forall s A i x, einv_s s A -> In i ids -> static_s i x -> sys_disk x = sys_disk (s i) -> ballot A i x ->
    (forall n, x = Up n -> n_role n <> Leader) -> einv_s (put s i x) A.
  Proof.
    intros s A i x [E1 E2 E3 E4 E5 E6 E7] Hi Sx Dx Bx Rx. split.
    - intros j Hj. destruct (Z.eq_dec j i) as [->|Hn]; [rewrite put_same; exact Sx | rewrite put_other by exact Hn; apply E1, Hj].
    - intros j Hj. destruct (Z.eq_dec j i) as [->|Hn]; [rewrite put_same, Dx; apply E2, Hi | rewrite put_other by exact Hn; apply E2, Hj].
    - intros j Hj. destruct (Z.eq_dec j i) as [->|Hn]; [rewrite put_same; exact Bx | rewrite put_other by exact Hn; apply E3, Hj].
    - intros j t Hj Ht. destruct (Z.eq_dec j i) as [->|Hn]; [rewrite put_same; unfold term_of; rewrite Dx | rewrite put_other by exact Hn]; apply E4; assumption.
    - intros j n Hj Hn R. destruct (Z.eq_dec j i) as [->|Hne]; [rewrite put_same in Hn; destruct (Rx n Hn R) | rewrite put_other in Hn by exact Hne; apply (E5 j n); assumption].
    - exact E6.
    - exact E7.
  Qed.
  Lemma einv_down_s : forall s A i, einv_s s A -> In i ids -> einv_s (put s i (Down (sys_disk (s i)))) A.
  Proof.
    intros s A i E Hi. apply einv_disk_s; try assumption; [|reflexivity|exact I|intros n Hn; discriminate].
    split; [exact I|]. apply (s_static s A E i Hi).
  Qed.
  Lemma einv_up_s : forall s A i pm d, einv_s s A -> In i ids -> s i = Down d -> einv_s (put s i (Up (start_node i pm d))) A.
  Proof.
    intros s A i pm d E Hi Hs. assert (S := s_static s A E i Hi). rewrite Hs in S. destruct S as (_ & S1 & S2 & S3). cbn [sys_disk] in *.
    destruct (start_n i pm d S2) as (P1 & P2 & P3 & P4 & P5).
    apply einv_disk_s; try assumption.
    - unfold static_s. cbn [sys_disk]. rewrite start_disk. split; [|auto]. rewrite start_id, P2. split; [reflexivity|].
      split; [apply start_synced|]. auto.
    - rewrite Hs. cbn [sys_disk]. apply start_disk.
    - apply ballot_none. exact P4.
    - intros n Hn R. inversion Hn; subst n. rewrite P5 in R. discriminate.
  Qed.
End ElectS.
