(** * P_Down: no schedule of messages ends a server (C106)

    The servers of a cluster end their own process when they find something they take to be
    impossible.  In runs in which no server handles an acknowledgement from an earlier term and no
    leader's election timer fires, it is impossible. *)

From Verif Require Import Base Buffer BufferSpec Codec CodecSpec BufferProofs CodecProofs Msg FsLogStore FsLogSpec Alog Raft RaftQuiet NodeSpec NodeLife NodeFacts NodeExamples
  ServerSpec PeerInv AppendFacts P_Config Cluster ClusterElect ClusterLog ClusterRun CommitSpec MatchRun ClusterExamples CommitExamples P_Cluster P_Safe Runs P_Avail Alive.
Local Open Scope N_scope.

(** server [i] does not handle an acknowledgement of entries it sent in an earlier term, and the
    election timer, which a server stops when it becomes leader, does not fire at a leader *)
Definition timely (w : world) (i : Z) (n : node) (e : event) (n' : node) : Prop :=
  match e with
  | EElection => n_role n <> Leader
  | ERpc _ _ _ q (Some r) => rq_type q = append_entries_request -> rs_accepted r = true -> n_term n <= rq_term q
  | _ => True
  end.

Lemma lv_catch : forall U A (Q : A -> node -> Prop) m h n, lives U Q m n -> lives U Q (catch m h) n.
Proof. intros U A Q m h n (a & n' & l & E & F & H). exists a, n', l. split; [|split; assumption]. unfold catch. rewrite E. reflexivity. Qed.
Lemma lv_eq : forall U A (Q : A -> node -> Prop) m n a n' l, m n = (ROk a, n', l) -> Forall (fits U) l -> Q a n' -> lives U Q m n.
Proof. intros U A Q m n a n' l H F K. exists a, n', l. auto. Qed.

Section Down.
  Variable servers : list srv_config.
  Variable prm : Z -> params.
  Hypothesis HC : cluster_okay servers.
  Hypothesis HS : no_snapshots prm.
  Notation ids := (Cluster.ids servers).
  Notation reach := (reach servers prm).
  Notation step := (step servers prm).

  (** the peer objects of server [i]: the same each time it starts *)
  Definition objs (i : Z) : list (Z * N) := map (fun p => (p_id p, p_uid p)) (start_peers i (prm i) 0 servers).

  Lemma commit_step_lives : forall U i n, In i ids -> sane U n -> n_id n = i -> map p_id (n_peers n) = pids servers i -> n_prm n = prm i -> goodlog servers (n_log n) ->
    lives U (fun _ n' => sane U n') commit_step n.
  Proof.
    intros U i n Hi Ok Id Pi Pm Gl. unfold commit_step. do 2 lvs. assert (S2 : al_start (n_log n) = 1) by apply Ok.
    destruct ((n_smc n <? n_quick n) && (n_smc n <? a_next (n_log n) - 1)) eqn:E; [|lvs; exact Ok]. apply andb_prop in E. destruct E as [E1 E2].
    apply lv_catch. cbv zeta. do 2 lvs. set (m := set_smc (n_smc n + 1) n). destruct (a_get_in (n_log n) (n_smc n + 1)) as (e & Ge); [lia|].
    lvs. unfold log_entry_at. do 2 lvs. change (n_log m) with (n_log n). replace (n_smc n + 1 <? al_start (n_log n)) with false by lia. rewrite Ge. do 2 lvs. unfold deref. lvs.
    assert (Sn : forall k x, n_prm x = prm i -> sane U x -> lives U (fun _ n' => sane U n') (snapshot_and_compact k) x).
    { intros k x Ex Ox. unfold snapshot_and_compact. do 2 lvs. cbv zeta. rewrite Ex, HS. cbn [N.eqb orb]. lvs. exact Ox. }
    lvs. apply lv_mono with (Q := fun _ x => sane U x /\ n_prm x = prm i); [|intros u x (Ox & Px); apply Sn; assumption].
    destruct (beq (ev_type e) app_log); [lvs; split; [exact Ok | exact Pm]|]. destruct (beq (ev_type e) conf_log) eqn:Tc; [|lvs; split; [exact Ok | exact Pm]].
    apply Byte.byte_dec_bl in Tc. destruct (good_parses servers HC e (Gl _ _ Ge) Tc) as (c & Pc & Sc). rewrite Pc. change (lift (Base.Ok c)) with (@ret cluster_config c). repeat lvs.
    all: try (split; [exact Ok | exact Pm]).
    all: match goal with |- lives _ _ (reconfigure _) ?x => apply (lv_eq _ _ _ _ _ _ _ _ (reconfigure_same servers c x i Hi Sc Id Pi)); [constructor|] end.
    all: repeat lvs; (split; [exact Ok | exact Pm]).
  Qed.
  Definition up_ok (w : world) (i : Z) : Prop :=
    (forall n, w_sys w i = Up n -> sane (objs i) n) /\ (forall u x q, sent w i u x q -> In u (map snd (objs i))) /\ (forall c, ~ In (AExit c) (w_acts w i)).

  (** an acknowledgement of the present term does not go beyond the end of the log *)
  Lemma ack_within : forall w0 w i n now u q r, initial servers w0 -> reach w0 w -> In i ids -> w_sys w i = Up n -> (2 <= length ids)%nat ->
    possible servers w i (ERpc now u false q (Some r)) -> rq_type q = append_entries_request -> rs_accepted r = true -> n_term n <= rq_term q ->
    rs_next_idx r <= a_next (n_log n).
  Proof.
    intros w0 w i n now u q r I0 R Hi Wi H2 (Sq & Dq & An) Tq Ac Te. assert (W := reach_winv servers prm HC HS w0 w I0 R). assert (M := reach_minv servers prm HC HS H2 w0 w I0 R).
    rewrite (m_ans _ w M _ _ _ Dq An Tq Ac). assert (As : ae_sent (w_acts w) i q) by (split; [exact Tq | eauto]).
    destruct (e_ae _ _ _ (w_e _ _ _ W) i q Hi As) as (_ & _ & Ld & _). destruct (e_led _ _ _ (w_e _ _ _ W) i _ Hi Ld) as [_ Le].
    assert (St := e_static _ _ _ (w_e _ _ _ W) i Hi). rewrite Wi in St. destruct St as ((_ & Sy & _) & S2 & _). cbn [sys_disk] in S2.
    assert (Tn : term_of (w_sys w i) = n_term n) by (rewrite Wi; unfold term_of; cbn [sys_disk]; rewrite Sy; reflexivity).
    destruct (w_l _ _ _ W) as (tl & L). assert (Lg := l_led _ _ _ _ L i _ Hi Ld ltac:(lia)). rewrite Wi in Lg. change (slog (Up n)) with (n_log n) in Lg. change (dk_log (n_disk n)) with (n_log n) in S2.
    destruct (l_ae _ _ _ _ L i q Hi As) as [P1 P2]. rewrite <- Lg in P1, P2. destruct (rq_entries q) as [|e es] eqn:Es.
    - change (lenN (@nil entry_val)) with 0. assert (N1 : 1 <= a_next (n_log n)) by (unfold a_next; lia). destruct P1 as [P1|(x & P1 & _)]; [lia|]. apply a_get_some in P1. lia.
    - assert (Nl : exists y, nth_error (e :: es) (length es) = Some y).
      { destruct (nth_error (e :: es) (length es)) as [y|] eqn:Ey; [eauto|]. apply nth_error_None in Ey. cbn in Ey. lia. }
      destruct Nl as (y & Ey). apply P2 in Ey. apply a_get_some in Ey. unfold lenN. cbn [length]. lia.
  Qed.
  Lemma event_lives : forall w0 w i n e n0, initial servers w0 -> reach w0 w -> In i ids -> w_sys w i = Up n -> up_ok w i -> possible servers w i e -> timely w i n e n0 ->
    lives (objs i) (fun _ n' => sane (objs i) n') (run_event e) n.
  Proof.
    intros w0 w i n e n0 I0 R Hi Wi (Ok & Snt & _) P T. specialize (Ok n Wi). assert (W := reach_winv servers prm HC HS w0 w I0 R).
    assert (St := e_static _ _ _ (w_e _ _ _ W) i Hi). rewrite Wi in St. destruct St as ((U1 & U2 & U3 & U4 & U5) & U6 & U7 & U8). cbn [sys_disk] in U8. change (dk_log (n_disk n)) with (n_log n) in U8.
    destruct (possible_fe servers prm HC w i e W Hi P) as [F K].
    assert (Nothing_ : forall A (m : M A) (f : A -> answer), lives (objs i) (fun _ n' => sane (objs i) n') m n -> lives (objs i) (fun _ n' => sane (objs i) n') (x <- m ;; ret (f x)) n).
    { intros A m f H. lvs. eapply lv_mono; [exact H|]. intros a x Ox. lvs. exact Ox. }
    destruct e as [|j|now q|now u x q r|u q| |s d ok|now d|now logs|now c|now j]; cbn [run_event]; try (exfalso; exact F); try (exfalso; exact P).
    - apply (Nothing_ _ _ (fun _ => Nothing)), election_lives; assumption.
    - apply (Nothing_ _ _ (fun _ => Nothing)), hb_lives, Ok.
    - apply (Nothing_ _ _ Response), request_lives; [exact Ok | exact U5 | cbn in F; unfold client_req in F; tauto|]. intros Tq Te Rl.
      destruct (K Tq) as (k & Hk & Sq & Dq). destruct (e_ae _ _ _ (w_e _ _ _ W) k q Hk Sq) as (E1 & E2 & E3 & _).
      destruct (e_led _ _ _ (w_e _ _ _ W) k _ Hk E3) as [El _]. destruct (e_led _ _ _ (w_e _ _ _ W) i _ Hi (e_role _ _ _ (w_e _ _ _ W) i n Hi Wi Rl)) as [Er _]. rewrite Te in El.
      assert (X := elected_unique servers HC _ _ _ k i (w_e _ _ _ W) Hk Hi El Er). congruence.
    - apply (Nothing_ _ _ (fun _ => Nothing)).
      assert (Hu : In u (map snd (objs i))) by (destruct r as [r|]; [destruct P as (Sq & _) | rename P into Sq]; apply (Snt u x q Sq)).
      assert (H2 : (2 <= length ids)%nat).
      { assert (X := pids_len servers HC i Hi). rewrite <- U3 in X. rewrite (ids_known (objs i) n Ok) in X. rewrite map_length in X. destruct (objs i); [destruct Hu|]. cbn in X. lia. }
      apply rpc_lives; [exact Ok | exact Hu|]. destruct r as [r|].
      + assert (P0 := P). destruct P as (Sq & Dq & An). destruct (w_a _ _ _ W _ _ _ Dq An) as (A1 & A2 & _). destruct x.
        * cbn in F. exact F.
        * destruct (e_sent _ _ _ (w_e _ _ _ W) i u q Hi Sq) as [Tq _]. split; [destruct Tq as [Tq|Tq]; rewrite Tq in A2; auto|]. intros Rl Ta Ac.
          assert (Tq' : rq_type q = append_entries_request) by (destruct Tq as [Tq|Tq]; [exact Tq | rewrite A2, Tq in Ta; discriminate]).
          apply (ack_within w0 w i n now u q r I0 R Hi Wi H2 P0 Tq' Ac). apply T; assumption.
      + intros ->. exact F.
    - apply (Nothing_ _ _ (fun _ => Nothing)), (commit_step_lives (objs i) i n Hi Ok U1 U3); [apply (w_p _ _ _ W i n Hi Wi) | exact U8].
    - apply (Nothing_ _ _ Bool), replicate_lives, Ok.
    - apply (Nothing_ _ _ Async), api_append_lives; assumption.
  Qed.
  Lemma obeys_reach : forall S w0 w, obeys servers S prm w0 w -> reach w0 w.
  Proof. intros S w0 w H. induction H; [constructor | eapply Reach_S; eassumption]. Qed.
  Lemma timely_ok : forall w0 w, initial servers w0 -> obeys servers timely prm w0 w -> forall i, In i ids -> up_ok w i.
  Proof.
    intros w0 w I0 O. induction O as [|w w' O IH Hs Ht].
    - intros i Hi. destruct (I0 i) as (Eh & Ed). destruct (Ed Hi) as (d & Ed' & _). split; [intros n E; congruence|]. unfold sent, w_acts. rewrite Eh. split; [intros u x q Hq | intros c Hq]; destruct Hq.
    - assert (R := obeys_reach _ _ _ O). intros i Hi.
      assert (Ev : forall k n e r n' l p a s', In k ids -> w_sys w k = Up n -> possible servers w k e -> run_event e n = (r, n', l) -> (exists q, l = p ++ q) ->
        w' = next_world w k s' [mkObs e p a] -> (forall m, s' = Up m -> s' = Up n' /\ goes_on r = true) -> up_ok w' i).
      { intros k n e r n' l p a s' Hk Wk P E (q0 & El) -> Hs'. assert (T : timely w k n e n').
        { apply (Ht k n e n' Hk). split; [exact Wk|]. split; [|eauto]. exists p, a. cbn [next_world w_hist]. rewrite put_same. reflexivity. }
        destruct (event_lives w0 w k n e n' I0 R Hk Wk (IH k Hk) P T) as (b & n2 & l2 & E2 & F2 & S2). rewrite E in E2. inversion E2; subst r n2 l2. clear E2.
        destruct (Z.eq_dec i k) as [->|Hne].
        - split; [|split].
          + intros m Em. cbn [next_world w_sys] in Em. rewrite put_same in Em. destruct (Hs' m Em) as [Em' _]. assert (m = n') by congruence. subst m. exact S2.
          + intros u x q Hq. unfold sent in Hq. rewrite (acts_next) in Hq. rewrite put_same in Hq. apply in_app_or in Hq. destruct Hq as [Hq|Hq]; [apply (proj1 (proj2 (IH k Hk)) u x q Hq)|].
            rewrite Forall_forall in F2. apply (F2 (ASend u x q)). rewrite El. apply in_or_app. left. exact Hq.
          + intros c Hq. rewrite (acts_next) in Hq. rewrite put_same in Hq. apply in_app_or in Hq. destruct Hq as [Hq|Hq]; [apply (proj2 (proj2 (IH k Hk)) c Hq)|].
            rewrite Forall_forall in F2. apply (F2 (AExit c)). rewrite El. apply in_or_app. left. exact Hq.
        - destruct (IH i Hi) as (B1 & B2 & B3). split; [|split].
          + intros m Em. cbn [next_world w_sys] in Em. rewrite put_other in Em by exact Hne. apply B1, Em.
          + intros u x q Hq. unfold sent in Hq. rewrite (acts_next) in Hq. rewrite put_other in Hq by exact Hne. apply (B2 u x q Hq).
          + intros c Hq. rewrite (acts_next) in Hq. rewrite put_other in Hq by exact Hne. apply (B3 c Hq). }
      inversion Hs; subst.
      + eapply (Ev i0 n e r n' l l); try eassumption; [exists []; rewrite app_nil_r; reflexivity | reflexivity|]. intros m _. auto.
      + eapply (Ev i0 n e r n' l l); try eassumption; [exists []; rewrite app_nil_r; reflexivity | reflexivity|]. intros m Em. discriminate.
      + eapply (Ev i0 n e r n' (p ++ q) p); try eassumption; [exists q; reflexivity | reflexivity|]. intros m Em. discriminate.
      + assert (Same : w_acts (next_world w i0 (Up (start_node i0 (prm i0) d)) []) i = w_acts w i).
        { unfold w_acts. cbn [next_world w_hist]. destruct (Z.eq_dec i i0) as [->|Hne]; [rewrite put_same, app_nil_r | rewrite put_other by exact Hne]; reflexivity. }
        destruct (IH i Hi) as (B1 & B2 & B3). unfold up_ok, sent. rewrite Same. split; [|split; [exact B2 | exact B3]].
        * intros m Em. cbn [next_world w_sys] in Em. destruct (Z.eq_dec i i0) as [->|Hne]; [|rewrite put_other in Em by exact Hne; apply B1, Em]. rewrite put_same in Em. inversion Em; subst m.
          assert (St := e_static _ _ _ (w_e _ _ _ (reach_winv servers prm HC HS w0 w I0 R)) i0 Hi). rewrite H0 in St. destruct St as (_ & S2 & S3 & _). cbn [sys_disk] in S2, S3.
          unfold sane, pairs, start_node. destruct (match dk_state d with Some x => x | None => _ end) as [t v]. cbn [n_peers n_role n_log n_disk]. rewrite S3. split; [reflexivity|]. split; [exact S2 | discriminate].
  Qed.
End Down.

(** ** C106, what holds *)
Theorem C106_keeps_running_partial : forall servers prm w0 w i n e, cluster_okay servers -> no_snapshots prm -> initial servers w0 -> obeys servers timely prm w0 w ->
  In i (ids servers) -> w_sys w i = Up n -> possible servers w i e -> timely w i n e n ->
  exists a n' l, run_event e n = (ROk a, n', l).
Proof.
  intros servers prm w0 w i n e HC HS I0 O Hi Wi P T.
  destruct (event_lives servers prm HC HS w0 w i n e n I0 (obeys_reach servers prm _ _ _ O) Hi Wi (timely_ok servers prm HC HS w0 w I0 O i Hi) P T) as (a & n' & l & E & _).
  exists a, n', l. exact E.
Qed.
(** no server of such a cluster has ever asked for its process to be ended *)
Theorem C106_no_exit_partial : forall servers prm w0 w i c, cluster_okay servers -> no_snapshots prm -> initial servers w0 -> obeys servers timely prm w0 w ->
  In i (ids servers) -> ~ In (AExit c) (w_acts w i).
Proof. intros servers prm w0 w i c HC HS I0 O Hi. apply (timely_ok servers prm HC HS w0 w I0 O i Hi). Qed.

(** ** C106, what fails

    A leader that takes a follower to have more entries than it has itself ends its process when it
    next has something to tell it: a heartbeat is enough. *)
Theorem C106_heartbeat_exits_refuted : forall n j p, n_role n = Leader -> find_peer j (n_peers n) = Some p -> p_busy p = false -> a_next (n_log n) < p_next p ->
  exists n', run_event (EHeartbeat j) n = (RExit, n', [AExit (-1)]).
Proof.
  intros n j p R F B L. cbn [run_event]. unfold handle_hb_timeout. rewrite bind_assoc, bind_modify. set (m := upd_peer _ _ n).
  assert (Fm : find_peer j (n_peers m) = Some (p_set_hb (p_hb_on p) false p)) by (unfold m; cbn [upd_peer n_peers set_peers]; rewrite find_upd by reflexivity; rewrite F; reflexivity).
  rewrite bind_assoc, bind_get, bind_assoc, bind_get. change (n_role m) with (n_role n). rewrite R. cbn [get_peer]. rewrite Fm.
  set (p1 := p_set_hb (p_hb_on p) false p) in *. set (m2 := upd_peer (PPeer j) (p_set_busy true) m).
  assert (F2 : find_peer j (n_peers m2) = Some (p_set_busy true p1)) by (unfold m2; cbn [upd_peer n_peers set_peers]; rewrite find_upd by reflexivity; rewrite Fm; reflexivity).
  exists m2. unfold request_append_entries_to, the_peer. rewrite !bind_assoc, bind_get. cbn [get_peer]. rewrite Fm, bind_ret. change (p_busy p1) with (p_busy p). rewrite B. rewrite !bind_assoc, bind_modify. fold m2.
  unfold create_append_entries_req, the_peer. rewrite !bind_assoc, bind_get. cbn [get_peer]. rewrite F2, bind_ret, !bind_assoc, bind_get. cbv zeta.
  change (p_next (p_set_busy true p1)) with (p_next p). replace (p_next p =? 0) with false by lia. cbn [when]. rewrite !bind_assoc, bind_ret. change (n_log m2) with (n_log n).
  replace (a_next (n_log n) <=? p_next p - 1) with true by lia. reflexivity.
Qed.
(** Five servers.  Server 1 leads term 1 and server 2 acknowledges two of its entries, but the
    acknowledgement is delayed.  Server 3 leads term 2 and replaces the entries at server 1.  Server 1
    leads term 3, and the acknowledgement arrives. *)
Definition late_cmds : list kcmd :=
  [KStart 1; KStart 2; KStart 3; KStart 4; KStart 5; KDo 1 EElection; KRpc 1 2 0; KRpc 1 3 0; KDo 1 (EReplicate 0 [x61]); KDo 1 (EReplicate 0 [x62]); KRpc 1 2 0; KDeliver 1 2 0;
   KDo 3 EElection; KRpc 3 4 0; KRpc 3 5 0; KRpc 3 1 0; KDo 1 EElection; KRpc 1 4 0; KRpc 1 5 0]%Z.
Definition late_run : world := fold_left (run_k five (fun _ => ex_prm)) (late_cmds ++ [KLate 1 2 2]%Z) five_world.
Definition ahead (x : sys) (j : Z) : Prop :=
  exists n p, x = Up n /\ n_role n = Leader /\ find_peer j (n_peers n) = Some p /\ p_busy p = false /\ a_next (n_log n) < p_next p.
Lemma late_ahead : ahead (w_sys late_run 1%Z) 2.
Proof. vm_compute. eexists. eexists. split; [reflexivity|]. split; [reflexivity|]. split; [reflexivity|]. split; reflexivity. Qed.
Theorem C106_keeps_running_refuted : exists servers prm w0 w i n j n', cluster_okay servers /\ no_snapshots prm /\ initial servers w0 /\ reach servers prm w0 w /\
  In i (ids servers) /\ w_sys w i = Up n /\ n_role n = Leader /\ possible servers w i (EHeartbeat j) /\ run_event (EHeartbeat j) n = (RExit, n', [AExit (-1)]).
Proof.
  destruct late_ahead as (n & p & Wn & R & F & B & L). destruct (C106_heartbeat_exits_refuted n 2%Z p R F B L) as (n' & E).
  exists five, (fun _ => ex_prm), five_world, late_run, 1%Z, n, 2%Z, n'. split; [exact five_okay|]. split; [exact ex_nosnap|]. split; [exact five_initial|].
  split; [apply run_ks_reach; constructor|]. split; [left; reflexivity|]. split; [exact Wn|]. split; [exact R|]. split; [exact I | exact E].
Qed.

(** the same run up to the acknowledgement obeys the rules *)
Definition timelyb (w : world) (i : Z) (n : node) (e : event) (n' : node) : bool :=
  match e with
  | EElection => negb (match n_role n with Leader => true | _ => false end)
  | ERpc _ _ _ q (Some r) => n_term n <=? rq_term q
  | _ => true
  end.
Lemma timelyb_ok : forall w i n e n', timelyb w i n e n' = true -> timely w i n e n'.
Proof.
  intros w i n e n' H. destruct e as [| |now q|now uid ext q r|uid q| |sn d ok| | | |]; try exact I.
  - cbn in *. destruct (n_role n); [discriminate | discriminate | discriminate H].
  - destruct r as [r|]; [|exact I]. cbn in *. intros _ _. lia.
Qed.
Example C106_example : obeys five timely (fun _ => ex_prm) five_world (fold_left (run_k five (fun _ => ex_prm)) (late_cmds ++ [KRpc 1 2 0; KDo 1 (EHeartbeat 2); KRpc 1 2 0]%Z) five_world) /\
  forall n, w_sys (fold_left (run_k five (fun _ => ex_prm)) (late_cmds ++ [KRpc 1 2 0; KDo 1 (EHeartbeat 2); KRpc 1 2 0]%Z) five_world) 1%Z = Up n ->
    exists a n' l, run_event (EHeartbeat 2) n = (ROk a, n', l).
Proof.
  assert (O : obeys five timely (fun _ => ex_prm) five_world (fold_left (run_k five (fun _ => ex_prm)) (late_cmds ++ [KRpc 1 2 0; KDo 1 (EHeartbeat 2); KRpc 1 2 0]%Z) five_world)).
  { apply (run_ks_careful five (fun _ => ex_prm) timely timelyb (fun w i n e n' _ => timelyb_ok w i n e n')); [constructor | apply five_okay | vm_compute; reflexivity]. }
  split; [exact O|]. intros n Wn. apply (C106_keeps_running_partial five (fun _ => ex_prm) five_world _ 1%Z n _ five_okay ex_nosnap five_initial O (or_introl eq_refl) Wn); exact I.
Qed.

Print Assumptions C106_keeps_running_partial.
Print Assumptions C106_no_exit_partial.
Print Assumptions C106_heartbeat_exits_refuted.
Print Assumptions C106_keeps_running_refuted.
Print Assumptions C106_example.

From Verif Require Import P_Leader.
(** ** C42: the answer to a client

    In runs of this kind a leader that is in contact with its followers accepts every request of a client. *)
Theorem C42_accepted_partial : forall servers prm w0 w i n now q, cluster_okay servers -> no_snapshots prm -> initial servers w0 -> obeys servers timely prm w0 w ->
  In i (ids servers) -> w_sys w i = Up n -> client_req q -> in_contact now n ->
  exists x n' l, run_event (ERequest now q) n = (ROk (Response x), n', l) /\ rs_accepted x = true /\ rs_next_idx x = a_next (n_log n') /\ rs_term x = n_term n /\
    n_log n' = log_plus (n_log n) (map (stamp (n_term n)) (rq_entries q)).
Proof.
  intros servers prm w0 w i n now q HC HS I0 O Hi Wi Hq Hc.
  destruct (C106_keeps_running_partial servers prm w0 w i n (ERequest now q) HC HS I0 O Hi Wi) as (a & n' & l & E).
  { right. exact Hq. }
  { intros; exact I. }
  destruct (C42_leader_appends_partial n now q _ n' l (proj1 Hq) Hc E) as (l2 & _ & _ & A3 & _ & _ & A6). destruct (A6 a eq_refl) as (x & -> & X1 & X2 & _ & X4).
  exists x, n', l. auto.
Qed.
(** In others it may end its own process instead, with the entry stored and no answer sent: the
    leader of the run above, when it is given a request with one entry. *)
Definition one_req : req := mkReq 0 client_request 0 0 0 0 0 [mkEV 0 app_log [x63]].
Definition ends_at (w : world) (i : Z) (q : req) : Prop :=
  match w_sys w i with
  | Up n => n_role n = Leader /\ (n_elapsed n <=? limit n)%Z = true /\ fst (fst (run_event (ERequest 0 q) n)) = RExit /\
      n_log (snd (fst (run_event (ERequest 0 q) n))) = log_plus (n_log n) (map (stamp (n_term n)) (rq_entries q))
  | Down _ => False
  end.
Lemma late_ends : ends_at late_run 1 one_req.
Proof. vm_compute. repeat split. Qed.
Lemma ends_at_run : forall w i q, ends_at w i q -> exists n n' l, w_sys w i = Up n /\ n_role n = Leader /\ (n_elapsed n <= limit n)%Z /\
  run_event (ERequest 0 q) n = (RExit, n', l) /\ n_log n' = log_plus (n_log n) (map (stamp (n_term n)) (rq_entries q)).
Proof.
  intros w i q H. unfold ends_at in H. destruct (w_sys w i) as [n|d]; [|destruct H]. destruct H as (R & Lm & E & Lg).
  destruct (run_event (ERequest 0 q) n) as [[r n'] l] eqn:Eq. cbn [fst snd] in *. subst r. exists n, n', l. repeat (split; [reflexivity || assumption|]). split; [lia|]. split; [exact Eq | exact Lg].
Qed.
Theorem C42_unanswered_refuted : exists servers prm w0 w i n q n' l, cluster_okay servers /\ no_snapshots prm /\ initial servers w0 /\ reach servers prm w0 w /\
  In i (ids servers) /\ w_sys w i = Up n /\ client_req q /\ in_contact 0 n /\ run_event (ERequest 0 q) n = (RExit, n', l) /\
  n_log n' = log_plus (n_log n) (map (stamp (n_term n)) (rq_entries q)).
Proof.
  destruct (ends_at_run _ _ _ late_ends) as (n & n' & l & Wn & R & Lm & E & Lg). exists five, (fun _ => ex_prm), five_world, late_run, 1%Z, n, one_req, n', l.
  split; [exact five_okay|]. split; [exact ex_nosnap|]. split; [exact five_initial|]. split; [apply run_ks_reach; constructor|]. split; [left; reflexivity|]. split; [exact Wn|].
  split; [split; [reflexivity|]; intros e [<-|[]]; discriminate|]. split; [split; [exact R | right; left; exact Lm]|]. split; [exact E | exact Lg].
Qed.
Print Assumptions C42_accepted_partial.
Print Assumptions C42_unanswered_refuted.
