(** * P_CutOff: a server with pre-votes that hears nothing keeps its term (C111)

    A server that uses pre-votes and that gets neither requests nor answers from other servers, for
    however long and through whatever crashes, changes nothing on its disk and sends nothing but
    pre-vote requests, which change nothing at the servers that get them (C39). *)

From Verif Require Import Base Buffer Codec CodecSpec Msg FsLogStore FsLogSpec Alog Raft RaftQuiet RaftTrace RaftTrace3 NodeSpec NodeLife ServerSpec NodeFacts AppendFacts PeerInv NodeExamples P_Leader
  Cluster ClusterElect ClusterLog ClusterRun ClusterExamples P_Cluster Runs P_Api P_Timer P_Vote P_Elect P_Recover P_Avail P_Accept P_Rest P_Stuck P_Consent.
Local Open Scope N_scope.

(** ** Specification: what happens at a server that is cut off *)
Definition alone (e : event) : Prop :=
  match e with
  | EElection | EHeartbeat _ => True                              (* timers *)
  | ERequest _ q => rq_type q = client_request                    (* its own clients *)
  | ERpc _ _ _ q r => r = None /\                                 (* its calls fail; those to joining and leaving servers are left out *)
      (rq_type q = append_entries_request \/ rq_type q = vote_request \/ rq_type q = prevote_request)
  | ECommit | EReplicate _ _ | EAppend _ _ => True                (* the committing thread and the application *)
  | _ => False
  end.
(** a follower that uses pre-votes, that has peers now and after a restart, has its term on disk and
    has applied what it knows to be committed *)
Definition follows_with (i : Z) (pm : params) (n : node) : Prop :=
  n_id n = i /\ n_prm n = pm /\ pm_prevote pm = true /\ n_role n = Follower /\ n_catching n = false /\ n_steps n = 0%Z /\ n_quick n <= n_smc n /\
  n_peers n <> [] /\ (exists s, In s (cc_servers (dk_config (n_disk n))) /\ sc_id s <> i) /\ n_term n = fst (saved (n_disk n)) /\ al_start (n_log n) = 1.

(** ** Proof *)
Definition same (n n' : node) : Prop := n_disk n' = n_disk n /\ n_term n' = n_term n.
Definition mild (t : N) (a : act) : Prop :=
  match a with ASend _ b q => b = true /\ rq_type q = prevote_request /\ rq_term q = t | ATimer _ | AForward _ _ _ => True | _ => False end.

Lemma keep_peers : forall i pm n j f, follows_with i pm n -> follows_with i pm (upd_peer (PPeer j) f n).
Proof.
  intros i pm n j f (A1 & A2 & A3 & A4 & A5 & A6 & A7 & A8 & A9). repeat (split; [assumption|]). split; [|exact A9].
  cbn [upd_peer]. unfold upd_peers, set_peers. cbn [n_peers]. destruct (n_peers n); [congruence | discriminate].
Qed.
Lemma keep_ref : forall i pm n ref f, follows_with i pm n -> follows_with i pm (upd_peer ref f n).
Proof. intros i pm n [j|] f H; [apply keep_peers, H | exact H]. Qed.
Lemma same_ref : forall n ref f, same n (upd_peer ref f n).
Proof. intros n [j|] f; split; reflexivity. Qed.

Lemma alone_step : forall i pm n e r n' l, follows_with i pm n -> alone e -> run_event e n = (r, n', l) -> follows_with i pm n' /\ same n n' /\ Forall (mild (n_term n)) l.
Proof.
  intros i pm n e r n' l F Al E. assert (F' := F). destruct F' as (A1 & A2 & A3 & A4 & A5 & A6 & A7 & A8 & A9 & A10 & A11).
  assert (Rl : n_role n <> Leader) by (rewrite A4; discriminate).
  assert (Same : forall r0, run_event e n = (r0, n, []) -> follows_with i pm n' /\ same n n' /\ Forall (mild (n_term n)) l).
  { intros r0 X. rewrite X in E. inversion E; subst. split; [exact F|]. split; [split; reflexivity | constructor]. }
  destruct e as [|j|now q|now u x q ra|u q| |s d ok|now data|now logs| |]; cbn [alone] in Al; try contradiction.
  - set (m := set_timer false n). assert (Fm : follows_with i pm m) by exact F.
    assert (P : exists n1 l1, run_event EElection n = (ROk Nothing, n1, l1) /\ follows_with i pm n1 /\ same n n1 /\ Forall (mild (n_term n)) l1).
    { cbn [run_event]. unfold handle_election_timeout. rewrite bind_assoc, bind_modify, bind_assoc, bind_get. fold m.
      replace (n_steps m) with 0%Z by (symmetry; exact A6). change (0 <? 0)%Z with false. cbv iota.
      replace (n_catching m) with false by (symmetry; exact A5). cbv iota.
      replace (n_role m) with Follower by (symmetry; exact A4). cbv iota.
      replace (n_prm m) with pm by (symmetry; exact A2). rewrite A3.
      assert (R : exists n1 l1, (request_prevote ;;; ret Nothing) m = (ROk Nothing, n1, l1) /\ follows_with i pm n1 /\ same n n1 /\ Forall (mild (n_term n)) l1).
      { destruct (match n_prevote m with Some x => x | None => (0%Z, []) end) as [acc vs] eqn:Ea.
        set (m1 := set_prevote (Some ((acc + 1)%Z, fst (set_add (n_id m) vs))) m). set (l1 := map call (map (pre_q (n_id m) m1) (map p_id (n_peers m)))).
        assert (X : request_prevote m = (ROk tt, m1, l1)).
        { unfold request_prevote, peer_ids. rewrite bind_get. destruct (map p_id (n_peers m)) as [|a b] eqn:Ep; [apply map_eq_nil in Ep; elim A8; exact Ep|].
          rewrite bind_get, bind_get, Ea, bind_modify. fold m1. unfold l1. rewrite <- Ep. apply pre_asks; [exact A11|].
          intros k Hk. apply find_id. exact Hk. }
        exists m1, l1. split; [rewrite (bind_ok _ _ _ _ _ _ _ _ X); unfold after, ret; cbn [fst snd]; rewrite app_nil_r; reflexivity|]. split; [exact F|]. split; [split; reflexivity|].
        apply Forall_forall. intros a Ha. unfold l1 in Ha. rewrite map_map in Ha. apply in_map_iff in Ha. destruct Ha as (k & <- & _). split; [reflexivity|]. split; reflexivity. }
      destruct (n_prevote m) as [[acc [|v vs]]|]; [exact R | | exact R]. exists m, []. split; [reflexivity|]. split; [exact F|]. split; [split; reflexivity | constructor]. }
    destruct P as (n1 & l1 & E1 & P). rewrite E1 in E. inversion E; subst. exact P.
  - cbn [run_event] in E. unfold handle_hb_timeout in E. rewrite bind_assoc, bind_modify, bind_assoc, bind_get in E.
    set (m := upd_peer (PPeer j) (fun p => p_set_hb (p_hb_on p) false p) n) in *. replace (n_role m) with Follower in E by (symmetry; exact A4). rewrite bind_assoc, bind_get in E. inversion E; subst.
    split; [apply keep_ref, F|]. split; [split; reflexivity | constructor].
  - destruct (C42_others_refuse n now q Al Rl) as (a & E1 & _). eapply Same. exact E1.
  - destruct Al as (-> & Tq). cbn [run_event] in E. unfold rpc_done in E. rewrite bind_assoc, bind_get in E.
    destruct (live_ref u n) as [ref|] eqn:Lr; [|inversion E; subst; split; [exact F|]; split; [split; reflexivity | constructor]].
    set (b := beq (rq_type q) append_entries_request || beq (rq_type q) install_snapshot_request) in *.
    set (m := if b then upd_peer ref (p_set_busy false) n else n).
    assert (Km : follows_with i pm m /\ same n m) by (unfold m; destruct b; [split; [apply keep_ref, F | apply same_ref] | split; [exact F | split; reflexivity]]).
    assert (E1 : when b (modify (upd_peer ref (p_set_busy false))) n = (ROk tt, m, [])) by (unfold m, when; destruct b; reflexivity).
    rewrite bind_assoc, (bind_ok _ _ _ _ _ _ _ _ E1), after_nil, bind_assoc, bind_modify in E. set (m2 := upd_peer ref (p_slow_down (n_prm n)) m) in *.
    assert (Ex : when x (handle_ext_resp_err q) m2 = (ROk tt, m2, [])).
    { unfold when, handle_ext_resp_err. destruct x; [|reflexivity]. destruct Tq as [Tq|[Tq|Tq]]; rewrite Tq; reflexivity. }
    rewrite (bind_ok _ _ _ _ _ _ _ _ Ex), after_nil in E. inversion E; subst. destruct Km as (K1 & K2 & K3). split; [apply keep_ref, K1|].
    destruct (same_ref m ref (p_slow_down (n_prm n))) as (Z1 & Z2). split; [split; unfold m2; congruence | constructor].
  - apply (Same (ROk Nothing)). cbn [run_event]. unfold commit_step. rewrite bind_assoc, bind_get. replace (n_smc n <? n_quick n) with false by lia. reflexivity.
  - apply (Same (ROk (Bool false))). cbn [run_event]. unfold replicate_log. rewrite bind_assoc, (bind_ok _ _ _ _ _ _ _ _ (not_leader_eq now n Rl)), after_nil. reflexivity.
  - destruct logs as [|y ys]; [apply (Same (ROk (Async (Now false)))); reflexivity|].
    destruct (Z.eq_dec (n_leader n) (-1)) as [L0|L0].
    { apply (Same (ROk (Async (Now false)))). cbn [run_event]. unfold append_entries, send_msg_to_leader. rewrite bind_assoc, bind_get, L0. reflexivity. }
    set (q := api_req client_request (map (mkEV 0 app_log) (y :: ys))).
    assert (Ap : api_call (EAppend now (y :: ys)) = Some (now, q)) by reflexivity.
    destruct (Z.eq_dec (n_leader n) (n_id n)) as [L1|L1].
    + destruct (C42_others_refuse n now q eq_refl Rl) as (a & E1 & _). assert (X := C57_local _ now q n Ap L0 L1). rewrite E1 in X. eapply Same. exact X.
    + destruct (C57_forward _ now q n Ap L0 L1) as [(ep & _ & X)|(_ & [(s & _ & _ & X)|(_ & X)])]; [| |eapply Same; exact X].
      * rewrite X in E. inversion E; subst. split; [exact F|]. split; [split; reflexivity | constructor; [exact I | constructor]].
      * rewrite X in E. inversion E; subst. split; [exact F|]. split; [split; reflexivity | constructor; [exact I | constructor]].
Qed.
Lemma mild_disk : forall t p d, Forall (mild t) p -> fold_left disk_apply p d = d.
Proof. intros t p. induction p as [|a p IH]; intros d H; [reflexivity|]. inversion H; subst. cbn [fold_left]. rewrite IH by assumption. destruct a; try contradiction; reflexivity. Qed.

Lemma start_some : forall i pm l u, (exists s, In s l /\ sc_id s <> i) -> start_peers i pm u l <> [].
Proof.
  intros i pm l. induction l as [|s l IH]; intros u (x & X1 & X2); [destruct X1|]. cbn [start_peers]. destruct (Z.eqb_spec (sc_id s) i) as [E|E]; [|discriminate].
  apply IH. destruct X1 as [<-|X1]; [congruence | exists x; auto].
Qed.

(** ** The property *)
Theorem C111_cut_off_partial : forall i pm n h x, follows_with i pm n -> life i pm (Up n) h x -> (forall o, In o h -> alone (o_event o)) ->
  sys_disk x = n_disk n /\ (forall m, x = Up m -> n_role m = Follower /\ n_term m = n_term n) /\
  forall o u b q, In o h -> In (ASend u b q) (o_acts o) -> rq_type q = prevote_request /\ rq_term q = n_term n.
Proof.
  intros i pm n h x F Lf Al. set (D := n_disk n). set (t := n_term n).
  assert (G : forall s h x, life i pm s h x -> (forall o, In o h -> alone (o_event o)) ->
    match s with Up m => follows_with i pm m /\ n_disk m = D /\ n_term m = t | Down d => d = D end ->
    sys_disk x = D /\ (forall m, x = Up m -> n_role m = Follower /\ n_term m = t) /\ forall o u b q, In o h -> In (ASend u b q) (o_acts o) -> rq_type q = prevote_request /\ rq_term q = t).
  { clear h x Lf Al. intros s h x Lf. induction Lf as [s|m e r m' l h s E G Lf IH|m e r m' l h s E G Lf IH|m e r m' p q h s E Lf IH|d h s Lf IH]; intros Al S.
    - split; [|split; [|intros o u b q []]].
      + destruct s; [apply S | exact S].
      + intros m ->. destruct S as (S1 & _ & S3). split; [apply S1 | exact S3].
    - destruct S as (S1 & S2 & S3). destruct (alone_step i pm m e r m' l S1 (Al _ (or_introl eq_refl)) E) as (K1 & (K2 & K3) & K4).
      destruct IH as (I1 & I2 & I3); [intros o Ho; apply Al; right; exact Ho | split; [exact K1 | split; congruence]|]. split; [exact I1|]. split; [exact I2|].
      intros o u b q [<-|Ho] Ha; [|eapply I3; eassumption]. cbn [o_acts] in Ha. rewrite Forall_forall in K4. destruct (K4 _ Ha) as (_ & X1 & X2). split; [exact X1 | congruence].
    - destruct S as (S1 & S2 & S3). destruct (alone_step i pm m e r m' l S1 (Al _ (or_introl eq_refl)) E) as (K1 & (K2 & K3) & K4).
      destruct IH as (I1 & I2 & I3); [intros o Ho; apply Al; right; exact Ho | congruence|]. split; [exact I1|]. split; [exact I2|].
      intros o u b q [<-|Ho] Ha; [|eapply I3; eassumption]. cbn [o_acts] in Ha. rewrite Forall_forall in K4. destruct (K4 _ Ha) as (_ & X1 & X2). split; [exact X1 | congruence].
    - destruct S as (S1 & S2 & S3). destruct (alone_step i pm m e r m' _ S1 (Al _ (or_introl eq_refl)) E) as (K1 & (K2 & K3) & K4). apply Forall_app in K4. destruct K4 as (K4 & _).
      destruct IH as (I1 & I2 & I3); [intros o Ho; apply Al; right; exact Ho | rewrite (mild_disk _ _ _ K4); exact S2|]. split; [exact I1|]. split; [exact I2|].
      intros o u b q0 [<-|Ho] Ha; [|eapply I3; eassumption]. cbn [o_acts] in Ha. rewrite Forall_forall in K4. destruct (K4 _ Ha) as (_ & X1 & X2). split; [exact X1 | congruence].
    - subst d. apply IH; [exact Al|]. destruct (start_facts i pm D) as (F1 & F2 & F3 & F4 & F5 & F6 & F7 & F8 & F9).
      assert (X : n_quick (start_node i pm D) = dk_commit D /\ n_peers (start_node i pm D) = start_peers i pm 0 (cc_servers (dk_config D))).
      { unfold start_node. destruct (match dk_state D with Some y => y | None => _ end). auto. }
      destruct X as (X1 & X2). destruct F as (A1 & A2 & A3 & A4 & A5 & A6 & A7 & A8 & A9 & A10 & A11).
      split; [|split; [exact F6 | rewrite F8; symmetry; exact A10]]. split; [exact F1|]. split; [exact F2|]. split; [exact A3|]. split; [exact F3|]. split; [exact F4|]. split; [exact F5|].
      split; [rewrite X1, F9; lia|]. split; [rewrite X2; apply start_some, A9|]. rewrite F6. split; [exact A9|]. split; [exact F8|]. unfold n_log. rewrite F6. exact A11. }
  exact (G _ _ _ Lf Al (conj F (conj eq_refl eq_refl))).
Qed.

(** What it sends disturbs nobody: whatever server gets one of its requests, at whatever time and in
    whatever state, answers and is left exactly as it was. *)
Theorem C111_disturbs_nobody_partial : forall i pm n h x, follows_with i pm n -> life i pm (Up n) h x -> (forall o, In o h -> alone (o_event o)) ->
  forall o u b q, In o h -> In (ASend u b q) (o_acts o) -> forall now m, exists r, run_event (ERequest now q) m = (ROk (Response r), m, []).
Proof.
  intros i pm n h x F Lf Al o u b q Ho Hs now m. destruct (C111_cut_off_partial i pm n h x F Lf Al) as (_ & _ & S).
  apply C39_prevote_no_effect. exact (proj1 (S o u b q Ho Hs)).
Qed.

(** The same in a cluster, whatever the other servers do meanwhile: since the moment a follower was cut
    off it has kept its term, its vote and its log. *)
Lemma reach_life_from : forall servers prm w w', reach servers prm w w' -> forall i, exists h, w_hist w' i = w_hist w i ++ h /\ life i (prm i) (w_sys w i) h (w_sys w' i).
Proof.
  intros servers prm w w' R j. induction R as [|w1 w2 R IH St]; [exists []; split; [rewrite app_nil_r; reflexivity | constructor]|].
  destruct IH as (h & E & Lf). inversion St as [i n e r n' l Hi Wi Po Er G|i n e r n' l Hi Wi Po Er G|i n e r n' p q Hi Wi Po Er|i d Hi Wi]; subst; cbn [next_world w_sys w_hist];
    (destruct (Z.eq_dec j i) as [->|Hne]; [rewrite !put_same, E, <- app_assoc, ?app_nil_r; rewrite Wi in Lf | rewrite !put_other by exact Hne; exists h; auto]).
  - eexists. split; [reflexivity|]. eapply life_trans; [exact Lf|]. eapply L_event; [eassumption | assumption | constructor].
  - eexists. split; [reflexivity|]. eapply life_trans; [exact Lf|]. eapply L_stop; [eassumption | assumption | constructor].
  - eexists. split; [reflexivity|]. eapply life_trans; [exact Lf|]. eapply L_crash; [eassumption | constructor].
  - exists h. split; [reflexivity|]. rewrite <- (app_nil_r h). eapply life_trans; [exact Lf|]. apply L_start. constructor.
Qed.
Theorem C111_in_cluster_partial : forall servers prm w0 w w' i n h, cluster_okay servers -> no_snapshots prm -> (2 <= length servers)%nat -> initial servers w0 -> reach servers prm w0 w ->
  In i (ids servers) -> pm_prevote (prm i) = true -> w_sys w i = Up n -> n_role n = Follower -> n_catching n = false -> n_quick n <= n_smc n ->
  reach servers prm w w' -> w_hist w' i = w_hist w i ++ h -> (forall o, In o h -> alone (o_event o)) ->
  saved (sys_disk (w_sys w' i)) = saved (sys_disk (w_sys w i)) /\ log_of w' i = log_of w i /\ forall m, w_sys w' i = Up m -> n_role m = Follower /\ n_term m = n_term n.
Proof.
  intros servers prm w0 w w' i n h HC HS H2 I0 R Hi Pv Wi Rl Ca Qs R2 Eh Al.
  destruct (reach_life_from servers prm w w' R2 i) as (h' & Eh' & Lf). assert (h' = h) by (rewrite Eh in Eh'; apply app_inv_head in Eh'; congruence). subst h'.
  assert (W := reach_winv servers prm HC HS w0 w I0 R). destruct (e_static _ _ _ (w_e _ _ _ W) i Hi) as (U1 & U2 & U3 & _). rewrite Wi in U1, U2, U3, Lf. destruct U1 as (U1 & U4 & U5 & _ & U6). cbn [sys_disk] in U2, U3.
  assert (Pn : pids servers i <> []).
  { intros E. assert (X := pids_len servers HC i Hi). rewrite E in X. unfold ids in X. rewrite map_length in X. cbn in X. lia. }
  assert (F : follows_with i (prm i) n).
  { split; [exact U1|]. split; [exact (w_p _ _ _ W i n Hi Wi)|]. split; [exact Pv|]. split; [exact Rl|]. split; [exact Ca|]. split; [exact U6|]. split; [exact Qs|].
    split; [intros X; apply Pn; rewrite <- U5, X; reflexivity|]. split; [|split; [rewrite U4; reflexivity | exact U2]]. rewrite U3.
    destruct (pids servers i) as [|j l] eqn:Ep; [congruence|]. assert (X : In j (pids servers i)) by (rewrite Ep; left; reflexivity). apply pids_in in X. destruct X as (X & D).
    unfold ids in X. apply in_map_iff in X. destruct X as (s & E & X). exists s. split; [exact X | congruence]. }
  destruct (C111_cut_off_partial i (prm i) n h _ F Lf Al) as (D & M & _). rewrite Wi. unfold log_of. rewrite D, Wi. auto.
Qed.

(** ** The hypotheses are met: a server with four entries in its log asks for pre-votes, crashes after
    it has sent one request, starts and asks again; its calls fail and its application calls.  The
    same server without pre-votes has raised its term. *)
Definition lone_cmds : list cmd :=
  [CCrash EElection 1; CStart; CEvent EElection; CEvent (ERpc 0 0 true (mkReq 1 prevote_request 1 2 1 4 0 []) None); CEvent (EAppend 0 [[x61]]); CEvent ECommit; CEvent EElection].
Definition lone_run (pm : params) : list obs * sys := run_cmds 1 pm (Up (start_node 1 pm ex_crash_disk)) lone_cmds.
Definition aloneb (e : event) : bool :=
  match e with EElection | EAppend _ _ | ECommit => true | ERpc _ _ _ q None => beq (rq_type q) prevote_request | _ => false end.
Lemma lone_facts : forallb (fun o => aloneb (o_event o)) (fst (lone_run ex_pre_prm)) = true /\ map (fun o => length (o_acts o)) (fst (lone_run ex_pre_prm)) = [1; 2; 0; 0; 0; 0]%nat /\
  match snd (lone_run ex_pre_prm) with Up m => n_term m | Down _ => 0 end = 1 /\ match snd (lone_run ex_prm) with Up m => n_term m | Down _ => 0 end = 4.
Proof. vm_compute. auto. Qed.
Lemma lone_start : match start_node 1 ex_pre_prm ex_crash_disk with n => (n_role n, n_catching n, n_steps n, n_quick n <=? n_smc n, length (n_peers n), n_term n, fst (saved (n_disk n)), al_start (n_log n), a_next (n_log n)) end =
  (Follower, false, 0%Z, true, 2%nat, 1, 1, 1, 5) /\ map sc_id (cc_servers (dk_config (n_disk (start_node 1 ex_pre_prm ex_crash_disk)))) = [1; 2; 3]%Z.
Proof. vm_compute. auto. Qed.
Example C111_example : follows_with 1 ex_pre_prm (start_node 1 ex_pre_prm ex_crash_disk) /\
  life 1 ex_pre_prm (Up (start_node 1 ex_pre_prm ex_crash_disk)) (fst (lone_run ex_pre_prm)) (snd (lone_run ex_pre_prm)) /\
  (forall o, In o (fst (lone_run ex_pre_prm)) -> alone (o_event o)) /\
  map (fun o => length (o_acts o)) (fst (lone_run ex_pre_prm)) = [1; 2; 0; 0; 0; 0]%nat /\
  match snd (lone_run ex_prm) with Up m => n_term m | Down _ => 0 end = 4.
Proof.
  destruct lone_facts as (L1 & L2 & _ & L4). split; [|split; [apply run_cmds_life|]; split; [|split; [exact L2 | exact L4]]].
  - destruct lone_start as (S & C). destruct (start_facts 1 ex_pre_prm ex_crash_disk) as (F1 & F2 & _). revert S C F1 F2. generalize (start_node 1 ex_pre_prm ex_crash_disk). intros n S C F1 F2.
    injection S as S1 S2 S3 S4 S5 S6 S7 S8 S9. split; [exact F1|]. split; [exact F2|]. split; [reflexivity|]. split; [exact S1|]. split; [exact S2|]. split; [exact S3|]. split; [lia|].
    split; [intros X; rewrite X in S5; discriminate S5|]. split; [|split; [congruence | exact S8]].
    assert (X : In 2%Z (map sc_id (cc_servers (dk_config (n_disk n))))) by (rewrite C; right; left; reflexivity). apply in_map_iff in X. destruct X as (s & X1 & X2). exists s. split; [exact X2 | lia].
  - intros o Ho. rewrite forallb_forall in L1. assert (X := L1 o Ho). destruct (o_event o) as [|j|now q|now u x q ra|u q| |s d ok|now data|now logs| |]; try discriminate X; try exact I.
    destruct ra; [discriminate X|]. split; [reflexivity|]. right. right. apply Byte.byte_dec_bl. exact X.
Qed.

(** server 1 has just started and is cut off; the other two elect a leader meanwhile *)
Definition three_up : world := ex_run_with ex_pre_prm (firstn 3 rest_cmds).
Definition without_1 : world := fold_left (run_k ex_servers (fun _ => ex_pre_prm)) [KDo 1 EElection; KLost 1 2 0; KLost 1 3 0; KDo 2 EElection; KRpc 2 3 0; KRpc 2 3 0; KDo 1 EElection; KDo 1 (EAppend 0 [[x61]])]%Z three_up.
Lemma up_fact : (match w_sys three_up 1%Z with Up n => (n_role n, n_catching n, n_quick n <=? n_smc n) | Down _ => (Leader, true, false) end) = (Follower, false, true).
Proof. vm_compute. reflexivity. Qed.
Lemma without_fact : forallb (fun o => aloneb (o_event o)) (w_hist without_1 1%Z) = true /\ length (w_hist without_1 1%Z) = 5%nat /\ w_hist three_up 1%Z = [] /\
  (match w_sys without_1 2%Z with Up m => (n_role m, n_term m) | Down _ => (Follower, 0) end) = (Leader, 1).
Proof. vm_compute. auto. Qed.
Lemma aloneb_ok : forall e, aloneb e = true -> alone e.
Proof.
  intros e X. destruct e as [|j|now q|now u x q ra|u q| |s d ok|now data|now logs| |]; try discriminate X; try exact I.
  destruct ra; [discriminate X|]. split; [reflexivity|]. right. right. apply Byte.byte_dec_bl. exact X.
Qed.
Example C111_in_cluster_example : reach ex_servers (fun _ => ex_pre_prm) ex_world three_up /\ reach ex_servers (fun _ => ex_pre_prm) three_up without_1 /\
  (exists n, w_sys three_up 1%Z = Up n /\ n_role n = Follower /\ n_catching n = false /\ n_quick n <= n_smc n) /\
  (exists h, w_hist without_1 1%Z = w_hist three_up 1%Z ++ h /\ length h = 5%nat /\ forall o, In o h -> alone (o_event o)) /\
  exists m, w_sys without_1 2%Z = Up m /\ n_role m = Leader /\ n_term m = 1.
Proof.
  destruct without_fact as (W1 & W2 & W3 & W4). split; [apply ex_reach_with|]. split; [apply run_ks_reach; constructor|]. split; [|split].
  - assert (X := up_fact). destruct (w_sys three_up 1%Z) as [n|d]; [|discriminate X]. exists n. injection X as X1 X2 X3. split; [reflexivity|]. split; [exact X1|]. split; [exact X2 | apply N.leb_le, X3].
  - exists (w_hist without_1 1%Z). rewrite W3. split; [reflexivity|]. split; [exact W2|]. intros o Ho. rewrite forallb_forall in W1. apply aloneb_ok, W1, Ho.
  - destruct (w_sys without_1 2%Z) as [m|d]; [|discriminate W4]. injection W4 as X1 X2. exists m. auto.
Qed.

Print Assumptions C111_cut_off_partial.
Print Assumptions C111_in_cluster_partial.
Print Assumptions C111_disturbs_nobody_partial.
