(** * P_Stuck: servers with pre-votes that run and reach each other can elect a leader (C110)

    A server grants a pre-vote only to a server whose term is not smaller than its own and whose log
    is not older.  No pre-vote message ever brings a newer term to anybody.  So servers with newer
    logs and smaller terms, and servers with older logs and greater terms, refuse each other for ever. *)

From Verif Require Import Base Buffer Codec CodecSpec Msg FsLogStore FsLogSpec Alog Raft RaftQuiet RaftTrace RaftTrace3 NodeSpec NodeLife ServerSpec NodeFacts AppendFacts NodeExamples P_Leader
  Cluster ClusterElect ClusterLog ClusterRun ClusterExamples P_Cluster Runs P_Timer P_Vote P_Recover P_Accept P_Rest.
Local Open Scope N_scope.

(** ** Specification *)
Section Future.
  Variable servers : list srv_config.
  Variable prm : Z -> params.
  Notation ids := (Cluster.ids servers).

  (** what can happen from now on: timers fire at any time, calls that are under way reach their
      server any number of times, end with its answer or fail, clients and the application call *)
  Definition may_happen (w : world) (i : Z) (e : event) : Prop :=
    match e with
    | EElection | EHeartbeat _ => True
    | ERequest _ q => (exists k u x, In k ids /\ under_way w k u x q /\ rq_dst q = i) \/ client_req q
    | ERpc _ u x q r => under_way w i u x q /\ match r with None => True | Some a => In (rq_dst q) ids /\ answered w (rq_dst q) q a end
    | ERetry u q => In (ARetryLater u q) (w_acts w i)
    | ESnapshot s _ _ => In (ACreateSnapshot s) (w_acts w i)
    | ECommit | EReplicate _ _ | EAppend _ _ => True
    | EAddSrv _ _ | ERemoveSrv _ _ => False
    end.
  (** ... and servers crash, before or in the middle of an event, and start again *)
  Inductive future (w : world) : world -> Prop :=
  | F_refl : future w w
  | F_event : forall w1 i n e r n' l, future w w1 -> In i ids -> w_sys w1 i = Up n -> may_happen w1 i e -> run_event e n = (r, n', l) ->
      future w (next_world w1 i (if goes_on r then Up n' else Down (n_disk n')) [mkObs e l (if goes_on r then answer_of r else None)])
  | F_crash : forall w1 i n e r n' p q, future w w1 -> In i ids -> w_sys w1 i = Up n -> may_happen w1 i e -> run_event e n = (r, n', p ++ q) ->
      future w (next_world w1 i (Down (fold_left disk_apply p (n_disk n))) [mkObs e p None])
  | F_start : forall w1 i d, future w w1 -> In i ids -> w_sys w1 i = Down d -> future w (next_world w1 i (Up (start_node i (prm i) d)) []).

  (** all servers have just been started, and no call is under way *)
  Definition fresh_start (w : world) : Prop := forall i, In i ids ->
    (exists d, w_sys w i = Up (start_node i (prm i) d) /\ cc_servers (dk_config d) = servers /\ al_start (dk_log d) = 1) /\
    (forall u x q, ~ under_way w i u x q) /\ (forall u q, ~ In (ARetryLater u q) (w_acts w i)) /\ (forall s, ~ In (ACreateSnapshot s) (w_acts w i)) /\
    (* the pre-vote requests that it has answered so far are about earlier terms *)
    (forall now q l a, In (mkObs (ERequest now q) l a) (w_hist w i) -> rq_type q = prevote_request -> rq_term q < saved_term (w_sys w (rq_src q))).
  (** no two servers would vote for each other: the one has a smaller term or an older log *)
  Definition at_odds (w : world) : Prop := forall i j, In i ids -> In j ids -> i <> j ->
    saved_term (w_sys w i) < saved_term (w_sys w j) \/ ~ no_older (log_of w i) (log_of w j).
  (** no server has, with itself, a majority of servers that would consent: whose terms are not greater
      and whose logs are not newer than its own *)
  Definition no_support (w : world) : Prop := forall i V, In i ids -> NoDup V -> incl V ids -> In i V ->
    (forall j, In j V -> j <> i -> saved_term (w_sys w j) <= saved_term (w_sys w i) /\ no_older (log_of w i) (log_of w j)) -> (2 * length V <= length ids)%nat.
End Future.

(** ** Proof *)
Section Stuck.
  Variable servers : list srv_config.
  Variable prm : Z -> params.
  Notation ids := (Cluster.ids servers).
  Hypothesis HC : cluster_okay servers.
  Hypothesis H2 : (2 <= length servers)%nat.
  Hypothesis HP : forall i, In i ids -> pm_prevote (prm i) = true.
  Variable T : Z -> N.
  Variable L : Z -> alog.
  Hypothesis HL : forall i, In i ids -> al_start (L i) = 1.
  Definition consents (i j : Z) : Prop := T j <= T i /\ no_older (L i) (L j).
  Hypothesis HO : forall i V, In i ids -> NoDup V -> incl V ids -> In i V -> (forall j, In j V -> j <> i -> consents i j) -> (2 * length V <= length ids)%nat.

  Definition dok (i : Z) (d : disk) : Prop := fst (saved d) = T i /\ dk_log d = L i /\ cc_servers (dk_config d) = servers.
  Definition tally (i acc : Z) (vs : list Z) : Prop :=
    exists ys, NoDup ys /\ incl ys vs /\ incl ys ids /\ (forall j, In j ys -> j <> i -> consents i j) /\ (acc <= Z.of_nat (length ys))%Z.
  (** an answer of [i] to a request of [k] *)
  Definition fair (k i : Z) (a : resp_msg) : Prop := rs_type a = prevote_response /\ (rs_accepted a = true -> rs_src a = i /\ In i ids /\ consents k i).
  Definition nok (i : Z) (n : node) : Prop :=
    (dok i (n_disk n) /\ n_id n = i /\ n_prm n = prm i /\ n_role n = Follower /\ n_leader n = (-1)%Z /\ n_term n = T i /\ n_catching n = false /\ n_steps n = 0%Z /\ n_quick n <= n_smc n) /\
    map p_id (n_peers n) = pids servers i /\ (n_prevote n = None \/ exists acc vs, n_prevote n = Some (acc, vs) /\ tally i acc vs).
  Definition qok (i : Z) (q : req) : Prop :=
    rq_type q = prevote_request /\ rq_src q = i /\ rq_term q = T i /\ rq_last_term q = end_term (L i) /\ rq_last_idx q = a_next (L i) - 1 /\ In (rq_dst q) (pids servers i).
  Definition actok (i : Z) (a : act) : Prop := match a with ASend _ x q => x = true /\ qok i q | ATimer _ => True | _ => False end.
  Definition evok (i : Z) (e : event) : Prop :=
    match e with
    | EElection | EHeartbeat _ | ECommit | EReplicate _ _ | EAppend _ _ => True
    | ERequest _ q => (exists k, In k ids /\ k <> i /\ qok k q) \/ client_req q
    | ERpc _ _ x q r => x = true /\ qok i q /\ match r with None => True | Some a => exists j, fair i j a end
    | _ => False
    end.
  Definition ansok (e : event) (r : rout answer) : Prop :=
    match e with ERequest _ q => rq_type q = prevote_request -> match r with ROk (Response a) => exists j, fair (rq_src q) j a | _ => False end | _ => True end.

  Lemma nok_upd : forall i j f n, (forall p, p_id (f p) = p_id p) -> nok i n -> nok i (upd_peer (PPeer j) f n).
  Proof.
    intros i j f n Hf (A & B & C). split; [exact A|]. split; [|exact C]. rewrite <- B. cbn [upd_peer]. unfold upd_peers, set_peers. cbn [n_peers]. rewrite map_map. apply map_ext.
    intros p. destruct (p_id p =? j)%Z; [apply Hf | reflexivity].
  Qed.
  Lemma nok_pv : forall i acc vs n, nok i n -> tally i acc vs -> nok i (set_prevote (Some (acc, vs)) n).
  Proof. intros i acc vs n (A & B & C) H. split; [exact A|]. split; [exact B|]. right. exists acc, vs. split; [reflexivity | exact H]. Qed.
  Lemma nok_ref : forall i u f n ref, (forall p, p_id (f p) = p_id p) -> live_ref u n = Some ref -> nok i n -> nok i (upd_peer ref f n).
  Proof. intros i u f n [j|] Hf _ H; [apply nok_upd; assumption | exact H]. Qed.

  Lemma last_term_for : forall n, al_start (n_log n) = 1 -> term_for_log (a_next (n_log n) - 1) n = (ROk (end_term (n_log n)), n, []).
  Proof.
    intros n Hs. unfold end_term. destruct (N.eqb_spec (a_next (n_log n) - 1) 0) as [E|E].
    - rewrite E. destruct (a_get (n_log n) 0) as [e|] eqn:G; [apply a_get_some in G; lia | reflexivity].
    - destruct (a_get_in (n_log n) (a_next (n_log n) - 1)) as (e & G); [unfold a_next in *; rewrite Hs in *; lia|]. rewrite G. apply term_for_log_in; [lia | exact G].
  Qed.
  Lemma ask_ok : forall i n js, In i ids -> nok i n -> incl js (pids servers i) -> exists l,
    for_each js (fun j => n <- get (fun n => n) ;; nx <- next_slot_ ;; lt <- term_for_log (nx - 1) ;;
      send_req (PPeer j) true (mkReq (n_term n) prevote_request i j lt (nx - 1) (n_quick n) [])) n = (ROk tt, n, l) /\ Forall (actok i) l.
  Proof.
    intros i n js Hi N. induction js as [|j js IH]; intros F; [exists []; split; [reflexivity | constructor]|]. cbn [for_each].
    destruct (IH (fun k Hk => F k (or_intror Hk))) as (l & E & A). assert (Hj := F j (or_introl eq_refl)).
    destruct N as ((D & N1 & N2 & N3 & N4 & N5 & N6 & N7 & N8) & P & _). assert (Lg : n_log n = L i) by apply D.
    assert (X : find_peer j (n_peers n) <> None) by (apply find_id; rewrite P; exact Hj). destruct (find_peer j (n_peers n)) as [p|] eqn:Fp; [|congruence].
    set (q := mkReq (E := entry_val) (n_term n) prevote_request i j (end_term (L i)) (a_next (L i) - 1) (n_quick n) []).
    assert (E1 : (n <- get (fun n => n) ;; nx <- next_slot_ ;; lt <- term_for_log (nx - 1) ;;
      send_req (PPeer j) true (mkReq (n_term n) prevote_request i j lt (nx - 1) (n_quick n) [])) n = (ROk tt, n, [ASend (p_uid p) true q])).
    { rewrite bind_get. unfold next_slot_. rewrite bind_get. rewrite (bind_ok _ _ _ _ _ _ _ _ (last_term_for n ltac:(rewrite Lg; apply HL, Hi))), after_nil, Lg.
      unfold send_req, the_peer. rewrite bind_assoc, bind_get. cbn [get_peer]. rewrite Fp, bind_ret. unfold emit. destruct n. reflexivity. }
    exists (ASend (p_uid p) true q :: l). split; [rewrite (bind_ok _ _ _ _ _ _ _ _ E1), E; reflexivity|].
    constructor; [|exact A]. split; [reflexivity|]. unfold qok, q. cbn [rq_type rq_src rq_term rq_last_term rq_last_idx rq_dst]. auto 8.
  Qed.
  Lemma pids_ne : forall i, In i ids -> pids servers i <> [].
  Proof. intros i Hi E. assert (X := pids_len servers HC i Hi). rewrite E in X. unfold Cluster.ids in X. rewrite map_length in X. cbn in X. lia. Qed.

  Lemma election_ok : forall i n, In i ids -> nok i n -> exists n' l, run_event EElection n = (ROk Nothing, n', l) /\ nok i n' /\ Forall (actok i) l.
  Proof.
    intros i n Hi N0. assert (N : nok i (set_timer false n)) by exact N0. remember (set_timer false n) as m eqn:Em.
    cbn [run_event]. unfold handle_election_timeout. rewrite bind_assoc, bind_modify, <- Em, bind_assoc, bind_get.
    assert (N' := N). destruct N' as ((D & N1 & N2 & N3 & N4 & N5 & N6 & N7 & N8) & P & V). rewrite N7, N6, N3, N2, (HP i Hi). change (0 <? 0)%Z with false. cbv iota.
    assert (R : forall acc, (match n_prevote m with Some x => x | None => (0%Z, []) end) = (acc, []) -> tally i acc [] ->
      exists n' l, (request_prevote ;;; ret Nothing) m = (ROk Nothing, n', l) /\ nok i n' /\ Forall (actok i) l).
    { intros acc Ea (ys & _ & Y2 & _ & _ & Y5). set (m1 := set_prevote (Some ((acc + 1)%Z, [i])) m).
      assert (K : nok i m1).
      { apply nok_pv; [exact N|]. exists [i]. split; [constructor; [intros [] | constructor]|]. split; [intros x Hx; exact Hx|]. split; [intros x [<-|[]]; exact Hi|].
        split; [intros j [<-|[]] X; congruence|]. destruct ys as [|y ys]; [cbn [length] in *; lia | destruct (Y2 y (or_introl eq_refl))]. }
      destruct (ask_ok i m1 (pids servers i) Hi K (fun k H => H)) as (l & E & A). exists m1, l. split; [|auto].
      assert (X : request_prevote m = (ROk tt, m1, l)).
      { unfold request_prevote, peer_ids. rewrite bind_get, P. assert (Y := pids_ne i Hi). destruct (pids servers i) as [|a b] eqn:Ep; [congruence|].
        rewrite bind_get, bind_get, N1, Ea, bind_modify. exact E. }
      rewrite (bind_ok _ _ _ _ _ _ _ _ X). unfold after, ret. cbn [fst snd]. rewrite app_nil_r. reflexivity. }
    destruct V as [V|(acc & vs & V & Tv)]; rewrite V; [apply (R 0%Z); [rewrite V; reflexivity|]; exists []; split; [constructor|]; split; [intros x []|]; split; [intros x []|]; split; [intros x [] | cbn; lia]|]. destruct vs as [|v vs].
    - apply (R acc); [rewrite V; reflexivity | exact Tv].
    - exists m, []. split; [reflexivity|]. auto.
  Qed.

  Lemma fairly : forall i n q now, In i ids -> nok i n -> (exists k, In k ids /\ k <> i /\ qok k q) ->
    exists a, run_event (ERequest now q) n = (ROk (Response a), n, []) /\ fair (rq_src q) i a.
  Proof.
    intros i n q now Hi ((D & N1 & N2 & N3 & N4 & N5 & N6 & N7 & N8) & P & V) (k & Hk & Dk & Q1 & Q2 & Q3 & Q4 & Q5 & Q6). destruct D as (D1 & D2 & D3).
    assert (Lg : n_log n = L i) by exact D2.
    destruct (C39_prevote_no_effect now q n Q1) as (a & E). exists a. split; [exact E|].
    assert (G := C39_prevote_granted_partial now q n a n [] Q1).
    assert (X : rs_type a = prevote_response /\ rs_src a = i).
    { apply run_request in E. rewrite (process_prevote now q n Q1) in E. unfold handle_prevote_req in E. rewrite bind_get in E. unfold ret in E. inversion E. destruct (if pm_defensive _ then _ else _); split; try reflexivity; exact N1. }
    destruct X as (X1 & X2). split; [exact X1|]. intros Ra. split; [exact X2|]. split; [exact Hi|]. rewrite Q2.
    destruct G as (G & _); [split; [|left]; rewrite Lg, (HL i Hi); [lia | reflexivity] | exact E|].
    destruct (G Ra) as (G1 & G2 & _). split; [lia|]. unfold up_to_date in G2.
    rewrite end_term_last, Lg, Q4 in G2 by (rewrite Lg; apply HL, Hi). unfold last_index in G2. rewrite Lg, Q5 in G2.
    assert (Y := HL k Hk). assert (Y' := HL i Hi). unfold no_older. unfold a_next in *. rewrite Y, Y' in *. destruct G2 as [G2|(G2 & G3)]; [left; lia | right; split; [congruence | lia]].
  Qed.
  Lemma few : forall i acc vs n, In i ids -> tally i acc vs -> map p_id (n_peers n) = pids servers i -> majority n acc = false.
  Proof.
    intros i acc vs n Hi (ys & Y1 & Y2 & Y3 & Y4 & Y5) P. assert (Pl : (length (n_peers n) + 1 = length ids)%nat) by (rewrite <- (map_length p_id), P; apply pids_len; assumption).
    assert (B : (2 * length ys <= length ids)%nat).
    { destruct (in_dec Z.eq_dec i ys) as [X|X]; [apply (HO i ys Hi Y1 Y3 X Y4)|].
      assert (Z := HO i (i :: ys) Hi ltac:(constructor; assumption) ltac:(intros x [<-|Hx]; [exact Hi | apply Y3, Hx]) (or_introl eq_refl)).
      cbn [length] in Z. enough (2 * S (length ys) <= length ids)%nat by lia. apply Z. intros j [<-|Hj] D; [congruence | apply Y4; assumption]. }
    unfold majority. apply Z.ltb_ge. assert (Z.of_nat (length ys) <= (Z.of_nat (length (n_peers n)) + 1) / 2)%Z by (apply Z.div_le_lower_bound; lia). lia.
  Qed.

  Lemma answer_ok : forall i n a, In i ids -> nok i n -> (exists j, fair i j a) -> exists n' l, handle_prevote_resp a n = (ROk tt, n', l) /\ nok i n' /\ Forall (actok i) l.
  Proof.
    intros i n a Hi N (j & Fj). unfold handle_prevote_resp. rewrite bind_get. assert (N' := N). destruct N' as ((D & N1 & N2 & N3 & N4 & N5 & N6 & N7 & N8) & P & V).
    destruct V as [V|(acc & vs & V & Tv)]; rewrite V; [exists n, []; split; [reflexivity | auto]|].
    unfold set_add. destruct (existsb (Z.eqb (rs_src a)) vs) eqn:Ex; cbn [negb]; cbv iota; [exists n, []; split; [reflexivity | auto]|]. cbv zeta.
    assert (Nv : ~ In (rs_src a) vs) by (intros X; assert (Y : existsb (Z.eqb (rs_src a)) vs = true) by (apply existsb_exists; exists (rs_src a); split; [exact X | apply Z.eqb_refl]); congruence).
    set (acc' := if rs_accepted a then (acc + 1)%Z else acc).
    assert (T1 : tally i acc' (rs_src a :: vs)).
    { destruct Tv as (ys & Y1 & Y2 & Y3 & Y4 & Y5). unfold acc'. destruct (rs_accepted a) eqn:Ra.
      - destruct Fj as (_ & Fj). destruct (Fj Ra) as (J1 & J2 & J3). exists (rs_src a :: ys). split; [constructor; [intros X; apply Nv, Y2, X | exact Y1]|].
        split; [intros x [<-|Hx]; [left; reflexivity | right; apply Y2, Hx]|]. split; [intros x [<-|Hx]; [rewrite J1; exact J2 | apply Y3, Hx]|].
        split; [intros x [<-|Hx] D0; [rewrite J1; exact J3 | apply Y4; assumption] | cbn [length]; lia].
      - exists ys. split; [exact Y1|]. split; [intros x Hx; right; apply Y2, Hx | auto]. }
    assert (M : majority n acc' = false) by (eapply few; eassumption).
    rewrite bind_modify, M. set (m := set_prevote (Some (acc', rs_src a :: vs)) n). assert (K : nok i m) by (apply nok_pv; assumption). cbv iota.
    destruct (Nat.leb _ _); [|exists m, []; split; [reflexivity | auto]].
    rewrite bind_modify. set (m1 := set_prevote (Some (0%Z, [])) m). assert (K1 : nok i m1) by (apply nok_pv; [exact K|]; exists []; split; [constructor|]; split; [intros x []|]; split; [intros x []|]; split; [intros x [] | cbn; lia]).
    unfold restart_election_timer. rewrite bind_get. replace (n_catching m1) with false by (symmetry; exact N6). cbv iota. rewrite bind_modify.
    exists (set_timer true m1), [ATimer true]. split; [unfold emit, m1, m; destruct n; reflexivity|]. split; [exact K1 | constructor; [exact I | constructor]].
  Qed.

  Lemma event_ok : forall i n e r n' l, In i ids -> nok i n -> evok i e -> run_event e n = (r, n', l) -> nok i n' /\ Forall (actok i) l /\ ansok e r.
  Proof.
    intros i n e r n' l Hi N Ev E. assert (N' := N). destruct N' as ((D & N1 & N2 & N3 & N4 & N5 & N6 & N7 & N8) & P & V).
    assert (Rl : n_role n <> Leader) by (rewrite N3; discriminate).
    assert (Same : forall r0, (r, n', l) = (r0, n, []) -> ansok e r0 -> nok i n' /\ Forall (actok i) l /\ ansok e r) by (intros r0 X Y; inversion X; subst; auto).
    destruct e as [|j|now q|now u x q ra|u q| |s d ok|now data|now logs| |]; cbn [evok] in Ev; try contradiction.
    - destruct (election_ok i n Hi N) as (n1 & l1 & E1 & K & A). rewrite E1 in E. inversion E; subst. split; [exact K | split; [exact A | exact I]].
    - cbn [run_event] in E. unfold handle_hb_timeout in E. rewrite bind_assoc, bind_modify, bind_assoc, bind_get in E.
      set (m := upd_peer (PPeer j) (fun p => p_set_hb (p_hb_on p) false p) n) in *. assert (K : nok i m) by (apply nok_upd; [reflexivity | exact N]).
      replace (n_role m) with Follower in E by (symmetry; exact N3). rewrite bind_assoc, bind_get in E. inversion E; subst. split; [exact K | split; [constructor | exact I]].
    - destruct Ev as [Q|Q].
      + destruct (fairly i n q now Hi N Q) as (a & E1 & A1). apply (Same (ROk (Response a))); [congruence|]. intros _. eauto.
      + destruct (C42_others_refuse n now q (proj1 Q) Rl) as (a & E1 & _). apply (Same (ROk (Response a))); [congruence|]. intros X. rewrite (proj1 Q) in X. discriminate X.
    - destruct Ev as (-> & Q & A). destruct Q as (Q1 & _). cbn [run_event] in E. unfold rpc_done in E. rewrite bind_assoc, bind_get in E.
      destruct (live_ref u n) as [ref|] eqn:Lr; [|apply (Same (RUB UseAfterFree)); [symmetry; exact E | exact I]].
      rewrite Q1 in E. change (beq prevote_request append_entries_request || beq prevote_request install_snapshot_request) with false in E. cbn [when] in E. rewrite bind_assoc, bind_ret in E.
      destruct ra as [a|].
      + rewrite bind_assoc, bind_modify in E. set (m := upd_peer ref (p_resume (n_prm n)) n) in *. assert (K : nok i m) by (eapply nok_ref; [reflexivity | exact Lr | exact N]).
        destruct (answer_ok i m a Hi K A) as (n1 & l1 & E1 & K1 & F1).
        assert (E2 : handle_ext_resp a m = (ROk tt, n1, l1)) by (destruct A as (j & A1 & _); unfold handle_ext_resp; rewrite bind_get, A1; exact E1).
        rewrite (bind_ok _ _ _ _ _ _ _ _ E2) in E. unfold after, ret in E. cbn [fst snd] in E. rewrite app_nil_r in E. inversion E; subst. split; [exact K1 | split; [exact F1 | exact I]].
      + rewrite bind_assoc, bind_modify in E. set (m := upd_peer ref (p_slow_down (n_prm n)) n) in *. assert (K : nok i m) by (eapply nok_ref; [reflexivity | exact Lr | exact N]).
        cbn [when] in E. unfold handle_ext_resp_err in E. rewrite Q1 in E. inversion E; subst. split; [exact K | split; [constructor | exact I]].
    - apply (Same (ROk Nothing)); [|exact I]. rewrite <- E. cbn [run_event]. unfold commit_step. rewrite bind_assoc, bind_get. replace (n_smc n <? n_quick n) with false by lia. reflexivity.
    - apply (Same (ROk (Bool false))); [|exact I]. rewrite <- E. cbn [run_event]. unfold replicate_log. rewrite bind_assoc, (bind_ok _ _ _ _ _ _ _ _ (not_leader_eq now n Rl)), after_nil. reflexivity.
    - apply (Same (ROk (Async (Now false)))); [|exact I]. rewrite <- E. cbn [run_event]. unfold append_entries. destruct logs as [|y ys]; [reflexivity|].
      unfold send_msg_to_leader. rewrite bind_assoc, bind_get, N4. reflexivity.
  Qed.

  Definition sok (i : Z) (x : sys) : Prop := match x with Up n => nok i n | Down d => dok i d end.
  Definition old_or_no (q : req) (a : option answer) : Prop :=
    rq_type q = prevote_request -> rq_term q < T (rq_src q) \/ forall b, a = Some (Response b) -> exists j, fair (rq_src q) j b.
  Definition wok (w : world) : Prop := forall i, In i ids ->
    sok i (w_sys w i) /\ (forall u x q, under_way w i u x q -> x = true /\ qok i q) /\
    (forall u q, ~ In (ARetryLater u q) (w_acts w i)) /\ (forall s, ~ In (ACreateSnapshot s) (w_acts w i)) /\
    (forall now q l a, In (mkObs (ERequest now q) l a) (w_hist w i) -> old_or_no q a).

  Lemma may_ev : forall w i e, wok w -> In i ids -> may_happen servers w i e -> evok i e.
  Proof.
    intros w i e W Hi M. destruct e as [|j|now q|now u x q ra|u q| |s d ok|now data|now logs| |]; cbn [may_happen evok] in *; auto.
    - destruct M as [(k & u & x & Hk & U & Dq)|M]; [left | right; exact M]. destruct (W k Hk) as (_ & W2 & _). destruct (W2 _ _ _ U) as (_ & Q). exists k. split; [exact Hk|]. split; [|exact Q].
      destruct Q as (_ & _ & _ & _ & _ & Q). rewrite Dq in Q. apply pids_in in Q. intros ->. destruct Q as (_ & Q). congruence.
    - destruct M as (U & A). destruct (W i Hi) as (_ & W2 & _). destruct (W2 _ _ _ U) as (X & Q). split; [exact X|]. split; [exact Q|]. destruct ra as [a|]; [|exact I].
      destruct A as (Hd & now' & l & A). destruct (W _ Hd) as (_ & _ & _ & _ & W5). destruct Q as (Q1 & Q2 & Q3 & _). destruct (W5 _ _ _ _ A Q1) as [O|O]; [rewrite Q2, Q3 in O; lia | rewrite <- Q2; apply O; reflexivity].
    - destruct (W i Hi) as (_ & _ & W3 & _). destruct (W3 _ _ M).
    - destruct (W i Hi) as (_ & _ & _ & W4 & _). destruct (W4 _ M).
  Qed.
  Lemma wok_event : forall w i s e l a, wok w -> In i ids -> sok i s -> Forall (actok i) l -> (forall now q, e = ERequest now q -> old_or_no q a) -> wok (next_world w i s [mkObs e l a]).
  Proof.
    intros w i s e l a W Hi Hs Hl Ha j Hj. unfold under_way. rewrite acts_next. unfold next_world. cbn [w_sys w_hist]. rewrite Forall_forall in Hl.
    destruct (Z.eq_dec j i) as [->|Dj]; [rewrite !put_same | rewrite !put_other by exact Dj; apply W, Hj].
    destruct (W i Hi) as (W1 & W2 & W3 & W4 & W5). split; [exact Hs|]. split; [|split; [|split]].
    - intros u x q U. rewrite !filter_app, !app_length in U. destruct (filter (is_call u x q) l) as [|b bs] eqn:Fl; [apply (W2 u x q); unfold under_way; cbn [length] in U; lia|].
      assert (X : In b (filter (is_call u x q) l)) by (rewrite Fl; left; reflexivity). apply filter_In in X. destruct X as (X1 & X2). specialize (Hl _ X1).
      destruct b; try discriminate X2. cbn in X2. apply andb_prop in X2. destruct X2 as (X2 & X3). apply andb_prop in X2. destruct X2 as (_ & X4).
      destruct (req_dec _ q) as [<-|]; [|discriminate]. apply Bool.eqb_prop in X4. subst. exact Hl.
    - intros u q X. apply in_app_or in X. destruct X as [X|X]; [apply (W3 _ _ X) | apply (Hl _ X)].
    - intros z X. apply in_app_or in X. destruct X as [X|X]; [apply (W4 _ X) | apply (Hl _ X)].
    - intros now q l0 a0 X. apply in_app_or in X. destruct X as [X|[X|[]]]; [eapply W5; exact X|]. inversion X; subst. eapply Ha. reflexivity.
  Qed.
  Lemma crash_disk : forall i p d, Forall (actok i) p -> fold_left disk_apply p d = d.
  Proof. intros i p. induction p as [|a p IH]; intros d H; [reflexivity|]. inversion H; subst. cbn [fold_left]. rewrite IH by assumption. destruct a; try contradiction; reflexivity. Qed.
  Lemma start_nok : forall i d, dok i d -> nok i (start_node i (prm i) d).
  Proof.
    intros i d D. assert (D' := D). destruct D' as (D1 & D2 & D3). destruct (start_facts i (prm i) d) as (F1 & F2 & F3 & F4 & F5 & F6 & F7 & F8 & F9).
    assert (X : n_leader (start_node i (prm i) d) = (-1)%Z /\ n_quick (start_node i (prm i) d) = dk_commit d /\ n_peers (start_node i (prm i) d) = start_peers i (prm i) 0 (cc_servers (dk_config d))).
    { unfold start_node. destruct (match dk_state d with Some y => y | None => _ end). auto. }
    destruct X as (X1 & X2 & X3). split; [rewrite F6; repeat (split; [congruence || assumption|]); rewrite X2, F9; lia|]. split; [rewrite X3, D3; apply start_pids; exact HC | left; exact F7].
  Qed.
  Lemma wok_future : forall w w', wok w -> future servers prm w w' -> wok w'.
  Proof.
    intros w w' W F. induction F as [|w1 i n e r n' l F IH Hi Wi M E|w1 i n e r n' p q F IH Hi Wi M E|w1 i d F IH Hi Wi]; [exact W | | |].
    - assert (N := proj1 (IH i Hi)). rewrite Wi in N. destruct (event_ok i n e r n' l Hi N (may_ev _ _ _ IH Hi M) E) as (K & A & An). refine (wok_event _ _ _ _ _ _ IH Hi _ A _); [destruct (goes_on r); [exact K | apply K]|].
      intros now q -> Tq. right. intros b. specialize (An Tq). destruct r as [[|y|y|y]| | |]; try contradiction. cbn [goes_on answer_of]. intros X. inversion X; subst. exact An.
    - assert (N := proj1 (IH i Hi)). rewrite Wi in N. destruct (event_ok i n e r n' _ Hi N (may_ev _ _ _ IH Hi M) E) as (_ & A & _). apply Forall_app in A. destruct A as (A & _).
      refine (wok_event _ _ _ _ _ _ IH Hi _ A _); [rewrite (crash_disk i p _ A); apply N|]. intros now x _ _. right. discriminate.
    - intros j Hj. unfold under_way, w_acts, next_world. cbn [w_sys w_hist]. destruct (Z.eq_dec j i) as [->|D].
      + rewrite !put_same, app_nil_r. destruct (IH i Hi) as (W1 & W2). rewrite Wi in W1. split; [apply start_nok, W1 | exact W2].
      + rewrite !put_other by exact D. apply IH, Hj.
  Qed.
End Stuck.

(** Servers with pre-votes of which none has the support of a majority never elect a leader again. *)
Theorem C110_no_support_refuted : forall servers prm w w' i, cluster_okay servers -> (2 <= length servers)%nat -> (forall i, In i (ids servers) -> pm_prevote (prm i) = true) ->
  fresh_start servers prm w -> no_support servers w -> future servers prm w w' -> In i (ids servers) ->
  saved_term (w_sys w' i) = saved_term (w_sys w i) /\ log_of w' i = log_of w i /\
  forall n, w_sys w' i = Up n -> n_role n = Follower /\ n_term n = saved_term (w_sys w i) /\ n_leader n = (-1)%Z /\
    forall now q, rq_type q = client_request -> exists x, run_event (ERequest now q) n = (ROk (Response x), n, []) /\ rs_accepted x = false /\ rs_dst x = (-1)%Z.
Proof.
  intros servers prm w w' i HC H2 HP Fs Od Fu Hi. set (T := fun j => saved_term (w_sys w j)). set (L := fun j => log_of w j).
  assert (HL : forall j, In j (ids servers) -> al_start (L j) = 1).
  { intros j Hj. destruct (Fs j Hj) as ((d & Wd & _ & Sd) & _). unfold L, log_of. rewrite Wd. cbn [sys_disk]. rewrite start_disk. exact Sd. }
  assert (W : wok servers prm T L w).
  { intros j Hj. destruct (Fs j Hj) as ((d & Wd & Cd & Sd) & A2 & A3 & A4 & A5). split.
    - rewrite Wd. refine (start_nok servers prm HC H2 HP T L HL Od j d _). unfold dok, T, L, log_of, saved_term. rewrite Wd. cbn [sys_disk]. rewrite start_disk. auto.
    - split; [intros u x q U; destruct (A2 _ _ _ U)|]. split; [exact A3|]. split; [exact A4|]. intros now q l a X Tq. left. exact (A5 _ _ _ _ X Tq). }
  assert (W' := wok_future servers prm HC H2 HP T L HL Od w w' W Fu i Hi). destruct W' as (W' & _).
  assert (D : dok servers T L i (sys_disk (w_sys w' i))) by (destruct (w_sys w' i); [apply W' | exact W']). destruct D as (D1 & D2 & D3).
  split; [exact D1|]. split; [exact D2|]. intros n Wn. rewrite Wn in W'. destruct W' as ((_ & _ & _ & R & Ld & Tn & _) & _). split; [exact R|]. split; [exact Tn|]. split; [exact Ld|].
  intros now q Tq. rewrite <- Ld. apply C42_others_refuse; [exact Tq | rewrite R; discriminate].
Qed.

(** Servers with pre-votes that are at odds never elect a leader again, whatever happens: none of them
    leads, takes a new term or changes its log, and every client's request is refused. *)
Theorem C110_at_odds_refuted : forall servers prm w w' i, cluster_okay servers -> (2 <= length servers)%nat -> (forall i, In i (ids servers) -> pm_prevote (prm i) = true) ->
  fresh_start servers prm w -> at_odds servers w -> future servers prm w w' -> In i (ids servers) ->
  saved_term (w_sys w' i) = saved_term (w_sys w i) /\ log_of w' i = log_of w i /\
  forall n, w_sys w' i = Up n -> n_role n = Follower /\ n_term n = saved_term (w_sys w i) /\ n_leader n = (-1)%Z /\
    forall now q, rq_type q = client_request -> exists x, run_event (ERequest now q) n = (ROk (Response x), n, []) /\ rs_accepted x = false /\ rs_dst x = (-1)%Z.
Proof.
  intros servers prm w w' i HC H2 HP Fs Od. apply C110_no_support_refuted; try assumption. intros j V Hj NV IV _ H.
  assert (X := NoDup_incl_length NV (l' := [j])). cbn [length] in X. enough (length V <= 1)%nat by (unfold ids; rewrite map_length; lia). apply X.
  intros k Hk. destruct (Z.eq_dec k j) as [->|D]; [left; reflexivity|]. exfalso. destruct (H k Hk D) as (Y1 & Y2). destruct (Od j k Hj (IV k Hk) ltac:(congruence)) as [Z|Z]; [lia | exact (Z Y2)].
Qed.

(** ** A cluster of three servers gets there

    Server 1 is elected in term 1 and its first entry reaches nobody.  Server 2 gets the consent of
    server 3 and campaigns twice in vain: its term is 3.  The entry reaches server 3, which then gets
    the consent of server 1 and campaigns in vain: its term is 2.  Server 1 takes another entry.  In
    between the servers have crashed and have been started again. *)
Definition odds_cmds : list kcmd :=
  [KStart 1; KStart 2; KStart 3; KDo 1 EElection; KLost 1 2 0; KRpc 1 3 0; KRpc 1 2 0; KRpc 1 3 1; KLost 1 3 0; KLost 1 2 0;
   KDo 2 EElection; KRpc 2 3 0; KLost 2 1 0; KLost 2 1 1; KLost 2 3 0; KDo 2 EElection; KLost 2 1 0; KLost 2 3 0; KCrash 2 ECommit 0; KStart 2;
   KDo 1 (EHeartbeat 3); KRpc 1 3 0; KLost 1 2 0; KLost 1 3 0; KDo 3 EElection; KRpc 3 1 0; KLost 3 1 0; KLost 3 2 0; KLost 3 2 1; KCrash 3 ECommit 0; KStart 3;
   KDo 1 (EReplicate 0 [x61]); KLost 1 2 0; KLost 1 3 0; KCrash 1 EElection 0; KStart 1]%Z.
Definition odds_run : world := ex_run_with ex_pre_prm odds_cmds.
Definition callsb (w : world) (i : Z) : bool :=
  forallb (fun a => match a with
    | ASend u x q => Nat.leb (length (filter (is_call u x q) (w_acts w i))) (length (filter (is_outcome u x q) (w_hist w i)))
    | ARetryLater _ _ | ACreateSnapshot _ => false
    | _ => true
    end) (w_acts w i) &&
  forallb (fun o => match o_event o with
    | ERequest _ q => if beq (rq_type q) prevote_request then rq_term q <? saved_term (w_sys w (rq_src q)) else true
    | _ => true
    end) (w_hist w i).
Lemma callsb_ok : forall w i, callsb w i = true ->
  (forall u x q, ~ under_way w i u x q) /\ (forall u q, ~ In (ARetryLater u q) (w_acts w i)) /\ (forall s, ~ In (ACreateSnapshot s) (w_acts w i)) /\
  (forall now q l a, In (mkObs (ERequest now q) l a) (w_hist w i) -> rq_type q = prevote_request -> rq_term q < saved_term (w_sys w (rq_src q))).
Proof.
  intros w i H. unfold callsb in H. apply andb_prop in H. destruct H as (H2 & H3). rewrite forallb_forall in H2, H3. split; [|split; [|split]].
  - intros u x q U. assert (X : exists a, In a (filter (is_call u x q) (w_acts w i))).
    { unfold under_way in U. destruct (filter (is_call u x q) (w_acts w i)) as [|a l]; [cbn in U; lia | exists a; left; reflexivity]. }
    destruct X as (a & X). apply filter_In in X. destruct X as [X1 X2]. destruct a; try discriminate X2. cbn in X2. apply andb_prop in X2. destruct X2 as [X2 X3]. apply andb_prop in X2. destruct X2 as [X2 X4].
    destruct (req_dec q0 q) as [->|]; [|discriminate]. apply Bool.eqb_prop in X4. assert (uid = u) by lia. subst. specialize (H2 _ X1). cbn in H2. apply Nat.leb_le in H2. unfold under_way in U. lia.
  - intros u q X. specialize (H2 _ X). discriminate.
  - intros s X. specialize (H2 _ X). discriminate.
  - intros now q l a X Tq. specialize (H3 _ X). cbn [o_event] in H3. rewrite Tq in H3. change (beq prevote_request prevote_request) with true in H3. cbv iota in H3. lia.
Qed.
Lemma odds_start : forall i, In i [1; 2; 3]%Z -> w_sys odds_run i = Up (start_node i ex_pre_prm (sys_disk (w_sys odds_run i))) /\ cc_servers (dk_config (sys_disk (w_sys odds_run i))) = ex_servers /\
  al_start (dk_log (sys_disk (w_sys odds_run i))) = 1 /\ callsb odds_run i = true.
Proof. intros i [<-|[<-|[<-|[]]]]; vm_compute; auto. Qed.
Lemma odds_facts : map (fun i => (saved_term (w_sys odds_run i), end_term (log_of odds_run i), a_next (log_of odds_run i))) [1; 2; 3]%Z = [(1, 1, 3); (3, 0, 1); (2, 1, 2)].
Proof. vm_compute. reflexivity. Qed.
Lemma odds_pairs : forall (T : Z -> N) (Lg : Z -> alog), map (fun i => (T i, end_term (Lg i), a_next (Lg i))) [1; 2; 3]%Z = [(1, 1, 3); (3, 0, 1); (2, 1, 2)] ->
  forall i j, In i [1; 2; 3]%Z -> In j [1; 2; 3]%Z -> i <> j -> T i < T j \/ ~ no_older (Lg i) (Lg j).
Proof.
  intros T Lg F i j Hi Hj D. cbn [map] in F. inversion F. unfold no_older.
  destruct Hi as [<-|[<-|[<-|[]]]], Hj as [<-|[<-|[<-|[]]]]; try congruence; (left; lia) || (right; lia).
Qed.
Lemma odds_fresh : fresh_start ex_servers (fun _ => ex_pre_prm) odds_run /\ at_odds ex_servers odds_run.
Proof.
  split.
  - intros i Hi. destruct (odds_start i Hi) as (A & B & C & D). split; [eexists; split; [exact A | auto]|]. apply callsb_ok, D.
  - exact (odds_pairs (fun i => saved_term (w_sys odds_run i)) (log_of odds_run) odds_facts).
Qed.

(** So it is false that servers that run and reach each other can elect a leader: three servers that
    have started normally, whose messages were lost for a while and that crashed once, run and never
    have a leader again. *)
Theorem C110_elects_refuted : exists servers prm w0 w, cluster_okay servers /\ no_snapshots prm /\ length servers = 3%nat /\ (forall i, pm_prevote (prm i) = true) /\ initial servers w0 /\ reach servers prm w0 w /\
  (forall i, In i (ids servers) -> exists n, w_sys w i = Up n) /\
  forall w', future servers prm w w' -> forall i n, In i (ids servers) -> w_sys w' i = Up n -> n_role n = Follower /\ n_term n = saved_term (w_sys w i).
Proof.
  exists ex_servers, (fun _ => ex_pre_prm), ex_world, odds_run. split; [exact ex_okay|]. split; [intros i; reflexivity|]. split; [reflexivity|]. split; [reflexivity|]. split; [exact ex_initial|].
  split; [apply ex_reach_with|]. destruct odds_fresh as (Fs & Od). split; [intros i Hi; destruct (odds_start i Hi) as (A & _); eexists; exact A|]. intros w' F i n Hi Wn.
  destruct (C110_at_odds_refuted ex_servers (fun _ => ex_pre_prm) odds_run w' i ex_okay ltac:(cbn; lia) (fun _ _ => eq_refl) Fs Od F Hi) as (_ & _ & X). destruct (X n Wn) as (X1 & X2 & _). auto.
Qed.

(** ** The hypotheses are met, and something does happen in the future of that state: the first server
    asks the second one, which refuses, and is told so. *)
Lemma future_at : forall servers prm w w1 i e, future servers prm w w1 -> In i (ids servers) -> may_happen servers w1 i e -> future servers prm w (fst (event_at w1 i e)).
Proof.
  intros servers prm w w1 i e F Hi M. unfold event_at. destruct (w_sys w1 i) as [n|d] eqn:Wi; [|exact F]. destruct (run_event e n) as [[r n'] l] eqn:E.
  assert (X := F_event servers prm w w1 i n e r n' l F Hi Wi M E). destruct (goes_on r); exact X.
Qed.
Definition ask12 : req := mkReq 1 prevote_request 1 2 1 2 0 [].
Definition odds1 : world := fst (event_at odds_run 1 EElection).
Definition odds2 : world := fst (event_at odds1 2 (ERequest 0 ask12)).
Definition no21 : resp_msg := mkResp 3 prevote_response 2 1 0 false.
Definition odds3 : world := fst (event_at odds2 1 (ERpc 0 0 true ask12 (Some no21))).
Lemma odds3_node : match w_sys odds3 1 with Up n => n_prevote n = Some (1%Z, [2; 1]%Z) /\ n_timer n = false | Down _ => False end.
Proof. vm_compute. auto. Qed.
Lemma odds_term1 : saved_term (w_sys odds_run 1%Z) = 1.
Proof. vm_compute. reflexivity. Qed.
Lemma odds_ask : under_way odds1 1 0 true ask12 /\ under_way odds2 1 0 true ask12 /\ answered odds2 2 ask12 no21.
Proof.
  split; [apply Nat.ltb_lt; vm_compute; reflexivity|]. split; [apply Nat.ltb_lt; vm_compute; reflexivity|].
  exists 0, []. assert (E : last (w_hist odds2 2) (mkObs EElection [] None) = mkObs (ERequest 0 ask12) [] (Some (Response no21)) /\ length (w_hist odds2 2) = S (pred (length (w_hist odds2 2)))) by (vm_compute; split; reflexivity).
  destruct E as (E & E1). revert E E1. generalize (w_hist odds2 2). intros h E E1. rewrite <- E. destruct h as [|a h]; [discriminate E1|]. rewrite (app_removelast_last (mkObs EElection [] None) (l := a :: h)) at 2 by discriminate. apply in_or_app. right. left. reflexivity.
Qed.
Example C110_example : reach ex_servers (fun _ => ex_pre_prm) ex_world odds_run /\ fresh_start ex_servers (fun _ => ex_pre_prm) odds_run /\ at_odds ex_servers odds_run /\
  future ex_servers (fun _ => ex_pre_prm) odds_run odds3 /\
  exists n, w_sys odds3 1%Z = Up n /\ n_prevote n = Some (1%Z, [2; 1]%Z) /\ n_role n = Follower /\ n_term n = 1.
Proof.
  destruct odds_fresh as (Fs & Od). destruct odds_ask as (A1 & A2 & A3). split; [apply ex_reach_with|]. split; [exact Fs|]. split; [exact Od|].
  assert (I1 : In 1%Z (ids ex_servers)) by (left; reflexivity). assert (I2 : In 2%Z (ids ex_servers)) by (right; left; reflexivity).
  assert (F : future ex_servers (fun _ => ex_pre_prm) odds_run odds3).
  { apply future_at; [apply future_at; [apply future_at; [apply F_refl | exact I1 | exact I] | exact I2|] | exact I1|].
    - left. exists 1%Z, 0, true. split; [exact I1|]. split; [exact A1 | reflexivity].
    - split; [exact A2|]. split; [exact I2 | exact A3]. }
  split; [exact F|]. assert (X := odds3_node).
  destruct (C110_at_odds_refuted ex_servers (fun _ => ex_pre_prm) odds_run odds3 1%Z ex_okay ltac:(cbn; lia) (fun _ _ => eq_refl) Fs Od F I1) as (_ & _ & Y).
  destruct (w_sys odds3 1%Z) as [n|d]; [|destruct X]. exists n. destruct (Y n eq_refl) as (Y1 & Y2 & _). split; [reflexivity|]. split; [apply X|]. split; [exact Y1|]. rewrite Y2.
  exact odds_term1.
Qed.

Print Assumptions C110_no_support_refuted.
Print Assumptions C110_at_odds_refuted.
Print Assumptions C110_elects_refuted.
