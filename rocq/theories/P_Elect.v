(** * P_Elect: campaigns, elections won and pre-votes (C78, C79, C80) *)

From Verif Require Import Base Buffer Codec CodecSpec Msg FsLogStore FsLogSpec Alog Raft RaftQuiet RaftWalk NodeSpec ServerSpec NodeFacts NodeLife AppendFacts NodeExamples P_Leader PeerInv WalkAll Wp Runs ServeFacts P_Serve ClusterRun.
Local Open Scope N_scope.

(** ** Visiting the peers one by one *)
Lemma upd_one : forall f pre p post, NoDup (map p_id (pre ++ p :: post)) ->
  upd_peers (p_id p) f (pre ++ p :: post) = pre ++ f p :: post.
Proof.
  intros f pre p post H. rewrite map_app in H. cbn [map] in H. apply NoDup_remove_2 in H. rewrite in_app_iff in H.
  assert (G : forall l, ~ In (p_id p) (map p_id l) -> upd_peers (p_id p) f l = l).
  { clear. intros l. unfold upd_peers. induction l as [|x l IH]; cbn [map]; intros H; [reflexivity|]. rewrite IH by (intros K; apply H; right; exact K).
    destruct (p_id x =? p_id p)%Z eqn:E; [|reflexivity]. exfalso. apply H. left. lia. }
  unfold upd_peers. rewrite map_app. cbn [map]. rewrite Z.eqb_refl. unfold upd_peers in G. rewrite !G; [reflexivity | tauto | tauto].
Qed.
Lemma find_one : forall pre p post, NoDup (map p_id (pre ++ p :: post)) -> find_peer (p_id p) (pre ++ p :: post) = Some p.
Proof.
  intros pre p post H. rewrite map_app in H. cbn [map] in H. apply NoDup_remove_2 in H. rewrite in_app_iff in H.
  assert (K : ~ In (p_id p) (map p_id pre)) by tauto. clear H. unfold find_peer. induction pre as [|x pre IH]; cbn [app find].
  - rewrite Z.eqb_refl. reflexivity.
  - destruct (p_id x =? p_id p)%Z eqn:E; [exfalso; apply K; left; lia|]. apply IH. intros F. apply K. right. exact F.
Qed.
Lemma map_ids : forall f l, (forall p, p_id (f p) = p_id p) -> map p_id (map f l) = map p_id l.
Proof. intros f l H. rewrite map_map. apply map_ext. exact H. Qed.

Lemma each_peer : forall (g : Z -> M unit) (f : peer -> peer) (a : peer -> list act) (b : node) todo pre,
  (forall p, p_id (f p) = p_id p) -> NoDup (map p_id (pre ++ todo)) ->
  (forall pre p post, NoDup (map p_id (pre ++ p :: post)) -> In p todo ->
     g (p_id p) (set_peers (pre ++ p :: post) b) = (ROk tt, set_peers (pre ++ f p :: post) b, a p)) ->
  for_each (map p_id todo) g (set_peers (pre ++ todo) b) = (ROk tt, set_peers (pre ++ map f todo) b, concat (map a todo)).
Proof.
  intros g f a b todo. induction todo as [|p todo IH]; intros pre Hf Hn Hg; cbn [map for_each concat].
  - rewrite app_nil_r. reflexivity.
  - rewrite (bind_ok _ _ _ _ _ _ _ _ (Hg pre p todo Hn (or_introl eq_refl))).
    replace (pre ++ f p :: todo) with ((pre ++ [f p]) ++ todo) by (rewrite <- app_assoc; reflexivity).
    rewrite IH; [|exact Hf| |].
    + cbn [after]. rewrite <- app_assoc. reflexivity.
    + rewrite <- app_assoc. rewrite map_app in *. cbn [app map] in *. rewrite Hf. exact Hn.
    + intros pre' p' post' N I. apply Hg; [exact N | right; exact I].
Qed.

(** ** What a campaign is

    [q] asks the peer [p] for its vote for [n] in the next term: it carries the term and index
    of the last entry of the log of [n] *)
Definition asks_vote (n : node) (p : peer) (q : req) : Prop :=
  rq_type q = vote_request /\ rq_src q = n_id n /\ rq_dst q = p_id p /\ rq_term q = n_term n + 1 /\
  rq_last_idx q = a_next (n_log n) - 1 /\ term_is n (a_next (n_log n) - 1) (rq_last_term q) /\ rq_commit q = n_quick n /\ rq_entries q = [].
(** the server does not wait for pre-votes when its election timer fires *)
Definition campaigns (n : node) : Prop :=
  (n_steps n <= 0)%Z /\ n_catching n = false /\ (n_role n = Candidate \/ (n_role n = Follower /\ pm_prevote (n_prm n) = false)).

Lemma self_peers : forall n, set_peers (n_peers n) n = n.
Proof. intros n. destruct n; reflexivity. Qed.
Lemma set_peers2 : forall a b n, set_peers a (set_peers b n) = set_peers a n.
Proof. reflexivity. Qed.
Lemma concat_single : forall A B (f : A -> B) l, concat (map (fun x => [f x]) l) = map f l.
Proof. intros A B f l. induction l as [|x l IH]; cbn; [reflexivity | rewrite IH; reflexivity]. Qed.

Lemma term_at : forall n nx, 1 <= al_start (n_log n) -> has_entries n nx ->
  exists t, term_is n (nx - 1) t /\ forall n', n_log n' = n_log n -> dk_snp (n_disk n') = dk_snp (n_disk n) -> term_for_log (nx - 1) n' = (ROk t, n', []).
Proof.
  intros n nx Hs [H|[(-> & H)|(H1 & H2 & s & H3 & H4)]].
  - destruct (a_get_in (n_log n) (nx - 1)) as (e & E); [lia|]. exists (ev_term e). split.
    + right. left. exists e. auto.
    + intros n' E1 _. apply term_for_log_in; rewrite E1; assumption.
  - exists 0. split; [left; auto | intros n' _ _; reflexivity].
  - exists (sn_last_log_term s). split.
    + right. right. split; [lia|]. exists s. split; [exact H3|]. split; [lia | reflexivity].
    + intros n' E1 E2. apply term_for_log_snp; rewrite ?E1, ?E2; [lia | exact H3 | lia].
Qed.

Lemma ask_all : forall b t x (Q : Z -> N -> N -> req), NoDup (map p_id (n_peers b)) ->
  (forall n', n_log n' = n_log b -> dk_snp (n_disk n') = dk_snp (n_disk b) -> term_for_log (a_next (n_log b) - 1) n' = (ROk t, n', [])) ->
  for_each (map p_id (n_peers b)) (fun i => nx <- next_slot_ ;; lt <- term_for_log (nx - 1) ;; send_req (PPeer i) x (Q i lt (nx - 1))) b =
  (ROk tt, b, map (fun p => ASend (p_uid p) x (Q (p_id p) t (a_next (n_log b) - 1))) (n_peers b)).
Proof.
  intros b t x Q N T. set (g := fun i : Z => _).
  assert (H := each_peer g (fun p => p) (fun p => [ASend (p_uid p) x (Q (p_id p) t (a_next (n_log b) - 1))]) b (n_peers b) []).
  cbn [app] in H. rewrite map_id, self_peers, concat_single in H. apply H; [reflexivity | exact N|]. clear H.
  intros pre p post N1 _. unfold g, next_slot_. rewrite bind_get. set (b1 := set_peers (pre ++ p :: post) b).
  replace (n_log b1) with (n_log b) by reflexivity. rewrite (bind_ok _ _ _ _ _ _ _ _ (T b1 eq_refl eq_refl)).
  unfold send_req, the_peer. rewrite bind_assoc, bind_get. cbn [get_peer]. replace (n_peers b1) with (pre ++ p :: post) by reflexivity.
  rewrite find_one by exact N1. rewrite bind_ret. reflexivity.
Qed.

Definition vote_q (n : node) (i : Z) (lt li : N) : req := mkReq (n_term n + 1) vote_request (n_id n) i lt li (n_quick n) [].
Lemma not_alone : forall n, n_peers n <> [] -> majority n 1 = false.
Proof.
  intros n P. unfold majority. destruct (n_peers n); [congruence|]. cbn [length]. apply Z.ltb_ge.
  replace (Z.of_nat (S (length l)) + 1)%Z with (Z.of_nat (length l) + 1 * 2)%Z by lia. rewrite Z.div_add by lia.
  assert (0 <= Z.of_nat (length l) / 2)%Z by (apply Z.div_pos; lia). lia.
Qed.
Definition campaigning (n n' : node) : Prop :=
  n_role n' = Candidate /\ n_term n' = n_term n + 1 /\ n_vote n' = n_id n /\ n_voted n' = [n_id n] /\ n_votes n' = 1%Z /\ n_done n' = false /\
  n_prevote n' = None /\ n_timer n' = true /\
  n_peers n' = n_peers n /\ n_log n' = n_log n /\ n_quick n' = n_quick n /\ n_smc n' = n_smc n /\ n_config n' = n_config n /\
  n_id n' = n_id n /\ n_prm n' = n_prm n /\ n_steps n' = n_steps n /\ n_catching n' = n_catching n /\
  saved (n_disk n') = (n_term n + 1, n_id n).
Lemma candidate_runs : forall n t, n_catching n = false -> n_peers n <> [] -> NoDup (map p_id (n_peers n)) ->
  (forall n', n_log n' = n_log n -> dk_snp (n_disk n') = dk_snp (n_disk n) -> term_for_log (a_next (n_log n) - 1) n' = (ROk t, n', [])) ->
  runs (fun _ n' l => l = [ASaveState (n_term n + 1) (-1); ASaveState (n_term n + 1) (n_id n)] ++
       map (fun p => ASend (p_uid p) false (vote_q n (p_id p) t (a_next (n_log n) - 1))) (n_peers n) ++ [ATimer true] /\ campaigning n n') become_candidate n.
Proof.
  intros n t C P N T. unfold become_candidate, save_state. repeat rs. unfold request_vote, save_state. repeat rs.
  match goal with |- context [majority ?x _] => set (b := x) end. cbn [app].
  replace (n_votes b) with 1%Z by reflexivity. rewrite not_alone by exact P.
  unfold peer_ids. rs. rs. eapply runs_eq; [exact (ask_all b t false (vote_q n) N T)|].
  rs. rs. cbn [app]. replace (n_role b) with Candidate by reflexivity.
  unfold restart_election_timer. rs. rs. cbn [app]. replace (n_catching b) with (n_catching n) by reflexivity. rewrite C. rs. rs. rs. cbn [app].
  split; [reflexivity|]. unfold campaigning. repeat (split; [reflexivity|]). reflexivity.
Qed.

(** ** C80: a campaign

    A server whose election timer fires and that does not have to wait for pre-votes starts a
    campaign for the next term: it votes for itself, saves that before the first request
    leaves, asks every other member once, with the end of its log, waits for another
    election timeout and changes nothing else. *)
Theorem C80_campaign : forall n, campaigns n -> n_peers n <> [] -> NoDup (map p_id (n_peers n)) ->
  1 <= al_start (n_log n) -> has_entries n (a_next (n_log n)) ->
  exists n' qs, run_event EElection n =
      (ROk Nothing, n', [ASaveState (n_term n + 1) (-1); ASaveState (n_term n + 1) (n_id n)] ++ map (fun x => ASend (p_uid (fst x)) false (snd x)) qs ++ [ATimer true]) /\
    map fst qs = n_peers n /\ (forall p q, In (p, q) qs -> asks_vote n p q) /\
    n_role n' = Candidate /\ n_term n' = n_term n + 1 /\ n_vote n' = n_id n /\ n_voted n' = [n_id n] /\ n_votes n' = 1%Z /\ n_done n' = false /\
    n_prevote n' = None /\ n_timer n' = true /\
    n_peers n' = n_peers n /\ n_log n' = n_log n /\ n_quick n' = n_quick n /\ n_smc n' = n_smc n /\ n_config n' = n_config n /\
    n_id n' = n_id n /\ n_prm n' = n_prm n /\ n_steps n' = n_steps n /\ n_catching n' = n_catching n /\
    saved (n_disk n') = (n_term n + 1, n_id n).
Proof.
  intros n (C1 & C2 & C3) P N Hs He. destruct (term_at n _ Hs He) as (t & T1 & T2).
  destruct (candidate_runs (set_timer false n) t C2 P N T2) as ([] & n' & l & E & -> & K).
  exists n', (map (fun p => (p, vote_q n (p_id p) t (a_next (n_log n) - 1))) (n_peers n)). split; [|split; [|split; [|exact K]]].
  - cbn [run_event]. unfold handle_election_timeout. rewrite bind_assoc, bind_modify, bind_assoc, bind_get.
    replace (n_steps (set_timer false n)) with (n_steps n) by reflexivity. replace (0 <? n_steps n)%Z with false by lia.
    replace (n_catching (set_timer false n)) with (n_catching n) by reflexivity. rewrite C2.
    replace (n_role (set_timer false n)) with (n_role n) by reflexivity. replace (n_prm (set_timer false n)) with (n_prm n) by reflexivity.
    assert (B : bind become_candidate (fun _ => ret Nothing) (set_timer false n) = (ROk Nothing, n', [ASaveState (n_term n + 1) (-1); ASaveState (n_term n + 1) (n_id n)] ++
       map (fun x => ASend (p_uid (fst x)) false (snd x)) (map (fun p => (p, vote_q n (p_id p) t (a_next (n_log n) - 1))) (n_peers n)) ++ [ATimer true])).
    { rewrite (bind_ok _ _ _ _ _ _ _ _ E). unfold after, ret. cbn [fst snd]. rewrite app_nil_r, map_map. reflexivity. }
    destruct C3 as [->|(-> & ->)]; exact B.
  - rewrite map_map. apply map_id.
  - intros p q H. apply in_map_iff in H. destruct H as (p0 & E0 & _). inversion E0; subst p0 q. unfold asks_vote, vote_q. cbn.
    repeat (split; [reflexivity|]). split; [exact T1 | split; reflexivity].
Qed.

(** ** What a new leader is

    [p'] is the peer [p] as a new leader sees it: it will be sent the log from its end [nx] on,
    heartbeats are sent at the configured interval, no snapshot is being sent, and one request
    is on its way *)
Definition taken_over (pm : params) (nx : N) (p p' : peer) : Prop :=
  p_uid p' = p_uid p /\ p_cfg p' = p_cfg p /\ p_match p' = p_match p /\ p_next p' = nx /\ p_sync p' = None /\
  p_hb_on p' = true /\ p_hb_sched p' = true /\ p_hb_cur p' = pm_hb pm /\ p_busy p' = true.
(** the first leader of a cluster writes the configuration to the log, with its own index in it *)
Definition first_config (n : node) : list entry_val :=
  if cc_log_idx (n_config n) =? 0 then [conf_entry (n_term n) (cfg_set_log_idx (a_next (n_log n)) (n_config n))] else [].
Definition new_config (n : node) : cluster_config :=
  if cc_log_idx (n_config n) =? 0 then cfg_set_log_idx (a_next (n_log n)) (n_config n) else n_config n.

Definition lead_peer (pm : params) (nx : N) (p : peer) : peer :=
  p_set_hb true true (p_resume pm (p_set_busy false (p_set_sync None (p_set_next nx p)))).
Lemma lead_all : forall b nx, NoDup (map p_id (n_peers b)) ->
  for_each (map p_id (n_peers b)) (fun i =>
    modify (upd_peer (PPeer i) (fun p => p_set_busy false (p_set_sync None (p_set_next nx p)))) ;;; enable_hb_for_peer i) b =
  (ROk tt, set_peers (map (lead_peer (n_prm b) nx) (n_peers b)) b, map (fun p => AHbTimer (p_id p)) (n_peers b)).
Proof.
  intros b nx N. set (g := fun i : Z => _).
  assert (H := each_peer g (lead_peer (n_prm b) nx) (fun p => [AHbTimer (p_id p)]) b (n_peers b) []).
  cbn [app] in H. rewrite self_peers, concat_single in H. apply H; [reflexivity | exact N|]. clear H.
  intros pre p post N1 _. unfold g. rewrite bind_modify. unfold enable_hb_for_peer. rewrite bind_get, bind_modify.
  unfold upd_peer. cbn [n_peers set_peers n_prm]. rewrite upd_one by exact N1.
  assert (E := upd_one (fun p => p_set_hb true true (p_resume (n_prm b) p)) pre (p_set_busy false (p_set_sync None (p_set_next nx p))) post).
  change (p_id (p_set_busy false (p_set_sync None (p_set_next nx p)))) with (p_id p) in E. rewrite E by (rewrite map_app in *; exact N1).
  reflexivity.
Qed.

Lemma serve_all : forall b nx t, n_peers b <> [] -> NoDup (map p_id (n_peers b)) -> 1 <= al_start (n_log b) ->
  (forall p, In p (n_peers b) -> p_next p = nx /\ p_busy p = false) -> 1 <= nx -> al_start (n_log b) <= nx <= a_next (n_log b) ->
  (forall n', n_log n' = n_log b -> n_disk n' = n_disk b -> term_for_log (nx - 1) n' = (ROk t, n', [])) ->
  request_append_entries b = (ROk tt, set_peers (map (p_set_busy true) (n_peers b)) b,
    map (fun p => ASend (p_uid p) false (log_req b p nx t)) (n_peers b)).
Proof.
  intros b nx t P N Hs HP H1 H2 T. unfold request_append_entries, peer_ids. rewrite bind_get.
  assert (E : map p_id (n_peers b) <> []) by (destruct (n_peers b); [congruence | discriminate]).
  set (g := fun i : Z => request_append_entries_to i ;;; ret tt).
  transitivity (for_each (map p_id (n_peers b)) g b); [destruct (map p_id (n_peers b)); [congruence | reflexivity]|].
  assert (H := each_peer g (p_set_busy true) (fun p => [ASend (p_uid p) false (log_req b p nx t)]) b (n_peers b) []).
  cbn [app] in H. rewrite self_peers, concat_single in H. apply H; [reflexivity | exact N|]. clear H.
  intros pre p post N1 Hp. destruct (HP p Hp) as (Q1 & Q2). set (b1 := set_peers (pre ++ p :: post) b).
  assert (F : find_peer (p_id p) (n_peers b1) = Some p) by (apply find_one, N1).
  assert (X : next_of b1 p = nx). { unfold next_of. rewrite Q1. replace (nx =? 0) with false by lia. reflexivity. }
  destruct (serve_log b1 (p_id p) p t F Q2 Hs) as (r & n' & l & Er & -> & -> & (f & F1 & F2 & F3 & F4)); rewrite ?X.
  - exact H2.
  - intros m E1 E2. apply T; assumption.
  - unfold g. rewrite (bind_ok _ _ _ _ _ _ _ _ Er). unfold after, ret. cbn [fst snd]. rewrite app_nil_r. rewrite X in *.
    assert (Ef : n' = set_peers (pre ++ f p :: post) b).
    { rewrite F3. unfold upd_peer. replace (n_peers b1) with (pre ++ p :: post) by reflexivity. rewrite upd_one by exact N1. reflexivity. }
    rewrite Ef in *. cbn [n_peers set_peers] in F4. rewrite <- (F1 p) in F4. rewrite find_one in F4 by (rewrite map_app in *; cbn [map] in *; rewrite F1; exact N1).
    inversion F4 as [K]. f_equal. f_equal. f_equal. f_equal. rewrite K. rewrite <- Q1. destruct p; reflexivity.
Qed.

Definition leads (n n' : node) : Prop :=
  n_role n' = Leader /\ n_leader n' = n_id n /\ n_term n' = n_term n /\ n_timer n' = false /\ n_join n' = None /\
  n_log n' = log_plus (n_log n) (first_config n) /\ n_config n' = new_config n /\ n_changing n' = (n_changing n || (cc_log_idx (n_config n) =? 0)) /\
  n_quick n' = n_quick n /\ n_smc n' = n_smc n /\ dk_config (n_disk n') = dk_config (n_disk n).
Lemma leader_runs : forall n, n_peers n <> [] -> NoDup (map p_id (n_peers n)) -> 1 <= al_start (n_log n) -> has_entries n (a_next (n_log n)) ->
  runs (fun _ n' l => leads n n' /\ exists qs,
     l = [ATimer false; ABecomeLeader (n_term n)] ++ map (fun p => AHbTimer (p_id p)) (n_peers n) ++ map AAppend (first_config n) ++
         map (fun x => ASend (p_uid (fst x)) false (snd x)) qs /\
     map fst qs = n_peers n /\ Forall2 (taken_over (n_prm n) (a_next (n_log n))) (n_peers n) (n_peers n') /\
     (forall p q, In (p, q) qs -> offers_entries n' p (a_next (n_log n)) q)) become_leader n.
Proof.
  intros n P N Hs He. destruct (term_at n _ Hs He) as (t & T1 & T2). set (nx := a_next (n_log n)) in *.
  assert (Hx : 1 <= nx /\ al_start (n_log n) <= nx) by (unfold nx, a_next; lia).
  unfold become_leader, stop_election_timer, next_slot_, peer_ids. repeat rs.
  match goal with |- runs _ (for_each _ _) ?x => set (b := x) end. cbn [app].
  eapply runs_eq; [exact (lead_all b nx N)|]. rs. rs. replace (n_config b) with (n_config n) by reflexivity. cbn [app].
  set (b1 := set_peers (map (lead_peer (n_prm b) nx) (n_peers b)) b).
  set (ps1 := map (lead_peer (n_prm n) nx) (n_peers n)).
  set (b2 := set_changing (n_changing n || (cc_log_idx (n_config n) =? 0)) (set_log (log_plus (n_log n) (first_config n)) (set_config (new_config n) b1))).
  assert (Hw : runs (fun _ n2 l => n2 = b2 /\ l = map AAppend (first_config n))
     (when (cc_log_idx (n_config n) =? 0) (nx <- next_slot_ ;; modify (set_config (cfg_set_log_idx nx (n_config n))) ;;;
        log_append (conf_entry (n_term n) (cfg_set_log_idx nx (n_config n))) ;;; modify (set_changing true))) b1).
  { unfold b2, first_config, new_config. destruct (cc_log_idx (n_config n) =? 0) eqn:Ei; cbn [when].
    - unfold next_slot_. rs. rs. rs. rs. rs. eapply runs_eq; [apply log_append_eq|]. rs. cbn [app]. split; [|reflexivity].
      rewrite orb_true_r. reflexivity.
    - rs. split; [|reflexivity]. rewrite orb_false_r. unfold log_plus. rewrite app_nil_r. unfold b1, b. destruct n as [? ? ? ? ? ? ? ? ? ? ? ? ? ? ? ? ? ? ? ? ? ? ? ? ? dk]. destruct dk as [? ? lg ? ? ?]; destruct lg. reflexivity. }
  rs. eapply runs_mono; [|exact Hw]. cbv beta. intros _ n2 l2 (-> & ->). clear Hw.
  assert (L2 : n_log b2 = log_plus (n_log n) (first_config n)) by reflexivity.
  assert (S2 : al_start (n_log b2) = al_start (n_log n)) by reflexivity.
  assert (A2 : nx <= a_next (n_log b2)).
  { rewrite L2. unfold nx, a_next, log_plus. cbn [al_start al_ents]. unfold lenN. rewrite app_length. lia. }
  assert (He2 : has_entries b2 nx).
  { unfold has_entries. rewrite S2. destruct He as [He|[He|(H1 & H2 & s & H3 & H4)]].
    - left. lia.
    - right. left. exact He.
    - right. right. split; [exact H1|]. split; [exact H2|]. exists s. split; [exact H3 | exact H4]. }
  destruct (term_at b2 nx) as (t' & T1' & T2'); [rewrite S2; exact Hs | exact He2|].
  eapply runs_eq.
  { apply (serve_all b2 nx t').
    - change (n_peers b2) with ps1. unfold ps1. destruct (n_peers n); [congruence | discriminate].
    - change (n_peers b2) with ps1. unfold ps1. rewrite map_ids; [exact N | reflexivity].
    - rewrite S2. exact Hs.
    - change (n_peers b2) with ps1. unfold ps1. intros p Hp. apply in_map_iff in Hp. destruct Hp as (p0 & <- & _). split; reflexivity.
    - lia.
    - rewrite S2. lia.
    - intros n' E1 E2. apply T2'; [exact E1 | rewrite E2; reflexivity]. }
  split; [repeat (split; [reflexivity|]); reflexivity|].
  exists (map (fun p => (p, log_req b2 p nx t')) (n_peers n)). split; [|split; [|split]].
  - change (n_peers b2) with ps1. unfold ps1. rewrite !map_map. cbn [app fst snd]. reflexivity.
  - rewrite map_map. apply map_id.
  - cbn [n_peers set_peers]. change (n_peers b2) with ps1. unfold ps1. rewrite map_map. clear. induction (n_peers n) as [|p ps IH]; cbn [map]; constructor; [|exact IH].
    unfold taken_over. cbn. repeat (split; [reflexivity|]). reflexivity.
  - intros p q Hq. apply in_map_iff in Hq. destruct Hq as (p0 & E0 & _). inversion E0; subst. exact (offers_log _ p nx t' T1').
Qed.

(** ** C78: winning an election

    [r] is the vote that completes a majority for the election [n] is in *)
Definition wins (n : node) (r : resp_msg) : Prop :=
  rs_type r = vote_response /\ rs_accepted r = true /\ rs_term r = n_term n /\ In (rs_src r) (map p_id (n_peers n)) /\
  n_done n = false /\ ~ In (rs_src r) (n_voted n) /\
  (Z.of_nat (length (n_peers n)) + 1 < 2 * (n_votes n + 1))%Z.

Lemma majority_iff : forall n v, majority n v = true <-> (Z.of_nat (length (n_peers n)) + 1 < 2 * v)%Z.
Proof.
  intros n v. unfold majority. rewrite Z.ltb_lt. set (k := (Z.of_nat (length (n_peers n)) + 1)%Z).
  assert (D := Z.div_mod k 2 ltac:(lia)). assert (B := Z.mod_pos_bound k 2 ltac:(lia)). split; intros; lia.
Qed.
Lemma find_in : forall id l, In id (map p_id l) -> exists p, find_peer id l = Some p.
Proof.
  intros id l. induction l as [|p l IH]; cbn; [intros []|]. intros [H|H]; [rewrite H, Z.eqb_refl; eauto|].
  destruct (p_id p =? id)%Z; [eauto | apply IH, H].
Qed.
Lemma existsb_in : forall x l, existsb (Z.eqb x) l = true <-> In x l.
Proof. intros x l. rewrite existsb_exists. split; [intros (y & H & E); apply Z.eqb_eq in E; subst; exact H | intros H; exists x; rewrite Z.eqb_refl; auto]. Qed.

(** The server that receives the vote that completes a majority becomes leader of its term: it
    stops its election timer, tells the application, schedules a heartbeat at the configured
    interval to every other member, writes the configuration to its log if it is not there yet,
    and sends every other member, whatever was known of it before, the log from the end it had
    on.  Members it has sent nothing yet are not left out, and nothing is sent twice. *)
Theorem C78_new_leader : forall n now uid j q r, live_ref uid n = Some (PPeer j) -> rq_type q = vote_request -> wins n r ->
  NoDup (map p_id (n_peers n)) -> 1 <= al_start (n_log n) -> has_entries n (a_next (n_log n)) ->
  exists n' l qs, run_event (ERpc now uid false q (Some r)) n = (ROk Nothing, n', l) /\
    l = [ATimer false; ABecomeLeader (n_term n)] ++ map (fun p => AHbTimer (p_id p)) (n_peers n) ++ map AAppend (first_config n) ++
        map (fun x => ASend (p_uid (fst x)) false (snd x)) qs /\
    n_role n' = Leader /\ n_leader n' = n_id n /\ n_term n' = n_term n /\ n_timer n' = false /\ n_join n' = None /\
    n_log n' = log_plus (n_log n) (first_config n) /\ n_config n' = new_config n /\ n_changing n' = (n_changing n || (cc_log_idx (n_config n) =? 0)) /\
    n_quick n' = n_quick n /\ n_smc n' = n_smc n /\
    Forall2 (taken_over (n_prm n) (a_next (n_log n))) (n_peers n) (n_peers n') /\
    Forall2 (fun p x => p_id (fst x) = p_id p /\ p_uid (fst x) = p_uid p /\ offers_entries n' p (a_next (n_log n)) (snd x)) (n_peers n) qs.
Proof.
  intros n now uid j q r Hl Hq (W1 & W2 & W3 & W4 & W5 & W6 & W7) N Hs He.
  set (f1 := fun p : peer => p_resume (n_prm n) p). set (n1 := upd_peer (PPeer j) f1 n).
  set (n2 := upd_peer (PPeer (rs_src r)) (p_set_last_resp now) n1).
  set (n3 := set_done true (if Nat.leb (length (n_peers n2) + 1) (length (rs_src r :: n_voted n)) then set_done true (set_votes (n_votes n + 1)%Z (set_voted (rs_src r :: n_voted n) n2)) else set_votes (n_votes n + 1)%Z (set_voted (rs_src r :: n_voted n) n2))).
  set (g := fun p : peer => if (p_id p =? rs_src r)%Z then p_set_last_resp now (if (p_id p =? j)%Z then f1 p else p) else (if (p_id p =? j)%Z then f1 p else p)).
  assert (Gp : n_peers n3 = map g (n_peers n)).
  { transitivity (n_peers n2); [unfold n3; destruct (Nat.leb _ _); reflexivity|]. unfold n2, n1, upd_peer. cbn [n_peers set_peers]. unfold upd_peers. rewrite map_map.
    apply map_ext. intros p. unfold g. replace (p_id (if (p_id p =? j)%Z then f1 p else p)) with (p_id p) by (destruct (_ =? _)%Z; reflexivity). reflexivity. }
  assert (Gi : forall p, p_id (g p) = p_id p) by (intros p; unfold g; destruct (_ =? _)%Z, (_ =? _)%Z; reflexivity).
  assert (Gu : forall p, p_uid (g p) = p_uid p) by (intros p; unfold g; destruct (_ =? _)%Z, (_ =? _)%Z; reflexivity).
  assert (E3 : exists v, n3 = set_done true (set_votes (n_votes n + 1)%Z (set_voted v (set_peers (map g (n_peers n)) n)))).
  { exists (rs_src r :: n_voted n). rewrite <- Gp. unfold n3. destruct (Nat.leb _ _); reflexivity. }
  destruct E3 as (v & E3).
  destruct (leader_runs n3) as ([] & n' & l & Er & K & qs & -> & Q1 & Q2 & Q3).
  { rewrite Gp. destruct (n_peers n); [destruct W4 | discriminate]. }
  { rewrite Gp, map_ids; assumption. }
  { rewrite E3. exact Hs. }
  { rewrite E3. exact He. }
  exists n', ([ATimer false; ABecomeLeader (n_term n3)] ++ map (fun p => AHbTimer (p_id p)) (n_peers n3) ++ map AAppend (first_config n3) ++
         map (fun x => ASend (p_uid (fst x)) false (snd x)) qs), qs.
  split.
  - cbn [run_event]. unfold rpc_done. rewrite bind_assoc, bind_get. rewrite Hl, Hq.
    change (beq vote_request append_entries_request || beq vote_request install_snapshot_request) with false. cbn [when].
    rewrite bind_assoc, bind_ret, bind_assoc, bind_modify. fold f1. change (upd_peer (PPeer j) (p_resume (n_prm n)) n) with n1.
    unfold handle_peer_resp. rewrite bind_assoc, bind_get.
    destruct (find_in (rs_src r) (n_peers n1)) as (p & Fp).
    { unfold n1. rewrite peers_upd; [exact W4 | reflexivity]. }
    rewrite Fp. rewrite bind_assoc, bind_modify. fold n2.
    unfold update_term. rewrite !bind_assoc, bind_get. replace (n_term n2) with (n_term n) by reflexivity. rewrite W3, N.ltb_irrefl, bind_ret.
    rewrite W1. change (beq vote_response vote_response) with true. cbv iota.
    unfold handle_voting_resp. rewrite bind_assoc, bind_get. replace (n_term n2) with (n_term n) by reflexivity. rewrite W3, N.eqb_refl. cbn [negb].
    replace (n_done n2) with (n_done n) by reflexivity. rewrite W5. replace (n_voted n2) with (n_voted n) by reflexivity.
    destruct (existsb (Z.eqb (rs_src r)) (n_voted n)) eqn:Ex; [exfalso; apply W6, existsb_in, Ex|].
    rewrite bind_assoc, bind_modify, bind_assoc, W2. cbn [when]. rewrite bind_modify, bind_assoc, bind_get.
    replace (n_votes n2) with (n_votes n) by reflexivity.
    set (m := set_votes (n_votes n + 1)%Z (set_voted (rs_src r :: n_voted n) n2)).
    replace (n_votes m) with (n_votes n + 1)%Z by reflexivity.
    replace (majority m (n_votes n + 1)) with true.
    2: { symmetry. apply majority_iff. replace (length (n_peers m)) with (length (n_peers n)); [exact W7|].
         rewrite <- (map_length p_id (n_peers m)), <- (map_length p_id (n_peers n)). f_equal. unfold m. cbn [n_peers set_votes set_voted]. unfold n2, n1. rewrite !peers_upd; reflexivity. }
    cbn [when]. replace (n_peers m) with (n_peers n2) by reflexivity. replace (n_voted m) with (rs_src r :: n_voted n) by reflexivity.
    assert (Hw : forall k : unit -> M answer, bind (when (length (n_peers n2) + 1 <=? length (rs_src r :: n_voted n))%nat (modify (set_done true))) k m =
             k tt (if (length (n_peers n2) + 1 <=? length (rs_src r :: n_voted n))%nat then set_done true m else m)).
    { intros k. destruct (_ <=? _)%nat; cbn [when]; [apply bind_modify | apply bind_ret]. }
    rewrite bind_assoc, Hw, bind_assoc, bind_modify. fold n3. rewrite (bind_ok _ _ _ _ _ _ _ _ Er). unfold after, ret. cbn [fst snd]. rewrite app_nil_r. reflexivity.
  - assert (Hn : n_term n3 = n_term n) by (rewrite E3; reflexivity). assert (Hp : n_prm n3 = n_prm n) by (rewrite E3; reflexivity).
    assert (HL : n_log n3 = n_log n) by (rewrite E3; reflexivity). assert (Hf : first_config n3 = first_config n) by (rewrite E3; reflexivity).
    rewrite HL, Hp in Q2. rewrite HL in Q3. rewrite Hn, Hf, Gp. rewrite map_map.
    rewrite (map_ext (fun x => AHbTimer (p_id (g x))) (fun p => AHbTimer (p_id p))) by (intros; rewrite Gi; reflexivity).
    split; [reflexivity|]. rewrite Gp in Q1, Q2.
    destruct K as (K1 & K2 & K3 & K4 & K5 & K6 & K7 & K8 & K9 & K10 & K11).
    split; [exact K1|]. split; [rewrite K2, E3; reflexivity|]. split; [congruence|]. split; [exact K4|]. split; [exact K5|].
    split; [rewrite K6, Hf, HL; reflexivity|]. split; [rewrite K7, E3; reflexivity|]. split; [rewrite K8, E3; reflexivity|].
    split; [rewrite K9, E3; reflexivity|]. split; [rewrite K10, E3; reflexivity|]. split.
    + revert Q2. generalize (n_peers n'), (n_peers n). clear - Gi Gu. intros ps' ps. revert ps'. induction ps as [|p ps IH]; intros ps' H; inversion H; subst; constructor.
      * destruct H2 as (H1 & H2 & H3 & H5). split; [rewrite H1; apply Gu|]. split; [rewrite H2; unfold g; destruct (_ =? _)%Z, (_ =? _)%Z; reflexivity|].
        split; [rewrite H3; unfold g; destruct (_ =? _)%Z, (_ =? _)%Z; reflexivity | exact H5].
      * apply IH. exact H4.
    + revert Q1 Q3. generalize (a_next (n_log n)). intros nx. generalize (n_peers n). clear - Gi Gu. intros ps Q1 Q3.
      revert ps Q1. induction qs as [|[p' q'] qs IH]; intros ps Q1; destruct ps as [|p ps]; cbn [map] in Q1; try discriminate; constructor.
      * cbn [fst snd] in *. injection Q1 as E1 E2. subst p'. split; [apply Gi|]. split; [apply Gu|].
        assert (O := Q3 _ _ (or_introl eq_refl)). unfold offers_entries in *. rewrite Gi in O. exact O.
      * apply IH; [intros; apply Q3; right; assumption|]. injection Q1 as E1 E2. exact E2.
Qed.

(** ** C81: a server that is the only member of its cluster *)
Definition own_config (n : node) : list entry_val :=
  if cc_log_idx (n_config n) =? 0 then [conf_entry (n_term n + 1) (cfg_set_log_idx (a_next (n_log n)) (n_config n))] else [].
(** everything in the log is committed *)
Definition all_committed (n : node) : Prop := a_next (n_log n) - 1 <= n_quick n.

Lemma log_quick : forall q n, n_log (set_quick q n) = n_log n.
Proof. reflexivity. Qed.
Lemma role_quick : forall q n, n_role (set_quick q n) = n_role n.
Proof. reflexivity. Qed.
Lemma commit_alone : forall n, n_peers n = [] -> request_append_entries n =
  (ROk tt, set_quick (N.max (n_quick n) (a_next (n_log n) - 1)) n, []).
Proof.
  intros n P. unfold request_append_entries, peer_ids. rewrite bind_get, P. cbn [map]. unfold next_slot_. rewrite bind_get.
  unfold commit. rewrite bind_get. destruct (n_quick n <? a_next (n_log n) - 1) eqn:E.
  - rewrite bind_modify, bind_get. rewrite N.max_r by lia. destruct (n_role _); try reflexivity.
    unfold peer_ids. rewrite bind_get. cbn [n_peers set_quick]. rewrite P. reflexivity.
  - rewrite N.max_l by lia. destruct n; reflexivity.
Qed.

(** Its election timeout makes it leader of the next term without asking anybody, with or
    without pre-votes, and commits its whole log. *)
Theorem C81_elects_itself : forall n, n_peers n = [] -> (n_steps n <= 0)%Z -> n_catching n = false -> n_role n <> Leader ->
  (pm_prevote (n_prm n) = true -> n_role n = Follower -> n_prevote n = None) ->
  exists n', run_event EElection n = (ROk Nothing, n',
      [ASaveState (n_term n + 1) (-1); ASaveState (n_term n + 1) (n_id n); ATimer false; ABecomeLeader (n_term n + 1)] ++ map AAppend (own_config n)) /\
    n_role n' = Leader /\ n_leader n' = n_id n /\ n_term n' = n_term n + 1 /\ saved (n_disk n') = (n_term n + 1, n_id n) /\
    n_log n' = log_plus (n_log n) (own_config n) /\ n_timer n' = false /\ all_committed n' /\ n_quick n <= n_quick n' /\ n_smc n' = n_smc n.
Proof.
  intros n P S C R HV.
  assert (B : exists n', become_candidate (set_timer false n) = (ROk tt, n',
      [ASaveState (n_term n + 1) (-1); ASaveState (n_term n + 1) (n_id n); ATimer false; ABecomeLeader (n_term n + 1)] ++ map AAppend (own_config n)) /\
    n_role n' = Leader /\ n_leader n' = n_id n /\ n_term n' = n_term n + 1 /\ saved (n_disk n') = (n_term n + 1, n_id n) /\
    n_log n' = log_plus (n_log n) (own_config n) /\ n_timer n' = false /\ all_committed n' /\ n_quick n <= n_quick n' /\ n_smc n' = n_smc n).
  { assert (G : runs (fun _ n' l => l = [ASaveState (n_term n + 1) (-1); ASaveState (n_term n + 1) (n_id n); ATimer false; ABecomeLeader (n_term n + 1)] ++ map AAppend (own_config n) /\
      n_role n' = Leader /\ n_leader n' = n_id n /\ n_term n' = n_term n + 1 /\ saved (n_disk n') = (n_term n + 1, n_id n) /\
      n_log n' = log_plus (n_log n) (own_config n) /\ n_timer n' = false /\ all_committed n' /\ n_quick n <= n_quick n' /\ n_smc n' = n_smc n) become_candidate (set_timer false n)).
    { unfold become_candidate, save_state. repeat rs. unfold request_vote, save_state. repeat rs.
      match goal with |- context [majority ?x _] => set (b := x) end. cbn [app].
      replace (majority b (n_votes b)) with true by (symmetry; apply majority_iff; replace (n_peers b) with (n_peers n) by reflexivity; rewrite P; reflexivity).
      unfold become_leader, stop_election_timer, next_slot_, peer_ids. repeat rs.
      match goal with |- context [runs _ (for_each (map p_id (n_peers ?x)) _) ?y] => replace (n_peers x) with (n_peers n) by reflexivity; set (b1 := y) end.
      rewrite P. cbn [map for_each]. repeat rs.
      - match goal with |- runs _ (log_append _) ?y => set (b2 := y) end. eapply runs_eq; [apply log_append_eq|]. repeat rs.
        match goal with |- runs _ request_append_entries ?y => set (b3 := y) end. eapply runs_eq; [apply commit_alone; exact P|].
        repeat rs. cbn [app]. rewrite role_quick. replace (n_role b3) with Leader by reflexivity. rs.
        assert (O : own_config n = [conf_entry (n_term n + 1) (cfg_set_log_idx (a_next (n_log n)) (n_config n))]).
        { unfold own_config. replace (n_config n) with (n_config b1) by reflexivity. rewrite H. reflexivity. }
        rewrite O. split; [reflexivity|]. repeat (split; [reflexivity|]). split.
        + unfold all_committed. rewrite log_quick. cbn [n_quick set_quick]. lia.
        + cbn [n_quick set_quick]. replace (n_quick b3) with (n_quick n) by reflexivity. split; [lia | reflexivity].
      - eapply runs_eq; [apply commit_alone; exact P|].
        repeat rs. cbn [app]. rewrite role_quick. replace (n_role b1) with Leader by reflexivity. rs.
        assert (O : own_config n = []).
        { unfold own_config. replace (n_config n) with (n_config b1) by reflexivity. rewrite H. reflexivity. }
        rewrite O. split; [reflexivity|]. split; [reflexivity|]. split; [reflexivity|]. split; [reflexivity|]. split; [reflexivity|].
        split; [unfold log_plus; rewrite app_nil_r; rewrite log_quick; replace (n_log b1) with (n_log n) by reflexivity; destruct (n_log n); reflexivity|].
        split; [reflexivity|]. split.
        + unfold all_committed. rewrite log_quick. cbn [n_quick set_quick]. lia.
        + cbn [n_quick set_quick]. replace (n_quick b1) with (n_quick n) by reflexivity. split; [lia | reflexivity]. }
    destruct G as ([] & n' & l & E & -> & K). exists n'. split; [exact E | exact K]. }
  destruct B as (n' & E & K). exists n'. split; [|exact K].
  assert (X : bind become_candidate (fun _ => ret Nothing) (set_timer false n) = (ROk Nothing, n', [ASaveState (n_term n + 1) (-1); ASaveState (n_term n + 1) (n_id n); ATimer false; ABecomeLeader (n_term n + 1)] ++ map AAppend (own_config n))).
  { rewrite (bind_ok _ _ _ _ _ _ _ _ E). unfold after, ret. cbn [fst snd]. rewrite app_nil_r. reflexivity. }
  cbn [run_event]. unfold handle_election_timeout. rewrite bind_assoc, bind_modify, bind_assoc, bind_get.
  replace (n_steps (set_timer false n)) with (n_steps n) by reflexivity. replace (0 <? n_steps n)%Z with false by lia.
  replace (n_catching (set_timer false n)) with (n_catching n) by reflexivity. rewrite C.
  replace (n_role (set_timer false n)) with (n_role n) by reflexivity.
  assert (Y : request_prevote (set_timer false n) = become_candidate (set_timer false n)).
  { unfold request_prevote, peer_ids. rewrite bind_get. replace (n_peers (set_timer false n)) with (n_peers n) by reflexivity. rewrite P. reflexivity. }
  assert (X2 : bind request_prevote (fun _ => ret Nothing) (set_timer false n) = bind become_candidate (fun _ => ret Nothing) (set_timer false n)).
  { unfold bind. rewrite Y. reflexivity. }
  replace (n_prevote (set_timer false n)) with (n_prevote n) by reflexivity. replace (n_prm (set_timer false n)) with (n_prm n) by reflexivity.
  destruct (n_role n); [|exact X|congruence]. destruct (pm_prevote _); [|exact X]. rewrite HV by reflexivity. rewrite X2. exact X.
Qed.

(** Entries a client sends to it are committed by the time the client is answered. *)
Theorem C81_commits_at_once : forall n now q, n_peers n = [] -> n_role n = Leader -> rq_type q = client_request ->
  exists n' l x, run_event (ERequest now q) n = (ROk (Response x), n', l) /\ rs_accepted x = true /\
    l = append_acts (a_next (n_log n)) (map (stamp (n_term n)) (rq_entries q)) /\
    n_log n' = log_plus (n_log n) (map (stamp (n_term n)) (rq_entries q)) /\ all_committed n' /\ rs_next_idx x = a_next (n_log n') /\
    n_role n' = Leader /\ n_term n' = n_term n /\ n_smc n' = n_smc n.
Proof.
  intros n now q P R Q. eexists _, _, _. split; [apply run_request; rewrite process_cli_req by exact Q|].
  - unfold handle_cli_req, is_leader. rewrite bind_assoc, bind_get. rewrite R, P. cbn [length Nat.eqb negb andb]. rewrite bind_ret, bind_get, R.
    rewrite (bind_ok _ _ _ _ _ _ _ _ (cli_append_eq _ _ _)). set (n1 := set_log _ n).
    rewrite (bind_ok _ _ _ _ _ _ _ _ (commit_alone n1 P)). unfold next_slot_. rewrite bind_get. unfold after, ret. cbn [fst snd]. rewrite app_nil_r. reflexivity.
  - split; [reflexivity|]. split; [reflexivity|]. rewrite log_quick, log_set_log. split; [reflexivity|]. split; [|split; [reflexivity | split; [exact R | split; reflexivity]]].
    unfold all_committed. rewrite log_quick, log_set_log. cbn [n_quick set_quick]. lia.
Qed.

(** ** C79: pre-votes *)

(** no pre-vote is started and no answer to one is counted; no campaign is started *)
Definition RP : rel := fun n l n' => n_id n' = n_id n /\ (n_prevote n' = None \/ (n_prevote n' = n_prevote n /\ n_term n' = n_term n)) /\
  (n_role n' = Candidate -> n_role n = Candidate).
#[export] Instance RP_pre : preorder RP.
Proof.
  split; unfold RP; [auto|]. intros a b c l1 l2 (H1 & H2 & H3) (K1 & K2 & K3). split; [congruence|]. split; [|auto].
  destruct K2 as [K2|(K2 & K4)]; [left; exact K2|]. destruct H2 as [H2|(H2 & H4)]; [left; congruence | right; split; congruence].
Qed.
Definition R0 : rel := fun n l n' => n_id n' = n_id n /\ (n_prevote n = None -> n_prevote n' = None).
#[export] Instance R0_pre : preorder R0.
Proof. split; unfold R0; [auto|]. intros a b c l1 l2 (H1 & H2) (K1 & K2). split; [congruence | auto]. Qed.
Ltac rp := unfold RP, upd_peer; repeat match goal with |- context [match ?x with _ => _ end] => destruct x end; (split; [reflexivity|]; split; [first [right; split; reflexivity | left; reflexivity] | cbn; first [discriminate | intros; assumption]]).
Ltac r0 := unfold R0, upd_peer; repeat match goal with |- context [match ?x with _ => _ end] => destruct x end; (split; [reflexivity|]; cbn; intros; first [reflexivity | assumption]).

Lemma candidate_none : forall n, ht R0 yes become_candidate n.
Proof.
  walk_base R0 ltac:(unfold R0; r0). walk_lead R0 ltac:(unfold R0; r0). walk_cand R0 ltac:(unfold R0; r0). exact W_bec.
Qed.
Lemma candidate_post : forall n, wp (fun _ n' => n_id n' = n_id n /\ n_prevote n' = None) (fun n' => n_id n' = n_id n /\ n_prevote n' = None) (fun n' => n_id n' = n_id n /\ n_prevote n' = None) become_candidate n.
Proof.
  intros n r n' l E. assert (E2 : become_candidate (set_prevote None n) = (r, n', l)).
  { rewrite <- E. unfold become_candidate. rewrite !(bind_modify _ (set_prevote None)). replace (set_prevote None (set_prevote None n)) with (set_prevote None n) by reflexivity. reflexivity. }
  destruct (candidate_none _ _ _ _ E2) as ((H1 & H2) & _). assert (K : n_id n' = n_id n /\ n_prevote n' = None) by (split; [exact H1 | apply H2; reflexivity]).
  destruct r; exact K.
Qed.

(** the election timer fires *)
Definition timed_out (n n' : node) : Prop :=
  RP n [] n' \/ (n_id n' = n_id n /\ n_prevote n' = None /\ (n_role n = Candidate \/ pm_prevote (n_prm n) = false \/ n_peers n = [])) \/
  (n_id n' = n_id n /\ n_term n' = n_term n /\ n_role n' = n_role n /\
   exists acc, (n_prevote n = None /\ acc = 0%Z \/ n_prevote n = Some (acc, [])) /\ n_prevote n' = Some ((acc + 1)%Z, [n_id n])).
Lemma wp_same : forall A (P : node -> Prop) (m : M A) n, (forall r n' l, m n = (r, n', l) -> P n') -> wp (fun _ => P) P P m n.
Proof. intros A P m n H r n' l E. assert (K := H _ _ _ E). destruct r; exact K. Qed.
Lemma wp_out : forall A (P : node -> Prop) (m : M A) n r n' l, wp (fun _ => P) P P m n -> m n = (r, n', l) -> P n'.
Proof. intros A P m n r n' l H E. specialize (H _ _ _ E). destruct r; exact H. Qed.
Lemma wp_rel : forall (R : rel) A (P : node -> Prop) (m : M A) n, ht R yes m n -> (forall n' l, R n l n' -> P n') -> wp (fun _ => P) P P m n.
Proof. intros R A P m n H K. apply wp_same. intros r n' l E. apply (K n' l). apply (proj1 (H _ _ _ E)). Qed.

Definition RK : rel := keeps (fun n => (n_id n, n_prevote n, n_term n, n_role n)).
#[export] Instance RK_pre : preorder RK := keeps_pre _ _.
Lemma RK_out : forall n l n', RK n l n' -> n_id n' = n_id n /\ n_prevote n' = n_prevote n /\ n_term n' = n_term n /\ n_role n' = n_role n.
Proof. unfold RK, keeps. intros n l n' H. injection H as -> -> -> ->. auto. Qed.

Lemma election_timed_out : forall n r n' l, handle_election_timeout n = (r, n', l) -> timed_out n n'.
Proof.
  intros n r n' l E. eapply wp_out; [|exact E]. clear r n' l E. unfold handle_election_timeout. do 4 wps.
  assert (Keep : forall A (m : M A) n1, ht RP yes m n1 -> RP n [] n1 -> wp (fun _ => timed_out n) (timed_out n) (timed_out n) m n1).
  { intros A m n1 H K. apply (wp_rel RP); [exact H|]. intros n' l K2. left.
    assert (T := p_trans n [] n1 l n' K K2). exact T. }
  assert (K0 : RP n [] (set_timer false n)) by rp.
  replace (n_steps (set_timer false n)) with (n_steps n) by reflexivity.
  destruct (0 <? n_steps n)%Z.
  { apply Keep; [|exact K0]. open_prims. wall ltac:(unfold RP; rp). }
  replace (n_catching (set_timer false n)) with (n_catching n) by reflexivity. destruct (n_catching n).
  { apply Keep; [|exact K0]. open_prims. wall ltac:(unfold RP; rp). }
  replace (n_role (set_timer false n)) with (n_role n) by reflexivity. replace (n_prm (set_timer false n)) with (n_prm n) by reflexivity.
  assert (Cand : (n_role n = Candidate \/ pm_prevote (n_prm n) = false \/ n_peers n = []) -> wp (fun _ => timed_out n) (timed_out n) (timed_out n) become_candidate (set_timer false n)).
  { intros H. eapply wp_mono; [| | |apply candidate_post]; cbv beta; intros; right; left; tauto. }
  destruct (n_role n) eqn:Er; [|apply Cand; auto|apply Keep; [|exact K0]; wall ltac:(unfold RP; rp)].
  destruct (pm_prevote (n_prm n)) eqn:Ep; [|apply Cand; auto].
  replace (n_prevote (set_timer false n)) with (n_prevote n) by reflexivity.
  assert (G : forall acc, (n_prevote n = None /\ acc = 0%Z \/ n_prevote n = Some (acc, [])) -> wp (fun _ => timed_out n) (timed_out n) (timed_out n) request_prevote (set_timer false n)).
  { intros acc Ha. unfold request_prevote, peer_ids. do 2 wps. replace (n_peers (set_timer false n)) with (n_peers n) by reflexivity.
    destruct (map p_id (n_peers n)) as [|i0 ids] eqn:Em; [apply Cand; right; right; destruct (n_peers n); [reflexivity | discriminate]|].
    do 4 wps. replace (n_prevote (set_timer false n)) with (n_prevote n) by reflexivity. replace (n_id (set_timer false n)) with (n_id n) by reflexivity.
    assert (Ex : match n_prevote n with Some x => x | None => (0%Z, []) end = (acc, [])) by (destruct Ha as [(-> & ->)| ->]; reflexivity).
    rewrite Ex. cbn [set_add existsb fst]. wps. wps.
    apply (wp_rel RK).
    - walk_base RK ltac:(unfold RK; kp). open_prims. wall ltac:(unfold RK; kp).
    - intros n' l K. apply RK_out in K. destruct K as (K1 & K2 & K3 & K4). right. right.
      split; [exact K1|]. split; [exact K3|]. split; [exact K4|]. exists acc. split; [exact Ha | exact K2]. }
  destruct (n_prevote n) as [[acc [|x v]]|] eqn:Ev.
  - apply (G acc). right. reflexivity.
  - apply Keep; [|exact K0]. wall ltac:(unfold RP; rp).
  - apply (G 0%Z). left. auto.
Qed.

(** an answer to a pre-vote request arrives *)
Definition counted (n n' : node) (r : resp_msg) : Prop :=
  RP n [] n' \/
  exists acc voted, n_prevote n = Some (acc, voted) /\ ~ In (rs_src r) voted /\ n_id n' = n_id n /\
    let acc' := if rs_accepted r then (acc + 1)%Z else acc in
    ((Z.of_nat (length (n_peers n)) + 1 < 2 * acc')%Z /\ n_prevote n' = None) \/
    (n_prevote n' = Some (acc', rs_src r :: voted) /\ n_term n' = n_term n /\ n_role n' = n_role n) \/
    (n_prevote n' = Some (0%Z, []) /\ n_term n' = n_term n /\ n_role n' = n_role n).
Lemma prevote_counted : forall rs n r n' l, handle_prevote_resp rs n = (r, n', l) -> counted n n' rs.
Proof.
  intros rs n r n' l E. apply (wp_out _ (fun m => counted n m rs) (handle_prevote_resp rs) n r n' l); [|exact E]. clear r n' l E. unfold handle_prevote_resp. do 2 wps.
  assert (K0 : counted n n rs) by (left; split; [reflexivity|]; split; [right; auto | auto]).
  destruct (n_prevote n) as [[acc voted]|] eqn:Ev; [|wps; exact K0].
  unfold set_add. destruct (existsb (Z.eqb (rs_src rs)) voted) eqn:Ex; cbn [negb]; [wps; exact K0|].
  assert (Nx : ~ In (rs_src rs) voted) by (intros H; apply existsb_in in H; congruence).
  set (acc' := if rs_accepted rs then (acc + 1)%Z else acc). do 2 wps.
  set (n1 := set_prevote (Some (acc', rs_src rs :: voted)) n).
  destruct (majority n acc') eqn:Em.
  - apply majority_iff in Em. eapply wp_mono; [| | |apply candidate_post]; cbv beta; intros; right; exists acc, voted;
      (split; [exact Ev|]; split; [exact Nx|]; split; [apply H|]; left; split; [exact Em | apply H]).
  - destruct (Nat.leb _ _).
    + do 2 wps. apply (wp_rel RK); [open_prims; wall ltac:(unfold RK; kp)|]. intros n' l K. apply RK_out in K. destruct K as (K1 & K2 & K3 & K4).
      right. exists acc, voted. split; [exact Ev|]. split; [exact Nx|]. split; [exact K1|]. right. right. split; [exact K2|]. split; [exact K3 | exact K4].
    + wps. right. exists acc, voted. split; [exact Ev|]. split; [exact Nx|]. split; [reflexivity|]. right. left. auto.
Qed.

Definition same_but (n n1 : node) : Prop := n_id n1 = n_id n /\ n_prevote n1 = n_prevote n /\ n_term n1 = n_term n /\ n_role n1 = n_role n /\ length (n_peers n1) = length (n_peers n).
Lemma counted_same : forall n n1 n' r, same_but n n1 -> counted n1 n' r -> counted n n' r.
Proof.
  intros n n1 n' r (S1 & S2 & S3 & S4 & S5) [(H1 & H2 & H3)|(acc & voted & H1 & H2 & H3 & H4)].
  - left. split; [congruence|]. split; [rewrite <- S2, <- S3; exact H2 | rewrite <- S4; exact H3].
  - right. exists acc, voted. rewrite S5 in H4. rewrite S1 in H3. rewrite S2 in H1. rewrite S3, S4 in H4. auto.
Qed.
Lemma same_upd : forall ref f n, same_but n (upd_peer ref f n).
Proof.
  intros ref f n. unfold same_but. split; [destruct ref; reflexivity|]. split; [destruct ref; reflexivity|]. split; [destruct ref; reflexivity|].
  split; [destruct ref; reflexivity|]. destruct ref; [|reflexivity]. cbn. unfold upd_peers. apply map_length.
Qed.
Lemma same_trans : forall a b c, same_but a b -> same_but b c -> same_but a c.
Proof. unfold same_but. intros a b c (A1 & A2 & A3 & A4 & A5) (B1 & B2 & B3 & B4 & B5). repeat split; congruence. Qed.

Definition no_join_ev (e : event) : Prop := forall now q, e = ERequest now q -> rq_type q <> join_cluster_request.
Lemma event_prevote : forall e n r n' l, run_event e n = (r, n', l) -> no_join_ev e ->
  RP n [] n' \/ (e = EElection /\ timed_out n n') \/
  (exists now uid q rs, e = ERpc now uid true q (Some rs) /\ rs_type rs = prevote_response /\ counted n n' rs).
Proof.
  assert (W_upt : forall t n, ht RP yes (update_term t) n).
  { intros t n r n' l E. split; [|intros; exact I]. rewrite update_term_eq in E. destruct (n_term n <? t); injection E as _ <- _.
    - unfold RP, with_term. split; [reflexivity|]. split; [left; reflexivity | discriminate].
    - split; [reflexivity|]. split; [right; auto | auto]. }
  walk_base RP ltac:(unfold RP; rp).
  assert (W_bef : forall n, ht RP yes become_follower n) by (intros; unfold become_follower; open_prims; wall ltac:(unfold RP; rp)).
  walk_reconf RP ltac:(unfold RP; rp). walk_lead RP ltac:(unfold RP; rp). walk_hb RP ltac:(unfold RP; rp).
  walk_reqs RP ltac:(unfold RP; rp). walk_leave RP ltac:(unfold RP; rp). walk_resps RP ltac:(unfold RP; rp). walk_rest RP ltac:(unfold RP; rp).
  assert (P : forall now q n, rq_type q <> join_cluster_request -> ht RP yes (process_req now q) n).
  { intros now q n H. assert (J : beq (rq_type q) join_cluster_request = false).
    { destruct (beq (rq_type q) join_cluster_request) eqn:E; [|reflexivity]. apply Byte.byte_dec_bl in E. contradiction. }
    unfold process_req, handle_extended_msg. rewrite J. open_prims. wall ltac:(unfold RP; rp). }
  assert (S : forall now q n, rq_type q <> join_cluster_request -> ht RP yes (send_msg_to_leader now q) n).
  { intros now q n H. unfold send_msg_to_leader. open_prims.
    repeat match goal with |- ht _ _ (process_req _ _) _ => apply P; assumption | _ => first [hyp_leaf | wstep ltac:(unfold RP; rp)] end. }
  assert (H : forall r n, rs_type r <> prevote_response -> ht RP yes (handle_ext_resp r) n).
  { intros r n H. assert (J : beq (rs_type r) prevote_response = false).
    { destruct (beq (rs_type r) prevote_response) eqn:E; [|reflexivity]. apply Byte.byte_dec_bl in E. contradiction. }
    unfold handle_ext_resp. rewrite J. open_prims. wall ltac:(unfold RP; rp). }
  assert (Fin : forall e n r n' l, ht RP yes (run_event e) n -> run_event e n = (r, n', l) -> RP n [] n').
  { intros e n r n' l K E. apply (proj1 (K _ _ _ E)). }
  intros e n r n' l E NJ. destruct e.
  - right. left. split; [reflexivity|]. cbn [run_event] in E. unfold bind, ret in E.
    destruct (handle_election_timeout n) as [[x m] lm] eqn:Em. assert (n' = m) by (destruct x; congruence). subst m. eapply election_timed_out; exact Em.
  - left. eapply Fin; [|exact E]. cbn [run_event]. wall ltac:(unfold RP; rp).
  - left. eapply Fin; [|exact E]. cbn [run_event]. eapply ht_seq; [exact _ | apply P, (NJ _ _ eq_refl) | intros; apply ht_ret; [exact _ | exact I]].
  - assert (D : (exists rs, ext = true /\ r0 = Some rs /\ rs_type rs = prevote_response) \/ ~ (exists rs, ext = true /\ r0 = Some rs /\ rs_type rs = prevote_response)).
    { destruct ext; [|right; intros (? & ? & _); discriminate]. destruct r0 as [rs|]; [|right; intros (? & _ & ? & _); discriminate].
      destruct (Byte.byte_eq_dec (rs_type rs) prevote_response) as [D|D]; [left; eauto | right; intros (x & _ & Hx & Hy); congruence]. }
    destruct D as [(rs & -> & -> & Ht)|D].
    + right. right. exists now, uid, q, rs. split; [reflexivity|]. split; [exact Ht|].
      cbn [run_event] in E. unfold rpc_done in E. rewrite bind_assoc, bind_get in E.
      destruct (live_ref uid n) as [ref|]; [|injection E as _ <- _; left; split; [reflexivity|]; split; [right; auto | auto]].
      assert (Z : exists n1, same_but n n1 /\ (handle_ext_resp rs ;;; ret Nothing) n1 = (r, n', l)).
      { set (b := beq (rq_type q) append_entries_request || beq (rq_type q) install_snapshot_request) in E.
        rewrite bind_assoc in E. destruct b; cbn [when] in E; [rewrite bind_modify in E | rewrite bind_ret in E]; rewrite bind_assoc, bind_modify in E; (eexists; split; [|exact E]);
          [eapply same_trans; apply same_upd | apply same_upd]. }
      destruct Z as (n1 & Sm & E1). eapply counted_same; [exact Sm|]. unfold bind, ret in E1.
      destruct (handle_ext_resp rs n1) as [[x m] lm] eqn:Em. assert (n' = m) by (destruct x; congruence). subst m.
      unfold handle_ext_resp in Em. rewrite bind_get in Em. rewrite Ht in Em.
      eapply prevote_counted; exact Em.
    + left. eapply Fin; [|exact E]. cbn [run_event]. eapply ht_seq; [exact _ | | intros; apply ht_ret; [exact _ | exact I]].
      unfold rpc_done.
      repeat match goal with |- ht _ _ (handle_ext_resp _) _ => apply H; intros K; apply D; eauto | _ => first [hyp_leaf | wstep ltac:(unfold RP; rp)] end.
  - left. eapply Fin; [|exact E]. cbn [run_event]. unfold retry. wall ltac:(unfold RP; rp).
  - left. eapply Fin; [|exact E]. cbn [run_event]. wall ltac:(unfold RP; rp).
  - left. eapply Fin; [|exact E]. cbn [run_event]. wall ltac:(unfold RP; rp).
  - left. eapply Fin; [|exact E]. cbn [run_event]. wall ltac:(unfold RP; rp).
  - left. eapply Fin; [|exact E]. cbn [run_event]. unfold append_entries. eapply ht_seq; [exact _ | | intros; apply ht_ret; [exact _ | exact I]].
    destruct logs; [apply ht_ret; [exact _ | exact I] | apply S; discriminate].
  - left. eapply Fin; [|exact E]. cbn [run_event]. unfold add_srv. eapply ht_seq; [exact _ | apply S; discriminate | intros; apply ht_ret; [exact _ | exact I]].
  - left. eapply Fin; [|exact E]. cbn [run_event]. unfold remove_srv. eapply ht_seq; [exact _ | apply S; discriminate | intros; apply ht_ret; [exact _ | exact I]].
Qed.

(** in the life [h] of a server, an answer of [x] accepting a pre-vote arrived while the server
    was in term [t] *)
Definition said_yes (id : Z) (pm : params) (d : disk) (h : list obs) (t : N) (x : Z) : Prop :=
  exists h1 h2 m o now uid q r, h = h1 ++ o :: h2 /\ life id pm (Down d) h1 (Up m) /\ n_term m = t /\
    o_event o = ERpc now uid true q (Some r) /\ rs_type r = prevote_response /\ rs_src r = x /\ rs_accepted r = true.
(** more than half of the members of the cluster as [n] sees it *)
Definition most (n : node) (xs : list Z) : Prop := NoDup xs /\ (length (n_peers n) + 1 < 2 * length xs)%nat.

Definition tally (id : Z) (pm : params) (d : disk) (h : list obs) (n : node) : Prop :=
  forall acc voted, n_prevote n = Some (acc, voted) ->
    exists xs, NoDup xs /\ incl xs voted /\ Z.of_nat (length xs) = acc /\ forall x, In x xs -> x = id \/ said_yes id pm d h (n_term n) x.
Lemma said_more : forall id pm d h o t x, said_yes id pm d h t x -> said_yes id pm d (h ++ o) t x.
Proof.
  intros id pm d h o t x (h1 & h2 & m & o1 & now & uid & q & r & -> & H). exists h1, (h2 ++ o), m, o1, now, uid, q, r.
  split; [rewrite <- app_assoc; reflexivity | exact H].
Qed.
Lemma tally_same : forall id pm d h o n n', RP n [] n' -> tally id pm d h n -> tally id pm d (h ++ o) n'.
Proof.
  intros id pm d h o n n' (H1 & [H2|(H2 & H3)] & H4) T acc voted E; [congruence|]. rewrite H2 in E.
  destruct (T _ _ E) as (xs & X1 & X2 & X3 & X4). exists xs. repeat (split; [assumption|]). intros x Hx. rewrite H3.
  destruct (X4 x Hx) as [K|K]; [left; exact K | right; apply said_more, K].
Qed.

Lemma counted_majority : forall id pm d h n l a now uid q rs acc voted, tally id pm d h n -> n_id n = id -> life id pm (Down d) h (Up n) ->
  rs_type rs = prevote_response -> n_prevote n = Some (acc, voted) -> ~ In (rs_src rs) voted ->
  exists xs, NoDup xs /\ incl xs (rs_src rs :: voted) /\ Z.of_nat (length xs) = (if rs_accepted rs then (acc + 1)%Z else acc) /\
    forall x, In x xs -> x = id \/ said_yes id pm d (h ++ [mkObs (ERpc now uid true q (Some rs)) l a]) (n_term n) x.
Proof.
  intros id pm d h n l a now uid q rs acc voted T Hi L Ht Ev Nx. destruct (T _ _ Ev) as (xs & X1 & X2 & X3 & X4).
  destruct (rs_accepted rs) eqn:Ea.
  - exists (rs_src rs :: xs). split; [constructor; [intros K; apply Nx, X2, K | exact X1]|].
    split; [intros x [<-|Hx]; [left; reflexivity | right; apply X2, Hx]|]. split; [cbn [length]; lia|].
    intros x [<-|Hx].
    + right. exists h, [], n, (mkObs (ERpc now uid true q (Some rs)) l a), now, uid, q, rs. split; [reflexivity|]. split; [exact L|].
      split; [reflexivity|]. split; [reflexivity|]. auto.
    + destruct (X4 x Hx) as [K|K]; [left; exact K | right; apply said_more, K].
  - exists xs. split; [exact X1|]. split; [intros x Hx; right; apply X2, Hx|]. split; [exact X3|].
    intros x Hx. destruct (X4 x Hx) as [K|K]; [left; exact K | right; apply said_more, K].
Qed.

Lemma tally_event : forall id pm d h n e r n' l a, tally id pm d h n -> n_id n = id -> life id pm (Down d) h (Up n) ->
  run_event e n = (r, n', l) -> no_join_ev e -> tally id pm d (h ++ [mkObs e l a]) n' /\ n_id n' = id.
Proof.
  intros id pm d h n e r n' l a T Hi L E NJ. destruct (event_prevote _ _ _ _ _ E NJ) as [K|[(-> & K)|(now & uid & q & rs & -> & Ht & K)]].
  - split; [eapply tally_same; eassumption|]. destruct K as (K & _). congruence.
  - destruct K as [K|[(K1 & K2 & _)|(K1 & K2 & K3 & acc & K4 & K5)]].
    + split; [eapply tally_same; eassumption|]. destruct K as (K & _). congruence.
    + split; [intros acc voted Ev; congruence | congruence].
    + split; [|congruence]. intros acc' voted' Ev. rewrite K5 in Ev. injection Ev as <- <-.
      assert (A0 : acc = 0%Z). { destruct K4 as [(_ & K4)|K4]; [exact K4|]. destruct (T _ _ K4) as (xs & X1 & X2 & X3 & _).
        destruct xs as [|x xs]; [cbn in X3; lia | destruct (X2 x (or_introl eq_refl))]. }
      subst acc. exists [n_id n]. split; [constructor; [intros []|constructor]|]. split; [apply incl_refl|]. split; [reflexivity|].
      intros x [<-|[]]. left. exact Hi.
  - destruct K as [K|(acc & voted & K1 & K2 & K3 & K4)].
    + split; [eapply tally_same; eassumption|]. destruct K as (K & _). congruence.
    + split; [|congruence]. destruct (counted_majority id pm d h n l a now uid q rs acc voted T Hi L Ht K1 K2) as (xs & X1 & X2 & X3 & X4).
      cbv zeta in K4. destruct K4 as [(_ & K4)|[(K4 & K5 & _)|(K4 & K5 & _)]]; intros acc' voted' Ev.
      * congruence.
      * rewrite K4 in Ev. injection Ev as <- <-. exists xs. rewrite K5. auto.
      * rewrite K4 in Ev. injection Ev as <- <-. exists []. split; [constructor|]. split; [intros x []|]. split; [reflexivity | intros x []].
Qed.

Lemma life_tally : forall id pm d s h2 s', life id pm s h2 s' -> forall h1, life id pm (Down d) h1 s -> without join_cluster_request h2 ->
  (forall n, s = Up n -> tally id pm d h1 n /\ n_id n = id) -> forall n, s' = Up n -> tally id pm d (h1 ++ h2) n /\ n_id n = id.
Proof.
  assert (NJ : forall e l a h, without join_cluster_request (mkObs e l a :: h) -> no_join_ev e).
  { intros e l a h W now q -> K. apply (W _ (or_introl eq_refl)). exists now, q. auto. }
  intros id pm d s h2 s' L. induction L; intros h1 L1 W T n2 En.
  - rewrite app_nil_r. apply T, En.
  - destruct (T n eq_refl) as (T1 & T2).
    assert (L2 : life id pm (Down d) (h1 ++ [mkObs e l (answer_of r)]) (Up n')).
    { eapply life_trans; [exact L1|]. eapply L_event; [eassumption | assumption | constructor]. }
    replace (h1 ++ mkObs e l (answer_of r) :: h) with ((h1 ++ [mkObs e l (answer_of r)]) ++ h) by (rewrite <- app_assoc; reflexivity).
    apply IHL; [exact L2 | intros o Ho; apply W; right; exact Ho | | exact En].
    intros m Em. injection Em as <-. eapply tally_event; try eassumption. eapply NJ, W.
  - replace (h1 ++ mkObs e l None :: h) with ((h1 ++ [mkObs e l None]) ++ h) by (rewrite <- app_assoc; reflexivity).
    apply IHL; [|intros o Ho; apply W; right; exact Ho | discriminate | exact En].
    eapply life_trans; [exact L1|]. eapply L_stop; [eassumption | assumption | constructor].
  - replace (h1 ++ mkObs e p None :: h) with ((h1 ++ [mkObs e p None]) ++ h) by (rewrite <- app_assoc; reflexivity).
    apply IHL; [|intros o Ho; apply W; right; exact Ho | discriminate | exact En].
    eapply life_trans; [exact L1|]. eapply L_crash; [eassumption | constructor].
  - apply IHL; [|exact W| |exact En].
    + rewrite <- (app_nil_r h1). eapply life_trans; [exact L1|]. apply L_start. constructor.
    + intros m Em. injection Em as <-. unfold start_node. destruct (dk_state d0) as [[t v]|]; (split; [intros acc voted Ev; discriminate | reflexivity]).
Qed.

(** Proved: with pre-votes enabled a follower that has other members starts a campaign only when
    more than half of the members, counting itself, have accepted its pre-vote, in answers that
    arrived while it was in the term it had then.  What is missing: that those answers are
    answers to questions asked in that term, which does not hold, and servers that are asked to
    join a cluster. *)
Theorem C79_prevote_partial : forall id pm d h n e r n' l,
  pm_prevote (n_prm n) = true -> life id pm (Down d) h (Up n) -> without join_cluster_request h -> no_join_ev e ->
  run_event e n = (r, n', l) -> n_peers n <> [] -> n_role n = Follower -> n_role n' = Candidate ->
  exists xs, most n xs /\ forall x, In x xs -> x = id \/ said_yes id pm d (h ++ [mkObs e l (answer_of r)]) (n_term n) x.
Proof.
  intros id pm d h n e r n' l HP L W NJ E P R R'.
  destruct (life_tally id pm d (Down d) h (Up n) L [] (L_nil _ _ _) W ltac:(discriminate) n eq_refl) as (T & Hi). cbn [app] in T.
  destruct (event_prevote _ _ _ _ _ E NJ) as [K|[(-> & K)|(now & uid & q & rs & -> & Ht & K)]].
  - destruct K as (_ & _ & K). specialize (K R'). congruence.
  - destruct K as [(_ & _ & K)|[(_ & _ & [K|[K|K]])|(_ & _ & K & _)]]; [specialize (K R') | | | |]; congruence.
  - destruct K as [(_ & _ & K)|(acc & voted & K1 & K2 & K3 & K4)]; [specialize (K R'); congruence|].
    destruct (counted_majority id pm d h n l (answer_of r) now uid q rs acc voted T Hi L Ht K1 K2) as (xs & X1 & X2 & X3 & X4).
    cbv zeta in K4. rewrite <- X3 in K4. destruct K4 as [(K4 & _)|[(_ & _ & K4)|(_ & _ & K4)]]; [|congruence|congruence].
    exists xs. split; [split; [exact X1 | lia] | exact X4].
Qed.

(** ** Where it does not hold, and examples *)

(** Server 1, in term 0, asks servers 2 and 3 for their pre-votes; then a leader of term 5 is in
    contact with it; when it times out again it asks once more, in term 5.  The answer of server
    2 to the first question now makes it a candidate of term 6. *)
Definition ex_pv_prm : params := mkParams 300 150 75 25 1000 10 0 0 100 10000 true false.
Definition ex_pv_ask (t : N) (j : Z) : req := mkReq t prevote_request 1 j 0 0 0 [].
Definition ex_pv_yes (j : Z) : resp_msg := mkResp 0 prevote_response j 1 1 true.
Definition ex_pv_cmds : list cmd := [CStart; CEvent EElection; CEvent (ERequest 5 (ex_ae 5 2 0 0 0 [])); CEvent EElection].
Definition ex_pv_run : list obs * sys := run_cmds 1 ex_pv_prm (Down ex_disk) ex_pv_cmds.
Definition ex_pv_n : node := up_node (snd ex_pv_run).
Theorem C79_stale_refuted : exists id pm d h n now uid q r x n' l, disk_okay d /\ pm_prevote pm = true /\
  life id pm (Down d) h (Up n) /\ without join_cluster_request h /\
  run_event (ERpc now uid true q (Some r)) n = (x, n', l) /\ In (ASend uid true q) (acts_of h) /\
  n_role n = Follower /\ n_role n' = Candidate /\ n_term n' = n_term n + 1 /\
  (* it is the only answer there is, and it is about an earlier term *)
  (forall o now uid y q r, In o h -> o_event o <> ERpc now uid y q r) /\ rq_term q < n_term n.
Proof.
  set (z := run_event (ERpc 9 0 true (ex_pv_ask 0 2) (Some (ex_pv_yes 2))) ex_pv_n).
  exists 1%Z, ex_pv_prm, ex_disk, (fst ex_pv_run), ex_pv_n, 9, 0, (ex_pv_ask 0 2), (ex_pv_yes 2), (fst (fst z)), (snd (fst z)), (snd z).
  split; [vm_compute; discriminate|]. split; [reflexivity|].
  split. { assert (S : snd ex_pv_run = Up ex_pv_n) by (vm_compute; reflexivity). rewrite <- S. apply run_cmds_life. }
  split; [apply withoutb_ok; vm_compute; reflexivity|].
  split; [unfold z; apply pair3; reflexivity|].
  split; [vm_compute; auto 10|]. split; [vm_compute; reflexivity|]. split; [vm_compute; reflexivity|]. split; [vm_compute; reflexivity|].
  split; [|vm_compute; reflexivity].
  assert (F : forallb (fun o => match o_event o with ERpc _ _ _ _ _ => false | _ => true end) (fst ex_pv_run) = true) by (vm_compute; reflexivity).
  rewrite forallb_forall in F. intros o now uid y q r Ho Eo. specialize (F o Ho). rewrite Eo in F. discriminate.
Qed.

(** a server that follows the rules: it asks 2 and 3, and 3 says yes *)
Definition ex_pv2_run : list obs * sys := run_cmds 1 ex_pv_prm (Down ex_disk) [CStart; CEvent EElection].
Definition ex_pv2_n : node := up_node (snd ex_pv2_run).
Example C79_example : let z := run_event (ERpc 9 1 true (ex_pv_ask 0 3) (Some (ex_pv_yes 3))) ex_pv2_n in
  life 1 ex_pv_prm (Down ex_disk) (fst ex_pv2_run) (Up ex_pv2_n) /\ pm_prevote (n_prm ex_pv2_n) = true /\ n_peers ex_pv2_n <> [] /\
  n_role ex_pv2_n = Follower /\ n_role (snd (fst z)) = Candidate.
Proof.
  cbv zeta. split. { assert (S : snd ex_pv2_run = Up ex_pv2_n) by (vm_compute; reflexivity). rewrite <- S. apply run_cmds_life. }
  split; [vm_compute; reflexivity|]. split; [vm_compute; discriminate|]. split; vm_compute; reflexivity.
Qed.

(** server 1 of a new cluster of three starts its first campaign; the vote of server 2 makes it
    leader and it writes the configuration to its log *)
Definition ex_cand_n : node := up_node (snd (run_cmds 1 ex_prm (Down ex_disk) [CStart; CEvent EElection])).
Definition ex_start_n : node := up_node (snd (run_cmds 1 ex_prm (Down ex_disk) [CStart])).
Lemma nodup_ids : forall l, (fix f (l : list Z) := match l with [] => true | x :: l => negb (existsb (Z.eqb x) l) && f l end) l = true -> NoDup l.
Proof.
  induction l as [|x l IH]; intros H; [constructor|]. apply andb_true_iff in H. destruct H as (H1 & H2). constructor; [|apply IH, H2].
  intros K. apply existsb_in in K. rewrite K in H1. discriminate.
Qed.
Example C78_example : live_ref 0 ex_cand_n = Some (PPeer 2) /\ wins ex_cand_n (ex_vresp 1 2) /\ NoDup (map p_id (n_peers ex_cand_n)) /\
  1 <= al_start (n_log ex_cand_n) /\ has_entries ex_cand_n (a_next (n_log ex_cand_n)) /\ length (first_config ex_cand_n) = 1%nat.
Proof.
  split; [vm_compute; reflexivity|]. split.
  { unfold wins. split; [reflexivity|]. split; [reflexivity|]. split; [vm_compute; reflexivity|]. split; [vm_compute; auto|]. split; [vm_compute; reflexivity|].
    split; [|vm_compute; reflexivity]. intros K. apply existsb_in in K. vm_compute in K. discriminate. }
  split; [apply nodup_ids; vm_compute; reflexivity|]. split; [vm_compute; discriminate|]. split; [right; left; split; vm_compute; reflexivity | vm_compute; reflexivity].
Qed.
Example C80_example : campaigns ex_start_n /\ n_peers ex_start_n <> [] /\ NoDup (map p_id (n_peers ex_start_n)) /\
  1 <= al_start (n_log ex_start_n) /\ has_entries ex_start_n (a_next (n_log ex_start_n)).
Proof.
  split; [split; [vm_compute; discriminate|]; split; [vm_compute; reflexivity | right; split; vm_compute; reflexivity]|].
  split; [vm_compute; discriminate|]. split; [apply nodup_ids; vm_compute; reflexivity|]. split; [vm_compute; discriminate | right; left; split; vm_compute; reflexivity].
Qed.
Definition ex_one_disk : disk := mkDisk None (mkCfg 0 0 [ex_srv 1]) a_empty 0 None [].
Definition ex_one_n : node := up_node (snd (run_cmds 1 ex_pv_prm (Down ex_one_disk) [CStart])).
Definition ex_one_l : node := up_node (snd (run_cmds 1 ex_pv_prm (Down ex_one_disk) [CStart; CEvent EElection])).
Example C81_example : n_peers ex_one_n = [] /\ (n_steps ex_one_n <= 0)%Z /\ n_catching ex_one_n = false /\ n_role ex_one_n = Follower /\
  n_prevote ex_one_n = None /\ length (own_config ex_one_n) = 1%nat /\ n_peers ex_one_l = [] /\ n_role ex_one_l = Leader /\ n_quick ex_one_l = 1.
Proof. split; [vm_compute; reflexivity|]. split; [vm_compute; discriminate|]. repeat (split; [vm_compute; reflexivity|]). vm_compute; reflexivity. Qed.

Print Assumptions C78_new_leader.
Print Assumptions C79_prevote_partial.
Print Assumptions C79_stale_refuted.
Print Assumptions C80_campaign.
Print Assumptions C81_elects_itself.
Print Assumptions C81_commits_at_once.
