(** * P_Bounds: no number of the protocol leaves 64 bits (C100)

    Raft.v and Cluster.v count terms and indexes without bound.  In every run of a cluster
    the terms are at most the number of events that have happened, the indexes at most that
    number plus the number of entries handed in: so as long as that sum is below 2^64 - 2,
    which no run that fits into a log store can exceed, no sum that the code forms wraps around. *)

From Verif Require Import Base Buffer BufferSpec Codec CodecSpec Msg FsLogStore FsLogSpec Raft NodeSpec NodeFacts Alog NodeExamples Cluster ClusterElect ClusterExamples ClusterWalkS Bounds BoundsWalk.
Local Open Scope N_scope.

(** ** Larger bounds *)
Lemma disk_mono : forall T X T' X' d, T <= T' -> X <= X' -> disk_within T X d -> disk_within T' X' d.
Proof.
  intros T X T' X' d HT HX []. split; try lia.
  - eapply Forall_impl; [|exact dw_ents]. unfold entry_within. intros; lia.
  - intros s E. destruct (dw_snp s E). lia.
Qed.
Lemma peer_mono : forall T X T' X' p, T <= T' -> X <= X' -> peer_in T X p -> peer_in T' X' p.
Proof.
  intros T X T' X' p HT HX [[A B] C]. split; [split; lia|]. intros s E. destruct (C s E). split; lia.
Qed.
Lemma small_mono : forall T X T' X' me U L n, T <= T' -> X <= X' -> small T X me U L n -> small T' X' me U L n.
Proof.
  intros T X T' X' me U L n HT HX []. split; try assumption; try lia.
  - eapply disk_mono; eassumption.
  - eapply Forall_impl; [|exact s_peers]. intros p. apply peer_mono; assumption.
  - intros p Hp. eapply peer_mono; [exact HT | exact HX | auto].
  - intros s E. destruct (s_snp s E). split; lia.
Qed.
Lemma req_mono : forall T X T' X' q, T <= T' -> X <= X' -> req_in T X q -> req_in T' X' q.
Proof.
  intros T X T' X' q HT HX (A & [] & C). split; [exact A|]. split.
  - split; try lia. eapply Forall_impl; [|exact qw_ents]. unfold entry_within. intros; lia.
  - intros E e v H1 H2. destruct (C E e v H1 H2). split; lia.
Qed.
Lemma act_mono : forall T X T' X' me a, T <= T' -> X <= X' -> act_in T X me a -> act_in T' X' me a.
Proof.
  intros T X T' X' me a HT HX. destruct a; cbn [act_in]; try exact (fun H => H).
  - intros [A B]. split; lia.
  - intros [A B]. split; [eapply req_mono; eassumption | exact B].
Qed.
Lemma answer_mono : forall T X T' X' q r, T <= T' -> X <= X' -> answer_in T X q r -> answer_in T' X' q r.
Proof.
  intros T X T' X' q r HT HX [[[A B] C] D]. split; [split; [split; [lia|] | exact C] | exact D]. intros E. specialize (B E). lia.
Qed.

(** ** The measure grows with every event *)
Lemma total_app : forall A (f : A -> N) a b, total f (a ++ b) = total f a + total f b.
Proof. intros A f a b. induction a as [|x a IH]; cbn [total app]; lia. Qed.
Lemma total_len : forall A (l : list A), lenN l = total (fun _ => 1) l.
Proof. intros A l. induction l as [|x l IH]; [reflexivity|]. cbn [total]. rewrite <- IH. unfold lenN. cbn [length]. lia. Qed.
Section Grow.
  Variables (f : event -> N) (w : world) (i : Z) (s : sys) (o : obs).
  Lemma grow_le : forall js, total f (flat_map (fun j => map o_event (w_hist w j)) js) <= total f (flat_map (fun j => map o_event (w_hist (next_world w i s [o]) j)) js).
  Proof.
    induction js as [|j js IH]; [cbn; lia|]. cbn [flat_map]. rewrite !total_app. cbn [next_world w_hist]. unfold put. destruct (j =? i)%Z eqn:E.
    - assert (j = i) by lia. subst j. rewrite map_app, total_app. unfold next_world, put in IH. cbn [w_hist] in IH. lia.
    - unfold next_world, put in IH. cbn [w_hist] in IH. lia.
  Qed.
  Lemma grow_in : forall js, In i js ->
    total f (flat_map (fun j => map o_event (w_hist w j)) js) + f (o_event o) <= total f (flat_map (fun j => map o_event (w_hist (next_world w i s [o]) j)) js).
  Proof.
    induction js as [|j js IH]; [intros []|]. intros Hin. cbn [flat_map]. rewrite !total_app. pose proof (grow_le js) as G. cbn [next_world w_hist] in *. unfold put in *.
    destruct (j =? i)%Z eqn:E.
    - assert (j = i) by lia. subst j. rewrite map_app, total_app. cbn [map total]. lia.
    - destruct Hin as [->|Hin]; [lia|]. specialize (IH Hin). lia.
  Qed.
End Grow.

Section Run.
  Variable servers : list srv_config.
  Variable prm : Z -> params.
  Notation ev := (events servers).
  Notation wk := (work servers).

  Lemma grows : forall w i s o, In i (ids servers) ->
    ev w + 1 <= ev (next_world w i s [o]) /\ wk w + 1 + handed (o_event o) <= wk (next_world w i s [o]).
  Proof.
    intros w i s o Hi. unfold work, events, happened. rewrite !total_len.
    pose proof (grow_in (fun _ => 1) w i s o (ids servers) Hi). pose proof (grow_in handed w i s o (ids servers) Hi). cbv beta in *. split; lia.
  Qed.
  Lemma start_same : forall w i s, ev (next_world w i s []) = ev w /\ wk (next_world w i s []) = wk w.
  Proof.
    intros w i s. assert (E : happened servers (next_world w i s []) = happened servers w).
    { unfold happened. apply flat_map_ext. intros j. cbn [next_world w_hist]. unfold put. destruct (j =? i)%Z eqn:E; [|reflexivity]. rewrite app_nil_r. replace j with i by lia. reflexivity. }
    unfold work, events. rewrite E. split; reflexivity.
  Qed.

  Record binv (w : world) : Prop := mkB {
    b_up : forall i n, In i (ids servers) -> w_sys w i = Up n -> small (ev w) (wk w) i (ev w) (wk w) n;
    b_down : forall i d, In i (ids servers) -> w_sys w i = Down d -> disk_within (ev w) (wk w) d;
    b_acts : forall i a, In a (w_acts w i) -> act_in (ev w) (wk w) i a;
    b_answers : forall j q r, answered w j q r -> answer_in (ev w) (wk w) q r /\ (plain_type (rq_type q) -> from_to j q r) }.

  Lemma in_acts_next : forall w i s o j a, In a (w_acts (next_world w i s [o]) j) -> In a (w_acts w j) \/ (j = i /\ In a (o_acts o)).
  Proof.
    intros w i s o j a H. unfold w_acts in *. cbn [next_world w_hist] in H. unfold put in H. destruct (j =? i)%Z eqn:E; [|left; exact H].
    assert (j = i) by lia. subst j. unfold acts_of in H at 1. rewrite map_app, concat_app in H. apply in_app_or in H. destruct H as [H|H]; [left; exact H|]. right. cbn in H. rewrite app_nil_r in H. auto.
  Qed.
  Lemma answered_next : forall w i s o j q r, answered (next_world w i s [o]) j q r -> answered w j q r \/ (j = i /\ exists now l, o = mkObs (ERequest now q) l (Some (Response r))).
  Proof.
    intros w i s o j q r (now & l & H). cbn [next_world w_hist] in H. unfold put in H. destruct (j =? i)%Z eqn:E; [|left; exists now, l; exact H].
    assert (j = i) by lia. subst j. apply in_app_or in H. destruct H as [H|[H|[]]]; [left; exists now, l; exact H | right; split; [reflexivity | exists now, l; exact H]].
  Qed.

  Lemma event_good : forall w i e T X, binv w -> possible servers w i e -> ev w <= T -> wk w <= X -> event_in T X (ev w) e.
  Proof.
    intros w i e T X B P HT HX. destruct e; cbn [possible] in P; cbn [event_in]; try exact I; try contradiction.
    - destruct P as [(k & uid & ext & _ & Hs & _)|[Hc _]]; [right | left; exact Hc]. destruct (b_acts w B k _ Hs) as [H _]. eapply req_mono; eassumption.
    - destruct r as [x|].
      + destruct P as (Hs & _ & Ha). split; [apply (b_acts w B i _ Hs)|]. intros y Hy. inversion Hy; subst y. destruct (b_answers w B _ _ _ Ha) as [K _]. split; [eapply answer_mono; eassumption|].
        destruct K as [[[K _] _] _]. exact K.
      + split; [apply (b_acts w B i _ P) | discriminate].
    - exact (b_acts w B i _ P).
    - destruct (b_acts w B i _ P). split; lia.
  Qed.

  Lemma binv_step : forall w w', binv w -> step servers prm w w' -> binv w'.
  Proof.
    intros w w' B H.
    assert (Old : forall i s o, In i (ids servers) ->
      (forall n, s = Up n -> small (ev (next_world w i s [o])) (wk (next_world w i s [o])) i (ev (next_world w i s [o])) (wk (next_world w i s [o])) n) ->
      (forall d, s = Down d -> disk_within (ev (next_world w i s [o])) (wk (next_world w i s [o])) d) ->
      Forall (act_in (ev (next_world w i s [o])) (wk (next_world w i s [o])) i) (o_acts o) ->
      (forall now q l r, o = mkObs (ERequest now q) l (Some (Response r)) -> outcome_in (ev (next_world w i s [o])) (wk (next_world w i s [o])) i (ERequest now q) (Response r)) ->
      binv (next_world w i s [o])).
    { intros i s o Hi H1 H2 H3 H4. destruct (grows w i s o Hi) as [G1 G2]. split.
      - intros j n Hj E. cbn [next_world w_sys] in E. unfold put in E. destruct (j =? i)%Z eqn:Ej; [replace j with i by lia; apply H1, E|].
        eapply small_up; [eapply small_mono; [| |exact (b_up w B j n Hj E)]; lia | lia..].
      - intros j d Hj E. cbn [next_world w_sys] in E. unfold put in E. destruct (j =? i)%Z; [apply H2, E|].
        eapply disk_mono; [| |exact (b_down w B j d Hj E)]; lia.
      - intros j a Ha. apply in_acts_next in Ha. destruct Ha as [Ha|[-> Ha]]; [|rewrite Forall_forall in H3; apply H3, Ha]. eapply act_mono; [| |exact (b_acts w B j a Ha)]; lia.
      - intros j q r Ha. apply answered_next in Ha. destruct Ha as [Ha|(-> & now & l & E)]; [|eapply H4, E]. destruct (b_answers w B j q r Ha) as [Ha1 Ha2]. split; [eapply answer_mono; [| |exact Ha1]; lia | exact Ha2]. }
    assert (Run : forall i n e r n' l, In i (ids servers) -> w_sys w i = Up n -> possible servers w i e -> run_event e n = (r, n', l) ->
      forall T X, ev w + 1 <= T -> wk w + 1 + handed e <= X ->
      small T X i T X n' /\ (forall p q, l = p ++ q -> disk_within T X (fold_left disk_apply p (n_disk n))) /\ Forall (act_in T X i) l /\ (forall y, r = ROk y -> outcome_in T X i e y)).
    { intros i n e r n' l Hi En Pe E T X HT HX.
      assert (S : small T X i (ev w) (wk w) n) by (eapply small_mono; [| |exact (b_up w B i n Hi En)]; lia).
      destruct (g_event T X i (ev w) (wk w) e ltac:(lia) ltac:(lia) (event_good w i e T X B Pe ltac:(lia) ltac:(lia)) n S r n' l E) as (A1 & A2 & A3 & A4 & A5).
      split; [exact A4|]. split; [exact A2|]. split; [exact A3 | exact A5]. }
    destruct H as [i n e r n' l Hi En Pe E Hg | i n e r n' l Hi En Pe E Hg | i n e r n' p q Hi En Pe E | i d Hi Ed].
    - destruct (grows w i (Up n') (mkObs e l (answer_of r)) Hi) as [G1 G2].
      destruct (Run i n e r n' l Hi En Pe E _ _ G1 G2) as (R1 & R2 & R3 & R4). apply Old; [exact Hi | | discriminate | exact R3|].
      + intros m Em. inversion Em; subst m. exact R1.
      + intros now q l0 r0 Eo. destruct r as [y| | |]; cbn [answer_of] in Eo; try discriminate. injection Eo as X1 X2 X3. subst e l0 y. exact (R4 _ eq_refl).
    - destruct (grows w i (Down (n_disk n')) (mkObs e l None) Hi) as [G1 G2].
      destruct (Run i n e r n' l Hi En Pe E _ _ G1 G2) as (R1 & R2 & R3 & R4). apply Old; [exact Hi | discriminate | | exact R3|].
      + intros d Ed. inversion Ed; subst d. apply R1.
      + intros now q l0 r0 Eo. discriminate.
    - destruct (grows w i (Down (fold_left disk_apply p (n_disk n))) (mkObs e p None) Hi) as [G1 G2].
      destruct (Run i n e r n' (p ++ q) Hi En Pe E _ _ G1 G2) as (R1 & R2 & R3 & R4). apply Old; [exact Hi | discriminate | | |].
      + intros d Ed. inversion Ed; subst d. exact (R2 p q eq_refl).
      + apply Forall_app in R3. apply R3.
      + intros now q0 l0 r0 Eo. discriminate.
    - destruct (start_same w i (Up (start_node i (prm i) d))) as [G1 G2]. split; rewrite ?G1, ?G2.
      + intros j n Hj E. cbn [next_world w_sys] in E. unfold put in E. destruct (j =? i)%Z eqn:Ej; [|exact (b_up w B j n Hj E)]. replace j with i by lia. inversion E; subst n. apply start_small, (b_down w B i d Hi Ed).
      + intros j d' Hj E. cbn [next_world w_sys] in E. unfold put in E. destruct (j =? i)%Z; [discriminate | exact (b_down w B j d' Hj E)].
      + intros j a Ha. apply (b_acts w B j a). unfold w_acts in *. cbn [next_world w_hist] in Ha. unfold put in Ha. destruct (j =? i)%Z eqn:Eq; [|exact Ha]. assert (j = i) by lia. subst j. rewrite app_nil_r in Ha. exact Ha.
      + intros j q r (now & l & Ha). apply (b_answers w B j q r). exists now, l. cbn [next_world w_hist] in Ha. unfold put in Ha. destruct (j =? i)%Z eqn:Eq; [|exact Ha]. assert (j = i) by lia. subst j. rewrite app_nil_r in Ha. exact Ha.
  Qed.

  Lemma binv_reach : forall w0 w, initial servers w0 -> reach servers prm w0 w -> binv w.
  Proof.
    intros w0 w H0 R. induction R as [|w w' R IH S]; [|eapply binv_step; eassumption]. split.
    - intros i n Hi E. destruct (H0 i) as [_ K]. destruct (K Hi) as (d & Ed & _). congruence.
    - intros i d Hi E. destruct (H0 i) as [_ K]. destruct (K Hi) as (d' & Ed & F1 & F2 & F3 & F4 & F5 & F6). assert (d' = d) by congruence. subst d'.
      split; unfold saved; rewrite ?F1, ?F3, ?F4, ?F5; cbn; try lia; [constructor | unfold a_next; cbn; lia | discriminate].
    - intros i a Ha. unfold w_acts in Ha. destruct (H0 i) as [K _]. rewrite K in Ha. contradiction.
    - intros j q r (now & l & Ha). destruct (H0 j) as [K _]. rewrite K in Ha. contradiction.
  Qed.
End Run.

(** ** C100 *)

(** In every run of a cluster (events in any order, messages lost, repeated and delayed,
    crashes, restarts, snapshots): terms - of servers, on disks, of entries, in requests and
    responses - are at most the number of events so far; indexes are at most that number plus
    the number of entries handed in so far. *)
Theorem C100_bounded : forall servers prm w0 w, initial servers w0 -> reach servers prm w0 w ->
  (forall i, In i (ids servers) -> sys_within (events servers w) (work servers w) (w_sys w i)) /\
  (forall i uid ext q, sent w i uid ext q -> req_within (events servers w) (work servers w) q) /\
  (forall j q r, answered w j q r -> resp_within (events servers w) (work servers w) r).
Proof.
  intros servers prm w0 w H0 R. pose proof (binv_reach servers prm w0 w H0 R) as B. split; [|split].
  - intros i Hi. unfold sys_within. destruct (w_sys w i) as [n|d] eqn:E; [|exact (b_down _ _ B i d Hi E)].
    destruct (b_up _ _ B i n Hi E). split; try assumption. eapply Forall_impl; [|exact s_peers]. intros p Hp. apply Hp.
  - intros i uid ext q Hs. destruct (b_acts _ _ B i _ Hs) as [(_ & K & _) _]. exact K.
  - intros j q r Ha. destruct (b_answers _ _ B j q r Ha) as [[[K _] _] _]. exact K.
Qed.

(** So nothing wraps around: as long as fewer than 2^64 - 2 events have happened and entries
    have been handed in, every term, every index, and every sum the handlers form of them
    (term + 1, index + 1, index + number of entries + 1) is below 2^64. *)
Theorem C100_no_wrap : forall servers prm w0 w, initial servers w0 -> reach servers prm w0 w -> work servers w + 2 < two64 ->
  (forall i n, In i (ids servers) -> w_sys w i = Up n ->
     n_term n + 1 < two64 /\ a_next (n_log n) + 1 < two64 /\ n_quick n + 1 < two64 /\ n_smc n + 1 < two64 /\
     (forall p, In p (n_peers n) -> p_next p + 1 < two64 /\ p_match p + 1 < two64) /\
     (forall e, In e (al_ents (n_log n)) -> ev_term e < two64)) /\
  (forall i d, In i (ids servers) -> w_sys w i = Down d ->
     fst (saved d) + 1 < two64 /\ a_next (dk_log d) + 1 < two64 /\ dk_commit d + 1 < two64) /\
  (forall i uid ext q, sent w i uid ext q ->
     rq_term q < two64 /\ rq_last_term q < two64 /\ rq_commit q < two64 /\ rq_last_idx q + 1 < two64 /\
     (rq_type q <> install_snapshot_request -> rq_last_idx q + lenN (rq_entries q) + 1 < two64) /\
     (forall e, In e (rq_entries q) -> ev_term e < two64)) /\
  (forall j q r, answered w j q r ->
     rs_term r < two64 /\ (rs_type r <> install_snapshot_response -> rs_next_idx r < two64)).
Proof.
  intros servers prm w0 w H0 R Hw. destruct (C100_bounded servers prm w0 w H0 R) as (A & B & C).
  assert (He : events servers w <= work servers w) by (unfold work; lia). split; [|split; [|split]].
  - intros i n Hi E. specialize (A i Hi). rewrite E in A. cbn [sys_within] in A. destruct A as [[D1 D2 [D3 D4] D5 D6] A2 A3 A4 A5]. unfold n_log.
    split; [lia|]. split; [lia|]. split; [lia|]. split; [lia|]. split.
    + intros p Hp. rewrite Forall_forall in A5. destruct (A5 p Hp). lia.
    + intros e Hin. rewrite Forall_forall in D2. specialize (D2 e Hin). unfold entry_within in D2. lia.
  - intros i d Hi E. specialize (A i Hi). rewrite E in A. cbn [sys_within] in A. destruct A as [D1 D2 [D3 D4] D5 D6]. lia.
  - intros i uid ext q Hs. destruct (B i uid ext q Hs) as [Q1 Q2 Q3 Q4 Q5 Q6]. split; [lia|]. split; [lia|]. split; [lia|]. split; [lia|]. split.
    + intros T. specialize (Q5 T). lia.
    + intros e Hin. rewrite Forall_forall in Q3. specialize (Q3 e Hin). unfold entry_within in Q3. lia.
  - intros j q r Ha. destruct (C j q r Ha) as [C1 C2]. split; [lia|]. intros T. specialize (C2 T). lia.
Qed.
Print Assumptions C100_bounded.
Print Assumptions C100_no_wrap.

(** The bound on terms is reached: a server that cannot reach the others starts an election
    with every timeout, and after [k] events its term is [k]. *)
Definition alone (k : N) : node :=
  mkNode 1 ex_prm Candidate (-1) k 1 1 [1%Z] false None false false 0 0 0
    (start_peers 1 ex_prm 0 ex_servers) (dk_config ex_disk) None None None false true 2147483647 (lenN ex_servers) []
    (mkDisk (Some (k, 1%Z)) (dk_config ex_disk) (dk_log ex_disk) 0 None (dk_snp_data ex_disk)).
Lemma alone_again : forall k, exists l, run_event EElection (alone k) = (ROk Nothing, alone (k + 1), l).
Proof. intros k. eexists. cbv -[N.add]. reflexivity. Qed.
Lemma alone_run : forall k, exists w n, reach ex_servers (fun _ => ex_prm) ex_world w /\ w_sys w 1 = Up n /\ n_term n = k /\
  events ex_servers w = k /\ work ex_servers w = k /\
  (k = 0 -> n = start_node 1 ex_prm ex_disk) /\ (0 < k -> n = alone k) /\ w_hist w 2 = [] /\ w_hist w 3 = [].
Proof.
  induction k as [|k IH] using N.peano_ind.
  - exists (next_world ex_world 1 (Up (start_node 1 ex_prm ex_disk)) []), (start_node 1 ex_prm ex_disk).
    split; [eapply Reach_S; [apply Reach_0 | apply W_start; [left; reflexivity | reflexivity]]|].
    split; [reflexivity|]. split; [reflexivity|]. split; [vm_compute; reflexivity|]. split; [vm_compute; reflexivity|]. split; [reflexivity|]. split; [lia|]. split; reflexivity.
  - destruct IH as (w & n & R & E & Et & E1 & E2 & K0 & K1 & H2 & H3). rewrite <- N.add_1_r in *.
    assert (S : exists l, run_event EElection n = (ROk Nothing, alone (k + 1), l)).
    { destruct (N.eq_0_gt_0_cases k) as [Z|P]; [|rewrite (K1 P); apply alone_again]. rewrite (K0 Z), Z. eexists. vm_compute. reflexivity. }
    destruct S as (l & S). exists (next_world w 1 (Up (alone (k + 1))) [mkObs EElection l (Some Nothing)]), (alone (k + 1)).
    split; [eapply Reach_S; [exact R|]; refine (W_event _ _ w 1%Z n EElection (ROk Nothing) (alone (k + 1)) l _ E I S eq_refl); left; reflexivity|].
    assert (A : happened ex_servers (next_world w 1 (Up (alone (k + 1))) [mkObs EElection l (Some Nothing)]) = map o_event (w_hist w 1) ++ [EElection]).
    { unfold happened. cbn [ids ex_servers ex_cfg cc_servers map sc_id ex_srv flat_map next_world w_hist]. unfold put. cbn [Z.eqb Pos.eqb]. rewrite H2, H3. cbn [map app]. rewrite map_app, app_nil_r. reflexivity. }
    assert (A0 : happened ex_servers w = map o_event (w_hist w 1)).
    { unfold happened. cbn [ids ex_servers ex_cfg cc_servers map sc_id ex_srv flat_map]. rewrite H2, H3. cbn [map app]. apply app_nil_r. }
    split; [reflexivity|]. split; [reflexivity|].
    unfold work, events in *. rewrite A. rewrite A0 in E1, E2. rewrite total_len in *. rewrite !total_app. cbn [total handed]. split; [lia|]. split; [lia|]. split; [lia|]. split; [auto|]. split; assumption.
Qed.
Theorem C100_sharp : forall k, exists w n, initial ex_servers ex_world /\ reach ex_servers (fun _ => ex_prm) ex_world w /\
  w_sys w 1 = Up n /\ events ex_servers w = k /\ n_term n = k.
Proof. intros k. destruct (alone_run k) as (w & n & R & E & Et & E1 & _). exists w, n. split; [exact ex_initial|]. auto. Qed.
Print Assumptions C100_sharp.

(** the hypotheses of C100_bounded and C100_no_wrap in a run in which a leader is elected and
    two entries are replicated and applied *)
Definition ex_small : list kcmd :=
  [KStart 1; KStart 2; KStart 3; KDo 1 EElection; KRpc 1 2 0; KRpc 1 2 0; KDo 1 (EReplicate 0 [x61]); KRpc 1 2 0; KDo 1 (EAppend 0 [[x62]; [x63]]); KRpc 1 2 0; KRpc 1 3 0; KRpc 1 2 0; KDo 1 ECommit; KDo 1 ECommit; KDo 2 ECommit].
Example C100_small : let w := ex_run ex_small in
  initial ex_servers ex_world /\ reach ex_servers (fun _ => ex_prm) ex_world w /\ work ex_servers w + 2 < two64 /\
  (events ex_servers w, work ex_servers w) = (18, 21) /\
  exists n, w_sys w 1 = Up n /\ (n_role n, n_term n, a_next (n_log n), n_quick n, n_smc n) = (Leader, 1, 5, 4, 2).
Proof.
  cbv zeta. split; [exact ex_initial|]. split; [apply ex_reach|]. split; [vm_compute; reflexivity|]. split; [vm_compute; reflexivity|].
  eexists. split; [vm_compute; reflexivity | vm_compute; reflexivity].
Qed.
