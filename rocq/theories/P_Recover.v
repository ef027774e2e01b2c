(** * P_Recover: a cluster can always elect a leader

    Whatever has happened to a cluster, any majority of its servers can elect a leader without
    the others: there is a way to go on, that touches no other server, after which a server of
    the majority leads a term above every term the majority has seen, and the rest of the majority
    follows in that term. *)

From Verif Require Import Base Buffer BufferSpec Codec CodecSpec Msg FsLogStore FsLogSpec Alog Raft RaftQuiet RaftWalk NodeSpec NodeLife NodeFacts
  ServerSpec PeerWalk PeerInv P_Vote Runs P_Leader P_Serve P_Elect Cluster ClusterElect ClusterRun.
Local Open Scope N_scope.

(** ** What is said of a log

    the term of the last entry, 0 for an empty log; and the order of the ends of logs that decides
    who may be voted for *)
Definition end_term (a : alog) : N := match a_get a (a_next a - 1) with Some e => ev_term e | None => 0 end.
Definition no_older (a b : alog) : Prop := end_term b < end_term a \/ (end_term a = end_term b /\ a_next b <= a_next a).
(** the term a server has on disk *)
Definition saved_term (x : sys) : N := fst (saved (sys_disk x)).

(** ** A vote that does not complete a majority *)
Lemma vote_counted : forall n now uid j q r, live_ref uid n = Some (PPeer j) -> rq_type q = vote_request ->
  rs_type r = vote_response -> rs_accepted r = true -> rs_term r = n_term n -> In (rs_src r) (map p_id (n_peers n)) ->
  n_done n = false -> ~ In (rs_src r) (n_voted n) ->
  (2 * (n_votes n + 1) <= Z.of_nat (length (n_peers n)) + 1)%Z -> (length (n_voted n) < length (n_peers n))%nat ->
  exists ps, run_event (ERpc now uid false q (Some r)) n = (ROk Nothing, set_votes (n_votes n + 1)%Z (set_voted (rs_src r :: n_voted n) (set_peers ps n)), []) /\
    map (fun p => (p_id p, p_uid p)) ps = map (fun p => (p_id p, p_uid p)) (n_peers n).
Proof.
  intros n now uid j q r Hl Hq W1 W2 W3 W4 W5 W6 W7 W8.
  set (f1 := fun p : peer => p_resume (n_prm n) p). set (n1 := upd_peer (PPeer j) f1 n).
  set (n2 := upd_peer (PPeer (rs_src r)) (p_set_last_resp now) n1).
  assert (M2 : map (fun p => (p_id p, p_uid p)) (n_peers n2) = map (fun p => (p_id p, p_uid p)) (n_peers n)).
  { unfold n2, n1. cbn [upd_peer n_peers set_peers]. rewrite !upd_peers_map; reflexivity. }
  assert (L2 : length (n_peers n2) = length (n_peers n)) by (rewrite <- (map_length (fun p => (p_id p, p_uid p)) (n_peers n2)), M2; apply map_length).
  exists (n_peers n2). split; [|exact M2].
  cbn [run_event]. unfold rpc_done. rewrite bind_assoc, bind_get. rewrite Hl, Hq.
  change (beq vote_request append_entries_request || beq vote_request install_snapshot_request) with false. cbn [when].
  rewrite bind_assoc, bind_ret, bind_assoc, bind_modify. fold f1. change (upd_peer (PPeer j) (p_resume (n_prm n)) n) with n1.
  unfold handle_peer_resp. rewrite bind_assoc, bind_get.
  destruct (find_in (rs_src r) (n_peers n1)) as (p & Fp).
  { unfold n1. rewrite peers_upd; [exact W4 | reflexivity]. }
  rewrite Fp. rewrite bind_assoc, bind_modify. fold n2.
  unfold update_term. rewrite !bind_assoc, bind_get. replace (n_term n2) with (n_term n) by reflexivity. rewrite W3, N.ltb_irrefl, bind_ret.
  rewrite W1. change (beq vote_response vote_response) with true. cbv iota.
  unfold handle_voting_resp. rewrite bind_assoc, bind_get. replace (n_term n2) with (n_term n) by reflexivity. rewrite W3, N.eqb_refl. cbn [negb].
  replace (n_done n2) with (n_done n) by reflexivity. rewrite W5. replace (n_voted n2) with (n_voted n) by reflexivity.
  destruct (existsb (Z.eqb (rs_src r)) (n_voted n)) eqn:Ex; [exfalso; apply W6, existsb_in, Ex|].
  rewrite bind_assoc, bind_modify, bind_assoc, W2. cbn [when]. rewrite bind_modify, bind_assoc, bind_get.
  replace (n_votes n2) with (n_votes n) by reflexivity.
  set (m := set_votes (n_votes n + 1)%Z (set_voted (rs_src r :: n_voted n) n2)).
  replace (n_votes m) with (n_votes n + 1)%Z by reflexivity.
  replace (majority m (n_votes n + 1)) with false.
  2: { symmetry. destruct (majority m (n_votes n + 1)) eqn:Em; [|reflexivity]. apply majority_iff in Em.
       replace (length (n_peers m)) with (length (n_peers n)) in Em by (symmetry; exact L2). lia. }
  replace (n_peers m) with (n_peers n2) by reflexivity. replace (n_voted m) with (rs_src r :: n_voted n) by reflexivity.
  rewrite L2. replace (Nat.leb (length (n_peers n) + 1) (length (rs_src r :: n_voted n))) with false by (cbn [length]; symmetry; apply Nat.leb_gt; lia).
  cbn [when]. unfold bind, ret. rewrite ?app_nil_r. reflexivity.
Qed.

Lemma live_pair : forall n j uid, NoDup (map p_uid (n_peers n)) -> In (j, uid) (map (fun p => (p_id p, p_uid p)) (n_peers n)) -> live_ref uid n = Some (PPeer j).
Proof.
  intros n j uid N H. apply in_map_iff in H. destruct H as (p & E & H). injection E as E1 E2. subst j uid. unfold live_ref.
  replace (find (fun x => p_uid x =? p_uid p) (n_peers n)) with (Some p); [reflexivity|]. symmetry.
  revert N H. induction (n_peers n) as [|x l IH]; cbn [map find In]; [intros _ []|]. intros N F. inversion N as [|? ? N1 N2]; subst.
  destruct (N.eqb_spec (p_uid x) (p_uid p)) as [E|E].
  - destruct F as [F|F]; [congruence|]. exfalso. apply N1. rewrite E. apply in_map, F.
  - destruct F as [F|F]; [congruence|]. apply IH; assumption.
Qed.

(** ** A vote *)
Lemma gives_vote : forall q n, rq_type q = vote_request -> al_start (n_log n) = 1 -> n_term n < rq_term q ->
  up_to_date (rq_last_term q) (rq_last_idx q) n ->
  exists r n' l, run_event (ERequest 0 q) n = (ROk (Response r), n', l) /\
    rs_accepted r = true /\ rs_type r = vote_response /\ rs_term r = rq_term q /\ rs_src r = n_id n /\
    n_id n' = n_id n /\ n_role n' = Follower /\ n_term n' = rq_term q /\ n_log n' = n_log n.
Proof.
  intros q n Ht Hs Hlt Hu.
  assert (He : end_in_log n) by (split; [lia | left; exact Hs]).
  destruct (C28_vote_partial 0 q n Ht He) as (r & n' & l & E & Ha & En & El & Et).
  assert (Acc : rs_accepted r = true).
  { apply Ha. split; [lia|]. split; [|exact Hu]. left. replace (n_term n <? rq_term q) with true by lia. reflexivity. }
  assert (Sp : speaks r (n_id n) (rq_src q) vote_response (rq_term q)).
  { assert (Ap : process_req 0 q n = after (arrived_acts (rq_term q) n) (handle_vote_req q (arrived (rq_term q) n)))
      by (rewrite process_peer_req; rewrite Ht; reflexivity).
    cbn [run_event] in E. assert (V := vote_speaks q (arrived (rq_term q) n)). unfold ht in V.
    assert (An : n_id (arrived (rq_term q) n) = n_id n /\ n_term (arrived (rq_term q) n) = rq_term q).
    { unfold arrived. replace (n_term n <? rq_term q) with true by lia. destruct (0 <? n_steps _)%Z; split; reflexivity. }
    destruct An as (An1 & An2). rewrite An1, An2 in V.
    destruct (handle_vote_req q (arrived (rq_term q) n)) as [[x nn] ll] eqn:Ev. destruct (V _ _ _ eq_refl) as [_ V2].
    destruct x as [a| | |]; unfold bind in E; rewrite Ap in E; unfold after in E; cbn [fst snd] in E; try discriminate E.
    inversion E; subst. apply (V2 _ eq_refl). }
  destruct Sp as (S1 & S2 & S3 & S4).
  assert (Rn : n_role (arrived (rq_term q) n) = Follower /\ n_id (arrived (rq_term q) n) = n_id n).
  { unfold arrived. replace (n_term n <? rq_term q) with true by lia. destruct (0 <? n_steps _)%Z; split; reflexivity. }
  destruct Rn as (Rn1 & Rn2).
  exists r, n', l. split; [exact E|]. split; [exact Acc|]. rewrite Acc in En.
  split; [assumption|]. split; [assumption|]. split; [assumption|].
  split; [rewrite En; exact Rn2|]. split; [rewrite En; exact Rn1|]. split; [|exact El]. lia.
Qed.

Section Recover.
  Variable servers : list srv_config.
  Variable prm : Z -> params.
  Hypothesis HC : cluster_okay servers.
  Hypothesis HS : no_snapshots prm.
  Notation ids := (ids servers).
  Notation reach := (reach servers prm).
  Notation step := (step servers prm).

  Lemma reach_trans : forall a b c, reach a b -> reach b c -> reach a c.
  Proof. intros a b c H1 H2. induction H2; [exact H1 | eapply Reach_S; eassumption]. Qed.
  Lemma reach_one : forall a b, step a b -> reach a b.
  Proof. intros a b H. eapply Reach_S; [apply Reach_0 | exact H]. Qed.
  Lemma put_same : forall A (f : Z -> A) i v, put f i v i = v.
  Proof. intros. unfold put. rewrite Z.eqb_refl. reflexivity. Qed.
  Lemma put_other : forall A (f : Z -> A) i v j, j <> i -> put f i v j = f j.
  Proof. intros A f i v j H. unfold put. destruct (Z.eqb_spec j i); [contradiction | reflexivity]. Qed.

  (** what has been sent and answered stays so *)
  Definition later (w w' : world) : Prop := forall k, exists o, w_hist w' k = w_hist w k ++ o.
  Lemma later_next : forall w i x o, later w (next_world w i x o).
  Proof.
    intros w i x o k. destruct (Z.eq_dec k i) as [->|D]; unfold next_world; cbn [w_hist].
    - exists o. apply put_same.
    - exists []. rewrite put_other by exact D. symmetry. apply app_nil_r.
  Qed.
  Lemma later_refl : forall w, later w w.
  Proof. intros w k. exists []. symmetry. apply app_nil_r. Qed.
  Lemma later_trans : forall a b c, later a b -> later b c -> later a c.
  Proof. intros a b c H1 H2 k. destruct (H1 k) as (o1 & E1), (H2 k) as (o2 & E2). exists (o1 ++ o2). rewrite E2, E1. symmetry. apply app_assoc. Qed.
  Lemma later_sent : forall w w' i uid ext q, later w w' -> sent w i uid ext q -> sent w' i uid ext q.
  Proof.
    intros w w' i uid ext q L H. destruct (L i) as (o & E). unfold sent, w_acts in *. rewrite E. unfold acts_of in *. rewrite map_app, concat_app.
    apply in_or_app. left. exact H.
  Qed.
  Lemma later_answered : forall w w' j q r, later w w' -> answered w j q r -> answered w' j q r.
  Proof. intros w w' j q r L (now & l & H). destruct (L j) as (o & E). exists now, l. rewrite E. apply in_or_app. left. exact H. Qed.

  (** ** Collecting votes

      [asks w i t x]: server [i] has asked [fst x] through the peer object [snd x] for its vote
      in term [t]; [granted] says it has voted for it *)
  Definition asked (w : world) (i : Z) (t : N) (lt li : N) (x : Z * N) (q : req) : Prop :=
    sent w i (snd x) false q /\ rq_type q = vote_request /\ rq_dst q = fst x /\ rq_term q = t /\ rq_last_term q = lt /\ rq_last_idx q = li.
  Definition voter (w : world) (t lt li : N) (x : Z * N) : Prop :=
    exists m, w_sys w (fst x) = Up m /\ n_id m = fst x /\ al_start (n_log m) = 1 /\ n_term m < t /\ up_to_date lt li m.
  Definition granted (w : world) (i : Z) (t : N) (x : Z * N) : Prop :=
    exists q r, sent w i (snd x) false q /\ rq_type q = vote_request /\ rq_dst q = fst x /\ answered w (fst x) q r /\
      rs_accepted r = true /\ rs_type r = vote_response /\ rs_term r = t /\ rs_src r = fst x.
  Definition follows (w w' : world) (t : N) (j : Z) : Prop :=
    exists m, w_sys w' j = Up m /\ n_role m = Follower /\ n_term m = t /\ log_of w' j = log_of w j.

  Lemma ask_votes : forall i t lt li (S : list (Z * N)) w, In i ids -> NoDup (map fst S) -> ~ In i (map fst S) -> incl (map fst S) ids ->
    (forall x, In x S -> (exists q, asked w i t lt li x q) /\ voter w t lt li x) ->
    exists w', reach w w' /\ later w w' /\ (forall j, ~ In j (map fst S) -> w_sys w' j = w_sys w j) /\
      forall x, In x S -> granted w' i t x /\ follows w w' t (fst x).
  Proof.
    intros i t lt li S w Hi. revert w. induction S as [|x S IH]; intros w Hn Hni Hin Ha.
    { exists w. split; [apply Reach_0|]. split; [apply later_refl|]. split; [reflexivity | intros x []]. }
    cbn [map] in Hn, Hni, Hin. inversion Hn as [|? ? N1 N2]; subst.
    destruct (Ha x (or_introl eq_refl)) as ((q & A1 & A2 & A3 & A4 & A5 & A6) & (m & V1 & V2 & V3 & V4 & V5)).
    destruct (gives_vote q m) as (r & m' & l & E & R1 & R2 & R3 & R4 & M1 & M2 & M3 & M4); [exact A2 | exact V3 | rewrite A4; exact V4 | rewrite A5, A6; exact V5|].
    set (w1 := next_world w (fst x) (Up m') [mkObs (ERequest 0 q) l (Some (Response r))]).
    assert (St : step w w1).
    { apply (W_event servers prm w (fst x) m (ERequest 0 q) (ROk (Response r)) m' l); [apply Hin; left; reflexivity | exact V1 | | exact E | reflexivity].
      left. exists i, (snd x), false. auto. }
    destruct (IH w1) as (w' & G1 & G2 & G3 & G4); [exact N2 | intros H; apply Hni; right; exact H | intros y Hy; apply Hin; right; exact Hy | |].
    { intros y Hy. assert (D : fst y <> fst x) by (intros D; apply N1; rewrite <- D; apply in_map, Hy).
      destruct (Ha y (or_intror Hy)) as ((qy & B) & (my & C)). split.
      - exists qy. destruct B as (B1 & B2). split; [|exact B2]. apply (later_sent w); [apply later_next | exact B1].
      - exists my. unfold w1, next_world. cbn [w_sys]. rewrite put_other by exact D. exact C. }
    assert (L1 : later w w1) by apply later_next.
    exists w'. split; [eapply reach_trans; [apply reach_one, St | exact G1]|]. split; [eapply later_trans; [exact L1 | exact G2]|]. split.
    { intros j Hj. cbn [map] in Hj. rewrite G3 by (intros H; apply Hj; right; exact H). unfold w1, next_world. cbn [w_sys]. apply put_other. intros D. apply Hj. left. symmetry. exact D. }
    intros y [<-|Hy].
    - split.
      + exists q, r. split; [apply (later_sent w); [eapply later_trans; eassumption | exact A1]|]. split; [exact A2|]. split; [exact A3|]. split.
        { apply (later_answered w1); [exact G2|]. exists 0, l. unfold w1, next_world. cbn [w_hist]. rewrite put_same. apply in_or_app. right. left. reflexivity. }
        split; [exact R1|]. split; [exact R2|]. split; [congruence | congruence].
      + assert (Ew : w_sys w' (fst x) = Up m').
        { rewrite G3 by exact N1. unfold w1, next_world. cbn [w_sys]. apply put_same. }
        exists m'. split; [exact Ew|]. split; [exact M2|]. split; [congruence|]. unfold log_of. rewrite Ew, V1. exact M4.
    - assert (D : fst y <> fst x) by (intros D; apply N1; rewrite <- D; apply in_map, Hy).
      destruct (G4 y Hy) as (K1 & (my & K2 & K3 & K4 & K5)). split; [exact K1|]. exists my. repeat (split; [assumption|]). rewrite K5.
      unfold log_of, w1, next_world. cbn [w_sys]. rewrite put_other by exact D. reflexivity.
  Qed.

  Lemma begin_has : forall n, al_start (n_log n) = 1 -> has_entries n (a_next (n_log n)).
  Proof.
    intros n Hs. unfold has_entries, a_next. rewrite Hs. destruct (al_ents (n_log n)) as [|e es]; [right; left; split; reflexivity | left].
    split; [unfold lenN; cbn [length]; lia | lia].
  Qed.

  (** the candidate [n] of term [t] and the voters [S] it has not counted yet *)
  Lemma forall2_in_r' : forall A B (R : A -> B -> Prop) l l' y, Forall2 R l l' -> In y l' -> exists x, In x l /\ R x y.
  Proof. intros A B R l l' y H. induction H as [|a b l l' K H IH]; intros []; [subst; exists a; cbn; auto|]. destruct (IH H0) as (x & Hx & J). exists x. cbn. auto. Qed.
  Lemma forall2_in_l : forall A B (R : A -> B -> Prop) l l' x, Forall2 R l l' -> In x l -> exists y, In y l' /\ R x y.
  Proof. intros A B R l l' x H. induction H as [|a b l l' K H IH]; intros []; [subst; exists b; cbn; auto|]. destruct (IH H0) as (y & Hy & J). exists y. cbn. auto. Qed.
  (** the leader [n] at [i] has asked every peer to take its log from index [x] on *)
  Definition starts_off (w : world) (i : Z) (n : node) (x : N) : Prop :=
    forall p, In p (n_peers n) -> p_next p = x /\ exists q, sent w i (p_uid p) false q /\ offers_entries n p x q.
  Lemma count_votes : forall i t (S : list (Z * N)) w n, In i ids -> w_sys w i = Up n -> n_term n = t -> n_done n = false ->
    al_start (n_log n) = 1 -> n_votes n = Z.of_nat (length (n_voted n)) ->
    NoDup (map p_id (n_peers n)) -> NoDup (map p_uid (n_peers n)) -> (length (n_peers n) + 1 = length ids)%nat ->
    NoDup (map fst S) -> (forall x, In x S -> ~ In (fst x) (n_voted n) /\ In (fst x) ids /\ In x (map (fun p => (p_id p, p_uid p)) (n_peers n)) /\ granted w i t x) ->
    (2 * length (n_voted n) <= length ids)%nat -> (length ids < 2 * (length (n_voted n) + length S))%nat ->
    exists w' n', reach w w' /\ w_sys w' i = Up n' /\ n_role n' = Leader /\ n_term n' = t /\ (exists es, n_log n' = log_plus (n_log n) es /\ forall e, In e es -> ev_term e = t) /\
      (forall j, j <> i -> w_sys w' j = w_sys w j) /\ starts_off w' i n' (a_next (n_log n)) /\ n_smc n' = n_smc n.
  Proof.
    intros i t S. induction S as [|x S IH]; intros w n Hi Hw Ht Hd Hs Hv P1 P2 P3 N H Lo Hm; [cbn [length] in Hm; lia|].
    cbn [map] in N. inversion N as [|? ? N1 N2]; subst x0 l.
    destruct (H x (or_introl eq_refl)) as (X1 & X2 & X3 & (q & r & G1 & G2 & G3 & G4 & G5 & G6 & G7 & G8)).
    assert (Lr : live_ref (snd x) n = Some (PPeer (fst x))) by (apply live_pair; [exact P2 | destruct x; exact X3]).
    assert (Ip : In (rs_src r) (map p_id (n_peers n))).
    { rewrite G8. apply in_map_iff in X3. destruct X3 as (p & E & Hp). rewrite <- E. apply (in_map p_id). exact Hp. }
    assert (Po : possible servers w i (ERpc 0 (snd x) false q (Some r))).
    { cbn [possible]. split; [exact G1|]. rewrite G3. split; [exact X2 | exact G4]. }
    destruct (Z_lt_le_dec (Z.of_nat (length (n_peers n)) + 1) (2 * (n_votes n + 1))) as [C|C].
    - destruct (C78_new_leader n 0 (snd x) (fst x) q r Lr G2) as (n' & l & qs & E & El & K1 & _ & K3 & _ & _ & K6 & _ & _ & _ & Ks & K11 & K12).
      { unfold wins. rewrite G8. rewrite G8 in Ip. repeat (split; [congruence || assumption|]). exact C. }
      { exact P1. } { lia. } { apply begin_has, Hs. }
      exists (next_world w i (Up n') [mkObs (ERpc 0 (snd x) false q (Some r)) l (Some Nothing)]), n'. split.
      { apply reach_one. exact (W_event servers prm w i n _ (ROk Nothing) n' l Hi Hw Po E eq_refl). }
      unfold next_world. cbn [w_sys]. rewrite put_same. split; [reflexivity|]. split; [exact K1|]. split; [congruence|].
      split. { exists (first_config n). split; [exact K6|]. intros e He. unfold first_config in He. destruct (_ =? _); [|destruct He]. destruct He as [<-|[]]. exact Ht. }
      split; [intros j Hj; apply put_other, Hj|]. split; [|exact Ks].
      intros p' Hp'. destruct (forall2_in_r' _ _ _ _ _ _ K11 Hp') as (p & Hp & (T1 & T2 & _ & T4 & _)).
      destruct (forall2_in_l _ _ _ _ _ _ K12 Hp) as (y & Hy & Y1 & Y2 & Y3). split; [exact T4|]. exists (snd y). split.
      { unfold sent, w_acts. cbn [w_hist]. rewrite put_same. unfold acts_of. rewrite map_app, concat_app. apply in_or_app. right. cbn [map concat o_acts]. rewrite app_nil_r.
        rewrite El. apply in_or_app. right. apply in_or_app. right. apply in_or_app. right. apply in_map_iff. exists y. split; [rewrite T1, Y2; reflexivity | exact Hy]. }
      unfold offers_entries in *. replace (p_id p') with (p_id p) by (unfold p_id; rewrite T2; reflexivity). exact Y3.
    - destruct (vote_counted n 0 (snd x) (fst x) q r Lr G2 G6 G5) as (ps & E & Ep); [congruence | exact Ip | exact Hd | rewrite G8; exact X1 | exact C | lia|].
      set (n' := set_votes (n_votes n + 1)%Z (set_voted (rs_src r :: n_voted n) (set_peers ps n))) in *.
      set (w1 := next_world w i (Up n') [mkObs (ERpc 0 (snd x) false q (Some r)) [] (Some Nothing)]).
      assert (St : step w w1) by exact (W_event servers prm w i n _ (ROk Nothing) n' [] Hi Hw Po E eq_refl).
      assert (Eu : map p_uid (n_peers n') = map p_uid (n_peers n)).
      { change (n_peers n') with ps. apply (f_equal (map snd)) in Ep. rewrite !map_map in Ep. exact Ep. }
      assert (Ei : map p_id (n_peers n') = map p_id (n_peers n)).
      { change (n_peers n') with ps. apply (f_equal (map fst)) in Ep. rewrite !map_map in Ep. exact Ep. }
      assert (El : length (n_peers n') = length (n_peers n)) by (rewrite <- (map_length p_id (n_peers n')), Ei; apply map_length).
      destruct (IH w1 n') as (w' & n2 & R1 & R2 & R3 & R4 & R5 & R6 & R7 & R8).
      + exact Hi.
      + unfold w1, next_world. cbn [w_sys]. apply put_same.
      + exact Ht.
      + exact Hd.
      + exact Hs.
      + change (n_votes n') with (n_votes n + 1)%Z. change (n_voted n') with (rs_src r :: n_voted n). cbn [length]. lia.
      + rewrite Ei. exact P1.
      + rewrite Eu. exact P2.
      + rewrite El. exact P3.
      + exact N2.
      + intros y Hy. destruct (H y (or_intror Hy)) as (Y1 & Y2 & Y3 & (qy & ry & Y4 & Y5 & Y6 & Y7 & Y8)). split.
        { change (n_voted n') with (rs_src r :: n_voted n). intros [D|D]; [|exact (Y1 D)]. apply N1. rewrite G8 in D. rewrite D. apply in_map, Hy. }
        split; [exact Y2|]. split; [change (n_peers n') with ps; rewrite Ep; exact Y3|].
        assert (L : later w w1) by apply later_next.
        exists qy, ry. split; [apply (later_sent w _ _ _ _ _ L Y4)|]. split; [exact Y5|]. split; [exact Y6|]. split; [apply (later_answered w _ _ _ _ L Y7) | exact Y8].
      + change (n_voted n') with (rs_src r :: n_voted n). cbn [length]. lia.
      + change (n_voted n') with (rs_src r :: n_voted n). cbn [length] in *. lia.
      + exists w', n2. split; [eapply reach_trans; [apply reach_one, St | exact R1]|]. split; [exact R2|]. split; [exact R3|]. split; [exact R4|]. split; [exact R5|].
        split; [intros j Hj; rewrite (R6 j Hj); unfold w1, next_world; cbn [w_sys]; apply put_other, Hj|]. split; [exact R7 | exact R8].
  Qed.

  (** ** Campaigning until the term is high enough *)
  Definition runner (i : Z) (n : node) : Prop :=
    n_id n = i /\ campaigns n /\ al_start (n_log n) = 1 /\ NoDup (map p_id (n_peers n)) /\ NoDup (map p_uid (n_peers n)) /\ map p_id (n_peers n) = pids servers i.
  Lemma campaign_once : forall w i n, In i ids -> pids servers i <> [] -> w_sys w i = Up n -> runner i n ->
    exists n' w' qs, step w w' /\ later w w' /\ w_sys w' i = Up n' /\ (forall j, j <> i -> w_sys w' j = w_sys w j) /\ runner i n' /\
      n_term n' = n_term n + 1 /\ (n_log n' = n_log n /\ n_smc n' = n_smc n) /\ n_voted n' = [i] /\ n_votes n' = 1%Z /\ n_done n' = false /\ n_peers n' = n_peers n /\
      map fst qs = n_peers n /\ forall p q, In (p, q) qs -> asks_vote n p q /\ sent w' i (p_uid p) false q.
  Proof.
    intros w i n Hi Hp Hw (R1 & R2 & R3 & R4 & R5 & R6).
    destruct (C80_campaign n R2) as (n' & qs & E & Q1 & Q2 & K1 & K2 & K3 & K4 & K5 & K6 & K7 & K8 & K9 & K10 & K11 & K12 & K13 & K14 & K15 & K16 & K17 & K18).
    { intros X. apply Hp. rewrite <- R6, X. reflexivity. } { exact R4. } { lia. } { apply begin_has, R3. }
    set (l := [ASaveState (n_term n + 1) (-1); ASaveState (n_term n + 1) (n_id n)] ++ map (fun x => ASend (p_uid (fst x)) false (snd x)) qs ++ [ATimer true]) in *.
    exists n', (next_world w i (Up n') [mkObs EElection l (Some Nothing)]), qs.
    split; [exact (W_event servers prm w i n EElection (ROk Nothing) n' l Hi Hw I E eq_refl)|].
    split; [apply later_next|]. unfold next_world at 1 2. cbn [w_sys]. split; [apply put_same|]. split; [intros j Hj; apply put_other, Hj|]. split.
    { split; [congruence|]. split; [|split; [congruence | rewrite K9; auto]]. destruct R2 as (C1 & C2 & C3). split; [lia|]. split; [congruence | left; exact K1]. }
    split; [exact K2|]. split; [split; [exact K10 | exact K12]|]. split; [congruence|]. split; [exact K5|]. split; [exact K6|]. split; [exact K9|]. split; [exact Q1|].
    intros p q H. split; [apply Q2, H|]. unfold sent, w_acts, next_world. cbn [w_hist]. rewrite put_same. unfold acts_of. rewrite map_app, concat_app.
    apply in_or_app. right. cbn [map concat o_acts]. rewrite app_nil_r. unfold l. apply in_or_app. right. apply in_or_app. left.
    apply in_map_iff. exists (p, q). auto.
  Qed.
  Lemma raise_term : forall i k w n, In i ids -> pids servers i <> [] -> w_sys w i = Up n -> runner i n ->
    exists n' w', reach w w' /\ w_sys w' i = Up n' /\ (forall j, j <> i -> w_sys w' j = w_sys w j) /\ runner i n' /\
      n_term n' = n_term n + N.of_nat k /\ n_log n' = n_log n /\ n_smc n' = n_smc n.
  Proof.
    intros i k. induction k as [|k IH]; intros w n Hi Hp Hw Hr.
    { exists n, w. split; [apply Reach_0|]. split; [exact Hw|]. split; [reflexivity|]. split; [exact Hr|]. split; [cbn; lia | split; reflexivity]. }
    destruct (campaign_once w i n Hi Hp Hw Hr) as (n1 & w1 & qs & A1 & _ & A2 & A3 & A4 & A5 & (A6 & A7) & _).
    destruct (IH w1 n1 Hi Hp A2 A4) as (n2 & w2 & B1 & B2 & B3 & B4 & B5 & B6 & B7).
    exists n2, w2. split; [eapply reach_trans; [apply reach_one, A1 | exact B1]|]. split; [exact B2|]. split; [intros j Hj; rewrite (B3 j Hj); apply A3, Hj|].
    split; [exact B4|]. split; [lia | split; congruence].
  Qed.

  (** ** Starting servers *)
  Lemma start_down : forall (S : list Z) w, incl S ids ->
    exists w', reach w w' /\ (forall j, In j S -> exists n, w_sys w' j = Up n) /\ (forall j, sys_disk (w_sys w' j) = sys_disk (w_sys w j)) /\
      (forall j, (~ In j S \/ exists n, w_sys w j = Up n) -> w_sys w' j = w_sys w j).
  Proof.
    intros S w Hin. induction S as [|j S IH].
    { exists w. split; [apply Reach_0|]. split; [intros j []|]. split; [reflexivity | reflexivity]. }
    destruct IH as (w1 & A1 & A2 & A3 & A4); [intros x Hx; apply Hin; right; exact Hx|].
    destruct (w_sys w1 j) as [n|d] eqn:E.
    - exists w1. split; [exact A1|]. split; [intros x [<-|Hx]; [eauto | apply A2, Hx]|]. split; [exact A3|].
      intros x Hx. apply A4. destruct Hx as [Hx|Hx]; [left; intros X; apply Hx; right; exact X | right; exact Hx].
    - exists (next_world w1 j (Up (start_node j (prm j) d)) []).
      split; [eapply Reach_S; [exact A1 | apply W_start; [apply Hin; left; reflexivity | exact E]]|].
      unfold next_world. cbn [w_sys]. split.
      { intros x Hx. destruct (Z.eq_dec x j) as [->|D]; [rewrite put_same; eauto|]. rewrite put_other by exact D. destruct Hx as [Hx|Hx]; [congruence | apply A2, Hx]. }
      split.
      { intros x. destruct (Z.eq_dec x j) as [->|D]; [rewrite put_same | rewrite put_other by exact D; apply A3].
        rewrite <- A3, E. unfold start_node. destruct (match dk_state d with Some y => y | None => _ end). reflexivity. }
      intros x Hx. destruct (Z.eq_dec x j) as [->|D]; [|rewrite put_other by exact D; apply A4; destruct Hx as [Hx|Hx]; [left; intros X; apply Hx; right; exact X | right; exact Hx]].
      exfalso. destruct Hx as [Hx|(n & Hx)]; [apply Hx; left; reflexivity|]. rewrite (A4 j (or_intror (ex_intro _ n Hx))) in E. congruence.
  Qed.
  Lemma start_again : forall w i, In i ids ->
    exists w' d, reach w w' /\ w_sys w' i = Up (start_node i (prm i) d) /\ d = sys_disk (w_sys w i) /\ (forall j, j <> i -> w_sys w' j = w_sys w j).
  Proof.
    intros w i Hi.
    assert (B : exists w1, reach w w1 /\ w_sys w1 i = Down (sys_disk (w_sys w i)) /\ (forall j, j <> i -> w_sys w1 j = w_sys w j)).
    { destruct (w_sys w i) as [n|d] eqn:E; [|exists w; split; [apply Reach_0 | split; [exact E | reflexivity]]].
      destruct (run_event EElection n) as [[r n'] l] eqn:Er.
      exists (next_world w i (Down (n_disk n)) [mkObs EElection [] None]). split.
      - apply reach_one. exact (W_crash servers prm w i n EElection r n' [] l Hi E I Er).
      - unfold next_world. cbn [w_sys]. split; [apply put_same | intros j Hj; apply put_other, Hj]. }
    destruct B as (w1 & B1 & B2 & B3).
    exists (next_world w1 i (Up (start_node i (prm i) (sys_disk (w_sys w i)))) []), (sys_disk (w_sys w i)).
    split; [eapply Reach_S; [exact B1 | apply W_start; assumption]|]. unfold next_world. cbn [w_sys].
    split; [apply put_same|]. split; [reflexivity|]. intros j Hj. rewrite put_other by exact Hj. apply B3, Hj.
  Qed.

  Lemma end_term_last : forall n, al_start (n_log n) = 1 -> last_term n = end_term (n_log n).
  Proof.
    intros n Hs. unfold last_term, end_term, last_index. destruct (N.eqb_spec (a_next (n_log n) - 1) 0) as [E|E].
    - destruct (a_get (n_log n) (a_next (n_log n) - 1)) as [e|] eqn:G; [|reflexivity]. apply a_get_some in G. lia.
    - destruct (a_get_in (n_log n) (a_next (n_log n) - 1)) as (e & ->); [unfold a_next in *; rewrite Hs in *; lia | reflexivity].
  Qed.
  Lemma end_term_is : forall n t, al_start (n_log n) = 1 -> term_is n (a_next (n_log n) - 1) t -> t = end_term (n_log n).
  Proof.
    intros n t Hs H. unfold end_term. destruct H as [(E & ->)|[(e & E & ->)|(H & s & X)]].
    - destruct (a_get (n_log n) (a_next (n_log n) - 1)) as [e|] eqn:G; [|reflexivity]. apply a_get_some in G. lia.
    - rewrite E. reflexivity.
    - exfalso. unfold a_next in H. lia.
  Qed.
  Lemma start_facts : forall i pm d, let n := start_node i pm d in
    n_id n = i /\ n_prm n = pm /\ n_role n = Follower /\ n_catching n = false /\ n_steps n = 0%Z /\ n_disk n = d /\ n_prevote n = None /\
    n_term n = fst (saved d) /\ n_smc n = dk_commit d.
  Proof.
    intros i pm d. unfold start_node, saved. destruct (dk_state d) as [[t v]|]; cbn [fst]; repeat (split; [reflexivity|]); reflexivity.
  Qed.
  Lemma max_term : forall (f : Z -> N) (V : list Z), exists t, forall j, In j V -> f j <= t.
  Proof.
    intros f V. induction V as [|x V (t & IH)]; [exists 0; intros j []|]. exists (N.max t (f x)). intros j [<-|H]; [lia|]. specialize (IH j H). lia.
  Qed.

  (** a server that campaigns as it likes, among servers of a majority that run and have no newer log *)
  Lemma runner_leads : forall w0 w2 V i n0, initial servers w0 -> reach w0 w2 -> NoDup V -> incl V ids -> (length ids < 2 * length V)%nat ->
    In i V -> pids servers i <> [] -> (forall j, In j V -> exists n, w_sys w2 j = Up n) -> w_sys w2 i = Up n0 -> runner i n0 -> (forall j, In j V -> no_older (log_of w2 i) (log_of w2 j)) ->
    exists w' n es, reach w2 w' /\ w_sys w' i = Up n /\ n_role n = Leader /\ (n_log n = log_plus (log_of w2 i) es /\ forall e, In e es -> ev_term e = n_term n) /\
      (forall j, In j V -> saved_term (w_sys w2 j) < n_term n) /\
      (forall j, In j V -> j <> i -> exists m, w_sys w' j = Up m /\ n_role m = Follower /\ n_term m = n_term n /\ log_of w' j = log_of w2 j) /\
      (forall j, ~ In j V -> w_sys w' j = w_sys w2 j) /\ starts_off w' i n (a_next (log_of w2 i)) /\ n_smc n = n_smc n0.
  Proof.
    intros w0 w2 V i n0 Hi0 R02 NV IV QV HiV Pne B2 Bi Run Hno. assert (Hi : In i ids) by (apply IV, HiV).
    assert (W2 := reach_winv servers prm HC HS w0 w2 Hi0 R02). assert (St2 := e_static _ _ _ (w_e _ _ _ W2)).
    assert (L0 : n_log n0 = log_of w2 i) by (unfold log_of; rewrite Bi; reflexivity).
    destruct (max_term (fun j => saved_term (w_sys w2 j)) V) as (T & HT).
    destruct (raise_term i (N.to_nat T) w2 n0 Hi Pne Bi Run) as (n1 & w3 & C1 & C2 & C3 & C4 & C5 & C6 & C7).
    destruct (campaign_once w3 i n1 Hi Pne C2 C4) as (n2 & w4 & qs & D1 & D2 & D3 & D4 & D5 & D6 & (D7 & D7s) & D8 & D9 & D10 & D11 & D12 & D13).
    set (t := n_term n1 + 1) in *. destruct C4 as (G1 & G2 & G3 & G4 & G5 & G6).
    set (inV := fun p : peer => if in_dec Z.eq_dec (p_id p) V then true else false).
    set (S := map (fun p => (p_id p, p_uid p)) (filter inV (n_peers n1))).
    assert (FS : map fst S = map p_id (filter inV (n_peers n1))) by (unfold S; rewrite map_map; reflexivity).
    assert (InS : forall x, In x S -> exists p, In p (n_peers n1) /\ x = (p_id p, p_uid p) /\ In (p_id p) V).
    { intros x Hx. unfold S in Hx. apply in_map_iff in Hx. destruct Hx as (p & <- & Hp). apply filter_In in Hp. destruct Hp as (Hp & Hb). unfold inV in Hb.
      destruct (in_dec Z.eq_dec (p_id p) V); [eauto | discriminate Hb]. }
    assert (SV : forall j, In j V -> j <> i -> In j (map fst S)).
    { intros j Hj D. assert (X : In j (map p_id (n_peers n1))) by (rewrite G6; apply pids_in; auto).
      apply in_map_iff in X. destruct X as (p & E & Hp). rewrite FS. apply in_map_iff. exists p. split; [exact E|]. apply filter_In. split; [exact Hp|].
      unfold inV. rewrite E. destruct (in_dec Z.eq_dec j V); [reflexivity | contradiction]. }
    assert (NS : NoDup (map fst S)).
    { rewrite FS. clear - G4. induction (n_peers n1) as [|p l IH]; cbn [filter map]; [constructor|]. cbn [map] in G4. inversion G4; subst.
      destruct (inV p); [|apply IH; assumption]. cbn [map]. constructor; [|apply IH; assumption]. intros X. apply H1. apply in_map_iff in X.
      destruct X as (y & E & Hy). apply filter_In in Hy. rewrite <- E. apply in_map, Hy. }
    assert (SI : forall j, In j (map fst S) -> In j V /\ In j ids /\ j <> i).
    { intros j Hj. apply in_map_iff in Hj. destruct Hj as (x & <- & Hx). destruct (InS x Hx) as (p & P1 & -> & P2). cbn [fst]. split; [exact P2|].
      assert (X : In (p_id p) (map p_id (n_peers n1))) by (apply in_map, P1). rewrite G6 in X. apply pids_in in X. exact X. }
    assert (LV : (length V <= 1 + length S)%nat).
    { rewrite <- (map_length fst S). apply (NoDup_incl_length NV (l' := i :: map fst S)). intros j Hj. destruct (Z.eq_dec j i) as [->|D]; [left; reflexivity | right; apply SV; assumption]. }
    assert (Sys4 : forall j, j <> i -> w_sys w4 j = w_sys w2 j) by (intros j D; rewrite (D4 j D); apply C3, D).
    assert (L1 : n_log n1 = log_of w2 i) by congruence.
    destruct (ask_votes i t (end_term (log_of w2 i)) (a_next (log_of w2 i) - 1) S w4 Hi NS) as (w5 & H1 & H2 & H3 & H4).
    { intros X. destruct (SI i X) as (_ & _ & X3). congruence. } { intros j Hj. apply SI, Hj. }
    { intros x Hx. destruct (InS x Hx) as (p & P1 & P2 & P3). split.
      - rewrite <- D12 in P1. apply in_map_iff in P1. destruct P1 as ((p' & q) & P4 & P5). cbn [fst] in P4. subst p'.
        destruct (D13 p q P5) as ((Q1 & Q2 & Q3 & Q4 & Q5 & Q6 & _) & Q9). exists q. subst x. split; [exact Q9|]. split; [exact Q1|]. split; [exact Q3|].
        split; [exact Q4|]. split; [|rewrite Q5, L1; reflexivity]. rewrite <- L1. apply end_term_is; assumption.
      - assert (Hx1 : In (fst x) (map fst S)) by (apply in_map, Hx). destruct (SI _ Hx1) as (J1 & J2 & J3).
        destruct (B2 (fst x) J1) as (m & Em). destruct (St2 (fst x) J2) as (X1 & X2 & _). rewrite Em in X1, X2. cbn [sys_disk] in X2.
        destruct X1 as (X1 & X3 & _). assert (Dm : n_disk m = sys_disk (w_sys w2 (fst x))) by (rewrite Em; reflexivity).
        exists m. split; [rewrite Sys4 by exact J3; exact Em|]. split; [exact X1|]. split; [exact X2|]. split.
        + specialize (HT (fst x) J1). cbn beta in HT. unfold saved_term in HT. rewrite <- Dm, X3 in HT. unfold tv in HT. cbn [fst] in HT. unfold t. lia.
        + assert (Lm : n_log m = log_of w2 (fst x)) by (unfold n_log, log_of; rewrite Dm; reflexivity).
          unfold up_to_date, last_index. rewrite end_term_last by exact X2. rewrite Lm. destruct (Hno (fst x) J1) as [O|(O1 & O2)]; [left; exact O | right; split; [exact O1 | lia]]. }
    assert (E5 : w_sys w5 i = Up n2).
    { rewrite H3; [exact D3|]. intros X. destruct (SI i X) as (_ & _ & X3). congruence. }
    assert (Pl : (length (n_peers n2) + 1 = length ids)%nat) by (rewrite D11, <- (map_length p_id (n_peers n1)), G6; apply pids_len; assumption).
    destruct (count_votes i t S w5 n2 Hi E5 D6 D10) as (w' & n' & J1 & J2 & J3 & J4 & (es & J5 & J5t) & J6 & J7 & J8).
    { rewrite D7. exact G3. } { rewrite D8, D9. reflexivity. } { rewrite D11. exact G4. } { rewrite D11. exact G5. } { exact Pl. } { exact NS. }
    { intros x Hx. assert (Hx1 : In (fst x) (map fst S)) by (apply in_map, Hx). destruct (SI _ Hx1) as (Y1 & Y2 & Y3). split.
      { rewrite D8. intros [X|[]]. congruence. } split; [exact Y2|]. split; [|apply H4, Hx].
      destruct (InS x Hx) as (p & P1 & -> & _). rewrite D11. apply (in_map (fun p => (p_id p, p_uid p))). exact P1. }
    { rewrite D8. cbn [length]. destruct (pids servers i) as [|a b] eqn:Ep; [congruence|]. rewrite D11 in Pl. rewrite <- (map_length p_id (n_peers n1)), G6 in Pl. cbn [length] in Pl. lia. }
    { rewrite D8. cbn [length]. lia. }
    exists w', n', es. split.
    { eapply reach_trans; [exact C1|]. eapply reach_trans; [apply reach_one, D1|]. eapply reach_trans; eassumption. }
    split; [exact J2|]. split; [exact J3|]. split; [split; [rewrite J5, D7, L1; reflexivity | rewrite J4; exact J5t]|]. split.
    { intros j Hj. specialize (HT j Hj). cbn beta in HT. rewrite J4. unfold t. lia. } split.
    - intros j Hj D. assert (X := SV j Hj D). apply in_map_iff in X. destruct X as (x & Ex & Hx). destruct (H4 x Hx) as (_ & (m & M1 & M2 & M3 & M4)). rewrite Ex in M1, M4.
      exists m. split; [rewrite (J6 j D); exact M1|]. split; [exact M2|]. split; [congruence|]. unfold log_of in *. rewrite (J6 j D), M4, (Sys4 j D). reflexivity.
    - split; [|split; [rewrite D7, L1 in J7; exact J7 | rewrite J8, D7s, C7; reflexivity]]. intros j Hj. assert (D : j <> i) by (intros ->; exact (Hj HiV)). rewrite (J6 j D), H3.
      + apply (Sys4 j D).
      + intros X. apply Hj, SI, X.
  Qed.

  Theorem can_lead : forall w0 w V i, initial servers w0 -> reach w0 w ->
    NoDup V -> incl V ids -> (length ids < 2 * length V)%nat ->
    In i V -> pm_prevote (prm i) = false -> (forall j, In j V -> no_older (log_of w i) (log_of w j)) ->
    exists w' n es, reach w w' /\ w_sys w' i = Up n /\ n_role n = Leader /\ (n_log n = log_plus (log_of w i) es /\ forall e, In e es -> ev_term e = n_term n) /\
      (forall j, In j V -> saved_term (w_sys w j) < n_term n) /\
      (forall j, In j V -> j <> i -> exists m, w_sys w' j = Up m /\ n_role m = Follower /\ n_term m = n_term n /\ log_of w' j = log_of w j) /\
      (forall j, ~ In j V -> w_sys w' j = w_sys w j) /\ starts_off w' i n (a_next (log_of w i)) /\ n_smc n = dk_commit (sys_disk (w_sys w i)).
  Proof.
    intros w0 w V i Hi0 Hr NV IV QV HiV Hpv Hno. assert (Hi : In i ids) by (apply IV, HiV).
    destruct (start_again w i Hi) as (w1 & d & A1 & A2 & A3 & A4).
    destruct (start_down V w1 IV) as (w2 & B1 & B2 & B3 & B4).
    set (n0 := start_node i (prm i) d) in *.
    assert (Bi : w_sys w2 i = Up n0) by (rewrite B4 by (right; eauto); exact A2).
    assert (Di : forall j, sys_disk (w_sys w2 j) = sys_disk (w_sys w j)).
    { intros j. rewrite B3. destruct (Z.eq_dec j i) as [->|D]; [|rewrite (A4 j D); reflexivity]. rewrite A2. cbn [sys_disk].
      unfold n0. destruct (start_facts i (prm i) d) as (_ & _ & _ & _ & _ & S6 & _). rewrite S6. exact A3. }
    assert (R02 : reach w0 w2) by (eapply reach_trans; [exact Hr | eapply reach_trans; eassumption]).
    assert (W2 := reach_winv servers prm HC HS w0 w2 Hi0 R02).
    assert (St2 := e_static _ _ _ (w_e _ _ _ W2)).
    destruct (St2 i Hi) as (U1 & U2 & _ & _). rewrite Bi in U1, U2. destruct U1 as (U1 & _ & U3 & _ & U4). cbn [sys_disk] in U2.
    destruct (start_facts i (prm i) d) as (F1 & F2 & F3 & F4 & F5 & F6 & F7 & F8 & F9). fold n0 in F1, F2, F3, F4, F5, F6, F7, F8, F9.
    assert (Run : runner i n0).
    { split; [exact F1|]. split; [split; [lia|]; split; [exact F4|]; right; split; [exact F3 | rewrite F2; exact Hpv]|]. split; [exact U2|].
      destruct (start_pinv i (prm i) d) as (V1 & _ & V3 & _). fold n0 in V1, V3. split; [exact V3|]. split; [|exact U3].
      unfold pool in V1. rewrite map_app in V1. revert V1. generalize (map p_uid (match n_join n0 with Some j => [j] | None => [] end)). intros l0 V1.
      clear - V1. induction (map p_uid (n_peers n0)) as [|a l IH]; [constructor|]. inversion V1; subst. constructor; [intros X; apply H1, in_or_app; left; exact X | apply IH; assumption]. }
    assert (L0 : n_log n0 = log_of w i) by (unfold n_log, log_of; rewrite F6, A3; reflexivity).
    destruct (max_term (fun j => saved_term (w_sys w j)) V) as (T & HT).
    destruct (list_eq_dec Z.eq_dec (pids servers i) []) as [Pe|Pne].
    { (* the only server *)
      assert (All : forall j, In j V -> j = i).
      { intros j Hj. destruct (Z.eq_dec j i) as [E|D]; [exact E|]. exfalso. assert (X : In j (pids servers i)) by (apply pids_in; auto). rewrite Pe in X. exact X. }
      destruct (C81_elects_itself n0) as (n' & E & K1 & _ & K3 & _ & K5 & _ & _ & _ & Ks).
      { rewrite Pe in U3. apply map_eq_nil in U3. exact U3. } { lia. } { exact F4. } { rewrite F3. discriminate. } { intros _ _. exact F7. }
      exists (next_world w2 i (Up n') [mkObs EElection ([ASaveState (n_term n0 + 1) (-1); ASaveState (n_term n0 + 1) (n_id n0); ATimer false; ABecomeLeader (n_term n0 + 1)] ++ map AAppend (own_config n0)) (Some Nothing)]), n', (own_config n0).
      split.
      { eapply Reach_S; [eapply reach_trans; eassumption|]. exact (W_event servers prm w2 i n0 EElection (ROk Nothing) n' _ Hi Bi I E eq_refl). }
      unfold next_world. cbn [w_sys]. split; [apply put_same|]. split; [exact K1|]. split.
      { split; [rewrite K5, L0; reflexivity|]. intros e He. unfold own_config in He. destruct (_ =? _); [|destruct He]. destruct He as [<-|[]]. rewrite K3. reflexivity. }
      split.
      { intros j Hj. rewrite (All j Hj). unfold saved_term. rewrite <- A3. lia. }
      split; [intros j Hj D; elim D; apply All, Hj|].
      split; [intros j Hj; assert (D : j <> i) by (intros ->; exact (Hj HiV)); rewrite put_other by exact D; rewrite B4 by (left; exact Hj); apply A4, D|].
      split; [|rewrite Ks, F9, A3; reflexivity]. assert (Np : n_peers n' = []); [|intros p Hp; rewrite Np in Hp; destruct Hp].
      assert (R3 : reach w0 (next_world w2 i (Up n') [mkObs EElection ([ASaveState (n_term n0 + 1) (-1); ASaveState (n_term n0 + 1) (n_id n0); ATimer false; ABecomeLeader (n_term n0 + 1)] ++ map AAppend (own_config n0)) (Some Nothing)])).
      { eapply Reach_S; [exact R02|]. exact (W_event servers prm w2 i n0 EElection (ROk Nothing) n' _ Hi Bi I E eq_refl). }
      destruct (e_static _ _ _ (w_e _ _ _ (reach_winv servers prm HC HS w0 _ Hi0 R3)) i Hi) as (S1 & _). unfold next_world in S1. cbn [w_sys] in S1. rewrite put_same in S1.
      destruct S1 as (_ & _ & S1 & _). rewrite Pe in S1. apply map_eq_nil in S1. exact S1. }
    assert (Lw : forall j, log_of w2 j = log_of w j) by (intros j; unfold log_of; rewrite Di; reflexivity).
    destruct (runner_leads w0 w2 V i n0 Hi0 R02 NV IV QV HiV Pne B2 Bi Run) as (w' & n & es & J1 & J2 & J3 & J4 & J5 & J6 & J7 & J8 & J9).
    { intros j Hj. rewrite !Lw. apply Hno, Hj. }
    rewrite Lw in J4, J8. exists w', n, es. split; [eapply reach_trans; [exact A1 | eapply reach_trans; [exact B1 | exact J1]]|].
    split; [exact J2|]. split; [exact J3|]. split; [exact J4|]. split; [intros j Hj; unfold saved_term in *; rewrite <- Di; apply J5, Hj|]. split.
    - intros j Hj D. destruct (J6 j Hj D) as (m & M1 & M2 & M3 & M4). exists m. rewrite Lw in M4. auto.
    - split; [|split; [exact J8 | rewrite J9, F9, A3; reflexivity]]. intros j Hj. assert (D : j <> i) by (intros ->; exact (Hj HiV)). rewrite (J7 j Hj), B4 by (left; exact Hj). apply A4, D.
  Qed.
End Recover.

(** ** C104 *)
Theorem C104_can_lead : forall servers prm w0 w V i, cluster_okay servers -> no_snapshots prm -> initial servers w0 -> reach servers prm w0 w ->
  NoDup V -> incl V (ids servers) -> (length (ids servers) < 2 * length V)%nat ->
  In i V -> pm_prevote (prm i) = false -> (forall j, In j V -> no_older (log_of w i) (log_of w j)) ->
  exists w' n es, reach servers prm w w' /\ w_sys w' i = Up n /\ n_role n = Leader /\ (n_log n = log_plus (log_of w i) es /\ forall e, In e es -> ev_term e = n_term n) /\
    (forall j, In j V -> saved_term (w_sys w j) < n_term n) /\
    (forall j, In j V -> j <> i -> exists m, w_sys w' j = Up m /\ n_role m = Follower /\ n_term m = n_term n /\ log_of w' j = log_of w j) /\
    (forall j, ~ In j V -> w_sys w' j = w_sys w j).
Proof.
  intros servers prm w0 w V i HC HS H1 H2 H3 H4 H5 H6 H7 H8.
  destruct (can_lead servers prm HC HS w0 w V i H1 H2 H3 H4 H5 H6 H7 H8) as (w' & n & es & A1 & A2 & A3 & A4 & A5 & A6 & A7 & _).
  exists w', n, es. auto 8.
Qed.

Lemma no_older_total : forall a b, no_older a b \/ no_older b a.
Proof.
  intros a b. unfold no_older. destruct (N.lt_trichotomy (end_term a) (end_term b)) as [H|[H|H]]; [auto | | auto].
  destruct (N.le_ge_cases (a_next a) (a_next b)); [right | left]; right; split; congruence || assumption.
Qed.
Lemma no_older_trans : forall a b c, no_older a b -> no_older b c -> no_older a c.
Proof. intros a b c. unfold no_older. intros [H|(H & H')] [K|(K & K')]; [left; lia | left; lia | left; lia | right; split; [congruence | lia]]. Qed.
Lemma newest : forall (f : Z -> alog) V, V <> [] -> exists i, In i V /\ forall j, In j V -> no_older (f i) (f j).
Proof.
  intros f V. induction V as [|x V IH]; [congruence|]. intros _.
  assert (R : forall a, no_older a a) by (intros a; right; split; [reflexivity | lia]).
  destruct V as [|y V]; [exists x; split; [left; reflexivity | intros j [<-|[]]; apply R]|].
  destruct IH as (i & I1 & I2); [discriminate|]. destruct (no_older_total (f i) (f x)) as [H|H].
  - exists i. split; [right; exact I1|]. intros j [<-|Hj]; [exact H | apply I2, Hj].
  - exists x. split; [left; reflexivity|]. intros j [<-|Hj]; [apply R | eapply no_older_trans; [exact H | apply I2, Hj]].
Qed.

(** whatever has happened, and whichever servers are gone for good, a majority can elect one of
    its servers *)
Theorem C104_elects_again : forall servers prm w0 w V, cluster_okay servers -> no_snapshots prm -> initial servers w0 -> reach servers prm w0 w ->
  NoDup V -> incl V (ids servers) -> (length (ids servers) < 2 * length V)%nat -> (forall i, In i V -> pm_prevote (prm i) = false) ->
  exists i w' n, In i V /\ reach servers prm w w' /\ w_sys w' i = Up n /\ n_role n = Leader /\
    (forall j, In j V -> saved_term (w_sys w j) < n_term n) /\
    (forall j, In j V -> j <> i -> exists m, w_sys w' j = Up m /\ n_role m = Follower /\ n_term m = n_term n) /\
    (forall j, ~ In j V -> w_sys w' j = w_sys w j).
Proof.
  intros servers prm w0 w V HC HS Hi Hr NV IV QV HP.
  destruct (newest (log_of w) V) as (i & I1 & I2); [intros ->; cbn in QV; lia|].
  destruct (C104_can_lead servers prm w0 w V i HC HS Hi Hr NV IV QV I1 (HP i I1) I2) as (w' & n & es & A1 & A2 & A3 & A4 & A5 & A6 & A7).
  exists i, w', n. split; [exact I1|]. split; [exact A1|]. split; [exact A2|]. split; [exact A3|]. split; [exact A5|]. split; [|exact A7].
  intros j Hj D. destruct (A6 j Hj D) as (m & M1 & M2 & M3 & _). eauto.
Qed.

From Verif Require Import NodeExamples ClusterExamples P_Cluster.
(** three servers after four elections: the logs of the first two differ, their terms too; the
    first and the third can make the third leader, the first has the older log *)
Lemma pick_ends : forall (f : Z -> alog) (g : Z -> N), map (fun i => (g i, end_term (f i), a_next (f i))) [1; 2; 3]%Z = [(3, 1, 3); (4, 2, 3); (4, 2, 3)] ->
  (forall j, In j [1; 3]%Z -> no_older (f 3%Z) (f j)) /\ ~ no_older (f 1%Z) (f 3%Z).
Proof.
  intros f g F. cbn [map] in F. injection F as _ A1 A2 _ _ _ _ C1 C2. unfold no_older.
  rewrite A1, A2, C1, C2. split; [|lia]. intros j [<-|[<-|[]]]; [rewrite A1, A2; lia | rewrite C1, C2; lia].
Qed.
Lemma fig8_state : map (fun i => (saved_term (w_sys fig8 i), end_term (log_of fig8 i), a_next (log_of fig8 i))) (ids ex_servers) = [(3, 1, 3); (4, 2, 3); (4, 2, 3)].
Proof. vm_compute. reflexivity. Qed.
Example C104_example : ids ex_servers = [1; 2; 3]%Z /\ cluster_okay ex_servers /\ no_snapshots (fun _ => ex_prm) /\ initial ex_servers ex_world /\
  reach ex_servers (fun _ => ex_prm) ex_world fig8 /\ pm_prevote ex_prm = false /\
  NoDup [1; 3]%Z /\ incl [1; 3]%Z (ids ex_servers) /\ (length (ids ex_servers) < 2 * length [1; 3]%Z)%nat /\
  (forall j, In j [1; 3]%Z -> no_older (log_of fig8 3) (log_of fig8 j)) /\ ~ no_older (log_of fig8 1) (log_of fig8 3).
Proof.
  split; [reflexivity|]. split; [exact ex_okay|]. split; [exact ex_nosnap|]. split; [exact ex_initial|]. split; [apply ex_reach|]. split; [reflexivity|].
  split; [repeat constructor; cbn; intuition lia|]. split; [intros j [<-|[<-|[]]]; cbn; auto|]. split; [cbn; lia|].
  apply (pick_ends (log_of fig8) (fun i => saved_term (w_sys fig8 i))). exact fig8_state.
Qed.

Print Assumptions C104_can_lead.
Print Assumptions C104_elects_again.
