(** * P_Avail: a cluster can always commit

    Whatever has happened to a cluster, any majority of its servers can commit any request of a
    client without the others. *)

From Verif Require Import Base Buffer BufferSpec Codec CodecSpec BufferProofs CodecProofs Msg FsLogStore FsLogSpec Alog Raft RaftQuiet RaftWalk NodeSpec NodeLife NodeFacts
  ServerSpec PeerWalk PeerInv AppendFacts P_Config P_Vote P_Leader P_Append P_Commit Runs ServeFacts P_Serve P_Elect P_Ack P_Progress Cluster ClusterElect ClusterRun ClusterWalkS P_Cluster P_Recover.
Local Open Scope N_scope.

(** ** One exchange

    [q] is a request of the leader [n] with entries for its peer [p] *)
Definition offered (n : node) (p : peer) (q : req) : Prop :=
  rq_type q = append_entries_request /\ rq_dst q = p_id p /\ rq_term q = n_term n /\ rq_last_idx q + 1 = p_next p /\
  term_is n (rq_last_idx q) (rq_last_term q) /\
  forall k e, nth_error (rq_entries q) k = Some e -> a_get (n_log n) (p_next p + N.of_nat k) = Some e.
(** the log of [f] has the entry the leader [n] has before index [x] *)
Definition matched (n f : node) (x : N) : Prop :=
  x = 1 \/ exists e e', a_get (n_log n) (x - 1) = Some e /\ a_get (n_log f) (x - 1) = Some e' /\ ev_term e' = ev_term e.

Lemma ae_answer : forall q m r m' l, rq_type q = append_entries_request -> n_term m <= rq_term q ->
  run_event (ERequest 0 q) m = (ROk (Response r), m', l) ->
  rs_type r = append_entries_response /\ rs_src r = n_id m /\ rs_term r = rq_term q.
Proof.
  intros q n r n' l Ht Hge E.
  assert (Ap : process_req 0 q n = after (arrived_acts (rq_term q) n) (handle_append_entries q (arrived (rq_term q) n)))
    by (rewrite process_peer_req; rewrite Ht; reflexivity).
  cbn [run_event] in E. assert (V := ae_speaks q (arrived (rq_term q) n)). unfold ht in V.
  assert (An : n_id (arrived (rq_term q) n) = n_id n /\ n_term (arrived (rq_term q) n) = rq_term q).
  { unfold arrived. destruct (N.ltb_spec (n_term n) (rq_term q)); destruct (0 <? n_steps _)%Z; split; try reflexivity; cbn [n_term set_steps]; lia. }
  destruct An as (An1 & An2). rewrite An1, An2 in V.
  destruct (handle_append_entries q (arrived (rq_term q) n)) as [[x nn] ll] eqn:Ev. destruct (V _ _ _ eq_refl) as [_ V2].
  destruct x as [a| | |]; unfold bind in E; rewrite Ap in E; unfold after in E; cbn [fst snd] in E; try discriminate E.
  inversion E; subst. destruct (V2 _ eq_refl) as (S1 & S2 & S3 & S4). auto.
Qed.
Lemma reaches : forall m q, al_start (n_log m) = 1 -> in_reach m q.
Proof. intros m q H. unfold in_reach. rewrite H. split; [right; lia|]. destruct (N.eq_dec (rq_last_idx q) 0); [left; assumption | right; left; lia]. Qed.

Lemma term_entry : forall n i t, al_start (n_log n) = 1 -> 0 < i -> term_is n i t -> exists e, a_get (n_log n) i = Some e /\ t = ev_term e.
Proof. intros n i t Hs Hi [(E & _)|[(e & E)|(H & _)]]; [lia | eauto | lia]. Qed.

(** the member takes the entries *)
Lemma takes_entries : forall n p q m, al_start (n_log n) = 1 -> al_start (n_log m) = 1 -> offered n p q -> 1 <= p_next p ->
  n_term m <= n_term n -> (n_role m = Leader -> n_term m < n_term n) -> matched n m (p_next p) ->
  exists r m' l, run_event (ERequest 0 q) m = (ROk (Response r), m', l) /\ rs_accepted r = true /\ rs_type r = append_entries_response /\
    rs_src r = n_id m /\ rs_term r = n_term n /\ rs_next_idx r = p_next p + lenN (rq_entries q) /\
    n_role m' = Follower /\ n_term m' = n_term n /\ matched n m' (p_next p + lenN (rq_entries q)).
Proof.
  intros n p q m Hn Hm (O1 & O2 & O3 & O4 & O5 & O6) Hp Ht Hl Hx.
  destruct (C29_append_partial 0 q m O1) as (r & m' & l & E & A1 & _ & A3 & _ & _ & A4 & A5); [lia | intros R; specialize (Hl R); lia | lia | apply reaches, Hm|].
  assert (Hc : consistent m q).
  { destruct Hx as [Hx|(e & e' & X1 & X2 & X3)]; [left; lia | right; left]. replace (p_next p - 1) with (rq_last_idx q) in X1, X2 by lia.
    exists e'. split; [exact X2|]. assert (R := a_get_some _ _ _ X1).
    assert (Pi : 0 < rq_last_idx q) by lia. destruct (term_entry n _ _ Hn Pi O5) as (e0 & E0 & ->). congruence. }
  apply A1 in Hc. assert (Tq : n_term m <= rq_term q) by lia. destruct (ae_answer q m r m' l O1 Tq E) as (S1 & S2 & S3).
  destruct (A3 Hc) as (N1 & _ & _ & k & K1 & K2 & K3 & K4 & K5).
  exists r, m', l. split; [exact E|]. split; [exact Hc|]. split; [exact S1|]. split; [exact S2|]. split; [congruence|]. split; [lia|]. split; [exact A4|]. split; [congruence|].
  destruct (rq_entries q) as [|e0 es] eqn:Eq.
  - change (lenN []) with 0. rewrite N.add_0_r. cbn [length] in K1. assert (k = 0%nat) by lia. subst k. 
    destruct Hx as [Hx|(e & e' & X1 & X2 & X3)]; [left; exact Hx | right]. exists e, e'. rewrite (K4 eq_refl). auto.
  - right. set (j := length es). assert (L : lenN (e0 :: es) = N.of_nat j + 1) by (unfold lenN, j; cbn [length]; lia).
    destruct (nth_error (e0 :: es) j) as [e|] eqn:Ej.
    2: { apply nth_error_None in Ej. cbn [length] in Ej. unfold j in Ej. lia. }
    assert (G := O6 j e Ej). replace (p_next p + lenN (e0 :: es) - 1) with (p_next p + N.of_nat j) by lia.
    destruct (Nat.lt_ge_cases j k) as [Hj|Hj].
    + destruct (K2 j Hj) as (e1 & e1' & G1 & G2 & G3). exists e, e1'. split; [exact G|]. split; [|congruence].
      rewrite K3 by lia. replace (p_next p + N.of_nat j) with (rq_last_idx q + 1 + N.of_nat j) by lia. exact G2.
    + assert (Kl : (k < length (e0 :: es))%nat) by (cbn [length]; unfold j in *; lia).
      destruct (nth_error (e0 :: es) k) as [ek|] eqn:Ek; [|apply nth_error_None in Ek; lia].
      destruct (K5 ek eq_refl) as (_ & K6). exists e, e. split; [exact G|]. split; [|reflexivity].
      replace (p_next p + N.of_nat j) with (rq_last_idx q + 1 + N.of_nat j) by lia. rewrite (K6 j Hj). exact Ej.
Qed.
(** the member refuses them *)
Lemma refuses_entries : forall n p q m, al_start (n_log n) = 1 -> al_start (n_log m) = 1 -> offered n p q -> 1 <= p_next p ->
  n_term m <= n_term n -> (n_role m = Leader -> n_term m < n_term n) ->
  matched n m (p_next p) \/
  exists r m' l, run_event (ERequest 0 q) m = (ROk (Response r), m', l) /\ rs_accepted r = false /\ rs_type r = append_entries_response /\
    rs_src r = n_id m /\ rs_term r = n_term n /\ n_role m' = Follower /\ n_term m' = n_term n /\ n_log m' = n_log m /\ 1 < p_next p.
Proof.
  intros n p q m Hn Hm (O1 & O2 & O3 & O4 & O5 & O6) Hp Ht Hl.
  destruct (C29_append_partial 0 q m O1) as (r & m' & l & E & A1 & A2 & _ & _ & _ & A4 & A5); [lia | intros R; specialize (Hl R); lia | lia | apply reaches, Hm|].
  destruct (rs_accepted r) eqn:Er.
  - left. destruct (proj1 A1 eq_refl) as [Hc|[(e & C1 & C2)|(Hc & _)]]; [left; lia | | left; lia].
    assert (R := a_get_some _ _ _ C1). assert (Pi : 0 < rq_last_idx q) by lia. destruct (term_entry n _ _ Hn Pi O5) as (e0 & E0 & T0). right.
    replace (p_next p - 1) with (rq_last_idx q) by lia. exists e0, e. split; [exact E0|]. split; [exact C1 | congruence].
  - right. assert (Tq : n_term m <= rq_term q) by lia. destruct (ae_answer q m r m' l O1 Tq E) as (S1 & S2 & S3). exists r, m', l. split; [exact E|]. split; [exact Er|]. split; [exact S1|]. split; [exact S2|].
    split; [congruence|]. split; [exact A4|]. split; [congruence|]. split; [apply A2; reflexivity|].
    destruct (N.eq_dec (p_next p) 1) as [D|D]; [|lia]. exfalso. assert (X : consistent m q) by (left; lia). apply A1 in X. discriminate X.
Qed.

(** ** The leader

    a leader that can serve all its peers *)
Definition leading (n : node) : Prop :=
  n_role n = Leader /\ al_start (n_log n) = 1 /\ NoDup (map p_id (n_peers n)) /\ NoDup (map p_uid (n_peers n)) /\ 1 <= pm_max_append (n_prm n) /\
  forall p, In p (n_peers n) -> 1 <= p_next p <= a_next (n_log n).
(** [n'] is [n] after dealing with peer [j] *)
Definition dealt (j : Z) (n n' : node) : Prop :=
  (exists ps k, n' = set_peers ps (set_quick k n)) /\ map p_id (n_peers n') = map p_id (n_peers n) /\ map p_uid (n_peers n') = map p_uid (n_peers n) /\
  forall k p, k <> j -> find_peer k (n_peers n) = Some p -> exists p', find_peer k (n_peers n') = Some p' /\ p_uid p' = p_uid p /\ p_match p' = p_match p /\
    p_next p' = p_next p.

Lemma nth_firstn : forall A (l : list A) m k e, nth_error (firstn m l) k = Some e -> nth_error l k = Some e.
Proof. intros A l. induction l as [|x l IH]; intros [|m] [|k] e; cbn [firstn nth_error]; try discriminate; auto. apply IH. Qed.
Lemma offered_of : forall n n' p p' X q, al_start (n_log n) = 1 -> 1 <= X -> n_disk n' = n_disk n -> n_term n' = n_term n -> p_id p' = p_id p -> p_next p' = X ->
  offers_entries n p X q -> offered n' p' q.
Proof.
  intros n n' p p' X q Hs HX Ed Et Ei Ex (O1 & O2 & O3 & O4 & O5 & O6 & O7 & O8). unfold offered, term_is, n_log. rewrite Ed, Et, Ei, Ex.
  split; [exact O1|]. split; [exact O3|]. split; [exact O4|]. split; [lia|]. split; [rewrite O6; exact O7|].
  intros k e H. rewrite O8 in H. apply nth_firstn in H. rewrite nth_from in H by lia. exact H.
Qed.
Lemma may_serve : forall n p, al_start (n_log n) = 1 -> 1 <= p_next p <= a_next (n_log n) -> next_of n p = p_next p /\ has_entries n (p_next p).
Proof.
  intros n p Hs Hp. split; [unfold next_of; replace (p_next p =? 0) with false by lia; reflexivity|]. unfold has_entries. rewrite Hs.
  destruct (N.eq_dec (p_next p) 1); [right; left; auto | left; lia].
Qed.
Lemma may_serve_at : forall n x, al_start (n_log n) = 1 -> 1 <= x <= a_next (n_log n) -> has_entries n x.
Proof. intros n x Hs Hp. unfold has_entries. rewrite Hs. destruct (N.eq_dec x 1); [right; left; auto | left; lia]. Qed.
Lemma find_mem : forall j l p, find_peer j l = Some p -> In p l.
Proof. intros j l p F. unfold find_peer in F. apply find_some in F. apply F. Qed.
Lemma find_back : forall l p, NoDup (map p_id l) -> In p l -> find_peer (p_id p) l = Some p.
Proof.
  intros l p N H. apply in_split in H. destruct H as (a & b & ->). apply find_one, N.
Qed.

Lemma hears_yes : forall n j p q0 r, leading n -> find_peer j (n_peers n) = Some p -> rq_type q0 = append_entries_request ->
  rs_type r = append_entries_response -> rs_accepted r = true -> rs_src r = j -> rs_term r = n_term n -> 1 <= rs_next_idx r <= a_next (n_log n) ->
  exists n' p' l, run_event (ERpc 0 (p_uid p) false q0 (Some r)) n = (ROk Nothing, n', l) /\ leading n' /\ dealt j n n' /\
    find_peer j (n_peers n') = Some p' /\ p_uid p' = p_uid p /\ p_next p' = rs_next_idx r /\ p_match p' = rs_next_idx r - 1 /\
    (rs_next_idx r < a_next (n_log n) -> exists q, In (ASend (p_uid p) false q) l /\ offered n' p' q /\ rq_entries q <> []) /\
    (majority_reached (a_next (n_log n) - 1) ((a_next (n_log n) - 1) :: map p_match (n_peers n')) -> a_next (n_log n) - 1 <= n_quick n').
Proof.
  intros n j p q0 r (L1 & L2 & L3 & L4 & L5 & L6) F Hq0 Hrt Ha Hsrc Ht Hx. subst j.
  assert (Lv := live_one n _ p L4 F). assert (Ip := find_mem _ _ _ F). assert (Pid := find_peer_id _ _ _ F).
  destruct (C82_accepted n 0 r p q0 L1 F Lv Hq0 Hrt Ha) as (v & n' & qs & (V1 & V2) & E & Q & En & K & W & O); [lia | lia | exact L3 | lia | |].
  { intros x Hx1 _. unfold goes_on. destruct (p_id x =? rs_src r)%Z; [apply may_serve_at; assumption|].
    destruct (may_serve n x L2 (L6 x Hx1)) as (-> & H). exact H. }
  destruct (knows_maps _ _ _ _ _ K) as (K1 & K2). destruct (knows_find _ _ _ _ _ _ _ K F) as (p' & F' & KP).
  destruct KP as (U1 & U2 & _ & _ & _ & U3). replace (p_id p =? rs_src r)%Z with true in U3 by lia. destruct U3 as (U3 & U4 & _).
  assert (Ed : n_disk n' = n_disk n) by (rewrite En; reflexivity). assert (Et : n_term n' = n_term n) by (rewrite En; reflexivity).
  assert (El : n_log n' = n_log n) by (unfold n_log; rewrite Ed; reflexivity).
  assert (Pi' : p_id p' = p_id p) by (unfold p_id; rewrite U2; reflexivity).
  exists n', p', (sends qs). split; [exact E|]. split.
  { split; [rewrite En; exact L1|]. rewrite El. split; [exact L2|]. rewrite K1, K2. split; [exact L3|]. split; [exact L4|]. split; [rewrite En; exact L5|].
    intros y Hy. destruct (forall2_in_r _ _ _ _ _ _ K Hy) as (x & Hx1 & (_ & _ & _ & _ & _ & KX)).
    specialize (L6 x Hx1). destruct (p_id x =? rs_src r)%Z; [destruct KX as (_ & -> & _); exact Hx|].
    destruct KX as (_ & KX). destruct (n_quick n <? v); [|subst y; exact L6]. destruct KX as (_ & KX). destruct (p_busy x).
    - destruct KX as (-> & _). exact L6.
    - destruct KX as (-> & _). destruct (may_serve n x L2 L6) as (-> & _). exact L6. }
  split.
  { split; [eauto|]. split; [exact K2|]. split; [exact K1|]. intros k x D Fx. destruct (knows_find _ _ _ _ _ _ _ K Fx) as (x' & Fx' & KX).
    exists x'. split; [exact Fx'|]. destruct KX as (X1 & _ & _ & _ & _ & KX). split; [exact X1|].
    assert (Dx := find_peer_id _ _ _ Fx). replace (p_id x =? rs_src r)%Z with false in KX by lia. destruct KX as (X2 & KX). split; [exact X2|].
    destruct (n_quick n <? v); [|subst x'; auto]. destruct KX as (_ & KX). destruct (p_busy x); destruct KX as (-> & _); [reflexivity|].
    apply may_serve; [exact L2 | apply L6, (find_mem _ _ _ Fx)]. }
  split; [exact F'|]. split; [exact U1|]. split; [exact U4|]. split; [exact U3|]. split.
  - intros Hlt. assert (Iw : In p (map fst qs)).
    { rewrite W. apply filter_In. split; [exact Ip|]. destruct (n_quick n <? v); [unfold idle; replace (p_id p =? rs_src r)%Z with true by lia; reflexivity|].
      replace (p_id p =? rs_src r)%Z with true by lia. replace (rs_next_idx r <? a_next (n_log n)) with true by lia. rewrite orb_true_r. reflexivity. }
    apply in_map_iff in Iw. destruct Iw as ((x & q) & Ex & Iq). cbn [fst] in Ex. subst x.
    assert (Oq := O p q Iq). unfold goes_on in Oq. replace (p_id p =? rs_src r)%Z with true in Oq by lia.
    exists q. split; [apply in_map_iff; exists (p, q); auto|]. split; [apply (offered_of (set_quick (n_quick n') n) n' p p' (rs_next_idx r)); try assumption; lia|].
    destruct Oq as (_ & _ & _ & _ & _ & _ & _ & O8). change (n_log (set_quick (n_quick n') n)) with (n_log n) in O8. change (n_prm (set_quick (n_quick n') n)) with (n_prm n) in O8.
    rewrite O8. intros X. apply (f_equal (@length _)) in X. rewrite firstn_length, skipn_length in X. cbn [length] in X. unfold a_next, lenN in *. lia.
  - intros M. rewrite Q. assert (X : a_next (n_log n) - 1 <= v); [|lia]. apply V2. unfold match_of.
    replace (map (fun p0 : peer => if (p_id p0 =? rs_src r)%Z then rs_next_idx r - 1 else p_match p0) (n_peers n)) with (map p_match (n_peers n')); [exact M|].
    clear - K. induction K as [|x x' l l' KX K IH]; [reflexivity|]. cbn [map]. rewrite IH. f_equal. destruct KX as (_ & _ & _ & _ & _ & KX).
    destruct (p_id x =? rs_src r)%Z; destruct KX as (-> & _); reflexivity.
Qed.

Lemma hears_no : forall n j p q0 r, leading n -> find_peer j (n_peers n) = Some p -> rq_type q0 = append_entries_request ->
  rs_type r = append_entries_response -> rs_accepted r = false -> rs_src r = j -> rs_term r = n_term n -> 1 < p_next p ->
  exists n' p' q, run_event (ERpc 0 (p_uid p) false q0 (Some r)) n = (ROk Nothing, n', [ASend (p_uid p) false q]) /\ leading n' /\ dealt j n n' /\
    find_peer j (n_peers n') = Some p' /\ p_uid p' = p_uid p /\ p_next p' < p_next p /\ offered n' p' q.
Proof.
  intros n j p q0 r (L1 & L2 & L3 & L4 & L5 & L6) F Hq0 Hrt Ha Hsrc Ht Hx.
  assert (Lv := live_one n _ p L4 F). assert (Ip := find_mem _ _ _ F). assert (Pid := find_peer_id _ _ _ F).
  assert (Ak : 1 <= asked_for p r < p_next p).
  { unfold asked_for. destruct (N.ltb_spec 0 (rs_next_idx r)), (N.ltb_spec (rs_next_idx r) (p_next p)); cbn [andb]; lia. }
  destruct (rejected_event n 0 j p q0 r L1 F Lv Hq0 Hrt Hsrc Ha) as (n4 & y & T4 & Y1 & Y2 & Y3 & Y4 & Ev); [lia | lia|].
  destruct (touch_same _ _ _ _ T4) as (ps & Es). assert (L6p := L6 p Ip).
  set (p4 := p_set_next (asked_for p r) y) in *.
  assert (L4' : n_log n4 = n_log n) by (rewrite Es; reflexivity).
  destruct (may_serve n4 p4) as (Nx & He); [rewrite L4'; exact L2 | rewrite L4'; cbn [p4 p_next p_set_next]; unfold p4; cbn [p_next p_set_next]; lia|].
  change (p_next p4) with (asked_for p r) in Nx, He.
  destruct (term_known n4 (asked_for p r)) as (t & T1 & T2); [rewrite L4'; lia | exact He|].
  destruct (serve_log n4 j p4 t (touch_peer _ _ _ _ T4)) as (b & n' & l & E & -> & -> & T5); [exact Y1 | rewrite L4'; lia | rewrite L4', Nx; lia | rewrite Nx; exact T2|].
  rewrite Nx in *. set (p' := p_set_next (asked_for p r) (p_set_busy true p4)) in *.
  assert (T := touch_trans _ _ _ _ _ _ T4 T5). destruct (touch_same _ _ _ _ T) as (ps' & Es').
  exists n', p', (log_req n4 p4 (asked_for p r) t). split; [apply (Ev n' true); rewrite <- Y2; exact E|].
  destruct T as (f & Tf1 & Tf2 & Tf3 & Tf4).
  assert (I1 : map p_id (n_peers n') = map p_id (n_peers n)) by (rewrite Tf3; apply peers_upd; exact Tf1).
  assert (I2 : map p_uid (n_peers n') = map p_uid (n_peers n)) by (rewrite Tf3; cbn [upd_peer n_peers set_peers]; apply upd_peers_map; exact Tf2).
  assert (T : touch j p' n n') by (exists f; auto).
  split.
  { split; [rewrite Es'; exact L1|]. replace (n_log n') with (n_log n) by (rewrite Es'; reflexivity). split; [exact L2|]. rewrite I1, I2. split; [exact L3|]. split; [exact L4|].
    split; [rewrite Es'; exact L5|]. intros x Hx1. assert (Nd : NoDup (map p_id (n_peers n'))) by (rewrite I1; exact L3).
    assert (Fx := find_back _ _ Nd Hx1). destruct (Z.eq_dec (p_id x) j) as [D|D].
    - rewrite D, Tf4 in Fx. injection Fx as <-. unfold p'. cbn [p_next p_set_next]. lia.
    - rewrite (touch_other _ _ _ _ _ T D) in Fx. assert (Hx2 := find_mem _ _ _ Fx). apply L6, Hx2. }
  split.
  { split; [exists ps', (n_quick n); rewrite Es'; destruct n; reflexivity|]. split; [exact I1|]. split; [exact I2|]. intros k x D Fx. exists x. rewrite (touch_other _ _ _ _ _ T D). auto. }
  split; [exact Tf4|]. split; [exact Y2|]. split; [unfold p'; cbn [p_next p_set_next]; lia|].
  apply (offered_of n4 n' p4 p' (asked_for p r)); [rewrite L4'; exact L2 | lia | rewrite Es', Es; reflexivity | rewrite Es', Es; reflexivity | exact eq_refl | reflexivity|].
  apply offers_log, T1.
Qed.

Lemma dealt_trans : forall j a b c, dealt j a b -> dealt j b c -> dealt j a c.
Proof.
  intros j a b c ((ps & k & A1) & A2 & A3 & A4) ((ps' & k' & B1) & B2 & B3 & B4). split; [exists ps', k'; rewrite B1, A1; reflexivity|].
  split; [congruence|]. split; [congruence|]. intros x p D F. destruct (A4 x p D F) as (p1 & F1 & X1 & X2 & X3). destruct (B4 x p1 D F1) as (p2 & F2 & Y1 & Y2 & Y3).
  exists p2. split; [exact F2|]. split; [congruence|]. split; congruence.
Qed.
Lemma dealt_same : forall j n n', dealt j n n' -> n_log n' = n_log n /\ n_term n' = n_term n /\ n_disk n' = n_disk n /\ n_id n' = n_id n.
Proof. intros j n n' ((ps & k & ->) & _). auto. Qed.
Lemma matched_same : forall n n' m x, n_log n' = n_log n -> matched n' m x -> matched n m x.
Proof. intros n n' m x E. unfold matched. rewrite E. auto. Qed.

Section Avail.
  Variable servers : list srv_config.
  Variable prm : Z -> params.
  Hypothesis HC : cluster_okay servers.
  Hypothesis HS : no_snapshots prm.
  Notation ids := (ids servers).
  Notation reach := (reach servers prm).
  Notation step := (step servers prm).

  Lemma exchange : forall w i j n m q r m' n' l l' uid, In i ids -> In j ids -> i <> j -> w_sys w i = Up n -> w_sys w j = Up m ->
    sent w i uid false q -> rq_dst q = j -> run_event (ERequest 0 q) m = (ROk (Response r), m', l) ->
    run_event (ERpc 0 uid false q (Some r)) n = (ROk Nothing, n', l') ->
    exists w', reach w w' /\ later w w' /\ w_sys w' i = Up n' /\ w_sys w' j = Up m' /\ (forall k, k <> i -> k <> j -> w_sys w' k = w_sys w k) /\
      forall a, In a l' -> In a (w_acts w' i).
  Proof.
    intros w i j n m q r m' n' l l' uid Hi Hj D Wi Wj S Q E1 E2.
    set (w1 := next_world w j (Up m') [mkObs (ERequest 0 q) l (Some (Response r))]).
    assert (S1 : step w w1).
    { apply (W_event servers prm w j m (ERequest 0 q) (ROk (Response r)) m' l); [exact Hj | exact Wj | | exact E1 | reflexivity]. left. exists i, uid, false. auto. }
    assert (L1 : later w w1) by apply later_next.
    assert (Wi1 : w_sys w1 i = Up n) by (unfold w1, next_world; cbn [w_sys]; rewrite put_other by exact D; exact Wi).
    set (w2 := next_world w1 i (Up n') [mkObs (ERpc 0 uid false q (Some r)) l' (Some Nothing)]).
    assert (S2 : step w1 w2).
    { apply (W_event servers prm w1 i n (ERpc 0 uid false q (Some r)) (ROk Nothing) n' l'); [exact Hi | exact Wi1 | | exact E2 | reflexivity].
      cbn [possible]. split; [apply (later_sent w); assumption|]. rewrite Q. split; [exact Hj|]. exists 0, l. unfold w1, next_world. cbn [w_hist]. rewrite put_same.
      apply in_or_app. right. left. reflexivity. }
    exists w2. split; [eapply Reach_S; [apply reach_one, S1 | exact S2]|]. split; [eapply later_trans; [exact L1 | apply later_next]|].
    assert (Dj : j <> i) by congruence. unfold w2, next_world. cbn [w_sys]. split; [apply put_same|]. split.
    { rewrite put_other by exact Dj. unfold w1, next_world. cbn [w_sys]. apply put_same. }
    split.
    { intros k K1 K2. rewrite put_other by exact K1. unfold w1, next_world. cbn [w_sys]. apply put_other, K2. }
    intros a Ha. unfold w_acts. cbn [w_hist]. rewrite put_same. unfold acts_of. rewrite map_app, concat_app. apply in_or_app. right. cbn [map concat o_acts]. rewrite app_nil_r. exact Ha.
  Qed.

  Definition synced_up (w : world) (i j : Z) (n : node) : Prop :=
    exists w' n' p' m', reach w w' /\ later w w' /\ w_sys w' i = Up n' /\ w_sys w' j = Up m' /\ (forall k, k <> i -> k <> j -> w_sys w' k = w_sys w k) /\
      leading n' /\ dealt j n n' /\ find_peer j (n_peers n') = Some p' /\ p_match p' = a_next (n_log n) - 1 /\
      n_role m' = Follower /\ n_term m' = n_term n /\ matched n m' (a_next (n_log n)) /\
      (majority_reached (a_next (n_log n) - 1) ((a_next (n_log n) - 1) :: map p_match (n_peers n')) -> a_next (n_log n) - 1 <= n_quick n').

  Lemma climb : forall w0 i j, initial servers w0 -> In i ids -> In j ids -> i <> j -> forall b w n p q m, reach w0 w -> w_sys w i = Up n -> leading n ->
    find_peer j (n_peers n) = Some p -> sent w i (p_uid p) false q -> offered n p q -> w_sys w j = Up m -> n_term m <= n_term n ->
    (n_role m = Leader -> n_term m < n_term n) -> matched n m (p_next p) ->
    (2 * N.to_nat (a_next (n_log n) - p_next p) + (if rq_entries q then 1 else 0) < b)%nat -> synced_up w i j n.
  Proof.
    intros w0 i j I0 Hi Hj D b. induction b as [|b IH]; intros w n p q m R Wi Ld F Sq Oq Wj T1 T2 Mt Lt; [lia|].
    assert (Wv := reach_winv servers prm HC HS w0 w I0 R). assert (St := e_static _ _ _ (w_e _ _ _ Wv)).
    destruct (St j Hj) as (U1 & U2 & _). rewrite Wj in U1, U2. destruct U1 as (U1 & _). cbn [sys_disk] in U2. change (dk_log (n_disk m)) with (n_log m) in U2.
    assert (Ldn := Ld). destruct Ld as (L1 & L2 & L3 & L4 & L5 & L6). assert (Ip := find_mem _ _ _ F). assert (L6p := L6 p Ip).
    destruct (takes_entries n p q m L2 U2 Oq ltac:(lia) T1 T2 Mt) as (r & m' & l & E & R1 & R2 & R3 & R4 & R5 & M1 & M2 & M3).
    assert (Nx : p_next p + lenN (rq_entries q) <= a_next (n_log n)).
    { destruct Oq as (_ & _ & _ & _ & _ & O6). destruct (rq_entries q) as [|e es] eqn:Eq; [change (lenN []) with 0; lia|].
      destruct (nth_error (e :: es) (length es)) as [x|] eqn:Ex; [|apply nth_error_None in Ex; cbn [length] in Ex; lia].
      assert (G := a_get_some _ _ _ (O6 _ _ Ex)). unfold lenN. cbn [length]. lia. }
    destruct (hears_yes n j p q r Ldn F (proj1 Oq) R2 R1) as (n' & p' & l' & E' & Ld' & Dl & F' & P1 & P2 & P3 & P4 & P5); [congruence | exact R4 | lia|].
    destruct (exchange w i j n m q r m' n' l l' (p_uid p) Hi Hj D Wi Wj Sq) as (w' & X1 & X2 & X3 & X4 & X5 & X6); [|exact E | exact E'|].
    { destruct Oq as (_ & -> & _). apply (find_peer_id _ _ _ F). }
    destruct (dealt_same _ _ _ Dl) as (G1 & G2 & G3 & G4).
    destruct (N.lt_ge_cases (rs_next_idx r) (a_next (n_log n))) as [Hlt|Hge].
    - destruct (P4 Hlt) as (q' & Q1 & Q2 & Q3).
      destruct (IH w' n' p' q' m') as (w2 & n2 & p2 & m2 & Y1 & Y2 & Y3 & Y4 & Y5 & Y6 & Y7 & Y8 & Y9 & Y10 & Y11 & Y12 & Y13).
      { eapply reach_trans; eassumption. } { exact X3. } { exact Ld'. } { exact F'. } { unfold sent. rewrite P1. apply X6, Q1. } { exact Q2. } { exact X4. } { lia. }
      { rewrite M1. discriminate. } { rewrite P2, R5. unfold matched. rewrite G1. exact M3. }
      { rewrite G1, P2. destruct (rq_entries q') as [|e' es'] eqn:Eq'; [congruence|]. destruct (rq_entries q) as [|e es] eqn:Eq.
        - change (lenN []) with 0 in R5. rewrite N.add_0_r in R5. rewrite R5. lia.
        - assert (1 <= lenN (e :: es)) by (unfold lenN; cbn [length]; lia). lia. }
      rewrite G1, G2 in *. exists w2, n2, p2, m2. split; [eapply reach_trans; eassumption|]. split; [eapply later_trans; eassumption|]. split; [exact Y3|]. split; [exact Y4|].
      split; [intros k K1 K2; rewrite (Y5 k K1 K2); apply X5; assumption|]. split; [exact Y6|]. split; [eapply dealt_trans; eassumption|]. split; [exact Y8|]. split; [exact Y9|].
      split; [exact Y10|]. split; [exact Y11|]. split; [apply (matched_same n n'); assumption | exact Y13].
    - exists w', n', p', m'. split; [exact X1|]. split; [exact X2|]. split; [exact X3|]. split; [exact X4|]. split; [exact X5|]. split; [exact Ld'|]. split; [exact Dl|].
      split; [exact F'|]. assert (Eq : rs_next_idx r = a_next (n_log n)) by lia. split; [rewrite P3, Eq; reflexivity|]. split; [exact M1|]. split; [exact M2|].
      split; [rewrite <- R5, Eq in M3; exact M3 | exact P5].
  Qed.
  Lemma sync : forall w0 i j, initial servers w0 -> In i ids -> In j ids -> i <> j -> forall b w n p q m, reach w0 w -> w_sys w i = Up n -> leading n ->
    find_peer j (n_peers n) = Some p -> sent w i (p_uid p) false q -> offered n p q -> w_sys w j = Up m -> n_term m <= n_term n ->
    (n_role m = Leader -> n_term m < n_term n) -> (N.to_nat (p_next p) < b)%nat -> synced_up w i j n.
  Proof.
    intros w0 i j I0 Hi Hj D b. induction b as [|b IH]; intros w n p q m R Wi Ld F Sq Oq Wj T1 T2 Lt; [lia|].
    assert (Wv := reach_winv servers prm HC HS w0 w I0 R). assert (St := e_static _ _ _ (w_e _ _ _ Wv)).
    destruct (St j Hj) as (U1 & U2 & _). rewrite Wj in U1, U2. destruct U1 as (U1 & _). cbn [sys_disk] in U2. change (dk_log (n_disk m)) with (n_log m) in U2.
    assert (Ldn := Ld). destruct Ld as (L1 & L2 & L3 & L4 & L5 & L6). assert (Ip := find_mem _ _ _ F). assert (L6p := L6 p Ip).
    destruct (refuses_entries n p q m L2 U2 Oq ltac:(lia) T1 T2) as [Mt|(r & m' & l & E & R1 & R2 & R3 & R4 & M1 & M2 & M3 & M4)].
    { eapply climb; eauto. }
    destruct (hears_no n j p q r Ldn F (proj1 Oq) R2 R1) as (n' & p' & q' & E' & Ld' & Dl & F' & P1 & P2 & P3); [congruence | exact R4 | exact M4|].
    destruct (exchange w i j n m q r m' n' l [ASend (p_uid p) false q'] (p_uid p) Hi Hj D Wi Wj Sq) as (w' & X1 & X2 & X3 & X4 & X5 & X6); [|exact E | exact E'|].
    { destruct Oq as (_ & -> & _). apply (find_peer_id _ _ _ F). }
    destruct (dealt_same _ _ _ Dl) as (G1 & G2 & G3 & G4).
    destruct (IH w' n' p' q' m') as (w2 & n2 & p2 & m2 & Y1 & Y2 & Y3 & Y4 & Y5 & Y6 & Y7 & Y8 & Y9 & Y10 & Y11 & Y12 & Y13).
    { eapply reach_trans; eassumption. } { exact X3. } { exact Ld'. } { exact F'. } { unfold sent. rewrite P1. apply X6. left. reflexivity. } { exact P3. } { exact X4. } { lia. }
    { rewrite M1. discriminate. } { lia. }
    rewrite G1, G2 in *. exists w2, n2, p2, m2. split; [eapply reach_trans; eassumption|]. split; [eapply later_trans; eassumption|]. split; [exact Y3|]. split; [exact Y4|].
    split; [intros k K1 K2; rewrite (Y5 k K1 K2); apply X5; assumption|]. split; [exact Y6|]. split; [eapply dealt_trans; eassumption|]. split; [exact Y8|]. split; [exact Y9|].
    split; [exact Y10|]. split; [exact Y11|]. split; [apply (matched_same n n'); assumption | exact Y13].
  Qed.

  (** ** All members of the majority, one after the other *)
  Definition waits (w : world) (i j : Z) (n : node) : Prop :=
    exists p q m, find_peer j (n_peers n) = Some p /\ sent w i (p_uid p) false q /\ offered n p q /\ w_sys w j = Up m /\ n_term m <= n_term n /\
      (n_role m = Leader -> n_term m < n_term n).
  Definition has_all (w : world) (j : Z) (n : node) (ps : list peer) : Prop :=
    exists p m, find_peer j ps = Some p /\ p_match p = a_next (n_log n) - 1 /\ w_sys w j = Up m /\ n_role m = Follower /\ n_term m = n_term n /\
      matched n m (a_next (n_log n)).

  Lemma offered_dealt : forall j k n n' p p' q, dealt j n n' -> k <> j -> find_peer k (n_peers n) = Some p -> find_peer k (n_peers n') = Some p' ->
    p_next p' = p_next p -> offered n p q -> offered n' p' q.
  Proof.
    intros j k n n' p p' q Dl D F F' Ex O. destruct (dealt_same _ _ _ Dl) as (G1 & G2 & G3 & _). unfold offered, term_is in *.
    rewrite G1, G2, G3, Ex. rewrite (find_peer_id _ _ _ F'). rewrite (find_peer_id _ _ _ F) in O. exact O.
  Qed.

  Lemma sync_all : forall w0 i, initial servers w0 -> In i ids -> forall S w n, NoDup S -> ~ In i S -> incl S ids -> reach w0 w -> w_sys w i = Up n -> leading n ->
    (forall j, In j S -> waits w i j n) ->
    exists w' n', reach w w' /\ later w w' /\ w_sys w' i = Up n' /\ leading n' /\ (exists ps k, n' = set_peers ps (set_quick k n)) /\
      map p_id (n_peers n') = map p_id (n_peers n) /\
      (forall j, In j S -> has_all w' j n (n_peers n')) /\ (forall j, ~ In j S -> j <> i -> w_sys w' j = w_sys w j) /\
      (forall j p, ~ In j S -> find_peer j (n_peers n) = Some p -> exists p', find_peer j (n_peers n') = Some p' /\ p_match p' = p_match p) /\
      (S = [] -> n' = n) /\
      (S <> [] -> majority_reached (a_next (n_log n) - 1) ((a_next (n_log n) - 1) :: map p_match (n_peers n')) -> a_next (n_log n) - 1 <= n_quick n').
  Proof.
    intros w0 i I0 Hi S. induction S as [|j S IH]; intros w n N Ni Is R Wi Ld H.
    - exists w, n. split; [apply Reach_0|]. split; [apply later_refl|]. split; [exact Wi|]. split; [exact Ld|]. split; [exists (n_peers n), (n_quick n); destruct n; reflexivity|].
      split; [reflexivity|]. split; [intros j []|]. split; [reflexivity|]. split; [eauto|]. split; [reflexivity | congruence].
    - inversion N as [|? ? N1 N2]; subst. assert (D : i <> j) by (intros ->; apply Ni; left; reflexivity). assert (Hj : In j ids) by (apply Is; left; reflexivity).
      destruct (H j (or_introl eq_refl)) as (p & q & m & A1 & A2 & A3 & A4 & A5 & A6).
      destruct (sync w0 i j I0 Hi Hj D _ w n p q m R Wi Ld A1 A2 A3 A4 A5 A6 (Nat.lt_succ_diag_r _)) as (w1 & n1 & p1 & m1 & B1 & B2 & B3 & B4 & B5 & B6 & B7 & B8 & B9 & B10 & B11 & B12 & B13).
      destruct (dealt_same _ _ _ B7) as (G1 & G2 & G3 & G4).
      destruct (IH w1 n1) as (w2 & n2 & C1 & C2 & C3 & C4 & (ps2 & k2 & C5) & C6 & C7 & C8 & C9 & C9' & C10).
      + exact N2.
      + intros X. apply Ni. right. exact X.
      + intros x Hx. apply Is. right. exact Hx.
      + eapply reach_trans; eassumption.
      + exact B3.
      + exact B6.
      + intros k Hk. destruct (H k (or_intror Hk)) as (pk & qk & mk & K1 & K2 & K3 & K4 & K5 & K6).
        assert (Dk : k <> j) by (intros ->; exact (N1 Hk)). assert (Dk' : k <> i) by (intros ->; apply Ni; right; exact Hk).
        destruct B7 as (B7a & B7b & B7c & B7d). destruct (B7d k pk Dk K1) as (pk' & L1 & L2 & L3 & L4). exists pk', qk, mk. split; [exact L1|].
        split; [rewrite L2; eapply later_sent; eassumption|]. split; [eapply offered_dealt; [split; [exact B7a | split; [exact B7b | split; eassumption]] | exact Dk | exact K1 | exact L1 | exact L4 | exact K3]|].
        split; [rewrite (B5 k Dk' Dk); exact K4|]. rewrite G2. auto.
      + exists w2, n2. split; [eapply reach_trans; eassumption|]. split; [eapply later_trans; eassumption|]. split; [exact C3|]. split; [exact C4|].
        split. { destruct B7 as ((ps & k & B7) & _). exists ps2, k2. rewrite C5, B7. reflexivity. }
        split; [rewrite C6; apply B7|]. rewrite G1 in C10. split.
        { intros k [<-|Hk].
          - destruct (C9 j p1 N1 B8) as (p2 & F2 & M2). exists p2, m1. split; [exact F2|]. split; [congruence|]. split; [rewrite C8; [exact B4 | exact N1 | congruence]|]. auto.
          - destruct (C7 k Hk) as (pk & mk & K1 & K2 & K3 & K4 & K5 & K6). exists pk, mk. rewrite G1 in K2, K6. split; [exact K1|]. split; [exact K2|]. split; [exact K3|]. split; [exact K4|].
            split; [congruence|]. apply (matched_same n n1); assumption. }
        split. { intros k Hk Dk. rewrite C8; [|intros X; apply Hk; right; exact X | exact Dk]. apply B5; [exact Dk|]. intros ->. apply Hk. left. reflexivity. }
        split. { intros k pk Hk F. assert (Dk : k <> j) by (intros ->; apply Hk; left; reflexivity). destruct B7 as (_ & _ & _ & B7d). destruct (B7d k pk Dk F) as (pk' & L1 & L2 & L3 & L4).
          destruct (C9 k pk') as (p2 & F2 & M2); [intros X; apply Hk; right; exact X | exact L1|]. exists p2. split; [exact F2 | congruence]. }
        split; [discriminate|]. intros _ M. destruct S as [|s S]; [|apply C10; [discriminate | exact M]].
        rewrite (C9' eq_refl) in M |- *. exact (B13 M).
  Qed.

  (** ** The client's request

      its entries are added to the log; what the leader has asked for stands *)
  Lemma get_plus : forall l es k e, a_get l k = Some e -> a_get (log_plus l es) k = Some e.
  Proof.
    intros l es k e. unfold a_get, log_plus. cbn [al_start al_ents]. destruct (k <? al_start l); [discriminate|]. intros H.
    rewrite nth_error_app1; [exact H|]. apply nth_error_Some. congruence.
  Qed.
  Lemma next_plus : forall l es, a_next (log_plus l es) = a_next l + lenN es.
  Proof. intros l es. unfold a_next, log_plus, lenN. cbn [al_start al_ents]. rewrite app_length. lia. Qed.
  Lemma get_new : forall l es k e, nth_error es k = Some e -> a_get (log_plus l es) (a_next l + N.of_nat k) = Some e.
  Proof.
    intros l es k e H. unfold a_get, log_plus, a_next, lenN. cbn [al_start al_ents]. destruct (N.ltb_spec (al_start l + N.of_nat (length (al_ents l)) + N.of_nat k) (al_start l)); [lia|].
    rewrite nth_error_app2 by lia. replace (N.to_nat _ - length (al_ents l))%nat with k by lia. exact H.
  Qed.
  Lemma find_map : forall f k l, (forall p, p_id (f p) = p_id p) -> find_peer k (map f l) = option_map f (find_peer k l).
  Proof.
    intros f k l Hf. unfold find_peer. induction l as [|p l IH]; [reflexivity|]. cbn [map find]. rewrite Hf. destruct (p_id p =? k)%Z; [reflexivity | exact IH].
  Qed.
  Lemma believes : forall n, n_role n = Leader -> (0 <= limit n)%Z -> exists now e, is_leader now n = (ROk true, set_elapsed e n, []).
  Proof.
    intros n Hr Hl. exists (quorum_time n). unfold is_leader. rewrite bind_get, Hr. fold (limit n). fold (quorum_time n).
    destruct (negb (Nat.eqb (length (n_peers n)) 0)); [|exists (n_elapsed n); destruct n; reflexivity]. cbn [andb].
    destruct (limit n <? n_elapsed n)%Z; [|exists (n_elapsed n); destruct n; reflexivity].
    rewrite Z.sub_diag. change (to_int32 0) with 0%Z. exists 0%Z. rewrite bind_modify. destruct (Z.ltb_spec (limit n) 0); [lia | reflexivity].
  Qed.
  Lemma client_taken : forall n q, leading n -> n_peers n <> [] -> rq_type q = client_request -> (0 <= limit n)%Z ->
    exists now x n' l, run_event (ERequest now q) n = (ROk (Response x), n', l) /\ rs_accepted x = true /\ rs_next_idx x = a_next (n_log n') /\
      n_log n' = log_plus (n_log n) (map (stamp (n_term n)) (rq_entries q)) /\ leading n' /\ (n_term n' = n_term n /\ n_smc n' = n_smc n) /\ map p_id (n_peers n') = map p_id (n_peers n) /\
      forall k p q1, find_peer k (n_peers n) = Some p -> offered n p q1 -> exists p', find_peer k (n_peers n') = Some p' /\ p_uid p' = p_uid p /\ offered n' p' q1.
  Proof.
    intros n q (L1 & L2 & L3 & L4 & L5 & L6) Ne Hq Hl. destruct (believes n L1 Hl) as (now & e & E).
    set (es := map (stamp (n_term n)) (rq_entries q)). set (b := set_log (log_plus (n_log n) es) (set_elapsed e n)).
    assert (Lb : n_log b = log_plus (n_log n) es) by reflexivity.
    assert (Nb : a_next (n_log b) = a_next (n_log n) + lenN es) by (rewrite Lb; apply next_plus).
    assert (Sb : al_start (n_log b) = 1) by (rewrite Lb; exact L2).
    destruct (client_eq_at n now q e Hq L1 E Ne L3) as (x & Ev & X1 & X2); [lia | |].
    { intros p Hp _. fold es. fold b. destruct (may_serve b p Sb) as (-> & He); [|exact He]. assert (L6p := L6 p Hp). lia. }
    fold es in Ev, X2. fold b in Ev, X2. set (n' := set_peers (map (offer b) (n_peers n)) b) in *.
    assert (Oi : forall p, p_id (offer b p) = p_id p) by (intros p; unfold offer; destruct (p_busy p); reflexivity).
    assert (Ou : forall p, p_uid (offer b p) = p_uid p) by (intros p; unfold offer; destruct (p_busy p); reflexivity).
    assert (On : forall p, In p (n_peers n) -> p_next (offer b p) = p_next p).
    { intros p Hp. unfold offer. destruct (p_busy p); [reflexivity|]. change (next_of b p = p_next p). apply may_serve; [exact Sb|]. assert (L6p := L6 p Hp). lia. }
    assert (Mi : map p_id (n_peers n') = map p_id (n_peers n)) by (unfold n'; cbn [n_peers set_peers]; rewrite map_map; apply map_ext, Oi).
    assert (Mu : map p_uid (n_peers n') = map p_uid (n_peers n)) by (unfold n'; cbn [n_peers set_peers]; rewrite map_map; apply map_ext, Ou).
    exists now, x, n'. eexists. split; [exact Ev|]. split; [exact X1|]. split; [exact X2|]. split; [exact Lb|]. split.
    { split; [exact L1|]. split; [exact Sb|]. rewrite Mi, Mu. split; [exact L3|]. split; [exact L4|]. split; [exact L5|].
      intros p Hp. unfold n' in Hp. cbn [n_peers set_peers] in Hp. apply in_map_iff in Hp. destruct Hp as (p0 & <- & Hp). rewrite (On p0 Hp).
      change (n_log n') with (n_log b). rewrite Nb. assert (L6p := L6 p0 Hp). lia. }
    split; [split; reflexivity|]. split; [exact Mi|].
    intros k p q1 F (O1 & O2 & O3 & O4 & O5 & O6). exists (offer b p). split; [unfold n'; cbn [n_peers set_peers]; rewrite find_map by exact Oi; rewrite F; reflexivity|].
    split; [apply Ou|]. assert (Hp := find_mem _ _ _ F). unfold offered. rewrite Oi, (On p Hp). split; [exact O1|]. split; [exact O2|]. split; [exact O3|]. split; [exact O4|].
    change (n_log n') with (n_log b). rewrite Lb. split.
    - unfold term_is in *. change (n_log n') with (n_log b). rewrite Lb. change (n_disk n') with (n_disk b). change (dk_snp (n_disk b)) with (dk_snp (n_disk n)).
      change (al_start (log_plus (n_log n) es)) with (al_start (n_log n)). destruct O5 as [O5|[(y & O5 & O5')|O5]]; [left; exact O5 | right; left; exists y; split; [apply get_plus, O5 | exact O5'] | right; right; exact O5].
    - intros j y Hy. apply get_plus. exact (O6 j y Hy).
  Qed.

  Lemma reach_pinv : forall w0 w i n, initial servers w0 -> reach w0 w -> In i ids -> w_sys w i = Up n -> pinv n.
  Proof.
    intros w0 w i n I0 R Hi Wi. assert (L := reach_life servers prm w0 w R (fun k => proj1 (I0 k)) i). assert (P := life_pinv _ _ _ _ _ L). rewrite Wi in P. apply P.
    destruct (I0 i) as (_ & I1). destruct (I1 Hi) as (d & -> & _). exact I.
  Qed.
  Lemma pinv_uids : forall n, pinv n -> NoDup (map p_uid (n_peers n)).
  Proof.
    intros n (P & _). unfold pool in P. rewrite map_app in P. revert P. generalize (map p_uid (match n_join n with Some j => [j] | None => [] end)). intros l P.
    induction (map p_uid (n_peers n)) as [|a k IH]; [constructor|]. inversion P; subst. constructor; [intros X; apply H1, in_or_app; left; exact X | apply IH; assumption].
  Qed.
  Lemma find_in : forall j l, In j (map p_id l) -> exists p, find_peer j l = Some p /\ In p l.
  Proof.
    intros j l. unfold find_peer. induction l as [|p l IH]; intros []; cbn [find].
    - exists p. rewrite (proj2 (Z.eqb_eq _ _) H). cbn. auto.
    - destruct (p_id p =? j)%Z; [exists p; cbn; auto|]. destruct (IH H) as (y & E & Hy). exists y. cbn. auto.
  Qed.
  Lemma reached_len : forall v S l, NoDup S -> (forall j, In j S -> exists p, find_peer j l = Some p /\ p_match p = v) -> (length S <= reached v (map p_match l))%nat.
  Proof.
    intros v S l N H. assert (X : (length S <= length (map p_id (filter (fun p => N.leb v (p_match p)) l)))%nat).
    { apply NoDup_incl_length; [exact N|]. intros j Hj. destruct (H j Hj) as (p & F & M). apply in_map_iff. exists p. split; [apply (find_peer_id _ _ _ F)|].
      apply filter_In. split; [apply (find_mem _ _ _ F) | lia]. }
    rewrite map_length in X. unfold reached. clear H N. revert X. generalize (length S). intros k X. induction l as [|p l IH] in k, X |- *; [exact X|].
    cbn [map filter] in *. destruct (N.leb v (p_match p)); cbn [length] in *; [|apply IH, X]. destruct k as [|k]; [lia|]. assert (X' := IH k ltac:(lia)). lia.
  Qed.
  Lemma reach_later : forall w w', reach w w' -> later w w'.
  Proof.
    intros w w' R. induction R as [|w1 w2 R IH St]; [apply later_refl|]. eapply later_trans; [exact IH|]. destruct St; apply later_next.
  Qed.

  (** server [i] can become leader with its log, and the others of [V] follow it *)
  Definition elected_from (w : world) (V : list Z) (i : Z) : Prop :=
    exists w' n es, reach w w' /\ w_sys w' i = Up n /\ n_role n = Leader /\ (n_log n = log_plus (log_of w i) es /\ forall e, In e es -> ev_term e = n_term n) /\
      (forall j, In j V -> saved_term (w_sys w j) < n_term n) /\
      (forall j, In j V -> j <> i -> exists m, w_sys w' j = Up m /\ n_role m = Follower /\ n_term m = n_term n /\ log_of w' j = log_of w j) /\
      (forall j, ~ In j V -> w_sys w' j = w_sys w j) /\ starts_off w' i n (a_next (log_of w i)) /\ n_smc n = dk_commit (sys_disk (w_sys w i)).
  Theorem commits_at : forall w0 w V i q, initial servers w0 -> reach w0 w ->
    NoDup V -> incl V ids -> (length ids < 2 * length V)%nat -> In i V -> elected_from w V i ->
    1 <= pm_max_append (prm i) -> (0 <= pm_el_upper (prm i))%Z -> client_req q ->
    exists w' n now l x h1 h2, reach w w' /\ w_sys w' i = Up n /\ n_role n = Leader /\
      w_hist w' i = w_hist w i ++ h1 ++ mkObs (ERequest now q) l (Some (Response x)) :: h2 /\ rs_accepted x = true /\
      (exists es, log_of w' i = log_plus (log_plus (log_of w i) es) (map (stamp (n_term n)) (rq_entries q)) /\ forall e, In e es -> ev_term e = n_term n) /\
      rs_next_idx x = a_next (log_of w' i) /\ rs_next_idx x - 1 <= n_quick n /\ n_smc n = dk_commit (sys_disk (w_sys w i)) /\
      (forall j, In j V -> agree (rs_next_idx x - 1) (log_of w' i) (log_of w' j)) /\
      (forall j, In j V -> j <> i -> exists m, w_sys w' j = Up m /\ n_role m = Follower /\ n_term m = n_term n) /\
      (forall j, ~ In j V -> w_sys w' j = w_sys w j).
  Proof.
    intros w0 w V i q I0 R NV IV QV HiV Hlead Hmx Hel Hq. assert (Hi : In i ids) by (apply IV, HiV).
    destruct Hlead as (w1 & n & es & A1 & A2 & A3 & (A4 & A4t) & A5 & A6 & A7 & A8 & A9).
    assert (R1 : reach w0 w1) by (eapply reach_trans; eassumption).
    assert (Wv := reach_winv servers prm HC HS w0 w1 I0 R1). assert (St := e_static _ _ _ (w_e _ _ _ Wv) i Hi). rewrite A2 in St. destruct St as ((U1 & _ & U3 & _ & _) & U4 & _).
    cbn [sys_disk] in U4. change (dk_log (n_disk n)) with (n_log n) in U4. assert (Pm := w_p _ _ _ Wv i n Hi A2).
    assert (Pi := reach_pinv w0 w1 i n I0 R1 Hi A2).
    assert (U5 : al_start (log_of w i) = 1) by (rewrite A4 in U4; exact U4).
    destruct (reach_later w w1 A1 i) as (h1 & Eh1).
    destruct (list_eq_dec Z.eq_dec (pids servers i) []) as [Pe|Pne].
    { assert (All : forall j, In j V -> j = i).
      { intros j Hj. destruct (Z.eq_dec j i) as [E|D]; [exact E|]. exfalso. assert (X : In j (pids servers i)) by (apply pids_in; auto). rewrite Pe in X. exact X. }
      rewrite Pe in U3. apply map_eq_nil in U3. destruct (C81_commits_at_once n 0 q U3 A3 (proj1 Hq)) as (n' & l & x & E & X1 & _ & X3 & X4 & X5 & X6 & X7 & X8).
      set (w2 := next_world w1 i (Up n') [mkObs (ERequest 0 q) l (Some (Response x))]).
      assert (S2 : step w1 w2) by exact (W_event servers prm w1 i n (ERequest 0 q) (ROk (Response x)) n' l Hi A2 (or_intror Hq) E eq_refl).
      assert (Lw : log_of w2 i = n_log n') by (unfold w2, next_world, log_of; cbn [w_sys]; rewrite put_same; reflexivity).
      exists w2, n', 0, l, x, h1, []. split; [eapply Reach_S; eassumption|]. rewrite Lw. unfold w2, next_world. cbn [w_sys w_hist]. rewrite put_same. split; [reflexivity|]. split; [exact X6|].
      split; [rewrite put_same, Eh1, <- app_assoc; reflexivity|]. split; [exact X1|]. split; [exists es; split; [rewrite X3, A4, X7; reflexivity | rewrite X7; exact A4t]|]. split; [exact X5|]. split; [rewrite X5; exact X4|]. split; [congruence|].
      split; [intros j Hj; rewrite (All j Hj); fold (next_world w1 i (Up n') [mkObs (ERequest 0 q) l (Some (Response x))]); fold w2; rewrite Lw; intros k _; reflexivity|].
      split; [intros j Hj D; elim D; apply All, Hj|].
      intros j Hj. assert (D : j <> i) by (intros ->; exact (Hj HiV)). rewrite put_other by exact D. apply A7, Hj. }
    assert (Ne : n_peers n <> []) by (intros X; rewrite X in U3; symmetry in U3; exact (Pne U3)).
    assert (Bi : forall p, In p (n_peers n) -> p_next p = a_next (log_of w i)) by (intros p Hp; apply (A8 p Hp)).
    assert (X1 : 1 <= a_next (log_of w i)) by (unfold a_next; lia).
    assert (Ld : leading n).
    { split; [exact A3|]. split; [exact U4|]. split; [apply Pi|]. split; [apply pinv_uids, Pi|]. split; [rewrite Pm; exact Hmx|]. intros p Hp. rewrite (Bi p Hp), A4, next_plus. lia. }
    destruct (client_taken n q Ld Ne (proj1 Hq)) as (now & x & n1 & l & E & C1 & C2 & C3 & C4 & (C5 & C5s) & C6 & C7); [unfold limit; rewrite Pm; lia|].
    set (w2 := next_world w1 i (Up n1) [mkObs (ERequest now q) l (Some (Response x))]).
    assert (S2 : step w1 w2) by exact (W_event servers prm w1 i n (ERequest now q) (ROk (Response x)) n1 l Hi A2 (or_intror Hq) E eq_refl).
    assert (L12 : later w1 w2) by apply later_next.
    assert (R2 : reach w0 w2) by (eapply Reach_S; eassumption).
    assert (Wi2 : w_sys w2 i = Up n1) by (unfold w2, next_world; cbn [w_sys]; apply put_same).
    assert (Wo2 : forall j, j <> i -> w_sys w2 j = w_sys w1 j) by (intros j D; unfold w2, next_world; cbn [w_sys]; apply put_other, D).
    set (S := filter (fun j => negb (j =? i)%Z) V).
    assert (SV : forall j, In j S <-> In j V /\ j <> i).
    { intros j. unfold S. rewrite filter_In. split; intros (Q1 & Q2); (split; [exact Q1|]); destruct (Z.eqb_spec j i); cbn [negb] in *; congruence. }
    assert (NS : NoDup S) by (apply NoDup_filter, NV).
    assert (LS : (length V <= length S + 1)%nat).
    { assert (Q := NoDup_incl_length NV (l' := i :: S)). cbn [length] in Q. rewrite Nat.add_1_r. apply Q. intros j Hj. destruct (Z.eq_dec j i) as [->|D]; [left; reflexivity | right; apply SV; auto]. }
    destruct (sync_all w0 i I0 Hi S w2 n1) as (w' & n' & D1 & D2 & D3 & D4 & (ps & k & D5) & D6 & D7 & D8 & _ & D9 & D10).
    { exact NS. } { intros Y. apply SV in Y. destruct Y as (_ & Y). congruence. } { intros j Hj. apply IV, SV, Hj. } { exact R2. } { exact Wi2. } { exact C4. }
    { intros j Hj. apply SV in Hj. destruct Hj as (Hj & D). destruct (A6 j Hj D) as (m & M1 & M2 & M3 & _).
      destruct (find_in j (n_peers n)) as (p & F & Hp); [rewrite U3; apply pids_in; auto|].
      destruct (A8 p Hp) as (Px & q1 & Q1 & Q2). assert (O := offered_of n n p p _ q1 U4 X1 eq_refl eq_refl eq_refl Px Q2).
      destruct (C7 j p q1 F O) as (p' & F' & Pu & O'). exists p', q1, m. split; [exact F'|]. split; [rewrite Pu; apply (later_sent w1); assumption|]. split; [exact O'|].
      split; [rewrite (Wo2 j D); exact M1|]. split; [lia|]. rewrite M2. discriminate. }
    assert (Ln : n_log n' = n_log n1) by (rewrite D5; reflexivity). assert (Tn : n_term n' = n_term n) by (rewrite D5, <- C5; reflexivity).
    assert (Lw : log_of w' i = n_log n1) by (unfold log_of; rewrite D3; exact Ln).
    destruct (D2 i) as (h2 & Eh2).
    exists w', n', now, l, x, h1, h2. split; [eapply reach_trans; [eapply Reach_S; eassumption | exact D1]|]. split; [exact D3|]. split; [rewrite D5; apply C4|].
    split. { rewrite Eh2. unfold w2, next_world. cbn [w_hist]. rewrite put_same, Eh1. rewrite <- !app_assoc. reflexivity. }
    split; [exact C1|]. rewrite Lw. split; [exists es; split; [rewrite C3, A4, Tn; reflexivity | rewrite Tn; exact A4t]|]. split; [exact C2|]. split.
    { rewrite C2. apply D10.
      - intros Y. rewrite Y in LS. cbn [length] in LS. destruct (pids servers i) as [|a0 l0] eqn:Ep; [congruence|].
        assert (Q := pids_len servers HC i Hi). rewrite Ep in Q. cbn [length] in Q. lia.
      - unfold majority_reached. rewrite reached_cons, N.leb_refl. cbn [length]. rewrite map_length.
        assert (Q := pids_len servers HC i Hi). rewrite <- U3, <- C6, <- D6, map_length in Q.
        assert (Q2 : (length S <= reached (a_next (n_log n1) - 1) (map p_match (n_peers n')))%nat).
        { apply reached_len; [exact NS|]. intros j Hj. destruct (D7 j Hj) as (p & m & F & M & _). eauto. }
        lia. }
    assert (R3 : reach w0 w') by (eapply reach_trans; eassumption).
    split; [rewrite D5; change (n_smc n1 = dk_commit (sys_disk (w_sys w i))); congruence|].
    split.
    { intros j Hj. destruct (Z.eq_dec j i) as [->|D]; [rewrite Lw; intros y _; reflexivity|].
      assert (Sj : In j S) by (apply SV; auto). destruct (D7 j Sj) as (p & m & _ & _ & M1 & _ & _ & M4). rewrite C2.
      assert (Lj : log_of w' j = n_log m) by (unfold log_of; rewrite M1; reflexivity).
      destruct M4 as [M4|(e & e' & G1 & G2 & G3)].
      - rewrite M4. intros y Hy. assert (Y : y = 0) by lia. subst y. rewrite <- Lw.
        assert (S3 := e_static _ _ _ (w_e _ _ _ (reach_winv servers prm HC HS w0 w' I0 R3))).
        assert (Z1 : forall a, In a ids -> a_get (log_of w' a) 0 = None).
        { intros a Ha. destruct (S3 a Ha) as (_ & T & _). apply a_get_none. left. unfold log_of. lia. }
        rewrite !Z1 by (try exact Hi; apply IV, Hj). reflexivity.
      - rewrite <- Lw. rewrite <- Lw in G1, G2. rewrite <- Lj in G2. apply (C36_log_matching_partial servers prm w0 w' HC HS I0 R3 i j _ e e'); try assumption; [apply IV, Hj | congruence]. }
    split.
    { intros j Hj D. assert (Sj : In j S) by (apply SV; auto). destruct (D7 j Sj) as (p & m & _ & _ & M1 & M2 & M3 & _). exists m. split; [exact M1|]. split; [exact M2 | congruence]. }
    intros j Hj. assert (D : j <> i) by (intros ->; exact (Hj HiV)). rewrite D8; [rewrite (Wo2 j D); apply A7, Hj | intros Y; apply Hj, SV, Y | exact D].
  Qed.

  (** ** Applying what is committed *)
  Lemma filter_none : forall A (f : A -> bool) l, (forall x, In x l -> f x = false) -> filter f l = [].
  Proof. intros A f l. induction l as [|x l IH]; intros H; [reflexivity|]. cbn [filter]. rewrite (H x (or_introl eq_refl)). apply IH. intros y Hy. apply H. right. exact Hy. Qed.
  Lemma cfg_find : forall c id, cc_servers c = servers -> In id ids -> cfg_server c id <> None.
  Proof.
    intros c id E H X. unfold cfg_server in X. rewrite E in X. unfold Cluster.ids in H. apply in_map_iff in H. destruct H as (s & <- & Hs).
    apply (find_none _ _ X) in Hs. rewrite Z.eqb_refl in Hs. discriminate.
  Qed.
  Lemma reconfigure_same : forall c n i, In i ids -> cc_servers c = servers -> n_id n = i -> map p_id (n_peers n) = pids servers i -> reconfigure c n = (ROk tt, set_config c n, []).
  Proof.
    intros c n i Hi E En P. unfold reconfigure. rewrite bind_get.
    rewrite (filter_none _ _ (cc_servers c)), (filter_none _ _ (n_peers n)).
    - cbn [map app]. assert (X := cfg_find c (n_id n) E). rewrite En in X |- *. destruct (cfg_server c i); [reflexivity | elim (X Hi); reflexivity].
    - intros p Hp. assert (X : In (p_id p) (map p_id (n_peers n))) by (apply in_map, Hp). rewrite P in X. apply pids_in in X. assert (Y := cfg_find c (p_id p) E (proj1 X)).
      destruct (cfg_server c (p_id p)); [reflexivity | congruence].
    - intros s Hs. destruct (find_peer (sc_id s) (n_peers n)) eqn:F; [reflexivity|]. destruct (Z.eqb_spec (n_id n) (sc_id s)) as [D|D]; [reflexivity|]. exfalso.
      destruct (find_in (sc_id s) (n_peers n)) as (p & F' & _); [|congruence]. rewrite P. apply pids_in. split; [|congruence]. unfold Cluster.ids. rewrite E in Hs. apply in_map, Hs.
  Qed.
  Lemma good_parses : forall e, good servers e -> ev_type e = conf_log -> exists c, parse_cfg (ev_data e) = Ok c /\ cc_servers c = servers.
  Proof.
    intros e G T. destruct (G T) as (c & E & Sc). destruct HC as (_ & _ & O & L). rewrite E, cut_cfg_bytes. exists (cut_cfg c). split; [|exact Sc].
    assert (L' : lenN (cfg_bytes (cut_cfg c)) < two31) by (rewrite cfg_bytes_len; cbn [cut_cfg cc_servers]; rewrite Sc; exact L).
    assert (O' : cfg_ok (cut_cfg c)) by (split; [apply ulong_mod|]; split; [apply ulong_mod|]; cbn [cut_cfg cc_servers]; rewrite Sc; exact O).
    unfold parse_cfg, parse. rewrite P_Config.buffer_of_ok by exact L'. cbn [res_bind].
    pose proof (cfg_deserialize_ok [] (cut_cfg c) [] O') as D. rewrite !app_nil_r in D. cbn [app] in D. rewrite D by exact L'. reflexivity.
  Qed.
  Lemma apply_next : forall w0 w i n, initial servers w0 -> reach w0 w -> In i ids -> w_sys w i = Up n -> n_smc n < n_quick n -> n_smc n + 1 < a_next (n_log n) ->
    exists n' l, run_event ECommit n = (ROk Nothing, n', l) /\ n_smc n' = n_smc n + 1 /\ n_quick n' = n_quick n /\ n_log n' = n_log n /\ n_role n' = n_role n /\ n_term n' = n_term n /\
      forall e, a_get (n_log n) (n_smc n + 1) = Some e -> ev_type e = app_log -> In (ACommit (n_smc n + 1) e) l.
  Proof.
    intros w0 w i n I0 R Hi Wi H1 H2. assert (Wv := reach_winv servers prm HC HS w0 w I0 R). assert (St := e_static _ _ _ (w_e _ _ _ Wv) i Hi). rewrite Wi in St.
    destruct St as ((U1 & _ & U3 & U4 & _) & U5 & _ & U6). cbn [sys_disk] in U5, U6. change (dk_log (n_disk n)) with (n_log n) in U5, U6.
    assert (Pm := w_p _ _ _ Wv i n Hi Wi). assert (Hd : pm_snp_distance (n_prm n) = 0) by (rewrite Pm; apply HS).
    destruct (a_get_in (n_log n) (n_smc n + 1)) as (e & Ge); [lia|].
    assert (Cs : forall n1 l, apply_entry (n_smc n + 1) e (set_smc (n_smc n + 1) n) = (ROk tt, n1, l) -> run_event ECommit n = (ROk Nothing, n1, l)).
    { intros n1 l E. cbn [run_event]. assert (C : commit_step n = (ROk tt, n1, l)).
      { rewrite commit_step_eq by lia. unfold catch. unfold log_entry_at. rewrite bind_assoc, bind_get. change (n_log (set_smc (n_smc n + 1) n)) with (n_log n).
        replace (n_smc n + 1 <? al_start (n_log n)) with false by lia. rewrite Ge, bind_ret. unfold deref. rewrite bind_ret. rewrite E. reflexivity. }
      rewrite (bind_ok _ _ _ _ _ _ _ _ C). unfold after, ret. cbn [fst snd]. rewrite app_nil_r. reflexivity. }
    assert (Sn : forall k m, n_prm m = n_prm n -> snapshot_and_compact k m = (ROk tt, m, [])).
    { intros k m Em. unfold snapshot_and_compact. rewrite bind_get. cbv zeta. rewrite Em, Hd. reflexivity. }
    set (m := set_smc (n_smc n + 1) n) in *. unfold apply_entry in Cs.
    destruct (beq (ev_type e) app_log) eqn:E1.
    - apply Byte.byte_dec_bl in E1. eexists. eexists. split; [apply Cs; rewrite bind_emit, Sn by reflexivity; reflexivity|].
      repeat (split; [reflexivity|]). intros e0 G0 _. assert (e0 = e) by congruence. subst e0. left. reflexivity.
    - assert (Nap : forall l e0, a_get (n_log n) (n_smc n + 1) = Some e0 -> ev_type e0 = app_log -> In (ACommit (n_smc n + 1) e0) l).
      { intros l e0 G0 T0. exfalso. assert (e0 = e) by congruence. subst e0. rewrite T0 in E1. discriminate E1. }
      destruct (beq (ev_type e) conf_log) eqn:E2.
      + apply Byte.byte_dec_bl in E2. destruct (good_parses e (U6 _ _ Ge) E2) as (c & Pc & Sc). rewrite Pc in Cs.
        assert (G : exists n1 l, (c <- lift (Ok c) ;; emit (ASaveConfig c) ;;; modify (set_changing false) ;;; cur <- get n_config ;;
           when (cc_log_idx cur <? cc_log_idx c) (reconfigure c) ;;; catching <- get n_catching ;; id <- get n_id ;;
           when (catching && match cfg_server c id with Some _ => true | None => false end) (modify (set_catching false))) m = (ROk tt, n1, l) /\
           n_smc n1 = n_smc m /\ n_quick n1 = n_quick m /\ n_log n1 = n_log m /\ n_role n1 = n_role m /\ n_term n1 = n_term m /\ n_prm n1 = n_prm m).
        { change (lift (Ok c)) with (@ret cluster_config c). rewrite bind_ret, bind_emit, bind_modify, bind_get. set (m1 := set_changing false _).
          assert (W : exists m2, when (cc_log_idx (n_config m1) <? cc_log_idx c) (reconfigure c) m1 = (ROk tt, m2, []) /\ (m2 = m1 \/ m2 = set_config c m1)).
          { unfold when. destruct (_ <? _); [|exists m1; split; [reflexivity | auto]]. exists (set_config c m1). split; [apply (reconfigure_same c m1 i Hi Sc); [exact U1 | exact U3] | auto]. }
          destruct W as (m2 & W1 & W2). unfold after. rewrite (bind_ok _ _ _ _ _ _ _ _ W1), after_nil, !bind_get. unfold when, modify.
          destruct (n_catching m2 && _); eexists; eexists; (split; [reflexivity|]); destruct W2 as [->| ->]; repeat (split; [reflexivity|]); reflexivity. }
        destruct G as (n1 & l & G & G1 & G2 & G3 & G4 & G5 & G6). exists n1, l. split.
        { apply Cs. rewrite (bind_ok _ _ _ _ _ _ _ _ G), Sn by exact G6. unfold after. cbn [fst snd]. rewrite app_nil_r. reflexivity. }
        rewrite G1, G2, G3, G4, G5. repeat (split; [reflexivity|]). apply Nap.
      + eexists. eexists. split; [apply Cs; rewrite bind_ret, Sn by reflexivity; reflexivity|]. repeat (split; [reflexivity|]). apply Nap.
  Qed.

  Lemma later_acts : forall w w' i a, later w w' -> In a (w_acts w i) -> In a (w_acts w' i).
  Proof.
    intros w w' i a L H. destruct (L i) as (o & E). unfold w_acts in *. rewrite E. unfold acts_of in *. rewrite map_app, concat_app. apply in_or_app. left. exact H.
  Qed.
  Lemma apply_all : forall w0 i, initial servers w0 -> In i ids -> forall b w n, reach w0 w -> w_sys w i = Up n -> (N.to_nat (n_quick n - n_smc n) <= b)%nat ->
    exists w' n', reach w w' /\ later w w' /\ w_sys w' i = Up n' /\ (forall j, j <> i -> w_sys w' j = w_sys w j) /\
      n_log n' = n_log n /\ n_role n' = n_role n /\ n_term n' = n_term n /\ n_quick n' = n_quick n /\
      forall k e, n_smc n < k -> k <= n_quick n -> a_get (n_log n) k = Some e -> ev_type e = app_log -> In (ACommit k e) (w_acts w' i).
  Proof.
    intros w0 i I0 Hi b. induction b as [|b IH]; intros w n R Wi Lt.
    { exists w, n. split; [apply Reach_0|]. split; [apply later_refl|]. repeat (split; [assumption || reflexivity|]). intros k e H1 H2. lia. }
    destruct (N.lt_ge_cases (n_smc n) (n_quick n)) as [H1|H1].
    2: { exists w, n. split; [apply Reach_0|]. split; [apply later_refl|]. repeat (split; [assumption || reflexivity|]). intros k e K1 K2. lia. }
    destruct (N.lt_ge_cases (n_smc n + 1) (a_next (n_log n))) as [H2|H2].
    2: { exists w, n. split; [apply Reach_0|]. split; [apply later_refl|]. repeat (split; [assumption || reflexivity|]). intros k e K1 K2 K3. apply a_get_some in K3. lia. }
    destruct (apply_next w0 w i n I0 R Hi Wi H1 H2) as (n1 & l & E & A1 & A2 & A3 & A4 & A5 & A6).
    set (w1 := next_world w i (Up n1) [mkObs ECommit l (Some Nothing)]).
    assert (S1 : step w w1) by exact (W_event servers prm w i n ECommit (ROk Nothing) n1 l Hi Wi I E eq_refl).
    assert (L1 : later w w1) by apply later_next.
    destruct (IH w1 n1) as (w2 & n2 & B1 & B2 & B3 & B4 & B5 & B6 & B7 & B8 & B9).
    { eapply Reach_S; eassumption. } { unfold w1, next_world. cbn [w_sys]. apply put_same. } { lia. }
    exists w2, n2. split; [eapply reach_trans; [apply reach_one, S1 | exact B1]|]. split; [eapply later_trans; eassumption|]. split; [exact B3|].
    split. { intros j D. rewrite (B4 j D). unfold w1, next_world. cbn [w_sys]. apply put_other, D. }
    split; [congruence|]. split; [congruence|]. split; [congruence|]. split; [congruence|].
    intros k e K1 K2 K3 K4. destruct (N.eq_dec k (n_smc n + 1)) as [->|D].
    - apply (later_acts w1 w2 i _ B2). unfold w1, next_world, w_acts. cbn [w_hist]. rewrite put_same. unfold acts_of. rewrite map_app, concat_app. apply in_or_app. right.
      cbn [map concat o_acts]. rewrite app_nil_r. apply A6; assumption.
    - apply B9; [lia | lia | rewrite A3; exact K3 | exact K4].
  Qed.
End Avail.

Lemma commits_from : forall servers prm w0 w V i q, cluster_okay servers -> no_snapshots prm -> initial servers w0 -> reach servers prm w0 w ->
  NoDup V -> incl V (ids servers) -> (length (ids servers) < 2 * length V)%nat -> In i V -> elected_from servers prm w V i ->
  1 <= pm_max_append (prm i) -> (0 <= pm_el_upper (prm i))%Z -> client_req q ->
  exists w' n now l x h1 h2, reach servers prm w w' /\ w_sys w' i = Up n /\ n_role n = Leader /\
    w_hist w' i = w_hist w i ++ h1 ++ mkObs (ERequest now q) l (Some (Response x)) :: h2 /\ rs_accepted x = true /\
    (exists es, log_of w' i = log_plus (log_plus (log_of w i) es) (map (stamp (n_term n)) (rq_entries q)) /\ forall e, In e es -> ev_term e = n_term n) /\
    rs_next_idx x = a_next (log_of w' i) /\ rs_next_idx x - 1 <= n_quick n /\
    (forall j, In j V -> agree (rs_next_idx x - 1) (log_of w' i) (log_of w' j)) /\
    (forall j, In j V -> j <> i -> exists m, w_sys w' j = Up m /\ n_role m = Follower /\ n_term m = n_term n) /\
    (forall j, ~ In j V -> w_sys w' j = w_sys w j) /\
    (dk_commit (sys_disk (w_sys w i)) < a_next (log_of w i) ->
     forall k e, nth_error (rq_entries q) k = Some e -> ev_type e = app_log ->
       applied servers w' i (rs_next_idx x - lenN (rq_entries q) + N.of_nat k) (stamp (n_term n) e)).
Proof.
  intros servers prm w0 w V i q HC HS I0 R NV IV QV HiV Hld Hmx Hel Hq. assert (Hi := IV i HiV).
  destruct (commits_at servers prm HC HS w0 w V i q I0 R NV IV QV HiV Hld Hmx Hel Hq)
    as (w1 & n & now & l & x & h1 & h2 & A1 & A2 & A3 & A4 & A5 & (es & A6 & A6t) & A7 & A8 & A9 & A10 & A11 & A12).
  assert (R1 : reach servers prm w0 w1) by (eapply reach_trans; eassumption).
  destruct (apply_all servers prm HC HS w0 i I0 Hi _ w1 n R1 A2 (le_n _)) as (w' & n' & B1 & B2 & B3 & B4 & B5 & B6 & B7 & B8 & B9).
  assert (L1 : log_of w1 i = n_log n) by (unfold log_of; rewrite A2; reflexivity).
  assert (Li : log_of w' i = log_of w1 i) by (rewrite L1; unfold log_of; rewrite B3; exact B5).
  assert (Lj : forall j, log_of w' j = log_of w1 j).
  { intros j. destruct (Z.eq_dec j i) as [->|D]; [exact Li|]. unfold log_of. rewrite (B4 j D). reflexivity. }
  destruct (B2 i) as (h3 & Eh3).
  exists w', n', now, l, x, h1, (h2 ++ h3). split; [eapply reach_trans; eassumption|]. split; [exact B3|]. split; [congruence|].
  split. { rewrite Eh3, A4. rewrite <- !app_assoc. reflexivity. }
  split; [exact A5|]. rewrite Li, B7. split; [exists es; split; [exact A6 | exact A6t]|]. split; [exact A7|]. split; [rewrite B8; exact A8|]. split; [intros j Hj; rewrite Lj; apply A10, Hj|].
  split. { intros j Hj D. rewrite (B4 j D). exact (A11 j Hj D). }
  split. { intros j Hj. rewrite B4 by (intros ->; exact (Hj HiV)). apply A12, Hj. }
  intros Hc k e Hk Ht. split; [exact Hi|].
  set (X := a_next (log_plus (log_of w i) es)). assert (Nx : a_next (log_of w1 i) = X + lenN (rq_entries q)).
  { rewrite A6, next_plus. fold X. unfold lenN. rewrite map_length. reflexivity. }
  assert (Xw : a_next (log_of w i) <= X) by (unfold X; rewrite next_plus; lia).
  rewrite A7, Nx. replace (X + lenN (rq_entries q) - lenN (rq_entries q) + N.of_nat k) with (X + N.of_nat k) by lia.
  assert (Kl : (k < length (rq_entries q))%nat) by (apply nth_error_Some; congruence).
  apply B9; [lia | unfold lenN in *; lia | | exact Ht].
  rewrite <- L1, A6. apply get_new. rewrite nth_error_map, Hk. reflexivity.
Qed.

(** ** The property

    Whatever has happened: a majority whose newest log is that of [i] can make [i] leader, have it
    take a client's request, store the entries and commit them.  Nothing is asked of the other
    servers. *)
Theorem C105_commits_at : forall servers prm w0 w V i q, cluster_okay servers -> no_snapshots prm -> initial servers w0 -> reach servers prm w0 w ->
  NoDup V -> incl V (ids servers) -> (length (ids servers) < 2 * length V)%nat -> In i V -> (forall j, In j V -> no_older (log_of w i) (log_of w j)) ->
  pm_prevote (prm i) = false -> 1 <= pm_max_append (prm i) -> (0 <= pm_el_upper (prm i))%Z -> client_req q ->
  exists w' n now l x h1 h2, reach servers prm w w' /\ w_sys w' i = Up n /\ n_role n = Leader /\
    w_hist w' i = w_hist w i ++ h1 ++ mkObs (ERequest now q) l (Some (Response x)) :: h2 /\ rs_accepted x = true /\
    (exists es, log_of w' i = log_plus (log_plus (log_of w i) es) (map (stamp (n_term n)) (rq_entries q)) /\ forall e, In e es -> ev_term e = n_term n) /\
    rs_next_idx x = a_next (log_of w' i) /\ rs_next_idx x - 1 <= n_quick n /\
    (forall j, In j V -> agree (rs_next_idx x - 1) (log_of w' i) (log_of w' j)) /\
    (forall j, In j V -> j <> i -> exists m, w_sys w' j = Up m /\ n_role m = Follower /\ n_term m = n_term n) /\
    (forall j, ~ In j V -> w_sys w' j = w_sys w j) /\
    (dk_commit (sys_disk (w_sys w i)) < a_next (log_of w i) ->
     forall k e, nth_error (rq_entries q) k = Some e -> ev_type e = app_log ->
       applied servers w' i (rs_next_idx x - lenN (rq_entries q) + N.of_nat k) (stamp (n_term n) e)).
Proof.
  intros servers prm w0 w V i q HC HS I0 R NV IV QV HiV Hno Hpv. exact (commits_from servers prm w0 w V i q HC HS I0 R NV IV QV HiV (can_lead servers prm HC HS w0 w V i I0 R NV IV QV HiV Hpv Hno)).
Qed.

(** any majority will do *)
Theorem C105_can_commit : forall servers prm w0 w V q, cluster_okay servers -> no_snapshots prm -> initial servers w0 -> reach servers prm w0 w ->
  NoDup V -> incl V (ids servers) -> (length (ids servers) < 2 * length V)%nat ->
  (forall i, In i V -> pm_prevote (prm i) = false /\ 1 <= pm_max_append (prm i) /\ (0 <= pm_el_upper (prm i))%Z) -> client_req q ->
  exists i w' n now l x h1 h2, In i V /\ reach servers prm w w' /\ w_sys w' i = Up n /\ n_role n = Leader /\
    w_hist w' i = w_hist w i ++ h1 ++ mkObs (ERequest now q) l (Some (Response x)) :: h2 /\ rs_accepted x = true /\
    rs_next_idx x - 1 <= n_quick n /\
    (forall j, In j V -> agree (rs_next_idx x - 1) (log_of w' i) (log_of w' j) /\
       forall k e, nth_error (rq_entries q) k = Some e ->
         a_get (log_of w' j) (rs_next_idx x - lenN (rq_entries q) + N.of_nat k) = Some (stamp (n_term n) e)) /\
    (forall j, ~ In j V -> w_sys w' j = w_sys w j).
Proof.
  intros servers prm w0 w V q HC HS I0 R NV IV QV HP Hq.
  destruct (newest (log_of w) V) as (i & I1 & I2); [intros ->; cbn in QV; lia|]. destruct (HP i I1) as (P1 & P2 & P3).
  destruct (C105_commits_at servers prm w0 w V i q HC HS I0 R NV IV QV I1 I2 P1 P2 P3 Hq)
    as (w' & n & now & l & x & h1 & h2 & A1 & A2 & A3 & A4 & A5 & (es & A6 & A6t) & A7 & A8 & A9 & A10 & A11 & _).
  exists i, w', n, now, l, x, h1, h2. split; [exact I1|]. split; [exact A1|]. split; [exact A2|]. split; [exact A3|]. split; [exact A4|]. split; [exact A5|]. split; [exact A8|].
  split; [|exact A11]. intros j Hj. split; [apply A9, Hj|]. intros k e Hk.
  assert (Kl : (k < length (rq_entries q))%nat) by (apply nth_error_Some; congruence).
  set (X := a_next (log_plus (log_of w i) es)). assert (Nx : rs_next_idx x = X + lenN (rq_entries q)).
  { rewrite A7, A6, next_plus. fold X. unfold lenN. rewrite map_length. reflexivity. }
  rewrite Nx in *. replace (X + lenN (rq_entries q) - lenN (rq_entries q) + N.of_nat k) with (X + N.of_nat k) by lia.
  rewrite <- (A9 j Hj) by (unfold lenN; lia). rewrite A6. apply get_new. rewrite nth_error_map, Hk. reflexivity.
Qed.

(** In every reachable state a running server can hand everything committed to its state machine:
    the committing thread stops at no entry. *)
Theorem C105_applies : forall servers prm w0 w i n, cluster_okay servers -> no_snapshots prm -> initial servers w0 -> reach servers prm w0 w ->
  In i (ids servers) -> w_sys w i = Up n ->
  exists w' n', reach servers prm w w' /\ w_sys w' i = Up n' /\ n_log n' = n_log n /\ n_role n' = n_role n /\ n_term n' = n_term n /\
    (forall j, j <> i -> w_sys w' j = w_sys w j) /\
    forall k e, n_smc n < k -> k <= n_quick n -> a_get (n_log n) k = Some e -> ev_type e = app_log -> applied servers w' i k e.
Proof.
  intros servers prm w0 w i n HC HS I0 R Hi Wi.
  destruct (apply_all servers prm HC HS w0 i I0 Hi _ w n R Wi (le_n _)) as (w' & n' & B1 & _ & B3 & B4 & B5 & B6 & B7 & _ & B9).
  exists w', n'. split; [exact B1|]. split; [exact B3|]. split; [exact B5|]. split; [exact B6|]. split; [exact B7|]. split; [exact B4|].
  intros k e K1 K2 K3 K4. split; [exact Hi | apply B9; assumption].
Qed.

From Verif Require Import NodeExamples ClusterExamples.
(** three servers after four elections, as for C104: the first and the third, whose logs differ,
    commit a request of a client; the state machine of the third has been given nothing yet *)
Definition fig8_req : req := mkReq 0 client_request 0 0 0 0 0 [mkEV 0 app_log [x61]; mkEV 0 app_log [x62]].
Lemma fig8_fresh : forall (f : Z -> N) (g : Z -> N), map (fun i => (f i, g i)) [1; 2; 3]%Z = [(2, 3); (2, 3); (0, 3)] -> f 3%Z < g 3%Z.
Proof. intros f g F. cbn [map] in F. injection F as _ _ _ _ C1 C2. rewrite C1, C2. reflexivity. Qed.
Example C105_example : cluster_okay ex_servers /\ no_snapshots (fun _ => ex_prm) /\ initial ex_servers ex_world /\
  reach ex_servers (fun _ => ex_prm) ex_world fig8 /\ pm_prevote ex_prm = false /\ 1 <= pm_max_append ex_prm /\ (0 <= pm_el_upper ex_prm)%Z /\ client_req fig8_req /\
  NoDup [1; 3]%Z /\ incl [1; 3]%Z (ids ex_servers) /\ (length (ids ex_servers) < 2 * length [1; 3]%Z)%nat /\
  (forall j, In j [1; 3]%Z -> no_older (log_of fig8 3) (log_of fig8 j)) /\ ~ no_older (log_of fig8 1) (log_of fig8 3) /\
  dk_commit (sys_disk (w_sys fig8 3%Z)) < a_next (log_of fig8 3).
Proof.
  destruct C104_example as (_ & E1 & E2 & E3 & E4 & E5 & E6 & E7 & E8 & E9 & E10).
  split; [exact E1|]. split; [exact E2|]. split; [exact E3|]. split; [exact E4|]. split; [exact E5|]. split; [vm_compute; discriminate|]. split; [vm_compute; discriminate|].
  split; [split; [reflexivity | intros e [<-|[<-|[]]]; discriminate]|]. split; [exact E6|]. split; [exact E7|]. split; [exact E8|]. split; [exact E9|]. split; [exact E10|].
  apply (fig8_fresh (fun i => dk_commit (sys_disk (w_sys fig8 i))) (fun i => a_next (log_of fig8 i))). vm_compute. reflexivity.
Qed.

(** a leader that has committed the configuration and a client's entry and has applied neither *)
Definition waiting_to_apply (x : sys) : Prop := exists n e, x = Up n /\ n_smc n = 0 /\ n_quick n = 2 /\
  a_get (n_log n) 1 = Some e /\ ev_type e = conf_log /\ a_get (n_log n) 2 = Some (mkEV 1 app_log [x61]).
Lemma calm_state : waiting_to_apply (w_sys (ex_run_with ex_prm calm_cmds) 1%Z).
Proof. vm_compute. eexists. eexists. split; [reflexivity|]. repeat (split; [reflexivity|]). reflexivity. Qed.
Example C105_applies_example : reach ex_servers (fun _ => ex_prm) ex_world (ex_run_with ex_prm calm_cmds) /\ In 1%Z (ids ex_servers) /\
  waiting_to_apply (w_sys (ex_run_with ex_prm calm_cmds) 1%Z).
Proof. split; [apply ex_reach_with|]. split; [left; reflexivity | exact calm_state]. Qed.

Print Assumptions C105_commits_at.
Print Assumptions C105_can_commit.
Print Assumptions C105_applies.
