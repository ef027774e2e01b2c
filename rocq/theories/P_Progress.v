(** * P_Progress: a request that a leader accepts is committed when a majority answers (C93) *)

From Verif Require Import Base Buffer Codec CodecSpec CodecProofs Msg FsLogStore FsLogSpec Alog Raft RaftQuiet NodeSpec ServerSpec NodeFacts AppendFacts NodeExamples P_Leader P_Commit Runs PeerInv ServeFacts P_Serve P_Elect Cluster ClusterElect ClusterExamples P_Ack Progress.
From Coq Require Import Permutation.
Local Open Scope N_scope.

(** ** The member *)
Lemma takes_it : forall now f q X, rq_type q = append_entries_request -> n_term f <= rq_term q -> (n_role f = Leader -> n_term f < rq_term q) ->
  rq_last_idx q = X - 1 -> 1 <= X -> 1 <= al_start (n_log f) <= X ->
  (X = 1 \/ exists e', a_get (n_log f) (X - 1) = Some e' /\ ev_term e' = rq_last_term q) ->
  exists f' l, run_event (ERequest now q) f =
      (ROk (Response (mkResp (rq_term q) append_entries_response (n_id f) (rq_src q) (X + lenN (rq_entries q)) true)), f', l) /\
    n_id f' = n_id f /\ n_term f' = rq_term q /\ n_role f' = Follower /\ n_quick f' = N.max (n_quick f) (rq_commit q) /\
    al_start (n_log f') = al_start (n_log f) /\ (forall i, i < X -> a_get (n_log f') i = a_get (n_log f) i) /\
    (rq_entries q = [] -> n_log f' = n_log f) /\
    (forall j e, nth_error (rq_entries q) j = Some e -> exists e', a_get (n_log f') (X + N.of_nat j) = Some e' /\ ev_term e' = ev_term e).
Proof.
  intros now f q X Ht Hge Hl HX X1 Hs Hm.
  set (f1 := arrived (rq_term q) f).
  assert (T1 : rq_term q = n_term f1 /\ n_role f1 <> Leader /\ n_log f1 = n_log f /\ n_id f1 = n_id f /\ n_quick f1 = n_quick f).
  { unfold f1, arrived. destruct (n_term f <? rq_term q) eqn:E.
    - change (n_steps (with_term (rq_term q) f)) with (n_steps f).
      destruct (0 <? n_steps f)%Z; (split; [reflexivity|]; split; [discriminate|]; repeat split).
    - destruct (0 <? n_steps f)%Z; (split; [cbn [set_steps n_term]; lia|]; split; [cbn [set_steps n_role]; intros R; specialize (Hl R); lia|]; repeat split). }
  destruct T1 as (T1 & R1 & L1 & I1 & Q1).
  assert (Hr : in_reach f1 q).
  { unfold in_reach. rewrite L1, HX. split; [right; lia|]. destruct Hm as [Hm|(e' & Hm & _)]; [left; lia | right; left]. apply a_get_some in Hm. lia. }
  assert (Hc : consistent f1 q).
  { unfold consistent. rewrite L1, HX. destruct Hm as [Hm|(e' & Hm & Et)]; [left; lia | right; left]. eauto. }
  assert (Hs1 : 1 <= al_start (n_log f1)) by (rewrite L1; lia).
  assert (Nx := consistent_next _ _ Hs1 Hc). rewrite L1, HX in Nx.
  assert (Ei : rq_last_idx q + 1 = X) by lia.
  cbn [run_event]. erewrite bind_ok by (rewrite process_ae by exact Ht; fold f1; rewrite (ae_accept q f1 T1 R1 Hs1 Hr Hc); reflexivity).
  unfold after, ret. cbn [fst snd]. eexists _, _.
  split. { f_equal. f_equal. f_equal. f_equal. unfold ae_resp, accept. cbn [rs_term rs_type rs_src rs_dst]. rewrite <- T1, I1. f_equal. lia. }
  split; [exact I1|]. split; [symmetry; exact T1|]. split; [reflexivity|]. split; [cbn; rewrite Q1; reflexivity|].
  change (n_log (followed_leader q f1)) with (installed (n_log f1) (rq_last_idx q + 1) (rq_entries q)). rewrite L1, Ei.
  assert (Bd := already_bound (rq_entries q) (n_log f) X (proj2 Hs)). 
  unfold installed. set (k := already (n_log f) X (rq_entries q)) in *.
  assert (Bd1 : X + N.of_nat k <= a_next (n_log f)) by (apply Bd; lia). clear Bd.
  destruct (Nat.eqb_spec k (length (rq_entries q))) as [E|E].
  - split; [reflexivity|]. split; [reflexivity|]. split; [reflexivity|]. intros j e Hj.
    destruct (already_in (rq_entries q) (n_log f) X j) as (e0 & e' & A1 & A2 & A3).
    { fold k. rewrite E. apply nth_error_Some. congruence. }
    exists e'. split; [exact A2 | congruence].
  - split; [unfold a_replace; reflexivity|]. split; [intros i Hi; apply a_get_replace_lt; lia|].
    split. { intros E0. exfalso. apply E. unfold k. rewrite E0. reflexivity. }
    intros j e Hj. destruct (Nat.lt_ge_cases j k) as [G|G].
    + destruct (already_in (rq_entries q) (n_log f) X j G) as (e0 & e' & A1 & A2 & A3).
      exists e'. split; [|congruence]. rewrite a_get_replace_lt by lia. exact A2.
    + exists e. split; [|reflexivity]. rewrite a_get_replace_ge by lia.
      replace (N.to_nat (X + N.of_nat j - (X + N.of_nat k))) with (j - k)%nat by lia. rewrite nth_skipn. rewrite <- Hj. f_equal. lia.
Qed.

(** ** What is on its way *)
Lemma sent_app : forall u a b, sent_to u (a ++ b) = sent_to u a ++ sent_to u b.
Proof. intros u a b. unfold sent_to. rewrite map_app, concat_app. reflexivity. Qed.
Lemma sent_cons : forall u p q qs, sent_to u (sends ((p, q) :: qs)) = (if p_uid p =? u then [q] else []) ++ sent_to u (sends qs).
Proof. reflexivity. Qed.
Lemma sent_none : forall u qs, ~ In u (map p_uid (map fst qs)) -> sent_to u (sends qs) = [].
Proof.
  intros u qs. induction qs as [|(p, q) qs IH]; [reflexivity|]. cbn [map fst In]. intros H. rewrite sent_cons.
  destruct (N.eqb_spec (p_uid p) u) as [E|E]; [exfalso; apply H; left; exact E|]. cbn [app]. apply IH. intros K. apply H. right. exact K.
Qed.
Lemma sent_one : forall p q qs, NoDup (map p_uid (map fst qs)) -> In (p, q) qs -> sent_to (p_uid p) (sends qs) = [q].
Proof.
  intros p q qs. induction qs as [|(p0, q0) qs IH]; [intros _ []|]. cbn [map fst In]. intros N H. inversion N as [|? ? N1 N2]; subst. rewrite sent_cons.
  destruct H as [H|H].
  - inversion H; subst. rewrite N.eqb_refl. rewrite sent_none by exact N1. reflexivity.
  - destruct (N.eqb_spec (p_uid p0) (p_uid p)) as [E|E]; [|cbn [app]; apply IH; assumption].
    exfalso. apply N1. rewrite E. apply in_map. exact (in_map fst _ _ H).
Qed.
Lemma nodup_filter : forall A B (f : A -> B) w l, NoDup (map f l) -> NoDup (map f (filter w l)).
Proof.
  intros A B f w l. induction l as [|x l IH]; cbn [map filter]; [auto|]. intros N. inversion N as [|? ? N1 N2]; subst.
  destruct (w x); [|apply IH, N2]. cbn [map]. constructor; [|apply IH, N2]. intros H. apply N1. apply in_map_iff in H. destruct H as (y & E & H).
  apply filter_In in H. rewrite <- E. apply in_map, H.
Qed.
Lemma uid_inj : forall l p x, NoDup (map p_uid l) -> In p l -> In x l -> p_uid p = p_uid x -> p = x.
Proof.
  intros l p x N. induction l as [|y l IH]; [intros []|]. cbn [map] in N. inversion N as [|? ? N1 N2]; subst. intros [A|A] [B|B] E.
  - congruence.
  - subst y. exfalso. apply N1. rewrite E. apply in_map, B.
  - subst y. exfalso. apply N1. rewrite <- E. apply in_map, A.
  - apply IH; assumption.
Qed.
(** what an answer made the leader send *)
Lemma sent_filter : forall w l qs p, NoDup (map p_uid l) -> map fst qs = filter w l -> In p l ->
  (w p = false -> sent_to (p_uid p) (sends qs) = []) /\
  (w p = true -> exists q, In (p, q) qs /\ sent_to (p_uid p) (sends qs) = [q]).
Proof.
  intros w l qs p N E I. split; intros W.
  - apply sent_none. rewrite E. intros H. apply in_map_iff in H. destruct H as (x & Ex & H). apply filter_In in H. destruct H as [H1 H2].
    rewrite (uid_inj l p x N I H1 (eq_sym Ex)) in W. congruence.
  - assert (H : In p (map fst qs)) by (rewrite E; apply filter_In; auto). apply in_map_iff in H. destruct H as ((x & q) & Ex & H). cbn in Ex. subst x.
    exists q. split; [exact H|]. apply sent_one; [|exact H]. rewrite E. apply nodup_filter, N.
Qed.

(** ** The client's request *)
Definition offer (b : node) (p : peer) : peer := if p_busy p then p else p_set_next (next_of b p) (p_set_busy true p).
Lemma offer_all : forall b, n_peers b <> [] -> NoDup (map p_id (n_peers b)) -> 1 <= al_start (n_log b) ->
  (forall p, In p (n_peers b) -> p_busy p = false -> has_entries b (next_of b p)) ->
  request_append_entries b = (ROk tt, set_peers (map (offer b) (n_peers b)) b, sends (concat (map (told b) (n_peers b)))).
Proof.
  intros b Ne N Hs He. unfold request_append_entries, peer_ids. rewrite bind_get.
  assert (Hm : map p_id (n_peers b) <> []) by (destruct (n_peers b); [congruence | discriminate]).
  transitivity (for_each (map p_id (n_peers b)) (fun id => request_append_entries_to id ;;; ret tt) b).
  { destruct (map p_id (n_peers b)); [congruence | reflexivity]. }
  set (g := fun id : Z => _).
  assert (H := each_peer g (offer b) (fun p => sends (told b p)) b (n_peers b) []).
  cbn [app] in H. rewrite self_peers in H. unfold sends. rewrite concat_map, map_map. unfold sends in H. apply H; [| exact N|].
  { intros p. unfold offer. destruct (p_busy p); reflexivity. }
  clear H. intros pre p post N1 Hp. unfold g, offer, told. destruct (p_busy p) eqn:Bz.
  - assert (F : find_peer (p_id p) (n_peers (set_peers (pre ++ p :: post) b)) = Some p) by (apply find_one, N1).
    rewrite (bind_ok _ _ _ _ _ _ _ _ (busy_one _ _ _ F Bz)). reflexivity.
  - rewrite (bind_ok _ _ _ _ _ _ _ _ (serve_one b pre p post N1 Hs Bz (He p Hp Bz))). cbn [map fst snd]. reflexivity.
Qed.
Lemma in_contact_limit : forall now n, in_contact now n -> n_peers n <> [] -> exists e, is_leader now n = (ROk true, set_elapsed e n, []) /\ (e <= limit n)%Z.
Proof.
  intros now n Hc Ne. destruct (in_contact_eq now n Hc) as (e & E). destruct Hc as [Hr _]. unfold is_leader in E |- *. rewrite bind_get in E |- *. rewrite Hr in E |- *.
  assert (L0 : Nat.eqb (length (n_peers n)) 0 = false) by (destruct (n_peers n); [congruence | reflexivity]). rewrite L0 in E |- *. cbn [andb negb] in E |- *.
  fold (limit n) in E |- *. destruct (Z.ltb_spec (limit n) (n_elapsed n)) as [G|G].
  - rewrite bind_modify in E |- *. match goal with |- context [(limit n <? ?x)%Z] => exists x; destruct (Z.ltb_spec (limit n) x) as [K|K] end; [discriminate E|]. split; [reflexivity | exact K].
  - exists (n_elapsed n). split; [destruct n; reflexivity | exact G].
Qed.
(** a leader that believes to lead takes the request: the new log is offered to every idle member *)
Lemma client_eq_at : forall n now q e, rq_type q = client_request -> n_role n = Leader -> is_leader now n = (ROk true, set_elapsed e n, []) -> n_peers n <> [] ->
  NoDup (map p_id (n_peers n)) -> 1 <= al_start (n_log n) ->
  let b := set_log (log_plus (n_log n) (map (stamp (n_term n)) (rq_entries q))) (set_elapsed e n) in
  (forall p, In p (n_peers n) -> p_busy p = false -> has_entries b (next_of b p)) ->
  exists x, run_event (ERequest now q) n = (ROk (Response x), set_peers (map (offer b) (n_peers n)) b,
      append_acts (a_next (n_log n)) (map (stamp (n_term n)) (rq_entries q)) ++ sends (concat (map (told b) (n_peers n)))) /\
    rs_accepted x = true /\ rs_next_idx x = a_next (n_log b).
Proof.
  intros n now q e Hq Hr E Ne N Hs b Ha.
  eexists. split; [apply run_request; rewrite process_cli_req by exact Hq; unfold handle_cli_req; rewrite (bind_ok _ _ _ _ _ _ _ _ E), after_nil, bind_get;
    change (n_role (set_elapsed e n)) with (n_role n); rewrite Hr; change (n_term (set_elapsed e n)) with (n_term n);
    rewrite (bind_ok _ _ _ _ _ _ _ _ (cli_append_eq _ _ _)); change (n_log (set_elapsed e n)) with (n_log n); fold b|].
  - rewrite (bind_ok _ _ _ _ _ _ _ _ (offer_all b Ne N Hs Ha)). unfold next_slot_. rewrite bind_get. unfold after, ret. rewrite app_nil_r. reflexivity.
  - split; reflexivity.
Qed.
Lemma client_eq : forall n now q, rq_type q = client_request -> in_contact now n -> n_peers n <> [] ->
  NoDup (map p_id (n_peers n)) -> 1 <= al_start (n_log n) ->
  exists e, (e <= limit n)%Z /\
  let b := set_log (log_plus (n_log n) (map (stamp (n_term n)) (rq_entries q))) (set_elapsed e n) in
  (forall p, In p (n_peers n) -> p_busy p = false -> has_entries b (next_of b p)) ->
  exists x, run_event (ERequest now q) n = (ROk (Response x), set_peers (map (offer b) (n_peers n)) b,
      append_acts (a_next (n_log n)) (map (stamp (n_term n)) (rq_entries q)) ++ sends (concat (map (told b) (n_peers n)))) /\
    rs_accepted x = true /\ rs_next_idx x = a_next (n_log b).
Proof.
  intros n now q Hq Hc Ne N Hs. assert (Hr := proj1 Hc). destruct (in_contact_limit now n Hc Ne) as (e & E & Le). exists e. split; [exact Le|].
  apply client_eq_at; assumption.
Qed.

(** ** The answers *)
Definition last_of (b : node) : N := a_next (n_log b) - 1.
(** a leader with a nonempty log *)
Definition base (b : node) : Prop :=
  n_role b = Leader /\ NoDup (map p_id (n_peers b)) /\ NoDup (map p_uid (n_peers b)) /\ 1 <= al_start (n_log b) /\ al_start (n_log b) < a_next (n_log b).
(** [n] differs from [b] in its commit index and in what it knows of its peers only *)
Definition kept (b n : node) : Prop :=
  n = set_peers (n_peers n) (set_quick (n_quick n) b) /\ map p_id (n_peers n) = map p_id (n_peers b) /\ map p_uid (n_peers n) = map p_uid (n_peers b).
(** [q] tells that everything is committed *)
Definition tells (b : node) (q : req) : Prop :=
  rq_type q = append_entries_request /\ rq_term q = n_term b /\ rq_commit q = last_of b /\ rq_last_idx q = last_of b /\
  term_is b (last_of b) (rq_last_term q) /\ rq_entries q = [].
Definition early (b : node) (ids done : list Z) (old : N) (n : node) : Prop :=
  n_quick n = old /\ ~ majority_reached (last_of b) (last_of b :: map p_match (n_peers n)) /\
  forall p, In p (n_peers n) ->
    (In (p_id p) done -> p_busy p = false /\ p_pending p = false /\ p_next p = a_next (n_log b) /\ p_match p = last_of b) /\
    (~ In (p_id p) done -> p_busy p = true /\ p_match p <= old /\ (In (p_id p) ids -> p_pending p = false)).
Definition late (b : node) (ids done : list Z) (n : node) (out : list act) : Prop :=
  n_quick n = last_of b /\
  forall p, In p (n_peers n) -> p_busy p = true /\ p_match p <= last_of b /\
    (In (p_id p) done -> p_pending p = false /\ p_next p = a_next (n_log b) /\ exists q, sent_to (p_uid p) out = [q] /\ tells b q) /\
    (~ In (p_id p) done -> In (p_id p) ids -> p_pending p = true /\ sent_to (p_uid p) out = []).
Definition stage (b : node) (ids done : list Z) (old : N) (n : node) (out : list act) : Prop :=
  (early b ids done old n /\ out = []) \/ late b ids done n out.

Lemma reached_cons : forall v x l, reached v (x :: l) = ((if N.leb v x then 1 else 0) + reached v l)%nat.
Proof. intros v x l. unfold reached. cbn [filter]. destruct (v <=? x); reflexivity. Qed.
Lemma reached_same : forall v w l, (forall x, In x l -> (v <=? x) = (w <=? x)) -> reached v l = reached w l.
Proof. intros v w l H. unfold reached. f_equal. induction l as [|x l IH]; [reflexivity|]. cbn [filter]. rewrite (H x (or_introl eq_refl)), IH by (intros y I; apply H; right; exact I). reflexivity. Qed.
Lemma reached_none : forall v l, (forall x, In x l -> x < v) -> reached v l = 0%nat.
Proof. intros v l. induction l as [|x l IH]; [reflexivity|]. intros H. rewrite reached_cons, IH by (intros y I; apply H; right; exact I). assert (Hx := H x (or_introl eq_refl)). replace (v <=? x) with false by lia. reflexivity. Qed.
(** values that are either [k] or at most [old]: the majority is at [k] or not above [old] *)
Lemma two_levels : forall k old l v, old <= k -> (forall x, In x l -> x = k \/ x <= old) -> majority_reached v l -> (forall w, majority_reached w l -> w <= v) ->
  (v <= old /\ (old < k -> ~ majority_reached k l)) \/ (v = k /\ majority_reached k l).
Proof.
  intros k old l v Ho H M X. destruct (N.le_gt_cases v old) as [L|L].
  - left. split; [exact L|]. intros Lt K. apply X in K. lia.
  - right. assert (V : v <= k).
    { destruct (N.le_gt_cases v k) as [G|G]; [exact G|]. exfalso. unfold majority_reached in M. rewrite reached_none in M; [lia|].
      intros x I. destruct (H x I); lia. }
    assert (K : majority_reached k l).
    { unfold majority_reached in *. rewrite (reached_same k v); [exact M|]. intros x I. destruct (H x I); lia. }
    split; [|exact K]. apply X in K. lia.
Qed.

Lemma kept_find : forall b n id, kept b n -> In id (map p_id (n_peers b)) -> exists p, find_peer id (n_peers n) = Some p /\ In p (n_peers n) /\ p_id p = id.
Proof.
  intros b n id (_ & K & _) I. rewrite <- K in I. destruct (find_in _ _ I) as (p & F). exists p. split; [exact F|]. split; [|apply (find_peer_id _ _ _ F)].
  unfold find_peer in F. apply find_some in F. apply F.
Qed.
Lemma knows_other : forall n r a p p', knows n r a p p' -> p_id p' = p_id p /\ p_uid p' = p_uid p.
Proof. intros n r a p p' (K1 & K2 & _). unfold p_id. rewrite K1, K2. auto. Qed.

Lemma tells_offer : forall b k x q, k = last_of b -> offers_entries (set_quick k b) x (a_next (n_log b)) q -> tells b q.
Proof.
  intros b k x q -> (Q1 & Q2 & Q3 & Q4 & Q5 & Q6 & Q7 & Q8). split; [exact Q1|]. split; [exact Q4|]. split; [exact Q5|]. split; [exact Q6|]. split; [exact Q7|].
  rewrite Q8. change (n_log (set_quick (last_of b) b)) with (n_log b). rewrite skipn_all2; [apply firstn_nil|]. unfold a_next, lenN. lia.
Qed.

Definition full (b : node) (id dst : Z) : resp_msg := mkResp (n_term b) append_entries_response id dst (a_next (n_log b)) true.
Lemma answer_step : forall b ids done old n out id now p q0 dst, base b -> kept b n -> stage b ids done old n out -> old < last_of b ->
  In id ids -> ~ In id done -> incl done ids -> incl ids (map p_id (n_peers b)) -> find_peer id (n_peers n) = Some p -> rq_type q0 = append_entries_request ->
  exists n' l, run_event (ERpc now (p_uid p) false q0 (Some (full b id dst))) n = (ROk Nothing, n', l) /\ kept b n' /\
    stage b ids (id :: done) old n' (out ++ l).
Proof.
  intros b ids done old n out id now p q0 dst (B1 & B2 & B3 & B4 & B5) (K1 & K2 & K3) St Ho Ii Ni Id Ib F Hq0.
  set (r := full b id dst). set (nx := a_next (n_log b)) in *.
  assert (Ln : n_log n = n_log b) by (rewrite K1; reflexivity).
  assert (Rn : n_role n = Leader) by (rewrite K1; exact B1).
  assert (Tn : n_term n = n_term b) by (rewrite K1; reflexivity).
  assert (N1 : NoDup (map p_id (n_peers n))) by (rewrite K2; exact B2).
  assert (N2 : NoDup (map p_uid (n_peers n))) by (rewrite K3; exact B3).
  assert (Pid : p_id p = id) by (apply (find_peer_id _ _ _ F)).
  assert (Ip : In p (n_peers n)) by (unfold find_peer in F; apply find_some in F; apply F).
  assert (Hx : has_entries n nx) by (left; rewrite Ln; unfold nx; lia).
  assert (Idle : forall x, In x (n_peers n) -> idle r x = true -> (p_id x = id \/ In (p_id x) done) /\ goes_on n r x = nx).
  { intros x Ix Hi. unfold idle, goes_on in *. change (rs_src r) with id in *. change (rs_next_idx r) with nx. destruct (Z.eqb_spec (p_id x) id) as [E|E]; [auto|]. cbn [orb] in Hi.
    destruct St as [[(_ & _ & S) _]|(_ & S)]; specialize (S x Ix).
    - destruct S as [S1 S2]. destruct (in_dec Z.eq_dec (p_id x) done) as [D|D].
      + destruct (S1 D) as (_ & _ & Nxt & _). split; [auto|]. unfold next_of. rewrite Nxt. fold nx. destruct (nx =? 0) eqn:E0; [lia | reflexivity].
      + destruct (S2 D) as (Bz & _). rewrite Bz in Hi. discriminate.
    - destruct S as (Bz & _). rewrite Bz in Hi. discriminate. }
  destruct (C82_accepted n now r p q0) as (v & n' & qs & A1 & A2 & A3 & A4 & A5 & A6 & A7); try assumption; try reflexivity.
  { apply live_one; assumption. }
  { rewrite Tn. cbn. lia. }
  { change (rs_next_idx r) with nx. lia. }
  { rewrite Ln. exact B4. }
  { intros x Ix Hi. rewrite (proj2 (Idle x Ix Hi)). exact Hx. }
  exists n', (sends qs). split; [exact A2|].
  assert (Kn : kept b n').
  { destruct (knows_maps _ _ _ _ _ A5) as (M1 & M2). split; [|rewrite M1, M2; auto]. rewrite A4 at 1. rewrite K1. reflexivity. }
  split; [exact Kn|]. assert (Kq : last_of b = nx - 1) by reflexivity.
  assert (Ms : match_of r n = last_of b :: map (fun p => if (p_id p =? id)%Z then last_of b else p_match p) (n_peers n)).
  { unfold match_of. rewrite Ln. reflexivity. }
  assert (Off : forall x q, In (x, q) qs -> n_quick n' = last_of b -> tells b q).
  { intros x q Iq Eq. apply (tells_offer b (n_quick n') x q Eq). assert (O := A7 x q Iq).
    assert (Ix : In x (n_peers n) /\ idle r x = true).
    { assert (H : In x (map fst qs)) by (exact (in_map fst _ _ Iq)). rewrite A6 in H. apply filter_In in H. destruct H as [H1 H2]. split; [exact H1|].
      destruct (n_quick n <? v); [exact H2|]. apply andb_prop in H2. unfold idle. rewrite (proj1 H2). reflexivity. }
    rewrite (proj2 (Idle x (proj1 Ix) (proj2 Ix))) in O. rewrite K1 in O. exact O. }
  destruct St as [[(S1 & S2 & S3) ->]|(S1 & S3)].
  - (* nothing was committed before *)
    assert (Lv : (v <= old /\ (old < last_of b -> ~ majority_reached (last_of b) (match_of r n))) \/ (v = last_of b /\ majority_reached (last_of b) (match_of r n))).
    { apply two_levels; [lia | | apply A1 | apply A1]. rewrite Ms. intros x [I1|I1]; [left; auto|]. apply in_map_iff in I1. destruct I1 as (y & <- & I1).
      destruct (Z.eqb_spec (p_id y) id); [auto|]. destruct (S3 y I1) as [G1 G2]. destruct (in_dec Z.eq_dec (p_id y) done) as [D|D]; [left; apply G1, D | right; apply G2, D]. }
    destruct Lv as [(V1 & V2)|(V1 & V2)].
    + (* and nothing is committed yet *)
      replace (n_quick n <? v) with false in * by lia. left.
      assert (Q0 : qs = []).
      { assert (E : map fst qs = []).
        { rewrite A6. clear - N1 F S3 Ip Pid Ln Ni Ii. induction (n_peers n) as [|x l IH] in N1, F, S3, Ip |- *; [reflexivity|]. 
          cbn [filter].
          destruct (Z.eqb_spec (p_id x) (rs_src r)) as [E|E]; cbn [andb].
          - destruct (S3 x (or_introl eq_refl)) as [_ G]. rewrite E in G. destruct (G Ni) as (_ & _ & G3). rewrite (G3 Ii). rewrite Ln. change (rs_next_idx r) with (a_next (n_log b)). rewrite N.ltb_irrefl. cbn [orb].
            clear - N1 E. inversion N1 as [|? ? M1 M2]; subst. rewrite E in M1. clear - M1. induction l as [|y l IH]; [reflexivity|]. cbn [filter map In] in *.
            destruct (Z.eqb_spec (p_id y) (rs_src r)) as [Ey|Ey]; [exfalso; apply M1; left; exact Ey|]. cbn [andb]. apply IH. intros K. apply M1. right. exact K.
          - unfold find_peer in F. cbn [find] in F. destruct (Z.eqb_spec (p_id x) id) as [E2|E2]; [contradiction|].
            apply IH; [intros y Iy; apply S3; right; exact Iy | exact F | inversion N1; assumption |].
            destruct Ip as [Ip|Ip]; [congruence | exact Ip]. }
        destruct qs; [reflexivity | discriminate]. }
      rewrite Q0. split; [|reflexivity]. split; [rewrite A3; lia|]. split.
      * replace (last_of b :: map p_match (n_peers n')) with (match_of r n); [apply V2; exact Ho|]. rewrite Ms. f_equal. clear - A5 Kq.
        induction A5 as [|x x' l l' K A5 IH]; [reflexivity|]. cbn [map]. rewrite IH. f_equal. destruct K as (_ & _ & _ & _ & _ & K). change (rs_src r) with id in K. change (rs_next_idx r) with nx in K.
        destruct (p_id x =? id)%Z; [destruct K as [-> _]; exact Kq | destruct K as [-> _]; reflexivity].
      * intros x' Ix'. destruct (forall2_in_r _ _ _ _ _ _ A5 Ix') as (x & Ix & Kx). destruct (knows_other _ _ _ _ _ Kx) as (I1 & I2). rewrite I1.
        destruct Kx as (_ & _ & _ & _ & _ & Kx). change (rs_src r) with id in Kx. change (rs_next_idx r) with nx in Kx. destruct (S3 x Ix) as [G1 G2]. destruct (Z.eqb_spec (p_id x) id) as [E|E].
        { split; [|intros C; exfalso; apply C; left; congruence]. intros _. destruct Kx as (X1 & X2 & X3 & X4). rewrite X1, X2, X3, X4. destruct G2 as (_ & _ & G2); [rewrite E; exact Ni|].
          rewrite G2 by (rewrite E; exact Ii). rewrite Ln. fold nx. rewrite N.ltb_irrefl. auto. }
        destruct Kx as (_ & ->). split; [intros [C|C]; [congruence | apply G1, C] | intros C; apply G2; intros D; apply C; right; exact D].
    + (* everything is committed now *)
      replace (n_quick n <? v) with true in * by lia. right. assert (Qn : n_quick n' = last_of b) by (rewrite A3; lia). split; [exact Qn|].
      intros x' Ix'. destruct (forall2_in_r _ _ _ _ _ _ A5 Ix') as (x & Ix & Kx). destruct (knows_other _ _ _ _ _ Kx) as (I1 & I2). rewrite I1, I2.
      destruct (sent_filter _ _ _ x N2 A6 Ix) as [Z1 Z2]. cbn [app].
      destruct Kx as (_ & _ & _ & _ & _ & Kx). change (rs_src r) with id in Kx. change (rs_next_idx r) with nx in Kx. destruct (S3 x Ix) as [G1 G2]. destruct (Z.eqb_spec (p_id x) id) as [E|E].
      { destruct Kx as (X1 & X2 & X3 & X4). split; [rewrite X4; reflexivity|]. split; [rewrite X1; lia|]. split; [|intros C; exfalso; apply C; left; congruence].
        intros _. split; [exact X3|]. split; [exact X2|]. destruct Z2 as (q & Q1 & Q2); [unfold idle; change (rs_src r) with id; rewrite E, Z.eqb_refl; reflexivity|].
        exists q. split; [exact Q2 | apply (Off x q Q1 Qn)]. }
      destruct Kx as (X1 & X2 & X3). split; [exact X2|]. destruct (in_dec Z.eq_dec (p_id x) done) as [D|D].
      { destruct (G1 D) as (Y1 & Y2 & Y3 & Y4). rewrite Y1 in X3. destruct X3 as (X3 & X4). split; [rewrite X1, Y4; lia|]. split; [|intros C; exfalso; apply C; right; exact D].
        intros _. split; [rewrite X4; exact Y2|]. split; [rewrite X3; unfold next_of; rewrite Y3; fold nx; destruct (nx =? 0) eqn:E0; [lia | reflexivity]|].
        destruct Z2 as (q & Q1 & Q2); [unfold idle; rewrite Y1; apply orb_true_r|]. exists q. split; [exact Q2 | apply (Off x q Q1 Qn)]. }
      { destruct (G2 D) as (Y1 & Y2 & Y3). rewrite Y1 in X3. destruct X3 as (X3 & X4). split; [rewrite X1; lia|]. split; [intros [C|C]; [congruence | contradiction]|].
        intros _ Iy. split; [exact X4|]. apply Z1. unfold idle. rewrite Y1. change (rs_src r) with id. destruct (Z.eqb_spec (p_id x) id); [contradiction | reflexivity]. }
  - (* everything was committed before *)
    assert (V : v <= last_of b).
    { destruct A1 as [A1 _]. destruct (N.le_gt_cases v (last_of b)) as [G|G]; [exact G|]. exfalso. unfold majority_reached in A1. rewrite reached_none in A1; [lia|].
      rewrite Ms. intros x [I1|I1]; [lia|]. apply in_map_iff in I1. destruct I1 as (y & <- & I1). destruct (_ =? _)%Z; [lia|]. destruct (S3 y I1) as (_ & G1 & _). lia. }
    replace (n_quick n <? v) with false in * by lia. right. assert (Qn : n_quick n' = last_of b) by (rewrite A3; lia). split; [exact Qn|].
    intros x' Ix'. destruct (forall2_in_r _ _ _ _ _ _ A5 Ix') as (x & Ix & Kx). destruct (knows_other _ _ _ _ _ Kx) as (I1 & I2). rewrite I1, I2.
    destruct (sent_filter _ _ _ x N2 A6 Ix) as [Z1 Z2]. rewrite sent_app.
    destruct Kx as (_ & _ & _ & _ & _ & Kx). change (rs_src r) with id in *. change (rs_next_idx r) with nx in *. destruct (S3 x Ix) as (G0 & G1 & G2 & G3). destruct (Z.eqb_spec (p_id x) id) as [E|E].
    { destruct Kx as (X1 & X2 & X3 & X4). destruct G3 as (Y1 & Y2); [rewrite E; exact Ni | rewrite E; exact Ii|]. rewrite Y1 in *. split; [rewrite X4; reflexivity|]. split; [rewrite X1; lia|].
      split; [|intros C; exfalso; apply C; left; congruence]. intros _. split; [exact X3|]. split; [exact X2|].
      destruct Z2 as (q & Q1 & Q2); [reflexivity|]. exists q. rewrite Y2, Q2. split; [reflexivity | apply (Off x q Q1 Qn)]. }
    destruct Kx as (_ & ->). split; [exact G0|]. split; [exact G1|]. rewrite Z1 by reflexivity. rewrite app_nil_r. split.
    + intros [C|C]; [congruence | apply G2, C].
    + intros C. apply G3. intros D. apply C. right. exact D.
Qed.

(** ** Every member answers the new entries *)
Definition offered (b : node) (X : N) (q : req) : Prop :=
  rq_type q = append_entries_request /\ rq_term q = n_term b /\ rq_last_idx q = X - 1 /\ term_is b (X - 1) (rq_last_term q) /\
  rq_entries q = skipn (N.to_nat (X - al_start (n_log b))) (al_ents (n_log b)).
Definition can_take (b : node) (X : N) (f : node) : Prop :=
  n_term f <= n_term b /\ (n_role f = Leader -> n_term f < n_term b) /\ 1 <= al_start (n_log f) <= X /\
  (X = 1 \/ exists e e', a_get (n_log b) (X - 1) = Some e /\ a_get (n_log f) (X - 1) = Some e' /\ ev_term e' = ev_term e).
Lemma term_is_in : forall b i t e, term_is b i t -> a_get (n_log b) i = Some e -> 1 <= i -> t = ev_term e.
Proof.
  intros b i t e [(H & _)|[(e' & H & E)|(H & _)]] G L; [lia | congruence|]. apply a_get_some in G. lia.
Qed.
Lemma nth_from : forall b X j, al_start (n_log b) <= X -> nth_error (skipn (N.to_nat (X - al_start (n_log b))) (al_ents (n_log b))) j = a_get (n_log b) (X + N.of_nat j).
Proof.
  intros b X j H. rewrite nth_skipn. unfold a_get. replace (X + N.of_nat j <? al_start (n_log b)) with false by lia. f_equal. lia.
Qed.
Lemma member_takes : forall now b f q X, offered b X q -> can_take b X f -> 1 <= X -> al_start (n_log b) <= X < a_next (n_log b) ->
  exists f' l, run_event (ERequest now q) f = (ROk (Response (full b (n_id f) (rq_src q))), f', l) /\
    n_id f' = n_id f /\ follows b f' /\ has_from X b f' /\ n_quick f' = N.max (n_quick f) (rq_commit q).
Proof.
  intros now b f q X (O1 & O2 & O3 & O4 & O5) (T1 & T2 & T3 & T4) X1 Xb.
  destruct (takes_it now f q X) as (f' & l & E & F1 & F2 & F3 & F4 & F5 & F6 & F7 & F8); try assumption; try (rewrite O2; assumption).
  { destruct T4 as [T4|(e & e' & T4 & T5 & T6)]; [left; exact T4|]. destruct (N.eq_dec X 1) as [E1|E1]; [left; exact E1|]. right. exists e'. split; [exact T5|].
    rewrite T6. symmetry. apply (term_is_in b (X - 1)); [exact O4 | exact T4 | lia]. }
  assert (Hf : has_from X b f').
  { intros j e Hj G. destruct (F8 (N.to_nat (j - X)) e) as (e' & G1 & G2).
    - rewrite O5. rewrite nth_from by lia. replace (X + N.of_nat (N.to_nat (j - X))) with j by lia. exact G.
    - exists e'. replace (X + N.of_nat (N.to_nat (j - X))) with j in G1 by lia. auto. }
  assert (Ln : X + lenN (rq_entries q) = a_next (n_log b)).
  { rewrite O5. unfold lenN, a_next in *. rewrite skipn_length. unfold lenN in *. lia. }
  exists f', l. split; [rewrite E, O2, Ln; reflexivity|]. split; [exact F1|]. split; [|split; [exact Hf | exact F4]].
  split; [rewrite F2, O2; lia|]. split; [rewrite F3; discriminate|]. split; [rewrite F5; lia|]. right.
  destruct (a_get (n_log b) (a_next (n_log b) - 1)) as [e|] eqn:G.
  - destruct (Hf (a_next (n_log b) - 1) e) as (e' & G1 & G2); [lia | exact G|]. eauto.
  - exfalso. unfold a_get in G. replace (a_next (n_log b) - 1 <? al_start (n_log b)) with false in G by lia. apply nth_error_None in G.
    unfold a_next, lenN in *. lia.
Qed.

Lemma kept_uid : forall b n id p p', kept b n -> find_peer id (n_peers n) = Some p -> find_peer id (n_peers b) = Some p' -> p_uid p = p_uid p'.
Proof.
  intros b n id p p' (_ & K1 & K2). revert K1 K2. unfold find_peer. generalize (n_peers n) as l, (n_peers b) as l'. intros l. induction l as [|x l IH]; intros [|y l'] K1 K2; try discriminate.
  cbn [map find] in *. injection K1 as Ex K1. injection K2 as Eu K2. rewrite Ex. destruct (p_id y =? id)%Z; [intros A B; congruence | apply IH; assumption].
Qed.
Lemma put_same : forall F id f, put F id f id = f. Proof. intros. unfold put. rewrite Z.eqb_refl. reflexivity. Qed.
Lemma put_other : forall F id f x, x <> id -> put F id f x = F x. Proof. intros F id f x H. unfold put. destruct (Z.eqb_spec x id); [contradiction | reflexivity]. Qed.

Lemma first_wave : forall b ids old now l1 X, base b -> old < last_of b -> incl ids (map p_id (n_peers b)) -> 1 <= X -> al_start (n_log b) <= X < a_next (n_log b) ->
  (forall id p, In id ids -> find_peer id (n_peers b) = Some p -> exists q, sent_to (p_uid p) l1 = [q] /\ offered b X q) ->
  forall todo done n F out, kept b n -> stage b ids done old n out -> incl done ids -> NoDup todo -> (forall id, In id todo -> In id ids /\ ~ In id done) ->
  (forall id, In id todo -> n_id (F id) = id /\ can_take b X (F id)) ->
  exists n' F' l, wave now l1 todo n F = Some (n', F', l) /\ kept b n' /\ stage b ids (rev todo ++ done) old n' (out ++ l) /\
    (forall id, In id todo -> n_id (F' id) = id /\ follows b (F' id) /\ has_from X b (F' id) /\ n_quick (F id) <= n_quick (F' id)) /\
    (forall id, ~ In id todo -> F' id = F id).
Proof.
  intros b ids old now l1 X Hb Ho Ib X1 Xb Hs todo. induction todo as [|id todo IH]; intros done n F out K St Id Nd Ht Hf.
  - exists n, F, []. cbn [wave rev app]. rewrite app_nil_r. split; [reflexivity|]. split; [exact K|]. split; [exact St|]. split; [intros id []|auto].
  - apply (proj1 (NoDup_cons_iff _ _)) in Nd. destruct Nd as [Nd1 Nd2]. destruct (Ht id (or_introl eq_refl)) as [Ii Ni].
    destruct (kept_find b n id K (Ib id Ii)) as (p & Fp & Ip & Pid). destruct (find_in id (n_peers b) (Ib id Ii)) as (pb & Fb).
    destruct (Hs id pb Ii Fb) as (q & Sq & Oq). rewrite <- (kept_uid b n id p pb K Fp Fb) in Sq.
    destruct (Hf id (or_introl eq_refl)) as [Fi Ft]. destruct (member_takes now b (F id) q X Oq Ft X1 Xb) as (f' & lf & Ef & E1 & E2 & E3 & E4).
    rewrite Fi in Ef, E1. destruct (answer_step b ids done old n out id now p q (rq_src q)) as (n1 & l2 & En & K1 & St1); try assumption; [apply Oq|].
    destruct (IH (id :: done) n1 (put F id f') (out ++ l2)) as (n' & F' & l & W & K2 & St2 & M1 & M2); try assumption.
    + intros x [<-|Ix]; auto.
    + intros x Ix. destruct (Ht x (or_intror Ix)) as [H1 H2]. split; [exact H1|]. intros [C|C]; [congruence | contradiction].
    + intros x Ix. rewrite put_other by congruence. apply Hf. right. exact Ix.
    + exists n', F', (l2 ++ l). cbn [wave]. rewrite Fp, Sq, Ef, En, W. split; [reflexivity|]. split; [exact K2|].
      split; [cbn [rev]; rewrite <- (app_assoc (rev todo)); rewrite (app_assoc out); exact St2|]. split.
      * intros x [<-|Ix].
        { rewrite M2 by exact Nd1. rewrite put_same. split; [exact E1|]. split; [exact E2|]. split; [exact E3 | lia]. }
        { destruct (M1 x Ix) as (G1 & G2 & G3 & G4). rewrite put_other in G4 by congruence. auto. }
      * intros x Nx. rewrite M2 by (intros C; apply Nx; right; exact C). apply put_other. intros ->. apply Nx. left. reflexivity.
Qed.

(** ** And the new commit index *)
Definition calm (b : node) (ids done : list Z) (n : node) : Prop :=
  n_quick n = last_of b /\
  forall p, In p (n_peers n) -> p_match p <= last_of b /\ (In (p_id p) ids -> p_pending p = false /\ p_next p = a_next (n_log b)) /\
    p_busy p = negb (if in_dec Z.eq_dec (p_id p) done then true else false).
Lemma calm_step : forall b ids done n id now p q0 dst, base b -> kept b n -> calm b ids done n ->
  In id ids -> ~ In id done -> incl done ids -> find_peer id (n_peers n) = Some p -> rq_type q0 = append_entries_request ->
  exists n', run_event (ERpc now (p_uid p) false q0 (Some (full b id dst))) n = (ROk Nothing, n', []) /\ kept b n' /\ calm b ids (id :: done) n'.
Proof.
  intros b ids done n id now p q0 dst (B1 & B2 & B3 & B4 & B5) (K1 & K2 & K3) (C1 & C2) Ii Ni Id F Hq0.
  set (r := full b id dst). set (nx := a_next (n_log b)) in *.
  assert (Ln : n_log n = n_log b) by (rewrite K1; reflexivity).
  assert (Rn : n_role n = Leader) by (rewrite K1; exact B1).
  assert (Tn : n_term n = n_term b) by (rewrite K1; reflexivity).
  assert (N1 : NoDup (map p_id (n_peers n))) by (rewrite K2; exact B2).
  assert (N2 : NoDup (map p_uid (n_peers n))) by (rewrite K3; exact B3).
  assert (Pid : p_id p = id) by (apply (find_peer_id _ _ _ F)).
  assert (Ip : In p (n_peers n)) by (unfold find_peer in F; apply find_some in F; apply F).
  assert (Hx : has_entries n nx) by (left; rewrite Ln; unfold nx; lia).
  assert (Kq : last_of b = nx - 1) by reflexivity.
  destruct (C82_accepted n now r p q0) as (v & n' & qs & A1 & A2 & A3 & A4 & A5 & A6 & A7); try assumption; try reflexivity.
  { apply live_one; assumption. }
  { rewrite Tn. cbn. lia. }
  { change (rs_next_idx r) with nx. lia. }
  { rewrite Ln. exact B4. }
  { intros x Ix Hi. unfold idle, goes_on in *. change (rs_src r) with id in *. change (rs_next_idx r) with nx. destruct (Z.eqb_spec (p_id x) id) as [E|E]; [exact Hx|]. cbn [orb] in Hi.
    destruct (C2 x Ix) as (_ & G1 & G2). rewrite G2 in Hi. destruct (in_dec Z.eq_dec (p_id x) done) as [D|D]; [|discriminate].
    destruct (G1 (Id _ D)) as (_ & G3). unfold next_of. rewrite G3. fold nx. destruct (nx =? 0) eqn:E0; [lia | exact Hx]. }
  assert (V : v <= last_of b).
  { destruct A1 as [A1 _]. destruct (N.le_gt_cases v (last_of b)) as [G|G]; [exact G|]. exfalso. unfold majority_reached in A1. rewrite reached_none in A1; [lia|].
    unfold match_of. rewrite Ln. fold nx. change (rs_src r) with id. change (rs_next_idx r) with nx.
    intros x [I1|I1]; [lia|]. apply in_map_iff in I1. destruct I1 as (y & <- & I1). destruct (_ =? _)%Z; [lia|]. destruct (C2 y I1) as (G1 & _). lia. }
  replace (n_quick n <? v) with false in * by lia.
  assert (Np : p_pending p = false) by (apply (C2 p Ip); rewrite Pid; exact Ii).
  assert (Q0 : qs = []).
  { assert (E : map fst qs = []).
    { rewrite A6. destruct (filter _ (n_peers n)) as [|x l] eqn:Ef; [reflexivity|]. exfalso.
      assert (I1 : In x (x :: l)) by (left; reflexivity). rewrite <- Ef in I1. apply filter_In in I1. destruct I1 as [I1 I2].
      change (rs_src r) with id in I2. change (rs_next_idx r) with nx in I2. rewrite Ln in I2. fold nx in I2. rewrite N.ltb_irrefl, orb_false_r in I2. apply andb_prop in I2. destruct I2 as [I2 I3].
      rewrite (same_peer id (n_peers n) p x N1 F I1) in I3 by lia. congruence. }
    destruct qs; [reflexivity | discriminate]. }
  exists n'. rewrite Q0 in A2. split; [exact A2|]. split.
  { destruct (knows_maps _ _ _ _ _ A5) as (M1 & M2). split; [|rewrite M1, M2; auto]. rewrite A4 at 1. rewrite K1. reflexivity. }
  split; [rewrite A3; lia|].
  intros x' Ix'. destruct (forall2_in_r _ _ _ _ _ _ A5 Ix') as (x & Ix & Kx). destruct (knows_other _ _ _ _ _ Kx) as (I1 & I2). rewrite I1.
  destruct Kx as (_ & _ & _ & _ & _ & Kx). change (rs_src r) with id in Kx. change (rs_next_idx r) with nx in Kx. destruct (C2 x Ix) as (G0 & G1 & G2). destruct (Z.eqb_spec (p_id x) id) as [E|E].
  - destruct Kx as (X1 & X2 & X3 & X4). split; [rewrite X1; lia|]. split; [auto|]. rewrite X4. rewrite Ln. fold nx. rewrite N.ltb_irrefl.
    destruct G1 as [G1 _]; [rewrite E; exact Ii|]. rewrite G1. destruct (in_dec Z.eq_dec (p_id x) (id :: done)) as [D|D]; [reflexivity|]. exfalso. apply D. left. auto.
  - destruct Kx as (_ & ->). split; [exact G0|]. split; [exact G1|]. rewrite G2. destruct (in_dec Z.eq_dec (p_id x) done) as [D|D], (in_dec Z.eq_dec (p_id x) (id :: done)) as [D'|D']; try reflexivity.
    + exfalso. apply D'. right. exact D.
    + exfalso. destruct D' as [D'|D']; [congruence | contradiction].
Qed.
Lemma member_learns : forall now b f q, tells b q -> follows b f -> 1 < a_next (n_log b) ->
  exists f' l, run_event (ERequest now q) f = (ROk (Response (full b (n_id f) (rq_src q))), f', l) /\
    n_id f' = n_id f /\ follows b f' /\ n_log f' = n_log f /\ n_quick f' = N.max (n_quick f) (last_of b).
Proof.
  intros now b f q (O1 & O2 & O3 & O4 & O5 & O6) (T1 & T2 & T3 & T4) Hb.
  destruct T4 as [T4|(e & e' & T4 & T5 & T6)]; [lia|].
  destruct (takes_it now f q (a_next (n_log b))) as (f' & l & E & F1 & F2 & F3 & F4 & F5 & F6 & F7 & F8); try assumption; try (rewrite O2; assumption); [lia | |].
  { right. exists e'. split; [exact T5|]. rewrite T6. symmetry. apply (term_is_in b (last_of b)); [exact O5 | exact T4 | unfold last_of; lia]. }
  exists f', l. split; [rewrite E, O2, O6; unfold full; change (lenN []) with 0; rewrite N.add_0_r; reflexivity|]. split; [exact F1|]. split; [|split; [apply F7, O6 | rewrite F4, O3; reflexivity]].
  split; [rewrite F2, O2; lia|]. split; [rewrite F3; discriminate|]. split; [rewrite F5; exact T3|]. right. exists e, e'. split; [exact T4|]. split; [rewrite (F7 O6); exact T5 | exact T6].
Qed.

Lemma second_wave : forall b ids now l2, base b -> incl ids (map p_id (n_peers b)) -> 1 < a_next (n_log b) ->
  (forall id p, In id ids -> find_peer id (n_peers b) = Some p -> exists q, sent_to (p_uid p) l2 = [q] /\ tells b q) ->
  forall todo done n F, kept b n -> calm b ids done n -> incl done ids -> NoDup todo -> (forall id, In id todo -> In id ids /\ ~ In id done) ->
  (forall id, In id todo -> n_id (F id) = id /\ follows b (F id)) ->
  exists n' F', wave now l2 todo n F = Some (n', F', []) /\ kept b n' /\ calm b ids (rev todo ++ done) n' /\
    (forall id, In id todo -> n_id (F' id) = id /\ follows b (F' id) /\ n_log (F' id) = n_log (F id) /\ n_quick (F' id) = N.max (n_quick (F id)) (last_of b)) /\
    (forall id, ~ In id todo -> F' id = F id).
Proof.
  intros b ids now l2 Hb Ib X1 Hs todo. induction todo as [|id todo IH]; intros done n F K St Id Nd Ht Hf.
  - exists n, F. cbn [wave rev app]. split; [reflexivity|]. split; [exact K|]. split; [exact St|]. split; [intros id []|auto].
  - apply (proj1 (NoDup_cons_iff _ _)) in Nd. destruct Nd as [Nd1 Nd2]. destruct (Ht id (or_introl eq_refl)) as [Ii Ni].
    destruct (kept_find b n id K (Ib id Ii)) as (p & Fp & Ip & Pid). destruct (find_in id (n_peers b) (Ib id Ii)) as (pb & Fb).
    destruct (Hs id pb Ii Fb) as (q & Sq & Oq). rewrite <- (kept_uid b n id p pb K Fp Fb) in Sq.
    destruct (Hf id (or_introl eq_refl)) as [Fi Ft]. destruct (member_learns now b (F id) q Oq Ft X1) as (f' & lf & Ef & E1 & E2 & E3 & E4).
    rewrite Fi in Ef, E1. destruct (calm_step b ids done n id now p q (rq_src q)) as (n1 & En & K1 & St1); try assumption; [apply Oq|].
    destruct (IH (id :: done) n1 (put F id f')) as (n' & F' & W & K2 & St2 & M1 & M2); try assumption.
    + intros x [<-|Ix]; auto.
    + intros x Ix. destruct (Ht x (or_intror Ix)) as [H1 H2]. split; [exact H1|]. intros [C|C]; [congruence | contradiction].
    + intros x Ix. rewrite put_other by congruence. apply Hf. right. exact Ix.
    + exists n', F'. cbn [wave]. rewrite Fp, Sq, Ef, En, W. split; [reflexivity|]. split; [exact K2|].
      split; [cbn [rev]; rewrite <- app_assoc; exact St2|]. split.
      * intros x [<-|Ix].
        { rewrite M2 by exact Nd1. rewrite put_same. auto. }
        { destruct (M1 x Ix) as (G1 & G2 & G3 & G4). rewrite put_other in G3, G4 by congruence. auto. }
      * intros x Nx. rewrite M2 by (intros C; apply Nx; right; exact C). apply put_other. intros ->. apply Nx. left. reflexivity.
Qed.

(** ** C93 *)
Lemma sent_appends : forall u es i, sent_to u (append_acts i es) = [].
Proof. intros u es. induction es as [|e es IH]; intros i; [reflexivity|]. cbn [append_acts]. unfold sent_to in *. cbn [map concat app]. apply IH. Qed.
Lemma map_nil : forall A B (f : A -> B) l, l <> [] -> map f l <> []. Proof. intros A B f [|x l] H; [congruence | discriminate]. Qed.
Lemma majority_done : forall ids l k, NoDup ids -> incl ids (map p_id l) -> (length l + 1 < 2 * (length ids + 1))%nat ->
  (forall p, In p l -> In (p_id p) ids -> p_match p = k) -> majority_reached k (k :: map p_match l).
Proof.
  intros ids l k N I M H. unfold majority_reached. rewrite reached_cons, N.leb_refl. cbn [length]. rewrite map_length.
  assert (G : (length ids <= reached k (map p_match l))%nat).
  { transitivity (length (map p_id (filter (fun p => N.leb k (p_match p)) l))).
    - apply NoDup_incl_length; [exact N|]. intros id Ii. assert (J := I id Ii). apply in_map_iff in J. destruct J as (p & E & J). apply in_map_iff. exists p. split; [exact E|].
      apply filter_In. split; [exact J|]. rewrite (H p J) by congruence. apply N.leb_refl.
    - rewrite map_length. unfold reached. clear. induction l as [|p l IH]; [auto|]. cbn [filter map]. destruct (k <=? p_match p); cbn [length]; lia. }
  lia.
Qed.

(** A client's request to a leader: the leader takes the entries and offers them to the members.
    When a majority of members has answered, in whatever order, everything is committed; each of
    these members has the entries and is told by then; when they have answered again, they know
    it too, and the leader is ready for the next request. *)
Theorem C93_round : forall n F ids ids1 ids2 now q,
  rq_type q = client_request -> rq_entries q <> [] -> lenN (rq_entries q) <= pm_max_append (n_prm n) -> n_peers n <> [] ->
  ready ids n -> in_contact now n -> Permutation ids1 ids -> Permutation ids2 ids ->
  (forall id, In id ids -> n_id (F id) = id /\ follows n (F id)) ->
  exists x n1 l1 n2 F2 l2 n3 F3,
    run_event (ERequest now q) n = (ROk (Response x), n1, l1) /\ rs_accepted x = true /\
    n_log n1 = log_plus (n_log n) (map (stamp (n_term n)) (rq_entries q)) /\
    wave now l1 ids1 n1 F = Some (n2, F2, l2) /\ n_log n2 = n_log n1 /\ n_quick n2 = rs_next_idx x - 1 /\ rs_next_idx x = a_next (n_log n1) /\
    (forall id, In id ids -> has_from (a_next (n_log n)) n1 (F2 id)) /\
    wave now l2 ids2 n2 F2 = Some (n3, F3, []) /\ n_log n3 = n_log n1 /\
    (forall id, In id ids -> n_quick n3 <= n_quick (F3 id) /\ n_log (F3 id) = n_log (F2 id)) /\
    ready ids n3 /\ (forall id, In id ids -> n_id (F3 id) = id /\ follows n3 (F3 id)) /\
    n_prm n3 = n_prm n /\ n_peers n3 <> [] /\ (forall id, ~ In id ids -> F3 id = F id) /\ n_term n3 = n_term n /\
    (forall now', in_contact now' n3).
Proof.
  intros n F ids ids1 ids2 now q Hq Hne Hmax Hp (R1 & R3 & R4 & R5 & R6 & R7 & R8 & R9 & R10 & R11 & R12 & R13) Hc P1 P2 HF.
  destruct (client_eq n now q Hq Hc Hp R3 R5) as (el & Le & Cl). cbv zeta in Cl.
  set (X := a_next (n_log n)) in *. set (es := map (stamp (n_term n)) (rq_entries q)).
  set (b0 := set_log (log_plus (n_log n) es) (set_elapsed el n)).
  assert (Es : lenN es = lenN (rq_entries q)) by (unfold es, lenN; rewrite map_length; reflexivity).
  assert (Ep : 1 <= lenN es) by (rewrite Es; unfold lenN; destruct (rq_entries q); [congruence | cbn [length]; lia]).
  assert (Nb : a_next (n_log b0) = X + lenN es).
  { unfold X, a_next. change (n_log b0) with (log_plus (n_log n) es). unfold log_plus. cbn [al_start al_ents]. unfold lenN. rewrite app_length. lia. }
  assert (Sb : al_start (n_log b0) = al_start (n_log n)) by reflexivity.
  assert (Xs : al_start (n_log n) <= X) by (unfold X, a_next; lia).
  assert (Hb : forall nx, has_entries n nx -> has_entries b0 nx).
  { intros nx [H|[H|H]]; [left | right; left | right; right]; rewrite ?Nb, ?Sb; [fold X in H; lia | exact H | exact H]. }
  destruct Cl as (x & Ex & Ax & Nx).
  { fold es. fold b0. intros p I1 I2. assert (H := R12 p I1 I2). unfold next_of in *. destruct (p_next p =? 0); [|apply Hb, H]. left. rewrite Nb, Sb. lia. }
  fold es in Ex, Nx. fold b0 in Ex, Nx. set (b := set_peers (map (offer b0) (n_peers n)) b0) in *.
  set (l1 := append_acts _ es ++ _) in Ex.
  assert (Oi : forall p, p_id (offer b0 p) = p_id p) by (intros p; unfold offer; destruct (p_busy p); reflexivity).
  assert (Ou : forall p, p_uid (offer b0 p) = p_uid p) by (intros p; unfold offer; destruct (p_busy p); reflexivity).
  assert (Mi : map p_id (n_peers b) = map p_id (n_peers n)) by (apply map_ids, Oi).
  assert (Mu : map p_uid (n_peers b) = map p_uid (n_peers n)) by (unfold b; cbn [n_peers set_peers]; rewrite map_map; apply map_ext, Ou).
  assert (Bs : base b).
  { split; [exact R1|]. split; [rewrite Mi; exact R3|]. split; [rewrite Mu; exact R4|]. split; [exact R5|]. change (n_log b) with (n_log b0). rewrite Nb, Sb. lia. }
  assert (Lb : last_of b = X + lenN es - 1) by (unfold last_of; change (n_log b) with (n_log b0); rewrite Nb; reflexivity).
  assert (Kb : kept b b). { split; [unfold b, b0; destruct n; reflexivity | auto]. }
  assert (Ho : n_quick n < last_of b) by (rewrite Lb, R6; fold X; lia).
  assert (Ib : incl ids (map p_id (n_peers b))) by (rewrite Mi; exact R9).
  assert (Mem : forall p, In p (n_peers b) -> exists p0, In p0 (n_peers n) /\ p = offer b0 p0).
  { intros p I1. unfold b in I1. cbn [n_peers set_peers] in I1. apply in_map_iff in I1. destruct I1 as (p0 & <- & I1). eauto. }
  assert (St : stage b ids [] (n_quick n) b []).
  { left. split; [|reflexivity]. split; [reflexivity|]. split.
    - unfold majority_reached. rewrite reached_cons, N.leb_refl. rewrite reached_none; [cbn [length]; rewrite map_length|].
      + assert (H : map (offer b0) (n_peers n) <> []) by (apply map_nil, Hp). unfold b. cbn [n_peers set_peers]. destruct (map (offer b0) (n_peers n)); [congruence | cbn [length]; lia].
      + intros y I1. apply in_map_iff in I1. destruct I1 as (p & <- & I1). destruct (Mem p I1) as (p0 & I2 & ->).
        assert (H := R11 p0 I2). unfold offer. destruct (p_busy p0); [lia|]. change (p_match (p_set_next (next_of b0 p0) (p_set_busy true p0))) with (p_match p0). lia.
    - intros p I1. split; [intros []|]. intros _. destruct (Mem p I1) as (p0 & I2 & ->). assert (H := R11 p0 I2). rewrite Oi.
      unfold offer. destruct (p_busy p0) eqn:Bz.
      + split; [exact Bz|]. split; [exact H|]. intros I3. apply (R13 p0 I2 I3).
      + split; [reflexivity|]. split; [exact H|]. intros I3. apply (R13 p0 I2 I3). }
  assert (Sent : forall id p, In id ids -> find_peer id (n_peers b) = Some p -> exists q, sent_to (p_uid p) l1 = [q] /\ offered b X q).
  { intros id p I1 Fp. assert (I2 : In p (n_peers b)) by (unfold find_peer in Fp; apply find_some in Fp; apply Fp). assert (Pid := find_peer_id _ _ _ Fp).
    destruct (Mem p I2) as (p0 & I3 & ->). rewrite Oi in Pid. rewrite Ou.
    assert (I4 : In (p_id p0) ids) by (rewrite Pid; exact I1). destruct (R13 p0 I3 I4) as (G1 & G2 & G3).
    unfold l1. rewrite sent_app, sent_appends. cbn [app].
    set (f := fun p => log_req b0 p (next_of b0 p) (term_of b0 (next_of b0 p - 1))).
    assert (Pk : concat (map (told b0) (n_peers n)) = pick (fun p => negb (p_busy p)) f (n_peers n)).
    { unfold pick. f_equal. apply map_ext. intros y. unfold told, f. destruct (p_busy y); reflexivity. }
    rewrite Pk. destruct (sent_filter (fun p => negb (p_busy p)) (n_peers n) (pick (fun p => negb (p_busy p)) f (n_peers n)) p0 R4 (pick_fst _ _ _) I3) as [_ Z].
    destruct Z as (q1 & Z1 & Z2); [rewrite G1; reflexivity|]. apply pick_in in Z1. destruct Z1 as (_ & _ & ->). exists (f p0). split; [exact Z2|].
    assert (X0 : (X =? 0) = false) by lia.
    assert (Pn : next_of b0 p0 = X) by (unfold next_of; rewrite G3, X0; reflexivity).
    assert (Hn : has_entries n X). { assert (Z := R12 p0 I3 G1). unfold next_of in Z. rewrite G3, X0 in Z. exact Z. }
    destruct (term_of_known b0 X R5 (Hb X Hn)) as (T1 & _).
    unfold f. rewrite Pn. split; [reflexivity|]. split; [reflexivity|]. split; [reflexivity|]. split; [exact T1|].
    unfold log_req. cbn [rq_entries]. apply firstn_all2. rewrite skipn_length. change (n_prm b0) with (n_prm n). change (n_log b) with (n_log b0).
    assert (L : a_next (n_log n) = X) by reflexivity. unfold a_next, lenN in L. unfold a_next, lenN in Nb. unfold lenN in Hmax, Es. lia. }
  assert (X1 : 1 <= X) by lia. assert (Xb : al_start (n_log b) <= X < a_next (n_log b)) by (change (n_log b) with (n_log b0); rewrite Nb, Sb; lia).
  assert (In1 : forall id, In id ids1 <-> In id ids) by (intros id; split; apply Permutation_in; [exact P1 | apply Permutation_sym, P1]).
  assert (In2 : forall id, In id ids2 <-> In id ids) by (intros id; split; apply Permutation_in; [exact P2 | apply Permutation_sym, P2]).
  destruct (first_wave b ids (n_quick n) now l1 X Bs Ho Ib X1 Xb Sent ids1 [] b F [] Kb St) as (n2 & F2 & l2 & W1 & K2 & St2 & M1 & M1').
  { intros id []. }
  { apply (Permutation_NoDup (Permutation_sym P1) R8). }
  { intros id I1. split; [apply In1, I1 | intros []]. }
  { intros id I1. apply In1 in I1. destruct (HF id I1) as (G1 & T1 & T2 & T3 & T4). split; [exact G1|]. split; [exact T1|]. split; [exact T2|]. split; [exact T3|].
    destruct T4 as [T4|(e & e' & T4 & T5 & T6)]; [left; exact T4|]. right. exists e, e'. split; [|auto].
    assert (Rg := T4). apply a_get_some in Rg. change (n_log b) with (log_plus (n_log n) es). fold X in T4, Rg |- *. unfold a_get, log_plus in *. cbn [al_start al_ents].
    destruct (X - 1 <? al_start (n_log n)); [discriminate|]. rewrite nth_error_app1; [exact T4|]. apply nth_error_Some. congruence. }
  cbn [app] in St2. rewrite app_nil_r in St2.
  assert (Inr : forall id, In id (rev ids1) <-> In id ids) by (intros id; rewrite <- In1; symmetry; apply in_rev).
  assert (Lt : late b ids (rev ids1) n2 l2).
  { destruct St2 as [[(E1 & E2 & E3) _]|H]; [|exact H]. exfalso. apply E2.
    assert (Ln2 : length (n_peers n2) = length (n_peers n)) by (rewrite <- (map_length p_id (n_peers n2)), <- (map_length p_id (n_peers n)); destruct K2 as (_ & K2 & _); rewrite K2, Mi; reflexivity).
    apply (majority_done ids); [exact R8 | | rewrite Ln2; exact R10|].
    - destruct K2 as (_ & K2 & _). rewrite K2. exact Ib.
    - intros p I1 I2. destruct (E3 p I1) as [G _]. apply G. apply Inr, I2. }
  destruct Lt as (Q2 & L2).
  assert (Log2 : n_log n2 = n_log b) by (destruct K2 as (-> & _); reflexivity).
  destruct (second_wave b ids now l2 Bs Ib) with (todo := ids2) (done := @nil Z) (n := n2) (F := F2) as (n3 & F3 & W2 & K3 & C3 & M2 & M2').
  { lia. }
  { intros id pb I1 Fb. destruct (kept_find b n2 id K2 (Ib id I1)) as (p & Fp & Ip & Pid). rewrite <- (kept_uid b n2 id p pb K2 Fp Fb).
    destruct (L2 p Ip) as (_ & _ & G & _). destruct G as (_ & _ & G); [apply Inr; rewrite Pid; exact I1 | exact G]. }
  { exact K2. }
  { split; [exact Q2|]. intros p Ip. destruct (L2 p Ip) as (G1 & G2 & G3 & _). split; [exact G2|]. split; [|exact G1].
    intros I1. destruct G3 as (G3 & G4 & _); [apply Inr, I1 | auto]. }
  { intros id []. }
  { apply (Permutation_NoDup (Permutation_sym P2) R8). }
  { intros id I1. split; [apply In2, I1 | intros []]. }
  { intros id I1. apply In2, In1 in I1. destruct (M1 id I1) as (G1 & G2 & _). auto. }
  rewrite app_nil_r in C3. destruct C3 as (Q3 & C3).
  assert (Inr2 : forall id, In id (rev ids2) <-> In id ids) by (intros id; rewrite <- In2; symmetry; apply in_rev).
  assert (Log3 : n_log n3 = n_log b) by (destruct K3 as (-> & _); reflexivity).
  exists x, b, l1, n2, F2, l2, n3, F3. split; [exact Ex|]. split; [exact Ax|]. split; [reflexivity|]. split; [exact W1|]. split; [exact Log2|].
  split; [rewrite Q2, Nx; reflexivity|]. split; [exact Nx|]. split; [intros id I1; apply In1 in I1; apply (M1 id I1)|]. split; [exact W2|]. split; [exact Log3|].
  split. { intros id I1. apply In2 in I1. destruct (M2 id I1) as (_ & _ & G1 & G2). rewrite G2, Q3. split; [lia | exact G1]. }
  assert (Inc3 : incl ids (map p_id (n_peers n3))) by (destruct K3 as (_ & K3 & _); rewrite K3; exact Ib).
  split.
  { destruct K3 as (K3 & K4 & K5). split; [rewrite K3; exact R1|]. split; [rewrite K4, Mi; exact R3|]. split; [rewrite K5, Mu; exact R4|].
    split; [rewrite Log3; exact R5|]. split; [rewrite Q3, Log3; reflexivity|]. split; [rewrite K3; exact R7|]. split; [exact R8|]. split; [exact Inc3|].
    split. { rewrite <- (map_length p_id (n_peers n3)), K4, Mi, map_length. exact R10. }
    split; [intros p Ip; rewrite Q3; apply (C3 p Ip)|].
    assert (Hx : has_entries n3 (a_next (n_log n3))) by (left; rewrite Log3; lia).
    split.
    - intros p Ip Bz. destruct (C3 p Ip) as (_ & G1 & G2). rewrite Bz in G2. destruct (in_dec Z.eq_dec (p_id p) (rev ids2)) as [D|D]; [|discriminate].
      destruct (G1 (proj1 (Inr2 _) D)) as (_ & G3). unfold next_of. rewrite G3, <- Log3. destruct (_ =? 0); exact Hx.
    - intros p Ip I1. destruct (C3 p Ip) as (_ & G1 & G2). destruct (G1 I1) as (G3 & G4). split; [|split; [exact G3 | rewrite Log3; exact G4]].
      rewrite G2. destruct (in_dec Z.eq_dec (p_id p) (rev ids2)) as [D|D]; [reflexivity|]. exfalso. apply D, Inr2, I1. }
  split. { intros id I1. apply In2 in I1. destruct (M2 id I1) as (G1 & G2 & _). split; [exact G1|].
    destruct G2 as (T1 & T2 & T3 & T4). destruct K3 as (K3 & _). replace (n_term n3) with (n_term b) by (rewrite K3; reflexivity).
    split; [rewrite K3; exact T1|]. split; [rewrite K3; exact T2|]. rewrite Log3. auto. }
  split; [destruct K3 as (-> & _); reflexivity|].
  split. { destruct K3 as (_ & K4 & _). rewrite Mi in K4. destruct (n_peers n3); [|discriminate]. destruct (n_peers n); [congruence | discriminate]. }
  split; [|split; [destruct K3 as (-> & _); reflexivity | intros now'; destruct K3 as (K3 & _); split; [rewrite K3; exact R1 | right; left; rewrite K3; exact Le]]].
  intros id I1. rewrite M2' by (rewrite In2; exact I1). apply M1'. rewrite In1. exact I1.
Qed.

(** So for every sequence of requests: as long as a majority answers, each is committed before
    the next, and in the end the log is the old log and the entries of all requests, all of it
    committed on the leader and on these members. *)
Definition fits (ids : list Z) (n : node) (r : N * req * list Z * list Z) : Prop :=
  let '(now, q, ids1, ids2) := r in
  rq_type q = client_request /\ rq_entries q <> [] /\ lenN (rq_entries q) <= pm_max_append (n_prm n) /\ Permutation ids1 ids /\ Permutation ids2 ids.
Definition sent_in (r : N * req * list Z * list Z) : list entry_val := let '(_, q, _, _) := r in rq_entries q.
Lemma log_plus_plus : forall l a c, log_plus (log_plus l a) c = log_plus l (a ++ c).
Proof. intros l a c. unfold log_plus. cbn [al_start al_ents]. rewrite app_assoc. reflexivity. Qed.
Theorem C93_every_request : forall rs ids n F, n_peers n <> [] -> ready ids n -> (forall now, in_contact now n) -> Forall (fits ids n) rs ->
  (forall id, In id ids -> n_id (F id) = id /\ follows n (F id)) ->
  exists xs n' F', rounds rs n F = Some (xs, n', F') /\ length xs = length rs /\ Forall (fun x => rs_accepted x = true) xs /\
    n_log n' = log_plus (n_log n) (map (stamp (n_term n)) (concat (map sent_in rs))) /\ n_quick n' = a_next (n_log n') - 1 /\
    (rs <> [] -> forall id, In id ids -> n_quick n' <= n_quick (F' id)).
Proof.
  intros rs. induction rs as [|[[[now q] ids1] ids2] rs IH]; intros ids n F Hp Hr Hc Hf HF.
  - exists [], n, F. cbn [rounds map concat]. split; [reflexivity|]. split; [reflexivity|]. split; [constructor|].
    split; [unfold log_plus; rewrite app_nil_r; destruct (n_log n); reflexivity|]. split; [apply Hr | intros C; congruence].
  - inversion Hf as [|? ? H0 Hf']; subst. destruct H0 as (H1 & H2 & H3 & H4 & H5).
    destruct (C93_round n F ids ids1 ids2 now q H1 H2 H3 Hp Hr (Hc now) H4 H5 HF) as (x & n1 & l1 & n2 & F2 & l2 & n3 & F3 & E1 & E2 & E3 & W1 & _ & _ & _ & _ & W2 & Lg & Qf & R3 & HF3 & Pm & Pn & _ & Tm & Hc3).
    destruct (IH ids n3 F3 Pn R3 Hc3) as (xs & n' & F' & G1 & G2 & G3 & G4 & G5 & G6).
    { rewrite Forall_forall in *. intros [[[now' q'] i1] i2] I1. specialize (Hf' _ I1). unfold fits in *. rewrite Pm. exact Hf'. }
    { exact HF3. }
    exists (x :: xs), n', F'. cbn [rounds]. unfold round. rewrite E1, W1, W2, G1. split; [reflexivity|]. split; [cbn [length]; rewrite G2; reflexivity|]. split; [constructor; assumption|].
    split; [rewrite G4, Lg, E3, log_plus_plus, Tm; cbn [map concat sent_in]; rewrite map_app; reflexivity|]. split; [exact G5|].
    intros _ id I1. destruct rs as [|r rs]; [|apply G6; [discriminate | exact I1]]. cbn [rounds] in G1. inversion G1; subst. apply (Qf id I1).
Qed.

(** A server that is alone commits what a client sends at once. *)
Theorem C93_alone : forall n now q, rq_type q = client_request -> n_role n = Leader -> n_peers n = [] -> n_quick n < a_next (n_log n) + lenN (rq_entries q) ->
  exists x n1 l1, run_event (ERequest now q) n = (ROk (Response x), n1, l1) /\ rs_accepted x = true /\
    n_log n1 = log_plus (n_log n) (map (stamp (n_term n)) (rq_entries q)) /\ n_quick n1 = a_next (n_log n1) - 1 /\ rs_next_idx x = a_next (n_log n1).
Proof.
  intros n now q Hq Hr Hp Hk. assert (Hc : in_contact now n) by (split; [exact Hr | left; exact Hp]). destruct (in_contact_eq now n Hc) as (e & E).
  set (b := set_log (log_plus (n_log n) (map (stamp (n_term n)) (rq_entries q))) (set_elapsed e n)).
  assert (Nb : a_next (n_log b) = a_next (n_log n) + lenN (rq_entries q)).
  { change (n_log b) with (log_plus (n_log n) (map (stamp (n_term n)) (rq_entries q))). unfold a_next, log_plus, lenN. cbn [al_start al_ents]. rewrite app_length, map_length. lia. }
  assert (Cm : exists n1 l1, request_append_entries b = (ROk tt, n1, l1) /\ n_log n1 = n_log b /\ n_quick n1 = a_next (n_log b) - 1).
  { unfold request_append_entries, peer_ids. rewrite bind_get. change (n_peers b) with (n_peers n). rewrite Hp. cbn [map]. unfold next_slot_. rewrite bind_get.
    unfold commit. rewrite bind_get. change (n_quick b) with (n_quick n). destruct (N.ltb_spec (n_quick n) (a_next (n_log b) - 1)) as [G|G].
    - rewrite bind_modify, bind_get. replace (n_role (set_quick (a_next (n_log b) - 1) b)) with Leader by (symmetry; exact Hr). unfold peer_ids. rewrite bind_get.
      change (n_peers (set_quick (a_next (n_log b) - 1) b)) with (n_peers n). rewrite Hp. cbn [map for_each]. eexists _, _. split; [reflexivity|]. split; reflexivity.
    - eexists _, _. split; [reflexivity|]. split; [reflexivity|]. change (n_quick b) with (n_quick n). lia. }
  destruct Cm as (n1 & l1 & C1 & C2 & C3).
  eexists _, n1, _. split; [apply run_request; rewrite process_cli_req by exact Hq; unfold handle_cli_req; rewrite (bind_ok _ _ _ _ _ _ _ _ E), after_nil, bind_get;
    change (n_role (set_elapsed e n)) with (n_role n); rewrite Hr; change (n_term (set_elapsed e n)) with (n_term n);
    rewrite (bind_ok _ _ _ _ _ _ _ _ (cli_append_eq _ _ _)); change (n_log (set_elapsed e n)) with (n_log n); fold b;
    rewrite (bind_ok _ _ _ _ _ _ _ _ C1); unfold next_slot_; rewrite bind_get; unfold after, ret; rewrite app_nil_r; reflexivity|].
  split; [reflexivity|]. split; [rewrite C2; reflexivity|]. split; [rewrite C3, C2; reflexivity | reflexivity].
Qed.

(** What is committed is applied: without snapshots, the committing thread hands every committed
    application entry to the state machine, in order and once, and then has nothing left to do. *)
Theorem C93_applied : forall es n, pm_snp_distance (n_prm n) = 0 -> n_quick n < a_next (n_log n) -> al_start (n_log n) <= n_smc n + 1 ->
  n_smc n + lenN es = n_quick n -> (forall j e, nth_error es j = Some e -> a_get (n_log n) (n_smc n + 1 + N.of_nat j) = Some e /\ ev_type e = app_log) ->
  exists n', apply_times (length es) n = Some (n', applies (n_smc n + 1) es) /\ n_smc n' = n_quick n /\ n_quick n' = n_quick n /\ n_log n' = n_log n /\
    run_event ECommit n' = (ROk Nothing, n', []).
Proof.
  intros es. induction es as [|e es IH]; intros n Hd Hq Hs Hl He.
  - exists n. change (lenN []) with 0 in Hl. cbn [apply_times applies length]. split; [reflexivity|]. split; [lia|]. split; [reflexivity|]. split; [reflexivity|].
    cbn [run_event]. unfold commit_step. rewrite bind_assoc, bind_get. replace (n_smc n <? n_quick n) with false by lia. reflexivity.
  - rewrite lenN_cons in Hl. destruct (He 0%nat e eq_refl) as [G1 G2]. rewrite N.add_0_r in G1.
    set (n1 := set_disk (disk_apply (n_disk n) (ACommit (n_smc n + 1) e)) (set_smc (n_smc n + 1) n)).
    assert (E : run_event ECommit n = (ROk Nothing, n1, [ACommit (n_smc n + 1) e])).
    { cbn [run_event]. assert (C : commit_step n = (ROk tt, n1, [ACommit (n_smc n + 1) e])).
      { rewrite commit_step_eq by lia. unfold catch. unfold log_entry_at. rewrite bind_assoc, bind_get. change (n_log (set_smc (n_smc n + 1) n)) with (n_log n).
        replace (n_smc n + 1 <? al_start (n_log n)) with false by lia. rewrite G1, bind_ret. unfold deref. rewrite bind_ret. unfold apply_entry. rewrite G2. change (beq app_log app_log) with true. cbv iota.
        rewrite bind_emit. change (n_disk (set_smc (n_smc n + 1) n)) with (n_disk n). fold n1. unfold snapshot_and_compact. rewrite bind_get. cbv zeta.
        replace (pm_snp_distance (n_prm n1)) with 0 by (symmetry; exact Hd). reflexivity. }
      rewrite (bind_ok _ _ _ _ _ _ _ _ C). reflexivity. }
    assert (L1 : n_log n1 = n_log n) by reflexivity. assert (S1 : n_smc n1 = n_smc n + 1) by reflexivity. assert (Q1 : n_quick n1 = n_quick n) by reflexivity.
    destruct (IH n1) as (n' & A1 & A2 & A3 & A4 & A5).
    + exact Hd.
    + rewrite L1, Q1. exact Hq.
    + rewrite L1, S1. lia.
    + rewrite S1, Q1. lia.
    + intros j e0 Hj. destruct (He (S j) e0 Hj) as [K1 K2]. split; [|exact K2]. rewrite L1, S1, <- K1. f_equal. lia.
    + exists n'. cbn [apply_times length applies]. rewrite E, A1. split; [reflexivity|]. split; [rewrite A2; reflexivity|]. split; [rewrite A3; reflexivity|]. split; [rewrite A4; reflexivity | exact A5].
Qed.

(** ** Examples

    three servers; server 1 was elected and has committed its first entry and one of a client *)
Definition cli (bs : list byte) : req := mkReq 0 client_request 0 0 0 0 0 (map (ex_ent 0) bs).
Definition calm_cmds : list kcmd :=
  [KStart 1; KStart 2; KStart 3; KDo 1 EElection; KRpc 1 2 0; KRpc 1 3 0; KRpc 1 3 0; KRpc 1 2 0; KRpc 1 2 0; KRpc 1 3 0; KRpc 1 3 0;
   KDo 1 (ERequest 0 (cli [x61])); KRpc 1 2 0; KRpc 1 3 0; KRpc 1 2 0; KRpc 1 3 0]%Z.
Definition ex_calm (i : Z) : node := node_of (ex_run_with ex_prm calm_cmds) i.
Definition readyb (ids : list Z) (n : node) : bool :=
  forallb (fun p => (p_match p <=? n_quick n) && has_entriesb n (next_of n p) &&
     (if in_dec Z.eq_dec (p_id p) ids then negb (p_busy p) && negb (p_pending p) && (p_next p =? a_next (n_log n)) else true)) (n_peers n).
Lemma readyb_ok : forall ids n, readyb ids n = true ->
  (forall p, In p (n_peers n) -> p_match p <= n_quick n) /\
  (forall p, In p (n_peers n) -> p_busy p = false -> has_entries n (next_of n p)) /\
  (forall p, In p (n_peers n) -> In (p_id p) ids -> p_busy p = false /\ p_pending p = false /\ p_next p = a_next (n_log n)).
Proof.
  intros ids n H. unfold readyb in H. rewrite forallb_forall in H. split; [|split]; intros p I1.
  - specialize (H p I1). apply andb_prop in H. destruct H as [H _]. apply andb_prop in H. lia.
  - intros _. specialize (H p I1). apply andb_prop in H. destruct H as [H _]. apply andb_prop in H. apply has_entriesb_ok, H.
  - intros I2. specialize (H p I1). apply andb_prop in H. destruct H as [_ H]. destruct (in_dec Z.eq_dec (p_id p) ids); [|contradiction].
    apply andb_prop in H. destruct H as [H H3]. apply andb_prop in H. destruct H as [H1 H2]. destruct (p_busy p), (p_pending p); try discriminate. split; [reflexivity|]. split; [reflexivity | lia].
Qed.
Lemma ex_calm_ready : forall ids, ids = [2; 3]%Z \/ ids = [3]%Z -> ready ids (ex_calm 1).
Proof.
  intros ids H. assert (B : readyb ids (ex_calm 1) = true) by (destruct H as [-> | ->]; vm_compute; reflexivity). apply readyb_ok in B.
  split; [vm_compute; reflexivity|]. split; [apply nodup_ids; vm_compute; reflexivity|]. split; [apply nodupb_N_ok; vm_compute; reflexivity|].
  split; [vm_compute; discriminate|]. split; [vm_compute; reflexivity|]. split; [vm_compute; discriminate|].
  split; [destruct H as [-> | ->]; repeat constructor; cbn; intuition discriminate|].
  split; [replace (map p_id (n_peers (ex_calm 1))) with [2; 3]%Z by (vm_compute; reflexivity); destruct H as [-> | ->]; intros x; cbn; intuition|].
  split; [replace (length (n_peers (ex_calm 1))) with 2%nat by (vm_compute; reflexivity); destruct H as [-> | ->]; cbn; lia|]. exact B.
Qed.
Lemma ex_calm_follows : forall id, In id [2; 3]%Z -> n_id (ex_calm id) = id /\ follows (ex_calm 1) (ex_calm id).
Proof.
  intros id [<-|[<-|[]]]; (split; [vm_compute; reflexivity|]; split; [vm_compute; discriminate|]; split; [vm_compute; discriminate|];
    split; [vm_compute; split; discriminate|]; right; eexists _, _; split; [vm_compute; reflexivity|]; split; vm_compute; reflexivity).
Qed.
(** two requests, the first with two entries; the members answer in another order the second time *)
Definition ex_requests : list (N * req * list Z * list Z) := [(10, cli [x62; x63], [2; 3]%Z, [2; 3]%Z); (20, cli [x64], [3; 2]%Z, [2; 3]%Z)].
Example C93_example : n_peers (ex_calm 1) <> [] /\ ready [2; 3]%Z (ex_calm 1) /\ (forall now, in_contact now (ex_calm 1)) /\ Forall (fits [2; 3]%Z (ex_calm 1)) ex_requests /\
  (forall id, In id [2; 3]%Z -> n_id (ex_calm id) = id /\ follows (ex_calm 1) (ex_calm id)) /\ n_quick (ex_calm 1) = 2 /\
  exists xs n' F', rounds ex_requests (ex_calm 1) ex_calm = Some (xs, n', F') /\ n_quick n' = 5 /\ n_quick (F' 2%Z) = 5 /\ n_quick (F' 3%Z) = 5.
Proof.
  split; [vm_compute; discriminate|]. split; [apply ex_calm_ready; left; reflexivity|]. split; [intros now; split; [vm_compute; reflexivity | right; left; vm_compute; discriminate]|].
  split.
  { constructor; [|constructor; [|constructor]]; (split; [reflexivity|]; split; [discriminate|]; split; [vm_compute; discriminate|]; split; [|apply Permutation_refl]);
      [apply Permutation_refl | apply perm_swap]. }
  split; [exact ex_calm_follows|]. split; [vm_compute; reflexivity|].
  eexists _, _, _. split; [vm_compute; reflexivity|]. split; [vm_compute; reflexivity|]. split; vm_compute; reflexivity.
Qed.
(** server 2 does not answer *)
Example C93_example_majority : ready [3]%Z (ex_calm 1) /\ exists x n' F', round 10 (cli [x62; x63]) [3]%Z [3]%Z (ex_calm 1) ex_calm = Some (x, n', F') /\ n_quick n' = 4 /\ n_quick (F' 3%Z) = 4.
Proof.
  split; [apply ex_calm_ready; right; reflexivity|]. eexists _, _, _. split; [vm_compute; reflexivity|]. split; vm_compute; reflexivity.
Qed.
(** after the round server 1 has two entries to apply *)
Example C93_example_applied : exists x n' F', round 10 (cli [x62; x63]) [3]%Z [3]%Z (ex_calm 1) ex_calm = Some (x, n', F') /\
  exists n1 l1, apply_times 4 n' = Some (n1, l1) /\ commits l1 = [(2, ex_ent 1 x61); (3, ex_ent 1 x62); (4, ex_ent 1 x63)].
Proof.
  eexists _, _, _. split; [vm_compute; reflexivity|]. eexists _, _. split; vm_compute; reflexivity.
Qed.
Definition ex_single : node :=
  up_node (snd (run_cmds 1 ex_prm (Down (mkDisk (Some (0, (-1)%Z)) (mkCfg 0 0 [ex_srv 1]) (mkAL 1 []) 0 None [])) [CStart; CEvent EElection])).
Example C93_example_alone : n_role ex_single = Leader /\ n_peers ex_single = [] /\ n_quick ex_single < a_next (n_log ex_single) + lenN (rq_entries (cli [x61])) /\
  exists x n1 l1, run_event (ERequest 0 (cli [x61])) ex_single = (ROk (Response x), n1, l1) /\ n_quick n1 = 2.
Proof.
  split; [vm_compute; reflexivity|]. split; [vm_compute; reflexivity|]. split; [vm_compute; reflexivity|].
  eexists _, _, _. split; vm_compute; reflexivity.
Qed.

Print Assumptions C93_round.
Print Assumptions C93_every_request.
Print Assumptions C93_alone.
Print Assumptions C93_applied.
