(** * P_Ack: what a leader does with an accepting answer (C82) *)

From Verif Require Import Base Buffer Codec CodecSpec Msg FsLogStore FsLogSpec Alog Raft RaftQuiet NodeSpec ServerSpec NodeFacts AppendFacts NodeExamples P_Leader P_Commit Runs PeerInv ServeFacts P_Serve P_Elect Cluster ClusterElect ClusterExamples.
Local Open Scope N_scope.

(** ** Telling every peer about a new commit index *)
Definition term_of (n : node) (i : N) : N := match term_for_log i n with (ROk t, _, _) => t | _ => 0 end.
Lemma term_of_known : forall n nx, 1 <= al_start (n_log n) -> has_entries n nx ->
  term_is n (nx - 1) (term_of n (nx - 1)) /\
  forall n', n_log n' = n_log n -> dk_snp (n_disk n') = dk_snp (n_disk n) -> term_for_log (nx - 1) n' = (ROk (term_of n (nx - 1)), n', []).
Proof.
  intros n nx Hs He. destruct (term_at n nx Hs He) as (t & T1 & T2). unfold term_of. rewrite (T2 n eq_refl eq_refl). auto.
Qed.

Definition tell (b : node) (p : peer) : peer :=
  if p_busy p then p_set_pending true p else p_set_next (next_of b p) (p_set_busy true p).
Definition told (b : node) (p : peer) : list (peer * req) :=
  if p_busy p then [] else [(p, log_req b p (next_of b p) (term_of b (next_of b p - 1)))].
Definition sends (qs : list (peer * req)) : list act := map (fun x => ASend (p_uid (fst x)) false (snd x)) qs.

Lemma tell_id : forall b p, p_id (tell b p) = p_id p.
Proof. intros b p. unfold tell. destruct (p_busy p); reflexivity. Qed.
Lemma in_range : forall b nx, has_entries b nx -> al_start (n_log b) <= nx <= a_next (n_log b).
Proof. intros b nx [H|[H|H]]; unfold a_next in *; lia. Qed.

(** one idle peer *)
Lemma serve_one : forall b pre p post, NoDup (map p_id (pre ++ p :: post)) -> 1 <= al_start (n_log b) ->
  p_busy p = false -> has_entries b (next_of b p) ->
  request_append_entries_to (p_id p) (set_peers (pre ++ p :: post) b) =
    (ROk true, set_peers (pre ++ p_set_next (next_of b p) (p_set_busy true p) :: post) b,
     [ASend (p_uid p) false (log_req b p (next_of b p) (term_of b (next_of b p - 1)))]).
Proof.
  intros b pre p post N1 Hs Bz He. set (b1 := set_peers (pre ++ p :: post) b).
  assert (F : find_peer (p_id p) (n_peers b1) = Some p) by (apply find_one, N1).
  destruct (term_of_known b _ Hs He) as (_ & T).
  destruct (serve_log b1 (p_id p) p (term_of b (next_of b p - 1)) F Bz Hs) as (r & n' & l & Er & -> & -> & (f & F1 & F2 & F3 & F4)).
  - apply in_range. exact He.
  - intros m E1 E2. apply T; [exact E1 | rewrite E2; reflexivity].
  - rewrite Er. assert (Ef : n' = set_peers (pre ++ f p :: post) b).
    { rewrite F3. unfold upd_peer. replace (n_peers b1) with (pre ++ p :: post) by reflexivity. rewrite upd_one by exact N1. reflexivity. }
    rewrite Ef in *. cbn [n_peers set_peers] in F4. rewrite <- (F1 p) in F4. rewrite find_one in F4 by (rewrite map_app in *; cbn [map] in *; rewrite F1; exact N1).
    inversion F4 as [K]. rewrite K. reflexivity.
Qed.
Lemma busy_one : forall b id p, find_peer id (n_peers b) = Some p -> p_busy p = true -> request_append_entries_to id b = (ROk false, b, []).
Proof.
  intros b id p F Bz. unfold request_append_entries_to, the_peer. rewrite bind_assoc, bind_get. unfold get_peer. rewrite F, bind_ret, Bz. reflexivity.
Qed.

Lemma tell_all : forall b, NoDup (map p_id (n_peers b)) -> 1 <= al_start (n_log b) ->
  (forall p, In p (n_peers b) -> p_busy p = false -> has_entries b (next_of b p)) ->
  for_each (map p_id (n_peers b)) (fun id =>
     sent <- request_append_entries_to id ;; when (negb sent) (modify (upd_peer (PPeer id) (p_set_pending true)))) b =
  (ROk tt, set_peers (map (tell b) (n_peers b)) b, sends (concat (map (told b) (n_peers b)))).
Proof.
  intros b N Hs He. set (g := fun id : Z => _).
  assert (H := each_peer g (tell b) (fun p => sends (told b p)) b (n_peers b) []).
  cbn [app] in H. rewrite self_peers in H. unfold sends. rewrite concat_map, map_map. unfold sends in H. apply H; [apply tell_id | exact N|]. clear H.
  intros pre p post N1 Hp. unfold g, tell, told. destruct (p_busy p) eqn:Bz.
  - assert (F : find_peer (p_id p) (n_peers (set_peers (pre ++ p :: post) b)) = Some p) by (apply find_one, N1).
    rewrite (bind_ok _ _ _ _ _ _ _ _ (busy_one _ _ _ F Bz)). cbn [negb when map]. unfold modify, after. unfold upd_peer. cbn [n_peers set_peers].
    rewrite upd_one by exact N1. reflexivity.
  - rewrite (bind_ok _ _ _ _ _ _ _ _ (serve_one b pre p post N1 Hs Bz (He p Hp Bz))). cbn [negb when map fst snd]. reflexivity.
Qed.

(** ** C82

    the index that a majority has acknowledged once [r] counts *)
Definition acked (n : node) (r : resp_msg) (v : N) : Prop :=
  majority_reached v (match_of r n) /\ forall w, majority_reached w (match_of r n) -> w <= v.
(** where the leader continues for [p] *)
Definition goes_on (n : node) (r : resp_msg) (p : peer) : N := if (p_id p =? rs_src r)%Z then rs_next_idx r else next_of n p.
(** nothing is on its way to [p] any more *)
Definition idle (r : resp_msg) (p : peer) : bool := (p_id p =? rs_src r)%Z || negb (p_busy p).
(** what the leader knows of [p] afterwards, given that it sent or did not send it something *)
Definition knows (n : node) (r : resp_msg) (adv : bool) (p p' : peer) : Prop :=
  p_uid p' = p_uid p /\ p_cfg p' = p_cfg p /\ p_sync p' = p_sync p /\ p_hb_on p' = p_hb_on p /\ p_hb_sched p' = p_hb_sched p /\
  if (p_id p =? rs_src r)%Z then
    p_match p' = rs_next_idx r - 1 /\ p_next p' = rs_next_idx r /\ p_pending p' = false /\
    p_busy p' = (adv || p_pending p || (rs_next_idx r <? a_next (n_log n)))
  else
    p_match p' = p_match p /\
    if adv then
      p_busy p' = true /\
      if p_busy p then p_next p' = p_next p /\ p_pending p' = true
      else p_next p' = next_of n p /\ p_pending p' = p_pending p
    else p' = p.

Definition hears (n : node) (now : N) (r : resp_msg) (p : peer) : peer :=
  p_set_match (pred64 (rs_next_idx r)) (p_set_next (rs_next_idx r) (p_set_last_resp now (p_resume (n_prm n) (p_set_busy false p)))).
Definition heard (n : node) (now : N) (r : resp_msg) (p : peer) : peer := if (p_id p =? rs_src r)%Z then hears n now r p else p.
Lemma heard_id : forall n now r p, p_id (heard n now r p) = p_id p.
Proof. intros. unfold heard. destruct (_ =? _)%Z; reflexivity. Qed.
Lemma heard_peers : forall n now r, upd_peers (rs_src r) (hears n now r) (n_peers n) = map (heard n now r) (n_peers n).
Proof. reflexivity. Qed.

(** up to the point where the majority is computed *)
Lemma heard_event : forall n now r p q0, n_role n = Leader -> find_peer (rs_src r) (n_peers n) = Some p ->
  live_ref (p_uid p) n = Some (PPeer (rs_src r)) -> rq_type q0 = append_entries_request -> rs_type r = append_entries_response ->
  rs_accepted r = true -> rs_term r <= n_term n -> 1 <= rs_next_idx r ->
  let m := set_peers (map (heard n now r) (n_peers n)) n in
  let v := nth (Nat.div (length (match_of r n)) 2) (sort_desc (match_of r n)) 0 in
  forall n' l, (commit v ;;; (p <- the_peer (PPeer (rs_src r)) ;; modify (upd_peer (PPeer (rs_src r)) (p_set_pending false)) ;;; nx <- next_slot_ ;;
      role <- get n_role ;;
      match role with Leader => when (p_pending p || (rs_next_idx r <? nx)) (request_append_entries_to (rs_src r) ;;; ret tt) | _ => ret tt end)) m = (ROk tt, n', l) ->
    run_event (ERpc now (p_uid p) false q0 (Some r)) n = (ROk Nothing, n', l).
Proof.
  intros n now r p q0 Hr F Lv Hq0 Hrt Hacc Hterm Hx m v n' l E. set (id := rs_src r) in *.
  set (n1 := upd_peer (PPeer id) (p_set_busy false) n).
  assert (T1 : touch id (p_set_busy false p) n n1) by (exact (touch_upd _ _ _ _ (p_set_busy false) (touch_refl _ _ _ F) (fun _ => eq_refl) (fun _ => eq_refl))).
  set (n2 := upd_peer (PPeer id) (p_resume (n_prm n)) n1).
  assert (T2 : touch id (p_resume (n_prm n) (p_set_busy false p)) n n2) by (exact (touch_upd _ _ _ _ (p_resume (n_prm n)) T1 (fun _ => eq_refl) (fun _ => eq_refl))).
  set (n3 := upd_peer (PPeer id) (p_set_last_resp now) n2).
  assert (T3 : touch id (p_set_last_resp now (p_resume (n_prm n) (p_set_busy false p))) n n3) by (exact (touch_upd _ _ _ _ (p_set_last_resp now) T2 (fun _ => eq_refl) (fun _ => eq_refl))).
  assert (Em : upd_peer (PPeer id) (fun p => p_set_match (pred64 (rs_next_idx r)) (p_set_next (rs_next_idx r) p)) n3 = m).
  { unfold m, n3, n2, n1, upd_peer. cbn [n_peers set_peers n_prm]. rewrite !upd_upd by reflexivity. reflexivity. }
  assert (Ev : (a_next (n_log m) - 1) :: map p_match (n_peers m) = match_of r n).
  { unfold match_of, m. cbn [n_peers set_peers]. f_equal. rewrite map_map. apply map_ext. intros p0. unfold heard. destruct (_ =? _)%Z; [|reflexivity].
    unfold hears. cbn [p_match p_set_match]. unfold pred64. replace (rs_next_idx r =? 0) with false by lia. reflexivity. }
  assert (Lv2 : (length (n_peers m) + 1)%nat = length (match_of r n)) by (unfold match_of, m; cbn [n_peers set_peers length]; rewrite !map_length; lia).
  destruct (touch_same _ _ _ _ T3) as (ps3 & Es3).
  cbn [run_event]. unfold rpc_done. rewrite bind_assoc, bind_get, Lv.
  replace (beq (rq_type q0) append_entries_request || beq (rq_type q0) install_snapshot_request) with true by (rewrite Hq0; reflexivity).
  cbn [when]. rewrite bind_assoc, bind_modify, bind_assoc, bind_modify. fold n1. fold n2.
  unfold handle_peer_resp. rewrite bind_assoc, bind_get. fold id. rewrite (touch_peer _ _ _ _ T2). rewrite bind_assoc, bind_modify. fold n3.
  assert (U : update_term (rs_term r) n3 = (ROk false, n3, [])).
  { rewrite update_term_eq. replace (n_term n3) with (n_term n) by (rewrite Es3; reflexivity). replace (n_term n <? rs_term r) with false by lia. reflexivity. }
  rewrite bind_assoc, (bind_ok _ _ _ _ _ _ _ _ U). rewrite after_nil.
  rewrite Hrt. change (beq append_entries_response vote_response) with false. change (beq append_entries_response append_entries_response) with true. cbv iota.
  unfold handle_append_entries_resp. rewrite bind_assoc, bind_get. fold id. rewrite (touch_peer _ _ _ _ T3). rewrite Hacc. cbv zeta.
  rewrite !bind_assoc, bind_modify. rewrite Em. rewrite !bind_assoc, bind_get. rewrite Ev, Lv2. fold v.
  destruct (commit v m) as [[x m1] l1] eqn:Ec. destruct x as [[]| | |].
  2-4: unfold bind in E; rewrite Ec in E; discriminate.
  rewrite (bind_ok _ _ _ _ _ _ _ _ Ec) in E. rewrite !bind_assoc, (bind_ok _ _ _ _ _ _ _ _ Ec).
  unfold the_peer, next_slot_ in *. rewrite bind_assoc, bind_get in E. rewrite !bind_assoc, bind_get.
  destruct (get_peer (PPeer id) m1) as [p1|]; [|discriminate]. rewrite bind_ret, bind_modify, bind_get, bind_get in E.
  rewrite bind_ret, !bind_assoc, bind_modify, !bind_assoc, bind_get, bind_ret, !bind_assoc, bind_get.
  set (m2 := upd_peer (PPeer id) (p_set_pending false) m1) in *.
  match type of E with after l1 ?x = _ => destruct x as [[y m3] l3] eqn:E3 end. cbn [after] in E. inversion E; subst. 
  rewrite (bind_ok _ _ _ _ _ _ _ _ E3). unfold after, ret. rewrite app_nil_r. reflexivity.
Qed.

Lemma find_split : forall id l p, NoDup (map p_id l) -> find_peer id l = Some p -> exists a c, l = a ++ p :: c /\ p_id p = id.
Proof.
  intros id l p N F. assert (Pid := find_peer_id _ _ _ F). unfold find_peer in F. apply find_some in F. destruct F as [F _].
  apply in_split in F. destruct F as (a & c & ->). exists a, c. auto.
Qed.
Lemma serve_find : forall b id p, NoDup (map p_id (n_peers b)) -> 1 <= al_start (n_log b) -> find_peer id (n_peers b) = Some p ->
  p_busy p = false -> has_entries b (next_of b p) ->
  request_append_entries_to id b = (ROk true, upd_peer (PPeer id) (fun p => p_set_next (next_of b p) (p_set_busy true p)) b,
     [ASend (p_uid p) false (log_req b p (next_of b p) (term_of b (next_of b p - 1)))]).
Proof.
  intros b id p N Hs F Bz He. destruct (find_split _ _ _ N F) as (a & c & E & <-).
  assert (S := serve_one b a p c). rewrite <- E in S. rewrite self_peers in S. rewrite S by assumption.
  unfold upd_peer. rewrite E. rewrite upd_one by (rewrite <- E; exact N). reflexivity.
Qed.
Lemma forall2_map : forall A B (R : A -> B -> Prop) (f : A -> B) l, (forall x, In x l -> R x (f x)) -> Forall2 R l (map f l).
Proof. intros A B R f l. induction l as [|y l IH]; intros H; cbn [map]; constructor; [apply H; left; reflexivity | apply IH; intros x I; apply H; right; exact I]. Qed.
Lemma same_peer : forall id l p x, NoDup (map p_id l) -> find_peer id l = Some p -> In x l -> p_id x = id -> x = p.
Proof.
  intros id l p x N F I E. destruct (find_split _ _ _ N F) as (a & c & -> & Ep). apply in_app_or in I. cbn [In] in I. rewrite map_app in N. cbn [map] in N.
  apply NoDup_remove_2 in N. rewrite in_app_iff in N. destruct I as [I|[I|I]]; [|congruence|]; exfalso; apply N; [left | right]; rewrite Ep, <- E; apply in_map, I.
Qed.
Definition pick (w : peer -> bool) (f : peer -> req) (l : list peer) : list (peer * req) :=
  concat (map (fun p => if w p then [(p, f p)] else []) l).
Lemma pick_fst : forall w f l, map fst (pick w f l) = filter w l.
Proof. intros w f l. unfold pick. induction l as [|p l IH]; cbn [map concat filter]; [reflexivity|]. rewrite map_app, IH. destruct (w p); reflexivity. Qed.
Lemma pick_in : forall w f l p q, In (p, q) (pick w f l) -> In p l /\ w p = true /\ q = f p.
Proof.
  intros w f l p q. unfold pick. induction l as [|x l IH]; cbn [map concat]; [intros []|]. rewrite in_app_iff. intros [H|H].
  - destruct (w x) eqn:E; [|destruct H]. destruct H as [H|[]]. inversion H; subst. cbn. auto.
  - destruct (IH H) as (A & B & C). cbn. auto.
Qed.
Lemma pick_one : forall id w f l p, NoDup (map p_id l) -> find_peer id l = Some p ->
  pick (fun x => (p_id x =? id)%Z && w x) f l = if w p then [(p, f p)] else [].
Proof.
  intros id w f l p. unfold pick, find_peer. induction l as [|x l IH]; cbn [map concat find]; [discriminate|]. intros N F. inversion N as [|? ? N1 N2]; subst.
  destruct (p_id x =? id)%Z eqn:E.
  - inversion F; subst x. cbn [andb]. replace (concat _) with (@nil (peer * req)); [destruct (w p); reflexivity|]. symmetry. clear - N1 E.
    assert (p_id p = id) by lia. subst id. clear E. induction l as [|y l IH]; cbn [map concat] in *; [reflexivity|].
    destruct (p_id y =? p_id p)%Z eqn:Ey; [exfalso; apply N1; left; lia|]. cbn [andb app]. apply IH. intros K. apply N1. right. exact K.
  - cbn [andb app]. apply IH; assumption.
Qed.

(** What a leader does when a follower accepts entries up to (not including) index
    [rs_next_idx r]: it remembers that; the commit index becomes what a majority has, and never
    smaller; if the commit index has grown, every member that nothing is on its way to is sent
    it, with the entries it does not have, and every other member is marked to be told as soon as
    it answers; if it has not grown, only the follower that answered is sent something, and only
    if it lacks entries or is marked.  Nothing else changes. *)
Theorem C82_accepted : forall n now r p q0, n_role n = Leader -> find_peer (rs_src r) (n_peers n) = Some p ->
  live_ref (p_uid p) n = Some (PPeer (rs_src r)) -> rq_type q0 = append_entries_request -> rs_type r = append_entries_response ->
  rs_accepted r = true -> rs_term r <= n_term n -> 1 <= rs_next_idx r -> NoDup (map p_id (n_peers n)) -> 1 <= al_start (n_log n) ->
  (forall p, In p (n_peers n) -> idle r p = true -> has_entries n (goes_on n r p)) ->
  exists v n' qs, acked n r v /\ run_event (ERpc now (p_uid p) false q0 (Some r)) n = (ROk Nothing, n', sends qs) /\
    n_quick n' = N.max (n_quick n) v /\ n' = set_peers (n_peers n') (set_quick (n_quick n') n) /\
    Forall2 (knows n r (n_quick n <? v)) (n_peers n) (n_peers n') /\
    map fst qs = filter (fun x => if n_quick n <? v then idle r x else (p_id x =? rs_src r)%Z && (p_pending x || (rs_next_idx r <? a_next (n_log n)))) (n_peers n) /\
    (forall x q, In (x, q) qs -> offers_entries (set_quick (n_quick n') n) x (goes_on n r x) q).
Proof.
  intros n now r p q0 Hr F Lv Hq0 Hrt Hacc Hterm Hx N Hs He. set (id := rs_src r) in *.
  assert (Ev := heard_event n now r p q0 Hr F Lv Hq0 Hrt Hacc Hterm Hx). cbv zeta in Ev.
  set (v := nth (Nat.div (length (match_of r n)) 2) (sort_desc (match_of r n)) 0) in *.
  set (m := set_peers (map (heard n now r) (n_peers n)) n) in *.
  set (b := set_quick (N.max (n_quick n) v) n).
  set (w := fun x => if n_quick n <? v then idle r x else (p_id x =? rs_src r)%Z && (p_pending x || (rs_next_idx r <? a_next (n_log n)))).
  set (f := fun x => log_req b x (goes_on n r x) (term_of b (goes_on n r x - 1))).
  assert (Pid : p_id p = id) by (apply (find_peer_id _ _ _ F)).
  assert (Ip : In p (n_peers n)) by (unfold find_peer in F; apply find_some in F; apply F).
  assert (Nm : NoDup (map p_id (map (heard n now r) (n_peers n)))) by (rewrite map_ids; [exact N | apply heard_id]).
  assert (Fm : find_peer id (map (heard n now r) (n_peers n)) = Some (heard n now r p)).
  { rewrite <- heard_peers. fold id. rewrite find_upd by reflexivity. rewrite F. unfold heard. rewrite Pid. fold id. rewrite Z.eqb_refl. reflexivity. }
  assert (Hp : heard n now r p = hears n now r p) by (unfold heard; rewrite Pid; fold id; rewrite Z.eqb_refl; reflexivity).
  assert (Gn : forall x c, next_of (set_peers c b) (heard n now r x) = goes_on n r x).
  { intros x c. unfold next_of, goes_on, heard. destruct (p_id x =? rs_src r)%Z; [|reflexivity]. cbn [hears p_next p_set_match p_set_next]. replace (rs_next_idx r =? 0) with false by lia. reflexivity. }
  assert (Bh : forall x, p_busy (heard n now r x) = negb (idle r x)).
  { intros x. unfold heard, idle. destruct (p_id x =? rs_src r)%Z; [reflexivity|]. cbn [orb]. rewrite negb_involutive. reflexivity. }
  assert (Hb : forall x c, In x (n_peers n) -> idle r x = true -> has_entries (set_peers c b) (goes_on n r x)).
  { intros x c I1 I2. exact (He x I1 I2). }
  assert (Lq : forall x c, log_req (set_peers c b) (heard n now r x) = log_req b x).
  { intros x c. unfold log_req. rewrite heard_id. reflexivity. }
  assert (Tq : forall i c, term_of (set_peers c b) i = term_of b i).
  { intros i c. unfold term_of, term_for_log. destruct (i =? 0); [reflexivity|]. unfold start_index_, log_term_at. rewrite !bind_get.
    replace (n_log (set_peers c b)) with (n_log b) by reflexivity. destruct (_ <=? i).
    - rewrite !bind_get. replace (n_log (set_peers c b)) with (n_log b) by reflexivity. destruct (i <? al_start (n_log b)); [reflexivity|]. destruct (a_get (n_log b) i); reflexivity.
    - rewrite !bind_get. replace (n_disk (set_peers c b)) with (n_disk b) by reflexivity. destruct (dk_snp (n_disk b)) as [sn|]; [|reflexivity]. destruct (_ =? _); reflexivity. }
  assert (A1 : forall x, In x (n_peers n) -> w x = true -> has_entries n (goes_on n r x)).
  { intros x I1 I2. apply He; [exact I1|]. unfold w in I2. unfold idle. destruct (n_quick n <? v); [exact I2|]. apply andb_prop in I2. rewrite (proj1 I2). reflexivity. }
  assert (A2 : forall x q, In (x, q) (pick w f (n_peers n)) -> offers_entries b x (goes_on n r x) q).
  { intros x q I1. apply pick_in in I1. destruct I1 as (I1 & I2 & ->). apply offers_log. apply term_of_known; [exact Hs | exact (A1 x I1 I2)]. }
  assert (Ac : acked n r v) by (apply majority_index; discriminate).
  destruct (n_quick n <? v) eqn:Adv.
  - (* the commit index grows *)
    set (b5 := set_quick v m). assert (Mx : N.max (n_quick n) v = v) by lia.
    assert (E5 : b5 = set_peers (map (heard n now r) (n_peers n)) b) by (unfold b5, m, b; rewrite Mx; reflexivity).
    assert (Tl := tell_all b5). rewrite E5 in Tl. cbn [n_peers set_peers] in Tl. specialize (Tl Nm Hs).
    set (ps := map (heard n now r) (n_peers n)) in *.
    assert (Q : concat (map (told (set_peers ps b)) ps) = map (fun x => (heard n now r (fst x), snd x)) (pick w f (n_peers n))).
    { unfold pick. rewrite concat_map. unfold ps. rewrite !map_map. f_equal. apply map_ext. intros x. unfold told. rewrite Bh. unfold w.
      destruct (idle r x); [|reflexivity]. cbn [negb map fst snd]. rewrite Gn, Tq. unfold f. rewrite Lq. reflexivity. }
    assert (Sq : sends (concat (map (told (set_peers ps b)) ps)) = sends (pick w f (n_peers n))).
    { rewrite Q. unfold sends. rewrite map_map. apply map_ext. intros x. cbn [fst snd]. f_equal. unfold heard. destruct (_ =? _)%Z; reflexivity. }
    rewrite Sq in Tl.
    set (n6 := upd_peer (PPeer id) (p_set_pending false) (set_peers (map (tell (set_peers ps b)) ps) (set_peers ps b))).
    exists v, n6, (pick w f (n_peers n)). split; [exact Ac|].
    assert (F6 : find_peer id (n_peers n6) = Some (p_set_pending false (tell (set_peers ps b) (heard n now r p)))).
    { unfold n6, upd_peer. cbn [n_peers set_peers]. rewrite find_upd by reflexivity. 
      assert (Z := find_upd). clear Z. replace (find_peer id (map (tell (set_peers ps b)) ps)) with (Some (tell (set_peers ps b) (heard n now r p))); [reflexivity|].
      symmetry. revert Fm. clear. unfold find_peer. induction ps as [|x l IH]; cbn [map find]; [discriminate|]. rewrite tell_id. destruct (_ =? _)%Z; [congruence | exact IH]. }
    split; [|split; [reflexivity|split; [|split; [|split]]]].
    + apply Ev. unfold commit. rewrite bind_assoc, bind_get. replace (n_quick m) with (n_quick n) by reflexivity. rewrite Adv.
      rewrite bind_assoc, bind_modify. fold b5. rewrite bind_assoc, bind_get. replace (n_role b5) with Leader by (symmetry; exact Hr).
      unfold peer_ids. rewrite bind_assoc, bind_get. rewrite E5. cbn [n_peers set_peers].
      assert (Tl2 := Tl ltac:(idtac; intros x I1 I2; unfold ps in I1; apply in_map_iff in I1; destruct I1 as (y & <- & I1); rewrite Bh in I2; rewrite Gn;
        apply Hb; [exact I1 | destruct (idle r y); [reflexivity | discriminate]])).
      rewrite (bind_ok _ _ _ _ _ _ _ _ Tl2). fold id. set (m5 := set_peers (map (tell (set_peers ps b)) ps) (set_peers ps b)) in *.
      assert (F5 : exists x, find_peer id (n_peers m5) = Some x).
      { apply find_in. unfold m5. cbn [n_peers set_peers]. rewrite map_ids by apply tell_id. unfold ps. rewrite map_ids by apply heard_id. rewrite <- Pid. apply in_map, Ip. }
      destruct F5 as (x & F5). unfold the_peer, next_slot_. rewrite bind_assoc, bind_get. unfold get_peer. rewrite F5, bind_ret, bind_modify. fold n6. rewrite !bind_get.
      replace (n_role n6) with Leader by (symmetry; exact Hr).
      assert (Bz : request_append_entries_to id n6 = (ROk false, n6, [])).
      { apply (busy_one _ _ _ F6). unfold tell. destruct (p_busy (heard n now r p)) eqn:Bx; [exact Bx | reflexivity]. }
      destruct (_ || _); cbn [when]; [rewrite (bind_ok _ _ _ _ _ _ _ _ Bz)|]; unfold after, ret; rewrite !app_nil_r; reflexivity.
    + unfold n6, upd_peer, b. cbn [n_peers set_peers]. reflexivity.
    + unfold n6, upd_peer. cbn [n_peers set_peers]. unfold upd_peers, ps. rewrite !map_map.
      apply forall2_map. intros x Ix. rewrite Adv.
      rewrite tell_id, heard_id. unfold knows. fold id. unfold tell. rewrite Bh, Gn. unfold idle, goes_on, heard. fold id.
      destruct (p_id x =? id)%Z.
      * cbn. unfold pred64. replace (rs_next_idx r =? 0) with false by lia. repeat (split; [reflexivity|]). reflexivity.
      * cbn [orb]. rewrite negb_involutive. destruct (p_busy x) eqn:Bx; cbn; rewrite ?Bx; repeat (split; [reflexivity|]); reflexivity.
    + rewrite pick_fst. apply filter_ext. intros x. rewrite Adv. reflexivity.
    + intros x q I1. replace (set_quick (n_quick n6) n) with b; [exact (A2 x q I1) | reflexivity].
  - (* it does not *)
    assert (Mx : N.max (n_quick n) v = n_quick n) by lia.
    assert (Eb : b = n) by (unfold b; rewrite Mx; destruct n; reflexivity).
    set (m2 := upd_peer (PPeer id) (p_set_pending false) m).
    set (need := p_pending p || (rs_next_idx r <? a_next (n_log n))).
    set (n6 := if need then upd_peer (PPeer id) (fun p => p_set_next (next_of m2 p) (p_set_busy true p)) m2 else m2).
    assert (Pk : pick w f (n_peers n) = if need then [(p, f p)] else []) by (exact (pick_one id _ f (n_peers n) p N F)).
    assert (F2 : find_peer id (n_peers m2) = Some (p_set_pending false (hears n now r p))).
    { unfold m2, upd_peer. cbn [n_peers set_peers]. rewrite find_upd by reflexivity. unfold m. cbn [n_peers set_peers]. rewrite Fm, Hp. reflexivity. }
    exists v, n6, (pick w f (n_peers n)). split; [exact Ac|].
    assert (Nq : n_quick n6 = n_quick n) by (unfold n6; destruct need; reflexivity).
    split; [|split; [rewrite Nq; exact (eq_sym Mx)|split; [|split; [|split]]]].
    + apply Ev. unfold commit. rewrite bind_assoc, bind_get. replace (n_quick m) with (n_quick n) by reflexivity. rewrite Adv.
      rewrite bind_ret. fold id. unfold the_peer, next_slot_. rewrite bind_assoc, bind_get. unfold get_peer. replace (n_peers m) with (map (heard n now r) (n_peers n)) by reflexivity.
      rewrite Fm, bind_ret, bind_modify. fold m2. rewrite !bind_get. replace (n_role m2) with Leader by (symmetry; exact Hr).
      replace (p_pending (heard n now r p) || (rs_next_idx r <? a_next (n_log m2))) with need by (rewrite Hp; reflexivity).
      rewrite Pk. unfold n6. destruct need eqn:Nd; cbn [when]; [|reflexivity].
      assert (Nx : next_of m2 (p_set_pending false (hears n now r p)) = goes_on n r p).
      { unfold goes_on. fold id. rewrite Pid, Z.eqb_refl. unfold next_of. cbn [hears p_next p_set_match p_set_next p_set_pending]. replace (rs_next_idx r =? 0) with false by lia. reflexivity. }
      assert (Sf := serve_find m2 id (p_set_pending false (hears n now r p))).
      rewrite Nx in Sf. specialize (Sf ltac:(idtac; unfold m2; rewrite peers_upd by reflexivity; exact Nm) Hs F2 eq_refl
        ltac:(idtac; apply (He p Ip); unfold idle; fold id; rewrite Pid, Z.eqb_refl; reflexivity)).
      rewrite (bind_ok _ _ _ _ _ _ _ _ Sf). unfold after, ret. rewrite app_nil_r. unfold sends. cbn [map fst snd].
      f_equal. f_equal. f_equal. unfold f. rewrite Eb.
      replace m2 with (set_peers (n_peers m2) b) by (rewrite Eb; reflexivity). rewrite Tq, Eb. reflexivity.
    + unfold n6. destruct need; unfold m2, m, upd_peer; destruct n; reflexivity.
    + assert (Gp : n_peers n6 = map (fun x => if (p_id x =? id)%Z then
         (if need then p_set_next (rs_next_idx r) (p_set_busy true (p_set_pending false (hears n now r x))) else p_set_pending false (hears n now r x)) else x) (n_peers n)).
      { unfold n6, m2, m. destruct need; unfold upd_peer; cbn [n_peers set_peers]; unfold upd_peers; rewrite !map_map; apply map_ext; intros x; unfold heard; fold id;
          (destruct (p_id x =? id)%Z eqn:Ex; [change (p_id (hears n now r x)) with (p_id x); rewrite Ex; change (p_id (p_set_pending false (hears n now r x))) with (p_id x) | rewrite Ex]; rewrite ?Ex; try reflexivity).
        unfold next_of. cbn [hears p_next p_set_match p_set_next p_set_pending]. replace (rs_next_idx r =? 0) with false by lia. reflexivity. }
      rewrite Gp. apply forall2_map. intros x Ix. rewrite Adv. unfold knows. fold id. destruct (p_id x =? id)%Z eqn:Ex.
      * assert (x = p) by (apply (same_peer id (n_peers n)); [assumption | assumption | assumption | lia]). subst x.
        assert (Pm : p_match (hears n now r p) = rs_next_idx r - 1). { unfold hears. cbn [p_match p_set_match]. unfold pred64. replace (rs_next_idx r =? 0) with false by lia. reflexivity. }
        cbn [orb]. fold need. destruct need; repeat (split; [first [reflexivity | exact Pm]|]); reflexivity.
      * repeat (split; [reflexivity|]). reflexivity.
    + rewrite pick_fst. apply filter_ext. intros x. rewrite Adv. reflexivity.
    + intros x q I1. rewrite Nq. replace (set_quick (n_quick n) n) with b by (rewrite Eb; destruct n; reflexivity). exact (A2 x q I1).
Qed.

(** ** A follower behind gets the whole log without waiting for heartbeats

    the answer of a follower that takes everything [q] offers (C29) *)
Definition takes (n : node) (id : Z) (q : req) : resp_msg :=
  mkResp (n_term n) append_entries_response id (n_id n) (rq_last_idx q + 1 + lenN (rq_entries q)) true.
(** [q] is on its way to [id], which answers it, and what is sent to it in turn, and so on *)
Inductive served (now : N) (id : Z) : node -> req -> node -> Prop :=
| served_last : forall n p q n' l, find_peer id (n_peers n) = Some p ->
    run_event (ERpc now (p_uid p) false q (Some (takes n id q))) n = (ROk Nothing, n', l) ->
    served now id n q n'
| served_more : forall n p q n1 l q1 n', find_peer id (n_peers n) = Some p ->
    run_event (ERpc now (p_uid p) false q (Some (takes n id q))) n = (ROk Nothing, n1, l) ->
    In (ASend (p_uid p) false q1) l -> served now id n1 q1 n' -> served now id n q n'.
(** a leader that has the entries every member needs next *)
Definition has_for_all (n : node) : Prop :=
  n_role n = Leader /\ NoDup (map p_id (n_peers n)) /\ NoDup (map p_uid (n_peers n)) /\ 1 <= al_start (n_log n) /\ 1 <= pm_max_append (n_prm n) /\
  forall p, In p (n_peers n) -> has_entries n (next_of n p).

Lemma live_one : forall n id p, NoDup (map p_uid (n_peers n)) -> find_peer id (n_peers n) = Some p -> live_ref (p_uid p) n = Some (PPeer id).
Proof.
  intros n id p N F. assert (Pid := find_peer_id _ _ _ F). unfold find_peer in F. apply find_some in F. destruct F as [F _]. unfold live_ref.
  replace (find (fun x => p_uid x =? p_uid p) (n_peers n)) with (Some p); [rewrite Pid; reflexivity|]. symmetry.
  revert N F. induction (n_peers n) as [|x l IH]; cbn [map find In]; [intros _ []|]. intros N F. inversion N as [|? ? N1 N2]; subst.
  destruct (N.eqb_spec (p_uid x) (p_uid p)) as [E|E].
  - destruct F as [F|F]; [congruence|]. exfalso. apply N1. rewrite E. apply in_map, F.
  - destruct F as [F|F]; [congruence|]. apply IH; assumption.
Qed.
Lemma knows_maps : forall n r a l l', Forall2 (knows n r a) l l' -> map p_uid l' = map p_uid l /\ map p_id l' = map p_id l.
Proof.
  intros n r a l l' H. induction H as [|p p' l l' K H [IH1 IH2]]; [auto|]. destruct K as (K1 & K2 & _). cbn [map]. rewrite IH1, IH2. unfold p_id at 1 3. rewrite K1, K2. auto.
Qed.
Lemma forall2_in_r : forall A B (R : A -> B -> Prop) l l' y, Forall2 R l l' -> In y l' -> exists x, In x l /\ R x y.
Proof. intros A B R l l' y H. induction H as [|a b l l' K H IH]; intros []; [subst; exists a; cbn; auto|]. destruct (IH H0) as (x & I & J). exists x. cbn. auto. Qed.
Lemma knows_find : forall n r a id l l' p, Forall2 (knows n r a) l l' -> find_peer id l = Some p -> exists p', find_peer id l' = Some p' /\ knows n r a p p'.
Proof.
  intros n r a id l l' p H. unfold find_peer. induction H as [|x x' l l' K H IH]; cbn [find]; [discriminate|].
  replace (p_id x') with (p_id x) by (unfold p_id; destruct K as (_ & -> & _); reflexivity). destruct (p_id x =? id)%Z; [|exact IH].
  intros E. inversion E; subst. eauto.
Qed.

(** A follower that answers gets everything: if the leader has the entries it needs, every
    answer makes it send the next ones at once, and in the end it knows that the follower has
    its whole log. *)
Theorem C82_catches_up : forall n now id p q, has_for_all n -> find_peer id (n_peers n) = Some p ->
  offers_entries (set_quick (rq_commit q) n) p (next_of n p) q ->
  exists n' p', served now id n q n' /\ n_log n' = n_log n /\ n_role n' = Leader /\ n_quick n <= n_quick n' /\
    find_peer id (n_peers n') = Some p' /\ p_match p' = a_next (n_log n) - 1 /\ p_next p' = a_next (n_log n).
Proof.
  intros n now id p q H F Ho. remember (N.to_nat (a_next (n_log n) - next_of n p)) as k eqn:Ek.
  revert n p q H F Ho Ek. induction k as [k IH] using lt_wf_ind. intros n p q H F (O1 & O2 & O3 & O4 & O5 & O6 & O7 & O8) Ek.
  destruct H as (H1 & H2 & H3 & H4 & H5 & H6). set (X := next_of n p) in *.
  assert (Ip : In p (n_peers n)) by (unfold find_peer in F; apply find_some in F; apply F).
  assert (Hn : has_entries n X) by (apply H6, Ip). assert (Rg := in_range _ _ Hn).
  assert (X1 : 1 <= X) by lia.
  cbn [n_prm n_log n_disk set_quick] in O8. change (n_log (set_quick (rq_commit q) n)) with (n_log n) in O8. change (n_prm (set_quick (rq_commit q) n)) with (n_prm n) in O8.
  set (r := takes n id q). assert (Er : rs_next_idx r = X + lenN (rq_entries q)) by (unfold r, takes; cbn [rs_next_idx]; rewrite O6; lia).
  assert (Len : lenN (rq_entries q) = N.min (pm_max_append (n_prm n)) (a_next (n_log n) - X)).
  { rewrite O8. unfold lenN. rewrite firstn_length, skipn_length. unfold a_next, lenN in *. lia. }
  assert (Y1 : X + lenN (rq_entries q) <= a_next (n_log n)) by lia.
  assert (Hy : has_entries n (rs_next_idx r)).
  { rewrite Er. destruct (N.eq_dec (lenN (rq_entries q)) 0) as [E0|E0]; [rewrite E0, N.add_0_r; exact Hn | left; lia]. }
  assert (Pid : p_id p = id) by (apply (find_peer_id _ _ _ F)).
  destruct (C82_accepted n now r p q) as (v & n' & qs & A1 & A2 & A3 & A4 & A5 & A6 & A7); try assumption; try reflexivity.
  - apply live_one; assumption.
  - lia.
  - intros x Ix _. unfold goes_on. destruct (p_id x =? rs_src r)%Z; [exact Hy | apply H6, Ix].
  - assert (L : n_log n' = n_log n) by (rewrite A4; reflexivity).
    destruct (knows_find _ _ _ _ _ _ _ A5 F) as (p' & F' & K). assert (K0 := K). destruct K as (K1 & K2 & _ & _ & _ & K3).
    replace (rs_src r) with id in K3 by reflexivity. rewrite Pid, Z.eqb_refl in K3. destruct K3 as (K3 & K4 & K5 & K6).
    assert (Hall : has_for_all n').
    { destruct (knows_maps _ _ _ _ _ A5) as (M1 & M2). split; [rewrite A4; exact H1|]. split; [rewrite M2; exact H2|]. split; [rewrite M1; exact H3|].
      split; [rewrite L; exact H4|]. split; [rewrite A4; exact H5|]. intros x' Ix'. destruct (forall2_in_r _ _ _ _ _ _ A5 Ix') as (x & Ix & Kx).
      assert (G : has_entries n (next_of n x')).
      { destruct Kx as (_ & _ & _ & _ & _ & Kx). destruct (p_id x =? rs_src r)%Z.
        - destruct Kx as (_ & Kx & _). unfold next_of. rewrite Kx. destruct (rs_next_idx r =? 0) eqn:E0; [lia | exact Hy].
        - destruct Kx as (_ & Kx). destruct (n_quick n <? v); [|subst x'; apply H6, Ix]. destruct Kx as (_ & Kx).
          assert (Hx := H6 x Ix). destruct (p_busy x); destruct Kx as (Kx & _).
          + unfold next_of in *. rewrite Kx. exact Hx.
          + unfold next_of in *. rewrite Kx. destruct (p_next x =? 0) eqn:E0; [destruct (a_next (n_log n) =? 0); exact Hx|]. rewrite E0. exact Hx. }
      rewrite A4. exact G. }
    set (need := if n_quick n <? v then true else p_pending p || (rs_next_idx r <? a_next (n_log n))).
    assert (Hq : need = true -> exists q1, In (p, q1) qs).
    { intros Hw. assert (Ip2 : In p (map fst qs)).
      { rewrite A6. apply filter_In. split; [exact Ip|]. unfold need in Hw. unfold idle. replace (p_id p =? rs_src r)%Z with true by (symmetry; apply Z.eqb_eq; exact Pid).
        destruct (n_quick n <? v); [reflexivity | exact Hw]. }
      apply in_map_iff in Ip2. destruct Ip2 as ((x & q1) & E1 & I1). cbn in E1. subst x. eauto. }
    destruct (N.eq_dec (rs_next_idx r) (a_next (n_log n))) as [Ye|Yn].
    + exists n', p'. split; [eapply served_last; [exact F | exact A2]|]. split; [exact L|]. split; [rewrite A4; exact H1|]. split; [rewrite A3; lia|].
      split; [exact F'|]. split; [rewrite K3, Ye; reflexivity | rewrite K4; exact Ye].
    + destruct Hq as (q1 & I1). { unfold need. destruct (n_quick n <? v); [reflexivity|]. replace (rs_next_idx r <? a_next (n_log n)) with true by lia. apply orb_true_r. }
      assert (O := A7 p q1 I1). unfold goes_on in O. replace (p_id p =? rs_src r)%Z with true in O by (symmetry; apply Z.eqb_eq; exact Pid).
      assert (Nx : next_of n' p' = rs_next_idx r). { unfold next_of. rewrite K4. replace (rs_next_idx r =? 0) with false by lia. reflexivity. }
      destruct (IH (N.to_nat (a_next (n_log n') - next_of n' p'))) with (n := n') (p := p') (q := q1) as (n2 & p2 & S & B1 & B2 & B3 & B4 & B5 & B6); try assumption.
      * rewrite Nx, L. fold X in Ek. lia.
      * rewrite Nx. destruct O as (Q1 & Q2 & Q3 & Q4 & Q5 & Q6 & Q7 & Q8). replace (rq_commit q1) with (n_quick n') by (symmetry; exact Q5).
        rewrite A4. unfold offers_entries. unfold p_id. rewrite K2. exact (conj Q1 (conj Q2 (conj Q3 (conj Q4 (conj Q5 (conj Q6 (conj Q7 Q8))))))). 
      * reflexivity.
      * rewrite L in B1, B5, B6. exists n2, p2. split; [|split; [exact B1|split; [exact B2|split; [rewrite A3 in B3; lia|auto]]]].
        eapply served_more; [exact F | exact A2 | | exact S]. unfold sends. apply in_map_iff. exists (p, q1). auto.
Qed.

(** ** Examples

    one entry per request; server 1 leads, its first entry is on its way to servers 2 and 3,
    and it has written three more *)
Definition one_prm : params := mkParams 300 150 75 25 1000 10 0 0 1 0 false true.
Definition behind_cmds : list kcmd :=
  [KStart 1; KStart 2; KStart 3; KDo 1 EElection; KRpc 1 2 0; KDo 1 (EReplicate 0 [x61]); KDo 1 (EReplicate 0 [x62]); KDo 1 (EReplicate 0 [x63])]%Z.
Definition behind : node := node_of (ex_run_with one_prm behind_cmds) 1.
Definition has_entriesb (n : node) (nx : N) : bool :=
  ((al_start (n_log n) <? nx) && (nx <=? a_next (n_log n))) || ((nx =? 1) && (al_start (n_log n) =? 1)).
Lemma has_entriesb_ok : forall n nx, has_entriesb n nx = true -> has_entries n nx.
Proof. intros n nx H. unfold has_entriesb in H. apply orb_prop in H. destruct H as [H|H]; apply andb_prop in H; [left | right; left]; lia. Qed.
Lemma forallb_in : forall A (f : A -> bool) l, forallb f l = true -> forall x, In x l -> f x = true.
Proof. intros A f l H. apply forallb_forall, H. Qed.
Definition nodupb_N (l : list N) : bool := Nat.eqb (length (nodup N.eq_dec l)) (length l).
Lemma nodupb_N_ok : forall l, nodupb_N l = true -> NoDup l.
Proof.
  intros l H. unfold nodupb_N in H. apply Nat.eqb_eq in H. revert H. induction l as [|x l IH]; cbn [nodup length]; [constructor|].
  assert (Q : (length (nodup N.eq_dec l) <= length l)%nat) by (clear; induction l as [|y l IH]; cbn [nodup length]; [lia|]; destruct (in_dec N.eq_dec y l); cbn [length]; lia).
  destruct (in_dec N.eq_dec x l); cbn [length]; intros H; [lia|]. constructor; [assumption | apply IH; lia].
Qed.

Lemma offers_own : forall n p nx t, term_is n (nx - 1) t -> offers_entries (set_quick (rq_commit (log_req n p nx t)) n) p nx (log_req n p nx t).
Proof.
  intros n p nx t H. assert (O := offers_log n p nx t H). unfold offers_entries in *. destruct O as (Q1 & Q2 & Q3 & Q4 & Q5 & Q6 & Q7 & Q8).
  exact (conj Q1 (conj Q2 (conj Q3 (conj Q4 (conj Q5 (conj Q6 (conj Q7 Q8))))))).
Qed.
Lemma acked_is : forall n r v, nth (Nat.div (length (match_of r n)) 2) (sort_desc (match_of r n)) 0 = v -> acked n r v.
Proof. intros n r v <-. apply majority_index. discriminate. Qed.
Example C82_example_all : has_for_all behind /\ exists p, find_peer 2 (n_peers behind) = Some p /\ next_of behind p = 1 /\ a_next (n_log behind) = 5 /\
  exists q, offers_entries (set_quick (rq_commit q) behind) p (next_of behind p) q /\ length (rq_entries q) = 1%nat.
Proof.
  split.
  - split; [vm_compute; reflexivity|]. split; [apply nodup_ids; vm_compute; reflexivity|]. split; [apply nodupb_N_ok; vm_compute; reflexivity|].
    split; [vm_compute; discriminate|]. split; [vm_compute; discriminate|].
    intros p Hp. apply has_entriesb_ok. revert p Hp. apply forallb_in. vm_compute. reflexivity.
  - eexists. split; [vm_compute; reflexivity|]. split; [vm_compute; reflexivity|]. split; [vm_compute; reflexivity|].
    match goal with |- context [next_of behind ?p] => exists (log_req behind p (next_of behind p) 0) end.
    split; [|vm_compute; reflexivity]. apply offers_own. left. split; vm_compute; reflexivity.
Qed.
(** the answer of server 2 to the first request makes the first entry committed: server 2 is
    sent the second entry, server 3 is marked *)
Definition ex_ack : resp_msg := mkResp 1 append_entries_response 2 1 2 true.
Example C82_example : exists p q0 v n' q, find_peer (rs_src ex_ack) (n_peers behind) = Some p /\ live_ref (p_uid p) behind = Some (PPeer 2) /\
  rs_term ex_ack <= n_term behind /\ 1 <= rs_next_idx ex_ack /\ acked behind ex_ack v /\ n_quick behind < v /\
  run_event (ERpc 0 (p_uid p) false q0 (Some ex_ack)) behind = (ROk Nothing, n', [ASend (p_uid p) false q]) /\ rq_commit q = 1 /\ rq_last_idx q = 1 /\
  (exists p3, find_peer 3 (n_peers n') = Some p3 /\ p_pending p3 = true).
Proof.
  eexists _, (log_req behind (new_peer 0 (ex_srv 2) one_prm) 1 0), 1, _, _.
  split; [vm_compute; reflexivity|]. split; [vm_compute; reflexivity|]. split; [vm_compute; discriminate|]. split; [vm_compute; discriminate|].
  split; [apply acked_is; vm_compute; reflexivity|].
  split; [vm_compute; reflexivity|]. split; [vm_compute; reflexivity|]. split; [vm_compute; reflexivity|]. split; [vm_compute; reflexivity|].
  eexists. split; vm_compute; reflexivity.
Qed.

Print Assumptions C82_accepted.
Print Assumptions C82_catches_up.
