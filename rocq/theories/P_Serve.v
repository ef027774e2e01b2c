(** * P_Serve: a leader and a lagging follower (C47, C48) *)

From Verif Require Import Base Buffer Codec CodecSpec Msg FsLogStore FsLogSpec Alog Raft RaftQuiet NodeSpec ServerSpec NodeFacts AppendFacts NodeExamples Runs ServeFacts Cluster ClusterElect ClusterExamples.
Local Open Scope N_scope.

(** ** What it means to serve a follower

    term of the entry with index [i]: nothing comes before the first entry; the last
    entry covered by a snapshot may be gone from the log *)
Definition term_is (n : node) (i t : N) : Prop :=
  (i = 0 /\ t = 0) \/ (exists e, a_get (n_log n) i = Some e /\ t = ev_term e) \/
  (0 < i < al_start (n_log n) /\ exists s, dk_snp (n_disk n) = Some s /\ sn_last_log_idx s = i /\ t = sn_last_log_term s).
(** [q] offers the follower [p] the log entries from index [nx] on, as many as may be in one request *)
Definition offers_entries (n : node) (p : peer) (nx : N) (q : req) : Prop :=
  rq_type q = append_entries_request /\ rq_src q = n_id n /\ rq_dst q = p_id p /\ rq_term q = n_term n /\ rq_commit q = n_quick n /\
  rq_last_idx q = nx - 1 /\ term_is n (nx - 1) (rq_last_term q) /\
  rq_entries q = firstn (N.to_nat (pm_max_append (n_prm n))) (skipn (N.to_nat (nx - al_start (n_log n))) (al_ents (n_log n))).
(** [q] offers [p] the first chunk of the snapshot [s] *)
Definition offers_snapshot (n : node) (p : peer) (s : snapshot) (q : req) : Prop :=
  rq_type q = install_snapshot_request /\ rq_src q = n_id n /\ rq_dst q = p_id p /\ rq_term q = n_term n /\
  rq_last_idx q = sn_last_log_idx s /\ rq_last_term q = sn_last_log_term s /\
  exists d done, rq_entries q = [mkEV (n_term n) snp_sync_req (sync_bytes s 0 done d)] /\
    d = firstn (Z.to_nat (block_size (n_prm n))) (firstn (N.to_nat (sn_size s)) (dk_snp_data (n_disk n))) /\
    (done = true <-> lenN d = sn_size s).

(** ** When the leader can serve

    the entries from [nx] on are in the log and the term before them is known *)
Definition has_entries (n : node) (nx : N) : Prop :=
  al_start (n_log n) < nx <= a_next (n_log n) \/ (nx = 1 /\ al_start (n_log n) = 1) \/
  (1 < nx /\ nx = al_start (n_log n) /\ exists s, dk_snp (n_disk n) = Some s /\ sn_last_log_idx s + 1 = nx).
(** the entry before [nx] is not in the log any more and the last snapshot [s] covers it *)
Definition has_snapshot (n : node) (p : peer) (nx : N) (s : snapshot) : Prop :=
  1 < nx < al_start (n_log n) /\ n_snp n = Some s /\ nx <= sn_last_log_idx s + 1 /\ p_sync p = None /\ readable n s.

Lemma term_known : forall n nx, 1 <= al_start (n_log n) -> has_entries n nx ->
  exists t, term_is n (nx - 1) t /\ forall n', n_log n' = n_log n -> n_disk n' = n_disk n -> term_for_log (nx - 1) n' = (ROk t, n', []).
Proof.
  intros n nx Hs [H|[(-> & H)|(H1 & H2 & s & H3 & H4)]].
  - destruct (a_get_in (n_log n) (nx - 1)) as (e & E); [lia|]. exists (ev_term e). split.
    + right. left. exists e. auto.
    + intros n' E1 _. apply term_for_log_in; rewrite E1; assumption.
  - exists 0. split; [left; auto | intros n' _ _; reflexivity].
  - exists (sn_last_log_term s). split.
    + right. right. split; [lia|]. exists s. split; [exact H3|]. split; [lia | reflexivity].
    + intros n' E1 E2. apply term_for_log_snp; rewrite ?E1, ?E2; [lia | exact H3 | lia].
Qed.

Lemma offers_log : forall n p nx t, term_is n (nx - 1) t -> offers_entries n p nx (log_req n p nx t).
Proof. intros n p nx t H. unfold offers_entries, log_req. cbn. repeat (split; [reflexivity|]). split; [exact H | reflexivity]. Qed.
Lemma offers_snp : forall n p s, readable n s -> offers_snapshot n p s (snp_req n p s 0).
Proof.
  intros n p s (R1 & R2 & R3 & R4). unfold offers_snapshot, snp_req. cbn [rq_type rq_src rq_dst rq_term rq_last_idx rq_last_term rq_entries].
  repeat (split; [reflexivity|]). eexists _, _. split; [reflexivity|]. split.
  - unfold chunk. rewrite N.sub_0_r. cbn [N.to_nat skipn]. rewrite firstn_firstn. f_equal. unfold blk. lia.
  - rewrite chunk_len by lia. split; intros; lia.
Qed.

(** the two kinds of request *)
Lemma serve : forall n id p, find_peer id (n_peers n) = Some p -> p_busy p = false -> 1 <= al_start (n_log n) ->
  (has_entries n (next_of n p) \/ exists s, has_snapshot n p (next_of n p) s) ->
  exists n' q, request_append_entries_to id n = (ROk true, n', [ASend (p_uid p) false q]) /\
    (exists p', touch id p' n n' /\ p_hb_on p' = p_hb_on p) /\
    (has_entries n (next_of n p) -> offers_entries n p (next_of n p) q) /\
    (forall s, has_snapshot n p (next_of n p) s -> offers_snapshot n p s q).
Proof.
  intros n id p F Bz Hs H. assert (Hx : forall s, has_entries n (next_of n p) -> has_snapshot n p (next_of n p) s -> False).
  { intros s A ((B1 & B2) & _). destruct A as [A|[A|A]]; lia. }
  destruct H as [H|(s & H)].
  - destruct (term_known n _ Hs H) as (t & T1 & T2).
    destruct (serve_log n id p t F Bz Hs) as (b & n' & l & E & -> & -> & T).
    + destruct H as [H|[H|H]]; unfold a_next in *; lia.
    + exact T2.
    + exists n', (log_req n p (next_of n p) t). split; [exact E|]. split; [eexists; split; [exact T | reflexivity]|]. split.
      * intros _. apply offers_log, T1.
      * intros s K. destruct (Hx s H K).
  - assert (K := H). destruct H as (H1 & H2 & H3 & H4 & H5).
    assert (En : next_of n p = p_next p). { unfold next_of in *. destruct (N.eqb_spec (p_next p) 0); [unfold a_next in *; lia | reflexivity]. }
    rewrite En in *. destruct (serve_snp n id p s 0 F Bz H1) as (b & n' & l & E & -> & -> & T); try assumption.
    + unfold in_sync. rewrite H4. auto.
    + destruct H5; lia.
    + exists n', (snp_req n p s 0). split; [exact E|]. split; [eexists; split; [exact T | reflexivity]|]. split.
      * intros A. destruct (Hx s A K).
      * intros s' (_ & E' & _). rewrite H2 in E'. inversion E'; subst. apply offers_snp, H5.
Qed.

(** ** C47 *)

(** Proved: at a heartbeat the leader offers the follower the entries from its next index
    on if they and the term before them are known, and otherwise the snapshot that covers
    them, if there is one that can be read. *)
Theorem C47_heartbeat_partial : forall n id p, n_role n = Leader -> find_peer id (n_peers n) = Some p -> p_busy p = false ->
  1 <= al_start (n_log n) -> (has_entries n (next_of n p) \/ exists s, has_snapshot n p (next_of n p) s) ->
  exists n' q l, run_event (EHeartbeat id) n = (ROk Nothing, n', ASend (p_uid p) false q :: l) /\ (l = [] \/ l = [AHbTimer id]) /\
    (has_entries n (next_of n p) -> offers_entries n p (next_of n p) q) /\
    (forall s, has_snapshot n p (next_of n p) s -> offers_snapshot n p s q).
Proof.
  intros n id p Hr F Bz Hs H. set (n1 := upd_peer (PPeer id) (fun p => p_set_hb (p_hb_on p) false p) n).
  assert (T1 : touch id (p_set_hb (p_hb_on p) false p) n n1)
    by (exact (touch_upd id p n n (fun p => p_set_hb (p_hb_on p) false p) (touch_refl _ _ _ F) (fun _ => eq_refl) (fun _ => eq_refl))).
  assert (F1 := touch_peer _ _ _ _ T1). destruct (touch_same _ _ _ _ T1) as (ps & E1).
  assert (S := serve n1 id (p_set_hb (p_hb_on p) false p) F1 Bz).
  replace (next_of n1 (p_set_hb (p_hb_on p) false p)) with (next_of n p) in S by (rewrite E1; reflexivity).
  rewrite E1 in S. destruct S as (n' & q & E & (p' & T2 & Hp) & S1 & S2); [exact Hs | exact H|].
  assert (G : runs (fun a n' l => exists l', a = Nothing /\ l = ASend (p_uid p) false q :: l' /\ (l' = [] \/ l' = [AHbTimer id])) (run_event (EHeartbeat id)) n).
  { cbn [run_event]. unfold handle_hb_timeout. rs. rs. rs. cbn [app]. rs. rs. cbn [app]. rs. rs. cbn [app].
    fold n1. replace (n_role n1) with Leader by (rewrite E1; symmetry; exact Hr). unfold get_peer. rewrite F1.
    rs. rewrite E1. eapply runs_eq; [exact E|]. rs. unfold the_peer. rs. rs. cbn [app]. unfold get_peer. rewrite (touch_peer _ _ _ _ T2). rs. rs.
    - rs. rs. rs. rs. cbn [app]. exists [AHbTimer id]. auto.
    - rs. cbn [app]. exists []. auto. }
  destruct G as (a & n2 & l & E2 & l' & -> & -> & Hl). exists n2, q, l'. auto.
Qed.

(** the index a rejecting answer makes the leader continue from *)
Definition asked_for (p : peer) (r : resp_msg) : N :=
  if (0 <? rs_next_idx r) && (rs_next_idx r <? p_next p) then rs_next_idx r else p_next p - 1.

Lemma rejected_event : forall n now id p q0 r, n_role n = Leader -> find_peer id (n_peers n) = Some p ->
  live_ref (p_uid p) n = Some (PPeer id) -> rq_type q0 = append_entries_request -> rs_type r = append_entries_response ->
  rs_src r = id -> rs_accepted r = false -> rs_term r <= n_term n -> 1 <= asked_for p r ->
  exists n4 y, touch id (p_set_next (asked_for p r) y) n n4 /\ p_busy y = false /\ p_uid y = p_uid p /\ p_id y = p_id p /\ p_sync y = p_sync p /\
    forall n' b l, request_append_entries_to id n4 = (ROk b, n', l) -> run_event (ERpc now (p_uid p) false q0 (Some r)) n = (ROk Nothing, n', l).
Proof.
  intros n now id p q0 r Hr F Lv Hq0 Hrt Hsrc Hacc Hterm Hask.
  pose (f := fun p0 => if (0 <? rs_next_idx r) && (rs_next_idx r <? p_next p0) then p_set_next (rs_next_idx r) p0
             else if 0 <? p_next p0 then p_set_next (p_next p0 - 1) p0 else p0).
  assert (Kf : forall p, p_id (f p) = p_id p) by (intros; unfold f; repeat (destruct (_ && _) || destruct (_ <? _)); reflexivity).
  assert (Kg : forall p, p_uid (f p) = p_uid p) by (intros; unfold f; repeat (destruct (_ && _) || destruct (_ <? _)); reflexivity).
  set (n1 := upd_peer (PPeer id) (p_set_busy false) n).
  assert (T1 : touch id (p_set_busy false p) n n1) by (exact (touch_upd _ _ _ _ (p_set_busy false) (touch_refl _ _ _ F) (fun _ => eq_refl) (fun _ => eq_refl))).
  set (n2 := upd_peer (PPeer id) (p_resume (n_prm n)) n1).
  assert (T2 : touch id (p_resume (n_prm n) (p_set_busy false p)) n n2) by (exact (touch_upd _ _ _ _ (p_resume (n_prm n)) T1 (fun _ => eq_refl) (fun _ => eq_refl))).
  set (n3 := upd_peer (PPeer id) (p_set_last_resp now) n2).
  assert (T3 : touch id (p_set_last_resp now (p_resume (n_prm n) (p_set_busy false p))) n n3) by (exact (touch_upd _ _ _ _ (p_set_last_resp now) T2 (fun _ => eq_refl) (fun _ => eq_refl))).
  set (n4 := upd_peer (PPeer id) f n3).
  set (p3 := p_set_last_resp now (p_resume (n_prm n) (p_set_busy false p))) in *.
  assert (T4 : touch id (f p3) n n4) by (exact (touch_upd _ _ _ _ f T3 Kf Kg)).
  assert (E4 : exists y, f p3 = p_set_next (asked_for p r) y /\ p_busy y = false /\ p_uid y = p_uid p /\ p_id y = p_id p /\ p_sync y = p_sync p).
  { unfold f, asked_for in *. replace (p_next p3) with (p_next p) by reflexivity.
    destruct ((0 <? rs_next_idx r) && (rs_next_idx r <? p_next p)); [exists p3; repeat split|].
    replace (0 <? p_next p) with true by lia. exists p3. repeat split. }
  destruct E4 as (y & E4 & Y1 & Y2 & Y3 & Y4).
  destruct (touch_same _ _ _ _ T4) as (ps & Es).
  exists n4, y. rewrite <- E4. split; [exact T4|]. split; [exact Y1|]. split; [exact Y2|]. split; [exact Y3|]. split; [exact Y4|].
  intros n' b l0 E.
  assert (G : runs (fun a n2 l => a = Nothing /\ n2 = n' /\ l = l0) (run_event (ERpc now (p_uid p) false q0 (Some r))) n).
  { cbn [run_event]. rs. unfold rpc_done. rs. rs. rewrite Lv. cbn [app]. rs.
    replace (beq (rq_type q0) append_entries_request || beq (rq_type q0) install_snapshot_request) with true by (rewrite Hq0; reflexivity).
    cbn [when]. rs. cbn [app]. rs. rs. cbn [app]. fold n1. fold n2.
    unfold handle_peer_resp. rs. rs. cbn [app]. rewrite Hsrc, (touch_peer _ _ _ _ T2). rs. rs. cbn [app]. fold n3.
    rs. destruct (touch_same _ _ _ _ T3) as (ps3 & Es3).
    eapply runs_eq. { rewrite update_term_eq. replace (n_term n3) with (n_term n) by (rewrite Es3; reflexivity). replace (n_term n <? rs_term r) with false by lia. reflexivity. }
    rewrite Hrt. change (beq append_entries_response vote_response) with false. change (beq append_entries_response append_entries_response) with true. cbn [app].
    unfold handle_append_entries_resp. rs. rs. cbn [app]. rewrite Hsrc, (touch_peer _ _ _ _ T3). rewrite Hacc. rs. rs. rs. cbn [app]. rs. cbn [app].
    change (fun p0 : peer => _) with f. fold n4. rs. rs. cbn [app]. replace (n_role n4) with Leader by (rewrite Es; symmetry; exact Hr). cbn [when]. rs.
    eapply runs_eq; [exact E|]. rs. rs. cbn [app]. rewrite ?app_nil_r. auto. }
  destruct G as (a & n5 & l & G & -> & -> & ->). exact G.
Qed.

(** Proved: a leader that gets a rejecting answer to a request with entries continues in
    the same way from the index the answer asks for. *)
Theorem C47_rejected_partial : forall n now id p q0 r, n_role n = Leader -> find_peer id (n_peers n) = Some p ->
  live_ref (p_uid p) n = Some (PPeer id) -> rq_type q0 = append_entries_request -> rs_type r = append_entries_response ->
  rs_src r = id -> rs_accepted r = false -> rs_term r <= n_term n -> 1 <= asked_for p r -> 1 <= al_start (n_log n) ->
  (has_entries n (asked_for p r) \/ exists s, has_snapshot n p (asked_for p r) s) ->
  exists n' q, run_event (ERpc now (p_uid p) false q0 (Some r)) n = (ROk Nothing, n', [ASend (p_uid p) false q]) /\
    (has_entries n (asked_for p r) -> offers_entries n p (asked_for p r) q) /\
    (forall s, has_snapshot n p (asked_for p r) s -> offers_snapshot n p s q).
Proof.
  intros n now id p q0 r Hr F Lv Hq0 Hrt Hsrc Hacc Hterm Hask Hs H.
  destruct (rejected_event n now id p q0 r Hr F Lv Hq0 Hrt Hsrc Hacc Hterm Hask) as (n4 & y & T4 & Y1 & Y2 & Y3 & Y4 & Ev).
  destruct (touch_same _ _ _ _ T4) as (ps & Es).
  assert (S := serve n4 id (p_set_next (asked_for p r) y) (touch_peer _ _ _ _ T4)).
  replace (next_of n4 (p_set_next (asked_for p r) y)) with (asked_for p r) in S by (unfold next_of; cbn [p_next p_set_next]; replace (asked_for p r =? 0) with false by lia; reflexivity).
  rewrite Es in S. destruct S as (n' & q & E & _ & S1 & S2); [exact Y1 | exact Hs | |].
  { destruct H as [H|(s & A1 & A2 & A3 & A4 & A5)]; [left; exact H | right]. exists s. unfold has_snapshot. cbn [p_sync p_set_next]. rewrite Y4. auto. }
  exists n', q. split; [|split].
  - rewrite <- Es in E. apply Ev in E. rewrite E. rewrite <- Y2. reflexivity.
  - intros A. specialize (S1 A). unfold offers_entries in *. replace (p_id p) with (p_id y) by exact Y3. exact S1.
  - intros s (A1 & A2 & A3 & A4 & A5). assert (K : offers_snapshot (set_peers ps n) (p_set_next (asked_for p r) y) s q).
    { apply S2. unfold has_snapshot. cbn [p_sync p_set_next]. rewrite Y4. auto. }
    unfold offers_snapshot in *. replace (p_id p) with (p_id y) by exact Y3. exact K.
Qed.

(** ** C47 and C48 do not hold *)

(** snapshots every two entries, [r] entries kept after a snapshot *)
Definition snp_prm (d r : N) : params := mkParams 300 150 75 25 1000 10 d 0 100 r false true.
(** server 1 leads; "a" and "b" are committed with the copies of server 2; server 3 has got
    the first two entries when server 1 makes a snapshot at index 3 and compacts its log *)
Definition lag_cmds : list kcmd :=
  [KStart 1; KStart 2; KStart 3; KDo 1 EElection; KRpc 1 2 0; KRpc 1 2 0; KRpc 1 3 0;
   KDo 1 (EReplicate 0 [x61]); KRpc 1 2 0; KRpc 1 3 0; KRpc 1 3 0; KDo 1 (EReplicate 0 [x62]); KRpc 1 2 0; KRpc 1 2 0;
   KDo 1 ECommit; KDo 1 ECommit; KDo 1 ECommit; KSnap 1 [x01; x02]; KLost 1 3 0]%Z.
Definition lag (r : N) : world := ex_run_with (snp_prm 2 r) lag_cmds.
(** server 3 has got nothing yet *)
Definition late_cmds : list kcmd :=
  [KStart 1; KStart 2; KStart 3; KDo 1 EElection; KRpc 1 2 0; KRpc 1 2 0;
   KDo 1 (EReplicate 0 [x61]); KRpc 1 2 0; KDo 1 (EReplicate 0 [x62]); KRpc 1 2 0; KRpc 1 2 0;
   KDo 1 ECommit; KDo 1 ECommit; KDo 1 ECommit; KSnap 1 [x01; x02]; KLost 1 3 0]%Z.
Definition late : world := ex_run_with (snp_prm 2 0) late_cmds.
Definition node_of (w : world) (i : Z) : node := match w_sys w i with Up n => n | Down d => start_node i ex_prm d end.
Lemma node_of_up : forall w i, (match w_sys w i with Up _ => true | Down _ => false end) = true -> w_sys w i = Up (node_of w i).
Proof. intros w i. unfold node_of. destruct (w_sys w i); [reflexivity | discriminate]. Qed.

(** With one reserved entry the log of the leader starts at 3 and the snapshot covers 3:
    nothing tells the term of entry 2.  The heartbeat for server 3, whose next index is 3,
    ends the process of the leader (create_append_entries_req calls term_for_log, which
    only knows the log and the last entry of the snapshot). *)
Theorem C47_start_index_refuted : exists servers prm w0 w i n id,
  cluster_okay servers /\ initial servers w0 /\ reach servers prm w0 w /\ In i (ids servers) /\ w_sys w i = Up n /\ n_role n = Leader /\
  (exists s, n_snp n = Some s /\ al_start (n_log n) <= sn_last_log_idx s < a_next (n_log n)) /\
  (exists p, find_peer id (n_peers n) = Some p /\ p_next p = al_start (n_log n)) /\
  fst (fst (run_event (EHeartbeat id) n)) = RExit.
Proof.
  exists ex_servers, (fun _ => snp_prm 2 1), ex_world, (lag 1), 1%Z, (node_of (lag 1) 1), 3%Z.
  split; [exact ex_okay|]. split; [exact ex_initial|]. split; [apply ex_reach_with|]. split; [left; reflexivity|].
  split; [apply node_of_up; vm_compute; reflexivity|]. split; [vm_compute; reflexivity|].
  split. { eexists. split; [vm_compute; reflexivity|]. vm_compute. split; [discriminate | reflexivity]. }
  split; [|vm_compute; reflexivity]. eexists. split; vm_compute; reflexivity.
Qed.

(** A follower that has got nothing yet is to continue from index 1; the leader asks its log
    for entries it has compacted (the test last_log_idx > 0 keeps the snapshot from being
    used), and the log store throws. *)
Theorem C47_first_index_refuted : exists servers prm w0 w i n id,
  cluster_okay servers /\ initial servers w0 /\ reach servers prm w0 w /\ In i (ids servers) /\ w_sys w i = Up n /\ n_role n = Leader /\
  (exists p, find_peer id (n_peers n) = Some p /\ p_next p = 1) /\ 1 < al_start (n_log n) /\
  fst (fst (run_event (EHeartbeat id) n)) = RThrow RangeError.
Proof.
  exists ex_servers, (fun _ => snp_prm 2 0), ex_world, late, 1%Z, (node_of late 1), 3%Z.
  split; [exact ex_okay|]. split; [exact ex_initial|]. split; [apply ex_reach_with|]. split; [left; reflexivity|].
  split; [apply node_of_up; vm_compute; reflexivity|]. split; [vm_compute; reflexivity|].
  split; [eexists; split; vm_compute; reflexivity|]. split; vm_compute; reflexivity.
Qed.

(** C48 never holds while the process that made the snapshot runs: the snapshot it keeps has
    size 0, and the first attempt to ship it ends the process. *)
Theorem C48_own_snapshot_refuted : forall n s data id p n1 l1, run_event (ESnapshot s data true) n = (ROk Nothing, n1, l1) ->
  sn_size s = 0 -> n_role n = Leader -> find_peer id (n_peers n) = Some p -> p_busy p = false -> p_sync p = None ->
  1 < p_next p < al_start (n_log n1) -> exists n2, run_event (EHeartbeat id) n1 = (RExit, n2, [AExit (-1)]).
Proof.
  intros n s data id p n1 l1 E Hz Hr F Bz Sy Hn.
  assert (K : n_snp n1 = Some s /\ n_peers n1 = n_peers n /\ n_role n1 = n_role n).
  { cbn [run_event] in E. unfold on_snapshot_completed in E. cbn [when] in E. rewrite !bind_assoc in E. rewrite bind_emit in E.
    rewrite !bind_assoc, bind_modify, !bind_assoc, bind_get in E. unfold after in E.
    match type of E with context [when ?b _] => destruct b end; cbn [when] in E.
    - unfold log_compact in E. rewrite !bind_assoc, bind_get in E. match type of E with context [if ?b then throw _ else _] => destruct b end; [discriminate|].
      rewrite !bind_assoc, bind_emit in E. unfold after in E. cbn in E. inversion E; subst. auto.
    - cbn in E. inversion E; subst. auto. }
  destruct K as (K1 & K2 & K3).
  pose (f := fun p => p_set_hb (p_hb_on p) false p).
  assert (T : touch id (f p) n1 (upd_peer (PPeer id) f n1)) by (apply touch_upd; [apply touch_refl; rewrite K2; exact F | reflexivity | reflexivity]).
  destruct (touch_same _ _ _ _ T) as (ps & Es).
  destruct (no_snp (upd_peer (PPeer id) f n1) id (f p) s) as (n2 & E2).
  - apply (touch_peer _ _ _ _ T).
  - exact Bz.
  - rewrite Es. exact Hn.
  - exact Sy.
  - rewrite Es. exact K1.
  - right. lia.
  - exists n2. cbn [run_event]. unfold handle_hb_timeout. rewrite !bind_assoc, bind_modify, !bind_assoc, bind_get, !bind_assoc, bind_get.
    fold f. replace (n_role (upd_peer (PPeer id) f n1)) with Leader by (rewrite Es; cbn; rewrite K3; symmetry; exact Hr).
    unfold get_peer. rewrite (touch_peer _ _ _ _ T). rewrite !bind_assoc. unfold bind at 1. rewrite E2. reflexivity.
Qed.

(** The snapshots the server asks the application for have size 0, in every life. *)
From Verif Require Import RaftWalk WalkAll.
Definition size0 : rel := fun _ l _ => forall s, In (ACreateSnapshot s) l -> sn_size s = 0.
#[export] Instance size0_pre : preorder size0.
Proof.
  split; [intros n s []|]. intros n l n1 l1 n2 H1 H2 s H. apply in_app_or in H. destruct H as [H|H]; [apply H1, H | apply H2, H].
Qed.
Ltac sz0 := let H := fresh in unfold size0; intros ? H; cbn [In] in H; repeat (destruct H as [H|H]; [try discriminate; inversion H; subst; try reflexivity|]); destruct H.
Theorem C48_created_size : forall e n r n' l s, run_event e n = (r, n', l) -> In (ACreateSnapshot s) l -> sn_size s = 0.
Proof.
  assert (W : forall e n, ht size0 yes (run_event e) n).
  { set (R := size0). assert (P : preorder R) by exact _.
    walk_everything R ltac:(unfold R; sz0).
    intros e n. destruct e; cbn [run_event]; unfold retry; wall ltac:(unfold R; sz0). apply W_rpc. }
  intros e n r n' l s E H. destruct (W e n _ _ _ E) as [K _]. exact (K s H).
Qed.

(** Proved: when the process is started again after the snapshot was made, it knows the size
    (the application reports it) and can read the snapshot; C47_heartbeat_partial then says
    that it is shipped. *)
Theorem C48_after_restart_partial : forall n s data r n1 l1 id pm, run_event (ESnapshot s data true) n = (r, n1, l1) ->
  1 <= lenN data < two31 -> (0 < block_size pm)%Z ->
  exists s', n_snp (start_node id pm (n_disk n1)) = Some s' /\ sn_last_log_idx s' = sn_last_log_idx s /\
    sn_last_log_term s' = sn_last_log_term s /\ readable (start_node id pm (n_disk n1)) s'.
Proof.
  intros n s data r n1 l1 id pm E Hd Hb.
  assert (K : dk_snp (n_disk n1) = Some (mkSnp (sn_last_log_idx s) (sn_last_log_term s) (lenN data) (sn_config s)) /\ dk_snp_data (n_disk n1) = data).
  { cbn [run_event] in E. unfold on_snapshot_completed in E. cbn [when] in E. rewrite !bind_assoc in E. rewrite bind_emit in E.
    rewrite !bind_assoc, bind_modify, !bind_assoc, bind_get in E. unfold after in E.
    match type of E with context [when ?b _] => destruct b end; cbn [when] in E.
    - unfold log_compact in E. rewrite !bind_assoc, bind_get in E. match type of E with context [if ?b then throw _ else _] => destruct b end.
      + cbn in E. inversion E; subst. auto.
      + rewrite !bind_assoc, bind_emit in E. unfold after in E. cbn in E. inversion E; subst. auto.
    - cbn in E. inversion E; subst. auto. }
  destruct K as (K1 & K2). exists (mkSnp (sn_last_log_idx s) (sn_last_log_term s) (lenN data) (sn_config s)).
  unfold start_node. destruct (match dk_state (n_disk n1) with Some x => x | None => (0, (-1)%Z) end) as [t v]. cbn [n_snp].
  split; [exact K1|]. split; [reflexivity|]. split; [reflexivity|]. unfold readable. cbn [sn_size n_disk n_prm]. rewrite K2. lia.
Qed.

(** ** Examples *)
(** server 1 of the lagging cluster before server 3 is heard of again; server 3 is at index 3,
    which is in the log as long as nothing is compacted *)
Definition ex_pre : node := node_of (ex_run_with (snp_prm 0 0) lag_cmds) 1.
Example C47_example : n_role ex_pre = Leader /\ 1 <= al_start (n_log ex_pre) /\
  exists p, find_peer 3 (n_peers ex_pre) = Some p /\ p_busy p = false /\ has_entries ex_pre (next_of ex_pre p) /\ next_of ex_pre p = 3.
Proof.
  split; [vm_compute; reflexivity|]. split; [vm_compute; discriminate|]. eexists. split; [vm_compute; reflexivity|].
  split; [reflexivity|]. split; [|vm_compute; reflexivity]. left. vm_compute. split; [reflexivity | discriminate].
Qed.
(** the leader of term 2 was started again after it had made a snapshot; server 3 rejects *)
Definition again_cmds : list kcmd :=
  lag_cmds ++ [KCrash 1 (EHeartbeat 2) 0; KStart 1; KDo 1 EElection; KRpc 1 2 0]%Z.
Definition again : node := node_of (ex_run_with (snp_prm 2 0) again_cmds) 1.
Definition ex_rej : resp_msg := mkResp 2 append_entries_response 3 1 3 false.
Example C47_example_rejected : n_role again = Leader /\ 1 <= al_start (n_log again) /\
  exists p s, find_peer 3 (n_peers again) = Some p /\ live_ref (p_uid p) again = Some (PPeer 3) /\
    rs_term ex_rej <= n_term again /\ asked_for p ex_rej = 3 /\ has_snapshot again p 3 s /\ sn_size s = 2.
Proof.
  split; [vm_compute; reflexivity|]. split; [vm_compute; discriminate|]. eexists _, (mkSnp 3 1 2 (mkCfg 1 0 (cc_servers ex_cfg))). split; [vm_compute; reflexivity|].
  split; [vm_compute; reflexivity|]. split; [vm_compute; discriminate|]. split; [vm_compute; reflexivity|]. split; [|reflexivity].
  split; [vm_compute; split; reflexivity|]. split; [vm_compute; reflexivity|]. split; [vm_compute; discriminate|]. split; [reflexivity|].
  vm_compute. repeat split; discriminate.
Qed.
(** the state in which the leader of C48 makes its snapshot, and the state after *)
Definition ex_own : node := node_of (ex_run_with (snp_prm 2 0) (firstn 17 lag_cmds ++ [KLost 1 3 0]%Z)) 1.
Definition ex_own_snp : snapshot := mkSnp 3 1 0 (mkCfg 1 0 (cc_servers ex_cfg)).
Example C48_example :
  In (ACreateSnapshot ex_own_snp) (w_acts (ex_run_with (snp_prm 2 0) (firstn 17 lag_cmds ++ [KLost 1 3 0]%Z)) 1) /\
  exists n1 l1, run_event (ESnapshot ex_own_snp [x01; x02] true) ex_own = (ROk Nothing, n1, l1) /\ n_role ex_own = Leader /\
  exists p, find_peer 3 (n_peers ex_own) = Some p /\ p_busy p = false /\ p_sync p = None /\ 1 < p_next p < al_start (n_log n1).
Proof.
  split.
  - apply asked_snp_in. vm_compute. reflexivity.
  - eexists _, _. split; [apply pair3; vm_compute; reflexivity|]. split; [vm_compute; reflexivity|]. eexists. split; [vm_compute; reflexivity|].
    split; [vm_compute; reflexivity|]. split; [vm_compute; reflexivity|]. vm_compute. split; reflexivity.
Qed.

Print Assumptions C47_heartbeat_partial.
Print Assumptions C47_rejected_partial.
Print Assumptions C47_start_index_refuted.
Print Assumptions C47_first_index_refuted.
Print Assumptions C48_own_snapshot_refuted.
Print Assumptions C48_created_size.
Print Assumptions C48_after_restart_partial.
