(** * P_Snap: shipping a snapshot (C49, C50, C60) *)

From Verif Require Import Base Buffer BufferSpec BufferProofs BufferTop Codec CodecSpec CodecProofs RpcProofs Msg FsLogStore FsLogSpec Alog Raft RaftQuiet NodeSpec ServerSpec NodeFacts AppendFacts NodeExamples Runs ServeFacts Cluster ClusterElect ClusterExamples P_Config P_Serve.
Local Open Scope N_scope.

(** ** Specification

    [carries s q o d f]: the request [q] carries the bytes [d] of the snapshot [s], which begin
    at offset [o]; [f] marks the last chunk *)
Definition carries (s : snapshot) (q : req) (o : N) (d : list byte) (f : bool) : Prop :=
  rq_type q = install_snapshot_request /\ exists t, rq_entries q = [mkEV t snp_sync_req (sync_bytes s o f d)].
(** the requests deliver exactly [data], from offset [o] on, in consecutive non-empty chunks of
    at most [b] bytes; the last one, and only the last one, is marked *)
Fixpoint delivers (s : snapshot) (b : N) (o : N) (qs : list req) (data : list byte) : Prop :=
  match qs with
  | [] => False
  | [q] => carries s q o data true /\ data <> [] /\ lenN data <= b
  | q :: qs => exists d rest, data = d ++ rest /\ carries s q o d false /\ d <> [] /\ lenN d <= b /\ delivers s b (o + lenN d) qs rest
  end.

(** one round trip: the request is delivered, the response is handed to the leader *)
Definition round (now uid : N) (q : req) (L F L' F' : node) (l : list act) : Prop :=
  exists r lf, run_event (ERequest now q) F = (ROk (Response r), F', lf) /\
    run_event (ERpc now uid false q (Some r)) L = (ROk Nothing, L', l).
(** round trips as long as the leader goes on sending parts of a snapshot *)
Inductive transfer (now uid : N) : req -> node -> node -> list req -> node -> node -> Prop :=
| T_last : forall q L F L' F' l, round now uid q L F L' F' l ->
    (forall x q', In (ASend uid x q') l -> rq_type q' <> install_snapshot_request) -> transfer now uid q L F [q] L' F'
| T_more : forall q q' L F L1 F1 qs L' F', round now uid q L F L1 F1 [ASend uid false q'] ->
    rq_type q' = install_snapshot_request -> transfer now uid q' L1 F1 qs L' F' -> transfer now uid q L F (q :: qs) L' F'.

(** the follower has the snapshot *)
Definition installed (F : node) (s : snapshot) (data : list byte) : Prop :=
  dk_snp (n_disk F) = Some s /\ firstn (N.to_nat (sn_size s)) (dk_snp_data (n_disk F)) = data /\
  n_smc F = sn_last_log_idx s /\ dk_commit (n_disk F) = sn_last_log_idx s /\ al_start (n_log F) = sn_last_log_idx s + 1.

(** ** The leader's side *)
Lemma peer_resp : forall n now id p q r (Q : node -> list act -> Prop),
  find_peer id (n_peers n) = Some p -> live_ref (p_uid p) n = Some (PPeer id) ->
  rq_type q = install_snapshot_request -> rs_type r = install_snapshot_response -> rs_src r = id -> rs_term r <= n_term n ->
  (forall n3, touch id (p_set_last_resp now (p_resume (n_prm n) (p_set_busy false p))) n n3 ->
     runs (fun _ n' l => Q n' l) (handle_install_snapshot_resp r) n3) ->
  runs (fun a n' l => a = Nothing /\ Q n' l) (run_event (ERpc now (p_uid p) false q (Some r))) n.
Proof.
  intros n now id p q r Q F Lv Hq Hrt Hsrc Hterm H.
  set (n1 := upd_peer (PPeer id) (p_set_busy false) n).
  assert (T1 : touch id (p_set_busy false p) n n1) by (exact (touch_upd _ _ _ _ (p_set_busy false) (touch_refl _ _ _ F) (fun _ => eq_refl) (fun _ => eq_refl))).
  set (n2 := upd_peer (PPeer id) (p_resume (n_prm n)) n1).
  assert (T2 : touch id (p_resume (n_prm n) (p_set_busy false p)) n n2) by (exact (touch_upd _ _ _ _ (p_resume (n_prm n)) T1 (fun _ => eq_refl) (fun _ => eq_refl))).
  set (n3 := upd_peer (PPeer id) (p_set_last_resp now) n2).
  assert (T3 : touch id (p_set_last_resp now (p_resume (n_prm n) (p_set_busy false p))) n n3) by (exact (touch_upd _ _ _ _ (p_set_last_resp now) T2 (fun _ => eq_refl) (fun _ => eq_refl))).
  cbn [run_event]. rs. unfold rpc_done. rs. rs. rewrite Lv. cbn [app]. rs.
  replace (beq (rq_type q) append_entries_request || beq (rq_type q) install_snapshot_request) with true by (rewrite Hq; reflexivity).
  cbn [when]. rs. cbn [app]. rs. rs. cbn [app]. fold n1. fold n2.
  unfold handle_peer_resp. rs. rs. cbn [app]. rewrite Hsrc, (touch_peer _ _ _ _ T2). rs. rs. cbn [app]. fold n3.
  rs. destruct (touch_same _ _ _ _ T3) as (ps3 & Es3).
  eapply runs_eq. { rewrite update_term_eq. replace (n_term n3) with (n_term n) by (rewrite Es3; reflexivity). replace (n_term n <? rs_term r) with false by lia. reflexivity. }
  rewrite Hrt. change (beq install_snapshot_response vote_response) with false. change (beq install_snapshot_response append_entries_response) with false.
  change (beq install_snapshot_response install_snapshot_response) with true. cbn [app]. cbv iota.
  eapply runs_mono; [|apply (H n3 T3)]. cbv beta. intros _ n' l Hl. rs. rewrite app_nil_r. auto.
Qed.

(** the leader ships [s] to the peer [p], which has acknowledged [off] bytes *)
Definition shipping (L : node) (id : Z) (p : peer) (s : snapshot) (off : N) : Prop :=
  n_role L = Leader /\ find_peer id (n_peers L) = Some p /\ live_ref (p_uid p) L = Some (PPeer id) /\ p_sync p = Some (s, off) /\
  1 < p_next p < al_start (n_log L) /\ p_next p <= sn_last_log_idx s + 1 /\
  (forall ls, n_snp L = Some ls -> sn_last_log_idx ls <= sn_last_log_idx s) /\ readable L s /\ off < sn_size s.

Lemma ship_more : forall L id p s off now q r, shipping L id p s off -> rq_type q = install_snapshot_request ->
  rs_type r = install_snapshot_response -> rs_src r = id -> rs_term r <= n_term L -> rs_accepted r = true -> rs_next_idx r < sn_size s ->
  exists L' p', run_event (ERpc now (p_uid p) false q (Some r)) L = (ROk Nothing, L', [ASend (p_uid p) false (snp_req L p s (rs_next_idx r))]) /\
    shipping L' id p' s (rs_next_idx r) /\ p_uid p' = p_uid p /\ p_id p' = p_id p /\ (exists ps, L' = set_peers ps L).
Proof.
  intros L id p s off now q r (Hr & F & Lv & Sy & Hn & Hi & Hls & Hrd & Ho) Hq Hrt Hsrc Hterm Hacc Hnx.
  set (p3 := p_set_last_resp now (p_resume (n_prm L) (p_set_busy false p))).
  assert (G : runs (fun a L' l => a = Nothing /\ (l = [ASend (p_uid p) false (snp_req L p s (rs_next_idx r))] /\
      touch id (p_set_sync (Some (s, rs_next_idx r)) (p_set_busy true (p_set_sync (Some (s, rs_next_idx r)) p3))) L L')) (run_event (ERpc now (p_uid p) false q (Some r))) L).
  { apply (peer_resp L now id p q r (fun L' l => l = [ASend (p_uid p) false (snp_req L p s (rs_next_idx r))] /\
      touch id (p_set_sync (Some (s, rs_next_idx r)) (p_set_busy true (p_set_sync (Some (s, rs_next_idx r)) p3))) L L')); try assumption.
    intros n3 T3. fold p3 in T3. unfold handle_install_snapshot_resp. rs. rs. cbn [app]. rewrite Hsrc, (touch_peer _ _ _ _ T3), Hacc.
    replace (p_sync p3) with (p_sync p) by reflexivity. rewrite Sy. replace (sn_size s <=? rs_next_idx r) with false by lia.
    rs. rs. rs. cbn [app]. rs. cbn [app]. rs. rs. cbn [app].
    set (n4 := upd_peer (PPeer id) (p_set_sync (Some (s, rs_next_idx r))) n3).
    assert (T4 : touch id (p_set_sync (Some (s, rs_next_idx r)) p3) L n4) by (exact (touch_upd _ _ _ _ (p_set_sync (Some (s, rs_next_idx r))) T3 (fun _ => eq_refl) (fun _ => eq_refl))).
    destruct (touch_same _ _ _ _ T4) as (ps4 & E4).
    replace (n_role n4) with Leader by (rewrite E4; symmetry; exact Hr). cbn [when]. rs.
    assert (S := serve_snp n4 id (p_set_sync (Some (s, rs_next_idx r)) p3) s (rs_next_idx r) (touch_peer _ _ _ _ T4) eq_refl).
    destruct S as (b & n5 & l5 & E5 & -> & -> & T5).
    - rewrite E4. exact Hn.
    - unfold in_sync. cbn [p_sync p_set_sync]. rewrite E4. cbn [n_snp set_peers]. destruct (n_snp L) as [ls|]; [|auto].
      specialize (Hls ls eq_refl). replace (sn_last_log_idx s <? sn_last_log_idx ls) with false by lia. auto.
    - rewrite E4. exact Hrd.
    - exact Hnx.
    - exact Hi.
    - eapply runs_eq; [exact E5|]. rs. cbn [app]. split.
      + rewrite E4. reflexivity.
      + exact (touch_trans _ _ _ _ _ _ T4 T5). }
  destruct G as (a & L' & l & E & -> & -> & T). exists L', (p_set_sync (Some (s, rs_next_idx r)) (p_set_busy true (p_set_sync (Some (s, rs_next_idx r)) p3))).
  split; [exact E|]. destruct (touch_same _ _ _ _ T) as (ps & Es).
  split; [|split; [reflexivity | split; [reflexivity | exists ps; exact Es]]].
  unfold shipping. rewrite (touch_live _ _ _ _ _ T), (touch_peer _ _ _ _ T). rewrite Es. cbn [n_role n_snp set_peers].
  split; [exact Hr|]. split; [reflexivity|]. split; [exact Lv|]. split; [reflexivity|]. split; [exact Hn|]. split; [exact Hi|]. split; [exact Hls|]. split; [exact Hrd|]. exact Hnx.
Qed.

Lemma ship_done : forall L id p s off now q r, shipping L id p s off -> rq_type q = install_snapshot_request -> 1 <= al_start (n_log L) ->
  rs_type r = install_snapshot_response -> rs_src r = id -> rs_term r <= n_term L -> rs_accepted r = true -> sn_size s <= rs_next_idx r ->
  has_entries L (sn_last_log_idx s + 1) ->
  exists L' p' l, run_event (ERpc now (p_uid p) false q (Some r)) L = (ROk Nothing, L', l) /\
    find_peer id (n_peers L') = Some p' /\ p_next p' = sn_last_log_idx s + 1 /\ p_match p' = sn_last_log_idx s /\ p_sync p' = None /\
    (l = [] \/ exists q', l = [ASend (p_uid p) false q'] /\ offers_entries L p (sn_last_log_idx s + 1) q').
Proof.
  intros L id p s off now q r (Hr & F & Lv & Sy & Hn & Hi & Hls & Hrd & Ho) Hq Hst Hrt Hsrc Hterm Hacc Hnx He.
  set (p3 := p_set_last_resp now (p_resume (n_prm L) (p_set_busy false p))).
  assert (G : runs (fun a L' l => a = Nothing /\ exists p', find_peer id (n_peers L') = Some p' /\ p_next p' = sn_last_log_idx s + 1 /\ p_match p' = sn_last_log_idx s /\ p_sync p' = None /\
      (l = [] \/ exists q', l = [ASend (p_uid p) false q'] /\ offers_entries L p (sn_last_log_idx s + 1) q')) (run_event (ERpc now (p_uid p) false q (Some r))) L).
  { apply (peer_resp L now id p q r (fun L' l => exists p', find_peer id (n_peers L') = Some p' /\ p_next p' = sn_last_log_idx s + 1 /\ p_match p' = sn_last_log_idx s /\ p_sync p' = None /\
      (l = [] \/ exists q', l = [ASend (p_uid p) false q'] /\ offers_entries L p (sn_last_log_idx s + 1) q'))); try assumption.
    intros n3 T3. fold p3 in T3. unfold handle_install_snapshot_resp. rs. rs. cbn [app]. rewrite Hsrc, (touch_peer _ _ _ _ T3), Hacc.
    replace (p_sync p3) with (p_sync p) by reflexivity. rewrite Sy. replace (sn_size s <=? rs_next_idx r) with true by lia.
    rs. rs. rs. cbn [app]. unfold next_slot_. rs. rs. cbn [app]. rs. cbn [app]. rs. rs. cbn [app].
    set (f := fun p0 : peer => p_set_pending false (p_set_sync None (p_set_match (sn_last_log_idx s) (p_set_next (sn_last_log_idx s + 1) p0)))).
    set (n4 := upd_peer (PPeer id) f n3).
    assert (T4 : touch id (f p3) L n4) by (exact (touch_upd _ _ _ _ f T3 (fun _ => eq_refl) (fun _ => eq_refl))).
    destruct (touch_same _ _ _ _ T4) as (ps4 & E4).
    replace (n_role n4) with Leader by (rewrite E4; symmetry; exact Hr). rs.
    - assert (Hnz : next_of n4 (f p3) = sn_last_log_idx s + 1) by (unfold next_of, f; cbn; replace (sn_last_log_idx s + 1 =? 0) with false by lia; reflexivity).
      assert (He4 : has_entries n4 (next_of n4 (f p3))) by (rewrite Hnz, E4; exact He).
      destruct (term_known n4 _ ltac:(rewrite E4; exact Hst) He4) as (t & K1 & K2).
      assert (S := serve_log n4 id (f p3) t (touch_peer _ _ _ _ T4) eq_refl).
      destruct S as (b & n5 & l5 & E5 & -> & -> & T5).
      + rewrite E4. exact Hst.
      + destruct He4 as [A|[A|A]]; unfold a_next in *; lia.
      + exact K2.
      + rs. eapply runs_eq; [exact E5|]. rs. cbn [app]. eexists. split; [exact (touch_peer _ _ _ _ T5)|].
        split; [exact Hnz|]. split; [reflexivity|]. split; [reflexivity|]. right. eexists. split; [reflexivity|].
        assert (K := offers_log n4 (f p3) _ t K1). rewrite Hnz in *. rewrite E4 in *. exact K.
    - exists (f p3). split; [exact (touch_peer _ _ _ _ T4)|]. repeat (split; [reflexivity|]). left. reflexivity. }
  destruct G as (a & L' & l & E & -> & p' & G). exists L', p', l. tauto.
Qed.

(** ** The follower's side *)
Lemma parse_sync_ok : forall s o f d, snp_ok s -> is_ulong o -> lenN (sync_bytes s o f d) < two31 ->
  parse_sync (sync_bytes s o f d) = Ok (mkSyncV s o d f).
Proof.
  intros s o f d H1 H2 H3. unfold parse_sync, parse. rewrite buffer_of_ok by exact H3. cbn [res_bind].
  assert (E := sync_deserialize_ok junk0 s o f d [] H1 H2 H3). rewrite E. cbn [res_bind sy_data sy_snapshot sy_offset sy_done].
  rewrite stream_out_bk; [reflexivity|]. unfold fits. cbn [app]. unfold sync_bytes in H3. rewrite !lenN_app in H3. lia.
Qed.

Lemma runs_for_each : forall A (I : node -> Prop) (l : list A) f n,
  (forall x n, In x l -> I n -> runs (fun _ n' _ => I n') (f x) n) -> I n -> runs (fun _ n' _ => I n') (for_each l f) n.
Proof.
  intros A I l f. induction l as [|x l IH]; intros n H H0; cbn [for_each].
  - apply runs_ret, H0.
  - apply runs_bind. eapply runs_mono; [|apply H; [left; reflexivity | exact H0]]. cbv beta. intros _ n1 _ H1.
    eapply runs_mono; [|apply IH; [intros y m Hy; apply H; right; exact Hy | exact H1]]. auto.
Qed.

(** what a change of the peers leaves alone in a follower *)
Definition others (n : node) := (n_id n, n_role n, n_term n, n_vote n, n_smc n, n_disk n, n_catching n).
Lemma reconf_runs : forall c n, n_role n = Follower -> cfg_server c (n_id n) <> None ->
  runs (fun _ n' _ => others n' = others n) (reconfigure c) n.
Proof.
  intros c n Hr Hm. unfold reconfigure. rs. rs. cbn [app]. rs.
  eapply runs_mono; [|apply (runs_for_each _ (fun n' => others n' = others n)); [|reflexivity]].
  - cbv beta. intros _ n1 _ H1. rs.
    eapply runs_mono; [|apply (runs_for_each _ (fun n' => others n' = others n)); [|exact H1]].
    + cbv beta. intros _ n2 _ H2. rs. exact H2.
    + intros id m Hin Hm2. rs. rs. cbn [app].
      assert (Hne : (id =? n_id n)%Z = false).
      { destruct (cfg_server c (n_id n)) as [x|] eqn:Ex; [|destruct (Hm eq_refl)]. rewrite app_nil_r in Hin.
        apply in_map_iff in Hin. destruct Hin as (p & <- & Hp). apply filter_In in Hp. destruct Hp as (_ & Hp).
        destruct (Z.eqb_spec (p_id p) (n_id n)) as [E|E]; [|reflexivity]. rewrite E, Ex in Hp. discriminate. }
      rewrite Hne. cbn [andb]. rs. exact Hm2.
  - intros s m _ Hm2. unfold make_peer. rs. rs. rs. cbn [app]. rs. rs. rs. cbn [app]. unfold next_slot_. rs. rs. cbn [app]. rs. rs. cbn [app]. rs. rs. cbn [app].
    assert (K : forall m', others m' = others n -> n_role m' = Follower) by (intros m' E; unfold others in E; inversion E; congruence).
    match goal with |- runs _ (match n_role ?m' with _ => _ end) _ => assert (Om : others m' = others n) end.
    { destruct (find_peer _ _); exact Hm2. }
    rewrite (K _ Om). rs. exact Om.
Qed.

(** the follower has taken the first [off] bytes *)
Definition receiving (F : node) (L : node) (s : snapshot) (off : N) : Prop :=
  n_role F = Follower /\ n_term F = n_term L /\ n_catching F = false /\ n_smc F < sn_last_log_idx s /\
  al_start (n_log F) <= sn_last_log_idx s /\ cfg_server (sn_config s) (n_id F) <> None /\
  off <= lenN (dk_snp_data (n_disk F)) /\
  firstn (N.to_nat off) (dk_snp_data (n_disk F)) = firstn (N.to_nat off) (dk_snp_data (n_disk L)).

(** a follower that has applied as much as the snapshot covers *)
Definition has_it (F L : node) (s : snapshot) : Prop :=
  n_role F = Follower /\ n_term F = n_term L /\ n_catching F = false /\ sn_last_log_idx s <= n_smc F.

Lemma write_here : forall d off bs, off <= lenN d -> bs <> [] ->
  firstn (N.to_nat off + length bs) (write_bytes d off bs) = firstn (N.to_nat off) d ++ bs /\ off + lenN bs <= lenN (write_bytes d off bs).
Proof.
  intros d off bs Ho Hb. unfold lenN in *. assert (E : write_bytes d off bs = firstn (N.to_nat off) d ++ bs ++ skipn (N.to_nat off + length bs) d).
  { unfold write_bytes. destruct bs; [congruence|]. replace (N.to_nat off - length d)%nat with O by lia. cbn [repeat]. rewrite app_nil_r. reflexivity. }
  rewrite E. assert (Lf : length (firstn (N.to_nat off) d) = N.to_nat off) by (rewrite firstn_length; lia). split.
  - rewrite firstn_app, Lf. rewrite firstn_all2 by (rewrite Lf; lia). f_equal.
    replace (N.to_nat off + length bs - N.to_nat off)%nat with (length bs + 0)%nat by lia. rewrite firstn_app_2. cbn [firstn]. apply app_nil_r.
  - rewrite !app_length, Lf. lia.
Qed.

Lemma chunk_next : forall b size data off, off < size -> size <= lenN data ->
  firstn (N.to_nat off) data ++ chunk b size data off = firstn (N.to_nat (off + lenN (chunk b size data off))) data.
Proof.
  intros b size data off Ho Hs. rewrite chunk_len by assumption. unfold chunk.
  set (w := N.min b (size - off)). replace (N.to_nat (off + w)) with (N.to_nat off + N.to_nat w)%nat by lia.
  rewrite <- (firstn_skipn (N.to_nat off) data) at 3. assert (Lf : length (firstn (N.to_nat off) data) = N.to_nat off) by (rewrite firstn_length; unfold lenN in *; lia).
  rewrite <- Lf at 3. rewrite firstn_app_2. reflexivity.
Qed.

(** the answer to a chunk: all bytes up to its end *)
Definition chunk_ack (F L : node) (o : N) (d : list byte) : resp_msg :=
  mkResp (n_term F) install_snapshot_response (n_id F) (n_id L) (o + lenN d) true.

Lemma arrived_same : forall t n, n_term n = t -> exists v, arrived t n = set_steps v n /\ arrived_acts t n = [].
Proof.
  intros t n E. unfold arrived, arrived_acts. rewrite E, N.ltb_irrefl. destruct (0 <? n_steps n)%Z; [exists 2%Z; auto | exists (n_steps n)]. split; [destruct n; reflexivity | reflexivity].
Qed.


Lemma install_prefix : forall F L p s off now (Q : resp_msg -> node -> Prop) d, receiving F L s off -> readable L s -> off < sn_size s ->
  snp_ok s -> lenN (snp_bytes s) + 9 + N.min (blk L) (sn_size s) < two31 -> d = chunk (blk L) (sn_size s) (dk_snp_data (n_disk L)) off ->
  (forall v, runs (fun ok F' _ => ok = true /\ Q (chunk_ack F L off d) F')
     (handle_snapshot_sync_req (mkSyncV s off d (sn_size s <=? off + lenN d))) (set_timer true (set_steps v F))) ->
  runs (fun a F' _ => exists r, a = Response r /\ Q r F') (run_event (ERequest now (snp_req L p s off))) F.
Proof.
  intros F L p s off now Q d (R1 & R2 & R3 & R4 & R5 & R6 & R7 & R8) (S1 & S2 & S3 & S4) Ho Hok Hlen Hd H.
  assert (Ld : lenN d = N.min (blk L) (sn_size s - off)) by (rewrite Hd; apply chunk_len; assumption).
  assert (Eq : snp_req L p s off = mkReq (n_term L) install_snapshot_request (n_id L) (p_id p) (sn_last_log_term s) (sn_last_log_idx s) (n_quick L)
    [mkEV (n_term L) snp_sync_req (sync_bytes s off (sn_size s <=? off + lenN d) d)]) by (unfold snp_req; rewrite <- Hd; reflexivity).
  rewrite Eq. set (q := mkReq _ _ _ _ _ _ _ _).
  destruct (arrived_same (n_term L) F R2) as (v & Ev & Ea).
  cbn [run_event]. rs.
  assert (P : process_req now q F = handle_install_snapshot_req q (set_steps v F)).
  { rewrite process_install by reflexivity. cbn [rq_term q]. rewrite Ev, Ea. apply after_nil. }
  assert (G : runs (fun r F' _ => r = chunk_ack F L off d /\ Q r F') (handle_install_snapshot_req q) (set_steps v F)).
  { unfold handle_install_snapshot_req. rs. rs. cbn [app]. rs.
    replace ((rq_term q =? n_term (set_steps v F)) && negb (n_catching (set_steps v F))) with true by (cbn [rq_term q n_term n_catching set_steps]; rewrite R2, R3, N.eqb_refl; reflexivity).
    cbn [when]. replace (n_role (set_steps v F)) with Follower by (symmetry; exact R1). unfold restart_election_timer. rs. rs. cbn [app n_catching set_steps]. rewrite R3. rs. rs. rs. cbn [app].
    replace (rq_term q <? n_term (set_steps v F)) with false by (cbn [rq_term q n_term set_steps]; rewrite R2, N.ltb_irrefl; reflexivity). cbn [andb negb]. cbv iota.
    cbn [rq_entries q]. change (beq (ev_type (mkEV (n_term L) snp_sync_req (sync_bytes s off (sn_size s <=? off + lenN d) d))) snp_sync_req) with true. cbn [negb ev_data].
    rs. apply (runs_lift _ _ (mkSyncV s off d (sn_size s <=? off + lenN d))).
    { apply parse_sync_ok; [exact Hok | unfold is_ulong, two64, two31 in *; lia |]. unfold sync_bytes. rewrite !lenN_app, lenN_le. cbn [lenN]. change (lenN [_]) with 1. lia. }
    rs. rs. cbn [app sv_snp n_smc set_disk set_timer set_steps]. replace (sn_last_log_idx s <=? n_smc F) with false by lia.
    rs. replace (set_disk (disk_apply (n_disk (set_timer true (set_steps v F))) (ATimer true)) (set_timer true (set_steps v F))) with (set_timer true (set_steps v F)) by (destruct F; reflexivity).
    eapply runs_mono; [|apply (H v)]. cbv beta. intros ok F' l (-> & HQ). rs. split; [|exact HQ]. cbn [sv_offset sv_data]. reflexivity. }
  destruct G as (r & F' & l & E & Er & HQ). apply runs_eq with (a := r) (n' := F') (l := l); [rewrite P; exact E|]. rs. exists r. auto.
Qed.

Lemma take_more : forall F L p s off now d, receiving F L s off -> readable L s -> off < sn_size s -> snp_ok s -> lenN (snp_bytes s) + 9 + N.min (blk L) (sn_size s) < two31 ->
  d = chunk (blk L) (sn_size s) (dk_snp_data (n_disk L)) off -> off + lenN d < sn_size s ->
  runs (fun a F' _ => exists r, a = Response r /\ r = chunk_ack F L off d /\ n_id F' = n_id F /\ receiving F' L s (off + lenN d)) (run_event (ERequest now (snp_req L p s off))) F.
Proof.
  intros F L p s off now d R S Ho Hok Hlen Hd Hm.
  assert (G : runs (fun a F' _ => exists r, a = Response r /\ (r = chunk_ack F L off d /\ n_id F' = n_id F /\ receiving F' L s (off + lenN d))) (run_event (ERequest now (snp_req L p s off))) F).
  { apply install_prefix with (d := d) (Q := fun r F' => r = chunk_ack F L off d /\ n_id F' = n_id F /\ receiving F' L s (off + lenN d)); try assumption.
    intros v. replace (sn_size s <=? off + lenN d) with false by lia. unfold handle_snapshot_sync_req. apply runs_catch. cbn [sv_snp sv_offset sv_data sv_done].
    rs. rs. rs. split; [reflexivity|]. split; [reflexivity|]. split; [reflexivity|].
    destruct R as (R1 & R2 & R3 & R4 & R5 & R6 & R7 & R8). destruct S as (S1 & S2 & S3 & S4).
    assert (Ld : lenN d = N.min (blk L) (sn_size s - off)) by (rewrite Hd; apply chunk_len; assumption).
    assert (Nd : d <> []) by (intros E; rewrite E in Ld; cbn in Ld; unfold blk in Ld; lia).
    destruct (write_here (dk_snp_data (n_disk F)) off d R7 Nd) as (W1 & W2).
    unfold receiving. cbn [n_role n_term n_catching n_smc n_id set_disk set_timer set_steps n_disk disk_apply dk_snp_data n_log dk_log].
    do 6 (split; [assumption|]). split; [exact W2|].
    replace (N.to_nat (off + lenN d)) with (N.to_nat off + length d)%nat by (unfold lenN; lia). rewrite W1, R8, Hd.
    rewrite chunk_next by assumption. f_equal. rewrite <- Hd. unfold lenN. lia. }
  exact G.
Qed.

Lemma take_last : forall F L p s off now d, receiving F L s off -> readable L s -> off < sn_size s -> snp_ok s -> lenN (snp_bytes s) + 9 + N.min (blk L) (sn_size s) < two31 ->
  d = chunk (blk L) (sn_size s) (dk_snp_data (n_disk L)) off -> sn_size s <= off + lenN d ->
  runs (fun a F' _ => exists r, a = Response r /\ r = chunk_ack F L off d /\ n_id F' = n_id F /\ has_it F' L s /\ installed F' s (firstn (N.to_nat (sn_size s)) (dk_snp_data (n_disk L))))
    (run_event (ERequest now (snp_req L p s off))) F.
Proof.
  intros F L p s off now d R S Ho Hok Hlen Hd Hm.
  assert (G : runs (fun a F' _ => exists r, a = Response r /\ (r = chunk_ack F L off d /\ n_id F' = n_id F /\ has_it F' L s /\ installed F' s (firstn (N.to_nat (sn_size s)) (dk_snp_data (n_disk L))))) (run_event (ERequest now (snp_req L p s off))) F).
  { apply install_prefix with (d := d) (Q := fun r F' => r = chunk_ack F L off d /\ n_id F' = n_id F /\ has_it F' L s /\ installed F' s (firstn (N.to_nat (sn_size s)) (dk_snp_data (n_disk L)))); try assumption.
    intros v. replace (sn_size s <=? off + lenN d) with true by lia. unfold handle_snapshot_sync_req. apply runs_catch. cbn [sv_snp sv_offset sv_data sv_done].
    destruct R as (R1 & R2 & R3 & R4 & R5 & R6 & R7 & R8). destruct S as (S1 & S2 & S3 & S4).
    assert (Ld : lenN d = N.min (blk L) (sn_size s - off)) by (rewrite Hd; apply chunk_len; assumption).
    assert (Nd : d <> []) by (intros E; rewrite E in Ld; cbn in Ld; unfold blk in Ld; lia).
    destruct (write_here (dk_snp_data (n_disk F)) off d R7 Nd) as (W1 & W2).
    assert (W : firstn (N.to_nat (sn_size s)) (write_bytes (dk_snp_data (n_disk F)) off d) = firstn (N.to_nat (sn_size s)) (dk_snp_data (n_disk L))).
    { replace (N.to_nat (sn_size s)) with (N.to_nat off + length d)%nat by (unfold lenN in *; lia). rewrite W1, R8, Hd, chunk_next by assumption. f_equal. rewrite <- Hd. unfold lenN. lia. }
    rs. rs. rs. rs. cbn [app n_role set_disk set_timer set_steps]. rewrite R1. rs. unfold log_compact. rs. rs. cbn [app].
    match goal with |- context [sn_last_log_idx s <? al_start ?l] => replace (sn_last_log_idx s <? al_start l) with false by (symmetry; apply N.ltb_ge; exact R5) end.
    rs. rs. rs. unfold stop_election_timer. rs. rs. rs. rs. cbn [app]. rs. rs. cbn [app]. rs.
    match goal with |- runs _ (reconfigure _) ?m => assert (K := reconf_runs (sn_config s) m) end.
    eapply runs_mono; [|apply K].
    - cbv beta. clear K. intros _ n1 _ On. unfold others in On. cbn in On. inversion On as [[O1 O2 O3 O4 O5 O6 O7]]. clear On. rs. rs. rs. rs. rs. rs. rs. rs.
      unfold save_state. rs. rs. rs. rs. rs. rs. rs. rs. unfold restart_election_timer. rs. rs. rs. cbn [n_catching set_snp set_disk set_quick set_smc]. rewrite O7, R3.
      rs. rs. rs. rs. split; [reflexivity|]. split; [reflexivity|]. split; [reflexivity|].
      split; [split; [exact (eq_trans O2 R1)|split; [exact (eq_trans O3 R2)|split; [exact (eq_trans O7 R3)|cbn; lia]]]|].
      unfold installed, n_log. cbn [set_timer set_snp set_disk set_quick set_smc n_disk n_smc disk_apply dk_snp dk_snp_data dk_commit dk_log]. rewrite O6. cbn [disk_apply dk_snp dk_snp_data dk_commit dk_log a_compact al_start].
      split; [reflexivity|]. split; [exact W|]. repeat split.
    - exact R1.
    - exact R6. }
  exact G.
Qed.

(** ** C49 *)
Lemma transfer_all : forall k L F id p s off now, (N.to_nat (sn_size s - off) <= k)%nat -> shipping L id p s off -> receiving F L s off -> n_id F = id ->
  1 <= al_start (n_log L) -> has_entries L (sn_last_log_idx s + 1) -> snp_ok s -> lenN (snp_bytes s) + 9 + N.min (blk L) (sn_size s) < two31 ->
  exists qs L' F' p', transfer now (p_uid p) (snp_req L p s off) L F qs L' F' /\
    delivers s (blk L) off qs (skipn (N.to_nat off) (firstn (N.to_nat (sn_size s)) (dk_snp_data (n_disk L)))) /\
    find_peer id (n_peers L') = Some p' /\ p_next p' = sn_last_log_idx s + 1 /\ p_sync p' = None /\
    installed F' s (firstn (N.to_nat (sn_size s)) (dk_snp_data (n_disk L))).
Proof.
  induction k as [|k IH]; intros L F id p s off now Hk Sh Rc Hid Hst He Hok Hlen.
  - destruct Sh as (_ & _ & _ & _ & _ & _ & _ & _ & Ho). lia.
  - assert (Sh0 := Sh). destruct Sh as (Hr & Fp & Lv & Sy & Hn & Hi & Hls & Hrd & Ho). assert (Hrd0 := Hrd). destruct Hrd as (S1 & S2 & S3 & S4).
    remember (chunk (blk L) (sn_size s) (dk_snp_data (n_disk L)) off) as d eqn:Hd.
    assert (Ld : lenN d = N.min (blk L) (sn_size s - off)) by (rewrite Hd; apply chunk_len; assumption).
    assert (Nd : d <> []) by (intros E; rewrite E in Ld; cbn in Ld; unfold blk in Ld; lia).
    assert (Ld0 : 0 < lenN d) by (unfold blk in Ld; lia).
    assert (Cut : skipn (N.to_nat off) (firstn (N.to_nat (sn_size s)) (dk_snp_data (n_disk L))) = d ++ skipn (N.to_nat (off + lenN d)) (firstn (N.to_nat (sn_size s)) (dk_snp_data (n_disk L)))).
    { set (x := firstn (N.to_nat (sn_size s)) (dk_snp_data (n_disk L))).
      rewrite <- (firstn_skipn (length d) (skipn (N.to_nat off) x)) at 1. f_equal.
      - unfold x. rewrite skipn_firstn_comm, firstn_firstn. rewrite Hd at 2. unfold chunk. f_equal. unfold lenN in *. lia.
      - rewrite skipn_skipn. f_equal. unfold lenN. lia. }
    assert (Cr : carries s (snp_req L p s off) off d (sn_size s <=? off + lenN d)).
    { split; [reflexivity|]. exists (n_term L). unfold snp_req. rewrite <- Hd. reflexivity. }
    assert (Rt : n_term F = n_term L) by apply Rc.
    destruct (N.lt_ge_cases (off + lenN d) (sn_size s)) as [Hm|Hm].
    + destruct (take_more F L p s off now d Rc Hrd0 Ho Hok Hlen Hd Hm) as (a & F1 & lf & Ef & r & -> & Er & Hid1 & Rc1).
      assert (Hnx : rs_next_idx r = off + lenN d) by (rewrite Er; reflexivity).
      destruct (ship_more L id p s off now (snp_req L p s off) r Sh0) as (L1 & p1 & El & Sh1 & U1 & I1 & ps & Es); try (rewrite Er; cbn; (reflexivity || assumption || lia)); try reflexivity.
      rewrite Hnx in *.
      assert (Rc2 : receiving F1 L1 s (off + lenN d)) by (rewrite Es; exact Rc1).
      destruct (IH L1 F1 id p1 s (off + lenN d) now) as (qs & L' & F' & p' & Tr & Dl & K); try assumption; try lia; try (rewrite Es; assumption).
      assert (Eq1 : snp_req L1 p1 s (off + lenN d) = snp_req L p s (off + lenN d)) by (rewrite Es; unfold snp_req, blk; cbn [n_prm n_term n_id n_quick n_disk set_peers]; rewrite I1; reflexivity).
      rewrite Eq1, U1 in Tr. replace (n_disk L1) with (n_disk L) in * by (rewrite Es; reflexivity). replace (blk L1) with (blk L) in Dl by (rewrite Es; reflexivity).
      exists (snp_req L p s off :: qs), L', F', p'. split.
      * eapply T_more; [exists r, lf; split; [exact Ef | exact El] | reflexivity | exact Tr].
      * split; [|exact K]. destruct qs as [|q1 qs]; [destruct Dl|]. exists d, (skipn (N.to_nat (off + lenN d)) (firstn (N.to_nat (sn_size s)) (dk_snp_data (n_disk L)))).
        split; [exact Cut|]. split; [replace false with (sn_size s <=? off + lenN d) by lia; exact Cr|]. split; [exact Nd|]. split; [lia | exact Dl].
    + destruct (take_last F L p s off now d Rc Hrd0 Ho Hok Hlen Hd Hm) as (a & F1 & lf & Ef & r & -> & Er & Hid1 & _ & Ins).
      destruct (ship_done L id p s off now (snp_req L p s off) r Sh0) as (L1 & p1 & l & El & K1 & K2 & K3 & K4 & K5); try (rewrite Er; cbn; (reflexivity || assumption || lia)); try reflexivity; try assumption.
      exists [snp_req L p s off], L1, F1, p1. split.
      * eapply T_last; [exists r, lf; split; [exact Ef | exact El]|]. intros x q' Hin. destruct K5 as [->|(q1 & -> & Of)]; [destruct Hin|].
        destruct Hin as [Hin|[]]. inversion Hin; subst. destruct Of as (Ot & _). rewrite Ot. discriminate.
      * split; [|auto]. cbn [delivers]. rewrite Cut. rewrite skipn_all2 by (rewrite firstn_length; lia). rewrite app_nil_r.
        split; [replace true with (sn_size s <=? off + lenN d) by lia; exact Cr|]. split; [exact Nd | lia].
Qed.

(** a heartbeat sends one request and keeps the timer going *)
Lemma heartbeat_runs : forall n id p (Q : node -> list act -> Prop), n_role n = Leader -> find_peer id (n_peers n) = Some p ->
  (forall n1, touch id (p_set_hb (p_hb_on p) false p) n n1 -> runs (fun _ n2 l => exists p2, touch id p2 n n2 /\ p_hb_on p2 = p_hb_on p /\
     Q (upd_peer (PPeer id) (fun p => p_set_hb (p_hb_on p) true p) n2) l /\ Q n2 l) (request_append_entries_to id) n1) ->
  exists n' l l', run_event (EHeartbeat id) n = (ROk Nothing, n', l ++ l') /\ (l' = [] \/ l' = [AHbTimer id]) /\ Q n' l.
Proof.
  intros n id p Q Hr F H. pose (f := fun p => p_set_hb (p_hb_on p) false p).
  set (n1 := upd_peer (PPeer id) f n).
  assert (T1 : touch id (f p) n n1) by (exact (touch_upd id p n n f (touch_refl _ _ _ F) (fun _ => eq_refl) (fun _ => eq_refl))).
  destruct (touch_same _ _ _ _ T1) as (ps & E1). destruct (H n1 T1) as (b & n2 & l & E & p2 & T2 & Hh & H1 & H2).
  assert (G : runs (fun a n' l1 => exists l', a = Nothing /\ l1 = l ++ l' /\ (l' = [] \/ l' = [AHbTimer id]) /\ Q n' l) (run_event (EHeartbeat id)) n).
  { cbn [run_event]. unfold handle_hb_timeout. rs. rs. rs. cbn [app]. rs. rs. cbn [app]. rs. rs. cbn [app].
    change (fun p0 : peer => p_set_hb (p_hb_on p0) false p0) with f. fold n1.
    replace (n_role n1) with Leader by (rewrite E1; symmetry; exact Hr). unfold get_peer. rewrite (touch_peer _ _ _ _ T1).
    rs. eapply runs_eq; [exact E|]. rs. unfold the_peer. rs. rs. cbn [app]. unfold get_peer. rewrite (touch_peer _ _ _ _ T2). rs. rs.
    - rs. rs. rs. rs. cbn [app]. exists [AHbTimer id]. split; [reflexivity|]. split; [rewrite ?app_nil_r; reflexivity|]. split; [auto|].
      match goal with |- Q (set_disk (disk_apply (n_disk ?m) ?a) ?m) _ => replace (set_disk (disk_apply (n_disk m) a) m) with m by (unfold upd_peer; destruct n2; reflexivity) end. exact H1.
    - rs. cbn [app]. exists []. rewrite !app_nil_r. auto. }
  destruct G as (a & n' & l1 & Er & l' & -> & -> & Hl & HQ). exists n', l, l'. auto.
Qed.

(** a heartbeat for a peer that gets a snapshot sends the chunk it is to get next *)
Lemma heartbeat_ship : forall L id p s off, n_role L = Leader -> find_peer id (n_peers L) = Some p -> live_ref (p_uid p) L = Some (PPeer id) ->
  p_busy p = false -> in_sync L p s off -> (forall ls, n_snp L = Some ls -> sn_last_log_idx ls <= sn_last_log_idx s) ->
  1 < p_next p < al_start (n_log L) -> p_next p <= sn_last_log_idx s + 1 -> readable L s -> off < sn_size s ->
  exists L' l' p', run_event (EHeartbeat id) L = (ROk Nothing, L', ASend (p_uid p) false (snp_req L p s off) :: l') /\ (l' = [] \/ l' = [AHbTimer id]) /\
    shipping L' id p' s off /\ p_uid p' = p_uid p /\ p_id p' = p_id p /\ (exists ps, L' = set_peers ps L).
Proof.
  intros L id p s off Hr F Lv Bz Sy Hls Hn Hi Hrd Ho.
  pose (g := fun L' (l : list act) => l = [ASend (p_uid p) false (snp_req L p s off)] /\
      exists p', shipping L' id p' s off /\ p_uid p' = p_uid p /\ p_id p' = p_id p /\ (exists ps, L' = set_peers ps L)).
  destruct (heartbeat_runs L id p g Hr F) as (L' & l & l' & E & Hl & HQ).
  - intros n1 T1. destruct (touch_same _ _ _ _ T1) as (ps1 & E1).
    destruct (serve_snp n1 id (p_set_hb (p_hb_on p) false p) s off (touch_peer _ _ _ _ T1) Bz) as (b & n2 & l2 & E2 & -> & -> & T2).
    + rewrite E1. exact Hn.
    + rewrite E1. exact Sy.
    + rewrite E1. exact Hrd.
    + exact Ho.
    + exact Hi.
    + set (p2 := p_set_sync (Some (s, off)) (p_set_busy true (p_set_hb (p_hb_on p) false p))) in *.
      assert (T := touch_trans _ _ _ _ _ _ T1 T2).
      eapply runs_eq; [exact E2|]. exists p2. split; [exact T|]. split; [reflexivity|].
      assert (K : forall n3 p3, touch id p3 L n3 -> p_sync p3 = Some (s, off) -> p_next p3 = p_next p -> p_uid p3 = p_uid p -> p_id p3 = p_id p -> g n3 [ASend (p_uid p) false (snp_req L p s off)]).
      { intros n3 p3 T3 A1 A2 A3 A4. split; [reflexivity|]. exists p3. destruct (touch_same _ _ _ _ T3) as (ps3 & E3).
        split; [|split; [exact A3 | split; [exact A4 | exists ps3; exact E3]]]. unfold shipping. rewrite A3, (touch_live _ _ _ _ _ T3), (touch_peer _ _ _ _ T3), A2.
        rewrite E3. cbn [n_role n_snp set_peers]. split; [exact Hr|]. split; [reflexivity|]. split; [exact Lv|]. split; [exact A1|]. split; [exact Hn|]. split; [exact Hi|]. split; [exact Hls|]. split; [exact Hrd | exact Ho]. }
      replace (snp_req n1 (p_set_hb (p_hb_on p) false p) s off) with (snp_req L p s off) by (rewrite E1; reflexivity).
      replace (p_uid (p_set_hb (p_hb_on p) false p)) with (p_uid p) by reflexivity.
      split; [|exact (K n2 p2 T eq_refl eq_refl eq_refl eq_refl)].
      exact (K _ _ (touch_upd _ _ _ _ (fun p => p_set_hb (p_hb_on p) true p) T (fun _ => eq_refl) (fun _ => eq_refl)) eq_refl eq_refl eq_refl eq_refl).
  - destruct HQ as (-> & p' & HQ). exists L', l', p'. split; [exact E|]. split; [exact Hl | exact HQ].
Qed.

(** the same when a follower rejects entries because it has none of those before them *)
Lemma reject_ship : forall L now id p q0 r s, n_role L = Leader -> find_peer id (n_peers L) = Some p -> live_ref (p_uid p) L = Some (PPeer id) ->
  rq_type q0 = append_entries_request -> rs_type r = append_entries_response -> rs_src r = id -> rs_accepted r = false -> rs_term r <= n_term L ->
  has_snapshot L p (asked_for p r) s ->
  exists L' p', run_event (ERpc now (p_uid p) false q0 (Some r)) L = (ROk Nothing, L', [ASend (p_uid p) false (snp_req L p s 0)]) /\
    shipping L' id p' s 0 /\ p_uid p' = p_uid p /\ p_id p' = p_id p /\ (exists ps, L' = set_peers ps L).
Proof.
  intros L now id p q0 r s Hr F Lv Hq0 Hrt Hsrc Hacc Hterm (H1 & H2 & H3 & H4 & H5).
  destruct (rejected_event L now id p q0 r Hr F Lv Hq0 Hrt Hsrc Hacc Hterm ltac:(lia)) as (n4 & y & T4 & Y1 & Y2 & Y3 & Y4 & Ev).
  destruct (touch_same _ _ _ _ T4) as (ps & Es). set (p4 := p_set_next (asked_for p r) y) in *.
  destruct (serve_snp n4 id p4 s 0 (touch_peer _ _ _ _ T4) Y1) as (b & n2 & l2 & E2 & -> & -> & T2).
  - rewrite Es. exact H1.
  - unfold in_sync. replace (p_sync p4) with (@None (snapshot * N)) by (symmetry; unfold p4; cbn [p_sync p_set_next]; congruence). rewrite Es. auto.
  - rewrite Es. exact H5.
  - destruct H5; lia.
  - exact H3.
  - assert (T := touch_trans _ _ _ _ _ _ T4 T2). destruct (touch_same _ _ _ _ T) as (ps' & Es'). set (p2 := p_set_sync (Some (s, 0)) (p_set_busy true p4)) in *.
    assert (Eq : snp_req n4 p4 s 0 = snp_req L p s 0) by (rewrite Es; unfold snp_req, blk; cbn [n_prm n_term n_id n_quick n_disk set_peers]; replace (p_id p4) with (p_id p) by (symmetry; exact Y3); reflexivity).
    rewrite Eq in E2. replace (p_uid p4) with (p_uid p) in E2 by (symmetry; exact Y2).
    exists n2, p2. split; [exact (Ev _ _ _ E2)|]. split; [|split; [exact Y2 | split; [exact Y3 | exists ps'; exact Es']]].
    unfold shipping. replace (p_uid p2) with (p_uid p) by (symmetry; exact Y2). rewrite (touch_live _ _ _ _ _ T), (touch_peer _ _ _ _ T), Es'. cbn [n_role n_snp set_peers].
    split; [exact Hr|]. split; [reflexivity|]. split; [exact Lv|]. split; [reflexivity|]. split; [exact H1|]. split; [exact H3|].
    split; [intros ls E; rewrite H2 in E; inversion E; subst; lia|]. split; [exact H5 | destruct H5; lia].
Qed.

(** A leader gets the answer of a follower that rejects entries; the entry the follower needs
    next is not in the leader's log any more, but its snapshot, which can be read, covers it. *)
Definition needs_snapshot (L : node) (id : Z) (p : peer) (q0 : req) (r : resp_msg) (s : snapshot) : Prop :=
  n_role L = Leader /\ find_peer id (n_peers L) = Some p /\ live_ref (p_uid p) L = Some (PPeer id) /\
  rq_type q0 = append_entries_request /\ rs_type r = append_entries_response /\ rs_src r = id /\ rs_accepted r = false /\ rs_term r <= n_term L /\
  has_snapshot L p (asked_for p r) s.
(** the log of the leader goes on after the snapshot *)
Definition log_goes_on (L : node) (s : snapshot) : Prop := 1 <= al_start (n_log L) /\ has_entries L (sn_last_log_idx s + 1).
(** the snapshot can be written into messages, each chunk into one of less than 2^31 bytes *)
Definition writable (L : node) (s : snapshot) : Prop := snp_ok s /\ lenN (snp_bytes s) + 9 + N.min (blk L) (sn_size s) < two31.
(** a follower in the same term, a member of the configuration in the snapshot, that has applied less *)
Definition behind (F L : node) (s : snapshot) : Prop :=
  n_role F = Follower /\ n_term F = n_term L /\ n_catching F = false /\ n_smc F < sn_last_log_idx s /\
  al_start (n_log F) <= sn_last_log_idx s /\ cfg_server (sn_config s) (n_id F) <> None.

Lemma behind_receiving : forall F L s, behind F L s -> receiving F L s 0.
Proof. intros F L s (A1 & A2 & A3 & A4 & A5 & A6). unfold receiving. repeat (split; [assumption|]). split; [lia | reflexivity]. Qed.

Lemma same_req : forall L ps p p' s off, p_id p' = p_id p -> snp_req (set_peers ps L) p' s off = snp_req L p s off.
Proof. intros L ps p p' s off H. unfold snp_req, blk. cbn [n_prm n_term n_id n_quick n_disk set_peers]. rewrite H. reflexivity. Qed.

Theorem C49_transfer : forall L F id p q0 r s now, needs_snapshot L id p q0 r s -> log_goes_on L s -> writable L s -> behind F L s -> n_id F = id ->
  let data := firstn (N.to_nat (sn_size s)) (dk_snp_data (n_disk L)) in
  exists L0 q qs L' F' p', run_event (ERpc now (p_uid p) false q0 (Some r)) L = (ROk Nothing, L0, [ASend (p_uid p) false q]) /\
    transfer now (p_uid p) q L0 F qs L' F' /\ delivers s (blk L) 0 qs data /\ lenN data = sn_size s /\
    installed F' s data /\ find_peer id (n_peers L') = Some p' /\ p_next p' = sn_last_log_idx s + 1 /\ p_sync p' = None.
Proof.
  intros L F id p q0 r s now (H1 & H2 & H3 & H4 & H5 & H6 & H7 & H8 & H9) (H10 & H11) (W1 & W2) Bh Hid data.
  destruct (reject_ship L now id p q0 r s H1 H2 H3 H4 H5 H6 H7 H8 H9) as (L0 & p0 & E & Sh & U0 & I0 & ps & Es).
  assert (Rc : receiving F L0 s 0) by (rewrite Es; apply behind_receiving, Bh).
  destruct (transfer_all (N.to_nat (sn_size s)) L0 F id p0 s 0 now) as (qs & L' & F' & p' & Tr & Dl & K1 & K2 & K3 & K4); try assumption; try lia; try (rewrite Es; assumption).
  assert (Eq : snp_req L0 p0 s 0 = snp_req L p s 0) by (rewrite Es; apply same_req, I0).
  rewrite Eq, U0 in Tr. replace (n_disk L0) with (n_disk L) in * by (rewrite Es; reflexivity). replace (blk L0) with (blk L) in Dl by (rewrite Es; reflexivity).
  exists L0, (snp_req L p s 0), qs, L', F', p'. split; [exact E|]. split; [exact Tr|]. split; [exact Dl|]. split; [|auto].
  unfold data, lenN. rewrite firstn_length. destruct H9 as (_ & _ & _ & _ & H9). destruct H9 as (_ & _ & H9 & _). unfold lenN in H9. lia.
Qed.

(** ** C50 *)
(** the response, or the request, is lost: the leader's call fails *)
Lemma call_failed : forall L id p s off now q, shipping L id p s off -> rq_type q = install_snapshot_request ->
  exists L' p', run_event (ERpc now (p_uid p) false q None) L = (ROk Nothing, L', []) /\ shipping L' id p' s off /\ p_busy p' = false /\
    p_uid p' = p_uid p /\ p_id p' = p_id p /\ (exists ps, L' = set_peers ps L).
Proof.
  intros L id p s off now q (Hr & F & Lv & Sy & Hn & Hi & Hls & Hrd & Ho) Hq.
  assert (T1 := touch_upd _ _ _ _ (p_set_busy false) (touch_refl _ _ _ F) (fun _ => eq_refl) (fun _ => eq_refl)).
  assert (T2 := touch_upd _ _ _ _ (p_slow_down (n_prm L)) T1 (fun _ => eq_refl) (fun _ => eq_refl)).
  eexists _, (p_slow_down (n_prm L) (p_set_busy false p)). split.
  - cbn [run_event]. unfold rpc_done. rewrite bind_assoc, bind_get, Lv, Hq. change (beq install_snapshot_request append_entries_request || beq install_snapshot_request install_snapshot_request) with true.
    cbn [when]. rewrite bind_assoc, bind_modify, bind_assoc, bind_modify. cbn [when]. rewrite bind_ret. reflexivity.
  - destruct (touch_same _ _ _ _ T2) as (ps & Es). split; [|split; [|split; [|split; [|exists ps; exact Es]]]]; [|reflexivity..].
    unfold shipping. rewrite (touch_live _ _ _ _ _ T2), (touch_peer _ _ _ _ T2), Es. cbn [n_role n_snp set_peers].
    split; [exact Hr|]. split; [reflexivity|]. split; [exact Lv|]. split; [exact Sy|]. split; [exact Hn|]. split; [exact Hi|]. split; [exact Hls|]. split; [exact Hrd | exact Ho].
Qed.

Lemma shipping_sync : forall L id p s off, shipping L id p s off -> in_sync L p s off.
Proof.
  intros L id p s off (Hr & F & Lv & Sy & Hn & Hi & Hls & Hrd & Ho). unfold in_sync. rewrite Sy. destruct (n_snp L) as [ls|]; [|auto].
  specialize (Hls ls eq_refl). replace (sn_last_log_idx s <? sn_last_log_idx ls) with false by lia. auto.
Qed.

(** Proved: if the acknowledgement of a chunk that is not the last one is lost, the next
    heartbeat sends the same chunk again, and then the transfer completes. *)
Theorem C50_lost_ack_partial : forall L F id p s off now q, shipping L id p s off -> receiving F L s off -> n_id F = id -> writable L s ->
  1 <= al_start (n_log L) -> has_entries L (sn_last_log_idx s + 1) -> q = snp_req L p s off -> off + blk L < sn_size s ->
  exists r F1 lf, run_event (ERequest now q) F = (ROk (Response r), F1, lf) /\ rs_accepted r = true /\
  exists L1, run_event (ERpc now (p_uid p) false q None) L = (ROk Nothing, L1, []) /\
  exists L2 l, run_event (EHeartbeat id) L1 = (ROk Nothing, L2, ASend (p_uid p) false q :: l) /\
  exists qs L' F' p', transfer now (p_uid p) q L2 F1 qs L' F' /\ installed F' s (firstn (N.to_nat (sn_size s)) (dk_snp_data (n_disk L))) /\
    find_peer id (n_peers L') = Some p' /\ p_next p' = sn_last_log_idx s + 1 /\ p_sync p' = None.
Proof.
  intros L F id p s off now q Sh Rc Hid (W1 & W2) Hst He Hq Hoff.
  assert (Sh0 := Sh). destruct Sh as (Hr & Fp & Lv & Sy & Hn & Hi & Hls & Hrd & Ho).
  assert (Ld : lenN (chunk (blk L) (sn_size s) (dk_snp_data (n_disk L)) off) = N.min (blk L) (sn_size s - off)) by (apply chunk_len; [exact Ho | apply Hrd]).
  destruct (take_more F L p s off now _ Rc Hrd Ho W1 W2 eq_refl ltac:(lia)) as (a & F1 & lf & Ef & r & -> & Er & Hid1 & Rc1). rewrite <- Hq in Ef.
  exists r, F1, lf. split; [exact Ef|]. split; [rewrite Er; reflexivity|].
  destruct (call_failed L id p s off now q Sh0) as (L1 & p1 & E1 & Sh1 & Bz1 & U1 & I1 & ps1 & Es1); [rewrite Hq; reflexivity|].
  exists L1. split; [exact E1|]. assert (Sh1' := Sh1). destruct Sh1 as (Hr1 & Fp1 & Lv1 & Sy1 & Hn1 & Hi1 & Hls1 & Hrd1 & Ho1).
  destruct (heartbeat_ship L1 id p1 s off Hr1 Fp1 Lv1 Bz1 (shipping_sync _ _ _ _ _ Sh1') Hls1 Hn1 Hi1 Hrd1 Ho1) as (L2 & l & p2 & E2 & Hl & Sh2 & U2 & I2 & ps2 & Es2).
  assert (Eq1 : snp_req L1 p1 s off = q) by (rewrite Hq, Es1; unfold snp_req, blk; cbn [n_prm n_term n_id n_quick n_disk set_peers]; rewrite I1; reflexivity).
  rewrite Eq1, U1 in E2. exists L2, l. split; [exact E2|].
  assert (Rc2 : receiving F1 L2 s off).
  { rewrite Es2, Es1. destruct Rc1 as (A1 & A2 & A3 & A4 & A5 & A6 & A7 & A8). unfold receiving. repeat (split; [assumption|]). split; [lia|].
    cbn [n_disk set_peers].
    replace (firstn (N.to_nat off) (dk_snp_data (n_disk F1))) with (firstn (N.to_nat off) (firstn (N.to_nat (off + lenN (chunk (blk L) (sn_size s) (dk_snp_data (n_disk L)) off))) (dk_snp_data (n_disk F1)))) by (rewrite firstn_firstn; f_equal; lia).
    rewrite A8, firstn_firstn. f_equal. lia. }
  destruct (transfer_all (N.to_nat (sn_size s - off)) L2 F1 id p2 s off now) as (qs & L' & F' & p' & Tr & Dl & K1 & K2 & K3 & K4); try assumption; try lia; try (rewrite Es2, Es1; assumption).
  assert (Eq2 : snp_req L2 p2 s off = q) by (rewrite <- Eq1, Es2; unfold snp_req, blk; cbn [n_prm n_term n_id n_quick n_disk set_peers]; rewrite I2; reflexivity).
    rewrite Eq2, U2, U1 in Tr. replace (n_disk L2) with (n_disk L) in * by (rewrite Es2, Es1; reflexivity).
    exists qs, L', F', p'. auto.
Qed.

(** [k] round trips in each of which the leader sends the same request again *)
Inductive again_and_again (now uid : N) (q : req) : nat -> node -> node -> Prop :=
| Again_0 : forall L F, again_and_again now uid q 0 L F
| Again_S : forall k L F L' F', round now uid q L F L' F' [ASend uid false q] -> again_and_again now uid q k L' F' -> again_and_again now uid q (S k) L F.

Lemma ship_same : forall L id p s off now q r, shipping L id p s off -> rq_type q = install_snapshot_request ->
  rs_type r = install_snapshot_response -> rs_src r = id -> rs_term r <= n_term L -> rs_accepted r = false ->
  exists L' p', run_event (ERpc now (p_uid p) false q (Some r)) L = (ROk Nothing, L', [ASend (p_uid p) false (snp_req L p s off)]) /\
    shipping L' id p' s off /\ p_uid p' = p_uid p /\ p_id p' = p_id p /\ (exists ps, L' = set_peers ps L).
Proof.
  intros L id p s off now q r Sh Hq Hrt Hsrc Hterm Hacc. assert (Sh0 := Sh). destruct Sh as (Hr & F & Lv & Sy & Hn & Hi & Hls & Hrd & Ho).
  set (p3 := p_set_last_resp now (p_resume (n_prm L) (p_set_busy false p))).
  assert (G : runs (fun a L' l => a = Nothing /\ (l = [ASend (p_uid p) false (snp_req L p s off)] /\
      touch id (p_set_sync (Some (s, off)) (p_set_busy true p3)) L L')) (run_event (ERpc now (p_uid p) false q (Some r))) L).
  { apply (peer_resp L now id p q r (fun L' l => l = [ASend (p_uid p) false (snp_req L p s off)] /\
      touch id (p_set_sync (Some (s, off)) (p_set_busy true p3)) L L')); try assumption.
    intros n3 T3. fold p3 in T3. unfold handle_install_snapshot_resp. rs. rs. cbn [app]. rewrite Hsrc, (touch_peer _ _ _ _ T3), Hacc.
    rs. rs. cbn [app]. rs. rs. cbn [app]. destruct (touch_same _ _ _ _ T3) as (ps3 & E3).
    replace (n_role n3) with Leader by (rewrite E3; symmetry; exact Hr). cbn [when]. rs.
    destruct (serve_snp n3 id p3 s off (touch_peer _ _ _ _ T3) eq_refl) as (b & n5 & l5 & E5 & -> & -> & T5).
    - rewrite E3. exact Hn.
    - rewrite E3. exact (shipping_sync _ _ _ _ _ Sh0).
    - rewrite E3. exact Hrd.
    - exact Ho.
    - exact Hi.
    - eapply runs_eq; [exact E5|]. rs. cbn [app]. split.
      + rewrite E3. reflexivity.
      + exact (touch_trans _ _ _ _ _ _ T3 T5). }
  destruct G as (a & L' & l & E & -> & -> & T). exists L', (p_set_sync (Some (s, off)) (p_set_busy true p3)).
  split; [exact E|]. destruct (touch_same _ _ _ _ T) as (ps & Es).
  split; [|split; [reflexivity | split; [reflexivity | exists ps; exact Es]]].
  unfold shipping. rewrite (touch_live _ _ _ _ _ T), (touch_peer _ _ _ _ T). rewrite Es. cbn [n_role n_snp set_peers].
  split; [exact Hr|]. split; [reflexivity|]. split; [exact Lv|]. split; [reflexivity|]. split; [exact Hn|].
  split; [exact Hi|]. split; [exact Hls|]. split; [exact Hrd | exact Ho].
Qed.

Lemma decline : forall F L p s off now, has_it F L s -> readable L s -> off < sn_size s -> writable L s ->
  exists F' lf, run_event (ERequest now (snp_req L p s off)) F = (ROk (Response (mkResp (n_term F) install_snapshot_response (n_id F) (n_id L) 0 false)), F', lf) /\
    n_id F' = n_id F /\ has_it F' L s.
Proof.
  intros F L p s off now (R1 & R2 & R3 & R4) (S1 & S2 & S3 & S4) Ho (Hok & Hlen).
  set (d := chunk (blk L) (sn_size s) (dk_snp_data (n_disk L)) off).
  assert (Ld : lenN d = N.min (blk L) (sn_size s - off)) by (apply chunk_len; assumption).
  set (q := snp_req L p s off).
  destruct (arrived_same (n_term L) F R2) as (v & Ev & Ea).
  assert (P : process_req now q F = handle_install_snapshot_req q (set_steps v F)).
  { rewrite process_install by reflexivity. cbn [rq_term q snp_req]. rewrite Ev, Ea. apply after_nil. }
  assert (G : runs (fun r F' _ => r = mkResp (n_term F) install_snapshot_response (n_id F) (n_id L) 0 false /\ n_id F' = n_id F /\ has_it F' L s) (handle_install_snapshot_req q) (set_steps v F)).
  { unfold handle_install_snapshot_req. rs. rs. cbn [app]. rs.
    replace ((rq_term q =? n_term (set_steps v F)) && negb (n_catching (set_steps v F))) with true by (cbn [rq_term q snp_req n_term n_catching set_steps]; rewrite R2, R3, N.eqb_refl; reflexivity).
    cbn [when]. replace (n_role (set_steps v F)) with Follower by (symmetry; exact R1). unfold restart_election_timer. rs. rs. cbn [app n_catching set_steps]. rewrite R3. rs. rs. rs. cbn [app].
    replace (rq_term q <? n_term (set_steps v F)) with false by (cbn [rq_term q snp_req n_term set_steps]; rewrite R2, N.ltb_irrefl; reflexivity). cbn [andb negb]. cbv iota.
    cbn [rq_entries q snp_req]. fold d. change (beq (ev_type (mkEV (n_term L) snp_sync_req (sync_bytes s off (sn_size s <=? off + lenN d) d))) snp_sync_req) with true. cbn [negb ev_data].
    rs. apply (runs_lift _ _ (mkSyncV s off d (sn_size s <=? off + lenN d))).
    { apply parse_sync_ok; [exact Hok | unfold is_ulong, two64, two31 in *; lia |]. unfold sync_bytes. rewrite !lenN_app, lenN_le. change (lenN [_]) with 1. lia. }
    rs. rs. cbn [app sv_snp n_smc set_disk set_timer set_steps]. replace (sn_last_log_idx s <=? n_smc F) with true by lia.
    rs. split; [reflexivity|]. split; [reflexivity|]. unfold has_it. cbn. auto. }
  destruct G as (r & F' & l & E & -> & H1 & H2). exists F', (l ++ []). split; [|auto]. cbn [run_event]. unfold bind. rewrite P, E. reflexivity.
Qed.

(** C50 as stated does not hold: if it is the acknowledgement of the last chunk that is lost, the
    follower, which has installed the snapshot, declines the chunk, and the leader repeats it, any
    number of times: the offset never reaches the end, so the leader never goes on with the log. *)
Theorem C50_lost_last_ack_refuted : forall L F id p s off now q, shipping L id p s off -> receiving F L s off -> n_id F = id -> writable L s ->
  q = snp_req L p s off -> sn_size s <= off + blk L ->
  exists r F1 lf, run_event (ERequest now q) F = (ROk (Response r), F1, lf) /\ rs_accepted r = true /\
    installed F1 s (firstn (N.to_nat (sn_size s)) (dk_snp_data (n_disk L))) /\
  exists L1, run_event (ERpc now (p_uid p) false q None) L = (ROk Nothing, L1, []) /\
  exists L2 l, run_event (EHeartbeat id) L1 = (ROk Nothing, L2, ASend (p_uid p) false q :: l) /\
  forall k, again_and_again now (p_uid p) q k L2 F1.
Proof.
  intros L F id p s off now q Sh Rc Hid W Hq Hoff.
  assert (Sh0 := Sh). destruct Sh as (Hr & Fp & Lv & Sy & Hn & Hi & Hls & Hrd & Ho). assert (W0 := W). destruct W as (W1 & W2).
  assert (Ld : lenN (chunk (blk L) (sn_size s) (dk_snp_data (n_disk L)) off) = N.min (blk L) (sn_size s - off)) by (apply chunk_len; [exact Ho | apply Hrd]).
  destruct (take_last F L p s off now _ Rc Hrd Ho W1 W2 eq_refl ltac:(lia)) as (a & F1 & lf & Ef & r & -> & Er & Hid1 & Hi1 & Ins). rewrite <- Hq in Ef.
  exists r, F1, lf. split; [exact Ef|]. split; [rewrite Er; reflexivity|]. split; [exact Ins|].
  destruct (call_failed L id p s off now q Sh0) as (L1 & p1 & E1 & Sh1 & Bz1 & U1 & I1 & ps1 & Es1); [rewrite Hq; reflexivity|].
  exists L1. split; [exact E1|]. assert (Sh1' := Sh1). destruct Sh1 as (Hr1 & Fp1 & Lv1 & Sy1 & Hn1 & Hi1' & Hls1 & Hrd1 & Ho1).
  destruct (heartbeat_ship L1 id p1 s off Hr1 Fp1 Lv1 Bz1 (shipping_sync _ _ _ _ _ Sh1') Hls1 Hn1 Hi1' Hrd1 Ho1) as (L2 & l & p2 & E2 & Hl & Sh2 & U2 & I2 & ps2 & Es2).
  assert (Eq1 : snp_req L1 p1 s off = q) by (rewrite Hq, Es1; unfold snp_req, blk; cbn [n_prm n_term n_id n_quick n_disk set_peers]; rewrite I1; reflexivity).
  rewrite Eq1, U1 in E2. exists L2, l. split; [exact E2|].
  assert (Eq2 : snp_req L2 p2 s off = q) by (rewrite <- Eq1, Es2; unfold snp_req, blk; cbn [n_prm n_term n_id n_quick n_disk set_peers]; rewrite I2; reflexivity).
  replace (p_uid p) with (p_uid p2) by (rewrite U2, U1; reflexivity).
  assert (Hw2 : writable L2 s) by (rewrite Es2, Es1; exact W0). assert (Hs2 : has_it F1 L2 s) by (rewrite Es2, Es1; exact Hi1).
  assert (Hid2 : n_id F1 = id) by congruence.
  intros k. clear Es2 Es1 E2 E1 Hq Ef Er Ins Hi1 Hid1 U2 I2. revert L2 F1 p2 Sh2 Eq2 Hw2 Hs2 Hid2.
  induction k as [|k IH]; intros L2 F2 p2 Sh2 Eq2 Hw2 Hs2 Hid2; [constructor|].
  assert (Sh2' := Sh2). destruct Sh2 as (_ & _ & _ & _ & _ & _ & _ & Hrd2 & _).
  destruct (decline F2 L2 p2 s off now Hs2 Hrd2 Ho Hw2) as (F3 & lf3 & Ef3 & Hid3 & Hs3). rewrite Eq2 in Ef3.
  destruct (ship_same L2 id p2 s off now q (mkResp (n_term F2) install_snapshot_response (n_id F2) (n_id L2) 0 false) Sh2') as (L3 & p3 & El3 & Sh3 & U3 & I3 & ps3 & Es3); try reflexivity.
  - rewrite <- Eq2. reflexivity.
  - exact Hid2.
  - cbn [rs_term]. destruct Hs2 as (_ & -> & _). lia.
  - rewrite Eq2 in El3. eapply Again_S; [eexists _, lf3; split; [exact Ef3 | exact El3]|]. rewrite <- U3. apply IH; [exact Sh3 | | rewrite Es3; exact Hw2 | rewrite Es3; exact Hs3 | congruence].
    rewrite <- Eq2, Es3. unfold snp_req, blk. cbn [n_prm n_term n_id n_quick n_disk set_peers]. rewrite I3. reflexivity.
Qed.

(** ** Examples

    server 1 was started again after it had made a snapshot of two bytes and leads again; server 3,
    which has two entries, has got its request and rejects it; the blocks have one byte *)
Definition one_byte : params := mkParams 300 150 75 25 1000 10 2 1 100 0 false true.
Definition ex_ship (cs : list kcmd) : world := ex_run_with one_byte (again_cmds ++ KDeliver 1 3 0 :: cs)%Z.
Definition ex_s : snapshot := mkSnp 3 1 2 (mkCfg 1 0 (cc_servers ex_cfg)).
Lemma ex_s_ok : snp_ok ex_s.
Proof.
  destruct ex_okay as (_ & _ & Fs & _). unfold snp_ok, ex_s. cbn [sn_last_log_idx sn_last_log_term sn_size sn_config].
  split; [vm_compute; reflexivity|]. split; [vm_compute; reflexivity|]. split; [vm_compute; reflexivity|]. unfold cfg_ok. cbn [cc_log_idx cc_prev_log_idx cc_servers].
  split; [vm_compute; reflexivity|]. split; [vm_compute; reflexivity | exact Fs].
Qed.
Definition ex_L (cs : list kcmd) := node_of (ex_ship cs) 1.
Definition ex_F (cs : list kcmd) := node_of (ex_ship cs) 3.
Definition ex_q0 : req := mkReq 2 append_entries_request 1 3 1 3 3 [].
Definition ex_p (cs : list kcmd) : peer := match find_peer 3 (n_peers (ex_L cs)) with Some p => p | None => mkPeer 0 (mkSrv 0 []) 0 0 false false false false 0 0 None end.
Lemma ex_goes_on : forall cs, n_log (ex_L cs) = mkAL 4 [] -> dk_snp (n_disk (ex_L cs)) = Some ex_s -> log_goes_on (ex_L cs) ex_s.
Proof. intros cs E1 E2. unfold log_goes_on, has_entries. rewrite E1, E2. split; [cbn; lia|]. right. right. split; [cbn; lia|]. split; [reflexivity|]. exists ex_s. split; reflexivity. Qed.
Lemma ex_writable : forall cs, blk (ex_L cs) = 1 -> writable (ex_L cs) ex_s.
Proof. intros cs E. split; [exact ex_s_ok|]. rewrite E. vm_compute. reflexivity. Qed.
Example C49_example : needs_snapshot (ex_L []) 3 (ex_p []) ex_q0 ex_rej ex_s /\ log_goes_on (ex_L []) ex_s /\ writable (ex_L []) ex_s /\ behind (ex_F []) (ex_L []) ex_s /\ n_id (ex_F []) = 3%Z /\
  w_sys (ex_ship []) 1%Z = Up (ex_L []) /\ w_sys (ex_ship []) 3%Z = Up (ex_F []) /\ reach ex_servers (fun _ => one_byte) ex_world (ex_ship []) /\
  fst (fst (run_event (ERequest 0 ex_q0) (ex_F []))) = ROk (Response ex_rej).
Proof.
  split; [|split; [|split; [|split; [|split; [|split; [|split; [|split]]]]]]].
  - unfold needs_snapshot. split; [vm_compute; reflexivity|]. split; [vm_compute; reflexivity|]. split; [vm_compute; reflexivity|]. split; [reflexivity|]. split; [reflexivity|].
    split; [reflexivity|]. split; [reflexivity|]. split; [vm_compute; discriminate|]. unfold has_snapshot. split; [vm_compute; split; reflexivity|].
    split; [vm_compute; reflexivity|]. split; [vm_compute; discriminate|]. split; [vm_compute; reflexivity|]. vm_compute. repeat split; discriminate.
  - apply ex_goes_on; vm_compute; reflexivity.
  - apply ex_writable. vm_compute. reflexivity.
  - unfold behind. split; [vm_compute; reflexivity|]. split; [vm_compute; reflexivity|]. split; [vm_compute; reflexivity|]. split; [vm_compute; reflexivity|]. split; [vm_compute; discriminate|]. vm_compute. discriminate.
  - vm_compute. reflexivity.
  - apply node_of_up. vm_compute. reflexivity.
  - apply node_of_up. vm_compute. reflexivity.
  - apply ex_reach_with.
  - vm_compute. reflexivity.
Qed.
(** the follower has answered; the first chunk is under way *)
Example C50_example : shipping (ex_L [KRpc 1 3 0]%Z) 3 (ex_p [KRpc 1 3 0]%Z) ex_s 0 /\ receiving (ex_F [KRpc 1 3 0]%Z) (ex_L [KRpc 1 3 0]%Z) ex_s 0 /\
  n_id (ex_F [KRpc 1 3 0]%Z) = 3%Z /\ writable (ex_L [KRpc 1 3 0]%Z) ex_s /\ log_goes_on (ex_L [KRpc 1 3 0]%Z) ex_s /\ 0 + blk (ex_L [KRpc 1 3 0]%Z) < sn_size ex_s.
Proof.
  split; [|split; [|split; [|split; [|split]]]].
  - unfold shipping. split; [vm_compute; reflexivity|]. split; [vm_compute; reflexivity|]. split; [vm_compute; reflexivity|]. split; [vm_compute; reflexivity|].
    split; [vm_compute; split; reflexivity|]. split; [vm_compute; discriminate|]. split; [intros ls E; vm_compute in E; inversion E; subst; vm_compute; discriminate|].
    split; [vm_compute; repeat split; discriminate | vm_compute; reflexivity].
  - unfold receiving. split; [vm_compute; reflexivity|]. split; [vm_compute; reflexivity|]. split; [vm_compute; reflexivity|]. split; [vm_compute; reflexivity|]. split; [vm_compute; discriminate|].
    split; [vm_compute; discriminate|]. split; [vm_compute; discriminate | vm_compute; reflexivity].
  - vm_compute. reflexivity.
  - apply ex_writable. vm_compute. reflexivity.
  - apply ex_goes_on; vm_compute; reflexivity.
  - vm_compute. reflexivity.
Qed.
(** the first chunk was acknowledged; the second and last one is under way *)
Example C50_example_last : let cs := [KRpc 1 3 0; KRpc 1 3 0]%Z in shipping (ex_L cs) 3 (ex_p cs) ex_s 1 /\ receiving (ex_F cs) (ex_L cs) ex_s 1 /\
  n_id (ex_F cs) = 3%Z /\ writable (ex_L cs) ex_s /\ sn_size ex_s <= 1 + blk (ex_L cs).
Proof.
  split; [|split; [|split; [|split]]].
  - unfold shipping. split; [vm_compute; reflexivity|]. split; [vm_compute; reflexivity|]. split; [vm_compute; reflexivity|]. split; [vm_compute; reflexivity|].
    split; [vm_compute; split; reflexivity|]. split; [vm_compute; discriminate|]. split; [intros ls E; vm_compute in E; inversion E; subst; vm_compute; discriminate|].
    split; [vm_compute; repeat split; discriminate | vm_compute; reflexivity].
  - unfold receiving. split; [vm_compute; reflexivity|]. split; [vm_compute; reflexivity|]. split; [vm_compute; reflexivity|]. split; [vm_compute; reflexivity|]. split; [vm_compute; discriminate|].
    split; [vm_compute; discriminate|]. split; [vm_compute; discriminate | vm_compute; reflexivity].
  - vm_compute. reflexivity.
  - apply ex_writable. vm_compute. reflexivity.
  - vm_compute. discriminate.
Qed.

(** ** C60: a server that is being added gets the snapshot *)

(** the answer of the server being added to a chunk of the snapshot, all chunks before were answered *)
Definition join_ack (n : node) (uid : N) (j : peer) (s : snapshot) (off : N) (r : resp_msg) : Prop :=
  live_ref uid n = Some PJoin /\ n_join n = Some j /\ p_sync j = Some (s, off) /\
  rs_type r = install_snapshot_response /\ rs_accepted r = true.

Lemma join_resp : forall n now uid q r j s off, join_ack n uid j s off r -> rq_type q = install_snapshot_request ->
  exists j', p_next j' = p_next j /\ p_uid j' = p_uid j /\ p_id j' = p_id j /\
    run_event (ERpc now uid true q (Some r)) n =
    bind (if sn_size s <=? rs_next_idx r
      then sync_log_to_new_srv (sn_last_log_idx s + 1)
      else sync_log_to_new_srv (p_next j)) (fun _ => ret Nothing)
      (set_join (Some (if sn_size s <=? rs_next_idx r then p_set_match (sn_last_log_idx s) (p_set_next (sn_last_log_idx s + 1) (p_set_sync None j'))
                       else p_set_sync (Some (s, rs_next_idx r)) j')) n).
Proof.
  intros n now uid q r j s off (Lv & Hj & Hs & Ht & Ha) Hq.
  exists (p_resume (n_prm n) (p_set_busy false j)). split; [reflexivity|]. split; [reflexivity|]. split; [reflexivity|].
  cbn [run_event]. unfold rpc_done. rewrite !bind_assoc, bind_get, Lv, Hq.
  change (beq install_snapshot_request append_entries_request || beq install_snapshot_request install_snapshot_request) with true.
  cbn [when]. rewrite !bind_assoc, bind_modify, !bind_assoc, bind_modify. unfold handle_ext_resp. rewrite !bind_assoc, bind_get, Ht.
  change (beq install_snapshot_response sync_log_response) with false. change (beq install_snapshot_response join_cluster_response) with false.
  change (beq install_snapshot_response leave_cluster_response) with false. change (beq install_snapshot_response install_snapshot_response) with true.
  cbv iota. unfold upd_peer. rewrite Hj. cbn [n_join set_join option_map]. rewrite Ha. cbn [negb].
  replace (p_sync (p_resume (n_prm n) (p_set_busy false j))) with (Some (s, off)) by (symmetry; exact Hs).
  destruct (sn_size s <=? rs_next_idx r).
  - rewrite !bind_assoc, bind_modify. unfold the_peer. rewrite !bind_assoc, bind_get. cbn [get_peer n_join set_join option_map upd_peer]. rewrite bind_ret. reflexivity.
  - rewrite !bind_assoc, bind_modify. unfold the_peer. rewrite !bind_assoc, bind_get. cbn [get_peer n_join set_join option_map upd_peer]. rewrite bind_ret. reflexivity.
Qed.

(** C60 as stated does not hold: the leader, which has not had a sync_log_response from the server
    being added and so has 0 as its next index, asks its log for the entries from index 0 on after
    every chunk but the last: the log throws, no further chunk is sent. *)
Theorem C60_more_chunks_refuted : forall n now uid q r j s off, join_ack n uid j s off r -> rq_type q = install_snapshot_request ->
  rs_next_idx r < sn_size s -> p_next j = 0 -> 0 < al_start (n_log n) -> n_quick n < two31 -> (pm_sync_gap (n_prm n) <= Z.of_N (n_quick n))%Z ->
  exists n', run_event (ERpc now uid true q (Some r)) n = (RThrow RangeError, n', []) /\ n_log n' = n_log n.
Proof.
  intros n now uid q r j s off J Hq Hn Hj Hst Hb Hg. destruct (join_resp n now uid q r j s off J Hq) as (j' & K1 & K2 & K3 & ->).
  replace (sn_size s <=? rs_next_idx r) with false by lia. rewrite Hj.
  exists (set_join (Some (p_set_sync (Some (s, rs_next_idx r)) j')) n). split; [|reflexivity]. unfold sync_log_to_new_srv. rewrite !bind_assoc, bind_get. cbn [n_quick n_prm n_log n_disk set_join].
  replace (to_int32 (Z.of_N (sub64 (n_quick n) 0))) with (Z.of_N (n_quick n)).
  2: { unfold sub64. replace (0 <=? n_quick n) with true by lia. rewrite N.sub_0_r. unfold to_int32, two31 in *. rewrite Z.mod_small by lia. lia. }
  replace (Z.of_N (n_quick n) <? pm_sync_gap (n_prm n))%Z with false by lia. unfold the_peer. rewrite !bind_assoc, bind_get. cbn [get_peer n_join set_join]. rewrite bind_ret.
  rewrite N.ltb_irrefl. cbn [andb]. rewrite !bind_assoc. unfold log_pack_. rewrite !bind_assoc, bind_get.
  replace (0 <? al_start (n_log (set_join (Some (p_set_sync (Some (s, rs_next_idx r)) j')) n))) with true by (symmetry; apply N.ltb_lt; exact Hst).
  reflexivity.
Qed.

(** Proved: the answer to the last chunk (the only one if the snapshot fits into a block) makes the
    leader go on with the log after the snapshot: it sends the entries, or, if few are left, puts
    the server into the configuration. *)
Theorem C60_last_chunk_partial : forall n now uid q r j s off add, join_ack n uid j s off r -> rq_type q = install_snapshot_request ->
  sn_size s <= rs_next_idx r -> n_to_add n = Some add -> al_start (n_log n) <= sn_last_log_idx s + 1 -> sn_last_log_idx s <= n_quick n < two31 ->
  let left := (Z.of_N (n_quick n) - Z.of_N (sn_last_log_idx s + 1))%Z in
  ((left < pm_sync_gap (n_prm n))%Z -> exists x n' l, run_event (ERpc now uid true q (Some r)) n =
     (x, n', AAppend (conf_entry (n_term n) (mkCfg (a_next (n_log n)) (cc_log_idx (n_config n)) (cc_servers (n_config n) ++ [add]))) :: l)) /\
  ((pm_sync_gap (n_prm n) <= left)%Z -> exists n' q' pk, run_event (ERpc now uid true q (Some r)) n = (ROk Nothing, n', [ASend (p_uid j) true q']) /\
     rq_type q' = sync_log_request /\ rq_dst q' = p_id j /\ rq_last_idx q' = sn_last_log_idx s /\ rq_entries q' = [mkEV (n_term n) log_pack pk] /\
     forall es, es = a_range (n_log n) (sn_last_log_idx s + 1) (sn_last_log_idx s + 1 + Z.to_N (Z.min left (pm_sync_batch (n_prm n)))) ->
       sn_last_log_idx s + 1 < a_next (n_log n) -> pk = pack_bytes (dsize (a_range (n_log n) (al_start (n_log n)) (sn_last_log_idx s + 1))) es).
Proof.
  intros n now uid q r j s off add J Hq Hn Ha Hb [Hc0 Hc] left. destruct (join_resp n now uid q r j s off J Hq) as (j' & K1 & K2 & K3 & ->).
  replace (sn_size s <=? rs_next_idx r) with true by lia. set (j2 := p_set_match (sn_last_log_idx s) (p_set_next (sn_last_log_idx s + 1) (p_set_sync None j'))).
  unfold sync_log_to_new_srv. rewrite !bind_assoc, !bind_get. cbn [n_quick n_prm n_log n_disk set_join n_to_add n_config].
  replace (to_int32 (Z.of_N (sub64 (n_quick n) (sn_last_log_idx s + 1)))) with left.
  2: { unfold sub64, left. destruct (N.leb_spec (sn_last_log_idx s + 1) (n_quick n)).
       - unfold to_int32, two31 in *. rewrite Z.mod_small by lia. lia.
       - replace (two64 + n_quick n - (sn_last_log_idx s + 1)) with (two64 - 1) by (unfold two64; lia). replace (Z.of_N (n_quick n) - Z.of_N (sn_last_log_idx s + 1))%Z with (-1)%Z by lia. vm_compute. reflexivity. }
  split; intros Hl.
  - replace (left <? pm_sync_gap (n_prm n))%Z with true by lia. rewrite Ha. cbn [deref]. rewrite !bind_assoc, bind_ret, !bind_assoc, bind_get, !bind_assoc.
    unfold log_append, next_slot_. rewrite !bind_assoc, bind_get, !bind_assoc, bind_emit. unfold after.
    eexists _, _, _. reflexivity.
  - replace (left <? pm_sync_gap (n_prm n))%Z with false by lia. unfold the_peer. rewrite !bind_assoc, bind_get. cbn [get_peer n_join set_join]. rewrite bind_ret.
    replace ((0 <? sn_last_log_idx s + 1) && (sn_last_log_idx s + 1 <? al_start (n_log (set_join (Some j2) n)))) with false by (change (n_log (set_join (Some j2) n)) with (n_log n); lia).
    rewrite !bind_assoc. unfold log_pack_. rewrite !bind_assoc, bind_get. change (n_log (set_join (Some j2) n)) with (n_log n).
    replace (sn_last_log_idx s + 1 <? al_start (n_log n)) with false by lia.
    assert (Hp : pred64 (sn_last_log_idx s + 1) = sn_last_log_idx s) by (unfold pred64; replace (sn_last_log_idx s + 1 =? 0) with false by lia; lia).
    destruct (N.leb_spec (a_next (n_log n)) (sn_last_log_idx s + 1)) as [Hx|Hx].
    + rewrite bind_ret, bind_ret. unfold send_req, the_peer. rewrite !bind_assoc, bind_get. cbn [get_peer n_join set_join]. rewrite bind_ret, bind_emit.
      eexists _, _, _. split; [cbn; rewrite K2; reflexivity|]. split; [reflexivity|]. split; [exact K3|]. split; [exact Hp|]. split; [reflexivity|]. intros; lia.
    + rewrite bind_ret, bind_ret. unfold send_req, the_peer. rewrite !bind_assoc, bind_get. cbn [get_peer n_join set_join]. rewrite bind_ret, bind_emit.
      eexists _, _, _. split; [cbn; rewrite K2; reflexivity|]. split; [reflexivity|]. split; [exact K3|]. split; [exact Hp|]. split; [reflexivity|]. intros es ->. reflexivity.
Qed.

(** Server 1 of the lagging cluster is started again, leads and is asked to add server 4, whose log
    is empty; the server accepts and has answered to nothing else yet. *)
Definition join_prm (b : Z) : params := mkParams 300 150 75 25 1000 1 2 b 100 0 false true.
Definition join_disk : disk := n_disk (node_of (lag 0) 1).
Definition join_cmds : list cmd :=
  [CStart; CEvent EElection; CEvent (ERpc 1 0 false (mkReq 2 vote_request 1 2 1 3 3 []) (Some (mkResp 2 vote_response 2 1 0 true)));
   CEvent (ERequest 2 ex_add4); CEvent (ERpc 3 3 true (mkReq 2 join_cluster_request 1 4 0 3 3 []) (Some (mkResp 2 join_cluster_response 4 1 1 true)))].
Definition join_run (b : Z) : list obs * sys := run_cmds 1 (join_prm b) (Down join_disk) join_cmds.
Definition join_node (b : Z) : node := up_node (snd (join_run b)).
Definition join_peer : peer := mkPeer 3 (ex_srv 4) 0 0 false false false false 75 0 (Some (ex_s, 0)).
Definition join_answer (i : N) : resp_msg := mkResp 2 install_snapshot_response 4 1 i true.
(** blocks of one byte *)
Example C60_example : disk_okay join_disk /\ life 1 (join_prm 1) (Down join_disk) (fst (join_run 1)) (Up (join_node 1)) /\
  join_ack (join_node 1) 3 join_peer ex_s 0 (join_answer 1) /\ rs_next_idx (join_answer 1) < sn_size ex_s /\ p_next join_peer = 0 /\
  0 < al_start (n_log (join_node 1)) /\ n_quick (join_node 1) < two31 /\ (pm_sync_gap (n_prm (join_node 1)) <= Z.of_N (n_quick (join_node 1)))%Z.
Proof.
  split; [unfold disk_okay; vm_compute; discriminate|].
  split. { replace (Up (join_node 1)) with (snd (join_run 1)) by (vm_compute; reflexivity). apply run_cmds_life. }
  split. { unfold join_ack. split; [vm_compute; reflexivity|]. split; [vm_compute; reflexivity|]. split; [reflexivity|]. split; reflexivity. }
  split; [reflexivity|]. split; [reflexivity|]. split; [vm_compute; reflexivity|]. split; [vm_compute; reflexivity | vm_compute; discriminate].
Qed.
(** one block *)
Example C60_example_last : life 1 (join_prm 0) (Down join_disk) (fst (join_run 0)) (Up (join_node 0)) /\
  join_ack (join_node 0) 3 join_peer ex_s 0 (join_answer 2) /\ sn_size ex_s <= rs_next_idx (join_answer 2) /\ n_to_add (join_node 0) = Some (ex_srv 4) /\
  al_start (n_log (join_node 0)) <= sn_last_log_idx ex_s + 1 /\ sn_last_log_idx ex_s <= n_quick (join_node 0) < two31 /\
  (Z.of_N (n_quick (join_node 0)) - Z.of_N (sn_last_log_idx ex_s + 1) < pm_sync_gap (n_prm (join_node 0)))%Z.
Proof.
  split. { replace (Up (join_node 0)) with (snd (join_run 0)) by (vm_compute; reflexivity). apply run_cmds_life. }
  split. { unfold join_ack. split; [vm_compute; reflexivity|]. split; [vm_compute; reflexivity|]. split; [reflexivity|]. split; reflexivity. }
  split; [discriminate|]. split; [vm_compute; reflexivity|]. split; [vm_compute; discriminate|]. split; [vm_compute; split; [discriminate | reflexivity]|]. vm_compute. reflexivity.
Qed.

Print Assumptions C49_transfer.
Print Assumptions C50_lost_ack_partial.
Print Assumptions C50_lost_last_ack_refuted.
Print Assumptions C60_more_chunks_refuted.
Print Assumptions C60_last_chunk_partial.
