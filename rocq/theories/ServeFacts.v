(** * ServeFacts: what a leader sends to one peer *)

From Verif Require Import Base Buffer Codec CodecSpec Msg FsLogStore FsLogSpec Alog Raft RaftQuiet ServerSpec NodeFacts AppendFacts Runs.
Local Open Scope N_scope.

(** the state after updating the peer with id [id], which is now [p] *)
Definition touch (id : Z) (p : peer) (n n' : node) : Prop :=
  exists f, (forall p, p_id (f p) = p_id p) /\ (forall p, p_uid (f p) = p_uid p) /\
    n' = upd_peer (PPeer id) f n /\ find_peer id (n_peers n') = Some p.
Lemma upd_peers_id : forall id l, upd_peers id (fun p => p) l = l.
Proof. intros id l. unfold upd_peers. induction l as [|x l IH]; cbn [map]; [reflexivity|]. rewrite IH. destruct (_ =? _)%Z; reflexivity. Qed.
Lemma upd_upd : forall id f g l, (forall p, p_id (f p) = p_id p) -> upd_peers id g (upd_peers id f l) = upd_peers id (fun p => g (f p)) l.
Proof.
  intros id f g l H. unfold upd_peers. induction l as [|x l IH]; cbn [map]; [reflexivity|]. rewrite IH. f_equal.
  destruct (p_id x =? id)%Z eqn:E; [rewrite H, E | rewrite E]; reflexivity.
Qed.
Lemma touch_refl : forall id p n, find_peer id (n_peers n) = Some p -> touch id p n n.
Proof.
  intros id p n H. exists (fun p => p). split; [reflexivity|]. split; [reflexivity|]. split; [|exact H].
  unfold upd_peer. rewrite upd_peers_id. destruct n; reflexivity.
Qed.
Lemma touch_upd : forall id p n n' f, touch id p n n' -> (forall p, p_id (f p) = p_id p) -> (forall p, p_uid (f p) = p_uid p) ->
  touch id (f p) n (upd_peer (PPeer id) f n').
Proof.
  intros id p n n' g (f & H1 & H2 & E & F) K1 K2. exists (fun p => g (f p)).
  split; [intros; rewrite K1; apply H1|]. split; [intros; rewrite K2; apply H2|]. split.
  - rewrite E. unfold upd_peer. cbn [n_peers set_peers]. rewrite upd_upd by exact H1. reflexivity.
  - unfold upd_peer. cbn [n_peers set_peers]. rewrite find_upd by exact K1. rewrite F. reflexivity.
Qed.
Lemma touch_trans : forall id p1 p n n1 n2, touch id p1 n n1 -> touch id p n1 n2 -> touch id p n n2.
Proof.
  intros id p1 p n n1 n2 (f & A1 & A2 & A3 & A4) (g & B1 & B2 & B3 & B4). exists (fun p => g (f p)).
  split; [intros; rewrite B1; apply A1|]. split; [intros; rewrite B2; apply A2|]. split; [|exact B4].
  rewrite B3, A3. unfold upd_peer. cbn [n_peers set_peers]. rewrite upd_upd by exact A1. reflexivity.
Qed.
Lemma touch_peer : forall id p n n', touch id p n n' -> find_peer id (n_peers n') = Some p.
Proof. intros id p n n' (f & _ & _ & _ & H). exact H. Qed.
Lemma touch_same : forall id p n n', touch id p n n' -> exists ps, n' = set_peers ps n.
Proof. intros id p n n' (f & _ & _ & H & _). rewrite H. unfold upd_peer. eexists. reflexivity. Qed.
Lemma touch_live : forall id p n n' u, touch id p n n' -> live_ref u n' = live_ref u n.
Proof. intros id p n n' u (f & A & B & H & _). rewrite H. apply live_upd; assumption. Qed.
Lemma touch_other : forall id p n n' id', touch id p n n' -> id' <> id -> find_peer id' (n_peers n') = find_peer id' (n_peers n).
Proof. intros id p n n' id' (f & A & B & H & _) D. rewrite H. unfold upd_peer. cbn [n_peers set_peers]. apply find_upd_other; assumption. Qed.

(** rewriting the fields that touching a peer keeps *)
Ltac touched T := let E := fresh in destruct (touch_same _ _ _ _ T) as (?ps & E); rewrite ?E; cbn [n_id n_prm n_role n_leader n_term n_vote n_smc n_quick n_snp n_disk n_join n_config n_catching n_steps n_log set_peers].

(** ** The request with log entries *)
Definition log_req (n : node) (p : peer) (nx t : N) : req :=
  mkReq (n_term n) append_entries_request (n_id n) (p_id p) t (nx - 1) (n_quick n)
    (firstn (N.to_nat (pm_max_append (n_prm n))) (skipn (N.to_nat (nx - al_start (n_log n))) (al_ents (n_log n)))).

Lemma range_first : forall l nx m, al_start l <= nx <= a_next l ->
  (if a_next l <=? nx then [] else a_range l nx (N.min (a_next l) (nx + m))) = firstn (N.to_nat m) (skipn (N.to_nat (nx - al_start l)) (al_ents l)).
Proof.
  intros l nx m H. unfold a_range, a_next, lenN in *. destruct (N.leb_spec (al_start l + N.of_nat (length (al_ents l))) nx) as [L|L].
  - rewrite skipn_all2 by lia. rewrite firstn_nil. reflexivity.
  - set (r := skipn _ _). assert (Lr : length r = (length (al_ents l) - N.to_nat (nx - al_start l))%nat) by apply skipn_length.
    destruct (N.le_ge_cases (al_start l + N.of_nat (length (al_ents l))) (nx + m)) as [M|M].
    + rewrite N.min_l by exact M. rewrite !firstn_all2 by lia. reflexivity.
    + rewrite N.min_r by exact M. f_equal. lia.
Qed.

Definition next_of (n : node) (p : peer) : N := if p_next p =? 0 then a_next (n_log n) else p_next p.

Lemma serve_log : forall n id p t, find_peer id (n_peers n) = Some p -> p_busy p = false -> 1 <= al_start (n_log n) ->
  al_start (n_log n) <= next_of n p <= a_next (n_log n) ->
  (forall n', n_log n' = n_log n -> n_disk n' = n_disk n -> term_for_log (next_of n p - 1) n' = (ROk t, n', [])) ->
  runs (fun b n' l => b = true /\ l = [ASend (p_uid p) false (log_req n p (next_of n p) t)] /\
          touch id (p_set_next (next_of n p) (p_set_busy true p)) n n') (request_append_entries_to id) n.
Proof.
  intros n id p t F Bz Hs Hn Ht. assert (Pid := find_peer_id _ _ _ F).
  unfold request_append_entries_to. unfold the_peer. rs. rs. rs. unfold get_peer. rewrite F. rs. rewrite Bz.
  rs. rs. cbn [app].
  set (n1 := upd_peer (PPeer id) (p_set_busy true) n).
  assert (T1 : touch id (p_set_busy true p) n n1) by (apply touch_upd; [apply touch_refl, F | reflexivity | reflexivity]).
  assert (F1 := touch_peer _ _ _ _ T1). destruct (touch_same _ _ _ _ T1) as (ps & E1).
  rs. unfold create_append_entries_req. unfold the_peer. rs. rs. rs. unfold get_peer. rewrite F1. rs. cbn [app]. rs. rs. cbn [app].
  replace (n_log n1) with (n_log n) by (rewrite E1; reflexivity).
  replace (p_next (p_set_busy true p)) with (p_next p) by reflexivity. fold (next_of n p).
  rs.
  assert (Hw : runs (fun _ n2 l => l = [] /\ touch id (p_set_next (next_of n p) (p_set_busy true p)) n n2)
      (when (p_next p =? 0) (modify (upd_peer (PPeer id) (p_set_next (a_next (n_log n)))))) n1).
  { unfold next_of. destruct (N.eqb_spec (p_next p) 0) as [E|E]; cbn [when]; rs; (split; [reflexivity|]).
    - exact (touch_upd _ _ _ _ (p_set_next (a_next (n_log n))) T1 (fun _ => eq_refl) (fun _ => eq_refl)).
    - replace (p_set_next (p_next p) (p_set_busy true p)) with (p_set_busy true p) by (destruct p; reflexivity). exact T1. }
  eapply runs_mono; [|exact Hw]. cbv beta. intros _ n2 l2 (-> & T2). clear Hw.
  assert (F2 := touch_peer _ _ _ _ T2). destruct (touch_same _ _ _ _ T2) as (ps2 & E2).
  replace (a_next (n_log n) <=? next_of n p - 1) with false by lia.
  replace ((0 <? next_of n p - 1) && (next_of n p - 1 <? al_start (n_log n) - 1)) with false by lia.
  cbn [app]. rs. eapply runs_eq. { apply Ht; [rewrite E2; reflexivity | rewrite E2; reflexivity]. }
  replace (next_of n p - 1 + 1) with (next_of n p) by lia.
  replace (n_prm n1) with (n_prm n) by (rewrite E1; reflexivity).
  rs. assert (He : runs (fun es n3 l => l = [] /\ n3 = n2 /\ es = firstn (N.to_nat (pm_max_append (n_prm n))) (skipn (N.to_nat (next_of n p - al_start (n_log n))) (al_ents (n_log n))))
     (if a_next (n_log n) <=? next_of n p then ret [] else log_entries_ (next_of n p) (N.min (a_next (n_log n)) (next_of n p + pm_max_append (n_prm n)))) n2).
  { rewrite <- (range_first (n_log n) (next_of n p) (pm_max_append (n_prm n)) Hn). destruct (a_next (n_log n) <=? next_of n p); [rs; auto|].
    unfold log_entries_. rs. rs. cbn [app]. replace (n_log n2) with (n_log n) by (rewrite E2; reflexivity).
    replace (next_of n p <? al_start (n_log n)) with false by lia. rs. auto. }
  eapply runs_mono; [|exact He]. cbv beta. intros es n3 l3 (-> & -> & Ees). clear He.
  cbn [app]. rs. unfold send_req, the_peer. cbn [app]. rs. rs. rs. rs. unfold get_peer. rewrite F2. rs. cbn [app]. rs. rs. cbn [app].
  split; [reflexivity|]. split.
  - f_equal. f_equal. unfold log_req. rewrite Ees. rewrite E1. reflexivity.
  - replace (set_disk (disk_apply (n_disk n2) _) n2) with n2 by (destruct n2; reflexivity). exact T2.
Qed.

(** ** The request with a chunk of a snapshot *)
Definition blk (n : node) : N := Z.to_N (block_size (n_prm n)).
(** the bytes of a chunk at offset [off] *)
Definition chunk (b : N) (size : N) (data : list byte) (off : N) : list byte :=
  firstn (N.to_nat (N.min b (size - off))) (skipn (N.to_nat off) data).
Definition snp_req (n : node) (p : peer) (s : snapshot) (off : N) : req :=
  let d := chunk (blk n) (sn_size s) (dk_snp_data (n_disk n)) off in
  mkReq (n_term n) install_snapshot_request (n_id n) (p_id p) (sn_last_log_term s) (sn_last_log_idx s) (n_quick n)
    [mkEV (n_term n) snp_sync_req (sync_bytes s off (sn_size s <=? off + lenN d) d)].

Lemma want_eq : forall b size off, (0 < b)%Z -> off < size -> size < two31 ->
  ulong_of_Z (Z.min b (to_int32 (Z.of_N (sub64 size off)))) = N.min (Z.to_N b) (size - off).
Proof.
  intros b size off Hb Ho Hs. unfold sub64. replace (off <=? size) with true by lia.
  unfold to_int32. unfold two31 in Hs. rewrite Z.mod_small by lia.
  unfold ulong_of_Z. rewrite Z.mod_small by lia. lia.
Qed.

Lemma chunk_len : forall b size data off, off < size -> size <= lenN data -> lenN (chunk b size data off) = N.min b (size - off).
Proof. intros b size data off Ho Hs. unfold chunk, lenN in *. rewrite firstn_length, skipn_length. lia. Qed.

(** the snapshot and the offset the next chunk of which is sent to [p] *)
Definition in_sync (n : node) (p : peer) (s : snapshot) (off : N) : Prop :=
  match p_sync p with
  | None => n_snp n = Some s /\ off = 0
  | Some (s0, o0) =>
      match n_snp n with
      | Some ls => if sn_last_log_idx s0 <? sn_last_log_idx ls then s = ls /\ off = 0 else s = s0 /\ off = o0
      | None => s = s0 /\ off = o0
      end
  end.
(** the snapshot can be read *)
Definition readable (n : node) (s : snapshot) : Prop :=
  1 <= sn_size s /\ sn_size s < two31 /\ sn_size s <= lenN (dk_snp_data (n_disk n)) /\ (0 < block_size (n_prm n))%Z.

Lemma serve_sync : forall n id p s off last, find_peer id (n_peers n) = Some p -> in_sync n p s off -> readable n s ->
  off < sn_size s -> last <= sn_last_log_idx s ->
  runs (fun q n' l => q = snp_req n p s off /\ l = [] /\ touch id (p_set_sync (Some (s, off)) p) n n')
    (create_sync_snapshot_req (PPeer id) last (n_term n) (n_quick n)) n.
Proof.
  intros n id p s off last F Hs (R1 & R2 & R3 & R4) Ho Hl.
  unfold create_sync_snapshot_req, the_peer. rs. rs. rs. unfold get_peer. rewrite F. rs. cbn [app]. rs. rs. cbn [app]. rs.
  assert (Hc : runs (fun c n1 l => c = (s, off) /\ l = [] /\ touch id (p_set_sync (Some (s, off)) p) n n1)
     (if match p_sync p with None => true | Some (s, _) => match n_snp n with Some ls => sn_last_log_idx s <? sn_last_log_idx ls | None => false end end
      then match n_snp n with
            | None => ub NullDeref
            | Some s =>
                if sn_last_log_idx s <? last then system_exit (-1)
                else if sn_size s <? 1 then system_exit (-1)
                else modify (upd_peer (PPeer id) (p_set_sync (Some (s, 0)))) ;;; ret (s, 0)
            end
      else match p_sync p with Some c => ret c | None => ub NullDeref end) n).
  { assert (Hf : n_snp n = Some s -> off = 0 -> runs (fun c n1 l => c = (s, off) /\ l = [] /\ touch id (p_set_sync (Some (s, off)) p) n n1)
       (match n_snp n with
            | None => ub NullDeref
            | Some s =>
                if sn_last_log_idx s <? last then system_exit (-1)
                else if sn_size s <? 1 then system_exit (-1)
                else modify (upd_peer (PPeer id) (p_set_sync (Some (s, 0)))) ;;; ret (s, 0)
            end) n).
    { intros -> ->. replace (sn_last_log_idx s <? last) with false by lia. replace (sn_size s <? 1) with false by lia.
      rs. rs. rs. split; [reflexivity|]. split; [reflexivity|]. apply touch_upd; [apply touch_refl, F | reflexivity | reflexivity]. }
    unfold in_sync in Hs. destruct (p_sync p) as [[s0 o0]|] eqn:Ep.
    - assert (K : s = s0 /\ off = o0 -> runs (fun c n1 l => c = (s, off) /\ l = [] /\ touch id (p_set_sync (Some (s, off)) p) n n1) (ret (s0, o0)) n).
      { intros (-> & ->). rs. split; [reflexivity|]. split; [reflexivity|].
        replace (p_set_sync (Some (s0, o0)) p) with p by (destruct p; cbn in *; rewrite Ep; reflexivity). apply touch_refl, F. }
      destruct (n_snp n) as [ls|]; [|apply K, Hs]. destruct (sn_last_log_idx s0 <? sn_last_log_idx ls).
      + destruct Hs as (-> & ->). apply Hf; reflexivity.
      + apply K, Hs.
    - destruct Hs as (E & E0). apply Hf; assumption. }
  eapply runs_mono; [|exact Hc]. cbv beta. intros c n1 l1 (-> & -> & T). clear Hc. cbn [app].
  rewrite want_eq by assumption. fold (blk n).
  assert (L : lenN (chunk (blk n) (sn_size s) (dk_snp_data (n_disk n)) off) = N.min (blk n) (sn_size s - off)) by (apply chunk_len; assumption).
  unfold chunk in L. rewrite L.
  replace (two31 <=? N.min (blk n) (sn_size s - off)) with false by lia.
  rewrite N.ltb_irrefl. rs. split; [|split; [reflexivity | exact T]].
  unfold snp_req, chunk. rewrite L. reflexivity.
Qed.

Lemma serve_snp : forall n id p s off, find_peer id (n_peers n) = Some p -> p_busy p = false -> 1 < p_next p < al_start (n_log n) ->
  in_sync n p s off -> readable n s -> off < sn_size s -> p_next p <= sn_last_log_idx s + 1 ->
  runs (fun b n' l => b = true /\ l = [ASend (p_uid p) false (snp_req n p s off)] /\
          touch id (p_set_sync (Some (s, off)) (p_set_busy true p)) n n') (request_append_entries_to id) n.
Proof.
  intros n id p s off F Bz Hn Hsy Hr Ho Hl. assert (Pid := find_peer_id _ _ _ F).
  unfold request_append_entries_to. unfold the_peer. rs. rs. rs. unfold get_peer. rewrite F. rs. rewrite Bz.
  rs. rs. cbn [app].
  set (n1 := upd_peer (PPeer id) (p_set_busy true) n).
  assert (T1 : touch id (p_set_busy true p) n n1) by (apply touch_upd; [apply touch_refl, F | reflexivity | reflexivity]).
  assert (F1 := touch_peer _ _ _ _ T1). destruct (touch_same _ _ _ _ T1) as (ps & E1).
  rs. unfold create_append_entries_req. unfold the_peer. rs. rs. rs. unfold get_peer. rewrite F1. rs. cbn [app]. rs. rs. cbn [app].
  replace (p_next (p_set_busy true p)) with (p_next p) by reflexivity.
  replace (p_next p =? 0) with false by lia. cbn [when]. rs. rs. cbn [app].
  replace (n_log n1) with (n_log n) by (rewrite E1; reflexivity).
  assert (al_start (n_log n) <= a_next (n_log n)) by (unfold a_next; lia).
  replace (a_next (n_log n) <=? p_next p - 1) with false by lia.
  replace ((0 <? p_next p - 1) && (p_next p - 1 <? al_start (n_log n) - 1)) with true by lia.
  assert (S := serve_sync n1 id (p_set_busy true p) s off (p_next p - 1) F1).
  replace (n_quick n1) with (n_quick n) in * by (rewrite E1; reflexivity). replace (n_term n1) with (n_term n) in * by (rewrite E1; reflexivity).
  eapply runs_mono; [|apply S].
  - cbv beta. intros q n2 l2 (-> & -> & T2). rs. cbn [app]. unfold send_req, the_peer. rs. rs. rs.
    assert (T := touch_trans _ _ _ _ _ _ T1 T2). unfold get_peer. rewrite (touch_peer _ _ _ _ T). rs. cbn [app]. rs. rs. cbn [app].
    split; [reflexivity|]. split.
    + rewrite E1; reflexivity.
    + replace (set_disk (disk_apply (n_disk n2) _) n2) with n2 by (destruct n2; reflexivity). exact T.
  - rewrite E1. exact Hsy.
  - rewrite E1. exact Hr.
  - exact Ho.
  - lia.
Qed.

(** a peer that needs a snapshot that is not there *)
Lemma no_snp : forall n id p ls, find_peer id (n_peers n) = Some p -> p_busy p = false -> 1 < p_next p < al_start (n_log n) ->
  p_sync p = None -> n_snp n = Some ls -> (sn_last_log_idx ls + 1 < p_next p \/ sn_size ls < 1) ->
  exists n', request_append_entries_to id n = (RExit, n', [AExit (-1)]).
Proof.
  intros n id p ls F Bz Hn Hp Hsn Hz.
  assert (T1 : touch id (p_set_busy true p) n (upd_peer (PPeer id) (p_set_busy true) n)) by (apply touch_upd; [apply touch_refl, F | reflexivity | reflexivity]).
  assert (F1 := touch_peer _ _ _ _ T1). destruct (touch_same _ _ _ _ T1) as (ps & E1).
  assert (Gl : a_next (n_log n) <=? p_next p - 1 = false) by (unfold a_next in *; lia).
  assert (Gs : (0 <? p_next p - 1) && (p_next p - 1 <? al_start (n_log n) - 1) = true) by lia.
  exists (set_peers ps n).
  set (n1 := upd_peer (PPeer id) (p_set_busy true) n) in *.
  assert (S : create_append_entries_req (PPeer id) n1 = (RExit, n1, [AExit (-1)])).
  { unfold create_append_entries_req, the_peer. rewrite !bind_assoc, bind_get. unfold get_peer at 1. rewrite F1, bind_ret, bind_get.
    replace (p_next (p_set_busy true p)) with (p_next p) by reflexivity.
    replace (p_next p =? 0) with false by lia. cbn [when]. rewrite bind_ret.
    replace (n_log n1) with (n_log n) by (rewrite E1; reflexivity). rewrite Gl, Gs.
    unfold create_sync_snapshot_req, the_peer. rewrite !bind_assoc, bind_get. unfold get_peer at 1. rewrite F1, bind_ret, bind_get.
    replace (p_sync (p_set_busy true p)) with (p_sync p) by reflexivity. rewrite Hp.
    replace (n_snp n1) with (n_snp n) by (rewrite E1; reflexivity). rewrite Hsn.
    destruct (sn_last_log_idx ls <? p_next p - 1) eqn:El; [reflexivity|].
    replace (sn_size ls <? 1) with true by lia. reflexivity. }
  unfold request_append_entries_to, the_peer. rewrite bind_assoc, bind_get. unfold get_peer at 1. rewrite F, bind_ret, Bz, bind_modify.
  fold n1. unfold bind at 1. rewrite S, E1. reflexivity.
Qed.
