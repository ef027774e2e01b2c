(** * P_Join: a server that is being added gets the log (C90) *)

From Verif Require Import Base Buffer BufferSpec BufferProofs Codec CodecSpec CodecProofs Msg FsLogStore FsLogSpec FsLogProofs FsLogReads FsLogChange Alog Raft RaftQuiet NodeSpec ServerSpec NodeFacts AppendFacts NodeExamples Runs P_Config.
Local Open Scope N_scope.

(** ** Specification

    the leader [L] is adding the server [add]; the object for it has the number [uid]; the sizes
    are those the log and its packs can have *)
Definition adding (L : node) (uid : N) (add : srv_config) : Prop :=
  (exists j, n_join L = Some j /\ p_uid j = uid) /\ live_ref uid L = Some PJoin /\ n_to_add L = Some add /\
  small (n_log L) /\ n_quick L < a_next (n_log L) /\ n_quick L < two31 /\
  (1 <= pm_sync_gap (n_prm L))%Z /\ (1 <= pm_sync_batch (n_prm L))%Z /\
  forall i c, al_start (n_log L) <= i -> (Z.of_N c <= pm_sync_batch (n_prm L))%Z -> pack_small (a_range (n_log L) i (i + c)).
(** the server [J] has accepted the invitation *)
Definition invited (J : node) : Prop := n_catching J = true /\ n_role J = Follower /\ 1 <= al_start (n_log J).
(** what [J] has is what [L] has *)
Definition same_entries (L J : node) : Prop :=
  forall i, al_start (n_log L) <= i -> al_start (n_log J) <= i < a_next (n_log J) -> a_get (n_log J) i = a_get (n_log L) i.
(** an answer that makes the leader go on with the log from [i] on *)
Definition asks_from (i : N) (r : resp_msg) : Prop :=
  (rs_type r = sync_log_response \/ rs_type r = join_cluster_response /\ rs_accepted r = true) /\ rs_next_idx r = i.
(** the request [q] carries the entries [es] for the indexes from [i] on *)
Definition carries_pack (q : req) (i : N) (es : list entry_val) : Prop :=
  rq_type q = sync_log_request /\ rq_last_idx q + 1 = i /\ exists t b, rq_entries q = [mkEV t log_pack (pack_bytes b es)].

(** round trips: the leader is handed the answer [r] to the request [q] and sends the next request, which
    the other server answers, and so on; the answer [r1] to [q1] has not been handed over yet *)
Inductive exchange (now uid : N) : req -> resp_msg -> node -> node -> list req -> node -> node -> req -> resp_msg -> Prop :=
| X_stop : forall q r L J, exchange now uid q r L J [] L J q r
| X_more : forall q r L J q' r' L' J' lf qs L1 J1 q1 r1,
    run_event (ERpc now uid true q (Some r)) L = (ROk Nothing, L', [ASend uid true q']) ->
    run_event (ERequest now q') J = (ROk (Response r'), J', lf) ->
    exchange now uid q' r' L' J' qs L1 J1 q1 r1 -> exchange now uid q r L J (q' :: qs) L1 J1 q1 r1.

(** ** Packs *)
Lemma offsets_offs : forall es b rest, b + dsize es < two64 -> exists os, offsets (length es) (offs b es ++ rest) = os /\
  cut_entries os (encs es) = cut_entries (offsets (length es) (offs b es)) (encs es).
Proof.
  intros es b rest _. eexists. split; [reflexivity|]. f_equal. revert b. induction es as [|e es IH]; intros b; cbn [length offsets offs]; [reflexivity|].
  rewrite <- app_assoc. rewrite !firstn_app_exact by apply le_length. rewrite !skipn_app_exact by apply le_length. f_equal. apply IH.
Qed.
Lemma cut_encs : forall es b, es <> [] -> Forall entry_ok es -> b + dsize es < two64 ->
  cut_entries (offsets (length es) (offs b es)) (encs es) = Ok es.
Proof.
  induction es as [|e es IH]; intros b Hne F Hb; [congruence|]. inversion F as [|e' es' He Fs]; subst.
  cbn [length offsets offs]. rewrite firstn_app_exact, skipn_app_exact by apply le_length. cbn [dsize] in Hb.
  rewrite of_le_le8 by (unfold is_ulong; lia). rewrite encs_cons.
  destruct es as [|e1 es1].
  - cbn [length offsets offs cut_entries]. change (encs []) with (@nil byte). rewrite app_nil_r, (dec_enc _ He). reflexivity.
  - specialize (IH (b + esize e) ltac:(discriminate) Fs ltac:(lia)).
    remember (offsets (length (e1 :: es1)) (offs (b + esize e) (e1 :: es1))) as os eqn:Eo.
    assert (exists os', os = (b + esize e) :: os').
    { subst os. cbn [length offsets offs]. rewrite firstn_app_exact by apply le_length. rewrite of_le_le8; [eexists; reflexivity|].
      unfold is_ulong. lia. }
    destruct H as (os' & ->). cbn [cut_entries]. fold (cut_entries ((b + esize e) :: os')).
    assert (Hl : length (enc e) = N.to_nat (b + esize e - b)).
    { assert (G := lenN_enc e). unfold lenN in G. lia. }
    rewrite firstn_app_exact, skipn_app_exact by exact Hl. rewrite (dec_enc _ He). cbn [res_bind].
    cbn [cut_entries] in IH. rewrite IH. reflexivity.
Qed.
Lemma unpack_pack : forall es b, es <> [] -> Forall entry_ok es -> pack_small es -> b + dsize es < two64 -> unpack (pack_bytes b es) = Ok es.
Proof.
  intros es b Hne F HP Hb. unfold pack_small, two31 in HP. unfold unpack, pack_bytes.
  rewrite !int_b_small by (unfold two31; lia).
  assert (L1 : 1 <= lenN es) by (destruct es; [congruence | rewrite lenN_cons; lia]).
  replace (lenN (le 4 (8 * lenN es) ++ le 4 (dsize es) ++ offs b es ++ encs es) <? 16) with false
    by (symmetry; apply N.ltb_ge; rewrite !lenN_app, !lenN_le, lenN_offs; lia).
  rewrite firstn_app_exact by apply le_length. rewrite of_le_le4 by (unfold two32; lia). rewrite to_int32_id by (unfold is_int32; lia).
  rewrite (app_assoc (le 4 (8 * lenN es))). rewrite skipn_app_exact by (rewrite app_length, !le_length; reflexivity). rewrite N2Z.id.
  replace (lenN (offs b es ++ encs es) <? 8 * lenN es) with false by (symmetry; apply N.ltb_ge; rewrite lenN_app, lenN_offs; lia).
  rewrite skipn_app_exact by (rewrite length_offs; unfold lenN; lia).
  replace (N.to_nat (8 * lenN es / 8)) with (length es) by (rewrite N.mul_comm, N.div_mul by lia; unfold lenN; lia).
  destruct (offsets_offs es b (encs es) Hb) as (os & -> & ->). apply cut_encs; assumption.
Qed.

(** ** One step of the server being added *)
Lemma takes_pack : forall J now q i es t b, n_catching J = true -> n_role J = Follower -> 1 <= al_start (n_log J) <= i -> i <= a_next (n_log J) ->
  rq_type q = sync_log_request -> rq_last_idx q + 1 = i -> rq_entries q = [mkEV t log_pack (pack_bytes b es)] ->
  es <> [] -> Forall entry_ok es -> pack_small es -> b + dsize es < two64 ->
  exists J', run_event (ERequest now q) J = (ROk (Response (mkResp (n_term J) sync_log_response (n_id J) (rq_src q) (i + lenN es) true)), J', [AApplyPack i es]) /\
    n_log J' = a_replace (n_log J) i es /\ n_quick J' = N.max (n_quick J) (i + lenN es - 1) /\
    n_catching J' = true /\ n_role J' = Follower /\ n_id J' = n_id J /\ n_term J' = n_term J.
Proof.
  intros J now q i es t b Hc Hr Hs Hi Hq Hl He Hne F HP Hb.
  set (J1 := set_disk (disk_apply (n_disk J) (AApplyPack i es)) J).
  assert (N1 : a_next (n_log J1) = i + lenN es) by (unfold J1, n_log; cbn [n_disk set_disk disk_apply dk_log]; apply a_next_replace; unfold n_log in *; lia).
  exists (if n_quick J <? i + lenN es - 1 then set_quick (i + lenN es - 1) J1 else J1).
  split.
  - cbn [run_event]. unfold process_req. rewrite Hq. change (beq sync_log_request append_entries_request || beq sync_log_request vote_request || beq sync_log_request install_snapshot_request) with false.
    cbn [when]. rewrite !bind_assoc, bind_ret.
    change (beq sync_log_request append_entries_request) with false. change (beq sync_log_request vote_request) with false. change (beq sync_log_request client_request) with false. cbv iota.
    unfold handle_extended_msg. rewrite Hq. change (beq sync_log_request add_server_request) with false. change (beq sync_log_request remove_server_request) with false.
    change (beq sync_log_request sync_log_request) with true. cbv iota.
    unfold handle_log_sync_req. rewrite !bind_assoc, bind_get. rewrite He. cbn [ev_type ev_data]. change (beq log_pack log_pack) with true. cbn [negb]. rewrite Hc. cbn [negb].
    unfold log_apply_pack. rewrite !bind_assoc. rewrite (unpack_pack es b Hne F HP Hb), bind_lift_ok. rewrite !bind_assoc, bind_get. rewrite Hl.
    replace ((i <? al_start (n_log J)) || (a_next (n_log J) <? i)) with false by lia.
    rewrite bind_emit. fold J1. unfold next_slot_. rewrite !bind_assoc, bind_get, N1. unfold commit. rewrite !bind_assoc, bind_get. change (n_quick J1) with (n_quick J).
    destruct (n_quick J <? i + lenN es - 1).
    + rewrite !bind_assoc, bind_modify, !bind_assoc, bind_get. cbn [n_role set_quick]. change (n_role J1) with (n_role J). rewrite Hr. rewrite bind_ret, bind_ret. reflexivity.
    + rewrite !bind_ret. reflexivity.
  - destruct (N.ltb_spec (n_quick J) (i + lenN es - 1)); (split; [reflexivity|]); (split; [cbn [n_quick set_quick J1 set_disk]; lia|]); auto.
Qed.

(** ** One step of the leader *)
Lemma leader_answer : forall L uid add now q r i, adding L uid add -> asks_from i r ->
  rq_type q = join_cluster_request \/ rq_type q = sync_log_request ->
  exists j, p_uid j = uid /\ run_event (ERpc now uid true q (Some r)) L = bind (sync_log_to_new_srv i) (fun _ => ret Nothing) (set_join (Some j) L).
Proof.
  intros L uid add now q r i ((j & Hj & Hu) & Lv & _) ([Ht|[Ht Ha]] & Hi) Hq.
  - exists (p_set_match (pred64 i) (p_set_next i (p_resume (n_prm L) (p_resume (n_prm L) j)))). split; [exact Hu|].
    cbn [run_event]. unfold rpc_done. rewrite !bind_assoc, bind_get, Lv.
    replace (beq (rq_type q) append_entries_request || beq (rq_type q) install_snapshot_request) with false by (destruct Hq as [-> | ->]; reflexivity).
    cbn [when]. rewrite !bind_assoc, bind_ret, !bind_assoc, bind_modify. unfold handle_ext_resp. rewrite !bind_assoc, bind_get, Ht, Hi.
    change (beq sync_log_response sync_log_response) with true. cbv iota. unfold upd_peer. rewrite Hj. cbn [n_join set_join option_map]. rewrite !bind_assoc, bind_modify. reflexivity.
  - exists (p_resume (n_prm L) j). split; [exact Hu|].
    cbn [run_event]. unfold rpc_done. rewrite !bind_assoc, bind_get, Lv.
    replace (beq (rq_type q) append_entries_request || beq (rq_type q) install_snapshot_request) with false by (destruct Hq as [-> | ->]; reflexivity).
    cbn [when]. rewrite !bind_assoc, bind_ret, !bind_assoc, bind_modify. unfold handle_ext_resp. rewrite !bind_assoc, bind_get, Ht, Hi, Ha.
    change (beq join_cluster_response sync_log_response) with false. change (beq join_cluster_response join_cluster_response) with true. cbv iota.
    unfold upd_peer. rewrite Hj. cbn [n_join set_join option_map when]. reflexivity.
Qed.
Lemma gap_eq : forall L i, n_quick L < two31 -> i <= n_quick L + 1 -> to_int32 (Z.of_N (sub64 (n_quick L) i)) = (Z.of_N (n_quick L) - Z.of_N i)%Z.
Proof.
  intros L i Hq Hi. unfold sub64. destruct (N.leb_spec i (n_quick L)).
  - unfold to_int32, two31 in *. rewrite Z.mod_small by lia. lia.
  - replace (two64 + n_quick L - i) with (two64 - 1) by (unfold two64; lia). replace (Z.of_N (n_quick L) - Z.of_N i)%Z with (-1)%Z by lia. vm_compute. reflexivity.
Qed.
Lemma set_join_adding : forall L uid add j, adding L uid add -> p_uid j = uid -> adding (set_join (Some j) L) uid add.
Proof.
  intros L uid add j ((j0 & Hj & Hu) & Lv & H) Hj'. split; [exists j; split; [reflexivity | exact Hj']|]. split; [|exact H].
  unfold live_ref in *. cbn [n_peers n_join set_join]. destruct (find _ _); [exact Lv|]. rewrite Hj', N.eqb_refl. reflexivity.
Qed.

Lemma sends_pack : forall L uid add now q r i, adding L uid add -> asks_from i r ->
  rq_type q = join_cluster_request \/ rq_type q = sync_log_request -> al_start (n_log L) <= i -> i <= n_quick L ->
  (pm_sync_gap (n_prm L) <= Z.of_N (n_quick L) - Z.of_N i)%Z ->
  exists j q' c t b, run_event (ERpc now uid true q (Some r)) L = (ROk Nothing, set_join (Some j) L, [ASend uid true q']) /\ p_uid j = uid /\
    rq_type q' = sync_log_request /\ rq_last_idx q' + 1 = i /\ rq_src q' = n_id L /\
    Z.of_N c = Z.min (Z.of_N (n_quick L) - Z.of_N i) (pm_sync_batch (n_prm L)) /\
    rq_entries q' = [mkEV t log_pack (pack_bytes b (a_range (n_log L) i (i + c)))] /\ b + dsize (a_range (n_log L) i (i + c)) < two64.
Proof.
  intros L uid add now q r i A K Hq Hs Hi Hg. destruct (leader_answer L uid add now q r i A K Hq) as (j & Hu & ->).
  destruct A as (_ & _ & _ & Sm & Hn & Hb & G1 & G2 & _).
  set (c := Z.to_N (Z.min (Z.of_N (n_quick L) - Z.of_N i) (pm_sync_batch (n_prm L)))).
  assert (Hc : Z.of_N c = Z.min (Z.of_N (n_quick L) - Z.of_N i) (pm_sync_batch (n_prm L))) by (unfold c; rewrite Z2N.id; lia).
  eexists j, _, c, (n_term L), (dsize (a_range (n_log L) (al_start (n_log L)) i)). split.
  - unfold sync_log_to_new_srv. rewrite !bind_assoc, bind_get. cbn [n_quick n_prm n_log n_disk set_join n_term n_id]. rewrite (gap_eq L i Hb) by lia.
    replace (Z.of_N (n_quick L) - Z.of_N i <? pm_sync_gap (n_prm L))%Z with false by lia. unfold the_peer. rewrite !bind_assoc, bind_get. cbn [get_peer n_join set_join]. rewrite bind_ret.
    change (n_log (set_join (Some j) L)) with (n_log L).
    replace ((0 <? i) && (i <? al_start (n_log L))) with false by lia.
    rewrite !bind_assoc. unfold log_pack_. rewrite !bind_assoc, bind_get. change (n_log (set_join (Some j) L)) with (n_log L).
    replace (i <? al_start (n_log L)) with false by lia. replace (a_next (n_log L) <=? i) with false by lia.
    rewrite bind_ret, bind_ret. unfold send_req, the_peer. rewrite !bind_assoc, bind_get. cbn [get_peer n_join set_join]. rewrite bind_ret, bind_emit. cbn. rewrite Hu. reflexivity.
  - split; [exact Hu|]. split; [reflexivity|]. split; [|split; [reflexivity|]; split; [exact Hc|]; split; [reflexivity|]].
    + cbn [rq_last_idx]. unfold pred64. destruct Sm as (S1 & _). replace (i =? 0) with false by lia. lia.
    + assert (D := dsize_small _ Sm). assert (X : dsize (a_range (n_log L) (al_start (n_log L)) i) + dsize (a_range (n_log L) i (i + c)) <= 2 * dsize (al_ents (n_log L))).
      { assert (P : forall a b, dsize (a_range (n_log L) a b) <= dsize (al_ents (n_log L))).
        { intros a b. unfold a_range. set (es := al_ents (n_log L)).
          rewrite <- (firstn_skipn (N.to_nat (a - al_start (n_log L))) es) at 2. set (es2 := skipn _ es).
          rewrite <- (firstn_skipn (N.to_nat (b - a)) es2) at 2. rewrite !dsize_app. lia. }
        assert (P1 := P (al_start (n_log L)) i). assert (P2 := P i (i + c)). lia. }
      unfold two64. lia.
Qed.
Lemma puts_into_cluster : forall L uid add now q r i, adding L uid add -> asks_from i r ->
  rq_type q = join_cluster_request \/ rq_type q = sync_log_request -> i <= n_quick L + 1 ->
  (Z.of_N (n_quick L) - Z.of_N i < pm_sync_gap (n_prm L))%Z ->
  exists x L' l, run_event (ERpc now uid true q (Some r)) L =
    (x, L', AAppend (conf_entry (n_term L) (mkCfg (a_next (n_log L)) (cc_log_idx (n_config L)) (cc_servers (n_config L) ++ [add]))) :: l).
Proof.
  intros L uid add now q r i A K Hq Hi Hg. destruct (leader_answer L uid add now q r i A K Hq) as (j & Hu & ->).
  destruct A as (_ & _ & Ha & Sm & Hn & Hb & _).
  unfold sync_log_to_new_srv. rewrite !bind_assoc, bind_get. cbn [n_quick n_prm n_log n_disk set_join n_term n_id n_to_add n_config]. rewrite (gap_eq L i Hb) by lia.
  replace (Z.of_N (n_quick L) - Z.of_N i <? pm_sync_gap (n_prm L))%Z with true by lia. rewrite Ha. cbn [deref]. rewrite !bind_assoc, bind_ret, !bind_assoc, bind_get, !bind_assoc.
  unfold log_append, next_slot_. rewrite !bind_assoc, bind_get, !bind_assoc, bind_emit. unfold after.
  eexists _, _, _. reflexivity.
Qed.

(** ** One round trip *)
Lemma range_facts : forall L uid add i c, adding L uid add -> al_start (n_log L) <= i -> i + c <= n_quick L -> (Z.of_N c <= pm_sync_batch (n_prm L))%Z -> 1 <= c ->
  let es := a_range (n_log L) i (i + c) in lenN es = c /\ es <> [] /\ Forall entry_ok es /\ pack_small es.
Proof.
  intros L uid add i c (_ & _ & _ & Sm & Hn & _ & _ & _ & Hp) Hs Hi Hc H1 es.
  assert (Le : lenN es = c) by (unfold es; rewrite a_range_len by lia; lia).
  split; [exact Le|]. split; [intros E; rewrite E in Le; cbn in Le; lia|]. split.
  - destruct Sm as (_ & _ & _ & F). unfold es, a_range. rewrite Forall_forall in *. intros x Hx. apply F.
    rewrite <- (firstn_skipn (N.to_nat (i - al_start (n_log L))) (al_ents (n_log L))). apply in_or_app. right.
    rewrite <- (firstn_skipn (N.to_nat (i + c - i)) (skipn _ _)). apply in_or_app. left. exact Hx.
  - apply Hp; [lia | exact Hc].
Qed.
Lemma round_trip : forall L J uid add now q r i, adding L uid add -> invited J -> asks_from i r ->
  rq_type q = join_cluster_request \/ rq_type q = sync_log_request -> al_start (n_log L) <= i -> al_start (n_log J) <= i <= a_next (n_log J) -> i <= n_quick L ->
  (pm_sync_gap (n_prm L) <= Z.of_N (n_quick L) - Z.of_N i)%Z ->
  exists j q' r' J' lf c, run_event (ERpc now uid true q (Some r)) L = (ROk Nothing, set_join (Some j) L, [ASend uid true q']) /\ p_uid j = uid /\
    carries_pack q' i (a_range (n_log L) i (i + c)) /\ 1 <= c /\ i + c <= n_quick L /\
    run_event (ERequest now q') J = (ROk (Response r'), J', lf) /\ asks_from (i + c) r' /\ rs_accepted r' = true /\
    invited J' /\ n_log J' = a_replace (n_log J) i (a_range (n_log L) i (i + c)) /\ a_next (n_log J') = i + c /\ n_quick J' = N.max (n_quick J) (i + c - 1).
Proof.
  intros L J uid add now q r i A (I1 & I2 & I3) K Hq Hs Hj Hi Hg.
  destruct (sends_pack L uid add now q r i A K Hq Hs Hi Hg) as (j & q' & c & t & b & E & Hu & Ht & Hl & Hsr & Hc & He & Hb).
  assert (Hc1 : 1 <= c) by (destruct A as (_ & _ & _ & _ & _ & _ & G1 & G2 & _); lia).
  destruct (range_facts L uid add i c A Hs ltac:(lia) ltac:(lia) Hc1) as (R1 & R2 & R3 & R4).
  destruct (takes_pack J now q' i _ t b I1 I2 ltac:(lia) ltac:(lia) Ht Hl He R2 R3 R4 Hb) as (J' & EJ & L1 & L2 & L3 & L4 & L5 & L6).
  eexists j, q', _, J', _, c. split; [exact E|]. split; [exact Hu|]. split; [split; [exact Ht|]; split; [exact Hl|]; exists t, b; exact He|].
  split; [exact Hc1|]. split; [lia|]. split; [exact EJ|]. rewrite R1 in *. split; [split; [left; reflexivity | reflexivity]|]. split; [reflexivity|].
  split; [split; [exact L3|]; split; [exact L4|]; rewrite L1; exact I3|]. split; [exact L1|]. split; [rewrite L1, a_next_replace by lia; rewrite R1; reflexivity | exact L2].
Qed.
Lemma same_after : forall L J J' i c, same_entries L J -> al_start (n_log L) <= i -> al_start (n_log J) <= i <= a_next (n_log J) -> i + c <= a_next (n_log L) ->
  n_log J' = a_replace (n_log J) i (a_range (n_log L) i (i + c)) -> same_entries L J'.
Proof.
  intros L J J' i c S Hs Hj Hc E k Hk [K1 K2]. rewrite E in *. rewrite al_start_replace in K1. rewrite a_next_replace in K2 by exact Hj. rewrite a_range_len in K2 by lia.
  destruct (N.ltb_spec k i) as [H|H].
  - rewrite a_get_replace_lt by (try exact Hj; exact H). apply S; lia.
  - rewrite a_get_replace_ge by (try exact Hj; exact H). destruct (nth_error (a_range (n_log L) i (i + c)) (N.to_nat (k - i))) as [e|] eqn:En.
    + apply a_range_get in En; [|exact Hs]. replace (i + N.of_nat (N.to_nat (k - i))) with k in En by lia. congruence.
    + apply nth_error_None in En. assert (X := a_range_len (n_log L) i (i + c) Hs ltac:(lia) Hc). unfold lenN in X. lia.
Qed.

(** ** C90

    The server gets the committed entries in packs, one after the other; whatever it has then is what
    the leader has, whatever it takes for committed is committed, and after finitely many round trips
    the leader puts the configuration with the new server into its log. *)
Theorem C90_catches_up_partial : forall L J uid add now q r, adding L uid add -> invited J -> same_entries L J ->
  asks_from (a_next (n_log J)) r -> rq_type q = join_cluster_request \/ rq_type q = sync_log_request ->
  al_start (n_log L) <= a_next (n_log J) -> a_next (n_log J) <= n_quick L + 1 -> n_quick J < a_next (n_log J) ->
  exists qs L1 J1 q1 r1, exchange now uid q r L J qs L1 J1 q1 r1 /\
    N.of_nat (length qs) <= n_quick L + 1 - a_next (n_log J) /\ (forall q', In q' qs -> exists i es, carries_pack q' i es) /\
    n_log L1 = n_log L /\ n_quick L1 = n_quick L /\ asks_from (a_next (n_log J1)) r1 /\
    (Z.of_N (n_quick L) - Z.of_N (a_next (n_log J1)) < pm_sync_gap (n_prm L))%Z /\
    a_next (n_log J1) <= n_quick L + 1 /\ same_entries L J1 /\
    (n_quick J1 = n_quick J /\ qs = [] \/ n_quick J1 = a_next (n_log J1) - 1) /\ n_quick J1 <= n_quick L /\ n_quick J1 < a_next (n_log J1) /\
  exists x L2 l, run_event (ERpc now uid true q1 (Some r1)) L1 =
    (x, L2, AAppend (conf_entry (n_term L) (mkCfg (a_next (n_log L)) (cc_log_idx (n_config L)) (cc_servers (n_config L) ++ [add]))) :: l).
Proof.
  intros L J uid add now q r A I S K Hq Hs Hn Hc.
  remember (N.to_nat (n_quick L + 1 - a_next (n_log J))) as m eqn:Em. assert (Hm : (N.to_nat (n_quick L + 1 - a_next (n_log J)) <= m)%nat) by lia. clear Em.
  revert L J q r A I S K Hq Hs Hn Hc Hm. induction m as [m IH] using (well_founded_induction lt_wf). intros L J q r A I S K Hq Hs Hn Hc Hm.
  destruct (Z.ltb_spec (Z.of_N (n_quick L) - Z.of_N (a_next (n_log J))) (pm_sync_gap (n_prm L))) as [Hg|Hg].
  - exists [], L, J, q, r. split; [constructor|]. split; [cbn; lia|]. split; [intros q' []|]. split; [reflexivity|]. split; [reflexivity|]. split; [exact K|].
    split; [exact Hg|]. split; [exact Hn|]. split; [exact S|]. split; [left; split; reflexivity|]. split; [lia|]. split; [exact Hc|].
    apply (puts_into_cluster L uid add now q r _ A K Hq); lia.
  - assert (G1 : (1 <= pm_sync_gap (n_prm L))%Z) by (destruct A as (_ & _ & _ & _ & _ & _ & G & _); exact G).
    assert (St : al_start (n_log J) <= a_next (n_log J)) by (unfold a_next; lia).
    assert (Hql : n_quick L < a_next (n_log L)) by (destruct A as (_ & _ & _ & _ & G & _); exact G).
    destruct (round_trip L J uid add now q r _ A I K Hq Hs ltac:(lia) ltac:(lia) Hg) as (j & q' & r' & J' & lf & c & E & Hu & Cp & C1 & C2 & EJ & K' & Hacc & I' & L' & Nx & Qk).
    assert (A' := set_join_adding L uid add j A Hu). set (L1 := set_join (Some j) L) in *.
    assert (S' : same_entries L1 J') by (apply (same_after L J J' (a_next (n_log J)) c S Hs); [lia | lia | exact L']).
    rewrite <- Nx in K'.
    destruct (IH (N.to_nat (n_quick L1 + 1 - a_next (n_log J')))) with (L := L1) (J := J') (q := q') (r := r')
      as (qs & L2 & J2 & q2 & r2 & X & X1 & X2 & X3 & X4 & X5 & X6 & X7 & X8 & X9 & X10 & X11 & X12); try assumption.
    + change (n_quick L1) with (n_quick L). rewrite Nx. lia.
    + right. exact (proj1 Cp).
    + change (n_log L1) with (n_log L). rewrite Nx. lia.
    + change (n_quick L1) with (n_quick L). rewrite Nx. lia.
    + rewrite Qk, Nx. lia.
    + lia.
    + change (n_quick L1) with (n_quick L) in *. change (n_log L1) with (n_log L) in *. change (n_prm L1) with (n_prm L) in *.
      exists (q' :: qs), L2, J2, q2, r2. split; [eapply X_more; [exact E | exact EJ | exact X]|].
      split; [cbn [length]; rewrite Nx in X1; lia|]. split; [intros q3 [<-|H3]; [eexists _, _; exact Cp | apply X2, H3]|].
      split; [exact X3|]. split; [exact X4|]. split; [exact X5|]. split; [exact X6|]. split; [exact X7|]. split; [exact X8|].
      split; [|split; [exact X10|]; split; [exact X11|]; exact X12]. right.
      destruct X9 as [[X9 Xq] | X9]; [|exact X9]. subst qs. inversion X; subst. rewrite Qk, Nx. lia.
Qed.

(** The call fails and the object for the server has not been slowed down to the limit yet: the
    same request is sent again after a while; the server that has taken the pack before gives the
    same answer, and its log and its commit index are as before. *)
Theorem C90_lost_answer : forall L J uid add j now q i es t b, adding L uid add -> n_join L = Some j ->
  (p_hb_cur j + pm_backoff (n_prm L) < max_hb (n_prm L))%Z ->
  invited J -> al_start (n_log J) <= i <= a_next (n_log J) ->
  rq_type q = sync_log_request -> rq_last_idx q + 1 = i -> rq_entries q = [mkEV t log_pack (pack_bytes b es)] ->
  es <> [] -> Forall entry_ok es -> pack_small es -> b + dsize es < two64 ->
  (exists L', run_event (ERpc now uid true q None) L = (ROk Nothing, L', [ARetryLater uid q]) /\ adding L' uid add /\ n_log L' = n_log L /\
     exists L2, run_event (ERetry uid q) L' = (ROk Nothing, L2, [ASend uid true q]) /\ adding L2 uid add /\ n_log L2 = n_log L) /\
  exists r J1 l1 J2 l2, run_event (ERequest now q) J = (ROk (Response r), J1, l1) /\ rs_accepted r = true /\ rs_next_idx r = i + lenN es /\
    run_event (ERequest now q) J1 = (ROk (Response r), J2, l2) /\ n_log J2 = n_log J1 /\ n_quick J2 = n_quick J1 /\ invited J2.
Proof.
  intros L J uid add j now q i es t b A Hj Hb (I1 & I2 & I3) Hi Hq Hl He Hne F HP Hs.
  split.
  - assert (Hu : p_uid j = uid) by (destruct A as ((j0 & E & Hu) & _); congruence).
    assert (Lv : live_ref uid L = Some PJoin) by apply A.
    set (L' := set_join (Some (p_slow_down (n_prm L) (p_slow_down (n_prm L) j))) L).
    assert (A' : adding L' uid add) by (apply set_join_adding; [exact A | exact Hu]).
    exists L'. split; [|split; [exact A'|]; split; [reflexivity|]].
    + cbn [run_event]. unfold rpc_done. rewrite !bind_assoc, bind_get, Lv, Hq. change (beq sync_log_request append_entries_request || beq sync_log_request install_snapshot_request) with false.
      cbn [when]. rewrite !bind_assoc, bind_ret, !bind_assoc, bind_modify. unfold upd_peer. rewrite Hj. cbn [option_map].
      unfold handle_ext_resp_err. rewrite Hq. change (beq sync_log_request sync_log_request) with true. change (beq sync_log_request leave_cluster_request) with false. cbn [orb].
      rewrite !bind_assoc, bind_get. cbv iota zeta. cbn [get_peer n_join set_join n_prm].
      change (p_hb_cur (p_slow_down (n_prm L) j)) with (Z.min (max_hb (n_prm L)) (p_hb_cur j + pm_backoff (n_prm L))%Z).
      replace (max_hb (n_prm L) <=? Z.min (max_hb (n_prm L)) (p_hb_cur j + pm_backoff (n_prm L)))%Z with false by lia.
      rewrite !bind_assoc, bind_modify. unfold upd_peer. cbn [n_join set_join option_map]. rewrite bind_emit. cbn [p_uid]. change (p_uid (p_slow_down (n_prm L) j)) with (p_uid j). rewrite Hu. reflexivity.
    + exists (set_disk (n_disk L') L'). split; [reflexivity|]. split; [exact A' | reflexivity].
  - destruct (takes_pack J now q i es t b I1 I2 ltac:(lia) ltac:(lia) Hq Hl He Hne F HP Hs) as (J1 & E1 & L1 & Q1 & C1 & R1 & D1 & T1).
    assert (N1 : a_next (n_log J1) = i + lenN es) by (rewrite L1; apply a_next_replace; lia).
    destruct (takes_pack J1 now q i es t b C1 R1 ltac:(rewrite L1, al_start_replace; lia) ltac:(lia) Hq Hl He Hne F HP Hs) as (J2 & E2 & L2 & Q2 & C2 & R2 & D2 & T2).
    eexists _, J1, _, J2, _. split; [exact E1|]. split; [reflexivity|]. split; [reflexivity|]. split; [rewrite E2, D1, T1; reflexivity|].
    split; [|split; [rewrite Q2, Q1; lia|]; split; [exact C2|]; split; [exact R2|]; rewrite L2, L1; exact I3].
    rewrite L2, L1. unfold a_replace. cbn [al_start al_ents]. f_equal. f_equal. rewrite firstn_app, firstn_firstn, Nat.min_id.
    assert (Hz : length (firstn (N.to_nat (i - al_start (n_log J))) (al_ents (n_log J))) = N.to_nat (i - al_start (n_log J))).
    { rewrite firstn_length. unfold a_next, lenN in Hi. lia. }
    rewrite Hz, Nat.sub_diag. cbn [firstn]. apply app_nil_r.
Qed.

(** Not true: that the server then has the leader's entries and takes only those for committed.  If
    its log was not empty when it was invited, its entries are not compared with the leader's: the
    leader goes on behind them, and with the first pack it takes all of them for committed. *)
Theorem C90_other_entries_refuted : forall L J uid add now q r i e e', adding L uid add -> invited J ->
  asks_from (a_next (n_log J)) r -> rq_type q = join_cluster_request \/ rq_type q = sync_log_request ->
  al_start (n_log L) <= a_next (n_log J) -> (Z.of_N (a_next (n_log J)) + pm_sync_gap (n_prm L) <= Z.of_N (n_quick L))%Z ->
  i < a_next (n_log J) -> a_get (n_log J) i = Some e' -> a_get (n_log L) i = Some e -> e <> e' ->
  exists q1 r1 L1 J1, exchange now uid q r L J [q1] L1 J1 q1 r1 /\ rs_accepted r1 = true /\ n_log L1 = n_log L /\ n_quick L1 = n_quick L /\
    i < n_quick J1 /\ i < n_quick L /\ a_get (n_log J1) i = Some e' /\ a_get (n_log L1) i = Some e.
Proof.
  intros L J uid add now q r i e e' A I K Hq Hs Hg Hi He' He D.
  assert (G1 : (1 <= pm_sync_gap (n_prm L))%Z) by (destruct A as (_ & _ & _ & _ & _ & _ & G & _); exact G).
  assert (St : al_start (n_log J) <= a_next (n_log J)) by (unfold a_next; lia).
  destruct (round_trip L J uid add now q r _ A I K Hq Hs ltac:(lia) ltac:(lia) ltac:(lia)) as (j & q' & r' & J' & lf & c & E & Hu & Cp & C1 & C2 & EJ & K' & Hacc & I' & L' & Nx & Qk).
  exists q', r', (set_join (Some j) L), J'. split; [eapply X_more; [exact E | exact EJ | constructor]|]. split; [exact Hacc|]. split; [reflexivity|]. split; [reflexivity|].
  split; [rewrite Qk; lia|]. split; [lia|]. split; [|exact He]. rewrite L', a_get_replace_lt; [exact He' | lia | exact Hi].
Qed.

(** Not true either: that the exchange goes on if the server is started again in between.  It has
    then forgotten that it is catching up, refuses the pack, and the leader, which does not look at
    that, asks its own log for the entries from index 0 on: the log throws, nothing is sent. *)
Theorem C90_started_again_refuted : forall L J uid add now q i es, adding L uid add -> n_catching J = false -> carries_pack q i es ->
  (pm_sync_gap (n_prm L) <= Z.of_N (n_quick L))%Z ->
  exists r L', run_event (ERequest now q) J = (ROk (Response r), J, []) /\ rs_accepted r = false /\
    run_event (ERpc now uid true q (Some r)) L = (RThrow RangeError, L', []) /\ n_join L' <> None /\ n_log L' = n_log L.
Proof.
  intros L J uid add now q i es A Hc (Hq & _ & t & b & He) Hg.
  set (r := resp_of (n_term J) sync_log_response (n_id J) (rq_src q)).
  assert (K : asks_from 0 r) by (split; [left; reflexivity | reflexivity]).
  destruct (leader_answer L uid add now q r 0 A K (or_intror Hq)) as (j & Hu & E).
  exists r, (set_join (Some j) L). split; [|split; [reflexivity|]; split; [|split; [discriminate | reflexivity]]].
  - cbn [run_event]. unfold process_req. rewrite Hq. change (beq sync_log_request append_entries_request || beq sync_log_request vote_request || beq sync_log_request install_snapshot_request) with false.
    cbn [when]. rewrite !bind_assoc, bind_ret.
    change (beq sync_log_request append_entries_request) with false. change (beq sync_log_request vote_request) with false. change (beq sync_log_request client_request) with false. cbv iota.
    unfold handle_extended_msg. rewrite Hq. change (beq sync_log_request add_server_request) with false. change (beq sync_log_request remove_server_request) with false.
    change (beq sync_log_request sync_log_request) with true. cbv iota.
    unfold handle_log_sync_req. rewrite !bind_assoc, bind_get. rewrite He. cbn [ev_type ev_data]. change (beq log_pack log_pack) with true. cbn [negb]. rewrite Hc. reflexivity.
  - rewrite E. destruct A as (_ & _ & _ & Sm & Hn & Hb & _).
    unfold sync_log_to_new_srv. rewrite !bind_assoc, bind_get. cbn [n_quick n_prm n_log n_disk set_join n_term n_id]. rewrite (gap_eq L 0 Hb) by lia.
    replace (Z.of_N (n_quick L) - Z.of_N 0 <? pm_sync_gap (n_prm L))%Z with false by lia. unfold the_peer. rewrite !bind_assoc, bind_get. cbn [get_peer n_join set_join]. rewrite bind_ret.
    rewrite N.ltb_irrefl. cbn [andb]. rewrite !bind_assoc. unfold log_pack_. rewrite !bind_assoc, bind_get.
    replace (0 <? al_start (n_log (set_join (Some j) L))) with true; [reflexivity|]. symmetry. apply N.ltb_lt. destruct Sm as (S1 & _). change (n_log (set_join (Some j) L)) with (n_log L). lia.
Qed.

(** ** Examples

    a cluster of one server, which has committed its configuration and four entries, is asked to add
    server 4; packs of two entries, until the gap is less than two *)
Definition ex_jp : params := mkParams 300 150 75 25 2 2 0 0 100 10000 false true.
Definition ex_jcfg : cluster_config := mkCfg 1 0 [ex_srv 1].
Definition ex_jdisk : disk := mkDisk None (mkCfg 0 0 [ex_srv 1]) a_empty 0 None [].
Definition ex_jcmds : list cmd :=
  [CStart; CEvent EElection; CEvent (EAppend 0 [[x61]; [x62]; [x63]; [x64]]); CEvent ECommit; CEvent (ERequest 0 ex_add4)].
Definition ex_jrun : list obs * sys := run_cmds 1 ex_jp (Down ex_jdisk) ex_jcmds.
Definition ex_jL : node := up_node (snd ex_jrun).
Definition ex_jq : req := mkReq 1 join_cluster_request 1 4 0 5 5 [conf_entry 1 (mkCfg 1 0 [ex_srv 1])].
(** server 4, with an empty log or with two entries of its own, is invited *)
Definition ex_jd4 (es : list entry_val) : disk := mkDisk None (mkCfg 0 0 [ex_srv 4]) (mkAL 1 es) 0 None [].
Definition ex_jrun4 (es : list entry_val) : list obs * sys := run_cmds 4 ex_jp (Down (ex_jd4 es)) [CStart; CEvent (ERequest 0 ex_jq)].
Definition ex_jJ (es : list entry_val) : node := up_node (snd (ex_jrun4 es)).
Definition ex_jold : list entry_val := [ex_ent 1 x78; ex_ent 1 x79].
Lemma packs_fit : forall l, 8 + 8 * lenN (al_ents l) + dsize (al_ents l) < two31 -> forall i c, pack_small (a_range l i (i + c)).
Proof.
  intros l H i c. unfold pack_small. unfold a_range. set (es := al_ents l) in *.
  rewrite <- (firstn_skipn (N.to_nat (i - al_start l)) es) in H. set (es2 := skipn _ es) in *.
  rewrite <- (firstn_skipn (N.to_nat (i + c - i)) es2) in H. rewrite !dsize_app, !lenN_app in H. lia.
Qed.
Lemma ex_adding : adding ex_jL 1 (ex_srv 4).
Proof.
  unfold adding. split; [eexists; split; [vm_compute; reflexivity | reflexivity]|]. split; [vm_compute; reflexivity|]. split; [vm_compute; reflexivity|].
  split. { unfold small. split; [vm_compute; discriminate|]. split; [vm_compute; reflexivity|]. split; [vm_compute; reflexivity|].
    replace (al_ents (n_log ex_jL)) with [conf_entry 1 ex_jcfg; ex_ent 1 x61; ex_ent 1 x62; ex_ent 1 x63; ex_ent 1 x64] by (vm_compute; reflexivity).
    repeat constructor; vm_compute; reflexivity. }
  split; [vm_compute; reflexivity|]. split; [vm_compute; reflexivity|]. split; [vm_compute; discriminate|]. split; [vm_compute; discriminate|].
  intros i c _ _. apply packs_fit. vm_compute. reflexivity.
Qed.
Lemma ex_invited : forall es, n_catching (ex_jJ es) = true -> n_role (ex_jJ es) = Follower -> al_start (n_log (ex_jJ es)) = 1 -> invited (ex_jJ es).
Proof. intros es H1 H2 H3. split; [exact H1|]. split; [exact H2|]. rewrite H3. apply N.le_refl. Qed.
Definition ex_jans (i : N) : resp_msg := mkResp 0 join_cluster_response 4 1 i true.
Example C90_example : life 1 ex_jp (Down ex_jdisk) (fst ex_jrun) (Up ex_jL) /\ In (ASend 1 true ex_jq) (acts_of (fst ex_jrun)) /\
  life 4 ex_jp (Down (ex_jd4 [])) (fst (ex_jrun4 [])) (Up (ex_jJ [])) /\ map o_answer (fst (ex_jrun4 [])) = [Some (Response (ex_jans 1))] /\
  adding ex_jL 1 (ex_srv 4) /\ invited (ex_jJ []) /\ same_entries ex_jL (ex_jJ []) /\ asks_from (a_next (n_log (ex_jJ []))) (ex_jans 1) /\
  al_start (n_log ex_jL) <= a_next (n_log (ex_jJ [])) /\ a_next (n_log (ex_jJ [])) <= n_quick ex_jL + 1 /\ n_quick (ex_jJ []) < a_next (n_log (ex_jJ [])) /\
  (pm_sync_gap (n_prm ex_jL) <= Z.of_N (n_quick ex_jL) - Z.of_N (a_next (n_log (ex_jJ []))))%Z.
Proof.
  split. { replace (Up ex_jL) with (snd ex_jrun) by (vm_compute; reflexivity). apply run_cmds_life. }
  split; [vm_compute; auto 20|].
  split. { replace (Up (ex_jJ [])) with (snd (ex_jrun4 [])) by (vm_compute; reflexivity). apply run_cmds_life. }
  split; [vm_compute; reflexivity|].
  split; [exact ex_adding|]. split; [apply ex_invited; vm_compute; reflexivity|].
  split. { intros i _ H. replace (n_log (ex_jJ [])) with (mkAL 1 []) in H by (vm_compute; reflexivity). unfold a_next in H. cbn in H. lia. }
  split; [split; [right; split; reflexivity | vm_compute; reflexivity]|]. split; [vm_compute; discriminate|]. split; [vm_compute; discriminate|].
  split; [vm_compute; reflexivity | vm_compute; discriminate].
Qed.
Example C90_example_lost : forall now, exists j L' q', run_event (ERpc now 1 true ex_jq (Some (ex_jans 1))) ex_jL = (ROk Nothing, L', [ASend 1 true q']) /\
  adding L' 1 (ex_srv 4) /\ n_join L' = Some j /\ (p_hb_cur j + pm_backoff (n_prm L') < max_hb (n_prm L'))%Z /\ invited (ex_jJ []) /\
  al_start (n_log (ex_jJ [])) <= 1 <= a_next (n_log (ex_jJ [])) /\ rq_type q' = sync_log_request /\ rq_last_idx q' + 1 = 1 /\
  rq_entries q' = [mkEV 1 log_pack (pack_bytes 0 [conf_entry 1 ex_jcfg; ex_ent 1 x61])].
Proof.
  intros now. assert (K : asks_from 1 (ex_jans 1)) by (split; [right; split; reflexivity | reflexivity]).
  destruct (leader_answer ex_jL 1 (ex_srv 4) now ex_jq (ex_jans 1) 1 ex_adding K (or_introl eq_refl)) as (j & Hu & E).
  exists (p_resume ex_jp (new_peer 1 (ex_srv 4) ex_jp)). eexists _, _. split; [vm_compute; reflexivity|]. split; [|split; [vm_compute; reflexivity|]].
  - match goal with |- adding ?x _ _ => replace x with (set_join (Some (p_resume ex_jp (new_peer 1 (ex_srv 4) ex_jp))) ex_jL) by (vm_compute; reflexivity) end. apply set_join_adding; [exact ex_adding | reflexivity].
  - split; [vm_compute; reflexivity|]. split; [apply ex_invited; vm_compute; reflexivity|]. split; [vm_compute; split; discriminate|]. split; [reflexivity|]. split; [reflexivity|]. vm_compute. reflexivity.
Qed.
Example C90_example_other : life 4 ex_jp (Down (ex_jd4 ex_jold)) (fst (ex_jrun4 ex_jold)) (Up (ex_jJ ex_jold)) /\
  adding ex_jL 1 (ex_srv 4) /\ invited (ex_jJ ex_jold) /\ asks_from (a_next (n_log (ex_jJ ex_jold))) (ex_jans 3) /\ al_start (n_log ex_jL) <= a_next (n_log (ex_jJ ex_jold)) /\
  (Z.of_N (a_next (n_log (ex_jJ ex_jold))) + pm_sync_gap (n_prm ex_jL) <= Z.of_N (n_quick ex_jL))%Z /\ 2 < a_next (n_log (ex_jJ ex_jold)) /\
  a_get (n_log (ex_jJ ex_jold)) 2 = Some (ex_ent 1 x79) /\ a_get (n_log ex_jL) 2 = Some (ex_ent 1 x61).
Proof.
  split. { replace (Up (ex_jJ ex_jold)) with (snd (ex_jrun4 ex_jold)) by (vm_compute; reflexivity). apply run_cmds_life. }
  split; [exact ex_adding|]. split; [apply ex_invited; vm_compute; reflexivity|]. split; [split; [right; split; reflexivity | vm_compute; reflexivity]|]. split; [vm_compute; discriminate|].
  split; [vm_compute; discriminate|]. split; [vm_compute; reflexivity|]. split; vm_compute; reflexivity.
Qed.
(** the server that is started again *)
Example C90_example_again : adding ex_jL 1 (ex_srv 4) /\ n_catching (start_node 4 ex_jp (n_disk (ex_jJ []))) = false /\
  (exists q, carries_pack q 1 [ex_ent 1 x61]) /\ (pm_sync_gap (n_prm ex_jL) <= Z.of_N (n_quick ex_jL))%Z.
Proof.
  split; [exact ex_adding|]. split; [vm_compute; reflexivity|]. split; [|vm_compute; discriminate].
  exists (mkReq 1 sync_log_request 1 4 0 0 5 [mkEV 1 log_pack (pack_bytes 0 [ex_ent 1 x61])]). split; [reflexivity|]. split; [reflexivity|]. eexists _, _. reflexivity.
Qed.

(** And so the two servers hand different entries with the same index to their state machines. *)
Definition ex_jL2 : list obs * sys := run_cmds 1 ex_jp (Down ex_jdisk) (ex_jcmds ++ [CEvent ECommit; CEvent (ERpc 1 1 true ex_jq (Some (ex_jans 3)))]).
Definition ex_jpack : req := mkReq 1 sync_log_request 1 4 0 2 5 [mkEV 1 log_pack (pack_bytes (dsize [conf_entry 1 ex_jcfg; ex_ent 1 x61]) [ex_ent 1 x62; ex_ent 1 x63])].
Definition ex_jJ2 : list obs * sys := run_cmds 4 ex_jp (Down (ex_jd4 ex_jold)) [CStart; CEvent (ERequest 0 ex_jq); CEvent (ERequest 1 ex_jpack); CEvent ECommit; CEvent ECommit].
Theorem C90_applies_other_refuted : exists L J h g, life 1 ex_jp (Down ex_jdisk) h (Up L) /\ life 4 ex_jp (Down (ex_jd4 ex_jold)) g (Up J) /\
  In (ASend 1 true ex_jq) (acts_of h) /\ In (mkObs (ERequest 0 ex_jq) (flat_map o_acts (firstn 1 g)) (Some (Response (ex_jans 3)))) g /\
  In (ERpc 1 1 true ex_jq (Some (ex_jans 3))) (map o_event h) /\ In (ASend 1 true ex_jpack) (acts_of h) /\
  map o_event g = [ERequest 0 ex_jq; ERequest 1 ex_jpack; ECommit; ECommit] /\
  In (ACommit 2 (ex_ent 1 x61)) (acts_of h) /\ In (ACommit 2 (ex_ent 1 x79)) (acts_of g).
Proof.
  exists (up_node (snd ex_jL2)), (up_node (snd ex_jJ2)), (fst ex_jL2), (fst ex_jJ2).
  split. { replace (Up (up_node (snd ex_jL2))) with (snd ex_jL2) by (vm_compute; reflexivity). apply run_cmds_life. }
  split. { replace (Up (up_node (snd ex_jJ2))) with (snd ex_jJ2) by (vm_compute; reflexivity). apply run_cmds_life. }
  split; [vm_compute; auto 20|]. split; [vm_compute; auto 20|]. split; [vm_compute; auto 20|]. split; [vm_compute; auto 20|]. split; [vm_compute; reflexivity|].
  split; vm_compute; auto 20.
Qed.

Print Assumptions C90_catches_up_partial.
Print Assumptions C90_lost_answer.
Print Assumptions C90_other_entries_refuted.
Print Assumptions C90_started_again_refuted.
Print Assumptions C90_applies_other_refuted.
