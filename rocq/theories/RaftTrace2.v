(** * RaftTrace2: the request handlers as sequences of guarded steps *)

From Verif Require Import Base Buffer Codec CodecSpec Msg FsLogStore FsLogSpec Alog Raft RaftQuiet RaftTrace.
Local Open Scope N_scope.

(** a few shorthands *)
Ltac forget := eapply ht_conseq; [| intros; exact I].
Ltac nm n := match goal with |- ht _ _ _ ?x => set (n := x) end.
Ltac done := try exact I; try reflexivity.

Lemma apply_log : forall a n, n_log (apply_act a n) = dk_log (disk_apply (n_disk n) a).
Proof. reflexivity. Qed.

(** ** Entries received from the leader *)

(** the state in which received entries are stored *)
Definition receiving (q : req) (k : nat) (n : node) : Prop :=
  n_role n = Follower /\ rq_term q = n_term n /\ ae_match q (n_log n) k.

Lemma receiving_core : forall q k n n', core n' = core n -> receiving q k n -> receiving q k n'.
Proof.
  intros q k n n' Hc (H1 & H2 & H3). destruct (core_upd _ _ Hc) as (C1 & C2 & C3 & C4 & C5 & C6).
  unfold receiving. rewrite C1, C2, C4. auto.
Qed.

Lemma nth_skip : forall A (l : list A) k x m, skipn k l = x :: m -> nth_error l k = Some x /\ skipn (S k) l = m.
Proof.
  intros A l. induction l as [|y l IH]; intros [|k] x m H; cbn in *; try discriminate.
  - inversion H; subst. auto.
  - apply IH. exact H.
Qed.

(** entry [k] of the request is not in the log *)
Definition differs (q : req) (k : nat) (l : alog) : Prop :=
  forall e e', nth_error (rq_entries q) k = Some e -> a_get l (rq_last_idx q + 1 + N.of_nat k) = Some e' -> ev_term e' <> ev_term e.

Lemma skip_matching_tr : forall ev q es k n, skipn k (rq_entries q) = es -> ae_match q (n_log n) k ->
  rq_last_idx q + 1 + N.of_nat k <= a_next (n_log n) ->
  ht (tr ev) (fun r n' => n' = n /\ exists k', (k <= k')%nat /\ fst r = rq_last_idx q + 1 + N.of_nat k' /\
       snd r = skipn k' (rq_entries q) /\ ae_match q (n_log n) k' /\
       rq_last_idx q + 1 + N.of_nat k' <= a_next (n_log n) /\ differs q k' (n_log n))
    (skip_matching (rq_last_idx q + 1 + N.of_nat k) es) n.
Proof.
  intros ev q es. induction es as [|e es IH]; intros k n Hk Hm Hx; cbn [skip_matching].
  { hstep. split; [reflexivity|]. exists k. cbn [fst snd]. repeat (split; [auto|]). intros e e' He _. exfalso.
    assert (X := skipn_length k (rq_entries q)). rewrite Hk in X. cbn in X. assert (Y : nth_error (rq_entries q) k <> None) by congruence.
    apply nth_error_Some in Y. lia. }
  destruct (nth_skip _ _ _ _ _ Hk) as [Hn Hs].
  unfold next_slot_. hstep.
  assert (Hend : differs q k (n_log n) -> ht (tr ev) (fun r n' => n' = n /\ exists k', (k <= k')%nat /\ fst r = rq_last_idx q + 1 + N.of_nat k' /\
       snd r = skipn k' (rq_entries q) /\ ae_match q (n_log n) k' /\
       rq_last_idx q + 1 + N.of_nat k' <= a_next (n_log n) /\ differs q k' (n_log n))
    (ret (rq_last_idx q + 1 + N.of_nat k, e :: es)) n).
  { intros D. hstep. split; [reflexivity|]. exists k. cbn [fst snd]. auto 10. }
  hstep; [|apply Hend; intros e1 e2 _ He2; apply a_get_some in He2; lia].
  unfold log_term_at. hstep. hstep.
  hstep; [hstep|]. destruct (a_get (n_log n) _) eqn:Ea; hstep.
  hstep; [|apply Hend; intros e1 e2 He1 He2; rewrite Hn in He1; inversion He1; subst; rewrite Ea in He2; inversion He2; subst; lia].
  replace (rq_last_idx q + 1 + N.of_nat k + 1) with (rq_last_idx q + 1 + N.of_nat (S k)) by lia.
  eapply ht_conseq; [apply (IH (S k)); [exact Hs| |lia]|].
  - destruct Hm as [Hm1 Hm2]. split; [exact Hm1|]. intros j e' Hj He'.
    destruct (Nat.eq_dec j k) as [->|Hne]; [|apply Hm2; [lia | exact He']].
    exists e0. split; [exact Ea|]. rewrite Hn in He'. inversion He'; subst. lia.
  - cbv beta. intros r l n' _ (-> & k' & H1 & H2 & H3 & H4). split; [reflexivity|]. exists k'. split; [lia|]. split; [exact H2|]. split; [exact H3 | exact H4].
Qed.

(** storing the next entry keeps the earlier ones *)
Lemma ae_match_step : forall q l k e i l',
  ae_match q l k -> nth_error (rq_entries q) k = Some e -> i = rq_last_idx q + 1 + N.of_nat k ->
  al_start l <= i <= a_next l -> l' = a_replace l i [e] -> ae_match q l' (S k).
Proof.
  intros q l k e i l' [H1 H2] He Hi Hr ->. split.
  - destruct H1 as [H1|[H1|(e' & H1 & H1')]]; [left; exact H1 | right; left; exact H1|].
    right. right. exists e'. split; [|exact H1']. rewrite a_get_replace_lt by lia. exact H1.
  - intros j e' Hj He'. destruct (Nat.eq_dec j k) as [->|Hne].
    + exists e. rewrite a_get_replace_ge by lia. subst i. rewrite N.sub_diag. split; [reflexivity | congruence].
    + destruct (H2 j e' ltac:(lia) He') as (e2 & H3 & H4). exists e2. split; [|exact H4].
      rewrite a_get_replace_lt by lia. exact H3.
Qed.

Lemma benign_when : forall ev b a n, benign_act a -> (forall d, disk_apply d a = d) ->
  ht (tr ev) (fun _ n' => core n' = core n) (when b (emit a)) n.
Proof.
  intros ev b a n H Hd. hstep; [|reflexivity]. hstep; rewrite Hd.
  - apply tr_benign; [destruct n; reflexivity | constructor; [exact H | constructor]].
  - destruct n; reflexivity.
Qed.
Lemma changing_when : forall ev b v n,
  ht (tr ev) (fun _ n' => core n' = core n) (when b (modify (set_changing v))) n.
Proof. intros ev b v n. hstep; [|reflexivity]. hstep; [benign | reflexivity]. Qed.

Lemma overwrite_tr : forall now q es, rq_type q = append_entries_request -> forall k n,
  skipn k (rq_entries q) = es -> receiving q k n -> rq_last_idx q + 1 + N.of_nat k <= a_next (n_log n) -> differs q k (n_log n) ->
  ht (tr (ERequest now q)) (fun r n' => exists k', r = skipn k' (rq_entries q) /\ receiving q k' n' /\
        (r = [] \/ a_next (n_log n') = rq_last_idx q + 1 + N.of_nat k'))
    (overwrite (rq_last_idx q + 1 + N.of_nat k) es) n.
Proof.
  intros now q es Ht. induction es as [|e es IH]; intros k n Hk Hr Hx Hdf; cbn [overwrite].
  { hstep. exists k. auto. }
  unfold next_slot_. hstep. hstep.
  2:{ hstep. exists k. split; [auto|]. split; [exact Hr|]. right. lia. }
  destruct (nth_skip _ _ _ _ _ Hk) as [Hn Hs].
  unfold log_entry_at. hstep. hstep. hstep; [hstep|]. hstep.
  destruct (a_get (n_log n) (rq_last_idx q + 1 + N.of_nat k)) as [old|] eqn:Ea; cbn [deref]; [|hstep]. hstep.
  eapply ht_bind; [exact _ | apply benign_when; [exact I | reflexivity]|]. intros u1 n1 l1 _ _ C1.
  eapply ht_bind; [exact _ | apply changing_when|]. intros u2 n2 l2 _ _ C2.
  assert (C2' : core n2 = core n) by congruence.
  assert (Hr2 := receiving_core _ _ _ _ C2' Hr).
  destruct (core_upd _ _ C2') as (CL & CT & _ & _ & _ & _).
  unfold log_write_at. hstep. hstep. hstep; [hstep|].
  rewrite CL in *.
  assert (Hi : al_start (n_log n) <= rq_last_idx q + 1 + N.of_nat k < a_next (n_log n)) by (apply a_get_some in Ea; exact Ea).
  destruct Hr2 as (R1 & R2 & R3).
  hstep.
  { apply tr_one. apply (A_fwrite (ERequest now q) n2 q k e); try assumption.
    - exists now. reflexivity.
    - reflexivity.
    - rewrite CL. split; [exact Hi|]. intros e1 He1. apply (Hdf e e1 Hn He1). }
  nm n3.
  assert (Hr3 : receiving q (S k) n3).
  { split; [exact R1|]. split; [exact R2|].
    eapply ae_match_step; [exact R3 | exact Hn | reflexivity | |].
    - rewrite CL. lia.
    - reflexivity. }
  assert (Hx3 : a_next (n_log n3) = rq_last_idx q + 1 + N.of_nat (S k)).
  { unfold n3. change (n_log _) with (a_replace (n_log n2) (rq_last_idx q + 1 + N.of_nat k) [e]).
    rewrite a_next_write by (rewrite CL; exact Hi). lia. }
  eapply ht_bind; [exact _ | apply benign_when; [exact I | reflexivity]|]. intros u4 n4 l4 _ _ C4.
  eapply ht_bind; [exact _ | apply changing_when|]. intros u5 n5 l5 _ _ C5.
  assert (C5' : core n5 = core n3) by congruence.
  replace (rq_last_idx q + 1 + N.of_nat k + 1) with (rq_last_idx q + 1 + N.of_nat (S k)) by lia.
  destruct (core_upd _ _ C5') as (CL5 & _).
  apply IH; [exact Hs | eapply receiving_core; eassumption| |].
  - rewrite CL5. lia.
  - intros e1 e2 _ He2. rewrite CL5 in He2. apply a_get_some in He2. lia.
Qed.

Lemma append_rest_tr : forall now q es, rq_type q = append_entries_request -> forall k n,
  skipn k (rq_entries q) = es -> receiving q k n -> es = [] \/ a_next (n_log n) = rq_last_idx q + 1 + N.of_nat k ->
  ht (tr (ERequest now q)) (fun _ n' => receiving q (length (rq_entries q)) n') (append_rest es) n.
Proof.
  intros now q es Ht. induction es as [|e es IH]; intros k n Hk Hr Hx; cbn [append_rest].
  { hstep. destruct Hr as (R1 & R2 & R3a & R3b). split; [exact R1|]. split; [exact R2|]. split; [exact R3a|].
    intros j e Hj He. apply R3b; [|exact He].
    assert (length (rq_entries q) <= k)%nat; [|lia].
    destruct (le_lt_dec (length (rq_entries q)) k) as [G|G]; [exact G|exfalso].
    assert (H0 := skipn_length k (rq_entries q)). rewrite Hk in H0. cbn in H0. lia. }
  destruct (nth_skip _ _ _ _ _ Hk) as [Hn Hs]. destruct Hx as [Hx|Hx]; [discriminate|].
  destruct Hr as (R1 & R2 & R3).
  eapply ht_bind; [exact _ | apply log_append_tr|].
  { apply (A_fappend (ERequest now q) n q k e); try assumption. exists now. reflexivity. }
  intros i n1 l1 _ _ (-> & ->).
  nm n1.
  assert (Hr1 : receiving q (S k) n1).
  { split; [exact R1|]. split; [exact R2|].
    eapply ae_match_step; [exact R3 | exact Hn | reflexivity | | ].
    - unfold a_next in *. lia.
    - unfold n1. rewrite apply_log. cbn [disk_apply dk_log]. rewrite <- Hx. reflexivity. }
  assert (Hx1 : a_next (n_log n1) = rq_last_idx q + 1 + N.of_nat (S k)).
  { unfold n1. rewrite apply_log. cbn [disk_apply dk_log]. rewrite a_next_append. fold (n_log n). lia. }
  eapply ht_bind; [exact _ | apply changing_when|]. intros u4 n4 l4 _ _ C4.
  eapply ht_bind; [exact _ | apply benign_when; [exact I | reflexivity]|]. intros u5 n5 l5 _ _ C5.
  assert (C5' : core n5 = core n1) by congruence.
  apply (IH (S k)); [exact Hs | eapply receiving_core; eassumption|].
  right. destruct (core_upd _ _ C5') as (CL5 & _). rewrite CL5. exact Hx1.
Qed.

Lemma handle_append_entries_tr : forall now q n, rq_type q = append_entries_request ->
  rq_term q <= n_term n -> 1 <= al_start (n_log n) ->
  ht (tr (ERequest now q)) (fun r n' => rs_accepted r = true -> receiving q (length (rq_entries q)) n') (handle_append_entries q) n.
Proof.
  intros now q n Ht Hle Hst. unfold handle_append_entries, next_slot_. hstep.
  eapply (ht_bind _ _ _ (fun _ n' => n_log n' = n_log n /\ n_term n' = n_term n /\ (rq_term q = n_term n -> n_role n' = Follower))).
  { hstep; [|repeat split; lia]. destruct (n_role n) eqn:Er.
    - eapply ht_conseq; [apply restart_timer_tr|]. cbv beta. intros _ l n' _ [-> | ->]; repeat split; intros; assumption.
    - eapply ht_conseq; [apply become_follower_tr|]. cbv beta. intros _ l n' _ [F1 F2].
      destruct (core_upd _ _ F2) as (CL & CT & _). repeat split; [exact CL | exact CT | intros; exact F1].
    - hstep. auto. }
  intros _ n1 l1 _ _ (L1 & T1 & R1). hstep. cbv zeta.
  eapply (ht_bind _ _ _ (fun b n' => n' = n1 /\ (b = true -> ae_match q (n_log n1) 0 /\ rq_last_idx q < a_next (n_log n1) \/ rq_last_idx q = 0))).
  { hstep; [hstep; split; [reflexivity|]; intros _; right; lia|].
    hstep; [|hstep; split; [reflexivity | discriminate]].
    eapply ht_bind; [exact _ | apply term_for_log_ht; [exact _ | auto]|]. intros t n2 l2 _ _ [-> Hp].
    hstep. split; [reflexivity|]. intros Hb. left. split; [|lia]. split; [|intros; lia].
    destruct Hp as [Hp|[(P1 & P2 & e & P3 & P4)|[P1 _]]]; [lia | | right; left; lia].
    right. right. exists e. split; [exact P3 | lia]. }
  intros b n2 l2 _ _ (-> & Hb). clear l2.
  destruct ((rq_term q <? n_term n) || negb b) eqn:Hbb; [hstep; cbn; discriminate|].
  apply orb_false_iff in Hbb. destruct Hbb as [Hx Hy]. assert (b = true) by (destruct b; [reflexivity | discriminate]). subst b.
  assert (HT : rq_term q = n_term n) by lia.
  assert (HA : ae_match q (n_log n1) 0).
  { destruct (Hb eq_refl) as [[H _]|H]; [exact H|]. split; [left; exact H | intros; lia]. }
  assert (HN : rq_last_idx q + 1 <= a_next (n_log n1)) by (destruct (Hb eq_refl) as [[_ H]|H]; [lia | rewrite L1; unfold a_next; lia]).
  eapply ht_bind; [exact _ | |].
  { replace (rq_last_idx q + 1) with (rq_last_idx q + 1 + N.of_nat 0) by lia.
    apply (skip_matching_tr _ q _ 0); [reflexivity | exact HA | lia]. }
  intros r n2 l2 E2 _ (-> & k & Hk & Hf & Hs & Hm & Hlt & Hdf). rewrite Hf, Hs.
  assert (HR : receiving q k n1).
  { split; [apply R1, HT|]. split; [congruence | exact Hm]. }
  eapply ht_bind; [exact _ | apply overwrite_tr; [exact Ht | reflexivity | exact HR | exact Hlt | exact Hdf]|].
  intros rest n3 l3 _ _ (k' & -> & HR3 & HX3).
  eapply ht_bind; [exact _ | eapply append_rest_tr; [exact Ht | reflexivity | exact HR3 | exact HX3]|].
  intros u n4 l4 _ _ HR4. hstep; [benign|].
  eapply ht_bind; [exact _ | apply commit_keeps|].
  { destruct HR4 as (HR4a & HR4b & HR4c). right. right. left. exists q. split; [exists now; reflexivity|]. auto 10. }
  intros u5 n5 l5 _ _ (ps & qk & j & -> & _). hstep. intros _. exact HR4.
Qed.

(** ** Votes *)
Lemma handle_vote_req_tr : forall now q n, rq_type q = vote_request ->
  ht (tr (ERequest now q)) (fun r n' => rs_accepted r = true -> n_vote n' = rq_src q /\ n_term n' = rq_term q) (handle_vote_req q) n.
Proof.
  intros now q n Ht. unfold handle_vote_req. hstep. cbv zeta. hstep; [|hstep; cbn; discriminate].
  apply andb_prop in Heqb. destruct Heqb as [Hb H3]. apply andb_prop in Hb. destruct Hb as [H1 H2].
  unfold save_state. apply htp_start. repeat pstep. apply htp_stop; [exact _ | |].
  - apply tr_one. apply (A_grant (ERequest now q) n q); [exists now; reflexivity | exact Ht | lia | exact H2 |].
    apply orb_prop in H3. destruct H3; [left | right]; lia.
  - hstep. intros _. cbn. split; [reflexivity | lia].
Qed.
Lemma handle_prevote_req_tr : forall ev q n, ht (tr ev) (fun _ n' => n' = n) (handle_prevote_req q) n.
Proof. intros ev q n. unfold handle_prevote_req. hstep. hstep. reflexivity. Qed.

(** ** Client requests *)
Lemma is_leader_tr : forall ev now n,
  ht (tr ev) (fun b n' => core n' = core n /\ (b = true -> n_role n = Leader)) (is_leader now) n.
Proof.
  intros ev now n. unfold is_leader. hstep. cbv zeta.
  assert (H : (match n_role n with Leader => true | _ => false end) = true -> n_role n = Leader)
    by (destruct (n_role n); [discriminate | discriminate | reflexivity]).
  hstep; [|hstep; split; [reflexivity | exact H]].
  hstep; [benign|]. hstep; hstep; (split; [reflexivity|]); [discriminate | exact H].
Qed.

Lemma cli_append_tr : forall ev t es n, n_role n = Leader -> t = n_term n ->
  (forall e, In e es -> client_entry ev (mkEV t (ev_type e) (ev_data e))) ->
  ht (tr ev) (fun _ n' => n_role n' = Leader) (cli_append t es) n.
Proof.
  intros ev t es. induction es as [|e es IH]; intros n Hr Ht He; cbn [cli_append]; [hstep; exact Hr|].
  cbv zeta. eapply ht_bind; [exact _ | apply log_append_tr|].
  { apply A_lappend; [exact Hr | exact Ht|]. right. apply He. left. reflexivity. }
  intros i n1 l1 _ _ (-> & ->). unfold next_slot_. hstep. hstep; [benign|].
  apply IH; [exact Hr | exact Ht|]. intros e' Hin. apply He. right. exact Hin.
Qed.

Lemma handle_cli_req_tr : forall ev now q n,
  (forall t e, In e (rq_entries q) -> client_entry ev (mkEV t (ev_type e) (ev_data e))) ->
  ht (tr ev) yes (handle_cli_req now q) n.
Proof.
  intros ev now q n He. unfold handle_cli_req.
  eapply ht_bind; [exact _ | apply is_leader_tr|]. intros b n1 l1 _ _ (C1 & Hb). hstep.
  assert (Hr : b = true -> n_role n1 = Leader) by (intros E; rewrite (core_role _ _ C1); apply Hb, E).
  assert (Hmain : ht (tr ev) yes
     (if b then cli_append (n_term n1) (rq_entries q) ;;; request_append_entries ;;; nx <- next_slot_ ;;
        ret (accept nx (resp_of (n_term n1) append_entries_response (n_id n1) (n_leader n1)))
      else ret (resp_of (n_term n1) append_entries_response (n_id n1) (n_leader n1))) n1).
  { destruct b; [|hstep; exact I].
    eapply ht_bind; [exact _ | apply cli_append_tr; [apply Hr; reflexivity | reflexivity | intros; apply He; assumption]|].
    intros u n2 l2 _ _ Hr2. apply ht_seq; [exact _ | apply raes_tr; left; exact Hr2|].
    intros u3 n3 l3 _ _. unfold next_slot_. hstep. hstep. exact I. }
  cbv zeta. destruct (n_role n1); [exact Hmain | exact Hmain |]. destruct b; [exact Hmain | hstep; exact I].
Qed.

(** ** Snapshots and configuration changes *)
Lemma stop_timer_tr : forall ev n, ht (tr ev) (fun _ n' => core n' = core n) stop_election_timer n.
Proof. intros ev n. unfold stop_election_timer. hstep; [benign|]. hstep; [benign | reflexivity]. Qed.

Lemma log_compact_tr : forall ev k n,
  (exists q, req_of ev q /\ rq_type q = install_snapshot_request) \/ (exists s d ok, ev = ESnapshot s d ok) ->
  ht (tr ev) (fun b n' => b = true /\ n' = apply_act (ACompact k) n) (log_compact k) n.
Proof.
  intros ev k n H. unfold log_compact. hstep. hstep; [hstep|].
  hstep; [apply tr_one, A_compact; [exact H | lia]|]. hstep. split; reflexivity.
Qed.

Lemma save_install_tr : forall ev n q, req_of ev q -> rq_type q = install_snapshot_request ->
  ht (tr ev) (fun _ n' => core n' = core (apply_act (ASaveState (n_term n) (n_vote n)) n)) save_state n.
Proof.
  intros ev n q H1 H2. unfold save_state. hstep. hstep. hstep; [|reflexivity].
  apply tr_one. eapply A_resave; eassumption.
Qed.

Lemma handle_snapshot_sync_tr : forall now q s n, rq_type q = install_snapshot_request -> snp_conf q (sn_config (sv_snp s)) ->
  ht (tr (ERequest now q)) yes (handle_snapshot_sync_req s) n.
Proof.
  intros now q s n Ht Hc. set (ev := ERequest now q).
  assert (Hq : exists q0, req_of ev q0 /\ rq_type q0 = install_snapshot_request).
  { exists q. split; [exists now; reflexivity | exact Ht]. }
  assert (Hs : forall m, cfg_source ev m (sn_config (sv_snp s))).
  { intros m. right. exists q. split; [exists now; reflexivity | left; split; assumption]. }
  unfold handle_snapshot_sync_req. apply ht_catch; [exact _ | | intros; hstep; auto].
  hstep. { apply tr_one, A_snp; [exact I | left; exact Hq]. }
  hstep; [|hstep; exact I]. hstep. hstep; try (hstep; auto; fail).
  eapply ht_bind; [exact _ | apply log_compact_tr; left; exact Hq|]. intros b n1 l1 _ _ (-> & ->).
  eapply ht_bind; [exact _ | apply stop_timer_tr|]. intros u2 n2 l2 _ _ _.
  hstep. { apply tr_one, A_snp; [exact I | left; exact Hq]. }
  eapply ht_bind; [exact _ | apply reconfigure_tr; apply Hs|]. intros u3 n3 l3 _ _ [Hn3 _].
  hstep. hstep. { apply tr_one, A_saveconf. rewrite Hn3. apply Hs. }
  apply htp_start. pstep. pstep. apply htp_stop; [exact _ | |].
  { apply tr_one. apply (A_install ev _ (sn_last_log_idx (sv_snp s)) Hq). }
  eapply ht_bind; [exact _ | eapply save_install_tr; [exists now; reflexivity | exact Ht]|]. intros u4 n4 l4 _ _ _.
  hstep; [benign|]. apply ht_seq; [exact _ | forget; apply restart_timer_tr|]. intros. hstep. exact I.
Qed.

Lemma handle_install_snapshot_tr : forall now q n, rq_type q = install_snapshot_request ->
  ht (tr (ERequest now q)) yes (handle_install_snapshot_req q) n.
Proof.
  intros now q n Ht. unfold handle_install_snapshot_req. hstep.
  apply ht_seq; [exact _ | |].
  { hstep; [|exact I]. destruct (n_role n).
    - forget. apply restart_timer_tr.
    - forget. apply become_follower_tr.
    - hstep. auto. }
  intros u n1 l1 _ _. cbv zeta. hstep; [hstep; exact I|].
  destruct (rq_entries q) as [|e [|e2 es]] eqn:Eq; try (hstep; exact I).
  hstep; [hstep; exact I|]. hstep. hstep. hstep; [hstep; exact I|].
  apply ht_seq; [exact _ | apply handle_snapshot_sync_tr; [exact Ht | exists e, a; repeat split; assumption]|]. intros ok n2 l2 _ _. hstep. exact I.
Qed.

Lemma make_peer_tr : forall ev c n, ht (tr ev) (fun _ n' => core n' = core n) (make_peer c) n.
Proof. intros ev c n. unfold make_peer. hstep. hstep; [benign|]. hstep. reflexivity. Qed.

Lemma handle_add_srv_tr : forall ev q n, ht (tr ev) yes (handle_add_srv_req q) n.
Proof.
  intros ev q n. unfold handle_add_srv_req. hstep. cbv zeta.
  destruct (rq_entries q) as [|e [|e2 es]]; try (hstep; exact I).
  hstep; [hstep; exact I|]. destruct (n_role n); try (hstep; exact I).
  hstep. hstep; [hstep; exact I|]. hstep; [hstep; exact I|]. hstep; [benign|].
  eapply ht_bind; [exact _ | apply make_peer_tr|]. intros p n1 l1 _ _ _. hstep; [benign|].
  apply ht_seq; [exact _ | |].
  { unfold invite_srv_to_join_cluster. hstep.
    eapply ht_bind; [exact _ | apply the_peer_ht; exact _|]. intros j n2 l2 _ _ _.
    forget. apply send_benign_tr. reflexivity. }
  intros u n2 l2 _ _. unfold next_slot_. hstep. hstep. exact I.
Qed.

Lemma handle_rm_srv_tr : forall ev q n, ht (tr ev) yes (handle_rm_srv_req q) n.
Proof.
  intros ev q n. unfold handle_rm_srv_req. hstep. cbv zeta.
  destruct (rq_entries q) as [|e [|e2 es]]; try (hstep; exact I).
  hstep; [hstep; exact I|]. destruct (n_role n); try (hstep; exact I).
  hstep; [hstep; exact I|]. hstep. hstep; [hstep; exact I|].
  destruct (find_peer a (n_peers n)); [|hstep; exact I].
  apply ht_seq; [exact _ | forget; apply send_benign_tr; reflexivity|]. intros. hstep. exact I.
Qed.

Lemma handle_log_sync_tr : forall now q n, rq_type q = sync_log_request ->
  ht (tr (ERequest now q)) yes (handle_log_sync_req q) n.
Proof.
  intros now q n Ht. unfold handle_log_sync_req. hstep. cbv zeta.
  destruct (rq_entries q) as [|e [|e2 es]]; try (hstep; exact I).
  hstep; [hstep; exact I|]. destruct (n_catching n) eqn:Ec; cbn [negb]; [|hstep; exact I].
  unfold log_apply_pack, next_slot_. hstep. hstep. hstep. hstep. hstep; [hstep|].
  hstep. { apply tr_one. eapply A_pack; [exists now; reflexivity | exact Ht | exact Ec | lia]. }
  hstep. apply ht_seq; [exact _ | apply commit_tr; right; right; right; left; exists q; split; [exists now; reflexivity | exact Ht]|]. intros. hstep. exact I.
Qed.

Lemma handle_join_cluster_tr : forall now q n, rq_type q = join_cluster_request ->
  ht (tr (ERequest now q)) yes (handle_join_cluster_req q) n.
Proof.
  intros now q n Ht. unfold handle_join_cluster_req. hstep. cbv zeta.
  destruct (rq_entries q) as [|e [|e2 es]]; try (hstep; exact I).
  hstep; [hstep; exact I|]. destruct (n_catching n) eqn:Ec; [hstep; exact I|].
  apply htp_start. unfold save_state. repeat pstep. apply htp_stop; [exact _ | |].
  { apply (T_step (ERequest now q) n [ASaveState (rq_term q) (-1)] (apply_act (ASaveState (rq_term q) (-1))
        (set_term (rq_term q) (set_vote (-1) (set_quick 0 (set_smc 0 (set_role Follower (set_catching true n))))))) []).
    - apply (A_join (ERequest now q) n q); [exists now; reflexivity | exact Ht | exact Ec].
    - benign. }
  hstep. apply ht_seq; [exact _ | |].
  { forget. apply reconfigure_tr. right. exists q. split; [exists now; reflexivity | right; exact Ht]. }
  intros. unfold next_slot_. hstep. hstep. exact I.
Qed.

Lemma handle_leave_cluster_tr : forall now q n, rq_type q = leave_cluster_request ->
  ht (tr (ERequest now q)) yes (handle_leave_cluster_req q) n.
Proof.
  intros now q n Ht. unfold handle_leave_cluster_req. hstep. cbv zeta. hstep; [hstep; exact I|].
  hstep; [|hstep; exact I]. apply tr_one, A_steps. right. exists q. split; [exists now; reflexivity | exact Ht].
Qed.

Lemma beq_eq : forall a b, beq a b = true -> a = b.
Proof. intros a b H. unfold beq in H. apply Byte.byte_dec_bl in H. exact H. Qed.
Lemma beq_neq : forall a b, beq a b = false -> a <> b.
Proof. intros a b H E. subst b. unfold beq in H. rewrite (Byte.byte_dec_lb eq_refl) in H. discriminate. Qed.

Lemma handle_extended_tr : forall now q n, ht (tr (ERequest now q)) yes (handle_extended_msg q) n.
Proof.
  intros now q n. unfold handle_extended_msg.
  destruct (beq (rq_type q) add_server_request) eqn:E1; [apply handle_add_srv_tr|].
  destruct (beq (rq_type q) remove_server_request) eqn:E2; [apply handle_rm_srv_tr|].
  destruct (beq (rq_type q) sync_log_request) eqn:E3; [apply handle_log_sync_tr, beq_eq, E3|].
  destruct (beq (rq_type q) join_cluster_request) eqn:E4; [apply handle_join_cluster_tr, beq_eq, E4|].
  destruct (beq (rq_type q) leave_cluster_request) eqn:E5; [apply handle_leave_cluster_tr, beq_eq, E5|].
  destruct (beq (rq_type q) install_snapshot_request) eqn:E6; [apply handle_install_snapshot_tr, beq_eq, E6|].
  destruct (beq (rq_type q) prevote_request) eqn:E7; [forget; apply handle_prevote_req_tr|].
  hstep. auto.
Qed.

(** every request *)
Lemma process_req_tr : forall now q n, 1 <= al_start (n_log n) ->
  ht (tr (ERequest now q)) yes (process_req now q) n.
Proof.
  intros now q n Hst. unfold process_req. cbv zeta.
  eapply (ht_bind _ _ _ (fun _ n' => n_log n' = n_log n /\
     ((rq_type q = append_entries_request \/ rq_type q = vote_request) -> rq_term q <= n_term n'))).
  { hstep.
    - eapply ht_bind; [exact _ | apply update_term_tr; left; exists q; split; [exists now; reflexivity | reflexivity]|].
      intros b n1 l1 _ _ (_ & U). destruct U as (U1 & U2 & _). hstep. hstep.
      + hstep; [apply tr_one, A_steps; left; lia|]. split; [exact U2|]. intros _. cbn. lia.
      + split; [exact U2|]. intros _. lia.
    - split; [reflexivity|]. intros [E|E]; rewrite E in H; cbn in H; discriminate. }
  intros u n1 l1 _ _ (L1 & T1).
  destruct (beq (rq_type q) append_entries_request) eqn:E1.
  { apply beq_eq in E1. forget. apply handle_append_entries_tr; [exact E1 | apply T1; left; exact E1 | rewrite L1; exact Hst]. }
  destruct (beq (rq_type q) vote_request) eqn:E2; [forget; apply handle_vote_req_tr, beq_eq, E2|].
  destruct (beq (rq_type q) client_request) eqn:E3; [|apply handle_extended_tr].
  apply handle_cli_req_tr. intros t e Hin. split; [apply beq_eq, E3|]. exists e. auto.
Qed.
