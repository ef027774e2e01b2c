(** * AppendFacts: the exact effect of an append-entries request *)

From Verif Require Import Base Buffer Codec CodecSpec Msg FsLogStore FsLogSpec Alog Raft ServerSpec NodeFacts.
Local Open Scope N_scope.

Lemma already_le : forall es l i, (already l i es <= length es)%nat.
Proof.
  induction es as [|e es IH]; intros l i; cbn [already length]; [lia|].
  destruct (a_get l i); [|lia]. destruct (ev_term e0 =? ev_term e); [|lia]. specialize (IH l (i + 1)). lia.
Qed.
Lemma already_in : forall es l i j, (j < already l i es)%nat ->
  exists e e', nth_error es j = Some e /\ a_get l (i + N.of_nat j) = Some e' /\ ev_term e' = ev_term e.
Proof.
  induction es as [|e es IH]; intros l i j H; cbn [already] in H; [lia|].
  destruct (a_get l i) as [e'|] eqn:E; [|lia]. destruct (ev_term e' =? ev_term e) eqn:Et; [|lia].
  destruct j as [|j].
  - exists e, e'. split; [reflexivity|]. split; [rewrite N.add_0_r; exact E | lia].
  - destruct (IH l (i + 1) j) as (a & b & H1 & H2 & H3); [lia|]. exists a, b. split; [exact H1|]. split; [|exact H3].
    rewrite <- H2. f_equal. lia.
Qed.
(** the first one that is missing or different *)
Lemma already_stop : forall es l i e, nth_error es (already l i es) = Some e ->
  match a_get l (i + N.of_nat (already l i es)) with Some e' => ev_term e' <> ev_term e | None => True end.
Proof.
  induction es as [|e es IH]; intros l i x H; cbn [already] in *; [discriminate|].
  destruct (a_get l i) as [e'|] eqn:E.
  - destruct (ev_term e' =? ev_term e) eqn:Et.
    + cbn [nth_error] in H. specialize (IH l (i + 1) x H). revert IH.
      replace (i + 1 + N.of_nat (already l (i + 1) es)) with (i + N.of_nat (S (already l (i + 1) es))) by lia. tauto.
    + cbn [nth_error] in H. inversion H; subst. rewrite N.add_0_r, E. lia.
  - rewrite N.add_0_r, E. exact I.
Qed.
Lemma already_bound : forall es l i, al_start l <= i -> i <= a_next l -> i + N.of_nat (already l i es) <= a_next l.
Proof.
  intros es l i H1 H2. destruct (already l i es) as [|k] eqn:E; [lia|].
  destruct (already_in es l i k) as (e & e' & _ & H & _); [lia|]. apply a_get_some in H. lia.
Qed.

Lemma skip_matching_eq : forall es n i, al_start (n_log n) <= i ->
  skip_matching i es n = (ROk (i + N.of_nat (already (n_log n) i es), skipn (already (n_log n) i es) es), n, []).
Proof.
  induction es as [|e es IH]; intros n i H; cbn [skip_matching already].
  - rewrite N.add_0_r. reflexivity.
  - unfold next_slot_. rewrite bind_get. destruct (i <? a_next (n_log n)) eqn:E.
    + destruct (a_get_in (n_log n) i) as [e' Eg]; [lia|]. rewrite Eg.
      assert (Et : log_term_at i n = (ROk (ev_term e'), n, [])).
      { unfold log_term_at. rewrite bind_get. replace (i <? al_start (n_log n)) with false by lia. rewrite Eg. reflexivity. }
      rewrite (bind_ok _ _ _ _ _ _ _ _ Et), after_nil. destruct (ev_term e' =? ev_term e).
      * rewrite IH by lia. cbn [skipn]. do 4 f_equal. lia.
      * cbn [skipn]. rewrite N.add_0_r. reflexivity.
    + rewrite (a_get_none (n_log n) i) by lia. cbn [skipn]. rewrite N.add_0_r. reflexivity.
Qed.


Lemma emit_append : forall e n, set_disk (disk_apply (n_disk n) (AAppend e)) n = set_log (a_replace (n_log n) (a_next (n_log n)) [e]) n.
Proof. reflexivity. Qed.
Lemma emit_write : forall i e n, set_disk (disk_apply (n_disk n) (AWriteAt i e)) n = set_log (a_replace (n_log n) i [e]) n.
Proof. reflexivity. Qed.
Lemma emit_none : forall a n, (forall d, disk_apply d a = d) -> set_disk (disk_apply (n_disk n) a) n = n.
Proof. intros a n H. rewrite H. destruct n; reflexivity. Qed.
Lemma log_set_log : forall l n, n_log (set_log l n) = l.
Proof. reflexivity. Qed.
Lemma log_set_changing : forall c n, n_log (set_changing c n) = n_log n.
Proof. reflexivity. Qed.
Lemma set_log_log : forall l l' n, set_log l (set_log l' n) = set_log l n.
Proof. reflexivity. Qed.
Lemma set_log_changing : forall l c n, set_log l (set_changing c n) = set_changing c (set_log l n).
Proof. reflexivity. Qed.
Lemma set_changing2 : forall c c' n, set_changing c (set_changing c' n) = set_changing c n.
Proof. reflexivity. Qed.
Lemma set_changing_id : forall n, set_changing (n_changing n) n = n.
Proof. intros n; destruct n; reflexivity. Qed.
Lemma changing_set_log : forall l n, n_changing (set_log l n) = n_changing n.
Proof. reflexivity. Qed.
Lemma changing_set : forall c n, n_changing (set_changing c n) = c.
Proof. reflexivity. Qed.
Lemma a_replace_end : forall l, a_replace l (a_next l) [] = l.
Proof. intros [s es]. unfold a_replace, a_next, lenN. cbn [al_start al_ents]. rewrite app_nil_r, firstn_all2 by lia. reflexivity. Qed.
Lemma a_replace_app : forall l i es1 es2, al_start l <= i <= a_next l ->
  a_replace (a_replace l i es1) (i + lenN es1) es2 = a_replace l i (es1 ++ es2).
Proof.
  intros [s es] i es1 es2 H. unfold a_replace, a_next, lenN in *. cbn [al_start al_ents] in *. f_equal. rewrite app_assoc. f_equal.
  rewrite firstn_all2; [reflexivity|]. rewrite app_length, firstn_length. lia.
Qed.
Lemma when_true : forall b m, b = true -> when b m = m.
Proof. intros b m ->. reflexivity. Qed.
Lemma when_modify : forall b f n, when b (modify f) n = (ROk tt, if b then f n else n, []).
Proof. intros [] f n; reflexivity. Qed.
Lemma when_emit : forall b a n, (forall d, disk_apply d a = d) -> when b (emit a) n = (ROk tt, n, if b then [a] else []).
Proof. intros [] a n H; [|reflexivity]. cbn [when]. unfold emit. rewrite H. destruct n; reflexivity. Qed.

Lemma append_rest_eq : forall es n,
  append_rest es n = (ROk tt, set_changing (has_conf es || n_changing n) (set_log (a_replace (n_log n) (a_next (n_log n)) es) n),
                      append_acts (a_next (n_log n)) es).
Proof.
  induction es as [|e es IH]; intros n; cbn [append_rest append_acts].
  - rewrite a_replace_end. unfold ret. do 2 f_equal. cbn [has_conf existsb orb].
    destruct n as [? ? ? ? ? ? ? ? ? ? ? ? ? ? ? ? ? ? ? ? ? ? ? ? ? d]; destruct d; reflexivity.
  - assert (E1 : log_append e n = (ROk (a_next (n_log n)), set_log (a_replace (n_log n) (a_next (n_log n)) [e]) n, [AAppend e])) by reflexivity.
    rewrite (bind_ok _ _ _ _ _ _ _ _ E1).
    rewrite (bind_ok _ _ _ _ _ _ _ _ (when_modify _ _ _)), after_nil.
    rewrite (bind_ok _ _ _ _ _ _ _ _ (when_emit (beq (ev_type e) app_log) (APreCommit (a_next (n_log n)) e) _ (fun d => eq_refl))).
    rewrite IH. rewrite !after_after. unfold after. cbn [fst snd].
    assert (L : forall b : bool, n_log (if b then set_changing true (set_log (a_replace (n_log n) (a_next (n_log n)) [e]) n) else
       set_log (a_replace (n_log n) (a_next (n_log n)) [e]) n) = a_replace (n_log n) (a_next (n_log n)) [e]) by (intros []; reflexivity).
    rewrite !L, a_next_append.
    assert (A : a_replace (a_replace (n_log n) (a_next (n_log n)) [e]) (a_next (n_log n) + 1) es = a_replace (n_log n) (a_next (n_log n)) (e :: es)).
    { apply (a_replace_app (n_log n) (a_next (n_log n)) [e] es). unfold a_next. lia. }
    rewrite A. f_equal; f_equal.
      cbn [has_conf existsb]. fold (has_conf es). destruct (beq (ev_type e) conf_log); cbn [orb].
      * rewrite changing_set, orb_true_r. rewrite set_log_changing, set_log_log, set_changing2. reflexivity.
      * rewrite changing_set_log, set_log_log. reflexivity.
Qed.

Lemma overwrite_past : forall es n i, a_next (n_log n) <= i -> overwrite i es n = (ROk es, n, []).
Proof.
  intros [|e es] n i H; [reflexivity|]. cbn [overwrite]. unfold next_slot_. rewrite bind_get.
  replace (i <? a_next (n_log n)) with false by lia. reflexivity.
Qed.
Lemma overwrite_eq : forall e es n i old, a_get (n_log n) i = Some old ->
  overwrite i (e :: es) n =
    (ROk es,
     set_changing (beq (ev_type e) conf_log || (n_changing n && negb (beq (ev_type old) conf_log)))
       (set_log (a_replace (n_log n) i [e]) n),
     (if beq (ev_type old) app_log then [ARollback i old] else []) ++ AWriteAt i e :: pre i e).
Proof.
  intros e es n i old H. assert (Hi := a_get_some _ _ _ H). cbn [overwrite]. unfold next_slot_. rewrite bind_get.
  replace (i <? a_next (n_log n)) with true by lia.
  assert (E1 : log_entry_at i n = (ROk (Some old), n, [])).
  { unfold log_entry_at. rewrite bind_get. replace (i <? al_start (n_log n)) with false by lia. rewrite H. reflexivity. }
  rewrite (bind_ok _ _ _ _ _ _ _ _ E1), after_nil. cbn [deref]. rewrite bind_ret.
  rewrite (bind_ok _ _ _ _ _ _ _ _ (when_emit _ (ARollback i old) _ (fun d => eq_refl))).
  rewrite (bind_ok _ _ _ _ _ _ _ _ (when_modify _ _ _)), after_nil.
  set (n1 := if beq (ev_type old) conf_log then set_changing false n else n).
  assert (L1 : n_log n1 = n_log n) by (unfold n1; destruct (beq _ _); reflexivity).
  assert (E2 : log_write_at i e n1 = (ROk tt, set_log (a_replace (n_log n) i [e]) n1, [AWriteAt i e])).
  { unfold log_write_at. rewrite bind_get, L1.
    replace ((i <? al_start (n_log n)) || (a_next (n_log n) <? i)) with false by lia. unfold emit. rewrite emit_write, L1. reflexivity. }
  rewrite (bind_ok _ _ _ _ _ _ _ _ E2).
  rewrite (bind_ok _ _ _ _ _ _ _ _ (when_emit _ (APreCommit i e) _ (fun d => eq_refl))).
  rewrite (bind_ok _ _ _ _ _ _ _ _ (when_modify _ _ _)), after_nil.
  assert (N2 : (if beq (ev_type e) conf_log then set_changing true (set_log (a_replace (n_log n) i [e]) n1)
                else set_log (a_replace (n_log n) i [e]) n1) =
     set_changing (beq (ev_type e) conf_log || (n_changing n && negb (beq (ev_type old) conf_log)))
       (set_log (a_replace (n_log n) i [e]) n)).
  { unfold n1. destruct (beq (ev_type e) conf_log), (beq (ev_type old) conf_log); cbn [negb andb orb];
      rewrite ?set_log_changing, ?set_changing2, ?andb_false_r, ?andb_true_r; try reflexivity. }
  rewrite N2. rewrite overwrite_past.
  - rewrite !after_after. unfold after. cbn [fst snd]. rewrite app_nil_r, <- app_assoc. reflexivity.
  - rewrite log_set_changing, log_set_log, a_next_write by lia. lia.
Qed.

Lemma nth_skipn : forall A (m : list A) c j, nth_error (skipn c m) j = nth_error m (c + j).
Proof.
  intros A m. induction m as [|x m IH]; intros [|c] j; cbn; try reflexivity.
  - destruct j; reflexivity.
  - apply IH.
Qed.
Lemma skipn_nth : forall A (l : list A) k e r, skipn k l = e :: r -> nth_error l k = Some e.
Proof. induction l as [|x l IH]; intros [|k] e r H; cbn in *; try discriminate; [congruence | eapply IH, H]. Qed.

(** the three loops together *)
Lemma install_eq : forall es n i, al_start (n_log n) <= i <= a_next (n_log n) ->
  bind (skip_matching i es) (fun r => bind (overwrite (fst r) (snd r)) append_rest) n =
  (ROk tt, set_changing (install_changing (n_log n) i es (n_changing n)) (set_log (installed (n_log n) i es) n),
   install_acts (n_log n) i es).
Proof.
  intros es n i Hi. rewrite (bind_ok _ _ _ _ _ _ _ _ (skip_matching_eq es n i (proj1 Hi))), after_nil. cbn [fst snd].
  unfold install_changing, installed, install_acts.
  assert (Hle := already_le es (n_log n) i). assert (Hb := already_bound es (n_log n) i (proj1 Hi) (proj2 Hi)).
  set (k := already (n_log n) i es) in *. set (j := i + N.of_nat k) in *.
  destruct (skipn k es) as [|e rest] eqn:Es.
  - assert (Hk : k = length es). { assert (L := skipn_length k es). rewrite Es in L. cbn in L. lia. }
    replace (Nat.eqb k (length es)) with true by (symmetry; apply Nat.eqb_eq; exact Hk).
    cbn [overwrite]. rewrite bind_ret. cbn [append_rest]. unfold ret. do 2 f_equal.
    destruct n as [? ? ? ? ? ? ? ? ? ? ? ? ? ? ? ? ? ? ? ? ? ? ? ? ? d]; destruct d; reflexivity.
  - replace (Nat.eqb k (length es)) with false.
    2:{ symmetry. apply Nat.eqb_neq. intros ->. rewrite skipn_all in Es. discriminate. }
    destruct (a_get (n_log n) j) as [old|] eqn:Eg.
    + rewrite (bind_ok _ _ _ _ _ _ _ _ (overwrite_eq e rest n j old Eg)). rewrite append_rest_eq.
      assert (Hj := a_get_some _ _ _ Eg). rewrite log_set_changing, log_set_log, a_next_write by lia.
      unfold after. cbn [fst snd]. f_equal; [f_equal|].
      * rewrite changing_set. rewrite set_log_changing, set_log_log, set_changing2.
        assert (A := a_replace_app (n_log n) j [e] rest (conj (proj1 Hj) (N.lt_le_incl _ _ (proj2 Hj)))).
        cbn [app] in A. change (lenN [e]) with 1 in A. rewrite A. cbn [has_conf existsb]. fold (has_conf rest).
        destruct (beq (ev_type e) conf_log), (has_conf rest); reflexivity.
      * rewrite <- app_assoc. reflexivity.
    + assert (Hj : j = a_next (n_log n)).
      { destruct (N.lt_ge_cases j (a_next (n_log n))); [|lia]. destruct (a_get_in (n_log n) j); [unfold j; lia | congruence]. }
      rewrite (bind_ok _ _ _ _ _ _ _ _ (overwrite_past (e :: rest) n j ltac:(lia))), after_nil.
      rewrite append_rest_eq, <- Hj. reflexivity.
Qed.

Lemma term_for_log_in : forall n i e, 1 <= al_start (n_log n) -> a_get (n_log n) i = Some e -> term_for_log i n = (ROk (ev_term e), n, []).
Proof.
  intros n i e Hs H. assert (Hi := a_get_some _ _ _ H). unfold term_for_log. replace (i =? 0) with false by lia.
  unfold start_index_. rewrite bind_get. replace (al_start (n_log n) <=? i) with true by lia.
  unfold log_term_at. rewrite bind_get. replace (i <? al_start (n_log n)) with false by lia. rewrite H. reflexivity.
Qed.
Lemma term_for_log_snp : forall n i s, 0 < i < al_start (n_log n) -> dk_snp (n_disk n) = Some s -> sn_last_log_idx s = i ->
  term_for_log i n = (ROk (sn_last_log_term s), n, []).
Proof.
  intros n i s Hi H E. unfold term_for_log. replace (i =? 0) with false by lia.
  unfold start_index_. rewrite bind_get. replace (al_start (n_log n) <=? i) with false by lia.
  rewrite bind_get, H, E, N.eqb_refl. reflexivity.
Qed.
Lemma term_for_log_none : forall n i, 0 < i < al_start (n_log n) ->
  (forall s, dk_snp (n_disk n) = Some s -> sn_last_log_idx s <> i) -> term_for_log i n = (RExit, n, [AExit (-1)]).
Proof.
  intros n i Hi H. unfold term_for_log. replace (i =? 0) with false by lia.
  unfold start_index_. rewrite bind_get. replace (al_start (n_log n) <=? i) with false by lia.
  rewrite bind_get. destruct (dk_snp (n_disk n)) as [s|]; [|reflexivity].
  replace (i =? sn_last_log_idx s) with false; [reflexivity|]. symmetry. apply N.eqb_neq. intros E. apply (H s); [reflexivity | congruence].
Qed.

Definition log_check (q : req) (nx : N) : M bool :=
  if rq_last_idx q =? 0 then ret true
  else if rq_last_idx q <? nx then t <- term_for_log (rq_last_idx q) ;; ret (rq_last_term q =? t)
  else ret false.

Lemma log_check_eq : forall n q, 1 <= al_start (n_log n) -> in_reach n q ->
  exists b, log_check q (a_next (n_log n)) n = (ROk b, n, []) /\ (b = true <-> consistent n q).
Proof.
  intros n q Hs [_ Hr]. unfold log_check, consistent. destruct (rq_last_idx q =? 0) eqn:E0.
  { exists true. split; [reflexivity|]. split; [intros _; left; lia | reflexivity]. }
  destruct (rq_last_idx q <? a_next (n_log n)) eqn:E1.
  2:{ exists false. split; [reflexivity|]. split; [discriminate|]. intros [H|[(e & H & _)|(H & _)]]; [lia| |].
      - apply a_get_some in H. lia.
      - unfold a_next in E1. lia. }
  destruct (N.lt_ge_cases (rq_last_idx q) (al_start (n_log n))) as [G|G].
  - destruct Hr as [Hr|[Hr|(s & Hs1 & Hs2)]]; [lia | lia |].
    rewrite (bind_ok _ _ _ _ _ _ _ _ (term_for_log_snp n (rq_last_idx q) s ltac:(lia) Hs1 Hs2)), after_nil.
    eexists. split; [reflexivity|]. split.
    + intros H. right. right. split; [exact G|]. exists s. split; [exact Hs1|]. split; [exact Hs2 | lia].
    + intros [H|[(e & H & _)|(_ & s' & H1 & H2 & H3)]]; [lia| |].
      * apply a_get_some in H. lia.
      * rewrite Hs1 in H1. inversion H1; subst s'. lia.
  - destruct (a_get_in (n_log n) (rq_last_idx q)) as [e He]; [lia|].
    rewrite (bind_ok _ _ _ _ _ _ _ _ (term_for_log_in n _ e Hs He)), after_nil.
    eexists. split; [reflexivity|]. split.
    + intros H. right. left. exists e. split; [exact He | lia].
    + intros [H|[(e' & H & Ht)|(H & _)]]; [lia| |lia]. rewrite He in H. inversion H; subst. lia.
Qed.

Lemma commit_follower : forall t n, n_role n = Follower -> commit t n = (ROk tt, set_quick (N.max (n_quick n) t) n, []).
Proof.
  intros t n H. unfold commit. rewrite bind_get. destruct (n_quick n <? t) eqn:E.
  - rewrite bind_modify, bind_get. cbn [set_quick n_role]. rewrite H. unfold ret. do 3 f_equal. lia.
  - unfold ret. do 2 f_equal. replace (N.max (n_quick n) t) with (n_quick n) by lia. destruct n; reflexivity.
Qed.

Lemma heard_eq : forall n, n_role n <> Leader ->
  match n_role n with Candidate => become_follower | Leader => system_exit (-1) | Follower => restart_election_timer end n
  = (ROk tt, heard n, heard_acts n).
Proof.
  intros n H. destruct n as [x1 x2 x3 x4 x5 x6 x7 x8 x9 x10 x11 x12 x13 x14 x15 x16 x17 x18 x19 x20 x21 x22 x23 x24 x25].
  unfold become_follower, restart_election_timer, heard, heard_acts, bind, get, modify, emit, ret.
  cbn in H |- *. destruct x3; [| |congruence]; destruct x12; cbn; rewrite ?orb_true_r, ?orb_false_r; reflexivity.
Qed.

Definition ae_resp (n : node) (q : req) : resp_msg :=
  mkResp (n_term n) append_entries_response (n_id n) (rq_src q) (a_next (n_log n)) false.

Lemma ae_shape : forall q n, handle_append_entries q n =
  bind (when (rq_term q =? n_term n)
    (match n_role n with Candidate => become_follower | Leader => system_exit (-1) | Follower => restart_election_timer end))
   (fun _ => nx <- next_slot_ ;; b <- log_check q nx ;;
    let resp := mkResp (n_term n) append_entries_response (n_id n) (rq_src q) nx false in
    if (rq_term q <? n_term n) || negb b then ret resp
    else bind (bind (skip_matching (rq_last_idx q + 1) (rq_entries q)) (fun r => bind (overwrite (fst r) (snd r)) append_rest))
      (fun _ => modify (set_leader (rq_src q)) ;;; commit (rq_commit q) ;;; ret (accept (rq_last_idx q + lenN (rq_entries q) + 1) resp))) n.
Proof.
  intros q n. unfold handle_append_entries. rewrite bind_get.
  assert (E : forall A B (m : M A) (f g : A -> M B) x, (forall a y, f a y = g a y) -> bind m f x = bind m g x).
  { intros A B m f g x H. unfold bind. destruct (m x) as [[r n1] l1]. destruct r; try reflexivity. rewrite H. reflexivity. }
  apply E. intros _ y. apply E. intros nx z. apply E. intros b w.
  destruct ((rq_term q <? n_term n) || negb b); [reflexivity|]. rewrite bind_assoc. apply E. intros r v. rewrite bind_assoc. reflexivity.
Qed.

(** rejected *)
Lemma ae_reject_old : forall q n, rq_term q < n_term n -> 1 <= al_start (n_log n) -> in_reach n q ->
  handle_append_entries q n = (ROk (ae_resp n q), n, []).
Proof.
  intros q n Ht Hs Hr. rewrite ae_shape. replace (rq_term q =? n_term n) with false by lia. cbn [when]. rewrite bind_ret.
  unfold next_slot_. rewrite bind_get. destruct (log_check_eq n q Hs Hr) as (b & E & _).
  rewrite (bind_ok _ _ _ _ _ _ _ _ E), after_nil. replace (rq_term q <? n_term n) with true by lia. reflexivity.
Qed.
Lemma ae_reject_log : forall q n, rq_term q = n_term n -> n_role n <> Leader -> 1 <= al_start (n_log n) -> in_reach n q -> ~ consistent n q ->
  handle_append_entries q n = (ROk (ae_resp n q), heard n, heard_acts n).
Proof.
  intros q n Ht Hl Hs Hr Hc. rewrite ae_shape. replace (rq_term q =? n_term n) with true by lia. cbn [when].
  rewrite (bind_ok _ _ _ _ _ _ _ _ (heard_eq n Hl)).
  unfold next_slot_. rewrite bind_get. destruct (log_check_eq (heard n) q Hs Hr) as (b & E & Hb).
  rewrite (bind_ok _ _ _ _ _ _ _ _ E), after_nil. destruct b.
  { destruct Hc. apply Hb. reflexivity. }
  cbn [negb]. rewrite orb_true_r. unfold after, ret. cbn [fst snd]. rewrite app_nil_r. reflexivity.
Qed.
Lemma consistent_next : forall n q, 1 <= al_start (n_log n) -> consistent n q -> rq_last_idx q + 1 <= a_next (n_log n).
Proof.
  intros n q Hs [H|[(e & H & _)|(H & _)]]; [unfold a_next; lia| |unfold a_next; lia].
  apply a_get_some in H. lia.
Qed.
Lemma installed_nil : forall l i, installed l i [] = l.
Proof. reflexivity. Qed.
Lemma set_log_id : forall n, set_log (n_log n) n = n.
Proof. intros n. destruct n as [? ? ? ? ? ? ? ? ? ? ? ? ? ? ? ? ? ? ? ? ? ? ? ? ? d]; destruct d; reflexivity. Qed.
(** accepted *)
Lemma ae_accept : forall q n, rq_term q = n_term n -> n_role n <> Leader -> 1 <= al_start (n_log n) -> in_reach n q -> consistent n q ->
  handle_append_entries q n =
    (ROk (accept (rq_last_idx q + lenN (rq_entries q) + 1) (ae_resp n q)), followed_leader q n,
     heard_acts n ++ install_acts (n_log n) (rq_last_idx q + 1) (rq_entries q)).
Proof.
  intros q n Ht Hl Hs Hr Hc. rewrite ae_shape. replace (rq_term q =? n_term n) with true by lia. cbn [when].
  rewrite (bind_ok _ _ _ _ _ _ _ _ (heard_eq n Hl)).
  unfold next_slot_. rewrite bind_get. destruct (log_check_eq (heard n) q Hs Hr) as (b & E & Hb).
  rewrite (bind_ok _ _ _ _ _ _ _ _ E), after_nil. replace b with true by (symmetry; apply Hb, Hc).
  replace (rq_term q <? n_term n) with false by lia. cbn [negb orb].
  assert (EI : bind (skip_matching (rq_last_idx q + 1) (rq_entries q)) (fun r => bind (overwrite (fst r) (snd r)) append_rest) (heard n) =
    (ROk tt, set_changing (install_changing (n_log n) (rq_last_idx q + 1) (rq_entries q) (n_changing n))
       (set_log (installed (n_log n) (rq_last_idx q + 1) (rq_entries q)) (heard n)),
     install_acts (n_log n) (rq_last_idx q + 1) (rq_entries q))).
  { destruct Hr as [[He|He] _].
    - rewrite He. cbn [skip_matching]. rewrite bind_ret. cbn [fst snd overwrite]. rewrite bind_ret. cbn [append_rest].
      unfold ret. rewrite installed_nil. change (n_log n) with (n_log (heard n)). rewrite set_log_id. do 2 f_equal.
    - apply (install_eq (rq_entries q) (heard n)). split; [exact He | apply consistent_next; assumption]. }
  rewrite (bind_ok _ _ _ _ _ _ _ _ EI), bind_modify.
  erewrite bind_ok; [|apply commit_follower; reflexivity]. rewrite after_nil.
  unfold after, ret. cbn [fst snd]. rewrite app_nil_r. reflexivity.
Qed.
