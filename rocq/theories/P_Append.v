(** * Properties C29, C30, C34: append-entries requests *)

From Verif Require Import Base Buffer Codec CodecSpec Msg FsLogStore FsLogSpec Alog Raft NodeSpec NodeExamples ServerSpec NodeFacts AppendFacts.
Local Open Scope N_scope.

(** ** C29: exactly the consistent requests are accepted, and install exactly the leader's entries

    The request has at least the server's term, and the server is not itself
    leader of that term.  [k] is the number of leading entries the server
    already has.  Missing: requests below the compacted part of the log
    ([in_reach]), see [C29_append_refuted]. *)
Theorem C29_append_partial : forall now q n,
  rq_type q = append_entries_request -> n_term n <= rq_term q -> (n_role n = Leader -> n_term n < rq_term q) ->
  1 <= al_start (n_log n) -> in_reach n q ->
  exists r n' l, run_event (ERequest now q) n = (ROk (Response r), n', l) /\
    (rs_accepted r = true <-> consistent n q) /\
    (rs_accepted r = false -> n_log n' = n_log n /\ rs_next_idx r = a_next (n_log n) /\ n_quick n' = n_quick n) /\
    (rs_accepted r = true ->
      rs_next_idx r = rq_last_idx q + lenN (rq_entries q) + 1 /\
      n_leader n' = rq_src q /\ n_quick n' = N.max (n_quick n) (rq_commit q) /\
      exists k, (k <= length (rq_entries q))%nat /\
        (forall j, (j < k)%nat -> exists e e', nth_error (rq_entries q) j = Some e /\
           a_get (n_log n) (rq_last_idx q + 1 + N.of_nat j) = Some e' /\ ev_term e' = ev_term e) /\
        (forall i, i < rq_last_idx q + 1 + N.of_nat k -> a_get (n_log n') i = a_get (n_log n) i) /\
        (k = length (rq_entries q) -> n_log n' = n_log n) /\
        (forall e, nth_error (rq_entries q) k = Some e ->
           (forall e', a_get (n_log n) (rq_last_idx q + 1 + N.of_nat k) = Some e' -> ev_term e' <> ev_term e) /\
           forall j, (k <= j)%nat -> a_get (n_log n') (rq_last_idx q + 1 + N.of_nat j) = nth_error (rq_entries q) j)) /\
    n_smc n' = n_smc n /\ n_config n' = n_config n /\ n_role n' = Follower /\ n_term n' = rq_term q.
Proof.
  intros now q n Ht Hge Hl Hs Hr.
  assert (Ap : process_req now q n = after (arrived_acts (rq_term q) n) (handle_append_entries q (arrived (rq_term q) n))).
  { rewrite process_peer_req; rewrite Ht; reflexivity. }
  set (n1 := arrived (rq_term q) n) in *.
  assert (T1 : rq_term q = n_term n1 /\ n_role n1 <> Leader /\ n_log n1 = n_log n /\ dk_snp (n_disk n1) = dk_snp (n_disk n)
    /\ n_quick n1 = n_quick n /\ n_smc n1 = n_smc n /\ n_config n1 = n_config n).
  { unfold n1, arrived. destruct (n_term n <? rq_term q) eqn:E.
    - change (n_steps (with_term (rq_term q) n)) with (n_steps n).
      destruct (0 <? n_steps n)%Z; (split; [reflexivity|]; split; [discriminate|]; repeat split).
    - destruct (0 <? n_steps n)%Z; (split; [cbn [set_steps n_term]; lia|]; split; [cbn [set_steps n_role]; intros R; specialize (Hl R); lia|]; repeat split). }
  destruct T1 as (T1 & R1 & L1 & S1 & Q1 & M1 & C1).
  assert (Hr1 : in_reach n1 q) by (unfold in_reach; rewrite L1, S1; exact Hr).
  assert (HC : consistent n1 q <-> consistent n q) by (unfold consistent; rewrite L1, S1; reflexivity).
  assert (Hs1 : 1 <= al_start (n_log n1)) by (rewrite L1; exact Hs).
  destruct (log_check_eq n1 q Hs1 Hr1) as (b & _ & Hb). destruct b.
  - assert (Hc := proj1 Hb eq_refl).
    cbn [run_event]. erewrite bind_ok by (rewrite Ap, (ae_accept q n1 T1 R1 Hs1 Hr1 Hc); reflexivity).
    unfold after, ret. cbn [fst snd]. eexists _, _, _. split; [reflexivity|].
    split; [split; [intros _; apply HC, Hc | reflexivity]|]. split; [discriminate|]. split.
    + intros _. split; [reflexivity|]. split; [reflexivity|]. split; [cbn; rewrite Q1; reflexivity|].
      change (n_log (followed_leader q n1)) with (installed (n_log n1) (rq_last_idx q + 1) (rq_entries q)). rewrite L1.
      exists (already (n_log n) (rq_last_idx q + 1) (rq_entries q)).
      split; [apply already_le|]. split; [intros j Hj; apply already_in, Hj|].
      assert (Hbd : rq_entries q = [] \/ al_start (n_log n) <= rq_last_idx q + 1 + N.of_nat (already (n_log n) (rq_last_idx q + 1) (rq_entries q)) <= a_next (n_log n)).
      { destruct Hr as [[He|He] _]; [left; exact He | right]. split; [lia|]. apply already_bound; [exact He|].
        apply HC in Hc. apply consistent_next; assumption. }
      unfold installed. destruct (Nat.eqb_spec (already (n_log n) (rq_last_idx q + 1) (rq_entries q)) (length (rq_entries q))) as [E|E].
      * split; [reflexivity|]. split; [reflexivity|]. intros e He. rewrite E in He.
        assert (nth_error (rq_entries q) (length (rq_entries q)) <> None) by congruence.
        apply nth_error_Some in H. lia.
      * destruct Hbd as [Hbd|Hbd]; [rewrite Hbd in E; destruct E; reflexivity|].
        split; [intros i Hi; apply a_get_replace_lt; assumption|]. split; [intros; contradiction|].
        intros e He. split.
        { intros e' He'. assert (A := already_stop _ _ _ _ He). rewrite He' in A. exact A. }
        intros j Hj. rewrite a_get_replace_ge by lia.
        replace (N.to_nat (rq_last_idx q + 1 + N.of_nat j - (rq_last_idx q + 1 + N.of_nat (already (n_log n) (rq_last_idx q + 1) (rq_entries q)))))
          with (j - already (n_log n) (rq_last_idx q + 1) (rq_entries q))%nat by lia.
        rewrite nth_skipn. f_equal. lia.
    + split; [exact M1|]. split; [exact C1|]. split; [reflexivity|]. symmetry. exact T1.
  - assert (Hc : ~ consistent n1 q) by (intros H; apply Hb in H; discriminate).
    cbn [run_event]. erewrite bind_ok by (rewrite Ap, (ae_reject_log q n1 T1 R1 Hs1 Hr1 Hc); reflexivity).
    unfold after, ret. cbn [fst snd]. eexists _, _, _. split; [reflexivity|].
    split; [split; [discriminate | intros H; apply HC in H; contradiction]|].
    split.
    { intros _. split; [exact L1|]. split; [cbn; rewrite L1; reflexivity | exact Q1]. }
    split; [discriminate|]. split; [exact M1|]. split; [exact C1|]. split; [reflexivity|]. symmetry. exact T1.
Qed.

(** a follower with entries of terms 1 1 2 2; the leader of term 3 replaces the last two *)
Definition ex_f1 : node :=
  start_node 1 ex_prm (mkDisk (Some (2, (-1)%Z)) ex_cfg (mkAL 1 [ex_ent 1 x61; ex_ent 1 x62; ex_ent 2 x63; ex_ent 2 x64]) 0 None []).
Definition ex_q1 : req := ex_ae 3 2 1 1 2 [ex_ent 1 x62; ex_ent 3 x65; ex_ent 3 x66; ex_ent 3 x67].
Example C29_example :
  (rq_type ex_q1 = append_entries_request /\ n_term ex_f1 <= rq_term ex_q1 /\ (n_role ex_f1 = Leader -> n_term ex_f1 < rq_term ex_q1) /\
   1 <= al_start (n_log ex_f1) /\ in_reach ex_f1 ex_q1 /\ consistent ex_f1 ex_q1) /\
  (let '(r, n', l) := run_event (ERequest 0 ex_q1) ex_f1 in
   r = ROk (Response (mkResp 3 append_entries_response 1 2 6 true)) /\
   al_ents (n_log n') = [ex_ent 1 x61; ex_ent 1 x62; ex_ent 3 x65; ex_ent 3 x66; ex_ent 3 x67]).
Proof.
  split.
  - split; [reflexivity|]. split; [cbn; lia|]. split; [discriminate|]. split; [cbn; lia|]. split.
    + split; [right; cbn; lia | right; left; cbn; lia].
    + right. left. exists (ex_ent 1 x61). split; reflexivity.
  - vm_compute. split; reflexivity.
Qed.

(** A request with previous index 0 should always be accepted; on a server with a
    compacted log it ends in an exception when it carries entries. *)
Definition ex_f2 : node :=
  start_node 1 ex_prm (mkDisk (Some (2, (-1)%Z)) ex_cfg (mkAL 3 [ex_ent 2 x63; ex_ent 2 x64]) 3 (Some (mkSnp 2 1 0 ex_cfg)) []).
Theorem C29_append_refuted : exists now q n,
  rq_type q = append_entries_request /\ n_term n <= rq_term q /\ n_role n = Follower /\ 1 <= al_start (n_log n) /\
  rq_last_idx q = 0 /\ forall r, fst (fst (run_event (ERequest now q) n)) <> ROk (Response r).
Proof.
  exists 0, (ex_ae 2 2 0 0 0 [ex_ent 1 x61]), ex_f2.
  split; [reflexivity|]. split; [cbn; lia|]. split; [reflexivity|]. split; [cbn; lia|]. split; [reflexivity|].
  intros r. vm_compute. discriminate.
Qed.

(** ** C30: duplicated and delayed requests

    a request whose entries are all in the log changes nothing in the log and
    calls neither rollback nor pre_commit *)
Definition log_call (a : act) : Prop :=
  match a with
  | AAppend _ | AWriteAt _ _ | AApplyPack _ _ | ACompact _ | ARollback _ _ | APreCommit _ _ | ACommit _ _ => True
  | _ => False
  end.
Lemma after_inv : forall A (l : list act) (x : rout A * node * list act) r n' l', after l x = (r, n', l') ->
  exists l2, x = (r, n', l2) /\ l' = l ++ l2.
Proof. intros A l [[r0 n0] l0] r n' l' H. inversion H; subst. exists l0. split; reflexivity. Qed.
Lemma arrived_log : forall t n, n_log (arrived t n) = n_log n /\ dk_snp (n_disk (arrived t n)) = dk_snp (n_disk n) /\
  n_term (arrived t n) = N.max (n_term n) t /\ n_quick (arrived t n) = n_quick n /\ n_leader (arrived t n) = n_leader n /\
  (n_term n < t -> n_role (arrived t n) = Follower) /\ (t <= n_term n -> n_role (arrived t n) = n_role n).
Proof.
  intros t n. unfold arrived. destruct (n_term n <? t) eqn:E.
  - change (n_steps (with_term t n)) with (n_steps n). destruct (0 <? n_steps n)%Z;
      (split; [reflexivity|]; split; [reflexivity|]; split; [cbn; lia|]; split; [reflexivity|]; split; [reflexivity|]; split; [reflexivity | lia]).
  - destruct (0 <? n_steps n)%Z;
      (split; [reflexivity|]; split; [reflexivity|]; split; [cbn [set_steps n_term]; lia|]; split; [reflexivity|]; split; [reflexivity|]; split; [lia | reflexivity]).
Qed.
Lemma arrived_acts_log : forall t n, Forall (fun a => ~ log_call a) (arrived_acts t n).
Proof. intros t n. unfold arrived_acts. destruct (_ <? _), (n_catching n); repeat constructor; intros H; exact H. Qed.

Theorem C30_duplicate_partial : forall now q n,
  rq_type q = append_entries_request -> n_term n <= rq_term q -> (n_role n = Leader -> n_term n < rq_term q) ->
  1 <= al_start (n_log n) -> in_reach n q -> consistent n q ->
  (forall j e, nth_error (rq_entries q) j = Some e -> a_get (n_log n) (rq_last_idx q + 1 + N.of_nat j) = Some e) ->
  exists r n' l, run_event (ERequest now q) n = (ROk (Response r), n', l) /\ rs_accepted r = true /\
    n_log n' = n_log n /\ Forall (fun a => ~ log_call a) l.
Proof.
  intros now q n Ht Hge Hl Hs Hr Hc Hall.
  destruct (arrived_log (rq_term q) n) as (L1 & S1 & T1 & _ & _ & R1 & R2).
  assert (Ap : process_req now q n = after (arrived_acts (rq_term q) n) (handle_append_entries q (arrived (rq_term q) n)))
    by (rewrite process_peer_req; rewrite Ht; reflexivity).
  assert (AA := arrived_acts_log (rq_term q) n).
  set (n1 := arrived (rq_term q) n) in *.
  assert (E : handle_append_entries q n1 =
    (ROk (accept (rq_last_idx q + lenN (rq_entries q) + 1) (ae_resp n1 q)), followed_leader q n1,
     heard_acts n1 ++ install_acts (n_log n1) (rq_last_idx q + 1) (rq_entries q))).
  { apply ae_accept; [rewrite T1; lia | | rewrite L1; exact Hs | | ].
    - destruct (N.lt_ge_cases (n_term n) (rq_term q)) as [G|G]; [rewrite (R1 G); discriminate | rewrite (R2 G)].
      intros R. specialize (Hl R). lia.
    - unfold in_reach. rewrite L1, S1. exact Hr.
    - unfold consistent. rewrite L1, S1. exact Hc. }
  assert (K : already (n_log n) (rq_last_idx q + 1) (rq_entries q) = length (rq_entries q)).
  { clear - Hall. revert Hall. generalize (rq_last_idx q + 1). induction (rq_entries q) as [|e es IH]; intros i H; cbn [already length]; [reflexivity|].
    rewrite (eq_trans (f_equal (a_get (n_log n)) (eq_sym (N.add_0_r i))) (H 0%nat e eq_refl)). rewrite N.eqb_refl. f_equal. apply IH.
    intros j e' He. rewrite <- (H (S j) e' He). f_equal. lia. }
  cbn [run_event]. erewrite bind_ok by (rewrite Ap, E; reflexivity). unfold after, ret. cbn [fst snd].
  eexists _, _, _. split; [reflexivity|]. split; [reflexivity|]. split.
  - change (n_log (followed_leader q n1)) with (installed (n_log n1) (rq_last_idx q + 1) (rq_entries q)).
    rewrite L1. unfold installed. rewrite K, Nat.eqb_refl. reflexivity.
  - rewrite app_nil_r. apply Forall_app. split; [exact AA|]. apply Forall_app. split.
    + unfold heard_acts. destruct (n_catching n1), (n_role n1); repeat constructor; intros H; exact H.
    + rewrite L1. unfold install_acts. rewrite K, skipn_all. constructor.
Qed.

(** a request of an older term changes nothing (a countdown to leave restarts) *)
Theorem C30_old_term_partial : forall now q n,
  rq_type q = append_entries_request -> rq_term q < n_term n -> 1 <= al_start (n_log n) -> in_reach n q ->
  exists r, run_event (ERequest now q) n =
    (ROk (Response r), (if (0 <? n_steps n)%Z then set_steps 2 n else n), []) /\ rs_accepted r = false.
Proof.
  intros now q n Ht Hlt Hs Hr.
  assert (Ap : process_req now q n = after (arrived_acts (rq_term q) n) (handle_append_entries q (arrived (rq_term q) n)))
    by (rewrite process_peer_req; rewrite Ht; reflexivity).
  unfold arrived, arrived_acts in Ap. replace (n_term n <? rq_term q) with false in Ap by lia. rewrite after_nil in Ap.
  set (n1 := if (0 <? n_steps n)%Z then set_steps 2 n else n) in *.
  assert (F : n_log n1 = n_log n /\ dk_snp (n_disk n1) = dk_snp (n_disk n) /\ n_term n1 = n_term n)
    by (unfold n1; destruct (0 <? n_steps n)%Z; repeat split).
  destruct F as (F1 & F2 & F3).
  assert (E : handle_append_entries q n1 = (ROk (ae_resp n1 q), n1, [])).
  { apply ae_reject_old; [lia | rewrite F1; exact Hs|]. unfold in_reach. rewrite F1, F2. exact Hr. }
  cbn [run_event]. erewrite bind_ok by (rewrite Ap, E; reflexivity).
  exists (ae_resp n1 q). split; reflexivity.
Qed.
Definition ex_dup : req := ex_ae 2 2 1 1 1 [ex_ent 1 x62; ex_ent 2 x63].
Example C30_example :
  in_reach ex_f1 ex_dup /\ consistent ex_f1 ex_dup /\ n_term ex_f1 <= rq_term ex_dup /\
  (forall j e, nth_error (rq_entries ex_dup) j = Some e -> a_get (n_log ex_f1) (rq_last_idx ex_dup + 1 + N.of_nat j) = Some e) /\
  in_reach ex_f1 (ex_ae 1 2 1 1 1 [ex_ent 1 x62]) /\ 1 < n_term ex_f1.
Proof.
  split; [split; [right; cbn; lia | right; left; cbn; lia]|].
  split; [right; left; exists (ex_ent 1 x61); split; reflexivity|].
  split; [cbn; lia|]. split.
  { intros [|[|j]] e H; cbn in H; [inversion H; reflexivity | inversion H; reflexivity | destruct j; discriminate]. }
  split; [|cbn; lia]. split; [right; cbn; lia | right; left; cbn; lia].
Qed.

(** A delayed request (even of an old term) that refers to an index the server
    has compacted meanwhile ends the process. *)
Definition ex_f3 : node :=
  start_node 1 ex_prm (mkDisk (Some (2, (-1)%Z)) ex_cfg (mkAL 4 [ex_ent 2 x64]) 3 (Some (mkSnp 3 2 0 ex_cfg)) []).
Theorem C30_delayed_refuted : exists now q n,
  rq_type q = append_entries_request /\ rq_term q < n_term n /\ n_role n = Follower /\
  (* the server has applied all the request is about *)
  rq_last_idx q + lenN (rq_entries q) <= n_smc n /\
  fst (fst (run_event (ERequest now q) n)) = RExit.
Proof.
  exists 0, (ex_ae 1 2 1 1 1 [ex_ent 1 x62]), ex_f3.
  split; [reflexivity|]. split; [cbn; lia|]. split; [reflexivity|]. split; [cbn; lia|]. vm_compute. reflexivity.
Qed.

(** ** C34: removed entries are rolled back

    Only the first removed entry is: the theorem says that this one is, that a
    rollback is called for nothing else, and that pre_commit is called for
    every new application entry with its index.  Missing: the entries after the
    first removed one ([C34_rollback_refuted]). *)
Lemma append_acts_rollback : forall es i j e, ~ In (ARollback j e) (append_acts i es).
Proof.
  induction es as [|x es IH]; intros i j e H; cbn [append_acts] in H; [exact H|].
  destruct H as [H|H]; [discriminate|]. apply in_app_or in H. destruct H as [H|H]; [|apply (IH _ _ _ H)].
  unfold pre in H. destruct (beq _ _); [destruct H as [H|[]]; discriminate | exact H].
Qed.
Lemma append_acts_pre : forall es i k e, nth_error es k = Some e -> ev_type e = app_log ->
  In (APreCommit (i + N.of_nat k) e) (append_acts i es).
Proof.
  induction es as [|x es IH]; intros i [|k] e H Ht; cbn [nth_error append_acts] in *; try discriminate; right; apply in_or_app.
  - inversion H; subst. left. unfold pre. rewrite Ht. rewrite N.add_0_r. left. reflexivity.
  - right. replace (i + N.of_nat (S k)) with (i + 1 + N.of_nat k) by lia. apply IH; assumption.
Qed.
Lemma append_acts_pre_only : forall es i j e, In (APreCommit j e) (append_acts i es) ->
  exists k, nth_error es k = Some e /\ j = i + N.of_nat k /\ ev_type e = app_log.
Proof.
  induction es as [|x es IH]; intros i j e H; cbn [append_acts] in H; [destruct H|].
  destruct H as [H|H]; [discriminate|]. apply in_app_or in H. destruct H as [H|H].
  - unfold pre in H. destruct (beq (ev_type x) app_log) eqn:E; [|destruct H]. destruct H as [H|[]]. inversion H; subst.
    exists 0%nat. split; [reflexivity|]. split; [lia|]. apply Byte.byte_dec_bl. exact E.
  - destruct (IH _ _ _ H) as (k & H1 & H2 & H3). exists (S k). split; [exact H1|]. split; [lia | exact H3].
Qed.
Lemma acts_no_rb : forall t n j e, ~ In (ARollback j e) (arrived_acts t n) /\ ~ In (APreCommit j e) (arrived_acts t n).
Proof.
  intros t n j e. assert (H := arrived_acts_log t n). rewrite Forall_forall in H. split; intros Hin; apply (H _ Hin); exact I.
Qed.
Lemma heard_no_rb : forall n j e, ~ In (ARollback j e) (heard_acts n) /\ ~ In (APreCommit j e) (heard_acts n).
Proof. intros n j e. unfold heard_acts. destruct (n_catching n), (n_role n); split; intros H; cbn in H; intuition discriminate. Qed.

Theorem C34_rollback_partial : forall now q n,
  rq_type q = append_entries_request -> n_term n <= rq_term q -> (n_role n = Leader -> n_term n < rq_term q) ->
  1 <= al_start (n_log n) -> in_reach n q -> consistent n q ->
  exists r n' l, run_event (ERequest now q) n = (ROk (Response r), n', l) /\
    (forall i e, (forall j, j < i -> a_get (n_log n') j = a_get (n_log n) j) ->
       a_get (n_log n) i = Some e -> ev_type e = app_log -> a_get (n_log n') i <> Some e -> In (ARollback i e) l) /\
    (forall i e, In (ARollback i e) l -> a_get (n_log n) i = Some e /\ a_get (n_log n') i <> Some e) /\
    (forall i e, In (APreCommit i e) l <->
       ev_type e = app_log /\ rq_last_idx q + 1 + N.of_nat (already (n_log n) (rq_last_idx q + 1) (rq_entries q)) <= i /\
       a_get (n_log n') i = Some e /\ nth_error (rq_entries q) (N.to_nat (i - (rq_last_idx q + 1))) = Some e).
Proof.
  intros now q n Ht Hge Hl Hs Hr Hc.
  destruct (arrived_log (rq_term q) n) as (L1 & S1 & T1 & _ & _ & R1 & R2).
  assert (Ap : process_req now q n = after (arrived_acts (rq_term q) n) (handle_append_entries q (arrived (rq_term q) n)))
    by (rewrite process_peer_req; rewrite Ht; reflexivity).
  assert (AA := acts_no_rb (rq_term q) n).
  set (n1 := arrived (rq_term q) n) in *.
  assert (E : handle_append_entries q n1 =
    (ROk (accept (rq_last_idx q + lenN (rq_entries q) + 1) (ae_resp n1 q)), followed_leader q n1,
     heard_acts n1 ++ install_acts (n_log n1) (rq_last_idx q + 1) (rq_entries q))).
  { apply ae_accept; [rewrite T1; lia | | rewrite L1; exact Hs | | ].
    - destruct (N.lt_ge_cases (n_term n) (rq_term q)) as [G|G]; [rewrite (R1 G); discriminate | rewrite (R2 G)].
      intros R. specialize (Hl R). lia.
    - unfold in_reach. rewrite L1, S1. exact Hr.
    - unfold consistent. rewrite L1, S1. exact Hc. }
  cbn [run_event]. erewrite bind_ok by (rewrite Ap, E; reflexivity). unfold after, ret. cbn [fst snd].
  eexists _, _, _. split; [reflexivity|].
  change (n_log (followed_leader q n1)) with (installed (n_log n1) (rq_last_idx q + 1) (rq_entries q)).
  rewrite L1, app_nil_r. assert (HH := heard_no_rb n1).
  set (base := rq_last_idx q + 1) in *. set (es := rq_entries q) in *.
  assert (Hle := already_le es (n_log n) base).
  assert (Hbd : es = [] \/ al_start (n_log n) <= base + N.of_nat (already (n_log n) base es) <= a_next (n_log n)).
  { destruct Hr as [[He|He] _]; [left; exact He | right]. split; [lia|]. apply already_bound; [exact He|].
    apply consistent_next; assumption. }
  assert (Hstop := already_stop es (n_log n) base).
  assert (Inst : forall i, i < base + N.of_nat (already (n_log n) base es) -> a_get (installed (n_log n) base es) i = a_get (n_log n) i).
  { intros i Hi. unfold installed. destruct (Nat.eqb_spec (already (n_log n) base es) (length es)) as [Heq|Hne]; [reflexivity|]. destruct Hbd as [Hbd|Hbd].
    - exfalso. apply Hne. rewrite Hbd. reflexivity.
    - apply a_get_replace_lt; assumption. }
  unfold install_acts, installed in *. set (k := already (n_log n) base es) in *. set (j := base + N.of_nat k) in *.
  destruct (skipn k es) as [|e0 rest] eqn:Es.
  - assert (Hk : k = length es). { assert (L := skipn_length k es). rewrite Es in L. cbn in L. lia. }
    replace (Nat.eqb k (length es)) with true in * by (symmetry; apply Nat.eqb_eq; exact Hk). split; [|split].
    + intros i e _ Hg _ Hn. contradiction.
    + intros i e H. exfalso. rewrite app_nil_r in H. apply in_app_or in H. destruct H as [H|H]; [apply (proj1 (AA i e)), H | apply (proj1 (HH i e)), H].
    + intros i e. split.
      * intros H. exfalso. rewrite app_nil_r in H. apply in_app_or in H. destruct H as [H|H]; [apply (proj2 (AA i e)), H | apply (proj2 (HH i e)), H].
      * intros (_ & H1 & _ & H2). exfalso. assert (nth_error es (N.to_nat (i - base)) <> None) by congruence.
        apply nth_error_Some in H. unfold j in H1. lia.
  - replace (Nat.eqb k (length es)) with false in *.
    2:{ symmetry. apply Nat.eqb_neq. intros G. rewrite G, skipn_all in Es. discriminate. }
    destruct Hbd as [Hbd|Hbd]; [rewrite Hbd, skipn_nil in Es; discriminate|].
    assert (He0 := skipn_nth _ _ _ _ _ Es). specialize (Hstop _ He0). fold j in Hstop.
    assert (Hnth : forall i, j <= i -> nth_error (e0 :: rest) (N.to_nat (i - j)) = nth_error es (N.to_nat (i - base))).
    { intros i Hi. rewrite <- Es, nth_skipn. f_equal. unfold j in *. lia. }
    assert (Hget : forall i, j <= i -> a_get (a_replace (n_log n) j (e0 :: rest)) i = nth_error es (N.to_nat (i - base))).
    { intros i Hi. rewrite a_get_replace_ge by assumption. apply Hnth, Hi. }
    assert (Hj0 : a_get (a_replace (n_log n) j (e0 :: rest)) j = Some e0).
    { rewrite a_get_replace_ge by lia. rewrite N.sub_diag. reflexivity. }
    destruct (a_get (n_log n) j) as [old|] eqn:Eg.
    + assert (Hne : a_get (a_replace (n_log n) j (e0 :: rest)) j <> Some old) by (rewrite Hj0; intros G; inversion G; subst; apply Hstop; reflexivity).
      split; [|split].
      * intros i e Hpre Hg Hty Hn.
        assert (Hij : i = j).
        { destruct (N.lt_trichotomy i j) as [G|[G|G]]; [destruct Hn; rewrite Inst; assumption | exact G|].
          specialize (Hpre j G). rewrite Hpre in Hne. contradiction. }
        subst i. rewrite Eg in Hg. inversion Hg; subst e.
        apply in_or_app. right. apply in_or_app. right. apply in_or_app. left. rewrite Hty. left. reflexivity.
      * intros i e H. apply in_app_or in H. destruct H as [H|H]; [destruct (proj1 (AA i e) H)|].
        apply in_app_or in H. destruct H as [H|H]; [destruct (proj1 (HH i e) H)|].
        apply in_app_or in H. destruct H as [H|H].
        { destruct (beq (ev_type old) app_log); [|destruct H]. destruct H as [H|[]]. inversion H; subst. split; [exact Eg | exact Hne]. }
        exfalso. destruct H as [H|H]; [discriminate|]. apply in_app_or in H. destruct H as [H|H].
        { unfold pre in H. destruct (beq _ _); [destruct H as [H|[]]; discriminate | exact H]. }
        apply (append_acts_rollback _ _ _ _ H).
      * intros i e. split.
        { intros H. apply in_app_or in H. destruct H as [H|H]; [destruct (proj2 (AA i e) H)|].
          apply in_app_or in H. destruct H as [H|H]; [destruct (proj2 (HH i e) H)|].
          apply in_app_or in H. destruct H as [H|H].
          { destruct (beq (ev_type old) app_log); [|destruct H]. destruct H as [H|[]]. discriminate. }
          destruct H as [H|H]; [discriminate|].
          assert (G : exists m, nth_error (e0 :: rest) m = Some e /\ i = j + N.of_nat m /\ ev_type e = app_log).
          { apply (append_acts_pre_only (e0 :: rest) j i e). cbn [append_acts]. right. exact H. }
          destruct G as (m & G1 & G2 & G3). split; [exact G3|]. split; [lia|].
          rewrite Hget by lia. assert (G4 := Hnth i ltac:(lia)). replace (N.to_nat (i - j)) with m in G4 by lia.
          rewrite <- G4, G1. split; reflexivity. }
        { intros (Hty & Hi & _ & Hn). apply in_or_app. right. apply in_or_app. right. apply in_or_app. right. right.
          rewrite <- Hnth in Hn by exact Hi.
          assert (G := append_acts_pre (e0 :: rest) j (N.to_nat (i - j)) e Hn Hty).
          replace (j + N.of_nat (N.to_nat (i - j))) with i in G by lia. cbn [append_acts] in G. destruct G as [G|G]; [discriminate | exact G]. }
    + split; [|split].
      * intros i e Hpre Hg Hty Hn. exfalso.
        destruct (N.lt_ge_cases i j) as [G|G]; [destruct Hn; rewrite Inst; assumption|].
        assert (Hjn : ~ j < a_next (n_log n)).
        { intros Hlt. destruct (a_get_in (n_log n) j); [lia | congruence]. }
        apply a_get_some in Hg. lia.
      * intros i e H. exfalso. apply in_app_or in H. destruct H as [H|H]; [apply (proj1 (AA i e)), H|].
        apply in_app_or in H. destruct H as [H|H]; [apply (proj1 (HH i e)), H|]. apply (append_acts_rollback _ _ _ _ H).
      * intros i e. split.
        { intros H. apply in_app_or in H. destruct H as [H|H]; [destruct (proj2 (AA i e) H)|].
          apply in_app_or in H. destruct H as [H|H]; [destruct (proj2 (HH i e) H)|].
          destruct (append_acts_pre_only _ _ _ _ H) as (m & G1 & G2 & G3).
          split; [exact G3|]. split; [lia|].
          rewrite Hget by lia. assert (G4 := Hnth i ltac:(lia)). replace (N.to_nat (i - j)) with m in G4 by lia.
          rewrite <- G4, G1. split; reflexivity. }
        { intros (Hty & Hi & _ & Hn). apply in_or_app. right. apply in_or_app. right.
          rewrite <- Hnth in Hn by exact Hi.
          assert (G := append_acts_pre (e0 :: rest) j (N.to_nat (i - j)) e Hn Hty).
          replace (j + N.of_nat (N.to_nat (i - j))) with i in G by lia. exact G. }
Qed.
Example C34_example :
  in_reach ex_f1 ex_q1 /\ consistent ex_f1 ex_q1 /\
  In (ARollback 3 (ex_ent 2 x63)) (snd (run_event (ERequest 0 ex_q1) ex_f1)) /\
  In (APreCommit 4 (ex_ent 3 x66)) (snd (run_event (ERequest 0 ex_q1) ex_f1)).
Proof.
  split; [split; [right; cbn; lia | right; left; cbn; lia]|].
  split; [right; left; exists (ex_ent 1 x61); split; reflexivity|].
  split; vm_compute; tauto.
Qed.

(** The entry with index 4 was pre-committed when it arrived; it is removed by
    the request above, but never rolled back. *)
Definition ex_rb : list obs * sys :=
  run_cmds 1 ex_prm (Down ex_disk)
    [CStart; CEvent (ERequest 0 (ex_ae 2 2 0 0 0 [ex_ent 2 x61; ex_ent 2 x62]));
     CEvent (ERequest 0 (ex_ae 3 3 0 0 0 [ex_ent 3 x63; ex_ent 3 x64]))].
Theorem C34_rollback_refuted : exists id pm d h n i e,
  disk_okay d /\ life id pm (Down d) h (Up n) /\ ev_type e = app_log /\
  In (APreCommit i e) (acts_of h) /\ a_get (n_log n) i <> Some e /\ ~ In (ARollback i e) (acts_of h).
Proof.
  exists 1%Z, ex_prm, ex_disk, (fst ex_rb), (match snd ex_rb with Up n => n | Down d => start_node 1 ex_prm d end), 2, (ex_ent 2 x62).
  split; [unfold disk_okay; cbn; lia|]. split.
  { replace (Up (match snd ex_rb with Up n => n | Down d => start_node 1 ex_prm d end)) with (snd ex_rb) by (vm_compute; reflexivity).
    apply run_cmds_life. }
  split; [reflexivity|]. split; [vm_compute; tauto|]. split; [vm_compute; discriminate|].
  vm_compute. intuition discriminate.
Qed.

Print Assumptions C29_append_partial.
Print Assumptions C29_append_refuted.
Print Assumptions C30_duplicate_partial.
Print Assumptions C30_old_term_partial.
Print Assumptions C30_delayed_refuted.
Print Assumptions C34_rollback_partial.
Print Assumptions C34_rollback_refuted.
