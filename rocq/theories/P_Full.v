(** * P_Full: files and byte connections together (C102) *)

From Verif Require Import Base Buffer BufferSpec Codec CodecSpec Msg FsLogStore FsLogSpec FsLogCrash Rpc RpcSpec Raft NodeSpec NodeExamples Stack P_Stack Cluster ClusterElect ClusterExamples Bounds BoundsWalk P_Bounds P_Cluster StackCluster P_StackCluster Wire WireFacts P_Wire Full.
Local Open Scope N_scope.

Section Full.
  Variable servers : list srv_config.
  Variable prm : Z -> params.
  Hypothesis HC : cluster_okay servers.
  Variable w0 : fworld.
  Hypothesis H0 : finitial servers w0.

  (** the conditions hold before a step if they hold after it *)
  Definition numbers_fit (w : fworld) : Prop := work servers (fw_world w) + 2 < two64 /\ pieces_fit (fw_world w).
  Lemma fit_event : forall w i x o f ops, In i (ids servers) -> numbers_fit (fnext w i x [o] f ops) -> numbers_fit w.
  Proof.
    intros w i x o f ops Hi [A B]. unfold fnext in A, B. cbn [fw_world] in A, B.
    split; [exact (work_back servers prm _ i x o Hi A) | exact (pieces_back _ _ _ _ B)].
  Qed.
  Lemma fit_start : forall w i x f ops, numbers_fit (fnext w i x [] f ops) -> numbers_fit w.
  Proof.
    intros w i x f ops [A B]. unfold fnext in A, B. cbn [fw_world] in A, B.
    rewrite (proj2 (start_same servers prm (fw_world w) i _)) in A. split; [exact A | exact (pieces_back _ _ _ _ B)].
  Qed.
  Lemma okay_prefix : forall w i x o f ops, stores_okay servers (fnext w i x o f ops) -> stores_okay servers w.
  Proof.
    intros w i x o f ops Ok j Hj. specialize (Ok j Hj). unfold fnext in Ok. cbn [fw_ops] in Ok. unfold put in Ok.
    destruct (j =? i)%Z eqn:Q; [|exact Ok]. assert (j = i) by lia. subst. eapply ops_prefix. exact Ok.
  Qed.

  Lemma greach_freach : forall w, greach servers prm w0 w -> stores_okay servers w -> numbers_fit w -> freach servers prm w0 w.
  Proof.
    intros w R. induction R as [|w w' R IH S]; intros Ok F; [constructor|].
    assert (Pos : stores_okay servers w -> numbers_fit w -> forall i e, In i (ids servers) -> wpossible servers (fw_world w) i e -> possible servers (fw_world w) i e).
    { intros Okw [F1 F2] i e Hi P. destruct (C99_on_files_partial servers prm w0 w H0 (IH Okw (conj F1 F2)) Okw) as [Rw _].
      exact (no_difference servers prm HC (fw_world w0) (proj1 H0) (fw_world w) Rw F1 F2 i e Hi P). }
    destruct S as [i n s e r n' l ops Hi En Ef P E G D | i n s e r n' l ops Hi En Ef P E G D | i n s e r n' p q ops Hi En Ef P E D | i d f z s l Hi Ed Ef Eo A].
    - assert (Okw := okay_prefix _ _ _ _ _ _ Ok). assert (Fw := fit_event _ _ _ _ _ _ Hi F). eapply FReach_S; [exact (IH Okw Fw)|]. eapply FW_event; try eassumption. exact (Pos Okw Fw i e Hi P).
    - assert (Okw := okay_prefix _ _ _ _ _ _ Ok). assert (Fw := fit_event _ _ _ _ _ _ Hi F). eapply FReach_S; [exact (IH Okw Fw)|]. eapply FW_stop; try eassumption. exact (Pos Okw Fw i e Hi P).
    - assert (Okw := okay_prefix _ _ _ _ _ _ Ok). assert (Fw := fit_event _ _ _ _ _ _ Hi F). eapply FReach_S; [exact (IH Okw Fw)|]. eapply FW_crash; try eassumption. exact (Pos Okw Fw i e Hi P).
    - assert (Okw := okay_prefix _ _ _ _ _ _ Ok). assert (Fw := fit_start _ _ _ _ _ F). eapply FReach_S; [exact (IH Okw Fw)|]. eapply FW_start; eassumption.
  Qed.
End Full.

(** C102: Every run of a cluster on files and byte connections is a run of the cluster on
    indexed logs and messages, and every store answers as its server's log. *)
Theorem C102_full_stack_partial : forall servers prm w0 w, cluster_okay servers -> finitial servers w0 -> greach servers prm w0 w ->
  stores_okay servers w -> work servers (fw_world w) + 2 < two64 -> pieces_fit (fw_world w) ->
  reach servers prm (fw_world w0) (fw_world w) /\
  forall i, In i (ids servers) ->
    match w_sys (fw_world w) i, fw_files w i with
    | Up n, Open s => answers_all s (n_log n)
    | Down d, Closed f => forall z, z <> 0%Z -> is_int32 z -> exists s, open_store f z = (Ok tt, s) /\ answers_all s (dk_log d)
    | _, _ => False
    end.
Proof.
  intros servers prm w0 w HC H0 R Ok Hw P. apply C99_on_files_partial; [exact H0 | | exact Ok].
  exact (greach_freach servers prm HC w0 H0 w R Ok (conj Hw P)).
Qed.
Print Assumptions C102_full_stack_partial.

(** C35, C36 and the part of C38 that needs no further rules, for such clusters *)
Theorem C102_one_leader_partial : forall servers prm w0 w, cluster_okay servers -> finitial servers w0 -> greach servers prm w0 w ->
  stores_okay servers w -> work servers (fw_world w) + 2 < two64 -> pieces_fit (fw_world w) ->
  forall i j t, led servers (fw_world w) i t -> led servers (fw_world w) j t -> i = j.
Proof.
  intros servers prm w0 w HC H0 R Ok Hw P. destruct (C102_full_stack_partial servers prm w0 w HC H0 R Ok Hw P) as [R' _].
  exact (C35_one_leader_per_term servers prm _ _ HC (proj1 H0) R').
Qed.
Theorem C102_log_matching_partial : forall servers prm w0 w, cluster_okay servers -> no_snapshots prm -> finitial servers w0 -> greach servers prm w0 w ->
  stores_okay servers w -> work servers (fw_world w) + 2 < two64 -> pieces_fit (fw_world w) ->
  forall i j k e f, In i (ids servers) -> In j (ids servers) ->
  a_get (log_of (fw_world w) i) k = Some e -> a_get (log_of (fw_world w) j) k = Some f -> ev_term e = ev_term f ->
  agree k (log_of (fw_world w) i) (log_of (fw_world w) j).
Proof.
  intros servers prm w0 w HC HS H0 R Ok Hw P. destruct (C102_full_stack_partial servers prm w0 w HC H0 R Ok Hw P) as [R' _].
  exact (C36_log_matching_partial servers prm _ _ HC HS (proj1 H0) R').
Qed.
Theorem C102_same_entry_partial : forall servers prm w0 w, cluster_okay servers -> no_snapshots prm -> finitial servers w0 -> greach servers prm w0 w ->
  stores_okay servers w -> work servers (fw_world w) + 2 < two64 -> pieces_fit (fw_world w) ->
  forall i j k e f, applied servers (fw_world w) i k e -> applied servers (fw_world w) j k f -> ev_term e = ev_term f -> e = f.
Proof.
  intros servers prm w0 w HC HS H0 R Ok Hw P. destruct (C102_full_stack_partial servers prm w0 w HC H0 R Ok Hw P) as [R' _].
  exact (C38_same_term_same_entry_partial servers prm _ _ HC HS (proj1 H0) R').
Qed.
Print Assumptions C102_one_leader_partial.
Print Assumptions C102_log_matching_partial.
Print Assumptions C102_same_entry_partial.

(** ** Runs of clusters on files, in bytes *)

(** the other way round: if at every step the server's world is one of Cluster.v and
    messages are small, a run on files is one on files and bytes *)
Section Back.
  Variable servers : list srv_config.
  Variable prm : Z -> params.
  Hypothesis HC : cluster_okay servers.

  (** requests and answers can be written *)
  Definition writable (w : world) : Prop :=
    (forall j now q l a, In (mkObs (ERequest now q) l a) (w_hist w j) -> lenN (evs_bytes (rq_entries q)) <= 16777216 /\ req_ok q) /\
    (forall j q r, answered w j q r -> resp_ok r).
  Lemma writable_back : forall w i s o, writable (next_world w i s o) -> writable w.
  Proof.
    intros w i s o [A B]. split; [intros j now q l a H; apply (A j now q l a), hist_next, H|].
    intros j q r (now & l & H). apply (B j q r). exists now, l. apply hist_next, H.
  Qed.
  Lemma writable_event : forall w i s e l a, writable (next_world w i s [mkObs e l a]) -> possible servers w i e -> wpossible servers w i e.
  Proof.
    intros w i s e l a W P. assert (Ww := writable_back _ _ _ _ W). destruct e as [| |now q|now uid ext q [r|]| | | | | | |]; try exact P.
    - destruct W as [A _]. destruct (A i now q l a) as [L O].
      { cbn [next_world w_hist]. unfold Cluster.put. rewrite Z.eqb_refl. apply in_or_app. right. left. reflexivity. }
      cbn [wpossible possible] in *. exists [q], [q]. split; [apply wire_one; assumption|]. split; [left; reflexivity|].
      destruct P as [(k & uid & ext & Hk & Hs & Hd)|Cl]; [left | right; constructor; [auto | constructor]].
      exists k. split; [exact Hk|]. intros x [<-|[]]. exists uid, ext. auto.
    - cbn [wpossible possible] in *. destruct P as (Hs & Hd & Ha). destruct Ww as [A B]. split; [exact Hs|]. split; [exact Hd|]. exists [q], [q], 0%nat, q, r.
      split; [intros x [<-|[]]; exists uid, ext; auto|].
      assert (K : lenN (evs_bytes (rq_entries q)) <= 16777216 /\ req_ok q) by (destruct Ha as (t & l0 & Ha); exact (A _ _ _ _ _ Ha)).
      split; [apply wire_one; apply K|]. split; [reflexivity|]. split; [reflexivity|]. split; [exact Ha|]. apply back_ok. exact (B _ _ _ Ha).
  Qed.
  Lemma freach_greach : forall w0 w, freach servers prm w0 w -> writable (fw_world w) -> greach servers prm w0 w.
  Proof.
    intros w0 w R. induction R as [|w w' R IH S]; intros W; [constructor|].
    destruct S as [i n s e r n' l ops Hi En Ef P E G D | i n s e r n' l ops Hi En Ef P E G D | i n s e r n' p q ops Hi En Ef P E D | i d f z s l Hi Ed Ef Eo A]; cbn [fnext fw_world] in W;
      (eapply GReach_S; [apply IH; exact (writable_back _ _ _ _ W)|]).
    - eapply G_event; try eassumption. exact (writable_event _ _ _ _ _ _ W P).
    - eapply G_stop; try eassumption. exact (writable_event _ _ _ _ _ _ W P).
    - eapply G_crash; try eassumption. exact (writable_event _ _ _ _ _ _ W P).
    - eapply G_start; eassumption.
  Qed.
End Back.

(** a decision for concrete runs *)
Definition fine_answer (o : obs) : bool :=
  match o_answer o with Some (Response r) => int32_b (rs_src r) && int32_b (rs_dst r) && (rs_term r <? two64) && (rs_next_idx r <? two64) | _ => true end.
Lemma fhist_outside : forall servers prm w0 w, freach servers prm w0 w -> forall j, ~ In j (ids servers) -> w_hist (fw_world w) j = w_hist (fw_world w0) j.
Proof.
  intros servers prm w0 w R. induction R as [|w w' R IH S]; intros j Hj; [reflexivity|]. rewrite <- (IH j Hj).
  destruct S; cbn [fnext fw_world next_world w_hist]; unfold put; (destruct (j =? i)%Z eqn:E; [|reflexivity]); assert (j = i) by lia; subst; contradiction.
Qed.
Lemma fine_writable : forall w, freach ex_servers (fun _ => ex_prm) ex_fworld w ->
  forallb (fun j => forallb (fun o => fine o && fine_answer o) (w_hist (fw_world w) j)) (ids ex_servers) = true -> writable (fw_world w) /\ pieces_fit (fw_world w).
Proof.
  intros w R F.
  assert (G : forall j o, In o (w_hist (fw_world w) j) -> fine o && fine_answer o = true).
  { intros j o Ho. destruct (in_dec Z.eq_dec j (ids ex_servers)) as [Hj|Hj].
    - rewrite forallb_forall in F. specialize (F j Hj). rewrite forallb_forall in F. exact (F o Ho).
    - rewrite (fhist_outside _ _ _ _ R j Hj) in Ho. destruct (ex_initial j) as [K _]. change (fw_world ex_fworld) with ex_world in Ho. rewrite K in Ho. contradiction. }
  assert (B : forall j q r, answered (fw_world w) j q r -> resp_ok r).
  { intros j q r (now & l & Ha). apply G in Ha. apply andb_prop in Ha. destruct Ha as [_ Ha]. unfold fine_answer in Ha. cbn [o_answer] in Ha.
    repeat (apply andb_prop in Ha; let K := fresh in destruct Ha as [Ha K]). unfold resp_ok, is_int32, is_ulong, int32_b in *. repeat match goal with |- _ /\ _ => split end; lia. }
  split; [split; [|exact B]|].
  - intros j now q l a Hin. apply G in Hin. apply andb_prop in Hin. destruct Hin as [Hin _]. exact (fine_req now q l a Hin).
  - intros j q r Ha _. destruct (B j q r Ha) as (_ & _ & _ & K). exact K.
Qed.

(** With entries of differing lengths two servers still apply different bytes at the same
    index and term (C99_same_entry_refuted), and do so over byte connections. *)
Theorem C102_same_entry_refuted : exists servers prm w0 w i j k e f,
  cluster_okay servers /\ no_snapshots prm /\ finitial servers w0 /\ greach servers prm w0 w /\
  work servers (fw_world w) + 2 < two64 /\ pieces_fit (fw_world w) /\
  applied servers (fw_world w) i k e /\ applied servers (fw_world w) j k f /\ ev_term e = ev_term f /\ ev_data e <> ev_data f.
Proof.
  exists ex_servers, (fun _ => ex_prm), ex_fworld, (ex_frun (overwrite [x61; x62; x63] [x64])), 1%Z, 2%Z, 2, (mkEV 2 app_log [x64; x62; x63]), (mkEV 2 app_log [x64]).
  destruct (fine_writable _ (ex_freach (overwrite [x61; x62; x63] [x64]))) as [W P]; [vm_compute; reflexivity|].
  split; [exact ex_okay|]. split; [exact ex_nosnap|]. split; [exact ex_finitial|].
  split; [exact (freach_greach _ _ _ _ (ex_freach _) W)|]. split; [vm_compute; reflexivity|]. split; [exact P|].
  split; [apply applied_fw; vm_compute; auto|]. split; [apply applied_fw; vm_compute; auto|]. split; [reflexivity|discriminate].
Qed.
Print Assumptions C102_same_entry_refuted.

(** the hypotheses of the theorems above are met by a run with a crash, a restart and an
    entry overwritten by one of the same length *)
Example C102_full_stack_example : exists w, cluster_okay ex_servers /\ no_snapshots (fun _ => ex_prm) /\
  finitial ex_servers ex_fworld /\ greach ex_servers (fun _ => ex_prm) ex_fworld w /\ stores_okay ex_servers w /\
  work ex_servers (fw_world w) + 2 < two64 /\ pieces_fit (fw_world w) /\
  applied ex_servers (fw_world w) 1 2 (mkEV 2 app_log [x64]) /\ applied ex_servers (fw_world w) 2 2 (mkEV 2 app_log [x64]) /\
  In (LWriteAt 2 (mkEV 2 app_log [x64])) (fw_ops w 1) /\ In (LAppend (mkEV 1 app_log [x61])) (fw_ops w 1) /\
  length (filter (fun o => match o with LReopen _ => true | _ => false end) (fw_ops w 1)) = 2%nat.
Proof.
  exists (ex_frun (overwrite [x61] [x64])).
  destruct (fine_writable _ (ex_freach (overwrite [x61] [x64]))) as [W P]; [vm_compute; reflexivity|].
  split; [exact ex_okay|]. split; [exact ex_nosnap|]. split; [exact ex_finitial|].
  split; [exact (freach_greach _ _ _ _ (ex_freach _) W)|]. split; [apply okay_fw; vm_compute; reflexivity|].
  split; [vm_compute; reflexivity|]. split; [exact P|].
  split; [apply applied_fw; vm_compute; auto|]. split; [apply applied_fw; vm_compute; auto|].
  split; [vm_compute; auto 8|]. split; [vm_compute; auto 8|]. vm_compute; reflexivity.
Qed.
