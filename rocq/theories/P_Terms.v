(** * Properties C26, C27: terms and votes over the life of a server *)

From Coq Require Import Sorting.Sorted.
From Verif Require Import Base Buffer Codec CodecSpec Msg FsLogStore FsLogSpec Raft RaftTrace3 NodeSpec NodeLife NodeExamples.
Local Open Scope N_scope.

(** ** C26: a server's term never goes backwards

    The terms saved through save_state during a life (any events, crashes after
    any action, restarts), preceded by the term on disk at the beginning and
    followed by the one at the end, never decrease; a running server's term is
    the saved one.  Missing: join_cluster requests ([C26_term_monotone_refuted]). *)
Theorem C26_term_monotone_partial : forall id pm d h s,
  disk_okay d -> life id pm (Down d) h s -> without join_cluster_request h ->
  StronglySorted N.le (fst (saved d) :: map fst (saves (acts_of h)) ++ [fst (saved (sys_disk s))]) /\
  (forall n, s = Up n -> n_term n = fst (saved (n_disk n))).
Proof.
  intros id pm d h s Hd H Hw. split.
  - apply (tv_chain_sorted _ _ _ (life_chain id pm (Down d) h s H Hd Hw)).
  - intros n ->. exact (life_term id pm (Down d) h n H Hd).
Qed.

(** timeout, higher vote request, crash in the middle of handling another one, restart *)
Definition ex_life_cmds : list cmd :=
  [CStart; CEvent EElection; CEvent (ERequest 0 (ex_vote 5 2 0 0));
   CCrash (ERequest 0 (ex_vote 7 3 0 0)) 1; CStart; CEvent (ERequest 0 (ex_vote 7 2 0 0))].
Definition ex_life : list obs * sys := run_cmds 1 ex_prm (Down ex_disk) ex_life_cmds.
Example C26_example :
  disk_okay ex_disk /\ life 1 ex_prm (Down ex_disk) (fst ex_life) (snd ex_life) /\ without join_cluster_request (fst ex_life) /\
  saves (acts_of (fst ex_life)) = [(1, (-1)%Z); (1, 1%Z); (5, (-1)%Z); (5, 2%Z); (7, (-1)%Z); (7, 2%Z)].
Proof.
  split; [unfold disk_okay; cbn; lia|]. split; [apply run_cmds_life|].
  split; [apply withoutb_ok; vm_compute; reflexivity | vm_compute; reflexivity].
Qed.

(** A join request makes any server adopt the sender's term, whatever it is. *)
Definition ex_back : list obs * sys :=
  run_cmds 1 ex_prm (Down ex_disk) [CStart; CEvent (ERequest 0 (ex_vote 5 2 0 0)); CEvent (ERequest 0 (ex_join 2 3))].
Theorem C26_term_monotone_refuted : exists id pm d h s,
  disk_okay d /\ life id pm (Down d) h s /\
  ~ StronglySorted N.le (map fst (saves (acts_of h))).
Proof.
  exists 1%Z, ex_prm, ex_disk, (fst ex_back), (snd ex_back).
  split; [unfold disk_okay; cbn; lia|]. split; [apply run_cmds_life|].
  replace (map fst (saves (acts_of (fst ex_back)))) with [5; 5; 2] by (vm_compute; reflexivity).
  intros H. inversion H as [|a l H1 H2]; subst. inversion H2 as [|b m _ H3]; subst. inversion H3; subst. lia.
Qed.

(** ** C27: at most one vote per term, saved before it is given

    Over a whole life, with crashes after any action: two votes for the same
    term (accepted vote requests, or the server's own candidacies) are for the
    same candidate.  Missing: join_cluster requests. *)
Theorem C27_one_vote_per_term_partial : forall id pm d h s,
  disk_okay d -> life id pm (Down d) h s -> without join_cluster_request h -> retries_okay h -> ids_okay id h ->
  forall t c1 c2, vote_in h t c1 -> vote_in h t c2 -> c1 = c2.
Proof.
  intros id pm d h s Hd H Hw Hr Hi t c1 c2 V1 V2.
  assert (HC := life_chain id pm (Down d) h s H Hd Hw).
  apply (tv_chain_vote _ _ _ HC (t, c1) (t, c2)).
  - apply (life_votes id pm (Down d) h s H Hd Hw Hr _ _ V1).
  - apply (life_votes id pm (Down d) h s H Hd Hw Hr _ _ V2).
  - reflexivity.
  - apply (life_vote_ids id pm (Down d) h s H Hd Hw Hr Hi _ _ V1).
  - apply (life_vote_ids id pm (Down d) h s H Hd Hw Hr Hi _ _ V2).
Qed.

(** Votes also agree with the vote found on disk when the life begins: what an
    earlier life of the server gave away is not given to someone else. *)
Theorem C27_vote_kept_across_restart_partial : forall id pm d h s,
  disk_okay d -> life id pm (Down d) h s -> without join_cluster_request h -> retries_okay h -> ids_okay id h ->
  forall t c0 c, saved d = (t, c0) -> c0 <> (-1)%Z -> vote_in h t c -> c = c0.
Proof.
  intros id pm d h s Hd H Hw Hr Hi t c0 c E Hc V.
  assert (HC := life_chain id pm (Down d) h s H Hd Hw). cbn [sys_disk] in HC. rewrite E in HC.
  apply (tv_chain_vote _ _ _ HC (t, c) (t, c0)).
  - rewrite <- E. apply (life_votes id pm (Down d) h s H Hd Hw Hr _ _ V).
  - left. reflexivity.
  - reflexivity.
  - apply (life_vote_ids id pm (Down d) h s H Hd Hw Hr Hi _ _ V).
  - exact Hc.
Qed.

(** ... and when the answer leaves, the vote is already on disk. *)
Theorem C27_vote_saved_before_answer : forall id pm d h n now q r n' l,
  disk_okay d -> life id pm (Down d) h (Up n) ->
  rq_type q = vote_request -> run_event (ERequest now q) n = (ROk (Response r), n', l) -> rs_accepted r = true ->
  saved (n_disk n') = (rq_term q, rq_src q).
Proof.
  intros id pm d h n now q r n' l Hd H Ht E Ha.
  exact (vote_on_disk id pm (Down d) h n now q r n' l H Hd Ht E Ha).
Qed.
(** the same for a candidacy: before any vote request is sent *)
Theorem C27_candidacy_saved_before_request : forall id pm d h n e r n' p uid ext q s,
  disk_okay d -> life id pm (Down d) h (Up n) -> without join_cluster_request [mkObs e [] None] ->
  retries_okay [mkObs e [] None] -> run_event e n = (r, n', p ++ ASend uid ext q :: s) -> rq_type q = vote_request ->
  saved (fold_left disk_apply p (n_disk n)) = (rq_term q, rq_src q).
Proof.
  intros id pm d h n e r n' p uid ext q s Hd H Hw Hr E Ht.
  exact (candidacy_on_disk id pm (Down d) h n e r n' p uid ext q s H Hd Hw Hr E Ht).
Qed.

Definition ids_okayb (id : Z) (h : list obs) : bool :=
  negb (id =? -1)%Z && forallb (fun o => match o_event o with ERequest _ q => negb (beq (rq_type q) vote_request) || negb (rq_src q =? -1)%Z | _ => true end) h.
Lemma ids_okayb_ok : forall id h, ids_okayb id h = true -> ids_okay id h.
Proof.
  intros id h H. apply andb_prop in H. destruct H as [H1 H2]. split; [lia|].
  intros now q l a Hin Ht. rewrite forallb_forall in H2. specialize (H2 _ Hin). cbn [o_event] in H2.
  rewrite Ht in H2. change (beq vote_request vote_request) with true in H2. cbn in H2. lia.
Qed.
Definition no_retryb (h : list obs) : bool := forallb (fun o => match o_event o with ERetry _ _ => false | _ => true end) h.
Lemma no_retryb_ok : forall h, no_retryb h = true -> retries_okay h.
Proof. intros h H uid q l a Hin. unfold no_retryb in H. rewrite forallb_forall in H. specialize (H _ Hin). discriminate. Qed.
Example C27_example :
  disk_okay ex_disk /\ life 1 ex_prm (Down ex_disk) (fst ex_life) (snd ex_life) /\ without join_cluster_request (fst ex_life) /\
  retries_okay (fst ex_life) /\ ids_okay 1 (fst ex_life) /\
  map o_answer (fst ex_life) =
    [Some Nothing; Some (Response (mkResp 5 vote_response 1 2 1 true)); None; Some (Response (mkResp 7 vote_response 1 2 1 true))] /\
  vote_in (fst ex_life) 1 1 /\ vote_in (fst ex_life) 5 2 /\ vote_in (fst ex_life) 7 2.
Proof.
  split; [unfold disk_okay; cbn; lia|]. split; [apply run_cmds_life|].
  split; [apply withoutb_ok; vm_compute; reflexivity|]. split; [apply no_retryb_ok; vm_compute; reflexivity|].
  split; [apply ids_okayb_ok; vm_compute; reflexivity|]. split; [vm_compute; reflexivity|].
  split; [|split].
  - eapply (V_candidate _ _ _ 0 false (mkReq 1 vote_request 1 2 0 0 0 [])); [|reflexivity|reflexivity|reflexivity].
    vm_compute. auto 12.
  - eapply (V_granted _ _ _ 0 (ex_vote 5 2 0 0)); [|reflexivity| |reflexivity|reflexivity].
    + vm_compute. right. left. reflexivity.
    + reflexivity.
  - eapply (V_granted _ _ _ 0 (ex_vote 7 2 0 0)); [|reflexivity| |reflexivity|reflexivity].
    + vm_compute. right. right. right. left. reflexivity.
    + reflexivity.
Qed.

(** A join request clears the vote without changing the term: two votes in term 5. *)
Definition ex_twice : list obs * sys :=
  run_cmds 1 ex_prm (Down ex_disk)
    [CStart; CEvent (ERequest 0 (ex_vote 5 2 0 0)); CEvent (ERequest 0 (ex_join 5 2)); CEvent (ERequest 0 (ex_vote 5 3 0 0))].
Theorem C27_one_vote_per_term_refuted : exists id pm d h s,
  disk_okay d /\ life id pm (Down d) h s /\ retries_okay h /\ ids_okay id h /\
  exists t c1 c2, vote_in h t c1 /\ vote_in h t c2 /\ c1 <> c2.
Proof.
  exists 1%Z, ex_prm, ex_disk, (fst ex_twice), (snd ex_twice).
  split; [unfold disk_okay; cbn; lia|]. split; [apply run_cmds_life|].
  split; [apply no_retryb_ok; vm_compute; reflexivity|]. split; [apply ids_okayb_ok; vm_compute; reflexivity|].
  exists 5, 2%Z, 3%Z. split; [|split; [|discriminate]].
  - eapply (V_granted _ _ _ 0 (ex_vote 5 2 0 0)); [|reflexivity| |reflexivity|reflexivity].
    + vm_compute. left. reflexivity.
    + reflexivity.
  - eapply (V_granted _ _ _ 0 (ex_vote 5 3 0 0)); [|reflexivity| |reflexivity|reflexivity].
    + vm_compute. right. right. left. reflexivity.
    + reflexivity.
Qed.

Print Assumptions C26_term_monotone_partial.
Print Assumptions C26_term_monotone_refuted.
Print Assumptions C27_one_vote_per_term_partial.
Print Assumptions C27_vote_kept_across_restart_partial.
Print Assumptions C27_vote_saved_before_answer.
Print Assumptions C27_candidacy_saved_before_request.
Print Assumptions C27_one_vote_per_term_refuted.
