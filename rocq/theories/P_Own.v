(** * P_Own: who creates the entries of a term (C45) *)

From Verif Require Import Base Buffer Codec CodecSpec Msg FsLogStore FsLogSpec Alog Raft RaftQuiet RaftTrace RaftTrace2 RaftTrace3 NodeSpec NodeLife NodeExamples P_Leader P_Peer.
Local Open Scope N_scope.

(** an entry came with an append-entries request *)
Definition received (e : event) (x : entry_val) : Prop :=
  exists now q, e = ERequest now q /\ rq_type q = append_entries_request /\ In x (rq_entries q).
(** after the actions [p] of an event that started in state [n] the server is leader of term
    [t]: it was leader of [t] when the event started, or became it, and has saved no other
    term since *)
Definition leading (n : node) (p : list act) (t : N) : Prop :=
  (n_role n = Leader /\ n_term n = t /\ Forall (fun s => fst s = t) (saves p)) \/
  (exists p1 p2, p = p1 ++ ABecomeLeader t :: p2 /\ Forall (fun s => fst s = t) (saves p2)).

Lemma saves_app : forall a b, saves (a ++ b) = saves a ++ saves b.
Proof. induction a as [|x a IH]; intros b; [reflexivity|]. destruct x; cbn [app saves]; rewrite ?IH; reflexivity. Qed.
Lemma saves_none : forall l, Forall (fun a => match a with ASaveState _ _ => False | _ => True end) l -> saves l = [].
Proof. induction l as [|x l IH]; intros H; [reflexivity|]. inversion H; subst. destruct x; cbn [saves]; try apply IH; try assumption. contradiction. Qed.
Lemma leading_app : forall n p q t, leading n p t -> Forall (fun s => fst s = t) (saves q) -> leading n (p ++ q) t.
Proof.
  intros n p q t [(R & T & S)|(p1 & p2 & -> & S)] H.
  - left. split; [exact R|]. split; [exact T|]. rewrite saves_app. apply Forall_app. split; assumption.
  - right. exists p1, (p2 ++ q). split; [rewrite <- app_assoc; reflexivity|]. rewrite saves_app. apply Forall_app. split; assumption.
Qed.
Lemma benign_saves : forall l, Forall benign_act l -> saves l = [].
Proof. intros l H. apply saves_none. eapply Forall_impl; [|exact H]. intros [] X; try exact I. exact X. Qed.
Lemma astep_leading : forall e n l n', astep e n l n' -> n_role n' = Leader ->
  (n_role n = Leader /\ n_term n' = n_term n /\ Forall (fun s => fst s = n_term n) (saves l)) \/ l = [ABecomeLeader (n_term n')].
Proof.
  intros e n l n' H R. destruct H; try discriminate;
    try (left; split; [exact R|]; split; [reflexivity|]; cbn; repeat constructor; fail).
  - destruct H as (ps & q & j & -> & _ & _ & _ & Hl). left. split; [exact R|]. split; [reflexivity|]. rewrite saves_none; [constructor|].
    eapply Forall_impl; [|exact Hl]. intros [] X; try exact I. exact X.
  - unfold core in H. injection H. intros. left. split; [congruence|]. split; [congruence|]. rewrite benign_saves by assumption. constructor.
  - right. reflexivity.
  - destruct H1 as (H1 & H2 & _). unfold core in H2. cbn in H2. injection H2. intros. left. split; [congruence|]. split; [congruence|].
    rewrite saves_none; [constructor|]. eapply Forall_impl; [|exact H1]. intros a [X| ->]; [|exact I]. destruct a; try exact I. exact X.
  - left. split; [exact R|]. split; [reflexivity|]. rewrite saves_none; [constructor|]. constructor; [|constructor]. destruct a; try exact I. contradiction.
Qed.
Lemma astep_append : forall e n l n' x, astep e n l n' -> In (AAppend x) l ->
  l = [AAppend x] /\ (received e x \/ conf_event e = true \/ (n_role n = Leader /\ ev_term x = n_term n)).
Proof.
  intros e n l n' x H Hin. destruct H; try solve [destruct Hin as [Hin|[]]; discriminate]; try solve [destruct Hin].
  - destruct H as (ps & q & j & -> & _ & _ & _ & Hl). rewrite Forall_forall in Hl. destruct (Hl _ Hin).
  - rewrite Forall_forall in H0. destruct (H0 _ Hin).
  - destruct Hin as [Hin|[]]. injection Hin as <-. split; [reflexivity|]. right. right. split; assumption.
  - destruct Hin as [Hin|[]]. injection Hin as <-. split; [reflexivity|]. right. left. assumption.
  - destruct Hin as [Hin|[]]. injection Hin as <-. split; [reflexivity|]. left. destruct H as (now & ->). exists now, q. split; [reflexivity|]. split; [assumption|].
    eapply nth_error_In; eassumption.
  - destruct H1 as (H1 & _). rewrite Forall_forall in H1. destruct (H1 _ Hin) as [[]|H3]. discriminate.
  - destruct Hin as [->|[]]. contradiction.
Qed.

(** splitting a list at two places *)
Lemma app_split : forall (l l1 p s : list act) x, l ++ l1 = p ++ x :: s ->
  (exists s1, l = p ++ x :: s1 /\ s = s1 ++ l1) \/ (exists p1, p = l ++ p1 /\ l1 = p1 ++ x :: s).
Proof.
  induction l as [|a l IH]; intros l1 p s x H.
  - right. exists p. split; [reflexivity | exact H].
  - destruct p as [|b p].
    + cbn in H. injection H as -> <-. left. exists l. split; reflexivity.
    + cbn in H. injection H as -> H. destruct (IH _ _ _ _ H) as [(s1 & -> & ->)|(p1 & -> & ->)].
      * left. exists s1. split; reflexivity.
      * right. exists p1. split; reflexivity.
Qed.
Lemma tr_append : forall e n l n', tr e n l n' -> forall n0 p0, (n_role n = Leader -> leading n0 p0 (n_term n)) ->
  forall p x s, l = p ++ AAppend x :: s -> received e x \/ conf_event e = true \/ leading n0 (p0 ++ p) (ev_term x).
Proof.
  intros e n l n' H. induction H; intros n0 p0 L p x s E.
  - destruct p; discriminate.
  - destruct (app_split _ _ _ _ _ E) as [(s1 & -> & ->)|(p1 & -> & ->)].
    + destruct (astep_append _ _ _ _ x H ltac:(apply in_elt)) as [E2 [R|[R|[R T]]]]; [left; exact R | right; left; exact R|].
      right. right. destruct p as [|a p]; [|destruct p; discriminate]. rewrite app_nil_r, T. apply L, R.
    + rewrite app_assoc. apply (IHtr n0 (p0 ++ l)) with (s := s); [|reflexivity].
      intros R. destruct (astep_leading _ _ _ _ H R) as [(R0 & T & S)| ->].
      * rewrite T. apply leading_app; [apply L, R0 | exact S].
      * right. exists p0, []. split; [reflexivity | constructor].
Qed.

(** C45: an entry that is written at the end of the log either came with an append-entries
    request, or the server is leader and the entry carries the term it leads.  What is missing:
    responses about adding or removing a server ([conf_event]), for which this does not hold *)
Theorem C45_own_entries_partial : forall id pm d h n e r n' p x s, disk_okay d -> life id pm (Down d) h (Up n) ->
  run_event e n = (r, n', p ++ AAppend x :: s) -> conf_event e = false ->
  received e x \/ leading n p (ev_term x).
Proof.
  intros id pm d h n e r n' p x s D Lf H C. destruct (life_okay _ _ _ _ _ Lf D) as (St & _ & _). destruct (run_event_tr e n St _ _ _ H) as [T _].
  destruct (tr_append _ _ _ _ T n [] ltac:(intros R; left; split; [exact R|]; split; [reflexivity | constructor]) p x s eq_refl) as [R|[R|R]].
  - left. exact R.
  - congruence.
  - right. exact R.
Qed.
(** an entry written inside the log always came with an append-entries request *)
Theorem C45_overwritten_entries : forall id pm d h n e r n' l i x, disk_okay d -> life id pm (Down d) h (Up n) ->
  run_event e n = (r, n', l) -> In (AWriteAt i x) l -> received e x.
Proof.
  intros id pm d h n e r n' l i x D Lf H Hin. destruct (life_okay _ _ _ _ _ Lf D) as (St & _ & _).
  destruct (run_event_tr e n St _ _ _ H) as [T _]. clear H Lf St. induction T; [destruct Hin|].
  apply in_app_or in Hin. destruct Hin as [Hin|Hin]; [|apply IHT, Hin]. clear IHT T.
  destruct H; try solve [destruct Hin as [Hin|[]]; discriminate]; try solve [destruct Hin].
  - destruct H as (ps & q & j & -> & _ & _ & _ & Hl). rewrite Forall_forall in Hl. destruct (Hl _ Hin).
  - rewrite Forall_forall in H0. destruct (H0 _ Hin).
  - destruct Hin as [Hin|[]]. injection Hin as _ <-. destruct H as (now & ->). exists now, q. split; [reflexivity|]. split; [assumption|].
    eapply nth_error_In; eassumption.
  - destruct H1 as (H1 & _). rewrite Forall_forall in H1. destruct (H1 _ Hin) as [[]|H3]. discriminate.
  - destruct Hin as [->|[]]. contradiction.
Qed.

(** ** Examples *)

(** a leader that was asked to remove server 2 loses its role to a leader of term 5, then the
    answer of server 2 to the request to leave arrives: it appends a configuration entry of term 5 *)
Definition ex_left_cmds : list cmd := ex_busy_cmds ++ [CEvent (ERequest 1000 ex_rm); CEvent (ERequest 1100 (ex_ae 5 3 1 3 3 []))].
Definition ex_left_run : list obs * sys := run_cmds 1 ex_prm (Down ex_disk) ex_left_cmds.
Definition ex_left_event : event := ERpc 1200 0 true ex_leave (Some (mkResp 1 leave_cluster_response 2 1 0 true)).
Definition ex_left : node := up_node (snd ex_left_run).
Definition ex_left_out := run_event ex_left_event ex_left.
Definition app_in (l : list act) : list entry_val := flat_map (fun a => match a with AAppend x => [x] | _ => [] end) l.

Theorem C45_own_entries_refuted : exists id pm d h n e r n' p x s, disk_okay d /\ life id pm (Down d) h (Up n) /\
  run_event e n = (r, n', p ++ AAppend x :: s) /\ ~ received e x /\ n_role n = Follower /\ ~ In (ABecomeLeader (ev_term x)) (acts_of h ++ p).
Proof.
  exists 1%Z, ex_prm, ex_disk, (fst ex_left_run), ex_left, ex_left_event, (fst (fst ex_left_out)), (snd (fst ex_left_out)),
    [], (hd (ex_ent 0 x00) (app_in (snd ex_left_out))), (tl (snd ex_left_out)).
  split; [unfold disk_okay; cbn; lia|]. split.
  { replace (Up ex_left) with (snd ex_left_run) by (vm_compute; reflexivity). apply run_cmds_life. }
  split; [vm_compute; reflexivity|]. split; [intros (now & q & E & _); discriminate|]. split; [vm_compute; reflexivity|].
  vm_compute. intuition discriminate.
Qed.
(** the hypotheses are met: the leader of the example appends a client's entry *)
Example C45_example : exists h n r n' x s, life 1 ex_prm (Down ex_disk) h (Up n) /\ n_role n = Leader /\ n_term n = 1 /\
  run_event (EReplicate 1000 [x7a]) n = (r, n', [] ++ AAppend x :: s) /\ conf_event (EReplicate 1000 [x7a]) = false /\ ev_term x = 1.
Proof.
  set (a := run_cmds 1 ex_prm (Down ex_disk) ex_busy_cmds). set (o := run_event (EReplicate 1000 [x7a]) (up_node (snd a))).
  exists (fst a), (up_node (snd a)), (fst (fst o)), (snd (fst o)), (hd (ex_ent 0 x00) (app_in (snd o))), (tl (snd o)).
  split. { replace (Up (up_node (snd a))) with (snd a) by (vm_compute; reflexivity). apply run_cmds_life. }
  split; [vm_compute; reflexivity|]. split; [vm_compute; reflexivity|]. split; [vm_compute; reflexivity|]. split; vm_compute; reflexivity.
Qed.

Print Assumptions C45_own_entries_partial.
Print Assumptions C45_overwritten_entries.
Print Assumptions C45_own_entries_refuted.
