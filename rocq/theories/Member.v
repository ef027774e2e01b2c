(** * Member: a cluster whose members change

    The cluster of Cluster.v, and in addition anybody may ask a server to add or remove a
    member, through its API or by a request, at any time. *)

From Verif Require Import Base Buffer BufferSpec Codec CodecSpec Msg FsLogStore FsLogSpec Raft NodeSpec NodeExamples Cluster ClusterElect ClusterExamples.
Local Open Scope N_scope.

Section Member.
  (** all servers that are ever part of the cluster *)
  Variable servers : list srv_config.
  Variable prm : Z -> params.

  (** a call or request that asks for a change *)
  Definition asks_change (e : event) : Prop :=
    match e with
    | EAddSrv _ _ | ERemoveSrv _ _ => True
    | ERequest _ q => rq_type q = add_server_request \/ rq_type q = remove_server_request
    | _ => False
    end.
  Definition may_happen (w : world) (i : Z) (e : event) : Prop := possible servers w i e \/ asks_change e.

  Inductive mstep (w : world) : world -> Prop :=
  | M_event : forall i n e r n' l, In i (ids servers) -> w_sys w i = Up n -> may_happen w i e ->
      run_event e n = (r, n', l) -> goes_on r = true ->
      mstep w (next_world w i (Up n') [mkObs e l (answer_of r)])
  | M_stop : forall i n e r n' l, In i (ids servers) -> w_sys w i = Up n -> may_happen w i e ->
      run_event e n = (r, n', l) -> goes_on r = false ->
      mstep w (next_world w i (Down (n_disk n')) [mkObs e l None])
  | M_crash : forall i n e r n' p q, In i (ids servers) -> w_sys w i = Up n -> may_happen w i e ->
      run_event e n = (r, n', p ++ q) ->
      mstep w (next_world w i (Down (fold_left disk_apply p (n_disk n))) [mkObs e p None])
  | M_start : forall i d, In i (ids servers) -> w_sys w i = Down d ->
      mstep w (next_world w i (Up (start_node i (prm i) d)) []).
  Inductive mreach (w0 : world) : world -> Prop :=
  | MReach_0 : mreach w0 w0
  | MReach_S : forall w w', mreach w0 w -> mstep w w' -> mreach w0 w'.

  Lemma step_mstep : forall w w', step servers prm w w' -> mstep w w'.
  Proof.
    intros w w' H. destruct H.
    - eapply M_event; try eassumption. left; assumption.
    - eapply M_stop; try eassumption. left; assumption.
    - eapply M_crash; try eassumption. left; assumption.
    - eapply M_start; eassumption.
  Qed.
  Lemma reach_mreach : forall w0 w1 w, mreach w0 w1 -> reach servers prm w1 w -> mreach w0 w.
  Proof. intros w0 w1 w H R. induction R as [|w w' R IH S]; [exact H|]. eapply MReach_S; [exact IH | apply step_mstep, S]. Qed.

  (** ** What is observed *)
  (** every server is down and has neither a term nor a vote on its disk; nothing has happened *)
  Definition blank (w : world) : Prop :=
    forall i, w_hist w i = [] /\ (In i (ids servers) -> exists d, w_sys w i = Down d /\ dk_state d = None /\ 1 <= al_start (dk_log d)).
  (** servers that were invited had never saved a term or a vote before: they were new *)
  Definition new_joins (w : world) : Prop :=
    forall i h o h', w_hist w i = h ++ o :: h' -> got join_cluster_request o -> forall t v, ~ In (ASaveState t v) (acts_of h).
  (** in the step from [w] to [w'] server [i] becomes leader of term [t]; it has [m] members, itself included *)
  Definition takes_over (w w' : world) (i : Z) (t : N) (m : nat) : Prop :=
    In i (ids servers) /\ mstep w w' /\ exists n l, w_sys w i = Up n /\ w_acts w' i = w_acts w i ++ l /\ In (ABecomeLeader t) l /\ m = S (length (n_peers n)).

  (** ** Running concrete clusters *)
  Inductive mcmd := MK (c : kcmd) | MAsk (i : Z) (e : event).
  Definition asks_changeb (e : event) : bool :=
    match e with
    | EAddSrv _ _ | ERemoveSrv _ _ => true
    | ERequest _ q => beq (rq_type q) add_server_request || beq (rq_type q) remove_server_request
    | _ => false
    end.
  Lemma asks_changeb_ok : forall e, asks_changeb e = true -> asks_change e.
  Proof.
    intros e H. destruct e; cbn in *; try exact I; try discriminate. apply orb_prop in H. destruct H as [H|H]; [left | right]; apply Byte.byte_dec_bl, H.
  Qed.
  Definition run_m (w : world) (c : mcmd) : world :=
    match c with
    | MK c => run_k servers prm w c
    | MAsk i e => if memb servers i && asks_changeb e then fst (event_at w i e) else w
    end.
  Lemma run_m_reach : forall w0 w c, mreach w0 w -> mreach w0 (run_m w c).
  Proof.
    intros w0 w [c|i e] R; cbn [run_m].
    - exact (reach_mreach w0 w _ R (run_k_reach servers prm w w c (Reach_0 servers prm w))).
    - destruct (memb servers i) eqn:Em; [|exact R]. destruct (asks_changeb e) eqn:Ea; [|exact R]. cbn [andb].
      unfold event_at. destruct (w_sys w i) as [n|d] eqn:Es; [|exact R]. apply (memb_in servers prm) in Em. apply asks_changeb_ok in Ea.
      destruct (run_event e n) as [[r n'] l] eqn:Er. destruct (goes_on r) eqn:Eg; cbn [fst]; (eapply MReach_S; [exact R|]).
      + exact (M_event w i n e r n' l Em Es (or_intror Ea) Er Eg).
      + exact (M_stop w i n e r n' l Em Es (or_intror Ea) Er Eg).
  Qed.
  Lemma run_ms_reach : forall cs w0 w, mreach w0 w -> mreach w0 (fold_left run_m cs w).
  Proof. induction cs as [|c cs IH]; intros w0 w R; [exact R|]. cbn [fold_left]. apply IH, run_m_reach, R. Qed.
End Member.
