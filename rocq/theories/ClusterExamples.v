(** * ClusterExamples: running concrete clusters *)

From Verif Require Import Base Buffer Codec CodecSpec Msg FsLogStore FsLogSpec Raft NodeSpec NodeExamples Cluster ClusterElect.
Local Open Scope N_scope.

(** a command: start a server; let one of the always possible events happen; deliver the
    request that server [k] sent to [j] ([m] = 0: the last one, 1: the one before ...), without
    or with the response; tell [k] that it failed; crash [i] after [c] actions of an event;
    let the application finish the last snapshot [i] asked for; crash [j] after [c] actions of
    handling a request; let [k] receive a response that [j] has given earlier to a request *)
Inductive kcmd := KStart (i : Z) | KDo (i : Z) (e : event) | KDeliver (k j : Z) (m : nat) | KRpc (k j : Z) (m : nat) | KLost (k j : Z) (m : nat)
                | KCrash (i : Z) (e : event) (c : nat) | KSnap (i : Z) (data : list byte) | KHalf (k j : Z) (m c : nat) | KLate (k j : Z) (m : nat).

Definition entry_dec (a b : entry_val) : {a = b} + {a <> b}.
Proof. decide equality; [apply list_eq_dec, Byte.byte_eq_dec | apply Byte.byte_eq_dec | apply N.eq_dec]. Defined.
Definition req_dec (a b : req) : {a = b} + {a <> b}.
Proof. decide equality; first [apply list_eq_dec, entry_dec | apply N.eq_dec | apply Z.eq_dec | apply Byte.byte_eq_dec]. Defined.

Section Run.
  Variable servers : list srv_config.
  Variable prm : Z -> params.

  Definition memb (i : Z) : bool := existsb (Z.eqb i) (ids servers).
  Lemma memb_in : forall i, memb i = true -> In i (ids servers).
  Proof. intros i H. unfold memb in H. apply existsb_exists in H. destruct H as (j & Hj & E). assert (i = j) by lia. subst. exact Hj. Qed.
  Definition always (e : event) : bool :=
    match e with
    | EElection | EHeartbeat _ | ECommit | EReplicate _ _ | EAppend _ _ => true
    | ERequest _ q => beq (rq_type q) client_request && forallb (fun x => beq (ev_type x) app_log) (rq_entries q)
    | _ => false
    end.
  Lemma always_ok : forall w i e, always e = true -> possible servers w i e.
  Proof.
    intros w i e H. destruct e; try discriminate; try exact I. cbn in H. apply andb_prop in H. destruct H as [H1 H2].
    right. split; [apply Byte.byte_dec_bl; exact H1|]. intros x Hx. rewrite forallb_forall in H2. specialize (H2 x Hx).
    apply Byte.byte_dec_bl in H2. rewrite H2. discriminate.
  Qed.
  Definition event_at (w : world) (i : Z) (e : event) : world * option resp_msg :=
    match w_sys w i with
    | Up n => let '(r, n', l) := run_event e n in
              if goes_on r then (next_world w i (Up n') [mkObs e l (answer_of r)], match r with ROk (Response x) => Some x | _ => None end)
              else (next_world w i (Down (n_disk n')) [mkObs e l None], None)
    | Down _ => (w, None)
    end.
  Lemma event_at_reach : forall w0 w i e, reach servers prm w0 w -> In i (ids servers) -> possible servers w i e ->
    reach servers prm w0 (fst (event_at w i e)).
  Proof.
    intros w0 w i e R Hi P. unfold event_at. destruct (w_sys w i) as [n|d] eqn:Es; [|exact R].
    destruct (run_event e n) as [[r n'] l] eqn:Er. destruct (goes_on r) eqn:Eg; cbn [fst]; (eapply Reach_S; [exact R|]).
    - eapply W_event; eassumption.
    - eapply W_stop; eassumption.
  Qed.
  Lemma event_at_answer : forall w i now q r, snd (event_at w i (ERequest now q)) = Some r -> answered (fst (event_at w i (ERequest now q))) i q r.
  Proof.
    intros w i now q r. unfold event_at. destruct (w_sys w i) as [n|d] eqn:Es; [|discriminate].
    destruct (run_event (ERequest now q) n) as [[x n'] l] eqn:Er. destruct (goes_on x) eqn:Eg; cbn [fst snd]; [|discriminate].
    destruct x as [[|y|b|a]| | |]; try discriminate. intros E. inversion E; subst y. exists now, l. cbn [next_world w_hist]. rewrite put_same.
    apply in_or_app. right. left. reflexivity.
  Qed.
  Lemma event_at_sent : forall w i e k u x q, sent w k u x q -> sent (fst (event_at w i e)) k u x q.
  Proof.
    intros w i e k u x q H. unfold event_at. destruct (w_sys w i) as [n|d] eqn:Es; [|exact H].
    assert (G : forall y o, sent (next_world w i y o) k u x q).
    { intros y o. unfold sent, w_acts, next_world in *. cbn [w_hist]. destruct (Z.eq_dec k i) as [->|Hne]; [rewrite put_same | rewrite put_other by exact Hne; exact H].
      unfold acts_of in *. rewrite map_app, concat_app. apply in_or_app. left. exact H. }
    destruct (run_event e n) as [[r n'] l] eqn:Er. destruct (goes_on r) eqn:Eg; apply G.
  Qed.

  Fixpoint sends_to (j : Z) (l : list act) : list (N * bool * req) :=
    match l with
    | [] => []
    | ASend u x q :: l => if (rq_dst q =? j)%Z then (u, x, q) :: sends_to j l else sends_to j l
    | _ :: l => sends_to j l
    end.
  Lemma sends_to_in : forall j l u x q, In (u, x, q) (sends_to j l) -> In (ASend u x q) l /\ rq_dst q = j.
  Proof.
    intros j l u x q. induction l as [|a l IH]; [intros []|].
    assert (G : In (u, x, q) (sends_to j l) -> In (ASend u x q) (a :: l) /\ rq_dst q = j) by (intros H; destruct (IH H); split; [right|]; assumption).
    destruct a; cbn [sends_to]; try exact G. destruct (rq_dst q0 =? j)%Z eqn:E; [|exact G].
    intros [H|H]; [|apply G, H]. inversion H; subst. split; [left; reflexivity | lia].
  Qed.
  Definition pick (w : world) (k j : Z) (m : nat) : option (N * bool * req) := nth_error (rev (sends_to j (w_acts w k))) m.
  Lemma pick_sent : forall w k j m u x q, pick w k j m = Some (u, x, q) -> sent w k u x q /\ rq_dst q = j.
  Proof. intros w k j m u x q H. apply nth_error_In in H. apply in_rev in H. apply sends_to_in, H. Qed.

  (** the answer [j] has given to a request *)
  Fixpoint answer_to (q : req) (h : list obs) : option resp_msg :=
    match h with
    | [] => None
    | mkObs (ERequest _ q') _ (Some (Response r)) :: h => if req_dec q q' then Some r else answer_to q h
    | _ :: h => answer_to q h
    end.
  Lemma answer_to_in : forall q h r, answer_to q h = Some r -> exists now l, In (mkObs (ERequest now q) l (Some (Response r))) h.
  Proof.
    intros q h r. induction h as [|[e l a] h IH]; [discriminate|].
    assert (G : answer_to q h = Some r -> exists now l0, In (mkObs (ERequest now q) l0 (Some (Response r))) (mkObs e l a :: h)).
    { intros H. destruct (IH H) as (now & l0 & Hin). exists now, l0. right. exact Hin. }
    destruct e as [| |now q'|now uid ext q' r'|uid q'| |sn d ok| | | |]; cbn [answer_to]; try exact G.
    destruct a as [[|r'|b|x]|]; try exact G. destruct (req_dec q q') as [->|Hne]; [|exact G]. intros H. inversion H; subst. exists now, l. left. reflexivity.
  Qed.

  Fixpoint asked_snp (l : list act) : option snapshot :=
    match l with
    | [] => None
    | ACreateSnapshot s :: l => match asked_snp l with Some s' => Some s' | None => Some s end
    | _ :: l => asked_snp l
    end.
  Lemma asked_snp_in : forall l s, asked_snp l = Some s -> In (ACreateSnapshot s) l.
  Proof.
    induction l as [|a l IH]; intros s H; [discriminate|]. destruct a; cbn [asked_snp] in H; try (right; apply IH, H).
    destruct (asked_snp l) as [s'|]; inversion H; subst; [right; apply IH; reflexivity | left; reflexivity].
  Qed.

  Definition run_k (w : world) (c : kcmd) : world :=
    match c with
    | KStart i => match w_sys w i with Down d => if memb i then next_world w i (Up (start_node i (prm i) d)) [] else w | Up _ => w end
    | KDo i e => if memb i && always e then fst (event_at w i e) else w
    | KDeliver k j m =>
        match pick w k j m with
        | Some (u, x, q) => if memb k && memb j then fst (event_at w j (ERequest 0 q)) else w
        | None => w
        end
    | KRpc k j m =>
        match pick w k j m with
        | Some (u, x, q) =>
            if memb k && memb j then
              let '(w1, a) := event_at w j (ERequest 0 q) in
              match a with Some r => fst (event_at w1 k (ERpc 0 u x q (Some r))) | None => w1 end
            else w
        | None => w
        end
    | KLost k j m =>
        match pick w k j m with
        | Some (u, x, q) => if memb k then fst (event_at w k (ERpc 0 u x q None)) else w
        | None => w
        end
    | KCrash i e c =>
        if memb i && always e then
          match w_sys w i with
          | Up n => let '(_, _, l) := run_event e n in
                    next_world w i (Down (fold_left disk_apply (firstn c l) (n_disk n))) [mkObs e (firstn c l) None]
          | Down _ => w
          end
        else w
    | KSnap i data =>
        match asked_snp (w_acts w i) with
        | Some s => if memb i then fst (event_at w i (ESnapshot s data true)) else w
        | None => w
        end
    | KHalf k j m c =>
        match pick w k j m, w_sys w j with
        | Some (u, x, q), Up n =>
            if memb k && memb j then
              let '(_, _, l) := run_event (ERequest 0 q) n in
              next_world w j (Down (fold_left disk_apply (firstn c l) (n_disk n))) [mkObs (ERequest 0 q) (firstn c l) None]
            else w
        | _, _ => w
        end
    | KLate k j m =>
        match pick w k j m with
        | Some (u, x, q) =>
            if memb k && memb j then
              match answer_to q (w_hist w j) with Some r => fst (event_at w k (ERpc 0 u x q (Some r))) | None => w end
            else w
        | None => w
        end
    end.
  Lemma run_k_reach : forall w0 w c, reach servers prm w0 w -> reach servers prm w0 (run_k w c).
  Proof.
    intros w0 w c R. destruct c as [i|i e|k j m|k j m|k j m|i e c|i data|k j m c|k j m]; cbn [run_k].
    - destruct (w_sys w i) as [n|d] eqn:Es; [exact R|]. destruct (memb i) eqn:Em; [|exact R]. eapply Reach_S; [exact R|]. apply W_start; [apply memb_in, Em | exact Es].
    - destruct (memb i) eqn:Em; [|exact R]. destruct (always e) eqn:Ea; [|exact R]. cbn [andb]. apply event_at_reach; [exact R | apply memb_in, Em | apply always_ok, Ea].
    - destruct (pick w k j m) as [[[u x] q]|] eqn:Ep; [|exact R]. destruct (memb k) eqn:Ek; [|exact R]. destruct (memb j) eqn:Ej; [|exact R]. cbn [andb].
      destruct (pick_sent _ _ _ _ _ _ _ Ep) as [P1 P2].
      apply event_at_reach; [exact R | apply memb_in, Ej|]. left. exists k, u, x. split; [apply memb_in, Ek|]. split; assumption.
    - destruct (pick w k j m) as [[[u x] q]|] eqn:Ep; [|exact R]. destruct (memb k) eqn:Ek; [|exact R]. destruct (memb j) eqn:Ej; [|exact R]. cbn [andb].
      destruct (pick_sent _ _ _ _ _ _ _ Ep) as [P1 P2].
      assert (R1 : reach servers prm w0 (fst (event_at w j (ERequest 0 q)))).
      { apply event_at_reach; [exact R | apply memb_in, Ej|]. left. exists k, u, x. split; [apply memb_in, Ek|]. split; assumption. }
      assert (S1 := event_at_sent w j (ERequest 0 q) k u x q P1). assert (A1 := event_at_answer w j 0 q).
      destruct (event_at w j (ERequest 0 q)) as [w1 [r|]]; cbn [fst snd] in *; [|exact R1].
      apply event_at_reach; [exact R1 | apply memb_in, Ek|]. split; [exact S1|]. rewrite P2. split; [apply memb_in, Ej | apply A1; reflexivity].
    - destruct (pick w k j m) as [[[u x] q]|] eqn:Ep; [|exact R]. destruct (memb k) eqn:Ek; [|exact R].
      destruct (pick_sent _ _ _ _ _ _ _ Ep) as [P1 P2]. apply event_at_reach; [exact R | apply memb_in, Ek | exact P1].
    - destruct (memb i) eqn:Em; [|exact R]. destruct (always e) eqn:Ea; [|exact R]. cbn [andb]. destruct (w_sys w i) as [n|d] eqn:Es; [|exact R].
      destruct (run_event e n) as [[r n'] l] eqn:Er. eapply Reach_S; [exact R|].
      eapply (W_crash servers prm w i n e r n' (firstn c l) (skipn c l)); [apply memb_in, Em | exact Es | apply always_ok, Ea | rewrite firstn_skipn; exact Er].
    - destruct (asked_snp (w_acts w i)) as [s|] eqn:Ea; [|exact R]. destruct (memb i) eqn:Em; [|exact R].
      apply event_at_reach; [exact R | apply memb_in, Em | apply asked_snp_in, Ea].
    - destruct (pick w k j m) as [[[u x] q]|] eqn:Ep; [|exact R]. destruct (w_sys w j) as [n|d] eqn:Es; [|exact R].
      destruct (memb k) eqn:Ek; [|exact R]. destruct (memb j) eqn:Ej; [|exact R]. cbn [andb].
      destruct (pick_sent _ _ _ _ _ _ _ Ep) as [P1 P2].
      destruct (run_event (ERequest 0 q) n) as [[r n'] l] eqn:Er. eapply Reach_S; [exact R|].
      eapply (W_crash servers prm w j n (ERequest 0 q) r n' (firstn c l) (skipn c l)); [apply memb_in, Ej | exact Es | | rewrite firstn_skipn; exact Er].
      left. exists k, u, x. split; [apply memb_in, Ek|]. split; assumption.
    - destruct (pick w k j m) as [[[u x] q]|] eqn:Ep; [|exact R]. destruct (memb k) eqn:Ek; [|exact R]. destruct (memb j) eqn:Ej; [|exact R]. cbn [andb].
      destruct (pick_sent _ _ _ _ _ _ _ Ep) as [P1 P2]. destruct (answer_to q (w_hist w j)) as [r|] eqn:Ea; [|exact R].
      apply event_at_reach; [exact R | apply memb_in, Ek|]. split; [exact P1|]. rewrite P2. split; [apply memb_in, Ej | apply answer_to_in, Ea].
  Qed.
  Lemma run_ks_reach : forall cs w0 w, reach servers prm w0 w -> reach servers prm w0 (fold_left run_k cs w).
  Proof. induction cs as [|c cs IH]; intros w0 w R; [exact R|]. cbn [fold_left]. apply IH, run_k_reach, R. Qed.
End Run.

(** three servers *)
Definition ex_servers : list srv_config := cc_servers ex_cfg.
Definition ex_world : world := mkWorld (fun _ => Down ex_disk) (fun _ => []).
Definition ex_run (cs : list kcmd) : world := fold_left (run_k ex_servers (fun _ => ex_prm)) cs ex_world.
Lemma ex_okay : cluster_okay ex_servers.
Proof.
  unfold cluster_okay, ex_servers, ids. cbn [ex_cfg cc_servers map sc_id ex_srv]. split.
  { repeat (constructor; [cbn; intuition lia|]). constructor. }
  split; [cbn; intuition lia|]. split; [|vm_compute; reflexivity].
  assert (G : forall i, (0 <= i < 10)%Z -> srv_ok (ex_srv i)).
  { intros i Hi. unfold srv_ok, ex_srv. cbn [sc_id sc_endpoint]. split; [unfold is_int32; lia|]. split; [discriminate|].
    intros H. vm_compute in H. intuition discriminate. }
  apply Forall_cons; [apply G; lia|]. apply Forall_cons; [apply G; lia|]. apply Forall_cons; [apply G; lia|]. apply Forall_nil.
Qed.
Lemma ex_initial : initial ex_servers ex_world.
Proof. intros i. split; [reflexivity|]. intros _. exists ex_disk. split; [reflexivity|]. repeat split. Qed.
Lemma ex_reach : forall cs, reach ex_servers (fun _ => ex_prm) ex_world (ex_run cs).
Proof. intros cs. apply run_ks_reach. constructor. Qed.
Lemma ex_nosnap : no_snapshots (fun _ => ex_prm).
Proof. intros i. reflexivity. Qed.
(** the same with other parameters *)
Definition ex_run_with (pm : params) (cs : list kcmd) : world := fold_left (run_k ex_servers (fun _ => pm)) cs ex_world.
Lemma ex_reach_with : forall pm cs, reach ex_servers (fun _ => pm) ex_world (ex_run_with pm cs).
Proof. intros pm cs. apply run_ks_reach. constructor. Qed.

(** what a world shows *)
Definition show (w : world) (i : Z) :=
  match w_sys w i with
  | Up n => (Some (n_role n, n_term n, n_vote n, n_quick n, n_smc n), map (fun e => (ev_term e, ev_type e, ev_data e)) (al_ents (n_log n)), commits (w_acts w i))
  | Down d => (None, map (fun e => (ev_term e, ev_type e, ev_data e)) (al_ents (dk_log d)), commits (w_acts w i))
  end.
