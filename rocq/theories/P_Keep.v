(** * P_Keep: entries that a majority has acknowledged (C108)

    In every run of a cluster, however commit indexes are moved, an entry of a leader's own term
    that a majority of the servers has acknowledged in that term is in the log of every later
    leader, is never lost by the servers that acknowledged it, and can always still be committed. *)

From Verif Require Import Base Buffer Codec CodecSpec Msg FsLogStore FsLogSpec Alog P_Vote
  Raft RaftQuiet RaftTrace RaftTrace2 RaftTrace3 NodeSpec NodeLife NodeFacts AppendFacts ServerSpec NodeExamples
  Cluster ClusterElect ClusterLog ClusterRun ClusterSafe CommitSpec SafeRun ClusterExamples CommitExamples Runs P_Cluster P_Safe P_Recover P_Avail P_Accept Keep.
Local Open Scope N_scope.

Section Kept.
  Variable servers : list srv_config.
  Variable prm : Z -> params.
  Hypothesis HC : cluster_okay servers.
  Hypothesis HS : no_snapshots prm.
  Notation ids := (Cluster.ids servers).
  Notation reach := (reach servers prm).

  Lemma reach_hist : forall w w', reach w w' -> forall i, exists o, w_hist w' i = w_hist w i ++ o.
  Proof.
    intros w w' R. induction R as [|w1 w2 R IH St]; intros i; [exists []; rewrite app_nil_r; reflexivity|]. destruct (IH i) as (o & E).
    assert (X : forall j x o', exists o2, w_hist (next_world w1 j x o') i = w_hist w i ++ o2).
    { intros j x o'. unfold next_world. cbn [w_hist]. destruct (Z.eq_dec i j) as [->|D]; [rewrite put_same | rewrite put_other by exact D]; rewrite E; [rewrite <- app_assoc|]; eauto. }
    destruct St; apply X.
  Qed.
  Lemma reach_acked : forall w w' j t k, reach w w' -> acked w j t k -> acked w' j t k.
  Proof.
    intros w w' j t k R (Hk & q & r & (now & l & Hin) & X). split; [exact Hk|]. exists q, r. split; [|exact X]. exists now, l.
    destruct (reach_hist _ _ R j) as (o & ->). apply in_or_app. left. exact Hin.
  Qed.
  Lemma reach_leads : forall w w' j t, reach w w' -> In t (leads (w_acts w j)) -> In t (leads (w_acts w' j)).
  Proof.
    intros w w' j t R H. unfold w_acts in *. destruct (reach_hist _ _ R j) as (o & ->). unfold acts_of in *. rewrite map_app, concat_app, leads_app. apply in_or_app. left. exact H.
  Qed.
  Lemma term_up : forall w j n, winv servers prm w -> In j ids -> w_sys w j = Up n -> term_of (w_sys w j) = n_term n.
  Proof.
    intros w j n W Hj Wj. assert (S := e_static _ _ _ (w_e _ _ _ W) j Hj). rewrite Wj in *. unfold term_of. cbn [sys_disk]. destruct S as ((_ & Sy & _) & _). rewrite Sy. reflexivity.
  Qed.

  Lemma kept_core : forall w0 w i n k w2, initial servers w0 -> reach w0 w -> In i ids -> w_sys w i = Up n -> majority_has servers w i n k -> reach w w2 ->
    exists tl cl vl, keeps servers w2 tl cl vl /\ agree k (n_log n) (tl (n_term n)) /\ a_get (n_log n) k <> None /\ chosen servers (acked w2) (w_acts w2) tl (n_term n) k.
  Proof.
    intros w0 w i n k w2 I0 R Hi Wi ((_ & Ld) & (e & Ge & Te) & B & NB & IB & MB & HB) R2.
    assert (W0 := winv_initial servers prm w0 I0). assert (W := reach_winv servers prm HC HS w0 w I0 R).
    destruct (keeps_initial servers prm w0 I0) as (tl0 & cl0 & vl0 & K0).
    destruct (keeps_reach servers prm HC HS w0 w W0 R _ _ _ K0) as (tl1 & cl1 & vl1 & _ & K1).
    destruct (keeps_reach servers prm HC HS w w2 W R2 _ _ _ K1) as (tl & cl & vl & G & K2).
    assert (El : tl1 (n_term n) = n_log n).
    { assert (X := l_led _ _ _ _ (k_l _ _ _ _ _ _ _ K1) i (n_term n) Hi (proj2 (leads_in _ _) Ld) (term_up w i n W Hi Wi)). rewrite Wi in X. symmetry. exact X. }
    assert (Ag : agree k (n_log n) (tl (n_term n))) by (rewrite <- El in *; apply (G _ k e Ge)).
    exists tl, cl, vl. split; [exact K2|]. split; [exact Ag|]. split; [congruence|].
    exists e, B. split; [rewrite <- (Ag k) by lia; exact Ge|]. repeat (split; [assumption|]). intros j Hj. destruct (HB j Hj) as [->|X]; [|left; eapply reach_acked; eassumption].
    right. split; [eapply reach_leads; [exact R2 | exact (proj2 (leads_in _ _) Ld)] | rewrite <- (Ag k) by lia; congruence].
  Qed.
End Kept.

(** Server [i] has led its present term and has, at index [k], an entry of that term that a majority
    of the servers (counting itself) has acknowledged in that term.  In every state the cluster
    reaches from there, every leader of that term or a later one has the same log up to [k]. *)
Theorem C108_later_leaders : forall servers prm w0 w i n k w2, cluster_okay servers -> no_snapshots prm -> initial servers w0 -> reach servers prm w0 w ->
  In i (ids servers) -> w_sys w i = Up n -> majority_has servers w i n k -> reach servers prm w w2 ->
  forall j m, In j (ids servers) -> w_sys w2 j = Up m -> n_role m = Leader -> n_term n <= n_term m -> agree k (n_log n) (n_log m).
Proof.
  intros servers prm w0 w i n k w2 HC HS I0 R Hi Wi M R2 j m Hj Wj Rl T.
  destruct (kept_core servers prm HC HS w0 w i n k w2 I0 R Hi Wi M R2) as (tl & cl & vl & K & Ag & _ & Ch). destruct K as [E L B V G].
  assert (W2 := reach_winv servers prm HC HS w0 w2 I0 (reach_trans _ _ _ _ _ R R2)). assert (Lj := e_role _ _ _ E j m Hj Wj Rl).
  assert (El := l_led _ _ _ _ L j (n_term m) Hj Lj (term_up servers prm w2 j m W2 Hj Wj)). rewrite Wj in El. change (slog (Up m)) with (n_log m) in El. rewrite El.
  destruct (N.eq_dec (n_term n) (n_term m)) as [Eq|Ne]; [rewrite <- Eq; exact Ag|].
  eapply agree_trans; [exact Ag|]. apply (completeness servers HC _ _ _ _ _ _ E L B V G _ _ Ch); [lia|]. exists j. auto.
Qed.

(** No server that acknowledged the entry, then or later, ever loses it or anything before it. *)
Theorem C108_kept : forall servers prm w0 w i n k w2, cluster_okay servers -> no_snapshots prm -> initial servers w0 -> reach servers prm w0 w ->
  In i (ids servers) -> w_sys w i = Up n -> majority_has servers w i n k -> reach servers prm w w2 ->
  forall j, In j (ids servers) -> j = i \/ acked w2 j (n_term n) k -> agree k (n_log n) (log_of w2 j).
Proof.
  intros servers prm w0 w i n k w2 HC HS I0 R Hi Wi M R2 j Hj A.
  destruct (kept_core servers prm HC HS w0 w i n k w2 I0 R Hi Wi M R2) as (tl & cl & vl & K & Ag & Ge & Ch). destruct K as [E L B V G].
  assert (H : held (acked w2) (w_acts w2) tl j (n_term n) k).
  { destruct A as [->|A]; [|left; exact A]. right. split; [|rewrite <- (Ag k) by lia; exact Ge].
    destruct M as ((_ & Ld) & _). eapply reach_leads; [exact R2 | exact (proj2 (leads_in _ _) Ld)]. }
  destruct (h_now _ _ _ _ _ _ G j (n_term n) k Hj H) as (_ & _ & X). eapply agree_trans; [exact Ag|]. apply X. intros u U1 U2.
  apply (completeness servers HC _ _ _ _ _ _ E L B V G _ _ Ch); [lia | exact U2].
Qed.
(** ... so at any later time every majority of the servers has one that has it. *)
Theorem C108_every_majority : forall servers prm w0 w i n k w2, cluster_okay servers -> no_snapshots prm -> initial servers w0 -> reach servers prm w0 w ->
  In i (ids servers) -> w_sys w i = Up n -> majority_has servers w i n k -> reach servers prm w w2 ->
  forall V, NoDup V -> incl V (ids servers) -> (length (ids servers) < 2 * length V)%nat -> exists j, In j V /\ agree k (n_log n) (log_of w2 j).
Proof.
  intros servers prm w0 w i n k w2 HC HS I0 R Hi Wi M R2 V NV IV QV. assert (M0 := M). destruct M as (_ & _ & B & NB & IB & MB & HB).
  destruct (pigeon servers V B NV NB IV IB ltac:(lia)) as (j & J1 & J2). exists j. split; [exact J1|].
  eapply (C108_kept servers prm w0 w i n k w2); try eassumption; [apply IV, J1|]. destruct (HB j J2) as [X|X]; [left; exact X | right; eapply reach_acked; eassumption].
Qed.

(** Whatever happens afterwards, any majority of the servers can still commit it: one of them can
    become leader and take its commit index to [k] or beyond, with the same log up to [k] at all of them. *)
Theorem C108_can_be_committed : forall servers prm w0 w i n k w2 V, cluster_okay servers -> no_snapshots prm -> initial servers w0 -> reach servers prm w0 w ->
  In i (ids servers) -> w_sys w i = Up n -> majority_has servers w i n k -> reach servers prm w w2 ->
  NoDup V -> incl V (ids servers) -> (length (ids servers) < 2 * length V)%nat ->
  (forall j, In j V -> pm_prevote (prm j) = false /\ 1 <= pm_max_append (prm j) /\ (0 <= pm_el_upper (prm j))%Z) ->
  exists j w3 m, In j V /\ reach servers prm w2 w3 /\ w_sys w3 j = Up m /\ n_role m = Leader /\ k <= n_quick m /\
    forall v, In v V -> agree k (n_log n) (log_of w3 v).
Proof.
  intros servers prm w0 w i n k w2 V HC HS I0 R Hi Wi M R2 NV IV QV HP.
  destruct (newest (log_of w2) V) as (j & J1 & J2); [intros ->; cbn in QV; lia|]. destruct (HP j J1) as (P1 & P2 & P3). destruct (more_ok 1) as (Q1 & _).
  assert (R02 := reach_trans _ _ _ _ _ R R2).
  destruct (C105_commits_at servers prm w0 w2 V j (more 1) HC HS I0 R02 NV IV QV J1 J2 P1 P2 P3 Q1)
    as (w3 & m & now & l & x & h1 & h2 & A1 & A2 & A3 & _ & _ & _ & A7 & A8 & A9 & A10 & _).
  assert (R3 := reach_trans _ _ _ _ _ R2 A1). assert (W3 := reach_winv servers prm HC HS w0 w3 I0 (reach_trans _ _ _ _ _ R02 A1)).
  assert (T : n_term n <= n_term m).
  { destruct (kept_core servers prm HC HS w0 w i n k w3 I0 R Hi Wi M R3) as (tl & cl & vl & K & _ & _ & Ch). destruct Ch as (e & B & _ & _ & NB & IB & MB & HB).
    destruct (pigeon servers V B NV NB IV IB ltac:(lia)) as (v & V1 & V2). destruct (h_now _ _ _ _ _ _ (k_h _ _ _ _ _ _ _ K) v _ _ (IV v V1) (HB v V2)) as (X & _).
    destruct (Z.eq_dec v j) as [->|D]; [rewrite (term_up servers prm w3 j m W3 (IV j J1) A2) in X; exact X|].
    destruct (A10 v V1 D) as (m' & Y1 & _ & Y3). rewrite (term_up servers prm w3 v m' W3 (IV v V1) Y1) in X. congruence. }
  assert (Ag := C108_later_leaders servers prm w0 w i n k w3 HC HS I0 R Hi Wi M R3 j m (IV j J1) A2 A3 T).
  assert (Nk : k <= rs_next_idx x - 1).
  { destruct M as (_ & (e & Ge & _) & _). rewrite (Ag k) in Ge by lia. apply a_get_some in Ge. rewrite A7. unfold log_of. rewrite A2. cbn [sys_disk]. change (dk_log (n_disk m)) with (n_log m). unfold a_next in *. lia. }
  exists j, w3, m. split; [exact J1|]. split; [exact A1|]. split; [exact A2|]. split; [exact A3|]. split; [lia|]. intros v Hv. eapply agree_trans; [exact Ag|].
  assert (X := A9 v Hv). unfold log_of in X at 1. rewrite A2 in X. cbn [sys_disk] in X. eapply agree_le; [exact X | exact Nk].
Qed.

(** In a run in which commit indexes are moved by the rules of the Raft paper (CommitSpec.v) no
    server ever applies anything else at an index up to [k]. *)
Theorem C108_applied_partial : forall servers prm w0 w i n k w2, cluster_okay servers -> no_snapshots prm -> (2 <= length (ids servers))%nat -> initial servers w0 ->
  reach servers prm w0 w -> In i (ids servers) -> w_sys w i = Up n -> majority_has servers w i n k -> reach servers prm w w2 -> careful servers prm w0 w2 ->
  forall j d f, applied servers w2 j d f -> d <= k -> a_get (n_log n) d = Some f.
Proof.
  intros servers prm w0 w i n k w2 HC HS H2 I0 R Hi Wi M R2 C j d f (Hj & Aj) Hd.
  destruct (careful_safe servers prm HC HS H2 w0 w2 I0 C) as (_ & tl & cl & vl & [E L B V G D]).
  destruct (d_app _ _ _ _ _ D j d f Hj Aj) as (t' & k' & Ch & Lk & Gf & _). assert (Ch0 := Ch). destruct Ch as (e & V' & _ & _ & NV & IV & QV & HV).
  assert (M0 := M). destruct M as (_ & _ & B1 & NB & IB & MB & HB).
  destruct (pigeon servers V' B1 NV NB IV IB ltac:(lia)) as (s & S1 & S2).
  assert (X1 : agree k (n_log n) (log_of w2 s)).
  { eapply (C108_kept servers prm w0 w i n k w2); try eassumption; [apply IV, S1|]. destruct (HB s S2) as [X|X]; [left; exact X | right; eapply reach_acked; eassumption]. }
  destruct (h_now _ _ _ _ _ _ G s t' k' (IV s S1) (HV s S1)) as (_ & _ & X2).
  assert (X3 : agree k' (tl t') (log_of w2 s)).
  { apply X2. intros u U1 U2. apply (completeness servers HC _ _ _ _ _ _ E L B V G _ _ Ch0); [lia | exact U2]. }
  rewrite (X1 d Hd), <- (X3 d Lk). exact Gf.
Qed.

(** In other runs one may have: in the schedule of Figure 8 server 1 applies "a" at index 2, and then
    the leader of term 4 gets a majority's acknowledgements for "c" at index 3 with "b" below it. *)
Definition fig8_more : world := ex_run (fig8_1 ++ fig8_2 ++ [KDo 2 (EReplicate 0 [x63]); KRpc 2 3 0; KRpc 2 3 0]%Z).
Theorem C108_applied_refuted : exists servers prm w0 w i n k j d f, cluster_okay servers /\ no_snapshots prm /\ initial servers w0 /\ reach servers prm w0 w /\
  In i (ids servers) /\ w_sys w i = Up n /\ n_role n = Leader /\ majority_has servers w i n k /\ d <= k /\ applied servers w j d f /\ a_get (n_log n) d <> Some f.
Proof.
  exists ex_servers, (fun _ => ex_prm), ex_world, fig8_more, 2%Z, (up_at fig8_more 2), 3, 1%Z, 2, (mkEV 1 app_log [x61]).
  split; [exact ex_okay|]. split; [exact ex_nosnap|]. split; [exact ex_initial|]. split; [apply ex_reach|].
  split; [right; left; reflexivity|]. split; [vm_compute; reflexivity|]. split; [vm_compute; reflexivity|].
  split; [apply (majb_ok ex_servers (fun _ => ex_prm)); [exact (proj1 ex_okay) | vm_compute; reflexivity]|]. split; [lia|]. split; [apply applied_by; vm_compute; auto|]. vm_compute. discriminate.
Qed.

(** three servers: the leader of term 1 has the acknowledgements of server 2 for "a" at index 2;
    server 2 then leads term 2 with the vote of server 3, whose log is still empty *)
Definition acked_cmds : list kcmd := [KStart 1; KStart 2; KStart 3; KDo 1 EElection; KRpc 1 2 0; KDo 1 (EReplicate 0 [x61]); KRpc 1 2 0; KRpc 1 2 0]%Z.
Definition acked_run : world := ex_run_with ex_prm acked_cmds.
Definition later_run : world := fold_left (run_k ex_servers (fun _ => ex_prm)) [KDo 2 EElection; KRpc 2 3 0]%Z acked_run.
Lemma later_reach : reach ex_servers (fun _ => ex_prm) acked_run later_run.
Proof. apply run_ks_reach. constructor. Qed.
Definition is_up (x : sys) (P : node -> Prop) : Prop := exists n, x = Up n /\ P n.
Lemma acked_up : is_up (w_sys acked_run 1%Z) (fun n => majb ex_servers acked_run 1%Z n 2 = true).
Proof. vm_compute. eexists. split; reflexivity. Qed.
Lemma later_up : is_up (w_sys later_run 2%Z) (fun n => n_role n = Leader /\ n_term n = 2 /\ a_get (n_log n) 2 = Some (mkEV 1 app_log [x61])).
Proof. vm_compute. eexists. repeat split; reflexivity. Qed.
Lemma acked_careful : careful ex_servers (fun _ => ex_prm) ex_world acked_run.
Proof. unfold acked_run. apply ex_careful_with. vm_compute. reflexivity. Qed.
Lemma later_third : a_get (log_of later_run 3%Z) 2 = None.
Proof. vm_compute. reflexivity. Qed.
Example C108_example : exists n m,
  reach ex_servers (fun _ => ex_prm) ex_world acked_run /\ w_sys acked_run 1%Z = Up n /\ majority_has ex_servers acked_run 1%Z n 2 /\
  reach ex_servers (fun _ => ex_prm) acked_run later_run /\ w_sys later_run 2%Z = Up m /\ n_role m = Leader /\ n_term m = 2 /\
  a_get (n_log m) 2 = Some (mkEV 1 app_log [x61]) /\ a_get (log_of later_run 3%Z) 2 = None /\ careful ex_servers (fun _ => ex_prm) ex_world acked_run.
Proof.
  destruct acked_up as (n & N1 & N2). destruct later_up as (m & M1 & M2 & M3 & M4). exists n, m.
  split; [apply ex_reach_with|]. split; [exact N1|]. split; [apply (majb_ok ex_servers (fun _ => ex_prm)); [exact (proj1 ex_okay) | exact N2]|].
  split; [exact later_reach|]. split; [exact M1|]. split; [exact M2|]. split; [exact M3|]. split; [exact M4|]. split; [exact later_third | exact acked_careful].
Qed.

Print Assumptions C108_later_leaders.
Print Assumptions C108_kept.
Print Assumptions C108_every_majority.
Print Assumptions C108_can_be_committed.
Print Assumptions C108_applied_partial.
Print Assumptions C108_applied_refuted.
