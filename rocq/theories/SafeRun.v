(** * SafeRun: the invariants of ClusterSafe.v hold along events and in worlds *)

From Verif Require Import Base Buffer Codec CodecSpec Msg FsLogStore FsLogSpec Alog P_Vote
  Raft RaftQuiet RaftWalk RaftTrace RaftTrace2 RaftTrace3 NodeSpec NodeLife NodeFacts ServerSpec
  Cluster ClusterElect ClusterLog ClusterWalk ClusterRun ClusterSafe CommitSpec.
Local Open Scope N_scope.

(** ** Answers to append-entries requests *)
Definition rqr : rel := fun n l n' => quiet n l n' /\ (n_role n = Leader \/ Forall no_send l).
#[global] Instance rqr_pre : preorder rqr.
Proof.
  split.
  - intros n. split; [apply quiet_refl | right; constructor].
  - intros n l n1 l1 n2 [Q1 S1] [Q2 S2]. split; [eapply p_trans; eassumption|].
    destruct (quiet_log _ _ _ Q1) as (_ & _ & _ & R & _). rewrite R in S2. destruct S1 as [S1|S1]; [left; exact S1|].
    destruct S2 as [S2|S2]; [left; exact S2 | right; apply Forall_app; auto].
Qed.
Lemma upd_rqr : forall r f n, (forall p, same_obj p (f p)) -> rqr n [] (upd_peer r f n).
Proof. intros r f n H. split; [apply quiet_upd_peer, H | right; constructor]. Qed.
Lemma handle_append_entries_resp_rqr : forall r n, ht rqr yes (handle_append_entries_resp r) n.
Proof.
  intros r n. unfold handle_append_entries_resp. hstep. destruct (find_peer (rs_src r) (n_peers n)); [|hstep; exact I].
  cbv zeta. apply ht_seq; [exact _ | |].
  2:{ intros need n1 l1 _ _. hstep. destruct (n_role n1) eqn:Er; try (hstep; exact I). hstep; [|exact I].
      apply ht_seq; [exact _ | |intros; hstep; exact I]. intros x n2 l2 E2. split; [|intros; exact I].
      split; [apply (request_append_entries_to_ht _ _ _ _ _ E2) | left; exact Er]. }
  hstep.
  - hstep; [apply upd_rqr; split; reflexivity|]. hstep. apply ht_seq; [exact _ | |].
    { intros x n2 l2 E2. split; [|intros; exact I]. split; [apply (commit_ht _ _ _ _ _ E2)|].
      match type of E2 with commit _ ?m = _ => destruct (n_role m) eqn:Er end; [right | right | left; reflexivity]; eapply commit_no_send; try exact E2; congruence. }
    intros u n1 l1 _ _. eapply ht_bind; [exact _ | apply the_peer_ht; exact _|]. intros p0 n2 l2 _ _ [-> Hp].
    hstep; [apply upd_rqr; split; reflexivity|]. unfold next_slot_. hstep. hstep. exact I.
  - hstep; [|hstep; exact I]. apply upd_rqr. intros p0.
    destruct ((0 <? rs_next_idx r) && (rs_next_idx r <? p_next p0)); [split; reflexivity|]. destruct (0 <? p_next p0); split; reflexivity.
Qed.
Lemma resp_rqr : forall now uid q r n x n' l, rs_type r = append_entries_response -> rs_term r <= n_term n ->
  run_event (ERpc now uid false q (Some r)) n = (x, n', l) -> rqr n l n'.
Proof.
  intros now uid q r n x n' l T Le H.
  assert (G : ht rqr yes (rpc_done now uid false q (Some r)) n).
  { unfold rpc_done. hstep. destruct (live_ref uid n); [|hstep].
    eapply (ht_bind _ _ _ (fun _ n1 => n_term n1 = n_term n)).
    { hstep; [|reflexivity]. hstep; [apply upd_rqr; split; reflexivity|]. destruct p; reflexivity. }
    intros [] n1 l1 _ _ T1. hstep; [apply upd_rqr; split; reflexivity|].
    match goal with |- ht _ _ _ ?m => assert (T2 : n_term m = n_term n) by (rewrite <- T1; destruct p; reflexivity); generalize dependent m end.
    intros n2 T2. unfold handle_peer_resp. hstep. destruct (find_peer (rs_src r) (n_peers n2)); [|hstep; exact I].
    hstep; [apply upd_rqr; split; reflexivity|].
    match goal with |- ht _ _ _ ?m => assert (T3 : n_term m = n_term n) by exact T2; generalize dependent m end. intros n3 T3.
    unfold update_term. apply ht_assoc. hstep. replace (n_term n3 <? rs_term r) with false by lia. hstep. rewrite T. apply handle_append_entries_resp_rqr. }
  cbn [run_event] in H. unfold bind in H. destruct (rpc_done now uid false q (Some r) n) as [[y m] k] eqn:Ed. destruct (G _ _ _ Ed) as [G1 _].
  destruct y; cbn in H; inversion H; subst; rewrite ?app_nil_r; exact G1.
Qed.
Lemma resp_newer : forall now uid q r n x n' l, rs_type r = append_entries_response -> n_term n < rs_term r ->
  run_event (ERpc now uid false q (Some r)) n = (x, n', l) -> n_quick n' = n_quick n.
Proof.
  intros now uid q r n x n' l T Le H.
  assert (G : ht (keeps n_quick) yes (rpc_done now uid false q (Some r)) n).
  { unfold rpc_done. hstep. destruct (live_ref uid n); [|hstep].
    eapply (ht_bind _ _ _ (fun _ n1 => n_term n1 = n_term n)).
    { hstep; [|reflexivity]. hstep; [destruct p; reflexivity|]. destruct p; reflexivity. }
    intros [] n1 l1 _ _ T1. hstep; [destruct p; reflexivity|].
    match goal with |- ht _ _ _ ?m => assert (T2 : n_term m = n_term n) by (rewrite <- T1; destruct p; reflexivity); generalize dependent m end.
    intros n2 T2. unfold handle_peer_resp. hstep. destruct (find_peer (rs_src r) (n_peers n2)); [|hstep; exact I].
    hstep; [reflexivity|].
    match goal with |- ht _ _ _ ?m => assert (T3 : n_term m = n_term n) by exact T2; generalize dependent m end. intros n3 T3.
    unfold update_term. apply ht_assoc. hstep. replace (n_term n3 <? rs_term r) with true by lia.
    unfold save_state, become_follower, restart_election_timer. walk ltac:(reflexivity). }
  cbn [run_event] in H. unfold bind in H. destruct (rpc_done now uid false q (Some r) n) as [[y m] k] eqn:Ed. destruct (G _ _ _ Ed) as [G1 _].
  destruct y; cbn in H; inversion H; subst; exact G1.
Qed.

(** ** Parts of an event *)
Lemma tr_quick_le : forall e n l n', fe e -> tr e n l n' -> n_quick n <= n_quick n'.
Proof. intros e n l n' F H. induction H; [lia|]. destruct (astep_idx _ _ _ _ F H) as (_ & X & _). lia. Qed.
Lemma astep_prefix_le : forall ev n l n' p s, fe ev -> astep ev n l n' -> l = p ++ s -> p <> [] -> s <> [] ->
  exists n1, astep ev n p n1 /\ n_quick n1 <= n_quick n'.
Proof.
  intros ev n l n' p s F H E Hp Hs. assert (H0 := H).
  destruct H; try (exfalso; apply (f_equal (@length act)) in E; rewrite app_length in E; destruct p; [congruence|]; destruct s; [congruence|]; cbn [length] in E; lia).
  - subst l. exists n'. split; [|lia]. apply A_quiet.
    + destruct H as (ps & q & j & -> & H3 & H4 & H5 & H6). exists ps, q, j. repeat (split; [assumption || reflexivity|]).
      apply Forall_app in H6. apply H6.
    + destruct H1 as [H1 H1q]. split; [|exact H1q]. destruct H1 as [H1|[H1|H1]]; [left; exact H1 | right; left | right; right; exact H1]. apply Forall_app in H1. apply H1.
  - subst l. exists n'. split; [|lia]. apply A_benign; [assumption|]. apply Forall_app in H1. apply H1.
  - destruct (astep_idx _ _ _ _ F H0) as (_ & Le & _). subst l. destruct H2 as (X1 & X2 & X3). apply Forall_app in X1.
    exists (set_disk (fold_left disk_apply p (n_disk n)) n). split; [|exact Le]. apply (A_reconf ev n c); [exact H | exact H1|].
    split; [apply X1|]. split; [destruct n; reflexivity | reflexivity].
Qed.
Lemma tr_prefix_le : forall ev n l n', fe ev -> tr ev n l n' -> forall p s, l = p ++ s -> exists n1, tr ev n p n1 /\ n_quick n1 <= n_quick n'.
Proof.
  intros ev n l n' F H. induction H; intros p s E.
  - destruct p; [|discriminate]. exists n. split; [constructor | lia].
  - destruct (astep_idx _ _ _ _ F H) as (_ & Le & _). assert (Le1 := tr_quick_le _ _ _ _ F H0).
    destruct (le_lt_dec (length p) (length l)) as [Hle|Hgt].
    + assert (El : l = p ++ firstn (length l - length p) s).
      { assert (E2 := f_equal (firstn (length l)) E). rewrite firstn_app, firstn_all, Nat.sub_diag, firstn_O, app_nil_r in E2.
        rewrite firstn_app in E2. rewrite firstn_all2 in E2 by lia. exact E2. }
      destruct p as [|a p]; [exists n; split; [constructor | lia]|].
      destruct (firstn (length l - length (a :: p)) s) as [|b s2] eqn:Es.
      * rewrite app_nil_r in El. subst l. exists n1. split; [apply tr_one; exact H | lia].
      * destruct (astep_prefix_le _ _ _ _ _ _ F H El) as (m & Hm & Lm); [discriminate | discriminate|].
        exists m. split; [apply tr_one; exact Hm | lia].
    + assert (Ep : p = l ++ skipn (length l) p /\ l1 = skipn (length l) p ++ s).
      { assert (E1 := f_equal (firstn (length l)) E). assert (E2 := f_equal (skipn (length l)) E).
        rewrite firstn_app, firstn_all, Nat.sub_diag, firstn_O, app_nil_r in E1.
        rewrite firstn_app in E1. replace (length l - length p)%nat with 0%nat in E1 by lia. rewrite firstn_O, app_nil_r in E1.
        rewrite skipn_app, skipn_all, Nat.sub_diag, skipn_O in E2. cbn [app] in E2.
        rewrite skipn_app in E2. replace (length l - length p)%nat with 0%nat in E2 by lia. rewrite skipn_O in E2.
        split; [|exact E2]. rewrite E1 at 1. symmetry. apply firstn_skipn. }
      destruct Ep as [Ep E1]. destruct (IHtr _ _ E1) as (m & Hm & Lm). exists m. split; [rewrite Ep; econstructor; eassumption | exact Lm].
Qed.

(** a server that has accepted entries has them *)
Lemma append_request_post : forall now q n, 1 <= al_start (n_log n) -> rq_type q = append_entries_request ->
  ht (tr (ERequest now q)) (fun r n' => rs_accepted r = true -> receiving q (length (rq_entries q)) n') (process_req now q) n.
Proof.
  intros now q n Hst Ht. unfold process_req. rewrite Ht. cbv zeta.
  eapply (ht_bind _ _ _ (fun _ n1 => rq_term q <= n_term n1 /\ n_log n1 = n_log n)).
  { change (beq append_entries_request append_entries_request || beq append_entries_request vote_request || beq append_entries_request install_snapshot_request) with true.
    unfold when at 1. cbv iota.
    eapply ht_bind; [exact _ | apply update_term_tr; left; exists q; split; [exists now; reflexivity | reflexivity]|].
    intros b n1 l1 _ _ (_ & U). destruct U as (U1 & U2 & _). hstep. hstep.
    - hstep; [apply tr_one, A_steps; left; lia|]. split; [cbn; lia | exact U2].
    - split; [lia | exact U2]. }
  intros u n1 l1 _ _ (T1 & L1). change (beq append_entries_request append_entries_request) with true. cbv iota.
  apply handle_append_entries_tr; [exact Ht | exact T1 | rewrite L1; exact Hst].
Qed.
Lemma event_append_post : forall now q n r n' l, 1 <= al_start (n_log n) -> rq_type q = append_entries_request ->
  run_event (ERequest now q) n = (ROk (Response r), n', l) -> rs_accepted r = true -> receiving q (length (rq_entries q)) n'.
Proof.
  intros now q n r n' l Hst Ht H Ha. cbn [run_event] in H. unfold bind in H.
  destruct (process_req now q n) as [[x n1] l1] eqn:E. destruct x as [a|e|u|]; try discriminate.
  cbv beta iota delta [ret] in H. inversion H; subst. apply (proj2 (append_request_post now q n Hst Ht _ _ _ E) _ eq_refl Ha).
Qed.

Section Events.
  Variable servers : list srv_config.
  Hypothesis HC : cluster_okay servers.
  Hypothesis H2 : (2 <= length (ids servers))%nat.
  Let ids := ids servers.

  Record sinv (ak : Z -> N -> N -> Prop) (s : Z -> sys) (A : Z -> list act) (tl : N -> alog) (cl vl : Z -> N -> option alog) : Prop := mkSinv {
    s_e : einv servers s A;
    s_l : linv servers s A tl;
    s_b : binv servers s tl;
    s_v : vinv servers s A tl cl vl;
    s_h : hinv servers ak s A tl vl;
    s_d : dinv servers ak s A tl
  }.

  (** *** the same at every server *)
  Lemma ledt_ext : forall A A' t, (forall j, A' j = A j) -> ledt servers A' t <-> ledt servers A t.
  Proof. intros A A' t HA. unfold ledt. split; intros (j & Hj & X); exists j; [rewrite <- HA | rewrite HA]; auto. Qed.
  Lemma held_ext : forall ak A A' tl j t k, (forall j, A' j = A j) -> held ak A' tl j t k <-> held ak A tl j t k.
  Proof. intros ak A A' tl j t k HA. unfold held. rewrite HA. tauto. Qed.
  Lemma chosen_ext : forall ak A A' tl t k, (forall j, A' j = A j) -> chosen servers ak A tl t k -> chosen servers ak A' tl t k.
  Proof.
    intros ak A A' tl t k HA (e & B & X1 & X2 & X3 & X4 & X5 & X6). exists e, B. repeat (split; [assumption|]). intros j Hj. apply (held_ext ak A A'); auto.
  Qed.
  Lemma com_ext : forall ak A A' tl T l m, (forall j, A' j = A j) -> com servers ak A tl T l m -> com servers ak A' tl T l m.
  Proof.
    intros ak A A' tl T l m HA [C|(t & k & C1 & C2)]; [left; exact C|]. right. exists t, k. split; [eapply chosen_ext; eassumption | exact C2].
  Qed.
  Lemma sinv_ext : forall ak s A s' A' tl cl vl, (forall j, s' j = s j) -> (forall j, A' j = A j) -> sinv ak s A tl cl vl -> sinv ak s' A' tl cl vl.
  Proof.
    intros ak s A s' A' tl cl vl HS HA [E L [B1 B2 B3] [V1 V2 V3 V4 V5 V6] [G1 G2] [D1 D2 D3 D4]]. split.
    - apply (einv_ext servers s A); assumption.
    - apply (linv_ext servers s A); assumption.
    - split; [|exact B2|exact B3]. intros i Hi. rewrite HS. apply B1, Hi.
    - split.
      + intros c u lc Hc Hlc. destruct (V1 c u lc Hc Hlc) as (X1 & X2 & X3 & X4 & X5 & X6). rewrite HS, HA.
        repeat (split; [assumption|]). split; [|exact X6]. intros Hu. destruct (X5 Hu) as [X|X]; [left; exact X | right; apply (ledt_ext A A'); assumption].
      + intros k uid ext q Hk Hq T. rewrite HA in Hq. eapply V2; eassumption.
      + intros i n Hi Hn. rewrite HS in Hn. apply (V3 i n Hi Hn).
      + intros j u l Hj Hl. rewrite HS. destruct (V4 j u l Hj Hl) as (X1 & X2 & X3 & c & lc & X4 & X5 & X6). repeat (split; [assumption|]).
        exists c, lc. rewrite HA. auto.
      + intros j u c Hj Hv Hc. rewrite HA in Hv. destruct (V5 j u c Hj Hv Hc) as [X|X]; [left; exact X | right; apply (ledt_ext A A'); assumption].
      + intros i u Hi Hu. rewrite HA in Hu. destruct (V6 i u Hi Hu) as (B & X1 & X2 & X3 & X4). exists B. repeat (split; [assumption|]). intros j Hj. rewrite HA. apply X4, Hj.
    - split.
      + intros j t k Hj Hh. apply (held_ext ak A A') in Hh; [|exact HA]. rewrite HS. destruct (G1 j t k Hj Hh) as (X1 & X2 & X3). repeat (split; [assumption|]).
        intros Hu. apply X3. intros u Hu1 Hu2. apply Hu; [exact Hu1 | apply (ledt_ext A A'); assumption].
      + intros j t k u l Hj Hh Ht Hl Hu. apply (held_ext ak A A') in Hh; [|exact HA]. apply (G2 j t k u l Hj Hh Ht Hl).
        intros u' Hu1 Hu2. apply Hu; [exact Hu1 | apply (ledt_ext A A'); assumption].
    - split.
      + intros i n Hi Hn. rewrite HS in Hn. destruct (D1 i n Hi Hn) as (X1 & X2 & X3). repeat (split; [assumption|]). eapply com_ext; eassumption.
      + intros i Hi. rewrite HS. eapply com_ext; [exact HA | apply D2, Hi].
      + intros k q Hk Hq. destruct (D3 k q Hk (sent_ext _ _ _ _ HA Hq)) as [X|(t & k' & X1 & X2)]; [left; exact X|]. right. exists t, k'. split; [eapply chosen_ext; eassumption | exact X2].
      + intros i k x Hi Hx. rewrite HA in Hx. rewrite HS. destruct (D4 i k x Hi Hx) as (t & k' & X1 & X2). exists t, k'. split; [eapply chosen_ext; eassumption | exact X2].
  Qed.

  Lemma peers_some : forall i n, In i ids -> static servers i (Up n) -> n_peers n <> [].
  Proof.
    intros i n Hi ((_ & _ & Sp & _) & _) Z. rewrite Z in Sp. assert (X := pids_len servers HC i Hi). rewrite <- Sp in X. cbn in X. fold ids in H2. unfold ids in *. lia.
  Qed.

  (** *** one step *)
  Lemma sinv_step : forall ak s A tl cl vl i n e l n', sinv ak s A tl cl vl -> In i ids -> s i = Up n -> fe e -> backed servers A i e -> backed_v servers A e ->
    astep e n l n' -> (n_quick n' = n_quick n \/ com servers ak A tl (n_term n) (n_log n) (n_quick n')) ->
    exists tl' cl' vl', sinv ak (put s i (Up n')) (put A i (A i ++ l)) tl' cl' vl'.
  Proof.
    intros ak s A tl cl vl i n e l n' [E L B V G D] Hi Hs F K Kv H Q.
    destruct (linv_step servers HC s A tl i n e l n' E L Hi Hs F K H) as (tl' & Ev & L').
    assert (E' := einv_step servers HC s A i n e l n' E Hi Hs F K H).
    destruct (gstep_exists servers HC s A tl i e n l n' cl vl E L B V Hi Hs F Kv H) as (cl' & vl' & Gs).
    assert (V' : vinv servers (put s i (Up n')) (put A i (A i ++ l)) tl' cl' vl').
    { eapply (vinv_gstep servers HC); eassumption. }
    exists tl', cl', vl'. split; try assumption.
    - eapply (binv_step servers); eassumption.
    - eapply (hinv_gstep servers HC); eassumption.
    - eapply (dinv_step servers HC); eassumption.
  Qed.
  Lemma quick_okay : forall ak s A tl cl vl i n e l n', sinv ak s A tl cl vl -> In i ids -> s i = Up n -> fe e -> backed servers A i e ->
    astep e n l n' ->
    (forall now uid q r, e = ERpc now uid false q (Some r) -> rs_type r = append_entries_response -> n_quick n' = n_quick n) ->
    (forall q, req_of e q -> rq_type q = append_entries_request -> n_quick n < rq_commit q -> rq_commit q <= ends q \/ a_next (n_log n) - 1 <= ends q) ->
    n_quick n' = n_quick n \/ com servers ak A tl (n_term n) (n_log n) (n_quick n').
  Proof.
    intros ak s A tl cl vl i n e l n' [E L B V G D] Hi Hs F K H HA HR.
    destruct (astep_idx e n l n' F H) as (I1 & I2 & _). destruct I1 as [I1|[I1 I3]]; [left; exact I1|].
    assert (S := e_static _ _ _ E i Hi). rewrite Hs in S. assert (Np := peers_some i n Hi S).
    eapply (quick_com servers HC); eassumption.
  Qed.

  (** *** a whole event *)
  Definition follows (e : event) (n : node) : Prop :=
    forall q, req_of e q -> rq_type q = append_entries_request -> n_quick n < rq_commit q -> rq_commit q <= ends q \/ a_next (n_log n) - 1 <= ends q.
  Lemma follows_step : forall i e n l n', fe e -> static servers i (Up n) -> static servers i (Up n') -> astep e n l n' -> follows e n -> follows e n'.
  Proof.
    intros i e n l n' F S S' H Fo q Q T Lt. destruct (astep_idx e n l n' F H) as (_ & I2 & _). specialize (Fo q Q T ltac:(lia)).
    destruct Fo as [Fo|Fo]; [left; exact Fo|]. right.
    destruct (astep_lchg servers i e n l n' F S H) as [C|x C1 C2 C3 C4 C5 C6 C7|q0 k x idx C1 C2 C3 C4 C5 C6 C7 C8 C9 C10 C11 _].
    - rewrite C. exact Fo.
    - destruct (C7 q Q T).
    - assert (q0 = q) by (destruct Q as [now ->]; destruct C1 as [now1 X]; inversion X; reflexivity). subst q0.
      assert (k < length (rq_entries q))%nat by (apply nth_error_Some; congruence). unfold ends, lenN in *.
      destruct (N.le_gt_cases (a_next (n_log n') - 1) idx) as [Y|Y]; [lia|]. exfalso. specialize (C10 _ Y).
      assert (Sn' : al_start (n_log n') = 1) by apply S'. destruct (a_get_in (n_log n') (a_next (n_log n') - 1)) as (y & Z); [unfold a_next in *; lia | congruence].
  Qed.
  Lemma sinv_tr : forall e n l n', tr e n l n' -> forall ak s A tl cl vl i, sinv ak s A tl cl vl -> In i ids -> s i = Up n -> fe e ->
    backed servers A i e -> backed_v servers A e -> follows e n ->
    (forall now uid q r, e = ERpc now uid false q (Some r) -> rs_type r = append_entries_response -> n_quick n' <= n_quick n) ->
    exists tl' cl' vl', sinv ak (put s i (Up n')) (put A i (A i ++ l)) tl' cl' vl'.
  Proof.
    intros e n l n' H. induction H; intros ak s A tl cl vl i I Hi Hs F K Kv Fo Rs.
    - exists tl, cl, vl. eapply sinv_ext; [| |exact I]; intros j; (destruct (Z.eq_dec j i) as [->|Hne]; [rewrite put_same | rewrite put_other by exact Hne; reflexivity]);
        [symmetry; exact Hs | apply app_nil_r].
    - assert (Le := tr_quick_le _ _ _ _ F H0). destruct (astep_idx _ _ _ _ F H) as (_ & Le0 & _).
      assert (Q : n_quick n1 = n_quick n \/ com servers ak A tl (n_term n) (n_log n) (n_quick n1)).
      { eapply quick_okay; try eassumption. intros now uid q r X Y. specialize (Rs now uid q r X Y). lia. }
      destruct (sinv_step _ _ _ _ _ _ _ _ _ _ _ I Hi Hs F K Kv H Q) as (tl1 & cl1 & vl1 & I1).
      assert (S := e_static _ _ _ (s_e _ _ _ _ _ _ I) i Hi). rewrite Hs in S.
      assert (S1 := e_static _ _ _ (s_e _ _ _ _ _ _ I1) i Hi). rewrite put_same in S1.
      assert (Fo1 := follows_step _ _ _ _ _ F S S1 H Fo).
      destruct (IHtr _ _ _ _ _ _ i I1 Hi (put_same _ _ _ _) F (backed_mono _ _ _ _ _ _ K) (backed_v_mono _ _ _ _ _ Kv) Fo1) as (tl2 & cl2 & vl2 & I2).
      { intros now uid q r X Y. specialize (Rs now uid q r X Y). lia. }
      exists tl2, cl2, vl2. rewrite put_same in I2. rewrite <- app_assoc in I2.
      eapply sinv_ext; [| |exact I2]; (intros j; destruct (Z.eq_dec j i) as [->|Hne]; [rewrite !put_same | rewrite !put_other by exact Hne]; reflexivity).
  Qed.

  (** *** stopping, starting *)
  Lemma sinv_down : forall ak s A tl cl vl i, sinv ak s A tl cl vl -> In i ids -> sinv ak (put s i (Down (sys_disk (s i)))) A tl cl vl.
  Proof.
    intros ak s A tl cl vl i [E L B V G D] Hi.
    assert (X : forall j, slog (put s i (Down (sys_disk (s i))) j) = slog (s j) /\ term_of (put s i (Down (sys_disk (s i))) j) = term_of (s j) /\
                  sys_disk (put s i (Down (sys_disk (s i))) j) = sys_disk (s j)).
    { intros j. destruct (Z.eq_dec j i) as [->|Hne]; [rewrite put_same | rewrite put_other by exact Hne]; repeat split; reflexivity. }
    split.
    - apply einv_down; assumption.
    - apply linv_disk; [assumption | assumption | reflexivity].
    - destruct B as [B1 B2 B3]. split; [|exact B2 | exact B3]. intros j Hj. destruct (X j) as (-> & -> & _). apply B1, Hj.
    - destruct V as [V1 V2 V3 V4 V5 V6]. split; try assumption.
      + intros c u lc Hc Hlc. destruct (X c) as (-> & -> & _). apply V1; assumption.
      + intros j n Hj Hn. destruct (Z.eq_dec j i) as [->|Hne]; [rewrite put_same in Hn; discriminate | rewrite put_other in Hn by exact Hne; eapply V3; eassumption].
      + intros j u l Hj Hl. destruct (X j) as (_ & -> & _). apply V4; assumption.
    - destruct G as [G1 G2]. split; [|exact G2]. intros j t k Hj Hh. destruct (X j) as (-> & -> & _). apply G1; assumption.
    - destruct D as [D1 D2 D3 D4]. split; try assumption.
      + intros j n Hj Hn. destruct (Z.eq_dec j i) as [->|Hne]; [rewrite put_same in Hn; discriminate | rewrite put_other in Hn by exact Hne; eapply D1; eassumption].
      + intros j Hj. destruct (X j) as (-> & -> & ->). apply D2, Hj.
      + intros j k x Hj. destruct (X j) as (-> & -> & _). apply D4, Hj.
  Qed.
  Lemma start_idx : forall i pm d, n_quick (start_node i pm d) = dk_commit d /\ n_smc (start_node i pm d) = dk_commit d /\ n_term (start_node i pm d) = fst (saved d).
  Proof.
    intros i pm d. unfold start_node, saved. destruct (dk_state d) as [[t v]|]; repeat split; reflexivity.
  Qed.
  Lemma sinv_up : forall ak s A tl cl vl i pm d, sinv ak s A tl cl vl -> In i ids -> s i = Down d -> sinv ak (put s i (Up (start_node i pm d))) A tl cl vl.
  Proof.
    intros ak s A tl cl vl i pm d [E L B V G D] Hi Hs.
    assert (Sd := e_static _ _ _ E i Hi). rewrite Hs in Sd. destruct Sd as (_ & _ & Sc & _). destruct (start_n servers HC i pm d Sc) as (_ & _ & _ & _ & R).
    assert (X : forall j, slog (put s i (Up (start_node i pm d)) j) = slog (s j) /\ term_of (put s i (Up (start_node i pm d)) j) = term_of (s j) /\
                  sys_disk (put s i (Up (start_node i pm d)) j) = sys_disk (s j)).
    { intros j. destruct (Z.eq_dec j i) as [->|Hne]; [rewrite put_same, Hs | rewrite put_other by exact Hne; repeat split; reflexivity].
      unfold slog, term_of, sys_disk. rewrite start_disk. repeat split; reflexivity. }
    split.
    - apply (einv_up servers HC); assumption.
    - apply linv_disk; [assumption | assumption|]. rewrite Hs. apply start_disk.
    - destruct B as [B1 B2 B3]. split; [|exact B2 | exact B3]. intros j Hj. destruct (X j) as (-> & -> & _). apply B1, Hj.
    - destruct V as [V1 V2 V3 V4 V5 V6]. split; try assumption.
      + intros c u lc Hc Hlc. destruct (X c) as (-> & -> & _). apply V1; assumption.
      + intros j n Hj Hn Hr. destruct (Z.eq_dec j i) as [->|Hne]; [rewrite put_same in Hn; inversion Hn; subst; congruence | rewrite put_other in Hn by exact Hne; eapply V3; eassumption].
      + intros j u l Hj Hl. destruct (X j) as (_ & -> & _). apply V4; assumption.
    - destruct G as [G1 G2]. split; [|exact G2]. intros j t k Hj Hh. destruct (X j) as (-> & -> & _). apply G1; assumption.
    - destruct D as [D1 D2 D3 D4]. split; try assumption.
      + intros j n Hj Hn. destruct (Z.eq_dec j i) as [->|Hne]; [|rewrite put_other in Hn by exact Hne; eapply D1; eassumption].
        rewrite put_same in Hn. inversion Hn; subst n. destruct (start_idx i pm d) as (Y1 & Y2 & Y3). rewrite Y1, Y2, Y3. unfold n_log. rewrite start_disk.
        split; [lia|]. split; [lia|]. assert (Z := D2 i Hi). rewrite Hs in Z. exact Z.
      + intros j Hj. destruct (X j) as (-> & -> & ->). apply D2, Hj.
      + intros j k x Hj. destruct (X j) as (-> & -> & _). apply D4, Hj.
  Qed.

  (** *** another server has said that it holds an entry *)
  Lemma sinv_ack : forall (ak ak' : Z -> N -> N -> Prop) s A tl cl vl i, sinv ak s A tl cl vl -> In i ids ->
    (forall j t k, ak j t k -> ak' j t k) ->
    (forall j t k, ak' j t k -> ak j t k \/ (j = i /\ term_of (s i) = t /\ a_get (tl t) k <> None /\ agree k (tl t) (slog (s i)))) ->
    sinv ak' s A tl cl vl.
  Proof.
    intros ak ak' s A tl cl vl i [E L B V G D] Hi Old New.
    assert (Ch : forall t k, chosen servers ak A tl t k -> chosen servers ak' A tl t k).
    { intros t k (e & Q & X1 & X2 & X3 & X4 & X5 & X6). exists e, Q. repeat (split; [assumption|]). intros j Hj. destruct (X6 j Hj) as [Y|Y]; [left; apply Old, Y | right; exact Y]. }
    assert (Co : forall T l m, com servers ak A tl T l m -> com servers ak' A tl T l m).
    { intros T l m [C|(t & k & C1 & C2)]; [left; exact C|]. right. exists t, k. auto. }
    assert (Hd : forall j t k, held ak' A tl j t k -> held ak A tl j t k \/ (j = i /\ term_of (s i) = t /\ a_get (tl t) k <> None /\ agree k (tl t) (slog (s i)))).
    { intros j t k [Y|Y]; [|left; right; exact Y]. destruct (New j t k Y) as [Z|Z]; [left; left; exact Z | right; exact Z]. }
    split; try assumption.
    - destruct G as [G1 G2]. split.
      + intros j t k Hj Y. destruct (Hd j t k Y) as [Z|(-> & Z1 & Z2 & Z3)]; [apply G1; assumption|]. split; [lia|]. auto.
      + intros j t k u l Hj Y Ht Hl Hu. destruct (Hd j t k Y) as [Z|(-> & Z1 & Z2 & Z3)]; [eapply G2; eassumption|].
        destruct (v_vl _ _ _ _ _ _ V i u l Hi Hl) as (Z & _). lia.
    - destruct D as [D1 D2 D3 D4]. split.
      + intros j n Hj Hn. destruct (D1 j n Hj Hn) as (X1 & X2 & X3). auto.
      + intros j Hj. apply Co, D2, Hj.
      + intros k q Hk Hq. destruct (D3 k q Hk Hq) as [X|(t & k' & X1 & X2)]; [left; exact X|]. right. exists t, k'. auto.
      + intros j k x Hj Hx. destruct (D4 j k x Hj Hx) as (t & k' & X1 & X2). exists t, k'. auto.
  Qed.
End Events.

(** a log that holds everything in a request has an entry at every index up to its end *)
Lemma full_has : forall q l k, al_start l = 1 -> ae_match q l (length (rq_entries q)) -> 0 < k -> k <= ends q -> a_get l k <> None.
Proof.
  intros q l k Sl (M1 & M2) Hk Hle. unfold ends, lenN in Hle.
  assert (X : exists j e, k <= j /\ a_get l j = Some e).
  { destruct (rq_entries q) as [|y ys] eqn:Eq.
    - cbn [length] in Hle. destruct M1 as [M1|[M1|(e & M1 & _)]]; [lia | lia|]. exists (rq_last_idx q), e. split; [lia | exact M1].
    - destruct (exists_last (l := y :: ys) ltac:(discriminate)) as (l0 & x & X). rewrite X in *. rewrite app_length in *. cbn [length] in *.
      destruct (M2 (length l0) x ltac:(lia)) as (e1 & E1 & _); [rewrite nth_error_app2, Nat.sub_diag by lia; reflexivity|].
      eexists _, e1. split; [|exact E1]. lia. }
  destruct X as (j & e & Hj & Ge). apply a_get_some in Ge. destruct (a_get_in l k) as (y & Y); [lia | congruence].
Qed.

(** ** Whole clusters *)
Section Worlds.
  Variable servers : list srv_config.
  Variable prm : Z -> params.
  Hypothesis HC : cluster_okay servers.
  Hypothesis HS : no_snapshots prm.
  Hypothesis H2 : (2 <= length (ids servers))%nat.
  Let ids := ids servers.

  Definition wsafe (w : world) : Prop := exists tl cl vl, sinv servers (acked w) (w_sys w) (w_acts w) tl cl vl.

  Lemma possible_v : forall w i e, winv servers prm w -> In i ids -> possible servers w i e -> backed_v servers (w_acts w) e.
  Proof.
    intros w i e [E _ O A _] Hi P. destruct e as [| |now q|now uid ext q r|uid q| |sn d ok| | | |]; try exact I. cbn [possible] in P. intros T.
    destruct P as [(k & uid & ext & Hk & Hq & Hd)|[P _]]; [|rewrite T in P; discriminate]. exists k, uid, ext. split; [exact Hk|]. split; [exact Hq|].
    destruct ext; [|apply (e_sent _ _ _ E k uid q Hk Hq)]. exfalso. specialize (O k Hk). rewrite Forall_forall in O. specialize (O _ Hq). cbn in O. rewrite T in O. discriminate.
  Qed.

  Lemma wsafe_event : forall w i n e l n1 x a tl cl vl, winv servers prm w -> In i ids -> w_sys w i = Up n -> backed servers (w_acts w) i e ->
    sinv servers (acked w) (put (w_sys w) i (Up n1)) (put (w_acts w) i (w_acts w i ++ l)) tl cl vl ->
    (x = Up n1 \/ x = Down (n_disk n1)) ->
    (forall now q r, e = ERequest now q -> a = Some (Response r) -> rq_type q = append_entries_request -> rs_accepted r = true -> receiving q (length (rq_entries q)) n1) ->
    wsafe (next_world w i x [mkObs e l a]).
  Proof.
    intros w i n e l n1 x a tl cl vl W Hi Hs K I Hx Ha. exists tl, cl, vl.
    assert (XA := acts_next w i x e l a).
    assert (I1 : sinv servers (acked (next_world w i x [mkObs e l a])) (put (w_sys w) i (Up n1)) (put (w_acts w) i (w_acts w i ++ l)) tl cl vl).
    { apply (sinv_ack servers H2 (acked w) _ _ _ _ _ _ i); [exact I | exact Hi | |].
      - intros j t k (Hk & q & r & (now & l0 & Hin) & X). split; [exact Hk|]. exists q, r. split; [|exact X]. exists now, l0. unfold next_world. cbn [w_hist].
        destruct (Z.eq_dec j i) as [->|Hne]; [rewrite put_same; apply in_or_app; left; exact Hin | rewrite put_other by exact Hne; exact Hin].
      - intros j t k (Hk & q & r & (now & l0 & Hin) & X1 & X2 & X3 & X4). unfold next_world in Hin. cbn [w_hist] in Hin.
        destruct (Z.eq_dec j i) as [->|Hne]; [|rewrite put_other in Hin by exact Hne; left; split; [exact Hk|]; exists q, r; split; [exists now, l0; exact Hin | auto]].
        rewrite put_same in Hin. apply in_app_or in Hin. destruct Hin as [Hin|[Hin|[]]]; [left; split; [exact Hk|]; exists q, r; split; [exists now, l0; exact Hin | auto]|].
        inversion Hin; subst e l0 a. right. split; [reflexivity|]. destruct (Ha now q r eq_refl eq_refl X1 X2) as (R1 & R2 & R3).
        destruct I as [E L _ _ _ _]. assert (S := e_static _ _ _ E i Hi). rewrite put_same in S. assert (Ml := l_logs _ _ _ _ L i Hi). rewrite put_same in *.
        change (slog (Up n1)) with (n_log n1) in *. assert (Sn : al_start (n_log n1) = 1) by apply S.
        assert (Ter : term_of (Up n1) = n_term n1) by (unfold term_of; cbn [sys_disk]; destruct S as ((_ & Sy & _) & _); rewrite Sy; reflexivity).
        rewrite Ter. split; [congruence|]. subst t. destruct (K X1) as (ld & Hld & Sq & Dq).
        assert (P : part (tl (rq_term q)) q).
        { apply (l_ae _ _ _ _ L ld q Hld). destruct Sq as (Y & uid & ext & Hq). split; [exact Y|]. exists uid, ext.
          destruct (Z.eq_dec ld i) as [->|Hne]; [rewrite put_same; apply in_or_app; left; exact Hq | rewrite put_other by exact Hne; exact Hq]. }
        assert (Ag := full_agree tl (n_log n1) (rq_term q) q Ml (proj1 (l_tl _ _ _ _ L _)) Sn (proj2 (l_tl _ _ _ _ L _)) P R3).
        fold (ends q) in X4. split.
        + rewrite <- (Ag k X4). apply (full_has q); assumption.
        + intros m Hm. symmetry. apply Ag. lia. }
    assert (I2 : sinv servers (acked (next_world w i x [mkObs e l a])) (put (w_sys w) i x) (put (w_acts w) i (w_acts w i ++ l)) tl cl vl).
    { destruct Hx as [-> | ->]; [exact I1|].
      eapply sinv_ext; [| intros; reflexivity | apply (sinv_down servers _ _ _ _ _ _ i I1 Hi)].
      intros j. rewrite (put_same _ (w_sys w)). destruct (Z.eq_dec j i) as [->|Hne]; [rewrite !put_same | rewrite !put_other by exact Hne]; reflexivity. }
    eapply sinv_ext; [intros; reflexivity | exact XA | exact I2].
  Qed.

  Lemma wsafe_part : forall w i n e r n' p q, winv servers prm w -> wsafe w -> In i ids -> w_sys w i = Up n -> possible servers w i e ->
    run_event e n = (r, n', p ++ q) -> rules servers w i n e n' ->
    exists n1 tl cl vl, sinv servers (acked w) (put (w_sys w) i (Up n1)) (put (w_acts w) i (w_acts w i ++ p)) tl cl vl /\
      n_disk n1 = fold_left disk_apply p (n_disk n) /\ (q = [] -> n1 = n').
  Proof.
    intros w i n e r n' p q W (tl & cl & vl & I) Hi Hs P H R.
    destruct (possible_fe servers prm HC w i e W Hi P) as [F K]. assert (Kv := possible_v w i e W Hi P).
    assert (S := e_static _ _ _ (s_e _ _ _ _ _ _ _ I) i Hi). rewrite Hs in S. assert (Sn : al_start (n_log n) = 1) by apply S.
    assert (HT := proj1 (run_event_tr e n ltac:(lia) _ _ _ H)).
    assert (Dec : (exists now uid rq rs, e = ERpc now uid false rq (Some rs) /\ rs_type rs = append_entries_response /\ n_quick n < n_quick n') \/
                  (forall now uid rq rs, e = ERpc now uid false rq (Some rs) -> rs_type rs = append_entries_response -> n_quick n' <= n_quick n)).
    { destruct (N.le_gt_cases (n_quick n') (n_quick n)) as [Le|Gt]; [right; intros; exact Le|].
      destruct e as [| |now rq|now uid ext rq rs|uid rq| |sn d ok| | | |]; try (right; intros; discriminate).
      destruct ext; [right; intros; discriminate|]. destruct rs as [rs|]; [|right; intros; discriminate].
      destruct (beq (rs_type rs) append_entries_response) eqn:T; [left; exists now, uid, rq, rs; split; [reflexivity|]; split; [apply beq_eq, T | exact Gt]|].
      right. intros now1 uid1 rq1 rs1 X Y. inversion X; subst. rewrite Y in T. discriminate. }
    destruct Dec as [(now & uid & rq & rs & Ee & T & Gt)|Rs].
    - assert (Le : rs_term rs <= n_term n).
      { destruct (N.le_gt_cases (rs_term rs) (n_term n)) as [Le|Gt2]; [exact Le|]. subst e. rewrite (resp_newer _ _ _ _ _ _ _ _ T Gt2 H) in Gt. lia. }
      assert (Q : rqr n (p ++ q) n') by (subst e; apply (resp_rqr _ _ _ _ _ _ _ _ T Le H)). destruct Q as [Q1 Q2].
      assert (St : astep e n p n').
      { apply A_quiet.
        - destruct Q1 as (ps & y & j & -> & X1 & X2 & X3 & X4). exists ps, y, j. repeat (split; [assumption || reflexivity|]). apply Forall_app in X4. apply X4.
        - split; [destruct Q2 as [Q2|Q2]; [left; exact Q2 | right; left; apply Forall_app in Q2; apply Q2]|].
          right. right. right. right. left. exists now, uid, rq, rs. auto. }
      assert (M : majority_has servers w i n (n_quick n')) by (subst e; apply R, Gt). destruct M as ((_ & Ld) & (x & Gx & Tx) & B & NB & IB & MB & HB).
      assert (El : tl (n_term n) = n_log n).
      { assert (X := l_led _ _ _ _ (s_l _ _ _ _ _ _ _ I) i (n_term n) Hi). rewrite Hs in X. change (slog (Up n)) with (n_log n) in X. symmetry. apply X; [apply leads_in, Ld|].
        unfold term_of. cbn [sys_disk]. destruct S as ((_ & Sy & _) & _). rewrite Sy. reflexivity. }
      assert (C : com servers (acked w) (w_acts w) tl (n_term n) (n_log n) (n_quick n')).
      { right. exists (n_term n), (n_quick n'). split; [|split; [lia|]; split; [lia|]; intros j _ _; rewrite El; reflexivity].
        exists x, B. rewrite El. repeat (split; [assumption|]). intros j Hj. destruct (HB j Hj) as [->|Ha]; [|left; exact Ha].
        right. split; [apply leads_in, Ld | rewrite El, Gx; discriminate]. }
      destruct (sinv_step servers HC _ _ _ _ _ _ _ _ _ _ _ I Hi Hs F K Kv St (or_intror C)) as (tl1 & cl1 & vl1 & I1).
      exists n', tl1, cl1, vl1. split; [exact I1|]. split; [|reflexivity]. apply (astep_disk _ _ _ _ St).
    - assert (Fo : follows e n).
      { intros rq [now ->] T Lt. destruct (R T Lt) as [X|X]; [left; exact X | right; unfold ends; lia]. }
      assert (X : exists n1, tr e n p n1 /\ n_quick n1 <= n_quick n' /\ (q = [] -> n1 = n')).
      { destruct q as [|a q]; [exists n'; rewrite app_nil_r in HT; split; [exact HT|]; split; [lia | reflexivity]|].
        destruct (tr_prefix_le _ _ _ _ F HT p (a :: q) eq_refl) as (n1 & X1 & X2). exists n1. split; [exact X1|]. split; [exact X2 | discriminate]. }
      destruct X as (n1 & HT1 & Le & Z).
      destruct (sinv_tr servers HC H2 e n p n1 HT1 _ _ _ _ _ _ i I Hi Hs F K Kv Fo) as (tl1 & cl1 & vl1 & I1).
      { intros now uid rq rs X Y. specialize (Rs now uid rq rs X Y). lia. }
      exists n1, tl1, cl1, vl1. split; [exact I1|]. split; [apply (tr_disk _ _ _ _ HT1) | exact Z].
  Qed.

  Lemma wsafe_step : forall w w', winv servers prm w -> wsafe w -> step servers prm w w' ->
    (forall i n e n', In i ids -> happens w w' i n e n' -> rules servers w i n e n') -> wsafe w'.
  Proof.
    intros w w' W Sf H R.
    assert (Hh : forall i x e l a, w_hist (next_world w i x [mkObs e l a]) i = w_hist w i ++ [mkObs e l a]) by (intros; unfold next_world; cbn [w_hist]; apply put_same).
    destruct H.
    - destruct (possible_fe servers prm HC w i e W H H1) as [F K].
      assert (Ru : rules servers w i n e n') by (apply R; [exact H|]; split; [exact H0|]; split; [eauto | exists r, l; exact H3]).
      destruct (wsafe_part w i n e r n' l [] W Sf H H0 H1 ltac:(rewrite app_nil_r; exact H3) Ru) as (n1 & tl & cl & vl & I & _ & Z). rewrite (Z eq_refl) in I.
      eapply wsafe_event; try eassumption; [left; reflexivity|]. intros now q rs -> Ea T Acc. destruct r as [a| | |]; try discriminate. cbn in Ea. inversion Ea; subst a.
      eapply event_append_post; try eassumption. assert (S := e_static _ _ _ (w_e _ _ w W) i H). rewrite H0 in S. assert (Sn : al_start (n_log n) = 1) by apply S. lia.
    - destruct (possible_fe servers prm HC w i e W H H1) as [F K].
      assert (Ru : rules servers w i n e n') by (apply R; [exact H|]; split; [exact H0|]; split; [eauto | exists r, l; exact H3]).
      destruct (wsafe_part w i n e r n' l [] W Sf H H0 H1 ltac:(rewrite app_nil_r; exact H3) Ru) as (n1 & tl & cl & vl & I & _ & Z). rewrite (Z eq_refl) in I.
      eapply wsafe_event; try eassumption; [right; reflexivity | intros; discriminate].
    - destruct (possible_fe servers prm HC w i e W H H1) as [F K].
      assert (Ru : rules servers w i n e n') by (apply R; [exact H|]; split; [exact H0|]; split; [eauto | exists r, (p ++ q); exact H3]).
      destruct (wsafe_part w i n e r n' p q W Sf H H0 H1 H3 Ru) as (n1 & tl & cl & vl & I & D & _). rewrite <- D.
      eapply wsafe_event; try eassumption; [right; reflexivity | intros; discriminate].
    - destruct Sf as (tl & cl & vl & I). exists tl, cl, vl.
      assert (XA : forall j, w_acts (next_world w i (Up (start_node i (prm i) d)) []) j = w_acts w j).
      { intros j. unfold w_acts, next_world. cbn [w_hist]. destruct (Z.eq_dec j i) as [->|Hne]; [rewrite put_same, app_nil_r | rewrite put_other by exact Hne]; reflexivity. }
      assert (XW : forall j, w_hist (next_world w i (Up (start_node i (prm i) d)) []) j = w_hist w j).
      { intros j. unfold next_world. cbn [w_hist]. destruct (Z.eq_dec j i) as [->|Hne]; [rewrite put_same, app_nil_r | rewrite put_other by exact Hne]; reflexivity. }
      assert (I1 := sinv_up servers HC H2 _ _ _ _ _ _ i (prm i) d I H H0).
      eapply sinv_ext; [intros; reflexivity | exact XA|]. cbn [next_world w_sys].
      apply (sinv_ack servers H2 (acked w) _ _ _ _ _ _ i); [exact I1 | exact H | |].
      + intros j t k (Hk & q & r & (now & l0 & Hin) & X). split; [exact Hk|]. exists q, r. split; [exists now, l0; rewrite XW; exact Hin | exact X].
      + intros j t k (Hk & q & r & (now & l0 & Hin) & X). left. split; [exact Hk|]. exists q, r. split; [exists now, l0; rewrite XW in Hin; exact Hin | exact X].
  Qed.

  Lemma wsafe_initial : forall w, initial servers w -> wsafe w.
  Proof.
    intros w I. assert (W := winv_initial servers prm w I). destruct W as [E [tl L] _ _ _].
    assert (XA : forall j, w_acts w j = []) by (intros j; unfold w_acts; rewrite (proj1 (I j)); reflexivity).
    assert (XD : forall j, In j ids -> exists d, w_sys w j = Down d /\ fresh_disk servers d) by (intros j; apply I).
    assert (XN : forall j q r, ~ answered w j q r) by (intros j q r (now & l & Hin); rewrite (proj1 (I j)) in Hin; destruct Hin).
    assert (XT : forall t, tl t = a_empty) by (intros t; apply (l_none _ _ _ _ L); intros j Hj X; rewrite XA in X; destruct X).
    assert (NA : forall j t k, ~ held (acked w) (w_acts w) tl j t k).
    { intros j t k [(_ & q & r & X & _)|[X _]]; [apply (XN _ _ _ X) | rewrite XA in X; destruct X]. }
    exists tl, (fun _ _ => None), (fun _ _ => None). split; [exact E | exact L | split | split | split | split].
    - intros j Hj k x Hk. destruct (XD j Hj) as (d & Ed & D1 & D2 & D3 & _). rewrite Ed in Hk. unfold slog in Hk. cbn [sys_disk] in Hk. rewrite D3, get_empty in Hk. discriminate.
    - intros t k x Hk. rewrite XT, get_empty in Hk. discriminate.
    - intros t k1 k2 e1 e2 Hk X. rewrite XT, get_empty in X. discriminate.
    - intros; discriminate.
    - intros k uid ext q Hk Hq. rewrite XA in Hq. destruct Hq.
    - intros j n Hj Hn. destruct (XD j Hj) as (d & Ed & _). congruence.
    - intros; discriminate.
    - intros j u c Hj Hv. rewrite XA in Hv. destruct Hv.
    - intros j u Hj Hu. rewrite XA in Hu. destruct Hu.
    - intros j t k Hj X. destruct (NA _ _ _ X).
    - intros; discriminate.
    - intros j n Hj Hn. destruct (XD j Hj) as (d & Ed & _). congruence.
    - intros j Hj. destruct (XD j Hj) as (d & Ed & D1 & D2 & D3 & D4 & _). left. rewrite Ed. exact D4.
    - intros k q Hk (_ & uid & ext & Hq). rewrite XA in Hq. destruct Hq.
    - intros j k x Hj Hx. rewrite XA in Hx. destruct Hx.
  Qed.
  Theorem careful_safe : forall w0 w, initial servers w0 -> careful servers prm w0 w -> winv servers prm w /\ wsafe w.
  Proof.
    intros w0 w I H. induction H as [|w w' H [W Sf] Hs R]; [split; [apply winv_initial; assumption | apply wsafe_initial, I]|].
    split; [eapply winv_step; eassumption | eapply wsafe_step; eassumption].
  Qed.
  Lemma careful_reach : forall w0 w, careful servers prm w0 w -> reach servers prm w0 w.
  Proof. intros w0 w H. induction H; [constructor | econstructor; eassumption]. Qed.

  (** chosen entries are the same in all terms *)
  Lemma chosen_led : forall ak s A tl t k, linv servers s A tl -> chosen servers ak A tl t k -> ledt servers A t.
  Proof.
    intros ak s A tl t k L (e & B & G & _). destruct (ledt_dec servers A t) as [X|X]; [exact X|]. exfalso.
    rewrite (l_none _ _ _ _ L t) in G; [rewrite get_empty in G; discriminate|]. intros i Hi Hl. apply X. exists i. auto.
  Qed.
  Lemma chosen_same : forall ak s A tl cl vl t1 k1 t2 k2 k, sinv servers ak s A tl cl vl -> chosen servers ak A tl t1 k1 -> chosen servers ak A tl t2 k2 ->
    k <= k1 -> k <= k2 -> a_get (tl t1) k = a_get (tl t2) k.
  Proof.
    intros ak s A tl cl vl t1 k1 t2 k2 k [E L B V G _] C1 C2 L1 L2. destruct (N.lt_trichotomy t1 t2) as [X|[->|X]]; [|reflexivity|].
    - apply (completeness servers HC _ _ _ _ _ _ E L B V G t1 k1 C1 t2 X); [eapply chosen_led; eassumption | exact L1].
    - symmetry. apply (completeness servers HC _ _ _ _ _ _ E L B V G t2 k2 C2 t1 X); [eapply chosen_led; eassumption | exact L2].
  Qed.
  Theorem careful_applied : forall w0 w, initial servers w0 -> careful servers prm w0 w ->
    forall i j k x y, applied servers w i k x -> applied servers w j k y -> x = y.
  Proof.
    intros w0 w I H i j k x y [Hi Ai] [Hj Aj]. destruct (careful_safe w0 w I H) as [_ (tl & cl & vl & Sf)].
    destruct (d_app _ _ _ _ _ (s_d _ _ _ _ _ _ _ Sf) i k x Hi Ai) as (t1 & k1 & C1 & L1 & G1 & _).
    destruct (d_app _ _ _ _ _ (s_d _ _ _ _ _ _ _ Sf) j k y Hj Aj) as (t2 & k2 & C2 & L2 & G2 & _).
    rewrite (chosen_same _ _ _ _ _ _ t1 k1 t2 k2 k Sf C1 C2 L1 L2) in G1. congruence.
  Qed.
End Worlds.
