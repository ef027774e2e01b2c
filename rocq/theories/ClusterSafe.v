(** * ClusterSafe: entries held by a majority stay (Leader Completeness)

    Ghost state beside the cluster: the log each candidate had when it stood in a term
    ([cl]) and the log each voter had when it gave its vote before anyone led the term
    ([vl]). *)

From Verif Require Import Base Buffer Codec CodecSpec Msg FsLogStore FsLogSpec Alog
  Raft RaftQuiet RaftTrace RaftTrace2 RaftTrace3 NodeSpec NodeLife Cluster ClusterElect ClusterLog.
Local Open Scope N_scope.

Definition lterm (l : alog) : N := ev_term (a_last l).
(** the log of a candidate is at least as up to date as a voter's *)
Definition upto (lc l : alog) : Prop := lterm l < lterm lc \/ (lterm l = lterm lc /\ a_next l <= a_next lc).

Lemma last_entry : forall l, al_start l = 1 ->
  (a_next l = 1 /\ lterm l = 0) \/ (1 < a_next l /\ a_get l (a_next l - 1) = Some (a_last l)).
Proof.
  intros l S. unfold lterm, a_last, a_next, a_get, lenN. rewrite S. destruct (al_ents l) as [|x es] eqn:E.
  - left. split; reflexivity.
  - right. rewrite <- E. assert (L : (0 < length (al_ents l))%nat) by (rewrite E; cbn; lia). split; [lia|].
    replace (1 + N.of_nat (length (al_ents l)) - 1 <? 1) with false by lia.
    replace (N.to_nat (1 + N.of_nat (length (al_ents l)) - 1 - 1)) with (length (al_ents l) - 1)%nat by lia.
    clear E S. induction (al_ents l) as [|y ys IH]; [cbn in L; lia|]. destruct ys as [|z zs]; [reflexivity|].
    cbn [length] in *. replace (S (S (length zs)) - 1)%nat with (S (length zs)) by lia. cbn [nth_error].
    change (last (y :: z :: zs) empty_entry) with (last (z :: zs) empty_entry). rewrite <- IH by lia. f_equal. lia.
Qed.
Lemma get_below : forall l k j, al_start l = 1 -> a_get l k <> None -> 1 <= j <= k -> exists e, a_get l j = Some e.
Proof.
  intros l k j S H L. destruct (a_get l k) eqn:E; [|congruence]. apply a_get_some in E. apply a_get_in. lia.
Qed.
Lemma vote_upto : forall q l lc, rq_last_idx q = a_next lc - 1 -> rq_last_term q = lterm lc -> vote_log_okay q l = true ->
  al_start lc = 1 -> al_start l = 1 -> upto lc l.
Proof.
  intros q l lc H1 H2 V S1 S2. unfold vote_log_okay in V. rewrite H1, H2 in V. fold (lterm l) in V. apply orb_prop in V.
  assert (1 <= a_next lc) by (unfold a_next; lia). assert (1 <= a_next l) by (unfold a_next; lia).
  destruct V as [V|V]; [left; lia|]. apply andb_prop in V. destruct V as [V1 V2]. right. lia.
Qed.
Lemma prev_lterm : forall n t, al_start (n_log n) = 1 -> prev_term n (a_next (n_log n) - 1) t -> t = lterm (n_log n).
Proof.
  intros n t S P. destruct (last_entry _ S) as [[L1 L2]|[L1 L2]].
  - rewrite L1 in P. destruct P as [[_ P]|[(P & _)|(P & _)]]; [congruence | lia | lia].
  - destruct P as [[P _]|[(_ & _ & e & P1 & P2)|(P & _)]]; [lia | | lia]. rewrite L2 in P1. inversion P1; subst. reflexivity.
Qed.

(** terms do not decrease along a log *)
Definition rising (l : alog) : Prop := forall j k e f, a_get l j = Some e -> a_get l k = Some f -> j <= k -> ev_term e <= ev_term f.
Definition below (t : N) (l : alog) : Prop := forall k e, a_get l k = Some e -> ev_term e <= t.
Lemma matches_rising : forall tl l, (forall t, rising (tl t)) -> matches tl l -> rising l.
Proof.
  intros tl l R M j k e f Ej Ek L. assert (A := M k f Ek). apply (R (ev_term f) j k); [rewrite <- (A j L); exact Ej | rewrite <- (A k (N.le_refl k)); exact Ek | exact L].
Qed.

Section Safe.
  Variable servers : list srv_config.
  Hypothesis HC : cluster_okay servers.
  Let ids := ids servers.
  Notation einv := (einv servers).
  Notation linv := (linv servers).
  Notation evolves := (evolves servers).

  Definition ledt (A : Z -> list act) (t : N) : Prop := exists j, In j ids /\ In t (leads (A j)).
  Lemma ledt_dec : forall A t, ledt A t \/ ~ ledt A t.
  Proof.
    intros A t. unfold ledt. destruct (existsb (fun j => existsb (N.eqb t) (leads (A j))) ids) eqn:E.
    - left. apply existsb_exists in E. destruct E as (j & Hj & E). apply existsb_exists in E. destruct E as (u & Hu & E).
      apply N.eqb_eq in E. subst u. eauto.
    - right. intros (j & Hj & Hu). assert (X : existsb (fun j => existsb (N.eqb t) (leads (A j))) ids = true); [|congruence].
      apply existsb_exists. exists j. split; [exact Hj|]. apply existsb_exists. exists t. split; [exact Hu | apply N.eqb_refl].
  Qed.
  Lemma ledt_mono : forall A i l t, ledt A t -> ledt (put A i (A i ++ l)) t.
  Proof. intros A i l t (j & Hj & H). exists j. split; [exact Hj | apply leads_mono, H]. Qed.

  Record binv (s : Z -> sys) (tl : N -> alog) : Prop := mkBinv {
    b_log : forall i, In i ids -> below (term_of (s i)) (slog (s i));
    b_tl : forall t, below t (tl t);
    b_rise : forall t, rising (tl t)
  }.
  Record vinv (s : Z -> sys) (A : Z -> list act) (tl : N -> alog) (cl vl : Z -> N -> option alog) : Prop := mkVinv {
    v_cl : forall c u lc, In c ids -> cl c u = Some lc ->
      u <= term_of (s c) /\ al_start lc = 1 /\ matches tl lc /\ (forall k e, a_get lc k = Some e -> ev_term e < u) /\
      (u = term_of (s c) -> slog (s c) = lc \/ ledt A u) /\ (In u (leads (A c)) -> agree (a_next lc - 1) lc (tl u));
    v_req : forall k uid ext q, In k ids -> In (ASend uid ext q) (A k) -> rq_type q = vote_request ->
      exists lc, cl k (rq_term q) = Some lc /\ rq_last_idx q = a_next lc - 1 /\ rq_last_term q = lterm lc;
    v_cand : forall i n, In i ids -> s i = Up n -> n_role n = Candidate ->
      (n_vote n = i -> exists lc, cl i (n_term n) = Some lc) /\ (forall lc, cl i (n_term n) = Some lc -> n_log n = lc) /\
      (forall k e, a_get (n_log n) k = Some e -> ev_term e < n_term n);
    v_vl : forall j u l, In j ids -> vl j u = Some l ->
      u <= term_of (s j) /\ al_start l = 1 /\ matches tl l /\
      exists c lc, In c ids /\ In (u, c) (saves (A j)) /\ cl c u = Some lc /\ upto lc l;
    v_early : forall j u c, In j ids -> In (u, c) (saves (A j)) -> c <> (-1)%Z -> (exists l, vl j u = Some l) \/ ledt A u;
    v_led : forall i u, In i ids -> In u (leads (A i)) ->
      exists B, NoDup B /\ incl B ids /\ (length ids < 2 * length B)%nat /\
        forall j, In j B -> In (u, i) (saves (A j)) /\ exists l, vl j u = Some l
  }.

  (** server [j] has held the leader's entry [k] in term [t]: it said so, or it was the leader *)
  Definition held (ak : Z -> N -> N -> Prop) (A : Z -> list act) (tl : N -> alog) (j : Z) (t k : N) : Prop :=
    ak j t k \/ (In t (leads (A j)) /\ a_get (tl t) k <> None).
  Record hinv (ak : Z -> N -> N -> Prop) (s : Z -> sys) (A : Z -> list act) (tl : N -> alog) (vl : Z -> N -> option alog) : Prop := mkHinv {
    h_now : forall j t k, In j ids -> held ak A tl j t k -> t <= term_of (s j) /\ a_get (tl t) k <> None /\
      ((forall u, t < u <= term_of (s j) -> ledt A u -> agree k (tl t) (tl u)) -> agree k (tl t) (slog (s j)));
    h_then : forall j t k u l, In j ids -> held ak A tl j t k -> t < u -> vl j u = Some l ->
      (forall u', t < u' < u -> ledt A u' -> agree k (tl t) (tl u')) -> agree k (tl t) l
  }.
  (** an entry of the leader's own term that a majority has held *)
  Definition chosen (ak : Z -> N -> N -> Prop) (A : Z -> list act) (tl : N -> alog) (t k : N) : Prop :=
    exists e B, a_get (tl t) k = Some e /\ ev_term e = t /\ NoDup B /\ incl B ids /\ (length ids < 2 * length B)%nat /\
      forall j, In j B -> held ak A tl j t k.

  (** Leader Completeness: every later leader has it *)
  Lemma completeness : forall ak s A tl cl vl, einv s A -> linv s A tl -> binv s tl -> vinv s A tl cl vl -> hinv ak s A tl vl ->
    forall t k, chosen ak A tl t k -> forall u, t < u -> ledt A u -> agree k (tl t) (tl u).
  Proof.
    intros ak s A tl cl vl E L Bi V H t k Ch u. induction u as [u IH] using (well_founded_induction N.lt_wf_0).
    intros Htu (c & Hc & Lu). assert (Ch0 := Ch). destruct Ch as (e & B1 & Ge & Te & NB1 & IB1 & MB1 & HB1).
    destruct (v_led _ _ _ _ _ V c u Hc Lu) as (B2 & NB2 & IB2 & MB2 & HB2).
    destruct (pigeon servers B1 B2 NB1 NB2 IB1 IB2 ltac:(fold ids; lia)) as (j & J1 & J2). specialize (HB1 j J1).
    destruct (HB2 j J2) as (Vj & l & Hl). assert (Hj : In j ids) by (apply IB1, J1).
    assert (Al : agree k (tl t) l).
    { apply (h_then _ _ _ _ _ H j t k u l Hj HB1 Htu Hl). intros u' Hu' Hled. apply IH; [lia | lia | exact Hled]. }
    destruct (v_vl _ _ _ _ _ V j u l Hj Hl) as (_ & Sl & Ml & c' & lc & Hc' & Vj' & Hlc & Up).
    assert (c' = c).
    { assert (TV := e_tv _ _ _ E j Hj). apply (tv_chain_vote _ _ _ TV (u, c') (u, c)); try (right; assumption); try reflexivity; cbn; apply (ids_pos servers HC); assumption. }
    subst c'. destruct (v_cl _ _ _ _ _ V c u lc Hc Hlc) as (_ & Sc & Mc & Tc & _ & Ac). specialize (Ac Lu).
    assert (St : forall t, al_start (tl t) = 1) by (intros; apply (l_tl _ _ _ _ L)).
    assert (Rl : rising l) by (eapply matches_rising; [apply (b_rise _ _ Bi) | exact Ml]).
    assert (Gl : a_get l k = Some e) by (rewrite <- (Al k (N.le_refl k)); exact Ge).
    assert (Kl := Gl). apply a_get_some in Kl. rewrite Sl in Kl.
    destruct (last_entry l Sl) as [[Z _]|[_ Ll]]; [lia|].
    assert (Tl : t <= lterm l). { rewrite <- Te. apply (Rl k (a_next l - 1) _ _ Gl Ll). lia. }
    assert (Goal2 : agree k (tl t) lc /\ k < a_next lc).
    { destruct (last_entry lc Sc) as [[Z1 Z2]|[Lc1 Lc2]].
      - exfalso. destruct Up as [Up|[Up1 Up2]]; [lia | lia].
      - destruct Up as [Up|[Up1 Up2]].
        + (* the candidate's last entry is of a later term *)
          set (m := lterm lc) in *. assert (Am := Mc _ _ Lc2). fold (lterm lc) in Am. fold m in Am.
          assert (Mu : m < u) by (apply (Tc _ _ Lc2)).
          assert (Lm : ledt A m).
          { destruct (ledt_dec A m) as [D|D]; [exact D|exfalso]. assert (Z : tl m = a_empty).
            { apply (l_none _ _ _ _ L). intros i Hi Hin. apply D. exists i. auto. }
            specialize (Am (a_next lc - 1) ltac:(lia)). rewrite Lc2, Z, get_empty in Am. discriminate. }
          assert (Ak := IH m Mu ltac:(lia) Lm).
          assert (Gm : a_get (tl m) k = Some e) by (rewrite <- (Ak k (N.le_refl k)); exact Ge).
          assert (Lt : k < a_next lc).
          { destruct (N.lt_ge_cases k (a_next lc)) as [G|G]; [exact G|exfalso].
            assert (Gx : a_get (tl m) (a_next lc - 1) = Some (a_last lc)) by (rewrite <- (Am (a_next lc - 1) ltac:(lia)); exact Lc2).
            assert (X := b_rise _ _ Bi m _ _ _ _ Gx Gm ltac:(lia)). fold (lterm lc) in X. fold m in X. lia. }
          split; [|exact Lt]. eapply agree_trans; [exact Ak|]. apply agree_sym. eapply agree_le; [exact Am|]. lia.
        + (* same last term: the candidate's log is at least as long *)
          split; [|lia]. assert (Am := Mc _ _ Lc2). assert (Al2 := Ml _ _ Ll). fold (lterm lc) in Am. fold (lterm l) in Al2. rewrite Up1 in Al2.
          eapply agree_trans; [exact Al|]. eapply agree_trans; [eapply agree_le; [exact Al2 | lia]|]. apply agree_sym. eapply agree_le; [exact Am | lia]. }
    destruct Goal2 as [G1 G2]. eapply agree_trans; [exact G1|]. eapply agree_le; [exact Ac | lia].
  Qed.

  (** ** How a step changes the log *)
  Inductive lchg (e : event) (n : node) (l : list act) (n' : node) : Prop :=
  | LC_same : n_log n' = n_log n -> lchg e n l n'
  | LC_lead : forall x, l = [AAppend x] -> n_role n = Leader -> ev_term x = n_term n -> n_term n' = n_term n ->
      (forall j, j < a_next (n_log n) -> a_get (n_log n') j = a_get (n_log n) j) ->
      (forall j y, a_next (n_log n) <= j -> a_get (n_log n') j = Some y -> j = a_next (n_log n) /\ y = x) ->
      (forall q, req_of e q -> rq_type q = append_entries_request -> False) -> lchg e n l n'
  | LC_foll : forall q k x idx, req_of e q -> rq_type q = append_entries_request -> rq_term q = n_term n -> n_term n' = n_term n ->
      ae_match q (n_log n) k -> nth_error (rq_entries q) k = Some x -> idx = rq_last_idx q + 1 + N.of_nat k ->
      (forall j, j < idx -> a_get (n_log n') j = a_get (n_log n) j) -> a_get (n_log n') idx = Some x -> (forall j, idx < j -> a_get (n_log n') j = None) ->
      (forall y, a_get (n_log n) idx = Some y -> ev_term y <> ev_term x) -> n_quick n' = n_quick n -> lchg e n l n'.
  Lemma astep_lchg : forall i e n l n', fe e -> static servers i (Up n) -> astep e n l n' -> lchg e n l n'.
  Proof.
    intros i e n l n' F S H. destruct S as (_ & Slog & _). cbn [sys_disk] in Slog. fold (n_log n) in Slog.
    destruct H; try (apply LC_same; reflexivity).
    - apply LC_same. destruct H as (ps & q & j & -> & _). reflexivity.
    - apply LC_same. apply (core_upd _ _ H).
    - apply (LC_lead e n _ _ e0); try reflexivity; try assumption.
      + intros j Hj. change (n_log (apply_act (AAppend e0) n)) with (a_replace (n_log n) (a_next (n_log n)) [e0]). rewrite a_get_append.
        replace (j =? a_next (n_log n)) with false by lia. reflexivity.
      + intros j y Hj. change (n_log (apply_act (AAppend e0) n)) with (a_replace (n_log n) (a_next (n_log n)) [e0]). rewrite a_get_append.
        destruct (j =? a_next (n_log n)) eqn:Ej; [intros X; inversion X; split; [lia | reflexivity]|]. intros X. apply a_get_some in X. lia.
      + intros q Q T. destruct H1 as [[_ H1]|H1]; [apply (H1 q Q)|]. destruct Q as [now ->]. destruct H1 as [H1 _]. rewrite T in H1. discriminate.
    - exfalso. rewrite (fe_conf e F) in H. discriminate.
    - destruct H6 as [H6 H6d]. apply (LC_foll e n _ _ q k e0 i0); try assumption; try reflexivity;
        try (intros j Hj; change (n_log (apply_act (AWriteAt i0 e0) n)) with (a_replace (n_log n) i0 [e0]); rewrite a_get_write by assumption).
      + replace (j <? i0) with true by lia. reflexivity.
      + change (n_log (apply_act (AWriteAt i0 e0) n)) with (a_replace (n_log n) i0 [e0]). rewrite a_get_write by assumption.
        replace (i0 <? i0) with false by lia. rewrite N.eqb_refl. reflexivity.
      + replace (j <? i0) with false by lia. replace (j =? i0) with false by lia. reflexivity.
    - apply (LC_foll e n _ _ q k e0 (a_next (n_log n))); try assumption; try reflexivity;
        try (intros j Hj; change (n_log (apply_act (AAppend e0) n)) with (a_replace (n_log n) (a_next (n_log n)) [e0]); rewrite a_get_append).
      + replace (j =? a_next (n_log n)) with false by lia. reflexivity.
      + change (n_log (apply_act (AAppend e0) n)) with (a_replace (n_log n) (a_next (n_log n)) [e0]). rewrite a_get_append, N.eqb_refl. reflexivity.
      + replace (j =? a_next (n_log n)) with false by lia. apply a_get_none. lia.
      + intros y Y. apply a_get_some in Y. lia.
    - apply LC_same. destruct H1 as (H1 & _ & H3). unfold n_log. rewrite H3. apply (fold_conf _ _ _ H1).
    - exfalso. eapply fe_req; [exact F | exact H | exact H0 | discriminate..].
    - exfalso. destruct H as [(q & Q & T)|(sn & d & ok & Q)]; [eapply fe_req; [exact F | exact Q | exact T | discriminate..] | subst e; destruct F].
    - apply LC_same. destruct a; try contradiction; reflexivity.
  Qed.

  Lemma term_up : forall i n, static servers i (Up n) -> term_of (Up n) = n_term n.
  Proof. intros i n ((_ & Ssy & _) & _). unfold term_of, sys_disk. rewrite Ssy. reflexivity. Qed.
  Lemma astep_term_le : forall i e n l n', fe e -> static servers i (Up n) -> astep e n l n' -> n_term n <= n_term n'.
  Proof.
    intros i e n l n' F ((_ & Ssy & _) & _) H. assert (TV := astep_tv _ _ _ _ (fe_join e F) H). apply (tv_chain_le _ _ _ TV).
  Qed.

  (** the request a follower's write comes from is part of the leader's log *)
  Lemma foll_led : forall s A tl i e n q, einv s A -> linv s A tl -> In i ids -> s i = Up n -> backed servers A i e ->
    req_of e q -> rq_type q = append_entries_request -> ledt A (rq_term q) /\ part (tl (rq_term q)) q.
  Proof.
    intros s A tl i e n q E L Hi Hs K [now ->] T. destruct (K T) as (ld & Hld & Sq & Dq).
    destruct (e_ae _ _ _ E ld q Hld Sq) as (_ & _ & X3 & _). split; [exists ld; auto|]. apply (l_ae _ _ _ _ L ld q Hld Sq).
  Qed.


  (** ** Commit indexes *)
  (** index [m] of a server in term [T] with log [l] is covered by a chosen entry *)
  Definition com (ak : Z -> N -> N -> Prop) (A : Z -> list act) (tl : N -> alog) (T : N) (l : alog) (m : N) : Prop :=
    m = 0 \/ exists t k, chosen ak A tl t k /\ t <= T /\ m <= k /\ forall j, j <= m -> j < a_next l -> a_get l j = a_get (tl t) j.
  Record dinv (ak : Z -> N -> N -> Prop) (s : Z -> sys) (A : Z -> list act) (tl : N -> alog) : Prop := mkDinv {
    d_node : forall i n, In i ids -> s i = Up n -> n_smc n <= n_quick n /\ dk_commit (n_disk n) <= n_quick n /\ com ak A tl (n_term n) (n_log n) (n_quick n);
    d_disk : forall i, In i ids -> com ak A tl (term_of (s i)) (slog (s i)) (dk_commit (sys_disk (s i)));
    d_ae : forall k q, In k ids -> ae_sent A k q -> rq_commit q = 0 \/ exists t k', chosen ak A tl t k' /\ t <= rq_term q /\ rq_commit q <= k';
    d_app : forall i k x, In i ids -> In (ACommit k x) (A i) -> exists t k', chosen ak A tl t k' /\ k <= k' /\ a_get (tl t) k = Some x /\ t <= term_of (s i) /\ a_get (slog (s i)) k = Some x
  }.
  Lemma com_le : forall ak A tl T T' l m m', com ak A tl T l m -> T <= T' -> m' <= m -> com ak A tl T' l m'.
  Proof.
    intros ak A tl T T' l m m' [C|(t & k & C1 & C2 & C3 & C4)] HT Hm; [left; lia|]. right. exists t, k. split; [exact C1|].
    split; [lia|]. split; [lia|]. intros j Hj. apply C4. lia.
  Qed.
  Lemma astep_idx : forall e n l n', fe e -> astep e n l n' ->
    (n_quick n' = n_quick n \/ (quiet n l n' /\ quick_from e n (n_quick n'))) /\ n_quick n <= n_quick n' /\
    (n_smc n' = n_smc n \/ (n_smc n' <= n_quick n /\ n_quick n' = n_quick n)) /\
    (dk_commit (n_disk n') = dk_commit (n_disk n) \/ (dk_commit (n_disk n') = n_smc n /\ n_quick n' = n_quick n)).
  Proof.
    intros e n l n' F H. destruct H; try (split; [left; reflexivity|]; split; [apply N.le_refl|]; split; left; reflexivity; fail).
    - split; [right; split; [exact H | apply H0]|]. destruct H as (ps & q & j & -> & Hq & _). split; [exact Hq|]. split; left; reflexivity.
    - unfold core in H. injection H. intros. split; [left; congruence|]. split; [lia|]. split; left; congruence.
    - exfalso. eapply fe_req; [exact F | exact H | exact H0 | discriminate..].
    - split; [left; reflexivity|]. cbn [n_quick set_smc n_smc n_disk]. split; [lia|]. split; [right; lia | left; reflexivity].
    - split; [left; reflexivity|]. split; [cbn; lia|]. split; [left; reflexivity|]. right. subst i. split; reflexivity.
    - destruct H1 as (H1 & H2 & H3). unfold core in H2. cbn in H2. injection H2. intros. split; [left; congruence|]. split; [lia|]. split; [left; congruence|].
      left. rewrite H3. clear -H1. generalize (n_disk n). induction H1; intros d; [reflexivity|]. cbn [fold_left]. rewrite IHForall.
      destruct H as [H| ->]; [destruct x; try contradiction|]; reflexivity.
    - exfalso. destruct H0 as [(q & Q & T)|(sn & d & ok & Q)]; [eapply fe_req; [exact F | exact Q | exact T | discriminate..] | subst e; destruct F].
    - exfalso. destruct H as (q & Q & T). eapply fe_req; [exact F | exact Q | exact T | discriminate..].
  Qed.
  Lemma astep_commit_act : forall e n l n', astep e n l n' -> forall k x, In (ACommit k x) l -> k = n_smc n /\ a_get (n_log n) k = Some x.
  Proof.
    intros e n l n' H k x Hin. split; [|eapply astep_app; eassumption]. destruct H; try (destruct Hin as [Hin|[]]; discriminate); try destruct Hin as [].
    - destruct H as (ps & q0 & j & -> & _ & _ & _ & Hl). rewrite Forall_forall in Hl. destruct (Hl _ Hin).
    - rewrite Forall_forall in H0. destruct (H0 _ Hin).
    - inversion H3; subst. reflexivity.
    - contradiction.
    - destruct H1 as (H1 & _). rewrite Forall_forall in H1. destruct (H1 _ Hin) as [[]|H2]. discriminate.
    - subst a. contradiction.
    - contradiction.
  Qed.
  Lemma astep_ae_commit : forall e n l n' uid ext q, fe e -> astep e n l n' -> In (ASend uid ext q) l -> rq_type q = append_entries_request ->
    rq_commit q <= n_quick n' /\ rq_term q = n_term n.
  Proof.
    intros e n l n' uid ext q F H Hin T. destruct H; try (destruct Hin as [Hin|[]]; discriminate); try destruct Hin as [].
    - destruct H as (ps & q0 & j & -> & _ & _ & _ & Hl). rewrite Forall_forall in Hl. destruct (Hl _ Hin) as (_ & [Q|Q] & Hc & _); destruct Q as (Q & Q2 & _).
      + split; [exact Hc | exact Q2].
      + rewrite Q in T. discriminate.
    - rewrite Forall_forall in H0. destruct (H0 _ Hin) as [_ Q]. rewrite T in Q. discriminate.
    - inversion H6; subst. rewrite H1 in T. discriminate.
    - contradiction.
    - destruct H1 as (H1 & _). rewrite Forall_forall in H1. destruct (H1 _ Hin) as [H2|H2]; [|discriminate].
      cbn in H2. destruct H2 as [_ H2]. rewrite T in H2. discriminate.
    - subst a. contradiction.
    - contradiction.
    - exfalso. rewrite (fe_conf e F) in H. discriminate.
    - contradiction.
    - exfalso. subst e. destruct F.
    - contradiction.
  Qed.
  (** a log that holds everything in a request agrees with the leader's up to its end *)
  Definition ends (q : req) : N := rq_last_idx q + lenN (rq_entries q).
  Lemma full_agree : forall tl l t q, matches tl l -> matches tl (tl t) -> al_start l = 1 -> al_start (tl t) = 1 -> part (tl t) q ->
    ae_match q l (length (rq_entries q)) -> agree (ends q) l (tl t).
  Proof.
    intros tl l t q Ml Mt Sl St (P1 & P2) (M1 & M2). unfold ends, lenN.
    assert (X : rq_entries q = [] \/ exists l0 x, rq_entries q = l0 ++ [x]).
    { destruct (rq_entries q) as [|y ys]; [left; reflexivity|]. right. destruct (exists_last (l := y :: ys) ltac:(discriminate)) as (l0 & x & X). eauto. }
    destruct X as [X|(l0 & x & X)]; rewrite X in *.
    - cbn [length]. rewrite N.add_0_r.
      assert (Z : rq_last_idx q = 0 -> agree (rq_last_idx q) l (tl t)).
      { intros Z j Hj. replace j with 0 by lia. rewrite !get_zero by assumption. reflexivity. }
      destruct M1 as [M1|[M1|(e1 & M1 & T1)]]; [apply Z, M1 | apply Z; lia|].
      destruct P1 as [P1|(e2 & P1 & T2)]; [apply Z, P1|].
      apply (matches_agree tl l (tl t) _ e1 e2); try assumption. congruence.
    - rewrite app_length in *. cbn [length] in *.
      assert (Nx : nth_error (l0 ++ [x]) (length l0) = Some x) by (rewrite nth_error_app2, Nat.sub_diag by lia; reflexivity).
      destruct (M2 (length l0) x ltac:(lia) Nx) as (e1 & E1 & T1). specialize (P2 (length l0) x Nx).
      replace (rq_last_idx q + N.of_nat (length l0 + 1)) with (rq_last_idx q + 1 + N.of_nat (length l0)) by lia.
      apply (matches_agree tl l (tl t) _ e1 x); assumption.
  Qed.

  Section Step.
    Variables (s : Z -> sys) (A : Z -> list act) (tl tl' : N -> alog) (i : Z) (n n' : node) (e : event) (l : list act).
    Hypothesis E : einv s A.
    Hypothesis L : linv s A tl.
    Hypothesis Hi : In i ids.
    Hypothesis Hs : s i = Up n.
    Hypothesis F : fe e.
    Hypothesis K : backed servers A i e.
    Hypothesis H : astep e n l n'.
    Hypothesis Ev : evolves A n l tl tl'.
    Let s' := put s i (Up n').
    Let A' := put A i (A i ++ l).
    Hypothesis E' : einv s' A'.
    Hypothesis L' : linv s' A' tl'.

    Lemma st_static : static servers i (Up n).
    Proof. assert (S := e_static _ _ _ E i Hi). rewrite Hs in S. exact S. Qed.
    Lemma st_static' : static servers i (Up n').
    Proof. assert (S := e_static _ _ _ E' i Hi). unfold s' in S. rewrite put_same in S. exact S. Qed.
    Lemma st_term : term_of (s i) = n_term n.
    Proof. rewrite Hs. apply (term_up i), st_static. Qed.
    Lemma st_term' : term_of (s' i) = n_term n'.
    Proof. unfold s'. rewrite put_same. apply (term_up i), st_static'. Qed.
    Lemma st_mono : forall j, term_of (s j) <= term_of (s' j).
    Proof.
      intros j. destruct (Z.eq_dec j i) as [->|Hne]; [|unfold s'; rewrite put_other by exact Hne; lia].
      rewrite st_term, st_term'. eapply astep_term_le; [exact F | apply st_static | exact H].
    Qed.
    Lemma st_own : n_role n = Leader -> n_log n = tl (n_term n) /\ In (n_term n) (leads (A i)).
    Proof.
      intros R. assert (X := e_role _ _ _ E i n Hi Hs R). split; [|exact X].
      assert (Y := l_led _ _ _ _ L i (n_term n) Hi X st_term). rewrite Hs in Y. exact Y.
    Qed.
    Lemma st_grows : grows tl tl'.
    Proof.
      destruct Ev as [-> |[(_ & Nob & ->)|(x & _ & R & T & ->)]].
      - intros t k y _. apply agree_refl.
      - assert (Z := l_none _ _ _ _ L _ Nob). intros u k y Hy. destruct (N.eq_dec u (n_term n)) as [->|Hne]; [rewrite Z, get_empty in Hy; discriminate|].
        rewrite tput_other by exact Hne. apply agree_refl.
      - destruct (st_own R) as [EQ _]. intros u k y Hy. destruct (N.eq_dec u (n_term n)) as [->|Hne]; [|rewrite tput_other by exact Hne; apply agree_refl].
        rewrite tput_same, <- EQ in *. apply a_get_some in Hy. intros j Hj. rewrite a_get_append. destruct (j =? a_next (n_log n)) eqn:Ej; [lia | reflexivity].
    Qed.
    Lemma st_grow : forall t k, a_get (tl t) k <> None -> agree k (tl t) (tl' t).
    Proof. intros t k G. destruct (a_get (tl t) k) eqn:X; [|congruence]. eapply st_grows, X. Qed.
    Lemma st_get : forall t k x, a_get (tl t) k = Some x -> a_get (tl' t) k = Some x.
    Proof. intros t k x G. rewrite <- (st_grows t k x G k (N.le_refl k)). exact G. Qed.
    Lemma st_back : binv s tl -> forall t u k, t < u -> ledt A u -> a_get (tl t) k <> None -> agree k (tl' t) (tl' u) -> agree k (tl t) (tl u).
    Proof.
      intros Bi t u k Htu Lu G Ag. destruct Ev as [-> |[(_ & Nob & ->)|(x & _ & R & T & ->)]]; [exact Ag| |].
      - assert (Z := l_none _ _ _ _ L _ Nob). rewrite !tput_other in Ag; [exact Ag | |].
        + intros ->. destruct Lu as (j & Hj & Lu). apply (Nob j Hj Lu).
        + intros ->. rewrite Z, get_empty in G. congruence.
      - destruct (st_own R) as [EQ _].
        destruct (N.eq_dec u (n_term n)) as [->|Hu].
        + rewrite tput_same, tput_other in Ag by lia. intros j Hj. assert (X := Ag j Hj). rewrite a_get_append in X.
          destruct (j =? a_next (n_log n)) eqn:Ej; [|rewrite <- EQ; exact X].
          assert (Y := b_tl _ _ Bi t j x X). lia.
        + rewrite (tput_other _ _ _ u Hu) in Ag. destruct (N.eq_dec t (n_term n)) as [->|Ht]; [|rewrite tput_other in Ag by exact Ht; exact Ag].
          rewrite tput_same in Ag. intros j Hj. rewrite <- (Ag j Hj). rewrite a_get_append, <- EQ.
          destruct (j =? a_next (n_log n)) eqn:Ej; [|reflexivity]. exfalso. rewrite <- EQ in G. destruct (a_get (n_log n) k) eqn:Gk; [|congruence].
          apply a_get_some in Gk. lia.
    Qed.
    Lemma st_leads : forall j t, In t (leads (A' j)) -> In t (leads (A j)) \/ (j = i /\ t = n_term n /\ l = [ABecomeLeader (n_term n)] /\ n' = set_role Leader n).
    Proof.
      intros j t Ht. unfold A' in Ht. destruct (Z.eq_dec j i) as [->|Hne]; [|rewrite put_other in Ht by exact Hne; auto].
      rewrite put_same, leads_app in Ht. apply in_app_or in Ht. destruct Ht as [Ht|Ht]; [auto|].
      destruct (astep_leads _ _ _ _ H) as [X|(X & _ & Y)]; [rewrite X in Ht; destruct Ht|]. rewrite X in Ht. destruct Ht as [<-|[]]. auto.
    Qed.
    Lemma st_ledt : forall t, ledt A t -> ledt A' t.
    Proof. intros t Ht. apply ledt_mono, Ht. Qed.

    Lemma binv_step : binv s tl -> binv s' tl'.
    Proof.
      intros Bi. assert (Bl := b_log _ _ Bi i Hi). rewrite st_term, Hs in Bl. change (slog (Up n)) with (n_log n) in Bl.
      assert (Tl : forall t, below t (tl' t)).
      { intros t. destruct Ev as [-> |[(_ & _ & ->)|(x & _ & R & T & ->)]]; [apply (b_tl _ _ Bi)| |];
          (destruct (N.eq_dec t (n_term n)) as [->|Hne]; [rewrite tput_same | rewrite tput_other by exact Hne; apply (b_tl _ _ Bi)]); [exact Bl|].
        intros k y Hy. rewrite a_get_append in Hy. destruct (k =? a_next (n_log n)); [inversion Hy; subst; lia | apply (Bl k y Hy)]. }
      split; [|exact Tl|].
      - intros j Hj. destruct (Z.eq_dec j i) as [->|Hne]; [|unfold s'; rewrite put_other by exact Hne; apply (b_log _ _ Bi j Hj)].
        rewrite st_term'. unfold s'. rewrite put_same. change (slog (Up n')) with (n_log n'). assert (M := st_mono i). rewrite st_term, st_term' in M.
        destruct (astep_lchg i e n l n' F st_static H) as [C|x C1 C2 C3 C4 C5 C6 C7|q k x idx C1 C2 C3 C4 C5 C6 C7 C8 C9 C10 C11 _].
        + rewrite C. intros k y Hy. specialize (Bl k y Hy). lia.
        + intros k y Hy. destruct (N.lt_ge_cases k (a_next (n_log n))) as [G|G]; [rewrite C5 in Hy by exact G; specialize (Bl k y Hy); lia|].
          destruct (C6 k y G Hy) as [_ ->]. lia.
        + intros j y Hy. destruct (N.lt_trichotomy j idx) as [G|[->|G]].
          * rewrite C8 in Hy by exact G. specialize (Bl j y Hy). lia.
          * rewrite C9 in Hy. inversion Hy; subst y. destruct (foll_led s A tl i e n q E L Hi Hs K C1 C2) as (_ & _ & P). specialize (P k x C6).
            assert (X := b_tl _ _ Bi _ _ _ P). lia.
          * rewrite C10 in Hy by exact G. discriminate.
      - intros t. destruct Ev as [-> |[(_ & _ & ->)|(x & _ & R & T & ->)]]; [apply (b_rise _ _ Bi)| |];
          (destruct (N.eq_dec t (n_term n)) as [->|Hne]; [rewrite tput_same | rewrite tput_other by exact Hne; apply (b_rise _ _ Bi)]).
        + eapply matches_rising; [apply (b_rise _ _ Bi)|]. assert (X := l_logs _ _ _ _ L i Hi). rewrite Hs in X. exact X.
        + destruct (st_own R) as [EQ _]. intros a b x1 x2 H1 H2 Hab. rewrite a_get_append in H1, H2.
          destruct (b =? a_next (n_log n)) eqn:Eb.
          * inversion H2; subst x2. destruct (a =? a_next (n_log n)); [inversion H1; subst; lia|]. specialize (Bl a x1 H1). lia.
          * destruct (a =? a_next (n_log n)) eqn:Ea; [apply a_get_some in H2; lia|].
            assert (X := b_rise _ _ Bi (n_term n)). rewrite <- EQ in X. apply (X a b); assumption.
    Qed.

    Variables (cl cl' vl vl' : Z -> N -> option alog).
    (** what a step may add to the ghost state *)
    Record gstep : Prop := mkGstep {
      g_cl : forall c u lc, cl c u = Some lc -> cl' c u = Some lc;
      g_vl : forall j u l0, vl j u = Some l0 -> vl' j u = Some l0;
      g_cl_new : forall c u lc, cl' c u = Some lc -> cl c u = Some lc \/ (c = i /\ u = n_term n /\ lc = n_log n /\ n_role n = Candidate /\ n_term n' = n_term n);
      g_vl_new : forall j u l0, vl' j u = Some l0 -> vl j u = Some l0 \/
        (j = i /\ u = n_term n /\ l0 = n_log n /\ n_term n' = n_term n /\ ~ ledt A u /\
         exists c lc, In c ids /\ In (u, c) (saves l) /\ cl' c u = Some lc /\ upto lc l0);
      g_save : forall u c, In (u, c) (saves l) -> c <> (-1)%Z -> (exists l0, vl' i u = Some l0) \/ ledt A u;
      g_vreq : forall uid ext q, In (ASend uid ext q) l -> rq_type q = vote_request ->
        exists lc, cl' i (rq_term q) = Some lc /\ rq_last_idx q = a_next lc - 1 /\ rq_last_term q = lterm lc;
      g_cand : n_role n' = Candidate -> (n_vote n' = i -> exists lc, cl' i (n_term n') = Some lc) /\
        (forall lc, cl' i (n_term n') = Some lc -> n_log n' = lc) /\
        (forall k e, a_get (n_log n') k = Some e -> ev_term e < n_term n')
    }.
    Lemma vinv_gstep : binv s tl -> vinv s A tl cl vl -> gstep -> vinv s' A' tl' cl' vl'.
    Proof.
      intros Bi V G.
      assert (Lg : slog (s' i) = slog (s i) \/ ledt A (n_term n) /\ n_term n' = n_term n).
      { unfold s'. rewrite put_same, Hs. change (slog (Up n')) with (n_log n'). change (slog (Up n)) with (n_log n).
        destruct (astep_lchg i e n l n' F st_static H) as [C|x C1 C2 C3 C4 C5 C6 C7|q k x idx C1 C2 C3 C4 C5 C6 C7 C8 C9 C10 C11 _]; [left; exact C | right; split; [|exact C4]..].
        - exists i. split; [exact Hi|]. apply st_own, C2.
        - rewrite <- C3. apply (foll_led s A tl i e n q E L Hi Hs K C1 C2). }
      assert (Mat : forall l0, matches tl l0 -> matches tl' l0) by (intros l0; apply matches_grow, st_grows).
      split.
      - intros c u lc Hc Hlc.
        assert (Old : cl c u = Some lc \/ (c = i /\ u = n_term n /\ lc = n_log n /\ n_role n = Candidate /\ n_term n' = n_term n)) by (apply (g_cl_new G), Hlc).
        assert (Bas : u <= term_of (s c) /\ al_start lc = 1 /\ matches tl lc /\ (forall k e, a_get lc k = Some e -> ev_term e < u) /\ (u = term_of (s c) -> slog (s c) = lc \/ ledt A u)
                      /\ (In u (leads (A c)) -> agree (a_next lc - 1) lc (tl u))).
        { destruct Old as [Old|(-> & -> & -> & R & _)].
          - apply (v_cl _ _ _ _ _ V c u lc Hc Old).
          - rewrite st_term. split; [lia|]. split; [apply st_static|].
            split; [assert (X := l_logs _ _ _ _ L i Hi); rewrite Hs in X; exact X|].
            split; [apply (v_cand _ _ _ _ _ V i n Hi Hs R)|]. split; [left; rewrite Hs; reflexivity|].
            intros Hl. assert (X := l_led _ _ _ _ L i _ Hi Hl st_term). rewrite Hs in X. change (slog (Up n)) with (n_log n) in X. rewrite <- X. apply agree_refl. }
        clear Old. destruct Bas as (B1 & B2 & B3 & B4 & B5 & B6).
        split; [assert (X := st_mono c); lia|]. split; [exact B2|]. split; [apply Mat, B3|]. split; [exact B4|].
        assert (N5 : u = term_of (s' c) -> slog (s' c) = lc \/ ledt A u).
        { intros Hu. assert (M := st_mono c). assert (Hu2 : u = term_of (s c)) by lia. specialize (B5 Hu2).
          destruct (Z.eq_dec c i) as [->|Hne]; [|unfold s'; rewrite put_other by exact Hne; exact B5].
          destruct Lg as [Lg|[Lg _]]; [rewrite Lg; exact B5|]. right. rewrite Hu2, st_term. exact Lg. }
        split.
        + intros Hu. destruct (N5 Hu) as [X|X]; [left; exact X | right; apply st_ledt, X].
        + intros Hl. assert (Hold : In u (leads (A c)) -> agree (a_next lc - 1) lc (tl' u)).
          { intros Ho. specialize (B6 Ho). destruct (last_entry lc B2) as [[X1 X2]|[X1 X2]].
            - rewrite X1. intros j Hj. replace j with 0 by lia. rewrite !get_zero; [reflexivity | apply (l_tl _ _ _ _ L') | exact B2].
            - eapply agree_trans; [exact B6|]. apply st_grow. rewrite <- (B6 _ (N.le_refl _)), X2. discriminate. }
          destruct (st_leads c u Hl) as [Ho|(-> & -> & El & En)]; [apply Hold, Ho|].
          destruct (ledt_dec A (n_term n)) as [(k & Hk & D)|D].
          * assert (k = i).
            { destruct (e_led _ _ _ E' k (n_term n) Hk (leads_mono _ _ _ _ _ D)) as [X _]. destruct (e_led _ _ _ E' i _ Hi Hl) as [Y _]. eapply (elected_unique servers HC); eassumption. }
            subst k. apply Hold, D.
          * assert (Q : slog (s' i) = lc). { destruct (N5 ltac:(rewrite st_term', En; reflexivity)) as [X|X]; [exact X | contradiction]. }
            assert (X := l_led _ _ _ _ L' i _ Hi Hl ltac:(fold s'; rewrite st_term', En; reflexivity)). fold s' in X. rewrite Q in X. rewrite <- X. apply agree_refl.
      - intros k uid ext q Hk Hq T. destruct (Z.eq_dec k i) as [->|Hne].
        2:{ unfold A' in Hq. rewrite put_other in Hq by exact Hne. destruct (v_req _ _ _ _ _ V k uid ext q Hk Hq T) as (lc & X1 & X2). exists lc. split; [apply (g_cl G), X1 | exact X2]. }
        unfold A' in Hq. rewrite put_same in Hq. apply in_app_or in Hq. destruct Hq as [Hq|Hq].
        + destruct (v_req _ _ _ _ _ V i uid ext q Hk Hq T) as (lc & X1 & X2). exists lc. split; [apply (g_cl G), X1 | exact X2].
        + apply (g_vreq G uid ext q Hq T).
      - intros j m Hj Hm R. destruct (Z.eq_dec j i) as [->|Hne].
        + unfold s' in Hm. rewrite put_same in Hm. inversion Hm; subst m. apply (g_cand G R).
        + unfold s' in Hm. rewrite put_other in Hm by exact Hne. destruct (v_cand _ _ _ _ _ V j m Hj Hm R) as (X1 & X2 & X3).
          split; [intros Hv; destruct (X1 Hv) as (lc & X); exists lc; apply (g_cl G), X|]. split; [|exact X3].
          intros lc Hlc. apply X2. destruct (g_cl_new G _ _ _ Hlc) as [Y|(Y & _)]; [exact Y | contradiction].
      - intros j u l0 Hj Hl0. destruct (g_vl_new G j u l0 Hl0) as [Ho|(-> & -> & -> & Tn & Nl & c & lc & Hc & Sv & Hlc & Up)].
        + destruct (v_vl _ _ _ _ _ V j u l0 Hj Ho) as (X1 & X2 & X3 & c & lc & X4 & X5 & X6 & X7).
          split; [assert (M := st_mono j); lia|]. split; [exact X2|]. split; [apply Mat, X3|]. exists c, lc. split; [exact X4|].
          split; [apply (voted_mono A i l u c j X5)|]. split; [apply (g_cl G), X6 | exact X7].
        + split; [rewrite st_term', Tn; lia|]. split; [apply st_static|]. split; [apply Mat; assert (X := l_logs _ _ _ _ L i Hi); rewrite Hs in X; exact X|].
          exists c, lc. split; [exact Hc|]. split; [unfold A'; rewrite put_same, saves_app; apply in_or_app; right; exact Sv|]. split; [exact Hlc | exact Up].
      - intros j u c Hj Hv Hc. assert (Old : In (u, c) (saves (A j)) -> (exists l0, vl' j u = Some l0) \/ ledt A' u).
        { intros Ho. destruct (v_early _ _ _ _ _ V j u c Hj Ho Hc) as [(l0 & X)|X]; [left; exists l0; apply (g_vl G), X | right; apply st_ledt, X]. }
        destruct (Z.eq_dec j i) as [->|Hne]; [|unfold A' in Hv; rewrite put_other in Hv by exact Hne; apply Old, Hv].
        unfold A' in Hv. rewrite put_same, saves_app in Hv. apply in_app_or in Hv. destruct Hv as [Hv|Hv]; [apply Old, Hv|].
        destruct (g_save G u c Hv Hc) as [X|X]; [left; exact X | right; apply st_ledt, X].
      - intros j u Hj Hu. assert (Old : In u (leads (A j)) -> exists B, NoDup B /\ incl B ids /\ (length ids < 2 * length B)%nat /\
            forall k, In k B -> In (u, j) (saves (A' k)) /\ exists l0, vl' k u = Some l0).
        { intros Ho. destruct (v_led _ _ _ _ _ V j u Hj Ho) as (B & X1 & X2 & X3 & X4). exists B. repeat (split; [assumption|]).
          intros k Hk. destruct (X4 k Hk) as (Y1 & l0 & Y2). split; [apply (voted_mono A i l u j k Y1) | exists l0; apply (g_vl G), Y2]. }
        destruct (st_leads j u Hu) as [Ho|(-> & -> & El & En)]; [apply Old, Ho|].
        destruct (ledt_dec A (n_term n)) as [(k & Hk & D)|D].
        + assert (k = i).
          { destruct (e_led _ _ _ E' k (n_term n) Hk (leads_mono _ _ _ _ _ D)) as [X _]. destruct (e_led _ _ _ E' i _ Hi Hu) as [Y _]. eapply (elected_unique servers HC); eassumption. }
          subst k. apply Old, D.
        + destruct (e_led _ _ _ E' i _ Hi Hu) as [(B & X1 & X2 & X3 & X4) _]. exists B. split; [exact X1|]. split; [exact X2|]. split; [exact X3|].
          intros k Hk. specialize (X4 k Hk). unfold voted in X4. split; [exact X4|].
          assert (Sv : In (n_term n, i) (saves (A k))).
          { unfold A' in X4. destruct (Z.eq_dec k i) as [->|Hne]; [|rewrite put_other in X4 by exact Hne; exact X4].
            rewrite put_same, saves_app, El in X4. cbn [saves] in X4. rewrite app_nil_r in X4. exact X4. }
          destruct (v_early _ _ _ _ _ V k (n_term n) i (X2 k Hk) Sv (ids_pos servers HC i Hi)) as [(l0 & Y)|Y]; [exists l0; apply (g_vl G), Y | contradiction].
    Qed.

    Variable ak : Z -> N -> N -> Prop.
    Lemma held_old : forall j t k, In j ids -> held ak A' tl' j t k -> held ak A tl j t k \/ (In t (leads (A' j)) /\ term_of (s' j) = t /\ a_get (tl' t) k <> None).
    Proof.
      intros j t k Hj [Ha|[Hl Hg]]; [left; left; exact Ha|].
      destruct (st_leads j t Hl) as [Ho|(-> & -> & El & En)]; [|right; split; [exact Hl|]; split; [rewrite st_term', En; reflexivity | exact Hg]].
      destruct (a_get (tl t) k) eqn:G; [left; right; split; [exact Ho | rewrite G; discriminate]|].
      right. split; [exact Hl|]. split; [|exact Hg].
      assert (X : t = n_term n /\ n_role n = Leader /\ n_term n' = n_term n).
      { destruct Ev as [Ev0|[(_ & Nob & Ev0)|(x & El & R & T & Ev0)]]; rewrite Ev0 in Hg; [congruence| |];
          (destruct (N.eq_dec t (n_term n)) as [->|Hne]; [|rewrite tput_other in Hg by exact Hne; congruence]).
        - destruct (Nob j Hj Ho).
        - split; [reflexivity|]. split; [exact R|].
          destruct (astep_lchg i e n l n' F st_static H) as [C|x0 C1 C2 C3 C4 C5 C6 C7|q k0 x0 idx C1 C2 C3 C4 C5 C6 C7 C8 C9 C10 C11 _]; [|exact C4 | exact C4].
          revert H. rewrite El. clear -HC. intros H. inversion H; try reflexivity.
          + destruct H0 as (ps & q0 & j & -> & _). reflexivity.
          + unfold core in H0. injection H0. intros. congruence.
          + destruct H2 as (_ & H2 & _). unfold core in H2. injection H2. intros. congruence. }
      destruct X as (-> & R & Tn). destruct (st_own R) as [_ X].
      assert (j = i). { destruct (e_led _ _ _ E j _ Hj Ho) as [Y _]. destruct (e_led _ _ _ E i _ Hi X) as [Y2 _]. exact (elected_unique servers HC s A _ j i E Hj Hi Y Y2). }
      subst j. rewrite st_term'. exact Tn.
    Qed.
    Lemma hinv_gstep : binv s tl -> vinv s A tl cl vl -> vinv s' A' tl' cl' vl' -> gstep -> hinv ak s A tl vl -> hinv ak s' A' tl' vl'.
    Proof.
      intros Bi V V' G Hh.
      assert (Gt : forall t k, a_get (tl t) k <> None -> a_get (tl' t) k <> None).
      { intros t k X. destruct (a_get (tl t) k) eqn:Y; [|congruence]. rewrite (st_get _ _ _ Y). discriminate. }
      split.
      - intros j t k Hj Hd. destruct (held_old j t k Hj Hd) as [Ho|(Hl & Ht & Hg)].
        2:{ split; [lia|]. split; [exact Hg|]. intros _. rewrite (l_led _ _ _ _ L' j t Hj Hl Ht). apply agree_refl. }
        destruct (h_now _ _ _ _ _ Hh j t k Hj Ho) as (X1 & X2 & X3). assert (M := st_mono j). split; [lia|]. split; [apply Gt, X2|].
        intros Hu. assert (Hu0 : forall u, t < u <= term_of (s j) -> ledt A u -> agree k (tl t) (tl u)).
        { intros u Hu1 Hled. apply st_back; [exact Bi | lia | exact Hled | exact X2|]. apply Hu; [lia | apply st_ledt, Hled]. }
        specialize (X3 Hu0). eapply agree_trans; [apply agree_sym, st_grow, X2|].
        destruct (Z.eq_dec j i) as [->|Hne]; [|unfold s'; rewrite put_other by exact Hne; exact X3].
        unfold s'. rewrite put_same. change (slog (Up n')) with (n_log n'). rewrite Hs in X3. change (slog (Up n)) with (n_log n) in X3.
        destruct (a_get (tl t) k) as [ek|] eqn:Gk; [clear X2|congruence].
        assert (Gn : a_get (n_log n) k = Some ek) by (rewrite <- (X3 k (N.le_refl k)); exact Gk). assert (Kn := a_get_some _ _ _ Gn).
        destruct (astep_lchg i e n l n' F st_static H) as [C|x C1 C2 C3 C4 C5 C6 C7|q k0 x idx C1 C2 C3 C4 C5 C6 C7 C8 C9 C10 C11 _].
        + rewrite C. exact X3.
        + intros m Hm. rewrite C5 by lia. apply X3, Hm.
        + destruct (N.lt_ge_cases k idx) as [Lt|Ge]; [intros m Hm; rewrite C8 by lia; apply X3, Hm|]. exfalso.
          destruct (foll_led s A tl i e n q E L Hi Hs K C1 C2) as (Led & _ & P). specialize (P k0 x C6). rewrite <- C7 in P. rewrite C3 in *.
          assert (Al : agree k (tl t) (tl (n_term n))).
          { rewrite st_term in X1. destruct (N.eq_dec t (n_term n)) as [->|Hne]; [apply agree_refl|]. apply Hu0; [rewrite st_term; lia | exact Led]. }
          assert (Y : a_get (n_log n) idx = Some x) by (rewrite <- (X3 idx Ge), (Al idx Ge); exact P). apply (C11 x Y). reflexivity.
      - intros j t k u l0 Hj Hd Htu Hl0 Hu. destruct (v_vl _ _ _ _ _ V' j u l0 Hj Hl0) as (U1 & _).
        destruct (held_old j t k Hj Hd) as [Ho|(Hl & Ht & Hg)]; [|lia].
        destruct (h_now _ _ _ _ _ Hh j t k Hj Ho) as (X1 & X2 & X3). eapply agree_trans; [apply agree_sym, st_grow, X2|].
        assert (Hu0 : forall u', t < u' < u -> ledt A u' -> agree k (tl t) (tl u')).
        { intros u' Hu1 Hled. apply st_back; [exact Bi | lia | exact Hled | exact X2|]. apply Hu; [lia | apply st_ledt, Hled]. }
        destruct (g_vl_new G j u l0 Hl0) as [Hv|(-> & -> & -> & Tn & Nl & _)].
        + apply (h_then _ _ _ _ _ Hh j t k u l0 Hj Ho Htu Hv Hu0).
        + rewrite Hs in X3. apply X3. intros u' Hu1 Hled. rewrite <- Hs, st_term in Hu1.
          destruct (N.eq_dec u' (n_term n)) as [->|Hne]; [contradiction|]. apply Hu0; [lia | exact Hled].
    Qed.

    Lemma st_chosen : forall t k, chosen ak A tl t k -> chosen ak A' tl' t k.
    Proof.
      intros t k (x & B & X1 & X2 & X3 & X4 & X5 & X6). exists x, B. split; [apply st_get, X1|]. repeat (split; [assumption|]).
      intros j Hj. destruct (X6 j Hj) as [Y|[Y1 Y2]]; [left; exact Y|]. right. split; [apply leads_mono, Y1|].
      destruct (a_get (tl t) k) eqn:Z; [|congruence]. rewrite (st_get _ _ _ Z). discriminate.
    Qed.
    Lemma st_com : forall T T' l0 m, com ak A tl T l0 m -> T <= T' -> com ak A' tl' T' l0 m.
    Proof.
      intros T T' l0 m [C|(t & k & C1 & C2 & C3 & C4)] HT; [left; exact C|]. right. exists t, k. split; [apply st_chosen, C1|].
      split; [lia|]. split; [exact C3|]. intros j Hj1 Hj2. rewrite (C4 j Hj1 Hj2).
      destruct C1 as (x & B & X1 & _). apply (st_grows t k x X1). lia.
    Qed.
    Hypothesis Bi : binv s tl.
    Hypothesis V : vinv s A tl cl vl.
    Hypothesis Hh : hinv ak s A tl vl.
    Lemma st_lc : forall t k, chosen ak A tl t k -> forall u, t <= u -> ledt A u -> agree k (tl t) (tl u).
    Proof.
      intros t k C u Hu Lu. destruct (N.eq_dec t u) as [->|Hne]; [apply agree_refl|].
      eapply completeness; [exact E | exact L | exact Bi | exact V | exact Hh | exact C | lia | exact Lu].
    Qed.
    (** changing the log keeps what is committed *)
    Lemma st_com_log : forall m, com ak A tl (n_term n) (n_log n) m -> com ak A' tl' (n_term n') (n_log n') m.
    Proof.
      intros m C. assert (M := st_mono i). rewrite st_term, st_term' in M.
      destruct (astep_lchg i e n l n' F st_static H) as [D|x C1 C2 C3 C4 C5 C6 C7|q k0 x idx C1 C2 C3 C4 C5 C6 C7 C8 C9 C10 C11 _].
      - rewrite D. eapply st_com; [exact C | exact M].
      - eapply st_com; [|exact M]. destruct C as [C|(t & k & D1 & D2 & D3 & D4)]; [left; exact C|]. right. exists t, k.
        split; [exact D1|]. split; [exact D2|]. split; [exact D3|]. intros j Hj1 Hj2.
        destruct (N.lt_ge_cases j (a_next (n_log n))) as [G|G]; [rewrite C5 by exact G; apply D4; assumption|]. exfalso.
        destruct (st_own C2) as [Own Ld]. assert (Ag := st_lc t k D1 (n_term n) D2 (ex_intro _ i (conj Hi Ld))).
        destruct D1 as (y & B & X1 & _). rewrite (Ag k (N.le_refl k)), <- Own in X1. apply a_get_some in X1. lia.
      - eapply st_com; [|exact M]. destruct C as [C|(t & k & D1 & D2 & D3 & D4)]; [left; exact C|]. right. exists t, k.
        split; [exact D1|]. split; [exact D2|]. split; [exact D3|]. intros j Hj1 Hj2.
        assert (Sn : al_start (n_log n) = 1) by apply st_static. assert (Sn' : al_start (n_log n') = 1) by apply st_static'.
        assert (Stl := proj2 (l_tl _ _ _ _ L t)).
        destruct (N.eq_dec j 0) as [->|J0]; [rewrite !get_zero by assumption; reflexivity|].
        destruct (foll_led s A tl i e n q E L Hi Hs K C1 C2) as (Led & _ & P). specialize (P k0 x C6). rewrite <- C7 in P. rewrite C3 in *.
        assert (Ag := st_lc t k D1 (n_term n) D2 Led).
        destruct (N.lt_trichotomy j idx) as [G|[->|G]].
        + rewrite C8 by exact G. apply D4; [exact Hj1|]. destruct (get_below (n_log n') idx j Sn' ltac:(rewrite C9; discriminate) ltac:(lia)) as (y & Y).
          rewrite C8 in Y by exact G. apply a_get_some in Y. lia.
        + rewrite C9, (Ag idx) by lia. symmetry. exact P.
        + exfalso. assert (Z := C10 j G). destruct (a_get_in (n_log n') j ltac:(lia)) as (y & Y). congruence.
    Qed.
    (** a chosen entry that is in the log stays there *)
    Lemma st_keep : forall t k k' x, chosen ak A tl t k' -> t <= n_term n -> k <= k' -> a_get (tl t) k = Some x -> a_get (n_log n) k = Some x -> a_get (n_log n') k = Some x.
    Proof.
      intros t k k' x Ch Ht Hk Gt Gn.
      destruct (astep_lchg i e n l n' F st_static H) as [D|y C1 C2 C3 C4 C5 C6 C7|q k0 y idx C1 C2 C3 C4 C5 C6 C7 C8 C9 C10 C11 _].
      - rewrite D. exact Gn.
      - rewrite C5; [exact Gn | apply a_get_some in Gn; lia].
      - destruct (N.lt_ge_cases k idx) as [G|G]; [rewrite C8 by exact G; exact Gn|]. exfalso.
        assert (Sn : al_start (n_log n) = 1) by apply st_static.
        destruct (foll_led s A tl i e n q E L Hi Hs K C1 C2) as (Led & _ & P). specialize (P k0 y C6). rewrite <- C7 in P. rewrite C3 in *.
        assert (Ag := st_lc t k' Ch (n_term n) Ht Led).
        destruct (get_below (n_log n) k idx Sn ltac:(rewrite Gn; discriminate) ltac:(lia)) as (z & Z). apply (C11 z Z).
        assert (Ml := l_logs _ _ _ _ L i Hi). rewrite Hs in Ml. change (slog (Up n)) with (n_log n) in Ml.
        assert (Am := matches_agree tl (n_log n) (tl t) k x x Ml (proj1 (l_tl _ _ _ _ L t)) Gn Gt eq_refl).
        rewrite (Am idx G), (Ag idx ltac:(lia)), P in Z. congruence.
    Qed.
    Lemma dinv_step : dinv ak s A tl -> (n_quick n' = n_quick n \/ com ak A tl (n_term n) (n_log n) (n_quick n')) -> dinv ak s' A' tl'.
    Proof.
      intros D Q. destruct (d_node _ _ _ _ D i n Hi Hs) as (D1 & D2 & D3).
      assert (Q2 : com ak A tl (n_term n) (n_log n) (n_quick n')) by (destruct Q as [Q|Q]; [rewrite Q; exact D3 | exact Q]).
      destruct (astep_idx e n l n' F H) as (_ & I2 & I3 & I4). assert (M := st_mono i). rewrite st_term, st_term' in M.
      assert (Nn : n_smc n' <= n_quick n' /\ dk_commit (n_disk n') <= n_quick n' /\ com ak A' tl' (n_term n') (n_log n') (n_quick n')).
      { split; [lia|]. split; [destruct I4; lia|]. apply st_com_log, Q2. }
      split.
      - intros j m Hj Hm. destruct (Z.eq_dec j i) as [->|Hne].
        + unfold s' in Hm. rewrite put_same in Hm. inversion Hm; subst m. exact Nn.
        + unfold s' in Hm. rewrite put_other in Hm by exact Hne. destruct (d_node _ _ _ _ D j m Hj Hm) as (X1 & X2 & X3).
          split; [exact X1|]. split; [exact X2|]. eapply st_com; [exact X3 | lia].
      - intros j Hj. destruct (Z.eq_dec j i) as [->|Hne].
        + rewrite st_term'. unfold s'. rewrite put_same. cbn [sys_disk]. change (slog (Up n')) with (n_log n').
          eapply com_le; [apply Nn | lia | apply Nn].
        + unfold s'. rewrite put_other by exact Hne. eapply st_com; [apply (d_disk _ _ _ _ D j Hj) | lia].
      - intros k q Hk (T & uid & ext & Hq).
        assert (Old : ae_sent A k q -> rq_commit q = 0 \/ exists t k', chosen ak A' tl' t k' /\ t <= rq_term q /\ rq_commit q <= k').
        { intros Ho. destruct (d_ae _ _ _ _ D k q Hk Ho) as [X|(t & k' & X1 & X2 & X3)]; [left; exact X|]. right. exists t, k'. split; [apply st_chosen, X1 | auto]. }
        destruct (Z.eq_dec k i) as [->|Hne]; [|unfold A' in Hq; rewrite put_other in Hq by exact Hne; apply Old; split; [exact T | eauto]].
        unfold A' in Hq. rewrite put_same in Hq. apply in_app_or in Hq. destruct Hq as [Hq|Hq]; [apply Old; split; [exact T | eauto]|].
        destruct (astep_ae_commit _ _ _ _ _ _ _ F H Hq T) as [X1 X2].
        destruct Q2 as [Q2|(t & k' & Y1 & Y2 & Y3 & _)]; [left; lia|]. right. exists t, k'. split; [apply st_chosen, Y1|]. lia.
      - intros j k x Hj Hx.
        assert (Old : In (ACommit k x) (A j) -> exists t k', chosen ak A' tl' t k' /\ k <= k' /\ a_get (tl' t) k = Some x /\ t <= term_of (s' j) /\ a_get (slog (s' j)) k = Some x).
        { intros Ho. destruct (d_app _ _ _ _ D j k x Hj Ho) as (t & k' & X1 & X2 & X3 & X4 & X5). exists t, k'. split; [apply st_chosen, X1|]. split; [exact X2|].
          split; [apply st_get, X3|]. assert (Mj := st_mono j). split; [lia|].
          destruct (Z.eq_dec j i) as [->|Hne]; [|unfold s'; rewrite put_other by exact Hne; exact X5].
          rewrite Hs in X5. rewrite st_term in X4. unfold s'. rewrite put_same. apply (st_keep t k k' x); assumption. }
        destruct (Z.eq_dec j i) as [->|Hne]; [|unfold A' in Hx; rewrite put_other in Hx by exact Hne; apply Old, Hx].
        unfold A' in Hx. rewrite put_same in Hx. apply in_app_or in Hx. destruct Hx as [Hx|Hx]; [apply Old, Hx|].
        destruct (astep_commit_act _ _ _ _ H k x Hx) as [-> X]. assert (Sn : al_start (n_log n) = 1) by apply st_static. assert (B := a_get_some _ _ _ X).
        destruct D3 as [D3|(t & k' & Y1 & Y2 & Y3 & Y4)]; [lia|]. exists t, k'. split; [apply st_chosen, Y1|]. split; [lia|].
        assert (G : a_get (tl t) (n_smc n) = Some x) by (rewrite <- (Y4 (n_smc n)) by lia; exact X).
        split; [apply st_get, G|]. split; [rewrite st_term'; lia|]. unfold s'. rewrite put_same. apply (st_keep t (n_smc n) k' x); try assumption. lia.
    Qed.
    (** where the commit index comes from, except for answers to append-entries requests *)
    Lemma quick_com : dinv ak s A tl -> quick_from e n (n_quick n') -> n_quick n <= n_quick n' -> n_peers n <> [] ->
      (forall now uid q r, e = ERpc now uid false q (Some r) -> rs_type r = append_entries_response -> n_quick n' = n_quick n) ->
      (forall q, req_of e q -> rq_type q = append_entries_request -> n_quick n < rq_commit q -> rq_commit q <= ends q \/ a_next (n_log n) - 1 <= ends q) ->
      n_quick n' = n_quick n \/ com ak A tl (n_term n) (n_log n) (n_quick n').
    Proof.
      intros D Q Le Np HA HR. destruct Q as [Q|[Q|[(q & Q1 & Q2 & Q3 & Q4 & Q5 & Q6)|[(q & Q1 & Q2)|[(now & uid & q & r & Q1 & Q2)|Q]]]]].
      - left. exact Q.
      - contradiction.
      - destruct (N.eq_dec (n_quick n') (n_quick n)) as [Z|Z]; [left; exact Z|]. right. specialize (HR q Q1 Q2 ltac:(lia)).
        assert (Q1b := Q1). destruct Q1b as [now Qe]. assert (Kq := K). rewrite Qe in Kq. destruct (Kq Q2) as (ld & Hld & Sq & Dq).
        destruct (foll_led s A tl i e n q E L Hi Hs K Q1 Q2) as (Led & P). rewrite Q4 in *.
        destruct (d_ae _ _ _ _ D ld q Hld Sq) as [X|(t & k & X1 & X2 & X3)]; [left; congruence|]. right. exists t, k. split; [exact X1|].
        split; [lia|]. split; [lia|]. intros j Hj1 Hj2.
        assert (Sn : al_start (n_log n) = 1) by apply st_static. assert (Ml := l_logs _ _ _ _ L i Hi). rewrite Hs in Ml. change (slog (Up n)) with (n_log n) in Ml.
        assert (Ag := full_agree tl (n_log n) (n_term n) q Ml (proj1 (l_tl _ _ _ _ L _)) Sn (proj2 (l_tl _ _ _ _ L _)) P Q5).
        rewrite (Ag j) by lia. symmetry. apply (st_lc t k X1 (n_term n)); [lia | exact Led | lia].
      - exfalso. eapply fe_req; [exact F | exact Q1 | exact Q2 | discriminate..].
      - left. eapply HA; eassumption.
      - exfalso. rewrite (fe_conf e F) in Q. discriminate.
    Qed.
  End Step.

  (** ** The ghost state of a step *)
  Definition gput (f : Z -> N -> option alog) (i : Z) (t : N) (l : alog) : Z -> N -> option alog :=
    fun j u => if (j =? i)%Z && (u =? t) then Some l else f j u.
  Lemma gput_same : forall f i t l, gput f i t l i t = Some l.
  Proof. intros. unfold gput. rewrite Z.eqb_refl, N.eqb_refl. reflexivity. Qed.
  Lemma gput_inv : forall f i t l j u x, gput f i t l j u = Some x -> f j u = Some x \/ (j = i /\ u = t /\ x = l).
  Proof.
    intros f i t l j u x. unfold gput. destruct ((j =? i)%Z && (u =? t)) eqn:Y; [|auto]. intros Q. inversion Q. apply andb_prop in Y.
    destruct Y as [Y1 Y2]. right. split; [lia|]. split; [lia | reflexivity].
  Qed.
  Lemma gput_keep : forall f i t l j u x, f i t = None -> f j u = Some x -> gput f i t l j u = Some x.
  Proof.
    intros f i t l j u x Z X. unfold gput. destruct ((j =? i)%Z && (u =? t)) eqn:Y; [|exact X]. apply andb_prop in Y. destruct Y as [Y1 Y2].
    assert (j = i) by lia. assert (u = t) by lia. subst. congruence.
  Qed.

  Definition backed_v (A : Z -> list act) (e : event) : Prop :=
    match e with
    | ERequest _ q => rq_type q = vote_request -> exists k uid ext, In k ids /\ In (ASend uid ext q) (A k) /\ rq_src q = k
    | _ => True
    end.
  Lemma backed_v_mono : forall A i l e, backed_v A e -> backed_v (put A i (A i ++ l)) e.
  Proof.
    intros A i l e B. destruct e; try exact I. cbn in *. intros T. destruct (B T) as (k & uid & ext & Hk & Hq & Hsrc). exists k, uid, ext.
    split; [exact Hk|]. split; [|exact Hsrc]. destruct (Z.eq_dec k i) as [->|Hne]; [rewrite put_same; apply in_or_app; left; exact Hq | rewrite put_other by exact Hne; exact Hq].
  Qed.

  (** a step that neither votes nor asks for votes *)
  Lemma gstep_plain : forall s A tl i n n' l cl vl, binv s tl -> vinv s A tl cl vl -> In i ids -> s i = Up n ->
    (forall u c, In (u, c) (saves l) -> c = (-1)%Z) -> (forall uid ext q, In (ASend uid ext q) l -> rq_type q <> vote_request) ->
    (n_role n' = Candidate -> n_role n = Candidate /\ n_term n' = n_term n /\ n_vote n' = n_vote n /\ n_log n' = n_log n) ->
    gstep A i n n' l cl cl vl vl.
  Proof.
    intros s A tl i n n' l cl vl Bi V Hi Hs P1 P2 P3. split; auto.
    - intros u c X Y. destruct (Y (P1 u c X)).
    - intros uid ext q X T. destruct (P2 uid ext q X T).
    - intros R. destruct (P3 R) as (Q1 & Q2 & Q3 & Q4). destruct (v_cand _ _ _ _ _ V i n Hi Hs Q1) as (X1 & X2 & X3). rewrite Q2, Q3, Q4. auto.
  Qed.
  Lemma gstep_exists : forall s A tl i e n l n' cl vl, einv s A -> linv s A tl -> binv s tl -> vinv s A tl cl vl -> In i ids -> s i = Up n -> fe e ->
    backed_v A e -> astep e n l n' -> exists cl' vl', gstep A i n n' l cl cl' vl vl'.
  Proof.
    intros s A tl i e n l n' cl vl E L Bi V Hi Hs F K H.
    assert (S := e_static _ _ _ E i Hi). rewrite Hs in S. assert (Tn := term_up i n S). assert (S0 := S). destruct S0 as ((Sid & Ssy & Sp & _) & Slog & _).
    cbn [sys_disk] in Slog. fold (n_log n) in Slog.
    assert (Plain : (forall u c, In (u, c) (saves l) -> c = (-1)%Z) -> (forall uid ext q, In (ASend uid ext q) l -> rq_type q <> vote_request) ->
      (n_role n' = Candidate -> n_role n = Candidate /\ n_term n' = n_term n /\ n_vote n' = n_vote n /\ n_log n' = n_log n) ->
      exists cl' vl', gstep A i n n' l cl cl' vl vl').
    { intros. exists cl, vl. eapply gstep_plain; eassumption. }
    destruct H; try (apply Plain; [intros u c0 []|intros uid0 ext0 q0 []|intros R; try discriminate R; auto]; fail);
      try (apply Plain; [intros u c0 X; try destruct X as [X|[]]; [inversion X; reflexivity]|intros uid0 ext0 q0 [X|[]]; discriminate|intros R; try discriminate R; repeat split; exact R]; fail);
      try (apply Plain; [intros u c0 []|intros uid0 ext0 q0 [X|[]]; discriminate|intros R; try discriminate R; repeat split; exact R]; fail).
    - (* quiet *)
      destruct H as (ps & q & j & -> & _ & _ & _ & Hl). apply Plain; [| |intros R; repeat split; exact R].
      + assert (Z : saves l = []). { clear -Hl. induction Hl; [reflexivity|]. destruct x; try contradiction; exact IHHl. }
        rewrite Z. intros u c [].
      + intros uid ext m Hm. rewrite Forall_forall in Hl. destruct (Hl _ Hm) as (_ & [Q|Q] & _); destruct Q as (-> & _); discriminate.
    - (* benign *)
      unfold core in H. injection H. intros. apply Plain; [| |intros R; unfold n_log; repeat split; congruence].
      + assert (Z : saves l = []). { clear -H0. induction H0; [reflexivity|]. destruct x; try contradiction; exact IHForall. }
        rewrite Z. intros u c [].
      + intros uid ext m Hm Tm. rewrite Forall_forall in H0. destruct (H0 _ Hm) as (_ & Q). rewrite Tm in Q. discriminate.
    - (* candidate *)
      exists cl, vl. split; auto.
      + intros u c [X|[]] Y. inversion X; subst. congruence.
      + intros uid ext q [X|[]]. discriminate.
      + intros _. cbn [apply_act set_disk set_done set_voted set_votes set_role set_vote set_term n_vote n_term]. split; [|split].
        * intros X. exfalso. apply (ids_pos servers HC i Hi). symmetry. exact X.
        * intros lc X. destruct (v_cl _ _ _ _ _ V i _ lc Hi X) as (Y & _). rewrite Hs, Tn in Y. lia.
        * intros k x X. assert (Y := b_log _ _ Bi i Hi k x). rewrite Hs, Tn in Y. specialize (Y X). lia.
    - (* its own vote *)
      destruct (v_cand _ _ _ _ _ V i n Hi Hs H) as (C1 & C2 & C3).
      set (cl1 := match cl i (n_term n) with Some _ => cl | None => gput cl i (n_term n) (n_log n) end).
      assert (Cg : cl1 i (n_term n) = Some (n_log n)).
      { unfold cl1. destruct (cl i (n_term n)) eqn:Y; [rewrite Y; f_equal; symmetry; apply C2; reflexivity | apply gput_same]. }
      assert (Ck : forall c u lc, cl c u = Some lc -> cl1 c u = Some lc).
      { intros c u lc X. unfold cl1. destruct (cl i (n_term n)) eqn:Y; [exact X | apply gput_keep; assumption]. }
      assert (Cn : forall c u lc, cl1 c u = Some lc -> cl c u = Some lc \/ (c = i /\ u = n_term n /\ lc = n_log n)).
      { intros c u lc. unfold cl1. destruct (cl i (n_term n)) eqn:Y; [auto | apply gput_inv]. }
      assert (Sv : forall u c, In (u, c) (saves [ASaveState (n_term n) (n_id n)]) -> u = n_term n /\ c = n_id n) by (intros u c [X|[]]; inversion X; auto).
      assert (Cand : forall n', n_term n' = n_term n -> n_log n' = n_log n -> (n_vote n' = i -> exists lc, cl1 i (n_term n') = Some lc) /\
        (forall lc, cl1 i (n_term n') = Some lc -> n_log n' = lc) /\ (forall k e, a_get (n_log n') k = Some e -> ev_term e < n_term n')).
      { intros n' Q1 Q2. rewrite Q1, Q2. split; [intros _; exists (n_log n); exact Cg|]. split; [intros lc X; congruence | exact C3]. }
      destruct (vl i (n_term n)) as [l0|] eqn:Ve; [|destruct (ledt_dec A (n_term n)) as [D|D]].
      + exists cl1, vl. split; auto.
        * intros c u lc X. destruct (Cn c u lc X) as [Y|(-> & -> & ->)]; [auto|]. right. auto 10.
        * intros u c X _. destruct (Sv u c X) as [-> _]. left. eauto.
        * intros uid ext q [X|[]]. discriminate.
      + exists cl1, vl. split; auto.
        * intros c u lc X. destruct (Cn c u lc X) as [Y|(-> & -> & ->)]; [auto|]. right. auto 10.
        * intros u c X _. destruct (Sv u c X) as [-> _]. right. exact D.
        * intros uid ext q [X|[]]. discriminate.
      + exists cl1, (gput vl i (n_term n) (n_log n)). split; auto.
        * intros j u l0 X. apply gput_keep; assumption.
        * intros c u lc X. destruct (Cn c u lc X) as [Y|(-> & -> & ->)]; [auto|]. right. auto 10.
        * intros j u l0 X. destruct (gput_inv _ _ _ _ _ _ _ X) as [Y|(-> & -> & ->)]; [auto|]. right.
          repeat (split; [reflexivity || exact D|]). exists i, (n_log n). split; [exact Hi|]. split; [left; rewrite Sid; reflexivity|].
          split; [exact Cg|]. right. split; [reflexivity | lia].
        * intros u c X _. destruct (Sv u c X) as [-> _]. left. exists (n_log n). apply gput_same.
        * intros uid ext q [X|[]]. discriminate.
    - (* vote requests *)
      destruct (v_cand _ _ _ _ _ V i n Hi Hs H) as (C1 & C2 & C3). destruct (C1 ltac:(congruence)) as (lc & Hlc). assert (Q := C2 lc Hlc).
      exists cl, vl. split; auto; [intros u c X; destruct X|].
      intros uid0 ext0 q0 [X|[]] T. inversion X; subst uid0 ext0 q0. exists lc. rewrite H2. split; [exact Hlc|].
      rewrite H4. split; [rewrite Q; reflexivity|]. rewrite H4 in H5. rewrite (prev_lterm n _ Slog H5), Q. reflexivity.
    - apply Plain; [intros u c []|intros uid0 ext0 q0 [X|[]]; discriminate | intros R; change (n_role n = Candidate) in R; congruence].
    - exfalso. rewrite (fe_conf e F) in H. discriminate.
    - apply Plain; [intros u c []|intros uid0 ext0 q0 [X|[]]; discriminate | intros R; change (n_role n = Candidate) in R; congruence].
    - apply Plain; [intros u c []|intros uid0 ext0 q0 [X|[]]; discriminate | intros R; change (n_role n = Candidate) in R; congruence].
    - (* a vote *)
      destruct H as [now ->]. destruct (K H0) as (k & uid & ext & Hk & Hq & Hsrc). destruct (v_req _ _ _ _ _ V k uid ext q Hk Hq H0) as (lc & X1 & X2 & X3).
      destruct (v_cl _ _ _ _ _ V k _ lc Hk X1) as (_ & Sc & _). rewrite H1 in X1.
      assert (Up : upto lc (n_log n)) by (apply (vote_upto q); assumption).
      assert (Sv : forall u c, In (u, c) (saves [ASaveState (n_term n) (rq_src q)]) -> u = n_term n /\ c = rq_src q) by (intros u c [X|[]]; inversion X; auto).
      assert (Cand : n_role n = Candidate -> forall n', n_term n' = n_term n -> n_log n' = n_log n -> n_vote n' = rq_src q -> (n_vote n' = i -> exists lc, cl i (n_term n') = Some lc) /\
        (forall lc, cl i (n_term n') = Some lc -> n_log n' = lc) /\ (forall k e, a_get (n_log n') k = Some e -> ev_term e < n_term n')).
      { intros R n' Q1 Q2 Q3. destruct (v_cand _ _ _ _ _ V i n Hi Hs R) as (C1 & C2 & C3). rewrite Q1, Q2, Q3. split; [|auto].
        intros Q. exists lc. rewrite <- Q, Hsrc. exact X1. }
      destruct (vl i (n_term n)) as [l0|] eqn:Ve; [|destruct (ledt_dec A (n_term n)) as [D|D]].
      + exists cl, vl. split; auto.
        * intros u c X _. destruct (Sv u c X) as [-> _]. left. eauto.
        * intros uid0 ext0 q0 [X|[]]. discriminate.
      + exists cl, vl. split; auto.
        * intros u c X _. destruct (Sv u c X) as [-> _]. right. exact D.
        * intros uid0 ext0 q0 [X|[]]. discriminate.
      + exists cl, (gput vl i (n_term n) (n_log n)). split; auto.
        * intros j u l0 X. apply gput_keep; assumption.
        * intros j u l0 X. destruct (gput_inv _ _ _ _ _ _ _ X) as [Y|(-> & -> & ->)]; [auto|]. right.
          repeat (split; [reflexivity || exact D|]). exists k, lc. split; [exact Hk|]. split; [left; rewrite Hsrc; reflexivity|]. split; [exact X1 | exact Up].
        * intros u c X _. destruct (Sv u c X) as [-> _]. left. exists (n_log n). apply gput_same.
        * intros uid0 ext0 q0 [X|[]]. discriminate.
    - exfalso. eapply fe_req; [exact F | exact H | exact H0 | discriminate..].
    - (* reconfiguration *)
      destruct H1 as (H1 & H2 & H3). unfold core in H2. cbn in H2. injection H2. intros. apply Plain.
      + assert (Z : saves l = []). { clear -H1. induction H1; [reflexivity|]. destruct H as [H| ->]; [destruct x; try contradiction|]; exact IHForall. }
        rewrite Z. intros u c0 [].
      + intros uid ext m Hm Tm. rewrite Forall_forall in H1. destruct (H1 _ Hm) as [(_ & Q)|Q]; [rewrite Tm in Q|]; discriminate.
      + intros R. repeat split; try congruence. unfold n_log. rewrite H3. apply (fold_conf _ _ _ H1).
    - exfalso. eapply fe_req; [exact F | exact H | exact H0 | discriminate..].
    - exfalso. destruct H as [(q & Q & T)|(sn & d & ok & Q)]; [eapply fe_req; [exact F | exact Q | exact T | discriminate..] | subst e; destruct F].
    - exfalso. destruct H0 as [(q & Q & T)|(sn & d & ok & Q)]; [eapply fe_req; [exact F | exact Q | exact T | discriminate..] | subst e; destruct F].
    - exfalso. rewrite (fe_conf e F) in H. discriminate.
    - exfalso. subst e. destruct F.
  Qed.
End Safe.
