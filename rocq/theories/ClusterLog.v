(** * ClusterLog: logs in a cluster with fixed membership *)

From Verif Require Import Base Buffer Codec CodecSpec Msg FsLogStore FsLogSpec Alog
  Raft RaftQuiet RaftTrace RaftTrace2 RaftTrace3 NodeSpec NodeLife Cluster ClusterElect.
Local Open Scope N_scope.

Lemma agree_refl : forall k a, agree k a a.
Proof. intros k a j _. reflexivity. Qed.
Lemma agree_sym : forall k a b, agree k a b -> agree k b a.
Proof. intros k a b H j Hj. symmetry. apply H, Hj. Qed.
Lemma agree_trans : forall k a b c, agree k a b -> agree k b c -> agree k a c.
Proof. intros k a b c H1 H2 j Hj. rewrite (H1 j Hj). apply H2, Hj. Qed.
Lemma agree_le : forall k k' a b, agree k a b -> k' <= k -> agree k' a b.
Proof. intros k k' a b H L j Hj. apply H. lia. Qed.

Lemma get_empty : forall k, a_get a_empty k = None.
Proof. intros k. unfold a_get, a_empty. cbn [al_start al_ents]. destruct (k <? 1); [reflexivity|]. destruct (N.to_nat (k - 1)); reflexivity. Qed.
Lemma get_zero : forall l, al_start l = 1 -> a_get l 0 = None.
Proof. intros l H. apply a_get_none. lia. Qed.

(** the log of the leader of each term; what every log holds of a term is a prefix of it *)
Definition matches (tl : N -> alog) (l : alog) : Prop :=
  forall k e, a_get l k = Some e -> agree k l (tl (ev_term e)).
(** a request is a part of a log *)
Definition part (l : alog) (q : req) : Prop :=
  (rq_last_idx q = 0 \/ exists e, a_get l (rq_last_idx q) = Some e /\ ev_term e = rq_last_term q) /\
  forall j e, nth_error (rq_entries q) j = Some e -> a_get l (rq_last_idx q + 1 + N.of_nat j) = Some e.

Definition tput (tl : N -> alog) (t : N) (l : alog) : N -> alog := fun u => if u =? t then l else tl u.
Lemma tput_same : forall tl t l, tput tl t l t = l.
Proof. intros. unfold tput. rewrite N.eqb_refl. reflexivity. Qed.
Lemma tput_other : forall tl t l u, u <> t -> tput tl t l u = tl u.
Proof. intros. unfold tput. destruct (u =? t) eqn:E; [lia | reflexivity]. Qed.

(** two logs that match and hold entries of the same term at an index agree up to it *)
Lemma matches_agree : forall tl a b k e e', matches tl a -> matches tl b ->
  a_get a k = Some e -> a_get b k = Some e' -> ev_term e = ev_term e' -> agree k a b.
Proof.
  intros tl a b k e e' Ha Hb Ea Eb T. eapply agree_trans; [apply (Ha k e Ea)|]. rewrite T. apply agree_sym, (Hb k e' Eb).
Qed.
(** changing the log of a leader that was empty, or extending it *)
Definition grows (tl tl' : N -> alog) : Prop := forall t k e, a_get (tl t) k = Some e -> agree k (tl t) (tl' t).
Lemma matches_grow : forall tl tl' l, grows tl tl' -> matches tl l -> matches tl' l.
Proof.
  intros tl tl' l G M k e E. assert (H := M k e E). eapply agree_trans; [exact H|]. apply (G _ k e).
  rewrite <- (H k); [exact E | lia].
Qed.
Lemma part_grow : forall tl tl' q, grows tl tl' -> part (tl (rq_term q)) q -> part (tl' (rq_term q)) q.
Proof.
  intros tl tl' q G [H1 H2]. split.
  - destruct H1 as [H1|(e & H1 & T)]; [left; exact H1|]. right. exists e. split; [|exact T].
    rewrite <- (G _ _ _ H1); [exact H1 | lia].
  - intros j e H. specialize (H2 j e H). rewrite <- (G _ _ _ H2); [exact H2 | lia].
Qed.

Section Log.
  Variable servers : list srv_config.
  Hypothesis HC : cluster_okay servers.
  Let ids := ids servers.
  Notation einv := (einv servers).
  Notation static := (static servers).

  Definition slog (x : sys) : alog := dk_log (sys_disk x).
  Record linv (s : Z -> sys) (A : Z -> list act) (tl : N -> alog) : Prop := mkLinv {
    l_logs : forall i, In i ids -> matches tl (slog (s i));
    l_tl : forall t, matches tl (tl t) /\ al_start (tl t) = 1;
    l_led : forall i t, In i ids -> In t (leads (A i)) -> term_of (s i) = t -> slog (s i) = tl t;
    l_none : forall t, (forall i, In i ids -> ~ In t (leads (A i))) -> tl t = a_empty;
    l_ae : forall k q, In k ids -> ae_sent A k q -> part (tl (rq_term q)) q;
    l_app : forall i k x, In i ids -> In (ACommit k x) (A i) -> a_get (tl (ev_term x)) k = Some x
  }.

  Lemma astep_app : forall e n l n', astep e n l n' -> forall k x, In (ACommit k x) l -> a_get (n_log n) k = Some x.
  Proof.
    intros e n l n' H k x Hin. destruct H; try (destruct Hin as [Hin|[]]; discriminate); try destruct Hin as [].
    - destruct H as (ps & q0 & j & -> & _ & _ & _ & Hl). rewrite Forall_forall in Hl. destruct (Hl _ Hin).
    - rewrite Forall_forall in H0. destruct (H0 _ Hin).
    - inversion H3; subst. assumption.
    - contradiction.
    - destruct H1 as (H1 & _). rewrite Forall_forall in H1. destruct (H1 _ Hin) as [[]|H2]. discriminate.
    - subst a. contradiction.
    - contradiction.
  Qed.
  Lemma app_grow : forall tl tl' k x, grows tl tl' -> a_get (tl (ev_term x)) k = Some x -> a_get (tl' (ev_term x)) k = Some x.
  Proof. intros tl tl' k x G H. rewrite <- (G _ _ _ H); [exact H | lia]. Qed.
  Lemma app_old : forall (A : Z -> list act) i a j k x, (forall k x, a <> ACommit k x) -> In (ACommit k x) (put A i (A i ++ [a]) j) -> In (ACommit k x) (A j).
  Proof.
    intros A i a j k x Ha H. destruct (Z.eq_dec j i) as [->|Hne]; [|rewrite put_other in H by exact Hne; exact H].
    rewrite put_same in H. apply in_app_or in H. destruct H as [H|[H|[]]]; [exact H | destruct (Ha k x H)].
  Qed.

  (** writing an entry of a request at its place keeps the log matching *)
  Lemma write_matches : forall tl l l' t q k e i,
    matches tl l -> matches tl (tl t) -> al_start l = 1 -> part (tl t) q -> ae_match q l k ->
    nth_error (rq_entries q) k = Some e -> i = rq_last_idx q + 1 + N.of_nat k ->
    (forall j, j < i -> a_get l' j = a_get l j) -> a_get l' i = Some e -> (forall j, i < j -> a_get l' j = None) ->
    al_start (tl t) = 1 -> matches tl l'.
  Proof.
    intros tl l l' t q k e i Ml Mt Sl (P1 & P2) (M1 & M2) Hn Hi L1 L2 L3 St.
    assert (Ag : agree (i - 1) l (tl t)).
    { destruct k as [|k].
      - replace (i - 1) with (rq_last_idx q) by lia.
        assert (Z : rq_last_idx q = 0 -> agree (rq_last_idx q) l (tl t)).
        { intros Z j Hj. replace j with 0 by lia. rewrite !get_zero by assumption. reflexivity. }
        destruct M1 as [M1|[M1|(e1 & M1 & T1)]]; [apply Z, M1 | apply Z; lia|].
        destruct P1 as [P1|(e2 & P1 & T2)]; [apply Z, P1|].
        apply (matches_agree tl l (tl t) _ e1 e2); try assumption. congruence.
      - destruct (nth_error (rq_entries q) k) as [e2|] eqn:E2.
        2:{ apply nth_error_None in E2. assert (X : nth_error (rq_entries q) (S k) <> None) by congruence. apply nth_error_Some in X. lia. }
        destruct (M2 k e2 ltac:(lia) E2) as (e1 & E1 & T). specialize (P2 k e2 E2).
        replace (rq_last_idx q + 1 + N.of_nat k) with (i - 1) in * by lia.
        apply (matches_agree tl l (tl t) _ e1 e2); assumption. }
    assert (Ag2 : agree i l' (tl t)).
    { intros j Hj. destruct (N.eq_dec j i) as [->|Hne].
      - rewrite L2. symmetry. rewrite Hi. apply P2, Hn.
      - rewrite L1 by lia. apply Ag. lia. }
    intros j x E. destruct (N.lt_ge_cases i j) as [Hj|Hj]; [rewrite L3 in E by exact Hj; discriminate|].
    eapply agree_trans; [eapply agree_le; [exact Ag2 | exact Hj]|]. apply Mt. rewrite <- (Ag2 j Hj). exact E.
  Qed.

  (** a step that leaves the log alone and is not the start of a leadership *)
  Lemma linv_same : forall s A tl i n n' l e, einv s A -> linv s A tl -> In i ids -> s i = Up n -> fe e -> backed servers A i e -> astep e n l n' ->
    n_log n' = n_log n -> leads l = [] -> linv (put s i (Up n')) (put A i (A i ++ l)) tl.
  Proof.
    intros s A tl i n n' l e E [L1 L2 L3 L4 L5 L6] Hi Hs F K H EL Hl.
    assert (S := e_static _ _ _ E i Hi). rewrite Hs in S.
    assert (ELn : forall j, leads (put A i (A i ++ l) j) = leads (A j)).
    { intros j. destruct (Z.eq_dec j i) as [->|Hne]; [rewrite put_same, leads_app, Hl, app_nil_r | rewrite put_other by exact Hne]; reflexivity. }
    assert (E' := einv_step servers HC s A i n e l n' E Hi Hs F K H).
    assert (M : term_of (Up n) <= term_of (Up n')).
    { destruct S as ((_ & Ssy & _) & _). assert (TV := astep_tv _ _ _ _ (fe_join e F) H). rewrite <- Ssy in TV.
      assert (Sy' : saved (n_disk n') = tv n') by (eapply astep_synced; eassumption). rewrite <- Sy' in TV. apply (tv_chain_le _ _ _ TV). }
    split.
    - intros j Hj. destruct (Z.eq_dec j i) as [->|Hne]; [|rewrite put_other by exact Hne; apply L1, Hj].
      rewrite put_same. assert (X := L1 i Hi). rewrite Hs in X. unfold slog, sys_disk in *. fold (n_log n') (n_log n) in *. rewrite EL. exact X.
    - exact L2.
    - intros j t Hj Ht Hterm. rewrite ELn in Ht. destruct (Z.eq_dec j i) as [->|Hne].
      + rewrite put_same in *. destruct (e_led _ _ _ E i t Hi Ht) as [_ Y]. rewrite Hs in Y.
        assert (X := L3 i t Hi Ht). rewrite Hs in X. unfold slog, sys_disk in *. fold (n_log n') (n_log n) in *. rewrite EL. apply X. lia.
      + rewrite put_other in * by exact Hne. apply L3; assumption.
    - intros t Hn. apply L4. intros j Hj. rewrite <- ELn. apply Hn, Hj.
    - intros k q Hk (T & uid & ext & Hq). destruct (Z.eq_dec k i) as [->|Hne].
      2:{ rewrite put_other in Hq by exact Hne. apply (L5 k q Hk). split; [exact T | eauto]. }
      rewrite put_same in Hq. apply in_app_or in Hq. destruct Hq as [Hq|Hq]; [apply (L5 i q Hk); split; [exact T | eauto]|].
      destruct (astep_ae servers _ _ _ _ _ F S H _ _ _ Hq T) as (R & Ms & _). assert (Ms0 := Ms). destruct Ms as (_ & M2 & _ & _ & M5 & _).
      assert (Y := e_role _ _ _ E i n Hi Hs R).
      assert (EQ : n_log n = tl (rq_term q)).
      { rewrite M2. assert (X := L3 i (n_term n) Hi Y). rewrite Hs in X. apply X. destruct S as ((_ & Ssy & _) & _). unfold term_of, sys_disk. rewrite Ssy. reflexivity. }
      rewrite <- EQ. destruct S as (_ & Sl & _). cbn [sys_disk] in Sl. fold (n_log n) in Sl.
      split; [|intros j x Hx; eapply ae_msg_seg; eassumption].
      destruct M5 as [[M5 _]|[(_ & _ & M5)|[M5 _]]]; [left; exact M5 | right; exact M5 | lia].
    - intros j k x Hj Hx. destruct (Z.eq_dec j i) as [->|Hne]; [|rewrite put_other in Hx by exact Hne; apply (L6 j k x Hj Hx)].
      rewrite put_same in Hx. apply in_app_or in Hx. destruct Hx as [Hx|Hx]; [apply (L6 i k x Hj Hx)|].
      assert (Hx2 := astep_app _ _ _ _ H _ _ Hx). assert (X := L1 i Hi). rewrite Hs in X. rewrite <- (X k x Hx2); [exact Hx2 | lia].
  Qed.

  Lemma matches_none : forall tl l t k e, matches tl l -> tl t = a_empty -> a_get l k = Some e -> ev_term e <> t.
  Proof.
    intros tl l t k e M Z E T. assert (H := M k e E k ltac:(lia)). rewrite E, T, Z, get_empty in H. discriminate.
  Qed.

  (** how the leaders' logs change in a step *)
  Definition evolves (A : Z -> list act) (n : node) (l : list act) (tl tl' : N -> alog) : Prop :=
    tl' = tl \/
    (l = [ABecomeLeader (n_term n)] /\ (forall j, In j ids -> ~ In (n_term n) (leads (A j))) /\ tl' = tput tl (n_term n) (n_log n)) \/
    (exists x, l = [AAppend x] /\ n_role n = Leader /\ ev_term x = n_term n /\
       tl' = tput tl (n_term n) (a_replace (n_log n) (a_next (n_log n)) [x])).

  (** a server becomes leader *)
  Lemma linv_lead : forall s A tl i n e, einv s A -> linv s A tl -> In i ids -> s i = Up n -> fe e -> backed servers A i e ->
    astep e n [ABecomeLeader (n_term n)] (set_role Leader n) ->
    exists tl', evolves A n [ABecomeLeader (n_term n)] tl tl' /\ linv (put s i (Up (set_role Leader n))) (put A i (A i ++ [ABecomeLeader (n_term n)])) tl'.
  Proof.
    intros s A tl i n e E L Hi Hs F K H. destruct L as [L1 L2 L3 L4 L5 L6].
    assert (S := e_static _ _ _ E i Hi). rewrite Hs in S. set (t := n_term n).
    assert (Tn : term_of (Up n) = t). { destruct S as ((_ & Ssy & _) & _). unfold term_of, sys_disk. rewrite Ssy. reflexivity. }
    assert (E' := einv_step servers HC s A i n e _ _ E Hi Hs F K H).
    assert (ELn : forall j u, In u (leads (put A i (A i ++ [ABecomeLeader t]) j)) <-> In u (leads (A j)) \/ (j = i /\ u = t)).
    { intros j u. destruct (Z.eq_dec j i) as [->|Hne]; [rewrite put_same, leads_app | rewrite put_other by exact Hne; tauto].
      rewrite in_app_iff. cbn [leads In]. intuition congruence. }
    assert (Ia : In t (leads (put A i (A i ++ [ABecomeLeader t]) i))) by (apply ELn; auto).
    assert (Sl : forall j, slog (put s i (Up (set_role Leader n)) j) = slog (s j) /\ term_of (put s i (Up (set_role Leader n)) j) = term_of (s j)).
    { intros j. destruct (Z.eq_dec j i) as [->|Hne]; [rewrite put_same, Hs | rewrite put_other by exact Hne]; split; reflexivity. }
    assert (Ae : forall k q, In k ids -> ae_sent (put A i (A i ++ [ABecomeLeader t])) k q -> ae_sent A k q).
    { intros k q Hk (T & uid & ext & Hq). split; [exact T|]. destruct (Z.eq_dec k i) as [->|Hne]; [|rewrite put_other in Hq by exact Hne; eauto].
      rewrite put_same in Hq. apply in_app_or in Hq. destruct Hq as [Hq|[Hq|[]]]; [eauto | discriminate]. }
    destruct (in_dec N.eq_dec t (leads (A i))) as [Yes|No].
    - exists tl. split; [left; reflexivity|]. split.
      + intros j Hj. rewrite (proj1 (Sl j)). apply L1, Hj.
      + exact L2.
      + intros j u Hj Hu Ht. destruct (Sl j) as [-> Sl2]. rewrite Sl2 in Ht. apply ELn in Hu. destruct Hu as [Hu|[-> ->]]; apply L3; assumption.
      + intros u Hu. apply L4. intros j Hj Hc. apply (Hu j Hj). apply ELn. auto.
      + intros k q Hk Hq. apply (L5 k q Hk). apply Ae; assumption.
      + intros j k x Hj Hx. apply (L6 j k x Hj). eapply app_old; [|exact Hx]. discriminate.
    - assert (Nobody : forall j, In j ids -> ~ In t (leads (A j))).
      { intros j Hj Hc. destruct (Z.eq_dec j i) as [->|Hne]; [contradiction|]. apply Hne.
        assert (Ij : In t (leads (put A i (A i ++ [ABecomeLeader t]) j))) by (apply ELn; auto).
        destruct (e_led _ _ _ E' i t Hi Ia) as [X _]. destruct (e_led _ _ _ E' j t Hj Ij) as [Y _].
        symmetry. eapply (elected_unique servers HC); eassumption. }
      assert (Z := L4 t Nobody).
      assert (G : grows tl (tput tl t (n_log n))).
      { intros u k x Hx. destruct (N.eq_dec u t) as [->|Hne]; [rewrite Z, get_empty in Hx; discriminate|]. rewrite tput_other by exact Hne. apply agree_refl. }
      assert (Ln : matches tl (n_log n)) by (specialize (L1 i Hi); rewrite Hs in L1; exact L1).
      exists (tput tl t (n_log n)). split; [right; left; auto|]. split.
      + intros j Hj. rewrite (proj1 (Sl j)). apply (matches_grow tl); [exact G | apply L1, Hj].
      + intros u. destruct (N.eq_dec u t) as [->|Hne].
        * rewrite tput_same. split; [apply (matches_grow tl); assumption | apply S].
        * rewrite tput_other by exact Hne. split; [apply (matches_grow tl); [exact G | apply L2] | apply L2].
      + intros j u Hj Hu Ht. destruct (Sl j) as [-> Sl2]. rewrite Sl2 in Ht. apply ELn in Hu. destruct Hu as [Hu|[-> ->]].
        * rewrite tput_other by (intros ->; apply (Nobody j Hj Hu)). apply L3; assumption.
        * rewrite tput_same, Hs. reflexivity.
      + intros u Hu. rewrite tput_other; [apply L4; intros j Hj Hc; apply (Hu j Hj); apply ELn; auto|].
        intros ->. apply (Hu i Hi Ia).
      + intros k q Hk Hq. apply (part_grow tl); [exact G|]. apply (L5 k q Hk). apply Ae; assumption.
      + intros j k x Hj Hx. apply (app_grow tl); [exact G|]. apply (L6 j k x Hj). eapply app_old; [|exact Hx]. discriminate.
  Qed.

  (** a leader appends *)
  Lemma linv_lappend : forall s A tl i n x e, einv s A -> linv s A tl -> In i ids -> s i = Up n -> fe e -> backed servers A i e ->
    astep e n [AAppend x] (apply_act (AAppend x) n) -> n_role n = Leader -> ev_term x = n_term n ->
    exists tl', evolves A n [AAppend x] tl tl' /\ linv (put s i (Up (apply_act (AAppend x) n))) (put A i (A i ++ [AAppend x])) tl'.
  Proof.
    intros s A tl i n x e E L Hi Hs F K H R Tx. destruct L as [L1 L2 L3 L4 L5 L6].
    assert (S := e_static _ _ _ E i Hi). rewrite Hs in S. set (t := n_term n) in *. set (n' := apply_act (AAppend x) n) in *.
    assert (Tn : term_of (Up n) = t). { destruct S as ((_ & Ssy & _) & _). unfold term_of, sys_disk. rewrite Ssy. reflexivity. }
    assert (Ia := e_role _ _ _ E i n Hi Hs R). fold t in Ia.
    assert (EQ : n_log n = tl t) by (specialize (L3 i t Hi Ia); rewrite Hs in L3; apply L3, Tn).
    assert (ELn : forall j, leads (put A i (A i ++ [AAppend x]) j) = leads (A j)).
    { intros j. destruct (Z.eq_dec j i) as [->|Hne]; [rewrite put_same, leads_app; apply app_nil_r | rewrite put_other by exact Hne; reflexivity]. }
    assert (Ae : forall k q, In k ids -> ae_sent (put A i (A i ++ [AAppend x])) k q -> ae_sent A k q).
    { intros k q Hk (T & uid & ext & Hq). split; [exact T|]. destruct (Z.eq_dec k i) as [->|Hne]; [|rewrite put_other in Hq by exact Hne; eauto].
      rewrite put_same in Hq. apply in_app_or in Hq. destruct Hq as [Hq|[Hq|[]]]; [eauto | discriminate]. }
    set (l' := a_replace (n_log n) (a_next (n_log n)) [x]).
    assert (Hl' : n_log n' = l') by reflexivity.
    assert (Old : forall j, j < a_next (n_log n) -> a_get l' j = a_get (n_log n) j).
    { intros j Hj. unfold l'. rewrite a_get_append. destruct (j =? a_next (n_log n)) eqn:Ej; [lia | reflexivity]. }
    set (tl' := tput tl t l').
    assert (G : grows tl tl').
    { intros u k y Hy. destruct (N.eq_dec u t) as [->|Hne]; unfold tl'; [rewrite tput_same | rewrite tput_other by exact Hne; apply agree_refl].
      rewrite <- EQ in *. apply a_get_some in Hy. intros j Hj. symmetry. apply Old. lia. }
    assert (Ml' : matches tl' l').
    { intros k y Hy. assert (Hy0 := Hy). unfold l' in Hy. rewrite a_get_append in Hy. destruct (k =? a_next (n_log n)) eqn:Ek.
      - inversion Hy; subst y. rewrite Tx. unfold tl'. rewrite tput_same. apply agree_refl.
      - assert (X := L2 t). destruct X as [X _]. rewrite <- EQ in X. assert (X2 := matches_grow _ _ _ G X k y Hy).
        eapply agree_trans; [|exact X2]. apply a_get_some in Hy. intros j Hj. apply Old. lia. }
    assert (Sl' : al_start l' = 1). { unfold l'. rewrite al_start_replace. apply S. }
    exists tl'. split; [right; right; exists x; auto|]. split.
    - intros j Hj. destruct (Z.eq_dec j i) as [->|Hne]; [rewrite put_same; exact Ml' | rewrite put_other by exact Hne; apply (matches_grow tl); [exact G | apply L1, Hj]].
    - intros u. destruct (N.eq_dec u t) as [->|Hne]; unfold tl'; [rewrite tput_same; fold tl'; auto|].
      rewrite tput_other by exact Hne. fold tl'. split; [apply (matches_grow tl); [exact G | apply L2] | apply L2].
    - intros j u Hj Hu Ht. rewrite ELn in Hu. destruct (Z.eq_dec j i) as [->|Hne].
      + rewrite put_same in *. assert (Eu : u = t). { rewrite <- Ht. exact Tn. } rewrite Eu. unfold tl'. rewrite tput_same. reflexivity.
      + rewrite put_other in * by exact Hne. unfold tl'. rewrite tput_other; [apply L3; assumption|].
        intros ->. apply Hne. destruct (e_led _ _ _ E i t Hi Ia) as [X _]. destruct (e_led _ _ _ E j t Hj Hu) as [Y _].
        symmetry. eapply (elected_unique servers HC); eassumption.
    - intros u Hu. unfold tl'. rewrite tput_other; [apply L4; intros j Hj; rewrite <- ELn; apply Hu, Hj|].
      intros ->. apply (Hu i Hi). rewrite ELn. exact Ia.
    - intros k q Hk Hq. apply (part_grow tl); [exact G|]. apply (L5 k q Hk). apply Ae; assumption.
    - intros j k y Hj Hy. apply (app_grow tl); [exact G|]. apply (L6 j k y Hj). eapply app_old; [|exact Hy]. discriminate.
  Qed.

  (** a follower writes an entry of a request *)
  Lemma linv_fwrite : forall s A tl i n n' a q k x idx e, einv s A -> linv s A tl -> In i ids -> s i = Up n -> fe e -> backed servers A i e ->
    astep e n [a] n' -> req_of e q -> rq_type q = append_entries_request -> rq_term q = n_term n ->
    ae_match q (n_log n) k -> nth_error (rq_entries q) k = Some x -> idx = rq_last_idx q + 1 + N.of_nat k ->
    (forall j, j < idx -> a_get (n_log n') j = a_get (n_log n) j) -> a_get (n_log n') idx = Some x -> (forall j, idx < j -> a_get (n_log n') j = None) ->
    leads [a] = [] -> no_send a -> (forall k x, a <> ACommit k x) -> n_term n' = n_term n ->
    linv (put s i (Up n')) (put A i (A i ++ [a])) tl.
  Proof.
    intros s A tl i n n' a q k x idx e E [L1 L2 L3 L4 L5 L6] Hi Hs F K H Q T Tq Mq Nq Ei W1 W2 W3 La Na Ca Tn'.
    assert (S := e_static _ _ _ E i Hi). rewrite Hs in S. set (t := n_term n) in *.
    assert (Tn : term_of (Up n) = t). { destruct S as ((_ & Ssy & _) & _). unfold term_of, sys_disk. rewrite Ssy. reflexivity. }
    assert (ELn : forall j, leads (put A i (A i ++ [a]) j) = leads (A j)).
    { intros j. destruct (Z.eq_dec j i) as [->|Hne]; [rewrite put_same, leads_app, La; apply app_nil_r | rewrite put_other by exact Hne; reflexivity]. }
    assert (Ae : forall k q, In k ids -> ae_sent (put A i (A i ++ [a])) k q -> ae_sent A k q).
    { intros j p Hj (Tp & uid & ext & Hp). split; [exact Tp|]. destruct (Z.eq_dec j i) as [->|Hne]; [|rewrite put_other in Hp by exact Hne; eauto].
      rewrite put_same in Hp. apply in_app_or in Hp. destruct Hp as [Hp|[Hp|[]]]; [eauto | subst a; destruct Na]. }
    assert (K0 := K). destruct Q as [now ->]. destruct (K T) as (ld & Hld & Sq & Dq).
    destruct (e_ae _ _ _ E ld q Hld Sq) as (_ & X2 & X3 & _). rewrite Dq in X2. rewrite Tq in X3.
    assert (Sy' : synced n'). { eapply astep_synced; [exact H|]. apply S. }
    assert (Pq := L5 ld q Hld Sq). rewrite Tq in Pq.
    split.
    - intros j Hj. destruct (Z.eq_dec j i) as [->|Hne]; [|rewrite put_other by exact Hne; apply L1, Hj].
      rewrite put_same. assert (Ln := L1 i Hi). rewrite Hs in Ln. eapply (write_matches tl (n_log n) (n_log n') t q k x idx); try eassumption; try apply L2. apply S.
    - exact L2.
    - intros j u Hj Hu Ht. rewrite ELn in Hu. destruct (Z.eq_dec j i) as [->|Hne].
      + exfalso. rewrite put_same in Ht. assert (Eu : u = t). { rewrite <- Ht. unfold term_of, sys_disk. rewrite Sy'. exact Tn'. } rewrite Eu in Hu.
        apply X2. destruct (e_led _ _ _ E i t Hi Hu) as [Y _]. destruct (e_led _ _ _ E ld t Hld X3) as [Y2 _].
        eapply (elected_unique servers HC); eassumption.
      + rewrite put_other in * by exact Hne. apply L3; assumption.
    - intros u Hu. apply L4. intros j Hj. rewrite <- ELn. apply Hu, Hj.
    - intros j p Hj Hp. apply (L5 j p Hj). apply Ae; assumption.
    - intros j m y Hj Hy. apply (L6 j m y Hj). eapply app_old; [exact Ca | exact Hy].
  Qed.

  Lemma linv_step : forall s A tl i n e l n', einv s A -> linv s A tl -> In i ids -> s i = Up n -> fe e -> backed servers A i e -> astep e n l n' ->
    exists tl', evolves A n l tl tl' /\ linv (put s i (Up n')) (put A i (A i ++ l)) tl'.
  Proof.
    intros s A tl i n e l n' E L Hi Hs F K H.
    destruct (astep_leads _ _ _ _ H) as [Hl|(-> & _ & ->)]; [|eapply linv_lead; eassumption].
    assert (Hlog : n_log n' = n_log n -> exists tl', evolves A n l tl tl' /\ linv (put s i (Up n')) (put A i (A i ++ l)) tl').
    { intros EL. exists tl. split; [left; reflexivity|]. eapply linv_same; eassumption. }
    assert (S := e_static _ _ _ E i Hi). rewrite Hs in S. assert (S0 := S). destruct S0 as (_ & Slog & _). cbn [sys_disk] in Slog. fold (n_log n) in Slog.
    assert (H0 := H). destruct H0; try (apply Hlog; reflexivity).
    - apply Hlog. destruct H0 as (ps & q & j & -> & _). reflexivity.
    - apply Hlog. apply (core_upd _ _ H0).
    - eapply linv_lappend; eassumption.
    - exfalso. rewrite (fe_conf e F) in H0. discriminate.
    - exists tl. split; [left; reflexivity|]. destruct H7 as [H7 H7d]. eapply (linv_fwrite s A tl i n _ _ q k e0 i0 e); try eassumption; try reflexivity; try exact I; try discriminate.
      + intros j Hj. change (n_log (apply_act (AWriteAt i0 e0) n)) with (a_replace (n_log n) i0 [e0]). rewrite a_get_write by assumption.
        replace (j <? i0) with true by lia. reflexivity.
      + change (n_log (apply_act (AWriteAt i0 e0) n)) with (a_replace (n_log n) i0 [e0]). rewrite a_get_write by assumption.
        replace (i0 <? i0) with false by lia. rewrite N.eqb_refl. reflexivity.
      + intros j Hj. change (n_log (apply_act (AWriteAt i0 e0) n)) with (a_replace (n_log n) i0 [e0]). rewrite a_get_write by assumption.
        replace (j <? i0) with false by lia. replace (j =? i0) with false by lia. reflexivity.
    - exists tl. split; [left; reflexivity|]. eapply (linv_fwrite s A tl i n _ _ q k e0 (a_next (n_log n)) e); try eassumption; try reflexivity; try exact I; try discriminate.
      + intros j Hj. change (n_log (apply_act (AAppend e0) n)) with (a_replace (n_log n) (a_next (n_log n)) [e0]). rewrite a_get_append.
        replace (j =? a_next (n_log n)) with false by lia. reflexivity.
      + change (n_log (apply_act (AAppend e0) n)) with (a_replace (n_log n) (a_next (n_log n)) [e0]). rewrite a_get_append, N.eqb_refl. reflexivity.
      + intros j Hj. change (n_log (apply_act (AAppend e0) n)) with (a_replace (n_log n) (a_next (n_log n)) [e0]). rewrite a_get_append.
        replace (j =? a_next (n_log n)) with false by lia. apply a_get_none. lia.
    - apply Hlog. destruct H2 as (H2 & _ & H3). unfold n_log. rewrite H3. apply (fold_conf _ _ _ H2).
    - exfalso. eapply fe_req; [exact F | exact H0 | exact H1 | discriminate..].
    - exfalso. destruct H0 as [(q & Q & T)|(sn & d & ok & Q)]; [eapply fe_req; [exact F | exact Q | exact T | discriminate..] | subst e; destruct F].
    - apply Hlog. destruct a; try contradiction; reflexivity.
  Qed.

  Lemma linv_disk : forall s A tl i x, linv s A tl -> In i ids -> sys_disk x = sys_disk (s i) -> linv (put s i x) A tl.
  Proof.
    intros s A tl i x [L1 L2 L3 L4 L5 L6] Hi D.
    assert (X : forall j, slog (put s i x j) = slog (s j) /\ term_of (put s i x j) = term_of (s j)).
    { intros j. destruct (Z.eq_dec j i) as [->|Hne]; [rewrite put_same | rewrite put_other by exact Hne; split; reflexivity]. unfold slog, term_of. rewrite D. split; reflexivity. }
    split; try assumption.
    - intros j Hj. rewrite (proj1 (X j)). apply L1, Hj.
    - intros j t Hj Ht. destruct (X j) as [-> ->]. apply L3; assumption.
  Qed.

  Lemma elected_ext : forall A A' t i, (forall j, A' j = A j) -> elected servers A t i -> elected servers A' t i.
  Proof. intros A A' t i HA (B & H1 & H2 & H3 & H4). exists B. repeat (split; [assumption|]). intros j Hj. unfold voted. rewrite HA. apply H4, Hj. Qed.
  Lemma sent_ext : forall A A' k q, (forall j, A' j = A j) -> ae_sent A' k q -> ae_sent A k q.
  Proof. intros A A' k q HA (T & u & x & H). split; [exact T|]. exists u, x. rewrite <- HA. exact H. Qed.
  Lemma einv_ext : forall s A s' A', (forall j, s' j = s j) -> (forall j, A' j = A j) -> einv s A -> einv s' A'.
  Proof.
    intros s A s' A' HS HA [E1 E2 E3 E4 E5 E6 E7]. split.
    - intros i Hi. rewrite HS. apply E1, Hi.
    - intros i Hi. rewrite HS, HA. apply E2, Hi.
    - intros i Hi. rewrite HS. specialize (E3 i Hi). destruct (s i); [|exact I]. destruct E3 as (B & H1 & H2 & H3 & H4 & H5).
      exists B. repeat (split; [assumption|]). intros j Hj. unfold voted. rewrite HA. apply H5, Hj.
    - intros i t Hi Ht. rewrite HS. rewrite HA in Ht. destruct (E4 i t Hi Ht) as [X Y]. split; [|exact Y]. eapply elected_ext; eassumption.
    - intros i n Hi Hn R. rewrite HS in Hn. rewrite HA. apply (E5 i n); assumption.
    - intros k q Hk Hq. destruct (E6 k q Hk (sent_ext _ _ _ _ HA Hq)) as (X1 & X2 & X3 & X4). repeat (split; [assumption|]). rewrite HA. auto.
    - intros k uid q Hk Hq. rewrite HA in Hq. apply (E7 k uid q Hk Hq).
  Qed.
  Lemma linv_ext : forall s A s' A' tl, (forall j, s' j = s j) -> (forall j, A' j = A j) -> linv s A tl -> linv s' A' tl.
  Proof.
    intros s A s' A' tl HS HA [L1 L2 L3 L4 L5 L6]. split.
    - intros i Hi. rewrite HS. apply L1, Hi.
    - exact L2.
    - intros i t Hi Ht Hm. rewrite HS in *. rewrite HA in Ht. apply L3; assumption.
    - intros t Ht. apply L4. intros i Hi. rewrite <- HA. apply Ht, Hi.
    - intros k q Hk Hq. apply (L5 k q Hk). eapply sent_ext; eassumption.
    - intros i k x Hi Hx. rewrite HA in Hx. apply (L6 i k x Hi Hx).
  Qed.

  (** a whole event *)
  Lemma inv_tr : forall e n l n', tr e n l n' -> forall s A tl i, einv s A -> linv s A tl -> In i ids -> s i = Up n -> fe e -> backed servers A i e ->
    exists tl', einv (put s i (Up n')) (put A i (A i ++ l)) /\ linv (put s i (Up n')) (put A i (A i ++ l)) tl'.
  Proof.
    intros e n l n' H. induction H; intros s A tl i E L Hi Hs F K.
    - assert (XS : forall j, put s i (Up n) j = s j) by (intros j; destruct (Z.eq_dec j i) as [->|Hne]; [rewrite put_same, Hs | rewrite put_other by exact Hne]; reflexivity).
      assert (XA : forall j, put A i (A i ++ []) j = A j) by (intros j; destruct (Z.eq_dec j i) as [->|Hne]; [rewrite put_same; apply app_nil_r | rewrite put_other by exact Hne; reflexivity]).
      exists tl. split; [apply (einv_ext s A) | apply (linv_ext s A)]; assumption.
    - destruct (linv_step s A tl i n e l n1 E L Hi Hs F K H) as (tl1 & _ & L1).
      assert (E1 := einv_step servers HC s A i n e l n1 E Hi Hs F K H).
      destruct (IHtr _ _ tl1 i E1 L1 Hi (put_same _ _ _ _) F (backed_mono _ _ _ _ _ _ K)) as (tl2 & E2 & L2).
      exists tl2. rewrite put_same in *. rewrite <- app_assoc in *.
      split; [eapply einv_ext; [|  |exact E2] | eapply linv_ext; [| |exact L2]];
        (intros j; destruct (Z.eq_dec j i) as [->|Hne]; [rewrite !put_same | rewrite !put_other by exact Hne]; reflexivity).
  Qed.
End Log.
