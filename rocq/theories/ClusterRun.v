(** * ClusterRun: the invariants of ClusterElect.v and ClusterLog.v hold in every reachable world *)

From Verif Require Import Base Buffer Codec CodecSpec Msg FsLogStore FsLogSpec Alog P_Vote
  Raft RaftQuiet RaftWalk RaftTrace RaftTrace2 RaftTrace3 NodeSpec NodeLife NodeFacts Cluster ClusterElect ClusterLog ClusterWalk.
Local Open Scope N_scope.

(** every server of a cluster leads a life as in NodeSpec.v *)
Lemma life_trans : forall id pm s h s1, life id pm s h s1 -> forall h2 s2, life id pm s1 h2 s2 -> life id pm s (h ++ h2) s2.
Proof.
  intros id pm s h s1 H. induction H; intros h2 s2 H2; cbn [app]; [exact H2 | | | |].
  - eapply L_event; [eassumption | assumption | apply IHlife, H2].
  - eapply L_stop; [eassumption | assumption | apply IHlife, H2].
  - eapply L_crash; [eassumption | apply IHlife, H2].
  - apply L_start. apply IHlife, H2.
Qed.
Lemma reach_life : forall servers prm w0 w, reach servers prm w0 w -> (forall i, w_hist w0 i = []) ->
  forall i, life i (prm i) (w_sys w0 i) (w_hist w i) (w_sys w i).
Proof.
  intros servers prm w0 w H Z. induction H; intros j; [rewrite Z; constructor|].
  specialize (IHreach j). inversion H0; subst; cbn [next_world w_sys w_hist];
    (destruct (Z.eq_dec j i) as [->|Hne]; [rewrite !put_same | rewrite !put_other by exact Hne; exact IHreach]).
  - eapply life_trans; [exact IHreach|]. rewrite H2. eapply L_event; [eassumption | assumption | constructor].
  - eapply life_trans; [exact IHreach|]. rewrite H2. eapply L_stop; [eassumption | assumption | constructor].
  - eapply life_trans; [exact IHreach|]. rewrite H2. eapply L_crash; [eassumption | constructor].
  - rewrite app_nil_r. rewrite <- (app_nil_r (w_hist w i)). eapply life_trans; [exact IHreach|]. rewrite H2. apply L_start. constructor.
Qed.

Section Run.
  Variable servers : list srv_config.
  Variable prm : Z -> params.
  Hypothesis HC : cluster_okay servers.
  Hypothesis HS : no_snapshots prm.
  Let ids := ids servers.

  Definition answer_good (w : world) (j : Z) (q : req) (r : resp_msg) : Prop :=
    rs_src r = j /\ rs_type r = response_type (rq_type q) /\
    (rq_type q = vote_request -> rs_accepted r = true -> rq_src q <> (-1)%Z -> In (rs_term r, rq_src q) (saves (w_acts w j))).
  Record winv (w : world) : Prop := mkWinv {
    w_e : einv servers (w_sys w) (w_acts w);
    w_l : exists tl, linv servers (w_sys w) (w_acts w) tl;
    w_o : forall i, In i ids -> Forall ordinary (w_acts w i);
    w_a : forall j q r, In j ids -> answered w j q r -> answer_good w j q r;
    w_p : forall i n, In i ids -> w_sys w i = Up n -> n_prm n = prm i
  }.

  Lemma possible_fe : forall w i e, winv w -> In i ids -> possible servers w i e -> fe e /\ backed servers (w_acts w) i e.
  Proof.
    intros w i e [E _ O A _] Hi P.
    assert (Ty : forall k uid ext q, In k ids -> sent w k uid ext q ->
              (ext = true /\ rq_type q = prevote_request) \/ (ext = false /\ (rq_type q = append_entries_request \/ rq_type q = vote_request) /\ rq_src q = k)).
    { intros k uid [|] q Hk Hq; [left; split; [reflexivity|] | right; split; [reflexivity|]].
      - specialize (O k Hk). rewrite Forall_forall in O. apply (O _ Hq).
      - apply (e_sent _ _ _ E k uid q Hk Hq). }
    destruct e as [| |now q|now uid ext q r|uid q| |sn d ok| | | |]; cbn [possible] in P; try (split; exact I); try destruct P.
    - destruct H as (k & uid & ext & Hk & Hq & Hd). destruct (Ty k uid ext q Hk Hq) as [[-> T]|(-> & T & S)].
      + split; [cbn; auto|]. intros T2. rewrite T2 in T. discriminate.
      + split; [cbn; tauto|]. intros T2. exists k. split; [exact Hk|]. split; [|exact Hd]. split; [exact T2 | eauto].
    - split; [cbn; auto|]. intros T2. destruct H as [T _]. rewrite T2 in T. discriminate.
    - destruct r as [r|].
      + destruct P as (Hq & Hd & Ha). destruct (A _ _ _ Hd Ha) as (A1 & A2 & A3). destruct (Ty i uid ext q Hi Hq) as [[-> T]|(-> & T & S)].
        * split; [|exact I]. cbn. rewrite A2, T. reflexivity.
        * split; [exact I|]. cbn. intros T2 Hacc. unfold voted. rewrite A1. rewrite <- S. apply A3; [|exact Hacc|].
          -- destruct T as [T|T]; [rewrite A2, T in T2; discriminate | exact T].
          -- rewrite S. apply (ids_pos servers HC i Hi).
      + destruct (Ty i uid ext q Hi P) as [[-> T]|(-> & T & S)]; split; try exact I. exact T.
    - specialize (O i Hi). rewrite Forall_forall in O. destruct (O _ P).
    - specialize (O i Hi). rewrite Forall_forall in O. destruct (O _ P).
  Qed.

  Lemma acts_next : forall w i x e l a j, w_acts (next_world w i x [mkObs e l a]) j = put (w_acts w) i (w_acts w i ++ l) j.
  Proof.
    intros w i x e l a j. unfold w_acts, next_world. cbn [w_hist]. destruct (Z.eq_dec j i) as [->|Hne]; [rewrite !put_same | rewrite !put_other by exact Hne; reflexivity].
    unfold acts_of. rewrite map_app, concat_app. cbn [map concat o_acts]. rewrite app_nil_r. reflexivity.
  Qed.

  (** what all three ways an event can end have in common *)
  Lemma winv_event : forall w i n e l n' x a, winv w -> In i ids -> w_sys w i = Up n -> fe e -> backed servers (w_acts w) i e ->
    tr e n l n' -> Forall ordinary l -> (forall m, x = Up m -> n_prm m = prm i) -> (x = Up n' \/ x = Down (n_disk n')) ->
    (forall now q r, e = ERequest now q -> a = Some (Response r) ->
       rs_src r = i /\ rs_type r = response_type (rq_type q) /\
       (rq_type q = vote_request -> rs_accepted r = true -> saved (n_disk n') = (rs_term r, rq_src q))) ->
    winv (next_world w i x [mkObs e l a]).
  Proof.
    intros w i n e l n' x a [E [tl L] O A P] Hi Hs F K HT Ho Hp Hx Ha.
    destruct (inv_tr servers HC e n l n' HT _ _ tl i E L Hi Hs F K) as (tl' & E' & L').
    assert (XA := acts_next w i x e l a).
    assert (EL : einv servers (put (w_sys w) i x) (put (w_acts w) i (w_acts w i ++ l)) /\ linv servers (put (w_sys w) i x) (put (w_acts w) i (w_acts w i ++ l)) tl').
    { destruct Hx as [-> | ->]; [split; assumption|].
      assert (XS : forall j, put (w_sys w) i (Down (n_disk n')) j = put (put (w_sys w) i (Up n')) i (Down (sys_disk (put (w_sys w) i (Up n') i))) j).
      { intros j. rewrite (put_same _ (w_sys w)). destruct (Z.eq_dec j i) as [->|Hne]; [rewrite !put_same | rewrite !put_other by exact Hne]; reflexivity. }
      split.
      - eapply einv_ext; [exact XS | intros; reflexivity|]. apply (einv_down servers); assumption.
      - eapply linv_ext; [exact XS | intros; reflexivity|]. apply (linv_disk servers); [exact L' | exact Hi | reflexivity]. }
    destruct EL as [E2 L2]. split.
    - eapply einv_ext; [intros; reflexivity | exact XA | exact E2].
    - exists tl'. eapply linv_ext; [intros; reflexivity | exact XA | exact L2].
    - intros j Hj. rewrite XA. destruct (Z.eq_dec j i) as [->|Hne]; [rewrite put_same; apply Forall_app; split; [apply O, Hj | exact Ho] | rewrite put_other by exact Hne; apply O, Hj].
    - intros j q r Hj (now & l0 & Hin). unfold next_world in Hin. cbn [w_hist] in Hin.
      assert (Old : answered w j q r -> answer_good (next_world w i x [mkObs e l a]) j q r).
      { intros Ho2. destruct (A j q r Hj Ho2) as (A1 & A2 & A3). split; [exact A1|]. split; [exact A2|]. intros T Hacc Hm. rewrite XA.
        apply (voted_mono _ i l (rs_term r) (rq_src q) j). apply A3; assumption. }
      destruct (Z.eq_dec j i) as [->|Hne]; [rewrite put_same in Hin | rewrite put_other in Hin by exact Hne; apply Old; exists now, l0; exact Hin].
      apply in_app_or in Hin. destruct Hin as [Hin|[Hin|[]]]; [apply Old; exists now, l0; exact Hin|]. inversion Hin; subst e l0 a.
      destruct (Ha now q r eq_refl eq_refl) as (A1 & A2 & A3). split; [exact A1|]. split; [exact A2|]. intros T Hacc Hm. rewrite XA, put_same.
      assert (V := e_tv _ _ _ E' i Hi). rewrite !put_same in V. cbn [sys_disk] in V. rewrite (A3 T Hacc) in V.
      apply tv_chain_last in V. destruct V as [V|V]; [inversion V; congruence | exact V].
    - intros j m Hj Hm. unfold next_world in Hm. cbn [w_sys] in Hm. destruct (Z.eq_dec j i) as [->|Hne]; [rewrite put_same in Hm; apply Hp, Hm | rewrite put_other in Hm by exact Hne; apply P; assumption].
  Qed.

  Lemma winv_step : forall w w', winv w -> step servers prm w w' -> winv w'.
  Proof.
    intros w w' W H. destruct H.
    - destruct (possible_fe w i e W H H1) as [F K]. assert (S := e_static _ _ _ (w_e w W) i H). rewrite H0 in S. destruct S as ((Sid & Ssy & _) & Sl & _). cbn [sys_disk] in Sl.
      assert (St : 1 <= al_start (n_log n)) by (unfold n_log; lia).
      assert (HT := proj1 (run_event_tr e n St _ _ _ H2)). destruct (proj1 (event_ordinary e n F _ _ _ H2)) as [O1 O2].
      assert (Pn := w_p w W i n H H0).
      eapply (winv_event w i n e l n'); try eassumption.
      + apply O2. rewrite Pn. apply HS.
      + intros m Em. inversion Em; subst. congruence.
      + auto.
      + intros now q r0 -> Ea. destruct r as [a| | |]; try discriminate. cbn in Ea. inversion Ea; subst a.
        destruct (C53_response _ _ _ _ _ _ H2) as (R1 & R2 & _ & R3 & _). split; [congruence|]. split; [exact R2|]. intros T Hacc.
        destruct (event_vote_post _ _ _ _ _ _ St T H2 Hacc) as [V1 V2]. rewrite (tr_synced _ _ _ _ HT Ssy). unfold tv. rewrite V1. rewrite R3 by auto. reflexivity.
    - destruct (possible_fe w i e W H H1) as [F K]. assert (S := e_static _ _ _ (w_e w W) i H). rewrite H0 in S. destruct S as ((Sid & Ssy & _) & Sl & _). cbn [sys_disk] in Sl.
      assert (St : 1 <= al_start (n_log n)) by (unfold n_log; lia).
      assert (HT := proj1 (run_event_tr e n St _ _ _ H2)). destruct (proj1 (event_ordinary e n F _ _ _ H2)) as [O1 O2].
      assert (Pn := w_p w W i n H H0).
      eapply (winv_event w i n e l n'); try eassumption.
      + apply O2. rewrite Pn. apply HS.
      + intros m Em. discriminate.
      + auto.
      + intros; discriminate.
    - destruct (possible_fe w i e W H H1) as [F K]. assert (S := e_static _ _ _ (w_e w W) i H). rewrite H0 in S. destruct S as ((Sid & Ssy & _) & Sl & _). cbn [sys_disk] in Sl.
      assert (St : 1 <= al_start (n_log n)) by (unfold n_log; lia).
      assert (HT := proj1 (run_event_tr e n St _ _ _ H2)). destruct (proj1 (event_ordinary e n F _ _ _ H2)) as [O1 O2].
      assert (Pn := w_p w W i n H H0). destruct (tr_prefix _ _ _ _ HT p q eq_refl) as (n1 & HT1).
      rewrite <- (tr_disk _ _ _ _ HT1).
      eapply (winv_event w i n e p n1); try eassumption.
      + assert (X := O2 ltac:(rewrite Pn; apply HS)). apply Forall_app in X. apply X.
      + intros m Em. discriminate.
      + auto.
      + intros; discriminate.
    - destruct W as [E [tl L] O A P].
      assert (XA : forall j, w_acts (next_world w i (Up (start_node i (prm i) d)) []) j = w_acts w j).
      { intros j. unfold w_acts, next_world. cbn [w_hist]. destruct (Z.eq_dec j i) as [->|Hne]; [rewrite put_same, app_nil_r | rewrite put_other by exact Hne]; reflexivity. }
      split.
      + eapply einv_ext; [intros; reflexivity | exact XA|]. cbn [next_world w_sys]. eapply (einv_up servers HC); eassumption.
      + exists tl. eapply linv_ext; [intros; reflexivity | exact XA|]. cbn [next_world w_sys]. apply (linv_disk servers); [exact L | exact H|].
        rewrite H0. cbn [sys_disk]. apply start_disk.
      + intros j Hj. rewrite XA. apply O, Hj.
      + intros j q r Hj (now & l0 & Hin). destruct (A j q r Hj) as (A1 & A2 & A3).
        { exists now, l0. unfold next_world in Hin. cbn [w_hist] in Hin. destruct (Z.eq_dec j i) as [->|Hne]; [rewrite put_same, app_nil_r in Hin | rewrite put_other in Hin by exact Hne]; exact Hin. }
        split; [exact A1|]. split; [exact A2|]. rewrite XA. exact A3.
      + intros j m Hj Hm. unfold next_world in Hm. cbn [w_sys] in Hm. destruct (Z.eq_dec j i) as [->|Hne]; [rewrite put_same in Hm; inversion Hm | rewrite put_other in Hm by exact Hne; apply P; assumption].
        unfold start_node. destruct (match dk_state d with Some x => x | None => (0, (-1)%Z) end); reflexivity.
  Qed.

  Lemma winv_initial : forall w, initial servers w -> winv w.
  Proof.
    intros w I. assert (XA : forall j, w_acts w j = []) by (intros j; unfold w_acts; rewrite (proj1 (I j)); reflexivity).
    assert (XD : forall j, In j ids -> exists d, w_sys w j = Down d /\ fresh_disk servers d) by (intros j; apply I).
    split.
    - split.
      + intros j Hj. destruct (XD j Hj) as (d & -> & D1 & D2 & D3 & D4 & D5). split; [exact Logic.I|]. cbn [sys_disk]. rewrite D3. split; [reflexivity|].
        split; [exact D2|]. intros k e Hk. rewrite get_empty in Hk. discriminate.
      + intros j Hj. destruct (XD j Hj) as (d & -> & D1 & _). rewrite XA. cbn [sys_disk saves]. unfold saved. rewrite D1. constructor.
      + intros j Hj. destruct (XD j Hj) as (d & -> & _). exact Logic.I.
      + intros j t Hj Ht. rewrite XA in Ht. destruct Ht.
      + intros j n Hj Hn. destruct (XD j Hj) as (d & Ed & _). congruence.
      + intros k q Hk (_ & u & x & Hq). rewrite XA in Hq. destruct Hq.
      + intros k u q Hk Hq. rewrite XA in Hq. destruct Hq.
    - exists (fun _ => a_empty). split.
      + intros j Hj. destruct (XD j Hj) as (d & -> & D1 & D2 & D3 & _). unfold slog. cbn [sys_disk]. rewrite D3. intros k e Hk. rewrite get_empty in Hk. discriminate.
      + intros t. split; [|reflexivity]. intros k e Hk. rewrite get_empty in Hk. discriminate.
      + intros j t Hj Ht. rewrite XA in Ht. destruct Ht.
      + intros t _. reflexivity.
      + intros k q Hk (_ & u & x & Hq). rewrite XA in Hq. destruct Hq.
      + intros j k x Hj Hx. rewrite XA in Hx. destruct Hx.
    - intros j Hj. rewrite XA. constructor.
    - intros j q r Hj (now & l & Hin). rewrite (proj1 (I j)) in Hin. destruct Hin.
    - intros j n Hj Hn. destruct (XD j Hj) as (d & Ed & _). congruence.
  Qed.
  Theorem reach_winv : forall w0 w, initial servers w0 -> reach servers prm w0 w -> winv w.
  Proof. intros w0 w I H. induction H; [apply winv_initial, I | eapply winv_step; eassumption]. Qed.
End Run.
