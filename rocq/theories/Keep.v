(** * Keep: which entries later leaders have, in every run

    The part of the invariant of SafeRun.v that does not speak about commit indexes.  It holds in
    every run of a cluster, not only in those whose commit indexes are moved by the rules of
    CommitSpec.v. *)

From Verif Require Import Base Buffer Codec CodecSpec Msg FsLogStore FsLogSpec Alog P_Vote
  Raft RaftQuiet RaftWalk RaftTrace RaftTrace2 RaftTrace3 NodeSpec NodeLife NodeFacts ServerSpec
  Cluster ClusterElect ClusterLog ClusterWalk ClusterRun ClusterSafe CommitSpec SafeRun P_Accept.
Local Open Scope N_scope.

Section Keep.
  Variable servers : list srv_config.
  Variable prm : Z -> params.
  Hypothesis HC : cluster_okay servers.
  Hypothesis HS : no_snapshots prm.
  Notation ids := (Cluster.ids servers).

  Record kinv (ak : Z -> N -> N -> Prop) (s : Z -> sys) (A : Z -> list act) (tl : N -> alog) (cl vl : Z -> N -> option alog) : Prop := mkKinv {
    k_e : einv servers s A;
    k_l : linv servers s A tl;
    k_b : binv servers s tl;
    k_v : vinv servers s A tl cl vl;
    k_h : hinv servers ak s A tl vl
  }.

  Lemma kinv_ext : forall ak s A s' A' tl cl vl, (forall j, s' j = s j) -> (forall j, A' j = A j) -> kinv ak s A tl cl vl -> kinv ak s' A' tl cl vl.
  Proof.
    intros ak s A s' A' tl cl vl HX HA [E L [B1 B2 B3] [V1 V2 V3 V4 V5 V6] [G1 G2]]. split.
    - apply (einv_ext servers s A); assumption.
    - apply (linv_ext servers s A); assumption.
    - split; [|exact B2|exact B3]. intros i Hi. rewrite HX. apply B1, Hi.
    - split.
      + intros c u lc Hc Hlc. destruct (V1 c u lc Hc Hlc) as (X1 & X2 & X3 & X4 & X5 & X6). rewrite HX, HA.
        repeat (split; [assumption|]). split; [|exact X6]. intros Hu. destruct (X5 Hu) as [X|X]; [left; exact X | right; apply (ledt_ext servers A A'); assumption].
      + intros k uid ext q Hk Hq T. rewrite HA in Hq. eapply V2; eassumption.
      + intros i n Hi Hn. rewrite HX in Hn. apply (V3 i n Hi Hn).
      + intros j u l Hj Hl. rewrite HX. destruct (V4 j u l Hj Hl) as (X1 & X2 & X3 & c & lc & X4 & X5 & X6). repeat (split; [assumption|]).
        exists c, lc. rewrite HA. auto.
      + intros j u c Hj Hv Hc. rewrite HA in Hv. destruct (V5 j u c Hj Hv Hc) as [X|X]; [left; exact X | right; apply (ledt_ext servers A A'); assumption].
      + intros i u Hi Hu. rewrite HA in Hu. destruct (V6 i u Hi Hu) as (B & X1 & X2 & X3 & X4). exists B. repeat (split; [assumption|]). intros j Hj. rewrite HA. apply X4, Hj.
    - split.
      + intros j t k Hj Hh. apply (held_ext ak A A') in Hh; [|exact HA]. rewrite HX. destruct (G1 j t k Hj Hh) as (X1 & X2 & X3). repeat (split; [assumption|]).
        intros Hu. apply X3. intros u Hu1 Hu2. apply Hu; [exact Hu1 | apply (ledt_ext servers A A'); assumption].
      + intros j t k u l Hj Hh Ht Hl Hu. apply (held_ext ak A A') in Hh; [|exact HA]. apply (G2 j t k u l Hj Hh Ht Hl).
        intros u' Hu1 Hu2. apply Hu; [exact Hu1 | apply (ledt_ext servers A A'); assumption].
  Qed.
  Lemma kinv_step : forall ak s A tl cl vl i n e l n', kinv ak s A tl cl vl -> In i ids -> s i = Up n -> fe e -> backed servers A i e -> backed_v servers A e ->
    astep e n l n' -> exists tl' cl' vl', grows tl tl' /\ kinv ak (put s i (Up n')) (put A i (A i ++ l)) tl' cl' vl'.
  Proof.
    intros ak s A tl cl vl i n e l n' [E L B V G] Hi Hs F K Kv H.
    destruct (linv_step servers HC s A tl i n e l n' E L Hi Hs F K H) as (tl' & Ev & L').
    assert (E' := einv_step servers HC s A i n e l n' E Hi Hs F K H).
    destruct (gstep_exists servers HC s A tl i e n l n' cl vl E L B V Hi Hs F Kv H) as (cl' & vl' & Gs).
    assert (V' : vinv servers (put s i (Up n')) (put A i (A i ++ l)) tl' cl' vl').
    { eapply (vinv_gstep servers HC); eassumption. }
    exists tl', cl', vl'. split; [exact (evolves_grows servers s A tl i n l tl' E L Hi Hs Ev)|]. split; try assumption.
    - eapply (binv_step servers); eassumption.
    - eapply (hinv_gstep servers HC); eassumption.
  Qed.
  Lemma kinv_tr : forall e n l n', tr e n l n' -> forall ak s A tl cl vl i, kinv ak s A tl cl vl -> In i ids -> s i = Up n -> fe e ->
    backed servers A i e -> backed_v servers A e ->
    exists tl' cl' vl', grows tl tl' /\ kinv ak (put s i (Up n')) (put A i (A i ++ l)) tl' cl' vl'.
  Proof.
    intros e n l n' H. induction H; intros ak s A tl cl vl i I Hi Hs F K Kv.
    - exists tl, cl, vl. split; [apply grows_refl|]. eapply kinv_ext; [| |exact I]; intros j; (destruct (Z.eq_dec j i) as [->|Hne]; [rewrite put_same | rewrite put_other by exact Hne; reflexivity]);
        [symmetry; exact Hs | apply app_nil_r].
    - destruct (kinv_step _ _ _ _ _ _ _ _ _ _ _ I Hi Hs F K Kv H) as (tl1 & cl1 & vl1 & G1 & I1).
      destruct (IHtr _ _ _ _ _ _ i I1 Hi (put_same _ _ _ _) F (backed_mono _ _ _ _ _ _ K) (backed_v_mono _ _ _ _ _ Kv)) as (tl2 & cl2 & vl2 & G2 & I2).
      exists tl2, cl2, vl2. split; [eapply grows_trans; eassumption|]. rewrite put_same in I2. rewrite <- app_assoc in I2.
      eapply kinv_ext; [| |exact I2]; (intros j; destruct (Z.eq_dec j i) as [->|Hne]; [rewrite !put_same | rewrite !put_other by exact Hne]; reflexivity).
  Qed.
  Lemma kinv_down : forall ak s A tl cl vl i, kinv ak s A tl cl vl -> In i ids -> kinv ak (put s i (Down (sys_disk (s i)))) A tl cl vl.
  Proof.
    intros ak s A tl cl vl i [E L B V G] Hi.
    assert (X : forall j, slog (put s i (Down (sys_disk (s i))) j) = slog (s j) /\ term_of (put s i (Down (sys_disk (s i))) j) = term_of (s j)).
    { intros j. destruct (Z.eq_dec j i) as [->|Hne]; [rewrite put_same | rewrite put_other by exact Hne]; repeat split; reflexivity. }
    split.
    - apply einv_down; assumption.
    - apply linv_disk; [assumption | assumption | reflexivity].
    - destruct B as [B1 B2 B3]. split; [|exact B2 | exact B3]. intros j Hj. destruct (X j) as (-> & ->). apply B1, Hj.
    - destruct V as [V1 V2 V3 V4 V5 V6]. split; try assumption.
      + intros c u lc Hc Hlc. destruct (X c) as (-> & ->). apply V1; assumption.
      + intros j n Hj Hn. destruct (Z.eq_dec j i) as [->|Hne]; [rewrite put_same in Hn; discriminate | rewrite put_other in Hn by exact Hne; eapply V3; eassumption].
      + intros j u l Hj Hl. destruct (X j) as (_ & ->). apply V4; assumption.
    - destruct G as [G1 G2]. split; [|exact G2]. intros j t k Hj Hh. destruct (X j) as (-> & ->). apply G1; assumption.
  Qed.
  Lemma kinv_up : forall ak s A tl cl vl i pm d, kinv ak s A tl cl vl -> In i ids -> s i = Down d -> kinv ak (put s i (Up (start_node i pm d))) A tl cl vl.
  Proof.
    intros ak s A tl cl vl i pm d [E L B V G] Hi Hs.
    assert (Sd := e_static _ _ _ E i Hi). rewrite Hs in Sd. destruct Sd as (_ & _ & Sc & _). destruct (start_n servers HC i pm d Sc) as (_ & _ & _ & _ & R).
    assert (X : forall j, slog (put s i (Up (start_node i pm d)) j) = slog (s j) /\ term_of (put s i (Up (start_node i pm d)) j) = term_of (s j)).
    { intros j. destruct (Z.eq_dec j i) as [->|Hne]; [rewrite put_same, Hs | rewrite put_other by exact Hne; repeat split; reflexivity].
      unfold slog, term_of, sys_disk. rewrite start_disk. repeat split; reflexivity. }
    split.
    - apply (einv_up servers HC); assumption.
    - apply linv_disk; [assumption | assumption|]. rewrite Hs. apply start_disk.
    - destruct B as [B1 B2 B3]. split; [|exact B2 | exact B3]. intros j Hj. destruct (X j) as (-> & ->). apply B1, Hj.
    - destruct V as [V1 V2 V3 V4 V5 V6]. split; try assumption.
      + intros c u lc Hc Hlc. destruct (X c) as (-> & ->). apply V1; assumption.
      + intros j n Hj Hn Hr. destruct (Z.eq_dec j i) as [->|Hne]; [rewrite put_same in Hn; inversion Hn; subst; congruence | rewrite put_other in Hn by exact Hne; eapply V3; eassumption].
      + intros j u l Hj Hl. destruct (X j) as (_ & ->). apply V4; assumption.
    - destruct G as [G1 G2]. split; [|exact G2]. intros j t k Hj Hh. destruct (X j) as (-> & ->). apply G1; assumption.
  Qed.
  Lemma kinv_ack : forall (ak ak' : Z -> N -> N -> Prop) s A tl cl vl i, kinv ak s A tl cl vl -> In i ids ->
    (forall j t k, ak' j t k -> ak j t k \/ (j = i /\ term_of (s i) = t /\ a_get (tl t) k <> None /\ agree k (tl t) (slog (s i)))) ->
    kinv ak' s A tl cl vl.
  Proof.
    intros ak ak' s A tl cl vl i [E L B V G] Hi New.
    assert (Hd : forall j t k, held ak' A tl j t k -> held ak A tl j t k \/ (j = i /\ term_of (s i) = t /\ a_get (tl t) k <> None /\ agree k (tl t) (slog (s i)))).
    { intros j t k [Y|Y]; [|left; right; exact Y]. destruct (New j t k Y) as [Z|Z]; [left; left; exact Z | right; exact Z]. }
    split; try assumption. destruct G as [G1 G2]. split.
    - intros j t k Hj Y. destruct (Hd j t k Y) as [Z|(-> & Z1 & Z2 & Z3)]; [apply G1; assumption|]. split; [lia|]. auto.
    - intros j t k u l Hj Y Ht Hl Hu. destruct (Hd j t k Y) as [Z|(-> & Z1 & Z2 & Z3)]; [eapply G2; eassumption|].
      destruct (v_vl _ _ _ _ _ _ V i u l Hi Hl) as (Z & _). lia.
  Qed.

  (** *** worlds *)
  Definition keeps (w : world) (tl : N -> alog) (cl vl : Z -> N -> option alog) : Prop := kinv (acked w) (w_sys w) (w_acts w) tl cl vl.

  Lemma acked_next : forall w i x e l a j t k, acked (next_world w i x [mkObs e l a]) j t k ->
    acked w j t k \/ (j = i /\ exists now q r, e = ERequest now q /\ a = Some (Response r) /\ rq_type q = append_entries_request /\ rs_accepted r = true /\ rq_term q = t /\ 0 < k /\ k <= ends q).
  Proof.
    intros w i x e l a j t k (Hk & q & r & (now & l0 & Hin) & X1 & X2 & X3 & X4). unfold next_world in Hin. cbn [w_hist] in Hin.
    destruct (Z.eq_dec j i) as [->|Hne]; [|rewrite put_other in Hin by exact Hne; left; split; [exact Hk|]; exists q, r; split; [exists now, l0; exact Hin | auto]].
    rewrite put_same in Hin. apply in_app_or in Hin. destruct Hin as [Hin|[Hin|[]]]; [left; split; [exact Hk|]; exists q, r; split; [exists now, l0; exact Hin | auto]|].
    inversion Hin; subst e l0 a. right. split; [reflexivity|]. exists now, q, r. auto 9.
  Qed.
  Lemma keeps_event : forall w i n e l n1 x a tl0 tl cl vl, winv servers prm w -> In i ids -> w_sys w i = Up n -> backed servers (w_acts w) i e ->
    linv servers (w_sys w) (w_acts w) tl0 ->
    kinv (acked w) (put (w_sys w) i (Up n1)) (put (w_acts w) i (w_acts w i ++ l)) tl cl vl ->
    (x = Up n1 \/ x = Down (n_disk n1)) ->
    (forall now q r, e = ERequest now q -> a = Some (Response r) -> rq_type q = append_entries_request -> rs_accepted r = true -> receiving q (length (rq_entries q)) n1) ->
    keeps (next_world w i x [mkObs e l a]) tl cl vl.
  Proof.
    intros w i n e l n1 x a tl0 tl cl vl W Hi Hs K _ I Hx Ha.
    assert (XA := acts_next w i x e l a).
    assert (I1 : kinv (acked (next_world w i x [mkObs e l a])) (put (w_sys w) i (Up n1)) (put (w_acts w) i (w_acts w i ++ l)) tl cl vl).
    { apply (kinv_ack (acked w) _ _ _ _ _ _ i); [exact I | exact Hi |].
      intros j t k Hak. destruct (acked_next _ _ _ _ _ _ _ _ _ Hak) as [Y|(-> & now & q & r & -> & -> & X1 & X2 & <- & Hk & X4)]; [left; exact Y|].
      right. split; [reflexivity|]. destruct (Ha now q r eq_refl eq_refl X1 X2) as (R1 & R2 & R3).
      destruct I as [E L _ _ _]. assert (S := e_static _ _ _ E i Hi). rewrite put_same in S. assert (Ml := l_logs _ _ _ _ L i Hi). rewrite put_same in *.
      change (slog (Up n1)) with (n_log n1) in *. assert (Sn : al_start (n_log n1) = 1) by apply S.
      assert (Ter : term_of (Up n1) = n_term n1) by (unfold term_of; cbn [sys_disk]; destruct S as ((_ & Sy & _) & _); rewrite Sy; reflexivity).
      rewrite Ter. split; [congruence|]. destruct (K X1) as (ld & Hld & Sq & Dq).
      assert (P : part (tl (rq_term q)) q).
      { apply (l_ae _ _ _ _ L ld q Hld). destruct Sq as (Y & uid & ext & Hq). split; [exact Y|]. exists uid, ext.
        destruct (Z.eq_dec ld i) as [->|Hne]; [rewrite put_same; apply in_or_app; left; exact Hq | rewrite put_other by exact Hne; exact Hq]. }
      assert (Ag := full_agree tl (n_log n1) (rq_term q) q Ml (proj1 (l_tl _ _ _ _ L _)) Sn (proj2 (l_tl _ _ _ _ L _)) P R3).
      split.
      - rewrite <- (Ag k X4). apply (full_has q); assumption.
      - intros m Hm. symmetry. apply Ag. lia. }
    assert (I2 : kinv (acked (next_world w i x [mkObs e l a])) (put (w_sys w) i x) (put (w_acts w) i (w_acts w i ++ l)) tl cl vl).
    { destruct Hx as [-> | ->]; [exact I1|].
      eapply kinv_ext; [| intros; reflexivity | apply (kinv_down _ _ _ _ _ _ i I1 Hi)].
      intros j. rewrite (put_same _ (w_sys w)). destruct (Z.eq_dec j i) as [->|Hne]; [rewrite !put_same | rewrite !put_other by exact Hne]; reflexivity. }
    unfold keeps. eapply kinv_ext; [intros; reflexivity | exact XA | exact I2].
  Qed.
  Lemma keeps_step : forall w w' tl cl vl, winv servers prm w -> keeps w tl cl vl -> step servers prm w w' ->
    exists tl' cl' vl', grows tl tl' /\ keeps w' tl' cl' vl'.
  Proof.
    intros w w' tl cl vl W I H. destruct H.
    1,2,3: assert (Kv := possible_v servers prm w i e W H H1); destruct (possible_fe servers prm HC w i e W H H1) as [F K];
      assert (S := e_static _ _ _ (k_e _ _ _ _ _ _ I) i H); rewrite H0 in S; assert (Sn : al_start (n_log n) = 1) by apply S;
      assert (HT := proj1 (run_event_tr e n ltac:(lia) _ _ _ H2)).
    - destruct (kinv_tr e n l n' HT _ _ _ _ _ _ i I H H0 F K Kv) as (tl1 & cl1 & vl1 & G1 & I1). exists tl1, cl1, vl1. split; [exact G1|].
      eapply keeps_event; try eassumption; [apply (k_l _ _ _ _ _ _ I) | left; reflexivity|]. intros now q rs -> Ea T Acc. destruct r as [a| | |]; try discriminate. cbn in Ea. inversion Ea; subst a.
      eapply event_append_post; try eassumption. lia.
    - destruct (kinv_tr e n l n' HT _ _ _ _ _ _ i I H H0 F K Kv) as (tl1 & cl1 & vl1 & G1 & I1). exists tl1, cl1, vl1. split; [exact G1|].
      eapply keeps_event; try eassumption; [apply (k_l _ _ _ _ _ _ I) | right; reflexivity | intros; discriminate].
    - destruct (tr_prefix _ _ _ _ HT p q eq_refl) as (n1 & HT1). rewrite <- (tr_disk _ _ _ _ HT1).
      destruct (kinv_tr e n p n1 HT1 _ _ _ _ _ _ i I H H0 F K Kv) as (tl1 & cl1 & vl1 & G1 & I1). exists tl1, cl1, vl1. split; [exact G1|].
      eapply keeps_event; try eassumption; [apply (k_l _ _ _ _ _ _ I) | right; reflexivity | intros; discriminate].
    - exists tl, cl, vl. split; [apply grows_refl|].
      assert (XW : forall j, w_hist (next_world w i (Up (start_node i (prm i) d)) []) j = w_hist w j).
      { intros j. unfold next_world. cbn [w_hist]. destruct (Z.eq_dec j i) as [->|Hne]; [rewrite put_same, app_nil_r | rewrite put_other by exact Hne]; reflexivity. }
      assert (I1 := kinv_up _ _ _ _ _ _ i (prm i) d I H H0).
      eapply kinv_ext; [intros; reflexivity | apply start_acts|]. cbn [next_world w_sys].
      apply (kinv_ack (acked w) _ _ _ _ _ _ i); [exact I1 | exact H |].
      intros j t k (Hk & q & r & (now & l0 & Hin) & X). left. split; [exact Hk|]. exists q, r. split; [exists now, l0; rewrite XW in Hin; exact Hin | exact X].
  Qed.
  Lemma keeps_initial : forall w, initial servers w -> exists tl cl vl, keeps w tl cl vl.
  Proof.
    intros w I. assert (W := winv_initial servers prm w I). destruct W as [E [tl L] _ _ _].
    assert (XA : forall j, w_acts w j = []) by (intros j; unfold w_acts; rewrite (proj1 (I j)); reflexivity).
    assert (XD : forall j, In j ids -> exists d, w_sys w j = Down d /\ fresh_disk servers d) by (intros j; apply I).
    assert (XN : forall j q r, ~ answered w j q r) by (intros j q r (now & l & Hin); rewrite (proj1 (I j)) in Hin; destruct Hin).
    assert (XT : forall t, tl t = a_empty) by (intros t; apply (l_none _ _ _ _ L); intros j Hj X; rewrite XA in X; destruct X).
    assert (NA : forall j t k, ~ held (acked w) (w_acts w) tl j t k).
    { intros j t k [(_ & q & r & X & _)|[X _]]; [apply (XN _ _ _ X) | rewrite XA in X; destruct X]. }
    exists tl, (fun _ _ => None), (fun _ _ => None). split; [exact E | exact L | split | split | split].
    - intros j Hj k x Hk. destruct (XD j Hj) as (d & Ed & D1 & D2 & D3 & _). rewrite Ed in Hk. unfold slog in Hk. cbn [sys_disk] in Hk. rewrite D3, get_empty in Hk. discriminate.
    - intros t k x Hk. rewrite XT, get_empty in Hk. discriminate.
    - intros t k1 k2 e1 e2 Hk X. rewrite XT, get_empty in X. discriminate.
    - intros; discriminate.
    - intros k uid ext q Hk Hq. rewrite XA in Hq. destruct Hq.
    - intros j n Hj Hn. destruct (XD j Hj) as (d & Ed & _). congruence.
    - intros; discriminate.
    - intros j u c Hj Hv. rewrite XA in Hv. destruct Hv.
    - intros j u Hj Hu. rewrite XA in Hu. destruct Hu.
    - intros j t k Hj X. destruct (NA _ _ _ X).
    - intros; discriminate.
  Qed.
  Lemma keeps_reach : forall w w', winv servers prm w -> reach servers prm w w' -> forall tl cl vl, keeps w tl cl vl -> exists tl' cl' vl', grows tl tl' /\ keeps w' tl' cl' vl'.
  Proof.
    intros w w' W H. assert (G : winv servers prm w' /\ forall tl cl vl, keeps w tl cl vl -> exists tl' cl' vl', grows tl tl' /\ keeps w' tl' cl' vl').
    { induction H as [|w1 w2 H1 [W1 IH] H2]; [split; [exact W|]; intros tl cl vl K; exists tl, cl, vl; split; [apply grows_refl | exact K]|].
      split; [eapply winv_step; eassumption|]. intros tl cl vl K. destruct (IH tl cl vl K) as (tl1 & cl1 & vl1 & G1 & K1).
      destruct (keeps_step w1 w2 tl1 cl1 vl1 W1 K1 H2) as (tl2 & cl2 & vl2 & G2 & K2). exists tl2, cl2, vl2. split; [eapply grows_trans; eassumption | exact K2]. }
    apply G.
  Qed.
End Keep.
