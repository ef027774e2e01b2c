(** * ClusterRunS: the invariants of ClusterElectS.v and ClusterWalkS.v hold in every reachable world *)

From Verif Require Import Base Buffer Codec CodecSpec Msg FsLogStore FsLogSpec Alog P_Vote
  Raft RaftQuiet RaftWalk RaftTrace RaftTrace2 RaftTrace3 NodeSpec NodeLife NodeFacts Cluster ClusterElect ClusterLog ClusterRun ClusterElectS ClusterWalkS.
Local Open Scope N_scope.

Section RunS.
  Variable servers : list srv_config.
  Variable prm : Z -> params.
  Hypothesis HC : cluster_okay servers.
  Let ids := ids servers.
  Notation einv_s := (einv_s servers).

  Lemma einv_s_ext : forall s A s' A', (forall j, s' j = s j) -> (forall j, A' j = A j) -> einv_s s A -> einv_s s' A'.
  Proof.
    intros s A s' A' HS HA [E1 E2 E3 E4 E5 E6 E7]. split.
    - intros i Hi. rewrite HS. apply E1, Hi.
    - intros i Hi. rewrite HS, HA. apply E2, Hi.
    - intros i Hi. rewrite HS. specialize (E3 i Hi). destruct (s i); [|exact I]. destruct E3 as (B & H1 & H2 & H3 & H4 & H5).
      exists B. repeat (split; [assumption|]). intros j Hj. unfold voted. rewrite HA. apply H5, Hj.
    - intros i t Hi Ht. rewrite HS. rewrite HA in Ht. destruct (E4 i t Hi Ht) as [X Y]. split; [|exact Y]. eapply elected_ext; eassumption.
    - intros i n Hi Hn R. rewrite HS in Hn. rewrite HA. apply (E5 i n); assumption.
    - intros k q Hk Hq. destruct (E6 k q Hk (sent_ext _ _ _ _ HA Hq)) as (X1 & X2 & X3 & X4). repeat (split; [assumption|]). rewrite HA. auto.
    - intros k uid q Hk Hq. rewrite HA in Hq. apply (E7 k uid q Hk Hq).
  Qed.
  Lemma inv_s_tr : forall e n l n', tr e n l n' -> forall s A i, einv_s s A -> In i ids -> s i = Up n -> fs servers e -> backed servers A i e ->
    einv_s (put s i (Up n')) (put A i (A i ++ l)).
  Proof.
    intros e n l n' H. induction H; intros s A i E Hi Hs F K.
    - assert (XS : forall j, put s i (Up n) j = s j) by (intros j; destruct (Z.eq_dec j i) as [->|Hne]; [rewrite put_same, Hs | rewrite put_other by exact Hne]; reflexivity).
      assert (XA : forall j, put A i (A i ++ []) j = A j) by (intros j; destruct (Z.eq_dec j i) as [->|Hne]; [rewrite put_same; apply app_nil_r | rewrite put_other by exact Hne; reflexivity]).
      apply (einv_s_ext s A); assumption.
    - assert (E1 := einv_step_s servers HC s A i n e l n1 E Hi Hs F K H).
      assert (E2 := IHtr _ _ i E1 Hi (put_same _ _ _ _) F (backed_mono _ _ _ _ _ _ K)). rewrite put_same in *. rewrite <- app_assoc in *.
      eapply einv_s_ext; [| |exact E2]; (intros j; destruct (Z.eq_dec j i) as [->|Hne]; [rewrite !put_same | rewrite !put_other by exact Hne]; reflexivity).
  Qed.

  Definition gsys (x : sys) : Prop := match x with Up n => gnode servers n | Down d => gdisk servers d end.
  Record winv_s (w : world) : Prop := mkWinvS {
    u_e : einv_s (w_sys w) (w_acts w);
    u_g : forall i, In i ids -> gsys (w_sys w i);
    u_o : forall i, In i ids -> Forall (ga servers) (w_acts w i);
    u_a : forall j q r, In j ids -> answered w j q r -> answer_good w j q r
  }.

  Lemma ge_fs : forall e, ge servers e -> fs servers e.
  Proof.
    intros e H. destruct e as [| |now q|now uid ext q r| | |s d ok| | | |]; try exact H; try exact I. cbn in *.
    destruct H as [[H _]|[H|[H|[H|[H F]]]]]; auto. right. right. right. right. split; [exact H|]. intros c Hc. apply (F c Hc).
  Qed.
  Lemma possible_ge : forall w i e, winv_s w -> In i ids -> possible servers w i e -> ge servers e /\ backed servers (w_acts w) i e.
  Proof.
    intros w i e [E _ O A] Hi P.
    assert (Ty : forall k uid ext q, In k ids -> sent w k uid ext q ->
              (ext = true /\ rq_type q = prevote_request) \/
              (ext = false /\ rq_src q = k /\ ((rq_type q = append_entries_request /\ Forall (gent servers) (rq_entries q)) \/ rq_type q = vote_request \/
                 (rq_type q = install_snapshot_request /\ gsnp_req servers q)))).
    { intros k uid ext q Hk Hq. assert (G := O k Hk). rewrite Forall_forall in G. specialize (G _ Hq). cbn in G. destruct ext; [left; auto | right].
      split; [reflexivity|]. destruct (s_sent _ _ _ E k uid q Hk Hq) as [T S]. split; [exact S|]. destruct T as [T|[T|T]]; [left | right; left; exact T | right; right]; (split; [exact T | apply G, T]). }
    destruct e as [| |now q|now uid ext q r|uid q| |sn d ok| | | |]; cbn [possible] in P; try (split; exact I); try destruct P.
    - destruct H as (k & uid & ext & Hk & Hq & Hd). destruct (Ty k uid ext q Hk Hq) as [[-> T]|(-> & S & T)].
      + split; [cbn; auto|]. intros T2. rewrite T2 in T. discriminate.
      + split; [cbn; tauto|]. intros T2. exists k. split; [exact Hk|]. split; [|exact Hd]. split; [exact T2 | eauto].
    - split; [cbn; auto|]. intros T2. destruct H as [T _]. rewrite T2 in T. discriminate.
    - destruct r as [r|].
      + destruct P as (Hq & Hd & Ha). destruct (A _ _ _ Hd Ha) as (A1 & A2 & A3). destruct (Ty i uid ext q Hi Hq) as [[-> T]|(-> & S & T)].
        * split; [|exact I]. cbn. rewrite A2, T. reflexivity.
        * split; [exact I|]. cbn. intros T2 Hacc. unfold voted. rewrite A1. rewrite <- S. apply A3; [|exact Hacc|].
          -- destruct T as [[T _]|[T|[T _]]]; [rewrite A2, T in T2; discriminate | exact T | rewrite A2, T in T2; discriminate].
          -- rewrite S. apply (ids_pos servers HC i Hi).
      + destruct (Ty i uid ext q Hi P) as [[-> T]|(-> & T & S)]; split; try exact I. exact T.
    - specialize (O i Hi). rewrite Forall_forall in O. destruct (O _ P).
    - specialize (O i Hi). rewrite Forall_forall in O. split; [apply (O _ P) | exact I].
  Qed.

  (** what all three ways an event can end have in common *)
  Lemma winv_s_event : forall w i n e l n' x a, winv_s w -> In i ids -> w_sys w i = Up n -> fs servers e -> backed servers (w_acts w) i e ->
    tr e n l n' -> Forall (ga servers) l -> gsys x -> (x = Up n' \/ x = Down (n_disk n')) ->
    (forall now q r, e = ERequest now q -> a = Some (Response r) ->
       rs_src r = i /\ rs_type r = response_type (rq_type q) /\
       (rq_type q = vote_request -> rs_accepted r = true -> saved (n_disk n') = (rs_term r, rq_src q))) ->
    winv_s (next_world w i x [mkObs e l a]).
  Proof.
    intros w i n e l n' x a [E G O A] Hi Hs F K HT Ho Hg Hx Ha.
    assert (E' := inv_s_tr e n l n' HT _ _ i E Hi Hs F K).
    assert (XA := acts_next w i x e l a).
    assert (E2 : einv_s (put (w_sys w) i x) (put (w_acts w) i (w_acts w i ++ l))).
    { destruct Hx as [-> | ->]; [assumption|].
      assert (XS : forall j, put (w_sys w) i (Down (n_disk n')) j = put (put (w_sys w) i (Up n')) i (Down (sys_disk (put (w_sys w) i (Up n') i))) j).
      { intros j. rewrite (put_same _ (w_sys w)). destruct (Z.eq_dec j i) as [->|Hne]; [rewrite !put_same | rewrite !put_other by exact Hne]; reflexivity. }
      eapply einv_s_ext; [exact XS | intros; reflexivity|]. apply (einv_down_s servers); assumption. }
    split.
    - eapply einv_s_ext; [intros; reflexivity | exact XA | exact E2].
    - intros j Hj. unfold next_world. cbn [w_sys]. destruct (Z.eq_dec j i) as [->|Hne]; [rewrite put_same; exact Hg | rewrite put_other by exact Hne; apply G, Hj].
    - intros j Hj. rewrite XA. destruct (Z.eq_dec j i) as [->|Hne]; [rewrite put_same; apply Forall_app; split; [apply O, Hj | exact Ho] | rewrite put_other by exact Hne; apply O, Hj].
    - intros j q r Hj (now & l0 & Hin). unfold next_world in Hin. cbn [w_hist] in Hin.
      assert (Old : answered w j q r -> answer_good (next_world w i x [mkObs e l a]) j q r).
      { intros Ho2. destruct (A j q r Hj Ho2) as (A1 & A2 & A3). split; [exact A1|]. split; [exact A2|]. intros T Hacc Hm. rewrite XA.
        apply (voted_mono _ i l (rs_term r) (rq_src q) j). apply A3; assumption. }
      destruct (Z.eq_dec j i) as [->|Hne]; [rewrite put_same in Hin | rewrite put_other in Hin by exact Hne; apply Old; exists now, l0; exact Hin].
      apply in_app_or in Hin. destruct Hin as [Hin|[Hin|[]]]; [apply Old; exists now, l0; exact Hin|]. inversion Hin; subst e l0 a.
      destruct (Ha now q r eq_refl eq_refl) as (A1 & A2 & A3). split; [exact A1|]. split; [exact A2|]. intros T Hacc Hm. rewrite XA, put_same.
      assert (V := s_tv _ _ _ E' i Hi). rewrite !put_same in V. cbn [sys_disk] in V. rewrite (A3 T Hacc) in V.
      apply tv_chain_last in V. destruct V as [V|V]; [inversion V; congruence | exact V].
  Qed.

  Lemma start_g : forall i pm d, gdisk servers d -> gnode servers (start_node i pm d).
  Proof.
    intros i pm d D. assert (P : forall l u, Forall (gpeer servers) (start_peers i pm u l)).
    { induction l as [|s l IH]; intros u; cbn [start_peers]; [constructor|]. destruct (sc_id s =? i)%Z; [apply IH|]. constructor; [exact I|].
      apply Forall_forall. intros p Hp. apply filter_In in Hp. specialize (IH (u + 1)). rewrite Forall_forall in IH. apply IH, Hp. }
    assert (D0 := D). destruct D as (D1 & D2 & D3 & D4). unfold start_node. destruct (match dk_state d with Some x => x | None => (0, (-1)%Z) end) as [t v]. split; cbn [n_config n_disk n_snp n_peers n_steps]; auto.
  Qed.
  Lemma winv_s_step : forall w w', winv_s w -> step servers prm w w' -> winv_s w'.
  Proof.
    intros w w' W H. destruct H.
    1-3: destruct (possible_ge w i e W H H1) as [GE K]; assert (F := ge_fs e GE); assert (S := s_static _ _ _ (u_e w W) i H); rewrite H0 in S;
         destruct S as ((Sid & Ssy & _) & Sl & _); cbn [sys_disk] in Sl; assert (St : 1 <= al_start (n_log n)) by exact Sl;
         assert (HT := proj1 (run_event_tr e n St _ _ _ H2)); assert (G0 := u_g w W i H); rewrite H0 in G0; destruct (proj1 (event_g servers HC e n GE _ _ _ H2) G0) as [G1 O1].
    - eapply (winv_s_event w i n e l n'); try eassumption; [auto|].
      intros now q r0 -> Ea. destruct r as [a| | |]; try discriminate. cbn in Ea. inversion Ea; subst a.
      destruct (C53_response _ _ _ _ _ _ H2) as (R1 & R2 & _ & R3 & _). split; [congruence|]. split; [exact R2|]. intros T Hacc.
      destruct (event_vote_post _ _ _ _ _ _ St T H2 Hacc) as [V1 V2]. rewrite (tr_synced _ _ _ _ HT Ssy). unfold tv. rewrite V1. rewrite R3 by auto. reflexivity.
    - eapply (winv_s_event w i n e l n'); try eassumption; [apply (g_disk _ _ G1) | auto | intros; discriminate].
    - destruct (tr_prefix _ _ _ _ HT p q eq_refl) as (n1 & HT1). apply Forall_app in O1. destruct O1 as [O1 _].
      assert (GD : gdisk servers (fold_left disk_apply p (n_disk n))) by (apply gdisk_acts; [exact (g_disk _ _ G0) | exact O1]).
      rewrite <- (tr_disk _ _ _ _ HT1) in *.
      eapply (winv_s_event w i n e p n1); try eassumption; [auto | intros; discriminate].
    - destruct W as [E G O A].
      assert (XA : forall j, w_acts (next_world w i (Up (start_node i (prm i) d)) []) j = w_acts w j).
      { intros j. unfold w_acts, next_world. cbn [w_hist]. destruct (Z.eq_dec j i) as [->|Hne]; [rewrite put_same, app_nil_r | rewrite put_other by exact Hne]; reflexivity. }
      split.
      + eapply einv_s_ext; [intros; reflexivity | exact XA|]. cbn [next_world w_sys]. eapply (einv_up_s servers HC); eassumption.
      + intros j Hj. unfold next_world. cbn [w_sys]. destruct (Z.eq_dec j i) as [->|Hne]; [rewrite put_same | rewrite put_other by exact Hne; apply G, Hj].
        specialize (G i Hj). rewrite H0 in G. apply start_g, G.
      + intros j Hj. rewrite XA. apply O, Hj.
      + intros j q r Hj (now & l0 & Hin). destruct (A j q r Hj) as (A1 & A2 & A3).
        { exists now, l0. unfold next_world in Hin. cbn [w_hist] in Hin. destruct (Z.eq_dec j i) as [->|Hne]; [rewrite put_same, app_nil_r in Hin | rewrite put_other in Hin by exact Hne]; exact Hin. }
        split; [exact A1|]. split; [exact A2|]. rewrite XA. exact A3.
  Qed.

  Lemma winv_s_initial : forall w, initial servers w -> winv_s w.
  Proof.
    intros w I. assert (XA : forall j, w_acts w j = []) by (intros j; unfold w_acts; rewrite (proj1 (I j)); reflexivity).
    assert (XD : forall j, In j ids -> exists d, w_sys w j = Down d /\ fresh_disk servers d) by (intros j; apply I).
    split.
    - split.
      + intros j Hj. destruct (XD j Hj) as (d & -> & D1 & D2 & D3 & D4 & D5). split; [exact Logic.I|]. cbn [sys_disk]. rewrite D3. split; [cbn; lia|].
        split; [exact D2|]. intros k e Hk. rewrite get_empty in Hk. discriminate.
      + intros j Hj. destruct (XD j Hj) as (d & -> & D1 & _). rewrite XA. cbn [sys_disk saves]. unfold saved. rewrite D1. constructor.
      + intros j Hj. destruct (XD j Hj) as (d & -> & _). exact Logic.I.
      + intros j t Hj Ht. rewrite XA in Ht. destruct Ht.
      + intros j n Hj Hn. destruct (XD j Hj) as (d & Ed & _). congruence.
      + intros k q Hk (_ & u & x & Hq). rewrite XA in Hq. destruct Hq.
      + intros k u q Hk Hq. rewrite XA in Hq. destruct Hq.
    - intros j Hj. destruct (XD j Hj) as (d & -> & D1 & D2 & D3 & D4 & D5 & D6). split; [split; assumption|]. rewrite D3, D5. split; [constructor|]. split; [cbn; lia | exact Logic.I].
    - intros j Hj. rewrite XA. constructor.
    - intros j q r Hj (now & l & Hin). rewrite (proj1 (I j)) in Hin. destruct Hin.
  Qed.
  Theorem reach_winv_s : forall w0 w, initial servers w0 -> reach servers prm w0 w -> winv_s w.
  Proof. intros w0 w I H. induction H; [apply winv_s_initial, I | eapply winv_s_step; eassumption]. Qed.
End RunS.
