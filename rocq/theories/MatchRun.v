(** * MatchRun: in a cluster, the matched index of a peer is one that the peer has acknowledged *)

From Verif Require Import Base Buffer Codec CodecSpec Msg FsLogStore FsLogSpec Alog P_Vote
  Raft RaftQuiet RaftWalk RaftTrace RaftTrace2 RaftTrace3 WalkAll NodeSpec NodeLife NodeFacts ServerSpec P_Config P_Commit
  Cluster ClusterElect ClusterLog ClusterWalk ClusterRun ClusterSafe CommitSpec SafeRun MatchWalk.
Local Open Scope N_scope.

(** an answer that does not accept leaves the commit index alone *)
Lemma resp_refused : forall now uid q r n x n' l, rs_type r = append_entries_response -> rs_accepted r = false ->
  run_event (ERpc now uid false q (Some r)) n = (x, n', l) -> n_quick n' = n_quick n.
Proof.
  intros now uid q r n x n' l T Ac H.
  assert (Wu : forall t n, ht (keeps n_quick) yes (update_term t) n).
  { intros. unfold update_term, save_state, become_follower, restart_election_timer. walk ltac:(reflexivity). }
  assert (Wa : forall n, ht (keeps n_quick) yes (handle_append_entries_resp r) n).
  { intros. unfold handle_append_entries_resp. rewrite Ac. unfold request_append_entries_to. open_send. walk ltac:(first [reflexivity | apply upd_quick]). }
  assert (Wp : forall n, ht (keeps n_quick) yes (handle_peer_resp now r) n).
  { intros m. unfold handle_peer_resp. hstep. destruct (find_peer (rs_src r) (n_peers m)); [|hstep; exact I].
    hstep; [reflexivity|]. apply ht_seq; [exact _ | apply Wu|]. intros b m1 l1 _ _. destruct b; [hstep; exact I|]. rewrite T. apply Wa. }
  assert (G : ht (keeps n_quick) yes (rpc_done now uid false q (Some r)) n).
  { unfold rpc_done. hstep. destruct (live_ref uid n); [|hstep]. apply ht_seq; [exact _ | walk ltac:(apply upd_quick) |]. intros. hstep; [apply upd_quick | apply Wp]. }
  cbn [run_event] in H. unfold bind in H. destruct (rpc_done now uid false q (Some r) n) as [[y m] k] eqn:Ed. destruct (G _ _ _ Ed) as [G1 _].
  destruct y; cbn in H; inversion H; subst; exact G1.
Qed.
Lemma resp_dead : forall now uid q r n x n' l, live_ref uid n = None -> run_event (ERpc now uid false q (Some r)) n = (x, n', l) -> n_quick n' = n_quick n.
Proof. intros now uid q r n x n' l L H. cbn [run_event] in H. unfold rpc_done in H. unfold bind, get in H. rewrite L in H. cbn in H. inversion H; subst; reflexivity. Qed.
Lemma pred64_succ : forall a, pred64 (a + 1) = a.
Proof. intros a. unfold pred64. replace (a + 1 =? 0) with false by lia. lia. Qed.
Lemma start_match : forall i pm d p, In p (n_peers (start_node i pm d)) -> p_match p = 0.
Proof.
  intros i pm d p. unfold start_node. destruct (match dk_state d with Some x => x | None => _ end). cbn [n_peers].
  generalize (cc_servers (dk_config d)) as l. intros l. generalize 0 at 1 as u. induction l as [|s l IH]; intros u Hp; [destruct Hp|].
  cbn [start_peers] in Hp. destruct (sc_id s =? i)%Z; [eapply IH; exact Hp|]. destruct Hp as [<-|Hp]; [reflexivity|]. apply filter_In in Hp. eapply IH. apply Hp.
Qed.

Section Match.
  Variable servers : list srv_config.
  Variable prm : Z -> params.
  Hypothesis HC : cluster_okay servers.
  Hypothesis HS : no_snapshots prm.
  Hypothesis H2 : (2 <= length (ids servers))%nat.
  Notation ids := (Cluster.ids servers).

  Lemma static_peers : forall i n, In i ids -> static servers i (Up n) -> n_peers n <> [].
  Proof.
    intros i n Hi S E. destruct S as ((_ & _ & P & _) & _). assert (X := pids_len servers HC i Hi). rewrite E in P. cbn [map] in P. rewrite <- P in X. cbn in X. fold ids in H2. unfold Cluster.ids in *. lia.
  Qed.
  (** a response to something else than an append-entries request does not move the commit index *)
  Lemma tr_quick_same : forall e n l n', tr e n l n' -> forall i, In i ids -> static servers i (Up n) -> fe e ->
    (forall q, ~ req_of e q) -> (forall now uid q r, e = ERpc now uid false q (Some r) -> rs_type r <> append_entries_response) -> n_quick n' = n_quick n.
  Proof.
    intros e n l n' H. induction H; intros i Hi S F NR NA; [reflexivity|].
    assert (S1 : static servers i (Up n1)).
    { eapply (astep_static servers HC); try eassumption. intros q Q. destruct (NR q Q). }
    rewrite (IHtr i Hi S1 F NR NA). destruct (astep_idx _ _ _ _ F H) as ([X|[_ X]] & _); [exact X|]. destruct X as [X|[X|[(q & Q & _)|[(q & Q & _)|[(now & uid & q & r & E & T)|X]]]]].
    - exact X.
    - destruct (static_peers i n Hi S X).
    - destruct (NR q Q).
    - destruct (NR q Q).
    - destruct (NA _ _ _ _ E T).
    - rewrite (fe_conf e F) in X. discriminate.
  Qed.

  Record minv (w : world) : Prop := mkMinv {
    m_ans : forall j q r, In j ids -> answered w j q r -> rq_type q = append_entries_request -> rs_accepted r = true ->
      rs_next_idx r = rq_last_idx q + lenN (rq_entries q) + 1;
    m_match : forall i n p, In i ids -> w_sys w i = Up n -> In p (n_peers n) -> 0 < p_match p ->
      exists t, led servers w i t /\ acked w (p_id p) t (p_match p)
  }.

  (** worlds only grow *)
  Definition grows (w w' : world) : Prop := forall i, exists o, w_hist w' i = w_hist w i ++ o.
  Lemma grows_next : forall w i x o, grows w (next_world w i x o).
  Proof. intros w i x o j. unfold next_world. cbn [w_hist]. destruct (Z.eq_dec j i) as [->|Hne]; [rewrite put_same; eauto | rewrite put_other by exact Hne; exists []; rewrite app_nil_r; reflexivity]. Qed.
  Lemma grows_led : forall w w' i t, grows w w' -> led servers w i t -> led servers w' i t.
  Proof. intros w w' i t G [Hi H]. split; [exact Hi|]. destruct (G i) as [o E]. unfold w_acts in *. rewrite E. unfold acts_of in *. rewrite map_app, concat_app. apply in_or_app. left. exact H. Qed.
  Lemma grows_answered : forall w w' j q r, grows w w' -> answered w j q r -> answered w' j q r.
  Proof. intros w w' j q r G (now & l & H). exists now, l. destruct (G j) as [o ->]. apply in_or_app. left. exact H. Qed.
  Lemma grows_acked : forall w w' j t k, grows w w' -> acked w j t k -> acked w' j t k.
  Proof. intros w w' j t k G (Hk & q & r & A & X). split; [exact Hk|]. exists q, r. split; [eapply grows_answered; eassumption | exact X]. Qed.

  (** what an accepted answer that reaches a server says *)
  Lemma told_acked : forall w i now uid q r m, winv servers prm w -> minv w -> In i ids -> possible servers w i (ERpc now uid false q (Some r)) ->
    rs_type r = append_entries_response -> rs_accepted r = true -> m = pred64 (rs_next_idx r) -> 0 < m ->
    exists t, led servers w i t /\ acked w (rs_src r) t m.
  Proof.
    intros w i now uid q r m W M Hi P T Ac -> H0. destruct P as (Sq & Dq & An). destruct (w_a _ _ _ W _ _ _ Dq An) as (A1 & A2 & _).
    destruct (e_sent _ _ _ (w_e _ _ _ W) i uid q Hi Sq) as [Tq _].
    assert (Tq' : rq_type q = append_entries_request) by (destruct Tq as [Tq|Tq]; [exact Tq | rewrite A2, Tq in T; discriminate]). clear Tq.
    rewrite (m_ans w M _ _ _ Dq An Tq' Ac), pred64_succ in *.
    destruct (e_ae _ _ _ (w_e _ _ _ W) i q Hi) as (_ & _ & L & _); [split; [exact Tq' | eauto]|].
    exists (rq_term q). split; [split; [exact Hi | apply leads_in, L]|]. split; [exact H0|]. exists q, r. rewrite A1. repeat split; try assumption. apply N.le_refl.
  Qed.

  Lemma match_event : forall w i n e r n' l, winv servers prm w -> minv w -> In i ids -> w_sys w i = Up n -> possible servers w i e ->
    run_event e n = (r, n', l) -> forall p, In p (n_peers n') -> 0 < p_match p -> exists t, led servers w i t /\ acked w (p_id p) t (p_match p).
  Proof.
    intros w i n e x n' l W M Hi Hn P H p Hp H0.
    assert (Old : forall p0, In p0 (n_peers n) -> p_id p0 = p_id p -> p_match p0 = p_match p -> exists t, led servers w i t /\ acked w (p_id p) t (p_match p)).
    { intros p0 Hp0 E1 E2. rewrite <- E1, <- E2. eapply (m_match w M i n p0); try eassumption. lia. }
    set (rr := match e with ERpc _ _ _ _ (Some r) => r | _ => mkResp 0 vote_response 0 0 0 false end).
    assert (G : r_match (told rr) n l n').
    { refine (proj1 (match_walk rr e n _ _ _ _ H)). clear H. destruct e as [| | |now uid [|] q [r|]| | | | | | |]; try exact I. split; [reflexivity|]. cbn in rr. subst rr.
      destruct P as (Sq & Dq & An). destruct (w_a _ _ _ W _ _ _ Dq An) as (_ & A2 & _). destruct (e_sent _ _ _ (w_e _ _ _ W) i uid q Hi Sq) as [[Tq|Tq] _]; rewrite A2, Tq; discriminate. }
    destruct (G p Hp) as [X|[(T & Ac & E & Em)|(p0 & Hp0 & E1 & E2)]]; [lia | | eapply Old; eassumption].
    destruct e as [| | |now uid ext q [r|]| | | | | | |]; try (cbn in rr; subst rr; discriminate).
    cbn in rr. subst rr. rewrite E. destruct ext.
    - exfalso. destruct (possible_fe servers prm HC w i _ W Hi P) as [F _]. cbn in F. rewrite F in T. discriminate.
    - eapply told_acked; eassumption.
  Qed.

  Lemma minv_step : forall w w', winv servers prm w -> minv w -> step servers prm w w' -> minv w'.
  Proof.
    intros w w' W M H.
    assert (Ev : forall i n e r n' l x a, In i ids -> w_sys w i = Up n -> possible servers w i e -> run_event e n = (r, n', l) ->
               (forall m, x = Up m -> m = n') -> forall l0, (a = None \/ (a = answer_of r /\ l0 = l)) -> minv (next_world w i x [mkObs e l0 a])).
    { intros i n e r n' l x a Hi Hn P Hr Hx l0 Ha. split.
      - intros j q rs Hj (now & l1 & Hin) T Ac. unfold next_world in Hin. cbn [w_hist] in Hin.
        destruct (Z.eq_dec j i) as [->|Hne]; [rewrite put_same in Hin | rewrite put_other in Hin by exact Hne; eapply (m_ans w M); try eassumption; exists now, l1; exact Hin].
        apply in_app_or in Hin. destruct Hin as [Hin|[Hin|[]]]; [eapply (m_ans w M); try eassumption; exists now, l1; exact Hin|].
        inversion Hin; subst. destruct Ha as [Ha|[Ha _]]; [discriminate|]. destruct r as [an| | |]; try discriminate. cbn in Ha. inversion Ha; subst an. eapply accepted_next; eassumption.
      - intros j m p Hj Hm Hp H0. assert (G := grows_next w i x [mkObs e l0 a]).
        assert (X : exists t, led servers w j t /\ acked w (p_id p) t (p_match p)).
        { unfold next_world in Hm. cbn [w_sys] in Hm. destruct (Z.eq_dec j i) as [->|Hne]; [rewrite put_same in Hm | rewrite put_other in Hm by exact Hne; eapply (m_match w M); eassumption].
          rewrite (Hx m Hm) in Hp. eapply match_event; eassumption. }
        destruct X as (t & X1 & X2). exists t. split; [eapply grows_led; eassumption | eapply grows_acked; eassumption]. }
    destruct H.
    - eapply Ev; try eassumption; [intros m E; inversion E; reflexivity | right; auto].
    - eapply Ev; try eassumption; [intros; discriminate | left; reflexivity].
    - eapply Ev; try eassumption; [intros; discriminate | left; reflexivity].
    - assert (G := grows_next w i (Up (start_node i (prm i) d)) []). split.
      + intros j q r Hj (now & l & Hin). apply (m_ans w M j q r Hj). exists now, l. unfold next_world in Hin. cbn [w_hist] in Hin.
        destruct (Z.eq_dec j i) as [->|Hne]; [rewrite put_same, app_nil_r in Hin | rewrite put_other in Hin by exact Hne]; exact Hin.
      + intros j m p Hj Hm Hp H1. unfold next_world in Hm. cbn [w_sys] in Hm. destruct (Z.eq_dec j i) as [->|Hne].
        * rewrite put_same in Hm. inversion Hm; subst m. rewrite (start_match _ _ _ _ Hp) in H1. lia.
        * rewrite put_other in Hm by exact Hne. destruct (m_match w M j m p Hj Hm Hp H1) as (t & X1 & X2). exists t. split; [eapply grows_led; eassumption | eapply grows_acked; eassumption].
  Qed.
  Lemma minv_initial : forall w, initial servers w -> minv w.
  Proof.
    intros w I. split.
    - intros j q r Hj (now & l & Hin). rewrite (proj1 (I j)) in Hin. destruct Hin.
    - intros i n p Hi Hn. destruct (proj2 (I i) Hi) as (d & Ed & _). congruence.
  Qed.
  Theorem reach_minv : forall w0 w, initial servers w0 -> reach servers prm w0 w -> minv w.
  Proof.
    intros w0 w I H. induction H as [|w w' H IH Hs]; [apply minv_initial, I|]. eapply minv_step; try eassumption. eapply reach_winv; eassumption.
  Qed.

  (** the servers counted when a response moves the commit index *)
  Theorem response_counts : forall w0 w, initial servers w0 -> reach servers prm w0 w ->
    forall i n now uid ext q r x n' l, In i ids -> w_sys w i = Up n -> possible servers w i (ERpc now uid ext q (Some r)) ->
    run_event (ERpc now uid ext q (Some r)) n = (x, n', l) -> n_quick n < n_quick n' ->
    exists B, NoDup B /\ incl B ids /\ (length ids < 2 * length B)%nat /\
      forall j, In j B -> (j = i /\ n_quick n' < a_next (n_log n)) \/ (j <> i /\ exists t, led servers w i t /\ acked w j t (n_quick n')).
  Proof.
    intros w0 w I HR i n now uid ext q r x n' l Hi Hn P H Lt.
    assert (W := reach_winv servers prm HC HS w0 w I HR). assert (M := reach_minv w0 w I HR).
    destruct (possible_fe servers prm HC w i _ W Hi P) as [F K]. assert (S := e_static _ _ _ (w_e _ _ w W) i Hi). rewrite Hn in S.
    assert (St : 1 <= al_start (n_log n)) by (destruct S as (_ & Sl & _); cbn [sys_disk] in Sl; unfold n_log; lia).
    assert (HT := proj1 (run_event_tr _ n St _ _ _ H)).
    assert (T : ext = false /\ rs_type r = append_entries_response).
    { destruct (Byte.byte_eq_dec (rs_type r) append_entries_response) as [T|T].
      - split; [|exact T]. destruct ext; [|reflexivity]. cbn in F. rewrite F in T. discriminate.
      - exfalso. assert (X := tr_quick_same _ _ _ _ HT i Hi S F). rewrite X in Lt; [lia | intros q0 [now0 X0]; discriminate|]. intros now0 uid0 q0 r0 E. inversion E; subst. exact T. }
    destruct T as [-> T].
    destruct (rs_accepted r) eqn:Ac; [|rewrite (resp_refused _ _ _ _ _ _ _ _ T Ac H) in Lt; lia].
    destruct (live_ref uid n) eqn:Lv; [|rewrite (resp_dead _ _ _ _ _ _ _ _ Lv H) in Lt; lia].
    destruct (N.le_gt_cases (rs_term r) (n_term n)) as [Le|Gt]; [|rewrite (resp_newer _ _ _ _ _ _ _ _ T Gt H) in Lt; lia].
    assert (P0 := P). destruct P0 as (Sq & Dq & An). destruct (w_a _ _ _ W _ _ _ Dq An) as (A1 & A2 & _).
    destruct (e_sent _ _ _ (w_e _ _ _ W) i uid q Hi Sq) as [Tq _].
    assert (Tq' : rq_type q = append_entries_request) by (destruct Tq as [Tq|Tq]; [exact Tq | rewrite A2, Tq in T; discriminate]). clear Tq.
    assert (Nx := m_ans w M _ _ _ Dq An Tq' Ac).
    destruct (e_ae _ _ _ (w_e _ _ _ W) i q Hi) as (_ & Dn & _ & _); [split; [exact Tq' | eauto]|].
    assert (S0 := S). destruct S0 as ((_ & _ & Pi & _) & _).
    assert (Fp : find_peer (rs_src r) (n_peers n) <> None).
    { intros C. apply find_peer_none in C. apply C. rewrite Pi. apply pids_in. rewrite A1. split; assumption. }
    destruct (C33_majority now uid q r n x n' l) as (target & Q & Mj & _); try eassumption; [congruence | lia|].
    assert (target = n_quick n') by lia. subst target. clear Q. set (k := n_quick n') in *.
    set (f := fun p => if (p_id p =? rs_src r)%Z then rs_next_idx r - 1 else p_match p) in *.
    assert (Ndp : NoDup (map p_id (n_peers n))) by (rewrite Pi; apply NoDup_filter, HC).
    set (Bp := map p_id (filter (fun p => k <=? f p) (n_peers n))).
    assert (Lb : length Bp = reached k (map f (n_peers n))).
    { unfold Bp, reached. rewrite map_length. generalize (n_peers n) as ps. induction ps as [|p1 ps IH]; [reflexivity|]. cbn [map filter]. destruct (k <=? f p1); cbn [length]; congruence. }
    assert (Nb : NoDup Bp).
    { unfold Bp. clear -Ndp. revert Ndp. generalize (n_peers n) as ps. induction ps as [|p ps IH]; intros Nd; [constructor|]. cbn [map] in Nd. inversion Nd; subst. cbn [filter].
      destruct (k <=? f p); [|apply IH; assumption]. cbn [map]. constructor; [|apply IH; assumption]. intros Hin. apply H1. apply in_map_iff in Hin. destruct Hin as (p0 & E & Hf).
      apply filter_In in Hf. rewrite <- E. apply in_map, Hf. }
    assert (Ib : forall j, In j Bp -> In j ids /\ j <> i).
    { intros j Hj. apply pids_in. rewrite <- Pi. unfold Bp in Hj. apply in_map_iff in Hj. destruct Hj as (p0 & <- & Hf). apply filter_In in Hf. apply in_map, Hf. }
    assert (Ak : forall j, In j Bp -> exists t, led servers w i t /\ acked w j t k).
    { intros j Hj. unfold Bp in Hj. apply in_map_iff in Hj. destruct Hj as (p0 & <- & Hf). apply filter_In in Hf. destruct Hf as [Hp Hk]. unfold f in Hk.
      assert (Mono : forall j t m, k <= m -> acked w j t m -> acked w j t k).
      { intros j t m Hm (_ & q0 & r0 & X0 & X1 & X2 & X3 & X4). split; [lia|]. exists q0, r0. repeat split; try assumption. lia. }
      destruct (p_id p0 =? rs_src r)%Z eqn:Es.
      - destruct (told_acked w i now uid q r (pred64 (rs_next_idx r)) W M Hi P T Ac eq_refl) as (t & X1 & X2); [rewrite Nx, pred64_succ; lia|].
        exists t. split; [exact X1|]. replace (p_id p0) with (rs_src r) by lia. eapply Mono; [|exact X2]. rewrite Nx, pred64_succ. lia.
      - destruct (m_match w M i n p0 Hi Hn Hp) as (t & X1 & X2); [lia|]. exists t. split; [exact X1|]. eapply Mono; [|exact X2]. lia. }
    assert (Ln : length (match_of r n) = length ids).
    { unfold match_of. cbn [length]. rewrite map_length. rewrite <- (map_length p_id), Pi. assert (X := pids_len servers HC i Hi). lia. }
    unfold majority_reached in Mj. rewrite Ln in Mj. unfold match_of in Mj. fold f in Mj. unfold reached at 1 in Mj. cbn [filter] in Mj. fold (reached k (map f (n_peers n))) in Mj.
    destruct (k <=? a_next (n_log n) - 1) eqn:Eo.
    - exists (i :: Bp). split; [constructor; [intros X; destruct (Ib i X); contradiction | exact Nb]|]. split; [intros j [<-|Hj]; [exact Hi | apply Ib, Hj]|].
      split; [cbn [length] in *; unfold reached in Lb; lia|]. intros j [<-|Hj]; [left; split; [reflexivity | lia]|]. right. split; [apply Ib, Hj | apply Ak, Hj].
    - exists Bp. split; [exact Nb|]. split; [intros j Hj; apply Ib, Hj|]. split; [unfold reached in Lb; lia|]. intros j Hj. right. split; [apply Ib, Hj | apply Ak, Hj].
  Qed.

  (** the rules a server can check itself are enough *)
  Theorem cautious_careful : forall w0 w, initial servers w0 -> cautious servers prm w0 w -> careful servers prm w0 w.
  Proof.
    intros w0 w I H. induction H as [|w w' H IH Hs R]; [constructor|]. eapply Careful_S; [exact IH | exact Hs|].
    intros i n e n' Hi Hh. specialize (R i n e n' Hi Hh). destruct e as [| |now q|now uid ext q r|uid q| |sn d ok| | | |]; try exact Logic.I; [exact R|]. destruct r as [r|]; [|exact Logic.I].
    cbn [local_rules rules] in *. intros Lt. destruct (R Lt) as (Rl & Ol & Ox).
    assert (HR := careful_reach servers prm w0 w IH). assert (W := reach_winv servers prm HC HS w0 w I HR).
    destruct Hh as (Hn & (l1 & a1 & Hist) & (r1 & l2 & Hrun)).
    split; [split; [exact Hi | apply leads_in; exact (e_role _ _ _ (w_e _ _ _ W) i n Hi Hn Rl)]|]. split; [exact Ox|].
    assert (P : possible servers w i (ERpc now uid ext q (Some r))).
    { assert (Hne : forall o, w_hist w i = w_hist w i ++ [o] -> False) by (intros o X; apply (f_equal (@length obs)) in X; rewrite app_length in X; cbn in X; lia).
      destruct Hs; unfold next_world in Hist; cbn [w_hist] in Hist; (destruct (Z.eq_dec i i0) as [->|Ne]; [rewrite put_same in Hist; apply app_inv_head in Hist; inversion Hist; subst; assumption | rewrite put_other in Hist by exact Ne; destruct (Hne _ Hist)]). }
    destruct (response_counts w0 w I HR i n now uid ext q r _ _ _ Hi Hn P Hrun Lt) as (B & B1 & B2 & B3 & B4).
    exists B. split; [exact B1|]. split; [exact B2|]. split; [exact B3|]. intros j Hj. destruct (B4 j Hj) as [[-> _]|(_ & t & Lt' & Ak)]; [left; reflexivity|].
    right. rewrite <- (Ol t Lt'). exact Ak.
  Qed.
End Match.
