(** * P_Consent: when servers with pre-votes can elect a leader (C110, the part that holds)

    A server of a majority whose log is no older and whose term is no smaller than those of the other
    servers of that majority gets their consent, and then their votes. *)

From Verif Require Import Base Buffer Codec CodecSpec Msg FsLogStore FsLogSpec Alog Raft RaftQuiet RaftTrace RaftTrace3 NodeSpec NodeLife ServerSpec NodeFacts AppendFacts PeerInv NodeExamples P_Leader
  Cluster ClusterElect ClusterLog ClusterRun ClusterExamples P_Cluster Runs P_Timer P_Vote P_Elect P_Recover P_Avail P_Accept P_Rest P_Stuck.
Local Open Scope N_scope.

Definition pre_q (id : Z) (n : node) (j : Z) : N * req :=
  (match find_peer j (n_peers n) with Some p => p_uid p | None => 0 end, mkReq (n_term n) prevote_request id j (end_term (n_log n)) (a_next (n_log n) - 1) (n_quick n) []).
Lemma last_term_now : forall n, al_start (n_log n) = 1 -> term_for_log (a_next (n_log n) - 1) n = (ROk (end_term (n_log n)), n, []).
Proof.
  intros n Hs. unfold end_term. destruct (N.eqb_spec (a_next (n_log n) - 1) 0) as [E|E].
  - rewrite E. destruct (a_get (n_log n) 0) as [e|] eqn:G; [apply a_get_some in G; lia | reflexivity].
  - destruct (a_get_in (n_log n) (a_next (n_log n) - 1)) as (e & G); [unfold a_next in *; rewrite Hs in *; lia|]. rewrite G. apply term_for_log_in; [lia | exact G].
Qed.
Lemma pre_asks : forall id n js, al_start (n_log n) = 1 -> (forall j, In j js -> find_peer j (n_peers n) <> None) ->
  for_each js (fun i => n <- get (fun n => n) ;; nx <- next_slot_ ;; lt <- term_for_log (nx - 1) ;;
    send_req (PPeer i) true (mkReq (n_term n) prevote_request id i lt (nx - 1) (n_quick n) [])) n = (ROk tt, n, map call (map (pre_q id n) js)).
Proof.
  intros id n js Hs. induction js as [|j js IH]; intros F; [reflexivity|]. cbn [for_each map].
  assert (E : (n <- get (fun n => n) ;; nx <- next_slot_ ;; lt <- term_for_log (nx - 1) ;;
    send_req (PPeer j) true (mkReq (n_term n) prevote_request id j lt (nx - 1) (n_quick n) [])) n = (ROk tt, n, [call (pre_q id n j)])).
  { rewrite bind_get. unfold next_slot_. rewrite bind_get. rewrite (bind_ok _ _ _ _ _ _ _ _ (last_term_now n Hs)), after_nil.
    unfold send_req, the_peer, pre_q, call. cbn [fst snd]. assert (X := F j (or_introl eq_refl)). destruct (find_peer j (n_peers n)) as [p|] eqn:Fp; [|congruence].
    rewrite bind_assoc, bind_get. cbn [get_peer]. rewrite Fp, bind_ret. unfold emit. destruct n. reflexivity. }
  rewrite (bind_ok _ _ _ _ _ _ _ _ E), (IH (fun k Hk => F k (or_intror Hk))). reflexivity.
Qed.
Lemma pre_fires : forall n, al_start (n_log n) = 1 -> n_peers n <> [] -> n_role n = Follower -> n_steps n = 0%Z -> n_catching n = false -> pm_prevote (n_prm n) = true -> n_prevote n = None ->
  let n1 := set_prevote (Some (1%Z, [n_id n])) (set_timer false n) in
  run_event EElection n = (ROk Nothing, n1, map call (map (pre_q (n_id n) n1) (map p_id (n_peers n)))).
Proof.
  intros n L Pe R St Ca Pv Np n1.
  cbn [run_event]. unfold handle_election_timeout. rewrite bind_assoc, bind_modify, bind_assoc, bind_get.
  replace (n_steps (set_timer false n)) with 0%Z by (symmetry; exact St). change (0 <? 0)%Z with false. cbv iota.
  replace (n_catching (set_timer false n)) with false by (symmetry; exact Ca). cbv iota.
  replace (n_role (set_timer false n)) with Follower by (symmetry; exact R). cbv iota.
  replace (n_prm (set_timer false n)) with (n_prm n) by reflexivity. rewrite Pv.
  replace (n_prevote (set_timer false n)) with (@None (Z * list Z)) by (symmetry; exact Np). cbv iota.
  assert (X : request_prevote (set_timer false n) = (ROk tt, n1, map call (map (pre_q (n_id n) n1) (map p_id (n_peers n))))).
  { unfold request_prevote, peer_ids. rewrite bind_get. replace (n_peers (set_timer false n)) with (n_peers n) by reflexivity.
    destruct (map p_id (n_peers n)) as [|j js] eqn:Ej; [destruct (n_peers n); [congruence | discriminate]|].
    rewrite bind_get, bind_get. replace (n_prevote (set_timer false n)) with (@None (Z * list Z)) by (symmetry; exact Np).
    replace (n_id (set_timer false n)) with (n_id n) by reflexivity. rewrite bind_modify. apply pre_asks; [exact L|].
    intros k Hk. apply find_id. replace (n_peers _) with (n_peers n) by reflexivity. rewrite Ej. exact Hk. }
  rewrite (bind_ok _ _ _ _ _ _ _ _ X). unfold ret, after. cbn [fst snd]. rewrite app_nil_r. reflexivity.
Qed.

Section Consent.
  Variable servers : list srv_config.
  Variable prm : Z -> params.
  Notation ids := (Cluster.ids servers).
  Notation step := (Cluster.step servers prm).
  Notation reach := (Cluster.reach servers prm).
  Hypothesis HC : cluster_okay servers.
  Hypothesis HS : no_snapshots prm.

  (** server [i] has asked and [vs] (among them itself) have consented *)
  Definition waits (i : Z) (vs : list Z) (n : node) : Prop :=
    (n_id n = i /\ n_role n = Follower /\ n_steps n = 0%Z /\ n_catching n = false /\ al_start (n_log n) = 1) /\
    (NoDup (map p_id (n_peers n)) /\ NoDup (map p_uid (n_peers n)) /\ map p_id (n_peers n) = pids servers i) /\
    n_prevote n = Some (Z.of_nat (length vs), vs) /\ (2 * length vs <= length ids)%nat.

  Lemma waits_peers : forall i vs n j f, (forall p, p_id (f p) = p_id p /\ p_uid (f p) = p_uid p) -> waits i vs n ->
    waits i vs (upd_peer (PPeer j) f n) /\ map p_uid (n_peers (upd_peer (PPeer j) f n)) = map p_uid (n_peers n).
  Proof.
    intros i vs n j f Hf (A & (B1 & B2 & B3) & C).
    assert (E1 : map p_id (n_peers (upd_peer (PPeer j) f n)) = map p_id (n_peers n)).
    { cbn [upd_peer]. unfold upd_peers, set_peers. cbn [n_peers]. rewrite map_map. apply map_ext. intros p. destruct (p_id p =? j)%Z; [apply Hf | reflexivity]. }
    assert (E2 : map p_uid (n_peers (upd_peer (PPeer j) f n)) = map p_uid (n_peers n)).
    { cbn [upd_peer]. unfold upd_peers, set_peers. cbn [n_peers]. rewrite map_map. apply map_ext. intros p. destruct (p_id p =? j)%Z; [apply Hf | reflexivity]. }
    split; [|exact E2]. split; [exact A|]. split; [rewrite E1, E2; auto | exact C].
  Qed.

  (** one consent *)
  Lemma consent_counts : forall i vs n u q a, In i ids -> waits i vs n -> pids servers i <> [] -> rq_type q = prevote_request -> In u (map p_uid (n_peers n)) ->
    rs_type a = prevote_response -> rs_accepted a = true -> ~ In (rs_src a) vs ->
    exists n' l, run_event (ERpc 0 u true q (Some a)) n = (ROk Nothing, n', l) /\ n_log n' = n_log n /\ n_smc n' = n_smc n /\ n_term n <= n_term n' /\ map p_uid (n_peers n') = map p_uid (n_peers n) /\
      (runner servers i n' \/ waits i (rs_src a :: vs) n').
  Proof.
    intros i vs n u q a Hi W Pne Tq Hu Ta Aa Nv. apply in_map_iff in Hu. destruct Hu as (p & Pu & Ip).
    cbn [run_event]. unfold rpc_done. rewrite bind_assoc, bind_get. unfold live_ref.
    destruct (find (fun p => p_uid p =? u) (n_peers n)) as [p'|] eqn:F; [|assert (X := find_none _ _ F p Ip); cbn in X; lia].
    rewrite Tq. change (beq prevote_request append_entries_request || beq prevote_request install_snapshot_request) with false. cbn [when]. rewrite bind_assoc, bind_ret.
    rewrite bind_assoc, bind_modify. set (m := upd_peer (PPeer (p_id p')) (p_resume (n_prm n)) n).
    destruct (waits_peers i vs n (p_id p') (p_resume (n_prm n)) ltac:(intros; split; reflexivity) W) as (Wm & Um). fold m in Wm, Um.
    assert (Lm : n_log m = n_log n) by reflexivity. assert (Sm : n_smc m = n_smc n) by reflexivity. assert (Te : n_term m = n_term n) by reflexivity. rewrite <- Lm, <- Sm, <- Um, <- Te. clearbody m. clear p Ip Pu F p' W Lm Sm Um Te n.
    assert (E : exists n' l, handle_prevote_resp a m = (ROk tt, n', l) /\ n_log n' = n_log m /\ n_smc n' = n_smc m /\ n_term m <= n_term n' /\ map p_uid (n_peers n') = map p_uid (n_peers m) /\ (runner servers i n' \/ waits i (rs_src a :: vs) n')).
    { destruct Wm as ((A1 & A2 & A3 & A4 & A5) & (B1 & B2 & B3) & C1 & C2).
      unfold handle_prevote_resp. rewrite bind_get, C1. unfold set_add.
      destruct (existsb (Z.eqb (rs_src a)) vs) eqn:Ex; [exfalso; apply existsb_exists in Ex; destruct Ex as (y & Y1 & Y2); apply Nv; assert (rs_src a = y) by lia; subst y; exact Y1|].
      cbn [negb]. cbv iota. rewrite Aa. cbv iota zeta. rewrite bind_modify.
      assert (Pl : (length (n_peers m) + 1 = length ids)%nat) by (rewrite <- (map_length p_id), B3; apply pids_len; assumption).
      set (m1 := set_prevote _ m). destruct (majority m (Z.of_nat (length vs) + 1)) eqn:Mj.
      - assert (Tm : forall n', n_log n' = n_log m1 -> dk_snp (n_disk n') = dk_snp (n_disk m1) -> term_for_log (a_next (n_log m1) - 1) n' = (ROk (end_term (n_log m)), n', [])).
        { intros n' X _. change (n_log m1) with (n_log m) in *. rewrite <- X. apply last_term_now. rewrite X. exact A5. }
        destruct (candidate_runs m1 (end_term (n_log m)) A4) as ([] & n' & l & E & _ & K).
        { intros X. apply Pne. rewrite <- B3. change (n_peers m) with (n_peers m1). rewrite X. reflexivity. } { exact B1. } { exact Tm. }
        destruct K as (K1 & K2 & K3 & K4 & K5 & K6 & K7 & K8 & K9 & K10 & K11 & K12 & K13 & K14 & K15 & K16 & K17 & K18).
        exists n', l. split; [exact E|]. split; [exact K10|]. split; [exact K12|]. split; [change (n_term m) with (n_term m1); lia|]. split; [rewrite K9; reflexivity|]. left.
        unfold runner. rewrite K14, K10, K9. split; [exact A1|]. split; [split; [rewrite K16; change (n_steps m1) with (n_steps m); lia | split; [rewrite K17; exact A4 | left; exact K1]]|].
        split; [exact A5|]. split; [exact B1|]. split; [exact B2 | exact B3].
      - assert (M2 : (2 * S (length vs) <= length ids)%nat).
        { unfold majority in Mj. apply Z.ltb_ge in Mj. assert (X := Z.mul_div_le (Z.of_nat (length (n_peers m)) + 1) 2 ltac:(lia)). lia. }
        destruct (Nat.leb_spec (length (n_peers m) + 1) (length (rs_src a :: vs))) as [Lb|Lb]; [cbn [length] in Lb; lia|].
        exists m1, []. split; [reflexivity|]. split; [reflexivity|]. split; [reflexivity|]. split; [change (n_term m1) with (n_term m); lia|]. split; [reflexivity|]. right.
        split; [repeat (split; [assumption|]); assumption|]. split; [auto|]. split; [|exact M2].
        unfold m1. cbn [length]. replace (Z.of_nat (S (length vs))) with (Z.of_nat (length vs) + 1)%Z by lia. reflexivity. }
    destruct E as (n' & l & E & R). exists n', l. split; [|exact R].
    assert (E2 : handle_ext_resp a m = (ROk tt, n', l)) by (unfold handle_ext_resp; rewrite bind_get, Ta; exact E).
    rewrite (bind_ok _ _ _ _ _ _ _ _ E2). unfold after, ret. cbn [fst snd]. rewrite app_nil_r. reflexivity.
  Qed.

  Definition grants (j : Z) (m : node) (q : req) : Prop :=
    exists a, run_event (ERequest 0 q) m = (ROk (Response a), m, []) /\ rs_type a = prevote_response /\ rs_accepted a = true /\ rs_src a = j.
  Lemma collect : forall i js w n vs, In i ids -> pids servers i <> [] -> w_sys w i = Up n -> waits i vs n -> NoDup js ->
    (forall j, In j js -> In j ids /\ j <> i /\ ~ In j vs /\ exists u q m, sent w i u true q /\ rq_type q = prevote_request /\ rq_dst q = j /\ In u (map p_uid (n_peers n)) /\ w_sys w j = Up m /\ grants j m q) ->
    (length ids < 2 * (length vs + length js))%nat ->
    exists w' n', reach w w' /\ w_sys w' i = Up n' /\ runner servers i n' /\ n_log n' = n_log n /\ n_smc n' = n_smc n /\ n_term n <= n_term n' /\ forall j, j <> i -> w_sys w' j = w_sys w j.
  Proof.
    intros i js. induction js as [|j js IH]; intros w n vs Hi Pne Wi W ND H Q; [destruct W as (_ & _ & _ & W); cbn [length] in Q; lia|].
    inversion ND as [|? ? Nj ND']; subst. destruct (H j (or_introl eq_refl)) as (Hj & Dj & Nv & u & q & m & S & Tq & Dq & Hu & Wj & a & E & Ta & Aa & Sa).
    set (w1 := next_world w j (Up m) [mkObs (ERequest 0 q) [] (Some (Response a))]).
    assert (St1 : step w w1).
    { apply (W_event servers prm w j m (ERequest 0 q) (ROk (Response a)) m [] Hj Wj); [left; exists i, u, true; auto | exact E | reflexivity]. }
    assert (Sy1 : forall k, w_sys w1 k = w_sys w k).
    { intros k. unfold w1, next_world. cbn [w_sys]. destruct (Z.eq_dec k j) as [->|D]; [rewrite put_same; symmetry; exact Wj | apply put_other, D]. }
    destruct (consent_counts i vs n u q a Hi W Pne Tq Hu Ta Aa ltac:(rewrite Sa; exact Nv)) as (n' & l & E2 & L2 & S2 & T2 & U2 & R).
    set (w2 := next_world w1 i (Up n') [mkObs (ERpc 0 u true q (Some a)) l (Some Nothing)]).
    assert (St2 : step w1 w2).
    { apply (W_event servers prm w1 i n (ERpc 0 u true q (Some a)) (ROk Nothing) n' l Hi); [rewrite Sy1; exact Wi | | exact E2 | reflexivity].
      split; [apply (later_sent w); [apply later_next | exact S]|]. rewrite Dq. split; [exact Hj|]. exists 0, []. unfold w1, next_world. cbn [w_hist]. rewrite put_same. apply in_or_app. right. left. reflexivity. }
    assert (Sy2 : forall k, k <> i -> w_sys w2 k = w_sys w k).
    { intros k D. unfold w2, next_world at 1. cbn [w_sys]. rewrite put_other by exact D. apply Sy1. }
    assert (Wi2 : w_sys w2 i = Up n') by (unfold w2, next_world; cbn [w_sys]; apply put_same).
    assert (R2 : reach w w2) by (eapply Reach_S; [eapply Reach_S; [apply Reach_0 | exact St1] | exact St2]).
    destruct R as [R|R]; [exists w2, n'; auto 9|].
    destruct (IH w2 n' (rs_src a :: vs) Hi Pne Wi2 R ND') as (w' & n2 & A1 & A2 & A3 & A4 & A5 & A5t & A6).
    - intros k Hk. destruct (H k (or_intror Hk)) as (K1 & K2 & K3 & u' & q' & m' & K4 & K5 & K6 & K7 & K8 & K9). split; [exact K1|]. split; [exact K2|].
      split; [intros [X|X]; [congruence | exact (K3 X)]|]. exists u', q', m'. split; [apply (later_sent w1); [apply later_next|]; apply (later_sent w); [apply later_next | exact K4]|].
      split; [exact K5|]. split; [exact K6|]. split; [rewrite U2; exact K7|]. split; [rewrite Sy2 by exact K2; exact K8 | exact K9].
    - cbn [length] in Q |- *. lia.
    - exists w', n2. split; [eapply reach_trans; [exact R2 | exact A1]|]. split; [exact A2|]. split; [exact A3|]. split; [congruence|]. split; [congruence|]. split; [lia|]. intros k D. rewrite (A6 k D). apply Sy2, D.
  Qed.

  (** servers that start again and, with pre-votes, ask for consent themselves *)
  Lemma alert : forall w0 js w, initial servers w0 -> reach w0 w -> (2 <= length servers)%nat -> NoDup js -> incl js ids ->
    exists w', reach w w' /\ (forall j, In j js -> exists m, w_sys w' j = Up m /\ n_disk m = sys_disk (w_sys w j) /\ (pm_prevote (prm j) = true -> n_prevote m <> None)) /\
      forall j, ~ In j js -> w_sys w' j = w_sys w j.
  Proof.
    intros w0 js w Hi0 Hr Hl. induction js as [|i js IH]; intros ND IV; [exists w; split; [apply Reach_0|]; split; [intros j [] | reflexivity]|].
    inversion ND as [|? ? Ni ND']; subst. destruct (IH ND' (fun j Hj => IV j (or_intror Hj))) as (wa & R1 & Q1 & Q2). assert (Hi : In i ids) by (apply IV; left; reflexivity).
    destruct (start_again servers prm wa i Hi) as (w1 & d & A1 & A2 & A3 & A4). rewrite (Q2 i Ni) in A3. set (n0 := start_node i (prm i) d) in *.
    destruct (start_facts i (prm i) d) as (F1 & F2 & F3 & F4 & F5 & F6 & F7 & F8 & F9). fold n0 in F1, F2, F3, F4, F5, F6, F7, F8, F9.
    assert (R1' : reach w w1) by (eapply reach_trans; eassumption).
    assert (Z1 : forall w', (forall j, j <> i -> w_sys w' j = w_sys wa j) -> forall m, w_sys w' i = Up m -> n_disk m = d -> (pm_prevote (prm i) = true -> n_prevote m <> None) ->
      (forall j, In j (i :: js) -> exists m, w_sys w' j = Up m /\ n_disk m = sys_disk (w_sys w j) /\ (pm_prevote (prm j) = true -> n_prevote m <> None)) /\ forall j, ~ In j (i :: js) -> w_sys w' j = w_sys w j).
    { intros w' H1 m H2 H3 H4. split.
      - intros j [<-|Hj]; [exists m; rewrite <- A3; auto|]. rewrite H1 by (intros ->; exact (Ni Hj)). apply Q1, Hj.
      - intros j Hj. rewrite H1 by (intros ->; apply Hj; left; reflexivity). apply Q2. intros X. apply Hj. right. exact X. }
    destruct (pm_prevote (prm i)) eqn:Pv; [|exists w1; split; [exact R1'|]; apply (Z1 w1 A4 n0 A2 F6); discriminate].
    assert (R01 : reach w0 w1) by (eapply reach_trans; eassumption).
    assert (W1 := reach_winv servers prm HC HS w0 w1 Hi0 R01). destruct (e_static _ _ _ (w_e _ _ _ W1) i Hi) as (U1 & U2 & _). rewrite A2 in U1, U2. destruct U1 as (_ & _ & U3 & _). cbn [sys_disk] in U2.
    assert (Ne : n_peers n0 <> []).
    { intros X. assert (Y := pids_len servers HC i Hi). rewrite <- U3, X in Y. unfold Cluster.ids in Y. cbn [map] in Y. rewrite !map_length in Y. cbn [length] in Y. lia. }
    assert (E1 := pre_fires n0 U2 Ne F3 F5 F4 ltac:(rewrite F2; exact Pv) F7). cbv zeta in E1.
    match type of E1 with _ = (_, ?m, ?l) => set (n1 := m) in *; set (l1 := l) in * end.
    exists (next_world w1 i (Up n1) [mkObs EElection l1 (Some Nothing)]). split; [eapply Reach_S; [exact R1'|]; exact (W_event servers prm w1 i n0 EElection (ROk Nothing) n1 l1 Hi A2 I E1 eq_refl)|].
    apply (Z1 _) with (m := n1); [| | exact F6 | intros _; discriminate].
    - intros j D. unfold next_world. cbn [w_sys]. rewrite put_other by exact D. apply A4, D.
    - unfold next_world. cbn [w_sys]. apply put_same.
  Qed.

  Lemma consent_lead : forall w0 w V i, initial servers w0 -> reach w0 w -> (2 <= length servers)%nat ->
    NoDup V -> incl V ids -> (length ids < 2 * length V)%nat -> In i V -> pm_prevote (prm i) = true ->
    (forall j, In j V -> j <> i -> (pm_defensive (prm j) = true -> pm_prevote (prm j) = true) /\ no_older (log_of w i) (log_of w j) /\ saved_term (w_sys w j) <= saved_term (w_sys w i)) ->
    elected_from servers prm w V i.
  Proof.
    intros w0 w V i Hi0 Hr Hl NV IV QV HiV Hpv Hno. assert (Hi : In i ids) by (apply IV, HiV).
    assert (Pne : pids servers i <> []).
    { intros E. assert (X := pids_len servers HC i Hi). rewrite E in X. unfold Cluster.ids in X. rewrite map_length in X. cbn in X. lia. }
    set (js := filter (fun j => negb (j =? i)%Z) V).
    assert (Ijs : forall j, In j js <-> In j V /\ j <> i).
    { intros j. unfold js. rewrite filter_In. destruct (Z.eqb_spec j i); cbn; split; intros [X Y]; split; auto; congruence. }
    assert (Njs : NoDup js) by (apply NoDup_filter, NV).
    destruct (alert w0 js w Hi0 Hr Hl Njs) as (w1 & A1 & B2 & B4); [intros j Hj; apply IV, Ijs, Hj|].
    destruct (start_again servers prm w1 i Hi) as (w2 & d & B1 & A2 & A3 & A4). rewrite (B4 i) in A3 by (intros X; apply Ijs in X; tauto).
    set (n0 := start_node i (prm i) d) in *. assert (Bi := A2).
    destruct (start_facts i (prm i) d) as (F1 & F2 & F3 & F4 & F5 & F6 & F7 & F8 & F9). fold n0 in F1, F2, F3, F4, F5, F6, F7, F8, F9.
    assert (Di : forall j, sys_disk (w_sys w2 j) = sys_disk (w_sys w j)).
    { intros j. destruct (Z.eq_dec j i) as [->|D]; [rewrite A2; cbn [sys_disk]; rewrite F6; exact A3|]. rewrite (A4 j D).
      destruct (in_dec Z.eq_dec j js) as [Hj|Hj]; [destruct (B2 j Hj) as (m & Em & Dm & _); rewrite Em; exact Dm | rewrite B4 by exact Hj; reflexivity]. }
    assert (R02 : reach w0 w2) by (eapply reach_trans; [exact Hr | eapply reach_trans; eassumption]).
    assert (W2 := reach_winv servers prm HC HS w0 w2 Hi0 R02). assert (St2 := e_static _ _ _ (w_e _ _ _ W2)).
    destruct (St2 i Hi) as (U1 & U2 & _ & _). rewrite Bi in U1, U2. destruct U1 as (U1 & _ & U3 & _ & U4). cbn [sys_disk] in U2.
    assert (Ne : n_peers n0 <> []) by (intros X; apply Pne; rewrite <- U3, X; reflexivity).
    set (n1 := set_prevote (Some (1%Z, [n_id n0])) (set_timer false n0)).
    assert (E1 := pre_fires n0 U2 Ne F3 F5 F4 ltac:(rewrite F2; exact Hpv) F7). fold n1 in E1. cbv zeta in E1.
    set (l1 := map call (map (pre_q (n_id n0) n1) (map p_id (n_peers n0)))) in *.
    set (w3 := next_world w2 i (Up n1) [mkObs EElection l1 (Some Nothing)]).
    assert (S3 : step w2 w3) by (exact (W_event servers prm w2 i n0 EElection (ROk Nothing) n1 l1 Hi Bi I E1 eq_refl)).
    assert (W3i : w_sys w3 i = Up n1) by (unfold w3, next_world; cbn [w_sys]; apply put_same).
    assert (W3j : forall j, j <> i -> w_sys w3 j = w_sys w2 j) by (intros j D; unfold w3, next_world; cbn [w_sys]; apply put_other, D).
    assert (Li : n_log n0 = log_of w i) by (unfold n_log, log_of; rewrite F6, A3; reflexivity).
    assert (Ti : n_term n0 = saved_term (w_sys w i)) by (unfold saved_term; rewrite F8, A3; reflexivity).
    assert (Pl : (length (n_peers n0) + 1 = length ids)%nat) by (rewrite <- (map_length p_id), U3; apply pids_len; assumption).
    assert (Wt : waits i [i] n1).
    { destruct (start_pinv i (prm i) d) as (V1 & _ & V3 & _). fold n0 in V1, V3.
      split; [split; [exact F1|]; split; [exact F3|]; split; [exact F5|]; split; [exact F4 | exact U2]|]. split; [split; [exact V3|]; split; [|exact U3]|].
      - change (n_peers n1) with (n_peers n0). unfold pool in V1. rewrite map_app in V1. revert V1. generalize (map p_uid (match n_join n0 with Some j => [j] | None => [] end)). intros l0 V1.
        clear - V1. induction (map p_uid (n_peers n0)) as [|a l IH]; [constructor|]. inversion V1; subst. constructor; [intros X; apply H1, in_or_app; left; exact X | apply IH; assumption].
      - split; [unfold n1; rewrite F1; reflexivity|]. destruct (n_peers n0); [congruence|]. cbn [length] in *. lia. }
    assert (Ljs : (length V <= 1 + length js)%nat).
    { apply (NoDup_incl_length NV (l' := i :: js)). intros j Hj. destruct (Z.eq_dec j i) as [->|D]; [left; reflexivity | right; apply Ijs; auto]. }
    destruct (collect i js w3 n1 [i] Hi Pne W3i Wt Njs) as (w4 & n4 & C1 & C2 & C3 & C4 & C5 & C5t & C6).
    - intros j Hj. assert (B2' := B2 j Hj). apply Ijs in Hj. destruct Hj as (HjV & Dj). assert (Hj := IV j HjV). split; [exact Hj|]. split; [exact Dj|]. split; [intros [X|[]]; congruence|].
      destruct B2' as (m & Em & _ & Pj). rewrite <- (A4 j Dj) in Em. destruct (St2 j Hj) as (X1 & X2 & _). rewrite Em in X1, X2. cbn [sys_disk] in X2. change (al_start (n_log m) = 1) in X2. destruct X1 as (X1 & X3 & _).
      assert (Pm := w_p _ _ _ W2 j m Hj Em). assert (Dm := Di j). rewrite Em in Dm. cbn [sys_disk] in Dm.
      destruct (Hno j HjV Dj) as (G1 & G2 & G3). set (c := pre_q (n_id n0) n1 j). exists (fst c), (snd c), m.
      assert (Jp : In j (map p_id (n_peers n0))) by (rewrite U3; apply pids_in; auto).
      split; [unfold sent, w3; rewrite acts_next, put_same; apply in_or_app; right; apply (in_map call _ c); apply in_map, Jp|]. split; [reflexivity|]. split; [reflexivity|].
      split.
      { unfold c, pre_q. cbn [fst]. assert (X := find_id j (n_peers n1) Jp). destruct (find_peer j (n_peers n1)) as [p|] eqn:Fp; [|congruence]. apply in_map. eapply find_some. exact Fp. }
      split; [rewrite W3j by exact Dj; exact Em|]. destruct (C39_prevote_no_effect 0 (snd c) m eq_refl) as (a & Ea). exists a. split; [exact Ea|].
      assert (Lm : n_log m = log_of w j) by (unfold n_log, log_of; rewrite Dm; reflexivity).
      assert (Ga : rs_accepted a = true).
      { apply (C39_prevote_granted_partial 0 (snd c) m a m [] eq_refl); [split; [|left]; [rewrite X2; lia | exact X2] | exact Ea|]. unfold c, pre_q. cbn [snd rq_term rq_last_term rq_last_idx].
        change (n_term n1) with (n_term n0). change (n_log n1) with (n_log n0). split; [|split].
        - rewrite Ti. unfold saved_term in G3 |- *. rewrite <- Dm, X3 in G3. exact G3.
        - unfold up_to_date, last_index. rewrite end_term_last by exact X2. rewrite Lm, Li. destruct G2 as [G2|(G2 & G2')]; [left; exact G2 | right; split; [exact G2 | lia]].
        - rewrite Pm. intros X. apply Pj, G1, X. }
      apply run_request in Ea. rewrite (process_prevote 0 (snd c) m eq_refl) in Ea. unfold handle_prevote_req in Ea. rewrite bind_get in Ea. unfold ret in Ea. inversion Ea as [Eq].
      split; [destruct (if pm_defensive _ then _ else _); reflexivity|]. split; [rewrite Eq; exact Ga|]. destruct (if pm_defensive _ then _ else _); exact X1.
    - cbn [length]. lia.
    - assert (R4 : reach w2 w4) by (eapply reach_trans; [apply reach_one, S3 | exact C1]). assert (R04 : reach w0 w4) by (eapply reach_trans; eassumption).
      assert (Sj : forall j, j <> i -> w_sys w4 j = w_sys w2 j) by (intros j D; rewrite (C6 j D); apply W3j, D).
      assert (Lw : forall j, log_of w4 j = log_of w j).
      { intros j. destruct (Z.eq_dec j i) as [->|D]; [unfold log_of at 1; rewrite C2; cbn [sys_disk]; change (dk_log (n_disk n4)) with (n_log n4); rewrite C4; exact Li|].
        unfold log_of. rewrite (Sj j D), Di. reflexivity. }
      destruct (runner_leads servers prm HC HS w0 w4 V i n4 Hi0 R04 NV IV QV HiV Pne) as (w' & n & es & J1 & J2 & J3 & J4 & J5 & J6 & J7 & J8 & J9).
      { intros j Hj. destruct (Z.eq_dec j i) as [->|D]; [eauto | rewrite (Sj j D), (A4 j D); destruct (B2 j (proj2 (Ijs j) (conj Hj D))) as (m & Em & _); eauto]. } { exact C2. } { exact C3. }
      { intros j Hj. rewrite !Lw. destruct (Z.eq_dec j i) as [->|D]; [right; split; [reflexivity | lia] | apply Hno; assumption]. }
      rewrite Lw in J4, J8. exists w', n, es. split; [eapply reach_trans; [exact A1 | eapply reach_trans; [exact B1 | eapply reach_trans; [exact R4 | exact J1]]]|].
      split; [exact J2|]. split; [exact J3|]. split; [exact J4|]. split; [|split; [|split]].
      + intros j Hj. destruct (Z.eq_dec j i) as [->|D].
        * assert (M := J5 i HiV). destruct (e_static _ _ _ (w_e _ _ _ (reach_winv servers prm HC HS w0 w4 Hi0 R04)) i Hi) as (X & _). rewrite C2 in X. destruct X as (_ & X & _).
          assert (Y : saved_term (Up n4) = n_term n4) by (unfold saved_term; cbn [sys_disk]; rewrite X; reflexivity). rewrite C2, Y in M. change (n_term n1) with (n_term n0) in C5t. rewrite <- Ti. lia.
        * assert (M := J5 j Hj). rewrite (Sj j D) in M. unfold saved_term in *. rewrite <- Di. exact M.
      + intros j Hj D. destruct (J6 j Hj D) as (m & M1 & M2 & M3 & M4). exists m. rewrite Lw in M4. auto.
      + intros j Hj. assert (D : j <> i) by (intros ->; exact (Hj HiV)). rewrite (J7 j Hj), (Sj j D), (A4 j D). apply B4. intros X. apply Hj, Ijs, X.
      + split; [exact J8|]. rewrite J9, C5. change (n_smc n1) with (n_smc n0). rewrite F9, A3. reflexivity.
  Qed.
End Consent.

(** ** C110, the part that holds: when one server of a majority has the
    newest log as well as the greatest term of that majority, and those of the
    others that run in defensive mode use pre-votes too, it gets the pre-votes and then the votes *)
Theorem C110_can_lead_partial : forall servers prm w0 w V i, cluster_okay servers -> no_snapshots prm -> (2 <= length servers)%nat ->
  initial servers w0 -> reach servers prm w0 w ->
  NoDup V -> incl V (ids servers) -> (length (ids servers) < 2 * length V)%nat -> In i V -> pm_prevote (prm i) = true ->
  (forall j, In j V -> j <> i -> (pm_defensive (prm j) = true -> pm_prevote (prm j) = true) /\ no_older (log_of w i) (log_of w j) /\ saved_term (w_sys w j) <= saved_term (w_sys w i)) ->
  exists w' n es, reach servers prm w w' /\ w_sys w' i = Up n /\ n_role n = Leader /\ (n_log n = log_plus (log_of w i) es /\ forall e, In e es -> ev_term e = n_term n) /\
    (forall j, In j V -> saved_term (w_sys w j) < n_term n) /\
    (forall j, In j V -> j <> i -> exists m, w_sys w' j = Up m /\ n_role m = Follower /\ n_term m = n_term n /\ log_of w' j = log_of w j) /\
    (forall j, ~ In j V -> w_sys w' j = w_sys w j).
Proof.
  intros servers prm w0 w V i HC HS Hl Hi0 Hr H1 H2 H3 H4 H5 H6.
  destruct (consent_lead servers prm HC HS w0 w V i Hi0 Hr Hl H1 H2 H3 H4 H5 H6) as (w' & n & es & A1 & A2 & A3 & A4 & A5 & A6 & A7 & _). exists w', n, es. auto 8.
Qed.

(** and once it leads, it takes a client's request and commits it, as in C105 *)
Theorem C110_commits_partial : forall servers prm w0 w V i q, cluster_okay servers -> no_snapshots prm -> (2 <= length servers)%nat -> initial servers w0 -> reach servers prm w0 w ->
  NoDup V -> incl V (ids servers) -> (length (ids servers) < 2 * length V)%nat -> In i V -> pm_prevote (prm i) = true ->
  (forall j, In j V -> j <> i -> (pm_defensive (prm j) = true -> pm_prevote (prm j) = true) /\ no_older (log_of w i) (log_of w j) /\ saved_term (w_sys w j) <= saved_term (w_sys w i)) ->
  1 <= pm_max_append (prm i) -> (0 <= pm_el_upper (prm i))%Z -> client_req q ->
  exists w' n now l x h1 h2, reach servers prm w w' /\ w_sys w' i = Up n /\ n_role n = Leader /\
    w_hist w' i = w_hist w i ++ h1 ++ mkObs (ERequest now q) l (Some (Response x)) :: h2 /\ rs_accepted x = true /\
    (exists es, log_of w' i = log_plus (log_plus (log_of w i) es) (map (stamp (n_term n)) (rq_entries q)) /\ forall e, In e es -> ev_term e = n_term n) /\
    rs_next_idx x = a_next (log_of w' i) /\ rs_next_idx x - 1 <= n_quick n /\
    (forall j, In j V -> agree (rs_next_idx x - 1) (log_of w' i) (log_of w' j)) /\
    (forall j, In j V -> j <> i -> exists m, w_sys w' j = Up m /\ n_role m = Follower /\ n_term m = n_term n) /\
    (forall j, ~ In j V -> w_sys w' j = w_sys w j) /\
    (dk_commit (sys_disk (w_sys w i)) < a_next (log_of w i) ->
     forall k e, nth_error (rq_entries q) k = Some e -> ev_type e = app_log ->
       applied servers w' i (rs_next_idx x - lenN (rq_entries q) + N.of_nat k) (stamp (n_term n) e)).
Proof.
  intros servers prm w0 w V i q HC HS Hl Hi0 Hr H1 H2 H3 H4 H5 H6.
  exact (commits_from servers prm w0 w V i q HC HS Hi0 Hr H1 H2 H3 H4 (consent_lead servers prm HC HS w0 w V i Hi0 Hr Hl H1 H2 H3 H4 H5 H6)).
Qed.


(** a majority whose servers are all in the same term can elect one of them *)
Theorem C110_same_term_partial : forall servers prm w0 w V t, cluster_okay servers -> no_snapshots prm -> (2 <= length servers)%nat -> initial servers w0 -> reach servers prm w0 w ->
  NoDup V -> incl V (ids servers) -> (length (ids servers) < 2 * length V)%nat -> (forall i, In i V -> pm_prevote (prm i) = true) -> (forall j, In j V -> saved_term (w_sys w j) = t) ->
  exists i w' n, In i V /\ reach servers prm w w' /\ w_sys w' i = Up n /\ n_role n = Leader /\ t < n_term n /\
    (forall j, In j V -> j <> i -> exists m, w_sys w' j = Up m /\ n_role m = Follower /\ n_term m = n_term n) /\
    (forall j, ~ In j V -> w_sys w' j = w_sys w j).
Proof.
  intros servers prm w0 w V t HC HS Hl Hi Hr NV IV QV HP HT.
  destruct (newest (log_of w) V) as (i & I1 & I2); [intros ->; cbn in QV; lia|].
  destruct (C110_can_lead_partial servers prm w0 w V i HC HS Hl Hi Hr NV IV QV I1 (HP i I1)) as (w' & n & es & A1 & A2 & A3 & A4 & A5 & A6 & A7).
  { intros j Hj _. split; [intros _; apply HP, Hj|]. split; [apply I2, Hj | rewrite (HT j Hj), (HT i I1); lia]. }
  exists i, w', n. split; [exact I1|]. split; [exact A1|]. split; [exact A2|]. split; [exact A3|]. split; [rewrite <- (HT i I1); apply A5, I1|]. split; [|exact A7].
  intros j Hj D. destruct (A6 j Hj D) as (m & M1 & M2 & M3 & _). eauto.
Qed.

Lemma lt_or_le : forall a b : N, {a < b} + {b <= a}.
Proof. intros a b. destruct (a <? b) eqn:E; [left | right]; lia. Qed.
(** In a cluster of any size the state of [C110_no_support_refuted] is the only obstacle: in every
    reachable state either no server has the support of a majority or a leader can be elected. *)
Lemma consents_dec : forall w i j, {saved_term (w_sys w j) <= saved_term (w_sys w i) /\ no_older (log_of w i) (log_of w j)} + {~ (saved_term (w_sys w j) <= saved_term (w_sys w i) /\ no_older (log_of w i) (log_of w j))}.
Proof.
  intros w i j. unfold no_older.
  destruct (lt_or_le (saved_term (w_sys w i)) (saved_term (w_sys w j))) as [T|T]; [right; lia|].
  destruct (lt_or_le (end_term (log_of w j)) (end_term (log_of w i))) as [T1|T1]; [left; auto|].
  destruct (N.eq_dec (end_term (log_of w i)) (end_term (log_of w j))) as [T2|T2]; [|right; lia].
  destruct (lt_or_le (a_next (log_of w i)) (a_next (log_of w j))) as [T3|T3]; [right; lia | left; auto].
Qed.
Theorem C110_support_partial : forall servers prm w0 w, cluster_okay servers -> no_snapshots prm -> (2 <= length servers)%nat ->
  (forall i, In i (ids servers) -> pm_prevote (prm i) = true) -> initial servers w0 -> reach servers prm w0 w ->
  no_support servers w \/ exists i w' n, In i (ids servers) /\ reach servers prm w w' /\ w_sys w' i = Up n /\ n_role n = Leader.
Proof.
  intros servers prm w0 w HC HS Hl HP Hi Hr.
  set (V := fun i => filter (fun j => if Z.eq_dec j i then true else if consents_dec w i j then true else false) (ids servers)).
  assert (VI : forall i j, In j (V i) <-> In j (ids servers) /\ (j = i \/ (saved_term (w_sys w j) <= saved_term (w_sys w i) /\ no_older (log_of w i) (log_of w j)))).
  { intros i j. unfold V. rewrite filter_In. destruct (Z.eq_dec j i) as [E|E]; [tauto|]. destruct (consents_dec w i j) as [X|X]; [tauto|]. split; [intros (_ & Y); discriminate | tauto]. }
  assert (Nid : NoDup (ids servers)) by apply HC.
  destruct (Exists_dec (fun i => length (ids servers) < 2 * length (V i))%nat (ids servers)) as [E|E]; [intros i; apply lt_dec| |].
  - right. apply Exists_exists in E. destruct E as (i & I1 & Q).
    destruct (C110_can_lead_partial servers prm w0 w (V i) i HC HS Hl Hi Hr) as (w' & n & es & A1 & A2 & A3 & _).
    + apply NoDup_filter, Nid.
    + intros j Hj. apply VI in Hj. apply Hj.
    + exact Q.
    + apply VI. auto.
    + apply HP, I1.
    + intros j Hj D. apply VI in Hj. destruct Hj as (Hj & [X|(X1 & X2)]); [congruence|]. split; [intros _; apply HP, Hj | auto].
    + exists i, w', n. auto.
  - left. intros i U I1 NU IU _ H. destruct (le_lt_dec (2 * length U) (length (ids servers))) as [X|X]; [exact X|]. exfalso. apply E, Exists_exists. exists i. split; [exact I1|].
    assert (Y := NoDup_incl_length NU (l' := V i)). enough (length U <= length (V i))%nat by lia. apply Y. intros j Hj. apply VI. split; [apply IU, Hj|].
    destruct (Z.eq_dec j i) as [D|D]; [left; exact D | right; apply H; assumption].
Qed.

(** with two or three servers that means that they are at odds *)
Lemma odds_or_pair : forall servers w, at_odds servers w \/
  exists i j, In i (ids servers) /\ In j (ids servers) /\ i <> j /\ no_older (log_of w i) (log_of w j) /\ saved_term (w_sys w j) <= saved_term (w_sys w i).
Proof.
  intros servers w. unfold at_odds.
  set (P := fun ij : Z * Z => fst ij <> snd ij /\ no_older (log_of w (fst ij)) (log_of w (snd ij)) /\ saved_term (w_sys w (snd ij)) <= saved_term (w_sys w (fst ij))).
  assert (Dec : forall x, {P x} + {~ P x}).
  { intros [i j]. unfold P, no_older. cbn [fst snd]. destruct (Z.eq_dec i j) as [E|E]; [right; tauto|].
    destruct (lt_or_le (saved_term (w_sys w i)) (saved_term (w_sys w j))) as [T|T]; [right; lia|].
    destruct (lt_or_le (end_term (log_of w j)) (end_term (log_of w i))) as [T1|T1]; [left; auto|].
    destruct (N.eq_dec (end_term (log_of w i)) (end_term (log_of w j))) as [T2|T2]; [|right; lia].
    destruct (lt_or_le (a_next (log_of w i)) (a_next (log_of w j))) as [T3|T3]; [right; lia | left; auto]. }
  destruct (Exists_dec P (list_prod (ids servers) (ids servers)) Dec) as [H|H].
  - right. apply Exists_exists in H. destruct H as ([i j] & I1 & H1 & H2 & H3). apply in_prod_iff in I1. exists i, j. tauto.
  - left. intros i j Hi Hj D. destruct (lt_or_le (saved_term (w_sys w i)) (saved_term (w_sys w j))) as [T|T]; [left; exact T|].
    right. intros O. apply H, Exists_exists. exists (i, j). split; [apply in_prod; assumption|]. split; [exact D | split; assumption].
Qed.
Theorem C110_three_servers_partial : forall servers prm w0 w, cluster_okay servers -> no_snapshots prm -> length servers = 2%nat \/ length servers = 3%nat ->
  (forall i, In i (ids servers) -> pm_prevote (prm i) = true) -> initial servers w0 -> reach servers prm w0 w ->
  at_odds servers w \/ exists i w' n, In i (ids servers) /\ reach servers prm w w' /\ w_sys w' i = Up n /\ n_role n = Leader.
Proof.
  intros servers prm w0 w HC HS Hl HP Hi Hr. destruct (odds_or_pair servers w) as [O|(i & j & I1 & I2 & D & O & T)]; [left; exact O|]. right.
  destruct (C110_can_lead_partial servers prm w0 w [i; j] i HC HS ltac:(lia) Hi Hr) as (w' & n & es & A1 & A2 & A3 & _).
  - constructor; [intros [X|[]]; congruence | constructor; [intros [] | constructor]].
  - intros x [<-|[<-|[]]]; assumption.
  - unfold ids. rewrite map_length. cbn [length]. lia.
  - left. reflexivity.
  - apply HP, I1.
  - intros x [<-|[<-|[]]] Dx; [congruence|]. split; [intros _; apply HP, I2 | auto].
  - exists i, w', n. auto.
Qed.

(** ** The hypotheses are met by the run of C110_elects_refuted, just before
    server 1 takes its last entry: server 2 has the greatest term and an
    empty log, but servers 1 and 3 are a majority and server 3 has the newest
    log and the greatest term of the two. *)
Definition near_odds : world := ex_run_with ex_pre_prm (firstn 31 odds_cmds).
Lemma near_state : map (fun i => (saved_term (w_sys near_odds i), end_term (log_of near_odds i), a_next (log_of near_odds i))) (ids ex_servers) = [(1, 1, 2); (3, 0, 1); (2, 1, 2)].
Proof. vm_compute. reflexivity. Qed.
Lemma near_pick : forall (t : Z -> N) (f : Z -> alog), map (fun i => (t i, end_term (f i), a_next (f i))) [1; 2; 3]%Z = [(1, 1, 2); (3, 0, 1); (2, 1, 2)] ->
  (forall j, In j [1; 3]%Z -> j <> 3%Z -> no_older (f 3%Z) (f j) /\ t j <= t 3%Z) /\ ~ t 2%Z <= t 3%Z.
Proof.
  intros t f F. cbn [map] in F. injection F as A1 A2 A3 B1 B2 B3 C1 C2 C3. unfold no_older. split; [|lia].
  intros j [<-|[<-|[]]] D; [|congruence]. rewrite A1, A2, A3, C1, C2, C3. lia.
Qed.
Example C110_can_lead_example : ids ex_servers = [1; 2; 3]%Z /\ cluster_okay ex_servers /\ no_snapshots (fun _ => ex_pre_prm) /\ (2 <= length ex_servers)%nat /\ initial ex_servers ex_world /\
  reach ex_servers (fun _ => ex_pre_prm) ex_world near_odds /\ pm_prevote ex_pre_prm = true /\
  NoDup [1; 3]%Z /\ incl [1; 3]%Z (ids ex_servers) /\ (length (ids ex_servers) < 2 * length [1; 3]%Z)%nat /\
  (forall j, In j [1; 3]%Z -> j <> 3%Z -> (pm_defensive ex_pre_prm = true -> pm_prevote ex_pre_prm = true) /\ no_older (log_of near_odds 3) (log_of near_odds j) /\ saved_term (w_sys near_odds j) <= saved_term (w_sys near_odds 3)) /\
  ~ saved_term (w_sys near_odds 2) <= saved_term (w_sys near_odds 3).
Proof.
  split; [reflexivity|]. split; [exact ex_okay|]. split; [intros i; reflexivity|]. split; [cbn; lia|]. split; [exact ex_initial|]. split; [apply ex_reach_with|]. split; [reflexivity|].
  split; [repeat constructor; cbn; intuition lia|]. split; [intros j [<-|[<-|[]]]; cbn; auto|]. split; [cbn; lia|].
  destruct (near_pick (fun i => saved_term (w_sys near_odds i)) (log_of near_odds) near_state) as (P1 & P2).
  split; [|exact P2]. intros j Hj D. split; [intros _; reflexivity | exact (P1 j Hj D)].
Qed.

(** the other hypotheses of [C110_commits_partial] in the same state *)
Lemma near_fresh : (dk_commit (sys_disk (w_sys near_odds 3%Z)) <? a_next (log_of near_odds 3)) = true.
Proof. vm_compute. reflexivity. Qed.
Example C110_commits_example : 1 <= pm_max_append ex_pre_prm /\ (0 <= pm_el_upper ex_pre_prm)%Z /\ client_req fig8_req /\ rq_entries fig8_req = [mkEV 0 app_log [x61]; mkEV 0 app_log [x62]] /\
  dk_commit (sys_disk (w_sys near_odds 3%Z)) < a_next (log_of near_odds 3).
Proof.
  split; [vm_compute; discriminate|]. split; [vm_compute; discriminate|]. split; [split; [reflexivity | intros e [<-|[<-|[]]]; discriminate]|]. split; [reflexivity|]. apply N.ltb_lt, near_fresh.
Qed.
(** the cluster that came to rest in C109: all three servers are in term 0 *)
Lemma rest_terms : map (fun i => saved_term (w_sys rest_run i)) (ids ex_servers) = [0; 0; 0].
Proof. vm_compute. reflexivity. Qed.
Example C110_same_term_example : reach ex_servers (fun _ => ex_pre_prm) ex_world rest_run /\ NoDup (ids ex_servers) /\ (length (ids ex_servers) < 2 * length (ids ex_servers))%nat /\
  (forall i, In i (ids ex_servers) -> saved_term (w_sys rest_run i) = 0) /\
  exists i w' n, In i (ids ex_servers) /\ reach ex_servers (fun _ => ex_pre_prm) rest_run w' /\ w_sys w' i = Up n /\ n_role n = Leader.
Proof.
  assert (R : reach ex_servers (fun _ => ex_pre_prm) ex_world rest_run) by apply ex_reach_with. split; [exact R|].
  assert (N : NoDup (ids ex_servers)) by (repeat constructor; cbn; intuition lia). split; [exact N|]. assert (L : (length (ids ex_servers) < 2 * length (ids ex_servers))%nat) by (cbn; lia). split; [exact L|].
  assert (T : forall i, In i (ids ex_servers) -> saved_term (w_sys rest_run i) = 0).
  { intros i Hi. assert (X := in_map (fun i => saved_term (w_sys rest_run i)) _ _ Hi). rewrite rest_terms in X. destruct X as [X|[X|[X|[]]]]; symmetry; exact X. }
  split; [exact T|].
  destruct (C110_same_term_partial ex_servers (fun _ => ex_pre_prm) ex_world rest_run (ids ex_servers) 0 ex_okay (fun _ => eq_refl) ltac:(cbn; lia) ex_initial R N (incl_refl _) L (fun _ _ => eq_refl) T)
    as (i & w' & n & A1 & A2 & A3 & A4 & _). exists i, w', n. auto.
Qed.
(** both cases of [C110_three_servers_partial] occur *)
Example C110_three_servers_example : length ex_servers = 3%nat /\ reach ex_servers (fun _ => ex_pre_prm) ex_world odds_run /\ at_odds ex_servers odds_run /\
  reach ex_servers (fun _ => ex_pre_prm) ex_world near_odds /\ ~ at_odds ex_servers near_odds.
Proof.
  split; [reflexivity|]. split; [apply ex_reach_with|]. split; [apply odds_fresh|]. split; [apply ex_reach_with|]. intros O.
  destruct (near_pick (fun i => saved_term (w_sys near_odds i)) (log_of near_odds) near_state) as (P1 & _).
  destruct (P1 1%Z ltac:(left; reflexivity) ltac:(discriminate)) as (Q1 & Q2).
  destruct (O 3%Z 1%Z) as [X|X]; [right; right; left; reflexivity | left; reflexivity | discriminate | | exact (X Q1)].
  exact (N.lt_irrefl _ (N.lt_le_trans _ _ _ X Q2)).
Qed.

(** both cases of [C110_support_partial] occur *)
Example C110_support_example : (forall i, In i (ids ex_servers) -> pm_prevote ex_pre_prm = true) /\ reach ex_servers (fun _ => ex_pre_prm) ex_world odds_run /\ no_support ex_servers odds_run /\
  reach ex_servers (fun _ => ex_pre_prm) ex_world near_odds /\ ~ no_support ex_servers near_odds.
Proof.
  split; [reflexivity|]. split; [apply ex_reach_with|]. split; [|split; [apply ex_reach_with|]].
  - destruct odds_fresh as (_ & Od). intros j V Hj NV IV _ H.
    assert (X := NoDup_incl_length NV (l' := [j])). cbn [length] in X. enough (length V <= 1)%nat by (cbn; lia). apply X.
    intros k Hk. destruct (Z.eq_dec k j) as [->|D]; [left; reflexivity|]. exfalso. destruct (H k Hk D) as (Y1 & Y2).
    destruct (Od j k Hj (IV k Hk) ltac:(congruence)) as [Z|Z]; [exact (N.lt_irrefl _ (N.lt_le_trans _ _ _ Z Y1)) | exact (Z Y2)].
  - intros H. destruct (near_pick (fun i => saved_term (w_sys near_odds i)) (log_of near_odds) near_state) as (P1 & _).
    assert (X := H 3%Z [1; 3]%Z ltac:(cbn; auto) ltac:(repeat constructor; cbn; intuition lia) ltac:(intros j [<-|[<-|[]]]; cbn; auto) ltac:(cbn; auto)). cbn [length] in X.
    assert (Y : (2 * 2 <= length (ids ex_servers))%nat) by (apply X; intros j Hj D; destruct (P1 j Hj D) as (Q1 & Q2); split; [exact Q2 | exact Q1]). cbn in Y. lia.
Qed.

Print Assumptions C110_can_lead_partial.
Print Assumptions C110_commits_partial.
Print Assumptions C110_same_term_partial.
Print Assumptions C110_support_partial.
Print Assumptions C110_three_servers_partial.
