(** * P_Accept: what a client knows when its request has been accepted (C107)

    The answer to a client's request is sent as soon as the leader has stored the entries, before
    any other server has them.  What the answer says about the future of the entries. *)

From Verif Require Import Base Buffer Codec CodecSpec Msg FsLogStore FsLogSpec Alog Raft RaftQuiet RaftTrace RaftTrace3 NodeSpec NodeLife ServerSpec NodeFacts AppendFacts NodeExamples P_Leader Cluster ClusterElect ClusterLog ClusterRun ClusterExamples
  P_Cluster Runs P_Recover P_Avail.
Local Open Scope N_scope.

(** at server [i] the request [q] of a client has been accepted with the answer [x]: the world was
    [w] before and is [w'] after *)
Definition accepts (servers : list srv_config) (w : world) (i : Z) (n : node) (q : req) (x : resp_msg) (w' : world) : Prop :=
  In i (ids servers) /\ w_sys w i = Up n /\ client_req q /\ rs_accepted x = true /\
  exists now n' l, run_event (ERequest now q) n = (ROk (Response x), n', l) /\ w' = next_world w i (Up n') [mkObs (ERequest now q) l (Some (Response x))].
(** the place of its [k]-th entry *)
Definition place (q : req) (x : resp_msg) (k : nat) : N := rs_next_idx x - lenN (rq_entries q) + N.of_nat k.

Section Accept.
  Variable servers : list srv_config.
  Variable prm : Z -> params.
  Hypothesis HC : cluster_okay servers.
  Hypothesis HS : no_snapshots prm.
  Notation ids := (Cluster.ids servers).
  Notation reach := (reach servers prm).
  Notation step := (step servers prm).
  Notation einv := (einv servers).
  Notation linv := (linv servers).

  Lemma grows_refl : forall tl, grows tl tl.
  Proof. intros tl t k e _. apply agree_refl. Qed.
  Lemma grows_trans : forall a b c, grows a b -> grows b c -> grows a c.
  Proof. intros a b c G1 G2 t k e H. assert (X := G1 t k e H). eapply agree_trans; [exact X|]. apply (G2 t k e). rewrite <- (X k); [exact H | lia]. Qed.
  Lemma get_old : forall l x k e, a_get l k = Some e -> agree k l (a_replace l (a_next l) [x]).
  Proof. intros l x k e H j Hj. apply a_get_some in H. rewrite a_get_append. destruct (j =? a_next l) eqn:E; [lia | reflexivity]. Qed.
  Lemma evolves_grows : forall s A tl i n l tl', einv s A -> linv s A tl -> In i ids -> s i = Up n -> evolves servers A n l tl tl' -> grows tl tl'.
  Proof.
    intros s A tl i n l tl' E L Hi Hs [->|[(_ & N & ->)|(x & _ & R & T & ->)]].
    - apply grows_refl.
    - intros t k e H. destruct (N.eq_dec t (n_term n)) as [->|D]; [|rewrite tput_other by exact D; apply agree_refl]. rewrite (l_none _ _ _ _ L _ N) in H. rewrite get_empty in H. discriminate.
    - intros t k e H. destruct (N.eq_dec t (n_term n)) as [->|D]; [|rewrite tput_other by exact D; apply agree_refl]. rewrite tput_same.
      assert (S := e_static _ _ _ E i Hi). rewrite Hs in S. destruct S as ((_ & Ssy & _) & _).
      assert (Tn : term_of (s i) = n_term n) by (rewrite Hs; unfold term_of, sys_disk; rewrite Ssy; reflexivity).
      assert (Q := l_led _ _ _ _ L i _ Hi (e_role _ _ _ E i n Hi Hs R) Tn). rewrite Hs in Q. change (slog (Up n)) with (n_log n) in Q. rewrite <- Q in *. eapply get_old, H.
  Qed.
  Lemma tr_grow : forall e n l n', tr e n l n' -> forall s A tl i, einv s A -> linv s A tl -> In i ids -> s i = Up n -> fe e -> backed servers A i e ->
    exists tl', grows tl tl' /\ einv (put s i (Up n')) (put A i (A i ++ l)) /\ linv (put s i (Up n')) (put A i (A i ++ l)) tl'.
  Proof.
    intros e n l n' H. induction H; intros s A tl i E L Hi Hs F K.
    - assert (XS : forall j, put s i (Up n) j = s j) by (intros j; destruct (Z.eq_dec j i) as [->|Hne]; [rewrite put_same, Hs | rewrite put_other by exact Hne]; reflexivity).
      assert (XA : forall j, put A i (A i ++ []) j = A j) by (intros j; destruct (Z.eq_dec j i) as [->|Hne]; [rewrite put_same; apply app_nil_r | rewrite put_other by exact Hne; reflexivity]).
      exists tl. split; [apply grows_refl|]. split; [apply (einv_ext servers s A) | apply (linv_ext servers s A)]; assumption.
    - destruct (linv_step servers HC s A tl i n e l n1 E L Hi Hs F K H) as (tl1 & Ev & L1). assert (G1 := evolves_grows s A tl i n l tl1 E L Hi Hs Ev).
      assert (E1 := einv_step servers HC s A i n e l n1 E Hi Hs F K H).
      destruct (IHtr _ _ tl1 i E1 L1 Hi (put_same _ _ _ _) F (backed_mono _ _ _ _ _ _ K)) as (tl2 & G2 & E2 & L2).
      exists tl2. split; [eapply grows_trans; eassumption|]. rewrite put_same in *. rewrite <- app_assoc in *.
      split; [eapply einv_ext; [|  |exact E2] | eapply linv_ext; [| |exact L2]];
        (intros j; destruct (Z.eq_dec j i) as [->|Hne]; [rewrite !put_same | rewrite !put_other by exact Hne]; reflexivity).
  Qed.

  (** what an event did up to some point of its trace, whatever the server is afterwards *)
  Lemma step_cases : forall w w', winv servers prm w -> step w w' ->
    (exists i d, In i ids /\ w_sys w i = Down d /\ w' = next_world w i (Up (start_node i (prm i) d)) []) \/
    (exists i n e l n' x a, In i ids /\ w_sys w i = Up n /\ fe e /\ backed servers (w_acts w) i e /\ tr e n l n' /\ (x = Up n' \/ x = Down (n_disk n')) /\
       w' = next_world w i x [mkObs e l a]).
  Proof.
    intros w w' W H. destruct H; [right|right|right|left; eauto].
    all: destruct (possible_fe servers prm HC w i e W H H1) as [F K]; assert (S := e_static _ _ _ (w_e _ _ _ W) i H); rewrite H0 in S; destruct S as (_ & Sl & _); cbn [sys_disk] in Sl.
    all: assert (St : 1 <= al_start (n_log n)) by (unfold n_log; lia); assert (HT := proj1 (run_event_tr e n St _ _ _ H2)).
    - exists i, n, e, l, n', (Up n'), (answer_of r). auto 9.
    - exists i, n, e, l, n', (Down (n_disk n')), None. auto 9.
    - destruct (tr_prefix _ _ _ _ HT p q eq_refl) as (n1 & HT1). rewrite <- (tr_disk _ _ _ _ HT1). exists i, n, e, p, n1, (Down (n_disk n1)), None. auto 9.
  Qed.
  Lemma start_acts : forall w i x j, w_acts (next_world w i x []) j = w_acts w j.
  Proof. intros w i x j. unfold w_acts, next_world. cbn [w_hist]. destruct (Z.eq_dec j i) as [->|Hne]; [rewrite put_same, app_nil_r | rewrite put_other by exact Hne]; reflexivity. Qed.
  Lemma step_grow : forall w w' tl, winv servers prm w -> step w w' -> linv (w_sys w) (w_acts w) tl -> exists tl', grows tl tl' /\ linv (w_sys w') (w_acts w') tl'.
  Proof.
    intros w w' tl W H L. destruct (step_cases w w' W H) as [(i & d & Hi & Hs & ->)|(i & n & e & l & n' & x & a & Hi & Hs & F & K & HT & Hx & ->)].
    - exists tl. split; [apply grows_refl|]. eapply linv_ext; [intros; reflexivity | apply start_acts|]. cbn [next_world w_sys]. apply (linv_disk servers); [exact L | exact Hi|].
      rewrite Hs. cbn [sys_disk]. apply start_disk.
    - destruct (tr_grow e n l n' HT _ _ tl i (w_e _ _ _ W) L Hi Hs F K) as (tl' & G & E' & L'). exists tl'. split; [exact G|].
      eapply linv_ext; [intros; reflexivity | apply acts_next|]. cbn [next_world w_sys]. destruct Hx as [-> | ->]; [exact L'|].
      assert (XS : forall j, put (w_sys w) i (Down (n_disk n')) j = put (put (w_sys w) i (Up n')) i (Down (sys_disk (put (w_sys w) i (Up n') i))) j).
      { intros j. rewrite (put_same _ (w_sys w)). destruct (Z.eq_dec j i) as [->|Hne]; [rewrite !put_same | rewrite !put_other by exact Hne]; reflexivity. }
      eapply linv_ext; [exact XS | intros; reflexivity|]. apply (linv_disk servers); [exact L' | exact Hi | reflexivity].
  Qed.
  Lemma reach_grow : forall w0 w w' tl, initial servers w0 -> reach w0 w -> reach w w' -> linv (w_sys w) (w_acts w) tl ->
    exists tl', grows tl tl' /\ linv (w_sys w') (w_acts w') tl'.
  Proof.
    intros w0 w w' tl I0 R R' L. induction R' as [|w1 w2 R' IH St]; [exists tl; split; [apply grows_refl | exact L]|].
    destruct IH as (tl1 & G1 & L1). assert (W := reach_winv servers prm HC HS w0 w1 I0 (reach_trans _ _ _ _ _ R R')).
    destruct (step_grow w1 w2 tl1 W St L1) as (tl2 & G2 & L2). exists tl2. split; [eapply grows_trans; eassumption | exact L2].
  Qed.

  (** an entry a server has is the entry of its term at its place, for ever *)
  Lemma same_entry : forall w0 w w' i K e, initial servers w0 -> reach w0 w -> In i ids -> a_get (log_of w i) K = Some e -> reach w w' ->
    (forall j f, In j ids -> a_get (log_of w' j) K = Some f -> ev_term f = ev_term e -> f = e) /\
    (forall j f, applied servers w' j K f -> ev_term f = ev_term e -> f = e).
  Proof.
    intros w0 w w' i K e I0 R Hi Hg R'. destruct (w_l _ _ _ (reach_winv servers prm HC HS w0 w I0 R)) as (tl & L).
    destruct (reach_grow w0 w w' tl I0 R R' L) as (tl' & G & L').
    assert (X : a_get (tl' (ev_term e)) K = Some e).
    { assert (M := l_logs _ _ _ _ L i Hi K e Hg). assert (X : a_get (tl (ev_term e)) K = Some e) by (rewrite <- (M K); [exact Hg | lia]). rewrite <- (G _ _ _ X K); [exact X | lia]. }
    split.
    - intros j f Hj Hf T. assert (M := l_logs _ _ _ _ L' j Hj K f Hf K (N.le_refl K)). change (slog (w_sys w' j)) with (log_of w' j) in M. rewrite Hf, T, X in M. congruence.
    - intros j f (Hj & Hf) T. assert (M := l_app _ _ _ _ L' j K f Hj Hf). rewrite T, X in M. congruence.
  Qed.

  (** a server that led the term of an entry only gives the entry up for the leader of a later term *)
  Definition replaced_by (t K : N) (o : obs) : Prop :=
    exists now q, o_event o = ERequest now q /\ rq_type q = append_entries_request /\ t < rq_term q /\ rq_last_idx q < K.
  Lemma keep_tr : forall e n l n', tr e n l n' -> forall s A i K x t, einv s A -> In i ids -> s i = Up n -> fe e -> backed servers A i e -> In t (leads (A i)) ->
    a_get (n_log n) K = Some x -> a_get (n_log n') K = Some x \/ exists now q, e = ERequest now q /\ rq_type q = append_entries_request /\ t < rq_term q /\ rq_last_idx q < K.
  Proof.
    intros e n l n' H. induction H; intros s A i K x t E Hi Hs F B Ht Hg; [left; exact Hg|].
    assert (Go : a_get (n_log n1) K = Some x -> a_get (n_log n2) K = Some x \/ exists now q, e = ERequest now q /\ rq_type q = append_entries_request /\ t < rq_term q /\ rq_last_idx q < K).
    { intros G1. eapply (IHtr _ _ i K x t (einv_step servers HC s A i n e l n1 E Hi Hs F B H) Hi (put_same _ _ _ _) F (backed_mono _ _ _ _ _ _ B)); [|exact G1].
      rewrite put_same, leads_app. apply in_or_app. left. exact Ht. }
    clear IHtr. assert (S := e_static _ _ _ E i Hi). rewrite Hs in S. destruct S as ((_ & Ssy & _) & Sl & _). cbn [sys_disk] in Sl. change (dk_log (n_disk n)) with (n_log n) in Sl.
    assert (Later : forall q, req_of e q -> rq_type q = append_entries_request -> rq_term q = n_term n -> t < rq_term q).
    { intros q (now & ->) Tq Te. destruct (B Tq) as (k & Hk & Sq & Dq). destruct (e_ae _ _ _ E k q Hk Sq) as (E1 & E2 & E3 & _).
      destruct (e_led _ _ _ E k _ Hk E3) as [El _]. destruct (e_led _ _ _ E i _ Hi Ht) as [Er Le]. rewrite Hs in Le.
      assert (Tn : term_of (Up n) = n_term n) by (unfold term_of; cbn [sys_disk]; rewrite Ssy; reflexivity).
      assert (t <> rq_term q); [|lia]. intros D. rewrite <- D in El. assert (X := elected_unique servers HC _ _ _ k i E Hk Hi El Er). congruence. }
    destruct (astep_leads _ _ _ _ H) as [_|(-> & _ & ->)]; [|apply Go; exact Hg].
    assert (H1 := H). destruct H1; try (apply Go; exact Hg).
    - apply Go. destruct H1 as (ps & q & j & -> & _). exact Hg.
    - apply Go. rewrite (proj1 (core_upd _ _ H1)). exact Hg.
    - apply Go. change (n_log (apply_act (AAppend e0) n)) with (a_replace (n_log n) (a_next (n_log n)) [e0]). rewrite a_get_append. apply a_get_some in Hg as Hg'. replace (K =? _) with false by lia. exact Hg.
    - exfalso. rewrite (fe_conf e F) in H1. discriminate.
    - destruct (N.lt_ge_cases K i0) as [D|D].
      + apply Go. change (n_log (apply_act (AWriteAt i0 e0) n)) with (a_replace (n_log n) i0 [e0]). rewrite a_get_write by apply H8. replace (K <? i0) with true by lia. exact Hg.
      + right. assert (T := Later q H1 H2 H4). destruct H1 as (now & ->). exists now, q. split; [reflexivity|]. split; [exact H2|]. split; [exact T | lia].
    - apply Go. change (n_log (apply_act (AAppend e0) n)) with (a_replace (n_log n) (a_next (n_log n)) [e0]). rewrite a_get_append. apply a_get_some in Hg as Hg'. replace (K =? _) with false by lia. exact Hg.
    - apply Go. destruct H3 as (H3 & _ & H4). assert (Q : n_log n' = n_log n) by (unfold n_log; rewrite H4; apply (fold_conf _ _ _ H3)). rewrite Q. exact Hg.
    - exfalso. eapply fe_req; [exact F | exact H1 | exact H2 | discriminate..].
    - exfalso. destruct H1 as [(q & Q & T)|(sn & d & ok & Q)]; [eapply fe_req; [exact F | exact Q | exact T | discriminate..] | subst e; destruct F].
    - apply Go. destruct a; try contradiction; exact Hg.
  Qed.
End Accept.

(** a server that accepts a client's request is leader, and has stored the entries *)
Lemma is_leader_cases : forall now n, exists b e, is_leader now n = (ROk b, set_elapsed e n, []) /\ (b = true -> n_role n = Leader).
Proof.
  intros now n. unfold is_leader. rewrite bind_get. cbv zeta.
  assert (K : exists b e, ret (match n_role n with Leader => true | _ => false end) n = (ROk b, set_elapsed e n, []) /\ (b = true -> n_role n = Leader)).
  { exists (match n_role n with Leader => true | _ => false end), (n_elapsed n). split; [destruct n; reflexivity|]. destruct (n_role n); congruence. }
  destruct (_ && _); [|exact K]. rewrite bind_modify. set (e := to_int32 _). destruct (_ <? e)%Z.
  - exists false, e. split; [reflexivity | discriminate].
  - exists (match n_role n with Leader => true | _ => false end), e. split; [reflexivity|]. destruct (n_role n); congruence.
Qed.
Lemma accepted_stored : forall n now q x n' l, rq_type q = client_request -> run_event (ERequest now q) n = (ROk (Response x), n', l) -> rs_accepted x = true ->
  n_role n = Leader /\ n_log n' = log_plus (n_log n) (map (stamp (n_term n)) (rq_entries q)) /\ rs_next_idx x = a_next (n_log n').
Proof.
  intros n now q x n' l Hq. cbn [run_event]. destruct (is_leader_cases now n) as (b & e & E & Hb).
  assert (P : process_req now q n = handle_cli_req now q n) by (apply process_cli_req; exact Hq).
  unfold bind at 1. rewrite P. unfold handle_cli_req. rewrite (bind_ok _ _ _ _ _ _ _ _ E), after_nil, bind_get.
  change (n_role (set_elapsed e n)) with (n_role n). change (n_term (set_elapsed e n)) with (n_term n). destruct b.
  - rewrite (Hb eq_refl). rewrite (bind_ok _ _ _ _ _ _ _ _ (cli_append_eq _ _ _)). change (n_log (set_elapsed e n)) with (n_log n).
    set (n1 := set_log _ (set_elapsed e n)). assert (L1 : n_log n1 = log_plus (n_log n) (map (stamp (n_term n)) (rq_entries q))) by apply log_set_log.
    clearbody n1. destruct (request_append_entries n1) as [[y n2] l2] eqn:E2.
    destruct (request_append_entries_ht n1 _ _ _ E2) as [Q _]. destruct (quiet_log _ _ _ Q) as (Q1 & _).
    unfold bind at 1. rewrite E2. destruct y as [u| | |]; unfold after; cbn [fst snd]; [|discriminate..].
    unfold next_slot_. rewrite bind_get. unfold ret. cbn [fst snd]. intros X _. injection X as <- <- <-. split; [reflexivity|]. split; [congruence|]. cbn. congruence.
  - intros X Ha. exfalso. destruct (n_role n); unfold ret in X; cbn [fst snd] in X; injection X as <- <- <-; discriminate Ha.
Qed.

(** its entries are in the leader's log, which is in its files: it finds them after a crash *)
Theorem C107_stored : forall servers w i n q x w' k e, accepts servers w i n q x w' -> nth_error (rq_entries q) k = Some e ->
  n_role n = Leader /\ a_get (log_of w' i) (place q x k) = Some (stamp (n_term n) e).
Proof.
  intros servers w i n q x w' k e (Hi & Wi & Hq & Ha & now & n' & l & E & ->) Hk. destruct (accepted_stored n now q x n' l (proj1 Hq) E Ha) as (R & L & X). split; [exact R|].
  unfold log_of, next_world. cbn [w_sys]. rewrite put_same. cbn [sys_disk]. change (dk_log (n_disk n')) with (n_log n'). unfold place. rewrite X, L, next_plus.
  unfold lenN. rewrite map_length. replace (a_next (n_log n) + N.of_nat (length (rq_entries q)) - N.of_nat (length (rq_entries q)) + N.of_nat k) with (a_next (n_log n) + N.of_nat k) by lia.
  apply get_new. rewrite nth_error_map, Hk. reflexivity.
Qed.
Lemma accepts_reach : forall servers prm w i n q x w', accepts servers w i n q x w' -> reach servers prm w w'.
Proof.
  intros servers prm w i n q x w' (Hi & Wi & Hq & Ha & now & n' & l & E & ->). apply reach_one. exact (W_event servers prm w i n (ERequest now q) (ROk (Response x)) n' l Hi Wi (or_intror Hq) E eq_refl).
Qed.

(** No server ever has, and no state machine is ever given, anything else that the leader's term put
    at that place. *)
Theorem C107_at_its_place : forall servers prm w0 w i n q x w' w2 k e, cluster_okay servers -> no_snapshots prm -> initial servers w0 -> reach servers prm w0 w ->
  accepts servers w i n q x w' -> nth_error (rq_entries q) k = Some e -> reach servers prm w' w2 ->
  forall j f, a_get (log_of w2 j) (place q x k) = Some f /\ In j (ids servers) \/ applied servers w2 j (place q x k) f -> ev_term f = n_term n -> f = stamp (n_term n) e.
Proof.
  intros servers prm w0 w i n q x w' w2 k e HC HS I0 R A Hk R2 j f Hf T. destruct (C107_stored servers w i n q x w' k e A Hk) as (_ & G). assert (R1 := accepts_reach servers prm _ _ _ _ _ _ A).
  destruct (same_entry servers prm HC HS w0 w' w2 i _ _ I0 (reach_trans _ _ _ _ _ R R1) (proj1 A) G R2) as (S1 & S2).
  destruct Hf as [(Hf & Hj)|Hf]; [apply (S1 j); assumption | apply (S2 j); assumption].
Qed.

(** The server that accepted the request keeps the entry, through crashes and restarts, until it
    handles a message of the leader of a later term. *)
Theorem C107_kept : forall servers prm w0 w i n q x w' w2 k e, cluster_okay servers -> no_snapshots prm -> initial servers w0 -> reach servers prm w0 w ->
  accepts servers w i n q x w' -> nth_error (rq_entries q) k = Some e -> reach servers prm w' w2 ->
  a_get (log_of w2 i) (place q x k) = Some (stamp (n_term n) e) \/
  exists h1 o h2, w_hist w2 i = w_hist w' i ++ h1 ++ o :: h2 /\ replaced_by (n_term n) (place q x k) o.
Proof.
  intros servers prm w0 w i n q x w' w2 k e HC HS I0 R A Hk R2. destruct (C107_stored servers w i n q x w' k e A Hk) as (Rl & G). assert (R1 := accepts_reach servers prm _ _ _ _ _ _ A).
  assert (Hi := proj1 A). set (K := place q x k) in *. set (t := n_term n) in *.
  assert (Ld : In t (leads (w_acts w' i))).
  { assert (L0 := e_role _ _ _ (w_e _ _ _ (reach_winv servers prm HC HS w0 w I0 R)) i n Hi (proj1 (proj2 A)) Rl).
    destruct A as (_ & _ & _ & _ & now & n' & l & _ & ->). rewrite acts_next, put_same, leads_app. apply in_or_app. left. exact L0. }
  assert (R0 : reach servers prm w0 w') by (eapply reach_trans; eassumption).
  induction R2 as [|w1 w2 R2 IH St]; [left; exact G|].
  assert (W := reach_winv servers prm HC HS w0 w1 I0 (reach_trans _ _ _ _ _ R0 R2)).
  assert (Ld1 : In t (leads (w_acts w1 i))).
  { destruct (reach_later servers prm w' w1 R2 i) as (h & Eh). unfold w_acts, acts_of in *. rewrite Eh, map_app, concat_app, leads_app. apply in_or_app. left. exact Ld. }
  destruct IH as [IH|(h1 & o & h2 & Eh & Ho)].
  - destruct (step_cases servers prm HC w1 w2 W St) as [(i1 & d & Hi1 & Hs & ->)|(i1 & n1 & e1 & l & n' & y & a & Hi1 & Hs & F & B & HT & Hy & ->)].
    + left. rewrite <- IH. f_equal. unfold log_of, next_world. cbn [w_sys]. destruct (Z.eq_dec i i1) as [->|D]; [rewrite put_same, Hs | rewrite put_other by exact D; reflexivity].
      cbn [sys_disk]. rewrite start_disk. reflexivity.
    + destruct (Z.eq_dec i i1) as [->|D].
      * assert (G1 : a_get (n_log n1) K = Some (stamp t e)) by (unfold log_of in IH; rewrite Hs in IH; exact IH).
        assert (Ly : log_of (next_world w1 i1 y [mkObs e1 l a]) i1 = n_log n') by (unfold log_of, next_world; cbn [w_sys]; rewrite put_same; destruct Hy as [-> | ->]; reflexivity).
        destruct (keep_tr servers HC e1 n1 l n' HT _ _ i1 K _ t (w_e _ _ _ W) Hi Hs F B Ld1 G1) as [G2|(now & q1 & -> & Q)]; [left; rewrite Ly; exact G2|].
        right. destruct (reach_later servers prm w' w1 R2 i1) as (h & Eh). exists h, (mkObs (ERequest now q1) l a), []. split; [|exists now, q1; auto].
        unfold next_world. cbn [w_hist]. rewrite put_same, Eh, <- app_assoc. reflexivity.
      * left. rewrite <- IH. unfold log_of, next_world. cbn [w_sys]. rewrite put_other by exact D. reflexivity.
  - right. destruct (reach_later servers prm w1 w2 (reach_one _ _ _ _ St) i) as (h & Eh2). exists h1, o, (h2 ++ h). split; [|exact Ho]. rewrite Eh2, Eh, <- !app_assoc. reflexivity.
Qed.

(** ** What fails

    As long as some majority does not have the entry, the entry can be lost: that majority can go on
    without it and commit something else in its place. *)
Definition more (K : N) : req := mkReq 0 client_request 0 0 0 0 0 (repeat (mkEV 0 app_log [x61]) (N.to_nat K)).
Lemma more_ok : forall K, client_req (more K) /\ lenN (rq_entries (more K)) = K.
Proof.
  intros K. split; [split; [reflexivity|]|].
  - intros e He. unfold more in He. cbn [rq_entries] in He. apply repeat_spec in He. subst e. discriminate.
  - unfold more, lenN. cbn [rq_entries]. rewrite repeat_length. lia.
Qed.
Lemma plus_plus : forall l a b, log_plus (log_plus l a) b = log_plus l (a ++ b).
Proof. intros l a b. unfold log_plus. cbn [al_start al_ents]. rewrite <- app_assoc. reflexivity. Qed.
Theorem C107_can_be_lost_refuted : forall servers prm w0 w V i n K e, cluster_okay servers -> no_snapshots prm -> initial servers w0 -> reach servers prm w0 w ->
  In i (ids servers) -> w_sys w i = Up n -> n_role n = Leader -> a_get (n_log n) K = Some e -> ev_term e = n_term n ->
  NoDup V -> incl V (ids servers) -> (length (ids servers) < 2 * length V)%nat ->
  (forall j, In j V -> pm_prevote (prm j) = false /\ 1 <= pm_max_append (prm j) /\ (0 <= pm_el_upper (prm j))%Z) ->
  (forall j, In j V -> a_get (log_of w j) K <> Some e) ->
  exists j w' m, In j V /\ reach servers prm w w' /\ w_sys w' j = Up m /\ n_role m = Leader /\ K <= n_quick m /\
    forall v, In v V -> exists f, a_get (log_of w' v) K = Some f /\ f <> e.
Proof.
  intros servers prm w0 w V i n K e HC HS I0 R Hi Wi Rl Ge Te NV IV QV HP HV.
  assert (IV' : ~ In i V). { intros X. apply (HV i X). unfold log_of. rewrite Wi. exact Ge. }
  destruct (newest (log_of w) V) as (j & J1 & J2); [intros ->; cbn in QV; lia|]. destruct (HP j J1) as (P1 & P2 & P3). destruct (more_ok K) as (Q1 & Q2).
  destruct (C105_commits_at servers prm w0 w V j (more K) HC HS I0 R NV IV QV J1 J2 P1 P2 P3 Q1)
    as (w' & m & now & l & x & h1 & h2 & A1 & A2 & A3 & A4 & A5 & (es & A6 & A6t) & A7 & A8 & A9 & A10 & A11 & _).
  assert (Sj := e_static _ _ _ (w_e _ _ _ (reach_winv servers prm HC HS w0 w I0 R)) j (IV j J1)). destruct Sj as (_ & Sj & _). change (dk_log (sys_disk (w_sys w j))) with (log_of w j) in Sj.
  assert (Si := e_static _ _ _ (w_e _ _ _ (reach_winv servers prm HC HS w0 w I0 R)) i Hi). rewrite Wi in Si. destruct Si as (_ & Si & _). cbn [sys_disk] in Si. change (dk_log (n_disk n)) with (n_log n) in Si.
  assert (K1 : 1 <= K) by (apply a_get_some in Ge; lia).
  assert (Nx : rs_next_idx x = a_next (log_of w j) + lenN es + K) by (rewrite A7, A6, !next_plus; unfold lenN in *; rewrite map_length; lia).
  assert (N1 : 1 <= a_next (log_of w j)) by (unfold a_next; lia).
  exists j, w', m. split; [exact J1|]. split; [exact A1|]. split; [exact A2|]. split; [exact A3|]. split; [lia|]. intros v Hv.
  assert (F : exists f, a_get (log_of w' j) K = Some f /\ f <> e).
  { destruct (N.lt_ge_cases K (a_next (log_of w j))) as [D|D].
    - destruct (a_get_in (log_of w j) K) as (f & Gf); [lia|]. exists f. split; [rewrite A6, plus_plus; apply get_plus, Gf|]. intros ->. exact (HV j J1 Gf).
    - assert (Nl : (N.to_nat (K - a_next (log_of w j)) < length (es ++ map (stamp (n_term m)) (rq_entries (more K))))%nat).
      { rewrite app_length, map_length. unfold lenN in Q2. lia. }
      destruct (nth_error (es ++ map (stamp (n_term m)) (rq_entries (more K))) (N.to_nat (K - a_next (log_of w j)))) as [f|] eqn:Nf; [|apply nth_error_None in Nf; lia].
      exists f. split.
      + rewrite A6, plus_plus. assert (G := get_new (log_of w j) _ _ _ Nf). replace (a_next (log_of w j) + N.of_nat (N.to_nat (K - a_next (log_of w j)))) with K in G by lia. exact G.
      + intros ->. assert (Tf : n_term m = n_term n).
        { rewrite <- Te. apply nth_error_In in Nf. apply in_app_or in Nf. destruct Nf as [Nf|Nf]; [symmetry; apply A6t, Nf|]. apply in_map_iff in Nf. destruct Nf as (y & Ey & _). rewrite <- Ey. reflexivity. }
        assert (X : j = i); [|congruence].
        apply (C35_one_leader_at_a_time servers prm w0 w' HC I0 (reach_trans _ _ _ _ _ R A1) j i m n (IV j J1) Hi A2); [rewrite (A11 i IV'); exact Wi | exact A3 | exact Rl | exact Tf]. }
  destruct F as (f & F1 & F2). exists f. split; [|exact F2]. rewrite <- (A9 v Hv) by lia. exact F1.
Qed.

(** ** Three servers

    Server 1 leads term 1 and accepts "a"; before anybody else has it, server 2 leads term 2 with
    the vote of 3, and accepts and applies "b" at the same index. *)
Definition taken_cmds : list kcmd := [KStart 1; KStart 2; KStart 3; KDo 1 EElection; KRpc 1 2 0]%Z.
Definition other_cmds : list kcmd :=
  [KDo 2 EElection; KRpc 2 3 0; KDo 2 (EReplicate 0 [x62]); KRpc 2 3 0; KRpc 2 3 0; KDo 2 ECommit; KDo 2 ECommit; KDo 2 ECommit]%Z.
Definition a_req : req := mkReq 0 client_request 0 0 0 0 0 [mkEV 0 app_log [x61]].
Definition taken_out (w : world) : _ * node * list act := match w_sys w 1%Z with Up n => run_event (ERequest 0 a_req) n | Down d => (RExit, start_node 1 ex_prm d, []) end.
Definition taken_next (w : world) : world :=
  next_world w 1%Z (Up (snd (fst (taken_out w)))) [mkObs (ERequest 0 a_req) (snd (taken_out w)) (answer_of (fst (fst (taken_out w))))].
Definition taken : world := taken_next (ex_run taken_cmds).
Definition replaced : world := fold_left (run_k ex_servers (fun _ => ex_prm)) other_cmds taken.
Definition taken_ans : resp_msg := mkResp 1 append_entries_response 1 1 3 true.
Definition up_with (x : sys) (P : node -> Prop) : Prop := exists n, x = Up n /\ P n.
Lemma taken_up : up_with (w_sys (ex_run taken_cmds) 1%Z) (fun n => n_term n = 1).
Proof. vm_compute. eexists. split; reflexivity. Qed.
Lemma taken_ok : fst (fst (taken_out (ex_run taken_cmds))) = ROk (Response taken_ans).
Proof. vm_compute. reflexivity. Qed.
Lemma a_client : client_req a_req.
Proof. split; [reflexivity|]. intros e [<-|[]]. discriminate. Qed.
Lemma in_one : In 1%Z (ids ex_servers).
Proof. left. reflexivity. Qed.
Lemma accepts_next : forall w n x, w_sys w 1%Z = Up n -> fst (fst (taken_out w)) = ROk (Response x) -> rs_accepted x = true -> accepts ex_servers w 1%Z n a_req x (taken_next w).
Proof.
  intros w n x Wn Ho Ha. split; [exact in_one|]. split; [exact Wn|]. split; [exact a_client|]. split; [exact Ha|].
  unfold taken_next. revert Ho. unfold taken_out. rewrite Wn. destruct (run_event (ERequest 0 a_req) n) as [[r n'] l] eqn:E. cbn [fst snd]. intros ->. exists 0, n', l. auto.
Qed.
Lemma taken_accepts : exists n, n_term n = 1 /\ accepts ex_servers (ex_run taken_cmds) 1%Z n a_req taken_ans taken.
Proof. destruct taken_up as (n & Wn & Tn). exists n. split; [exact Tn|]. unfold taken. apply accepts_next; [exact Wn | exact taken_ok | reflexivity]. Qed.
Lemma taken_reach : reach ex_servers (fun _ => ex_prm) ex_world taken.
Proof. destruct taken_accepts as (n & _ & A). eapply reach_trans; [apply (ex_reach taken_cmds) | eapply accepts_reach, A]. Qed.
Lemma replaced_reach : reach ex_servers (fun _ => ex_prm) taken replaced.
Proof. apply run_ks_reach. constructor. Qed.
Lemma replaced_applied : In (2, mkEV 2 app_log [x62]) (commits (w_acts replaced 2%Z)).
Proof. vm_compute. left. reflexivity. Qed.
Lemma commits_in : forall l k e, In (k, e) (commits l) -> In (ACommit k e) l.
Proof. intros l k e. induction l as [|a l IH]; [intros []|]. intros H. destruct a; try (right; apply IH; exact H). destruct H as [H|H]; [inversion H; left; reflexivity | right; apply IH, H]. Qed.

(** an accepted request whose place is taken by another: it is never applied *)
Theorem C107_accepted_refuted : exists servers prm w0 w i n q x w' w2 j f, cluster_okay servers /\ no_snapshots prm /\ initial servers w0 /\ reach servers prm w0 w /\
  accepts servers w i n q x w' /\ reach servers prm w' w2 /\ applied servers w2 j (place q x 0) f /\ Some (ev_data f) <> option_map ev_data (nth_error (rq_entries q) 0).
Proof.
  destruct taken_accepts as (n & _ & A). exists ex_servers, (fun _ => ex_prm), ex_world, (ex_run taken_cmds), 1%Z, n, a_req, taken_ans, taken, replaced, 2%Z, (mkEV 2 app_log [x62]).
  split; [exact ex_okay|]. split; [exact ex_nosnap|]. split; [exact ex_initial|]. split; [apply ex_reach|]. split; [exact A|]. split; [exact replaced_reach|].
  split; [|discriminate]. split; [right; left; reflexivity|]. apply commits_in. exact replaced_applied.
Qed.

(** the hypotheses of the theorems are met: the two other servers do not have the entry *)
Lemma taken_logs : a_get (log_of taken 2%Z) 2 = None /\ a_get (log_of taken 3%Z) 2 = None.
Proof. split; vm_compute; reflexivity. Qed.
Definition leads_with (x : sys) (K : N) (e : entry_val) : Prop := up_with x (fun n => n_role n = Leader /\ a_get (n_log n) K = Some e /\ ev_term e = n_term n).
Lemma taken_leads : leads_with (w_sys taken 1%Z) 2 (mkEV 1 app_log [x61]).
Proof. vm_compute. eexists. split; [reflexivity|]. repeat split. Qed.
Example C107_example : cluster_okay ex_servers /\ no_snapshots (fun _ => ex_prm) /\ initial ex_servers ex_world /\ reach ex_servers (fun _ => ex_prm) ex_world (ex_run taken_cmds) /\
  (exists n, n_term n = 1 /\ accepts ex_servers (ex_run taken_cmds) 1%Z n a_req taken_ans taken) /\ place a_req taken_ans 0 = 2 /\
  reach ex_servers (fun _ => ex_prm) taken replaced /\
  leads_with (w_sys taken 1%Z) 2 (mkEV 1 app_log [x61]) /\ NoDup [2; 3]%Z /\ incl [2; 3]%Z (ids ex_servers) /\ (length (ids ex_servers) < 2 * length [2; 3]%Z)%nat /\
  (forall j, In j [2; 3]%Z -> pm_prevote ex_prm = false /\ 1 <= pm_max_append ex_prm /\ (0 <= pm_el_upper ex_prm)%Z) /\
  (forall j, In j [2; 3]%Z -> a_get (log_of taken j) 2 <> Some (mkEV 1 app_log [x61])).
Proof.
  split; [exact ex_okay|]. split; [exact ex_nosnap|]. split; [exact ex_initial|]. split; [apply ex_reach|]. split; [exact taken_accepts|]. split; [reflexivity|].
  split; [exact replaced_reach|]. split; [exact taken_leads|]. split; [repeat (constructor; [cbn; intuition lia|]); constructor|].
  split; [intros j [<-|[<-|[]]]; [right; left | right; right; left]; reflexivity|]. split; [cbn; lia|].
  split; [intros j _; split; [reflexivity|]; split; vm_compute; discriminate|].
  destruct taken_logs as (L2 & L3). intros j [<-|[<-|[]]]; [rewrite L2 | rewrite L3]; discriminate.
Qed.

Print Assumptions C107_stored.
Print Assumptions C107_at_its_place.
Print Assumptions C107_kept.
Print Assumptions C107_can_be_lost_refuted.
Print Assumptions C107_accepted_refuted.
