(** * ClusterElect: elections in a cluster with fixed membership *)

From Verif Require Import Base Buffer BufferSpec BufferProofs Codec CodecSpec CodecProofs Msg FsLogStore FsLogSpec Alog
  Raft P_Config RaftQuiet RaftTrace RaftTrace2 RaftTrace3 NodeSpec NodeLife Cluster.
Local Open Scope N_scope.

(** ** Configurations in entries *)
Lemma le_mod : forall k n, le k n = le k (n mod (256 ^ N.of_nat k)).
Proof. intros k n. rewrite <- of_le_le. rewrite <- (le_of_le (le k n)) at 1. rewrite le_length. reflexivity. Qed.
Lemma ulong_mod : forall n, is_ulong (n mod (256 ^ N.of_nat 8)).
Proof. intros n. unfold is_ulong, two64. apply N.mod_lt. discriminate. Qed.
Lemma parse_cfg_servers : forall c c', Forall srv_ok (cc_servers c) -> lenN (cfg_bytes c) < two31 ->
  parse_cfg (cfg_bytes c) = Ok c' -> cc_servers c' = cc_servers c.
Proof.
  intros c c' H L E.
  set (c2 := mkCfg (cc_log_idx c mod (256 ^ N.of_nat 8)) (cc_prev_log_idx c mod (256 ^ N.of_nat 8)) (cc_servers c)).
  assert (Eb : cfg_bytes c = cfg_bytes c2).
  { unfold cfg_bytes, c2. cbn [cc_log_idx cc_prev_log_idx cc_servers]. rewrite <- !le_mod. reflexivity. }
  assert (O : cfg_ok c2). { split; [apply ulong_mod|]. split; [apply ulong_mod|]. exact H. }
  rewrite Eb in E, L. unfold parse_cfg, parse in E. rewrite buffer_of_ok in E by exact L. cbn [res_bind] in E.
  pose proof (cfg_deserialize_ok [] c2 [] O) as D. rewrite !app_nil_r in D. cbn [app] in D. rewrite D in E by exact L.
  cbn [fst] in E. inversion E. reflexivity.
Qed.
Lemma cfg_bytes_len : forall c, lenN (cfg_bytes c) = lenN (cfg_bytes (mkCfg 0 0 (cc_servers c))).
Proof. intros c. unfold cfg_bytes, lenN. cbn [cc_log_idx cc_prev_log_idx cc_servers]. rewrite !app_length, !le_length. reflexivity. Qed.

(** ** Words *)
Fixpoint leads (l : list act) : list N :=
  match l with
  | [] => []
  | ABecomeLeader t :: l => t :: leads l
  | _ :: l => leads l
  end.
Lemma leads_app : forall a b, leads (a ++ b) = leads a ++ leads b.
Proof. induction a as [|x a IH]; intros b; [reflexivity|]. destruct x; cbn [leads app]; rewrite IH; reflexivity. Qed.
Lemma leads_in : forall l t, In t (leads l) <-> In (ABecomeLeader t) l.
Proof.
  induction l as [|x l IH]; intros t; [reflexivity|]. destruct x; cbn [leads In]; rewrite ?IH; try (split; [tauto | intros [E|E]; [discriminate | exact E]]).
  split; [intros [->|E]; [left; reflexivity | right; exact E] | intros [E|E]; [inversion E; left; reflexivity | right; exact E]].
Qed.
Lemma leads_benign : forall l, Forall benign_act l -> leads l = [].
Proof. induction l as [|a l IH]; intros H; [reflexivity|]. inversion H; subst. destruct a; try contradiction; apply IH; assumption. Qed.
Lemma leads_ae : forall n q l, Forall (ae_act n q) l -> leads l = [].
Proof. intros n q. induction l as [|a l IH]; intros H; [reflexivity|]. inversion H; subst. destruct a; try contradiction; apply IH; assumption. Qed.

Lemma put_same : forall A (f : Z -> A) i v, put f i v i = v.
Proof. intros. unfold put. rewrite Z.eqb_refl. reflexivity. Qed.
Lemma put_other : forall A (f : Z -> A) i v j, j <> i -> put f i v j = f j.
Proof. intros. unfold put. destruct (j =? i)%Z eqn:E; [lia | reflexivity]. Qed.

Section Elect.
  Variable servers : list srv_config.
  Hypothesis HC : cluster_okay servers.
  Let ids := ids servers.

  Definition pids (i : Z) : list Z := filter (fun j => negb (j =? i)%Z) ids.

  Lemma pids_in : forall i j, In j (pids i) <-> In j ids /\ j <> i.
  Proof. intros i j. unfold pids. rewrite filter_In. destruct (j =? i)%Z eqn:E; cbn; split; intros [H1 H2]; try (split; [exact H1 | lia]); discriminate || lia. Qed.
  Lemma pids_len : forall i, In i ids -> (length (pids i) + 1 = length ids)%nat.
  Proof.
    intros i Hi. assert (N : NoDup ids) by apply HC. unfold pids. revert Hi N. generalize ids as l.
    induction l as [|x l IH]; intros Hi N; [destruct Hi|]. inversion N; subst. cbn [filter].
    destruct (x =? i)%Z eqn:E; cbn [negb length].
    - assert (x = i) by lia. subst x. assert (F : filter (fun j => negb (j =? i)%Z) l = l).
      { clear -H1. induction l as [|y l IH]; [reflexivity|]. cbn [filter]. destruct (y =? i)%Z eqn:E; [exfalso; apply H1; left; lia|].
        cbn. f_equal. apply IH. intros Hc. apply H1. right. exact Hc. }
      rewrite F. lia.
    - destruct Hi as [Hi|Hi]; [lia|]. specialize (IH Hi H2). lia.
  Qed.
  Lemma start_pids : forall i pm u, map p_id (start_peers i pm u servers) = pids i.
  Proof.
    intros i pm. assert (N : NoDup ids) by apply HC. unfold pids, ids, Cluster.ids in *. revert N. generalize servers as l.
    induction l as [|s l IH]; intros N u; [reflexivity|]. cbn [map] in N. inversion N; subst. cbn [start_peers map filter].
    destruct (sc_id s =? i)%Z eqn:E; cbn [negb]; [apply IH; exact H2|]. cbn [map]. change (p_id (new_peer u s pm)) with (sc_id s). f_equal.
    rewrite <- (IH H2 (u + 1)). f_equal.
    assert (F : forall p, In p (start_peers i pm (u + 1) l) -> negb (p_id p =? sc_id s)%Z = true).
    { intros p Hp. assert (X : In (p_id p) (map p_id (start_peers i pm (u + 1) l))) by (apply in_map, Hp).
      rewrite IH in X by exact H2. apply filter_In in X. destruct X as [X _]. destruct (p_id p =? sc_id s)%Z eqn:F; [|reflexivity].
      assert (p_id p = sc_id s) by lia. congruence. }
    revert F. generalize (start_peers i pm (u + 1) l) as ps. clear. induction ps as [|p ps IH]; intros F; [reflexivity|].
    cbn [filter]. rewrite (F p (or_introl eq_refl)). f_equal. apply IH. intros p0 Hp. apply F. right. exact Hp.
  Qed.

  (** configuration entries describe the cluster *)
  Definition good (e : entry_val) : Prop := ev_type e = conf_log -> exists c, ev_data e = cfg_bytes c /\ cc_servers c = servers.
  Definition goodlog (l : alog) : Prop := forall k e, a_get l k = Some e -> good e.

  Lemma good_parse : forall e c, good e -> ev_type e = conf_log -> parse_cfg (ev_data e) = Ok c -> cc_servers c = servers.
  Proof.
    intros e c G T P. destruct (G T) as (c0 & E & S). rewrite E in P. rewrite <- S. destruct HC as (_ & _ & O & L).
    apply parse_cfg_servers; [rewrite S; exact O | rewrite cfg_bytes_len, S; exact L | exact P].
  Qed.

  (** events of a cluster with fixed membership and without snapshots *)
  Definition fe (e : event) : Prop :=
    match e with
    | ERequest _ q => rq_type q = append_entries_request \/ rq_type q = vote_request \/ rq_type q = prevote_request \/ client_req q
    | ERpc _ _ true q None => rq_type q = prevote_request
    | ERpc _ _ true q (Some r) => rs_type r = prevote_response
    | EElection | EHeartbeat _ | ECommit | EReplicate _ _ | EAppend _ _ | ERpc _ _ false _ _ => True
    | _ => False
    end.
  Lemma fe_conf : forall e, fe e -> conf_event e = false.
  Proof.
    intros e F. destruct e as [| | |now uid ext q r| | | | | | |]; try reflexivity. destruct ext, r as [r|]; try reflexivity; cbn in *.
    - rewrite F. reflexivity.
    - rewrite F. reflexivity.
  Qed.
  Lemma fe_req : forall e q ty, fe e -> req_of e q -> rq_type q = ty ->
    ty <> append_entries_request -> ty <> vote_request -> ty <> prevote_request -> ty <> client_request -> False.
  Proof.
    intros e q ty F [now ->] T H1 H2 H3 H4. cbn in F. destruct F as [F|[F|[F|[F _]]]]; congruence.
  Qed.
  Ltac not_fe := exfalso; match goal with
    | F : fe ?e, Q : req_of ?e ?q, T : rq_type ?q = ?t |- _ => apply (fe_req e q t F Q T); discriminate
    | F : fe ?e, Q : exists q, req_of ?e q /\ rq_type q = ?t |- _ => destruct Q as (? & Q & T); apply (fe_req e _ t F Q T); discriminate
    | F : fe ?e, H : conf_event ?e = true |- _ => rewrite (fe_conf e F) in H; discriminate
    | F : fe ?e, H : ?e = _ |- _ => rewrite H in F; destruct F
    end.

  (** ** The invariant *)
  Definition static (i : Z) (x : sys) : Prop :=
    (match x with
     | Up n => n_id n = i /\ synced n /\ map p_id (n_peers n) = pids i /\ cc_servers (n_config n) = servers /\ n_steps n = 0%Z
     | Down _ => True
     end) /\
    al_start (dk_log (sys_disk x)) = 1 /\ cc_servers (dk_config (sys_disk x)) = servers /\ goodlog (dk_log (sys_disk x)).
  Definition voted (A : Z -> list act) (t : N) (i j : Z) : Prop := In (t, i) (saves (A j)).
  Definition ballot (A : Z -> list act) (i : Z) (x : sys) : Prop :=
    match x with
    | Up n => exists B, NoDup B /\ incl B (n_voted n) /\ incl B ids /\ Z.of_nat (length B) = n_votes n /\
                forall j, In j B -> voted A (n_term n) i j
    | Down _ => True
    end.
  Definition elected (A : Z -> list act) (t : N) (i : Z) : Prop :=
    exists B, NoDup B /\ incl B ids /\ (length ids < 2 * length B)%nat /\ forall j, In j B -> voted A t i j.
  Definition term_of (x : sys) : N := fst (saved (sys_disk x)).
  Definition ae_sent (A : Z -> list act) (k : Z) (q : req) : Prop :=
    rq_type q = append_entries_request /\ exists uid ext, In (ASend uid ext q) (A k).
  Definition ae_good (A : Z -> list act) (k : Z) (q : req) : Prop :=
    rq_src q = k /\ rq_dst q <> k /\ In (rq_term q) (leads (A k)) /\ Forall good (rq_entries q).

  Record einv (s : Z -> sys) (A : Z -> list act) : Prop := mkEinv {
    e_static : forall i, In i ids -> static i (s i);
    e_tv : forall i, In i ids -> tv_chain (0, (-1)%Z) (saves (A i)) (saved (sys_disk (s i)));
    e_ballot : forall i, In i ids -> ballot A i (s i);
    e_led : forall i t, In i ids -> In t (leads (A i)) -> elected A t i /\ t <= term_of (s i);
    e_role : forall i n, In i ids -> s i = Up n -> n_role n = Leader -> In (n_term n) (leads (A i));
    e_ae : forall k q, In k ids -> ae_sent A k q -> ae_good A k q;
    e_sent : forall k uid q, In k ids -> In (ASend uid false q) (A k) ->
      (rq_type q = append_entries_request \/ rq_type q = vote_request) /\ rq_src q = k
  }.

  (** two elected servers of a term are the same *)
  Lemma pigeon : forall B C : list Z, NoDup B -> NoDup C -> incl B ids -> incl C ids ->
    (length ids < length B + length C)%nat -> exists j, In j B /\ In j C.
  Proof.
    intros B C NB NC IB IC L.
    destruct (existsb (fun j => existsb (Z.eqb j) C) B) eqn:E.
    - apply existsb_exists in E. destruct E as (j & Hj & E). apply existsb_exists in E. destruct E as (j2 & Hj2 & E).
      assert (j = j2) by lia. subst. exists j2. auto.
    - exfalso. assert (D : forall j, In j B -> ~ In j C).
      { intros j Hj Hc. assert (X : existsb (fun j => existsb (Z.eqb j) C) B = true).
        { apply existsb_exists. exists j. split; [exact Hj|]. apply existsb_exists. exists j. split; [exact Hc | lia]. }
        congruence. }
      assert (N : NoDup (B ++ C)).
      { clear -NB NC D. induction B as [|x B IH]; [exact NC|]. inversion NB; subst. cbn [app]. constructor.
        - intros H. apply in_app_or in H. destruct H as [H|H]; [contradiction | apply (D x); [left; reflexivity | exact H]].
        - apply IH; [assumption|]. intros j Hj. apply D. right. exact Hj. }
      assert (I : incl (B ++ C) ids) by (intros j Hj; apply in_app_or in Hj; destruct Hj; auto).
      pose proof (NoDup_incl_length N I) as X. rewrite app_length in X. lia.
  Qed.
  Lemma ids_pos : forall i, In i ids -> i <> (-1)%Z.
  Proof. intros i H ->. destruct HC as (_ & H1 & _). contradiction. Qed.
  Lemma elected_unique : forall s A t i j, einv s A -> In i ids -> In j ids -> elected A t i -> elected A t j -> i = j.
  Proof.
    intros s A t i j [_ TV _ _ _ _ _] Hi Hj (B & NB & IB & LB & VB) (C & NC & IC & LC & VC).
    destruct (pigeon B C NB NC IB IC ltac:(lia)) as (k & KB & KC).
    specialize (VB k KB). specialize (VC k KC). unfold voted in *.
    apply (tv_chain_vote _ _ _ (TV k (IB k KB)) (t, i) (t, j)); try (right; assumption); try reflexivity; cbn; apply ids_pos; assumption.
  Qed.

  Lemma voted_mono : forall A i l t c j, voted A t c j -> voted (put A i (A i ++ l)) t c j.
  Proof.
    intros A i l t c j H. unfold voted in *. destruct (Z.eq_dec j i) as [->|Hn]; [|rewrite put_other by exact Hn; exact H].
    rewrite put_same, saves_app. apply in_or_app. left. exact H.
  Qed.
  Lemma elected_mono : forall A i l t c, elected A t c -> elected (put A i (A i ++ l)) t c.
  Proof. intros A i l t c (B & H1 & H2 & H3 & H4). exists B. repeat (split; [assumption|]). intros j Hj. apply voted_mono, H4, Hj. Qed.
  Lemma leads_mono : forall A i l t j, In t (leads (A j)) -> In t (leads (put A i (A i ++ l) j)).
  Proof.
    intros A i l t j H. destruct (Z.eq_dec j i) as [->|Hn]; [|rewrite put_other by exact Hn; exact H].
    rewrite put_same, leads_app. apply in_or_app. left. exact H.
  Qed.

  (** what the messages of the cluster guarantee for an event at [i] *)
  Definition backed (A : Z -> list act) (i : Z) (e : event) : Prop :=
    match e with
    | ERequest _ q => rq_type q = append_entries_request -> exists k, In k ids /\ ae_sent A k q /\ rq_dst q = i
    | ERpc _ _ false q (Some r) => rs_type r = vote_response -> rs_accepted r = true -> voted A (rs_term r) i (rs_src r)
    | _ => True
    end.
  Lemma backed_mono : forall A i l j e, backed A j e -> backed (put A i (A i ++ l)) j e.
  Proof.
    intros A i l j e H. destruct e as [| |now q|now uid ext q r| | | | | | |]; cbn in *; try exact I.
    - intros T. destruct (H T) as (k & Hk & (T2 & u & x & Hs) & Hd). exists k. split; [exact Hk|]. split; [|exact Hd].
      split; [exact T|]. exists u, x. destruct (Z.eq_dec k i) as [->|Hn]; [|rewrite put_other by exact Hn; exact Hs].
      rewrite put_same. apply in_or_app. left. exact Hs.
    - destruct ext, r; try exact I. intros T Ha. apply voted_mono, H; assumption.
  Qed.

  (** ** One step of one server *)
  Definition entries_good (e : event) : Prop := forall q, req_of e q -> rq_type q = append_entries_request -> Forall good (rq_entries q).

  Lemma goodlog_append : forall l e, goodlog l -> good e -> goodlog (a_replace l (a_next l) [e]).
  Proof. intros l e G E k x H. rewrite a_get_append in H. destruct (k =? a_next l); [inversion H; subst; exact E | apply (G k x H)]. Qed.
  Lemma goodlog_write : forall l i e, al_start l <= i < a_next l -> goodlog l -> good e -> goodlog (a_replace l i [e]).
  Proof.
    intros l i e L G E k x H. rewrite a_get_write in H by exact L. destruct (k <? i); [apply (G k x H)|].
    destruct (k =? i); [inversion H; subst; exact E | discriminate].
  Qed.
  Lemma source_servers : forall i e n c, static i (Up n) -> fe e -> cfg_source e n c -> cc_servers c = servers.
  Proof.
    intros i e n c (_ & _ & _ & G) F [(_ & en & H1 & H2 & H3)|(q & Q & [[T _]|T])]; [|not_fe|not_fe].
    apply (good_parse en); [apply (G _ _ H1) | exact H2 | exact H3].
  Qed.
  Lemma source_same : forall i e n c, In i ids -> static i (Up n) -> fe e -> cfg_source e n c -> same_members c n.
  Proof.
    intros i e n c Hi S F H id. unfold cfg_ids, members. rewrite (source_servers i e n c S F H).
    destruct S as ((-> & _ & -> & _) & _). cbn [In]. rewrite pids_in. fold (Cluster.ids servers). fold ids.
    split; [intros H1; destruct (Z.eq_dec i id); auto | intros [<-|[H1 _]]; auto].
  Qed.
  Lemma client_good : forall e x, fe e -> client_entry e x -> good x.
  Proof.
    intros e x F H T. exfalso. destruct e as [| |now q|now uid ext q r| | | | | | |]; cbn in *; try contradiction.
    - destruct H as (H1 & e0 & H2 & H3 & _). destruct F as [F|[F|[F|[_ F]]]]; try (rewrite F in H1; discriminate). apply (F e0 H2). congruence.
    - destruct H as [H _]. rewrite T in H. discriminate.
    - destruct H as [H _]. rewrite T in H. discriminate.
  Qed.

  Lemma astep_static : forall i e n l n', In i ids -> static i (Up n) -> fe e -> entries_good e -> astep e n l n' -> static i (Up n').
  Proof.
    intros i e n l n' Hi S F G H. assert (S0 := S). destruct S as ((Sid & Ssy & Sp & Sc & Sst) & Slog & Sdc & Sg). cbn [sys_disk] in *.
    assert (Sy : synced n') by (eapply astep_synced; eassumption).
    assert (Id : n_id n' = i) by (rewrite (astep_id _ _ _ _ H); exact Sid).
    unfold static; cbn [sys_disk].
    destruct H; try solve [not_fe];
      try (split; [split; [exact Id|]; split; [exact Sy|]; split; [exact Sp|]; split; [exact Sc | exact Sst] | split; [exact Slog|]; split; [exact Sdc | exact Sg]]; fail).
    - destruct H as (ps & q & j & -> & _ & H & _). split; [|split; [exact Slog|]; split; [exact Sdc | exact Sg]].
      split; [exact Id|]. split; [exact Sy|]. split; [|split; [exact Sc | exact Sst]]. cbn. rewrite <- Sp. clear -H.
      induction H; [reflexivity|]. cbn [map]. f_equal; [|exact IHForall2]. destruct H as [_ H]. unfold p_id. congruence.
    - unfold core in H. injection H. intros.
      split; [split; [exact Id|]; split; [exact Sy|]; split; [congruence|]; split; congruence|].
      split; [congruence|]. split; [congruence|]. replace (n_disk n') with (n_disk n) by congruence. exact Sg.
    - destruct H as [H|H]; [lia | not_fe].
    - lia.
    - split; [split; [exact Id|]; split; [exact Sy|]; split; [exact Sp|]; split; [exact Sc | exact Sst]|].
      cbn [apply_act set_disk n_disk disk_apply dk_log dk_config]. rewrite al_start_replace. split; [exact Slog|]. split; [exact Sdc|]. apply goodlog_append; [exact Sg|].
      destruct H1 as [[-> _]|H1]; [intros _; exists (n_config n); split; [reflexivity | exact Sc] | eapply client_good; eassumption].
    - split; [split; [exact Id|]; split; [exact Sy|]; split; [exact Sp|]; split; [exact Sc | exact Sst]|].
      cbn [apply_act set_disk n_disk disk_apply dk_log dk_config]. rewrite al_start_replace. split; [exact Slog|]. split; [exact Sdc|]. apply goodlog_write; [exact (proj1 H6) | exact Sg|].
      specialize (G q H H0). rewrite Forall_forall in G. apply G. eapply nth_error_In; eassumption.
    - split; [split; [exact Id|]; split; [exact Sy|]; split; [exact Sp|]; split; [exact Sc | exact Sst]|].
      cbn [apply_act set_disk n_disk disk_apply dk_log dk_config]. rewrite al_start_replace. split; [exact Slog|]. split; [exact Sdc|]. apply goodlog_append; [exact Sg|].
      specialize (G q H H0). rewrite Forall_forall in G. apply G. eapply nth_error_In; eassumption.
    - split; [split; [exact Id|]; split; [exact Sy|]; split; [exact Sp|]; split; [exact Sc | exact Sst]|]. cbn.
      split; [exact Slog|]. split; [|exact Sg]. eapply source_servers; eassumption.
    - exfalso. apply H0. eapply source_same; eassumption.
    - split; [|split; [exact Slog|]; split; [exact Sdc | exact Sg]].
      split; [exact Id|]. split; [exact Sy|]. split; [exact Sp|]. split; [|exact Sst]. cbn.
      destruct H as [H|[_ H]]; [eapply source_servers; eassumption | congruence].
    - destruct H as [H|(s & d & ok & H)]; not_fe.
    - destruct H0 as [H0|(s & d & ok & H0)]; not_fe.
  Qed.

  Lemma fe_join : forall e, fe e -> no_join e.
  Proof. intros e F q Q T. not_fe. Qed.

  Lemma astep_leads : forall e n l n', astep e n l n' -> leads l = [] \/
    (l = [ABecomeLeader (n_term n)] /\ majority n (n_votes n) = true /\ n' = set_role Leader n).
  Proof.
    intros e n l n' H. destruct H; try (left; reflexivity).
    - left. destruct H as (ps & q & j & _ & _ & _ & _ & H). eapply leads_ae; exact H.
    - left. apply leads_benign. assumption.
    - right. auto.
    - left. destruct H1 as (H1 & _). clear -H1. induction H1; [reflexivity|]. destruct H as [H| ->]; [destruct x; try contradiction|]; exact IHForall.
    - left. destruct a; try contradiction; reflexivity.
  Qed.

  (** the ballot papers of the current candidacy *)
  Lemma ballot_mono : forall A i l j x, ballot A j x -> ballot (put A i (A i ++ l)) j x.
  Proof.
    intros A i l j [n|d] H; [|exact I]. destruct H as (B & H1 & H2 & H3 & H4 & H5).
    exists B. repeat (split; [assumption|]). intros k Hk. apply voted_mono, H5, Hk.
  Qed.
  Lemma ballot_same : forall A i n n', n_votes n' = n_votes n -> n_voted n' = n_voted n -> n_term n' = n_term n ->
    ballot A i (Up n) -> ballot A i (Up n').
  Proof. intros A i n n' H1 H2 H3 H. unfold ballot. rewrite H1, H2, H3. exact H. Qed.
  Lemma ballot_none : forall A i n, n_votes n = 0%Z -> ballot A i (Up n).
  Proof.
    intros A i n H. exists []. split; [constructor|]. split; [intros x []|]. split; [intros x []|]. split; [rewrite H; reflexivity|].
    intros j [].
  Qed.
  Lemma astep_ballot : forall A i e n l n', In i ids -> static i (Up n) -> fe e -> backed A i e ->
    astep e n l n' -> ballot A i (Up n) -> ballot (put A i (A i ++ l)) i (Up n').
  Proof.
    intros A i e n l n' Hi ((Sid & Ssy & Sp & _) & _) F K H B. apply (ballot_mono A i l) in B.
    destruct H; try solve [not_fe]; try (exact B); try (apply ballot_none; reflexivity).
    - destruct H as (ps & q & j & -> & _). exact B.
    - unfold core in H. injection H. intros. apply (ballot_same _ _ n); congruence.
    - exists [n_id n]. split; [constructor; [intros [] | constructor]|]. split; [intros x Hx; exact Hx|].
      split; [intros x [<-|[]]; rewrite Sid; exact Hi|]. split; [reflexivity|]. intros j [<-|[]]. unfold voted.
      rewrite Sid, put_same, saves_app. apply in_or_app. right. left. reflexivity.
    - destruct B as (C & C1 & C2 & C3 & C4 & C5). destruct (rs_accepted r) eqn:Ea.
      + exists (rs_src r :: C). split; [constructor; [intros Hc; apply H3, C2, Hc | exact C1]|].
        split; [intros x [<-|Hx]; [left; reflexivity | right; apply C2, Hx]|].
        rewrite Sp in H4. apply pids_in in H4.
        split; [intros x [<-|Hx]; [apply H4 | apply C3, Hx]|]. split; [cbn [length n_votes set_votes set_done]; cbn; lia|].
        intros j [<-|Hj]; [|apply C5, Hj]. apply voted_mono. cbn. rewrite <- H1. subst e. apply K; assumption.
      + exists C. split; [exact C1|]. split; [intros x Hx; right; apply C2, Hx|]. split; [exact C3|]. split; [exact C4 | exact C5].
    - destruct H1 as (_ & H1 & _). unfold core in H1. cbn in H1. injection H1. intros. apply (ballot_same _ _ n); congruence.
  Qed.

  Lemma ballot_elected : forall A i n, In i ids -> static i (Up n) -> ballot A i (Up n) -> majority n (n_votes n) = true -> elected A (n_term n) i.
  Proof.
    intros A i n Hi ((Sid & Ssy & Sp & _) & _) (B & B1 & B2 & B3 & B4 & B5) M. exists B. split; [exact B1|]. split; [exact B3|].
    split; [|exact B5]. unfold majority in M. apply Z.ltb_lt in M.
    assert (L : length (n_peers n) = length (pids i)) by (rewrite <- Sp, map_length; reflexivity).
    assert (L2 := pids_len i Hi). rewrite L, <- B4 in M.
    assert (X : (Z.of_nat (length (pids i)) + 1 < 2 * Z.of_nat (length B))%Z).
    { assert (Y := Z.mul_succ_div_gt (Z.of_nat (length (pids i)) + 1) 2 ltac:(lia)). lia. }
    lia.
  Qed.

  Lemma astep_role : forall e n l n', fe e -> astep e n l n' -> n_role n' = Leader ->
    (n_role n = Leader /\ n_term n' = n_term n) \/ In (ABecomeLeader (n_term n')) l.
  Proof.
    intros e n l n' F H R. destruct H; try solve [not_fe]; try (left; split; [exact R | reflexivity]); try discriminate.
    - destruct H as (ps & q & j & -> & _). left. split; [exact R | reflexivity].
    - unfold core in H. injection H. intros. left. split; congruence.
    - right. left. reflexivity.
    - destruct H1 as (_ & H1 & _). unfold core in H1. cbn in H1. injection H1. intros. left. split; congruence.
  Qed.

  (** append-entries requests sent in a step *)
  Lemma astep_ae : forall i e n l n', fe e -> static i (Up n) -> astep e n l n' -> forall uid ext q,
    In (ASend uid ext q) l -> rq_type q = append_entries_request ->
    n_role n = Leader /\ ae_msg n q /\ In (rq_dst q) (map p_id (n_peers n)) /\ n_term n' = n_term n /\ n_disk n' = n_disk n /\ n_role n' = n_role n.
  Proof.
    intros i e n l n' F (_ & Slog & _) H uid ext q Hin T. cbn [sys_disk] in Slog.
    destruct H; try solve [not_fe]; try (destruct Hin as [Hin|[]]; discriminate); try destruct Hin as [].
    - destruct H as (ps & q0 & j & -> & _ & _ & _ & Hl). rewrite Forall_forall in Hl. specialize (Hl _ Hin). cbn in Hl.
      destruct Hl as (_ & [Hl|Hl] & _ & p & Hp & _ & Hd); [|destruct Hl as (Hl & _); rewrite Hl in T; discriminate].
      split; [|split; [exact Hl|]; split; [rewrite Hd; apply in_map, Hp | repeat split; reflexivity]].
      destruct H0 as [[H0|[H0|H0]] _]; [exact H0 | | not_fe]. exfalso. rewrite Forall_forall in H0. apply (H0 _ Hin).
    - rewrite Forall_forall in H0. specialize (H0 _ Hin). cbn in H0. destruct H0 as [_ H0]. rewrite T in H0. discriminate.
    - inversion H6; subst. rewrite H1 in T. discriminate.
    - contradiction.
    - destruct H1 as (H1 & _). rewrite Forall_forall in H1. destruct (H1 _ Hin) as [H2|H2]; [|discriminate].
      cbn in H2. destruct H2 as [_ H2]. rewrite T in H2. discriminate.
    - subst a. contradiction.
    - contradiction.
  Qed.
  (** every other request *)
  Lemma astep_sent : forall i e n l n', fe e -> static i (Up n) -> astep e n l n' -> forall uid q,
    In (ASend uid false q) l -> (rq_type q = append_entries_request \/ rq_type q = vote_request) /\ rq_src q = i.
  Proof.
    intros i e n l n' F ((<- & _) & Slog & _) H uid q Hin. cbn [sys_disk] in Slog.
    destruct H; try solve [not_fe]; try (destruct Hin as [Hin|[]]; discriminate); try destruct Hin as [].
    - destruct H as (ps & q0 & j & -> & _ & _ & _ & Hl). rewrite Forall_forall in Hl. specialize (Hl _ Hin). cbn in Hl.
      destruct Hl as (_ & [Hl|Hl] & _); [|destruct Hl as (_ & _ & _ & Hl); unfold n_log in Hl; lia]. destruct Hl as (H1 & _ & H2 & _). auto.
    - rewrite Forall_forall in H0. specialize (H0 _ Hin). cbn in H0. destruct H0 as [H0 _]. discriminate.
    - inversion H6; subst. auto.
    - contradiction.
    - destruct H1 as (H1 & _). rewrite Forall_forall in H1. destruct (H1 _ Hin) as [H2|H2]; [|discriminate].
      cbn in H2. destruct H2 as [H2 _]. discriminate.
    - subst a. contradiction.
    - contradiction.
  Qed.
  Lemma ae_msg_seg : forall n q j e, ae_msg n q -> nth_error (rq_entries q) j = Some e ->
    a_get (n_log n) (rq_last_idx q + 1 + N.of_nat j) = Some e.
  Proof.
    intros n q j e (_ & _ & _ & _ & _ & _ & [E|[H1 H2]]) H.
    - rewrite E in H. destruct j; discriminate.
    - rewrite H2 in H. eapply a_range_get; eassumption.
  Qed.
  Lemma ae_msg_good : forall n q, goodlog (n_log n) -> ae_msg n q -> Forall good (rq_entries q).
  Proof.
    intros n q G H. apply Forall_forall. intros e Hin. apply In_nth_error in Hin. destruct Hin as (j & Hj).
    eapply G. eapply ae_msg_seg; eassumption.
  Qed.

  Lemma einv_step : forall s A i n e l n', einv s A -> In i ids -> s i = Up n -> fe e -> backed A i e -> astep e n l n' ->
    einv (put s i (Up n')) (put A i (A i ++ l)).
  Proof.
    intros s A i n e l n' E Hi Hs F K H. destruct E as [E1 E2 E3 E4 E5 E6 E7].
    assert (S := E1 i Hi). rewrite Hs in S. assert (S0 := S). destruct S as ((Sid & Ssy & Sp & Sc & Sst) & Slog & Sdc & Sg). cbn [sys_disk] in *.
    assert (B := E3 i Hi). rewrite Hs in B. assert (V := E2 i Hi). rewrite Hs in V. cbn [sys_disk] in V.
    assert (G : entries_good e).
    { intros q [now ->] T. destruct (K T) as (k & Hk & Hq & _). apply (E6 k q Hk Hq). }
    assert (TV := astep_tv _ _ _ _ (fe_join e F) H). rewrite <- Ssy in TV.
    assert (Sy' : saved (n_disk n') = tv n') by (eapply astep_synced; eassumption). rewrite <- Sy' in TV.
    assert (M : term_of (Up n) <= term_of (Up n')) by apply (tv_chain_le _ _ _ TV).
    split.
    - intros j Hj. destruct (Z.eq_dec j i) as [->|Hn]; [|rewrite put_other by exact Hn; apply E1, Hj].
      rewrite put_same. eapply astep_static; eassumption.
    - intros j Hj. destruct (Z.eq_dec j i) as [->|Hn]; [|rewrite !put_other by exact Hn; apply E2, Hj].
      rewrite !put_same, saves_app. eapply tv_chain_app; [exact V | exact TV].
    - intros j Hj. destruct (Z.eq_dec j i) as [->|Hn]; [|rewrite (put_other _ s) by exact Hn; apply ballot_mono, E3, Hj].
      rewrite (put_same _ s). eapply astep_ballot; eassumption.
    - intros j t Hj Ht. destruct (Z.eq_dec j i) as [->|Hn].
      2:{ rewrite put_other in Ht by exact Hn. rewrite (put_other _ s) by exact Hn. split; [apply elected_mono|]; apply E4; assumption. }
      rewrite put_same, leads_app in Ht. rewrite (put_same _ s). apply in_app_or in Ht. destruct Ht as [Ht|Ht].
      + destruct (E4 i t Hi Ht) as [X Y]. split; [apply elected_mono, X|]. rewrite Hs in Y. lia.
      + destruct (astep_leads _ _ _ _ H) as [L|(L & Mj & L2)]; [rewrite L in Ht; destruct Ht|]. rewrite L in Ht. destruct Ht as [<-|[]].
        split; [apply elected_mono, ballot_elected; assumption|]. unfold term_of, sys_disk in *. rewrite Ssy in M. exact M.
    - intros j m Hj Hm R. destruct (Z.eq_dec j i) as [->|Hn].
      2:{ rewrite put_other in Hm by exact Hn. apply leads_mono. apply (E5 j m); assumption. }
      rewrite put_same in Hm. inversion Hm; subst m. rewrite put_same, leads_app. apply in_or_app.
      destruct (astep_role _ _ _ _ F H R) as [[R1 R2]|R1]; [left; rewrite R2; apply (E5 i n); assumption | right; apply leads_in, R1].
    - intros k q Hk (T & uid & ext & Hq).
      assert (Old : ae_sent A k q -> ae_good (put A i (A i ++ l)) k q).
      { intros Ho. destruct (E6 k q Hk Ho) as (X1 & X2 & X3 & X4). repeat (split; [assumption|]). split; [apply leads_mono, X3 | exact X4]. }
      destruct (Z.eq_dec k i) as [->|Hn].
      2:{ rewrite put_other in Hq by exact Hn. apply Old. split; [exact T|]. eauto. }
      rewrite put_same in Hq. apply in_app_or in Hq. destruct Hq as [Hq|Hq]; [apply Old; split; [exact T | eauto]|].
      destruct (astep_ae _ _ _ _ _ F S0 H _ _ _ Hq T) as (R & Ms & Hd & _). assert (Ms0 := Ms). destruct Ms as (_ & M2 & M3 & _).
      split; [congruence|]. split; [rewrite Sp in Hd; apply pids_in in Hd; apply Hd|].
      split; [|eapply ae_msg_good; eassumption]. rewrite M2. apply leads_mono. apply (E5 i n); assumption.
    - intros k uid q Hk Hq. destruct (Z.eq_dec k i) as [->|Hn]; [|rewrite put_other in Hq by exact Hn; apply (E7 k uid q Hk Hq)].
      rewrite put_same in Hq. apply in_app_or in Hq. destruct Hq as [Hq|Hq]; [apply (E7 i uid q Hk Hq)|]. eapply astep_sent; eassumption.
  Qed.

  (** stopping and starting *)
  Lemma einv_disk : forall s A i x, einv s A -> In i ids -> static i x -> sys_disk x = sys_disk (s i) -> ballot A i x ->
    (forall n, x = Up n -> n_role n <> Leader) -> einv (put s i x) A.
  Proof.
    intros s A i x [E1 E2 E3 E4 E5 E6 E7] Hi Sx Dx Bx Rx. split.
    - intros j Hj. destruct (Z.eq_dec j i) as [->|Hn]; [rewrite put_same; exact Sx | rewrite put_other by exact Hn; apply E1, Hj].
    - intros j Hj. destruct (Z.eq_dec j i) as [->|Hn]; [rewrite put_same, Dx; apply E2, Hi | rewrite put_other by exact Hn; apply E2, Hj].
    - intros j Hj. destruct (Z.eq_dec j i) as [->|Hn]; [rewrite put_same; exact Bx | rewrite put_other by exact Hn; apply E3, Hj].
    - intros j t Hj Ht. destruct (Z.eq_dec j i) as [->|Hn]; [rewrite put_same; unfold term_of; rewrite Dx | rewrite put_other by exact Hn]; apply E4; assumption.
    - intros j n Hj Hn R. destruct (Z.eq_dec j i) as [->|Hne]; [rewrite put_same in Hn; destruct (Rx n Hn R) | rewrite put_other in Hn by exact Hne; apply (E5 j n); assumption].
    - exact E6.
    - exact E7.
  Qed.
  Lemma einv_down : forall s A i, einv s A -> In i ids -> einv (put s i (Down (sys_disk (s i)))) A.
  Proof.
    intros s A i E Hi. apply einv_disk; try assumption; [|reflexivity|exact I|intros n Hn; discriminate].
    split; [exact I|]. apply (e_static s A E i Hi).
  Qed.
  Lemma start_n : forall i pm d, cc_servers (dk_config d) = servers ->
    map p_id (n_peers (start_node i pm d)) = pids i /\ n_config (start_node i pm d) = dk_config d /\ n_steps (start_node i pm d) = 0%Z /\
    n_votes (start_node i pm d) = 0%Z /\ n_role (start_node i pm d) = Follower.
  Proof.
    intros i pm d H. unfold start_node. destruct (match dk_state d with Some x => x | None => (0, (-1)%Z) end) as [t v].
    cbn [n_peers n_config n_steps n_votes n_role]. rewrite H, start_pids. repeat split; reflexivity.
  Qed.
  Lemma einv_up : forall s A i pm d, einv s A -> In i ids -> s i = Down d -> einv (put s i (Up (start_node i pm d))) A.
  Proof.
    intros s A i pm d E Hi Hs. assert (S := e_static s A E i Hi). rewrite Hs in S. destruct S as (_ & S1 & S2 & S3). cbn [sys_disk] in *.
    destruct (start_n i pm d S2) as (P1 & P2 & P3 & P4 & P5).
    apply einv_disk; try assumption.
    - unfold static. cbn [sys_disk]. rewrite start_disk. split; [|auto]. rewrite start_id, P2. split; [reflexivity|].
      split; [apply start_synced|]. auto.
    - rewrite Hs. cbn [sys_disk]. apply start_disk.
    - apply ballot_none. exact P4.
    - intros n Hn R. inversion Hn; subst n. rewrite P5 in R. discriminate.
  Qed.
End Elect.
