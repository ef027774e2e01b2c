(** * Properties C37, C41, C42, C43: what a leader does with its log *)

From Coq Require Import Sorting.Sorted Sorting.Permutation.
From Verif Require Import Base Buffer Codec CodecSpec Msg FsLogStore FsLogSpec Alog Raft RaftQuiet RaftTrace RaftTrace2 RaftTrace3
  RaftWalk NodeSpec NodeLife NodeExamples ServerSpec NodeFacts AppendFacts.
Local Open Scope N_scope.

(** ** C37: the log of a leader only grows *)
(** [l'] still has everything [l] had, apart from compacted entries *)
Definition grown (l l' : alog) : Prop :=
  al_start l <= al_start l' /\ a_next l <= a_next l' /\
  forall i e, al_start l' <= i -> a_get l i = Some e -> a_get l' i = Some e.
Lemma grown_refl : forall l, grown l l.
Proof. intros l. unfold grown. repeat split; [lia | lia |]. intros; assumption. Qed.
Lemma grown_trans : forall a b c, grown a b -> grown b c -> grown a c.
Proof.
  intros a b c (A1 & A2 & A3) (B1 & B2 & B3). split; [lia|]. split; [lia|].
  intros i e Hi H. apply B3; [exact Hi|]. apply A3; [lia | exact H].
Qed.
Lemma grown_append : forall l e, grown l (a_replace l (a_next l) [e]).
Proof.
  intros l e. split; [rewrite al_start_replace; lia|]. split; [rewrite a_next_append; lia|].
  intros i x _ H. rewrite a_get_append. assert (G := a_get_some _ _ _ H). replace (i =? a_next l) with false by lia. exact H.
Qed.
Lemma grown_compact : forall l k, al_start l <= k -> grown l (a_compact l k).
Proof.
  intros l k H. split; [cbn; lia|]. split; [rewrite a_next_compact by lia; lia|].
  intros i x Hi G. rewrite a_get_compact by lia. cbn in Hi. replace (i <=? k) with false by lia. exact G.
Qed.

Lemma astep_grown : forall ev n l n', astep ev n l n' -> n_catching n = false ->
  ((forall q, ~ req_of ev q) \/ n_role n' = Leader) ->
  grown (n_log n) (n_log n') /\ n_catching n' = false /\ ((forall q, ~ req_of ev q) \/ n_role n = Leader).
Proof.
  intros ev n l n' H Hc Hr.
  assert (S : n_log n' = n_log n /\ n_catching n' = n_catching n /\ n_role n' = n_role n ->
    grown (n_log n) (n_log n') /\ n_catching n' = false /\ ((forall q, ~ req_of ev q) \/ n_role n = Leader)).
  { intros (-> & -> & E). split; [apply grown_refl|]. split; [exact Hc|]. rewrite E in Hr. exact Hr. }
  destruct H; try (apply S; repeat split; reflexivity); clear S.
  - destruct H as (ps & q & j & -> & _). split; [apply grown_refl|]. split; [exact Hc | exact Hr].
  - unfold core in H. injection H. intros. unfold n_log. replace (n_disk n') with (n_disk n) by congruence.
    split; [apply grown_refl|]. split; [congruence|]. destruct Hr as [Hr|Hr]; [left; exact Hr | right; congruence].
  - split; [apply grown_refl|]. split; [exact Hc|]. destruct Hr as [Hr|Hr]; [left; exact Hr | discriminate].
  - split; [apply grown_refl|]. split; [exact Hc|]. destruct Hr as [Hr|Hr]; [left; exact Hr | discriminate].
  - split; [apply grown_refl|]. split; [exact Hc|]. destruct Hr as [Hr|Hr]; [left; exact Hr | discriminate].
  - split; [apply grown_refl|]. split; [exact Hc|]. left. assumption.
  - split; [apply grown_append|]. split; [exact Hc | exact Hr].
  - split; [apply grown_append|]. split; [exact Hc | exact Hr].
  - exfalso. destruct Hr as [Hr|Hr]; [apply (Hr q H)|]. change (n_role n = Leader) in Hr. congruence.
  - split; [apply grown_append|]. split; [exact Hc | exact Hr].
  - destruct Hr as [Hr|Hr]; [destruct (Hr q H) | discriminate].
  - destruct H1 as (H1 & H2 & H3). unfold n_log. rewrite H3. destruct (fold_conf _ _ (n_disk n) H1) as [_ ->].
    split; [apply grown_refl|]. unfold core in H2. cbn in H2. injection H2. intros. split; [congruence|].
    destruct Hr as [Hr|Hr]; [left; exact Hr | right; congruence].
  - split; [apply grown_refl|]. split; [reflexivity | exact Hr].
  - rewrite Hc in H1. discriminate.
  - split; [apply grown_compact; assumption|]. split; [exact Hc | exact Hr].
  - destruct a; try contradiction; (split; [apply grown_refl|]; split; [exact Hc | exact Hr]).
Qed.
Lemma tr_grown : forall ev n l n', tr ev n l n' -> n_catching n = false ->
  ((forall q, ~ req_of ev q) \/ n_role n' = Leader) ->
  ((forall q, ~ req_of ev q) \/ n_role n = Leader) /\ grown (n_log n) (n_log n').
Proof.
  intros ev n l n' H. induction H; intros Hc Hr.
  - split; [exact Hr | apply grown_refl].
  - destruct (n_catching n1) eqn:E1.
    + exfalso. destruct H; cbn in E1; try congruence.
      * destruct H as (ps & q & j & -> & _). cbn in E1. congruence.
      * unfold core in H. injection H. intros. congruence.
      * (* joining: a request *)
        assert (F : n_role n2 <> Leader).
        { clear - H0 H. remember (apply_act _ _) as n1. assert (R : n_role n1 = Follower) by (subst; reflexivity). clear Heqn1.
          induction H0; [congruence|]. apply IHtr. clear IHtr H1.
          destruct H0; try exact R; try (cbn; exact R); try reflexivity.
          - destruct H0 as (ps & q0 & j & -> & _). exact R.
          - destruct (core_upd _ _ H0) as (_ & _ & _ & -> & _). exact R.
          - destruct H as [now E]. destruct H0 as [(E2 & _)|(_ & a & b & q1 & r & E2 & _)]; rewrite E2 in E; discriminate.
          - destruct (H1 q H).
          - destruct H2 as (_ & C & _). unfold core in C. cbn in C. injection C. intros. congruence. }
        destruct Hr as [Hr|Hr]; [apply (Hr q H) | contradiction].
      * destruct H2 as (_ & C & _). unfold core in C. cbn in C. injection C. intros. congruence.
    + destruct (IHtr eq_refl Hr) as [R1 G1]. destruct (astep_grown _ _ _ _ H Hc R1) as (G2 & _ & R2).
      split; [exact R2 | eapply grown_trans; eassumption].
Qed.
(** The server is leader before and after the event, hence throughout (losing
    and regaining leadership takes separate events).  Missing: a server that is
    joining a cluster can become leader by a late vote ([C37_leader_log_refuted]). *)
Theorem C37_leader_log_partial : forall e n r n' l,
  1 <= al_start (n_log n) -> run_event e n = (r, n', l) ->
  n_catching n = false -> n_role n = Leader -> n_role n' = Leader -> grown (n_log n) (n_log n').
Proof.
  intros e n r n' l Hs H Hc _ Hr. apply (tr_grown e n l n'); [apply (run_event_tr e n Hs _ _ _ H) | exact Hc | right; exact Hr].
Qed.

(** A server elected by the vote of server 2; it has appended two entries. *)
Definition ex_vresp (t : N) (src : Z) : resp_msg := mkResp t vote_response src 1 0 true.
Definition ex_lead_cmds : list cmd :=
  [CStart; CEvent EElection; CEvent (ERpc 1000 0 false (ex_vote 1 1 0 0) (Some (ex_vresp 1 2)));
   CEvent (EReplicate 1000 [x61]); CEvent (EReplicate 1000 [x62])].
Definition ex_lead : list obs * sys := run_cmds 1 ex_prm (Down ex_disk) ex_lead_cmds.
Definition ex_l : node := up_node (snd ex_lead).
Definition ex_cand : list obs * sys :=
  run_cmds 1 ex_prm (Down ex_disk) [CStart; CEvent EElection; CEvent (ERequest 0 (ex_join 1 3));
    CEvent (ERpc 1000 0 false (ex_vote 1 1 0 0) (Some (ex_vresp 1 2))); CEvent (EReplicate 1000 [x61])].
Definition ex_sync : req := mkReq 1 sync_log_request 3 1 0 0 0 [mkEV 1 log_pack (pack_bytes 0 [ex_ent 1 x7a])].
Definition ex_c : node := up_node (snd ex_cand).
Example C37_example :
  let x := run_event (ERequest 1000 (mkReq 1 client_request 9 1 0 0 0 [ex_ent 0 x63])) ex_l in
  n_role ex_l = Leader /\ n_catching ex_l = false /\ n_role (snd (fst x)) = Leader /\ a_next (n_log (snd (fst x))) = 5.
Proof. cbv zeta. split; [vm_compute; reflexivity|]. split; [vm_compute; reflexivity|]. split; vm_compute; reflexivity. Qed.
Theorem C37_leader_log_refuted : exists id pm d h n now q r n' l,
  disk_okay d /\ life id pm (Down d) h (Up n) /\ n_role n = Leader /\
  run_event (ERequest now q) n = (ROk (Response r), n', l) /\
  n_role n' = Leader /\ n_term n' = n_term n /\ ~ grown (n_log n) (n_log n').
Proof.
  set (x := run_event (ERequest 1000 ex_sync) ex_c).
  exists 1%Z, ex_prm, ex_disk, (fst ex_cand), ex_c, 1000, ex_sync, (mkResp 1 sync_log_response 1 3 2 true), (snd (fst x)), (snd x).
  split; [unfold disk_okay; cbn; lia|]. split.
  { replace (Up ex_c) with (snd ex_cand) by (vm_compute; reflexivity). apply run_cmds_life. }
  split; [vm_compute; reflexivity|]. split; [apply pair3; vm_compute; reflexivity|].
  split; [vm_compute; reflexivity|]. split; [vm_compute; reflexivity|].
  intros (_ & H & _). vm_compute in H. apply H. reflexivity.
Qed.

(** ** C41: being in contact with a majority *)
Definition recent (now : N) (lim : Z) (t : N) : bool := (Z.of_N now - Z.of_N t <=? lim)%Z.
Definition limit (n : node) : Z := (pm_el_upper (n_prm n) * 2)%Z.
Definition heard_from (now : N) (n : node) : nat := length (filter (fun p => recent now (limit n) (p_last_resp p)) (n_peers n)).
(** the server itself and the peers that responded lately are no majority *)
Definition cut_off (now : N) (n : node) : Prop := (2 * (1 + heard_from now n) <= length (n_peers n) + 1)%nat.
(** no peer's last response is in the future or more than 24 days old *)
Definition clock_sane (now : N) (n : node) : Prop :=
  forall p, In p (n_peers n) -> p_last_resp p <= now /\ now - p_last_resp p < 2147483648.

Lemma insert_perm : forall x l, Permutation (insert_sorted x l) (x :: l).
Proof.
  intros x. induction l as [|y l IH]; cbn [insert_sorted]; [reflexivity|]. destruct (x <=? y); [reflexivity|].
  rewrite IH. apply perm_swap.
Qed.
Lemma sort_perm : forall l, Permutation (sort_asc l) l.
Proof. induction l as [|x l IH]; [reflexivity|]. cbn [sort_asc fold_right]. rewrite insert_perm. apply perm_skip, IH. Qed.
Lemma insert_ss : forall x l, StronglySorted N.le l -> StronglySorted N.le (insert_sorted x l).
Proof.
  intros x. induction l as [|y l IH]; intros H; cbn [insert_sorted]; [repeat constructor|].
  inversion H; subst. destruct (x <=? y) eqn:E.
  - constructor; [exact H|]. constructor; [lia|]. eapply Forall_impl; [|exact H3]. cbv beta. intros; lia.
  - constructor; [apply IH; assumption|]. apply (Permutation_Forall (Permutation_sym (insert_perm x l))).
    constructor; [lia | assumption].
Qed.
Lemma sort_ss : forall l, StronglySorted N.le (sort_asc l).
Proof. induction l as [|x l IH]; [constructor|]. apply insert_ss, IH. Qed.
Lemma filter_perm_len : forall (f : N -> bool) l m, Permutation l m -> length (filter f l) = length (filter f m).
Proof.
  intros f l m H. induction H; cbn [filter]; [reflexivity | | |].
  - destruct (f x); cbn [length]; lia.
  - destruct (f x), (f y); reflexivity.
  - lia.
Qed.
(** in an ascending list, if the k-th is recent so are all after it *)
Lemma asc_recent : forall (f : N -> bool), (forall a b, a <= b -> f a = true -> f b = true) ->
  forall l k, StronglySorted N.le l -> (k < length l)%nat ->
  if f (nth k l 0) then (length l - k <= length (filter f l))%nat else (length (filter f l) <= length l - k - 1)%nat.
Proof.
  intros f Hf. induction l as [|x l IH]; intros k H Hk; [cbn in Hk; lia|]. inversion H; subst.
  destruct k as [|k]; cbn [nth filter].
  - destruct (f x) eqn:Fx.
    + cbn [length]. rewrite Nat.sub_0_r. apply le_n_S. rewrite Forall_forall in H3.
      clear - H3 Fx Hf. induction l as [|y l IH]; [cbn; lia|]. cbn [filter]. rewrite (Hf x y); [cbn; apply le_n_S, IH | apply H3; left; reflexivity | exact Fx].
      intros z Hz. apply H3. right. exact Hz.
    + cbn [length]. assert (G : (length (filter f l) <= length l)%nat).
      { clear. induction l as [|y l IH]; [cbn; lia|]. cbn [filter]. destruct (f y); cbn [length]; lia. }
      lia.
  - cbn in Hk. assert (G := IH k H2 ltac:(lia)).
    assert (Hx : x <= nth k l 0) by (rewrite Forall_forall in H3; apply H3, nth_In; lia).
    destruct (f (nth k l 0)) eqn:Fk.
    + destruct (f x); cbn [length]; lia.
    + destruct (f x) eqn:Fx; [rewrite (Hf _ _ Hx Fx) in Fk; discriminate|]. cbn [length]. lia.
Qed.

Definition quorum_time (n : node) : N := nth (Nat.div (length (n_peers n)) 2) (sort_asc (map p_last_resp (n_peers n))) 0.
Lemma quorum_recent : forall now n, n_peers n <> [] ->
  (recent now (limit n) (quorum_time n) = false <-> cut_off now n).
Proof.
  intros now n Hp. unfold cut_off, heard_from, quorum_time.
  assert (Hl : forall f, length (filter (fun p => f (p_last_resp p)) (n_peers n)) = length (filter f (sort_asc (map p_last_resp (n_peers n))))).
  { intros f. rewrite (filter_perm_len f _ _ (sort_perm _)). clear. induction (n_peers n) as [|p l IH]; [reflexivity|].
    cbn [map filter]. destruct (f (p_last_resp p)); cbn [length]; rewrite IH; reflexivity. }
  rewrite (Hl (recent now (limit n))).
  assert (Hlen : length (sort_asc (map p_last_resp (n_peers n))) = length (n_peers n)).
  { rewrite (Permutation_length (sort_perm _)), map_length. reflexivity. }
  assert (H0 : (0 < length (n_peers n))%nat) by (destruct (n_peers n); [contradiction | cbn; lia]).
  assert (Hd := Nat.div_mod (length (n_peers n)) 2 ltac:(lia)). assert (Hm := Nat.mod_upper_bound (length (n_peers n)) 2 ltac:(lia)).
  assert (G := asc_recent (recent now (limit n)) ltac:(unfold recent; intros; lia) (sort_asc (map p_last_resp (n_peers n)))
    (Nat.div (length (n_peers n)) 2) (sort_ss _) ltac:(lia)).
  rewrite Hlen in G. destruct (recent now (limit n) _); split; intros X; try discriminate; try reflexivity; lia.
Qed.
Lemma quorum_time_in : forall n, n_peers n <> [] -> exists p, In p (n_peers n) /\ quorum_time n = p_last_resp p.
Proof.
  intros n Hp. assert (H : In (quorum_time n) (map p_last_resp (n_peers n))).
  { apply (Permutation_in _ (sort_perm _)). apply nth_In. rewrite (Permutation_length (sort_perm _)), map_length.
    apply Nat.div_lt; [destruct (n_peers n); [contradiction | cbn; lia] | lia]. }
  apply in_map_iff in H. destruct H as (p & H1 & H2). exists p. auto.
Qed.

(** is_leader(): a server that is leader looks at the peers' last responses only
    when the elapsed time it remembers from the last look is over the limit *)
Lemma not_leader_eq : forall now n, n_role n <> Leader -> is_leader now n = (ROk false, n, []).
Proof. intros now n H. unfold is_leader. rewrite bind_get. destruct (n_role n); [reflexivity | reflexivity | contradiction]. Qed.
Lemma is_leader_known : forall now n, n_role n = Leader -> (n_peers n = [] \/ (n_elapsed n <= limit n)%Z) ->
  is_leader now n = (ROk true, n, []).
Proof.
  intros now n H Hk. unfold is_leader. rewrite bind_get. rewrite H. fold (limit n).
  destruct Hk as [->|Hk]; [reflexivity|]. replace (limit n <? n_elapsed n)%Z with false by lia. rewrite andb_false_r. reflexivity.
Qed.
Lemma is_leader_look : forall now n, n_role n = Leader -> n_peers n <> [] -> (limit n < n_elapsed n)%Z -> clock_sane now n ->
  exists e, is_leader now n = (ROk (recent now (limit n) (quorum_time n)), set_elapsed e n, []).
Proof.
  intros now n H Hp Hk Hs. unfold is_leader. rewrite bind_get. rewrite H. fold (limit n). fold (quorum_time n).
  replace (limit n <? n_elapsed n)%Z with true by lia.
  replace (Nat.eqb (length (n_peers n)) 0) with false by (destruct (n_peers n); [contradiction | reflexivity]).
  cbn [andb negb]. rewrite bind_modify. destruct (quorum_time_in n Hp) as (p & Hin & Hq). destruct (Hs p Hin) as [S1 S2].
  eexists. rewrite to_int32_id by (unfold is_int32; lia). unfold recent.
  destruct (limit n <? _)%Z eqn:E; [replace (_ <=? limit n)%Z with false by lia | replace (_ <=? limit n)%Z with true by lia]; reflexivity.
Qed.

Definition refuses_clients (now : N) (n : node) : Prop :=
  (forall q, rq_type q = client_request -> exists r n',
     run_event (ERequest now q) n = (ROk (Response r), n', []) /\ rs_accepted r = false /\ n_disk n' = n_disk n) /\
  (forall data, exists n', run_event (EReplicate now data) n = (ROk (Bool false), n', []) /\ n_disk n' = n_disk n) /\
  (forall logs, n_leader n = n_id n -> exists n',
     run_event (EAppend now logs) n = (ROk (Async (Now false)), n', []) /\ n_disk n' = n_disk n).

Theorem C41_cut_off_partial : forall n now,
  n_role n = Leader -> n_peers n <> [] -> clock_sane now n -> (limit n < n_elapsed n)%Z ->
  (fst (fst (is_leader now n)) = ROk false <-> cut_off now n) /\
  (cut_off now n -> refuses_clients now n).
Proof.
  intros n now Hr Hp Hs Hk. destruct (is_leader_look now n Hr Hp Hk Hs) as (e & E). split.
  { rewrite E. cbn [fst]. rewrite <- (quorum_recent now n Hp).
    destruct (recent _ _ _); split; intros X; try reflexivity; try discriminate; congruence. }
  intros C. apply (quorum_recent now n Hp) in C. rewrite C in E.
  assert (Q : forall q, rq_type q = client_request ->
    process_req now q n = (ROk (resp_of (n_term n) append_entries_response (n_id n) (-1)), set_elapsed e n, [])).
  { intros q Hq. rewrite process_cli_req by exact Hq. unfold handle_cli_req. rewrite (bind_ok _ _ _ _ _ _ _ _ E), after_nil.
    rewrite bind_get. change (n_role (set_elapsed e n)) with (n_role n). rewrite Hr. reflexivity. }
  split; [|split].
  - intros q Hq. exists (resp_of (n_term n) append_entries_response (n_id n) (-1)), (set_elapsed e n).
    split; [apply run_request, Q, Hq|]. split; reflexivity.
  - intros data. exists (set_elapsed e n). split; [|reflexivity]. cbn [run_event]. unfold replicate_log.
    rewrite bind_assoc, (bind_ok _ _ _ _ _ _ _ _ E), after_nil. reflexivity.
  - intros [|a logs] Hl.
    { exists n. split; reflexivity. }
    cbn [run_event]. unfold append_entries, send_msg_to_leader.
    rewrite bind_assoc, bind_get. rewrite Hl. destruct (n_id n =? -1)%Z eqn:En.
    + exists n. split; reflexivity.
    + exists (set_elapsed e n). split; [|reflexivity]. rewrite Z.eqb_refl. rewrite bind_assoc, (bind_ok _ _ _ _ _ _ _ _ (Q (api_req client_request (map (mkEV 0 app_log) (a :: logs))) eq_refl)), after_nil. reflexivity.
Qed.

(** the remembered time is never measured again once it was below the limit *)
Theorem C41_cut_off_refuted : exists id pm d h n now q r n' l,
  disk_okay d /\ life id pm (Down d) h (Up n) /\ n_role n = Leader /\ n_peers n <> [] /\ clock_sane now n /\ cut_off now n /\
  fst (fst (is_leader now n)) = ROk true /\ rq_type q = client_request /\
  run_event (ERequest now q) n = (ROk (Response r), n', l) /\ rs_accepted r = true /\ a_next (n_log n) < a_next (n_log n').
Proof.
  set (q := mkReq 1 client_request 9 1 0 0 0 [ex_ent 0 x63]).
  set (x := run_event (ERequest 1000000 q) ex_l).
  exists 1%Z, ex_prm, ex_disk, (fst ex_lead), ex_l, 1000000, q, (mkResp 1 append_entries_response 1 1 5 true), (snd (fst x)), (snd x).
  split; [unfold disk_okay; cbn; lia|]. split.
  { replace (Up ex_l) with (snd ex_lead) by (vm_compute; reflexivity). apply run_cmds_life. }
  split; [vm_compute; reflexivity|]. split; [intros H; apply (f_equal (@length _)) in H; vm_compute in H; discriminate|].
  assert (L : map p_last_resp (n_peers ex_l) = [1000; 0]) by (vm_compute; reflexivity).
  split.
  { intros p Hp. assert (E : In (p_last_resp p) [1000; 0]) by (rewrite <- L; apply in_map; exact Hp). cbn in E. lia. }
  split; [unfold cut_off; vm_compute; lia|].
  split; [vm_compute; reflexivity|]. split; [reflexivity|].
  split; [apply pair3; vm_compute; reflexivity|]. split; [reflexivity|]. vm_compute. reflexivity.
Qed.
Definition ex_l0 : node := up_node (snd (run_cmds 1 ex_prm (Down ex_disk) (firstn 3 ex_lead_cmds))).
(** a leader whose peers last responded at time 1000 and never, at 1002 and at 100000 *)
Example C41_example :
  n_role ex_l0 = Leader /\ n_peers ex_l0 <> [] /\ clock_sane 1002 ex_l0 /\ clock_sane 100000 ex_l0 /\ (limit ex_l0 < n_elapsed ex_l0)%Z /\
  ~ cut_off 1002 ex_l0 /\ cut_off 100000 ex_l0.
Proof.
  split; [vm_compute; reflexivity|]. split; [intros H; apply (f_equal (@length _)) in H; vm_compute in H; discriminate|].
  assert (L : map p_last_resp (n_peers ex_l0) = [1000; 0]) by (vm_compute; reflexivity).
  split; [|split].
  1,2: intros p Hp; assert (E : In (p_last_resp p) [1000; 0]) by (rewrite <- L; apply in_map; exact Hp); cbn in E; lia.
  split; [vm_compute; reflexivity|]. split; unfold cut_off; vm_compute; lia.
Qed.

(** ** C42: client requests *)
(** a leader that has peers asks is_leader(); it is in contact when that says true *)
Definition in_contact (now : N) (n : node) : Prop :=
  n_role n = Leader /\
  (n_peers n = [] \/ (n_elapsed n <= limit n)%Z \/ (clock_sane now n /\ ~ cut_off now n)).
Lemma in_contact_eq : forall now n, in_contact now n -> exists e, is_leader now n = (ROk true, set_elapsed e n, []).
Proof.
  intros now n (Hr & H).
  assert (K : n_peers n = [] \/ (n_elapsed n <= limit n)%Z -> exists e, is_leader now n = (ROk true, set_elapsed e n, [])).
  { intros K. exists (n_elapsed n). rewrite is_leader_known by assumption. destruct n; reflexivity. }
  destruct H as [H|[H|[H1 H2]]]; [apply K; auto | apply K; auto|].
  destruct (Z.le_gt_cases (n_elapsed n) (limit n)) as [L|L]; [apply K; auto|].
  destruct (list_eq_dec N.eq_dec (map p_uid (n_peers n)) []) as [E|E].
  { apply K. left. destruct (n_peers n); [reflexivity | discriminate]. }
  assert (Hp : n_peers n <> []) by (intros X; rewrite X in E; apply E; reflexivity).
  destruct (is_leader_look now n Hr Hp ltac:(lia) H1) as (e & Q). exists e. rewrite Q.
  destruct (recent now (limit n) (quorum_time n)) eqn:R; [reflexivity|]. apply (quorum_recent now n Hp) in R. contradiction.
Qed.

Definition stamp (t : N) (e : entry_val) : entry_val := mkEV t (ev_type e) (ev_data e).
(** each entry is appended, then announced with its index *)
Fixpoint append_acts (i : N) (es : list entry_val) : list act :=
  match es with [] => [] | e :: es => AAppend e :: APreCommit i e :: append_acts (i + 1) es end.
(** the log with [es] added at the end *)
Definition log_plus (l : alog) (es : list entry_val) : alog := mkAL (al_start l) (al_ents l ++ es).
(** only messages to other servers, or a deliberate end of the process *)
Definition only_sends (l : list act) : Prop := forall a, In a l -> match a with ASend _ _ _ | AExit _ => True | _ => False end.

Lemma a_replace_plus : forall l e, a_replace l (a_next l) [e] = log_plus l [e].
Proof.
  intros l e. unfold a_replace, log_plus. rewrite firstn_all2; [reflexivity|]. unfold a_next, lenN. lia.
Qed.
Lemma log_append_eq : forall e n, log_append e n = (ROk (a_next (n_log n)), set_log (log_plus (n_log n) [e]) n, [AAppend e]).
Proof. intros e n. unfold log_append, next_slot_. rewrite bind_get, bind_emit, emit_append, a_replace_plus. reflexivity. Qed.
Lemma cli_append_eq : forall es t n,
  cli_append t es n = (ROk tt, set_log (log_plus (n_log n) (map (stamp t) es)) n, append_acts (a_next (n_log n)) (map (stamp t) es)).
Proof.
  induction es as [|e es IH]; intros t n.
  - cbn [cli_append map append_acts]. unfold ret. f_equal. f_equal. unfold log_plus. rewrite app_nil_r.
    replace (mkAL (al_start (n_log n)) (al_ents (n_log n))) with (n_log n) by (destruct (n_log n); reflexivity). symmetry. apply set_log_id.
  - cbn [cli_append map append_acts]. fold (stamp t e). rewrite (bind_ok _ _ _ _ _ _ _ _ (log_append_eq _ _)).
    unfold next_slot_. rewrite bind_get, bind_emit, emit_none by reflexivity. rewrite log_set_log, IH, log_set_log, set_log_log.
    assert (X : a_next (log_plus (n_log n) [stamp t e]) = a_next (n_log n) + 1) by (rewrite <- a_replace_plus; apply a_next_append).
    rewrite X. replace (a_next (n_log n) + 1 - 1) with (a_next (n_log n)) by lia. unfold after. cbn [fst snd app].
    unfold log_plus. cbn [al_start al_ents]. rewrite <- app_assoc. reflexivity.
Qed.

Theorem C42_leader_appends_partial : forall n now q r n' l,
  rq_type q = client_request -> in_contact now n -> run_event (ERequest now q) n = (r, n', l) ->
  exists l2, l = append_acts (a_next (n_log n)) (map (stamp (n_term n)) (rq_entries q)) ++ l2 /\ only_sends l2 /\
    n_log n' = log_plus (n_log n) (map (stamp (n_term n)) (rq_entries q)) /\ n_term n' = n_term n /\ n_role n' = Leader /\
    (forall a, r = ROk a -> exists x, a = Response x /\ rs_accepted x = true /\ rs_next_idx x = a_next (n_log n') /\
       rs_dst x = n_leader n /\ rs_term x = n_term n).
Proof.
  intros n now q r n' l Hq Hc. cbn [run_event]. destruct (in_contact_eq now n Hc) as (e & E). destruct Hc as [Hr _].
  assert (P : process_req now q n = handle_cli_req now q n) by (apply process_cli_req; exact Hq).
  unfold bind at 1. rewrite P. unfold handle_cli_req. rewrite (bind_ok _ _ _ _ _ _ _ _ E), after_nil, bind_get.
  change (n_role (set_elapsed e n)) with (n_role n). rewrite Hr. change (n_term (set_elapsed e n)) with (n_term n).
  rewrite (bind_ok _ _ _ _ _ _ _ _ (cli_append_eq _ _ _)). change (n_log (set_elapsed e n)) with (n_log n).
  set (n1 := set_log _ (set_elapsed e n)). assert (L1 : n_log n1 = log_plus (n_log n) (map (stamp (n_term n)) (rq_entries q))) by apply log_set_log.
  assert (T1 : n_term n1 = n_term n) by reflexivity. assert (R1 : n_role n1 = Leader) by exact Hr. clearbody n1.
  destruct (request_append_entries n1) as [[x n2] l2] eqn:E2.
  destruct (request_append_entries_ht n1 _ _ _ E2) as [Q _]. destruct (quiet_log _ _ _ Q) as (Q1 & Q2 & Q3 & Q4 & _).
  assert (O : only_sends l2).
  { destruct Q as (ps & qq & j & _ & _ & _ & _ & F). rewrite Forall_forall in F. intros a Ha. specialize (F a Ha). destruct a; try contradiction; exact I. }
  unfold bind at 1. rewrite E2. destruct x as [u| | |]; unfold after; cbn [fst snd].
  - unfold next_slot_. rewrite bind_get. unfold ret. cbn [fst snd]. intros X. injection X as <- <- <-.
    exists (l2 ++ [] ++ []). rewrite !app_nil_r. split; [rewrite ?app_nil_r; reflexivity|]. split; [exact O|]. split; [congruence|]. split; [congruence|]. split; [congruence|].
    intros a Ha. injection Ha as <-. eexists. split; [reflexivity|]. split; [reflexivity|]. split; [cbn; congruence|]. split; reflexivity.
  - intros X. injection X as <- <- <-. exists l2. repeat (split; [congruence || exact O|]). intros; discriminate.
  - intros X. injection X as <- <- <-. exists l2. repeat (split; [congruence || exact O|]). intros; discriminate.
  - intros X. injection X as <- <- <-. exists l2. repeat (split; [congruence || exact O|]). intros; discriminate.
Qed.
Theorem C42_others_refuse : forall n now q, rq_type q = client_request -> n_role n <> Leader ->
  exists x, run_event (ERequest now q) n = (ROk (Response x), n, []) /\ rs_accepted x = false /\ rs_dst x = n_leader n.
Proof.
  intros n now q Hq Hr. exists (resp_of (n_term n) append_entries_response (n_id n) (n_leader n)).
  split; [|split; reflexivity]. apply run_request. rewrite process_cli_req by exact Hq. unfold handle_cli_req.
  rewrite (bind_ok _ _ _ _ _ _ _ _ (not_leader_eq now n Hr)), after_nil, bind_get. destruct (n_role n); [reflexivity | reflexivity | contradiction].
Qed.
Example C42_example : in_contact 1000 ex_l /\ n_term ex_l = 1 /\
  n_role (up_node (snd (run_cmds 1 ex_prm (Down ex_disk) [CStart; CEvent (ERequest 5 (ex_ae 3 2 0 0 0 [ex_ent 3 x61]))]))) <> Leader /\
  n_leader (up_node (snd (run_cmds 1 ex_prm (Down ex_disk) [CStart; CEvent (ERequest 5 (ex_ae 3 2 0 0 0 [ex_ent 3 x61]))]))) = 2%Z.
Proof.
  split; [split; [vm_compute; reflexivity | right; left; vm_compute; discriminate]|]. split; [vm_compute; reflexivity|].
  split; [vm_compute; discriminate | vm_compute; reflexivity].
Qed.

(** ** C43: replicate_log *)
Theorem C43_replicate_log_partial : forall n now data r n' l,
  run_event (EReplicate now data) n = (r, n', l) ->
  (n_role n <> Leader -> r = ROk (Bool false) /\ n' = n /\ l = []) /\
  (in_contact now n -> exists l2, l = AAppend (mkEV (n_term n) app_log data) :: l2 /\ only_sends l2 /\
     n_log n' = log_plus (n_log n) [mkEV (n_term n) app_log data]).
Proof.
  intros n now data r n' l. cbn [run_event]. unfold replicate_log. rewrite bind_assoc. intros H. split.
  - intros Hr. rewrite (bind_ok _ _ _ _ _ _ _ _ (not_leader_eq now n Hr)), after_nil in H. injection H as <- <- <-. repeat split; reflexivity.
  - intros Hc. destruct (in_contact_eq now n Hc) as (e & E). rewrite (bind_ok _ _ _ _ _ _ _ _ E), after_nil in H. cbn [negb] in H.
    rewrite bind_assoc, bind_get in H. change (n_term (set_elapsed e n)) with (n_term n) in H.
    rewrite bind_assoc, (bind_ok _ _ _ _ _ _ _ _ (log_append_eq _ _)) in H. change (n_log (set_elapsed e n)) with (n_log n) in H.
    set (n1 := set_log _ (set_elapsed e n)) in H.
    assert (L1 : n_log n1 = log_plus (n_log n) [mkEV (n_term n) app_log data]) by apply log_set_log. clearbody n1.
    rewrite bind_assoc in H. unfold bind at 1 in H. destruct (request_append_entries n1) as [[x n2] l2] eqn:E2.
    destruct (request_append_entries_ht n1 _ _ _ E2) as [Q _]. destruct (quiet_log _ _ _ Q) as (Q1 & _).
    assert (O : only_sends l2).
    { destruct Q as (ps & qq & j & _ & _ & _ & _ & F). rewrite Forall_forall in F. intros a Ha. specialize (F a Ha). destruct a; try contradiction; exact I. }
    exists l2. split; [|split; [exact O|]].
    + destruct x; unfold after, ret, bind in H; cbn [fst snd app] in H; injection H as <- <- <-; rewrite ?app_nil_r; reflexivity.
    + destruct x; unfold after, ret, bind in H; cbn [fst snd app] in H; injection H as <- <- <-; congruence.
Qed.
(** a leader appends the entry and still says false *)
Theorem C43_replicate_log_refuted :
  (forall n now data n' l b, run_event (EReplicate now data) n = (ROk (Bool b), n', l) -> b = false) /\
  exists id pm d h n now data n' l,
    disk_okay d /\ life id pm (Down d) h (Up n) /\ n_role n = Leader /\
    run_event (EReplicate now data) n = (ROk (Bool false), n', l) /\
    In (AAppend (mkEV (n_term n) app_log data)) l /\ a_next (n_log n') = a_next (n_log n) + 1.
Proof.
  split.
  - intros n now data n' l b. cbn [run_event]. unfold replicate_log. unfold bind, ret.
    destruct (is_leader now n) as [[x1 n1] l1]. destruct x1 as [[|]| | |]; cbn [negb]; try (intros H; discriminate).
    + unfold get. destruct (log_append _ n1) as [[x2 n2] l2]. destruct x2; try (intros H; discriminate).
      destruct (request_append_entries n2) as [[x3 n3] l3]. destruct x3; try (intros H; discriminate).
      intros H. injection H. intros. congruence.
    + intros H. injection H. intros. congruence.
  - set (x := run_event (EReplicate 1000 [x63]) ex_l).
    exists 1%Z, ex_prm, ex_disk, (fst ex_lead), ex_l, 1000, [x63], (snd (fst x)), (snd x).
    split; [unfold disk_okay; cbn; lia|]. split.
    { replace (Up ex_l) with (snd ex_lead) by (vm_compute; reflexivity). apply run_cmds_life. }
    split; [vm_compute; reflexivity|]. split; [apply pair3; vm_compute; reflexivity|].
    split; [vm_compute; left; reflexivity | vm_compute; reflexivity].
Qed.
Example C43_example : in_contact 1000 ex_l /\ snd (run_event (EReplicate 1000 [x63]) ex_l) <> [].
Proof. split; [split; [vm_compute; reflexivity | right; left; vm_compute; discriminate] | vm_compute; discriminate]. Qed.

Print Assumptions C37_leader_log_partial.
Print Assumptions C37_leader_log_refuted.
Print Assumptions C41_cut_off_partial.
Print Assumptions C41_cut_off_refuted.
Print Assumptions C42_leader_appends_partial.
Print Assumptions C42_others_refuse.
Print Assumptions C43_replicate_log_partial.
Print Assumptions C43_replicate_log_refuted.
