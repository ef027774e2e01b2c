(** * NodeLife: invariants of the life of a server *)

From Coq Require Import Sorting.Sorted.
From Verif Require Import Base Buffer Codec CodecSpec Msg FsLogStore FsLogSpec Alog Raft RaftQuiet RaftTrace RaftTrace2 RaftTrace3 NodeSpec.
Local Open Scope N_scope.

Lemma saves_app : forall a b, saves (a ++ b) = saves a ++ saves b.
Proof.
  induction a as [|x a IH]; intros b; [reflexivity|]. destruct x; cbn [saves app]; rewrite IH; reflexivity.
Qed.
Lemma saves_benign : forall l, Forall benign_act l -> saves l = [].
Proof. induction l as [|a l IH]; intros H; [reflexivity|]. inversion H; subst. destruct a; try contradiction; apply IH; assumption. Qed.
Lemma saves_ae : forall n q l, Forall (ae_act n q) l -> saves l = [].
Proof. intros n q. induction l as [|a l IH]; intros H; [reflexivity|]. inversion H; subst. destruct a; try contradiction; apply IH; assumption. Qed.
Lemma saves_conf : forall c l, Forall (fun a => benign_act a \/ a = ASaveConfig c) l -> saves l = [].
Proof.
  intros c. induction l as [|a l IH]; intros H; [reflexivity|]. inversion H; subst.
  destruct H2 as [H2 | ->]; [destruct a; try contradiction|]; apply IH; assumption.
Qed.
Lemma fold_conf : forall c l d, Forall (fun a => benign_act a \/ a = ASaveConfig c) l -> dk_state (fold_left disk_apply l d) = dk_state d /\ dk_log (fold_left disk_apply l d) = dk_log d.
Proof.
  intros c. induction l as [|a l IH]; intros d H; [split; reflexivity|]. inversion H; subst. cbn [fold_left].
  destruct (IH (disk_apply d a) H3) as [-> ->].
  destruct H2 as [H2 | ->]; [rewrite benign_disk by assumption|]; split; reflexivity.
Qed.

(** ** The steps through which term and vote change *)
Definition tv (n : node) : N * Z := (n_term n, n_vote n).
Definition no_join (ev : event) : Prop := forall q, req_of ev q -> rq_type q <> join_cluster_request.

(** from one saved pair to the next *)
Definition tv_step (x y : N * Z) : Prop :=
  fst x < fst y \/ (fst x = fst y /\ (snd x = (-1)%Z \/ snd x = snd y)).
Inductive tv_chain : N * Z -> list (N * Z) -> N * Z -> Prop :=
| TV_nil : forall x, tv_chain x [] x
| TV_cons : forall x y l z, tv_step x y -> tv_chain y l z -> tv_chain x (y :: l) z.
Lemma tv_chain_app : forall x a y b z, tv_chain x a y -> tv_chain y b z -> tv_chain x (a ++ b) z.
Proof. intros x a y b z H. induction H; intros; [assumption|]. cbn [app]. econstructor; [eassumption|]. apply IHtv_chain. assumption. Qed.

Lemma astep_tv : forall ev n l n', no_join ev -> astep ev n l n' -> tv_chain (tv n) (saves l) (tv n').
Proof.
  intros ev n l n' Hj H. unfold tv. destruct H; try (cbn [saves]; constructor; fail).
  - destruct H as (ps & q & j & -> & _ & _ & _ & Hl). rewrite (saves_ae _ _ _ Hl). constructor.
  - rewrite (saves_benign _ H0). destruct (core_upd _ _ H) as (_ & -> & _ & _ & -> & _). constructor.
  - cbn [saves]. econstructor; [|constructor]. left. cbn. lia.
  - cbn [saves]. econstructor; [|constructor]. left. cbn. lia.
  - cbn [saves]. econstructor; [|constructor]. right. split; [reflexivity|]. left. exact H0.
  - cbn [saves]. econstructor; [|constructor]. right. split; [reflexivity|]. cbn [snd].
    destruct H3 as [-> | ->]; auto.
  - cbn [saves]. econstructor; [|constructor]. right. split; [reflexivity|]. right. reflexivity.
  - exfalso. apply (Hj q H H0).
  - destruct H1 as (H1 & H2 & H3). rewrite (saves_conf _ _ H1). unfold core in H2. cbn in H2. injection H2. intros.
    replace (n_term n') with (n_term n) by congruence. replace (n_vote n') with (n_vote n) by congruence. constructor.
  - destruct a; try contradiction; constructor.
Qed.
Lemma tr_tv : forall ev n l n', no_join ev -> tr ev n l n' -> tv_chain (tv n) (saves l) (tv n').
Proof.
  intros ev n l n' Hj H. induction H; [constructor|]. rewrite saves_app.
  eapply tv_chain_app; [eapply astep_tv; eassumption | assumption].
Qed.

(** the disk holds what memory holds (any event) *)
Definition synced (n : node) : Prop := saved (n_disk n) = tv n.
Lemma astep_synced : forall ev n l n', astep ev n l n' -> synced n -> synced n'.
Proof.
  intros ev n l n' H Hs. unfold synced, tv in *. destruct H; try exact Hs; try reflexivity.
  - destruct H as (ps & q & j & -> & _). exact Hs.
  - destruct (core_upd _ _ H) as (_ & -> & _ & _ & -> & ->). exact Hs.
  - destruct H1 as (H1 & H2 & H3). rewrite H3. unfold saved in *. destruct (fold_conf _ _ (n_disk n) H1) as [-> _].
    unfold core in H2. cbn in H2. injection H2. intros. congruence.
  - destruct a; try contradiction; exact Hs.
Qed.
Lemma tr_synced : forall ev n l n', tr ev n l n' -> synced n -> synced n'.
Proof. intros ev n l n' H. induction H; intros; [assumption|]. apply IHtr. eapply astep_synced; eassumption. Qed.

Lemma start_synced : forall id pm d, synced (start_node id pm d).
Proof.
  intros id pm d. unfold synced, tv, saved, start_node. destruct (dk_state d) as [[t v]|] eqn:E; cbn; rewrite E; reflexivity.
Qed.
Lemma start_disk : forall id pm d, n_disk (start_node id pm d) = d.
Proof. intros. unfold start_node. destruct (dk_state d) as [[t v]|]; reflexivity. Qed.
Lemma start_id : forall id pm d, n_id (start_node id pm d) = id.
Proof. intros. unfold start_node. destruct (dk_state d) as [[t v]|]; reflexivity. Qed.

(** what a running server always satisfies *)
Definition okay (id : Z) (s : sys) : Prop :=
  match s with Up n => 1 <= al_start (n_log n) /\ synced n /\ n_id n = id | Down d => disk_okay d end.

Lemma astep_id : forall ev n l n', astep ev n l n' -> n_id n' = n_id n.
Proof.
  intros ev n l n' H. destruct H; try reflexivity.
  - destruct H as (ps & q & j & -> & _). reflexivity.
  - unfold core in H. congruence.
  - destruct H1 as (_ & H1 & _). unfold core in H1. cbn in H1. injection H1. intros. congruence.
Qed.
Lemma tr_id : forall ev n l n', tr ev n l n' -> n_id n' = n_id n.
Proof. intros ev n l n' H. induction H; [reflexivity|]. rewrite IHtr. eapply astep_id; eassumption. Qed.

(** an induction principle for lives: one event at a time *)
Lemma life_ind_tr : forall id pm (P : sys -> list obs -> sys -> Prop),
  (forall s, okay id s -> P s [] s) ->
  (forall n e r n' l h s, okay id (Up n) -> run_event e n = (r, n', l) -> goes_on r = true -> tr e n l n' -> okay id (Up n') ->
     P (Up n') h s -> P (Up n) (mkObs e l (answer_of r) :: h) s) ->
  (forall n e l n' h s, okay id (Up n) -> tr e n l n' -> okay id (Up n') -> okay id (Down (n_disk n')) ->
     P (Down (n_disk n')) h s -> P (Up n) (mkObs e l None :: h) s) ->
  (forall d h s, okay id (Down d) -> okay id (Up (start_node id pm d)) -> P (Up (start_node id pm d)) h s -> P (Down d) h s) ->
  forall s h s', life id pm s h s' -> okay id s -> P s h s'.
Proof.
  intros id pm P Hnil Hev Hst Hup s h s' H. induction H; intros Hok.
  - apply Hnil, Hok.
  - assert (Hok0 := Hok). destruct Hok as (H2 & H3 & H4).
    assert (HT := proj1 (run_event_tr e n H2 _ _ _ H)).
    assert (Hok' : okay id (Up n')).
    { split; [eapply tr_start; eassumption|]. split; [eapply tr_synced; eassumption|]. rewrite (tr_id _ _ _ _ HT). exact H4. }
    apply (Hev n e r n' l h s Hok0 H H0 HT Hok' (IHlife Hok')).
  - assert (Hok0 := Hok). destruct Hok as (H2 & H3 & H4).
    assert (HT := proj1 (run_event_tr e n H2 _ _ _ H)).
    assert (Hok' : okay id (Up n')).
    { split; [eapply tr_start; eassumption|]. split; [eapply tr_synced; eassumption|]. rewrite (tr_id _ _ _ _ HT). exact H4. }
    assert (Hd : okay id (Down (n_disk n'))) by apply Hok'.
    apply (Hst n e l n' h s Hok0 HT Hok' Hd (IHlife Hd)).
  - assert (Hok0 := Hok). destruct Hok as (H2 & H3 & H4).
    assert (HT := proj1 (run_event_tr e n H2 _ _ _ H)).
    destruct (tr_prefix _ _ _ _ HT p q eq_refl) as (n1 & HT1).
    assert (Hok' : okay id (Up n1)).
    { split; [eapply tr_start; eassumption|]. split; [eapply tr_synced; eassumption|]. rewrite (tr_id _ _ _ _ HT1). exact H4. }
    rewrite <- (tr_disk _ _ _ _ HT1) in *.
    assert (Hd : okay id (Down (n_disk n1))) by apply Hok'.
    apply (Hst n e p n1 h s Hok0 HT1 Hok' Hd (IHlife Hd)).
  - assert (Hok' : okay id (Up (start_node id pm d))).
    { split; [unfold n_log; rewrite start_disk; exact Hok|]. split; [apply start_synced | apply start_id]. }
    apply (Hup d h s Hok Hok' (IHlife Hok')).
Qed.

(** ** Term and vote over a whole life *)
Lemma without_cons : forall ty o h, without ty (o :: h) -> ~ got ty o /\ without ty h.
Proof. intros ty o h H. split; [apply H; left; reflexivity | intros x Hx; apply H; right; exact Hx]. Qed.
Lemma not_got_join : forall e l a, ~ got join_cluster_request (mkObs e l a) -> no_join e.
Proof. intros e l a H q [now Hq] Ht. apply H. exists now, q. split; [exact Hq | exact Ht]. Qed.

Lemma life_chain : forall id pm s h s', life id pm s h s' -> okay id s -> without join_cluster_request h ->
  tv_chain (saved (sys_disk s)) (saves (acts_of h)) (saved (sys_disk s')).
Proof.
  intros id pm s h s' H Hok. revert s h s' H Hok.
  apply (life_ind_tr id pm (fun s h s' => without join_cluster_request h ->
     tv_chain (saved (sys_disk s)) (saves (acts_of h)) (saved (sys_disk s')))).
  - intros s _ _. constructor.
  - intros n e r n' l h s (_ & Hs & _) _ _ HT (_ & Hs' & _) IH Hw. apply without_cons in Hw. destruct Hw as [Hg Hw].
    unfold acts_of in *. cbn [map concat o_acts]. rewrite saves_app. cbn [sys_disk] in *. rewrite Hs in *.
    eapply tv_chain_app; [eapply tr_tv; [eapply not_got_join; exact Hg | exact HT]|]. rewrite <- Hs'. apply IH, Hw.
  - intros n e l n' h s (_ & Hs & _) HT (_ & Hs' & _) _ IH Hw. apply without_cons in Hw. destruct Hw as [Hg Hw].
    unfold acts_of in *. cbn [map concat o_acts]. rewrite saves_app. cbn [sys_disk] in *. rewrite Hs in *.
    eapply tv_chain_app; [eapply tr_tv; [eapply not_got_join; exact Hg | exact HT]|]. rewrite <- Hs'. apply IH, Hw.
  - intros d h s _ _ IH Hw. cbn [sys_disk] in *. rewrite start_disk in IH. apply IH, Hw.
Qed.

Lemma tv_chain_le : forall x l z, tv_chain x l z -> fst x <= fst z /\ Forall (fun y => fst x <= fst y <= fst z) l.
Proof.
  intros x l z H. induction H; [split; [lia | constructor]|]. destruct IHtv_chain as [H1 H2].
  assert (fst x <= fst y) by (destruct H as [H|[H _]]; lia).
  split; [lia|]. constructor; [lia|]. eapply Forall_impl; [|exact H2]. cbv beta. intros a Ha. lia.
Qed.
Lemma tv_chain_sorted : forall x l z, tv_chain x l z -> StronglySorted N.le (fst x :: map fst l ++ [fst z]).
Proof.
  intros x l z H. induction H.
  - cbn. constructor; [constructor; [constructor|constructor] | constructor; [lia | constructor]].
  - cbn [map app]. constructor; [exact IHtv_chain|].
    assert (fst x <= fst y) by (destruct H as [H|[H _]]; lia).
    destruct (tv_chain_le _ _ _ H0) as [H2 H3].
    constructor; [assumption|]. apply Forall_app. split; [|constructor; [lia | constructor]].
    apply Forall_map. eapply Forall_impl; [|exact H3]. cbv beta. intros a Ha. lia.
Qed.

(** two votes saved for the same term are the same *)
Lemma tv_chain_vote_head : forall x l z, tv_chain x l z -> snd x <> (-1)%Z ->
  forall y, In y l -> fst y = fst x -> snd y = snd x.
Proof.
  intros x l z H. induction H; intros Hx w Hin Hw; [destruct Hin|].
  destruct (tv_chain_le _ _ _ H0) as [H2 H3].
  assert (Hy : fst y = fst x -> snd y = snd x).
  { intros E. destruct H as [H|[_ [H|H]]]; [lia | contradiction | congruence]. }
  destruct Hin as [<-|Hin]; [apply Hy, Hw|].
  rewrite Forall_forall in H3. specialize (H3 w Hin).
  assert (E : fst y = fst x). { destruct H as [H|[H _]]; lia. }
  rewrite <- (Hy E). apply IHtv_chain; [rewrite (Hy E); exact Hx | exact Hin | lia].
Qed.
Lemma tv_chain_vote : forall x l z, tv_chain x l z -> forall a b, In a (x :: l) -> In b (x :: l) ->
  fst a = fst b -> snd a <> (-1)%Z -> snd b <> (-1)%Z -> snd a = snd b.
Proof.
  intros x l z H. induction H; intros a b Ha Hb E Na Nb.
  - destruct Ha as [<-|[]], Hb as [<-|[]]. reflexivity.
  - assert (HC := TV_cons _ _ _ _ H H0).
    destruct Ha as [<-|Ha], Hb as [<-|Hb]; [reflexivity | | | apply IHtv_chain; assumption].
    + symmetry. apply (tv_chain_vote_head _ _ _ HC Na); [exact Hb | congruence].
    + apply (tv_chain_vote_head _ _ _ HC Nb); [exact Ha | congruence].
Qed.

(** ** Votes given are votes saved *)
Lemma tv_chain_last : forall x l z, tv_chain x l z -> In z (x :: l).
Proof. intros x l z H. induction H; [left; reflexivity|]. right. exact IHtv_chain. Qed.

Definition is_vreq (a : act) : bool := match a with ASend _ _ q => beq (rq_type q) vote_request | _ => false end.
(** candidacies within one event *)
Lemma astep_vreq : forall ev n l n', synced n -> astep ev n l n' -> no_join ev ->
  (forall uid q, ev = ERetry uid q -> rq_type q <> vote_request) ->
  forall uid ext q, In (ASend uid ext q) l -> rq_type q = vote_request ->
    saved (n_disk n) = (rq_term q, rq_src q) /\ rq_src q = n_id n /\ l = [ASend uid ext q].
Proof.
  intros ev n l n' Hs H Hj Hr uid ext q Hin Ht.
  destruct H; try (destruct Hin as [Hin|[]]; discriminate); try destruct Hin as [].
  - destruct H as (ps & q0 & j & -> & _ & _ & _ & Hl). rewrite Forall_forall in Hl. specialize (Hl _ Hin). cbn in Hl.
    destruct Hl as (_ & [Hl|Hl] & _); destruct Hl as (Hl & _); rewrite Hl in Ht; discriminate.
  - rewrite Forall_forall in H0. specialize (H0 _ Hin). cbn in H0. destruct H0 as [_ H0]. rewrite Ht in H0. discriminate.
  - inversion H6; subst. split; [|split; [congruence | reflexivity]].
    rewrite Hs. unfold tv. congruence.
  - contradiction.
  - destruct H1 as (H1 & _). rewrite Forall_forall in H1. destruct (H1 _ Hin) as [H2|H2]; [|discriminate].
    cbn in H2. destruct H2 as [_ H2]. rewrite Ht in H2. discriminate.
  - subst a. contradiction.
  - contradiction.
  - inversion H1; subst. rewrite H0 in Ht. discriminate.
  - contradiction.
  - inversion H0; subst. exfalso. apply (Hr uid q eq_refl Ht).
  - contradiction.
Qed.

Definition retry_okay (ev : event) : Prop :=
  forall uid q, ev = ERetry uid q ->
    rq_type q = sync_log_request \/ rq_type q = join_cluster_request \/ rq_type q = leave_cluster_request.
Lemma retry_no_vreq : forall ev, retry_okay ev -> forall uid q, ev = ERetry uid q -> rq_type q <> vote_request.
Proof. intros ev H uid q E Ht. destruct (H uid q E) as [G|[G|G]]; rewrite G in Ht; discriminate. Qed.

Lemma tr_vreq : forall ev n l n', tr ev n l n' -> synced n -> no_join ev -> retry_okay ev ->
  forall uid ext q p s, l = p ++ ASend uid ext q :: s -> rq_type q = vote_request ->
    saved (fold_left disk_apply p (n_disk n)) = (rq_term q, rq_src q) /\ rq_src q = n_id n /\
    In (rq_term q, rq_src q) (tv n :: saves p).
Proof.
  intros ev n l n' H. induction H; intros Hs Hj Hr uid ext q p s E Ht.
  - destruct p; discriminate.
  - destruct (le_lt_dec (length l) (length p)) as [Hle|Hgt].
    + assert (Ep : p = l ++ skipn (length l) p /\ l1 = skipn (length l) p ++ ASend uid ext q :: s).
      { assert (E1 := f_equal (firstn (length l)) E). assert (E2 := f_equal (skipn (length l)) E).
        rewrite firstn_app, firstn_all, Nat.sub_diag, firstn_O, app_nil_r in E1.
        rewrite firstn_app in E1. replace (length l - length p)%nat with 0%nat in E1 by lia. rewrite firstn_O, app_nil_r in E1.
        rewrite skipn_app, skipn_all, Nat.sub_diag, skipn_O in E2. cbn [app] in E2.
        rewrite skipn_app in E2. replace (length l - length p)%nat with 0%nat in E2 by lia. rewrite skipn_O in E2.
        split; [|exact E2]. rewrite E1 at 1. symmetry. apply firstn_skipn. }
      destruct Ep as [Ep E1].
      destruct (IHtr (astep_synced _ _ _ _ H Hs) Hj Hr uid ext q _ _ E1 Ht) as (G1 & G2 & G3).
      rewrite Ep, fold_left_app, <- (astep_disk _ _ _ _ H). split; [exact G1|].
      split; [rewrite <- (astep_id _ _ _ _ H); exact G2|]. rewrite saves_app.
      assert (G4 := tv_chain_last _ _ _ (astep_tv _ _ _ _ Hj H)).
      destruct G3 as [G3|G3].
      * rewrite <- G3. destruct G4 as [G4|G4]; [left; exact G4 | right; apply in_or_app; left; exact G4].
      * right. apply in_or_app. right. exact G3.
    + assert (Hin : In (ASend uid ext q) l).
      { assert (E1 := f_equal (fun x => nth_error x (length p)) E). cbv beta in E1.
        rewrite nth_error_app1 in E1 by lia. rewrite nth_error_app2, Nat.sub_diag in E1 by lia. cbn in E1.
        eapply nth_error_In. exact E1. }
      destruct (astep_vreq _ _ _ _ Hs H Hj (retry_no_vreq _ Hr) _ _ _ Hin Ht) as (G1 & G2 & G3).
      subst l. cbn in Hgt. destruct p as [|a p]; [|cbn in Hgt; lia]. cbn [fold_left saves].
      split; [exact G1|]. split; [exact G2|]. left. rewrite <- Hs. exact G1.
Qed.

(** an accepted vote request has been saved *)
Lemma vote_request_post : forall now q n, 1 <= al_start (n_log n) -> rq_type q = vote_request ->
  ht (tr (ERequest now q)) (fun r n' => rs_accepted r = true -> n_vote n' = rq_src q /\ n_term n' = rq_term q) (process_req now q) n.
Proof.
  intros now q n Hst Ht. unfold process_req. rewrite Ht. cbv zeta.
  apply ht_seq; [exact _ | |].
  { hstep; [|exact I]. eapply ht_bind; [exact _ | apply update_term_tr; left; exists q; split; [exists now; reflexivity | reflexivity]|].
    intros b n1 l1 _ _ _. hstep. hstep; [|exact I]. hstep; [apply tr_one, A_steps; left; lia | exact I]. }
  intros u n1 l1 _ _. apply handle_vote_req_tr. exact Ht.
Qed.
Lemma event_vote_post : forall now q n r n' l, 1 <= al_start (n_log n) -> rq_type q = vote_request ->
  run_event (ERequest now q) n = (ROk (Response r), n', l) -> rs_accepted r = true ->
  n_vote n' = rq_src q /\ n_term n' = rq_term q.
Proof.
  intros now q n r n' l Hst Ht H Ha. cbn [run_event] in H. unfold bind in H.
  destruct (process_req now q n) as [[x n1] l1] eqn:E. destruct x as [a|e|u|]; try discriminate.
  cbv beta iota delta [ret] in H. inversion H; subst. apply (proj2 (vote_request_post now q n Hst Ht _ _ _ E) _ eq_refl Ha).
Qed.

Lemma without_tail : forall A (P : A -> Prop) o h, (forall x, In x (o :: h) -> P x) -> forall x, In x h -> P x.
Proof. intros A P o h H x Hx. apply H. right. exact Hx. Qed.

Lemma in_acts : forall a o h, In a (acts_of (o :: h)) -> In a (o_acts o) \/ In a (acts_of h).
Proof. intros a o h H. unfold acts_of in H. cbn [map concat] in H. apply in_app_or. exact H. Qed.

Lemma life_votes : forall id pm s h s', life id pm s h s' -> okay id s -> without join_cluster_request h -> retries_okay h ->
  forall t c, vote_in h t c -> In (t, c) (saved (sys_disk s) :: saves (acts_of h)).
Proof.
  intros id pm s h s' H Hok. revert s h s' H Hok.
  assert (Hstep : forall n e l n' h a, okay id (Up n) -> tr e n l n' -> okay id (Up n') -> ~ got join_cluster_request (mkObs e l a) ->
    retries_okay (mkObs e l a :: h) ->
    (forall r now q, a = Some (Response r) -> e = ERequest now q -> rq_type q = vote_request -> rs_accepted r = true ->
        n_vote n' = rq_src q /\ n_term n' = rq_term q) ->
    (forall t c, vote_in h t c -> In (t, c) (saved (n_disk n') :: saves (acts_of h))) ->
    forall t c, vote_in (mkObs e l a :: h) t c -> In (t, c) (saved (n_disk n) :: saves (acts_of (mkObs e l a :: h)))).
  { intros n e l n' h a (_ & Hs & _) HT (_ & Hs' & _) Hg Hr Hvote IH t c Hv.
    assert (HJ := not_got_join _ _ _ Hg).
    assert (HC := tr_tv _ _ _ _ HJ HT).
    assert (HL := tv_chain_last _ _ _ HC).
    assert (HR : retry_okay e) by (intros uid q E; eapply Hr; left; rewrite E; reflexivity).
    unfold acts_of. cbn [map concat o_acts]. rewrite saves_app. fold (acts_of h).
    assert (Hnow : forall x, In x (tv n :: saves l) -> In x (saved (n_disk n) :: saves l ++ saves (acts_of h))).
    { intros x [<-|Hx]; [left; exact Hs | right; apply in_or_app; left; exact Hx]. }
    assert (Hlater : vote_in h t c -> In (t, c) (saved (n_disk n) :: saves l ++ saves (acts_of h))).
    { intros Hv2. destruct (IH t c Hv2) as [Hi|Hi].
      - apply Hnow. rewrite Hs' in Hi. rewrite <- Hi. exact HL.
      - right. apply in_or_app. right. exact Hi. }
    destruct Hv as [now q l0 r Hin Ht Ha E1 E2 | uid ext q Hin Ht E1 E2].
    - destruct Hin as [Hin|Hin].
      + inversion Hin; subst. destruct (Hvote r now q eq_refl eq_refl Ht Ha) as [V1 V2].
        apply Hnow. rewrite <- V1, <- V2. exact HL.
      + apply Hlater. eapply V_granted; eassumption.
    - apply in_acts in Hin. destruct Hin as [Hin|Hin].
      + cbn [o_acts] in Hin. apply in_split in Hin. destruct Hin as (p & s & El).
        destruct (tr_vreq _ _ _ _ HT Hs HJ HR uid ext q p s El Ht) as (_ & _ & G). apply Hnow. subst t c.
        destruct G as [G|G]; [left; exact G|]. right. rewrite El, saves_app. apply in_or_app. left. exact G.
      + apply Hlater. eapply V_candidate; eassumption. }
  apply (life_ind_tr id pm (fun s h s' => without join_cluster_request h -> retries_okay h ->
     forall t c, vote_in h t c -> In (t, c) (saved (sys_disk s) :: saves (acts_of h)))).
  - intros s _ _ _ t c [now q l r [] | uid ext q []].
  - intros n e r n' l h s Hok Hrun _ HT Hok' IH Hw Hr. apply without_cons in Hw. destruct Hw as [Hg Hw].
    cbn [sys_disk] in *. eapply Hstep; try eassumption.
    + intros r0 now q Ea Ee Ht Hacc. subst e. destruct r as [a| | |]; try discriminate. inversion Ea; subst.
      eapply event_vote_post; [apply Hok | exact Ht | exact Hrun | exact Hacc].
    + apply IH; [exact Hw|]. intros uid q l0 a Hin. eapply Hr. right. exact Hin.
  - intros n e l n' h s Hok HT Hok' _ IH Hw Hr. apply without_cons in Hw. destruct Hw as [Hg Hw].
    cbn [sys_disk] in *. eapply Hstep; try eassumption.
    + intros; discriminate.
    + apply IH; [exact Hw|]. intros uid q l0 a Hin. eapply Hr. right. exact Hin.
  - intros d h s _ _ IH Hw Hr. cbn [sys_disk] in *. rewrite start_disk in IH. apply IH; assumption.
Qed.

(** votes are never for -1 *)
Lemma life_vote_ids : forall id pm s h s', life id pm s h s' -> okay id s -> without join_cluster_request h -> retries_okay h ->
  ids_okay id h -> forall t c, vote_in h t c -> c <> (-1)%Z.
Proof.
  intros id pm s h s' H Hok. revert s h s' H Hok.
  assert (Hstep : forall n e l n' h a, okay id (Up n) -> tr e n l n' -> ~ got join_cluster_request (mkObs e l a) ->
    retries_okay (mkObs e l a :: h) -> ids_okay id (mkObs e l a :: h) ->
    (forall t c, vote_in h t c -> c <> (-1)%Z) ->
    forall t c, vote_in (mkObs e l a :: h) t c -> c <> (-1)%Z).
  { intros n e l n' h a (_ & Hs & Hid) HT Hg Hr Hi IH t c Hv.
    destruct Hv as [now q l0 r Hin Ht Ha E1 E2 | uid ext q Hin Ht E1 E2].
    - subst c. apply (proj2 Hi _ _ _ _ Hin Ht).
    - apply in_acts in Hin. destruct Hin as [Hin|Hin].
      + cbn [o_acts] in Hin. apply in_split in Hin. destruct Hin as (p & s & El).
        assert (HR : retry_okay e) by (intros uid' q' E; eapply Hr; left; rewrite E; reflexivity).
        destruct (tr_vreq _ _ _ _ HT Hs (not_got_join _ _ _ Hg) HR uid ext q p s El Ht) as (_ & G & _).
        subst c. rewrite G, Hid. apply Hi.
      + apply (IH t c). eapply V_candidate; eassumption. }
  assert (Htl : forall o h, ids_okay id (o :: h) -> ids_okay id h).
  { intros o h [H1 H2]. split; [exact H1|]. intros now q l a Hin. eapply H2. right. exact Hin. }
  assert (Htr : forall o h, retries_okay (o :: h) -> retries_okay h).
  { intros o h H1 uid q l0 a Hin. eapply H1. right. exact Hin. }
  apply (life_ind_tr id pm (fun s h s' => without join_cluster_request h -> retries_okay h -> ids_okay id h ->
     forall t c, vote_in h t c -> c <> (-1)%Z)).
  - intros s _ _ _ _ t c [now q l r [] | uid ext q []].
  - intros n e r n' l h s Hok _ _ HT _ IH Hw Hr Hi. apply without_cons in Hw. destruct Hw as [Hg Hw].
    eapply Hstep; try eassumption. apply IH; [exact Hw | eapply Htr; exact Hr | eapply Htl; exact Hi].
  - intros n e l n' h s Hok HT _ _ IH Hw Hr Hi. apply without_cons in Hw. destruct Hw as [Hg Hw].
    eapply Hstep; try eassumption. apply IH; [exact Hw | eapply Htr; exact Hr | eapply Htl; exact Hi].
  - intros d h s _ _ IH Hw Hr Hi. apply IH; assumption.
Qed.

Lemma life_okay : forall id pm s h s', life id pm s h s' -> okay id s -> okay id s'.
Proof.
  intros id pm s h s' H Hok. revert s h s' H Hok.
  apply (life_ind_tr id pm (fun s h s' => okay id s')); intros; assumption.
Qed.
Lemma life_term : forall id pm s h n, life id pm s h (Up n) -> okay id s -> n_term n = fst (saved (n_disk n)).
Proof. intros id pm s h n H Hok. destruct (life_okay _ _ _ _ _ H Hok) as (_ & Hs & _). rewrite Hs. reflexivity. Qed.

Lemma vote_on_disk : forall id pm s h n now q r n' l, life id pm s h (Up n) -> okay id s ->
  rq_type q = vote_request -> run_event (ERequest now q) n = (ROk (Response r), n', l) -> rs_accepted r = true ->
  saved (n_disk n') = (rq_term q, rq_src q).
Proof.
  intros id pm s h n now q r n' l H Hok Ht E Ha. destruct (life_okay _ _ _ _ _ H Hok) as (H1 & H2 & _).
  assert (HT := proj1 (run_event_tr _ _ H1 _ _ _ E)).
  destruct (event_vote_post now q n r n' l H1 Ht E Ha) as [V1 V2].
  rewrite (tr_synced _ _ _ _ HT H2). unfold tv. congruence.
Qed.
Lemma candidacy_on_disk : forall id pm s h n e r n' p uid ext q s2, life id pm s h (Up n) -> okay id s ->
  without join_cluster_request [mkObs e [] None] -> retries_okay [mkObs e [] None] ->
  run_event e n = (r, n', p ++ ASend uid ext q :: s2) -> rq_type q = vote_request ->
  saved (fold_left disk_apply p (n_disk n)) = (rq_term q, rq_src q).
Proof.
  intros id pm s h n e r n' p uid ext q s2 H Hok Hw Hr E Ht. destruct (life_okay _ _ _ _ _ H Hok) as (H1 & H2 & _).
  assert (HT := proj1 (run_event_tr _ _ H1 _ _ _ E)).
  assert (HJ : no_join e) by (eapply not_got_join, Hw; left; reflexivity).
  assert (HR : retry_okay e) by (intros u q0 E0; eapply Hr; left; rewrite E0; reflexivity).
  apply (tr_vreq _ _ _ _ HT H2 HJ HR _ _ _ _ _ eq_refl Ht).
Qed.
