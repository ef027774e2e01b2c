(** * Properties C22 and C25: heartbeat interval, outstanding requests *)

From Verif Require Import Base Buffer Codec CodecSpec Msg FsLogStore FsLogSpec Alog Raft RaftQuiet RaftWalk NodeSpec NodeFacts NodeExamples PeerWalk PeerInv P_Leader.
Local Open Scope N_scope.

(** ** C22 *)
Definition slower (pm : params) (c : Z) : Z := Z.min (max_hb pm) (c + pm_backoff pm)%Z.
Fixpoint slow (pm : params) (j : nat) (c : Z) : Z := match j with O => c | S j => slower pm (slow pm j c) end.
(** the interval of each peer is the base interval or that of the same peer
    before, after at most [k] failures *)
Definition hbk (k : nat) : rel := fun n _ n' =>
  (n_id n' = n_id n /\ n_prm n' = n_prm n) /\
  forall p', In p' (pool n') -> exists b j, (j <= k)%nat /\ p_hb_cur p' = slow (n_prm n) j b /\
    (b = pm_hb (n_prm n) \/ exists p, In p (pool n) /\ p_uid p = p_uid p' /\ p_hb_cur p = b).
Lemma slow_add : forall pm i j c, slow pm i (slow pm j c) = slow pm (i + j) c.
Proof. intros pm i j c. induction i as [|i IH]; cbn; [reflexivity | rewrite IH; reflexivity]. Qed.
Lemma hbk_trans : forall j k n l n1 l1 n2, hbk j n l n1 -> hbk k n1 l1 n2 -> hbk (k + j) n (l ++ l1) n2.
Proof.
  intros j k n l n1 l1 n2 ((A1 & A2) & A3) ((B1 & B2) & B3). split; [split; congruence|].
  intros p' Hp. destruct (B3 p' Hp) as (b & i & Hi & E & Hb). destruct Hb as [->|(p & Hin & Hu & Hc)].
  - exists (pm_hb (n_prm n1)), i. split; [lia|]. rewrite A2 in *. split; [exact E | left; reflexivity].
  - destruct (A3 p Hin) as (b0 & i0 & Hi0 & E0 & Hb0). exists b0, (i + i0)%nat. split; [lia|].
    rewrite <- slow_add, <- E0. rewrite A2 in E. split; [congruence|]. destruct Hb0 as [->|(p0 & ? & ? & ?)]; [left; reflexivity|].
    right. exists p0. repeat split; congruence.
Qed.
Lemma hbk_refl : forall k n l, hbk k n l n.
Proof.
  intros k n l. split; [split; reflexivity|]. intros p Hp. exists (p_hb_cur p), 0%nat. split; [lia|]. split; [reflexivity|]. right. exists p. auto.
Qed.
#[global] Instance hbr_pre : preorder (hbk 0).
Proof. split; intros; [apply hbk_refl|]. exact (hbk_trans 0 0 _ _ _ _ _ H H0). Qed.
(** each object of the new pool comes from one of the old, changed as [G] says *)
Lemma hbk_from : forall k n n' l, n_id n' = n_id n -> n_prm n' = n_prm n ->
  (forall p', In p' (pool n') -> p_hb_cur p' = pm_hb (n_prm n) \/
     exists p j, In p (pool n) /\ p_uid p = p_uid p' /\ (j <= k)%nat /\ p_hb_cur p' = slow (n_prm n) j (p_hb_cur p)) -> hbk k n l n'.
Proof.
  intros k n n' l H1 H2 H. split; [split; assumption|]. intros p' Hp. destruct (H p' Hp) as [E|(p & j & Hin & Hu & Hj & E)].
  - exists (pm_hb (n_prm n)), 0%nat. split; [lia|]. split; [exact E | left; reflexivity].
  - exists (p_hb_cur p), j. split; [exact Hj|]. split; [exact E|]. right. exists p. auto.
Qed.
Lemma pool_upd_in : forall r f n p', In p' (pool (upd_peer r f n)) -> exists p, In p (pool n) /\ (p' = p \/ p' = f p).
Proof.
  intros r f n p' H. unfold pool in *. destruct r as [id|]; cbn [upd_peer n_peers n_join set_peers set_join] in H; apply in_app_or in H.
  - destruct H as [H|H]; [|exists p'; split; [apply in_or_app; right; exact H | left; reflexivity]].
    unfold upd_peers in H. apply in_map_iff in H. destruct H as (p & E & Hin). exists p. split; [apply in_or_app; left; exact Hin|].
    destruct (p_id p =? id)%Z; [right | left]; congruence.
  - destruct H as [H|H]; [exists p'; split; [apply in_or_app; left; exact H | left; reflexivity]|].
    destruct (n_join n) as [j|]; cbn in H; [|contradiction]. destruct H as [<-|[]]. exists j. split; [apply in_or_app; right; left; reflexivity | right; reflexivity].
Qed.
Lemma hbk_upd : forall k r f n l, (forall p, p_uid (f p) = p_uid p) ->
  (forall p, p_hb_cur (f p) = pm_hb (n_prm n) \/ exists j, (j <= k)%nat /\ p_hb_cur (f p) = slow (n_prm n) j (p_hb_cur p)) -> hbk k n l (upd_peer r f n).
Proof.
  intros k r f n l Hu Hc. apply hbk_from; [destruct r; reflexivity | destruct r; reflexivity|]. intros p' Hp. destruct (pool_upd_in _ _ _ _ Hp) as (p & Hin & E).
  destruct E as [->| ->]; [right; exists p, 0%nat; repeat split; try lia; exact Hin|]. destruct (Hc p) as [C|(j & Hj & C)]; [left; exact C | right].
  exists p, j. repeat split; try assumption. symmetry. apply Hu.
Qed.
Lemma hbk_sub : forall k n n' l, n_id n' = n_id n -> n_prm n' = n_prm n -> (forall p, In p (pool n') -> In p (pool n)) -> hbk k n l n'.
Proof. intros k n n' l H1 H2 H3. apply hbk_from; try assumption. intros p Hp. right. exists p, 0%nat. repeat split; try lia. apply H3, Hp. Qed.
Lemma hbk_view : forall k n n' l, pview n' = pview n -> hbk k n l n'.
Proof. intros k n n' l H. unfold pview in H. injection H as H1 H2 H3 H4 H5. apply hbk_sub; try congruence. unfold pool. rewrite H1, H2. auto. Qed.
Lemma hbr_pfun : forall r f n, pfun (n_prm n) f -> hbk 0 n [] (upd_peer r f n).
Proof.
  intros r f n H. apply hbk_upd; [intros p; apply (pfun_obj _ _ H)|]. intros p.
  destruct H; try (left; reflexivity); right; exists 0%nat; (split; [lia|]); try reflexivity.
  destruct (_ && _); [reflexivity|]. destruct (0 <? _); reflexivity.
Qed.
Lemma hbr_disable : forall n, hbk 0 n [] (set_peers (map p_disable_hb (n_peers n)) n).
Proof.
  intros n. apply hbk_from; [reflexivity | reflexivity|]. intros p' Hp. right. unfold pool in Hp. cbn in Hp. apply in_app_or in Hp. destruct Hp as [Hp|Hp].
  - apply in_map_iff in Hp. destruct Hp as (p & E & Hin). exists p, 0%nat. split; [apply in_or_app; left; exact Hin|]. subst p'. repeat split. lia.
  - exists p', 0%nat. split; [apply in_or_app; right; exact Hp|]. repeat split. lia.
Qed.
Lemma hbr_insert : forall s n nx, hbk 0 n [] (insert_peer (sc_id s) nx (new_peer (n_uid n) s (n_prm n)) (set_uid (n_uid n + 1) n)).
Proof.
  intros s n nx. unfold insert_peer. destruct (find_peer _ _); [apply hbk_sub; auto|]. apply hbk_from; [reflexivity | reflexivity|].
  intros p' Hp. unfold pool in Hp. cbn in Hp. rewrite <- app_assoc in Hp. apply in_app_or in Hp. destruct Hp as [Hp|[<-|Hp]]; [right | left; reflexivity | right].
  - exists p', 0%nat. split; [apply in_or_app; left; exact Hp|]. repeat split. lia.
  - exists p', 0%nat. split; [apply in_or_app; right; exact Hp|]. repeat split. lia.
Qed.
Lemma hbr_join : forall s n, hbk 0 n [] (set_join (Some (new_peer (n_uid n) s (n_prm n))) (set_uid (n_uid n + 1) n)).
Proof.
  intros s n. apply hbk_from; [reflexivity | reflexivity|]. intros p' Hp. unfold pool in Hp. cbn in Hp. apply in_app_or in Hp. destruct Hp as [Hp|[<-|[]]]; [right | left; reflexivity].
  exists p', 0%nat. split; [apply in_or_app; left; exact Hp|]. repeat split. lia.
Qed.
Lemma pool_rm : forall id n p, In p (pool (set_peers (rm_peer id (n_peers n)) n)) -> In p (pool n).
Proof. intros id n p H. unfold pool, rm_peer in *. cbn in H. apply in_app_or in H. apply in_or_app. destruct H as [H|H]; [left; apply filter_In in H; tauto | right; exact H]. Qed.
Lemma hbr_soft : forall r f n l, (forall p, p_uid (f p) = p_uid p /\ p_hb_cur (f p) = p_hb_cur p) -> hbk 0 n l (upd_peer r f n).
Proof. intros r f n l H. apply hbk_upd; [intros p; apply H|]. intros p. right. exists 0%nat. split; [lia | apply H]. Qed.
Lemma hbr_send : forall id n, ht (hbk 0) yes (request_append_entries_to id) n.
Proof.
  intros id n. open_send. open_peer. unfold the_peer.
  walk ltac:(first [apply hbr_soft; intros ?; split; reflexivity | apply hbk_view; reflexivity]).
Qed.
Ltac hbr_args := first
  [ exact hbr_pre | intros; apply hbk_view; assumption | intros; apply hbk_refl | intros; apply hbr_pfun; assumption | intros; apply hbr_disable
  | intros; apply hbk_sub; [reflexivity | reflexivity | unfold pool; cbn; intros ? ?; rewrite app_nil_r in *; apply in_or_app; left; assumption]
  | intros; apply hbk_sub; [reflexivity | reflexivity | apply pool_rm] | intros; apply hbr_insert
  | intros; apply hbr_join | exact hbr_send | intros ? ? ? X; apply X ].
Lemma hbr_leader : forall n, ht (hbk 0) yes become_leader n.
Proof. apply leader_all; try hbr_args. intros. apply hbr_soft. intros p. split; reflexivity. Qed.

(** failures counted by one event *)
Definition admin (q : req) : bool := beq (rq_type q) sync_log_request || beq (rq_type q) join_cluster_request || beq (rq_type q) leave_cluster_request.
Definition failures (e : event) : nat :=
  match e with ERpc _ _ ext q None => if ext && admin q then 2 else 1 | _ => 0 end.
Lemma hbk_weak : forall j k n l n', (j <= k)%nat -> hbk j n l n' -> hbk k n l n'.
Proof. intros j k n l n' H (A & B). split; [exact A|]. intros p Hp. destruct (B p Hp) as (b & i & Hi & X). exists b, i. split; [lia | exact X]. Qed.
Lemma hbk_eq : forall k j i n l1 n1 l2 n2, hbk i n l1 n1 -> hbk j n1 l2 n2 -> (j + i <= k)%nat -> hbk k n (l1 ++ l2) n2.
Proof. intros k j i n l1 n1 l2 n2 H1 H2 H. eapply hbk_weak; [exact H|]. eapply hbk_trans; eassumption. Qed.

Lemma rpc_hbk : forall now uid ext q r n r' n' l, run_event (ERpc now uid ext q r) n = (r', n', l) -> hbk (failures (ERpc now uid ext q r)) n l n'.
Proof.
  intros now uid ext q r n r' n' l. cbn [run_event]. unfold rpc_done. rewrite bind_assoc, bind_get.
  destruct (live_ref uid n) as [ref|]; [|intros H; injection H as <- <- <-; apply hbk_refl].
  assert (B0 : exists n0, hbk 0 n [] n0 /\ forall B (k : unit -> M B),
    bind (when (beq (rq_type q) append_entries_request || beq (rq_type q) install_snapshot_request) (modify (upd_peer ref (p_set_busy false)))) k n = k tt n0).
  { destruct (_ || _); cbn [when]; eexists; (split; [|intros B k; first [rewrite bind_modify | rewrite bind_ret]; reflexivity]);
      [apply hbr_soft; intros p; split; reflexivity | apply hbk_refl]. }
  destruct B0 as (n0 & H0 & E0). rewrite bind_assoc, E0. assert (P0 : n_prm n0 = n_prm n) by apply H0. clear E0.
  destruct r as [r|].
  - rewrite !bind_assoc, bind_modify. intros H.
    assert (A : ht (hbk 0) yes (bind (if ext then handle_ext_resp r else handle_peer_resp now r) (fun _ => ret Nothing)) (upd_peer ref (p_resume (n_prm n)) n0)).
    { apply ht_seq; [exact _ | | intros; apply ht_ret; [exact _ | exact I]]. destruct ext; [apply ext_resp_all | apply peer_resp_all]; try hbr_args; exact hbr_leader. }
    destruct (A _ _ _ H) as [H1 _]. change l with ([] ++ l). eapply (hbk_eq 0 0 0); [exact H0| |lia]. change l with ([] ++ l). eapply (hbk_eq 0 0 0); [|exact H1|lia].
    apply hbk_upd; [intros p; reflexivity|]. intros p. left. rewrite P0. reflexivity.
  - rewrite !bind_assoc, bind_modify. intros H.
    set (n1 := upd_peer ref (p_slow_down (n_prm n)) n0) in H.
    assert (H1 : hbk 1 n0 [] n1).
    { apply hbk_upd; [intros p; reflexivity|]. intros p. right. exists 1%nat. split; [lia|]. rewrite P0. reflexivity. }
    assert (P1 : n_prm n1 = n_prm n) by (rewrite <- P0; apply H1). clearbody n1.
    assert (H01 : hbk 1 n [] n1) by (change (@nil act) with (@nil act ++ []); eapply (hbk_eq 1 1 0); [exact H0 | exact H1 | lia]).
    change l with ([] ++ l). destruct ext; [|cbn in H; injection H as <- <- <-; exact H01].
    cbn [when] in H. unfold handle_ext_resp_err in H. fold (admin q) in H. cbn [failures andb]. destruct (admin q); [|cbn in H; injection H as <- <- <-; exact H01].
    rewrite bind_assoc, bind_get in H. set (ref2 := if beq (rq_type q) leave_cluster_request then PPeer (rq_dst q) else PJoin) in H.
    destruct (get_peer ref2 n1) as [p|] eqn:G; [|cbn in H; injection H as <- <- <-; eapply hbk_weak; [|exact H01]; lia].
    destruct (max_hb (n_prm n1) <=? p_hb_cur p)%Z.
    + eapply (hbk_eq 2 0 1); [exact H01 | | lia]. revert H.
      match goal with |- ?m n1 = _ -> _ => assert (A : ht (hbk 0) yes m n1) end.
      { unfold rm_srv_from_cluster, append_config, log_append, next_slot_.
        repeat first [match goal with |- ht _ _ request_append_entries _ => apply request_all; hbr_args end
          | wstep ltac:(first [apply hbk_sub; [reflexivity | reflexivity | apply pool_rm] |  apply hbk_view; reflexivity
             | apply hbk_sub; [reflexivity | reflexivity | unfold pool; cbn; intros ? ?; rewrite app_nil_r in *; apply in_or_app; left; assumption]])]. }
      intros H. apply (A _ _ _ H).
    + rewrite bind_assoc, bind_modify in H. rewrite bind_emit in H. unfold after, ret in H. cbn [fst snd app] in H. injection H as <- <- <-.
      eapply (hbk_eq 2 1 1); [exact H01 | | lia].
      change [ARetryLater (p_uid p) q] with ([] ++ [ARetryLater (p_uid p) q]).
      apply (hbk_eq 1 0 1 _ [] (upd_peer ref2 (p_slow_down (n_prm n1)) n1)); [|apply hbk_view; reflexivity | lia].
      apply hbk_upd; [intros x; reflexivity|]. intros x. right. exists 1%nat. split; [lia | reflexivity].
Qed.
Lemma event_hbk : forall e n r n' l, run_event e n = (r, n', l) -> hbk (failures e) n l n'.
Proof.
  intros e n r n' l H. destruct e; try (cbn [failures];
    match type of H with run_event ?e _ = _ => assert (A : ht (hbk 0) yes (run_event e) n) by (apply other_all; first [hbr_args | exact hbr_leader | exact I]) end;
    apply (A _ _ _ H)).
  - apply (rpc_hbk _ _ _ _ _ _ _ _ _ H).
  - cbn in H. injection H as <- <- <-. apply hbk_view. reflexivity.
Qed.

Lemma slow_range : forall pm k c, (0 <= pm_backoff pm)%Z -> (pm_hb pm <= c <= max_hb pm)%Z ->
  (pm_hb pm <= slow pm k c <= max_hb pm)%Z /\ (c <= slow pm k c <= c + Z.of_nat k * pm_backoff pm)%Z.
Proof.
  intros pm k c Hb Hc. induction k as [|k IH]; cbn [slow]; [lia|]. unfold slower. nia.
Qed.
Definition interval_ok (n : node) : Prop := forall p, In p (pool n) -> (pm_hb (n_prm n) <= p_hb_cur p <= max_hb (n_prm n))%Z.
Lemma hbk_ok : forall k n l n', (0 <= pm_backoff (n_prm n))%Z -> hbk k n l n' -> interval_ok n -> interval_ok n'.
Proof.
  intros k n l n' Hb ((_ & E) & H) I p' Hp. rewrite E. destruct (H p' Hp) as (b & j & _ & -> & Hc).
  apply slow_range; [exact Hb|]. destruct Hc as [->|(p & Hin & _ & <-)]; [unfold max_hb; lia | apply I, Hin].
Qed.
Lemma start_interval : forall id pm d, interval_ok (start_node id pm d) /\ n_prm (start_node id pm d) = pm.
Proof.
  intros id pm d. assert (E : n_prm (start_node id pm d) = pm) by (unfold start_node; destruct (match dk_state d with Some x => x | None => _ end); reflexivity).
  split; [|exact E]. intros p Hp. rewrite E. unfold pool, start_node in Hp. destruct (match dk_state d with Some x => x | None => _ end). cbn [n_peers n_join] in Hp. rewrite app_nil_r in Hp.
  assert (G : p_hb_cur p = pm_hb pm).
  { revert Hp. generalize 0 at 1. induction (cc_servers (dk_config d)) as [|s l IH]; intros u Hp; cbn [start_peers] in Hp; [contradiction|].
    destruct (sc_id s =? id)%Z; [apply (IH _ Hp)|]. destruct Hp as [<-|Hp]; [reflexivity|]. apply filter_In in Hp. apply (IH _ (proj1 Hp)). }
  rewrite G. unfold max_hb. lia.
Qed.

(** whatever has happened, every peer's interval is between the configured one
    and the maximum *)
Theorem C22_interval_bounds : forall id pm d h n, (0 <= pm_backoff pm)%Z -> life id pm (Down d) h (Up n) ->
  forall p, In p (n_peers n) \/ n_join n = Some p -> (pm_hb pm <= p_hb_cur p <= max_hb pm)%Z.
Proof.
  intros id pm d h n Hb H.
  assert (G : interval_ok n /\ n_prm n = pm).
  { remember (Down d) as s. remember (Up n) as s'.
    assert (I : match s with Up n => interval_ok n /\ n_prm n = pm | Down _ => True end) by (subst; exact I). clear d Heqs. revert n Heqs'.
    induction H; intros m Hm.
    - subst. exact I.
    - apply IHlife; [|exact Hm]. destruct I as [I1 I2]. assert (K := event_hbk _ _ _ _ _ H).
      split; [eapply hbk_ok; [|exact K | exact I1]; congruence | rewrite <- I2; apply K].
    - apply IHlife; [exact Logic.I | exact Hm].
    - apply IHlife; [exact Logic.I | exact Hm].
    - apply IHlife; [apply start_interval | exact Hm]. }
  destruct G as [G E]. intros p Hp. rewrite <- E. apply G. unfold pool. apply in_or_app.
  destruct Hp as [Hp|Hp]; [left; exact Hp | right; rewrite Hp; left; reflexivity].
Qed.
(** one event lengthens a peer's interval at most once per failed request, and
    twice when that request was an administrative one; otherwise the interval
    stays or goes back to the configured one *)
Theorem C22_growth_partial : forall n e r n' l, (0 <= pm_backoff (n_prm n))%Z -> interval_ok n -> run_event e n = (r, n', l) ->
  forall p', In p' (n_peers n') -> exists base,
    (base = pm_hb (n_prm n) \/ exists p, (In p (n_peers n) \/ n_join n = Some p) /\ p_uid p = p_uid p' /\ p_hb_cur p = base) /\
    match e with
    | ERpc _ _ ext q None =>
        (base <= p_hb_cur p' <= base + (if ext && admin q then 2 else 1) * pm_backoff (n_prm n))%Z
    | _ => p_hb_cur p' = base
    end.
Proof.
  intros n e r n' l Hb I H p' Hp. destruct (event_hbk _ _ _ _ _ H) as (_ & K).
  destruct (K p' ltac:(unfold pool; apply in_or_app; left; exact Hp)) as (b & j & Hj & E & Hc). exists b. split.
  - destruct Hc as [Hc|(p & Hin & Hu & Hq)]; [left; exact Hc | right]. exists p. split; [|split; assumption].
    unfold pool in Hin. apply in_app_or in Hin. destruct Hin as [Hin|Hin]; [left; exact Hin | right]. destruct (n_join n); [destruct Hin as [->|[]]; reflexivity | contradiction].
  - assert (Rg : (pm_hb (n_prm n) <= b <= max_hb (n_prm n))%Z).
    { destruct Hc as [->|(p & Hin & _ & <-)]; [unfold max_hb; lia | apply I, Hin]. }
    destruct (slow_range (n_prm n) j b Hb Rg) as [_ S]. rewrite <- E in S.
    destruct e; cbn [failures] in Hj; try (replace j with 0%nat in * by lia; exact E).
    destruct r0 as [r0|]; [replace j with 0%nat in * by lia; exact E|]. destruct (ext && admin q); nia.
Qed.
Lemma live_ref_in : forall uid n p, pinv n -> In p (pool n) -> p_uid p = uid ->
  exists ref, live_ref uid n = Some ref /\ forall f p', (forall x, p_uid (f x) = p_uid x) -> In p' (pool (upd_peer ref f n)) -> p_uid p' = uid -> p' = f p.
Proof.
  intros uid n p (I1 & I2 & I3 & I4) Hp Hu.
  assert (U : forall a b, In a (pool n) -> In b (pool n) -> p_uid a = p_uid b -> a = b).
  { clear - I1. induction (pool n) as [|x l IH]; [contradiction|]. cbn in I1. inversion I1; subst. intros a b [->|Ha] [->|Hb] E; try reflexivity.
    - exfalso. apply H1. rewrite E. apply in_map, Hb.
    - exfalso. apply H1. rewrite <- E. apply in_map, Ha.
    - apply IH; assumption. }
  unfold live_ref. destruct (find (fun p => p_uid p =? uid) (n_peers n)) as [p1|] eqn:F.
  - apply find_some in F. destruct F as [F1 F2]. exists (PPeer (p_id p1)). split; [reflexivity|].
    assert (p1 = p) by (apply U; [apply in_or_app; left; exact F1 | exact Hp | lia]). subst p1.
    intros f p' Hf Hp' E. unfold pool in Hp'. cbn [upd_peer n_peers n_join set_peers] in Hp'. apply in_app_or in Hp'. destruct Hp' as [Hp'|Hp'].
    + unfold upd_peers in Hp'. apply in_map_iff in Hp'. destruct Hp' as (x & Ex & Hx).
      assert (x = p). { apply U; [apply in_or_app; left; exact Hx | exact Hp|]. rewrite Hu, <- E, <- Ex. destruct (p_id x =? p_id p)%Z; [symmetry; apply Hf | reflexivity]. }
      subst x. rewrite Z.eqb_refl in Ex. congruence.
    + exfalso. assert (p' = p) by (apply U; [apply in_or_app; right; exact Hp' | exact Hp | congruence]). subst p'.
      destruct (n_join n) as [j|] eqn:J; [|contradiction]. destruct Hp' as [->|[]].
      unfold pool in I1. rewrite J, map_app in I1. cbn [map] in I1. apply NoDup_remove_2 in I1. apply I1. rewrite app_nil_r. apply in_map, F1.
  - assert (Hj : n_join n = Some p).
    { unfold pool in Hp. apply in_app_or in Hp. destruct Hp as [Hp|Hp]; [exfalso; assert (X := find_none _ _ F p Hp); cbn in X; lia|].
      destruct (n_join n); [destruct Hp as [->|[]]; reflexivity | contradiction]. }
    rewrite Hj. exists PJoin. split; [rewrite Hu, N.eqb_refl; reflexivity|].
    intros f p' Hf Hp' E. unfold pool in Hp'. cbn [upd_peer n_peers n_join set_join] in Hp'. rewrite Hj in Hp'. apply in_app_or in Hp'. destruct Hp' as [Hp'|[<-|[]]]; [|reflexivity].
    exfalso. assert (X := find_none _ _ F p' Hp'). cbn in X. lia.
Qed.
(** a response brings the peer back to the configured interval *)
Theorem C22_success : forall id pm d h n now uid ext q r res n' l,
  life id pm (Down d) h (Up n) -> run_event (ERpc now uid ext q (Some r)) n = (res, n', l) ->
  forall p', In p' (n_peers n') -> p_uid p' = uid -> (exists p, In p (n_peers n) /\ p_uid p = uid) -> p_hb_cur p' = pm_hb (n_prm n).
Proof.
  intros id pm d h n now uid ext q r res n' l L H p' Hp' Hu (p & Hp & Hpu). assert (I := life_pinv _ _ _ _ _ L Logic.I). cbv beta iota in I.
  assert (Hin : In p (pool n)) by (apply in_or_app; left; exact Hp).
  cbn [run_event] in H. unfold rpc_done in H. rewrite bind_assoc, bind_get in H.
  destruct (live_ref_in uid n p I Hin Hpu) as (ref & Er & Hr). rewrite Er in H.
  assert (Hd : exists n0 f, (forall x, p_uid (f x) = p_uid x /\ p_hb_cur (f x) = p_hb_cur x) /\ n0 = upd_peer ref f n /\
    (forall g p2, (forall x, p_uid (g x) = p_uid x) -> In p2 (pool (upd_peer ref g n0)) -> p_uid p2 = uid -> p2 = g (f p)) /\ forall B (k : unit -> M B),
    bind (when (beq (rq_type q) append_entries_request || beq (rq_type q) install_snapshot_request) (modify (upd_peer ref (p_set_busy false)))) k n = k tt n0).
  { assert (T : forall f, (forall x, p_id (f x) = p_id x) -> (forall x, p_uid (f x) = p_uid x /\ p_hb_cur (f x) = p_hb_cur x) ->
      forall g p2, (forall x, p_uid (g x) = p_uid x) -> In p2 (pool (upd_peer ref g (upd_peer ref f n))) -> p_uid p2 = uid -> p2 = g (f p)).
    { intros f Hi Hf g p2 Hg H2 E2. apply (Hr (fun x => g (f x)) p2); [|  | exact E2]; [intros x; rewrite Hg; apply Hf|].
      unfold pool in *. destruct ref as [i|]; cbn [upd_peer n_peers n_join set_peers set_join] in *.
      - replace (upd_peers i (fun x => g (f x)) (n_peers n)) with (upd_peers i g (upd_peers i f (n_peers n))); [exact H2|].
        unfold upd_peers. rewrite map_map. apply map_ext. intros x. destruct (p_id x =? i)%Z eqn:E; [rewrite Hi, E | rewrite E]; reflexivity.
      - destruct (n_join n); exact H2. }
    destruct (_ || _); cbn [when].
    - exists (upd_peer ref (p_set_busy false) n), (p_set_busy false). split; [intros x; split; reflexivity|]. split; [reflexivity|]. split; [apply T; intros x; [|split]; reflexivity|].
      intros B k. apply bind_modify.
    - exists n, (fun x => x). split; [intros x; split; reflexivity|].
      assert (E : upd_peer ref (fun x => x) n = n).
      { destruct ref as [i|]; cbn [upd_peer]; [unfold upd_peers; replace (map _ (n_peers n)) with (n_peers n);
          [destruct n; reflexivity | rewrite <- map_id at 1; apply map_ext; intros x; destruct (p_id x =? i)%Z; reflexivity]|].
        destruct n as [x1 x2 x3 x4 x5 x6 x7 x8 x9 x10 x11 x12 x13 x14 x15 x16 x17 [j|] x19 x20 x21 x22 x23 x24 x25]; reflexivity. }
      split; [symmetry; exact E|]. split; [intros g p2 Hg H2 E2; apply (T (fun x => x)); [reflexivity | intros x; split; reflexivity | exact Hg | rewrite E; exact H2 | exact E2]|]. intros B k. apply bind_ret. }
  destruct Hd as (n0 & f & Hf & E0 & Hg & Ek). rewrite bind_assoc, Ek in H. assert (P0 : n_prm n0 = n_prm n) by (rewrite E0; destruct ref; reflexivity). clear Ek E0.
  rewrite !bind_assoc, bind_modify in H. set (n1 := upd_peer ref (p_resume (n_prm n)) n0) in *.
  assert (A : ht (hbk 0) yes (bind (if ext then handle_ext_resp r else handle_peer_resp now r) (fun _ => ret Nothing)) n1).
  { apply ht_seq; [exact _ | | intros; apply ht_ret; [exact _ | exact Logic.I]]. destruct ext; [apply ext_resp_all | apply peer_resp_all]; try hbr_args; exact hbr_leader. }
  destruct (A _ _ _ H) as [(_ & K) _]. destruct (K p' ltac:(apply in_or_app; left; exact Hp')) as (b & j & Hj & E & Hc).
  assert (P1 : n_prm n1 = n_prm n) by (rewrite <- P0; destruct ref; reflexivity). replace j with 0%nat in E by lia. cbn [slow] in E. rewrite E.
  destruct Hc as [->|(p1 & Hp1 & Hu1 & <-)]; [rewrite P1; reflexivity|].
  rewrite (Hg (p_resume (n_prm n)) p1 ltac:(reflexivity) Hp1 ltac:(congruence)). reflexivity.
Qed.
(** a plain failure lengthens it by the back-off, up to the maximum *)
Theorem C22_failure : forall id pm d h n now uid q p,
  life id pm (Down d) h (Up n) -> In p (n_peers n) -> p_uid p = uid ->
  exists n' p', run_event (ERpc now uid false q None) n = (ROk Nothing, n', []) /\ In p' (n_peers n') /\ p_uid p' = uid /\
    p_hb_cur p' = Z.min (max_hb (n_prm n)) (p_hb_cur p + pm_backoff (n_prm n)).
Proof.
  intros id pm d h n now uid q p L Hp Hu. assert (I := life_pinv _ _ _ _ _ L Logic.I). cbv beta iota in I.
  cbn [run_event]. unfold rpc_done. rewrite bind_assoc, bind_get.
  destruct (find (fun p => p_uid p =? uid) (n_peers n)) as [p1|] eqn:F.
  2: { assert (X := find_none _ _ F p Hp). cbn in X. lia. }
  unfold live_ref. rewrite F. apply find_some in F. destruct F as [F1 F2].
  assert (p1 = p).
  { destruct I as (I1 & _). apply nodup_left in I1. clear - I1 F1 F2 Hp Hu. induction (n_peers n) as [|x l IH]; [contradiction|]. cbn in I1. inversion I1; subst.
    destruct Hp as [->|Hp], F1 as [->|F1]; try reflexivity.
    - exfalso. apply H1. replace (p_uid p) with (p_uid p1) by lia. apply in_map, F1.
    - exfalso. apply H1. replace (p_uid p1) with (p_uid p) by lia. apply in_map, Hp.
    - apply IH; assumption. }
  subst p1.
  assert (W : forall n0, n_prm n0 = n_prm n -> In (p_set_busy (p_busy p) p) (n_peers n0) \/ In (p_set_busy false p) (n_peers n0) ->
    exists n' p', bind (bind (modify (upd_peer (PPeer (p_id p)) (p_slow_down (n_prm n)))) (fun _ => when false (handle_ext_resp_err q))) (fun _ => ret Nothing) n0 = (ROk Nothing, n', []) /\ In p' (n_peers n') /\ p_uid p' = uid /\
    p_hb_cur p' = Z.min (max_hb (n_prm n)) (p_hb_cur p + pm_backoff (n_prm n))).
  { intros n0 P0 H0. exists (upd_peer (PPeer (p_id p)) (p_slow_down (n_prm n)) n0).
    assert (Q : exists x, In x (n_peers n0) /\ p_id x = p_id p /\ p_uid x = uid /\ p_hb_cur x = p_hb_cur p) by (destruct H0 as [H0|H0]; eexists; (split; [exact H0|]); repeat split; exact Hu).
    destruct Q as (x & Hx & Q1 & Q2 & Q3). exists (p_slow_down (n_prm n) x).
    split; [rewrite bind_assoc, bind_modify; reflexivity|]. split; [|split; [exact Q2|]].
    - cbn [upd_peer n_peers set_peers]. unfold upd_peers. apply in_map_iff. exists x. rewrite Q1, Z.eqb_refl. split; [reflexivity | exact Hx].
    - cbn. rewrite Q3. reflexivity. }
  rewrite bind_assoc. destruct (_ || _); cbn [when].
  - rewrite bind_modify. apply W; [reflexivity|]. right. cbn [upd_peer n_peers set_peers]. unfold upd_peers. apply in_map_iff. exists p. rewrite Z.eqb_refl. split; [reflexivity | exact Hp].
  - rewrite bind_ret. apply W; [reflexivity|]. left. replace (p_set_busy (p_busy p) p) with p by (destruct p; reflexivity). exact Hp.
Qed.

(** a leader, elected and in contact with server 2, that is asked to remove server 2 *)
Definition ex_rm : req := mkReq 0 remove_server_request 0 0 0 0 0 [mkEV 0 cluster_server (int_b 2)].
Definition ex_aer (t : N) (src : Z) (nx : N) : resp_msg := mkResp t append_entries_response src 1 nx true.
Definition ex_busy_cmds : list cmd := ex_lead_cmds ++
  [CEvent (ERpc 1000 0 false (ex_ae 1 1 0 0 0 []) (Some (ex_aer 1 2 4))); CEvent ECommit; CEvent ECommit; CEvent ECommit].
Definition ex_rm_run : list obs * sys := run_cmds 1 ex_prm (Down ex_disk) (ex_busy_cmds ++ [CEvent (ERequest 1000 ex_rm)]).
Definition ex_rm_node : node := up_node (snd ex_rm_run).
Definition ex_leave : req := mkReq 1 leave_cluster_request 1 2 0 3 3 [].
(** the failure of that request to leave counts twice *)
Theorem C22_growth_refuted : exists id pm d h n now uid q n' l p p',
  (0 <= pm_backoff pm)%Z /\ life id pm (Down d) h (Up n) /\ (exists o, In o h /\ In (ASend uid true q) (o_acts o)) /\
  run_event (ERpc now uid true q None) n = (ROk Nothing, n', l) /\
  In p (n_peers n) /\ In p' (n_peers n') /\ p_uid p = uid /\ p_uid p' = uid /\
  (p_hb_cur p + pm_backoff pm < p_hb_cur p')%Z.
Proof.
  set (x := run_event (ERpc 1000 0 true ex_leave None) ex_rm_node).
  exists 1%Z, ex_prm, ex_disk, (fst ex_rm_run), ex_rm_node, 1000, 0, ex_leave, (snd (fst x)), (snd x),
    (nth 0 (n_peers ex_rm_node) (new_peer 9 (ex_srv 9) ex_prm)), (nth 0 (n_peers (snd (fst x))) (new_peer 9 (ex_srv 9) ex_prm)).
  split; [cbn; lia|]. split.
  { replace (Up ex_rm_node) with (snd ex_rm_run) by (vm_compute; reflexivity). apply run_cmds_life. }
  split.
  { exists (nth 8 (fst ex_rm_run) (mkObs EElection [] None)). split; [apply nth_In; vm_compute; lia | vm_compute; left; reflexivity]. }
  split; [apply pair3; vm_compute; reflexivity|].
  split; [apply nth_In; vm_compute; lia|]. split; [apply nth_In; vm_compute; lia|].
  split; [vm_compute; reflexivity|]. split; [vm_compute; reflexivity|]. vm_compute. reflexivity.
Qed.
Example C22_example :
  let n := ex_rm_node in let n1 := snd (fst (run_event (ERpc 1000 1 false (ex_ae 1 1 0 0 0 []) None) n)) in
  let n2 := snd (fst (run_event (ERpc 1000 1 false (ex_ae 1 1 0 0 0 []) (Some (ex_aer 1 3 1))) n1)) in
  (map p_hb_cur (n_peers n), map p_hb_cur (n_peers n1), map p_hb_cur (n_peers n2)) = ([75; 75], [75; 100], [75; 75])%Z.
Proof. vm_compute. reflexivity. Qed.
Print Assumptions C22_interval_bounds.
Print Assumptions C22_growth_partial.
Print Assumptions C22_growth_refuted.
Print Assumptions C22_success.
Print Assumptions C22_failure.
