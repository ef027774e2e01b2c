(** * PeerInv: the peers of a server are distinct objects with distinct ids *)

From Verif Require Import Base Buffer Codec CodecSpec Msg FsLogStore FsLogSpec Alog Raft RaftQuiet RaftWalk NodeSpec NodeFacts PeerWalk.
Local Open Scope N_scope.

(** all peer objects of a server: the members, and the one being added *)
Definition pool (n : node) : list peer := n_peers n ++ match n_join n with Some j => [j] | None => [] end.

Definition pinv (n : node) : Prop :=
  NoDup (map p_uid (pool n)) /\ (forall p, In p (pool n) -> p_uid p < n_uid n) /\
  NoDup (map p_id (n_peers n)) /\ ~ In (n_id n) (map p_id (n_peers n)).
Definition kinv : rel := fun n _ n' => ((n_id n' = n_id n /\ n_prm n' = n_prm n) /\ n_uid n <= n_uid n') /\ (pinv n -> pinv n').
#[global] Instance kinv_pre : preorder kinv.
Proof. split; unfold kinv; intros; [split; [split; [split; reflexivity | lia] | auto]|]. destruct H as (((A & A') & B) & C), H0 as (((D & D') & E) & F). split; [split; [split; congruence | lia] | auto]. Qed.

(** changes of a peer that keep the object *)
Lemma upd_peers_map : forall A (g : peer -> A) id f l, (forall p, g (f p) = g p) -> map g (upd_peers id f l) = map g l.
Proof.
  intros A g id f l H. unfold upd_peers. rewrite map_map. apply map_ext. intros p. destruct (p_id p =? id)%Z; [apply H | reflexivity].
Qed.
Lemma pinv_same : forall n n', n_id n' = n_id n -> n_uid n' = n_uid n -> map p_uid (pool n') = map p_uid (pool n) ->
  map p_id (n_peers n') = map p_id (n_peers n) -> pinv n -> pinv n'.
Proof.
  intros n n' H1 H2 H3 H4 (I1 & I2 & I3 & I4). split; [rewrite H3; exact I1|]. split.
  { intros p Hp. assert (In (p_uid p) (map p_uid (pool n))) by (rewrite <- H3; apply in_map; exact Hp).
    apply in_map_iff in H. destruct H as (p0 & E & Hin). rewrite <- E, H2. apply I2. exact Hin. }
  rewrite H4, H1. split; assumption.
Qed.
Lemma kinv_same : forall n n' l, n_id n' = n_id n -> n_prm n' = n_prm n -> n_uid n' = n_uid n -> map p_uid (pool n') = map p_uid (pool n) ->
  map p_id (n_peers n') = map p_id (n_peers n) -> kinv n l n'.
Proof. intros n n' l H1 H0 H2 H3 H4. split; [split; [split; assumption | lia]|]. apply pinv_same; assumption. Qed.
Lemma pool_upd : forall r f n, (forall p, p_uid (f p) = p_uid p) -> map p_uid (pool (upd_peer r f n)) = map p_uid (pool n).
Proof.
  intros r f n H. destruct r as [id|]; unfold pool; cbn [upd_peer n_peers n_join set_peers set_join]; rewrite !map_app.
  - rewrite upd_peers_map by exact H. reflexivity.
  - f_equal. destruct (n_join n); cbn; [rewrite H; reflexivity | reflexivity].
Qed.
Lemma peers_upd : forall r f n, (forall p, p_id (f p) = p_id p) -> map p_id (n_peers (upd_peer r f n)) = map p_id (n_peers n).
Proof. intros r f n H. destruct r as [id|]; cbn; [apply upd_peers_map; exact H | reflexivity]. Qed.
Lemma kinv_upd : forall r f n l, (forall p, p_uid (f p) = p_uid p) -> (forall p, p_id (f p) = p_id p) -> kinv n l (upd_peer r f n).
Proof.
  intros r f n l H1 H2. apply kinv_same; [destruct r; reflexivity | destruct r; reflexivity | destruct r; reflexivity | apply pool_upd; exact H1 | apply peers_upd; exact H2].
Qed.
Lemma nodup_filter : forall A B (f : A -> B) h l m, NoDup (map f (l ++ m)) -> NoDup (map f (filter h l ++ m)).
Proof.
  intros A B f h l m. induction l as [|a l IH]; cbn; [auto|]. intros N. inversion N; subst. destruct (h a); cbn; [|apply IH; assumption].
  constructor; [|apply IH; assumption]. intros X. apply H1. apply in_map_iff in X. destruct X as (x & E & Hin).
  rewrite <- E. apply in_map. apply in_app_or in Hin. apply in_or_app. destruct Hin as [Hin|Hin]; [left; apply filter_In in Hin; tauto | right; exact Hin].
Qed.
Lemma nodup_left : forall A B (f : A -> B) l m, NoDup (map f (l ++ m)) -> NoDup (map f l).
Proof.
  intros A B f l m. induction l as [|a l IH]; cbn; [constructor|]. intros N. inversion N; subst. constructor; [|apply IH; assumption].
  intros X. apply H1. rewrite map_app. apply in_or_app. left. exact X.
Qed.
Lemma kinv_join_none : forall n l, kinv n l (set_join None n).
Proof.
  intros n l. split; [split; [split; reflexivity | cbn; lia]|]. intros (I1 & I2 & I3 & I4). unfold pinv, pool in *. cbn in *. rewrite app_nil_r.
  split; [eapply nodup_left; exact I1|]. split; [|split; assumption].
  intros p Hp. apply I2. apply in_or_app. left. exact Hp.
Qed.
Lemma kinv_rm : forall id n l, kinv n l (set_peers (rm_peer id (n_peers n)) n).
Proof.
  intros id n l. split; [split; [split; reflexivity | cbn; lia]|]. intros (I1 & I2 & I3 & I4). unfold pinv, pool, rm_peer in *. cbn.
  split; [apply nodup_filter, I1|]. split.
  { intros p Hp. apply I2. apply in_app_or in Hp. apply in_or_app. destruct Hp as [Hp|Hp]; [left; apply filter_In in Hp; tauto | right; exact Hp]. }
  split.
  - rewrite <- (app_nil_r (n_peers n)) in I3. apply (nodup_filter _ _ _ (fun p => negb (p_id p =? id)%Z)) in I3. rewrite app_nil_r in I3. exact I3.
  - intros X. apply I4. apply in_map_iff in X. destruct X as (x & E & Hin). apply filter_In in Hin. rewrite <- E. apply in_map. tauto.
Qed.

(** a new member: the id is neither there nor the server's own *)
Lemma kinv_uid : forall n l, kinv n l (set_uid (n_uid n + 1) n).
Proof.
  intros n l. split; [split; [split; reflexivity | cbn; lia]|]. intros (I1 & I2 & I3 & I4). split; [exact I1|]. split; [|split; assumption].
  intros p Hp. specialize (I2 p Hp). cbn. lia.
Qed.
Lemma kinv_insert : forall n p id nx l, p_id p = id -> p_uid p = n_uid n -> id <> n_id n ->
  kinv n l (insert_peer id nx p (set_uid (n_uid n + 1) n)).
Proof.
  intros n p id nx l Hid Hu Hself. unfold insert_peer. change (n_peers (set_uid _ n)) with (n_peers n).
  destruct (find_peer id (n_peers n)) eqn:F; [apply kinv_uid|].
  split; [split; [split; reflexivity | cbn; lia]|]. intros (I1 & I2 & I3 & I4).
  assert (Hf : ~ In (p_uid p) (map p_uid (pool n))).
  { intros X. apply in_map_iff in X. destruct X as (x & E & Hx). specialize (I2 x Hx). lia. }
  unfold pinv, pool in *. cbn. split.
  { rewrite !map_app in *. cbn [map]. rewrite <- app_assoc. cbn [app]. apply NoDup_Add with (a := p_uid p) (l := map p_uid (n_peers n) ++ map p_uid (match n_join n with Some j => [j] | None => [] end)).
    - apply Add_app.
    - split; assumption. }
  split.
  { intros x Hx. rewrite <- app_assoc in Hx. apply in_app_or in Hx. destruct Hx as [Hx|Hx].
    { assert (G := I2 x ltac:(apply in_or_app; left; exact Hx)). lia. }
    destruct Hx as [<-|Hx]; [change (p_uid (p_set_next nx p)) with (p_uid p); lia|].
    assert (G := I2 x ltac:(apply in_or_app; right; exact Hx)). lia. }
  rewrite map_app. cbn [map]. change (p_id (p_set_next nx p)) with (p_id p). rewrite Hid.
  assert (G : ~ In id (map p_id (n_peers n))).
  { intros X. apply in_map_iff in X. destruct X as (x & E & Hin). assert (Y := find_none _ _ F x Hin). cbn in Y. rewrite E, Z.eqb_refl in Y. discriminate. }
  split.
  - apply NoDup_Add with (a := id) (l := map p_id (n_peers n)).
    + replace (map p_id (n_peers n)) with (map p_id (n_peers n) ++ []) at 1 by apply app_nil_r. apply Add_app.
    + split; assumption.
  - intros X. apply in_app_or in X. destruct X as [X|[X|[]]]; [exact (I4 X) | exact (Hself X)].
Qed.
Lemma kinv_join : forall n l p, p_uid p = n_uid n -> kinv n l (set_join (Some p) (set_uid (n_uid n + 1) n)).
Proof.
  intros n l p Hp. split; [split; [split; reflexivity | cbn; lia]|]. intros (I1 & I2 & I3 & I4). unfold pinv, pool in *. cbn in *. split.
  { apply NoDup_Add with (a := p_uid p) (l := map p_uid (n_peers n)).
    - rewrite map_app. replace (map p_uid (n_peers n)) with (map p_uid (n_peers n) ++ []) at 1 by apply app_nil_r. apply Add_app.
    - split; [eapply nodup_left; exact I1|]. intros X. apply in_map_iff in X. destruct X as (x & E & Hx). specialize (I2 x ltac:(apply in_or_app; left; exact Hx)). lia. }
  split; [|split; assumption]. intros x Hx. apply in_app_or in Hx. destruct Hx as [Hx|[<-|[]]]; [|lia].
  specialize (I2 x ltac:(apply in_or_app; left; exact Hx)). lia.
Qed.

Lemma pfun_obj : forall pm f, pfun pm f -> forall p, p_uid (f p) = p_uid p /\ p_id (f p) = p_id p.
Proof.
  intros pm f H p. destruct H; try (split; reflexivity). destruct (_ && _); [split; reflexivity|]. destruct (0 <? _); split; reflexivity.
Qed.
Lemma kinv_pfun : forall r f n l, pfun (n_prm n) f -> kinv n l (upd_peer r f n).
Proof. intros r f n l H. apply kinv_upd; intros p; apply (pfun_obj _ _ H). Qed.
Lemma kinv_view : forall n n' l, pview n' = pview n -> kinv n l n'.
Proof. intros n n' l H. unfold pview in H. injection H as H1 H2 H3 H4 H5. apply kinv_same; unfold pool; rewrite ?H1, ?H2; first [assumption | reflexivity]. Qed.
Lemma kinv_refl : forall n l, kinv n l n.
Proof. intros n l. apply kinv_view. reflexivity. Qed.
Lemma kinv_disable : forall n l, kinv n l (set_peers (map p_disable_hb (n_peers n)) n).
Proof. intros n l. apply kinv_same; try reflexivity; [unfold pool; cbn; rewrite !map_app, map_map; reflexivity | cbn; rewrite map_map; reflexivity]. Qed.
Lemma kinv_ids : forall n l n', kinv n l n' -> n_id n' = n_id n /\ n_prm n' = n_prm n.
Proof. intros n l n' H. apply H. Qed.
Lemma send_to_kinv : forall id n, ht kinv yes (request_append_entries_to id) n.
Proof.
  intros id n. open_send. open_peer. unfold the_peer.
  walk ltac:(first [apply kinv_upd; intros ?; reflexivity | apply kinv_view; reflexivity]).
Qed.
(** the common arguments of the lemmas of PeerWalk *)
Ltac kinv_args := first
  [ exact kinv_pre | intros; apply kinv_view; assumption | intros; apply kinv_refl | intros; apply kinv_pfun; assumption | intros; apply kinv_disable
  | intros; apply kinv_join_none | intros; apply kinv_rm | intros; apply kinv_insert; [reflexivity | reflexivity | assumption]
  | intros; apply kinv_join; reflexivity | exact send_to_kinv | exact kinv_ids ].
Lemma leader_kinv : forall n, ht kinv yes become_leader n.
Proof. apply leader_all; try kinv_args. intros. apply kinv_upd; intros ?; reflexivity. Qed.
Lemma run_event_kinv : forall e n, ht kinv yes (run_event e) n.
Proof.
  intros e n. destruct e; try (apply other_all; first [kinv_args | exact leader_kinv | exact I]).
  - cbn [run_event]. unfold rpc_done.
    assert (A : forall r n, ht kinv yes (handle_ext_resp r) n) by (apply ext_resp_all; try kinv_args; exact leader_kinv).
    assert (B : forall now r n, ht kinv yes (handle_peer_resp now r) n) by (apply peer_resp_all; try kinv_args; exact leader_kinv).
    assert (C : forall n, ht kinv yes request_append_entries n) by (apply request_all; kinv_args).
    unfold handle_ext_resp_err, rm_srv_from_cluster, append_config, log_append, next_slot_.
    repeat first [match goal with |- ht _ _ (handle_ext_resp _) _ => apply A | |- ht _ _ (handle_peer_resp _ _) _ => apply B
        | |- ht _ _ request_append_entries _ => apply C end
      | wstep ltac:(first [apply kinv_upd; intros ?; reflexivity | apply kinv_rm | apply kinv_join_none | apply kinv_view; reflexivity])].
  - cbn [run_event]. unfold retry. walk ltac:(apply kinv_view; reflexivity).
Qed.

Lemma start_peers_inv : forall id pm l u, let ps := start_peers id pm u l in
  NoDup (map p_uid ps) /\ (forall p, In p ps -> u <= p_uid p < u + lenN l) /\ NoDup (map p_id ps) /\ ~ In id (map p_id ps).
Proof.
  intros id pm l. induction l as [|s l IH]; intros u ps; subst ps; cbn [start_peers].
  - cbn. repeat split; try constructor; try contradiction; auto.
  - replace (lenN (s :: l)) with (lenN l + 1) by (unfold lenN; cbn [length]; lia). destruct (sc_id s =? id)%Z eqn:E.
    + destruct (IH u) as (A & B & C & D). split; [exact A|]. split; [|split; assumption]. intros p Hp. specialize (B p Hp). lia.
    + destruct (IH (u + 1)) as (A & B & C & D). set (rest := start_peers id pm (u + 1) l) in *. set (g := fun p => negb (p_id p =? sc_id s)%Z).
      assert (F : forall p, In p (filter g rest) -> In p rest) by (intros p Hp; apply filter_In in Hp; tauto).
      cbn [map new_peer p_uid p_id p_cfg sc_id]. split.
      { constructor.
        - intros X. apply in_map_iff in X. destruct X as (x & Ex & Hx). specialize (B x (F x Hx)). lia.
        - rewrite <- (app_nil_r rest) in A. apply (nodup_filter _ _ _ g) in A. rewrite app_nil_r in A. exact A. }
      split; [intros p [<-|Hp]; [cbn; lia | specialize (B p (F p Hp)); lia]|]. unfold p_id at 1 3. cbn [p_cfg new_peer]. split.
      { constructor.
        - intros X. apply in_map_iff in X. destruct X as (x & Ex & Hx). apply filter_In in Hx. unfold g in Hx. rewrite Ex, Z.eqb_refl in Hx. destruct Hx. discriminate.
        - rewrite <- (app_nil_r rest) in C. apply (nodup_filter _ _ _ g) in C. rewrite app_nil_r in C. exact C. }
      intros [X|X]; [lia|]. apply in_map_iff in X. destruct X as (x & Ex & Hx). apply D. rewrite <- Ex. apply in_map, F, Hx.
Qed.
Lemma start_pinv : forall id pm d, pinv (start_node id pm d).
Proof.
  intros id pm d. unfold start_node. destruct (match dk_state d with Some x => x | None => _ end) as [t v]. unfold pinv, pool. cbn [n_peers n_join n_uid n_id].
  rewrite app_nil_r. destruct (start_peers_inv id pm (cc_servers (dk_config d)) 0) as (A & B & C & D). split; [exact A|]. split; [|split; assumption].
  intros p Hp. specialize (B p Hp). lia.
Qed.
(** every server that runs, whatever has happened before *)
Lemma life_pinv : forall id pm s h s', life id pm s h s' ->
  match s with Up n => pinv n | Down _ => True end -> match s' with Up n => pinv n | Down _ => True end.
Proof.
  intros id pm s h s' H. induction H; intros I; try exact I.
  - apply IHlife. destruct (run_event_kinv e n _ _ _ H) as [[_ K] _]. apply K, I.
  - apply IHlife, Logic.I.
  - apply IHlife, Logic.I.
  - apply IHlife, start_pinv.
Qed.
