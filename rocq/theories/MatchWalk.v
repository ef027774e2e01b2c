(** * MatchWalk: where the matched indexes of peers come from *)

From Verif Require Import Base Buffer Codec CodecSpec Msg FsLogStore FsLogSpec Alog Raft RaftQuiet RaftWalk WalkAll NodeSpec NodeFacts AppendFacts.
Local Open Scope N_scope.

(** the matched index of every peer is 0, or one the peer had before, or [new] *)
Definition r_match (new : Z -> N -> Prop) : rel := fun n _ n' =>
  forall p', In p' (n_peers n') -> p_match p' = 0 \/ new (p_id p') (p_match p') \/ exists p, In p (n_peers n) /\ p_id p = p_id p' /\ p_match p = p_match p'.
#[global] Instance r_match_pre : forall new, preorder (r_match new).
Proof.
  intros new. split.
  - intros n p' H. right. right. eauto.
  - intros n l n' l' n'' H1 H2 p' Hp. destruct (H2 p' Hp) as [H|[H|(p & Hin & E1 & E2)]]; [left; exact H | right; left; exact H|].
    destruct (H1 p Hin) as [H|[H|(p0 & H0 & X1 & X2)]].
    + left. congruence.
    + right. left. rewrite <- E1, <- E2. exact H.
    + right. right. exists p0. split; [exact H0|]. split; congruence.
Qed.
Lemma m_same : forall new n l n', n_peers n' = n_peers n -> r_match new n l n'.
Proof. intros new n l n' H p' Hp. rewrite H in Hp. right. right. eauto. Qed.
Lemma m_upd : forall (new : Z -> N -> Prop) n l r f,
  (forall p, p_id (f p) = p_id p) -> (forall p, r = PPeer (p_id p) -> p_match (f p) = p_match p \/ new (p_id p) (p_match (f p))) -> r_match new n l (upd_peer r f n).
Proof.
  intros new n l [id|] f Hi Hm; [|apply m_same; reflexivity]. intros p' Hp. unfold upd_peer, upd_peers in Hp. cbn [n_peers set_peers] in Hp.
  apply in_map_iff in Hp. destruct Hp as (p & E & Hin). destruct (p_id p =? id)%Z eqn:Eq; [|subst; right; right; eauto].
  assert (id = p_id p) by lia. subst id p'. rewrite Hi. destruct (Hm p eq_refl) as [H|H]; [|right; left; exact H]. right. right. exists p. auto.
Qed.
Lemma m_map : forall new n l f, (forall p, p_id (f p) = p_id p /\ p_match (f p) = p_match p) -> r_match new n l (set_peers (map f (n_peers n)) n).
Proof.
  intros new n l f H p' Hp. cbn [n_peers set_peers] in Hp. apply in_map_iff in Hp. destruct Hp as (p & E & Hin). subst p'. destruct (H p). right. right. exists p. auto.
Qed.
Lemma m_rm : forall new n l id, r_match new n l (set_peers (rm_peer id (n_peers n)) n).
Proof. intros new n l id p' Hp. cbn [n_peers set_peers] in Hp. apply filter_In in Hp. right. right. exists p'. tauto. Qed.
Lemma m_insert : forall (new : Z -> N -> Prop) n l x p, p_match p = 0 -> r_match new n l (match find_peer x (n_peers n) with None => set_peers (n_peers n ++ [p]) n | Some _ => n end).
Proof.
  intros new n l x p H0. destruct (find_peer x (n_peers n)); [apply m_same; reflexivity|]. intros p' Hp. cbn [n_peers set_peers] in Hp.
  apply in_app_or in Hp. destruct Hp as [Hp|[Hp|[]]]; [right; right; eauto|]. subst p'. left. exact H0.
Qed.
Ltac mt0 := first [ apply m_same; reflexivity
                  | apply m_map; intros; split; reflexivity
                  | apply m_rm
                  | apply m_insert; reflexivity
                  | apply m_upd; [intros; repeat match goal with |- context [if ?x then _ else _] => destruct x end; reflexivity
                                 | intros; repeat match goal with |- context [if ?x then _ else _] => destruct x end; first [left; reflexivity | discriminate]] ].

Section Walk.
  Variable r : resp_msg.
  (** a response that has been taken into account *)
  Definition told (id : Z) (m : N) : Prop :=
    rs_type r = append_entries_response /\ rs_accepted r = true /\ id = rs_src r /\ m = pred64 (rs_next_idx r).
  Let R := r_match told.
  Ltac mt := unfold R; mt0.
  Lemma match_walk : (forall e n, match e with ERpc _ _ false _ (Some x) => x = r /\ rs_type r <> install_snapshot_response | _ => True end -> ht R yes (run_event e) n).
  Proof.
    assert (P : preorder R) by (unfold R; exact _).
    walk_base R mt; walk_down R mt; walk_reconf R mt; walk_lead R mt; walk_cand R mt; walk_prevote R mt; walk_election R mt; walk_hb R mt.
    walk_reqs R mt; walk_join R mt; walk_leave R mt; walk_process R mt.
    assert (W_vrs : forall x n, ht R yes (handle_voting_resp x) n) by (intros; unfold handle_voting_resp; open_prims; wall mt).
    assert (W_aes : rs_type r = append_entries_response -> forall n, ht R yes (handle_append_entries_resp r) n).
    { intros T n. unfold handle_append_entries_resp. open_prims. wall ltac:(first [mt | unfold R; apply m_upd; [reflexivity|]; intros ? Ep; right; inversion Ep; unfold told; repeat split; assumption]). }
    assert (W_per : rs_type r <> install_snapshot_response -> forall now n, ht R yes (handle_peer_resp now r) n).
    { intros T now n. unfold handle_peer_resp. open_prims.
      repeat first [hyp_leaf | match goal with |- ht _ _ (handle_append_entries_resp _) _ => apply W_aes; apply Byte.byte_dec_bl; assumption
                                            | |- ht _ _ (handle_install_snapshot_resp _) _ => exfalso; apply T; apply Byte.byte_dec_bl; assumption end | wstep mt]. }
    assert (W_stn : forall i n, ht R yes (sync_log_to_new_srv i) n) by (intros; unfold sync_log_to_new_srv; open_prims; wall mt).
    assert (W_rms : forall i n, ht R yes (rm_srv_from_cluster i) n) by (intros; unfold rm_srv_from_cluster, append_config; open_prims; wall mt).
    assert (W_err : forall q n, ht R yes (handle_ext_resp_err q) n) by (intros; unfold handle_ext_resp_err; open_prims; wall mt).
    walk_prevote_resp R mt; walk_ext_resp R mt; walk_rest R mt; walk_api R mt.
    intros e n He. destruct e; cbn [run_event]; unfold retry; try (wall mt; fail).
    unfold rpc_done. open_prims. destruct ext.
    - wall mt.
    - destruct r0 as [x|]; [|wall mt]. destruct He as [-> He]. specialize (W_per He now). wall mt.
  Qed.
End Walk.

(** a server that accepts entries answers with the index after the last of them *)
Lemma accepted_next : forall now q n r n' l, rq_type q = append_entries_request -> run_event (ERequest now q) n = (ROk (Response r), n', l) ->
  rs_accepted r = true -> rs_next_idx r = rq_last_idx q + lenN (rq_entries q) + 1.
Proof.
  intros now q n r n' l Ht H Ha. cbn [run_event] in H. unfold bind at 1 in H.
  destruct (process_req now q n) as [[x n1] l1] eqn:E. destruct x as [a|e|u|]; try discriminate. cbv beta iota delta [ret] in H. inversion H; subst. clear H.
  assert (G : forall m, ht any (fun r _ => rs_accepted r = true -> rs_next_idx r = rq_last_idx q + lenN (rq_entries q) + 1) (handle_append_entries q) m).
  { intros m x m' l' X. split; [exact I|]. intros r0 -> Hr. rewrite ae_shape in X.
    match type of X with bind ?a ?b m = _ => assert (Y : ht any (fun r _ => rs_accepted r = true -> rs_next_idx r = rq_last_idx q + lenN (rq_entries q) + 1) (bind a b) m) end.
    { eapply ht_bind; [exact _ | apply any_yes|]. intros u n2 l2 _ _ _. eapply ht_bind; [exact _ | apply any_yes|]. intros nx n3 l3 _ _ _.
      eapply ht_bind; [exact _ | apply any_yes|]. intros b n4 l4 _ _ _. cbv zeta. destruct ((rq_term q <? n_term m) || negb b).
      - apply ht_ret; [exact _ | discriminate].
      - eapply ht_bind; [exact _ | apply any_yes|]. intros u1 n5 l5 _ _ _. eapply ht_bind; [exact _ | apply any_yes|]. intros u2 n6 l6 _ _ _.
        eapply ht_bind; [exact _ | apply any_yes|]. intros u3 n7 l7 _ _ _. apply ht_ret; [exact _ | intros _; reflexivity]. }
    apply (proj2 (Y _ _ _ X) r0 eq_refl Hr). }
  assert (Y : ht any (fun r _ => rs_accepted r = true -> rs_next_idx r = rq_last_idx q + lenN (rq_entries q) + 1) (process_req now q) n).
  { unfold process_req. rewrite Ht. cbv zeta. eapply ht_bind; [exact _ | apply any_yes|]. intros u n2 l2 _ _ _.
    change (beq append_entries_request append_entries_request) with true. cbv iota. apply G. }
  apply (proj2 (Y _ _ _ E) r eq_refl Ha).
Qed.
