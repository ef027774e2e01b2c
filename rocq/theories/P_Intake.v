(** * Property C91: no message brings a server down *)

From Verif Require Import Base Buffer BufferSpec BufferTop Codec CodecSpec CodecProofs Msg Rpc RpcSpec RpcProofs FsLogStore FsLogSpec Alog Raft RaftQuiet RaftWalk WalkAll NodeSpec ServerSpec NodeLife NodeFacts NodeExamples PeerInv P_Rpc P_Leader Intake.
Local Open Scope N_scope.

(** ** Specification *)

(** the type of the answer that belongs to a request of type [t] *)
Definition answer_to (t : byte) : option byte :=
  match t with
  | x01 (* vote *) => Some x02
  | x03 (* append entries *) | x05 (* client request *) => Some x04
  | x06 (* add server *) => Some x07
  | x08 (* remove server *) => Some x09
  | x0a (* sync log *) => Some x0b
  | x0c (* join cluster *) => Some x0d
  | x0e (* leave cluster *) => Some x0f
  | x10 (* install snapshot *) => Some x11
  | x12 (* prevote *) => Some x13
  | _ => None
  end.
(** the types of answers a server waits for on its two kinds of calls *)
Definition waits_for (ext : bool) (t : byte) : Prop :=
  if ext then In t [x0b; x0d; x0f; x11; x13] else In t [x02; x04; x11].
(** the server has stopped: the process has ended or its behaviour is undefined *)
Definition stopped {A} (x : rout A * node * list act) : Prop :=
  match fst (fst x) with RExit | RUB _ => True | _ => False end.

(** ** The log calls change nothing for the types that have names *)
Lemma named_ok : forall t n, byteN t < 20 -> named t n = (ROk tt, n, []).
Proof. intros t n H. unfold named, lift, names. replace (byteN t <? 20) with true by lia. reflexivity. Qed.
Lemma named_bad : forall t n, 20 <= byteN t -> named t n = (RUB OutOfBoundsRead, n, []).
Proof. intros t n H. unfold named, lift, names. replace (byteN t <? 20) with false by lia. reflexivity. Qed.
Lemma bind_named : forall A t (m : M A) n, byteN t < 20 -> (named t ;;; m) n = m n.
Proof. intros A t m n H. unfold bind. rewrite (named_ok _ _ H). destruct (m n) as [[r n'] l]. reflexivity. Qed.

(** every result of [m] satisfies [P] *)
Definition ends {A} (P : A -> Prop) (m : M A) : Prop := forall n a n' l, m n = (ROk a, n', l) -> P a.
Lemma ends_ret : forall A (P : A -> Prop) a, P a -> ends P (ret a).
Proof. intros A P a H n b n' l E. inversion E; subst. exact H. Qed.
Lemma ends_exit : forall A (P : A -> Prop) c, ends P (system_exit c).
Proof. intros A P c n b n' l E. inversion E. Qed.
Lemma ends_throw : forall A (P : A -> Prop) e, ends P (throw e).
Proof. intros A P c n b n' l E. inversion E. Qed.
Lemma ends_ub : forall A (P : A -> Prop) e, ends P (ub e).
Proof. intros A P c n b n' l E. inversion E. Qed.
Lemma ends_bind : forall A B (P : B -> Prop) (m : M A) (f : A -> M B), (forall a, ends P (f a)) -> ends P (bind m f).
Proof.
  intros A B P m f H n b n' l E. unfold bind in E. destruct (m n) as [[[a|e|u|] n1] l1]; try discriminate.
  destruct (f a n1) as [[r2 n2] l2] eqn:Ef. inversion E; subst. exact (H _ _ _ _ _ Ef).
Qed.
Ltac ending tac := repeat match goal with
  | |- ends _ (ret _) => apply ends_ret; tac
  | |- ends _ (system_exit _) => apply ends_exit
  | |- ends _ (throw _) => apply ends_throw
  | |- ends _ (ub _) => apply ends_ub
  | |- ends _ (bind _ _) => apply ends_bind; intros ?
  | |- ends _ (if ?b then _ else _) => destruct b
  | |- ends _ (match ?x with _ => _ end) => destruct x
  end.
Ltac rtype := cbn; repeat match goal with |- context [if ?b then _ else _] => destruct b; cbn end; reflexivity.

Lemma beq_true : forall a b, beq a b = true -> a = b.
Proof. intros a b H. apply Byte.byte_dec_bl. exact H. Qed.

Lemma answer_type : forall now q, ends (fun r => answer_to (rq_type q) = Some (rs_type r)) (process_req now q).
Proof.
  intros now q. unfold process_req. apply ends_bind. intros _.
  destruct (beq (rq_type q) append_entries_request) eqn:E1; [apply beq_true in E1; rewrite E1; unfold handle_append_entries; ending rtype|].
  destruct (beq (rq_type q) vote_request) eqn:E2; [apply beq_true in E2; rewrite E2; unfold handle_vote_req; ending rtype|].
  destruct (beq (rq_type q) client_request) eqn:E3; [apply beq_true in E3; rewrite E3; unfold handle_cli_req; ending rtype|].
  unfold handle_extended_msg.
  destruct (beq (rq_type q) add_server_request) eqn:E4; [apply beq_true in E4; rewrite E4; unfold handle_add_srv_req; ending rtype|].
  destruct (beq (rq_type q) remove_server_request) eqn:E5; [apply beq_true in E5; rewrite E5; unfold handle_rm_srv_req; ending rtype|].
  destruct (beq (rq_type q) sync_log_request) eqn:E6; [apply beq_true in E6; rewrite E6; unfold handle_log_sync_req; ending rtype|].
  destruct (beq (rq_type q) join_cluster_request) eqn:E7; [apply beq_true in E7; rewrite E7; unfold handle_join_cluster_req; ending rtype|].
  destruct (beq (rq_type q) leave_cluster_request) eqn:E8; [apply beq_true in E8; rewrite E8; unfold handle_leave_cluster_req; ending rtype|].
  destruct (beq (rq_type q) install_snapshot_request) eqn:E9; [apply beq_true in E9; rewrite E9; unfold handle_install_snapshot_req; ending rtype|].
  destruct (beq (rq_type q) prevote_request) eqn:E10; [apply beq_true in E10; rewrite E10; unfold handle_prevote_req; ending rtype|].
  apply ends_exit.
Qed.
Lemma answer_named : forall t t', answer_to t = Some t' -> byteN t < 20 /\ byteN t' < 20.
Proof. intros t t' H. destruct t; cbn in H; try discriminate; inversion H; split; vm_compute; reflexivity. Qed.

Lemma take_req_named : forall now q n, byteN (rq_type q) < 20 -> take_req now q n = process_req now q n.
Proof.
  intros now q n H. unfold take_req. rewrite bind_named by exact H. unfold bind.
  destruct (process_req now q n) as [[[r|e|u|] n1] l1] eqn:E; try reflexivity.
  destruct (answer_named _ _ (answer_type _ _ _ _ _ _ E)) as [_ K]. rewrite (named_ok _ _ K). unfold ret. rewrite !app_nil_r. reflexivity.
Qed.
Lemma take_rpc_named : forall now uid ext q r n, byteN (rs_type r) < 20 -> take_rpc now uid ext q (Some r) n = rpc_done now uid ext q (Some r) n.
Proof.
  intros now uid ext q r n H.
  assert (K : forall m, (if ext then take_ext_resp r else take_peer_resp now r) m = (if ext then handle_ext_resp r else handle_peer_resp now r) m).
  { intros m. destruct ext; [apply bind_named, H|]. unfold take_peer_resp, handle_peer_resp. unfold bind at 1, get at 1. unfold bind at 4, get at 1.
    destruct (find_peer (rs_src r) (n_peers m)); [|reflexivity]. unfold bind at 1 3, modify. rewrite bind_named by exact H. reflexivity. }
  unfold take_rpc, rpc_done. unfold bind at 1, get at 1. unfold bind at 3, get at 1. destruct (live_ref uid n) as [ref|]; [|reflexivity].
  assert (J : forall (w : M unit) m, (w ;;; modify (upd_peer ref (p_resume (n_prm n))) ;;; (if ext then take_ext_resp r else take_peer_resp now r)) m =
                          (w ;;; modify (upd_peer ref (p_resume (n_prm n))) ;;; (if ext then handle_ext_resp r else handle_peer_resp now r)) m).
  { intros w m. unfold bind, modify. destruct (w m) as [[[a|e|u|] m1] l1]; try reflexivity. rewrite K. reflexivity. }
  rewrite J. reflexivity.
Qed.

(** for messages whose type has a name, all that is proved about the handlers holds of
    the functions that receive the messages *)
Definition type_of (e : event) : option byte :=
  match e with ERequest _ q => Some (rq_type q) | ERpc _ _ _ _ (Some r) => Some (rs_type r) | _ => None end.
Theorem C91_same_partial : forall e n, (forall t, type_of e = Some t -> byteN t < 20) -> take_event e n = run_event e n.
Proof.
  intros e n H. destruct e; try reflexivity; cbn [take_event run_event].
  - unfold bind. rewrite take_req_named by (apply H; reflexivity). reflexivity.
  - destruct r as [r|]; [|reflexivity]. unfold bind. rewrite take_rpc_named by (apply H; reflexivity). reflexivity.
Qed.
Print Assumptions C91_same_partial.

(** ** Messages that stop a server *)

(** a request whose type is no request type ends the process; a type without a name
    makes the server read past the end of the table of names *)
Lemma not_a_request : forall now q n, answer_to (rq_type q) = None -> byteN (rq_type q) < 20 ->
  process_req now q n = (RExit, n, [AExit (-1)]).
Proof.
  intros now q n H L. unfold process_req, handle_extended_msg.
  destruct (rq_type q) eqn:E; cbn in H; try discriminate; first [reflexivity | vm_compute in L; discriminate].
Qed.
Theorem C91_unknown_request_refuted : forall now q n, answer_to (rq_type q) = None ->
  (byteN (rq_type q) < 20 -> take_event (ERequest now q) n = (RExit, n, [AExit (-1)])) /\
  (20 <= byteN (rq_type q) -> take_event (ERequest now q) n = (RUB OutOfBoundsRead, n, [])).
Proof.
  intros now q n H. split; intros L; cbn [take_event]; unfold bind.
  - rewrite take_req_named by exact L. rewrite not_a_request by assumption. reflexivity.
  - unfold take_req, bind. rewrite named_bad by exact L. reflexivity.
Qed.
Print Assumptions C91_unknown_request_refuted.

(** so 45 bytes sent to any session by anyone stop any server *)
Theorem C91_any_bytes_refuted : forall t, answer_to t = None ->
  exists bs, lenN bs = 45 /\ forall junk hdr log rest, idle hdr ->
    exists q' hdr' log', session_step junk hdr log (bs ++ rest) = SReq q' hdr' log' rest /\
    forall q, req_is q q' -> forall now n, stopped (take_event (ERequest now q) n).
Proof.
  intros t H. set (q0 := mkReq 0 t 0 0 0 0 0 [] : req_msg entry_val). exists (req_bytes q0).
  split. { unfold req_bytes, q0. cbn [rq_type rq_src rq_dst rq_term rq_last_term rq_last_idx rq_commit rq_entries]. lens. reflexivity. }
  intros junk hdr log rest Hi.
  assert (O : req_ok q0). { unfold req_ok, q0, is_int32, is_ulong, two64; cbn. repeat split; try lia. constructor. }
  destruct (session_step_req junk hdr log q0 rest Hi O) as (q' & h' & l' & E & _ & R); [vm_compute; discriminate|].
  exists q', h', l'. split; [exact E|]. intros q Q now n.
  assert (T : rq_type q = t). { destruct R as (_ & R & _). destruct Q as (_ & Q & _). rewrite <- Q, R. reflexivity. }
  rewrite <- T in H. destruct (C91_unknown_request_refuted now q n H) as [A B].
  destruct (N.lt_ge_cases (byteN (rq_type q)) 20) as [L|L]; [rewrite (A L) | rewrite (B L)]; exact I.
Qed.
Print Assumptions C91_any_bytes_refuted.

(** an answer that is none of those a server waits for *)
Lemma waits_iff : forall ext t, waits_for ext t \/ ~ waits_for ext t.
Proof.
  intros ext t. unfold waits_for. destruct ext; match goal with |- In ?x ?l \/ _ => destruct (in_dec Byte.byte_eq_dec x l); auto end.
Qed.
Lemma find_ids : forall x l l', map p_id l = map p_id l' -> find_peer x l = None -> find_peer x l' = None.
Proof.
  intros x l. unfold find_peer. induction l as [|p l IH]; intros [|p' l'] Hm F; cbn [map find] in *; try discriminate; [reflexivity|].
  assert (H1 : p_id p = p_id p') by congruence. assert (H2 : map p_id l = map p_id l') by congruence. rewrite <- H1.
  destruct (p_id p =? x)%Z; [discriminate | exact (IH _ H2 F)].
Qed.
Theorem C91_wrong_answer_refuted : forall now uid ext q r n, live_ref uid n <> None -> ~ waits_for ext (rs_type r) ->
  (ext = false -> find_peer (rs_src r) (n_peers n) <> None /\ (20 <= byteN (rs_type r) \/ rs_term r <= n_term n)) ->
  stopped (take_event (ERpc now uid ext q (Some r)) n).
Proof.
  intros now uid ext q r n Hl Hw Hp. cbn [take_event].
  assert (S : forall m, n_term m = n_term n -> map p_id (n_peers m) = map p_id (n_peers n) ->
     stopped ((if ext then take_ext_resp r else take_peer_resp now r) m)).
  { intros m Ht Hm. destruct (N.lt_ge_cases (byteN (rs_type r)) 20) as [L|L].
    - destruct ext.
      + unfold take_ext_resp. rewrite bind_named by exact L. unfold handle_ext_resp. rewrite bind_get.
        cbn in Hw. destruct (rs_type r); try (exfalso; apply Hw; tauto); try exact I.
      + destruct (Hp eq_refl) as [Hf Hg]. unfold take_peer_resp. rewrite bind_get.
        assert (F : find_peer (rs_src r) (n_peers m) <> None).
        { intros F. exact (Hf (find_ids _ _ _ Hm F)). }
        destruct (find_peer (rs_src r) (n_peers m)); [|contradiction]. unfold bind at 1, modify.
        rewrite bind_named by exact L. unfold bind. rewrite update_term_eq.
        replace (n_term (upd_peer (PPeer (rs_src r)) (p_set_last_resp now) m)) with (n_term n) by (cbn; congruence).
        replace (n_term n <? rs_term r) with false by lia.
        cbn in Hw. destruct (rs_type r); try (exfalso; apply Hw; tauto); try exact I.
    - destruct ext.
      + unfold take_ext_resp, bind. rewrite named_bad by exact L. exact I.
      + destruct (Hp eq_refl) as [Hf _]. unfold take_peer_resp. rewrite bind_get.
        assert (F : find_peer (rs_src r) (n_peers m) <> None).
        { intros F. exact (Hf (find_ids _ _ _ Hm F)). }
        destruct (find_peer (rs_src r) (n_peers m)); [|contradiction]. unfold bind, modify. rewrite named_bad by exact L. exact I. }
  assert (B : forall A (m : M A) n (f : A -> M answer), stopped (m n) -> stopped ((x <- m ;; f x) n)).
  { intros A m n0 f. unfold stopped, bind. destruct (m n0) as [[[a|e|u|] n1] l1]; cbn; tauto. }
  apply B. unfold take_rpc. unfold bind at 1, get at 1. destruct (live_ref uid n) as [ref|]; [|contradiction].
  assert (U : forall f m, n_term (upd_peer ref f m) = n_term m) by (intros f m; destruct ref; reflexivity).
  assert (V : forall f m, (forall p, p_id (f p) = p_id p) -> map p_id (n_peers (upd_peer ref f m)) = map p_id (n_peers m)).
  { intros f m Hf. apply peers_upd, Hf. }
  set (w := when _ _).
  assert (Hw' : exists m, w n = (ROk tt, m, []) /\ n_term m = n_term n /\ map p_id (n_peers m) = map p_id (n_peers n)).
  { unfold w. destruct (_ || _); cbn [when]; eexists; (split; [reflexivity|]); [split; [apply U | apply V; reflexivity] | auto]. }
  destruct Hw' as (m & Ew & M1 & M2).
  set (m2 := upd_peer ref (p_resume (n_prm n)) m).
  assert (S2 : stopped ((if ext then take_ext_resp r else take_peer_resp now r) m2)).
  { apply S; unfold m2; [rewrite U; exact M1 | rewrite V by reflexivity; exact M2]. }
  unfold stopped in *. unfold bind. rewrite Ew. unfold modify. fold m2.
  destruct ((if ext then take_ext_resp r else take_peer_resp now r) m2) as [[[a|e|u|] n1] l1]; cbn in *; tauto.
Qed.
Print Assumptions C91_wrong_answer_refuted.

(** a leader is ended by anyone who sends an append or snapshot request of its term *)
Lemma arrived_same : forall n, arrived (n_term n) n = (if (0 <? n_steps n)%Z then set_steps 2 n else n) /\ arrived_acts (n_term n) n = [].
Proof. intros n. unfold arrived, arrived_acts. replace (n_term n <? n_term n) with false by lia. split; reflexivity. Qed.
Theorem C91_own_term_refuted : forall now q n, n_role n = Leader -> rq_term q = n_term n ->
  rq_type q = append_entries_request \/ rq_type q = install_snapshot_request /\ n_catching n = false ->
  stopped (take_event (ERequest now q) n).
Proof.
  intros now q n Hr Ht Hq. assert (L : byteN (rq_type q) < 20) by (destruct Hq as [->|[-> _]]; vm_compute; reflexivity).
  cbn [take_event]. unfold bind. rewrite take_req_named by exact L.
  destruct Hq as [Hq|[Hq Hc]].
  - rewrite process_ae by exact Hq. rewrite Ht. destruct (arrived_same n) as [-> ->]. set (m := if (0 <? n_steps n)%Z then set_steps 2 n else n).
    assert (M1 : n_role m = Leader) by (unfold m; destruct (_ <? _)%Z; exact Hr). assert (M2 : n_term m = n_term n) by (unfold m; destruct (_ <? _)%Z; reflexivity).
    unfold handle_append_entries. rewrite bind_get. rewrite Ht, M2, N.eqb_refl, M1. exact I.
  - rewrite process_install by exact Hq. rewrite Ht. destruct (arrived_same n) as [-> ->]. set (m := if (0 <? n_steps n)%Z then set_steps 2 n else n).
    assert (M1 : n_role m = Leader) by (unfold m; destruct (_ <? _)%Z; exact Hr). assert (M2 : n_term m = n_term n) by (unfold m; destruct (_ <? _)%Z; reflexivity).
    assert (M3 : n_catching m = false) by (unfold m; destruct (_ <? _)%Z; exact Hc).
    unfold handle_install_snapshot_req. rewrite bind_get. rewrite Ht, M2, N.eqb_refl, M1, M3. exact I.
Qed.
Print Assumptions C91_own_term_refuted.

(** ** What servers say to each other is named and waited for *)

(** an answer has the type that belongs to the request *)
Theorem C91_answers_partial : forall now q n r n' l, take_event (ERequest now q) n = (ROk (Response r), n', l) ->
  answer_to (rq_type q) = Some (rs_type r).
Proof.
  intros now q n r n' l E. destruct (N.lt_ge_cases (byteN (rq_type q)) 20) as [L|L].
  - rewrite C91_same_partial in E by (intros t H; inversion H; subst; exact L). apply run_request in E. exact (answer_type _ _ _ _ _ _ E).
  - exfalso. cbn [take_event] in E. unfold take_req, bind in E. rewrite named_bad in E by exact L. discriminate.
Qed.
Print Assumptions C91_answers_partial.

(** a request is one the receiver knows, and the sender waits for its answer *)
Definition proper (ext : bool) (q : req) : Prop := exists t, answer_to (rq_type q) = Some t /\ waits_for ext t.
Definition proper_act (a : act) : Prop :=
  match a with ASend _ ext q => proper ext q | ARetryLater _ q => proper true q | _ => True end.
Definition sends : rel := fun _ l _ => Forall proper_act l.
#[export] Instance sends_pre : preorder sends.
Proof. split; unfold sends; intros; [constructor|]. apply Forall_app. auto. Qed.
Ltac psend := unfold sends; first [apply Forall_nil | apply Forall_cons; [cbn; first [exact I | assumption | eexists; split; [reflexivity | cbn; tauto]] | apply Forall_nil]].
Lemma send_proper : forall r ext q n, proper ext q -> ht sends yes (send_req r ext q) n.
Proof. intros r ext q n H. unfold send_req, the_peer. wall psend. Qed.
Definition bulk (q : req) : Prop := rq_type q = append_entries_request \/ rq_type q = install_snapshot_request.
Lemma cae_bulk : forall r, ends bulk (create_append_entries_req r).
Proof. intros r. unfold create_append_entries_req, create_sync_snapshot_req, bulk. ending ltac:(cbn; auto). Qed.
Lemma bulk_proper : forall q, bulk q -> proper false q.
Proof. intros q [H|H]; unfold proper; rewrite H; eexists; (split; [reflexivity | cbn; tauto]). Qed.
Lemma sync_snp : forall r a b c, ends (fun q => rq_type q = install_snapshot_request) (create_sync_snapshot_req r a b c).
Proof. intros r a b c. unfold create_sync_snapshot_req. ending ltac:(reflexivity). Qed.
Lemma ht_ends : forall R A (P : A -> Prop) (m : M A) n, ht R yes m n -> ends P m -> ht R (fun a _ => P a) m n.
Proof. intros R A P m n H K r n' l E. destruct (H _ _ _ E) as [H1 _]. split; [exact H1|]. intros a ->. exact (K _ _ _ _ E). Qed.

(** the events a server meets when the requests whose answers or retries arrive are
    requests it has sent, as in the theorem *)
Definition own_call (e : event) : Prop :=
  match e with
  | ERpc _ _ ext q _ => proper ext q
  | ERetry _ q => proper true q
  | _ => True
  end.
Theorem C91_sends_partial : forall e n x n' l, own_call e -> take_event e n = (x, n', l) ->
  forall a, In a l -> proper_act a.
Proof.
  set (R := sends). assert (P : preorder R) by exact sends_pre.
  assert (W_tfl : forall i n, ht R yes (term_for_log i) n) by (intros; unfold term_for_log; open_prims; wall psend).
  assert (W_snp : forall r a b c n, ht R yes (create_sync_snapshot_req r a b c) n) by (intros; unfold create_sync_snapshot_req; open_prims; wall psend).
  assert (W_cae : forall r n, ht R yes (create_append_entries_req r) n) by (intros; unfold create_append_entries_req; open_prims; wall psend).
  assert (W_rat : forall i n, ht R yes (request_append_entries_to i) n).
  { intros i n. unfold request_append_entries_to, the_peer.
    repeat match goal with
    | |- ht _ _ (bind (create_append_entries_req _) _) _ => eapply ht_bind; [exact _ | apply ht_ends; [apply W_cae | apply cae_bulk] | intros ? ? ? _ _ ?; cbv beta in *]
    | H : bulk ?q |- ht _ _ (send_req _ _ ?q) _ => apply send_proper, bulk_proper, H
    | _ => wstep psend end. }
  assert (W_com : forall i n, ht R yes (commit i) n) by (intros; unfold commit; open_prims; wall psend).
  assert (W_rae : forall n, ht R yes request_append_entries n) by (intros; unfold request_append_entries; open_prims; wall psend).
  assert (W_isl : forall now n, ht R yes (is_leader now) n) by (intros; unfold is_leader; open_prims; wall psend).
  walk_down R psend; walk_reconf R psend; walk_lead R psend; walk_cand R psend; walk_prevote R psend; walk_election R psend; walk_hb R psend;
  walk_reqs R psend; walk_join R psend; walk_leave R psend; walk_process R psend.
  assert (W_aes : forall r n, ht R yes (handle_append_entries_resp r) n) by (intros; unfold handle_append_entries_resp; open_prims; wall psend).
  assert (W_iss : forall r n, ht R yes (handle_install_snapshot_resp r) n) by (intros; unfold handle_install_snapshot_resp; open_prims; wall psend).
  assert (W_vrs : forall r n, ht R yes (handle_voting_resp r) n) by (intros; unfold handle_voting_resp; open_prims; wall psend).
  assert (W_per : forall now r n, ht R yes (handle_peer_resp now r) n) by (intros; unfold handle_peer_resp; open_prims; wall psend).
  assert (W_stn : forall i n, ht R yes (sync_log_to_new_srv i) n).
  { intros i n. unfold sync_log_to_new_srv. apply ht_bget. destruct (_ <? _)%Z; [open_prims; wall psend|].
    unfold the_peer. apply ht_assoc. apply ht_bget. destruct (get_peer PJoin n) as [j|]; [|apply ht_bub; exact _]. apply ht_bret.
    eapply (ht_bind _ _ _ (fun q _ => proper true q)).
    - apply ht_ends; [destruct (_ && _); open_prims; wall psend|].
      destruct (_ && _).
      + intros m q m' l E. apply sync_snp in E. unfold proper. rewrite E. eexists. split; [reflexivity | cbn; tauto].
      + ending ltac:(eexists; split; [reflexivity | cbn; tauto]).
    - intros q m l1 _ _ H. apply send_proper, H. }
  assert (W_rms : forall i n, ht R yes (rm_srv_from_cluster i) n) by (intros; unfold rm_srv_from_cluster, append_config; open_prims; wall psend).
  assert (W_err : forall q n, proper true q -> ht R yes (handle_ext_resp_err q) n) by (intros q n Hq; unfold handle_ext_resp_err; open_prims; wall psend).
  walk_prevote_resp R psend; walk_ext_resp R psend; walk_rest R psend; walk_api R psend.
  assert (W_nam : forall t n, ht R yes (named t) n) by (intros; unfold named; wall psend).
  assert (W_tpr : forall now r n, ht R yes (take_peer_resp now r) n) by (intros; unfold take_peer_resp; wall psend).
  assert (W_ter : forall r n, ht R yes (take_ext_resp r) n) by (intros; unfold take_ext_resp; wall psend).
  assert (W_trq : forall now q n, ht R yes (take_req now q) n) by (intros; unfold take_req; wall psend).
  intros e n x n' l Hc E a Ha.
  assert (K : ht R yes (take_event e) n).
  { destruct e; cbn [take_event run_event own_call] in *; unfold retry; try (wall psend).
    unfold take_rpc. wall psend. cbn [when]. apply W_err, Hc. }
  destruct (K _ _ _ E) as [F _]. unfold R, sends in F. rewrite Forall_forall in F. apply F, Ha.
Qed.
Print Assumptions C91_sends_partial.

(** ** Requests that never stop a server

    vote and pre-vote requests and requests to leave are answered, whatever they
    contain and in whatever state the server is *)
Theorem C91_always_answered_partial : forall now q n,
  rq_type q = vote_request \/ rq_type q = prevote_request \/ rq_type q = leave_cluster_request ->
  exists r n' l, take_event (ERequest now q) n = (ROk (Response r), n', l).
Proof.
  intros now q n H. assert (L : byteN (rq_type q) < 20) by (destruct H as [->|[->| ->]]; vm_compute; reflexivity).
  rewrite C91_same_partial by (intros t K; inversion K; subst; exact L).
  assert (G : exists r n' l, process_req now q n = (ROk r, n', l)).
  { destruct H as [H|[H|H]].
    - rewrite process_vote by exact H. unfold handle_vote_req. rewrite bind_get. destruct (_ && _); eexists; eexists; eexists; reflexivity.
    - rewrite process_prevote by exact H. eexists; eexists; eexists; reflexivity.
    - rewrite process_leave by exact H. unfold handle_leave_cluster_req. rewrite bind_get. destruct (n_changing _); eexists; eexists; eexists; reflexivity. }
  destruct G as (r & n' & l & G). exists r, n', l. apply run_request. exact G.
Qed.
Print Assumptions C91_always_answered_partial.

(** ** Examples: a running leader with two peers *)
Example C91_example :
  n_role ex_l = Leader /\ map p_id (n_peers ex_l) = [2%Z; 3%Z] /\
  (* an answer to a client as a request; a byte that names nothing *)
  take_event (ERequest 0 (mkReq 0 x04 9 1 0 0 0 [])) ex_l = (RExit, ex_l, [AExit (-1)]) /\
  take_event (ERequest 0 (mkReq 0 xff 9 1 0 0 0 [])) ex_l = (RUB OutOfBoundsRead, ex_l, []) /\
  (* the peer answers a heartbeat with an answer for clients *)
  live_ref (p_uid (nth 0 (n_peers ex_l) (new_peer 0 (mkSrv 0 []) ex_prm))) ex_l <> None /\
  ~ waits_for false x09 /\ find_peer 2 (n_peers ex_l) <> None /\
  (* an empty append request of the leader's term from nobody *)
  stopped (take_event (ERequest 0 (mkReq (n_term ex_l) x03 77 1 0 0 0 [])) ex_l) /\
  (* a server that sends something: its election timer fires *)
  existsb (fun a => match a with ASend _ _ _ => true | _ => false end)
    (snd (take_event EElection (up_node (snd (run_cmds 1 ex_prm (Down ex_disk) [CStart]))))) = true.
Proof.
  split; [vm_compute; reflexivity|]. split; [vm_compute; reflexivity|]. split; [vm_compute; reflexivity|]. split; [vm_compute; reflexivity|].
  split; [vm_compute; discriminate|]. split; [cbn; intuition discriminate|]. split; [vm_compute; discriminate|]. split; [vm_compute; exact I|].
  vm_compute. reflexivity.
Qed.
