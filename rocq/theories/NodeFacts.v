(** * NodeFacts: exact results of handlers *)

From Verif Require Import Base Buffer Codec CodecSpec Msg FsLogStore FsLogSpec Alog Raft ServerSpec.
Local Open Scope N_scope.

Lemma update_term_eq : forall t n,
  update_term t n = if n_term n <? t then (ROk true, with_term t n, arrived_acts t n) else (ROk false, n, []).
Proof.
  intros t n. unfold arrived_acts. destruct n as [x1 x2 x3 x4 x5 x6 x7 x8 x9 x10 x11 x12 x13 x14 x15 x16 x17 x18 x19 x20 x21 x22 x23 x24 x25]. unfold update_term. cbv beta iota delta [bind get]. cbn [n_term].
  destruct (_ <? t); [|reflexivity]. 
  unfold become_follower, save_state, restart_election_timer, bind, get, modify, emit, ret, with_term.
  cbn. destruct x12; cbn; rewrite ?orb_true_r, ?orb_false_r; reflexivity.
Qed.

Definition after {A} (l : list act) (x : rout A * node * list act) : rout A * node * list act :=
  (fst (fst x), snd (fst x), l ++ snd x).
Lemma after_nil : forall A (x : rout A * node * list act), after [] x = x.
Proof. intros A [[r n] l]. reflexivity. Qed.

Lemma bind_ok : forall A B (m : M A) (f : A -> M B) n a n1 l1, m n = (ROk a, n1, l1) -> bind m f n = after l1 (f a n1).
Proof. intros A B m f n a n1 l1 E. unfold bind. rewrite E. destruct (f a n1) as [[r n2] l2]. reflexivity. Qed.
Lemma bind_get : forall A B (g : node -> A) (f : A -> M B) n, bind (get g) f n = f (g n) n.
Proof. intros. rewrite (bind_ok _ _ _ _ n (g n) n []) by reflexivity. apply after_nil. Qed.
Lemma bind_ret : forall A B (a : A) (f : A -> M B) n, bind (ret a) f n = f a n.
Proof. intros. rewrite (bind_ok _ _ _ _ n a n []) by reflexivity. apply after_nil. Qed.
Lemma bind_modify : forall B g (f : unit -> M B) n, bind (modify g) f n = f tt (g n).
Proof. intros. rewrite (bind_ok _ _ _ _ n tt (g n) []) by reflexivity. apply after_nil. Qed.
Lemma bind_emit : forall B a (f : unit -> M B) n, bind (emit a) f n = after [a] (f tt (set_disk (disk_apply (n_disk n) a) n)).
Proof. intros. rewrite (bind_ok _ _ _ _ n tt (set_disk (disk_apply (n_disk n) a) n) [a]) by reflexivity. reflexivity. Qed.
Lemma bind_assoc : forall A B C (m : M A) (f : A -> M B) (g : B -> M C) n, bind (bind m f) g n = bind m (fun a => bind (f a) g) n.
Proof.
  intros. unfold bind. destruct (m n) as [[x n1] l1]. destruct x; try reflexivity.
  destruct (f a n1) as [[x2 n2] l2]. destruct x2; try reflexivity.
  destruct (g a0 n2) as [[x3 n3] l3]. rewrite app_assoc. reflexivity.
Qed.
Lemma after_after : forall A l1 l2 (x : rout A * node * list act), after l1 (after l2 x) = after (l1 ++ l2) x.
Proof. intros A l1 l2 [[r n] l]. unfold after. cbn. rewrite app_assoc. reflexivity. Qed.
Lemma bind_after : forall A B (m : M A) (f : A -> M B) n r n1 l1,
  m n = (r, n1, l1) -> (forall a, r <> ROk a) -> exists r', bind m f n = (r', n1, l1) /\ forall b, r' <> ROk b.
Proof.
  intros A B m f n r n1 l1 E H. unfold bind. rewrite E. destruct r; [destruct (H a eq_refl)| | |]; (eexists; split; [reflexivity|discriminate]).
Qed.

Definition peer_type (t : byte) : bool :=
  beq t append_entries_request || beq t vote_request || beq t install_snapshot_request.

Lemma beq_refl : forall b, beq b b = true.
Proof. intros b. unfold beq. apply Byte.byte_dec_lb. reflexivity. Qed.

Lemma process_peer_req : forall now q n, peer_type (rq_type q) = true ->
  process_req now q n = after (arrived_acts (rq_term q) n)
    ((if beq (rq_type q) append_entries_request then handle_append_entries q
      else if beq (rq_type q) vote_request then handle_vote_req q
      else handle_install_snapshot_req q) (arrived (rq_term q) n)).
Proof.
  intros now q n H. unfold process_req. unfold peer_type in H. rewrite H. cbn [when].
  rewrite bind_assoc. unfold arrived.
  assert (U := update_term_eq (rq_term q) n).
  assert (A : arrived_acts (rq_term q) n = if n_term n <? rq_term q then arrived_acts (rq_term q) n else [])
    by (unfold arrived_acts; destruct (_ <? _); reflexivity).
  rewrite A. clear A.
  destruct (n_term n <? rq_term q); rewrite (bind_ok _ _ _ _ _ _ _ _ U); f_equal; rewrite bind_assoc, bind_get.
  - destruct (0 <? n_steps (with_term (rq_term q) n))%Z; cbn [when]; rewrite ?bind_modify, ?bind_ret;
      (destruct (beq (rq_type q) append_entries_request); [reflexivity|];
       destruct (beq (rq_type q) vote_request); [reflexivity|]);
      unfold handle_extended_msg, beq in *; apply Byte.byte_dec_bl in H; rewrite H; reflexivity.
  - destruct (0 <? n_steps n)%Z; cbn [when]; rewrite ?bind_modify, ?bind_ret;
      (destruct (beq (rq_type q) append_entries_request); [reflexivity|];
       destruct (beq (rq_type q) vote_request); [reflexivity|]);
      unfold handle_extended_msg, beq in *; apply Byte.byte_dec_bl in H; rewrite H; reflexivity.
Qed.

Lemma process_other_req : forall now q n, peer_type (rq_type q) = false ->
  process_req now q n = (if beq (rq_type q) client_request then handle_cli_req now q else handle_extended_msg q) n.
Proof.
  intros now q n H. unfold process_req. unfold peer_type in H. rewrite H. cbn [when]. rewrite bind_ret.
  apply orb_false_iff in H. destruct H as [H _]. apply orb_false_iff in H. destruct H as [H1 H2]. rewrite H1, H2. reflexivity.
Qed.
Lemma process_cli_req : forall now q n, rq_type q = client_request -> process_req now q n = handle_cli_req now q n.
Proof. intros now q n H. rewrite process_other_req; rewrite H; reflexivity. Qed.
Lemma process_prevote : forall now q n, rq_type q = prevote_request -> process_req now q n = handle_prevote_req q n.
Proof. intros now q n H. rewrite process_other_req; [unfold handle_extended_msg|]; rewrite H; reflexivity. Qed.
Lemma process_add : forall now q n, rq_type q = add_server_request -> process_req now q n = handle_add_srv_req q n.
Proof. intros now q n H. rewrite process_other_req; [unfold handle_extended_msg|]; rewrite H; reflexivity. Qed.
Lemma process_rm : forall now q n, rq_type q = remove_server_request -> process_req now q n = handle_rm_srv_req q n.
Proof. intros now q n H. rewrite process_other_req; [unfold handle_extended_msg|]; rewrite H; reflexivity. Qed.
Lemma process_sync : forall now q n, rq_type q = sync_log_request -> process_req now q n = handle_log_sync_req q n.
Proof. intros now q n H. rewrite process_other_req; [unfold handle_extended_msg|]; rewrite H; reflexivity. Qed.
Lemma process_join : forall now q n, rq_type q = join_cluster_request -> process_req now q n = handle_join_cluster_req q n.
Proof. intros now q n H. rewrite process_other_req; [unfold handle_extended_msg|]; rewrite H; reflexivity. Qed.
Lemma process_leave : forall now q n, rq_type q = leave_cluster_request -> process_req now q n = handle_leave_cluster_req q n.
Proof. intros now q n H. rewrite process_other_req; [unfold handle_extended_msg|]; rewrite H; reflexivity. Qed.
Lemma process_ae : forall now q n, rq_type q = append_entries_request ->
  process_req now q n = after (arrived_acts (rq_term q) n) (handle_append_entries q (arrived (rq_term q) n)).
Proof. intros now q n H. rewrite process_peer_req; rewrite H; reflexivity. Qed.
Lemma process_vote : forall now q n, rq_type q = vote_request ->
  process_req now q n = after (arrived_acts (rq_term q) n) (handle_vote_req q (arrived (rq_term q) n)).
Proof. intros now q n H. rewrite process_peer_req; rewrite H; reflexivity. Qed.
Lemma process_install : forall now q n, rq_type q = install_snapshot_request ->
  process_req now q n = after (arrived_acts (rq_term q) n) (handle_install_snapshot_req q (arrived (rq_term q) n)).
Proof. intros now q n H. rewrite process_peer_req; rewrite H; reflexivity. Qed.
Lemma run_request : forall now q n r n' l,
  run_event (ERequest now q) n = (ROk (Response r), n', l) <-> process_req now q n = (ROk r, n', l).
Proof.
  intros now q n r n' l. cbn [run_event]. unfold bind, ret. destruct (process_req now q n) as [[x n1] l1].
  destruct x; (split; intros H; inversion H; subst; rewrite ?app_nil_r; reflexivity).
Qed.
