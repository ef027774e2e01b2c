(** * RaftQuiet: reasoning rules for the server monad, and the sending of
      append-entries requests *)

From Verif Require Import Base Buffer Codec CodecSpec Msg FsLogStore FsLogSpec Raft.
Local Open Scope N_scope.

(** ** Rules

    [ht R Q m n]: running [m] from [n] relates the states and the actions by [R],
    whatever the outcome, and a returned value satisfies [Q]. *)
Definition rel := node -> list act -> node -> Prop.
Definition ht (R : rel) {A} (Q : A -> node -> Prop) (m : M A) (n : node) : Prop :=
  forall r n' l, m n = (r, n', l) -> R n l n' /\ forall a, r = ROk a -> Q a n'.
Definition yes {A} : A -> node -> Prop := fun _ _ => True.

Class preorder (R : rel) := {
  p_refl : forall n, R n [] n;
  p_trans : forall n l n1 l1 n2, R n l n1 -> R n1 l1 n2 -> R n (l ++ l1) n2 }.

Section Rules.
  Context (R : rel) {P : preorder R}.

  Lemma ht_ret : forall A (Q : A -> node -> Prop) (a : A) n, Q a n -> ht R Q (ret a) n.
  Proof.
    intros A Q a n HQ r n' l H. inversion H; subst. split; [apply p_refl|].
    intros a0 E. inversion E; subst. exact HQ.
  Qed.
  Lemma ht_throw : forall A (Q : A -> node -> Prop) e n, ht R Q (throw e) n.
  Proof. intros A Q a n r n' l H. inversion H; subst. split; [apply p_refl | discriminate]. Qed.
  Lemma ht_ub : forall A (Q : A -> node -> Prop) e n, ht R Q (ub e) n.
  Proof. intros A Q a n r n' l H. inversion H; subst. split; [apply p_refl | discriminate]. Qed.
  Lemma ht_lift : forall A (Q : A -> node -> Prop) (x : res A) n, (forall a, x = Ok a -> Q a n) -> ht R Q (lift x) n.
  Proof.
    intros A Q x n HQ r n' l H. unfold lift in H. inversion H; subst. split; [apply p_refl|].
    intros a E. destruct x; inversion E; subst. apply HQ. reflexivity.
  Qed.
  Lemma ht_get : forall A (Q : A -> node -> Prop) (f : node -> A) n, Q (f n) n -> ht R Q (get f) n.
  Proof.
    intros A Q f n HQ r n' l H. inversion H; subst. split; [apply p_refl|].
    intros a E. inversion E; subst. exact HQ.
  Qed.
  Lemma ht_exit : forall A (Q : A -> node -> Prop) c n, R n [AExit c] n -> ht R Q (system_exit c) n.
  Proof. intros A Q c n HR r n' l H. inversion H; subst. split; [exact HR | discriminate]. Qed.
  Lemma ht_modify : forall (Q : unit -> node -> Prop) f n, R n [] (f n) -> Q tt (f n) -> ht R Q (modify f) n.
  Proof.
    intros Q f n HR HQ r n' l H. inversion H; subst. split; [exact HR|].
    intros a E. inversion E; subst. exact HQ.
  Qed.
  Lemma ht_emit : forall (Q : unit -> node -> Prop) a n,
    R n [a] (set_disk (disk_apply (n_disk n) a) n) -> Q tt (set_disk (disk_apply (n_disk n) a) n) ->
    ht R Q (emit a) n.
  Proof.
    intros Q f n HR HQ r n' l H. inversion H; subst. split; [exact HR|].
    intros a E. inversion E; subst. exact HQ.
  Qed.

  Lemma ht_bind : forall A B (Q1 : A -> node -> Prop) (Q : B -> node -> Prop) (m : M A) (f : A -> M B) n,
    ht R Q1 m n -> (forall a n1 l1, m n = (ROk a, n1, l1) -> R n l1 n1 -> Q1 a n1 -> ht R Q (f a) n1) ->
    ht R Q (bind m f) n.
  Proof.
    intros A B Q1 Q m f n Hm Hf r n' l H. unfold bind in H.
    destruct (m n) as [[x n1] l1] eqn:E. destruct (Hm _ _ _ E) as [HR HQ]. destruct x as [a|e|u|].
    - destruct (f a n1) as [[r2 n2] l2] eqn:E2. inversion H; subst.
      destruct (Hf _ _ _ eq_refl HR (HQ _ eq_refl) _ _ _ E2) as [HR2 HQ2].
      split; [eapply p_trans; eassumption | exact HQ2].
    - inversion H; subst. split; [exact HR | discriminate].
    - inversion H; subst. split; [exact HR | discriminate].
    - inversion H; subst. split; [exact HR | discriminate].
  Qed.
  Lemma ht_seq : forall A B (Q : B -> node -> Prop) (m : M A) (f : A -> M B) n,
    ht R yes m n -> (forall a n1 l1, m n = (ROk a, n1, l1) -> R n l1 n1 -> ht R Q (f a) n1) ->
    ht R Q (bind m f) n.
  Proof. intros A B Q m f n H1 H2. eapply ht_bind; [exact H1|]. intros a n1 l1 E HR _. eapply H2; eassumption. Qed.

  Lemma ht_bget : forall A B (Q : B -> node -> Prop) (g : node -> A) (f : A -> M B) n,
    ht R Q (f (g n)) n -> ht R Q (bind (get g) f) n.
  Proof.
    intros A B Q g f n H r n' l E. unfold bind, get in E.
    destruct (f (g n) n) as [[r2 n2] l2] eqn:E2. inversion E; subst. apply (H _ _ _ E2).
  Qed.
  Lemma ht_bret : forall A B (Q : B -> node -> Prop) (a : A) (f : A -> M B) n,
    ht R Q (f a) n -> ht R Q (bind (ret a) f) n.
  Proof.
    intros A B Q a f n H r n' l E. unfold bind, ret in E.
    destruct (f a n) as [[r2 n2] l2] eqn:E2. inversion E; subst. apply (H _ _ _ E2).
  Qed.
  Lemma ht_bmodify : forall B (Q : B -> node -> Prop) g (f : unit -> M B) n,
    R n [] (g n) -> ht R Q (f tt) (g n) -> ht R Q (bind (modify g) f) n.
  Proof.
    intros B Q g f n H1 H2. eapply (ht_bind _ _ (fun _ n1 => n1 = g n)).
    - apply ht_modify; [exact H1 | reflexivity].
    - intros [] n1 l1 _ _ ->. exact H2.
  Qed.
  Lemma ht_bemit : forall B (Q : B -> node -> Prop) a (f : unit -> M B) n,
    R n [a] (set_disk (disk_apply (n_disk n) a) n) ->
    ht R Q (f tt) (set_disk (disk_apply (n_disk n) a) n) -> ht R Q (bind (emit a) f) n.
  Proof.
    intros B Q a f n H1 H2. eapply (ht_bind _ _ (fun _ n1 => n1 = _)).
    - apply ht_emit; [exact H1 | reflexivity].
    - intros [] n1 l1 _ _ ->. exact H2.
  Qed.
  Lemma ht_blift : forall A B (Q : B -> node -> Prop) (x : res A) (f : A -> M B) n,
    (forall a, x = Ok a -> ht R Q (f a) n) -> ht R Q (bind (lift x) f) n.
  Proof.
    intros A B Q x f n H. eapply (ht_bind _ _ (fun a n1 => x = Ok a /\ n1 = n)).
    - apply ht_lift. intros a E. split; [exact E | reflexivity].
    - intros a n1 l1 _ _ [E ->]. apply H. exact E.
  Qed.
  Lemma ht_bthrow : forall A B (Q : B -> node -> Prop) e (f : A -> M B) n, ht R Q (bind (throw e) f) n.
  Proof. intros A B Q e f n r n' l H. inversion H; subst. split; [apply p_refl | discriminate]. Qed.
  Lemma ht_bub : forall A B (Q : B -> node -> Prop) e (f : A -> M B) n, ht R Q (bind (ub e) f) n.
  Proof. intros A B Q e f n r n' l H. inversion H; subst. split; [apply p_refl | discriminate]. Qed.
  Lemma ht_bexit : forall A B (Q : B -> node -> Prop) c (f : A -> M B) n,
    R n [AExit c] n -> ht R Q (bind (system_exit c) f) n.
  Proof. intros A B Q c f n HR r n' l H. inversion H; subst. split; [exact HR | discriminate]. Qed.
  Lemma ht_assoc : forall A B C (Q : C -> node -> Prop) (m : M A) (f : A -> M B) (g : B -> M C) n,
    ht R Q (bind m (fun a => bind (f a) g)) n -> ht R Q (bind (bind m f) g) n.
  Proof.
    intros A B C Q m f g n H r n' l E. apply (H r n' l). rewrite <- E. unfold bind.
    destruct (m n) as [[x n1] l1]. destruct x; try reflexivity.
    destruct (f a n1) as [[x2 n2] l2]. destruct x2; try reflexivity.
    destruct (g a0 n2) as [[x3 n3] l3]. rewrite app_assoc. reflexivity.
  Qed.
  (** the first part is known exactly *)
  Lemma ht_beq : forall A B (Q : B -> node -> Prop) (m : M A) (f : A -> M B) n a n1 l1,
    m n = (ROk a, n1, l1) -> R n l1 n1 -> ht R Q (f a) n1 -> ht R Q (bind m f) n.
  Proof.
    intros A B Q m f n a n1 l1 E H1 H2. eapply (ht_bind _ _ (fun a' n' => a' = a /\ n' = n1)).
    - intros r n' l E'. rewrite E in E'. inversion E'; subst. split; [exact H1|].
      intros a0 E0. inversion E0; subst. split; reflexivity.
    - intros a' n' l' _ _ [-> ->]. exact H2.
  Qed.
  Lemma ht_catch : forall A (Q : A -> node -> Prop) (m h : M A) n,
    ht R Q m n -> (forall e n1 l1, m n = (RThrow e, n1, l1) -> R n l1 n1 -> ht R Q h n1) -> ht R Q (catch m h) n.
  Proof.
    intros A Q m h n Hm Hh r n' l H. unfold catch in H.
    destruct (m n) as [[x n1] l1] eqn:E. destruct (Hm _ _ _ E) as [HR HQ].
    destruct x as [a|e|u|]; try (inversion H; subst; split; [exact HR | exact HQ]).
    destruct (h n1) as [[r2 n2] l2] eqn:E2. inversion H; subst.
    destruct (Hh _ _ _ eq_refl HR _ _ _ E2) as [HR2 HQ2].
    split; [eapply p_trans; eassumption | exact HQ2].
  Qed.
  Lemma ht_when : forall (Q : unit -> node -> Prop) (b : bool) m n,
    (b = true -> ht R Q m n) -> (b = false -> Q tt n) -> ht R Q (when b m) n.
  Proof. intros Q b m n H1 H2. destruct b; [apply H1; reflexivity | apply ht_ret, H2; reflexivity]. Qed.

  Lemma ht_conseq : forall A (Q Q' : A -> node -> Prop) (m : M A) n,
    ht R Q m n -> (forall a l n', R n l n' -> Q a n' -> Q' a n') -> ht R Q' m n.
  Proof.
    intros A Q Q' m n H HQ r n' l E. destruct (H _ _ _ E) as [H1 H2]. split; [exact H1|].
    intros a Ea. eapply HQ; [exact H1 | apply H2, Ea].
  Qed.

  (** loops: an invariant carried along *)
  Lemma ht_for_each : forall A (l : list A) (f : A -> M unit) (I : node -> Prop) n,
    I n ->
    (forall a n, In a l -> I n -> ht R (fun _ => I) (f a) n) ->
    ht R (fun _ => I) (for_each l f) n.
  Proof.
    induction l as [|a l IH]; intros f I n HI Hf.
    - apply ht_ret. exact HI.
    - cbn [for_each]. eapply ht_bind.
      + apply Hf; [left; reflexivity | exact HI].
      + intros u n1 l1 _ _ HI1. apply IH; [exact HI1|].
        intros a0 n0 Hin. apply Hf. right. exact Hin.
  Qed.
End Rules.

(** several changes counted as one: the relation is measured from [n0], with
    the actions [p] already done *)
Definition htp (R : rel) {A} (Q : A -> node -> Prop) (m : M A) (n0 : node) (p : list act) (n : node) : Prop :=
  forall r n' l, m n = (r, n', l) -> R n0 (p ++ l) n' /\ forall a, r = ROk a -> Q a n'.
Section Pending.
  Context (R : rel) {P : preorder R}.
  Lemma htp_start : forall A (Q : A -> node -> Prop) (m : M A) n, htp R Q m n [] n -> ht R Q m n.
  Proof. intros A Q m n H. exact H. Qed.
  Lemma htp_stop : forall A (Q : A -> node -> Prop) (m : M A) n0 p n, R n0 p n -> ht R Q m n -> htp R Q m n0 p n.
  Proof.
    intros A Q m n0 p n HR H r n' l E. destruct (H _ _ _ E) as [H1 H2]. split; [|exact H2].
    eapply p_trans; eassumption.
  Qed.
  Lemma htp_bget : forall A B (Q : B -> node -> Prop) (g : node -> A) (f : A -> M B) n0 p n,
    htp R Q (f (g n)) n0 p n -> htp R Q (bind (get g) f) n0 p n.
  Proof.
    intros A B Q g f n0 p n H r n' l E. unfold bind, get in E.
    destruct (f (g n) n) as [[r2 n2] l2] eqn:E2. inversion E; subst. apply (H _ _ _ E2).
  Qed.
  Lemma htp_bmodify : forall B (Q : B -> node -> Prop) g (f : unit -> M B) n0 p n,
    htp R Q (f tt) n0 p (g n) -> htp R Q (bind (modify g) f) n0 p n.
  Proof.
    intros B Q g f n0 p n H r n' l E. unfold bind, modify in E.
    destruct (f tt (g n)) as [[r2 n2] l2] eqn:E2. inversion E; subst. apply (H _ _ _ E2).
  Qed.
  Lemma htp_bemit : forall B (Q : B -> node -> Prop) a (f : unit -> M B) n0 p n,
    htp R Q (f tt) n0 (p ++ [a]) (set_disk (disk_apply (n_disk n) a) n) ->
    htp R Q (bind (emit a) f) n0 p n.
  Proof.
    intros B Q a f n0 p n H r n' l E. unfold bind, emit in E.
    destruct (f tt (set_disk (disk_apply (n_disk n) a) n)) as [[r2 n2] l2] eqn:E2. inversion E; subst.
    destruct (H _ _ _ E2) as [H1 H2]. rewrite <- app_assoc in H1. split; [exact H1 | exact H2].
  Qed.
  Lemma htp_assoc : forall A B C (Q : C -> node -> Prop) (m : M A) (f : A -> M B) (g : B -> M C) n0 p n,
    htp R Q (bind m (fun a => bind (f a) g)) n0 p n -> htp R Q (bind (bind m f) g) n0 p n.
  Proof.
    intros A B C Q m f g n0 p n H r n' l E. apply (H r n' l). rewrite <- E. unfold bind.
    destruct (m n) as [[x n1] l1]. destruct x; try reflexivity.
    destruct (f a n1) as [[x2 n2] l2]. destruct x2; try reflexivity.
    destruct (g a0 n2) as [[x3 n3] l3]. rewrite app_assoc. reflexivity.
  Qed.
End Pending.
Ltac pstep :=
  match goal with
  | |- htp _ _ (bind (get _) _) _ _ _ => apply htp_bget; cbv beta
  | |- htp _ _ (bind (modify _) _) _ _ _ => apply htp_bmodify; cbv beta
  | |- htp _ _ (bind (emit _) _) _ _ _ => apply htp_bemit; cbv beta; cbn [app]
  | |- htp _ _ (bind (bind _ _) _) _ _ _ => apply htp_assoc; cbv beta
  end.

Lemma ht_rel : forall (R R' : rel) A (Q : A -> node -> Prop) (m : M A) n,
  ht R Q m n -> (forall l n', R n l n' -> R' n l n') -> ht R' Q m n.
Proof. intros R R' A Q m n H HR r n' l E. destruct (H _ _ _ E) as [H1 H2]. split; [apply HR, H1 | exact H2]. Qed.

(** ** Requests a server builds *)

(** the term of the entry before the first one sent: 0 at the very beginning,
    the entry's, or the snapshot's *)
Definition prev_term (n : node) (i : N) (t : N) : Prop :=
  (i = 0 /\ t = 0) \/
  (0 < i /\ al_start (n_log n) <= i /\ exists e, a_get (n_log n) i = Some e /\ ev_term e = t) \/
  (0 < i < al_start (n_log n) /\ exists s, dk_snp (n_disk n) = Some s /\ sn_last_log_idx s = i /\ sn_last_log_term s = t).

(** an append-entries request reflecting the log of [n] *)
Definition ae_msg (n : node) (m : req) : Prop :=
  rq_type m = append_entries_request /\ rq_term m = n_term n /\ rq_src m = n_id n /\
  rq_last_idx m < a_next (n_log n) /\ prev_term n (rq_last_idx m) (rq_last_term m) /\
  rq_last_idx m + lenN (rq_entries m) < a_next (n_log n) /\
  (rq_entries m = [] \/
   al_start (n_log n) <= rq_last_idx m + 1 /\
   rq_entries m = a_range (n_log n) (rq_last_idx m + 1) (rq_last_idx m + 1 + lenN (rq_entries m))).

Definition snp_msg (n : node) (m : req) : Prop :=
  rq_type m = install_snapshot_request /\ rq_term m = n_term n /\ rq_src m = n_id n /\
  1 < al_start (n_log n).

Definition ae_act (n : node) (q : N) (a : act) : Prop :=
  match a with
  | ASend uid ext m =>
      ext = false /\ (ae_msg n m \/ snp_msg n m) /\ rq_commit m <= q /\
      exists p, In p (n_peers n) /\ p_uid p = uid /\ rq_dst m = p_id p
  | AExit _ => True
  | _ => False
  end.

Definition same_obj (p p' : peer) : Prop := p_uid p = p_uid p' /\ p_cfg p = p_cfg p'.
Definition same_opt (p p' : option peer) : Prop :=
  match p, p' with Some p, Some p' => same_obj p p' | None, None => True | _, _ => False end.

(** Only the peers' bookkeeping and the commit index change. *)
Definition quiet : rel := fun n l n' =>
  exists ps q j, n' = set_quick q (set_join j (set_peers ps n)) /\
    n_quick n <= q /\ Forall2 same_obj (n_peers n) ps /\ same_opt (n_join n) j /\
    Forall (ae_act n q) l.

Lemma same_obj_refl : forall l, Forall2 same_obj l l.
Proof. induction l; constructor; [split; reflexivity | exact IHl]. Qed.
Lemma same_opt_refl : forall o, same_opt o o.
Proof. intros [p|]; cbn; [split; reflexivity | exact I]. Qed.
Lemma same_obj_trans : forall a b c, Forall2 same_obj a b -> Forall2 same_obj b c -> Forall2 same_obj a c.
Proof.
  intros a b c H. revert c. induction H; intros c Hc; inversion Hc; subst; constructor.
  - destruct H, H3. split; congruence.
  - apply IHForall2; assumption.
Qed.
Lemma same_opt_trans : forall a b c, same_opt a b -> same_opt b c -> same_opt a c.
Proof.
  intros [a|] [b|] [c|]; cbn; try tauto. intros [? ?] [? ?]. split; congruence.
Qed.
Lemma same_obj_in : forall ps ps' p', Forall2 same_obj ps ps' -> In p' ps' ->
  exists p, In p ps /\ same_obj p p'.
Proof.
  induction 1; intros Hin; [destruct Hin|]. destruct Hin as [->|Hin].
  - exists x. split; [left; reflexivity | assumption].
  - destruct (IHForall2 Hin) as (p & Hp & Hs). exists p. split; [right|]; assumption.
Qed.
Lemma same_obj_ids : forall ps ps', Forall2 same_obj ps ps' -> map p_id ps' = map p_id ps.
Proof.
  induction 1; cbn [map]; [reflexivity|]. destruct H as [H1 H2]. unfold p_id at 1 3. rewrite H2, IHForall2. reflexivity.
Qed.
Lemma same_obj_len : forall ps ps', Forall2 same_obj ps ps' -> length ps' = length ps.
Proof. induction 1; cbn; congruence. Qed.

Lemma quiet_refl : forall n, quiet n [] n.
Proof.
  intros n. exists (n_peers n), (n_quick n), (n_join n).
  split; [destruct n; reflexivity|]. split; [lia|]. split; [apply same_obj_refl|]. split; [apply same_opt_refl|constructor].
Qed.

Lemma ae_act_quiet : forall n q ps j q' a,
  Forall2 same_obj (n_peers n) ps ->
  ae_act (set_quick q (set_join j (set_peers ps n))) q' a -> ae_act n q' a.
Proof.
  intros n q ps j q' a Hps H. destruct a; cbn in *; try assumption.
  destruct H as (H1 & H2 & H3 & p & H4 & H5 & H6). split; [exact H1|]. split; [exact H2|]. split; [exact H3|].
  destruct (same_obj_in _ _ _ Hps H4) as (p0 & Hin & Ha & Hb). exists p0.
  split; [exact Hin|]. split; [congruence|]. unfold p_id in *. congruence.
Qed.

Lemma ae_act_mono : forall n q q' a, q <= q' -> ae_act n q a -> ae_act n q' a.
Proof.
  intros n q q' a Hq H. destruct a; cbn in *; try assumption.
  destruct H as (H1 & H2 & H3 & H4). repeat (split; try assumption). lia.
Qed.

#[global] Instance quiet_pre : preorder quiet.
Proof.
  split; [apply quiet_refl|].
  intros n l n1 l1 n2 (ps & q & j & -> & Hq & Hps & Hj & Hl) (ps1 & q1 & j1 & -> & Hq1 & Hps1 & Hj1 & Hl1).
  cbn in Hq1, Hps1, Hj1.
  exists ps1, q1, j1. split; [reflexivity|]. split; [lia|].
  split; [eapply same_obj_trans; eassumption|]. split; [eapply same_opt_trans; eassumption|].
  apply Forall_app. split.
  - eapply Forall_impl; [|exact Hl]. intros a. apply ae_act_mono. exact Hq1.
  - eapply Forall_impl; [|exact Hl1]. intros a. apply ae_act_quiet. exact Hps.
Qed.

Lemma quiet_upd_peer : forall r f n, (forall p, same_obj p (f p)) -> quiet n [] (upd_peer r f n).
Proof.
  intros r f n Hf. destruct r as [id|]; cbn [upd_peer].
  - exists (upd_peers id f (n_peers n)), (n_quick n), (n_join n).
    split; [destruct n; reflexivity|]. split; [lia|]. split.
    { unfold upd_peers. induction (n_peers n); cbn [map]; constructor; [destruct (p_id a =? id)%Z; [apply Hf | split; reflexivity] | exact IHl]. }
    split; [apply same_opt_refl|constructor].
  - exists (n_peers n), (n_quick n), (option_map f (n_join n)).
    split; [destruct n; reflexivity|]. split; [lia|]. split; [apply same_obj_refl|].
    split; [destruct (n_join n); cbn; [apply Hf | exact I] | constructor].
Qed.

Lemma quiet_log : forall n l n', quiet n l n' -> n_log n' = n_log n /\ n_term n' = n_term n /\ n_id n' = n_id n
  /\ n_role n' = n_role n /\ n_disk n' = n_disk n /\ n_prm n' = n_prm n /\ map p_id (n_peers n') = map p_id (n_peers n).
Proof.
  intros n l n' (ps & q & j & -> & Hq & Hps & Hj & Hl). cbn.
  repeat split. apply same_obj_ids. exact Hps.
Qed.

(** a rule set *)
Ltac hstep :=
  match goal with
  | |- ht _ _ (bind (get _) _) _ => apply ht_bget; cbv beta
  | |- ht _ _ (bind (ret _) _) _ => apply ht_bret; cbv beta
  | |- ht _ _ (bind (throw _) _) _ => apply ht_bthrow; exact _
  | |- ht _ _ (bind (ub _) _) _ => apply ht_bub; exact _
  | |- ht _ _ (bind (lift _) _) _ => apply ht_blift; [exact _ |]; intros ? ?
  | |- ht _ _ (bind (modify _) _) _ => apply ht_bmodify; [exact _ | |]; cbv beta
  | |- ht _ _ (bind (emit _) _) _ => apply ht_bemit; [exact _ | |]; cbv beta
  | |- ht _ _ (bind (system_exit _) _) _ => apply ht_bexit
  | |- ht _ _ (bind (bind _ _) _) _ => apply ht_assoc; cbv beta
  | |- ht _ _ (bind (if ?b then _ else _) _) _ => destruct b eqn:?
  | |- ht _ _ (bind (match ?x with _ => _ end) _) _ => destruct x eqn:?
  | |- ht _ _ (bind (when ?b _) _) _ => unfold when at 1; destruct b eqn:?
  | |- ht _ _ (ret _) _ => apply ht_ret; [exact _ |]
  | |- ht _ _ (throw _) _ => apply ht_throw; exact _
  | |- ht _ _ (ub _) _ => apply ht_ub; exact _
  | |- ht _ _ (lift _) _ => apply ht_lift; [exact _ |]; intros ? ?
  | |- ht _ _ (get _) _ => apply ht_get; [exact _ |]
  | |- ht _ _ (system_exit _) _ => apply ht_exit
  | |- ht _ _ (modify _) _ => apply ht_modify
  | |- ht _ _ (emit _) _ => apply ht_emit
  | |- ht _ _ (when _ _) _ => apply ht_when; [exact _ | intro | intro]
  | |- ht _ _ (if ?b then _ else _) _ => destruct b eqn:?
  | |- ht _ _ (match ?x with _ => _ end) _ => destruct x eqn:?
  | |- ht _ _ (let _ := _ in _) _ => cbv zeta
  end.

Lemma find_peer_in : forall id l p, find_peer id l = Some p -> In p l /\ p_id p = id.
Proof.
  intros id l p H. unfold find_peer in H. apply find_some in H. destruct H as [H1 H2]. split; [exact H1 | lia].
Qed.

Lemma find_peer_upd : forall id f l p, (forall p, p_id (f p) = p_id p) ->
  find_peer id l = Some p -> find_peer id (upd_peers id f l) = Some (f p).
Proof.
  intros id f l p Hf. unfold find_peer, upd_peers. induction l as [|x l IH]; cbn [find map]; [discriminate|].
  destruct (p_id x =? id)%Z eqn:E.
  - intros H. inversion H; subst. rewrite Hf, E. reflexivity.
  - rewrite E. exact IH.
Qed.

Lemma exit_quiet : forall n c, quiet n [AExit c] n.
Proof.
  intros n c. exists (n_peers n), (n_quick n), (n_join n).
  split; [destruct n; reflexivity|]. split; [lia|]. split; [apply same_obj_refl|]. split; [apply same_opt_refl|].
  constructor; [exact I | constructor].
Qed.

Lemma the_peer_ht : forall R (P : preorder R) r n,
  ht R (fun p n' => n' = n /\ get_peer r n = Some p) (the_peer r) n.
Proof.
  intros R P r n. unfold the_peer. hstep. hstep; hstep. split; reflexivity.
Qed.

Lemma term_for_log_ht : forall R (P : preorder R) i n, (forall c, R n [AExit c] n) ->
  ht R (fun t n' => n' = n /\ prev_term n i t) (term_for_log i) n.
Proof.
  intros R P i n HE. unfold term_for_log, start_index_, log_term_at.
  hstep.
  { hstep. split; [reflexivity|]. left. split; [lia | reflexivity]. }
  hstep. hstep.
  - hstep. hstep; [hstep|]. hstep; hstep. split; [reflexivity|]. right. left. split; [lia|]. split; [lia|].
    eexists. split; [eassumption | reflexivity].
  - hstep. hstep.
    + hstep; hstep.
      * split; [reflexivity|]. right. right. split; [lia|]. eexists. split; [eassumption|]. split; [lia | reflexivity].
      * apply HE.
    + hstep. apply HE.
Qed.

Lemma create_sync_snapshot_ht : forall r li t c n,
  ht quiet (fun q n' => rq_type q = install_snapshot_request /\ rq_term q = t /\ rq_src q = n_id n /\ rq_commit q = c /\
                        exists p, get_peer r n = Some p /\ rq_dst q = p_id p)
    (create_sync_snapshot_req r li t c) n.
Proof.
  intros r li t c n. unfold create_sync_snapshot_req.
  eapply ht_bind; [exact _ | apply the_peer_ht; exact _ |]. intros p n1 l1 _ _ [-> Hp].
  repeat first [ hstep | apply exit_quiet ].
  all: try (cbn [rq_type rq_term rq_src rq_commit rq_dst];
            split; [reflexivity|]; split; [reflexivity|]; split; [reflexivity|]; split; [reflexivity|];
            exists p; split; [exact Hp | reflexivity]).
  all: try (apply quiet_upd_peer; intros p1; split; reflexivity).
Qed.

Lemma upd_peer_disk : forall r f n, n_disk (upd_peer r f n) = n_disk n.
Proof. intros [id|] f n; reflexivity. Qed.

Lemma prev_term_disk : forall n n' i t, n_disk n' = n_disk n -> prev_term n i t -> prev_term n' i t.
Proof. intros n n' i t E. unfold prev_term, n_log. rewrite E. exact (fun H => H). Qed.

Lemma ae_msg_disk : forall n n' q, n_disk n' = n_disk n -> n_term n' = n_term n -> n_id n' = n_id n ->
  ae_msg n q -> ae_msg n' q.
Proof.
  intros n n' q E1 E2 E3. unfold ae_msg, n_log. rewrite E1, E2, E3.
  intros (H1 & H2 & H3 & H4 & H5 & H6). repeat (split; [assumption|]). split; [|exact H6].
  apply (prev_term_disk n); [exact E1 | exact H5].
Qed.
Lemma snp_msg_disk : forall n n' q, n_disk n' = n_disk n -> n_term n' = n_term n -> n_id n' = n_id n ->
  snp_msg n q -> snp_msg n' q.
Proof. intros n n' q E1 E2 E3. unfold snp_msg, n_log. rewrite E1, E2, E3. exact (fun H => H). Qed.

Lemma a_range_len : forall l a b, al_start l <= a -> a <= b -> b <= a_next l -> lenN (a_range l a b) = b - a.
Proof.
  intros l a b H1 H2 H3. unfold a_range, a_next, lenN in *. rewrite firstn_length, skipn_length. lia.
Qed.

Lemma create_append_entries_ht : forall r n,
  ht quiet (fun q n' => (ae_msg n q \/ snp_msg n q) /\ rq_commit q = n_quick n /\
                        exists p, get_peer r n = Some p /\ rq_dst q = p_id p)
    (create_append_entries_req r) n.
Proof.
  intros r n. unfold create_append_entries_req.
  eapply ht_bind; [exact _ | apply the_peer_ht; exact _ |]. intros p n1 l1 _ _ [-> Hp].
  hstep. cbv zeta.
  set (cur := a_next (n_log n)).
  set (nxt := if p_next p =? 0 then cur else p_next p).
  eapply (ht_bind _ _ _ (fun _ n1 => n_disk n1 = n_disk n /\ n_term n1 = n_term n /\ n_id n1 = n_id n /\
            exists p', get_peer r n1 = Some p' /\ p_id p' = p_id p)).
  { hstep.
    - hstep.
      + apply quiet_upd_peer. intros x. split; reflexivity.
      + rewrite upd_peer_disk. destruct r as [id|]; cbn [upd_peer get_peer n_term n_id set_peers set_join n_peers n_join] in *.
        * repeat (split; [reflexivity|]). exists (p_set_next cur p). split; [|reflexivity].
          apply find_peer_upd; [reflexivity | exact Hp].
        * repeat (split; [reflexivity|]). rewrite Hp. exists (p_set_next cur p). split; reflexivity.
    - repeat (split; [reflexivity|]). exists p. split; [exact Hp | reflexivity]. }
  intros _ n1 l2 _ _ (E1 & E2 & E3 & p' & Hp' & Eid).
  hstep.
  { hstep. apply exit_quiet. }
  hstep.
  - eapply ht_conseq; [apply create_sync_snapshot_ht|].
    cbv beta. intros q l n' _ (H1 & H2 & H3 & H4 & p2 & H5 & H6).
    split. { right. unfold snp_msg. rewrite H3, E3. repeat (split; [assumption || reflexivity|]). lia. }
    split; [exact H4|]. exists p. split; [exact Hp|]. rewrite Hp' in H5. inversion H5; subst. congruence.
  - eapply ht_bind; [exact _ | apply term_for_log_ht; [exact _ | intros; apply exit_quiet] |].
    intros t n2 l3 _ _ [-> Ht].
    assert (Elog : n_log n1 = n_log n) by (unfold n_log; congruence).
    eapply (ht_bind _ _ _ (fun es n2 => n2 = n1 /\
              (es = [] \/ al_start (n_log n) <= nxt - 1 + 1 /\ nxt - 1 + 1 < cur /\
                          es = a_range (n_log n) (nxt - 1 + 1) (N.min cur (nxt - 1 + 1 + pm_max_append (n_prm n)))))).
    { hstep; [hstep; split; [reflexivity | left; reflexivity]|].
      unfold log_entries_. hstep. rewrite Elog. hstep; hstep. split; [reflexivity|]. right.
      split; [lia|]. split; [lia | reflexivity]. }
    intros es n2 l4 _ _ [-> Hes]. hstep.
    assert (Hlast : nxt - 1 < cur).
    { destruct (cur <=? nxt - 1) eqn:Ex; [discriminate|lia]. }
    cbn [rq_commit rq_dst]. split; [|split; [reflexivity | exists p; split; [exact Hp | reflexivity]]].
    left. unfold ae_msg. cbn [rq_type rq_term rq_src rq_last_idx rq_last_term rq_entries].
    split; [reflexivity|]. split; [reflexivity|]. split; [reflexivity|]. split; [exact Hlast|].
    split; [apply (prev_term_disk n1); [congruence | exact Ht]|].
    destruct Hes as [-> | (G1 & G2 & ->)].
    { split; [change (lenN (@nil entry_val)) with 0; subst cur; lia | left; reflexivity]. }
    rewrite a_range_len by (subst cur; lia).
    split; [subst cur; lia|]. right. split; [lia|]. f_equal. lia.
Qed.

Lemma request_append_entries_to_ht : forall id n,
  ht quiet yes (request_append_entries_to id) n.
Proof.
  intros id n. unfold request_append_entries_to.
  eapply ht_bind; [exact _ | apply the_peer_ht; exact _ |]. intros p n1 l1 _ _ [-> Hp].
  hstep; [hstep; exact I|]. hstep; [apply quiet_upd_peer; split; reflexivity|].
  eapply ht_bind; [exact _ | apply create_append_entries_ht |].
  intros q n1 l2 _ (ps & qk & j & -> & Hq & Hps & Hj & Hl) (Hm & Hc & p0 & Hp0 & Hd).
  unfold send_req. apply ht_assoc. eapply ht_bind; [exact _ | apply the_peer_ht; exact _ |].
  intros p' n2 l3 _ _ [-> Hp'].
  hstep; [|hstep; exact I].
  match goal with |- quiet ?n0 [?a] _ => set (m := n0) end.
  exists (n_peers m), (n_quick m), (n_join m). split; [destruct m; reflexivity|]. split; [lia|].
  split; [apply same_obj_refl|]. split; [apply same_opt_refl|]. constructor; [|constructor].
  cbn [ae_act]. split; [reflexivity|]. split.
  { destruct Hm as [Hm|Hm]; [left | right]; exact Hm. }
  split; [cbn in *; lia|].
  apply find_peer_in in Hp'. exists p'. split; [apply Hp'|]. split; [reflexivity|].
  apply find_peer_in in Hp0. destruct Hp', Hp0. congruence.
Qed.

Lemma request_append_entries_quiet : forall ids n, 
  ht quiet yes (for_each ids (fun id => request_append_entries_to id ;;; ret tt)) n.
Proof.
  intros ids n. apply (ht_for_each _ _ _ _ (fun _ => True)); [exact I|]. intros id n1 _ _.
  apply ht_seq; [exact _ | apply request_append_entries_to_ht |]. intros; hstep; exact I.
Qed.

Lemma commit_ht : forall t n, ht quiet yes (commit t) n.
Proof.
  intros t n. unfold commit, peer_ids. hstep. hstep; [|hstep; exact I].
  hstep.
  { exists (n_peers n), t, (n_join n). split; [destruct n; reflexivity|]. split; [lia|].
    split; [apply same_obj_refl|]. split; [apply same_opt_refl | constructor]. }
  hstep. hstep; try (hstep; exact I). hstep.
  apply (ht_for_each _ _ _ _ (fun _ => True)); [exact I|]. intros id n1 _ _.
  apply ht_seq; [exact _ | apply request_append_entries_to_ht |]. intros sent n2 l2 _ _.
  hstep; [hstep; [apply quiet_upd_peer; split; reflexivity | exact I] | exact I].
Qed.

Lemma request_append_entries_ht : forall n, ht quiet yes request_append_entries n.
Proof.
  intros n. unfold request_append_entries, peer_ids, next_slot_. hstep.
  destruct (map p_id (n_peers n)).
  - hstep. apply commit_ht.
  - apply request_append_entries_quiet.
Qed.
