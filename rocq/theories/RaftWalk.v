(** * RaftWalk: walking through a handler with a relation that every single
      change satisfies *)

From Verif Require Import Base Buffer Codec CodecSpec Msg FsLogStore FsLogSpec Raft RaftQuiet.
Local Open Scope N_scope.

(** a field (or any function of the state) that stays the same *)
Definition keeps {A} (f : node -> A) : rel := fun n _ n' => f n' = f n.
#[global] Instance keeps_pre : forall A (f : node -> A), preorder (keeps f).
Proof. intros A f. split; unfold keeps; intros; congruence. Qed.
(** actions of some kind only *)
Definition acts (P : act -> Prop) : rel := fun _ l _ => Forall P l.
#[global] Instance acts_pre : forall P, preorder (acts P).
Proof. intros P. split; unfold acts; intros; [constructor | apply Forall_app; split; assumption]. Qed.
(** both *)
Definition both (R S : rel) : rel := fun n l n' => R n l n' /\ S n l n'.
#[global] Instance both_pre : forall R S, preorder R -> preorder S -> preorder (both R S).
Proof.
  intros R S PR PS. split; unfold both; intros; [split; apply p_refl|].
  split; [eapply (p_trans (preorder := PR)) | eapply (p_trans (preorder := PS))]; intuition eassumption.
Qed.

Lemma for_each_yes : forall R (P : preorder R) A (l : list A) (f : A -> M unit) n,
  (forall a n, In a l -> ht R yes (f a) n) -> ht R yes (for_each l f) n.
Proof.
  intros R P A. induction l as [|a l IH]; intros f n H; cbn [for_each].
  - apply ht_ret; [exact _ | exact I].
  - eapply ht_seq; [exact _ | apply H; left; reflexivity|]. intros u n1 l1 _ _. apply IH. intros a0 n0 Hin. apply H. right. exact Hin.
Qed.
Lemma ht_yes : forall R A (Q : A -> node -> Prop) (m : M A) n, ht R Q m n -> ht R yes m n.
Proof. intros R A Q m n H r n' l E. destruct (H _ _ _ E) as [H1 _]. split; [exact H1 | intros; exact I]. Qed.

(** one step; [tac] proves that a single change is in the relation *)
Ltac wstep tac :=
  match goal with
  | |- ht _ yes (ret _) _ => apply ht_ret; [exact _ | exact I]
  | |- ht _ yes (throw _) _ => apply ht_throw; exact _
  | |- ht _ yes (ub _) _ => apply ht_ub; exact _
  | |- ht _ yes (system_exit _) _ => apply ht_exit; tac
  | |- ht _ yes (lift _) _ => apply ht_lift; [exact _ | intros; exact I]
  | |- ht _ yes (get _) _ => apply ht_get; [exact _ | exact I]
  | |- ht _ yes (modify _) _ => apply ht_modify; [tac | exact I]
  | |- ht _ yes (emit _) _ => apply ht_emit; [tac | exact I]
  | |- ht _ _ (bind (get _) _) _ => apply ht_bget; cbv beta
  | |- ht _ _ (bind (ret _) _) _ => apply ht_bret; cbv beta
  | |- ht _ _ (bind (bind _ _) _) _ => apply ht_assoc; cbv beta
  | |- ht _ _ (bind (lift _) _) _ => apply ht_blift; [exact _ |]; intros ? ?
  | |- ht _ _ (bind _ _) _ => eapply ht_seq; [exact _ | | intros ? ? ? _ _; cbv beta]
  | |- ht _ yes (for_each _ _) _ => apply for_each_yes; [exact _ | intros ? ? _]
  | |- ht _ yes (when ?b _) _ => destruct b; cbn [when]
  | |- ht _ yes (catch _ _) _ => apply ht_catch; [exact _ | | intros ? ? ? _ _]
  | |- ht _ yes (if ?b then _ else _) _ => destruct b eqn:?
  | |- ht _ yes (match ?x with _ => _ end) _ => destruct x eqn:?
  | |- ht _ yes (let '_ := ?x in _) _ => destruct x eqn:?
  end.
Ltac walk tac := repeat (wstep tac).

(** everything below requests, unfolded *)
Ltac open_send := unfold request_append_entries, commit, request_append_entries_to, create_append_entries_req, create_sync_snapshot_req,
  term_for_log, send_req, the_peer, peer_ids, next_slot_, start_index_, log_term_at, log_entries_.

Lemma term_for_log_keeps : forall A (f : node -> A) i n, ht (keeps f) yes (term_for_log i) n.
Proof. intros A f i n. eapply ht_yes. apply term_for_log_ht; [exact _ | intros; reflexivity]. Qed.

Ltac kp := unfold keeps, upd_peer; repeat match goal with |- context [match ?x with _ => _ end] => destruct x end; reflexivity.

(** no relation at all: for the state reached only *)
Definition any : rel := fun _ _ _ => True.
#[global] Instance any_pre : preorder any.
Proof. split; intros; exact I. Qed.
Lemma any_yes : forall A (m : M A) n, ht any yes m n.
Proof. intros A m n r n' l H. split; [exact I | intros; exact I]. Qed.
Definition keeps_term : rel := fun n _ n' => n_term n' = n_term n.
#[global] Instance keeps_term_pre : preorder keeps_term.
Proof. split; unfold keeps_term; intros; congruence. Qed.

