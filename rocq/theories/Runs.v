(** * Runs: computations that end with a value

    [runs Q m n]: running [m] in state [n] ends with a value, a state and a list of
    actions in [Q].  Facts about peers. *)

From Verif Require Import Base Buffer Codec Msg FsLogStore FsLogSpec Raft.
Local Open Scope N_scope.

Definition runs {A} (Q : A -> node -> list act -> Prop) (m : M A) (n : node) : Prop :=
  exists a n' l, m n = (ROk a, n', l) /\ Q a n' l.

Section Rules.
  Context {A B : Type}.
  Lemma runs_ret : forall (Q : A -> node -> list act -> Prop) a n, Q a n [] -> runs Q (ret a) n.
  Proof. intros Q a n H. exists a, n, []. split; [reflexivity | exact H]. Qed.
  Lemma runs_get : forall (Q : A -> node -> list act -> Prop) g n, Q (g n) n [] -> runs Q (get g) n.
  Proof. intros Q g n H. exists (g n), n, []. split; [reflexivity | exact H]. Qed.
  Lemma runs_lift : forall (Q : A -> node -> list act -> Prop) x a n, x = Ok a -> Q a n [] -> runs Q (lift x) n.
  Proof. intros Q x a n -> H. exists a, n, []. split; [reflexivity | exact H]. Qed.
  Lemma runs_modify : forall (Q : unit -> node -> list act -> Prop) f n, Q tt (f n) [] -> runs Q (modify f) n.
  Proof. intros Q f n H. exists tt, (f n), []. split; [reflexivity | exact H]. Qed.
  Lemma runs_emit : forall (Q : unit -> node -> list act -> Prop) a n, Q tt (set_disk (disk_apply (n_disk n) a) n) [a] -> runs Q (emit a) n.
  Proof. intros Q f n H. eexists tt, _, [f]. split; [reflexivity | exact H]. Qed.
  Lemma runs_bind : forall (Q : B -> node -> list act -> Prop) (m : M A) (f : A -> M B) n,
    runs (fun a n1 l1 => runs (fun b n2 l2 => Q b n2 (l1 ++ l2)) (f a) n1) m n -> runs Q (bind m f) n.
  Proof.
    intros Q m f n (a & n1 & l1 & E & b & n2 & l2 & E2 & H). exists b, n2, (l1 ++ l2). split; [|exact H].
    unfold bind. rewrite E, E2. reflexivity.
  Qed.
  Lemma runs_catch : forall (Q : A -> node -> list act -> Prop) (m h : M A) n, runs Q m n -> runs Q (catch m h) n.
  Proof. intros Q m h n (a & n1 & l1 & E & H). exists a, n1, l1. split; [|exact H]. unfold catch. rewrite E. reflexivity. Qed.
  Lemma runs_mono : forall (Q Q' : A -> node -> list act -> Prop) m n, (forall a n l, Q a n l -> Q' a n l) -> runs Q m n -> runs Q' m n.
  Proof. intros Q Q' m n K (a & n1 & l1 & E & H). exists a, n1, l1. auto. Qed.
  Lemma runs_eq : forall (Q : A -> node -> list act -> Prop) (m : M A) n a n' l, m n = (ROk a, n', l) -> Q a n' l -> runs Q m n.
  Proof. intros. eexists _, _, _. eauto. Qed.
End Rules.
Lemma runs_when : forall (Q : unit -> node -> list act -> Prop) b m n, (b = true -> runs Q m n) -> (b = false -> Q tt n []) -> runs Q (when b m) n.
Proof. intros Q [|] m n H1 H2; cbn [when]; [apply H1, eq_refl | apply runs_ret, H2, eq_refl]. Qed.

(** one step *)
Ltac rs :=
  match goal with
  | |- runs _ (ret _) _ => apply runs_ret
  | |- runs _ (get _) _ => apply runs_get
  | |- runs _ (modify _) _ => apply runs_modify
  | |- runs _ (emit _) _ => apply runs_emit
  | |- runs _ (bind _ _) _ => apply runs_bind
  | |- runs _ (when _ _) _ => apply runs_when; intros ?
  end; cbv beta.

(** ** Peers *)
Lemma find_upd : forall id f l, (forall p, p_id (f p) = p_id p) -> find_peer id (upd_peers id f l) = option_map f (find_peer id l).
Proof.
  intros id f l H. unfold find_peer, upd_peers. induction l as [|p l IH]; cbn [map find]; [reflexivity|].
  destruct (p_id p =? id)%Z eqn:E; [rewrite H, E; reflexivity | rewrite E; exact IH].
Qed.
Lemma find_upd_other : forall id id' f l, id <> id' -> (forall p, p_id (f p) = p_id p) -> find_peer id (upd_peers id' f l) = find_peer id l.
Proof.
  intros id id' f l D H. unfold find_peer, upd_peers. induction l as [|p l IH]; cbn [map find]; [reflexivity|].
  destruct (p_id p =? id')%Z eqn:E.
  - rewrite H. apply Z.eqb_eq in E. destruct (p_id p =? id)%Z eqn:E2; [apply Z.eqb_eq in E2; congruence | exact IH].
  - destruct (p_id p =? id)%Z; [reflexivity | exact IH].
Qed.
Lemma find_peer_id : forall id l p, find_peer id l = Some p -> p_id p = id.
Proof. intros id l p H. apply find_some in H. apply Z.eqb_eq, (proj2 H). Qed.
Lemma uid_upd : forall uid id f l, (forall p, p_id (f p) = p_id p) -> (forall p, p_uid (f p) = p_uid p) ->
  option_map p_id (find (fun p => p_uid p =? uid) (upd_peers id f l)) = option_map p_id (find (fun p => p_uid p =? uid) l).
Proof.
  intros uid id f l H K. unfold upd_peers. induction l as [|p l IH]; cbn [map find]; [reflexivity|].
  assert (E : p_uid (if (p_id p =? id)%Z then f p else p) = p_uid p) by (destruct (_ =? _)%Z; auto). rewrite E.
  destruct (p_uid p =? uid); [|exact IH]. cbn [option_map]. destruct (_ =? _)%Z; rewrite ?H; reflexivity.
Qed.
Lemma live_upd : forall uid id f n, (forall p, p_id (f p) = p_id p) -> (forall p, p_uid (f p) = p_uid p) ->
  live_ref uid (upd_peer (PPeer id) f n) = live_ref uid n.
Proof.
  intros uid id f n H K. unfold live_ref, upd_peer. cbn [n_peers set_peers n_join].
  assert (E := uid_upd uid id f (n_peers n) H K).
  destruct (find _ (upd_peers id f (n_peers n))) as [p|], (find _ (n_peers n)) as [p'|]; cbn [option_map] in E; congruence.
Qed.
