(** * Wp: outcomes of computations

    [wp Q E X m n]: running [m] in state [n] ends with a value and a state in [Q], or throws
    in a state in [E], or ends the process in a state in [X]. *)

From Verif Require Import Base Buffer Codec Msg FsLogStore FsLogSpec Raft RaftQuiet.
Local Open Scope N_scope.

Definition wp {A} (Q : A -> node -> Prop) (E X : node -> Prop) (m : M A) (n : node) : Prop :=
  forall r n' l, m n = (r, n', l) -> match r with ROk a => Q a n' | RThrow _ => E n' | RUB _ | RExit => X n' end.

Section Rules.
  Context {A B : Type}.
  Variables E X : node -> Prop.
  Lemma wp_ret : forall (Q : A -> node -> Prop) a n, Q a n -> wp Q E X (ret a) n.
  Proof. intros Q a n H r n' l R. inversion R; subst. exact H. Qed.
  Lemma wp_get : forall (Q : A -> node -> Prop) g n, Q (g n) n -> wp Q E X (get g) n.
  Proof. intros Q a n H r n' l R. inversion R; subst. exact H. Qed.
  Lemma wp_throw : forall (Q : A -> node -> Prop) e n, E n -> wp Q E X (throw e) n.
  Proof. intros Q e n H r n' l R. inversion R; subst. exact H. Qed.
  Lemma wp_ub : forall (Q : A -> node -> Prop) u n, X n -> wp Q E X (ub u) n.
  Proof. intros Q u n H r n' l R. inversion R; subst. exact H. Qed.
  Lemma wp_exit : forall (Q : A -> node -> Prop) c n, X n -> wp Q E X (system_exit c) n.
  Proof. intros Q c n H r n' l R. inversion R; subst. exact H. Qed.
  Lemma wp_lift : forall (Q : A -> node -> Prop) x n, match x with Ok a => Q a n | Throw _ => E n | UB _ => X n end -> wp Q E X (lift x) n.
  Proof. intros Q x n H r n' l R. inversion R; subst. destruct x; exact H. Qed.
  Lemma wp_modify : forall (Q : unit -> node -> Prop) f n, Q tt (f n) -> wp Q E X (modify f) n.
  Proof. intros Q f n H r n' l R. inversion R; subst. exact H. Qed.
  Lemma wp_emit : forall (Q : unit -> node -> Prop) a n, Q tt (set_disk (disk_apply (n_disk n) a) n) -> wp Q E X (emit a) n.
  Proof. intros Q f n H r n' l R. inversion R; subst. exact H. Qed.
  Lemma wp_bind : forall (Q : B -> node -> Prop) (m : M A) (f : A -> M B) n,
    wp (fun a n1 => wp Q E X (f a) n1) E X m n -> wp Q E X (bind m f) n.
  Proof.
    intros Q m f n H r n' l R. unfold bind in R. destruct (m n) as [[[a|e|u|] n1] l1] eqn:Em; specialize (H _ _ _ Em); cbn in H.
    - destruct (f a n1) as [[r2 n2] l2] eqn:Ef. specialize (H _ _ _ Ef). inversion R; subst. exact H.
    - inversion R; subst. exact H.
    - inversion R; subst. exact H.
    - inversion R; subst. exact H.
  Qed.
  Lemma wp_catch : forall (Q : A -> node -> Prop) (m h : M A) n,
    wp Q (fun n1 => wp Q E X h n1) X m n -> wp Q E X (catch m h) n.
  Proof.
    intros Q m h n H r n' l R. unfold catch in R. destruct (m n) as [[[a|e|u|] n1] l1] eqn:Em; specialize (H _ _ _ Em); cbn in H.
    - inversion R; subst. exact H.
    - destruct (h n1) as [[r2 n2] l2] eqn:Ef. specialize (H _ _ _ Ef). inversion R; subst. exact H.
    - inversion R; subst. exact H.
    - inversion R; subst. exact H.
  Qed.
End Rules.
Lemma wp_when : forall (E X : node -> Prop) (Q : unit -> node -> Prop) b m n, (b = true -> wp Q E X m n) -> (b = false -> Q tt n) -> wp Q E X (when b m) n.
Proof. intros E X Q [|] m n H1 H2; cbn [when]; [apply H1, eq_refl | apply wp_ret, H2, eq_refl]. Qed.
Lemma wp_for_each : forall A (E X : node -> Prop) (I : node -> Prop) (l : list A) f n, (forall x n, In x l -> I n -> wp (fun _ => I) E X (f x) n) -> I n -> wp (fun _ => I) E X (for_each l f) n.
Proof.
  intros A E X I l f. induction l as [|x l IH]; intros n H H0; cbn [for_each].
  - apply wp_ret, H0.
  - intros r n' a R. revert r n' a R. change (wp (fun _ => I) E X (f x ;;; for_each l f) n).
    intros r n' a R. unfold bind in R. destruct (f x n) as [[[u|e|u|] n1] l1] eqn:Em; assert (K := H x n (or_introl eq_refl) H0 _ _ _ Em); cbn in K.
    + destruct (for_each l f n1) as [[r2 n2] l2] eqn:Ef. assert (K2 := IH n1 (fun y m Hy => H y m (or_intror Hy)) K _ _ _ Ef). inversion R; subst. exact K2.
    + inversion R; subst. exact K.
    + inversion R; subst. exact K.
    + inversion R; subst. exact K.
Qed.

Lemma wp_mono : forall A (Q Q' : A -> node -> Prop) (E E' X X' : node -> Prop) m n,
  (forall a n, Q a n -> Q' a n) -> (forall n, E n -> E' n) -> (forall n, X n -> X' n) -> wp Q E X m n -> wp Q' E' X' m n.
Proof. intros A Q Q' E E' X X' m n H1 H2 H3 H r n' l R. specialize (H _ _ _ R). destruct r; auto. Qed.
(** from a relation *)
Lemma wp_ht : forall R A (m : M A) n (Q : A -> node -> Prop) (E X : node -> Prop), ht R yes m n ->
  (forall l n', R n l n' -> (forall a, Q a n') /\ E n' /\ X n') -> wp Q E X m n.
Proof. intros R A m n Q E X H K r n' l Er. destruct (H _ _ _ Er) as [H1 _]. destruct (K _ _ H1) as (K1 & K2 & K3). destruct r; auto. Qed.
Lemma wp_eq : forall A (Q : A -> node -> Prop) E X (m : M A) n a n' l, m n = (ROk a, n', l) -> Q a n' -> wp Q E X m n.
Proof. intros A Q E X m n a n' l H K r n2 l2 R. rewrite H in R. inversion R; subst. exact K. Qed.

(** one step of a computation *)
Ltac wps :=
  match goal with
  | |- wp _ _ _ (ret _) _ => apply wp_ret
  | |- wp _ _ _ (get _) _ => apply wp_get
  | |- wp _ _ _ (throw _) _ => apply wp_throw
  | |- wp _ _ _ (ub _) _ => apply wp_ub
  | |- wp _ _ _ (system_exit _) _ => apply wp_exit
  | |- wp _ _ _ (lift _) _ => apply wp_lift
  | |- wp _ _ _ (modify _) _ => apply wp_modify
  | |- wp _ _ _ (emit _) _ => apply wp_emit
  | |- wp _ _ _ (bind _ _) _ => apply wp_bind
  | |- wp _ _ _ (catch _ _) _ => apply wp_catch
  | |- wp _ _ _ (when _ _) _ => apply wp_when; intros ?
  end; cbv beta.
