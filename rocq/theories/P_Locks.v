(** C89: the threads of a server never block each other for ever. *)
From Coq Require Import NArith List Bool Lia.
From Verif Require Import Locks.
Import ListNotations.

(** * Specification *)

(** The thread [t] can go on even if the reader-writer lock is as unhelpful
    as it may be: a reader is kept out as soon as a writer waits. *)
Definition can_go_on (others : list thread) (t : thread) : Prop :=
  (exists t', move others t t') /\
  (forall r, todo t = Acq PeersR :: r ->
     forall u s, In u others -> todo u <> Acq PeersW :: s).

(** * The discipline *)

Definition leaf1 (l : lock) : Prop := match l with Peer _ | Clients => True | _ => False end.

(** what a thread that holds [h] may take *)
Definition allowed (h : list lock) (l : lock) : Prop :=
  match l with
  | Main => (forall k, In k h -> ~ leaf1 k) /\ ~ In Store h /\ (In Main h \/ h = [])
  | PeersR => (forall k, In k h -> ~ leaf1 k) /\ ~ In Store h /\ ~ In PeersW h /\ (In Main h \/ ~ In PeersR h)
  | PeersW => (forall k, In k h -> ~ leaf1 k) /\ ~ In Store h /\ In Main h /\ ~ In PeersW h /\ ~ In PeersR h
  | Peer _ | Clients => (forall k, In k h -> ~ leaf1 k) /\ ~ In Store h
  | Store => True
  end.

Fixpoint okt (h : list lock) (w : list op) : Prop :=
  match w with
  | [] => h = []
  | Acq l :: r => allowed h l /\ okt (l :: h) r
  | Rel l :: r => match h with k :: h' => k = l /\ okt h' r | [] => False end
  end.

(** The same, decided on skeletons: m, r, w: lock_, peers_lock_ shared,
    exclusive held; lv: 0 no leaf, 1 a peer's lock or the clients', 2 the
    store's. *)
Record ctx := { cm : bool; cr : bool; cw : bool; c1 : bool; cs : bool }.

Definition may (c : ctx) (l : lock) : bool :=
  match l with
  | Main => negb (c1 c) && negb (cs c) && (cm c || (negb (cr c) && negb (cw c)))
  | PeersR => negb (c1 c) && negb (cs c) && negb (cw c) && (cm c || negb (cr c))
  | PeersW => negb (c1 c) && negb (cs c) && cm c && negb (cw c) && negb (cr c)
  | Peer _ | Clients => negb (c1 c) && negb (cs c)
  | Store => true
  end.

Definition into (c : ctx) (l : lock) : ctx :=
  match l with
  | Main => {| cm := true; cr := cr c; cw := cw c; c1 := c1 c; cs := cs c |}
  | PeersR => {| cm := cm c; cr := true; cw := cw c; c1 := c1 c; cs := cs c |}
  | PeersW => {| cm := cm c; cr := cr c; cw := true; c1 := c1 c; cs := cs c |}
  | Peer _ | Clients => {| cm := cm c; cr := cr c; cw := cw c; c1 := true; cs := cs c |}
  | Store => {| cm := cm c; cr := cr c; cw := cw c; c1 := c1 c; cs := true |}
  end.

Fixpoint chk (c : ctx) (a : sk) : bool :=
  match a with
  | Nop => true
  | Seq a b => chk c a && chk c b
  | Alt a b => chk c a && chk c b
  | Loop a => chk c a
  | With l a => may c l && chk (into c l) a
  | WithPeer a => may c (Peer 0) && chk (into c (Peer 0)) a
  end.

Definition top_ctx : ctx := {| cm := false; cr := false; cw := false; c1 := false; cs := false |}.

(** [c] describes what is held *)
Definition describes (c : ctx) (h : list lock) : Prop :=
  (cm c = true <-> In Main h) /\ (cr c = true <-> In PeersR h) /\ (cw c = true <-> In PeersW h) /\
  (c1 c = true <-> exists k, In k h /\ leaf1 k) /\ (cs c = true <-> In Store h).

Lemma describes_into : forall c h l, describes c h -> describes (into c l) (l :: h).
Proof.
  intros c h l (A & B & C & D & E).
  unfold describes.
  destruct l; simpl;
    (split; [|split; [|split; [|split]]]);
    try (split; [intros _; first [left; reflexivity | eexists; split; [left; reflexivity | exact I]] | intros _; reflexivity]);
    try (first [rewrite A | rewrite B | rewrite C | rewrite E]; split; [intros K; right; exact K | intros [K|K]; [discriminate K | exact K]]);
    try (rewrite D; split; [intros (k & K1 & K2); exists k; split; [right; exact K1 | exact K2]
                           | intros (k & [K1|K1] & K2); [subst k; destruct K2 | exists k; split; assumption]]).
Qed.

Lemma not_true : forall b, negb b = true -> b <> true.
Proof. destruct b; simpl; congruence. Qed.

Lemma may_allowed : forall c h l, describes c h -> may c l = true -> allowed h l.
Proof.
  intros c h l (A & B & C & D & E) M.
  assert (LF : negb (c1 c) = true -> forall k, In k h -> ~ leaf1 k).
  { intros K k HI HL. apply not_true in K. apply K. apply D. exists k. split; assumption. }
  assert (ST : negb (cs c) = true -> ~ In Store h).
  { intros K HI. apply not_true in K. apply K. apply E. exact HI. }
  assert (WR : negb (cw c) = true -> ~ In PeersW h).
  { intros K HI. apply not_true in K. apply K. apply C. exact HI. }
  assert (RD : negb (cr c) = true -> ~ In PeersR h).
  { intros K HI. apply not_true in K. apply K. apply B. exact HI. }
  destruct l; simpl in M; rewrite ?andb_true_iff, ?orb_true_iff, ?andb_true_iff in M; simpl.
  - destruct M as [[M1 M2] M3]. split; [apply LF; exact M1|]. split; [apply ST; exact M2|].
    destruct M3 as [M3|[M3 M4]]; [left; apply A; exact M3|].
    destruct (In_dec (fun x y : lock => ltac:(decide equality; apply N.eq_dec)) Main h) as [K|K]; [left; exact K|].
    right. destruct h as [|k r]; [reflexivity|]. exfalso.
    destruct k.
    + apply K. left. reflexivity.
    + apply (RD M3). left. reflexivity.
    + apply (WR M4). left. reflexivity.
    + apply (LF M1 (Peer p)); [left; reflexivity | exact I].
    + apply (LF M1 Clients); [left; reflexivity | exact I].
    + apply (ST M2). left. reflexivity.
  - destruct M as [[[M1 M2] M3] M4]. split; [apply LF; exact M1|]. split; [apply ST; exact M2|].
    split; [apply WR; exact M3|]. destruct M4 as [M4|M4]; [left; apply A; exact M4 | right; apply RD; exact M4].
  - destruct M as [[[[M1 M2] M3] M4] M5]. split; [apply LF; exact M1|]. split; [apply ST; exact M2|].
    split; [apply A; exact M3|]. split; [apply WR; exact M4 | apply RD; exact M5].
  - destruct M as [M1 M2]. split; [apply LF; exact M1 | apply ST; exact M2].
  - destruct M as [M1 M2]. split; [apply LF; exact M1 | apply ST; exact M2].
  - exact I.
Qed.

Lemma chk_okt : forall a w, tr a w -> forall c h r,
  describes c h -> chk c a = true -> okt h r -> okt h (w ++ r).
Proof.
  intros a w T; induction T; intros c h r DS CK OK; simpl in CK.
  - exact OK.
  - apply andb_true_iff in CK. destruct CK. rewrite <- app_assoc. eapply IHT1; eauto.
  - apply andb_true_iff in CK. destruct CK. eapply IHT; eauto.
  - apply andb_true_iff in CK. destruct CK. eapply IHT; eauto.
  - apply andb_true_iff in CK. destruct CK. eapply IHT; eauto.
  - exact OK.
  - rewrite <- app_assoc. eapply IHT1; eauto.
  - apply andb_true_iff in CK. destruct CK as [C1 C2]. simpl. split; [eapply may_allowed; eauto|].
    rewrite <- app_assoc. eapply IHT; [apply describes_into; exact DS | exact C2|].
    simpl. split; [reflexivity | exact OK].
  - apply andb_true_iff in CK. destruct CK as [C1 C2].
    change ((Acq (Peer p) :: u ++ [Rel (Peer p)]) ++ r) with (Acq (Peer p) :: (u ++ [Rel (Peer p)]) ++ r).
    simpl. split; [exact (may_allowed c h (Peer p) DS C1)|].
    rewrite <- app_assoc. eapply IHT; [exact (describes_into c h (Peer p) DS) | exact C2|].
    simpl. split; [reflexivity | exact OK].
Qed.

Lemma entry_points_ok : chk top_ctx (Loop entry_points) = true.
Proof. vm_compute. reflexivity. Qed.

Lemma entry_okt : forall w, tr (Loop entry_points) w -> okt [] w.
Proof.
  intros w T. rewrite <- (app_nil_r w). eapply chk_okt; [exact T | | exact entry_points_ok | reflexivity].
  unfold describes, top_ctx; simpl. repeat split; try discriminate; try contradiction.
  intros (k & [] & _).
Qed.

(** * The invariant *)

(** what is held was taken in an allowed order *)
Fixpoint hwf (h : list lock) : Prop :=
  match h with [] => True | l :: r => allowed r l /\ hwf r end.

(** two different threads hold the same or conflicting locks only if both
    read *)
Definition apart2 (t u : thread) : Prop :=
  forall l, In l (held t) ->
    (l <> PeersR -> ~ In l (held u)) /\ (l = PeersR -> ~ In PeersW (held u)) /\ (l = PeersW -> ~ In PeersR (held u)).

Record inv (ts : list thread) : Prop := {
  inv_ok : forall t, In t ts -> okt (held t) (todo t) /\ hwf (held t);
  inv_apart : ForallOrdPairs apart2 ts
}.

Lemma apart2_sym : forall t u, apart2 t u -> apart2 u t.
Proof.
  intros t u A l HI. split; [|split].
  - intros N HT. destruct (A l HT) as (K & _ & _). exact (K N HI).
  - intros -> HT. destruct (A PeersW HT) as (_ & _ & K). exact (K eq_refl HI).
  - intros -> HT. destruct (A PeersR HT) as (_ & K & _). exact (K eq_refl HI).
Qed.

Lemma move_apart : forall others t t' u,
  move others t t' -> In u others -> apart2 t u -> apart2 t' u.
Proof.
  intros others t t' u M HI A. destruct M as [l r h F | l r h]; unfold apart2 in *; simpl in *.
  - intros k [K|K]; [subst k | apply A; exact K].
    destruct l; simpl in F.
    + split; [intros _; apply F; exact HI | split; discriminate].
    + split; [congruence | split; [intros _; apply (proj2 F); exact HI | discriminate]].
    + destruct F as (_ & _ & F). destruct (F u HI) as [F1 F2].
      split; [intros _; exact F1 | split; [discriminate | intros _; exact F2]].
    + split; [intros _; apply (proj2 F); exact HI | split; discriminate].
    + split; [intros _; apply (proj2 F); exact HI | split; discriminate].
    + split; [intros _; apply F; exact HI | split; discriminate].
  - intros k K. apply A. right. exact K.
Qed.

Lemma in_mid : forall {A} (x : A) a t b, In x (a ++ t :: b) <-> x = t \/ In x (a ++ b).
Proof.
  intros A x a t b. rewrite !in_app_iff. simpl. split; [intros [K|[K|K]] | intros [K|[K|K]]]; auto.
Qed.

Lemma pairs_mid : forall a t b,
  ForallOrdPairs apart2 (a ++ t :: b) <->
  ForallOrdPairs apart2 (a ++ b) /\ (forall u, In u (a ++ b) -> apart2 t u).
Proof.
  induction a as [|x a IH]; intros t b; simpl.
  - split.
    + intros K. inversion K; subst. split; [assumption|]. rewrite Forall_forall in H1. exact H1.
    + intros [K1 K2]. constructor; [apply Forall_forall; exact K2 | exact K1].
  - split.
    + intros K. inversion K; subst. rewrite Forall_forall in H1.
      destruct (IH t b) as [IH1 _]. destruct (IH1 H2) as [K1 K2]. split.
      * constructor; [|exact K1]. apply Forall_forall. intros y HY. apply H1. apply in_mid. right. exact HY.
      * intros u [HU|HU]; [subst u | apply K2; exact HU].
        apply apart2_sym. apply H1. apply in_mid. left. reflexivity.
    + intros [K1 K2]. inversion K1; subst. rewrite Forall_forall in H1. constructor.
      * apply Forall_forall. intros y HY. apply in_mid in HY. destruct HY as [HY|HY].
        -- subst y. apply apart2_sym. apply K2. left. reflexivity.
        -- apply H1. exact HY.
      * apply IH. split; [exact H2|]. intros u HU. apply K2. right. exact HU.
Qed.

Lemma move_ok : forall others t t',
  move others t t' -> okt (held t) (todo t) /\ hwf (held t) -> okt (held t') (todo t') /\ hwf (held t').
Proof.
  intros others t t' M [O W]. destruct M; simpl in *.
  - destruct O as [A O]. auto.
  - destruct O as [_ O]. destruct W as [_ W]. auto.
Qed.

Lemma sstep_inv : forall ts ts', inv ts -> sstep ts ts' -> inv ts'.
Proof.
  intros ts ts' [O P] S. destruct S as [a t b t' M | ts w T].
  - apply pairs_mid in P. destruct P as [P1 P2]. constructor.
    + intros u HU. apply in_mid in HU. destruct HU as [HU|HU].
      * subst u. eapply move_ok; [exact M|]. apply O. apply in_mid. left. reflexivity.
      * apply O. apply in_mid. right. exact HU.
    + apply pairs_mid. split; [exact P1|]. intros u HU. eapply move_apart; [exact M | exact HU | apply P2; exact HU].
  - constructor.
    + intros u HU. apply in_app_iff in HU. destruct HU as [HU|[HU|[]]]; [apply O; exact HU|].
      subst u. simpl. split; [apply entry_okt; exact T | exact I].
    + apply pairs_mid. rewrite app_nil_r. split; [exact P|]. intros u _ l [].
Qed.

Lemma server_inv : forall ts, server ts -> inv ts.
Proof.
  intros ts S; induction S; [constructor; [intros t [] | constructor] | eapply sstep_inv; eauto].
Qed.

(** * Progress *)

(** a writer holds lock_; with lock_ not held, at most one thing besides
    leaves is held *)
Lemma hwf_writer : forall h, hwf h -> In PeersW h -> In Main h.
Proof.
  induction h as [|l r IH]; simpl; intros W HI; [contradiction|].
  destruct W as [A W]. destruct HI as [HI|HI]; [|right; apply IH; assumption].
  subst l. simpl in A. right. tauto.
Qed.

(** the next operation of a thread that holds something can be looked at *)
Lemma next_op : forall t, okt (held t) (todo t) ->
  (todo t = [] /\ held t = []) \/
  (exists l r, todo t = Acq l :: r /\ allowed (held t) l) \/
  (exists l r h, todo t = Rel l :: r /\ held t = l :: h).
Proof.
  intros [td h]; simpl. destruct td as [|[l|l] r]; simpl; intros O.
  - left. auto.
  - right. left. exists l, r. tauto.
  - right. right. destruct h as [|k h]; [contradiction|]. destruct O as [-> O]. exists l, r, h. auto.
Qed.

Lemma go_rel : forall others t l r h,
  todo t = Rel l :: r -> held t = l :: h -> can_go_on others t.
Proof.
  intros others [td hd] l r h E1 E2; simpl in *; subst. split.
  - eexists. apply mv_rel.
  - simpl. intros r' E. discriminate E.
Qed.

Lemma go_acq : forall others t l r,
  todo t = Acq l :: r -> free others (held t) l ->
  (l = PeersR -> forall u s, In u others -> todo u <> Acq PeersW :: s) ->
  can_go_on others t.
Proof.
  intros others [td hd] l r E F G; simpl in *; subst. split.
  - eexists. apply mv_acq. exact F.
  - simpl. intros r' E. injection E as -> _. apply G. reflexivity.
Qed.

(** Somebody among [ts] is such that ... *)
Lemma split_in : forall {A} (x : A) l, In x l -> exists a b, l = a ++ x :: b.
Proof. intros A x l H. apply in_split in H. destruct H as (a & b & H). exists a, b. exact H. Qed.

Definition lock_dec (x y : lock) : {x = y} + {x <> y}.
Proof. decide equality. apply N.eq_dec. Defined.

Lemma exists_or : forall (P : thread -> Prop) (D : forall t, {P t} + {~ P t}) ts,
  (exists t, In t ts /\ P t) \/ (forall t, In t ts -> ~ P t).
Proof.
  intros P D; induction ts as [|t r IH]; [right; intros t []|].
  destruct (D t) as [K|K]; [left; exists t; split; [left; reflexivity | exact K]|].
  destruct IH as [(u & HU & PU)|IH]; [left; exists u; split; [right; exact HU | exact PU]|].
  right. intros u [HU|HU]; [subst u; exact K | apply IH; exact HU].
Qed.

Definition holds_leaf1_dec (h : list lock) : {exists k, In k h /\ leaf1 k} + {~ exists k, In k h /\ leaf1 k}.
Proof.
  induction h as [|k r IH]; [right; intros (k & [] & _)|].
  destruct IH as [K|K].
  - left. destruct K as (j & H1 & H2). exists j. split; [right; exact H1 | exact H2].
  - destruct k.
    all: try (left; eexists; split; [left; reflexivity | exact I]).
    all: right; intros (j & [H1|H1] & H2); [subst j; exact H2 | apply K; exists j; split; assumption].
Defined.

Section Progress.
  Variables (a : list thread) (t : thread) (b : list thread).
  Hypothesis INV : inv (a ++ t :: b).

  Lemma p_ok : okt (held t) (todo t) /\ hwf (held t).
  Proof. apply (inv_ok _ INV). apply in_mid. left. reflexivity. Qed.

  Lemma p_okm : forall u, In u (a ++ b) -> okt (held u) (todo u) /\ hwf (held u).
  Proof. intros u HU. apply (inv_ok _ INV). apply in_mid. right. exact HU. Qed.

  Lemma p_apart : forall u, In u (a ++ b) -> apart2 t u.
  Proof. apply (proj1 (pairs_mid a t b)). apply (inv_apart _ INV). Qed.

  (** it holds the store's lock *)
  Lemma p_store : In Store (held t) -> can_go_on (a ++ b) t.
  Proof.
    intros HI. destruct p_ok as [O W]. destruct (next_op t O) as [[_ E]|[(l & r & E & AL)|(l & r & h & E1 & E2)]].
    - rewrite E in HI. destruct HI.
    - assert (l = Store) as -> by (destruct l; simpl in AL; tauto).
      eapply go_acq; [exact E | | discriminate]. simpl. intros u HU. apply (p_apart u HU Store HI). discriminate.
    - eapply go_rel; eauto.
  Qed.

  (** nobody holds the store's lock *)
  Hypothesis NS : forall u, In u (a ++ t :: b) -> ~ In Store (held u).

  Lemma p_free_store : free (a ++ b) (held t) Store.
  Proof. simpl. intros u HU. apply NS. apply in_mid. right. exact HU. Qed.

  (** it holds a leaf *)
  Lemma p_leaf : (exists k, In k (held t) /\ leaf1 k) -> can_go_on (a ++ b) t.
  Proof.
    intros (k & HI & HL). destruct p_ok as [O W]. destruct (next_op t O) as [[_ E]|[(l & r & E & AL)|(l & r & h & E1 & E2)]].
    - rewrite E in HI. destruct HI.
    - assert (l = Store) as ->.
      { destruct l; try reflexivity; exfalso; simpl in AL; destruct AL as [AL _]; exact (AL k HI HL). }
      eapply go_acq; [exact E | apply p_free_store | discriminate].
    - eapply go_rel; eauto.
  Qed.

  (** nobody holds a leaf *)
  Hypothesis NL : forall u, In u (a ++ t :: b) -> ~ exists k, In k (held u) /\ leaf1 k.

  Lemma p_free_leaf : forall l, leaf1 l -> free (a ++ b) (held t) l.
  Proof.
    intros l HL.
    assert (K : forall u, In u (a ++ t :: b) -> ~ In l (held u)) by (intros u HU HI; apply (NL u HU); exists l; auto).
    destruct l; simpl in *; try contradiction;
      (split; [apply K; apply in_mid; left; reflexivity | intros u HU; apply K; apply in_mid; right; exact HU]).
  Qed.

  (** a reader without lock_ *)
  Lemma p_reader : In PeersR (held t) -> ~ In Main (held t) -> can_go_on (a ++ b) t.
  Proof.
    intros HR HM. destruct p_ok as [O W]. destruct (next_op t O) as [[_ E]|[(l & r & E & AL)|(l & r & h & E1 & E2)]].
    - rewrite E in HR. destruct HR.
    - destruct l; simpl in AL.
      + exfalso. destruct AL as (_ & _ & [K|K]); [exact (HM K) | rewrite K in HR; destruct HR].
      + exfalso. tauto.
      + exfalso. tauto.
      + eapply go_acq; [exact E | apply p_free_leaf; exact I | discriminate].
      + eapply go_acq; [exact E | apply p_free_leaf; exact I | discriminate].
      + eapply go_acq; [exact E | apply p_free_store | discriminate].
    - eapply go_rel; eauto.
  Qed.

  (** somebody that waits to write holds lock_ *)
  Lemma p_waiting : forall u s, In u (a ++ b) -> todo u = Acq PeersW :: s -> In Main (held u).
  Proof.
    intros u s HU E. destruct (p_okm u HU) as [O _]. rewrite E in O. simpl in O. tauto.
  Qed.

  (** it holds lock_, and nobody else reads *)
  Lemma p_main : In Main (held t) -> (forall u, In u (a ++ b) -> ~ In PeersR (held u)) -> can_go_on (a ++ b) t.
  Proof.
    intros HM HR. destruct p_ok as [O W].
    assert (OM : forall u, In u (a ++ b) -> ~ In Main (held u)).
    { intros u HU. apply (p_apart u HU Main HM). discriminate. }
    assert (OW : forall u, In u (a ++ b) -> ~ In PeersW (held u)).
    { intros u HU K. apply (OM u HU). apply hwf_writer; [apply (p_okm u HU) | exact K]. }
    destruct (next_op t O) as [[_ E]|[(l & r & E & AL)|(l & r & h & E1 & E2)]].
    - rewrite E in HM. destruct HM.
    - destruct l; simpl in AL.
      + eapply go_acq; [exact E | exact OM | discriminate].
      + eapply go_acq; [exact E | split; [tauto | exact OW] |].
        intros _ u s HU K. apply (OM u HU). eapply p_waiting; eauto.
      + eapply go_acq; [exact E | split; [tauto | split; [tauto|]] | discriminate].
        intros u HU. split; [apply OW; exact HU | apply HR; exact HU].
      + eapply go_acq; [exact E | apply p_free_leaf; exact I | discriminate].
      + eapply go_acq; [exact E | apply p_free_leaf; exact I | discriminate].
      + eapply go_acq; [exact E | apply p_free_store | discriminate].
    - eapply go_rel; eauto.
  Qed.

  (** nobody holds lock_ or reads *)
  Lemma p_nothing :
    (forall u, In u (a ++ t :: b) -> ~ In Main (held u)) -> todo t <> [] -> can_go_on (a ++ b) t.
  Proof.
    intros HM TD. destruct p_ok as [O W].
    assert (OM : forall u, In u (a ++ b) -> ~ In Main (held u)) by (intros u HU; apply HM; apply in_mid; right; exact HU).
    assert (OW : forall u, In u (a ++ b) -> ~ In PeersW (held u)).
    { intros u HU K. apply (OM u HU). apply hwf_writer; [apply (p_okm u HU) | exact K]. }
    destruct (next_op t O) as [[E _]|[(l & r & E & AL)|(l & r & h & E1 & E2)]].
    - contradiction.
    - destruct l; simpl in AL.
      + eapply go_acq; [exact E | exact OM | discriminate].
      + eapply go_acq; [exact E | split; [tauto | exact OW] |].
        intros _ u s HU K. apply (OM u HU). eapply p_waiting; eauto.
      + exfalso. apply (HM t); [apply in_mid; left; reflexivity | tauto].
      + eapply go_acq; [exact E | apply p_free_leaf; exact I | discriminate].
      + eapply go_acq; [exact E | apply p_free_leaf; exact I | discriminate].
      + eapply go_acq; [exact E | apply p_free_store | discriminate].
    - eapply go_rel; eauto.
  Qed.
End Progress.

(** Whatever the threads of a server are doing - any number of them, in any
    of its functions, interleaved in any way -, if one of them has something
    left to do then one of them can go on. The destructor is not among them. *)
Theorem C89_no_deadlock : forall ts,
  server ts -> (exists t, In t ts /\ todo t <> []) ->
  exists a t b, ts = a ++ t :: b /\ can_go_on (a ++ b) t.
Proof.
  intros ts S (t0 & H0 & T0). apply server_inv in S.
  destruct (exists_or _ (fun t => in_dec lock_dec Store (held t)) ts) as [(t & HI & HS)|NS].
  { destruct (split_in _ _ HI) as (a & b & ->). exists a, t, b. split; [reflexivity|]. apply p_store; assumption. }
  destruct (exists_or _ (fun t => holds_leaf1_dec (held t)) ts) as [(t & HI & HL)|NL].
  { destruct (split_in _ _ HI) as (a & b & ->). exists a, t, b. split; [reflexivity|]. apply p_leaf; assumption. }
  destruct (exists_or (fun t => In PeersR (held t) /\ ~ In Main (held t))
              (fun t => match in_dec lock_dec PeersR (held t), in_dec lock_dec Main (held t) with
                        | left x, right y => left (conj x y)
                        | left x, left y => right (fun K => proj2 K y)
                        | right x, _ => right (fun K => x (proj1 K))
                        end) ts) as [(t & HI & HR & HM)|NR].
  { destruct (split_in _ _ HI) as (a & b & ->). exists a, t, b. split; [reflexivity|]. apply p_reader; assumption. }
  destruct (exists_or _ (fun t => in_dec lock_dec Main (held t)) ts) as [(t & HI & HM)|NM].
  { destruct (split_in _ _ HI) as (a & b & ->). exists a, t, b. split; [reflexivity|].
    apply p_main; try assumption. intros u HU K.
    apply (NR u); [apply in_mid; right; exact HU|]. split; [exact K|].
    apply (p_apart _ _ _ S u HU Main HM). discriminate. }
  destruct (split_in _ _ H0) as (a & b & ->). exists a, t0, b. split; [reflexivity|].
  apply p_nothing; assumption.
Qed.

(** The set of peers changes only under lock_, and while it changes nobody
    else looks at it. *)
Theorem C89_exclusive : forall ts a t b u,
  server ts -> ts = a ++ t :: b -> In PeersW (held t) -> In u (a ++ b) ->
  In Main (held t) /\ ~ In Main (held u) /\ ~ In PeersR (held u) /\ ~ In PeersW (held u).
Proof.
  intros ts a t b u S -> HW HU. apply server_inv in S.
  pose proof (p_ok _ _ _ S) as [_ W].
  assert (HM : In Main (held t)) by (apply hwf_writer; assumption).
  pose proof (p_apart _ _ _ S u HU) as A.
  split; [exact HM|].
  destruct (A Main HM) as (A1 & _ & _). destruct (A PeersW HW) as (A2 & _ & A3).
  split; [apply A1; discriminate|]. split; [apply A3; reflexivity | apply A2; discriminate].
Qed.

(** ** Two things that do happen *)

Lemma server_new : forall ts w, server ts -> tr (Loop entry_points) w -> server (ts ++ [{| todo := w; held := [] |}]).
Proof. intros ts w S T. eapply sv_step; [exact S | apply ss_new; exact T]. Qed.

Lemma server_acq : forall a l r h b,
  server (a ++ {| todo := Acq l :: r; held := h |} :: b) -> free (a ++ b) h l ->
  server (a ++ {| todo := r; held := l :: h |} :: b).
Proof. intros a l r h b S F. eapply sv_step; [exact S | apply ss_move; apply mv_acq; exact F]. Qed.

Lemma server_rel : forall a l r h b,
  server (a ++ {| todo := Rel l :: r; held := l :: h |} :: b) ->
  server (a ++ {| todo := r; held := h |} :: b).
Proof. intros a l r h b S. eapply sv_step; [exact S | apply ss_move; apply mv_rel]. Qed.

(** one call of an entry point *)
Lemma one_call : forall w, tr entry_points w -> tr (Loop entry_points) w.
Proof. intros w T. rewrite <- (app_nil_r w). apply tr_loop; [exact T | apply tr_loop0]. Qed.

(** a vote that makes the server a leader *)
Definition vote_counts : list op :=
  [Acq PeersR; Rel PeersR; Acq Main; Acq PeersR; Acq PeersR; Rel PeersR; Rel PeersR; Rel Main].

Lemma vote_counts_tr : tr entry_points vote_counts.
Proof.
  unfold entry_points, alts. apply tr_alt2, tr_alt1. unfold sk_handle_peer_resp, seqs.
  change vote_counts with ([Acq PeersR; Rel PeersR] ++ ([Acq Main; Acq PeersR; Acq PeersR; Rel PeersR; Rel PeersR; Rel Main] : list op)).
  apply tr_seq; [exact (tr_with PeersR Nop [] tr_nop)|]. apply tr_stop.
  change ([Acq Main; Acq PeersR; Acq PeersR; Rel PeersR; Rel PeersR; Rel Main] : list op)
    with (Acq Main :: [Acq PeersR; Acq PeersR; Rel PeersR; Rel PeersR] ++ [Rel Main]).
  apply tr_with. change ([Acq PeersR; Acq PeersR; Rel PeersR; Rel PeersR] : list op)
    with ([] ++ [Acq PeersR; Acq PeersR; Rel PeersR; Rel PeersR] : list op).
  apply tr_seq; [apply tr_alt1, tr_nop|]. unfold alts. apply tr_alt1. unfold sk_handle_voting_resp.
  change ([Acq PeersR; Acq PeersR; Rel PeersR; Rel PeersR] : list op)
    with (Acq PeersR :: [Acq PeersR; Rel PeersR] ++ [Rel PeersR] : list op).
  apply tr_with. apply tr_alt2. unfold sk_become_leader, seqs. apply tr_stop.
  exact (tr_with PeersR (Loop store) [] (tr_loop0 _)).
Qed.

(** A thread takes peers_lock_ for reading while it has it for reading, which
    the C++ standard forbids: [shared_timed_mutex::lock_shared], "the calling
    thread does not own the mutex in any mode". *)
Theorem C89_read_twice_refuted :
  exists ts t, server ts /\ In t ts /\ held t = [PeersR; PeersR; Main].
Proof.
  set (t := {| todo := [Rel PeersR; Rel PeersR; Rel Main]; held := [PeersR; PeersR; Main] |}).
  exists [t], t.
  split; [|split; [left; reflexivity | reflexivity]].
  pose proof (server_new [] _ sv_none (one_call _ vote_counts_tr)) as S.
  apply (server_acq []) in S; [|simpl; tauto].
  apply (server_rel []) in S.
  apply (server_acq []) in S; [|simpl; tauto].
  apply (server_acq []) in S; [|simpl; intuition discriminate].
  apply (server_acq []) in S; [|simpl; intuition discriminate].
  exact S.
Qed.

(** an instance of C89_no_deadlock: the commit thread carries out a
    configuration and waits to write, a message handler waits for lock_, and
    a third thread, asking whether this server leads, keeps the first one
    waiting; it is the one that can go on *)
Definition conf_trace : list op := [Acq Main; Acq PeersR; Rel PeersR; Acq PeersW; Rel PeersW; Rel Main].

Lemma conf_trace_tr : tr entry_points conf_trace.
Proof.
  unfold entry_points, alts. do 5 apply tr_alt2. apply tr_alt1.
  unfold sk_commit_in_bg. rewrite <- (app_nil_r conf_trace). apply tr_loop; [|apply tr_loop0].
  unfold seqs. change conf_trace with ([] ++ conf_trace). apply tr_seq; [apply tr_loop0|].
  apply tr_stop. unfold alts. apply tr_alt2, tr_alt1.
  change conf_trace with (Acq Main :: [Acq PeersR; Rel PeersR; Acq PeersW; Rel PeersW] ++ [Rel Main]).
  apply tr_with. apply tr_alt2. unfold sk_reconfigure, seqs.
  change ([Acq PeersR; Rel PeersR; Acq PeersW; Rel PeersW] : list op)
    with ([Acq PeersR; Rel PeersR] ++ ([Acq PeersW; Rel PeersW] : list op)).
  apply tr_seq; [exact (tr_with PeersR Nop [] tr_nop)|].
  change ([Acq PeersW; Rel PeersW] : list op) with ([] ++ ([Acq PeersW; Rel PeersW] : list op)).
  apply tr_seq; [apply tr_loop0|]. apply tr_stop.
  change ([Acq PeersW; Rel PeersW] : list op) with (([Acq PeersW; Rel PeersW] ++ []) : list op).
  apply tr_loop; [exact (tr_with PeersW Nop [] tr_nop) | apply tr_loop0].
Qed.

Lemma is_leader_tr : tr entry_points [Acq PeersR; Rel PeersR].
Proof.
  unfold entry_points, alts. do 7 apply tr_alt2. apply tr_alt1. exact (tr_with PeersR Nop [] tr_nop).
Qed.

Definition three_threads : list thread :=
  [ {| todo := [Acq PeersW; Rel PeersW; Rel Main]; held := [Main] |};
    {| todo := [Acq Main; Acq PeersR; Acq PeersR; Rel PeersR; Rel PeersR; Rel Main]; held := [] |};
    {| todo := [Rel PeersR]; held := [PeersR] |} ].

Example C89_example :
  server three_threads /\
  ~ (exists t', move [nth 1 three_threads {| todo := []; held := [] |}; nth 2 three_threads {| todo := []; held := [] |}]
                     (nth 0 three_threads {| todo := []; held := [] |}) t').
Proof.
  split.
  - pose proof (server_new _ _ (server_new _ _ (server_new [] _ sv_none (one_call _ conf_trace_tr))
                                            (one_call _ vote_counts_tr)) (one_call _ is_leader_tr)) as S.
    simpl in S. unfold conf_trace, vote_counts in S.
    apply (server_acq []) in S; [|simpl; intuition (subst; simpl in *; tauto)].
    apply (server_acq []) in S; [|simpl; intuition (subst; simpl in *; intuition discriminate)].
    apply (server_rel []) in S.
    apply (server_acq [_]) in S; [|simpl; intuition (subst; simpl in *; intuition discriminate)].
    apply (server_rel [_]) in S.
    apply (server_acq [_; _]) in S; [|simpl; intuition (subst; simpl in *; intuition discriminate)].
    exact S.
  - simpl. intros (t' & M). inversion M as [l r h F E1 E2|]; subst. destruct F as (_ & _ & F).
    destruct (F {| todo := [Rel PeersR]; held := [PeersR] |}) as [_ K]; [right; left; reflexivity|].
    apply K. left. reflexivity.
Qed.

Print Assumptions C89_no_deadlock.
Print Assumptions C89_exclusive.
Print Assumptions C89_read_twice_refuted.
