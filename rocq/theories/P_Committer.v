(** C86, C87, C88: the commit thread, shutting a server down, and snapshots
    that arrive while entries are being applied. *)
From Coq Require Import NArith List Bool Lia.
From Verif Require Import Committer.
Import ListNotations.
Local Open Scope N_scope.

(** * Specification *)

(** An entry is committed and in the log, and has not been applied. *)
Definition unapplied (x : cst) : Prop := s x < q x /\ s x < top x.

(** Every step of the history [ls] from [x] satisfies [P] in the state in
    which it is taken. *)
Fixpoint each (P : cst -> label -> Prop) (conf : N -> bool) (ls : list label) (x : cst) : Prop :=
  match ls with
  | [] => True
  | l :: r => P x l /\ match step conf l x with Some y => each P conf r y | None => True end
  end.

(** The commit thread has found nothing to do and is not asleep yet. *)
Definition in_window (x : cst) : Prop := pc x = Idle \/ pc x = Held.

(** Nothing is committed or appended in that window, and an append that no
    commit follows adds nothing that is already committed. *)
Definition outside_window (x : cst) (l : label) : Prop :=
  match l with
  | HCommit _ _ => ~ in_window x
  | HAppend => ~ in_window x /\ q x <= top x
  | _ => True
  end.

(** The indexes after [a], up to [b]. *)
Definition upto (a b : N) : list N :=
  map N.of_nat (List.seq (S (N.to_nat a)) (N.to_nat (b - a))).

(** How the entry at [i] shows when it is applied. *)
Definition entry_event (conf : N -> bool) (i : N) : event :=
  if conf i then EConf i else EApply i i.

(** What a state machine that is at position [a] may be asked to do: the next
    entry, under its own index, or a later snapshot. *)
Fixpoint in_order (conf : N -> bool) (a : N) (es : list event) : Prop :=
  match es with
  | [] => True
  | EApply i e :: r => i = a + 1 /\ e = i /\ conf e = false /\ in_order conf i r
  | EConf e :: r => e = a + 1 /\ conf e = true /\ in_order conf e r
  | ESnap i :: r => a < i /\ in_order conf i r
  end.

(** The commit thread is in the loop that applies entries. *)
Definition applying (x : cst) : Prop :=
  match pc x with
  | Inner | Bump | Fetch | Hand _ | WantConf _ | InConf _ | After | WantSnap | InSnap => True
  | _ => False
  end.

Definition installing (x : cst) : Prop :=
  match h x with SnapDone _ | SnapS _ => True | _ => False end.

(** Snapshots are installed only while the commit thread is not applying
    entries, and it does not begin to before the installation is over. *)
Definition apart (x : cst) (l : label) : Prop :=
  match l with
  | HSnap _ => ~ applying x
  | C => installing x -> pc x = Outer -> ~ unapplied x
  | _ => True
  end.

(** * Proofs *)

Lemma work_iff : forall x, work x = true <-> unapplied x.
Proof.
  intros x. unfold work, unapplied. rewrite andb_true_iff, !N.ltb_lt. tauto.
Qed.

Lemma work_not : forall x, work x = false <-> ~ unapplied x.
Proof.
  intros x. rewrite <- work_iff. destruct (work x); split; intro; congruence.
Qed.

Lemma go_app : forall conf l1 l2 x,
  go conf (l1 ++ l2) x = match go conf l1 x with Some y => go conf l2 y | None => None end.
Proof.
  intros conf; induction l1 as [|l r IH]; intros; simpl; [reflexivity|].
  destruct (step conf l x); [apply IH | reflexivity].
Qed.

(** an invariant of all histories *)
Lemma go_inv : forall (I : cst -> Prop) (P : cst -> label -> Prop) conf,
  (forall x l y, I x -> P x l -> step conf l x = Some y -> I y) ->
  forall ls x y, I x -> each P conf ls x -> go conf ls x = Some y -> I y.
Proof.
  intros I P conf ST; induction ls as [|l r IH]; simpl; intros x y HI HE HG.
  - injection HG as <-; exact HI.
  - destruct HE as [HP HE]. destruct (step conf l x) as [z|] eqn:E; [|discriminate].
    eapply IH; [eapply ST; eauto | exact HE | exact HG].
Qed.

Lemma each_forall : forall (P : label -> Prop) conf ls x,
  Forall P ls -> each (fun _ => P) conf ls x.
Proof.
  intros P conf; induction ls as [|l r IH]; simpl; intros x HF; [exact I|].
  inversion HF; subst. split; [assumption|]. destruct (step conf l x); auto.
Qed.

Ltac steps H :=
  unfold step, cstep, dstep, wake, wake_d in H;
  repeat match type of H with
         | context [match ?a with _ => _ end] => destruct a eqn:?; try discriminate H
         end;
  try (injection H as <-); simpl in *.

(** ** C86 *)

Definition mid_call (p : hpc) : bool :=
  match p with Away | Inside => false | _ => true end.

Definition quiet_pc (p : cpc) : bool :=
  match p with Idle | Held => true | _ => false end.

Definition mid_snap (p : hpc) : bool :=
  match p with SnapDone _ | SnapS _ => true | _ => false end.

Definition awake_ok (x : cst) : Prop :=
  (pc x = Asleep -> work x = false \/ mid_call (h x) = true) /\
  (quiet_pc (pc x) = true -> work x = false \/ mid_snap (h x) = true) /\
  match h x with SnapS i => i <= s x | _ => True end.

Lemma work_s : forall a b c, (a <? b) && (a <? c) = false <-> b <= a \/ c <= a.
Proof. intros. rewrite andb_false_iff, !N.ltb_ge. tauto. Qed.

Lemma awake_ok_step : forall conf x l y,
  awake_ok x -> outside_window x l -> step conf l x = Some y -> awake_ok y.
Proof.
  intros conf x l y [A0 [A B]] P H.
  destruct x as [q0 s0 t0 st p hh dd l1 c1 s1 ev]. unfold work in A0, A. simpl in A0, A, B.
  destruct l; simpl in H, P.
  all: steps H; unfold awake_ok, work in *; simpl in *; subst.
  all: try (split; [intros K0; try discriminate K0; subst | split; [intros K; try discriminate K |]]).
  all: try exact I; try assumption; try (left; assumption); try (right; reflexivity); auto.
  all: try lia.
  all: try (destruct (A eq_refl) as [A'|A']; [left; exact A' | first [discriminate A' | right; exact A']]).
  all: try (left; apply work_s; lia).
  all: try (destruct (A K) as [A'|A']; [left; first [exact A' | apply work_s in A'; apply work_s; lia] | first [discriminate A' | right; exact A']]).
  all: try (destruct (A0 eq_refl) as [A'|A']; [left; first [exact A' | apply work_s in A'; apply work_s; lia] | first [discriminate A' | right; exact A']]).
  all: try (destruct hh; simpl in *; lia).
  all: try (destruct (A eq_refl) as [A'|A']; [left; exact A' | right; destruct hh; try discriminate A'; reflexivity]).
  all: try (exfalso; apply P; unfold in_window; simpl; destruct p; try discriminate; tauto).
Qed.

Lemma started_awake_ok : forall a b t, awake_ok (started a b t).
Proof. intros. split; [|split]; simpl; [discriminate | discriminate | exact I]. Qed.

(** ** Catching up *)

Lemma upto_none : forall a b, b <= a -> upto a b = [].
Proof.
  intros a b L. unfold upto. replace (b - a) with 0 by lia. reflexivity.
Qed.

Lemma upto_next : forall a b, a < b -> upto a b = (a + 1) :: upto (a + 1) b.
Proof.
  intros a b L. unfold upto.
  replace (N.to_nat (b - a)) with (S (N.to_nat (b - (a + 1)))) by lia.
  replace (N.to_nat (a + 1)) with (S (N.to_nat a)) by lia.
  simpl. f_equal. lia.
Qed.

(** [n] steps of the commit thread alone *)
Definition alone (conf : N -> bool) (n : nat) (x : cst) : option cst :=
  go conf (repeat C n) x.

Lemma alone_S : forall conf n x y z,
  step conf C x = Some y -> alone conf n y = Some z -> alone conf (S n) x = Some z.
Proof. intros conf n x y z H1 H2. unfold alone. simpl. simpl in H1. rewrite H1. exact H2. Qed.

Lemma inner_catches_up : forall conf k x,
  pc x = Inner -> lk x = None -> ck x = None ->
  k = N.to_nat (N.min (q x) (top x) - s x) ->
  exists n y, alone conf n x = Some y /\ pc y = Asleep /\
    s y = N.max (s x) (N.min (q x) (top x)) /\ q y = q x /\ top y = top x /\
    evs y = evs x ++ map (entry_event conf) (upto (s x) (s y)).
Proof.
  intros conf; induction k as [|k IH]; intros x Hp Hl Hc Hk;
    destruct x as [q0 s0 t0 st p hh dd l1 c1 s1 ev]; simpl in *; subst p l1 c1.
  - exists 4%nat. eexists. split.
    { unfold alone. simpl. unfold work at 1. simpl.
      assert (W : (s0 <? q0) && (s0 <? t0) = false) by (apply work_s; lia). rewrite W. simpl.
      unfold work at 1. simpl. rewrite W. simpl. reflexivity. }
    simpl. rewrite upto_none by lia. simpl. rewrite app_nil_r.
    repeat (split; [try reflexivity; lia|]). reflexivity.
  - assert (W : (s0 <? q0) && (s0 <? t0) = true) by (apply andb_true_iff; rewrite !N.ltb_lt; lia).
    destruct (conf (s0 + 1)) eqn:CF.
    + destruct (IH {| q := q0; s := s0 + 1; top := t0; stopping := st; pc := Inner; h := hh; d := dd;
                      lk := None; ck := None; sk := s1; evs := ev ++ [EConf (s0 + 1)] |})
        as (n & y & G & Y1 & Y2 & Y3 & Y4 & Y5); simpl; try reflexivity; [lia|].
      exists (6 + n)%nat, y. split.
      { do 6 (eapply alone_S; [simpl; unfold work; simpl; rewrite ?W, ?CF; reflexivity|]). exact G. }
      simpl in *. split; [exact Y1|]. split; [rewrite Y2; lia|]. split; [exact Y3|]. split; [exact Y4|].
      rewrite Y5, (upto_next s0 (s y)) by (rewrite Y2; lia). simpl.
      unfold entry_event at 2. rewrite CF, <- app_assoc. reflexivity.
    + destruct (IH {| q := q0; s := s0 + 1; top := t0; stopping := st; pc := Inner; h := hh; d := dd;
                      lk := None; ck := None; sk := s1; evs := ev ++ [EApply (s0 + 1) (s0 + 1)] |})
        as (n & y & G & Y1 & Y2 & Y3 & Y4 & Y5); simpl; try reflexivity; [lia|].
      exists (5 + n)%nat, y. split.
      { do 5 (eapply alone_S; [simpl; unfold work; simpl; rewrite ?W, ?CF; reflexivity|]). exact G. }
      simpl in *. split; [exact Y1|]. split; [rewrite Y2; lia|]. split; [exact Y3|]. split; [exact Y4|].
      rewrite Y5, (upto_next s0 (s y)) by (rewrite Y2; lia). simpl.
      unfold entry_event at 2. rewrite CF, <- app_assoc. reflexivity.
Qed.

Lemma outer_catches_up : forall conf x,
  pc x = Outer -> lk x = None -> ck x = None ->
  exists n y, alone conf n x = Some y /\ pc y = Asleep /\
    ~ unapplied y /\ s y = N.max (s x) (N.min (q x) (top x)) /\
    evs y = evs x ++ map (entry_event conf) (upto (s x) (s y)).
Proof.
  intros conf x Hp Hl Hc.
  destruct x as [q0 s0 t0 st p hh dd l1 c1 s1 ev]; simpl in *; subst.
  destruct ((s0 <? q0) && (s0 <? t0)) eqn:W.
  - destruct (inner_catches_up conf _ (set_pc Inner {| q := q0; s := s0; top := t0; stopping := st; pc := Outer; h := hh; d := dd; lk := None; ck := None; sk := s1; evs := ev |}) eq_refl eq_refl eq_refl eq_refl)
      as (n & y & G & Y1 & Y2 & Y3 & Y4 & Y5).
    simpl in *. exists (S n), y. split.
    { eapply alone_S; [|exact G]. unfold step, cstep, work; simpl; rewrite W; reflexivity. }
    split; [exact Y1|]. split; [unfold unapplied; lia|]. split; [exact Y2|]. exact Y5.
  - exists 3%nat. eexists. split.
    { do 3 (eapply alone_S; [unfold step, cstep, work; simpl; rewrite ?W; reflexivity|]). reflexivity. }
    apply work_s in W. unfold unapplied. simpl.
    split; [reflexivity|]. split; [lia|]. split; [lia|].
    rewrite upto_none by lia. simpl. rewrite app_nil_r. reflexivity.
Qed.

(** Once awake, the commit thread - if nobody keeps it from the locks it
    needs - applies everything that is committed and in the log, in order,
    and goes back to sleep. *)
Theorem C86_catches_up : forall conf x,
  pc x = Woken \/ pc x = Outer -> stopping x = false -> lk x = None -> ck x = None ->
  exists n y, go conf (repeat C n) x = Some y /\ pc y = Asleep /\
    ~ unapplied y /\ s y = N.max (s x) (N.min (q x) (top x)) /\
    evs y = evs x ++ map (entry_event conf) (upto (s x) (s y)).
Proof.
  intros conf x Hp Hst Hl Hc.
  destruct Hp as [Hp|Hp]; [|exact (outer_catches_up conf x Hp Hl Hc)].
  destruct (outer_catches_up conf (set_pc Outer x) eq_refl Hl Hc) as (n & y & G & Y).
  exists (S (S n)), y. split; [|exact Y].
  destruct x as [q0 s0 t0 st p hh dd l1 c1 s1 ev]; simpl in *; subst. exact G.
Qed.

(** A call of commit that finds the commit thread asleep wakes it, if it
    leaves anything to apply. *)
Theorem C86_commit_wakes : forall conf x i t y z,
  pc x = Asleep -> step conf (HCommit i t) x = Some y -> step conf HNotify y = Some z ->
  s x < N.max (q x) i -> s x < t ->
  pc z = Woken /\ q z = N.max (q x) i /\ top z = t /\ s z = s x.
Proof.
  intros conf x i t y z Hp H1 H2 L1 L2.
  simpl in H1. destruct (h x); try discriminate. injection H1 as <-. simpl in H2.
  assert (W : work (set_h Notify (set_q (N.max (q x) i) (set_top t x))) = true)
    by (apply work_iff; split; simpl; assumption).
  rewrite W in H2. injection H2 as <-. unfold wake. simpl. rewrite Hp. simpl. tauto.
Qed.

(** The commit thread goes to sleep over unapplied work only if something was
    committed or appended between its test and its going to sleep. *)
Theorem C86_window_partial : forall conf a b t ls x,
  go conf ls (started a b t) = Some x ->
  each outside_window conf ls (started a b t) ->
  pc x = Asleep -> h x = Away \/ h x = Inside ->
  ~ unapplied x.
Proof.
  intros conf a b t ls x HG HE Hp Hh.
  pose proof (go_inv awake_ok outside_window conf (awake_ok_step conf) ls _ _ (started_awake_ok a b t) HE HG) as [A _].
  apply work_not. destruct (A Hp) as [K|K]; [exact K|]. destruct Hh as [Hh|Hh]; rewrite Hh in K; discriminate.
Qed.

(** ... and in that window the notification is lost: an entry is committed,
    the handler that committed it is done, nobody holds a lock or is about to
    do anything, and the entry stays unapplied until something else is
    committed. *)
Definition lost_wakeup : list label := [HTake; C; HCommit 1 1; HNotify; HDrop; C; C].

Definition not_spurious (l : label) : Prop := l <> CSpurious /\ l <> DSpurious.

Lemma not_spurious_dec : forall ls,
  forallb (fun l => match l with CSpurious | DSpurious => false | _ => true end) ls = true ->
  Forall not_spurious ls.
Proof.
  intros ls H. rewrite forallb_forall in H. apply Forall_forall. intros l HI. apply H in HI.
  split; intro; subst; discriminate.
Qed.

Theorem C86_lost_refuted :
  exists ls x, Forall not_spurious ls /\ go (fun _ => false) ls (started 0 0 0) = Some x /\
    pc x = Asleep /\ h x = Away /\ d x = D0 /\ lk x = None /\ ck x = None /\ sk x = None /\
    unapplied x /\
    forall l y, not_spurious l -> step (fun _ => false) l x = Some y ->
      l = HTake \/ l = HAppend \/ l = D.
Proof.
  exists lost_wakeup. eexists. split; [apply not_spurious_dec; reflexivity|].
  split; [vm_compute; reflexivity|]. simpl.
  do 6 (split; [reflexivity|]). split; [split; reflexivity|].
  intros l y [N1 N2] H. destruct l; simpl in H; try discriminate H; try tauto; congruence.
Qed.

(** an instance of C86_window_partial with a commit and a snapshot *)
Example C86_window_example :
  let ls := [C; C; C; HTake; HCommit 2 3; HNotify; HDrop; C; C; C; C; C; C; C; C; C; C; C; C; C; C; C; C; C; HTake; HSnap 7; HSnapS; HSnapQ; HDrop] in
  exists x, go (fun _ => false) ls (started 0 0 0) = Some x /\
    each outside_window (fun _ => false) ls (started 0 0 0) /\ pc x = Asleep /\ h x = Away /\
    evs x = [EApply 1 1; EApply 2 2; ESnap 7].
Proof.
  eexists. split; [vm_compute; reflexivity|]. split.
  { cbv. repeat split; try (intros [K|K]; discriminate K). }
  repeat split.
Qed.

(** ** C87 *)

(** The locks: who owns them is where the threads stand. *)
Definition d_lk (p : dpc) : bool := match p with D0 => false | _ => true end.
Definition d_ck (p : dpc) : bool := match p with D3 | D4 | D5 => true | _ => false end.
Definition d_sk (p : dpc) : bool := match p with D5 | D6 => true | _ => false end.
Definition d_st (p : dpc) : bool := match p with D0 | D1 => false | _ => true end.
Definition h_lk (p : hpc) : bool := match p with Away => false | _ => true end.
Definition c_lk (p : cpc) : bool := match p with InConf _ | InSnap => true | _ => false end.
Definition c_ck (p : cpc) : bool := match p with Held | Back => true | _ => false end.

Record lock_inv (x : cst) : Prop := {
  li_d : d_lk (d x) = true -> lk x = Some Destroyer;
  li_h : h_lk (h x) = true -> lk x = Some Handler;
  li_c : c_lk (pc x) = true -> lk x = Some Committer;
  li_ck : ck x = if d_ck (d x) then Some Destroyer else if c_ck (pc x) then Some Committer else None;
  li_2 : d_ck (d x) = true -> c_ck (pc x) = false;
  li_sk : sk x = if d_sk (d x) then Some Destroyer else None;
  li_st : stopping x = d_st (d x)
}.

Lemma lock_inv_step : forall conf x l y, lock_inv x -> step conf l x = Some y -> lock_inv y.
Proof.
  intros conf x l y [A1 A2 A3 A4 A5 A6 A7] H.
  destruct x as [q0 s0 t0 st p hh dd l1 c1 s1 ev]. simpl in *.
  destruct l; simpl in H.
  all: steps H; subst; constructor; simpl.
  all: try assumption; try (intros K; discriminate K); try reflexivity.
  all: try (intros K; specialize (A1 K); congruence).
  all: try (intros K; specialize (A2 K); congruence).
  all: try (intros K; specialize (A3 K); congruence).
  all: try (destruct (d_ck dd) eqn:?; [first [discriminate A4 | specialize (A5 eq_refl); discriminate A5 | reflexivity] | first [reflexivity | assumption]]).
  all: try (intros K; rewrite K in A4; discriminate A4).
  all: try (destruct (c_ck p) eqn:?; [discriminate A4 | reflexivity]).
  all: try (intros K; destruct (c_ck p) eqn:?; [discriminate A4 | reflexivity]).
  all: try (destruct (d_ck dd) eqn:E; [discriminate Heqo | reflexivity]).
  all: try (intros K; rewrite K in Heqo; discriminate Heqo).
  all: try (intros K; specialize (A1 K); specialize (A3 eq_refl); congruence).
  all: try (intros K; specialize (A2 K); specialize (A3 eq_refl); congruence).
  all: try (intros K; specialize (A1 K); specialize (A2 eq_refl); congruence).
  all: try (intros K; specialize (A3 K); specialize (A2 eq_refl); congruence).
  all: try (intros _; simpl in Heqo; destruct (c_ck p); [discriminate Heqo | reflexivity]).
  all: rewrite (A5 eq_refl); reflexivity.
Qed.

Lemma started_lock_inv : forall a b t, lock_inv (started a b t).
Proof. intros. constructor; simpl; try reflexivity; discriminate. Qed.

Lemma go_lock_inv : forall conf ls x y, lock_inv x -> go conf ls x = Some y -> lock_inv y.
Proof.
  intros conf ls x y HI HG.
  refine (go_inv lock_inv (fun _ _ => True) conf _ ls x y HI _ HG).
  - intros; eapply lock_inv_step; eauto.
  - apply each_forall. apply Forall_forall. intros; exact I.
Qed.

(** And the other way round: lock_ is taken only while its owner stands where
    it holds it, so nobody leaves it locked behind. *)
Definition owner_there (x : cst) : Prop :=
  match lk x with
  | None => True
  | Some Committer => c_lk (pc x) = true
  | Some Handler => h_lk (h x) = true
  | Some Destroyer => d_lk (d x) = true
  end.

Lemma owner_there_step : forall conf x l y,
  lock_inv x /\ owner_there x -> step conf l x = Some y -> lock_inv y /\ owner_there y.
Proof.
  intros conf x l y [L O] H. split; [eapply lock_inv_step; eauto|].
  destruct L as [A1 A2 A3 A4 A5 A6 A7].
  destruct x as [q0 s0 t0 st p hh dd l1 c1 s1 ev]. unfold owner_there in *. simpl in *.
  destruct l; simpl in H.
  all: steps H; subst; simpl in *; try exact I; try reflexivity; try assumption.
  all: try (destruct l1 as [[| |]|]; simpl in *; congruence || reflexivity || exact I || discriminate).
Qed.

(** lock_ is owned exactly by the thread that stands inside its critical
    section: the commit thread while it carries out a configuration or
    finishes a snapshot, a handler until it returns, the destructor from its
    first line on. *)
Theorem C87_locks : forall conf a b t ls x,
  go conf ls (started a b t) = Some x ->
  (lk x = Some Committer <-> (pc x = InSnap \/ exists e, pc x = InConf e)) /\
  (lk x = Some Handler <-> h x <> Away) /\
  (lk x = Some Destroyer <-> d x <> D0).
Proof.
  intros conf a b t ls x HG.
  assert (H : lock_inv x /\ owner_there x).
  { refine (go_inv (fun z => lock_inv z /\ owner_there z) (fun _ _ => True) conf _ ls _ x _ _ HG).
    - intros; eapply owner_there_step; eauto.
    - split; [apply started_lock_inv | exact I].
    - apply each_forall. apply Forall_forall. intros; exact I. }
  destruct H as [L O]. unfold owner_there in O.
  pose proof (li_d _ L) as A. pose proof (li_h _ L) as B. pose proof (li_c _ L) as D1.
  split; [|split]; split; intros K.
  - rewrite K in O. destruct (pc x); try discriminate O; eauto.
  - apply D1. destruct K as [-> | [e ->]]; reflexivity.
  - rewrite K in O. destruct (h x); [discriminate O | discriminate..].
  - apply B. destruct (h x); congruence || reflexivity.
  - rewrite K in O. destruct (d x); [discriminate O | discriminate..].
  - apply A. destruct (d x); congruence || reflexivity.
Qed.

(** So while the server is not being destroyed a message that arrives when no
    other is being handled gets in after at most one step of the commit
    thread. *)
Theorem C87_gets_in : forall conf a b t ls x,
  go conf ls (started a b t) = Some x -> d x = D0 -> h x = Away ->
  (exists y, step conf HTake x = Some y) \/
  (exists z y, step conf C x = Some z /\ step conf HTake z = Some y).
Proof.
  intros conf a b t ls x HG HD HH.
  destruct (C87_locks _ _ _ _ _ _ HG) as [A [B E]].
  destruct (lk x) as [[| |]|] eqn:K.
  - right. destruct (proj1 A eq_refl) as [P | [e P]];
      (eexists; eexists; split; [simpl; unfold cstep; rewrite P; reflexivity | simpl; rewrite HH; reflexivity]).
  - exfalso. exact (proj1 B eq_refl HH).
  - exfalso. exact (proj1 E eq_refl HD).
  - left. eexists. simpl. rewrite HH, K. reflexivity.
Qed.

(** the commit thread inside and outside its critical section *)
Example C87_locks_example :
  (exists x, go (fun _ => true) [C; C; C; C; C] (started 1 0 1) = Some x /\
     pc x = InConf 1 /\ lk x = Some Committer /\ step (fun _ => true) HTake x = None) /\
  (exists x, go (fun _ => false) [C; C; C; C; C; CSnap; C; C] (started 1 0 1) = Some x /\
     pc x = Inner /\ lk x = None /\ evs x = [EApply 1 1]).
Proof. split; eexists; (split; [vm_compute; reflexivity|]); repeat split. Qed.

(** While the destructor is past its first line no handler is inside. *)
Lemma handler_out : forall x, lock_inv x -> d x <> D0 -> h x = Away.
Proof.
  intros x L N. destruct (h x) eqn:E; [reflexivity| | | |];
    exfalso; assert (A : lk x = Some Handler) by (apply (li_h _ L); rewrite E; reflexivity);
    assert (B : lk x = Some Destroyer) by (apply (li_d _ L); destruct (d x); congruence || reflexivity);
    congruence.
Qed.

(** The destructor only comes back when the commit thread has ended - if it
    does not wake up by itself. *)
Theorem C87_waits_partial : forall conf a b t ls x,
  Forall (fun l => l <> DSpurious) ls ->
  go conf ls (started a b t) = Some x -> d x = DReturned -> pc x = Gone.
Proof.
  intros conf a b t ls x HF HG HD.
  pose proof (go_inv (fun x => d x = DWoken \/ d x = DReturned -> pc x = Gone) (fun _ l => l <> DSpurious) conf) as G.
  eapply G; [| | apply each_forall; exact HF | exact HG | right; exact HD].
  - clear. intros x l y A N H K.
    destruct x as [q0 s0 t0 st p hh dd l1 c1 s1 ev]. simpl in *.
    destruct l; simpl in H; try congruence.
    all: steps H; subst; try reflexivity; try (now (destruct K; discriminate)); try (now auto).
    all: try (apply A; first [exact K | left; reflexivity]).
    all: try (specialize (A K); discriminate A).
  - simpl. intros [K|K]; discriminate K.
Qed.

(** It is allowed to wake up by itself: then it returns, and the server is
    gone, while the commit thread is still applying entries. *)
Definition early_return : list label :=
  [C; C; C; C; D; D; D; D; D; D; D; DSpurious; D].

Theorem C87_waits_refuted :
  exists ls x, Forall (fun l => l <> CSpurious) ls /\ go (fun _ => false) ls (started 1 0 1) = Some x /\
    d x = DReturned /\ pc x = Hand 1.
Proof.
  exists early_return. eexists. split.
  { unfold early_return. repeat constructor; discriminate. }
  split; [vm_compute; reflexivity|]. split; reflexivity.
Qed.

(** ** When the destructor returns and when it does not *)

(** The states after the notification reached a commit thread that was
    asleep, or one that was about to look whether it has to stop. *)
Definition told (x : cst) : Prop :=
  match pc x with
  | Woken => match d x with D4 | D5 | D6 | DWait | DWoken | DReturned => True | _ => False end
  | Back | Leaving => match d x with D6 | DWait | DWoken | DReturned => True | _ => False end
  | Gone => match d x with DWoken | DReturned => True | _ => False end
  | _ => False
  end.

Lemma told_step : forall conf x l y,
  lock_inv x -> told x -> step conf l x = Some y -> told y.
Proof.
  intros conf x l y L T H.
  assert (HA : h x = Away) by (apply handler_out; [exact L | unfold told in T; destruct (pc x), (d x); congruence || contradiction]).
  destruct L as [A1 A2 A3 A4 A5 A6 A7].
  destruct x as [q0 s0 t0 st p hh dd l1 c1 s1 ev]. simpl in *. subst hh.
  unfold told in *. simpl in *.
  destruct p; try contradiction; destruct dd; try contradiction; simpl in *; subst;
    destruct l; simpl in H; try discriminate H; steps H; try exact I; try discriminate.
Qed.

(** the number of steps the two threads still have to do *)
Definition left_c (x : cst) : nat :=
  match pc x with Woken => 3 | Back => 2 | Leaving => 1 | _ => 0 end.
Definition left_d (x : cst) : nat :=
  match d x with D3 => 6 | D4 => 5 | D5 => 4 | D6 => 3 | DWait => 2 | DWoken => 1 | _ => 0 end.

Definition own_step (l : label) : bool :=
  match l with C | D | DSpurious => true | _ => false end.

Lemma told_measure : forall conf x l y,
  lock_inv x -> told x -> step conf l x = Some y ->
  (left_c y + left_d y + (if own_step l then 1 else 0) <= left_c x + left_d x)%nat.
Proof.
  intros conf x l y L T H.
  assert (HA : h x = Away) by (apply handler_out; [exact L | unfold told in T; destruct (pc x), (d x); congruence || contradiction]).
  destruct L as [A1 A2 A3 A4 A5 A6 A7].
  destruct x as [q0 s0 t0 st p hh dd l1 c1 s1 ev]. simpl in *. subst hh.
  unfold told in *. simpl in *.
  destruct p; try contradiction; destruct dd; try contradiction; simpl in *; subst;
    destruct l; simpl in H; try discriminate H; steps H; unfold left_c, left_d; simpl; try lia; try discriminate.
Qed.

Lemma told_enabled : forall conf x,
  lock_inv x -> told x -> d x <> DReturned ->
  (exists y, step conf C x = Some y) \/ (exists y, step conf D x = Some y).
Proof.
  intros conf x L T N.
  destruct L as [A1 A2 A3 A4 A5 A6 A7].
  destruct x as [q0 s0 t0 st p hh dd l1 c1 s1 ev]. unfold told in *. simpl in *.
  destruct p; try contradiction; destruct dd; try contradiction; try congruence; simpl in *; subst;
    first [ left; eexists; reflexivity | right; eexists; reflexivity ].
Qed.

Fixpoint own_steps (ls : list label) : nat :=
  match ls with [] => 0 | l :: r => (if own_step l then 1 else 0) + own_steps r end.

Lemma told_run : forall conf ls x y,
  lock_inv x -> told x -> go conf ls x = Some y ->
  lock_inv y /\ told y /\ (left_c y + left_d y + own_steps ls <= left_c x + left_d x)%nat.
Proof.
  intros conf; induction ls as [|l r IH]; simpl; intros x y L T G.
  - injection G as <-. split; [exact L|]. split; [exact T|]. lia.
  - destruct (step conf l x) as [z|] eqn:E; [|discriminate].
    destruct (IH z y (lock_inv_step _ _ _ _ L E) (told_step _ _ _ _ L T E) G) as (L' & T' & M).
    split; [exact L'|]. split; [exact T'|].
    pose proof (told_measure _ _ _ _ L T E). lia.
Qed.

(** If the notification finds the commit thread asleep, or just woken, the
    destructor returns: whatever happens, at most eight more steps of the two
    threads are left, and as long as it has not returned one of the two can
    take one. *)
Theorem C87_returns : forall conf a b t ls x ls' y,
  go conf ls (started a b t) = Some x -> d x = D3 -> pc x = Asleep \/ pc x = Woken ->
  go conf (D :: ls') x = Some y ->
  (own_steps ls' <= 8)%nat /\
  (d y = DReturned \/ (exists z, step conf C y = Some z) \/ (exists z, step conf D y = Some z)).
Proof.
  intros conf a b t ls x ls' y G Hd Hp G'.
  pose proof (go_lock_inv _ _ _ _ (started_lock_inv a b t) G) as L.
  change (match step conf D x with Some z => go conf ls' z | None => None end = Some y) in G'.
  destruct (step conf D x) as [z|] eqn:E; [|discriminate].
  pose proof (lock_inv_step _ _ _ _ L E) as Lz.
  assert (T : told z /\ (left_c z + left_d z = 8)%nat).
  { destruct x as [q0 s0 t0 st p hh dd l1 c1 s1 ev]. simpl in *. subst dd.
    unfold dstep in E. simpl in E. injection E as <-. unfold wake. simpl.
    destruct Hp as [-> | ->]; simpl; split; try exact I; reflexivity. }
  destruct T as [T M].
  destruct (told_run _ _ _ _ Lz T G') as (Ly & Ty & My).
  split; [lia|].
  destruct (d y) eqn:Ey; try (left; reflexivity);
    right; apply told_enabled; try assumption; congruence.
Qed.

(** If it finds the commit thread anywhere else - testing for work, applying
    an entry, waiting for lock_, which the destructor holds, or already gone -
    the destructor never returns, unless one of the two wakes up by itself. *)
Definition deaf (x : cst) : Prop :=
  match pc x with Woken | Back | Leaving => False | _ => True end /\
  match d x with D4 | D5 | D6 | DWait => True | _ => False end.

Lemma deaf_step : forall conf x l y,
  lock_inv x -> deaf x -> l <> CSpurious -> l <> DSpurious -> step conf l x = Some y -> deaf y.
Proof.
  intros conf x l y L [T1 T2] N1 N2 H.
  assert (HA : h x = Away) by (apply handler_out; [exact L | destruct (d x); congruence || contradiction]).
  clear L.
  destruct x as [q0 s0 t0 st p hh dd l1 c1 s1 ev]. unfold deaf in *. simpl in *. subst hh.
  destruct l; simpl in H; try congruence.
  all: steps H; subst; try contradiction; try (split; [exact I | first [exact I | exact T2]]).
  all: try (split; [first [exact I | exact T1] | first [exact I | exact T2]]).
Qed.

Theorem C87_hangs_refuted : forall conf a b t ls x ls' y,
  go conf ls (started a b t) = Some x -> d x = D3 ->
  pc x <> Asleep -> pc x <> Woken -> pc x <> Leaving ->
  Forall not_spurious ls' ->
  go conf (D :: ls') x = Some y -> d y <> DReturned.
Proof.
  intros conf a b t ls x ls' y G Hd N1 N2 N3 HF G'.
  pose proof (go_lock_inv _ _ _ _ (started_lock_inv a b t) G) as L.
  change (match step conf D x with Some z => go conf ls' z | None => None end = Some y) in G'.
  destruct (step conf D x) as [z|] eqn:E; [|discriminate].
  pose proof (lock_inv_step _ _ _ _ L E) as Lz.
  assert (T : deaf z).
  { pose proof (li_2 _ L) as K. rewrite Hd in K. specialize (K eq_refl).
    destruct x as [q0 s0 t0 st p hh dd l1 c1 s1 ev]. simpl in *. subst dd.
    unfold dstep in E. simpl in E. injection E as <-. unfold deaf, wake. simpl.
    destruct p; simpl in *; try congruence; split; exact I. }
  clear E G Hd N1 N2 N3 L.
  assert (R : deaf y).
  { revert z Lz T G'. induction ls' as [|l r IH]; simpl; intros z Lz T G'.
    - injection G' as <-. exact T.
    - destruct (step conf l z) as [w|] eqn:E; [|discriminate].
      inversion HF; subst. destruct H1 as [K1 K2].
      eapply IH; [assumption | eapply lock_inv_step; eauto | eapply deaf_step; eauto | exact G']. }
  intro K. destruct R as [_ R]. rewrite K in R. exact R.
Qed.

(** The three ways to get there, each from a server that has just been
    started with one committed entry. In the first the entry is a
    configuration: the commit thread needs lock_, the destructor holds it,
    and no thread of the server can move. *)
Definition hang_conf : list label := [C; C; C; C; D; D; D; D; D; D; D].

Theorem C87_deadlock_refuted :
  exists ls x, Forall not_spurious ls /\ go (fun _ => true) ls (started 1 0 1) = Some x /\
    pc x = WantConf 1 /\ lk x = Some Destroyer /\ d x = DWait /\
    forall l y, not_spurious l -> step (fun _ => true) l x = Some y -> l = HAppend.
Proof.
  exists hang_conf. eexists. split; [apply not_spurious_dec; reflexivity|].
  split; [vm_compute; reflexivity|]. split; [reflexivity|]. split; [reflexivity|]. split; [reflexivity|].
  intros l y [N1 N2] H. destruct l; simpl in H; try discriminate H; try tauto; congruence.
Qed.

(** In the second the commit thread is handing an entry to the state machine
    while the server is told to stop; it finishes and goes to sleep. *)
Example C87_hang_applying :
  exists x y, go (fun _ => false) [C; C; C; C; D; D; D] (started 1 0 1) = Some x /\
    d x = D3 /\ pc x = Hand 1 /\
    go (fun _ => false) [D; C; C; C; D; D; D; C; C; C] x = Some y /\
    pc y = Asleep /\ d y = DWait /\ stopping y = true.
Proof.
  do 2 eexists. split; [vm_compute; reflexivity|]. split; [reflexivity|]. split; [reflexivity|].
  split; [vm_compute; reflexivity|]. repeat split.
Qed.

(** In the third it was woken by a commit just before and sees that it has to
    stop before the destructor waits for it. *)
Example C87_hang_gone :
  exists x y, go (fun _ => false) [C; C; C; HTake; HCommit 1 1; HNotify; HDrop; D; D; C; C; C; D] (started 0 0 0) = Some x /\
    d x = D3 /\ pc x = Gone /\
    go (fun _ => false) [D; D; D; D] x = Some y /\ d y = DWait.
Proof.
  do 2 eexists. split; [vm_compute; reflexivity|]. split; [reflexivity|]. split; [reflexivity|].
  split; [vm_compute; reflexivity|]. repeat split.
Qed.

(** an instance of C87_returns, and of C87_waits_partial *)
Example C87_returns_example :
  exists x y, go (fun _ => false) [C; C; C; D; D; D] (started 0 0 0) = Some x /\
    d x = D3 /\ pc x = Asleep /\
    go (fun _ => false) [D; D; D; C; D; C; C; D] x = Some y /\ d y = DReturned /\ pc y = Gone.
Proof.
  do 2 eexists. split; [vm_compute; reflexivity|]. split; [reflexivity|]. split; [reflexivity|].
  split; [vm_compute; reflexivity|]. repeat split.
Qed.

(** ** C88 *)

(** the position a state machine that was at [a] is at after [es] *)
Fixpoint pos (a : N) (es : list event) : N :=
  match es with
  | [] => a
  | EApply _ e :: r => pos e r
  | EConf e :: r => pos e r
  | ESnap i :: r => pos i r
  end.

Definition next_ok (conf : N -> bool) (a : N) (e : event) : Prop := in_order conf a [e].

Lemma in_order_snoc : forall conf es a e,
  in_order conf a es -> next_ok conf (pos a es) e -> in_order conf a (es ++ [e]).
Proof.
  intros conf; induction es as [|f r IH]; simpl; intros a e HI HN; [exact HN|].
  destruct f.
  - destruct HI as (? & ? & ? & HI). subst. repeat (split; [reflexivity || assumption|]). apply IH; assumption.
  - destruct HI as (? & ? & HI). repeat (split; [assumption|]). apply IH; assumption.
  - destruct HI as (? & HI). split; [assumption|]. apply IH; assumption.
Qed.

Lemma pos_snoc : forall es a e,
  pos a (es ++ [e]) = match e with EApply _ k => k | EConf k => k | ESnap i => i end.
Proof.
  induction es as [|f r IH]; simpl; intros a e; [destruct e; reflexivity|].
  destruct f; apply IH.
Qed.

(** Between installations: everything up to sm_commit_index_ has been handed
    over, except for the entry in hand. *)
Definition applied_ok (conf : N -> bool) (b : N) (x : cst) : Prop :=
  in_order conf b (evs x) /\
  match h x with
  | SnapDone i => pos b (evs x) = i /\ ~ applying x /\ s x < i
  | SnapS i => pos b (evs x) = i /\ ~ applying x /\ s x = i
  | _ => match pc x with
         | Fetch => pos b (evs x) + 1 = s x /\ s x <= q x
         | Hand e => pos b (evs x) + 1 = s x /\ s x <= q x /\ e = s x /\ conf e = false
         | WantConf e | InConf e => pos b (evs x) + 1 = s x /\ s x <= q x /\ e = s x /\ conf e = true
         | Bump => pos b (evs x) = s x /\ s x < q x
         | _ => pos b (evs x) = s x /\ s x <= q x
         end
  end.

Lemma applied_ok_step : forall conf b x l y,
  applied_ok conf b x -> apart x l -> step conf l x = Some y -> applied_ok conf b y.
Proof.
  intros conf b x l y [A B] P H.
  destruct x as [q0 s0 t0 st p hh dd l1 c1 s1 ev]. unfold applied_ok, applying in *. simpl in *.
  destruct l; unfold apart, applying, installing, unapplied in P; simpl in P.
  all: unfold step, cstep, dstep, wake, wake_d, work in H; simpl in H.
  all: destruct hh; try discriminate H.
  all: destruct p; simpl in B, P, H; try discriminate H; try (exfalso; tauto).
  all: repeat match type of H with
         | context [match ?a with _ => _ end] => destruct a eqn:?; try discriminate H
         end.
  all: injection H as <-; simpl; rewrite ?pos_snoc.
  all: try (split; [exact A | first [exact B | tauto]]).
  all: repeat match goal with
       | E : _ && _ = true |- _ => apply andb_true_iff in E; destruct E
       | E : (_ <? _) = true |- _ => apply N.ltb_lt in E
       end.
  all: try (split; [exact A | lia]).
  all: try (split; [exact A | repeat split; first [lia | assumption | reflexivity]]).
  all: try (split; [apply in_order_snoc; [exact A | unfold next_ok; simpl; repeat split; first [lia | tauto | (destruct B as (? & ? & ? & ?); subst; assumption)]] | repeat split; first [lia | tauto]]).
  all: try (exfalso; apply (P I eq_refl); split; assumption).
  all: destruct B as (B1 & B2 & B3 & B4); split; [exact A|]; repeat split; try assumption; lia.
Qed.

(** If snapshots are installed only while the commit thread is not applying
    entries, then, however the threads are interleaved, the state machine is
    handed every entry once, in order and under its own index, and only
    entries that are committed; after a snapshot it goes on with the entry
    that follows it. *)
Theorem C88_in_order_partial : forall conf a b t ls x,
  b <= a ->
  go conf ls (started a b t) = Some x ->
  each apart conf ls (started a b t) ->
  in_order conf b (evs x) /\
  (h x = Away -> (s x = pos b (evs x) \/ s x = pos b (evs x) + 1) /\ s x <= q x).
Proof.
  intros conf a b t ls x LE HG HE.
  assert (I0 : applied_ok conf b (started a b t)).
  { split; simpl; [exact I|]. split; [reflexivity | exact LE]. }
  destruct (go_inv (applied_ok conf b) apart conf (applied_ok_step conf b) ls _ _ I0 HE HG) as [A B].
  split; [exact A|]. intros Hh. rewrite Hh in B. destruct (pc x); lia.
Qed.

(** Nothing in the code keeps the two apart. The snapshot is installed after
    the commit thread has fetched entry 1: the state machine, already at 5,
    is handed entry 1, under index 5. *)
Definition race_index : list label := [C; C; C; C; HTake; HSnap 5; HSnapS; HSnapQ; HDrop; C].

Theorem C88_index_refuted :
  exists ls x, Forall not_spurious ls /\ go (fun _ => false) ls (started 1 0 1) = Some x /\
    evs x = [ESnap 5; EApply 5 1].
Proof.
  exists race_index. eexists. split; [apply not_spurious_dec; reflexivity|].
  split; [vm_compute; reflexivity|]. reflexivity.
Qed.

(** It is installed after the test and before the position moves: entry 6 is
    fetched and handed over, which is neither committed nor in the log. *)
Definition race_uncommitted : list label := [C; C; HTake; HSnap 5; HSnapS; HSnapQ; HDrop; C; C; C].

Theorem C88_uncommitted_refuted :
  exists ls x, Forall not_spurious ls /\ go (fun _ => false) ls (started 1 0 1) = Some x /\
    evs x = [ESnap 5; EApply 6 6] /\ q x = 5 /\ top x = 5.
Proof.
  exists race_uncommitted. eexists. split; [apply not_spurious_dec; reflexivity|].
  split; [vm_compute; reflexivity|]. repeat split.
Qed.

(** It is installed while the commit thread waits for lock_ with a
    configuration in hand: the old configuration is carried out after the
    snapshot's. *)
Definition race_conf : list label := [HTake; C; C; C; C; HSnap 5; HSnapS; HSnapQ; HDrop; C; C].

Theorem C88_conf_refuted :
  exists ls x, Forall not_spurious ls /\ go (fun _ => true) ls (started 1 0 1) = Some x /\
    evs x = [ESnap 5; EConf 1].
Proof.
  exists race_conf. eexists. split; [apply not_spurious_dec; reflexivity|].
  split; [vm_compute; reflexivity|]. reflexivity.
Qed.

(** an instance of C88_in_order_partial *)
Example C88_in_order_example :
  let conf := fun i => i =? 2 in
  let ls := [C; C; C; C; C; C; C; C; C; C; C; CSnap; C; C; C; C; C; C; HTake; HSnap 5; HSnapS; HSnapQ; HCommit 6 6; HNotify; HDrop; C; C; C; C; C; C; C] in
  exists x, go conf ls (started 2 0 2) = Some x /\ each apart conf ls (started 2 0 2) /\
    evs x = [EApply 1 1; EConf 2; ESnap 5; EApply 6 6].
Proof.
  cbv zeta. eexists. split; [vm_compute; reflexivity|]. split; [|reflexivity].
  cbv. repeat split; try (intros; discriminate); try (intros K; exact K); try (intros K; destruct K).
Qed.

Print Assumptions C86_catches_up.
Print Assumptions C86_commit_wakes.
Print Assumptions C86_window_partial.
Print Assumptions C86_lost_refuted.
Print Assumptions C87_locks.
Print Assumptions C87_gets_in.
Print Assumptions C87_waits_partial.
Print Assumptions C87_waits_refuted.
Print Assumptions C87_returns.
Print Assumptions C87_hangs_refuted.
Print Assumptions C87_deadlock_refuted.
Print Assumptions C88_in_order_partial.
Print Assumptions C88_index_refuted.
Print Assumptions C88_uncommitted_refuted.
Print Assumptions C88_conf_refuted.
