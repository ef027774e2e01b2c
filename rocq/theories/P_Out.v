(** * Property C25: one outstanding append-entries or snapshot request per peer *)

From Verif Require Import Base Buffer Codec CodecSpec Msg FsLogStore FsLogSpec Alog Raft RaftQuiet RaftWalk NodeSpec NodeFacts NodeExamples PeerWalk PeerInv P_Leader.
Local Open Scope N_scope.

(** ** Words: what goes out to, and comes back from, each peer *)
Inductive mark := Sent (uid : N) | Done (uid : N) | Lead.
(** an append-entries or install-snapshot request to a member (not to the server
    being added), and the completion of one *)
Definition act_mark (a : act) : list mark :=
  match a with
  | ASend uid false q => if bulk q then [Sent uid] else []
  | ABecomeLeader _ => [Lead]
  | _ => []
  end.
Definition event_mark (e : event) : list mark :=
  match e with ERpc _ uid false q _ => if bulk q then [Done uid] else [] | _ => [] end.
Definition flow (h : list obs) : list mark :=
  concat (map (fun o => event_mark (o_event o) ++ concat (map act_mark (o_acts o))) h).
Fixpoint sent (uid : N) (l : list mark) : nat :=
  match l with [] => 0 | Sent u :: l => (if u =? uid then 1 else 0) + sent uid l | _ :: l => sent uid l end.
Fixpoint finished (uid : N) (l : list mark) : nat :=
  match l with [] => 0 | Done u :: l => (if u =? uid then 1 else 0) + finished uid l | _ :: l => finished uid l end.
(** every completion belongs to a request that was sent and had not completed;
    retried requests are those the server retries *)
Definition completions_ok (h : list obs) : Prop :=
  (forall l1 uid l2, flow h = l1 ++ Done uid :: l2 -> (finished uid l1 < sent uid l1)%nat) /\
  (forall h1 now uid q r l a h2, h = h1 ++ mkObs (ERpc now uid true q r) l a :: h2 ->
     exists o, In o h1 /\ In (ASend uid true q) (o_acts o)) /\
  retries_okay h.
(** nothing is outstanding whenever the server becomes leader *)
Definition calm (h : list obs) : Prop :=
  forall l1 l2 uid, flow h = l1 ++ Lead :: l2 -> (sent uid l1 <= finished uid l1)%nat.

(** ** The invariant *)
Definition shape (p : peer) : Z * N * bool := (p_id p, p_uid p, p_busy p).
Definition opt {A} (x : option A) : list A := match x with Some a => [a] | None => [] end.
Definition uid_of (x : Z * N * bool) : N := snd (fst x).
Definition id_of (x : Z * N * bool) : Z := fst (fst x).
Definition shapes (n : node) := map shape (n_peers n).
Definition joining (n : node) := option_map p_uid (n_join n).
Record inv' (o : N -> nat) (E : N -> Prop) (l : list (Z * N * bool)) (j : option N) (u : N) : Prop := mkInv {
  i_uids : NoDup (map uid_of l ++ opt j);
  i_ids : NoDup (map id_of l);
  i_lt : forall x, In x (map uid_of l ++ opt j) -> x < u;
  i_busy : forall x, In x l -> o (uid_of x) = 0%nat \/ snd x = true;
  i_one : forall x, (o x <= 1)%nat;
  i_join : forall x, j = Some x -> o x = 0%nat;
  i_new : forall x, u <= x -> o x = 0%nat /\ ~ E x;
  i_ext : forall x, In x l -> ~ E (uid_of x) }.
Definition inv o E n := inv' o E (shapes n) (joining n) (n_uid n).

Definition act_sent (x : N) (l : list act) : nat := sent x (concat (map act_mark l)).
Definition out_after (o : N -> nat) (l : list act) : N -> nat := fun x => (o x + act_sent x l)%nat.
Definition ext_after (E : N -> Prop) (l : list act) : N -> Prop := fun x => E x \/ exists q, In (ASend x true q) l /\ bulk q = true.
Definition early (o : N -> nat) (l : list act) : Prop :=
  exists l0 t l1 x, l = l0 ++ ABecomeLeader t :: l1 /\ (o x + act_sent x l0 <> 0)%nat.
Definition orel : rel := fun n l n' => (n_id n' = n_id n /\ n_prm n' = n_prm n) /\
  forall o E, inv o E n -> early o l \/ inv (out_after o l) (ext_after E l) n'.

Lemma sent_app : forall x l m, sent x (l ++ m) = (sent x l + sent x m)%nat.
Proof. intros x l m. induction l as [|[u|u|] l IH]; cbn; lia. Qed.
Lemma finished_app : forall x l m, finished x (l ++ m) = (finished x l + finished x m)%nat.
Proof. intros x l m. induction l as [|[u|u|] l IH]; cbn; lia. Qed.
Lemma act_sent_app : forall x l m, act_sent x (l ++ m) = (act_sent x l + act_sent x m)%nat.
Proof. intros x l m. unfold act_sent. rewrite map_app, concat_app. apply sent_app. Qed.
Lemma inv'_ext : forall o (E : N -> Prop) o' (E' : N -> Prop) l j u, (forall x, o' x = o x) -> (forall x, E' x -> E x) -> inv' o E l j u -> inv' o' E' l j u.
Proof.
  intros o E o' E' l j u Ho HE [? ? ? ? ? ? ? ?]. constructor; auto.
  - intros x Hx. rewrite Ho. auto.
  - intros x. rewrite Ho. auto.
  - intros x Hx. rewrite Ho. auto.
  - intros x Hx. rewrite Ho. destruct (i_new0 x Hx). auto.
  - intros x Hx. specialize (i_ext0 x Hx). auto.
Qed.
#[global] Instance orel_pre : preorder orel.
Proof.
  split.
  - intros n. split; [split; reflexivity|]. intros o E I. right. revert I. apply inv'_ext.
    + intros x. unfold out_after, act_sent. cbn. lia.
    + intros x [H|(q & [] & _)]; exact H.
  - intros n l n1 l1 n2 ((A1 & A2) & A3) ((B1 & B2) & B3). split; [split; congruence|]. intros o E I. destruct (A3 o E I) as [C|C].
    + left. destruct C as (l0 & t & m & x & -> & Hx). exists l0, t, (m ++ l1), x. rewrite <- app_assoc. split; [reflexivity | exact Hx].
    + destruct (B3 _ _ C) as [D|D].
      * left. destruct D as (l0 & t & m & x & -> & Hx). exists (l ++ l0), t, m, x. rewrite <- app_assoc. split; [reflexivity|].
        rewrite act_sent_app. unfold out_after in Hx. lia.
      * right. revert D. apply inv'_ext.
        -- intros x. unfold out_after. rewrite act_sent_app. lia.
        -- intros x [H|(q & H & Hq)]; [left; left; exact H|]. apply in_app_or in H. destruct H as [H|H]; [left; right | right]; exists q; auto.
Qed.
Lemma quiet_sent : forall x l, Forall no_send l -> act_sent x l = 0%nat.
Proof.
  intros x l H. induction H as [|a l Ha _ IH]; [reflexivity|]. change (a :: l) with ([a] ++ l). rewrite act_sent_app, IH.
  destruct a; cbn in Ha; try contradiction; reflexivity.
Qed.
Lemma quiet_ext : forall (E : N -> Prop) l x, Forall no_send l -> ext_after E l x -> E x.
Proof. intros E l x H [C|(q & C & _)]; [exact C|]. rewrite Forall_forall in H. specialize (H _ C). contradiction. Qed.
(** nothing is sent, the peers look the same *)
Lemma orel_core : forall n n' l, n_id n' = n_id n -> n_prm n' = n_prm n -> shapes n' = shapes n -> joining n' = joining n -> n_uid n' = n_uid n ->
  Forall no_send l -> orel n l n'.
Proof.
  intros n n' l H1 H2 H3 H4 H5 Hl. split; [split; assumption|]. intros o E I. right. unfold inv in *. rewrite H3, H4, H5. revert I. apply inv'_ext.
  - intros x. unfold out_after. rewrite quiet_sent by exact Hl. lia.
  - intros x. apply quiet_ext, Hl.
Qed.
Lemma orel_quiet : forall n n', n_id n' = n_id n -> n_prm n' = n_prm n -> (forall o E, inv o E n -> inv o E n') -> orel n [] n'.
Proof.
  intros n n' H1 H2 H. split; [split; assumption|]. intros o E I. right. specialize (H o E I). revert H. apply inv'_ext.
  - intros x. unfold out_after, act_sent. cbn. lia.
  - intros x. apply quiet_ext. constructor.
Qed.
Lemma pfun_shape : forall pm f, pfun pm f -> forall p, shape (f p) = shape p.
Proof.
  intros pm f H p. unfold shape. destruct H; try reflexivity. destruct (_ && _); [reflexivity|]. destruct (0 <? _); reflexivity.
Qed.
Lemma upd_shapes : forall r f n, (forall p, shape (f p) = shape p) -> shapes (upd_peer r f n) = shapes n /\ joining (upd_peer r f n) = joining n.
Proof.
  intros r f n H. destruct r as [i|]; unfold shapes, joining; cbn [upd_peer n_peers n_join set_peers set_join].
  - split; [|reflexivity]. unfold upd_peers. rewrite map_map. apply map_ext. intros p. destruct (p_id p =? i)%Z; [apply H | reflexivity].
  - split; [reflexivity|]. destruct (n_join n) as [j|]; [|reflexivity]. cbn. specialize (H j). unfold shape in H. injection H as _ H _. rewrite H. reflexivity.
Qed.
Lemma orel_upd : forall r f n l, (forall p, shape (f p) = shape p) -> Forall no_send l -> orel n l (upd_peer r f n).
Proof.
  intros r f n l H Hl. destruct (upd_shapes r f n H). apply orel_core; try assumption; destruct r; reflexivity.
Qed.
Lemma orel_view : forall n n' l, pview n' = pview n -> Forall no_send l -> orel n l n'.
Proof. intros n n' l H Hl. unfold pview in H. injection H as H1 H2 H3 H4 H5. apply orel_core; unfold shapes, joining; rewrite ?H1, ?H2; assumption || reflexivity. Qed.

Lemma orel_disable : forall n, orel n [] (set_peers (map p_disable_hb (n_peers n)) n).
Proof. intros n. apply orel_core; try reflexivity; [|constructor]. unfold shapes. cbn. rewrite map_map. reflexivity. Qed.
Lemma orel_nojoin : forall n, orel n [] (set_join None n).
Proof.
  intros n. apply orel_quiet; try reflexivity. intros o E [? ? ? ? ? ? ? ?]. unfold inv, shapes, joining in *. cbn [n_peers n_join set_join option_map n_uid] in *. constructor; auto.
  - cbn [opt]. rewrite app_nil_r. clear - i_uids0. induction (map uid_of _); [constructor|]. cbn in i_uids0. inversion i_uids0; subst. constructor; [|auto]. intros X. apply H1, in_or_app. auto.
  - intros x Hx. apply i_lt0. cbn [opt] in Hx. rewrite app_nil_r in Hx. apply in_or_app. auto.
  - discriminate.
Qed.
Lemma orel_rm : forall id n, orel n [] (set_peers (rm_peer id (n_peers n)) n).
Proof.
  intros id n. apply orel_quiet; try reflexivity. intros o E [? ? ? ? ? ? ? ?]. unfold inv, shapes, joining, rm_peer in *. cbn [n_peers n_join set_peers n_uid] in *.
  set (g := fun p => negb (p_id p =? id)%Z). assert (Hin : forall x, In x (map shape (filter g (n_peers n))) -> In x (map shape (n_peers n))).
  { intros x Hx. apply in_map_iff in Hx. destruct Hx as (p & <- & Hp). apply filter_In in Hp. apply in_map. tauto. }
  constructor; auto.
  - rewrite map_map in *. clear - i_uids0. induction (n_peers n) as [|p l IH]; [exact i_uids0|]. cbn in *. inversion i_uids0; subst. destruct (g p); cbn; [|auto]. constructor; [|auto].
    intros X. apply H1. apply in_app_or in X. apply in_or_app. destruct X as [X|X]; [left|auto]. apply in_map_iff in X. destruct X as (y & Hy & Iy). apply filter_In in Iy. rewrite <- Hy. apply (in_map (fun p => uid_of (shape p))). tauto.
  - rewrite map_map in *. clear - i_ids0. induction (n_peers n) as [|p l IH]; [exact i_ids0|]. cbn in *. inversion i_ids0; subst. destruct (g p); cbn; [|auto]. constructor; [|auto].
    intros X. apply H1. apply in_map_iff in X. destruct X as (y & Hy & Iy). apply filter_In in Iy. rewrite <- Hy. apply (in_map (fun p => id_of (shape p))). tauto.
  - intros x Hx. apply i_lt0. apply in_app_or in Hx. apply in_or_app. destruct Hx as [Hx|Hx]; [left | auto]. apply in_map_iff in Hx. destruct Hx as (y & <- & Hy). apply in_map, Hin, Hy.
Qed.
Lemma orel_insert : forall s n nx, orel n [] (insert_peer (sc_id s) nx (new_peer (n_uid n) s (n_prm n)) (set_uid (n_uid n + 1) n)).
Proof.
  intros s n nx. unfold insert_peer. change (n_peers (set_uid _ n)) with (n_peers n). destruct (find_peer (sc_id s) (n_peers n)) eqn:F.
  - apply orel_quiet; try reflexivity. intros o E [? ? ? ? ? ? ? ?]. unfold inv, shapes, joining in *. cbn [n_peers n_join set_uid n_uid] in *. constructor; auto.
    + intros x Hx. specialize (i_lt0 x Hx). lia.
    + intros x Hx. apply i_new0. lia.
  - apply orel_quiet; try reflexivity. intros o E [? ? ? ? ? ? ? ?]. unfold inv, shapes, joining in *. cbn [n_peers n_join set_peers set_uid n_uid] in *.
    rewrite map_app. cbn [map]. change (shape (p_set_next nx _)) with (sc_id s, n_uid n, false).
    assert (Nu : ~ In (n_uid n) (map uid_of (map shape (n_peers n)) ++ opt (option_map p_uid (n_join n)))) by (intros X; specialize (i_lt0 _ X); lia).
    assert (Ni : ~ In (sc_id s) (map id_of (map shape (n_peers n)))).
    { intros X. rewrite map_map in X. apply in_map_iff in X. destruct X as (x & Ex & Hin). assert (Y := find_none _ _ F x Hin). cbn in Y, Ex. rewrite Ex, Z.eqb_refl in Y. discriminate. }
    destruct (i_new0 (n_uid n)) as [O1 O2]; [lia|].
    assert (Hc : forall x, In x (map shape (n_peers n) ++ [(sc_id s, n_uid n, false)]) -> In x (map shape (n_peers n)) \/ x = (sc_id s, n_uid n, false)).
    { intros x Hx. apply in_app_or in Hx. destruct Hx as [Hx|[Hx|[]]]; auto. }
    constructor; auto.
    + rewrite map_app, <- app_assoc. cbn [map app]. apply NoDup_Add with (a := n_uid n) (l := map uid_of (map shape (n_peers n)) ++ opt (option_map p_uid (n_join n))); [apply Add_app | split; assumption].
    + rewrite map_app. cbn [map]. apply NoDup_Add with (a := sc_id s) (l := map id_of (map shape (n_peers n))); [|split; assumption].
      replace (map id_of (map shape (n_peers n))) with (map id_of (map shape (n_peers n)) ++ []) at 1 by apply app_nil_r. apply Add_app.
    + intros x Hx. rewrite map_app, <- app_assoc in Hx. cbn [map app] in Hx. apply in_app_or in Hx. destruct Hx as [Hx|[Hx|Hx]].
      * specialize (i_lt0 x ltac:(apply in_or_app; auto)). lia.
      * cbn in Hx. lia.
      * specialize (i_lt0 x ltac:(apply in_or_app; auto)). lia.
    + intros x Hx. destruct (Hc x Hx) as [Hx'| ->]; [auto | left; exact O1].
    + intros x Hx. apply i_new0. lia.
    + intros x Hx. destruct (Hc x Hx) as [Hx'| ->]; [auto | exact O2].
Qed.
Lemma orel_join : forall s n, orel n [] (set_join (Some (new_peer (n_uid n) s (n_prm n))) (set_uid (n_uid n + 1) n)).
Proof.
  intros s n. apply orel_quiet; try reflexivity. intros o E [? ? ? ? ? ? ? ?]. unfold inv, shapes, joining in *. cbn [n_peers n_join set_join set_uid n_uid option_map p_uid new_peer opt] in *.
  destruct (i_new0 (n_uid n)) as [O1 O2]; [lia|]. constructor; auto.
  - apply NoDup_Add with (a := n_uid n) (l := map uid_of (map shape (n_peers n))).
    + replace (map uid_of (map shape (n_peers n))) with (map uid_of (map shape (n_peers n)) ++ []) at 1 by apply app_nil_r. apply Add_app.
    + split.
      * clear - i_uids0. induction (map uid_of _); [constructor|]. cbn in i_uids0. inversion i_uids0; subst. constructor; [|auto]. intros X. apply H1, in_or_app. auto.
      * intros X. specialize (i_lt0 (n_uid n) ltac:(apply in_or_app; auto)). lia.
  - intros x Hx. apply in_app_or in Hx. destruct Hx as [Hx|[<-|[]]]; [|lia]. specialize (i_lt0 x ltac:(apply in_or_app; auto)). lia.
  - intros x Hx. injection Hx as <-. exact O1.
  - intros x Hx. apply i_new0. lia.
Qed.
(** a message to the server being added, or one that is neither append-entries nor a snapshot *)
Lemma orel_other : forall n uid ext q p, In p (n_peers n) \/ n_join n = Some p -> p_uid p = uid ->
  (ext = true /\ n_join n = Some p) \/ bulk q = false -> orel n [ASend uid ext q] n.
Proof.
  intros n uid ext q p Hp Hu Hq. split; [split; reflexivity|]. intros o E I. right. destruct I as [? ? ? ? ? ? ? ?].
  assert (Ho : forall x, out_after o [ASend uid ext q] x = o x).
  { intros x. unfold out_after, act_sent. cbn [map concat app act_mark]. destruct Hq as [[-> _]| ->]; [cbn; lia|]. destruct ext; cbn; lia. }
  assert (HE : forall x, ext_after E [ASend uid ext q] x -> E x \/ (joining n = Some x)).
  { intros x [H|(q' & [H|[]] & B)]; [left; exact H|]. injection H as -> -> ->. right. destruct Hq as [[_ Hq]|Hq]; [|congruence]. unfold joining. rewrite Hq. cbn. congruence. }
  constructor; auto.
  - intros x Hx. rewrite Ho. auto.
  - intros x. rewrite Ho. auto.
  - intros x Hx. rewrite Ho. auto.
  - intros x Hx. rewrite Ho. destruct (i_new0 x Hx). split; [assumption|]. intros C. destruct (HE x C) as [C1|C1]; [auto|].
    specialize (i_lt0 x ltac:(apply in_or_app; right; rewrite C1; left; reflexivity)). lia.
  - intros x Hx C. destruct (HE _ C) as [C1|C1]; [exact (i_ext0 x Hx C1)|]. rewrite C1 in i_uids0. cbn [opt] in i_uids0. apply NoDup_remove_2 in i_uids0. apply i_uids0. rewrite app_nil_r. apply in_map, Hx.
Qed.

(** ** Sending append-entries: only when the peer is free *)
Definition screl : rel := fun n l n' =>
  (n_id n' = n_id n /\ n_prm n' = n_prm n) /\ (shapes n' = shapes n /\ joining n' = joining n) /\ n_uid n' = n_uid n /\ Forall no_send l.
#[global] Instance screl_pre : preorder screl.
Proof.
  split; unfold screl; intros; [repeat split; constructor|]. destruct H as ((A & B) & (C & D) & F & G), H0 as ((A' & B') & (C' & D') & F' & G').
  repeat split; try congruence. apply Forall_app. split; assumption.
Qed.
Lemma screl_upd : forall r f n, (forall p, shape (f p) = shape p) -> screl n [] (upd_peer r f n).
Proof. intros r f n H. destruct (upd_shapes r f n H). repeat split; try assumption; try (destruct r; reflexivity). constructor. Qed.
Lemma screl_view : forall n n' l, pview n' = pview n -> Forall no_send l -> screl n l n'.
Proof. intros n n' l H Hl. unfold pview in H. injection H as H1 H2 H3 H4 H5. repeat split; unfold shapes, joining; rewrite ?H1, ?H2; assumption || reflexivity. Qed.
Ltac sc := first [apply screl_upd; intros ?; reflexivity | apply screl_view; [reflexivity | repeat constructor]].
Lemma create_sc : forall r n, ht screl yes (create_append_entries_req r) n.
Proof. intros r n. unfold create_append_entries_req. open_send. unfold the_peer. walk sc. Qed.
Lemma find_shape : forall id l l' p, map shape l' = map shape l -> find_peer id l = Some p -> exists p', find_peer id l' = Some p' /\ shape p' = shape p.
Proof.
  intros id l. induction l as [|a l IH]; intros l' p H F; [discriminate|]. destruct l' as [|b l']; [discriminate|]. cbn [map] in H. injection H as H1 H2 H3 H4.
  unfold find_peer in *. cbn [find] in *. rewrite H1. destruct (p_id a =? id)%Z.
  - injection F as <-. exists b. unfold shape. split; [reflexivity | congruence].
  - apply IH; assumption.
Qed.
Lemma uids_inj : forall l j x y, NoDup (map uid_of l ++ opt j) -> In x l -> In y l -> uid_of x = uid_of y -> x = y.
Proof.
  intros l j x y. induction l as [|a l IH]; cbn; [contradiction|]. intros N. inversion N; subst. intros [->|Hx] [->|Hy] E; auto.
  - exfalso. apply H1. rewrite E. apply in_or_app. left. apply in_map, Hy.
  - exfalso. apply H1. rewrite <- E. apply in_or_app. left. apply in_map, Hx.
Qed.
(** a request to a free peer, now busy *)
Lemma inv_send : forall o E n uid q p, inv o E n -> In p (n_peers n) -> p_uid p = uid -> p_busy p = true -> o uid = 0%nat ->
  inv (out_after o [ASend uid false q]) (ext_after E [ASend uid false q]) n.
Proof.
  intros o E n uid q p [? ? ? ? ? ? ? ?] Hp Hu Hb Ho.
  assert (A : forall x, (out_after o [ASend uid false q] x <= o x + if N.eqb uid x then 1 else 0)%nat).
  { intros x. unfold out_after, act_sent. cbn [map concat app act_mark]. destruct (bulk q); cbn [sent app]; destruct (uid =? x); lia. }
  assert (Hs : In (shape p) (shapes n)) by (apply in_map, Hp).
  assert (Hlt : uid < n_uid n) by (apply i_lt0, in_or_app; left; apply in_map_iff; exists (shape p); split; [exact Hu | exact Hs]).
  assert (HE : forall x, ext_after E [ASend uid false q] x -> E x) by (intros x [C|(q' & [C|[]] & _)]; [exact C | discriminate]).
  constructor; auto.
  - intros x Hx. destruct (N.eq_dec uid (uid_of x)) as [e|e].
    + right. replace x with (shape p); [exact Hb|]. eapply uids_inj; [exact i_uids0 | exact Hs | exact Hx|]. rewrite <- e. exact Hu.
    + specialize (A (uid_of x)). replace (uid =? uid_of x) with false in A by lia. destruct (i_busy0 x Hx); [left; lia | right; assumption].
  - intros x. specialize (A x). specialize (i_one0 x). destruct (uid =? x) eqn:e; [|lia]. replace x with uid in * by lia. lia.
  - intros x Hx. specialize (A x). specialize (i_join0 x Hx). destruct (uid =? x) eqn:e; [|lia]. exfalso.
    rewrite Hx in i_uids0. cbn [opt] in i_uids0. apply NoDup_remove_2 in i_uids0. apply i_uids0. rewrite app_nil_r. apply in_map_iff. exists (shape p).
    split; [cbn; lia | exact Hs].
  - intros x Hx. destruct (i_new0 x Hx). specialize (A x). split; [|auto]. destruct (uid =? x) eqn:e; lia.
  - intros x Hx C. exact (i_ext0 x Hx (HE _ C)).
Qed.
Lemma inv_busy : forall o E n id, inv o E n -> inv o E (upd_peer (PPeer id) (p_set_busy true) n).
Proof.
  intros o E n id [? ? ? ? ? ? ? ?]. unfold inv, shapes, joining in *. cbn [upd_peer n_peers n_join set_peers n_uid].
  assert (Hm : forall A (f : Z * N * bool -> A), (forall i u b b', f (i, u, b) = f (i, u, b')) -> map f (map shape (upd_peers id (p_set_busy true) (n_peers n))) = map f (map shape (n_peers n))).
  { intros A f Hf. unfold upd_peers. rewrite !map_map. apply map_ext. intros p. destruct (p_id p =? id)%Z; [apply Hf | reflexivity]. }
  assert (Hu : map uid_of (map shape (upd_peers id (p_set_busy true) (n_peers n))) = map uid_of (map shape (n_peers n))) by (apply Hm; reflexivity).
  assert (Hi : map id_of (map shape (upd_peers id (p_set_busy true) (n_peers n))) = map id_of (map shape (n_peers n))) by (apply Hm; reflexivity).
  assert (Hin : forall x, In x (map shape (upd_peers id (p_set_busy true) (n_peers n))) -> exists y, In y (map shape (n_peers n)) /\ uid_of y = uid_of x /\ (snd y = true -> snd x = true)).
  { intros x Hx. unfold upd_peers in Hx. rewrite map_map in Hx. apply in_map_iff in Hx. destruct Hx as (p & <- & Hp). exists (shape p). split; [apply in_map, Hp|].
    destruct (p_id p =? id)%Z; auto. }
  constructor; rewrite ?Hu, ?Hi; auto.
  - intros x Hx. destruct (Hin x Hx) as (y & Hy & Ey & By). rewrite <- Ey. destruct (i_busy0 y Hy); auto.
  - intros x Hx. destruct (Hin x Hx) as (y & Hy & Ey & By). rewrite <- Ey. auto.
Qed.
Lemma orel_send : forall id n, ht orel yes (request_append_entries_to id) n.
Proof.
  intros id n. unfold request_append_entries_to, the_peer. apply ht_assoc, ht_bget. destruct (get_peer (PPeer id) n) as [p|] eqn:G; [|apply ht_bub; exact _].
  apply ht_bret. destruct (p_busy p) eqn:B; [apply ht_ret; [exact _ | exact I]|].
  intros r n' l H. split; [|intros; exact I]. rewrite bind_modify in H. set (n1 := upd_peer (PPeer id) (p_set_busy true) n) in *.
  unfold bind at 1 in H. destruct (create_append_entries_req (PPeer id) n1) as [[x n2] l1] eqn:C.
  destruct (create_sc _ _ _ _ _ C) as [((C1 & C2) & (C3 & C4) & C5 & C6) _]. cbn [get_peer] in G.
  assert (Hp : In p (n_peers n) /\ p_id p = id) by (apply find_peer_in, G).
  assert (G1 : find_peer id (n_peers n1) = Some (p_set_busy true p)) by (apply find_peer_upd; [reflexivity | exact G]).
  destruct (find_shape _ _ _ _ C3 G1) as (p2 & G2 & S2).
  assert (Hq : forall o E, inv o E n -> inv o E n1 /\ o (p_uid p) = 0%nat).
  { intros o E I. split; [apply inv_busy, I|]. destruct (i_busy _ _ _ _ _ I (shape p) ltac:(apply in_map, Hp)) as [X|X]; [exact X | cbn in X; congruence]. }
  assert (K2 : forall o E, inv o E n -> inv (out_after o l1) (ext_after E l1) n2).
  { intros o E I. destruct (Hq o E I) as [I1 _]. unfold inv. rewrite C3, C4, C5. revert I1. apply inv'_ext.
    - intros y. unfold out_after. rewrite quiet_sent by exact C6. lia.
    - intros y. apply quiet_ext, C6. }
  assert (K : orel n l1 n2) by (split; [split; [rewrite C1; reflexivity | rewrite C2; reflexivity] | intros o E I; right; apply K2, I]).
  destruct x as [q|e|u|]; try (injection H as <- <- <-; exact K).
  unfold send_req, the_peer in H. rewrite !bind_assoc in H. rewrite bind_get in H. cbn [get_peer] in H. rewrite G2, bind_ret, bind_emit in H. unfold after, ret in H. cbn [fst snd app disk_apply] in H.
  injection H as <- <- <-. replace (set_disk (n_disk n2) n2) with n2 by (destruct n2; reflexivity).
  split; [split; [rewrite C1; reflexivity | rewrite C2; reflexivity]|]. intros o E I. right. specialize (K2 o E I).
  apply find_peer_in in G2. unfold shape in S2. injection S2 as S2 S3 S4. change (p_uid (p_set_busy true p)) with (p_uid p) in S3. change (p_busy (p_set_busy true p)) with true in S4.
  assert (T := inv_send _ _ _ (p_uid p2) q p2 K2 (proj1 G2) eq_refl S4). rewrite S3 in *.
  assert (Z0 : out_after o l1 (p_uid p) = 0%nat) by (unfold out_after; rewrite quiet_sent by exact C6; rewrite (proj2 (Hq o E I)); reflexivity).
  specialize (T Z0). revert T. apply inv'_ext.
  - intros y. unfold out_after. rewrite act_sent_app. lia.
  - intros y [Y|(q' & Y & By)]; [left; left; exact Y|]. apply in_app_or in Y. destruct Y as [Y|Y]; [left; right | right]; exists q'; auto.
Qed.
Ltac orel_args := first
  [ exact orel_pre | intros; apply orel_view; assumption | exact orel_other | intros; apply orel_upd; [eapply pfun_shape; eassumption | constructor] | exact orel_disable
  | exact orel_nojoin | exact orel_rm | intros; apply orel_insert | exact orel_join | exact orel_send | intros ? ? ? X; apply X ].
Lemma orel_request : forall n, ht orel yes request_append_entries n.
Proof. apply request_all; orel_args. Qed.

(** ** Becoming leader makes every peer free *)
Definition idle (o : N -> nat) (n : node) : Prop := forall p, In p (n_peers n) -> o (p_uid p) = 0%nat.
Definition irel : rel := fun n l n' => (n_id n' = n_id n /\ n_prm n' = n_prm n) /\ Forall no_send l /\
  forall o E, inv o E n /\ idle o n -> inv o E n' /\ idle o n'.
#[global] Instance irel_pre : preorder irel.
Proof.
  split; unfold irel; intros; [split; [split; reflexivity|]; split; [constructor | auto]|]. destruct H as ((A & B) & C & D), H0 as ((A' & B') & C' & D').
  split; [split; congruence|]. split; [apply Forall_app; split; assumption|]. auto.
Qed.
Lemma idle_shape : forall o n, idle o n <-> forall x, In x (shapes n) -> o (uid_of x) = 0%nat.
Proof.
  intros o n. split.
  - intros H x Hx. apply in_map_iff in Hx. destruct Hx as (p & <- & Hp). apply H, Hp.
  - intros H p Hp. apply (H (shape p)), in_map, Hp.
Qed.
Lemma irel_sc : forall n l n', screl n l n' -> irel n l n'.
Proof.
  intros n l n' ((A & B) & (C & D) & F & G). split; [split; assumption|]. split; [exact G|]. intros o E H. split.
  - destruct H as [H _]. unfold inv. rewrite C, D, F. exact H.
  - destruct H as [_ H]. rewrite idle_shape in *. rewrite C. exact H.
Qed.
Lemma irel_free : forall id n nx, irel n [] (upd_peer (PPeer id) (fun p => p_set_busy false (p_set_sync None (p_set_next nx p))) n).
Proof.
  intros id n nx. set (g := fun p => p_set_busy false (p_set_sync None (p_set_next nx p))). split; [split; reflexivity|]. split; [constructor|]. intros o E [[? ? ? ? ? ? ? ?] H].
  assert (H' : idle o (upd_peer (PPeer id) g n)).
  { intros p Hp. cbn [upd_peer n_peers set_peers] in Hp. unfold upd_peers in Hp. apply in_map_iff in Hp. destruct Hp as (p0 & Ep & Hp). specialize (H p0 Hp).
    destruct (p_id p0 =? id)%Z; subst p; exact H. }
  split; [|exact H']. rewrite idle_shape in H'. unfold inv, shapes, joining in *. cbn [upd_peer n_peers n_join set_peers n_uid] in *.
  assert (Hm : forall A (f : Z * N * bool -> A), (forall i u b b', f (i, u, b) = f (i, u, b')) -> map f (map shape (upd_peers id g (n_peers n))) = map f (map shape (n_peers n))).
  { intros A f Hf. unfold upd_peers. rewrite !map_map. apply map_ext. intros p. destruct (p_id p =? id)%Z; [apply Hf | reflexivity]. }
  assert (Hu : map uid_of (map shape (upd_peers id g (n_peers n))) = map uid_of (map shape (n_peers n))) by (apply Hm; reflexivity).
  assert (Hi : map id_of (map shape (upd_peers id g (n_peers n))) = map id_of (map shape (n_peers n))) by (apply Hm; reflexivity).
  constructor; rewrite ?Hu, ?Hi; auto.
  intros x Hx. assert (In (uid_of x) (map uid_of (map shape (n_peers n)))) by (rewrite <- Hu; apply in_map, Hx).
  apply in_map_iff in H0. destruct H0 as (y & Ey & Hy). rewrite <- Ey. auto.
Qed.
Lemma for_each_sc : forall (l : list Z) nx n,
  ht irel yes (for_each l (fun i => modify (upd_peer (PPeer i) (fun p => p_set_busy false (p_set_sync None (p_set_next nx p)))) ;;; enable_hb_for_peer i)) n.
Proof.
  intros l nx n. unfold enable_hb_for_peer. walk ltac:(first [apply irel_free | apply irel_sc; sc]).
Qed.
Lemma irel_nojoin : forall n, irel n [] (set_join None n).
Proof.
  intros n. split; [split; reflexivity|]. split; [constructor|]. intros o E [I1 I2]. split; [|exact I2].
  destruct (orel_nojoin n) as [_ K]. destruct (K o E I1) as [(l0 & ? & ? & ? & X & _)|K2]; [destruct l0; discriminate|].
  revert K2. apply inv'_ext; [intros x; unfold out_after, act_sent; cbn; lia | intros x X; left; exact X].
Qed.
(** two phases *)
Definition two (R S : rel) {A} (m : M A) (n : node) : Prop :=
  forall r n' l, m n = (r, n', l) -> exists l1 n1 l2, l = l1 ++ l2 /\ R n l1 n1 /\ S n1 l2 n'.
Lemma two_step : forall R S (P : preorder R) (P' : preorder S) A B (m : M A) (f : A -> M B) n,
  ht R yes m n -> (forall a n1, two R S (f a) n1) -> two R S (bind m f) n.
Proof.
  intros R S P P' A B m f n Hm Hf r n' l H. unfold bind in H. destruct (m n) as [[x n1] l1] eqn:E. destruct (Hm _ _ _ E) as [K _].
  destruct x as [a|e|u|]; try (injection H as <- <- <-; exists l1, n1, []; rewrite app_nil_r; repeat split; [exact K | apply p_refl]).
  destruct (f a n1) as [[r2 n2] l2] eqn:E2. injection H as <- <- <-. destruct (Hf a n1 _ _ _ E2) as (a1 & b & a2 & -> & K1 & K2).
  exists (l1 ++ a1), b, a2. rewrite app_assoc. repeat split; [eapply p_trans; eassumption | exact K2].
Qed.
Lemma two_done : forall R S (P : preorder R) A (m : M A) n, ht S yes m n -> two R S m n.
Proof. intros R S P A m n H r n' l E. exists [], n, l. repeat split; [apply p_refl | apply (H _ _ _ E)]. Qed.
Lemma leader_two : forall n, two irel orel become_leader n.
Proof.
  intros n. unfold become_leader, stop_election_timer, peer_ids, next_slot_. repeat (match goal with |- two _ _ (bind _ _) _ => apply two_step end; [exact _ | exact _ | | intros ? ?]).
  all: try (apply two_done; [exact _ | apply orel_request]).
  all: match goal with
  | |- ht _ _ (for_each _ _) _ => apply for_each_sc
  | |- ht _ _ (modify (set_join None)) _ => apply ht_modify; [apply irel_nojoin | exact I]
  | _ => unfold log_append, next_slot_; walk ltac:(apply irel_sc; sc)
  end.
Qed.
(** the actions a computation begins with *)
Definition begins {A} (K : list act -> Prop) (m : M A) (n : node) : Prop := forall r n' l, m n = (r, n', l) -> K l.
Lemma begins_modify : forall B K g (f : unit -> M B) n, (forall n1, begins K (f tt) n1) -> begins K (bind (modify g) f) n.
Proof. intros B K g f n H r n' l E. rewrite bind_modify in E. exact (H _ _ _ _ E). Qed.
Lemma begins_get : forall A B K (g : node -> A) (f : A -> M B) n, (forall a n1, begins K (f a) n1) -> begins K (bind (get g) f) n.
Proof. intros A B K g f n H r n' l E. rewrite bind_get in E. exact (H _ _ _ _ _ E). Qed.
Lemma begins_emit : forall B (K : list act -> Prop) a (f : unit -> M B) n, (forall n1, begins (fun l => K (a :: l)) (f tt) n1) -> begins K (bind (emit a) f) n.
Proof. intros B K a f n H r n' l E. rewrite bind_emit in E. unfold after in E. destruct (f tt _) as [[r1 n1] l1] eqn:E1. cbn in E. injection E as <- <- <-. exact (H _ _ _ _ E1). Qed.
Lemma begins_assoc : forall A B C K (m : M A) (f : A -> M B) (g : B -> M C) n, begins K (bind m (fun a => bind (f a) g)) n -> begins K (bind (bind m f) g) n.
Proof. intros A B C K m f g n H r n' l E. rewrite bind_assoc in E. exact (H _ _ _ E). Qed.
Lemma leader_starts : forall n, begins (fun l => exists a t rest, l = a :: ABecomeLeader t :: rest /\ no_send a) become_leader n.
Proof.
  intros n. unfold become_leader, stop_election_timer. apply begins_assoc, begins_modify. intros n1. apply begins_emit. intros n2.
  apply begins_modify. intros n3. apply begins_get. intros i n4. apply begins_modify. intros n5. apply begins_modify. intros n6.
  apply begins_get. intros t n7. apply begins_emit. intros n8 r n' l _. exists (ATimer false), t, l. split; [reflexivity | exact I].
Qed.
Lemma orel_leader : forall n, ht orel yes become_leader n.
Proof.
  intros n r n' l H. split; [|intros; exact I].
  assert (Kid : n_id n' = n_id n /\ n_prm n' = n_prm n) by (destruct (leader_kinv n _ _ _ H) as [K _]; apply K).
  split; [exact Kid|]. intros o E Iv.
  destruct (forallb (fun p => Nat.eqb (o (p_uid p)) 0) (n_peers n)) eqn:F.
  - assert (Id : idle o n). { intros p Hp. rewrite forallb_forall in F. specialize (F p Hp). apply Nat.eqb_eq. exact F. }
    destruct (leader_two n _ _ _ H) as (l1 & n1 & l2 & -> & (K1 & K2 & K3) & K4). destruct (K3 o E (conj Iv Id)) as [I1 _].
    destruct K4 as [_ K4]. assert (I1' : inv (out_after o l1) (ext_after E l1) n1).
    { revert I1. apply inv'_ext; [intros x; unfold out_after; rewrite quiet_sent by exact K2; lia | intros x; apply quiet_ext, K2]. }
    destruct (K4 _ _ I1') as [(l0 & t & m & x & -> & Hx)|K5].
    + left. exists (l1 ++ l0), t, m, x. rewrite <- app_assoc. split; [reflexivity|]. rewrite act_sent_app. unfold out_after in Hx. lia.
    + right. revert K5. apply inv'_ext.
      * intros x. unfold out_after. rewrite act_sent_app. lia.
      * intros x [X|(q & X & B)]; [left; left; exact X|]. apply in_app_or in X. destruct X as [X|X]; [left; right | right]; exists q; auto.
  - left. assert (X : exists p, In p (n_peers n) /\ o (p_uid p) <> 0%nat).
    { clear - F. induction (n_peers n) as [|p ps IH]; [discriminate|]. cbn in F. destruct (Nat.eqb (o (p_uid p)) 0) eqn:G.
      - destruct (IH F) as (y & Hy & Ny). exists y. split; [right; exact Hy | exact Ny].
      - exists p. split; [left; reflexivity | apply Nat.eqb_neq, G]. }
    destruct X as (p & Hp & Np). destruct (leader_starts _ _ _ _ H) as (a & t & rest & -> & Ha). exists [a], t, rest, (p_uid p). split; [reflexivity | lia].
Qed.

(** ** One event *)
Lemma inv_out : forall o o' E n, (forall x, (o' x <= o x)%nat) -> inv o E n -> inv o' E n.
Proof.
  intros o o' E n H [? ? ? ? ? ? ? ?]. constructor; auto.
  - intros x Hx. specialize (H (uid_of x)). destruct (i_busy0 x Hx); [left; lia | right; assumption].
  - intros x. specialize (H x). specialize (i_one0 x). lia.
  - intros x Hx. specialize (H x). specialize (i_join0 x Hx). lia.
  - intros x Hx. specialize (H x). destruct (i_new0 x Hx). split; [lia | assumption].
Qed.
Lemma live_ref_uid : forall uid n ref, live_ref uid n = Some ref ->
  match ref with
  | PPeer i => exists p, In p (n_peers n) /\ p_uid p = uid /\ p_id p = i
  | PJoin => joining n = Some uid
  end.
Proof.
  intros uid n ref H. unfold live_ref in H. destruct (find _ (n_peers n)) as [p|] eqn:F.
  - injection H as <-. apply find_some in F. exists p. split; [tauto|]. split; [lia | reflexivity].
  - unfold joining. destruct (n_join n) as [j|]; [|discriminate]. destruct (p_uid j =? uid) eqn:U; [|discriminate]. injection H as <-. cbn. f_equal. lia.
Qed.
Lemma inv_free : forall o E n uid ref, inv o E n -> live_ref uid n = Some ref -> o uid = 0%nat -> inv o E (upd_peer ref (p_set_busy false) n).
Proof.
  intros o E n uid ref [? ? ? ? ? ? ? ?] Hr H0. apply live_ref_uid in Hr. destruct ref as [i|].
  - destruct Hr as (p & Hp & Hu & Hi). unfold inv, shapes, joining in *. cbn [upd_peer n_peers n_join set_peers n_uid].
    assert (Hm : forall A (f : Z * N * bool -> A), (forall i u b b', f (i, u, b) = f (i, u, b')) -> map f (map shape (upd_peers i (p_set_busy false) (n_peers n))) = map f (map shape (n_peers n))).
    { intros A f Hf. unfold upd_peers. rewrite !map_map. apply map_ext. intros x. destruct (p_id x =? i)%Z; [apply Hf | reflexivity]. }
    assert (HU : map uid_of (map shape (upd_peers i (p_set_busy false) (n_peers n))) = map uid_of (map shape (n_peers n))) by (apply Hm; reflexivity).
    assert (HI : map id_of (map shape (upd_peers i (p_set_busy false) (n_peers n))) = map id_of (map shape (n_peers n))) by (apply Hm; reflexivity).
    assert (Hin : forall x, In x (map shape (upd_peers i (p_set_busy false) (n_peers n))) -> exists y, In y (map shape (n_peers n)) /\ uid_of y = uid_of x /\ (x = y \/ uid_of x = uid)).
    { intros x Hx. unfold upd_peers in Hx. rewrite map_map in Hx. apply in_map_iff in Hx. destruct Hx as (y & <- & Hy). exists (shape y). split; [apply in_map, Hy|].
      destruct (p_id y =? i)%Z eqn:Ey; [|auto]. split; [reflexivity|]. right. replace y with p; [exact Hu|].
      clear - i_ids0 Hp Hy Ey Hi. rewrite map_map in i_ids0. induction (n_peers n) as [|a l IH]; [contradiction|]. cbn in i_ids0. inversion i_ids0; subst.
      destruct Hp as [->|Hp], Hy as [->|Hy]; auto.
      - exfalso. apply H1. replace (p_id p) with (p_id y) by lia. apply (in_map (fun z => p_id z)), Hy.
      - exfalso. apply H1. replace (p_id y) with (p_id p) by lia. apply (in_map (fun z => p_id z)), Hp. }
    constructor; rewrite ?HU, ?HI; auto.
    + intros x Hx. destruct (Hin x Hx) as (y & Hy & Ey & [->|Eu]); [auto|]. left. rewrite Eu. exact H0.
    + intros x Hx. destruct (Hin x Hx) as (y & Hy & Ey & _). rewrite <- Ey. auto.
  - assert (Ej : joining (upd_peer PJoin (p_set_busy false) n) = joining n) by (unfold joining; cbn; destruct (n_join n); reflexivity).
    unfold inv. rewrite Ej. constructor; assumption.
Qed.
(** what the environment does: completions of what was sent, retries of what is retried *)
Definition expected (o : N -> nat) (E : N -> Prop) (e : event) : Prop :=
  match e with
  | ERpc _ uid false q _ => bulk q = true -> o uid <> 0%nat
  | ERpc _ uid true q _ => bulk q = true -> E uid
  | ERetry _ q => bulk q = false
  | _ => True
  end.
Definition minus (o : N -> nat) (e : event) : N -> nat := fun x => (o x - finished x (event_mark e))%nat.
Lemma event_orel : forall e n r n' l o E, run_event e n = (r, n', l) -> expected o E e -> inv o E n ->
  early (minus o e) l \/ inv (out_after (minus o e) l) (ext_after E l) n'.
Proof.
  intros e n r n' l o E H Hx I.
  assert (Hm : forall x, (minus o e x <= o x)%nat) by (intros x; unfold minus; lia).
  assert (G : (match e with ERpc _ _ _ _ _ | ERetry _ _ => False | _ => True end) -> early (minus o e) l \/ inv (out_after (minus o e) l) (ext_after E l) n').
  { intros He. assert (A : ht orel yes (run_event e) n) by (apply other_all; first [orel_args | exact orel_leader | exact He]).
    destruct (A _ _ _ H) as [[_ K] _]. apply K. eapply inv_out; [exact Hm | exact I]. }
  destruct e; try (apply G; exact Logic.I); clear G; cbn [run_event expected] in *.
  - unfold rpc_done in H. rewrite bind_assoc, bind_get in H. set (o' := minus o (ERpc now uid ext q r0)) in *.
    assert (I' : inv o' E n) by (eapply inv_out; [exact Hm | exact I]).
    destruct (live_ref uid n) as [ref|] eqn:L.
    2: { injection H as <- <- <-. right. revert I'. apply inv'_ext; [intros x; unfold out_after, act_sent; cbn; lia | intros x; apply quiet_ext; constructor]. }
    fold (bulk q) in H. assert (Hf : bulk q = true -> o' uid = 0%nat).
    { intros B. unfold o', minus. cbn [event_mark]. destruct ext.
      - destruct I as [? ? ? ? ? ? ? ?]. assert (R := live_ref_uid _ _ _ L). destruct ref as [i|].
        + destruct R as (p & Hp & Hu & _). exfalso. apply (i_ext0 (shape p)); [apply in_map, Hp|]. cbn. rewrite Hu. auto.
        + rewrite (i_join0 _ R). reflexivity.
      - rewrite B. cbn. rewrite N.eqb_refl. assert (X := i_one _ _ _ _ _ I uid). lia. }
    assert (B0 : exists n0, (inv o' E n -> inv o' E n0) /\ forall B (k : unit -> M B),
      bind (when (bulk q) (modify (upd_peer ref (p_set_busy false)))) k n = k tt n0).
    { destruct (bulk q); cbn [when]; eexists; (split; [|intros B k; first [rewrite bind_modify | rewrite bind_ret]; reflexivity]).
      - intros X. eapply inv_free; [exact X | exact L | auto].
      - auto. }
    destruct B0 as (n0 & H0 & E0). rewrite bind_assoc, E0 in H. specialize (H0 I'). clear E0 Hf.
    assert (A : forall m n0, ht orel yes m n0 -> inv o' E n0 -> m n0 = (r, n', l) -> early o' l \/ inv (out_after o' l) (ext_after E l) n').
    { intros m n9 K I9 E9. destruct (K _ _ _ E9) as [[_ K1] _]. apply K1, I9. }
    apply (A _ _) in H; [exact H | | exact H0]. clear A H.
    assert (A1 : forall r n, ht orel yes (handle_ext_resp r) n) by (apply ext_resp_all; try orel_args; exact orel_leader).
    assert (A2 : forall now r n, ht orel yes (handle_peer_resp now r) n) by (apply peer_resp_all; try orel_args; exact orel_leader).
    unfold handle_ext_resp_err, rm_srv_from_cluster, append_config, log_append, next_slot_.
    repeat first [match goal with |- ht _ _ (handle_ext_resp _) _ => apply A1 | |- ht _ _ (handle_peer_resp _ _) _ => apply A2
        | |- ht _ _ request_append_entries _ => apply orel_request end
      | wstep ltac:(first [apply orel_upd; [intros ?; reflexivity | constructor] | apply orel_rm | apply orel_nojoin | apply orel_view; [reflexivity | repeat constructor]])].
  - right. unfold retry in H. rewrite bind_emit in H. unfold after, ret in H. cbn [fst snd app disk_apply] in H. injection H as <- <- <-.
    replace (set_disk (n_disk n) n) with n by (destruct n; reflexivity). revert I. apply inv'_ext.
    + intros x. unfold out_after, minus, act_sent. cbn. lia.
    + intros x [X|(q' & [X|[]] & B)]; [exact X|]. injection X as -> ->. congruence.
Qed.

(** ** A whole run *)
Lemma start_inv : forall id pm d, inv (fun _ => 0%nat) (fun _ => False) (start_node id pm d).
Proof.
  intros id pm d. destruct (start_pinv id pm d) as (A & B & C & _). assert (J : n_join (start_node id pm d) = None) by (unfold start_node; destruct (match dk_state d with Some x => x | None => _ end); reflexivity).
  unfold pool in *. rewrite J, ?app_nil_r in *. unfold inv, joining, shapes. rewrite J. cbn [option_map opt].
  constructor; cbn [opt]; rewrite ?app_nil_r, ?map_map; auto.
  - intros x Hx. apply in_map_iff in Hx. destruct Hx as (p & <- & Hp). apply B, Hp.
Qed.
Lemma flow_cons : forall o h, flow (o :: h) = (event_mark (o_event o) ++ concat (map act_mark (o_acts o))) ++ flow h.
Proof. reflexivity. Qed.
Lemma flow_app : forall h g, flow (h ++ g) = flow h ++ flow g.
Proof. intros h g. unfold flow. rewrite map_app, concat_app. reflexivity. Qed.
Lemma mark_event_one : forall e, event_mark e = [] \/ exists uid, event_mark e = [Done uid].
Proof. intros []; cbn; auto. destruct ext; [auto|]. destruct (bulk q); eauto. Qed.
Lemma sent_acts : forall x l, finished x (concat (map act_mark l)) = 0%nat.
Proof.
  intros x l. induction l as [|a l IH]; [reflexivity|]. cbn [map concat]. rewrite finished_app, IH. destruct a; try reflexivity. destruct ext; [reflexivity|]. cbn. destruct (bulk q); reflexivity.
Qed.
Lemma split_marks : forall l l1 m l2, concat (map act_mark l) = l1 ++ m :: l2 -> exists k a k', l = k ++ a :: k' /\ act_mark a = [m] /\ concat (map act_mark k) = l1.
Proof.
  induction l as [|a l IH]; intros l1 m l2 H; [destruct l1; discriminate|]. cbn [map concat] in H.
  assert (C : act_mark a = [] \/ exists x, act_mark a = [x]).
  { destruct a; cbn; auto; [|eauto]. destruct ext; [auto|]. destruct (bulk q); eauto. }
  destruct C as [C|(x & C)]; rewrite C in H; cbn [app] in H.
  - destruct (IH _ _ _ H) as (k & b & k' & -> & Hb & Hk). exists (a :: k), b, k'. split; [reflexivity|]. split; [exact Hb|]. cbn. rewrite C. exact Hk.
  - destruct l1 as [|y l1]; cbn [app] in H; injection H as -> H.
    + exists [], a, l. split; [reflexivity|]. split; [exact C | reflexivity].
    + destruct (IH _ _ _ H) as (k & b & k' & -> & Hb & Hk). exists (a :: k), b, k'. split; [reflexivity|]. split; [exact Hb|]. cbn. rewrite C, Hk. reflexivity.
Qed.
(** the relation between the history so far and the invariant *)
Definition tied (past : list mark) (o : N -> nat) : Prop := forall x, (o x + finished x past = sent x past)%nat.
Lemma run_out : forall n h m, runs n h m -> forall pre o (E : N -> Prop),
  (forall uid q, (exists ob, In ob pre /\ In (ASend uid true q) (o_acts ob)) -> bulk q = true -> E uid) ->
  completions_ok (pre ++ h) -> calm (pre ++ h) -> tied (flow pre) o -> inv o E n ->
  forall l1 l2, flow h = l1 ++ l2 -> forall x, (sent x (flow pre ++ l1) <= finished x (flow pre ++ l1) + 1)%nat.
Proof.
  intros n h m H. induction H as [n|n e r n' l h m H Hg Hr IH]; intros pre o E HE Hc Hcalm Ht I l1 l2 Hl x.
  - destruct l1; [|discriminate]. rewrite app_nil_r. specialize (Ht x). assert (X := i_one _ _ _ _ _ I x). lia.
  - set (ob := mkObs e l (answer_of r)) in *. rewrite flow_cons in Hl. cbn [ob o_event o_acts] in Hl.
    assert (Hexp : expected o E e).
    { destruct Hc as (C1 & C2 & C3). destruct e; cbn [expected]; auto.
      - destruct ext.
        + apply HE. destruct (C2 pre now uid q r0 l (answer_of r) h eq_refl) as (o1 & Ho1 & Ha). exists o1. auto.
        + intros B. specialize (C1 (flow pre) uid (concat (map act_mark l) ++ flow h)). rewrite flow_app, flow_cons in C1. cbn [ob o_event o_acts event_mark] in C1. rewrite B in C1.
          specialize (C1 eq_refl). specialize (Ht uid). lia.
      - specialize (C3 uid q l (answer_of r)). unfold bulk. destruct C3 as [-> |[-> | ->]]; try reflexivity. apply in_or_app. right. left. reflexivity. }
    assert (Hmin : forall y, (minus o e y + finished y (flow pre ++ event_mark e) = sent y (flow pre ++ event_mark e))%nat).
    { intros y. unfold minus. rewrite finished_app, sent_app. specialize (Ht y). destruct Hc as (C1 & _).
      destruct (mark_event_one e) as [->|(uid & Eu)]; [cbn; lia|]. rewrite Eu. cbn [finished sent].
      destruct (uid =? y) eqn:Ey; [|lia]. replace y with uid in * by lia.
      specialize (C1 (flow pre) uid (concat (map act_mark l) ++ flow h)). rewrite flow_app, flow_cons in C1. cbn [ob o_event o_acts] in C1. rewrite Eu in C1. specialize (C1 eq_refl). lia. }
    destruct (event_orel _ _ _ _ _ o E H Hexp I) as [(l0 & t & l9 & y & El & Hy)|I2].
    { exfalso. specialize (Hcalm (flow pre ++ event_mark e ++ concat (map act_mark l0)) (concat (map act_mark l9) ++ flow h) y).
      rewrite flow_app, flow_cons in Hcalm. cbn [ob o_event o_acts] in Hcalm. rewrite El, map_app, concat_app in Hcalm. cbn [map concat act_mark app] in Hcalm.
      repeat rewrite <- app_assoc in Hcalm. cbn [app] in Hcalm. specialize (Hcalm eq_refl). specialize (Hmin y). rewrite ?app_assoc in Hcalm. rewrite sent_app, finished_app, sent_acts in Hcalm. unfold act_sent in Hy. lia. }
    assert (Ht2 : tied (flow (pre ++ [ob])) (out_after (minus o e) l)).
    { intros y. rewrite flow_app, flow_cons. cbn [ob o_event o_acts flow map concat]. rewrite app_nil_r, app_assoc. rewrite finished_app, sent_app, sent_acts. specialize (Hmin y). unfold out_after, act_sent. lia. }
    assert (HE2 : forall uid q, (exists ob1, In ob1 (pre ++ [ob]) /\ In (ASend uid true q) (o_acts ob1)) -> bulk q = true -> ext_after E l uid).
    { intros uid q (ob1 & H1 & H2) B. apply in_app_or in H1. destruct H1 as [H1|[<-|[]]]; [left; apply (HE uid q); [exists ob1; auto | exact B] | right; exists q; auto]. }
    assert (Happ : pre ++ ob :: h = (pre ++ [ob]) ++ h) by (rewrite <- app_assoc; reflexivity).
    assert (Hnext := IH (pre ++ [ob]) _ _ HE2 ltac:(rewrite <- Happ; exact Hc) ltac:(rewrite <- Happ; exact Hcalm) Ht2 I2).
    (* the prefix ends inside this event or after it *)
    destruct (app_eq_app _ _ _ _ Hl) as (k & [[Ek1 Ek2]|[Ek1 Ek2]]).
    + (* l1 is inside *)
      specialize (Hnext [] (flow h) eq_refl x). rewrite app_nil_r in Hnext. rewrite flow_app in Hnext. unfold flow at 2 4 in Hnext. cbn [map concat ob o_event o_acts] in Hnext. rewrite app_nil_r in Hnext.
      rewrite Ek1 in Hnext. rewrite !sent_app, !finished_app in *. 
      destruct (mark_event_one e) as [Em|(uid & Em)]; rewrite Em in Ek1; cbn [app] in Ek1.
      * assert (F : finished x k = 0%nat). { assert (Y := sent_acts x l). rewrite Ek1, finished_app in Y. lia. } lia.
      * destruct l1 as [|z l1]; cbn [app] in Ek1.
        -- cbn. specialize (Ht x). assert (X := i_one _ _ _ _ _ I x). lia.
        -- injection Ek1 as <- Ek1. assert (F : finished x k = 0%nat). { assert (Y := sent_acts x l). rewrite Ek1, finished_app in Y. lia. } lia.
    + specialize (Hnext k l2 Ek2 x). rewrite flow_app in Hnext. unfold flow at 2 4 in Hnext. cbn [map concat ob o_event o_acts] in Hnext. rewrite app_nil_r in Hnext. rewrite Ek1. rewrite app_assoc. exact Hnext.
Qed.

(** at every moment of every run, as long as nothing is outstanding whenever the
    server is elected, at most one append-entries or snapshot request to each
    peer is outstanding *)
Theorem C25_one_outstanding_partial : forall id pm d h n, runs (start_node id pm d) h n -> completions_ok h -> calm h ->
  forall l1 l2, flow h = l1 ++ l2 -> forall uid, (sent uid l1 <= finished uid l1 + 1)%nat.
Proof.
  intros id pm d h n H Hc Hq l1 l2 Hl uid.
  apply (run_out _ _ _ H [] (fun _ => 0%nat) (fun _ => False)) with (l2 := l2); auto.
  - intros u q (ob & [] & _).
  - intros x. reflexivity.
  - apply start_inv.
Qed.

(** ** Examples *)
Fixpoint run_evs (n : node) (es : list event) : list obs * node :=
  match es with
  | [] => ([], n)
  | e :: es =>
      let '(r, n', l) := run_event e n in
      if goes_on r then let '(h, m) := run_evs n' es in (mkObs e l (answer_of r) :: h, m) else ([], n)
  end.
Lemma run_evs_runs : forall es n, runs n (fst (run_evs n es)) (snd (run_evs n es)).
Proof.
  induction es as [|e es IH]; intros n; cbn [run_evs]; [constructor|]. destruct (run_event e n) as [[r n'] l] eqn:E. destruct (goes_on r) eqn:G; [|constructor].
  specialize (IH n'). destruct (run_evs n' es) as [h m]. cbn [fst snd] in *. eapply R_event; eassumption.
Qed.
Fixpoint done_okb (past rest : list mark) : bool :=
  match rest with
  | [] => true
  | m :: rest => match m with Done u => Nat.ltb (finished u past) (sent u past) | _ => true end && done_okb (past ++ [m]) rest
  end.
Lemma done_okb_ok : forall rest past, done_okb past rest = true -> forall l1 uid l2, rest = l1 ++ Done uid :: l2 -> (finished uid (past ++ l1) < sent uid (past ++ l1))%nat.
Proof.
  induction rest as [|m rest IH]; intros past H l1 uid l2 E; [destruct l1; discriminate|]. cbn [done_okb] in H. apply andb_prop in H. destruct H as [H1 H2].
  destruct l1 as [|x l1]; cbn [app] in E; injection E as -> ->.
  - rewrite app_nil_r. apply Nat.ltb_lt, H1.
  - specialize (IH _ H2 l1 uid l2 eq_refl). rewrite <- app_assoc in IH. exact IH.
Qed.
Definition plain_obs (o : obs) : bool := match o_event o with ERpc _ _ true _ _ | ERetry _ _ => false | _ => true end.
Lemma completions_okb : forall h, done_okb [] (flow h) = true -> forallb plain_obs h = true -> completions_ok h.
Proof.
  intros h H1 H2. rewrite forallb_forall in H2. split; [|split].
  - intros l1 uid l2 E. exact (done_okb_ok _ [] H1 l1 uid l2 E).
  - intros h1 now uid q r l a h2 E. specialize (H2 (mkObs (ERpc now uid true q r) l a)). rewrite E in H2. specialize (H2 ltac:(apply in_or_app; right; left; reflexivity)). discriminate.
  - intros uid q l a Hin. specialize (H2 _ Hin). discriminate.
Qed.
(** a leader with a slow follower (server 2) hears of a higher term from server 3
    and is elected again by it *)
Definition ex_out_evs : list event :=
  [EElection; ERpc 1000 1 false (ex_vote 1 1 0 0) (Some (ex_vresp 1 3));
   ERpc 1010 1 false (ex_ae 1 1 0 0 0 []) (Some (mkResp 2 append_entries_response 3 1 0 false));
   EElection; ERpc 1200 1 false (ex_vote 3 1 1 1) (Some (ex_vresp 3 3))].
Theorem C25_one_outstanding_refuted : exists id pm d h n l1 l2 uid,
  disk_okay d /\ runs (start_node id pm d) h n /\ completions_ok h /\ flow h = l1 ++ l2 /\ (sent uid l1 = finished uid l1 + 2)%nat.
Proof.
  set (x := run_evs (start_node 1 ex_prm ex_disk) ex_out_evs).
  exists 1%Z, ex_prm, ex_disk, (fst x), (snd x), (flow (fst x)), [], 0.
  split; [unfold disk_okay; vm_compute; discriminate|]. split; [apply run_evs_runs|]. split; [apply completions_okb; vm_compute; reflexivity|].
  split; [rewrite app_nil_r; reflexivity|]. vm_compute. reflexivity.
Qed.
(** heartbeats, appends and answers between two elections: all hypotheses hold and requests go out *)
Definition ex_calm_evs : list event :=
  [EElection; ERpc 1000 1 false (ex_vote 1 1 0 0) (Some (ex_vresp 1 3));
   EHeartbeat 2; EReplicate 1001 [x61];
   ERpc 1010 1 false (ex_ae 1 1 0 0 0 []) (Some (mkResp 1 append_entries_response 3 1 2 true));
   EHeartbeat 3; ERpc 1020 0 false (ex_ae 1 1 0 0 0 []) None;
   ERpc 1030 1 false (ex_ae 1 1 1 1 0 []) (Some (mkResp 2 append_entries_response 3 1 3 false));
   EElection; ERpc 1200 1 false (ex_vote 3 1 1 1) (Some (ex_vresp 3 3))].
Example C25_example : let x := run_evs (start_node 1 ex_prm ex_disk) ex_calm_evs in
  completions_ok (fst x) /\ calm (fst x) /\
  flow (fst x) = [Lead; Sent 0; Sent 1; Done 1; Sent 1; Done 0; Done 1; Lead; Sent 0; Sent 1].
Proof.
  cbv zeta. assert (F : flow (fst (run_evs (start_node 1 ex_prm ex_disk) ex_calm_evs)) = [Lead; Sent 0; Sent 1; Done 1; Sent 1; Done 0; Done 1; Lead; Sent 0; Sent 1]) by (vm_compute; reflexivity).
  split; [apply completions_okb; vm_compute; reflexivity|]. split; [|exact F]. intros l1 l2 uid E. rewrite F in E.
  destruct l1 as [|m l1]; [cbn; lia|]. injection E as <- E. do 6 (destruct l1 as [|? l1]; [discriminate|]; injection E as <- E).
  destruct l1 as [|m l1]; [cbn; destruct uid as [|[]]; cbn; lia|]. injection E as <- E.
  do 2 (destruct l1 as [|? l1]; [discriminate|]; injection E as <- E). destruct l1; discriminate.
Qed.
Print Assumptions C25_one_outstanding_partial.
Print Assumptions C25_one_outstanding_refuted.
