(** * Alog: facts about the indexed log of FsLogSpec.v used for the server *)

From Verif Require Import Base Buffer Codec CodecSpec Msg FsLogStore FsLogSpec.
Local Open Scope N_scope.

Lemma lenN_nat : forall A (l : list A), N.to_nat (lenN l) = length l.
Proof. intros A l. unfold lenN. lia. Qed.

Lemma a_get_some : forall l i e, a_get l i = Some e -> al_start l <= i < a_next l.
Proof.
  intros l i e H. unfold a_get in H. destruct (i <? al_start l) eqn:E; [discriminate|].
  assert (Hn : nth_error (al_ents l) (N.to_nat (i - al_start l)) <> None) by congruence.
  apply nth_error_Some in Hn. unfold a_next, lenN. lia.
Qed.
Lemma a_get_in : forall l i, al_start l <= i < a_next l -> exists e, a_get l i = Some e.
Proof.
  intros l i H. unfold a_get. replace (i <? al_start l) with false by lia.
  destruct (nth_error (al_ents l) (N.to_nat (i - al_start l))) eqn:E; [eexists; reflexivity|].
  apply nth_error_None in E. unfold a_next, lenN in H. lia.
Qed.
Lemma a_get_none : forall l i, i < al_start l \/ a_next l <= i -> a_get l i = None.
Proof.
  intros l i H. destruct (a_get l i) eqn:E; [|reflexivity]. apply a_get_some in E. lia.
Qed.

Lemma al_start_replace : forall l i es, al_start (a_replace l i es) = al_start l.
Proof. reflexivity. Qed.
Lemma a_next_replace : forall l i es, al_start l <= i <= a_next l -> a_next (a_replace l i es) = i + lenN es.
Proof.
  intros l i es H. unfold a_next, a_replace, lenN in *. cbn [al_start al_ents].
  rewrite app_length, firstn_length. lia.
Qed.
Lemma a_get_replace_lt : forall l i es j, al_start l <= i <= a_next l -> j < i ->
  a_get (a_replace l i es) j = a_get l j.
Proof.
  intros l i es j H Hj. unfold a_get, a_replace. cbn [al_start al_ents].
  destruct (j <? al_start l) eqn:E; [reflexivity|].
  unfold a_next, lenN in H.
  assert (Hl : length (firstn (N.to_nat (i - al_start l)) (al_ents l)) = N.to_nat (i - al_start l))
    by (rewrite firstn_length; lia).
  rewrite nth_error_app1 by lia.
  rewrite <- (firstn_skipn (N.to_nat (i - al_start l)) (al_ents l)) at 2.
  rewrite nth_error_app1 by lia. reflexivity.
Qed.
Lemma a_get_replace_ge : forall l i es j, al_start l <= i <= a_next l -> i <= j ->
  a_get (a_replace l i es) j = nth_error es (N.to_nat (j - i)).
Proof.
  intros l i es j H Hj. unfold a_get, a_replace. cbn [al_start al_ents].
  replace (j <? al_start l) with false by lia.
  unfold a_next, lenN in H.
  assert (Hl : length (firstn (N.to_nat (i - al_start l)) (al_ents l)) = N.to_nat (i - al_start l))
    by (rewrite firstn_length; lia).
  rewrite nth_error_app2 by lia. f_equal. lia.
Qed.
(** appending one entry *)
Lemma a_get_append : forall l e j,
  a_get (a_replace l (a_next l) [e]) j = if j =? a_next l then Some e else a_get l j.
Proof.
  intros l e j. assert (H : al_start l <= a_next l <= a_next l) by (unfold a_next; lia).
  destruct (j =? a_next l) eqn:E.
  - replace j with (a_next l) by lia. rewrite a_get_replace_ge by lia. rewrite N.sub_diag. reflexivity.
  - destruct (N.lt_trichotomy j (a_next l)) as [G|[G|G]].
    + apply a_get_replace_lt; lia.
    + lia.
    + rewrite a_get_none; [symmetry; apply a_get_none; lia|]. right. rewrite a_next_replace by lia.
      unfold lenN. cbn. lia.
Qed.
Lemma a_next_append : forall l e, a_next (a_replace l (a_next l) [e]) = a_next l + 1.
Proof. intros. rewrite a_next_replace by (unfold a_next; lia). reflexivity. Qed.
Lemma a_next_write : forall l i e, al_start l <= i < a_next l -> a_next (a_replace l i [e]) = i + 1.
Proof. intros. rewrite a_next_replace by lia. reflexivity. Qed.
Lemma a_get_write : forall l i e j, al_start l <= i < a_next l ->
  a_get (a_replace l i [e]) j = if j <? i then a_get l j else if j =? i then Some e else None.
Proof.
  intros l i e j H. destruct (j <? i) eqn:E; [apply a_get_replace_lt; lia|].
  rewrite a_get_replace_ge by lia. destruct (j =? i) eqn:E2.
  - replace (j - i) with 0 by lia. reflexivity.
  - apply nth_error_None. cbn. lia.
Qed.
Lemma a_range_get : forall l a b k e, al_start l <= a ->
  nth_error (a_range l a b) k = Some e -> a_get l (a + N.of_nat k) = Some e.
Proof.
  intros l a b k e Ha H. unfold a_range in H. unfold a_get.
  replace (a + N.of_nat k <? al_start l) with false by lia.
  assert (Hk : (k < N.to_nat (b - a))%nat).
  { assert (Hn : nth_error (firstn (N.to_nat (b - a)) (skipn (N.to_nat (a - al_start l)) (al_ents l))) k <> None) by congruence.
    apply nth_error_Some in Hn. rewrite firstn_length in Hn. lia. }
  assert (G : forall (A : Type) (m : list A) c j, (j < c)%nat -> nth_error (firstn c m) j = nth_error m j).
  { clear. intros A m. induction m as [|x m IH]; intros [|c] [|j] Hj; cbn; try reflexivity; try lia.
    apply IH. lia. }
  assert (S : forall (A : Type) (m : list A) c j, nth_error (skipn c m) j = nth_error m (c + j)).
  { clear. intros A m. induction m as [|x m IH]; intros [|c] j; cbn; try reflexivity.
    - destruct j; reflexivity.
    - apply IH. }
  rewrite G, S in H by lia. rewrite <- H. f_equal. lia.
Qed.
Lemma a_last_get : forall l, al_ents l <> [] -> a_get l (a_next l - 1) = Some (a_last l).
Proof.
  intros l H. unfold a_get, a_next, a_last, lenN.
  destruct (exists_last H) as (m & x & E). rewrite E. rewrite last_last, app_length. cbn [length].
  replace (_ <? al_start l) with false by lia.
  rewrite nth_error_app2 by lia. replace (_ - length m)%nat with 0%nat by lia. reflexivity.
Qed.

(** compaction keeps what is above its index *)
Lemma a_get_compact : forall l k i, al_start l <= k + 1 -> a_get (a_compact l k) i = if i <=? k then None else a_get l i.
Proof.
  intros l k i H. unfold a_get, a_compact. cbn [al_start al_ents].
  destruct (i <=? k) eqn:E; [replace (i <? k + 1) with true by lia; reflexivity|].
  replace (i <? k + 1) with false by lia. replace (i <? al_start l) with false by lia.
  assert (S : forall (A : Type) (m : list A) c j, nth_error (skipn c m) j = nth_error m (c + j)).
  { clear. intros A m. induction m as [|x m IH]; intros [|c] j; cbn; try reflexivity.
    - destruct j; reflexivity.
    - apply IH. }
  rewrite S. f_equal. lia.
Qed.
Lemma a_next_compact : forall l k, al_start l <= k + 1 -> a_next (a_compact l k) = N.max (k + 1) (a_next l).
Proof. intros l k H. unfold a_next, a_compact, lenN. cbn [al_start al_ents]. rewrite skipn_length. lia. Qed.
