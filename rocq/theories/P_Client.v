(** * P_Client: remote procedure calls over TCP (C70, C71, C72), and what a forwarded request's
    result is (C57) *)

From Coq Require Import List Arith Lia Bool Permutation.
From Verif Require Import Client.
Import ListNotations.

Lemma exec_path : forall R (ok : client R -> event R -> Prop) es c c', (forall c e, In e es -> ok c e) -> exec c es = Some c' -> forall c0, path ok c0 c -> path ok c0 c'.
Proof.
  intros R ok es. induction es as [|e es IH]; intros c c' Hok H c0 P; cbn in H; [inversion H; subst; exact P|].
  destruct (step c e) as [c1|] eqn:E1; [|discriminate]. eapply IH; [intros; apply Hok; right; assumption | exact H|]. eapply P_step; [exact P | apply Hok; left; reflexivity | exact E1].
Qed.

(** ** C70: every handler is called exactly once *)
Lemma remove_perm : forall A (l : list A) i x, nth_error l i = Some x -> Permutation l (x :: remove_nth i l).
Proof.
  unfold remove_nth. induction l as [|y l IH]; intros [|i] x H; cbn in H; try discriminate.
  - inversion H; subst. reflexivity.
  - cbn. rewrite (IH _ _ H) at 1. apply perm_swap.
Qed.
Lemma replace_map : forall A B (f : A -> B) (l : list A) i x y, nth_error l i = Some x -> f y = f x -> map f (firstn i l ++ y :: skipn (S i) l) = map f l.
Proof.
  induction l as [|z l IH]; intros [|i] x y H E; cbn in H; try discriminate.
  - inversion H; subst. cbn. rewrite E. reflexivity.
  - cbn. f_equal. eapply IH; eassumption.
Qed.

(** where every call of send is: in a pending operation or in a call of a handler *)
Definition whereabouts {R} (c : client R) : list nat := map ticket (c_ops c) ++ map fst (c_calls c).
Lemma where_step : forall R (c c' : client R) e, step c e = Some c' -> Permutation (whereabouts c) (seq 0 (c_sent c)) -> Permutation (whereabouts c') (seq 0 (c_sent c')).
Proof.
  intros R c c' e H V. destruct e as [|i ok|i|g r]; cbn [step] in H.
  - inversion H; subst; clear H. unfold whereabouts, start_send in *. cbn [c_ops c_calls c_sent c_sock]. rewrite seq_S, map_app. cbn [map].
    replace (ticket _) with (c_sent c) by (destruct (c_sock c); reflexivity). rewrite <- app_assoc. cbn. rewrite <- Permutation_middle, V. apply Permutation_cons_append.
  - destruct (nth_error (c_ops c) i) as [o|] eqn:E; [|discriminate]. assert (P := remove_perm _ _ _ _ E). assert (P' := Permutation_map ticket P). cbn [map] in P'.
    assert (Same : forall c'', c_sent c'' = c_sent c -> c_calls c'' = c_calls c -> (exists o', c_ops c'' = remove_nth i (c_ops c) ++ [o'] /\ ticket o' = ticket o) -> Permutation (whereabouts c'') (seq 0 (c_sent c''))).
    { intros c'' S1 S2 (o' & S3 & S4). unfold whereabouts in *. rewrite S1, S2, S3, <- V, P', map_app. cbn [map]. rewrite S4. apply Permutation_app_tail. symmetry. apply Permutation_cons_append. }
    assert (Call : forall c'' x, c_sent c'' = c_sent c -> c_calls c'' = c_calls c ++ [(ticket o, x)] -> c_ops c'' = remove_nth i (c_ops c) -> Permutation (whereabouts c'') (seq 0 (c_sent c''))).
    { intros c'' x S1 S2 S3. unfold whereabouts in *. rewrite S1, S2, S3, <- V, P', map_app. cbn [map fst]. rewrite app_assoc. rewrite <- Permutation_cons_append. reflexivity. }
    destruct o as [k|k g|k g [|]|k [g|]], ok; try discriminate; try (match type of H with Some _ = Some _ => inversion H; subst; clear H end).
    all: try (eapply Call; reflexivity).
    all: try (apply Same; [reflexivity | reflexivity | eexists; split; [reflexivity | reflexivity]]).
    + apply Same; [reflexivity | reflexivity |]. unfold start_send. cbn [c_sock c_ops]. eexists. split; [reflexivity | destruct (c_sock c); reflexivity].
    + destruct (existsb _ _); [discriminate|]. destruct (w_out _) as [|[j r] out]; [discriminate|]. inversion H; subst. eapply Call; reflexivity.
  - destruct (nth_error (c_ops c) i) as [[| |k g [|]|]|] eqn:E; try discriminate. destruct (w_up _); [|discriminate]. inversion H; subst. unfold whereabouts in *. cbn [c_ops c_calls c_sent].
    rewrite (replace_map _ _ _ _ _ _ _ E) by reflexivity. exact V.
  - destruct (w_in _); [discriminate|]. inversion H; subst. exact V.
Qed.
Lemma where_path : forall R ok (c : client R), path ok new_client c -> Permutation (whereabouts c) (seq 0 (c_sent c)).
Proof. intros R ok c P. induction P; [constructor | eapply where_step; eassumption]. Qed.

(** send is called as often and whenever one likes; the operations complete in any order, with
    success or failure.  A call of send numbered [k] (the first is 0) is still waiting for a pending
    operation or its handler has been called, once, with a response or an exception; when nothing is
    pending every handler has been called.  Nothing can prevent a pending operation from completing,
    and send itself calls no handler. *)
Theorem C70_once : forall R (c : client R), path any new_client c ->
  (forall k, k < c_sent c -> (exists o, In (k, o) (c_calls c)) \/ (exists o, In o (c_ops c) /\ ticket o = k)) /\
  (forall k o o', In (k, o) (c_calls c) -> In (k, o') (c_calls c) -> k < c_sent c /\ o = o') /\
  NoDup (map fst (c_calls c)) /\
  (forall k o, In (k, o) (c_calls c) -> forall p, In p (c_ops c) -> ticket p <> k) /\
  (c_ops c = [] -> length (c_calls c) = c_sent c) /\
  (forall i, i < length (c_ops c) -> exists c', step c (Done i false) = Some c' /\ length (c_ops c') < length (c_ops c)) /\
  (forall c', step c Send = Some c' -> c_calls c' = c_calls c).
Proof.
  intros R c P. assert (V := where_path _ _ _ P).
  assert (ND : NoDup (whereabouts c)) by (eapply Permutation_NoDup; [symmetry; exact V | apply seq_NoDup]).
  unfold whereabouts in *.
  assert (NC : NoDup (map fst (c_calls c))).
  { clear -ND. induction (map ticket (c_ops c)) as [|x l IH]; [exact ND|]. cbn in ND. inversion ND; subst. auto. }
  split; [|split; [|split; [|split; [|split; [|split]]]]].
  - intros k Hk. assert (In k (seq 0 (c_sent c))) by (apply in_seq; lia). rewrite <- V in H. apply in_app_or in H. destruct H as [H|H]; apply in_map_iff in H; destruct H as (x & <- & Hx).
    + right. exists x. auto.
    + left. destruct x as [k o]. exists o. exact Hx.
  - intros k o o' H H'. split.
    + assert (In k (seq 0 (c_sent c))); [|apply in_seq in H0; lia]. rewrite <- V. apply in_or_app. right. apply in_map_iff. exists (k, o). auto.
    + clear -NC H H'. induction (c_calls c) as [|[k1 o1] l IH]; [destruct H|]. cbn in NC. inversion NC as [|? ? N1 N2]; subst.
      destruct H as [H|H], H' as [H'|H']; [congruence | | | exact (IH N2 H H')].
      * inversion H; subst. exfalso. apply N1. apply in_map_iff. exists (k, o'). auto.
      * inversion H'; subst. exfalso. apply N1. apply in_map_iff. exists (k, o). auto.
  - exact NC.
  - intros k o H p Hp E. subst k. clear -ND H Hp. induction (c_ops c) as [|q l IH]; [destruct Hp|]. cbn in ND. inversion ND as [|? ? N1 N2]; subst.
    destruct Hp as [->|Hp]; [|exact (IH N2 Hp)]. apply N1. apply in_or_app. right. apply in_map_iff. exists (ticket p, o). auto.
  - intros E. rewrite E in V. cbn in V. apply Permutation_length in V. rewrite map_length, seq_length in V. exact V.
  - intros i Hi. destruct (nth_error (c_ops c) i) as [o|] eqn:E; [|apply nth_error_None in E; lia].
    assert (L : length (remove_nth i (c_ops c)) < length (c_ops c)) by (rewrite (Permutation_length (remove_perm _ _ _ _ E)); cbn; lia).
    cbn [step]. rewrite E. destruct o as [k|k g|k g [|]|k [g|]]; eexists; (split; [reflexivity | exact L]).
  - intros c' H. cbn in H. inversion H. reflexivity.
Qed.
(** three calls, one answered, one that cannot be resolved, one whose connection breaks *)
Definition ex_es : list (event nat) :=
  [Send; Done 0 true; Done 0 true; GoesOut 0; Done 0 true; Serve 0 41; Done 0 true; Send; GoesOut 0; Done 0 true; Done 0 false; Send; Done 0 false].
Definition run_all {R} (es : list (event R)) : client R := match exec new_client es with Some c => c | None => new_client end.
Lemma run_all_path : forall R (es : list (event R)), path any new_client (run_all es).
Proof.
  intros R es. unfold run_all. destruct (exec new_client es) eqn:E; [|constructor]. eapply exec_path; [intros; exact I | exact E | constructor].
Qed.
Definition ex_client : client nat := run_all ex_es.
Example C70_example : path any new_client ex_client /\ c_sent ex_client = 3 /\ c_ops ex_client = [] /\
  c_calls ex_client = [(0, Answer 0 41); (1, Failed); (2, Failed)].
Proof.
  split; [apply run_all_path|]. split; [vm_compute; reflexivity|]. split; vm_compute; reflexivity.
Qed.

(** ** C71: whose answer *)
(** The claim, for a client that several threads use at a time, is false: the requests 0 and 1 go
    out one after the other; the handler of the second write runs first and starts its read first. *)
Theorem C71_swapped_refuted : forall R (r0 r1 : R), exists c, path any new_client c /\
  c_calls c = [(0, Answer 0 r0); (2, Answer 1 r0); (1, Answer 2 r1)].
Proof.
  intros R r0 r1. exists (run_all [Send; Done 0 true; Done 0 true; GoesOut 0; Done 0 true; Serve 0 r0; Done 0 true;
    Send; Send; GoesOut 0; GoesOut 1; Done 1 true; Done 0 true; Serve 0 r0; Serve 0 r1; Done 0 true; Done 0 true]).
  split; [apply run_all_path | vm_compute; reflexivity].
Qed.

(** one at a time: what is in the connection belongs to the pending request *)
Definition on_wire {R} (w : wire R) : list nat := map fst (w_out w) ++ w_in w.
Definition alone {R} (c : client R) : Prop :=
  match c_ops c with
  | [] => match c_sock c with Some g => on_wire (c_wires c g) = [] | None => True end
  | [Resolve _] => c_sock c = None
  | [Connect _ g] => c_sock c = Some g /\ on_wire (c_wires c g) = []
  | [Write k g out] => c_sock c = Some g /\ on_wire (c_wires c g) = if out then [k] else []
  | [Read k g] => c_sock c = g /\ match g with Some g => on_wire (c_wires c g) = [k] | None => True end
  | _ => False
  end /\
  (forall k j r, In (k, Answer j r) (c_calls c) -> j = k).
Lemma set_wire_same : forall R (ws : nat -> wire R) g w, set_wire ws g w g = w.
Proof. intros. unfold set_wire. rewrite Nat.eqb_refl. reflexivity. Qed.
Lemma alone_step : forall R (c c' : client R) e, alone c -> serial c e -> step c e = Some c' -> alone c'.
Proof.
  intros R c c' e [A B] Ser H. destruct e as [|i ok|i|g r]; cbn [step] in H.
  - rewrite (Ser eq_refl) in A. inversion H; subst; clear H. unfold alone, start_send. cbn [c_ops c_sock c_wires c_calls]. rewrite (Ser eq_refl). cbn [app].
    split; [|exact B]. destruct (c_sock c) eqn:Es; [split; [reflexivity | exact A] | reflexivity].
  - destruct (nth_error (c_ops c) i) as [o|] eqn:E; [|discriminate].
    assert (E1 : i = 0 /\ c_ops c = [o]).
    { destruct (c_ops c) as [|o1 [|o2 l]]; [destruct i; discriminate | | destruct o1; contradiction]. destruct i as [|[|i]]; cbn in E; try discriminate. inversion E; subst. auto. }
    destruct E1 as [-> E1]. rewrite E1 in A. rewrite E1 in H. change (remove_nth 0 [o]) with (@nil op) in H.
    assert (BF : forall k0 k j r, In (k, Answer j r) (c_calls c ++ [(k0, Failed)]) -> j = k).
    { intros k0 k j r X. apply in_app_or in X. destruct X as [X|[X|[]]]; [eapply B; exact X | discriminate X]. }
    destruct o as [k|k g|k g [|]|k [g|]], ok; try discriminate; try (match type of H with Some _ = Some _ => inversion H; subst; clear H end); unfold alone; cbn [c_ops c_sock c_wires c_calls app].
    + split; [|exact B]. rewrite set_wire_same. split; reflexivity.
    + split; [|apply BF]. rewrite A. exact I.
    + unfold start_send. cbn [c_sock c_ops c_wires c_calls app]. destruct A as [-> A]. split; [|exact B]. rewrite set_wire_same. split; [reflexivity | exact A].
    + destruct A as [-> A]. split; [exact A | apply BF].
    + destruct A as [-> A]. split; [|exact B]. split; [reflexivity | exact A].
    + split; [exact I | apply BF].
    + split; [exact I | apply BF].
    + cbn [firstn existsb] in H. destruct A as [As A]. destruct (w_out (c_wires c g)) as [|[j r] out] eqn:Eo; [discriminate|]. inversion H; subst; clear H. cbn [c_ops c_sock c_wires c_calls].
      unfold on_wire in A. rewrite Eo in A. cbn in A. inversion A as [[A1 A2]]. apply app_eq_nil in A2. destruct A2 as [A2 A3].
      split; [rewrite As, set_wire_same; unfold on_wire; cbn; rewrite A2, A3; reflexivity|].
      intros k0 j0 r0 X. apply in_app_or in X. destruct X as [X|[X|[]]]; [eapply B; exact X|]. congruence.
    + split; [exact I | apply BF].
    + split; [exact I | apply BF].
  - destruct (nth_error (c_ops c) i) as [[| |k g [|]|]|] eqn:E; try discriminate. destruct (w_up _); [|discriminate]. inversion H; subst; clear H.
    assert (E1 : i = 0 /\ c_ops c = [Write k g false]).
    { destruct (c_ops c) as [|o1 [|o2 l]]; [destruct i; discriminate | | destruct o1; contradiction]. destruct i as [|[|i]]; cbn in E; try discriminate. inversion E; subst. auto. }
    destruct E1 as [-> E1]. rewrite E1 in A |- *. unfold alone. cbn [firstn skipn app c_ops c_sock c_wires c_calls]. destruct A as [As A]. split; [|exact B].
    split; [exact As|]. rewrite set_wire_same. unfold on_wire in *. cbn. apply app_eq_nil in A. destruct A as [-> ->]. reflexivity.
  - destruct (w_in (c_wires c g)) as [|k rest] eqn:Ei; [discriminate|]. inversion H; subst; clear H.
    assert (Same : forall h, on_wire (set_wire (c_wires c) g (mkWire (w_up (c_wires c g)) rest (w_out (c_wires c g) ++ [(k, r)])) h) = on_wire (c_wires c h)).
    { intros h. unfold set_wire. destruct (h =? g) eqn:Eh; [|reflexivity]. apply Nat.eqb_eq in Eh. subst h. unfold on_wire. cbn. rewrite Ei, map_app, <- app_assoc. reflexivity. }
    unfold alone. cbn [c_ops c_sock c_wires c_calls]. split; [|exact B].
    destruct (c_ops c) as [|[k0|k0 g0|k0 g0 out|k0 [g0|]] [|o2 l]]; try exact A; rewrite ?Same; try exact A. destruct (c_sock c); [rewrite Same|]; exact A.
Qed.
Lemma alone_path : forall R (c : client R), path serial new_client c -> alone c.
Proof. intros R c P. induction P; [split; [exact I | intros ? ? ? []] | eapply alone_step; eassumption]. Qed.
(** With one request at a time the handler gets the answer to its own request, whatever failed
    before. *)
Theorem C71_own_answer_partial : forall R (c : client R), path serial new_client c ->
  forall k j r, In (k, Answer j r) (c_calls c) -> j = k.
Proof. intros R c P. apply (alone_path _ _ P). Qed.
(** two requests, one after the other, over one connection *)
Fixpoint one_by_one {R} (c : client R) (es : list (event R)) : bool :=
  match es with
  | [] => true
  | e :: es =>
      match e, c_ops c with Send, _ :: _ => false | _, _ => true end &&
      match step c e with Some c' => one_by_one c' es | None => true end
  end.
Lemma one_by_one_path : forall R es (c0 c c' : client R), one_by_one c es = true -> exec c es = Some c' -> path serial c0 c -> path serial c0 c'.
Proof.
  intros R es c0. induction es as [|e es IH]; intros c c' K H P; cbn in H; [inversion H; subst; exact P|]. cbn in K. apply andb_true_iff in K. destruct K as [K1 K2].
  destruct (step c e) as [c1|] eqn:E; [|discriminate]. eapply IH; [exact K2 | exact H|]. eapply P_step; [exact P | | exact E]. intros ->. destruct (c_ops c); [reflexivity | discriminate].
Qed.
Lemma run_all_serial : forall R (es : list (event R)), one_by_one new_client es = true -> path serial new_client (run_all es).
Proof. intros R es K. unfold run_all. destruct (exec new_client es) eqn:E; [|constructor]. eapply one_by_one_path; [exact K | exact E | constructor]. Qed.
Example C71_example : exists c, path serial (@new_client nat) c /\ c_calls c = [(0, Failed); (1, Answer 1 41); (2, Answer 2 42)].
Proof.
  exists (run_all [Send; Done 0 false; Send; Done 0 true; Done 0 true; GoesOut 0; Done 0 true; Serve 0 41; Done 0 true; Send; GoesOut 0; Serve 0 42; Done 0 true; Done 0 true]).
  split; [apply run_all_serial; vm_compute; reflexivity | vm_compute; reflexivity].
Qed.

(** ** C72: after a failure *)
(** The claim is false after a failed attempt to connect: the socket stays open, the next request is
    written to it without connecting, and fails whatever the server does. *)
Definition dead {R} (c : client R) (k : nat) : Prop :=
  exists g, c_sock c = Some g /\ w_up (c_wires c g) = false /\
   ((c_ops c = [] /\ c_sent c = k) \/ (c_ops c = [Write k g false] /\ c_sent c = S k)).
Lemma dead_step : forall R (c c' : client R) e k, dead c k -> (forall o, ~ In (k, o) (c_calls c)) -> serial c e -> step c e = Some c' ->
  (dead c' k /\ c_calls c' = c_calls c) \/ (c_sock c' = None /\ c_ops c' = [] /\ c_calls c' = c_calls c ++ [(k, Failed)]).
Proof.
  intros R c c' e k (g & Hs & Hw & D) Nk Ser H. destruct e as [|i ok|i|h r]; cbn [step] in H.
  - left. specialize (Ser eq_refl). destruct D as [[D1 D2]|[D1 D2]]; [|congruence]. inversion H; subst; clear H. unfold start_send. cbn [c_sock c_ops c_calls c_sent c_wires]. rewrite D1, Hs. split; [|reflexivity].
    exists g. cbn. split; [reflexivity|]. split; [exact Hw|]. right. split; reflexivity.
  - destruct D as [[D1 D2]|[D1 D2]]; rewrite D1 in H; [destruct i; discriminate|]. destruct i as [|[|i]]; cbn in H; try discriminate. destruct ok; [discriminate|]. inversion H; subst. right. repeat split.
  - destruct D as [[D1 D2]|[D1 D2]]; rewrite D1 in H; [destruct i; discriminate|]. destruct i as [|[|i]]; cbn in H; try discriminate. rewrite Hw in H. discriminate.
  - left. destruct (w_in _); [discriminate|]. inversion H; subst. cbn. split; [|reflexivity]. exists g. cbn. split; [exact Hs|]. split; [|exact D]. unfold set_wire. destruct (g =? h) eqn:E; [|exact Hw]. apply Nat.eqb_eq in E. subst. exact Hw.
Qed.
Lemma calls_grow : forall R (c c' : client R) e, step c e = Some c' -> exists l, c_calls c' = c_calls c ++ l.
Proof.
  intros R c c' e H. assert (N : exists l, c_calls c = c_calls c ++ l) by (exists []; rewrite app_nil_r; reflexivity). destruct e as [|i ok|i|g r]; cbn [step] in H.
  - inversion H; subst. exact N.
  - destruct (nth_error (c_ops c) i) as [o|]; [|discriminate].
    destruct o as [k|k g|k g [|]|k [g|]], ok; try discriminate; try (match type of H with Some _ = Some _ => inversion H; subst; clear H end); cbn [c_calls start_send]; try exact N; try (eexists; reflexivity).
    destruct (existsb _ _); [discriminate|]. destruct (w_out _) as [|[j r] out]; [discriminate|]. inversion H; subst. eexists. reflexivity.
  - destruct (nth_error (c_ops c) i) as [[| |k g [|]|]|]; try discriminate. destruct (w_up _); [|discriminate]. inversion H; subst. exact N.
  - destruct (w_in _); [discriminate|]. inversion H; subst. exact N.
Qed.
Theorem C72_reconnect_refuted : forall R, exists c : client R, path serial new_client c /\ c_ops c = [] /\ c_sent c = 1 /\ c_calls c = [(0, Failed)] /\
  (forall c', path serial c c' -> forall o, In (1, o) (c_calls c') -> o = Failed).
Proof.
  intros R. set (c0 := run_all [Send; Done 0 true; Done 0 false] : client R). assert (S0 : path serial new_client c0) by (apply run_all_serial; reflexivity).
  assert (any_of : forall c, path serial c0 c -> path any new_client c).
  { intros c P. induction P as [|c e c' P IH Ok St]; [apply run_all_path | eapply P_step; [exact IH | exact I | exact St]]. }
  assert (D0 : dead c0 1) by (exists 0; split; [reflexivity|]; split; [reflexivity|]; left; split; reflexivity).
  assert (E0 : c_calls c0 = [(0, Failed)]) by reflexivity.
  exists c0. split; [exact S0|]. split; [reflexivity|]. split; [reflexivity|]. split; [exact E0|].
  - clearbody c0. intros c' P.
    assert (K : (dead c' 1 /\ c_calls c' = [(0, Failed)]) \/ In (1, Failed) (c_calls c') /\ NoDup (map fst (c_calls c'))).
    { assert (P0 := any_of _ P).
      induction P as [|c e c' P IH Ok St]; [left; split; assumption|].
      assert (Pc := any_of _ P).
      specialize (IH Pc). assert (ND : NoDup (map fst (c_calls c'))) by apply (C70_once _ _ P0). destruct IH as [[D E]|[I1 _]].
      - destruct (dead_step _ _ _ _ _ D ltac:(rewrite E; intros o [X|[]]; discriminate) Ok St) as [[D' E']|(_ & _ & E')].
        + left. split; [exact D' | congruence].
        + right. split; [rewrite E'; apply in_or_app; right; left; reflexivity | exact ND].
      - right. split; [|exact ND]. destruct (calls_grow _ _ _ _ St) as [l ->]. apply in_or_app. left. exact I1. }
    intros o Ho. destruct K as [[_ E]|[I1 ND]].
    + rewrite E in Ho. destruct Ho as [Ho|[]]. discriminate Ho.
    + clear -Ho I1 ND. induction (c_calls c') as [|[k1 o1] l IH]; [destruct Ho|]. cbn in ND. inversion ND as [|? ? N1 N2]; subst.
      destruct Ho as [Ho|Ho], I1 as [I1|I1]; [congruence | | | exact (IH I1 N2 Ho)].
      * inversion Ho; subst. exfalso. apply N1. apply in_map_iff. exists (1, @Failed R). auto.
      * inversion I1; subst. exfalso. apply N1. apply in_map_iff. exists (1, o). auto.
Qed.
(** one at a time: what is known about the socket after a failure *)
Definition cut_off {R} (c : client R) : Prop :=
  match c_ops c with
  | [] => last (map snd (c_calls c)) Failed = Failed -> match c_sock c with Some g => w_up (c_wires c g) = false | None => True end
  | [Resolve _] => c_sock c = None
  | [Connect _ g] => c_sock c = Some g /\ w_up (c_wires c g) = false
  | [_] => True
  | _ => False
  end.
Lemma cut_off_step : forall R (c c' : client R) e, cut_off c -> serial c e -> step c e = Some c' -> cut_off c'.
Proof.
  intros R c c' e A Ser H. unfold cut_off in *. destruct e as [|i ok|i|g r]; cbn [step] in H.
  - rewrite (Ser eq_refl) in A. inversion H; subst; clear H. unfold start_send. cbn [c_ops c_sock c_wires c_calls]. rewrite (Ser eq_refl). cbn [app]. destruct (c_sock c) eqn:Es; [exact I | reflexivity].
  - destruct (nth_error (c_ops c) i) as [o|] eqn:E; [|discriminate].
    assert (E1 : i = 0 /\ c_ops c = [o]).
    { destruct (c_ops c) as [|o1 [|o2 l]]; [destruct i; discriminate | | destruct o1; contradiction]. destruct i as [|[|i]]; cbn in E; try discriminate. inversion E; subst. auto. }
    destruct E1 as [-> E1]. rewrite E1 in A. rewrite E1 in H. change (remove_nth 0 [o]) with (@nil op) in H.
    destruct o as [k|k g|k g [|]|k [g|]], ok; try discriminate; try (match type of H with Some _ = Some _ => inversion H; subst; clear H end); unfold start_send; cbn [c_ops c_sock c_wires c_calls app]; try (intros _; exact I); try exact I.
    + split; [reflexivity|]. rewrite set_wire_same. reflexivity.
    + intros _. rewrite A. exact I.
    + destruct A as [-> A]. exact I.
    + destruct A as [-> A]. intros _. exact A.
    + cbn [firstn existsb] in H. destruct (w_out (c_wires c g)) as [|[j r] out] eqn:Eo; [discriminate|]. inversion H; subst; clear H. cbn [c_ops c_calls]. rewrite map_app. cbn [map snd]. rewrite last_last. discriminate.
  - destruct (nth_error (c_ops c) i) as [[| |k g [|]|]|] eqn:E; try discriminate. destruct (w_up _); [|discriminate]. inversion H; subst; clear H.
    destruct (c_ops c) as [|o1 [|o2 l]]; [destruct i; discriminate | | destruct o1; contradiction]. destruct i as [|[|i]]; cbn in E; try discriminate. exact I.
  - destruct (w_in (c_wires c g)) as [|k rest] eqn:Ei; [discriminate|]. inversion H; subst; clear H. cbn [c_ops c_sock c_wires c_calls].
    assert (Same : forall h, w_up (set_wire (c_wires c) g (mkWire (w_up (c_wires c g)) rest (w_out (c_wires c g) ++ [(k, r)])) h) = w_up (c_wires c h)).
    { intros h. unfold set_wire. destruct (h =? g) eqn:Eh; [|reflexivity]. apply Nat.eqb_eq in Eh. subst h. reflexivity. }
    destruct (c_ops c) as [|[k0|k0 g0|k0 g0 out|k0 [g0|]] [|o2 l]]; try exact A; rewrite ?Same; try exact A. destruct (c_sock c); [rewrite Same|]; exact A.
Qed.
Lemma cut_off_path : forall R (c : client R), path serial new_client c -> cut_off c.
Proof. intros R c P. induction P; [intros _; exact I | eapply cut_off_step; eassumption]. Qed.
(** What holds, for requests sent one at a time: the request after a failed one starts with resolving
    and connecting, or it fails as well and the one after it does. *)
Theorem C72_reconnect_partial : forall R (c c' : client R), path serial new_client c -> c_ops c = [] -> last (map snd (c_calls c)) Failed = Failed -> step c Send = Some c' ->
  c_ops c' = [Resolve (c_sent c)] \/
  (forall c1, path serial c' c1 -> c_ops c1 = [] -> c_sent c1 = S (c_sent c) ->
    c_calls c1 = c_calls c ++ [(c_sent c, Failed)] /\ forall c2, step c1 Send = Some c2 -> c_ops c2 = [Resolve (c_sent c1)]).
Proof.
  intros R c c' P E La H. assert (Cut := cut_off_path _ _ P). unfold cut_off in Cut. rewrite E in Cut. specialize (Cut La).
  destruct (c_sock c) as [g|] eqn:Es.
  2:{ left. cbn in H. unfold start_send in H. cbn in H. rewrite Es, E in H. inversion H. reflexivity. }
  right. rename Cut into Eu.
  assert (Fresh : forall o, ~ In (c_sent c, o) (c_calls c)).
  { intros o X. assert (P0 : path any new_client c) by (clear -P; induction P; [constructor | econstructor; [eassumption | exact I | eassumption]]).
    destruct (C70_once _ _ P0) as (_ & K & _). destruct (K _ _ _ X X). lia. }
  assert (D : dead c' (c_sent c) /\ c_calls c' = c_calls c).
  { destruct (dead_step _ c c' Send (c_sent c)) as [X|(_ & _ & X)]; auto; [exists g; auto | intros _; exact E|]. cbn in H. inversion H as [H1]. rewrite <- H1 in X. cbn in X. rewrite <- (app_nil_r (c_calls c)) in X at 1. apply app_inv_head in X. discriminate X. }
  intros c1 P1.
  assert (K : (dead c1 (c_sent c) /\ c_calls c1 = c_calls c /\ (c_ops c1 = [] -> False)) \/ (c_sock c1 = None /\ c_ops c1 = [] /\ c_sent c1 = S (c_sent c) /\ c_calls c1 = c_calls c ++ [(c_sent c, Failed)]) \/ S (c_sent c) < c_sent c1).
  { induction P1 as [|c1 e c2 P1 IH Ok St].
    - left. destruct D as [D1 D2]. split; [exact D1|]. split; [exact D2|]. cbn in H. inversion H as [H1]. unfold start_send. cbn. intros X. apply app_eq_nil in X. destruct X. discriminate.
    - destruct IH as [(D1 & D2 & D3)|[(I1 & I2 & I3 & I4)|I1]].
      + destruct (dead_step _ _ _ _ _ D1 ltac:(rewrite D2; exact Fresh) Ok St) as [[D' E']|(A1 & A2 & A3)].
        * left. split; [exact D'|]. split; [congruence|]. destruct e; cbn [step] in St.
          -- specialize (Ok eq_refl). contradiction.
          -- destruct D1 as (g1 & _ & _ & [[D1 _]|[D1 _]]); [contradiction (D3 D1)|]. rewrite D1 in St. destruct i as [|[|i]]; cbn in St; try discriminate. destruct ok; [discriminate|]. inversion St; subst. cbn in E'. rewrite <- (app_nil_r (c_calls c1)) in E' at 2. apply app_inv_head in E'. discriminate E'.
          -- destruct D' as (g1 & _ & _ & [[D4 D5]|[D4 _]]); [|rewrite D4; discriminate]. destruct D1 as (g2 & _ & _ & [[D1 _]|[D1 D6]]); [intros; exact (D3 D1)|]. exfalso.
             rewrite D1 in St. destruct i as [|[|i]]; cbn in St; try discriminate. destruct (w_up (c_wires c1 _)); [|discriminate]. inversion St; subst. cbn in D5. lia.
          -- destruct (w_in _); [discriminate|]. inversion St; subst. exact D3.
        * right. left. split; [exact A1|]. split; [exact A2|]. split; [|congruence].
          destruct D1 as (g1 & _ & _ & [[D1 _]|[D1 D6]]); [contradiction (D3 D1)|]. destruct e; cbn [step] in St.
          -- specialize (Ok eq_refl). contradiction.
          -- rewrite D1 in St. destruct i as [|[|i]]; cbn in St; try discriminate. destruct ok; [discriminate|]. inversion St; subst. exact D6.
          -- rewrite D1 in St. destruct i as [|[|i]]; cbn in St; try discriminate. destruct (w_up (c_wires c1 _)); [|discriminate]. inversion St; subst. discriminate A2.
          -- destruct (w_in _); [discriminate|]. inversion St; subst. exact D6.
      + destruct e; cbn [step] in St.
        * right. right. inversion St; subst. unfold start_send. cbn. lia.
        * rewrite I2 in St. destruct i; discriminate.
        * rewrite I2 in St. destruct i; discriminate.
        * right. left. destruct (w_in _); [discriminate|]. inversion St; subst. auto.
      + right. right. assert (c_sent c1 <= c_sent c2); [|lia]. clear -St. destruct e; cbn [step] in St.
        * inversion St; subst. unfold start_send. cbn. lia.
        * destruct (nth_error (c_ops c1) i) as [o|]; [|discriminate]. destruct o as [k|k g|k g [|]|k [g|]], ok; try discriminate; try (match type of St with Some _ = Some _ => inversion St; subst; cbn; lia end).
          destruct (existsb _ _); [discriminate|]. destruct (w_out _) as [|[j r] out]; [discriminate|]. inversion St; subst. cbn. lia.
        * destruct (nth_error (c_ops c1) i) as [[| |k g [|]|]|]; try discriminate. destruct (w_up (c_wires c1 _)); [|discriminate]. inversion St; subst. cbn. lia.
        * destruct (w_in _); [discriminate|]. inversion St; subst. cbn. lia. }
  intros E1 E2. destruct K as [(_ & _ & X)|[(X1 & _ & _ & X2)|X]]; [contradiction (X E1) | | lia].
  split; [exact X2|]. intros c2 H2. cbn in H2. unfold start_send in H2. cbn in H2. rewrite X1, E1 in H2. inversion H2. reflexivity.
Qed.
(** a failed attempt to connect, a failed write, and a fresh connection *)
Example C72_example : exists c : client nat, path serial new_client c /\ c_ops c = [] /\ last (map snd (c_calls c)) Failed = Failed /\ c_sock c = Some 0 /\
  c_calls (run_all [Send; Done 0 true; Done 0 false; Send; Done 0 false; Send; Done 0 true; Done 0 true; GoesOut 0; Done 0 true; Serve 1 7; Done 0 true]) = [(0, Failed); (1, Failed); (2, Answer 2 7)].
Proof.
  exists (run_all [Send; Done 0 true; Done 0 false]). split; [apply run_all_serial; vm_compute; reflexivity|]. split; [vm_compute; reflexivity|]. split; [vm_compute; reflexivity|]. split; vm_compute; reflexivity.
Qed.

Print Assumptions C70_once.
Print Assumptions C71_swapped_refuted.
Print Assumptions C71_own_answer_partial.
Print Assumptions C72_reconnect_refuted.
Print Assumptions C72_reconnect_partial.
