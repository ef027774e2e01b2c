(** * P_Async: asynchronous results (C23) *)

From Coq Require Import List Arith Lia Bool.
From Verif Require Import Async.
Import ListNotations.

(** One thread calls when_ready, one calls set_result, all the others call get. *)
Definition begin {T E} (d : T) (h : nat) (v : T) (e : option E) : state T E :=
  mkState (new_empty d) (fun i => match i with O => WhenReady h W_store | S O => SetResult v e S_store | _ => Get G_lock end) [].
(** who is done *)
Definition returned {T E} (s : state T E) (i : nat) : Prop :=
  match st_thread s i with WhenReady _ W_done | SetResult _ _ S_done | Get (G_done _ _) => True | _ => False end.
Definition waits {T E} (s : state T E) (i : nat) : Prop := st_thread s i = Get G_wait.
Definition get_gave {T E} (s : state T E) (i : nat) (v : T) (e : option E) : Prop := st_thread s i = Get (G_done v e).

Lemma exec_path : forall T E (ls : list label) (s s' : state T E), exec s ls = Some s' -> forall s0, path any_step s0 s -> path any_step s0 s'.
Proof.
  induction ls as [|l ls IH]; intros s s' H s0 P; cbn in H; [inversion H; subst; exact P|].
  destruct (step s l) as [s1|] eqn:E1; [|discriminate]. eapply IH; [exact H|]. eapply P_step; [exact P | exact I | exact E1].
Qed.

(** The handler can be called twice: when_ready has stored it, set_result takes it and calls it,
    when_ready sees that there is a result. *)
Theorem C23_twice_refuted : forall T E (d v : T) (e : option E) h, exists s,
  path any_step (begin d h v e) s /\ returned s 0 /\ returned s 1 /\ st_calls s = [mkCall 1 h v e; mkCall 0 h v e].
Proof.
  intros T E d v e h. eexists. split; [|split; [|split]].
  - apply (exec_path T E [Run 0; Run 1; Run 1; Run 1; Run 0; Run 0] (begin d h v e)); [reflexivity | constructor].
  - exact I.
  - exact I.
  - reflexivity.
Qed.
(** get returns without a result when it is woken up without a notification. *)
Theorem C23_get_refuted : forall T E (d v : T) (e : option E) h, exists s,
  path any_step (begin d h v e) s /\ get_gave s 2 d None /\ st_thread s 1 = SetResult v e S_store.
Proof.
  intros T E d v e h. eexists. split; [|split].
  - apply (exec_path T E [Run 2; Spurious 2; Run 2] (begin d h v e)); [reflexivity | constructor].
  - reflexivity.
  - reflexivity.
Qed.
(** An object constructed with a handler claims to have a result. *)
Theorem C23_handler_constructor_refuted : forall T E (d : T) h (s : state T E),
  st_sh s = new_handler d h -> st_thread s 0 = Get G_lock -> exists s', step s (Run 0) = Some s' /\ get_gave s' 0 d None.
Proof.
  intros T E d h s H1 H2. eexists. cbn. rewrite H2, H1. split; [reflexivity|]. reflexivity.
Qed.

(** ** What holds in every interleaving *)

Definition stored {T E} (s : state T E) : bool := match st_thread s 1 with SetResult _ _ S_store => false | _ => true end.
Definition handed {T E} (s : state T E) : bool := match st_thread s 0 with WhenReady _ W_store => false | _ => true end.
Definition by_whom {T E} (s : state T E) : list nat := map c_by (st_calls s).
(** what threads 0 and 1 have done decides the rest *)
Record inv {T E} (d v : T) (e : option E) (h : nat) (s : state T E) : Prop := {
  I_w : exists pc, st_thread s 0 = WhenReady h pc;
  I_s : exists pc, st_thread s 1 = SetResult v e pc;
  I_g : forall i, 2 <= i -> exists pc, st_thread s i = Get pc;
  I_sh : st_sh s = mkShared (if stored s then v else d) (if stored s then e else None) (stored s) (if handed s then Some h else None);
  I_took : forall k, st_thread s 1 = SetResult v e (S_call (Some k)) -> k = h;
  I_calls : forall c, In c (st_calls s) -> c = mkCall (c_by c) h v e /\ c_by c < 2;
  I_nd : NoDup (by_whom s);
  I_b0 : In 0 (by_whom s) -> st_thread s 0 = WhenReady h W_done;
  I_b1 : In 1 (by_whom s) -> st_thread s 1 = SetResult v e S_notify \/ st_thread s 1 = SetResult v e S_done;
  I_call : st_thread s 0 = WhenReady h W_call -> stored s = true;
  (* some call is made or is still to come *)
  I_least : stored s = true -> handed s = true ->
    st_calls s <> [] \/ st_thread s 1 = SetResult v e (S_call (Some h)) \/ st_thread s 0 = WhenReady h W_test \/ st_thread s 0 = WhenReady h W_call;
  (* nobody waits once notify_all was called *)
  I_wait : st_thread s 1 = SetResult v e S_done -> forall i, ~ waits s i;
  (* nobody calls before there is a result *)
  I_early : stored s = false -> st_calls s = []
}.
Lemma inv_begin : forall T E d v (e : option E) h, @inv T E d v e h (begin d h v e).
Proof.
  intros. constructor; cbn; try discriminate; try contradiction; eauto.
  - intros [|[|i]] Hi; [lia | lia | eauto].
  - constructor.
Qed.
Lemma set_same : forall T E (t : nat -> thread T E) i x, set_thread t i x i = x.
Proof. intros. unfold set_thread. rewrite Nat.eqb_refl. reflexivity. Qed.
Lemma set_other : forall T E (t : nat -> thread T E) i j x, j <> i -> set_thread t i x j = t j.
Proof. intros. unfold set_thread. apply Nat.eqb_neq in H. rewrite H. reflexivity. Qed.
Lemma inv_step : forall T E d v (e : option E) h (s s' : state T E) l, inv d v e h s -> step s l = Some s' -> inv d v e h s'.
Proof.
  intros T E d v e h s s' l V H. destruct V as [[w Hw] [p Hp] Vg Vsh Vt Vc Vnd Vb0 Vb1 Vcall Vl Vwt Ve].
  assert (Sto : stored s = match p with S_store => false | _ => true end) by (unfold stored; rewrite Hp; destruct p; reflexivity).
  assert (Han : handed s = match w with W_store => false | _ => true end) by (unfold handed; rewrite Hw; reflexivity).
  (* a step of a thread that calls get *)
  assert (Getter : forall i pc pc', 2 <= i -> st_thread s i = Get pc -> (pc' = G_wait -> stored s = false) ->
    inv d v e h (mkState (st_sh s) (set_thread (st_thread s) i (Get pc')) (st_calls s))).
  { intros i pc pc' Hi Hpc Hwait.
    assert (N0 : set_thread (st_thread s) i (Get pc') 0 = st_thread s 0) by (apply set_other; lia).
    assert (N1 : set_thread (st_thread s) i (Get pc') 1 = st_thread s 1) by (apply set_other; lia).
    constructor; unfold stored, handed, by_whom, waits in *; cbn [st_thread st_sh st_calls]; rewrite ?N0, ?N1; eauto.
    - intros j Hj. destruct (Nat.eq_dec j i) as [->|Hne]; [rewrite set_same; eauto | rewrite set_other by assumption; apply Vg, Hj].
    - intros Hd j. destruct (Nat.eq_dec j i) as [->|Hne]; [rewrite set_same | rewrite set_other by assumption; apply (Vwt Hd)].
      intros X. inversion X. subst pc'. specialize (Hwait eq_refl). rewrite Hd in Hwait. discriminate. }
  destruct l as [i|i]; cbn [step] in H.
  2:{ destruct (st_thread s i) as [| |[| | |]] eqn:Ei; try discriminate. inversion H; subst. clear H.
      assert (2 <= i) by (destruct i as [|[|i]]; [congruence | congruence | lia]). apply (Getter i G_wait); [assumption | assumption | discriminate]. }
  destruct i as [|[|i]].
  - rewrite Hw in H. destruct w.
    + (* stores its handler *) inversion H; subst. clear H.
      constructor; unfold stored, handed, by_whom, waits in *; cbn [st_thread st_sh st_calls]; rewrite ?set_same, ?(set_other _ _ _ 0 1) by lia; eauto.
      * intros j Hj. rewrite set_other by lia. apply Vg, Hj.
      * rewrite Vsh. reflexivity.
      * intros Hin. specialize (Vb0 Hin). rewrite Hw in Vb0. discriminate.
      * discriminate.
      * intros Hd j. destruct (Nat.eq_dec j 0) as [->|Hne]; [rewrite set_same; discriminate | rewrite set_other by assumption; apply (Vwt Hd)].
    + (* tests *) inversion H; subst. clear H.
      assert (Eh : sh_has (st_sh s) = stored s) by (rewrite Vsh; reflexivity). rewrite Eh. unfold stored, handed in Vl. rewrite Hw in Vl.
      constructor; unfold stored, handed, by_whom, waits in *; cbn [st_thread st_sh st_calls]; rewrite ?set_same, ?(set_other _ _ _ 0 1) by lia; eauto.
      * intros j Hj. rewrite set_other by lia. apply Vg, Hj.
      * rewrite Vsh, Hw, Hp. destruct p; reflexivity.
      * intros Hin. specialize (Vb0 Hin). rewrite Hw in Vb0. discriminate.
      * rewrite Hp. destruct p; intros; first [reflexivity | discriminate].
      * rewrite Hp. destruct p; intros; try discriminate; auto.
      * intros Hd j. destruct (Nat.eq_dec j 0) as [->|Hne]; [rewrite set_same; discriminate | rewrite set_other by assumption; apply (Vwt Hd)].
    + (* calls *) assert (St := Vcall Hw). rewrite Vsh, St, Han in H. cbn in H. inversion H; subst. clear H.
      constructor; unfold stored, handed, by_whom, waits in *; cbn [st_thread st_sh st_calls]; rewrite ?set_same, ?(set_other _ _ _ 0 1) by lia; eauto.
      * intros j Hj. rewrite set_other by lia. apply Vg, Hj.
      * rewrite Hw in Vsh. rewrite St in *. reflexivity.
      * intros c Hc. apply in_app_or in Hc. destruct Hc as [Hc|[<-|[]]]; [apply Vc, Hc | split; [reflexivity | cbn; lia]].
      * rewrite map_app. cbn. apply NoDup_rev in Vnd. rewrite <- (rev_involutive (map c_by (st_calls s) ++ [0])). apply NoDup_rev. rewrite rev_app_distr. cbn.
        constructor; [|exact Vnd]. rewrite <- in_rev. intros Hin. specialize (Vb0 Hin). rewrite Hw in Vb0. discriminate.
      * rewrite map_app. intros Hin. apply in_app_or in Hin. destruct Hin as [Hin|[Hin|[]]]; [apply Vb1, Hin | discriminate].
      * intros _ _. left. destruct (st_calls s); discriminate.
      * intros Hd j. destruct (Nat.eq_dec j 0) as [->|Hne]; [rewrite set_same; discriminate | rewrite set_other by assumption; apply (Vwt Hd)].
      * intros X. rewrite X in St. discriminate.
    + discriminate.
  - rewrite Hp in H. destruct p as [|[k|]| |].
    + (* stores the result *) inversion H; subst. clear H.
      constructor; unfold stored, handed, by_whom, waits in *; cbn [st_thread st_sh st_calls]; rewrite ?set_same, ?(set_other _ _ _ 1 0) by lia; eauto.
      * intros j Hj. rewrite set_other by lia. apply Vg, Hj.
      * rewrite Vsh, Hw. reflexivity.
      * intros k X. inversion X as [Y]. rewrite Vsh, Hw in Y. cbn in Y. destruct w; inversion Y; reflexivity.
      * intros Hin. destruct (Vb1 Hin) as [X|X]; rewrite Hp in X; discriminate.
      * intros _ Hh. right. left. rewrite Vsh. cbn. rewrite Hh. reflexivity.
      * discriminate.
    + (* calls *) assert (k = h) by (apply Vt; exact Hp). subst k. inversion H; subst. clear H.
      assert (Ev : st_sh s = mkShared v e true (if handed s then Some h else None)) by (rewrite Vsh, Sto; reflexivity). rewrite Ev. cbn [sh_result sh_err].
      constructor; unfold stored, handed, by_whom, waits in *; cbn [st_thread st_sh st_calls]; rewrite ?set_same, ?(set_other _ _ _ 1 0) by lia; eauto.
      * intros j Hj. rewrite set_other by lia. apply Vg, Hj.
      * discriminate.
      * intros c Hc. apply in_app_or in Hc. destruct Hc as [Hc|[<-|[]]]; [apply Vc, Hc | split; [reflexivity | cbn; lia]].
      * rewrite map_app. cbn. apply NoDup_rev in Vnd. rewrite <- (rev_involutive (map c_by (st_calls s) ++ [1])). apply NoDup_rev. rewrite rev_app_distr. cbn.
        constructor; [|exact Vnd]. rewrite <- in_rev. intros Hin. destruct (Vb1 Hin) as [X|X]; rewrite Hp in X; discriminate.
      * rewrite map_app. intros Hin. apply in_app_or in Hin. destruct Hin as [Hin|[Hin|[]]]; [apply Vb0, Hin | discriminate].
      * intros _ _. left. destruct (st_calls s); discriminate.
      * discriminate.
      * discriminate.
    + (* nothing to call *) inversion H; subst. clear H. unfold stored, handed in Vl. rewrite Hp in Vl.
      constructor; unfold stored, handed, by_whom, waits in *; cbn [st_thread st_sh st_calls]; rewrite ?set_same, ?(set_other _ _ _ 1 0) by lia; eauto.
      * intros j Hj. rewrite set_other by lia. apply Vg, Hj.
      * rewrite Vsh, Hp. reflexivity.
      * discriminate.
      * intros _ Hh. destruct (Vl eq_refl Hh) as [X|[X|X]]; [left; exact X | discriminate X | right; right; exact X].
      * discriminate.
    + (* notifies *) inversion H; subst. clear H.
      assert (E0 : wake (set_thread (st_thread s) 1 (SetResult v e S_done) 0) = WhenReady h w) by (rewrite set_other, Hw by lia; reflexivity).
      assert (E1 : wake (set_thread (st_thread s) 1 (SetResult v e S_done) 1) = SetResult v e S_done) by (rewrite set_same; reflexivity).
      constructor; unfold stored, handed, by_whom, waits in *; cbn [st_thread st_sh st_calls]; rewrite ?E0, ?E1; eauto.
      * intros j Hj. rewrite set_other by lia. destruct (Vg j Hj) as [pc ->]. destruct pc; cbn; eauto.
      * rewrite Vsh, Hw, Hp. reflexivity.
      * discriminate.
      * intros Hin. specialize (Vb0 Hin). rewrite Hw in Vb0. exact Vb0.
      * intros _ Hh. rewrite Hp, Hw in Vl. destruct (Vl eq_refl Hh) as [X|[X|X]]; [left; exact X | discriminate X | right; right; exact X].
      * intros _ j. unfold set_thread. destruct (Nat.eqb j 1); [discriminate|]. destruct (st_thread s j) as [| |[| | |]]; cbn; discriminate.
    + discriminate.
  - assert (Hi : 2 <= S (S i)) by lia. destruct (Vg _ Hi) as [pc Hpc]. rewrite Hpc in H.
    assert (Eh : sh_has (st_sh s) = stored s) by (rewrite Vsh; reflexivity).
    destruct pc; try discriminate; inversion H; subst; clear H.
    + rewrite Eh. destruct (stored s) eqn:Es; (eapply Getter; [exact Hi | exact Hpc|]); [discriminate | reflexivity].
    + eapply Getter; [exact Hi | exact Hpc | discriminate].
Qed.
Lemma inv_path : forall T E (ok : state T E -> label -> Prop) d v e h s, path ok (begin d h v e) s -> inv d v e h s.
Proof. intros T E ok d v e h s P. induction P; [apply inv_begin | eapply inv_step; eassumption]. Qed.

(** In every interleaving: the handler is only called with the result; when both calls have
    returned it was called at least once, and at most once by each of the two threads.
    Missing: exactly once ([C23_twice_refuted]). *)
Theorem C23_handler_partial : forall T E (d v : T) (e : option E) h s, path any_step (begin d h v e) s ->
  (forall c, In c (st_calls s) -> c_handler c = h /\ c_value c = v /\ c_err c = e /\ (c_by c = 0 \/ c_by c = 1)) /\
  NoDup (map c_by (st_calls s)) /\
  (returned s 0 -> returned s 1 -> 1 <= length (st_calls s) <= 2).
Proof.
  intros T E d v e h s P. assert (V := inv_path _ _ _ _ _ _ _ _ P). destruct V as [[w Hw] [p Hp] Vg Vsh Vt Vc Vnd Vb0 Vb1 Vcall Vl Vwt Ve].
  split; [intros c Hc; destruct (Vc c Hc) as [E1 E2]; rewrite E1; cbn; repeat split; lia|]. split; [exact Vnd|].
  intros R0 R1. unfold returned in *. rewrite Hw in R0. rewrite Hp in R1. destruct w; try contradiction. destruct p as [|[|]| |]; try contradiction. split.
  - unfold stored, handed in Vl. rewrite Hw, Hp in Vl. destruct (Vl eq_refl eq_refl) as [X|[X|[X|X]]]; try discriminate X. destruct (st_calls s); [contradiction | cbn; lia].
  - rewrite <- (map_length c_by). assert (L := NoDup_incl_length (l' := [0; 1]) Vnd). apply L. intros x Hx. unfold by_whom in Hx. apply in_map_iff in Hx. destruct Hx as (c & <- & Hc).
    destruct (Vc c Hc) as [_ B]. cbn. lia.
Qed.

(** Exactly once, if set_result does not store its result between when_ready's storing the
    handler and its test. *)
Definition not_between {T E} (s : state T E) (l : label) : Prop :=
  l = Run 1 -> stored s = false -> match st_thread s 0 with WhenReady _ W_test => False | _ => True end.
Definition took {T E} (s : state T E) : Prop := (exists v e k, st_thread s 1 = SetResult v e (S_call (Some k))) \/ In 1 (by_whom s).
Lemma took_done : forall T E (d v : T) (e : option E) h s, path not_between (begin d h v e) s -> took s -> st_thread s 0 = WhenReady h W_done /\ ~ In 0 (by_whom s).
Proof.
  intros T E d v e h s P. induction P as [|s l s' P IH Ok St]; [intros [(v' & e' & k & X)|[]]; discriminate X|].
  assert (V := inv_path _ _ _ _ _ _ _ _ P). destruct V as [[w Hw] [p Hp] Vg Vsh Vt Vc Vnd Vb0 Vb1 Vcall Vl Vwt Ve].
  assert (Same : st_thread s' 0 = st_thread s 0 -> st_thread s' 1 = st_thread s 1 -> st_calls s' = st_calls s -> took s' -> st_thread s' 0 = WhenReady h W_done /\ ~ In 0 (by_whom s')).
  { intros A B C. unfold took, by_whom in *. rewrite A, B, C. exact IH. }
  destruct l as [i|i]; cbn [step] in St.
  2:{ destruct (st_thread s i) as [| |[| | |]] eqn:Ei; try discriminate. inversion St; subst. clear St.
      assert (2 <= i) by (destruct i as [|[|i]]; [congruence | congruence | lia]). apply Same; cbn [st_thread st_calls]; rewrite ?set_other by lia; reflexivity. }
  destruct i as [|[|i]].
  - (* when_ready *) rewrite Hw in St. intros Tk. exfalso.
    assert (Tk0 : took s).
    { unfold took, by_whom in *. destruct w; [| |destruct (sh_handler (st_sh s))|]; inversion St; subst; clear St; cbn [st_thread st_calls] in Tk; rewrite set_other in Tk by lia; try exact Tk.
      rewrite map_app in Tk. destruct Tk as [Tk|Tk]; [left; exact Tk | right]. apply in_app_or in Tk. destruct Tk as [Tk|[Tk|[]]]; [exact Tk | discriminate Tk]. }
    destruct (IH Tk0) as [X _]. rewrite Hw in X. inversion X; subst. discriminate St.
  - (* set_result *) rewrite Hp in St. destruct p as [|[k|]| |]; inversion St; subst; clear St; unfold took, by_whom in *; cbn [st_thread st_calls] in *; rewrite ?set_same, ?(set_other _ _ _ 1 0) by lia.
    + assert (Early : st_calls s = []) by (apply Ve; unfold stored; rewrite Hp; reflexivity). rewrite Early. cbn [map].
      intros [(v' & e' & k & X)|[]]. inversion X as [[X1 X2 X3]]. rewrite Vsh in X3. unfold handed in X3. rewrite Hw in X3. cbn [sh_handler] in X3.
      specialize (Ok eq_refl). unfold stored in Ok. rewrite Hp in Ok. specialize (Ok eq_refl). rewrite Hw in Ok.
      destruct w; [discriminate X3 | contradiction | | split; [exact Hw | tauto]]. specialize (Vcall Hw). unfold stored in Vcall. rewrite Hp in Vcall. discriminate.
    + intros _. rewrite map_app. destruct IH as [I1 I2]; [left; eauto|]. split; [exact I1|]. intros Hin. apply in_app_or in Hin. destruct Hin as [Hin|[Hin|[]]]; [exact (I2 Hin) | discriminate Hin].
    + intros [(v' & e' & k & X)|X]; [discriminate X|]. apply IH. right. exact X.
    + intros [(v' & e' & k & X)|X]; [discriminate X|]. destruct IH as [I1 I2]; [right; exact X|]. rewrite I1. split; [reflexivity | exact I2].
  - (* get *) assert (Hi : 2 <= S (S i)) by lia. destruct (Vg _ Hi) as [pc Hpc]. rewrite Hpc in St.
    destruct pc; try discriminate; inversion St; subst; clear St; apply Same; cbn [st_thread st_calls]; rewrite ?set_other by lia; reflexivity.
Qed.
Theorem C23_once_partial : forall T E (d v : T) (e : option E) h s, path not_between (begin d h v e) s -> returned s 0 -> returned s 1 ->
  exists i, st_calls s = [mkCall i h v e].
Proof.
  intros T E d v e h s P R0 R1. assert (Tk := took_done _ _ _ _ _ _ _ P).
  assert (V := inv_path _ _ _ _ _ _ _ _ P). destruct V as [[w Hw] [p Hp] Vg Vsh Vt Vc Vnd Vb0 Vb1 Vcall Vl Vwt Ve].
  unfold returned in *. rewrite Hw in R0. rewrite Hp in R1. destruct w; try contradiction. destruct p as [|[|]| |]; try contradiction.
  unfold stored, handed in Vl. rewrite Hw, Hp in Vl. destruct (Vl eq_refl eq_refl) as [X|[X|[X|X]]]; try discriminate X.
  unfold took, by_whom in *. destruct (st_calls s) as [|c [|c2 cs]]; [contradiction | |].
  - exists (c_by c). f_equal. apply (Vc c). left. reflexivity.
  - exfalso. destruct (Vc c (or_introl eq_refl)) as [_ B1]. destruct (Vc c2 (or_intror (or_introl eq_refl))) as [_ B2]. cbn [map] in *. inversion Vnd as [|? ? N1 N2]; subst.
    assert (D : c_by c <> c_by c2) by (intros X1; apply N1; left; symmetry; exact X1).
    assert (In 1 (c_by c :: c_by c2 :: map c_by cs) /\ In 0 (c_by c :: c_by c2 :: map c_by cs)) as [A B] by (cbn; lia).
    destruct (Tk (or_intror A)) as [_ Z]. exact (Z B).
Qed.

(** get: it gives the result unless it is woken up spuriously; no wake-up is lost *)
Theorem C23_get_partial : forall T E (d v : T) (e : option E) h s, path no_spurious (begin d h v e) s ->
  (forall i x y, get_gave s i x y -> x = v /\ y = e) /\ (returned s 1 -> forall i, ~ waits s i).
Proof.
  intros T E d v e h s P. split.
  2:{ assert (V := inv_path _ _ _ _ _ _ _ _ P). destruct V as [_ [p Hp] _ _ _ _ _ _ _ _ _ Vwt _]. unfold returned. rewrite Hp. destruct p as [|[|]| |]; try contradiction. intros _. apply Vwt, Hp. }
  assert (K : forall i, match st_thread s i with Get G_woken => stored s = true | Get (G_done x y) => stored s = true /\ x = v /\ y = e | _ => True end).
  { induction P as [|s l s' P IH Ok St]; [intros [|[|i]]; exact I|].
    assert (V := inv_path _ _ _ _ _ _ _ _ P). destruct V as [[w Hw] [p Hp] Vg Vsh Vt Vc Vnd Vb0 Vb1 Vcall Vl Vwt Ve].
    assert (Mono : stored s = true -> st_thread s' 1 = st_thread s 1 \/ (exists pc, st_thread s' 1 = SetResult v e pc /\ pc <> S_store) -> stored s' = true).
    { unfold stored. intros Sd [->|(pc & -> & Hn)]; [exact Sd | destruct pc; congruence]. }
    assert (Rest : (stored s = true -> stored s' = true) -> forall j, match st_thread s j with Get G_woken => stored s' = true | Get (G_done x y) => stored s' = true /\ x = v /\ y = e | _ => True end).
    { intros M j. specialize (IH j). destruct (st_thread s j) as [| |[| | |x y]]; auto. destruct IH as (A & B & C). auto. }
    destruct l as [i|i]; [|contradiction]. cbn [step] in St. intros j.
    destruct i as [|[|i]].
    - rewrite Hw in St.
      assert (X : (st_thread s' 1 = st_thread s 1) /\ forall j, j <> 0 -> st_thread s' j = st_thread s j).
      { destruct w; [| |destruct (sh_handler (st_sh s))|]; inversion St; subst; cbn [st_thread]; (split; [apply set_other; lia | intros; apply set_other; assumption]). }
      destruct X as [X1 X2]. destruct (Nat.eq_dec j 0) as [->|Hj].
      + destruct w; [| |destruct (sh_handler (st_sh s))|]; inversion St; subst; cbn [st_thread]; rewrite set_same; exact I.
      + rewrite X2 by exact Hj. apply Rest. intros Sd. apply Mono; [exact Sd | left; exact X1].
    - rewrite Hp in St.
      assert (Sd : stored s' = true).
      { unfold stored. destruct p as [|[|]| |]; inversion St; subst; cbn [st_thread]; rewrite set_same; reflexivity. }
      destruct (Nat.eq_dec j 1) as [->|Hj]; [destruct p as [|[|]| |]; inversion St; subst; cbn [st_thread]; rewrite set_same; exact I|].
      assert (X : st_thread s' j = st_thread s j \/ (p = S_notify /\ st_thread s' j = wake (st_thread s j))).
      { destruct p as [|[|]| |]; inversion St; subst; cbn [st_thread]; rewrite set_other by exact Hj; auto. }
      destruct X as [X|[Ep X]]; rewrite X; [apply Rest; intros _; exact Sd|].
      assert (R := Rest (fun _ => Sd) j). destruct (st_thread s j) as [| |[| | |]]; cbn; auto.
    - assert (Hi : 2 <= S (S i)) by lia. destruct (Vg _ Hi) as [pc Hpc]. rewrite Hpc in St. specialize (IH (S (S i))). rewrite Hpc in IH.
      assert (Eh : sh_has (st_sh s) = stored s) by (rewrite Vsh; reflexivity).
      assert (Sd : stored s' = stored s).
      { unfold stored. destruct pc; inversion St; subst; cbn [st_thread]; rewrite set_other by lia; reflexivity. }
      destruct (Nat.eq_dec j (S (S i))) as [->|Hj].
      + rewrite Sd. destruct pc; inversion St; subst; clear St; cbn [st_thread]; rewrite set_same.
        * rewrite Eh. destruct (stored s) eqn:Es; [|exact I]. rewrite Vsh. cbn. auto.
        * rewrite Vsh, IH. cbn. auto.
      + assert (X : st_thread s' j = st_thread s j) by (destruct pc; inversion St; subst; cbn [st_thread]; apply set_other; exact Hj). rewrite X. apply Rest. rewrite Sd. auto. }
  intros i x y G. specialize (K i). rewrite G in K. tauto.
Qed.

(** An object constructed with a result: the handler is called once, at once. *)
Theorem C23_given_result : forall T E (v : T) h (s : state T E), st_sh s = new_result v -> st_thread s 0 = WhenReady h W_store -> st_calls s = [] ->
  exists s', exec s [Run 0; Run 0; Run 0] = Some s' /\ returned s' 0 /\ st_calls s' = [mkCall 0 h v None].
Proof. intros T E v h [sh th cs] H1 H2 H3. cbn in H1, H2, H3. subst sh cs. eexists. cbn. rewrite H2. cbn. split; [reflexivity|]. split; [exact I | reflexivity]. Qed.

(** ** Examples *)
Definition ex_begin : state nat nat := begin 0 7 42 None.
Definition run_to (ls : list label) : state nat nat := match exec ex_begin ls with Some s => s | None => ex_begin end.
(** when_ready first: the handler is called by set_result; get waits and is notified *)
Lemma path_of : forall (ok : state nat nat -> label -> Prop) ls s s', (forall s l, In l ls -> ok s l) -> exec s ls = Some s' -> forall s0, path ok s0 s -> path ok s0 s'.
Proof.
  intros ok ls. induction ls as [|l ls IH]; intros s s' H E s0 P; cbn in E; [inversion E; subst; exact P|].
  destruct (step s l) as [s1|] eqn:E1; [|discriminate]. eapply IH; [intros; apply H; right; assumption | exact E|]. eapply P_step; [exact P | apply H; left; reflexivity | exact E1].
Qed.
Definition ex_ls : list label := [Run 0; Run 2; Run 0; Run 1; Run 1; Run 1; Run 2].
Example C23_example : exec ex_begin ex_ls = Some (run_to ex_ls) /\ path no_spurious ex_begin (run_to ex_ls) /\ returned (run_to ex_ls) 0 /\ returned (run_to ex_ls) 1 /\
  st_calls (run_to ex_ls) = [mkCall 1 7 42 None] /\ get_gave (run_to ex_ls) 2 42 None.
Proof.
  split; [reflexivity|]. split; [|split; [exact I|]; split; [exact I|]; split; reflexivity].
  apply (path_of no_spurious ex_ls ex_begin); [|reflexivity | constructor]. intros s l Hl. unfold ex_ls in Hl. cbn in Hl. intuition (subst; exact I).
Qed.
Definition ex_ls2 : list label := [Run 1; Run 0; Run 0; Run 1; Run 0; Run 1].
Example C23_once_example : path not_between ex_begin (run_to ex_ls2) /\ returned (run_to ex_ls2) 0 /\ returned (run_to ex_ls2) 1.
Proof.
  split; [|split; exact I].
  eapply (P_step _ _ (run_to [Run 1; Run 0; Run 0; Run 1; Run 0]) (Run 1)); [|intros _ X; discriminate X|reflexivity].
  eapply (P_step _ _ (run_to [Run 1; Run 0; Run 0; Run 1]) (Run 0)); [|intros X; discriminate X|reflexivity].
  eapply (P_step _ _ (run_to [Run 1; Run 0; Run 0]) (Run 1)); [|intros _ X; discriminate X|reflexivity].
  eapply (P_step _ _ (run_to [Run 1; Run 0]) (Run 0)); [|intros X; discriminate X|reflexivity].
  eapply (P_step _ _ (run_to [Run 1]) (Run 0)); [|intros X; discriminate X|reflexivity].
  eapply (P_step _ _ ex_begin (Run 1)); [constructor | intros _ _; exact I | reflexivity].
Qed.

Print Assumptions C23_twice_refuted.
Print Assumptions C23_get_refuted.
Print Assumptions C23_handler_partial.
Print Assumptions C23_once_partial.
Print Assumptions C23_get_partial.
Print Assumptions C23_given_result.
Print Assumptions C23_handler_constructor_refuted.
