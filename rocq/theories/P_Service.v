(** * P_Service: what the logger writes (C75), what stop waits for (C76), what exceptions do to the workers (C77) *)

From Coq Require Import List Arith Bool Lia.
From Verif Require Import Service.
Import ListNotations.

Section Facts.
Context {line : Type}.
Implicit Types (c : service line) (e : event line) (es : list (event line)).

(** the lines given to logger [i], oldest first *)
Fixpoint logged (i : nat) es : list line :=
  match es with
  | [] => []
  | Log j x :: es => if j =? i then x :: logged i es else logged i es
  | _ :: es => logged i es
  end.
Definition spurious es : Prop := exists k, In (Spurious k) es.
Definition prefix (a b : list line) : Prop := exists r, b = a ++ r.

Lemma logged_app : forall i a b, logged i (a ++ b) = logged i a ++ logged i b.
Proof. induction a as [|e a IH]; intros b; [reflexivity|]. destruct e; cbn; rewrite ?IH; try reflexivity. destruct (_ =? i); reflexivity. Qed.
Lemma exec_app : forall a b c, exec c (a ++ b) = match exec c a with Some c' => exec c' b | None => None end.
Proof. induction a as [|e a IH]; intros b c; cbn; [reflexivity|]. destruct (step c e); [apply IH|reflexivity]. Qed.
Lemma exec_ind : forall c0 (P : list (event line) -> service line -> Prop), P [] c0 ->
  (forall es c e c', exec c0 es = Some c -> P es c -> step c e = Some c' -> P (es ++ [e]) c') ->
  forall es c, exec c0 es = Some c -> P es c.
Proof.
  intros c0 P P0 PS es. induction es as [|e es IH] using rev_ind; intros c H.
  - injection H as <-. exact P0.
  - rewrite exec_app in H. destruct (exec c0 es) as [c1|] eqn:E; [|discriminate]. cbn in H. destruct (step c1 e) as [c2|] eqn:E2; [|discriminate]. injection H as <-.
    eapply PS; eauto.
Qed.

Lemma nth_upd {A} : forall (l : list A) i x k, nth_error (upd i x l) k = if (k =? i) && (k <? length l) then Some x else nth_error l k.
Proof.
  induction l as [|y l IH]; intros [|i] x [|k]; cbn; try reflexivity.
  - rewrite andb_comm. reflexivity.
  - rewrite IH. reflexivity.
Qed.
Lemma upd_length {A} : forall (l : list A) i x, length (upd i x l) = length l.
Proof. induction l; intros [|i] x; cbn; auto. Qed.
Lemma nth_lt {A} : forall (l : list A) k x, nth_error l k = Some x -> k < length l.
Proof. intros. apply nth_error_Some. congruence. Qed.
Lemma nth_upd_same {A} : forall (l : list A) i x y, nth_error l i = Some y -> nth_error (upd i x l) i = Some x.
Proof. intros l i x y H. rewrite nth_upd, Nat.eqb_refl. apply nth_lt in H. apply Nat.ltb_lt in H. rewrite H. reflexivity. Qed.
Lemma nth_upd_other {A} : forall (l : list A) i x k, k <> i -> nth_error (upd i x l) k = nth_error l k.
Proof. intros l i x k H. rewrite nth_upd. apply Nat.eqb_neq in H. rewrite H. reflexivity. Qed.
(** an element of a changed list is the new one or an old one *)
Lemma nth_upd_inv {A} : forall (l : list A) i x k y, nth_error (upd i x l) k = Some y -> (k = i /\ y = x) \/ (k <> i /\ nth_error l k = Some y).
Proof.
  intros l i x k y H. rewrite nth_upd in H. destruct (Nat.eqb_spec k i) as [->|N]; [|auto].
  destruct (Nat.ltb_spec i (length l)) as [L|L]; cbn in H; [left; split; congruence|]. apply nth_lt in H. lia.
Qed.
Lemma nth_app_inv {A} : forall (l : list A) x k y, nth_error (l ++ [x]) k = Some y -> nth_error l k = Some y \/ (k = length l /\ y = x).
Proof.
  intros l x k y H. destruct (Nat.lt_ge_cases k (length l)) as [L|L].
  - rewrite nth_error_app1 in H by exact L. auto.
  - rewrite nth_error_app2 in H by exact L. destruct (k - length l) as [|m] eqn:E; cbn in H; [right; split; [lia|congruence]|destruct m; discriminate].
Qed.

(** ** Who holds the lock of the list of loggers *)
Definition holds (f : flusher line) : bool := match f with F_each _ | F_write _ _ => true | _ => false end.
Definition in_flight (f : flusher line) (i : nat) : list line := match f with F_write j l => if j =? i then l else [] | _ => [] end.
Definition who (fs : list (flusher line)) (lk : bool) (h : nat) (f : flusher line) : Prop :=
  lk = holds f /\ (holds f = true -> nth_error fs h = Some f) /\
  (forall k f', nth_error fs k = Some f' -> holds f' = true -> k = h /\ holds f = true).
Definition lines_inv (es : list (event line)) c : Prop :=
  (forall i, length (s_loggers c) <= i -> logged i es = []) /\
  exists h f, who (s_flushers c) (s_list c) h f /\
    forall i g, nth_error (s_loggers c) i = Some g -> logged i es = lg_file g ++ in_flight f i ++ lg_queue g.

Lemma who_keep : forall fs lk h f k f0 f1, who fs lk h f -> nth_error fs k = Some f0 -> holds f0 = false -> holds f1 = false -> who (upd k f1 fs) lk h f.
Proof.
  intros fs lk h f k f0 f1 (A & B & C) E H0 H1. split; [exact A|]. split.
  - intros H. specialize (B H). rewrite nth_upd_other; [exact B|]. intros ->. congruence.
  - intros j f' J Hf. apply nth_upd_inv in J. destruct J as [[-> ->]|[N J]]; [congruence|eauto].
Qed.
Lemma who_add : forall fs lk h f, who fs lk h f -> who (fs ++ [F_start]) lk h f.
Proof.
  intros fs lk h f (A & B & C). split; [exact A|]. split.
  - intros H. specialize (B H). rewrite nth_error_app1; [exact B|]. eapply nth_lt; eauto.
  - intros j f' J Hf. apply nth_app_inv in J. destruct J as [J|[-> ->]]; [eauto|discriminate].
Qed.
Lemma who_is : forall fs lk h f k f0, who fs lk h f -> nth_error fs k = Some f0 -> holds f0 = true -> lk = true /\ h = k /\ f = f0.
Proof.
  intros fs lk h f k f0 (A & B & C) E H. destruct (C k f0 E H) as [-> H']. specialize (B H'). split; [congruence|]. split; [reflexivity|congruence].
Qed.
Lemma who_move : forall fs lk h f k f0 f1, who fs lk h f -> nth_error fs k = Some f0 -> (holds f0 = true \/ lk = false) -> who (upd k f1 fs) (holds f1) k f1.
Proof.
  intros fs lk h f k f0 f1 W E H. split; [reflexivity|]. split; [intros _; eapply nth_upd_same; eauto|].
  intros j f' J Hf. apply nth_upd_inv in J. destruct J as [[-> ->]|[N J]]; [auto|]. exfalso.
  destruct (who_is _ _ _ _ _ _ W J Hf) as (L & -> & ->). destruct H as [H|H]; [|congruence].
  destruct (who_is _ _ _ _ _ _ W E H) as (_ & -> & _). congruence.
Qed.
Lemma flight_nil : forall f i, holds f = false -> in_flight f i = [].
Proof. intros f i H. destruct f; cbn in *; congruence. Qed.

Lemma lines_step : forall es c e c', lines_inv es c -> step c e = Some c' -> lines_inv (es ++ [e]) c'.
Proof.
  intros es [cont stopping waits ready lk ls fs ss] e c' (L & h & f & W & I) H. cbn [s_loggers s_flushers s_list] in *.
  assert (L0 : (forall j x, e <> Log j x) -> forall i, logged i (es ++ [e]) = logged i es).
  { intros NE i. rewrite logged_app. destruct e; cbn; try apply app_nil_r. exfalso. eapply NE. reflexivity. }
  destruct e as [j x| | | |k| |k|k]; cbn [step] in H; try (specialize (L0 ltac:(discriminate))).
  - destruct (nth_error ls j) as [g0|] eqn:E; [|discriminate]. injection H as <-. split; cbn [s_loggers s_flushers s_list].
    + intros i Li. rewrite upd_length in Li. rewrite logged_app, (L i Li). cbn. destruct (Nat.eqb_spec j i) as [->|]; [|reflexivity]. apply nth_lt in E. lia.
    + exists h, f. split; [exact W|]. intros i g G. rewrite logged_app. cbn. apply nth_upd_inv in G. destruct G as [[-> ->]|[N G]].
      * rewrite Nat.eqb_refl. cbn. rewrite (I _ _ E), <- !app_assoc. reflexivity.
      * apply not_eq_sym in N. apply Nat.eqb_neq in N. rewrite N, app_nil_r. auto.
  - destruct lk; [discriminate|]. injection H as <-. split; cbn [s_loggers s_flushers s_list].
    + intros i Li. rewrite app_length in Li. cbn in Li. rewrite L0. apply L. lia.
    + exists h, f. split; [exact W|]. intros i g G. rewrite L0. apply nth_app_inv in G. destruct G as [G|[-> ->]]; [auto|].
      rewrite L by lia. cbn. rewrite app_nil_r. symmetry. apply flight_nil. destruct W as [W _]. congruence.
  - destruct waits; [discriminate|]. injection H as <-. split; [intros; rewrite L0; auto|]. exists h, f. split; [exact W|]. intros; rewrite L0; auto.
  - destruct ready; [discriminate|]. injection H as <-. split; [intros; rewrite L0; auto|]. exists h, f. split; [apply who_add; exact W|]. intros; rewrite L0; auto.
  - destruct (nth_error fs k) as [f0|] eqn:E; [|discriminate].
    destruct f0 as [| | |i|i [|x l]| | |].
    + injection H as <-. split; [intros; rewrite L0; auto|]. exists h, f. split; [eapply who_keep; eauto; destruct cont; reflexivity|]. intros; rewrite L0; auto.
    + injection H as <-. split; [intros; rewrite L0; auto|]. exists h, f. split; [eapply who_keep; eauto|]. intros; rewrite L0; auto.
    + destruct lk; [discriminate|]. injection H as <-. split; [intros; rewrite L0; auto|]. exists k, (F_each 0). split; [exact (who_move _ _ _ _ _ _ (F_each 0) W E (or_intror eq_refl))|].
      intros j g G. rewrite L0, (I _ _ G), (flight_nil f) by (destruct W as [W _]; congruence). reflexivity.
    + destruct (who_is _ _ _ _ _ _ W E eq_refl) as (-> & -> & ->). destruct (nth_error ls i) as [g0|] eqn:G0; injection H as <-.
      * split; cbn [s_loggers s_flushers s_list]; [intros j Lj; rewrite upd_length in Lj; rewrite L0; auto|].
        exists k, (F_write i (lg_queue g0)). split; [exact (who_move _ _ _ _ _ _ (F_write i (lg_queue g0)) W E (or_introl eq_refl))|].
        intros j g G. rewrite L0. apply nth_upd_inv in G. destruct G as [[-> ->]|[N G]].
        -- rewrite (I _ _ G0). cbn. rewrite Nat.eqb_refl, app_nil_r. reflexivity.
        -- rewrite (I _ _ G). cbn. apply not_eq_sym in N. apply Nat.eqb_neq in N. rewrite N. reflexivity.
      * split; [intros; rewrite L0; auto|]. exists k, F_stopping. split; [exact (who_move _ _ _ _ _ _ F_stopping W E (or_introl eq_refl))|].
        intros j g G. rewrite L0, (I _ _ G). reflexivity.
    + destruct (who_is _ _ _ _ _ _ W E eq_refl) as (-> & -> & ->). injection H as <-. split; [intros; rewrite L0; auto|].
      exists k, (F_each (S i)). split; [exact (who_move _ _ _ _ _ _ (F_each (S i)) W E (or_introl eq_refl))|].
      intros j g G. rewrite L0, (I _ _ G). cbn. destruct (i =? j); reflexivity.
    + destruct (who_is _ _ _ _ _ _ W E eq_refl) as (-> & -> & ->). destruct (nth_error ls i) as [g0|] eqn:G0; [|discriminate]. injection H as <-.
      split; cbn [s_loggers s_flushers s_list]; [intros j Lj; rewrite upd_length in Lj; rewrite L0; auto|].
      exists k, (F_write i l). split; [exact (who_move _ _ _ _ _ _ (F_write i l) W E (or_introl eq_refl))|].
      intros j g G. rewrite L0. apply nth_upd_inv in G. destruct G as [[-> ->]|[N G]].
      * rewrite (I _ _ G0). cbn. rewrite Nat.eqb_refl, <- app_assoc. reflexivity.
      * rewrite (I _ _ G). cbn. apply not_eq_sym in N. apply Nat.eqb_neq in N. rewrite N. reflexivity.
    + injection H as <-. split; [intros; rewrite L0; auto|]. exists h, f. split; [eapply who_keep; eauto; destruct stopping; reflexivity|]. intros; rewrite L0; auto.
    + injection H as <-. split; [intros; rewrite L0; auto|]. exists h, f. split; [eapply who_keep; eauto|]. intros; rewrite L0; auto.
    + discriminate.
  - injection H as <-. split; [intros; rewrite L0; auto|]. exists h, f. split; [exact W|]. intros; rewrite L0; auto.
  - destruct (nth_error ss k) as [[]|]; try discriminate; injection H as <-; (split; [intros; rewrite L0; auto|]; exists h, f; split; [exact W|]; intros; rewrite L0; auto).
  - destruct (nth_error ss k) as [[]|]; try discriminate; injection H as <-; (split; [intros; rewrite L0; auto|]; exists h, f; split; [exact W|]; intros; rewrite L0; auto).
Qed.

Lemma lines_reach : forall es c, exec started es = Some c -> lines_inv es c.
Proof.
  apply exec_ind.
  - split; [reflexivity|]. exists 0, F_end. split; [split; [reflexivity|split; [discriminate|]]|]; intros k f' H; destruct k; discriminate.
  - intros es c e c' _ I H. eapply lines_step; eauto.
Qed.

(** ** C75 *)
(** The file of a logger always has the first lines that were given to it, each once and in
    order; the rest are in its queue unless a thread is writing. *)
Theorem C75_lines : forall es c i g, exec started es = Some c -> nth_error (s_loggers c) i = Some g ->
  exists moving, logged i es = lg_file g ++ moving ++ lg_queue g /\ (s_list c = false -> moving = []).
Proof.
  intros es c i g H G. destruct (lines_reach _ _ H) as (_ & h & f & W & I). exists (in_flight f i). split; [auto|].
  intros L. apply flight_nil. destruct W as [W _]. congruence.
Qed.

(** Somebody who has logged a line need not wait for ever: as long as stop has not been called, the
    timer is running, or it has expired and its handler, which starts it again, is about to run. *)
Theorem C75_timer : forall es c, exec started es = Some c -> s_continue c = true ->
  0 < s_waits c \/ 0 < s_ready c \/ exists k, nth_error (s_flushers c) k = Some F_start \/ nth_error (s_flushers c) k = Some F_arm.
Proof.
  apply (exec_ind started (fun _ c => s_continue c = true -> 0 < s_waits c \/ 0 < s_ready c \/ exists k, nth_error (s_flushers c) k = Some F_start \/ nth_error (s_flushers c) k = Some F_arm)).
  - intros _. left. cbn. lia.
  - intros es [cont stopping waits ready lk ls fs ss] e c' _ P H. cbn [s_continue s_waits s_ready s_flushers] in *.
    destruct e as [j x| | | |m| |m|m]; cbn [step] in H.
    + destruct (nth_error ls j); [|discriminate]. injection H as <-. exact P.
    + destruct lk; [discriminate|]. injection H as <-. exact P.
    + destruct waits; [discriminate|]. injection H as <-. intros _. cbn. right. left. lia.
    + destruct ready; [discriminate|]. injection H as <-. intros _. cbn. right. right. exists (length fs). left. rewrite nth_error_app2, Nat.sub_diag by lia. reflexivity.
    + assert (K : forall f0 f1, nth_error fs m = Some f0 -> f0 <> F_start -> f0 <> F_arm -> cont = true ->
        0 < waits \/ 0 < ready \/ exists k, nth_error (upd m f1 fs) k = Some F_start \/ nth_error (upd m f1 fs) k = Some F_arm).
      { intros f0 f1 E N1 N2 C. destruct (P C) as [X|[X|(k & X)]]; [auto|auto|]. right. right. exists k. rewrite nth_upd_other; [exact X|]. intros ->. destruct X; congruence. }
      destruct (nth_error fs m) as [[| | |i|i [|x l]| | |]|] eqn:E; try discriminate.
      * injection H as <-. cbn. intros ->. right. right. exists m. right. eapply nth_upd_same; eauto.
      * injection H as <-. cbn. intros _. left. lia.
      * destruct lk; [discriminate|]. injection H as <-. cbn. eapply K; eauto; discriminate.
      * destruct (nth_error ls i); injection H as <-; cbn; eapply K; eauto; discriminate.
      * injection H as <-. cbn. eapply K; eauto; discriminate.
      * destruct (nth_error ls i); [|discriminate]. injection H as <-. cbn. eapply K; eauto; discriminate.
      * injection H as <-. cbn. eapply K; eauto; discriminate.
      * injection H as <-. cbn. eapply K; eauto; discriminate.
    + injection H as <-. exact P.
    + destruct (nth_error ss m) as [[]|]; try discriminate; injection H as <-; cbn; try exact P; [discriminate|].
      intros C. destruct (P C) as [X|[X|X]]; [right; left; lia | right; left; lia | auto].
    + destruct (nth_error ss m) as [[]|]; try discriminate; injection H as <-; exact P.
Qed.

(** ** C76 *)
(** not between taking the lock and the end *)
Definition outside (f : flusher line) : Prop := match f with F_start | F_arm | F_lock | F_end => True | _ => False end.

Section Since.
  Variable L : nat -> list line.
  Variable n : nat.
  Hypothesis L_nil : forall i, n <= i -> L i = [].
  Definition has (ls : list (logger line)) (i : nat) : Prop := forall g, nth_error ls i = Some g -> prefix (L i) (lg_file g).
  Definition done (ls : list (logger line)) (f : flusher line) : Prop :=
    match f with
    | F_each j => forall i, i < j -> has ls i
    | F_write j l => (forall i, i < j -> has ls i) /\ forall g, nth_error ls j = Some g -> prefix (L j) (lg_file g ++ l)
    | F_stopping | F_notify => forall i, has ls i
    | _ => True
    end.
  Definition not_yet (s : option stopper) : Prop := match s with Some S_set | Some S_cancel | Some S_wait | Some S_waiting => True | _ => False end.
  Definition since (k : nat) c : Prop :=
    n <= length (s_loggers c) /\ (forall j f, nth_error (s_flushers c) j = Some f -> done (s_loggers c) f) /\
    (not_yet (nth_error (s_stops c) k) \/ forall i, has (s_loggers c) i).

  (** loggers only grow *)
  Definition grows (ls ls' : list (logger line)) : Prop :=
    forall i g', nth_error ls' i = Some g' -> (exists g, nth_error ls i = Some g /\ prefix (lg_file g) (lg_file g')) \/ length ls <= i.
  Lemma has_grows : forall ls ls' i, n <= length ls -> grows ls ls' -> has ls i -> has ls' i.
  Proof.
    intros ls ls' i N G H g' E. destruct (G _ _ E) as [(g & E' & (r & ->))|Li].
    - destruct (H _ E') as (r' & ->). exists (r' ++ r). symmetry. apply app_assoc.
    - rewrite L_nil by lia. exists (lg_file g'). reflexivity.
  Qed.
  Lemma done_same : forall ls ls' f, n <= length ls -> grows ls ls' ->
    (forall i g g', nth_error ls i = Some g -> nth_error ls' i = Some g' -> lg_file g' = lg_file g) -> done ls f -> done ls' f.
  Proof.
    intros ls ls' f N G S D. destruct f as [| | |j|j l| | |]; cbn in *; auto.
    - intros i Hi. eapply has_grows; eauto.
    - destruct D as [D1 D2]. split; [intros i Hi; eapply has_grows; eauto|]. intros g' E. destruct (G _ _ E) as [(g & E' & _)|Li].
      + rewrite (S _ _ _ E' E). auto.
      + rewrite L_nil by lia. eexists. reflexivity.
    - intros i. eapply has_grows; eauto.
    - intros i. eapply has_grows; eauto.
  Qed.
  Lemma grows_refl : forall ls, grows ls ls.
  Proof. intros ls i g E. left. exists g. split; [exact E|]. exists []. symmetry. apply app_nil_r. Qed.
  Lemma grows_upd : forall (ls : list (logger line)) i g0 g1, nth_error ls i = Some g0 -> prefix (lg_file g0) (lg_file g1) -> grows ls (upd i g1 ls).
  Proof.
    intros ls i g0 g1 E P j g' H. left. apply nth_upd_inv in H. destruct H as [[-> ->]|[N H]]; [eauto|]. exists g'. split; [exact H|]. exists []. symmetry. apply app_nil_r.
  Qed.
  Lemma same_upd : forall (ls : list (logger line)) i g0 g1, nth_error ls i = Some g0 -> lg_file g1 = lg_file g0 -> forall j g g', nth_error ls j = Some g -> nth_error (upd i g1 ls) j = Some g' -> lg_file g' = lg_file g.
  Proof. intros ls i g0 g1 E F j g g' H H'. apply nth_upd_inv in H'. destruct H' as [[-> ->]|[N H']]; congruence. Qed.

  Lemma since_step : forall k es c e c', lines_inv es c -> (forall i, prefix (L i) (logged i es)) -> (forall j, e <> Spurious j) ->
    since k c -> step c e = Some c' -> since k c'.
  Proof.
    intros k es [cont stopping waits ready lk ls fs ss] e c' (_ & h & f & W & I) PL NS (N & D & K) H. cbn [s_loggers s_flushers s_list s_stops] in *.
    destruct e as [j x| | | |m| |m|m]; cbn [step] in H.
    - destruct (nth_error ls j) as [g0|] eqn:E; [|discriminate]. injection H as <-. unfold since. cbn [s_loggers s_flushers s_stops].
      assert (G : grows ls (upd j (mkLogger (lg_queue g0 ++ [x]) (lg_file g0)) ls)) by (eapply grows_upd; [exact E|exists []; symmetry; apply app_nil_r]).
      rewrite upd_length. split; [exact N|]. split.
      + intros i f' F. eapply done_same; eauto. eapply same_upd; [exact E|reflexivity].
      + destruct K as [K|K]; [auto|right; intros i; eapply has_grows; eauto].
    - destruct lk; [discriminate|]. injection H as <-. unfold since. cbn [s_loggers s_flushers s_stops].
      assert (G : grows ls (ls ++ [new_logger])).
      { intros i g' E. apply nth_app_inv in E. destruct E as [E|[-> ->]]; [|right; lia]. left. exists g'. split; [exact E|]. exists []. symmetry. apply app_nil_r. }
      rewrite app_length. split; [lia|]. split.
      + intros i f' F. eapply done_same; eauto. intros i' g g' E E'. rewrite nth_error_app1 in E' by (eapply nth_lt; eauto). congruence.
      + destruct K as [K|K]; [auto|right; intros i; eapply has_grows; eauto].
    - destruct waits; [discriminate|]. injection H as <-. split; auto.
    - destruct ready; [discriminate|]. injection H as <-. split; [exact N|]. split; [|exact K]. cbn. intros j f' F. apply nth_app_inv in F. destruct F as [F|[-> ->]]; [eauto|exact Logic.I].
    - destruct (nth_error fs m) as [f0|] eqn:E; [|discriminate]. pose proof (D _ _ E) as D0.
      assert (SAME : forall f1, done ls f1 -> forall j f', nth_error (upd m f1 fs) j = Some f' -> done ls f').
      { intros f1 D1 j f' F. apply nth_upd_inv in F. destruct F as [[-> ->]|[_ F]]; eauto. }
      destruct f0 as [| | |i|i [|x l]| | |].
      + injection H as <-. split; [exact N|]. split; [|exact K]. apply SAME. destruct cont; exact Logic.I.
      + injection H as <-. split; [exact N|]. split; [|exact K]. apply SAME. exact Logic.I.
      + destruct lk; [discriminate|]. injection H as <-. split; [exact N|]. split; [|exact K]. apply SAME. cbn. intros; lia.
      + destruct (who_is _ _ _ _ _ _ W E eq_refl) as (-> & -> & ->). destruct (nth_error ls i) as [g0|] eqn:G0; injection H as <-.
        * assert (G : grows ls (upd i (mkLogger [] (lg_file g0)) ls)) by (eapply grows_upd; [exact G0|exists []; symmetry; apply app_nil_r]).
          unfold since. cbn [s_loggers s_flushers s_stops]. rewrite upd_length. split; [exact N|]. split.
          -- intros j f' F. apply nth_upd_inv in F. destruct F as [[-> ->]|[_ F]].
             ++ cbn. split; [intros j Hj; eapply has_grows; eauto|]. intros g Eg. rewrite (nth_upd_same _ _ _ _ G0) in Eg. injection Eg as <-. cbn.
                specialize (PL i). rewrite (I _ _ G0) in PL. exact PL.
             ++ eapply done_same; eauto. eapply same_upd; [exact G0|reflexivity].
          -- destruct K as [K|K]; [auto|right; intros j; eapply has_grows; eauto].
        * split; [exact N|]. split; [|exact K]. apply SAME. cbn. intros j g Eg. apply (D0 j); [|exact Eg]. apply nth_lt in Eg. apply nth_error_None in G0. lia.
      + injection H as <-. split; [exact N|]. split; [|exact K]. apply SAME. cbn. destruct D0 as [D1 D2]. intros j Hj.
        destruct (Nat.eq_dec j i) as [->|NE]; [|apply D1; lia]. intros g Eg. specialize (D2 _ Eg). rewrite app_nil_r in D2. exact D2.
      + destruct (who_is _ _ _ _ _ _ W E eq_refl) as (-> & -> & ->). destruct (nth_error ls i) as [g0|] eqn:G0; [|discriminate]. injection H as <-.
        assert (G : grows ls (upd i (mkLogger (lg_queue g0) (lg_file g0 ++ [x])) ls)) by (eapply grows_upd; [exact G0|exists [x]; reflexivity]).
        unfold since. cbn [s_loggers s_flushers s_stops]. rewrite upd_length. split; [exact N|]. split.
        * intros j f' F. apply nth_upd_inv in F. destruct F as [[-> ->]|[NE F]].
          -- cbn. destruct D0 as [D1 D2]. split; [intros j Hj; eapply has_grows; eauto|]. intros g Eg. rewrite (nth_upd_same _ _ _ _ G0) in Eg. injection Eg as <-. cbn.
             specialize (D2 _ G0). rewrite <- app_assoc. exact D2.
          -- assert (HF : holds f' = false) by (destruct (holds f') eqn:HF; [destruct (who_is _ _ _ _ _ _ W F HF) as (_ & -> & _); congruence|reflexivity]).
             specialize (D _ _ F). destruct f'; cbn in *; try discriminate; auto; intros j'; eapply has_grows; eauto.
        * destruct K as [K|K]; [auto|right; intros j; eapply has_grows; eauto].
      + injection H as <-. split; [exact N|]. split; [|exact K]. apply SAME. destruct stopping; [exact D0|exact Logic.I].
      + injection H as <-. split; [exact N|]. split; [apply SAME; exact Logic.I|]. right. exact D0.
      + discriminate.
    - injection H as <-. split; [exact N|]. split; [exact D|]. destruct K as [K|K]; [|auto]. left. cbn. destruct (nth_error ss k) as [s0|] eqn:E; [|destruct K].
      rewrite nth_error_app1 by (eapply nth_lt; eauto). rewrite E. exact K.
    - destruct K as [K|K]; [|destruct (nth_error ss m) as [[]|]; try discriminate; injection H as <-; (split; [exact N|]; split; [exact D|]; right; exact K)].
      destruct (nth_error ss m) as [s0|] eqn:E; [|discriminate].
      assert (X : forall s1, (m = k -> not_yet (Some s1)) -> not_yet (nth_error (upd m s1 ss) k)).
      { intros s1 Hs. destruct (Nat.eq_dec m k) as [->|NE]; [rewrite (nth_upd_same _ _ _ _ E); auto|]. rewrite nth_upd_other by congruence. exact K. }
      destruct s0; try discriminate; injection H as <-; (split; [exact N|]; split; [exact D|]; left; cbn [s_stops]; apply X; intros ->; rewrite E in K; cbn in K; try contradiction; exact Logic.I).
    - exfalso. eapply NS. reflexivity.
  Qed.
End Since.

(** What holds: when a call of stop has won (it is the first one), no run of the flush has got
    beyond taking its lock at that time, and there are no spurious wake-ups, then everything
    logged before that time is in the files when the call returns. *)
Theorem C76_flushed_partial : forall es1 c1 es2 c2 k i g, exec started es1 = Some c1 -> exec c1 es2 = Some c2 ->
  nth_error (s_stops c1) k = Some S_set -> (forall f, In f (s_flushers c1) -> outside f) -> ~ spurious es2 ->
  nth_error (s_stops c2) k = Some S_returned -> nth_error (s_loggers c2) i = Some g -> prefix (logged i es1) (lg_file g).
Proof.
  intros es1 c1 es2 c2 k i g H1 H2 S1 O NS S2 G.
  assert (LI := lines_reach _ _ H1). set (L := fun i => logged i es1).
  assert (LN : forall i, length (s_loggers c1) <= i -> L i = []) by (destruct LI as [LI _]; exact LI).
  enough (K : since L (length (s_loggers c1)) k c2).
  { destruct K as (_ & _ & [K|K]); [rewrite S2 in K; destruct K|]. exact (K i g G). }
  revert NS. clear S2 G. revert es2 c2 H2.
  apply (exec_ind c1 (fun es2 c2 => ~ spurious es2 -> since L (length (s_loggers c1)) k c2)).
  - intros _. split; [lia|]. split; [|left; rewrite S1; exact Logic.I]. intros j f F. apply nth_error_In in F. apply O in F. destruct f; try destruct F; exact Logic.I.
  - intros es c e c' E P S NS. eapply (since_step _ _ LN k (es1 ++ es)); [| | |apply P|exact S].
    + apply lines_reach. rewrite exec_app, H1. exact E.
    + intros j. rewrite logged_app. exists (logged j es). reflexivity.
    + intros j ->. apply NS. exists j. apply in_or_app. right. left. reflexivity.
    + intros (j & J). apply NS. exists j. apply in_or_app. auto.
Qed.

(** ... and when a handler of the timer that had not taken the lock of the list of loggers at some time
    comes to its end, everything logged before that time is in the files. *)
Section Flushed.
  Variable L : nat -> list line.
  Variable n : nat.
  Hypothesis L_nil : forall i, n <= i -> L i = [].
  Definition done2 (ls : list (logger line)) (f : flusher line) : Prop := match f with F_end => forall i, has L ls i | _ => done L ls f end.
  Lemma done2_same : forall ls ls' f, n <= length ls -> grows ls ls' ->
    (forall i g g', nth_error ls i = Some g -> nth_error ls' i = Some g' -> lg_file g' = lg_file g) -> done2 ls f -> done2 ls' f.
  Proof.
    intros ls ls' f N G S D. destruct f; try exact (done_same L n L_nil ls ls' _ N G S D). intros i. eapply has_grows; eauto.
  Qed.
  Lemma mark_step : forall m es c e c' f, lines_inv es c -> (forall i, prefix (L i) (logged i es)) ->
    n <= length (s_loggers c) -> nth_error (s_flushers c) m = Some f -> done2 (s_loggers c) f -> step c e = Some c' ->
    n <= length (s_loggers c') /\ exists f', nth_error (s_flushers c') m = Some f' /\ done2 (s_loggers c') f'.
  Proof.
    intros k es [cont stopping waits ready lk ls fs ss] e c' f (_ & h & fh & W & I) PL N F D H. cbn [s_loggers s_flushers s_list s_stops] in *.
    destruct e as [j x| | | |m| |m|m]; cbn [step] in H.
    - destruct (nth_error ls j) as [g0|] eqn:E; [|discriminate]. injection H as <-. cbn [s_loggers s_flushers]. rewrite upd_length. split; [exact N|]. exists f. split; [exact F|].
      eapply done2_same; [exact N | eapply grows_upd; [exact E | exists []; symmetry; apply app_nil_r] | eapply same_upd; [exact E | reflexivity] | exact D].
    - destruct lk; [discriminate|]. injection H as <-. cbn [s_loggers s_flushers]. rewrite app_length. split; [lia|]. exists f. split; [exact F|].
      eapply done2_same; [exact N | | | exact D].
      + intros i g' E. apply nth_app_inv in E. destruct E as [E|[-> ->]]; [|right; lia]. left. exists g'. split; [exact E|]. exists []. symmetry. apply app_nil_r.
      + intros i' g g' E E'. rewrite nth_error_app1 in E' by (eapply nth_lt; eauto). congruence.
    - destruct waits; [discriminate|]. injection H as <-. split; [exact N|]. exists f. auto.
    - destruct ready; [discriminate|]. injection H as <-. split; [exact N|]. exists f. split; [|exact D]. cbn. rewrite nth_error_app1 by (eapply nth_lt; eauto). exact F.
    - destruct (nth_error fs m) as [f0|] eqn:E; [|discriminate].
      assert (MINE : forall f1, (m = k -> f0 = f -> done2 ls f1) -> exists f', nth_error (upd m f1 fs) k = Some f' /\ done2 ls f').
      { intros f1 D1. destruct (Nat.eq_dec m k) as [->|NE]; [exists f1; split; [eapply nth_upd_same; eauto | apply D1; congruence] | exists f; rewrite nth_upd_other by congruence; auto]. }
      destruct f0 as [| | |i|i [|x l]| | |].
      + injection H as <-. split; [exact N|]. apply MINE. intros _ _. destruct cont; exact Logic.I.
      + injection H as <-. split; [exact N|]. apply MINE. intros _ _. exact Logic.I.
      + destruct lk; [discriminate|]. injection H as <-. split; [exact N|]. apply MINE. intros _ _. cbn. intros; lia.
      + destruct (who_is _ _ _ _ _ _ W E eq_refl) as (-> & -> & ->). destruct (nth_error ls i) as [g0|] eqn:G0; injection H as <-.
        * assert (G : grows ls (upd i (mkLogger [] (lg_file g0)) ls)) by (eapply grows_upd; [exact G0|exists []; symmetry; apply app_nil_r]).
          cbn [s_loggers s_flushers s_stops]. rewrite upd_length. split; [exact N|]. destruct (Nat.eq_dec m k) as [->|NE].
          -- eexists. split; [eapply nth_upd_same; eauto|]. rewrite E in F. injection F as <-. cbn. split; [intros j Hj; eapply has_grows; eauto; apply D; exact Hj|].
             intros g Eg. rewrite (nth_upd_same _ _ _ _ G0) in Eg. injection Eg as <-. cbn. specialize (PL i). rewrite (I _ _ G0) in PL. exact PL.
          -- exists f. rewrite nth_upd_other by congruence. split; [exact F|]. eapply done2_same; eauto. eapply same_upd; [exact G0|reflexivity].
        * split; [exact N|]. apply MINE. intros -> <-. cbn. intros j g Eg. apply (D j); [|exact Eg]. apply nth_lt in Eg. apply nth_error_None in G0. lia.
      + injection H as <-. split; [exact N|]. apply MINE. intros -> <-. cbn in *. destruct D as [D1 D2]. intros j Hj.
        destruct (Nat.eq_dec j i) as [->|NE]; [|apply D1; lia]. intros g Eg. specialize (D2 _ Eg). rewrite app_nil_r in D2. exact D2.
      + destruct (who_is _ _ _ _ _ _ W E eq_refl) as (-> & -> & ->). destruct (nth_error ls i) as [g0|] eqn:G0; [|discriminate]. injection H as <-.
        assert (G : grows ls (upd i (mkLogger (lg_queue g0) (lg_file g0 ++ [x])) ls)) by (eapply grows_upd; [exact G0|exists [x]; reflexivity]).
        cbn [s_loggers s_flushers s_stops]. rewrite upd_length. split; [exact N|]. destruct (Nat.eq_dec m k) as [->|NE].
        * eexists. split; [eapply nth_upd_same; eauto|]. rewrite E in F. injection F as <-. cbn in *. destruct D as [D1 D2]. split; [intros j Hj; eapply has_grows; eauto|].
          intros g Eg. rewrite (nth_upd_same _ _ _ _ G0) in Eg. injection Eg as <-. cbn. specialize (D2 _ G0). rewrite <- app_assoc. exact D2.
        * exists f. rewrite nth_upd_other by congruence. split; [exact F|].
          assert (HF : holds f = false) by (destruct (holds f) eqn:HF; [destruct (who_is _ _ _ _ _ _ W F HF) as (_ & -> & _); congruence|reflexivity]).
          destruct f; cbn in *; try discriminate; auto; intros j'; eapply has_grows; eauto.
      + injection H as <-. split; [exact N|]. apply MINE. intros -> <-. destruct stopping; exact D.
      + injection H as <-. split; [exact N|]. apply MINE. intros -> <-. exact D.
      + discriminate.
    - injection H as <-. split; [exact N|]. exists f. auto.
    - destruct (nth_error ss m) as [[]|]; try discriminate; injection H as <-; (split; [exact N|]; exists f; auto).
    - destruct (nth_error ss m) as [[]|]; try discriminate; injection H as <-; (split; [exact N|]; exists f; auto).
  Qed.
End Flushed.
Theorem C75_flushed : forall es1 c1 es2 c2 m f i g, exec started es1 = Some c1 -> exec c1 es2 = Some c2 ->
  nth_error (s_flushers c1) m = Some f -> f = F_start \/ f = F_arm \/ f = F_lock ->
  nth_error (s_flushers c2) m = Some F_end -> nth_error (s_loggers c2) i = Some g -> prefix (logged i es1) (lg_file g).
Proof.
  intros es1 c1 es2 c2 m f i g H1 H2 F1 Hf F2 G.
  assert (LI := lines_reach _ _ H1). set (L := fun i => logged i es1).
  assert (LN : forall i, length (s_loggers c1) <= i -> L i = []) by (destruct LI as [LI _]; exact LI).
  enough (K : length (s_loggers c1) <= length (s_loggers c2) /\ exists f', nth_error (s_flushers c2) m = Some f' /\ done2 L (s_loggers c2) f').
  { destruct K as (_ & f' & E & D). rewrite F2 in E. injection E as <-. exact (D i g G). }
  clear F2 G. revert es2 c2 H2.
  apply (exec_ind c1 (fun es2 c2 => length (s_loggers c1) <= length (s_loggers c2) /\ exists f', nth_error (s_flushers c2) m = Some f' /\ done2 L (s_loggers c2) f')).
  - split; [lia|]. exists f. split; [exact F1|]. destruct Hf as [->|[->| ->]]; exact Logic.I.
  - intros es c e c' E (N & f' & F & D) S. eapply (mark_step L _ LN m (es1 ++ es)); [| |exact N|exact F|exact D|exact S].
    + apply lines_reach. rewrite exec_app, H1. exact E.
    + intros j. rewrite logged_app. exists (logged j es). reflexivity.
Qed.

(** A call of stop after another one does not wait: it returns at once. *)
Lemma cas_reach : forall es c, exec started es = Some c -> forall k s, nth_error (s_stops c) k = Some s -> s <> S_cas -> s_continue c = false.
Proof.
  apply (exec_ind started (fun _ c => forall k s, nth_error (s_stops c) k = Some s -> s <> S_cas -> s_continue c = false)).
  - intros [|k] s H; discriminate.
  - intros es [cont stopping waits ready lk ls fs ss] e c' _ P H k s. cbn [s_stops s_continue] in *.
    destruct e as [j x| | | |m| |m|m]; cbn [step] in H.
    + destruct (nth_error ls j); [|discriminate]. injection H as <-. eauto.
    + destruct lk; [discriminate|]. injection H as <-. eauto.
    + destruct waits; [discriminate|]. injection H as <-. eauto.
    + destruct ready; [discriminate|]. injection H as <-. eauto.
    + destruct (nth_error fs m) as [[| | |i|i [|x l]| | |]|]; try discriminate; try (injection H as <-; cbn; eauto; fail).
      * destruct lk; [discriminate|]. injection H as <-. eauto.
      * destruct (nth_error ls i); injection H as <-; eauto.
      * destruct (nth_error ls i); [|discriminate]. injection H as <-; eauto.
      * injection H as <-. cbn. intros E S. rewrite nth_error_map in E. destruct (nth_error ss k) as [s0|] eqn:E0; [|discriminate]. cbn in E. injection E as <-.
        eapply P; [exact E0|]. intros ->. apply S. reflexivity.
    + injection H as <-. cbn. intros E S. apply nth_app_inv in E. destruct E as [E|[-> ->]]; [eauto|congruence].
    + destruct (nth_error ss m) as [s0|] eqn:E; [|discriminate]. pose proof (P _ _ E) as P0.
      destruct s0; try discriminate; injection H as <-; cbn; try reflexivity; intros; apply P0; discriminate.
    + destruct (nth_error ss m) as [[]|] eqn:E; try discriminate. injection H as <-. cbn. intros _ _. eapply P; [exact E|discriminate].
Qed.
Theorem C76_second_returns : forall es c j k s, exec started es = Some c -> nth_error (s_stops c) j = Some s -> s <> S_cas ->
  nth_error (s_stops c) k = Some S_cas -> exists c', step c (Stop k) = Some c' /\ nth_error (s_stops c') k = Some S_returned.
Proof.
  intros es c j k s H J S K. assert (C := cas_reach _ _ H j s J S). destruct c as [cont stopping waits ready lk ls fs ss]. cbn [s_stops s_continue] in *. subst cont.
  cbn [step]. rewrite K. eexists. split; [reflexivity|]. cbn. eapply nth_upd_same; eauto.
Qed.

(** something is left that will notify *)
Definition busy c : Prop := 0 < s_ready c \/ exists k f, nth_error (s_flushers c) k = Some f /\ f <> F_end.
Definition past_set (s : stopper) : bool := match s with S_cancel | S_wait | S_waiting => true | _ => false end.
Lemma stopping_reach : forall es c, exec started es = Some c -> forall k s, nth_error (s_stops c) k = Some s -> past_set s = true -> s_stopping c = true.
Proof.
  apply (exec_ind started (fun _ c => forall k s, nth_error (s_stops c) k = Some s -> past_set s = true -> s_stopping c = true)).
  - intros [|k] s H; discriminate.
  - intros es [cont stopping waits ready lk ls fs ss] e c' _ P H k s. cbn [s_stops s_stopping] in *.
    destruct e as [j x| | | |m| |m|m]; cbn [step] in H.
    + destruct (nth_error ls j); [|discriminate]. injection H as <-. eauto.
    + destruct lk; [discriminate|]. injection H as <-. eauto.
    + destruct waits; [discriminate|]. injection H as <-. eauto.
    + destruct ready; [discriminate|]. injection H as <-. eauto.
    + destruct (nth_error fs m) as [[| | |i|i [|x l]| | |]|]; try discriminate; try (injection H as <-; cbn; eauto; fail).
      * destruct lk; [discriminate|]. injection H as <-. eauto.
      * destruct (nth_error ls i); injection H as <-; eauto.
      * destruct (nth_error ls i); [|discriminate]. injection H as <-; eauto.
      * injection H as <-. cbn. intros E S. rewrite nth_error_map in E. destruct (nth_error ss k) as [s0|] eqn:E0; [|discriminate]. cbn in E. injection E as <-.
        eapply P; [exact E0|]. destruct s0; cbn in *; congruence.
    + injection H as <-. cbn. intros E S. apply nth_app_inv in E. destruct E as [E|[-> ->]]; [eauto|discriminate].
    + destruct (nth_error ss m) as [s0|] eqn:E; [|discriminate]. pose proof (P _ _ E) as P0.
      destruct s0; try discriminate; injection H as <-; cbn; intros F S; apply nth_upd_inv in F; destruct F as [[-> ->]|[NE F]]; eauto; try (destruct cont; discriminate); try discriminate.
    + destruct (nth_error ss m) as [[]|] eqn:E; try discriminate. injection H as <-. cbn. intros F S. apply nth_upd_inv in F. destruct F as [[-> ->]|[NE F]]; eauto.
Qed.

(** What holds: a call of stop that waits while the handler of the timer is still to run, or is
    running, has been woken when all that is over. *)
Theorem C76_woken_partial : forall es1 c1 es2 c2 k, exec started es1 = Some c1 -> nth_error (s_stops c1) k = Some S_waiting -> busy c1 ->
  exec c1 es2 = Some c2 -> ~ busy c2 -> nth_error (s_stops c2) k = Some S_woken \/ nth_error (s_stops c2) k = Some S_returned.
Proof.
  intros es1 c1 es2 c2 k H1 W B H2 Q.
  enough (K : s_stopping c2 = true /\ ((nth_error (s_stops c2) k = Some S_woken \/ nth_error (s_stops c2) k = Some S_returned) \/ (nth_error (s_stops c2) k = Some S_waiting /\ busy c2))) by tauto.
  clear Q. revert es2 c2 H2.
  apply (exec_ind c1 (fun _ c2 => s_stopping c2 = true /\ ((nth_error (s_stops c2) k = Some S_woken \/ nth_error (s_stops c2) k = Some S_returned) \/ (nth_error (s_stops c2) k = Some S_waiting /\ busy c2)))).
  - split; [eapply stopping_reach; eauto|auto].
  - intros es [cont stopping waits ready lk ls fs ss] e c' _ [P K] H. cbn [s_stops s_stopping] in *. subst stopping. unfold busy in *. cbn [s_ready s_flushers] in *.
    assert (UPD : forall m f f1, nth_error fs m = Some f -> f1 <> F_end -> exists k f, nth_error (upd m f1 fs) k = Some f /\ f <> F_end).
    { intros m f f1 E NE. exists m, f1. split; [eapply nth_upd_same; eauto|exact NE]. }
    destruct e as [j x| | | |m| |m|m]; cbn [step] in H.
    + destruct (nth_error ls j); [|discriminate]. injection H as <-. cbn. auto.
    + destruct lk; [discriminate|]. injection H as <-. cbn. auto.
    + destruct waits; [discriminate|]. injection H as <-. cbn. split; [reflexivity|]. destruct K as [K|[K B']]; [auto|]. right. split; [exact K|]. left. lia.
    + destruct ready; [discriminate|]. injection H as <-. cbn. split; [reflexivity|]. destruct K as [K|[K B']]; [auto|]. right. split; [exact K|]. right.
      exists (length fs), F_start. split; [rewrite nth_error_app2, Nat.sub_diag by lia; reflexivity|discriminate].
    + destruct (nth_error fs m) as [f0|] eqn:E; [|discriminate].
      destruct f0 as [| | |i|i [|x l]| | |].
      * injection H as <-. cbn. split; [reflexivity|]. destruct K as [K|[K B']]; [auto|]. right. split; [exact K|]. right. eapply UPD; eauto. destruct cont; discriminate.
      * injection H as <-. cbn. split; [reflexivity|]. destruct K as [K|[K B']]; [auto|]. right. split; [exact K|]. right. eapply UPD; eauto. discriminate.
      * destruct lk; [discriminate|]. injection H as <-. cbn. split; [reflexivity|]. destruct K as [K|[K B']]; [auto|]. right. split; [exact K|]. right. eapply UPD; eauto. discriminate.
      * destruct (nth_error ls i); injection H as <-; cbn; (split; [reflexivity|]; destruct K as [K|[K B']]; [auto|]; right; split; [exact K|]; right; eapply UPD; eauto; discriminate).
      * injection H as <-. cbn. split; [reflexivity|]. destruct K as [K|[K B']]; [auto|]. right. split; [exact K|]. right. eapply UPD; eauto. discriminate.
      * destruct (nth_error ls i); [|discriminate]. injection H as <-; cbn; (split; [reflexivity|]; destruct K as [K|[K B']]; [auto|]; right; split; [exact K|]; right; eapply UPD; eauto; discriminate).
      * injection H as <-. cbn. split; [reflexivity|]. destruct K as [K|[K B']]; [auto|]. right. split; [exact K|]. right. eapply UPD; eauto. discriminate.
      * injection H as <-. cbn. split; [reflexivity|]. left. rewrite nth_error_map. destruct K as [[K|K]|[K _]]; rewrite K; cbn; auto.
      * discriminate.
    + injection H as <-. cbn. split; [reflexivity|]. assert (X : forall s, nth_error ss k = Some s -> nth_error (ss ++ [S_cas]) k = Some s).
      { intros s E. rewrite nth_error_app1 by (eapply nth_lt; eauto). exact E. }
      destruct K as [[K|K]|[K B']]; apply X in K; auto.
    + destruct (nth_error ss m) as [s0|] eqn:E; [|discriminate].
      destruct (Nat.eq_dec m k) as [->|NE].
      * rewrite E in K. destruct K as [[K|K]|[K B']]; injection K as ->; try discriminate. injection H as <-. cbn. split; [reflexivity|]. left. right. eapply nth_upd_same; eauto.
      * assert (X : forall s, nth_error (upd m s ss) k = nth_error ss k) by (intros; apply nth_upd_other; congruence).
        destruct s0; try discriminate; injection H as <-; cbn; rewrite X; (split; [reflexivity|]); auto.
        destruct K as [K|[K B']]; [auto|]. right. split; [exact K|]. destruct B' as [B'|B']; [left; lia|auto].
    + destruct (nth_error ss m) as [[]|] eqn:E; try discriminate. injection H as <-. cbn. split; [reflexivity|].
      destruct (Nat.eq_dec m k) as [->|NE]; [left; left; eapply nth_upd_same; eauto|]. rewrite nth_upd_other by congruence. auto.
Qed.
End Facts.

(** The claim is false: the handler may notify before stop waits, and nothing will notify again. *)
Definition hang : list (event nat) :=
  [Call_stop; Stop 0; Stop 0; Stop 0; Handle; Flush 0; Flush 0; Flush 0; Flush 0; Flush 0; Stop 0].
Theorem C76_hangs_refuted : exists (es : list (event nat)) c, exec started es = Some c /\ s_stops c = [S_waiting] /\
  forall es2 c2, ~ spurious es2 -> exec c es2 = Some c2 -> nth_error (s_stops c2) 0 = Some S_waiting.
Proof.
  exists hang. eexists. split; [vm_compute; reflexivity|]. split; [reflexivity|].
  set (c := mkService _ _ _ _ _ _ _ _).
  enough (K : forall es2 c2, exec c es2 = Some c2 -> ~ spurious es2 ->
    nth_error (s_stops c2) 0 = Some S_waiting /\ s_waits c2 = 0 /\ s_ready c2 = 0 /\ s_flushers c2 = [F_end]) by (intros; eapply K; eauto).
  apply (exec_ind c (fun es2 c2 => ~ spurious es2 -> nth_error (s_stops c2) 0 = Some S_waiting /\ s_waits c2 = 0 /\ s_ready c2 = 0 /\ s_flushers c2 = [F_end])).
  - intros _. repeat split; reflexivity.
  - intros es [cont stopping waits ready lk ls fs ss] e c' _ P H NS. destruct P as (P1 & P2 & P3 & P4).
    { intros (j & J). apply NS. exists j. apply in_or_app. auto. }
    cbn [s_stops s_waits s_ready s_flushers] in *. subst waits ready fs.
    destruct e as [j x| | | |m| |m|m]; cbn [step] in H; try discriminate.
    + destruct (nth_error ls j); [|discriminate]. injection H as <-. auto.
    + destruct lk; [discriminate|]. injection H as <-. auto.
    + destruct m as [|[|m]]; discriminate.
    + injection H as <-. cbn [s_stops s_waits s_ready s_flushers]. split; [|auto]. rewrite nth_error_app1 by (eapply nth_lt; eauto). exact P1.
    + destruct (nth_error ss m) as [s0|] eqn:E; [|discriminate].
      assert (NE : m <> 0) by (intros ->; rewrite P1 in E; injection E as <-; discriminate).
      destruct s0; try discriminate; injection H as <-; cbn [s_stops s_waits s_ready s_flushers]; rewrite nth_upd_other by congruence; auto.
    + exfalso. apply NS. exists m. apply in_or_app. right. left. reflexivity.
Qed.

(** The claim is false: a flush that has passed the logger before the line was queued notifies
    stop as well. *)
Definition early : list (event nat) :=
  [New_logger; Expire; Handle; Flush 0; Flush 0; Flush 0; Flush 0; Flush 0; Flush 0] ++ [Log 0 7].
Definition early2 : list (event nat) := [Call_stop; Stop 0; Stop 0; Stop 0; Stop 0; Flush 0; Flush 0; Stop 0].
Theorem C76_returns_early_refuted : exists (es1 es2 : list (event nat)) c1 c2 g, exec started es1 = Some c1 /\ s_stops c1 = [] /\
  exec c1 es2 = Some c2 /\ ~ spurious es2 /\ s_stops c2 = [S_returned] /\ nth_error (s_loggers c2) 0 = Some g /\ logged 0 es1 = [7] /\ lg_file g = [].
Proof.
  exists early, early2. eexists _, _, _. split; [vm_compute; reflexivity|]. split; [reflexivity|]. split; [vm_compute; reflexivity|].
  split; [intros (k & K); cbn in K; intuition discriminate|]. repeat split; vm_compute; reflexivity.
Qed.

(** A second call of stop does not wait at all. *)
Theorem C76_second_call_refuted : exists (es1 es2 : list (event nat)) c1 c2 g, exec started es1 = Some c1 /\ s_stops c1 = [] /\
  exec c1 es2 = Some c2 /\ ~ spurious es2 /\ s_stops c2 = [S_set; S_returned] /\ nth_error (s_loggers c2) 0 = Some g /\ logged 0 es1 = [7] /\ lg_file g = [].
Proof.
  exists [New_logger; Log 0 7], [Call_stop; Call_stop; Stop 0; Stop 1]. eexists _, _, _. split; [vm_compute; reflexivity|]. split; [reflexivity|]. split; [vm_compute; reflexivity|].
  split; [intros (k & K); cbn in K; intuition discriminate|]. repeat split; vm_compute; reflexivity.
Qed.

(** two loggers, a run of the timer's handler, then stop *)
Definition good1 : list (event nat) := [New_logger; New_logger; Log 0 1; Log 1 2; Log 0 3; Call_stop; Stop 0].
Definition good2 : list (event nat) := [Stop 0; Stop 0; Stop 0; Handle] ++ repeat (Flush 0) 12 ++ [Stop 0].
Example C75_example : exists c g, exec started good1 = Some c /\ nth_error (s_loggers c) 0 = Some g /\ logged 0 good1 = [1; 3] /\ lg_queue g = [1; 3].
Proof. eexists _, _. split; [vm_compute; reflexivity|]. repeat split; vm_compute; reflexivity. Qed.
Example C76_flushed_example : exists c1 c2 g, exec started good1 = Some c1 /\ exec c1 good2 = Some c2 /\
  nth_error (s_stops c1) 0 = Some S_set /\ (forall f, In f (s_flushers c1) -> outside f) /\ ~ spurious good2 /\
  nth_error (s_stops c2) 0 = Some S_returned /\ nth_error (s_loggers c2) 0 = Some g /\ lg_file g = [1; 3].
Proof.
  eexists _, _, _. split; [vm_compute; reflexivity|]. split; [vm_compute; reflexivity|]. split; [reflexivity|]. split; [intros f []|].
  split; [intros (k & K); vm_compute in K; intuition discriminate|]. repeat split; vm_compute; reflexivity.
Qed.
Example C76_woken_example : exists c1 c2, exec started (good1 ++ firstn 4 good2) = Some c1 /\ nth_error (s_stops c1) 0 = Some S_waiting /\ busy c1 /\
  exec c1 (skipn 4 good2) = Some c2 /\ ~ busy c2.
Proof.
  eexists _, _. split; [vm_compute; reflexivity|]. split; [reflexivity|]. split; [right; exists 0, F_start; split; [reflexivity|discriminate]|].
  split; [vm_compute; reflexivity|]. intros [B|(k & f & E & N)]; cbn in *; [lia|]. destruct k as [|[|k]]; cbn in E; congruence.
Qed.

(** ** C77 *)
(** how many of the handlers throw *)
Fixpoint thrown (hs : list handler) : nat := match hs with [] => 0 | Throws :: hs => S (thrown hs) | Returns :: hs => thrown hs end.
(** The claim is false: every handler that throws takes a thread with it; after as many as there
    are threads nothing is run any more. *)
Theorem C77_all_gone_refuted : forall w hs, work w (repeat Throws w ++ hs) = (0, w).
Proof. induction w as [|w IH]; intros hs; [destruct hs; reflexivity|]. cbn. rewrite IH. reflexivity. Qed.
(** What holds: as long as fewer handlers than threads have thrown, every handler is run. *)
Theorem C77_fewer_partial : forall hs w, thrown hs < w -> work w hs = (w - thrown hs, length hs).
Proof.
  induction hs as [|[] hs IH]; intros [|w] H; cbn in *; try lia; try reflexivity.
  - rewrite IH by lia. reflexivity.
  - rewrite IH by lia. reflexivity.
Qed.
(** In general: threads end one by one, and a handler is run if a thread is left. *)
Theorem C77_count : forall hs w, exists before after, hs = before ++ after /\ snd (work w hs) = length before /\ fst (work w hs) = w - thrown before /\
  (after = [] \/ thrown before = w).
Proof.
  induction hs as [|h hs IH]; intros [|w].
  - exists [], []. auto.
  - exists [], []. auto.
  - exists [], (h :: hs). cbn. auto.
  - destruct (IH (match h with Returns => S w | Throws => w end)) as (b & a & -> & H1 & H2 & H3). exists (h :: b), a.
    cbn [work]. destruct (work _ (b ++ a)) as [x y]. cbn [fst snd] in *. split; [reflexivity|].
    split; [cbn; congruence|]. destruct h; cbn [thrown]; (split; [lia|destruct H3; [auto|right; lia]]).
Qed.
Example C77_example : work 2 [Returns; Throws; Returns; Throws; Returns] = (0, 4) /\ thrown [Returns; Throws; Returns] < 2.
Proof. split; [reflexivity|cbn; lia]. Qed.

(** the handler of the timer runs while nobody has called stop, and the second of two calls *)
Definition good3 : list (event nat) := [New_logger; Log 0 1; Expire; Handle; Flush 0].
Definition good4 : list (event nat) := [Log 0 2; Flush 0; Flush 0; Flush 0; Flush 0; Flush 0; Flush 0; Flush 0; Flush 0].
Example C75_flushed_example : exists c1 c2 g, exec started good3 = Some c1 /\ s_continue c1 = true /\ nth_error (s_flushers c1) 0 = Some F_arm /\ exec c1 good4 = Some c2 /\ nth_error (s_flushers c2) 0 = Some F_end /\ nth_error (s_loggers c2) 0 = Some g /\ logged 0 good3 = [1] /\ lg_file g = [1; 2] /\ s_waits c2 = 1.
Proof. eexists _, _, _. split; [vm_compute; reflexivity|]. split; [reflexivity|]. split; [reflexivity|]. split; [vm_compute; reflexivity|]. repeat split; vm_compute; reflexivity. Qed.
Example C76_second_example : exists c, exec (@started nat) [Call_stop; Call_stop; Stop 0] = Some c /\ nth_error (s_stops c) 0 = Some S_set /\ nth_error (s_stops c) 1 = Some S_cas.
Proof. eexists. split; [vm_compute; reflexivity|]. split; reflexivity. Qed.

Print Assumptions C75_timer.
Print Assumptions C75_flushed.
Print Assumptions C76_second_returns.
Print Assumptions C75_lines.
Print Assumptions C76_flushed_partial.
Print Assumptions C76_woken_partial.
Print Assumptions C76_hangs_refuted.
Print Assumptions C76_returns_early_refuted.
Print Assumptions C76_second_call_refuted.
Print Assumptions C77_all_gone_refuted.
Print Assumptions C77_fewer_partial.
Print Assumptions C77_count.
