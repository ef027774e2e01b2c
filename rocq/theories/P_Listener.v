(** * Property C92: the listener serves every connection, request by request *)

From Verif Require Import Base Buffer BufferSpec BufferProofs BufferTop Codec CodecSpec CodecProofs Msg Rpc RpcSpec RpcProofs P_Rpc Listener.
Local Open Scope N_scope.

(** ** Specification: what has happened on connection [i] *)
Definition arrived (i : nat) (ms : list move) : list byte :=
  flat_map (fun m => match m with MArrive j bs => if (i =? j)%nat then bs else [] | _ => [] end) ms.
Definition answers (i : nat) (ms : list move) : list resp_msg :=
  flat_map (fun m => match m with MReturn j (RAnswer r) => if (i =? j)%nat then [r] else [] | _ => [] end) ms.
Definition handed (i : nat) (o : list out) : list (req_msg raw_entry) :=
  flat_map (fun x => match x with OHanded j _ q => if (i =? j)%nat then [q] else [] | _ => [] end) o.
Definition written (i : nat) (o : list out) : list byte :=
  flat_map (fun x => match x with OWrote j bs => if (i =? j)%nat then bs else [] | _ => [] end) o.
(** requests that fit into a frame *)
Definition sendable (q : req_msg entry_val) : Prop := req_ok q /\ lenN (evs_bytes (rq_entries q)) <= 16777216.

(** ** Lists *)
Lemma nth_upd : forall A k (x : A) l j, nth_error (upd k x l) j =
  if (j =? k)%nat then match nth_error l k with Some _ => Some x | None => None end else nth_error l j.
Proof.
  intros A k x l. revert k. induction l as [|y l IH]; intros k j; cbn [upd].
  - destruct (j =? k)%nat; destruct j, k; reflexivity.
  - destruct k as [|k]; destruct j as [|j]; cbn; try reflexivity. apply IH.
Qed.
Lemma upd_length : forall A k (x : A) l, length (upd k x l) = length l.
Proof. intros A k x l. revert k. induction l as [|y l IH]; intros [|k]; cbn; auto. Qed.

Lemma run_app : forall junk ms ms' s, run junk (ms ++ ms') s =
  match run junk ms s with
  | Some (s1, o1) => option_map (fun x => (fst x, o1 ++ snd x)) (run junk ms' s1)
  | None => None end.
Proof.
  intros junk ms ms'. induction ms as [|m ms IH]; intros s; cbn [run app].
  - destruct (run junk ms' s) as [[s1 o1]|]; reflexivity.
  - destruct (step junk m s) as [[s1 o1]|]; [|reflexivity]. rewrite IH. destruct (run junk ms s1) as [[s2 o2]|]; [|reflexivity]. cbn.
    destruct (run junk ms' s2) as [[s3 o3]|]; [|reflexivity]. cbn. rewrite app_assoc. reflexivity.
Qed.
(** induction over executions *)
Lemma run_ind : forall junk s0 (P : list move -> listener -> list out -> Prop), P [] s0 [] ->
  (forall ms s o m s' o', run junk ms s0 = Some (s, o) -> P ms s o -> step junk m s = Some (s', o') -> P (ms ++ [m]) s' (o ++ o')) ->
  forall ms s o, run junk ms s0 = Some (s, o) -> P ms s o.
Proof.
  intros junk s0 P H0 HS ms. induction ms as [|m ms IH] using rev_ind; intros s o E.
  - inversion E; subst. exact H0.
  - rewrite run_app in E. destruct (run junk ms s0) as [[s1 o1]|] eqn:E1; [|discriminate]. cbn [run] in E.
    destruct (step junk m s1) as [[s2 o2]|] eqn:E2; [|discriminate]. cbn in E. inversion E; subst. rewrite app_nil_r. eapply HS; eauto.
Qed.

Lemma app_long : forall A (a b s r : list A), s ++ r = a ++ b -> (length a <= length s)%nat -> exists s', s = a ++ s' /\ s' ++ r = b.
Proof.
  intros A a. induction a as [|x a IH]; intros b s r E L; [exists s; split; [reflexivity | exact E]|].
  destruct s as [|y s]; cbn in *; [lia|]. inversion E; subst. destruct (IH b s r) as (s' & -> & E'); [assumption | lia|]. exists s'. auto.
Qed.
(** ** Reading *)
Lemma too_short : forall junk hdr log q s r, idle hdr -> sendable q -> s ++ r = req_bytes q -> r <> [] ->
  session_step junk hdr log s = SWait.
Proof.
  intros junk hdr log q s r I ((H1 & H2 & H3 & H4 & H5 & H6 & H7) & L) E N0. destruct (idle_bk _ I) as (h & Lh & ->).
  destruct (N.ltb_spec (lenN s) 45) as [Hs|Hs].
  { unfold session_step. replace (lenN s <? RPC_REQ_HEADER_SIZE) with true by (unfold RPC_REQ_HEADER_SIZE; lia). reflexivity. }
  rewrite req_bytes_hdr in E. set (H := hdr_bytes _ _ _ _ _ _ _ _) in E. set (D := evs_bytes (rq_entries q)) in *.
  assert (LH : length H = 45%nat) by apply hdr_bytes_len.
  destruct (app_long _ H D s r E) as (s' & -> & E'); [unfold lenN in Hs; lia|].
  assert (S2 : (length s' < length D)%nat).
  { apply (f_equal (@length byte)) in E'. rewrite app_length in E'. destruct r; [contradiction|]. cbn in E'. lia. }
  unfold H. rewrite session_step_spec by (auto; unfold is_int32; lia).
  replace ((Z.of_N (lenN D) <? 0) || (16777216 <? Z.of_N (lenN D)))%Z%bool with false by lia.
  replace (Z.of_N (lenN D) =? 0)%Z with false by (unfold lenN; lia).
  replace (length s' <? Z.to_nat (Z.of_N (lenN D)))%nat with true; [reflexivity|].
  symmetry. apply Nat.ltb_lt. unfold lenN. lia.
Qed.

(** a stream of requests, of which the part [s] has arrived *)
Lemma read_stream : forall junk hdr log qs s r, idle hdr -> Forall sendable qs -> s ++ r = concat (map req_bytes qs) ->
  session_step junk hdr log s = SWait \/
  exists q qs' s', qs = q :: qs' /\ s = req_bytes q ++ s' /\ s' ++ r = concat (map req_bytes qs') /\
    exists q' hdr' log', session_step junk hdr log s = SReq q' hdr' log' s' /\ idle hdr' /\ req_is q q'.
Proof.
  intros junk hdr log qs s r I F E. destruct qs as [|q qs]; cbn [map concat] in E.
  { apply app_eq_nil in E. destruct E as [-> ->]. left. reflexivity. }
  inversion F as [|? ? Fq F']; subst.
  destruct (Nat.ltb_spec (length s) (length (req_bytes q))) as [H|H].
  - left. destruct (app_long _ s r (req_bytes q) (concat (map req_bytes qs)) (eq_sym E)) as (s' & Es & _); [lia|].
    eapply too_short; [exact I | exact Fq | symmetry; exact Es|]. intros ->. rewrite Es, app_nil_r in H. lia.
  - right. destruct (app_long _ _ _ s r E H) as (s' & -> & E'). exists q, qs, s'. do 3 (split; [auto|]).
    destruct Fq as [Fo Fl]. destruct (session_step_req junk hdr log q s' I Fo Fl) as (q' & h' & l' & E1 & I' & R).
    exists q', h', l'. auto.
Qed.

(** ** In order *)
Lemma new_session_ok : forall junk h, exists x, new_session junk h = Ok x /\ idle (s_hdr x) /\ s_in x = [] /\ s_phase x = Reading /\ s_handler x = h.
Proof.
  intros junk h. unfold new_session. destruct (alloc_spec junk 0) as [_ H0]. destruct (alloc_spec junk RPC_REQ_HEADER_SIZE) as [_ H1].
  destruct H0 as (b0 & -> & _); [lia|]. destruct H1 as (b1 & E & _ & P & _); [unfold RPC_REQ_HEADER_SIZE; lia|]. rewrite E. cbn [res_bind].
  eexists. split; [reflexivity|]. cbn. split; [|auto]. split; [|exact P]. exact (r_alloc _ _ _ E).
Qed.

Definition tally (qs : list (req_msg entry_val)) (A : list byte) (R : list resp_msg) (G : list (req_msg raw_entry)) (W : list byte) (x : session) : Prop :=
  forall r, A ++ r = concat (map req_bytes qs) ->
  exists qs1 qs2 w, qs = qs1 ++ qs2 /\ Forall2 req_is qs1 G /\ s_in x ++ r = concat (map req_bytes qs2) /\ idle (s_hdr x) /\
    W = concat (map resp_bytes w) /\
    match s_phase x with
    | Reading => R = w /\ length qs1 = length w
    | Handling => R = w /\ length qs1 = S (length w)
    | Writing a => R = w ++ [a] /\ length qs1 = S (length w)
    | Closed => R = w /\ (length qs1 = length w \/ length qs1 = S (length w)) \/ exists a, R = w ++ [a] /\ length qs1 = S (length w)
    end.
Definition tallied (qs : list (req_msg entry_val)) (i : nat) (ms : list move) (s : listener) (o : list out) : Prop :=
  match nth_error (l_sess s) i with
  | None => arrived i ms = [] /\ answers i ms = [] /\ handed i o = [] /\ written i o = []
  | Some x => tally qs (arrived i ms) (answers i ms) (handed i o) (written i o) x
  end.

Lemma fm_snoc : forall A B (f : A -> list B) l x, flat_map f (l ++ [x]) = flat_map f l ++ f x.
Proof. intros A B f l x. rewrite flat_map_app. cbn. rewrite app_nil_r. reflexivity. Qed.
Lemma loop_sess : forall junk k x s s', loop_step junk k x s = Some s' -> l_sess s' = l_sess s \/ exists h y, new_session junk h = Ok y /\ l_sess s' = l_sess s ++ [y].
Proof.
  intros junk k x s s' E. destruct x as [| |h|h [|]]; cbn [loop_step] in E; try discriminate; try (inversion E; subst; left; reflexivity).
  - inversion E; subst. left. destruct (l_open s); reflexivity.
  - destruct (new_session junk h) as [y| |] eqn:N0; try discriminate. inversion E; subst. right. exists h, y. split; [exact N0 | reflexivity].
Qed.
Ltac same_i := unfold tallied in *; cbn [l_sess set_sess set_session set_loop set_loops] in *; unfold arrived, answers, handed, written in *; rewrite ?fm_snoc, ?flat_map_app; cbn [flat_map]; rewrite ?app_nil_r.
Lemma tallied_step : forall junk qs i ms s o m s' o', Forall sendable qs -> tallied qs i ms s o -> step junk m s = Some (s', o') ->
  tallied qs i (ms ++ [m]) s' (o ++ o').
Proof.
  intros junk qs i ms s o m s' o' F T E. destruct m as [h| |k|k|k|j bs|j|j|j rt|j ok]; cbn [step] in E.
  - inversion E; subst. same_i. exact T.
  - inversion E; subst. same_i. exact T.
  - destruct (nth_error (l_loops s) k) as [x|]; [|discriminate]. destruct (loop_step junk k x s) as [s1|] eqn:L; [|discriminate]. inversion E; subst.
    destruct (loop_sess _ _ _ _ _ L) as [H|(h & y & Y & H)]; same_i; rewrite H; [exact T|].
    destruct (Nat.ltb_spec i (length (l_sess s))) as [Hi|Hi]; [rewrite nth_error_app1 by exact Hi; exact T|].
    assert (N0 : nth_error (l_sess s) i = None) by (apply nth_error_None; exact Hi). rewrite N0 in T. destruct T as (T1 & T2 & T3 & T4).
    rewrite nth_error_app2 by exact Hi. destruct (i - length (l_sess s))%nat as [|d]; cbn [nth_error]; [|destruct d; cbn [nth_error]; auto].
    destruct (new_session_ok junk h) as (y' & Y' & Y1 & Y2 & Y3 & _). rewrite Y in Y'. inversion Y'; subst y'.
    unfold tally. rewrite T1, T2, T3, T4. intros r Hr. exists [], qs, []. rewrite Y2, Y3. split; [reflexivity|]. split; [constructor|]. split; [exact Hr|]. auto.
  - destruct (nth_error (l_loops s) k) as [[| |h|h b]|]; try discriminate. inversion E; subst. same_i. exact T.
  - destruct (nth_error (l_loops s) k) as [[| |h|h b]|]; try discriminate. inversion E; subst. same_i. exact T.
  - destruct (nth_error (l_sess s) j) as [x|] eqn:X; [|discriminate]. inversion E; subst. same_i. rewrite nth_upd. rewrite X.
    destruct (Nat.eqb_spec i j) as [->|_]; [|rewrite ?app_nil_r; exact T]. rewrite X in T.
    intros r Hr. rewrite <- app_assoc in Hr. destruct (T _ Hr) as (q1 & q2 & w & T1 & T2 & T3 & T4 & T5 & T6).
    exists q1, q2, w. cbn [s_in s_hdr s_phase]. split; [exact T1|]. split; [exact T2|]. split; [rewrite <- app_assoc; exact T3|]. split; [exact T4|]. split; [exact T5 | exact T6].
  - destruct (nth_error (l_sess s) j) as [x|] eqn:X; [|discriminate]. destruct (s_phase x) eqn:P; try discriminate.
    destruct (session_step junk (s_hdr x) (s_log x) (s_in x)) as [| |u|q hdr log rest] eqn:Q; try discriminate; inversion E; subst; same_i; rewrite nth_upd, X;
      (destruct (Nat.eqb_spec i j) as [->|_]; [|rewrite ?app_nil_r; exact T]); rewrite X in T; rewrite ?app_nil_r; intros r Hr;
      destruct (T _ Hr) as (q1 & q2 & w & T1 & T2 & T3 & T4 & T5 & T6);
      assert (F2 : Forall sendable q2) by (rewrite T1 in F; apply Forall_app in F; tauto);
      destruct (read_stream junk (s_hdr x) (s_log x) q2 (s_in x) r T4 F2 T3) as [Z|(q0 & q2' & s0 & Z1 & Z2 & Z3 & q' & hdr' & log' & Z4 & Z5 & Z6)]; rewrite Q in *; try discriminate.
    inversion Z4; subst q' hdr' log' s0. rewrite P in T6. destruct T6 as [T6 T7].
    exists (q1 ++ [q0]), q2', w. cbn [s_in s_hdr s_phase]. split; [rewrite T1, Z1, <- app_assoc; reflexivity|].
    split; [apply Forall2_app; [exact T2 | constructor; [exact Z6 | constructor]]|]. rewrite app_length. cbn [length]. do 4 (split; [auto|]). lia.
  - destruct (nth_error (l_sess s) j) as [x|] eqn:X; [|discriminate]. destruct (s_phase x) eqn:P; try discriminate. inversion E; subst. same_i. rewrite nth_upd, X.
    destruct (Nat.eqb_spec i j) as [->|_]; [|rewrite ?app_nil_r; exact T]. rewrite X in T.
    rewrite ?app_nil_r. intros r Hr. destruct (T _ Hr) as (q1 & q2 & w & T1 & T2 & T3 & T4 & T5 & T6). rewrite P in T6.
    exists q1, q2, w. cbn [to_phase s_in s_hdr s_phase]. do 5 (split; [auto|]). left. intuition.
  - destruct (nth_error (l_sess s) j) as [x|] eqn:X; [|discriminate]. destruct (s_phase x) eqn:P; try discriminate.
    destruct rt as [a| |]; inversion E; subst; same_i; rewrite nth_upd, X; (destruct (Nat.eqb_spec i j) as [->|_]; [|rewrite ?app_nil_r; exact T]); rewrite X in T;
      rewrite ?app_nil_r; intros r Hr; destruct (T _ Hr) as (q1 & q2 & w & T1 & T2 & T3 & T4 & T5 & T6); rewrite P in T6; destruct T6 as [T6 T7];
      exists q1, q2, w; cbn [to_phase s_in s_hdr s_phase]; do 5 (split; [auto|]); [rewrite T6; auto | left; auto | left; auto].
  - destruct (nth_error (l_sess s) j) as [x|] eqn:X; [|discriminate]. destruct (s_phase x) as [| |a|] eqn:P; try discriminate. destruct ok.
    + rewrite resp_encode_ok in E. inversion E; subst; same_i; rewrite nth_upd, X; (destruct (Nat.eqb_spec i j) as [->|_]; [|rewrite ?app_nil_r; exact T]); rewrite X in T.
      rewrite ?app_nil_r. intros r Hr. destruct (T _ Hr) as (q1 & q2 & w & T1 & T2 & T3 & T4 & T5 & T6). rewrite P in T6. destruct T6 as [T6 T7].
      exists q1, q2, (w ++ [a]). cbn [to_phase s_in s_hdr s_phase]. do 4 (split; [auto|]). split.
      { rewrite T5, map_app, concat_app. cbn [map concat]. rewrite app_nil_r. reflexivity. }
      rewrite app_length. cbn. split; [exact T6 | lia].
    + inversion E; subst; same_i; rewrite nth_upd, X; (destruct (Nat.eqb_spec i j) as [->|_]; [|rewrite ?app_nil_r; exact T]); rewrite X in T.
      rewrite ?app_nil_r. intros r Hr. destruct (T _ Hr) as (q1 & q2 & w & T1 & T2 & T3 & T4 & T5 & T6). rewrite P in T6. destruct T6 as [T6 T7].
      exists q1, q2, w. cbn [to_phase s_in s_hdr s_phase]. do 5 (split; [auto|]). right. eauto.
Qed.

(** Whatever happens on other connections, to the listener and in the handler: if the bytes
    that have arrived on a connection are the beginning of the bytes of requests [qs],
    then the requests handed to the handler are the first [k] of them, in order; the
    connection carries back the handler's answers in the order of the requests; and
    there is never more than one request without its answer. *)
Theorem C92_in_order : forall junk h ms s o i qs rest,
  run junk ms (new_listener h) = Some (s, o) -> Forall sendable qs ->
  arrived i ms ++ rest = concat (map req_bytes qs) ->
  exists k w, Forall2 req_is (firstn k qs) (handed i o) /\ (k <= length qs)%nat /\
    written i o = concat (map resp_bytes w) /\ (length w <= k <= S (length w))%nat /\
    (answers i ms = w \/ exists a, answers i ms = w ++ [a] /\ k = S (length w)).
Proof.
  intros junk h ms s o i qs rest E F A.
  assert (T : tallied qs i ms s o).
  { revert ms s o E A. intros ms s o E _. revert ms s o E. apply run_ind.
    - unfold tallied. cbn. destruct i; cbn; auto.
    - intros ms s o m s' o' _ T S1. eapply tallied_step; eauto. }
  unfold tallied in T. destruct (nth_error (l_sess s) i) as [x|].
  - destruct (T _ A) as (q1 & q2 & w & T1 & T2 & T3 & T4 & T5 & T6). exists (length q1), w.
    split; [rewrite T1, firstn_app, Nat.sub_diag, firstn_all, firstn_O, app_nil_r; exact T2|]. split; [rewrite T1, app_length; lia|]. split; [exact T5|].
    destruct (s_phase x) as [| |a|].
    + destruct T6 as [T6 T7]. split; [lia | auto].
    + destruct T6 as [T6 T7]. split; [lia | auto].
    + destruct T6 as [T6 T7]. split; [lia | eauto].
    + destruct T6 as [[T6 T7]|(a & T6 & T7)]; (split; [lia | eauto]).
  - destruct T as (T1 & T2 & T3 & T4). exists 0%nat, []. rewrite T2, T3, T4. cbn. split; [constructor|]. split; [lia|]. split; [reflexivity|]. split; [lia | auto].
Qed.
Print Assumptions C92_in_order.

(** a session that waits for a request reads it as soon as it has arrived completely,
    and not before *)
Theorem C92_reads : forall junk h ms s o i x qs rest,
  run junk ms (new_listener h) = Some (s, o) -> Forall sendable qs ->
  arrived i ms ++ rest = concat (map req_bytes qs) ->
  nth_error (l_sess s) i = Some x -> s_phase x = Reading ->
  let k := length (handed i o) in
  (lenN (concat (map req_bytes (firstn (S k) qs))) <= lenN (arrived i ms) /\ (k < length qs)%nat <->
   exists s' q, step junk (MRead i) s = Some (s', [OHanded i (s_handler x) q])).
Proof.
  intros junk h ms s o i x qs rest E F A X P k.
  assert (T : tallied qs i ms s o).
  { clear X P A. revert ms s o E k. intros ms s o E _. revert ms s o E. apply run_ind.
    - unfold tallied. cbn. destruct i; cbn; auto.
    - intros ms s o m s' o' _ T S1. eapply tallied_step; eauto. }
  unfold tallied in T. rewrite X in T. destruct (T _ A) as (q1 & q2 & w & T1 & T2 & T3 & T4 & T5 & _).
  assert (K : k = length q1) by (unfold k; clear - T2; induction T2; cbn; auto). 
  assert (F2 : Forall sendable q2) by (rewrite T1 in F; apply Forall_app in F; tauto).
  assert (LA : lenN (arrived i ms) = lenN (concat (map req_bytes q1)) + lenN (s_in x)).
  { apply (f_equal lenN) in A. apply (f_equal lenN) in T3. rewrite T1, map_app, concat_app in A. rewrite !lenN_app in A. rewrite lenN_app in T3. lia. }
  destruct (read_stream junk (s_hdr x) (s_log x) q2 (s_in x) rest T4 F2 T3) as [Z|(q0 & q2' & s0 & Z1 & Z2 & Z3 & q' & hdr' & log' & Z4 & Z5 & Z6)].
  - split.
    + intros [H1 H2]. exfalso. rewrite K, T1 in H1, H2. rewrite app_length in H2. destruct q2 as [|q0 q2]; [cbn in H2; lia|].
      rewrite firstn_app in H1. replace (S (length q1) - length q1)%nat with 1%nat in H1 by lia. rewrite firstn_all2 in H1 by lia.
      rewrite map_app, concat_app, lenN_app in H1. cbn [firstn map concat] in H1. rewrite app_nil_r in H1.
      cbn [map concat] in T3. destruct (app_long _ _ _ _ _ T3) as (s' & Es & _); [unfold lenN in *; lia|].
      inversion F2 as [|? ? [Fo Fl] _]; subst. destruct (session_step_req junk (s_hdr x) (s_log x) q0 s' T4 Fo Fl) as (a & b & c & Y & _). rewrite <- Es, Z in Y. discriminate.
    + intros (s' & q & H). cbn [step] in H. rewrite X, P, Z in H. discriminate.
  - split.
    + intros _. do 2 eexists. cbn [step]. rewrite X, P, Z4. reflexivity.
    + intros _. rewrite K, T1, Z1. rewrite app_length. cbn [length]. split; [|lia].
      rewrite firstn_app. replace (S (length q1) - length q1)%nat with 1%nat by lia. rewrite firstn_all2 by lia.
      rewrite map_app, concat_app, lenN_app. cbn [firstn map concat]. rewrite app_nil_r. rewrite LA, Z2, lenN_app. lia.
Qed.
Print Assumptions C92_reads.

(** ** The accept loop *)

(** After listen and until stop there is always an accept pending, or one step or at most
    three of the loop itself lead to one: no error and no connection ends the loop. *)
Definition armed (s : listener) : Prop := exists k h, nth_error (l_loops s) k = Some (LWait h).
Lemma upd_nonempty : forall A k (x : A) l, l <> [] -> upd k x l <> [].
Proof. intros A k x l H. destruct l; [contradiction|]. destruct k; discriminate. Qed.
Lemma open_loops : forall junk h ms s o, run junk ms (new_listener h) = Some (s, o) -> ~ In MStop ms ->
  l_open s = true /\ ((exists h', In (MListen h') ms) -> l_loops s <> []).
Proof.
  intros junk h ms s o E. revert ms s o E. apply (run_ind junk (new_listener h) (fun ms s o => ~ In MStop ms -> l_open s = true /\ ((exists h', In (MListen h') ms) -> l_loops s <> []))).
  - intros _. split; [reflexivity|]. intros [h' []].
  - intros ms s o m s' o' _ IH E N0. destruct IH as [I1 I2]; [intros H; apply N0, in_or_app; auto|].
    assert (M : forall h', In (MListen h') (ms ++ [m]) -> In (MListen h') ms \/ m = MListen h') by (intros h' H; apply in_app_or in H; destruct H as [H|[H|[]]]; auto).
    destruct m as [h1| |k|k|k|j bs|j|j|j rt|j ok]; cbn [step] in E.
    + inversion E; subst. split; [exact I1|]. intros _ H. cbn in H. destruct (l_loops s); discriminate.
    + exfalso. apply N0, in_or_app. right. left. reflexivity.
    + destruct (nth_error (l_loops s) k) as [y|] eqn:Y; [|discriminate]. destruct (loop_step junk k y s) as [s1|] eqn:L; [|discriminate]. inversion E; subst.
      destruct y as [| |h1|h1 [|]]; cbn [loop_step] in L; rewrite ?I1 in L; try discriminate.
      * inversion L; subst. split; [exact I1|]. intros [h2 H]. destruct (M _ H) as [H'|H']; [|discriminate]. apply upd_nonempty, I2. eauto.
      * inversion L; subst. split; [exact I1|]. intros [h2 H]. destruct (M _ H) as [H'|H']; [|discriminate]. apply upd_nonempty, I2. eauto.
      * destruct (new_session junk h1) as [y| |]; try discriminate. inversion L; subst. split; [exact I1|]. intros [h2 H]. destruct (M _ H) as [H'|H']; [|discriminate]. apply upd_nonempty, I2. eauto.
      * inversion L; subst. split; [exact I1|]. intros [h2 H]. destruct (M _ H) as [H'|H']; [|discriminate]. apply upd_nonempty, I2. eauto.
    + destruct (nth_error (l_loops s) k) as [[| |h1|h1 b]|]; try discriminate. inversion E; subst. split; [exact I1|].
      intros [h2 H]. destruct (M _ H) as [H'|H']; [|discriminate]. apply upd_nonempty, I2. eauto.
    + destruct (nth_error (l_loops s) k) as [[| |h1|h1 b]|]; try discriminate. inversion E; subst. split; [exact I1|].
      intros [h2 H]. destruct (M _ H) as [H'|H']; [|discriminate]. apply upd_nonempty, I2. eauto.
    + destruct (nth_error (l_sess s) j); [|discriminate]. inversion E; subst. split; [exact I1|].
      intros [h2 H]. destruct (M _ H) as [H'|H']; [|discriminate]. apply I2. eauto.
    + destruct (nth_error (l_sess s) j) as [x|]; [|discriminate]. destruct (s_phase x); try discriminate.
      destruct (session_step junk (s_hdr x) (s_log x) (s_in x)); try discriminate; inversion E; subst; (split; [exact I1|]);
      intros [h2 H]; (destruct (M _ H) as [H'|H']; [|discriminate]); apply I2; eauto.
    + destruct (nth_error (l_sess s) j) as [x|]; [|discriminate]. destruct (s_phase x); try discriminate. inversion E; subst; (split; [exact I1|]).
      intros [h2 H]; (destruct (M _ H) as [H'|H']; [|discriminate]); apply I2; eauto.
    + destruct (nth_error (l_sess s) j) as [x|]; [|discriminate]. destruct (s_phase x); try discriminate. destruct rt; inversion E; subst; (split; [exact I1|]);
      intros [h2 H]; (destruct (M _ H) as [H'|H']; [|discriminate]); apply I2; eauto.
    + destruct (nth_error (l_sess s) j) as [x|]; [|discriminate]. destruct (s_phase x); try discriminate. destruct ok; [rewrite resp_encode_ok in E|]; inversion E; subst; (split; [exact I1|]);
      intros [h2 H]; (destruct (M _ H) as [H'|H']; [|discriminate]); apply I2; eauto.
Qed.
Theorem C92_keeps_accepting : forall junk h h' ms s o, run junk ms (new_listener h) = Some (s, o) ->
  In (MListen h') ms -> ~ In MStop ms ->
  exists k n s', (n <= 3)%nat /\ run junk (repeat (MLoop k) n) s = Some (s', []) /\ armed s'.
Proof.
  intros junk h h' ms s o E H N0. destruct (open_loops _ _ _ _ _ E N0) as [O L]. assert (L1 := L ltac:(eauto)). clear L. rename L1 into L.
  destruct (l_loops s) as [|x l] eqn:LL; [contradiction|]. exists 0%nat.
  assert (Arm : forall s, l_open s = true -> (exists l, l_loops s = LArm :: l) -> run junk (repeat (MLoop 0) 1) s = Some (set_loop 0 (LWait (l_handler s)) s, []) /\ armed (set_loop 0 (LWait (l_handler s)) s)).
  { intros s0 O0 [l0 L0]. cbn [repeat run step]. rewrite L0. cbn [nth_error loop_step]. rewrite O0. split; [reflexivity|].
    exists 0%nat, (l_handler s0). cbn. rewrite L0. reflexivity. }
  assert (Chk : forall s, l_open s = true -> (exists l, l_loops s = LCheck :: l) -> exists s', run junk (repeat (MLoop 0) 2) s = Some (s', []) /\ armed s').
  { intros s0 O0 [l0 L0]. change (repeat (MLoop 0) 2) with ([MLoop 0] ++ repeat (MLoop 0) 1). rewrite run_app. cbn [run step]. rewrite L0. cbn [nth_error loop_step]. rewrite O0. cbn [option_map fst snd app].
    set (s1 := set_loop 0 LArm s0). destruct (Arm s1) as [A1 A2]; [exact O0 | exists l0; unfold s1; cbn; rewrite L0; reflexivity|]. rewrite A1. eexists. split; [reflexivity | exact A2]. }
  assert (Dn : forall s b h, l_open s = true -> (exists l, l_loops s = LDone h b :: l) -> exists s', run junk (repeat (MLoop 0) 3) s = Some (s', []) /\ armed s').
  { intros s0 b h0 O0 [l0 L0]. change (repeat (MLoop 0) 3) with ([MLoop 0] ++ repeat (MLoop 0) 2). rewrite run_app.
    assert (S1 : exists s1, run junk [MLoop 0] s0 = Some (s1, []) /\ l_open s1 = true /\ exists l, l_loops s1 = LCheck :: l).
    { cbn [run step]. rewrite L0. cbn [nth_error loop_step]. destruct b.
      - destruct (new_session_ok junk h0) as (y & -> & _). cbn [option_map fst snd app]. eexists. split; [reflexivity|]. split; [exact O0|]. exists l0. cbn. rewrite L0. reflexivity.
      - cbn [option_map fst snd app]. eexists. split; [reflexivity|]. split; [exact O0|]. exists l0. cbn. rewrite L0. reflexivity. }
    destruct S1 as (s1 & R1 & O1 & L1). rewrite R1. destruct (Chk s1 O1 L1) as (s2 & R2 & A2). rewrite R2. exists s2. split; [reflexivity | exact A2]. }
  destruct x as [| |h0|h0 b].
  - destruct (Chk s O) as (s' & R & A); [eauto|]. exists 2%nat, s'. auto.
  - destruct (Arm s O) as [R A]; [eauto|]. exists 1%nat. eexists. split; [lia|]. split; [exact R | exact A].
  - exists 0%nat, s. split; [lia|]. split; [reflexivity|]. exists 0%nat, h0. rewrite LL. reflexivity.
  - destruct (Dn s b h0 O) as (s' & R & A); [eauto|]. exists 3%nat, s'. auto.
Qed.
Print Assumptions C92_keeps_accepting.

(** ** Stopping *)

(** after stop no connection is accepted any more *)
Lemma loops_in : forall A k (x : A) l y, In y (upd k x l) -> y = x \/ In y l.
Proof. intros A k x l. revert k. induction l as [|z l IH]; intros [|k] y H; cbn in *; try tauto; destruct H as [H|H]; auto. destruct (IH _ _ H); auto. Qed.
Definition shut (s : listener) : Prop := l_open s = false /\ forall h, ~ In (LWait h) (l_loops s).
Lemma shut_step : forall junk m s s' o, shut s -> step junk m s = Some (s', o) -> shut s'.
Proof.
  intros junk m s s' o [S1 S2] E.
  assert (U : forall k x, (forall h, x <> LWait h) -> forall h, ~ In (LWait h) (upd k x (l_loops s))).
  { intros k x H h I1. apply loops_in in I1. destruct I1 as [I1|I1]; [apply (H h); auto | exact (S2 h I1)]. }
  destruct m as [h1| |k|k|k|j bs|j|j|j rt|j ok]; cbn [step] in E.
  - inversion E; subst. split; [exact S1|]. cbn. intros h H. apply in_app_or in H. destruct H as [H|[H|[]]]; [exact (S2 h H) | discriminate].
  - inversion E; subst. split; [reflexivity|]. cbn. intros h H. apply in_map_iff in H. destruct H as (x & H & _). destruct x; discriminate.
  - destruct (nth_error (l_loops s) k) as [y|] eqn:Y; [|discriminate]. destruct (loop_step junk k y s) as [s1|] eqn:L; [|discriminate]. inversion E; subst.
    destruct y as [| |h1|h1 [|]]; cbn [loop_step] in L; rewrite ?S1 in L; try discriminate.
    + inversion L; subst. split; [exact S1|]. cbn. intros h H. apply (S2 h). apply in_app_or in H. destruct H as [H|H].
      * rewrite <- (firstn_skipn k (l_loops s)). apply in_or_app. left. exact H.
      * rewrite <- (firstn_skipn (S k) (l_loops s)). apply in_or_app. right. exact H.
    + inversion L; subst. split; [exact S1|]. apply U. discriminate.
    + destruct (new_session junk h1) as [y| |]; try discriminate. inversion L; subst. split; [exact S1|]. apply U. discriminate.
    + inversion L; subst. split; [exact S1|]. apply U. discriminate.
  - destruct (nth_error (l_loops s) k) as [[| |h1|h1 b]|]; try discriminate. inversion E; subst. split; [exact S1|]. apply U. discriminate.
  - destruct (nth_error (l_loops s) k) as [[| |h1|h1 b]|]; try discriminate. inversion E; subst. split; [exact S1|]. apply U. discriminate.
  - destruct (nth_error (l_sess s) j); [|discriminate]. inversion E; subst. split; [exact S1 | exact S2].
  - destruct (nth_error (l_sess s) j) as [x|]; [|discriminate]. destruct (s_phase x); try discriminate.
    destruct (session_step junk (s_hdr x) (s_log x) (s_in x)); try discriminate; inversion E; subst; (split; [exact S1 | exact S2]).
  - destruct (nth_error (l_sess s) j) as [x|]; [|discriminate]. destruct (s_phase x); try discriminate. inversion E; subst; (split; [exact S1 | exact S2]).
  - destruct (nth_error (l_sess s) j) as [x|]; [|discriminate]. destruct (s_phase x); try discriminate. destruct rt; inversion E; subst; (split; [exact S1 | exact S2]).
  - destruct (nth_error (l_sess s) j) as [x|]; [|discriminate]. destruct (s_phase x); try discriminate. destruct ok; [rewrite resp_encode_ok in E|]; inversion E; subst; (split; [exact S1 | exact S2]).
Qed.
Lemma stop_shut : forall junk h ms s o, run junk ms (new_listener h) = Some (s, o) -> In MStop ms -> shut s.
Proof.
  intros junk h ms s o E. revert ms s o E. apply (run_ind junk (new_listener h) (fun ms s o => In MStop ms -> shut s)); [intros []|].
  intros ms s o m s' o' _ IH E H. apply in_app_or in H. destruct H as [H|[H|[]]]; [eapply shut_step; eauto|]. subst m.
  cbn in E. inversion E; subst. split; [reflexivity|]. cbn. intros h0 H. apply in_map_iff in H. destruct H as (x & H & _). destruct x; discriminate.
Qed.
Theorem C92_accepts_none_after_stop : forall junk h ms s o k, run junk ms (new_listener h) = Some (s, o) -> In MStop ms ->
  step junk (MConnect k) s = None.
Proof.
  intros junk h ms s o k E H. destruct (stop_shut _ _ _ _ _ E H) as [_ S2]. cbn [step].
  destruct (nth_error (l_loops s) k) as [[| |h1|h1 b]|] eqn:K; try reflexivity. exfalso. apply (S2 h1). eapply nth_error_In, K.
Qed.
Print Assumptions C92_accepts_none_after_stop.

(** But stop() ends no connection: on each that is open any number of further requests
    reach the handler. *)
Theorem C92_stop_refuted : forall junk h ms s o i x qs rs, run junk ms (new_listener h) = Some (s, o) -> In MStop ms ->
  nth_error (l_sess s) i = Some x -> s_phase x = Reading -> idle (s_hdr x) -> s_in x = [] ->
  Forall sendable qs -> length rs = length qs ->
  exists ms' s' o', run junk ms' s = Some (s', o') /\ Forall2 req_is qs (handed i o') /\ written i o' = concat (map resp_bytes rs).
Proof.
  intros junk h ms s o i x qs rs _ _. revert s x rs. induction qs as [|q qs IH]; intros s x rs X P Id Z F L.
  - destruct rs; [|discriminate]. exists [], s, []. split; [reflexivity|]. split; [constructor | reflexivity].
  - destruct rs as [|a rs]; [discriminate|]. inversion F as [|? ? [Fo Fl] F']; subst.
    destruct (session_step_req junk (s_hdr x) (s_log x) q [] Id Fo Fl) as (q' & h' & l' & Q & Id' & R). rewrite app_nil_r in Q.
    set (s1 := set_session i (mkSess (s_hdr x) (s_log x) (s_in x ++ req_bytes q) (s_phase x) (s_handler x)) s).
    set (s2 := set_session i (mkSess h' l' [] Handling (s_handler x)) s1).
    set (s3 := set_session i (mkSess h' l' [] (Writing a) (s_handler x)) s2).
    set (s4 := set_session i (mkSess h' l' [] Reading (s_handler x)) s3).
    assert (X1 : forall y s, nth_error (l_sess s) i <> None -> nth_error (l_sess (set_session i y s)) i = Some y).
    { intros y s0 H. cbn. rewrite nth_upd, Nat.eqb_refl. destruct (nth_error (l_sess s0) i); [reflexivity | contradiction]. }
    assert (N1 : nth_error (l_sess s1) i = Some (mkSess (s_hdr x) (s_log x) (s_in x ++ req_bytes q) (s_phase x) (s_handler x))) by (apply X1; rewrite X; discriminate).
    assert (N2 : nth_error (l_sess s2) i = Some (mkSess h' l' [] Handling (s_handler x))) by (apply X1; rewrite N1; discriminate).
    assert (N3 : nth_error (l_sess s3) i = Some (mkSess h' l' [] (Writing a) (s_handler x))) by (apply X1; rewrite N2; discriminate).
    assert (N4 : nth_error (l_sess s4) i = Some (mkSess h' l' [] Reading (s_handler x))) by (apply X1; rewrite N3; discriminate).
    assert (E1 : step junk (MArrive i (req_bytes q)) s = Some (s1, [])) by (cbn [step]; rewrite X; reflexivity).
    assert (E2 : step junk (MRead i) s1 = Some (s2, [OHanded i (s_handler x) q'])).
    { cbn [step]. rewrite N1. cbn [s_phase s_hdr s_log s_in s_handler]. rewrite P, Z. cbn [app]. rewrite Q. reflexivity. }
    assert (E3 : step junk (MReturn i (RAnswer a)) s2 = Some (s3, [])) by (cbn [step]; rewrite N2; reflexivity).
    assert (E4 : step junk (MWritten i true) s3 = Some (s4, [OWrote i (resp_bytes a)])) by (cbn [step]; rewrite N3; cbn [s_phase]; rewrite resp_encode_ok; reflexivity).
    destruct (IH s4 _ rs N4 eq_refl Id' eq_refl F') as (ms' & s' & o' & R1 & R2 & R3); [cbn in L; congruence|].
    exists (MArrive i (req_bytes q) :: MRead i :: MReturn i (RAnswer a) :: MWritten i true :: ms'), s'. eexists. split.
    { cbn [run]. rewrite E1, E2, E3, E4, R1. reflexivity. }
    unfold handed, written in *. cbn [flat_map app snd fst]. rewrite !Nat.eqb_refl. cbn [app]. split; [constructor; [exact R | exact R2]|]. rewrite R3. reflexivity.
Qed.
Print Assumptions C92_stop_refuted.

(** and a connection accepted just before stop() is served although stop() has returned *)
Theorem C92_late_session_refuted : forall junk s k h, nth_error (l_loops s) k = Some (LDone h true) ->
  exists s1 s2 x, run junk [MStop] s = Some (s1, []) /\ run junk [MLoop k] s1 = Some (s2, []) /\
    l_sess s2 = l_sess s ++ [x] /\ s_phase x = Reading /\ s_handler x = h.
Proof.
  intros junk s k h K. destruct (new_session_ok junk h) as (x & X & _ & _ & P & Hh). exists (mkListener false (l_handler s) (map aborted (l_loops s)) (l_sess s)). eexists. exists x. split; [reflexivity|]. split.
  { cbn [run step l_loops]. rewrite nth_error_map, K. cbn [option_map aborted loop_step]. rewrite X. reflexivity. }
  cbn [fst l_sess set_loop set_loops set_sess]. auto.
Qed.
Print Assumptions C92_late_session_refuted.

(** ** The handler is the one given to listen *)
Theorem C92_handler : forall junk h ms s o, run junk ms (new_listener h) = Some (s, o) -> (forall h', In (MListen h') ms -> h' = h) ->
  forall i h' q, In (OHanded i h' q) o -> h' = h.
Proof.
  intros junk h ms s o E HL.
  set (inv := fun (s : listener) (o : list out) => l_handler s = h /\ (forall x, In x (l_loops s) -> match x with LWait y | LDone y _ => y = h | _ => True end) /\
     (forall x, In x (l_sess s) -> s_handler x = h) /\ forall i h' q, In (OHanded i h' q) o -> h' = h).
  enough (K : inv s o) by apply K. revert ms s o E HL.
  apply (run_ind junk (new_listener h) (fun ms s o => (forall h', In (MListen h') ms -> h' = h) -> inv s o)).
  { intros _. split; [reflexivity|]. split; [intros x []|]. split; [intros x []|]. intros i h' q []. }
  intros ms s o m s' o' _ IH E HL. destruct IH as (V1 & V2 & V3 & V4); [intros h' H; apply HL, in_or_app; auto|].
  assert (UL : forall k y, match y with LWait z | LDone z _ => z = h | _ => True end -> forall x, In x (upd k y (l_loops s)) -> match x with LWait z | LDone z _ => z = h | _ => True end).
  { intros k y Hy x Hx. apply loops_in in Hx. destruct Hx as [->|Hx]; [exact Hy | exact (V2 x Hx)]. }
  assert (US : forall k y, s_handler y = h -> forall x, In x (upd k y (l_sess s)) -> s_handler x = h).
  { intros k y Hy x Hx. assert (Q : forall l, (forall x, In x l -> s_handler x = h) -> forall k, In x (upd k y l) -> s_handler x = h).
    { induction l as [|z l IHl]; intros Hl [|j] Hj; cbn in Hj; try contradiction; destruct Hj as [<-|Hj]; auto; [apply Hl; right; exact Hj | apply Hl; left; reflexivity|].
      eapply IHl; [intros x0 H0; apply Hl; right; exact H0 | exact Hj]. }
    exact (Q _ V3 _ Hx). }
  assert (NO : forall o2, (forall i h' q, In (OHanded i h' q) o2 -> h' = h) -> forall i h' q, In (OHanded i h' q) (o ++ o2) -> h' = h).
  { intros o2 H i h' q Hi. apply in_app_or in Hi. destruct Hi as [Hi|Hi]; eauto. }
  assert (NE : forall i h' q, In (OHanded i h' q) (o ++ []) -> h' = h) by (apply NO; intros ? ? ? []).
  assert (NC : forall j i h' q, In (OHanded i h' q) (o ++ [OClosed j]) -> h' = h) by (intros j; apply NO; intros ? ? ? [X|[]]; discriminate).
  destruct m as [h1| |k|k|k|j bs|j|j|j rt|j ok]; cbn [step] in E.
  - inversion E; subst s' o'. split; [apply HL, in_or_app; right; left; reflexivity|]. split; [|split; [exact V3 | exact NE]].
    cbn. intros x Hx. apply in_app_or in Hx. destruct Hx as [Hx|[<-|[]]]; [exact (V2 x Hx) | exact I].
  - inversion E; subst s' o'. split; [exact V1|]. split; [|split; [exact V3 | exact NE]]. cbn. intros x Hx. apply in_map_iff in Hx. destruct Hx as (y & <- & Hy). specialize (V2 y Hy). destruct y; exact V2.
  - destruct (nth_error (l_loops s) k) as [y|] eqn:Y; [|discriminate]. assert (Y2 := V2 y (nth_error_In _ _ Y)). destruct (loop_step junk k y s) as [s1|] eqn:L; [|discriminate]. inversion E; subst s' o'.
    destruct y as [| |h1|h1 [|]]; cbn [loop_step] in L; try discriminate.
    + inversion L; subst s1. destruct (l_open s); (split; [exact V1|]); (split; [|split; [exact V3 | exact NE]]); [exact (UL k LArm I)|].
      cbn. intros x Hx. apply V2. apply in_app_or in Hx. destruct Hx as [H|H].
      * rewrite <- (firstn_skipn k (l_loops s)). apply in_or_app. left. exact H.
      * rewrite <- (firstn_skipn (S k) (l_loops s)). apply in_or_app. right. exact H.
    + inversion L; subst s1. split; [exact V1|]. split; [|split; [exact V3 | exact NE]]. apply UL. destruct (l_open s); exact V1.
    + destruct (new_session_ok junk h1) as (y & X & _ & _ & _ & Hy). rewrite X in L. inversion L; subst s1. split; [exact V1|]. split; [exact (UL k LCheck I)|]. split; [|exact NE].
      cbn. intros x Hx. apply in_app_or in Hx. destruct Hx as [Hx|[<-|[]]]; [exact (V3 x Hx) | congruence].
    + inversion L; subst s1. split; [exact V1|]. split; [exact (UL k LCheck I) | split; [exact V3 | exact NE]].
  - destruct (nth_error (l_loops s) k) as [[| |h1|h1 b]|] eqn:Y; try discriminate. inversion E; subst s' o'. split; [exact V1|]. split; [exact (UL k (LDone h1 true) (V2 _ (nth_error_In _ _ Y))) | split; [exact V3 | exact NE]].
  - destruct (nth_error (l_loops s) k) as [[| |h1|h1 b]|] eqn:Y; try discriminate. inversion E; subst s' o'. split; [exact V1|]. split; [exact (UL k (LDone h1 false) (V2 _ (nth_error_In _ _ Y))) | split; [exact V3 | exact NE]].
  - destruct (nth_error (l_sess s) j) as [x|] eqn:X; [|discriminate]. assert (Hx := V3 x (nth_error_In _ _ X)). inversion E; subst s' o'. split; [exact V1|]. split; [exact V2|]. split; [apply US; exact Hx | exact NE].
  - destruct (nth_error (l_sess s) j) as [x|] eqn:X; [|discriminate]. assert (Hx := V3 x (nth_error_In _ _ X)). destruct (s_phase x); try discriminate.
    destruct (session_step junk (s_hdr x) (s_log x) (s_in x)); try discriminate; inversion E; subst s' o'; (split; [exact V1|]); (split; [exact V2|]); (split; [apply US; exact Hx|]); [apply NC|].
    apply NO. intros ? ? ? [Z|[]]. congruence.
  - destruct (nth_error (l_sess s) j) as [x|] eqn:X; [|discriminate]. assert (Hx := V3 x (nth_error_In _ _ X)). destruct (s_phase x); try discriminate. inversion E; subst s' o'. split; [exact V1|]. split; [exact V2|]. split; [apply US; exact Hx | apply NC].
  - destruct (nth_error (l_sess s) j) as [x|] eqn:X; [|discriminate]. assert (Hx := V3 x (nth_error_In _ _ X)). destruct (s_phase x); try discriminate.
    destruct rt; inversion E; subst s' o'; (split; [exact V1|]); (split; [exact V2|]); (split; [apply US; exact Hx | first [exact NE | apply NC]]).
  - destruct (nth_error (l_sess s) j) as [x|] eqn:X; [|discriminate]. assert (Hx := V3 x (nth_error_In _ _ X)). destruct (s_phase x); try discriminate.
    destruct ok; [rewrite resp_encode_ok in E|]; inversion E; subst s' o'; (split; [exact V1|]); (split; [exact V2|]); (split; [apply US; exact Hx|]); [|apply NC].
    apply NO. intros ? ? ? [Z|[]]; discriminate.
Qed.
Print Assumptions C92_handler.

(** ** Example: two connections; the second is accepted before stop() and served after it *)
Definition ex_junk : nat -> byte := fun _ => x55.
Definition ex_req (t : byte) : req_msg entry_val := mkReq 3 t 1 2 0 0 0 [].
Definition ex_resp : resp_msg := mkResp 3 x02 2 1 1 true.
Definition ex_moves : list move :=
  [MListen 7; MLoop 0; MLoop 0; MConnect 0; MLoop 0; MLoop 0; MLoop 0; MArrive 0 (req_bytes (ex_req x01) ++ firstn 20 (req_bytes (ex_req x12))); MRead 0;
   MConnect 0; MStop; MLoop 0; MReturn 0 (RAnswer ex_resp); MWritten 0 true].
Example C92_example : exists s o, run ex_junk ex_moves (new_listener 7) = Some (s, o) /\
  length (l_sess s) = 2%nat /\ map s_phase (l_sess s) = [Reading; Reading] /\ length (handed 0 o) = 1%nat /\ written 0 o = resp_bytes ex_resp /\
  Forall sendable [ex_req x01; ex_req x12] /\ arrived 0 ex_moves ++ skipn 20 (req_bytes (ex_req x12)) = concat (map req_bytes [ex_req x01; ex_req x12]) /\
  (forall k, step ex_junk (MConnect k) s = None) /\
  exists x, nth_error (l_sess s) 1 = Some x /\ s_phase x = Reading /\ idle (s_hdr x) /\ s_in x = [].
Proof.
  destruct (run ex_junk ex_moves (new_listener 7)) as [[s o]|] eqn:E; [|vm_compute in E; discriminate].
  exists s, o. split; [reflexivity|]. assert (E2 := E). vm_compute in E2. inversion E2; subst s o. do 4 (split; [vm_compute; reflexivity|]).
  split. { assert (Z : forall t, sendable (ex_req t)).
    { intros t. unfold sendable, req_ok, is_int32, is_ulong, two64, ex_req. cbn. repeat split; try lia; try constructor. }
    repeat constructor; apply Z. }
  split; [vm_compute; reflexivity|]. split; [intros k; eapply C92_accepts_none_after_stop; [exact E|]; cbn; tauto|].
  eexists. split; [vm_compute; reflexivity|]. split; [reflexivity|]. split; [|reflexivity]. split; [|vm_compute; reflexivity].
  apply (r_alloc ex_junk). vm_compute. reflexivity.
Qed.
