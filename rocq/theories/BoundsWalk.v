(** * BoundsWalk: no handler makes a number larger than the bounds allow *)

From Verif Require Import Base Buffer BufferSpec BufferProofs BufferTop Codec CodecSpec CodecProofs Msg FsLogStore FsLogSpec Raft NodeSpec Alog Cluster Bounds.
From Coq Require Import Permutation.
Local Open Scope N_scope.

Local Lemma le_mod8 : forall n, le 8 n = le 8 (n mod (256 ^ N.of_nat 8)).
Proof. intros n. rewrite <- of_le_le. rewrite <- (le_of_le (le 8 n)) at 1. rewrite le_length. reflexivity. Qed.
Local Lemma ulong_mod : forall n, is_ulong (n mod (256 ^ N.of_nat 8)).
Proof. intros n. unfold is_ulong, two64. apply N.mod_lt. discriminate. Qed.
Local Lemma buffer_of_ok : forall bs, lenN bs < two31 -> buffer_of bs = Ok (bk [] bs).
Proof. intros bs H. unfold buffer_of. destruct (stream_in_fresh junk0 bs H) as (src & -> & E). cbn [res_bind]. rewrite E. reflexivity. Qed.
Local Lemma Forall_part : forall A (P : A -> Prop) k l, Forall P l -> Forall P (firstn k l) /\ Forall P (skipn k l).
Proof. intros A P k l H. rewrite <- (firstn_skipn k l) in H. apply Forall_app in H. exact H. Qed.
Local Lemma insert_perm : forall x l, Permutation (insert_desc x l) (x :: l).
Proof. intros x. induction l as [|y l IH]; cbn [insert_desc]; [reflexivity|]. destruct (y <=? x); [reflexivity|]. rewrite IH. apply perm_swap. Qed.
Local Lemma sort_perm : forall l, Permutation (sort_desc l) l.
Proof. induction l as [|x l IH]; [reflexivity|]. cbn [sort_desc fold_right]. rewrite insert_perm. apply perm_skip, IH. Qed.

(** the first two numbers of a snapshot, whatever follows *)
Lemma parse_sync_head : forall s o d x v, parse_sync (sync_bytes s o d x) = Ok v ->
  sn_last_log_idx (sv_snp v) <= sn_last_log_idx s /\ sn_last_log_term (sv_snp v) <= sn_last_log_term s.
Proof.
  intros s o d x v E. unfold parse_sync, parse in E.
  destruct (N.lt_ge_cases (lenN (sync_bytes s o d x)) two31) as [L|L].
  - rewrite buffer_of_ok in E by exact L. cbn [res_bind] in E.
    unfold sync_bytes, snp_bytes in E, L. rewrite (le_mod8 (sn_last_log_idx s)), (le_mod8 (sn_last_log_term s)) in E, L.
    rewrite <- !app_assoc in E, L.
    unfold sync_deserialize, snp_deserialize, bbind in E.
    rewrite get_ulong_bk in E; [|exact L | apply ulong_mod].
    rewrite get_ulong_bk in E; [|exact L | apply ulong_mod].
    pose proof (N.mod_le (sn_last_log_idx s) (256 ^ N.of_nat 8) ltac:(discriminate)) as M1.
    pose proof (N.mod_le (sn_last_log_term s) (256 ^ N.of_nat 8) ltac:(discriminate)) as M2.
    revert E M1 M2. generalize (sn_last_log_idx s mod 256 ^ N.of_nat 8), (sn_last_log_term s mod 256 ^ N.of_nat 8). intros a b E M1 M2.
    unfold bret in E.
    repeat (match type of E with context [match ?t with _ => _ end] => lazymatch t with context [match _ with _ => _ end] => fail | _ => destruct t end end; cbn [fst res_bind] in E; try discriminate);
    destruct (stream_out _); cbn [res_bind] in E; try discriminate; inversion E; subst v; cbn [sv_snp sy_snapshot sn_last_log_idx sn_last_log_term]; split; assumption.
  - unfold buffer_of, alloc in E. change 2147483648 with two31 in E. replace (two31 <=? lenN (sync_bytes s o d x)) with true in E by lia. discriminate.
Qed.

Lemma sort_desc_le : forall X k l, Forall (fun x => x <= X) l -> nth k (sort_desc l) 0 <= X.
Proof.
  intros X k l H. destruct (Nat.lt_ge_cases k (length (sort_desc l))) as [L|L].
  - rewrite Forall_forall in H. apply H. eapply Permutation_in; [apply sort_perm | apply nth_In, L].
  - rewrite nth_overflow by exact L. lia.
Qed.

Section Walk.
  (** the bounds at the end of the event *)
  Variables T X : N.
  (** the server *)
  Variable me : Z.

  Definition snp_in (s : snapshot) : Prop := sn_last_log_term s <= T /\ sn_last_log_idx s <= X.
  Definition osnp_in (o : option snapshot) : Prop := forall s, o = Some s -> snp_in s.
  Definition peer_in (p : peer) : Prop := peer_within X p /\ osnp_in (option_map fst (p_sync p)).

  Record small (U L : N) (n : node) : Prop := mkS {
    s_disk : disk_within T X (n_disk n);
    s_term : n_term n <= U;
    s_next : a_next (dk_log (n_disk n)) <= L + 1;
    s_quick : n_quick n <= X;
    s_smc : n_smc n <= X;
    s_peers : Forall peer_in (n_peers n);
    s_join : forall p, n_join n = Some p -> peer_in p;
    s_snp : osnp_in (n_snp n);
    s_steps : U <= T /\ L <= X;
    s_me : n_id n = me }.

  (** requests and actions *)
  Definition snp_req_in (q : req) : Prop :=
    rq_type q = install_snapshot_request -> forall e v, In e (rq_entries q) -> parse_sync (ev_data e) = Ok v -> snp_in (sv_snp v).
  Definition plain_type (t : byte) : Prop :=
    t = append_entries_request \/ t = vote_request \/ t = prevote_request \/ t = install_snapshot_request.
  Definition req_in (q : req) : Prop := plain_type (rq_type q) /\ req_within T X q /\ snp_req_in q.
  Definition act_in (a : act) : Prop :=
    match a with
    | ASend _ ext q => req_in q /\ (ext = true -> rq_type q = prevote_request) /\ rq_src q = me
    | ACreateSnapshot s => snp_in s
    | ARetryLater _ _ => False
    | _ => True
    end.

  Definition tri {A} (U L : N) (P : node -> Prop) (m : M A) (Q : A -> node -> Prop) : Prop :=
    forall n, P n -> forall r n' l, m n = (r, n', l) ->
      n_disk n' = fold_left disk_apply l (n_disk n) /\
      (forall p s, l = p ++ s -> disk_within T X (fold_left disk_apply p (n_disk n))) /\
      Forall act_in l /\ small U L n' /\ (forall a, r = ROk a -> Q a n').
  (** from at most [U], [L] to at most [U'], [L'] *)
  Definition go {A} (U L U' L' : N) (m : M A) (V : A -> Prop) : Prop :=
    tri U' L' (small U L) m (fun a n => small U' L' n /\ V a).
  Definition yes {A} (_ : A) : Prop := True.

  (** ** Rules *)
  Lemma small_up : forall U L U' L' n, small U L n -> U <= U' -> L <= L' -> U' <= T -> L' <= X -> small U' L' n.
  Proof. intros U L U' L' n [] H1 H2 H3 H4. split; try assumption; try lia. Qed.

  Lemma tri_weak : forall A U L U' L' (P P' : node -> Prop) (m : M A) (Q Q' : A -> node -> Prop),
    tri U L P m Q -> (forall n, P' n -> P n) -> U <= U' -> L <= L' -> U' <= T -> L' <= X ->
    (forall a n, small U L n -> Q a n -> Q' a n) -> tri U' L' P' m Q'.
  Proof.
    intros A U L U' L' P P' m Q Q' H HP HU HL HT HX HQ n Hn r n' l E. destruct (H n (HP n Hn) r n' l E) as (A1 & A2 & A3 & A4 & A5).
    split; [exact A1|]. split; [exact A2|]. split; [exact A3|]. split; [eapply small_up; eassumption|].
    intros a Ha. apply HQ; [exact A4 | apply A5, Ha].
  Qed.

  Lemma tri_pure : forall A U L (P : node -> Prop) (m : M A) (Q : A -> node -> Prop),
    (forall n, P n -> small U L n) ->
    (forall n, P n -> forall r n' l, m n = (r, n', l) -> l = [] /\ n_disk n' = n_disk n /\ small U L n' /\ (forall a, r = ROk a -> Q a n')) ->
    tri U L P m Q.
  Proof.
    intros A U L P m Q HP H n Hn r n' l E. destruct (H n Hn r n' l E) as (-> & D & S & HQ).
    split; [exact D|]. split; [|split; [constructor | split; [exact S | exact HQ]]].
    intros p s Es. symmetry in Es. apply app_eq_nil in Es. destruct Es as [-> ->]. cbn [fold_left]. apply (HP n Hn).
  Qed.

  Lemma tri_bind : forall A B U L (P : node -> Prop) (m : M A) (f : A -> M B) (Q : A -> node -> Prop) (R : B -> node -> Prop),
    tri U L P m Q -> (forall a, tri U L (Q a) (f a) R) -> tri U L P (bind m f) R.
  Proof.
    intros A B U L P m f Q R Hm Hf n Hn r n' l E. unfold bind in E.
    destruct (m n) as [[r1 n1] l1] eqn:E1. destruct (Hm n Hn r1 n1 l1 E1) as (A1 & A2 & A3 & A4 & A5).
    destruct r1 as [a|e|u|].
    - destruct (f a n1) as [[r2 n2] l2] eqn:E2. inversion E; subst r n' l; clear E.
      destruct (Hf a n1 (A5 a eq_refl) r2 n2 l2 E2) as (B1 & B2 & B3 & B4 & B5).
      split; [rewrite fold_left_app, <- A1; exact B1|].
      split.
      { intros p s Es. apply app_eq_app in Es. destruct Es as (z & [[Hl1 Hs]|[Hp Hl2]]).
        - exact (A2 p z Hl1).
        - subst p. rewrite fold_left_app, <- A1. apply (B2 z s Hl2). }
      split; [apply Forall_app; split; assumption|]. split; [exact B4 | exact B5].
    - inversion E; subst. split; [exact A1|]. split; [exact A2|]. split; [exact A3|]. split; [exact A4 | discriminate].
    - inversion E; subst. split; [exact A1|]. split; [exact A2|]. split; [exact A3|]. split; [exact A4 | discriminate].
    - inversion E; subst. split; [exact A1|]. split; [exact A2|]. split; [exact A3|]. split; [exact A4 | discriminate].
  Qed.

  Lemma tri_get : forall A B U L (P : node -> Prop) (g : node -> A) (f : A -> M B) (Q : B -> node -> Prop),
    (forall n0, P n0 -> tri U L (fun n => n = n0) (f (g n0)) Q) -> tri U L P (bind (get g) f) Q.
  Proof.
    intros A B U L P g f Q H n Hn r n' l E. unfold bind, get in E. destruct (f (g n) n) as [[r2 n2] l2] eqn:E2.
    inversion E; subst r n' l. exact (H n Hn n eq_refl r2 n2 l2 E2).
  Qed.

  Section Go.
    Variables U L U' L' : N.
    Lemma go_bind : forall A B U1 L1 (m : M A) (f : A -> M B) (V : A -> Prop) (W : B -> Prop),
      go U L U1 L1 m V -> (forall a, V a -> go U1 L1 U' L' (f a) W) -> U1 <= U' -> L1 <= L' -> U' <= T -> L' <= X -> go U L U' L' (bind m f) W.
    Proof.
      intros A B U1 L1 m f V W Hm Hf H1 H2 H3 H4. unfold go. eapply tri_bind with (Q := fun a n => small U1 L1 n /\ V a).
      - eapply tri_weak; [exact Hm | auto | assumption | assumption | assumption | assumption | auto].
      - intros a n [Hn Ha]. exact (Hf a Ha n Hn).
    Qed.
    Lemma go_get : forall A B (g : node -> A) (f : A -> M B) (W : B -> Prop),
      (forall n0, small U L n0 -> go U L U' L' (f (g n0)) W) -> go U L U' L' (bind (get g) f) W.
    Proof. intros A B g f W H. apply tri_get. intros n0 H0 n ->. apply (H n0 H0 n0 H0). Qed.
    Lemma go_up : forall A U1 L1 (m : M A) (V W : A -> Prop), go U L U1 L1 m V -> U1 <= U' -> L1 <= L' -> U' <= T -> L' <= X -> (forall a, V a -> W a) -> go U L U' L' m W.
    Proof.
      intros A U1 L1 m V W H H1 H2 H3 H4 HV. unfold go. eapply tri_weak; [exact H | auto | assumption | assumption | assumption | assumption|].
      intros a n _ [Hs Hv]. split; [eapply small_up; eassumption | auto].
    Qed.
  End Go.
  Section Keep.
    Variables U L : N.
    Lemma go_ret : forall A (a : A) (V : A -> Prop), V a -> go U L U L (ret a) V.
    Proof. intros A a V H. apply tri_pure; [auto|]. intros n Hn r n' l E. inversion E; subst. split; [reflexivity|]. split; [reflexivity|]. split; [exact Hn|]. intros b Hb. inversion Hb; subst. auto. Qed.
    Lemma go_getv : forall A (g : node -> A) (V : A -> Prop), (forall n, small U L n -> V (g n)) -> go U L U L (get g) V.
    Proof. intros A g V H. apply tri_pure; [auto|]. intros n Hn r n' l E. inversion E; subst. split; [reflexivity|]. split; [reflexivity|]. split; [exact Hn|]. intros b Hb. inversion Hb; subst. auto. Qed.
    Lemma go_throw : forall A e (V : A -> Prop), go U L U L (throw e) V.
    Proof. intros A e V. apply tri_pure; [auto|]. intros n Hn r n' l E. inversion E; subst. split; [reflexivity|]. split; [reflexivity|]. split; [exact Hn|]. discriminate. Qed.
    Lemma go_ub : forall A e (V : A -> Prop), go U L U L (ub e) V.
    Proof. intros A e V. apply tri_pure; [auto|]. intros n Hn r n' l E. inversion E; subst. split; [reflexivity|]. split; [reflexivity|]. split; [exact Hn|]. discriminate. Qed.
    Lemma go_lift : forall A (x : res A) (V : A -> Prop), (forall a, x = Ok a -> V a) -> go U L U L (lift x) V.
    Proof.
      intros A x V H. apply tri_pure; [auto|]. intros n Hn r n' l E. inversion E; subst. split; [reflexivity|]. split; [reflexivity|]. split; [exact Hn|].
      intros a Ha. destruct x; inversion Ha; subst. auto.
    Qed.
    Lemma go_modify : forall f, (forall n, n_disk (f n) = n_disk n) -> (forall n, small U L n -> small U L (f n)) -> go U L U L (modify f) yes.
    Proof. intros f H0 H. apply tri_pure; [auto|]. intros n Hn r n' l E. inversion E; subst. split; [reflexivity|]. split; [apply H0|]. split; [apply H, Hn|]. intros [] _. split; [apply H, Hn | exact I]. Qed.
    Lemma go_emit : forall L1 a, act_in a -> (forall n, small U L n -> small U L1 (set_disk (disk_apply (n_disk n) a) n)) -> go U L U L1 (emit a) yes.
    Proof.
      intros L1 a HA H n Hn r n' l E. inversion E; subst r n' l. specialize (H n Hn).
      split; [reflexivity|]. split.
      { intros p s Es. destruct p as [|b p]; [apply Hn|]. inversion Es. assert (p = [] /\ s = []) as [-> ->] by (apply app_eq_nil; congruence). subst. apply H. }
      split; [constructor; [exact HA | constructor]|]. split; [exact H|]. intros [] _. split; [exact H | exact I].
    Qed.
    Lemma go_exit : forall A c (V : A -> Prop), go U L U L (system_exit c) V.
    Proof.
      intros A c V n Hn r n' l E. inversion E; subst r n' l. split; [reflexivity|]. split.
      { intros p s Es. destruct p as [|b p]; [apply Hn|]. inversion Es. assert (p = [] /\ s = []) as [-> ->] by (apply app_eq_nil; congruence). apply Hn. }
      split; [constructor; [exact I | constructor]|]. split; [exact Hn | discriminate].
    Qed.
    Lemma go_when : forall b m, go U L U L m yes -> go U L U L (when b m) yes.
    Proof. intros [] m H; [exact H | apply go_ret; exact I]. Qed.
    Lemma go_each : forall A (l : list A) f, (forall x, In x l -> go U L U L (f x) yes) -> U <= T -> L <= X -> go U L U L (for_each l f) yes.
    Proof.
      intros A l f H HU HL. induction l as [|x l IH]; [apply go_ret; exact I|]. cbn [for_each]. eapply go_bind; [apply H; left; reflexivity | | lia | lia | lia | lia].
      intros _ _. apply IH. intros y Hy. apply H. right. exact Hy.
    Qed.
    Lemma go_catch : forall A (m h : M A) V, go U L U L m V -> go U L U L h V -> go U L U L (catch m h) V.
    Proof.
      intros A m h V Hm Hh n Hn r n' l E. unfold catch in E. destruct (m n) as [[r1 n1] l1] eqn:E1.
      destruct (Hm n Hn r1 n1 l1 E1) as (A1 & A2 & A3 & A4 & A5). destruct r1 as [a|e|u|].
      - inversion E; subst. split; [exact A1|]. split; [exact A2|]. split; [exact A3|]. split; [exact A4 | exact A5].
      - destruct (h n1) as [[r2 n2] l2] eqn:E2. inversion E; subst r n' l; clear E.
        destruct (Hh n1 A4 r2 n2 l2 E2) as (B1 & B2 & B3 & B4 & B5).
        split; [rewrite fold_left_app, <- A1; exact B1|].
        split.
        { intros p s Es. apply app_eq_app in Es. destruct Es as (z & [[Hl1 Hs]|[Hp Hl2]]).
          - exact (A2 p z Hl1).
          - subst p. rewrite fold_left_app, <- A1. apply (B2 z s Hl2). }
        split; [apply Forall_app; split; assumption|]. split; [exact B4 | exact B5].
      - inversion E; subst. split; [exact A1|]. split; [exact A2|]. split; [exact A3|]. split; [exact A4 | discriminate].
      - inversion E; subst. split; [exact A1|]. split; [exact A2|]. split; [exact A3|]. split; [exact A4 | discriminate].
    Qed.
  End Keep.

  (** ** Changes that make nothing larger *)
  Lemma small_peers : forall U L n ps, small U L n -> Forall peer_in ps -> small U L (set_peers ps n).
  Proof. intros U L n ps [] H. split; assumption. Qed.
  Lemma small_upd : forall U L r f n, (forall p, peer_in p -> peer_in (f p)) -> small U L n -> small U L (upd_peer r f n).
  Proof.
    intros U L [id|] f n H S.
    - apply small_peers; [exact S|]. destruct S as [_ _ _ _ _ S _ _ _ _]. unfold upd_peers. apply Forall_forall. intros p Hp. apply in_map_iff in Hp.
      destruct Hp as (p0 & E & Hin). rewrite Forall_forall in S. specialize (S p0 Hin). destruct (p_id p0 =? id)%Z; subst p; auto.
    - destruct S. split; try assumption. cbn [upd_peer set_join n_join]. intros p Hp. destruct (n_join n) as [j|]; cbn in Hp; inversion Hp; subst. auto.
  Qed.
  Lemma upd_disk : forall r f n, n_disk (upd_peer r f n) = n_disk n.
  Proof. intros [id|] f n; reflexivity. Qed.
  Lemma peer_same : forall p p', p_next p' = p_next p -> p_match p' = p_match p -> p_sync p' = p_sync p -> peer_in p -> peer_in p'.
  Proof. intros p p' H1 H2 H3 [[A B] C]. unfold peer_in, peer_within. rewrite H1, H2, H3. auto. Qed.
  Lemma small_get : forall U L r n p, small U L n -> get_peer r n = Some p -> peer_in p.
  Proof.
    intros U L [id|] n p [] H; cbn [get_peer] in H; [|auto]. unfold find_peer in H. apply find_some in H. rewrite Forall_forall in s_peers0. apply s_peers0, H.
  Qed.
  Lemma entry_in : forall U L n i e, small U L n -> a_get (dk_log (n_disk n)) i = Some e -> ev_term e <= T.
  Proof.
    intros U L n i e [[_ D _ _ _] _ _ _ _ _ _ _ _ _] H. unfold a_get in H. destruct (i <? al_start (dk_log (n_disk n))); [discriminate|].
    apply nth_error_In in H. rewrite Forall_forall in D. exact (D e H).
  Qed.
  Lemma range_in : forall U L n a b, small U L n -> Forall (entry_within T) (a_range (dk_log (n_disk n)) a b).
  Proof. intros U L n a b [[_ D _ _ _] _ _ _ _ _ _ _ _ _]. unfold a_range. apply Forall_part, Forall_part, D. Qed.
  Lemma range_short : forall l a b, lenN (a_range l a b) <= b - a.
  Proof. intros l a b. unfold a_range, lenN. rewrite firstn_length. lia. Qed.
  Lemma disk_same : forall d d', dk_state d' = dk_state d -> dk_log d' = dk_log d -> dk_commit d' = dk_commit d -> dk_snp d' = dk_snp d -> disk_within T X d -> disk_within T X d'.
  Proof. intros d d' H1 H2 H3 H4 []. split; unfold saved in *; rewrite ?H1, ?H2, ?H3, ?H4; assumption. Qed.
  Lemma log_at : forall d k es, disk_within T X d -> k <= X + 1 -> al_start (dk_log d) <= k <= a_next (dk_log d) -> Forall (entry_within T) es -> k + lenN es <= X + 1 ->
    forall d', dk_state d' = dk_state d -> dk_log d' = a_replace (dk_log d) k es -> dk_commit d' = dk_commit d -> dk_snp d' = dk_snp d -> disk_within T X d'.
  Proof.
    intros d k es [D1 D2 D3 D4 D5] Hk Hb He Hl d' H1 H2 H3 H4. split; unfold saved in *; rewrite ?H1, ?H2, ?H3, ?H4; try assumption.
    - cbn [a_replace al_ents]. apply Forall_app. split; [apply Forall_part, D2 | exact He].
    - rewrite a_next_replace by exact Hb. cbn [a_replace al_start]. split; [apply D3 | exact Hl].
  Qed.

  Lemma small_map : forall U L f n, (forall p, peer_in p -> peer_in (f p)) -> small U L n -> small U L (set_peers (map f (n_peers n)) n).
  Proof.
    intros U L f n H S. apply small_peers; [exact S|]. destruct S as [_ _ _ _ _ S _ _ _ _]. apply Forall_forall. intros p Hp. apply in_map_iff in Hp.
    destruct Hp as (p0 & <- & Hin). rewrite Forall_forall in S. apply H, S, Hin.
  Qed.
  Lemma small_rm : forall U L id n, small U L n -> small U L (set_peers (rm_peer id (n_peers n)) n).
  Proof.
    intros U L id n S. apply small_peers; [exact S|]. destruct S as [_ _ _ _ _ S _ _ _ _]. apply Forall_forall. intros p Hp. apply filter_In in Hp.
    rewrite Forall_forall in S. apply S, Hp.
  Qed.
  Lemma small_insert : forall U L x p n, peer_in p -> small U L n -> small U L (match find_peer x (n_peers n) with None => set_peers (n_peers n ++ [p]) n | Some _ => n end).
  Proof.
    intros U L x p n H S. destruct (find_peer x (n_peers n)); [exact S|]. apply small_peers; [exact S|]. destruct S as [_ _ _ _ _ S _ _ _ _].
    apply Forall_app. split; [exact S | constructor; [exact H | constructor]].
  Qed.
  Lemma insert_disk : forall x p n, n_disk (match find_peer x (n_peers n) with None => set_peers (n_peers n ++ [p]) n | Some _ => n end) = n_disk n.
  Proof. intros x p n. destruct (find_peer x (n_peers n)); reflexivity. Qed.
  Lemma small_log : forall U L n, small U L n -> 1 <= a_next (dk_log (n_disk n)) /\ a_next (dk_log (n_disk n)) <= L + 1 /\ L <= X /\ U <= T /\ n_term n <= U /\ n_quick n <= X /\ n_smc n <= X /\ 1 <= al_start (dk_log (n_disk n)) /\ n_id n = me.
  Proof. intros U L n []. destruct s_disk0 as [_ _ [A B] _ _]. unfold a_next in *. repeat split; lia. Qed.
  Ltac facts := repeat match goal with H : small _ _ ?n |- _ => lazymatch goal with F : 1 <= a_next (dk_log (n_disk n)) /\ _ |- _ => fail | _ => pose proof (small_log _ _ _ H) end end; unfold n_log in *.
  Ltac flia := solve [facts; lia].

  Ltac sm := let n := fresh "n" in let H := fresh "H" in intros n H; destruct H; constructor; cbn; try assumption; try discriminate; try flia; auto; try match goal with K : disk_within _ _ ?d |- disk_within _ _ _ => apply (disk_same d); [reflexivity | reflexivity | reflexivity | reflexivity | exact K] end.
  Ltac speer := let p := fresh "p" in let K := fresh "K" in intros p K; first [exact K | eapply peer_same; [reflexivity | reflexivity | reflexivity | exact K]].
  Ltac mods :=
    apply go_modify;
      [intros ?; first [reflexivity | apply upd_disk | apply insert_disk]
      | first [ solve [sm] | intros ?n ?Hn; first [apply small_upd; [first [solve [speer] | idtac] | assumption] | apply small_map; [solve [speer] | assumption] | apply small_rm; assumption | apply small_insert; [|assumption]] ]].
  Ltac emits := match goal with |- go ?U ?L _ _ _ _ => apply (go_emit U L L) end; [first [exact I | idtac] | first [solve [sm] | idtac]].
  Ltac calls := fail.
  Ltac leaf :=
    lazymatch goal with
    | |- go _ _ _ _ (ret _) ?V => first [is_evar V; apply (go_ret _ _ _ _ yes); exact I | apply go_ret; try exact I; auto]
    | |- go _ _ _ _ (get _) _ => apply go_getv; intros ?n ?Hn; try exact I; auto
    | |- go _ _ _ _ (throw _) _ => apply go_throw
    | |- go _ _ _ _ (ub _) _ => apply go_ub
    | |- go _ _ _ _ (system_exit _) _ => apply go_exit
    | |- go _ _ _ _ (modify _) _ => mods
    | |- go _ _ _ _ (emit _) _ => emits
    | |- _ => calls
    end.
  Ltac stay := match goal with |- go ?U ?L ?U' ?L' _ _ => is_evar U'; unify U' U; unify L' L end.
  Ltac st :=
    unfold next_slot_, start_index_, last_entry_, peer_ids, n_log;
    lazymatch goal with
    | |- go _ _ _ _ (bind (get _) _) _ => apply go_get; let n := fresh "n" in let H := fresh "Hn" in intros n H; cbv beta
    | |- go _ _ _ _ (bind (match ?x with _ => _ end) _) _ => destruct x eqn:?
    | |- go _ _ _ _ (bind _ _) _ => eapply go_bind; [first [solve [stay; repeat st] | solve [repeat st]] | let a := fresh "a" in let H := fresh "Ha" in intros a H; cbv beta in H | flia | flia | flia | flia]
    | |- go _ _ _ _ (when ?b _) _ => apply go_when
    | |- go _ _ _ _ (for_each _ _) _ => apply go_each; [intros ?x _ | flia | flia]
    | |- go _ _ _ _ (catch _ _) _ => apply go_catch
    | |- go _ _ _ _ (match ?x with _ => _ end) _ => destruct x eqn:?
    | |- _ => leaf
    end.
  Notation keep m := (forall U L, U <= T -> L <= X -> go U L U L m yes).

  Lemma g_restart : keep restart_election_timer.
  Proof. intros U L HU HL. unfold restart_election_timer. repeat st. Qed.
  Lemma g_stop : keep stop_election_timer.
  Proof. intros U L HU HL. unfold stop_election_timer. repeat st. Qed.
  Lemma g_save : keep save_state.
  Proof.
    intros U L HU HL. unfold save_state. st. st. apply go_emit; [exact I|]. intros n1 [D]. destruct Hn. split; try assumption. destruct D. split; try assumption. cbn. lia.
  Qed.
  Ltac calls ::= first [apply g_restart; flia | apply g_stop; flia | apply g_save; flia].
  Lemma g_follower : keep become_follower.
  Proof. intros U L HU HL. unfold become_follower. repeat st. Qed.
  Ltac calls ::= first [apply g_restart; flia | apply g_stop; flia | apply g_save; flia | apply g_follower; flia].
  Lemma g_update : forall U L t, U <= T -> L <= X -> t <= U -> go U L U L (update_term t) yes.
  Proof. intros U L t HU HL Ht. unfold update_term. repeat st. Qed.
  Lemma g_term : forall U L i, U <= T -> L <= X -> go U L U L (term_for_log i) (fun t => t <= T).
  Proof.
    intros U L i HU HL. unfold term_for_log, log_term_at. st; [apply go_ret; lia|]. st. st.
    - st. st; [apply go_throw|]. st; [|apply go_throw]. apply go_ret. eapply entry_in; eassumption.
    - st. st; [|apply go_exit]. st; [|apply go_exit]. apply go_ret. destruct Hn0 as [[_ _ _ _ D]]. destruct (D _ Heqo). assumption.
  Qed.
  Lemma g_peer : forall U L r, U <= T -> L <= X -> go U L U L (the_peer r) peer_in.
  Proof. intros U L r HU HL. unfold the_peer. st. st; [|apply go_ub]. apply go_ret. eapply small_get; eassumption. Qed.
  Lemma g_send : forall U L r ext q, U <= T -> L <= X -> req_in q -> (ext = true -> rq_type q = prevote_request) -> rq_src q = me -> go U L U L (send_req r ext q) yes.
  Proof. intros U L r ext q HU HL Hq He Hm. unfold send_req. eapply go_bind; [apply g_peer; lia | | lia | lia | lia | lia]. intros p Hp. apply go_emit; [split; [|split]; assumption|]. sm. Qed.
  Lemma g_hb : forall U L i, U <= T -> L <= X -> go U L U L (enable_hb_for_peer i) yes.
  Proof. intros U L i HU HL. unfold enable_hb_for_peer. repeat st. Qed.
  Ltac calls ::= first [apply g_restart; flia | apply g_stop; flia | apply g_save; flia | apply g_follower; flia | apply g_update; flia | apply g_term; flia | apply g_peer; flia | apply g_hb; flia].

  Lemma g_snpreq : forall U L r a b c, U <= T -> L <= X -> b <= U -> c <= X -> go U L U L (create_sync_snapshot_req r a b c) (fun q => req_in q /\ rq_type q <> prevote_request /\ rq_src q = me).
  Proof.
    intros U L r a b c HU HL Hb Hc. unfold create_sync_snapshot_req. st. st.
    match goal with |- go _ _ _ _ (bind (if ?f then _ else _) _) _ => set (fr := f) end.
    eapply go_bind with (U1 := U) (L1 := L) (V := fun x => snp_in (fst x)); [ | | flia | flia | flia | flia].
    - assert (S : osnp_in (n_snp n)) by (destruct Hn; assumption). destruct fr.
      + st; [|apply go_ub]. st; [apply go_exit|]. st; [apply go_exit|].
        eapply go_bind with (U1 := U) (L1 := L) (V := yes); [ | intros ? _; apply go_ret; cbn; apply S; reflexivity | lia | lia | lia | lia].
        st. intros p0 [[P1 P2] P3]. split; [split; assumption|]. intros s0 E. inversion E; subst. apply S. reflexivity.
      + st; [|apply go_ub]. apply go_ret. apply Ha. rewrite Heqo. reflexivity.
    - intros [s off] Hs. cbn [fst] in Hs. st; [apply go_throw|]. st; [apply go_exit|]. apply go_ret.
      split; [|split; [discriminate | cbn; flia]]. split; [right; right; right; reflexivity|]. destruct Hs as [S1 S2]. split.
      + split; cbn [rq_term rq_last_term rq_entries rq_last_idx rq_commit rq_type]; try lia; try assumption.
        * constructor; [unfold entry_within; cbn [ev_term]; lia | constructor].
        * intros K. contradiction K. reflexivity.
      + intros _ e v [<-|[]] E. cbn [ev_data] in E. apply parse_sync_head in E. split; lia.
  Qed.

  Lemma g_aereq : forall U L r, U <= T -> L <= X -> go U L U L (create_append_entries_req r) (fun q => req_in q /\ rq_type q <> prevote_request /\ rq_src q = me).
  Proof.
    intros U L r HU HL. unfold create_append_entries_req. st. st.
    eapply go_bind with (U1 := U) (L1 := L) (V := yes); [ | | flia | flia | flia | flia].
    { apply go_when. st. intros p [[P1 P2] P3]. split; [split; cbn; [flia | exact P2] | exact P3]. }
    intros ? _. cbv zeta. unfold n_log. set (nx := a_next (dk_log (n_disk n))). set (la := (if p_next a =? 0 then nx else p_next a) - 1).
    st; [apply go_exit|]. st; [apply g_snpreq; flia|]. st.
    eapply go_bind with (U1 := U) (L1 := L) (V := fun es => Forall (entry_within T) es /\ la + lenN es <= L); [ | | flia | flia | flia | flia].
    - assert (la <= L) by (subst nx; flia). destruct (nx <=? la + 1) eqn:Q; [apply go_ret; split; [constructor | unfold lenN; cbn; lia]|].
      unfold log_entries_. apply go_get. intros n1 H1. st; [apply go_throw|]. apply go_ret. unfold n_log. split; [eapply range_in; eassumption|].
      pose proof (range_short (dk_log (n_disk n1)) (la + 1) (N.min nx (la + 1 + pm_max_append (n_prm n)))). subst nx. flia.
    - intros es [E1 E2]. apply go_ret. split; [|split; [discriminate | cbn; flia]]. split; [left; reflexivity|]. split; [|intros K; discriminate].
      split; cbn [rq_term rq_last_term rq_entries rq_last_idx rq_commit rq_type]; try assumption; try flia.
  Qed.
  Lemma g_rat : forall U L i, U <= T -> L <= X -> go U L U L (request_append_entries_to i) yes.
  Proof.
    intros U L i HU HL. unfold request_append_entries_to. st. st; [apply go_ret; exact I|]. st.
    eapply go_bind; [apply g_aereq; flia | | flia | flia | flia | flia]. intros q (Q1 & Q2 & Q3).
    eapply go_bind; [apply g_send; [flia | flia | exact Q1 | discriminate | exact Q3] | | flia | flia | flia | flia]. intros _ _. st.
  Qed.
  Ltac calls ::= first [apply g_restart; flia | apply g_stop; flia | apply g_save; flia | apply g_follower; flia | apply g_update; flia | apply g_term; flia | apply g_peer; flia | apply g_hb; flia | apply g_rat; flia].
  Lemma g_commit : forall U L i, U <= T -> L <= X -> i <= X -> go U L U L (commit i) yes.
  Proof. intros U L i HU HL Hi. unfold commit. repeat st. Qed.
  Lemma g_rae : keep request_append_entries.
  Proof. intros U L HU HL. unfold request_append_entries. st. st; [st; apply g_commit; flia|]. repeat st. Qed.

  Ltac calls ::= first [apply g_restart; flia | apply g_stop; flia | apply g_save; flia | apply g_follower; flia | apply g_update; flia | apply g_term; flia | apply g_peer; flia | apply g_hb; flia | apply g_rat; flia | apply g_commit; flia | apply g_rae; flia].

  (** ** What a leader adds to its log *)
  Lemma g_append : forall U L e, U <= T -> L + 1 <= X -> ev_term e <= T -> go U L U (L + 1) (log_append e) yes.
  Proof.
    intros U L e HU HL He. unfold log_append. st. eapply go_bind with (U1 := U) (L1 := L + 1) (V := yes); [ | intros ? _; apply go_ret; exact I | lia | lia | lia | lia].
    apply go_emit; [exact I|]. clear n Hn. intros n Hn. pose proof (small_log _ _ _ Hn) as F. destruct Hn. split; try assumption; try (cbn; lia).
    - eapply (log_at (n_disk n) (a_next (dk_log (n_disk n))) [e]); try reflexivity; try assumption; try lia.
      + unfold a_next in *. lia.
      + constructor; [exact He | constructor].
      + change (lenN [e]) with 1. lia.
    - change (dk_log (n_disk (set_disk (disk_apply (n_disk n) (AAppend e)) n))) with (a_replace (dk_log (n_disk n)) (a_next (dk_log (n_disk n))) [e]). rewrite a_next_append. lia.
  Qed.
  Lemma go_plus : forall A U L U' L' (m : M A) V, U <= U' -> L <= L' -> U' <= T -> L' <= X -> go U L U L m V -> go U L U' L' m V.
  Proof. intros A U L U' L' m V H1 H2 H3 H4 H. eapply go_up; [exact H | lia | lia | lia | lia | auto]. Qed.
  Lemma g_leader : forall U L, U <= T -> L + 1 <= X -> go U L U (L + 1) become_leader yes.
  Proof.
    intros U L HU HL. unfold become_leader.
    do 9 st. eapply go_bind with (U1 := U) (L1 := L) (V := yes); [ | | lia | lia | lia | lia].
    { st. eapply go_bind with (U1 := U) (L1 := L) (V := yes); [ | intros ? _; repeat st | lia | lia | lia | lia].
      st. intros p [[P1 P2] P3]. split; [split; [cbn; flia | exact P2]|]. intros s E. discriminate. }
    intros _ _. st. eapply go_bind with (U1 := U) (L1 := L + 1) (V := yes); [ | intros ? _; apply g_rae; lia | lia | lia | lia | lia].
    destruct (cc_log_idx (n_config n3) =? 0); cbn [when]; [|apply go_plus; [lia | lia | lia | lia | apply go_ret; exact I]].
    st. st. eapply go_bind; [apply g_append; cbn [conf_entry ev_term]; flia | | lia | lia | lia | lia]. intros ? _. repeat st.
  Qed.
  Ltac reqin := split; [unfold plain_type; cbn [rq_type]; auto | split; [split; cbn [rq_term rq_last_term rq_entries rq_last_idx rq_commit rq_type]; [flia | assumption | constructor | flia | intros _; change (lenN (@nil entry_val)) with 0; flia | flia] | intros K; discriminate]].
  Lemma g_vote : forall U L, U <= T -> L + 1 <= X -> go U L U (L + 1) request_vote yes.
  Proof.
    intros U L HU HL. unfold request_vote. do 6 st. destruct (majority _ _).
    - st. apply g_leader; lia.
    - st. eapply go_up with (U1 := U) (L1 := L) (V := yes); [ | lia | lia | lia | lia | auto]. apply go_each; [intros i _ | lia | lia]. st. st. apply g_send; [lia | lia | reqin | discriminate | cbn; flia].
  Qed.
  Lemma g_candidate : forall U L, U + 1 <= T -> L + 1 <= X -> go U L (U + 1) (L + 1) become_candidate yes.
  Proof.
    intros U L HU HL. unfold become_candidate. st.
    eapply go_bind with (U1 := U + 1) (L1 := L) (V := yes); [ | intros ? _ | lia | lia | lia | lia].
    { apply tri_pure; [intros n Hn; eapply small_up; [exact Hn | lia..]|]. intros n Hn r n' l E. inversion E; subst. destruct Hn.
      split; [reflexivity|]. split; [reflexivity|]. assert (S : small (U + 1) L (set_term (n_term n + 1) n)) by (split; cbn; try assumption; lia).
      split; [exact S|]. intros [] _. split; [exact S | exact I]. }
    do 6 st. eapply go_bind; [apply g_vote; lia | intros ? _ | lia | lia | lia | lia]. repeat st.
  Qed.
  Lemma g_prevote : forall U L, U + 1 <= T -> L + 1 <= X -> go U L (U + 1) (L + 1) request_prevote yes.
  Proof.
    intros U L HU HL. unfold request_prevote. st. destruct (map p_id (n_peers n)) as [|i0 is].
    - apply g_candidate; lia.
    - st. st. destruct (match n_prevote n0 with Some x => x | None => (0%Z, []) end) as [acc voted].
      eapply go_up with (U1 := U) (L1 := L) (V := yes); [ | lia | lia | lia | lia | auto]. st. apply go_each; [intros i _ | lia | lia]. st. st. st. apply g_send; [lia | lia | reqin | reflexivity | cbn; flia].
  Qed.
  Lemma g_election : forall U L, U + 1 <= T -> L + 1 <= X -> go U L (U + 1) (L + 1) handle_election_timeout yes.
  Proof.
    intros U L HU HL. unfold handle_election_timeout. st. st. destruct (0 <? n_steps n)%Z.
    { apply go_plus; [lia | lia | lia | lia|]. repeat st. }
    destruct (n_catching n); [apply go_plus; [lia | lia | lia | lia|]; repeat st|].
    destruct (n_role n).
    - destruct (pm_prevote (n_prm n)); [|apply g_candidate; lia]. destruct (n_prevote n) as [[acc [|v vs]]|]; [apply g_prevote; lia | | apply g_prevote; lia]. apply go_plus; [lia | lia | lia | lia|]. repeat st.
    - apply g_candidate; lia.
    - apply go_plus; [lia | lia | lia | lia|]. repeat st.
  Qed.
  Lemma g_hbt : forall U L i, U <= T -> L <= X -> go U L U L (handle_hb_timeout i) yes.
  Proof. intros U L i HU HL. unfold handle_hb_timeout. repeat st. Qed.
  Lemma peer_new : forall u c pm nx, nx <= X + 1 -> peer_in (p_set_next nx (new_peer u c pm)).
  Proof. intros u c pm nx H. split; [split; cbn; lia|]. intros s E. discriminate. Qed.
  Lemma g_reconf : forall U L c, U <= T -> L <= X -> go U L U L (reconfigure c) yes.
  Proof.
    intros U L c HU HL. unfold reconfigure. st. cbv zeta.
    eapply go_bind with (U1 := U) (L1 := L) (V := yes); [ | intros ? _ | lia | lia | lia | lia].
    - apply go_each; [intros s _ | lia | lia]. unfold make_peer.
      eapply go_bind with (U1 := U) (L1 := L) (V := fun p => forall nx, nx <= X + 1 -> peer_in (p_set_next nx p)); [ | intros p Hp | lia | lia | lia | lia].
      { st. st. apply go_ret. intros nx Hx. apply peer_new, Hx. }
      st. eapply go_bind with (U1 := U) (L1 := L) (V := yes); [ | intros ? _ | lia | lia | lia | lia].
      { st. apply Hp. flia. }
      st. st; try (st; fail). st. st. st; [|st]. apply go_when.
      eapply go_bind with (U1 := U) (L1 := L) (V := yes); [ | intros ? _; repeat st | lia | lia | lia | lia].
      st. intros q [[P1 P2] P3]. split; [split; [cbn | exact P2] | exact P3]. match goal with H : small _ _ ?x, E : n_join ?x = Some _ |- _ => destruct H; destruct (s_join0 _ E) as [[J1 J2] J3]; exact J1 end.
    - repeat st.
  Qed.

  Ltac calls ::= first [apply g_restart; flia | apply g_stop; flia | apply g_save; flia | apply g_follower; flia | apply g_update; flia | apply g_term; flia | apply g_peer; flia | apply g_hb; flia | apply g_rat; flia | apply g_commit; flia | apply g_rae; flia | apply g_reconf; flia].

  (** ** Requests *)
  Definition resp_in (r : resp_msg) : Prop :=
    resp_within T X r /\ (rs_type r = append_entries_response -> rs_accepted r = true -> 1 <= rs_next_idx r).
  (** the answer is from this server to that one *)
  Definition from_to (q : req) (r : resp_msg) : Prop := rs_src r = me /\ rs_dst r = rq_src q.
  Lemma g_isl : forall U L now, U <= T -> L <= X -> go U L U L (is_leader now) yes.
  Proof. intros U L now HU HL. unfold is_leader. repeat st. Qed.
  Lemma g_skip : forall es U L i, U <= T -> L <= X -> Forall (entry_within T) es ->
    go U L U L (skip_matching i es) (fun x => fst x + lenN (snd x) = i + lenN es /\ Forall (entry_within T) (snd x)).
  Proof.
    induction es as [|e es IH]; intros U L i HU HL He; cbn [skip_matching]; [apply go_ret; split; [reflexivity | constructor]|].
    inversion He; subst. st. st; [|apply go_ret; split; [reflexivity | exact He]]. unfold log_term_at.
    eapply go_bind with (U1 := U) (L1 := L) (V := yes); [repeat st | intros t _ | lia | lia | lia | lia].
    st; [|apply go_ret; split; [reflexivity | exact He]]. eapply go_up; [apply IH; assumption | lia | lia | lia | lia|].
    cbv beta. intros [i' es'] [E1 E2]. cbn [fst snd] in *. split; [|exact E2]. rewrite E1. unfold lenN. cbn [length]. lia.
  Qed.
  Lemma g_write : forall U i e, U <= T -> i + 1 <= X + 1 -> entry_within T e -> go U X U X (log_write_at i e) yes.
  Proof.
    intros U i e HU Hi He. unfold log_write_at. apply tri_get. intros n0 Hn. unfold n_log. pose proof (small_log _ _ _ Hn) as F. destruct ((i <? al_start (dk_log (n_disk n0))) || (a_next (dk_log (n_disk n0)) <? i)) eqn:B.
    - intros n ->. apply (go_throw U X unit RangeError yes n0 Hn).
    - assert (S : small U X (set_disk (disk_apply (n_disk n0) (AWriteAt i e)) n0)).
      { destruct Hn. split; try assumption.
        - eapply (log_at (n_disk n0) i [e]); try reflexivity; try assumption; try lia; try (constructor; [exact He | constructor]); change (lenN [e]) with 1; lia.
        - change (dk_log (n_disk (set_disk (disk_apply (n_disk n0) (AWriteAt i e)) n0))) with (a_replace (dk_log (n_disk n0)) i [e]). rewrite a_next_replace by lia. change (lenN [e]) with 1. lia. }
      intros n -> r n' l E. inversion E; subst r n' l. split; [reflexivity|]. split.
      { intros p s Es. destruct p as [|b p]; [apply Hn|]. inversion Es. assert (p = [] /\ s = []) as [-> ->] by (apply app_eq_nil; congruence). subst. apply S. }
      split; [constructor; [exact I | constructor]|]. split; [exact S|]. intros [] _. split; [exact S | exact I].
  Qed.
  Lemma g_entry : forall U L i, U <= T -> L <= X -> go U L U L (log_entry_at i) yes.
  Proof. intros U L i HU HL. unfold log_entry_at. repeat st. Qed.
  Lemma g_deref : forall A U L (x : option A), U <= T -> L <= X -> go U L U L (deref x) yes.
  Proof. intros A U L x HU HL. unfold deref. repeat st. Qed.
  (** what is left to append fits *)
  Definition room (U : N) (rest : list entry_val) (n : node) : Prop :=
    small U X n /\ Forall (entry_within T) rest /\ lenN rest <= X /\ small U (X - lenN rest) n.
  Lemma g_over : forall es U i, U <= T -> i + lenN es <= X + 1 -> Forall (entry_within T) es ->
    tri U X (small U X) (overwrite i es) (room U).
  Proof.
    induction es as [|e es IH]; intros U i HU Hi He; cbn [overwrite].
    - apply tri_pure; [auto|]. intros n Hn r n' l E. inversion E; subst. split; [reflexivity|]. split; [reflexivity|]. split; [exact Hn|]. intros a Ha. inversion Ha; subst.
      unfold room. change (lenN (@nil entry_val)) with 0. split; [exact Hn|]. split; [constructor|]. split; [lia|]. rewrite N.sub_0_r. exact Hn.
    - assert (Q : lenN (e :: es) = lenN es + 1) by (unfold lenN; cbn [length]; lia). inversion He; subst.
      unfold next_slot_. apply tri_get. intros n0 Hn. unfold n_log. destruct (i <? a_next (dk_log (n_disk n0))) eqn:B.
      + intros n ->. revert n0 Hn B. intros n0 Hn B.
        assert (W : tri U X (small U X) (o <- log_entry_at i ;; old <- deref o ;; when (beq (ev_type old) app_log) (emit (ARollback i old)) ;;; when (beq (ev_type old) conf_log) (modify (set_changing false)) ;;;
          log_write_at i e ;;; when (beq (ev_type e) app_log) (emit (APreCommit i e)) ;;; when (beq (ev_type e) conf_log) (modify (set_changing true)) ;;; overwrite (i + 1) es) (room U)).
        2: exact (W n0 Hn).
        assert (B1 : forall A B (m : M A) (f : A -> M B) Q, go U X U X m yes -> (forall a, tri U X (small U X) (f a) Q) -> tri U X (small U X) (bind m f) Q).
        { intros A B' m f Q' G1 G2. eapply tri_bind; [exact G1|]. intros a n [Hs _]. exact (G2 a n Hs). }
        apply B1; [apply g_entry; lia|]. intros o. apply B1; [apply g_deref; lia|]. intros old. apply B1; [repeat st|]. intros _. apply B1; [repeat st|]. intros _.
        apply B1; [apply g_write; [lia | lia | assumption]|]. intros _. apply B1; [repeat st|]. intros _. apply B1; [repeat st|]. intros _. apply IH; [lia | lia | assumption].
      + intros n ->. apply (tri_pure (list entry_val) U X (fun n => n = n0)); [intros ? ->; exact Hn| |reflexivity].
        intros n -> r n' l E. inversion E; subst. split; [reflexivity|]. split; [reflexivity|]. split; [exact Hn|]. intros a Ha. inversion Ha; subst.
        pose proof (small_log _ _ _ Hn). split; [exact Hn|]. split; [exact He|]. split; [lia|]. destruct Hn. split; try assumption; lia.
  Qed.
  Lemma g_rest : forall es U L, U <= T -> L + lenN es <= X -> Forall (entry_within T) es -> go U L U (L + lenN es) (append_rest es) yes.
  Proof.
    induction es as [|e es IH]; intros U L HU HL He; cbn [append_rest].
    - change (lenN (@nil entry_val)) with 0 in *. rewrite N.add_0_r in *. apply go_ret. exact I.
    - assert (Q : lenN (e :: es) = lenN es + 1) by (unfold lenN; cbn [length]; lia). inversion He; subst.
      eapply go_bind; [apply g_append; [lia | lia | assumption] | intros i _ | lia | lia | lia | lia].
      st. st. replace (L + lenN (e :: es)) with (L + 1 + lenN es) by lia. apply IH; [lia | lia | assumption].
  Qed.
  Lemma g_ae : forall U q, U <= T -> req_within T X q -> rq_type q = append_entries_request -> go U X U X (handle_append_entries q) (fun r => resp_in r /\ from_to q r).
  Proof.
    intros U q HU [Q1 Q2 Q3 Q4 Q5 Q6] Ty. unfold handle_append_entries. assert (Q5' := Q5 ltac:(rewrite Ty; discriminate)).
    st. eapply go_bind with (U1 := U) (L1 := X) (V := yes); [repeat st | intros ? _ | lia | lia | lia | lia].
    st. cbv zeta. eapply go_bind with (U1 := U) (L1 := X) (V := yes); [repeat st | intros ok _ | lia | lia | lia | lia].
    st; [apply go_ret; split; [split; [split; cbn; [flia | intros _; flia] | discriminate] | split; cbn; [flia | reflexivity]]|].
    eapply go_bind; [apply g_skip; [lia | lia | exact Q3] | intros [i' es'] [E1 E2] | lia | lia | lia | lia]. cbn [fst snd] in *.
    eapply tri_bind; [apply g_over; [lia | lia | exact E2]|]. intros rest. 
    intros n1 (R1 & R2 & R3 & R4).
    assert (W : go U (X - lenN rest) U X (append_rest rest ;;; modify (set_leader (rq_src q)) ;;; commit (rq_commit q) ;;; ret (accept (rq_last_idx q + lenN (rq_entries q) + 1) (mkResp (n_term n) append_entries_response (n_id n) (rq_src q) (a_next (dk_log (n_disk n0))) false))) (fun r => resp_in r /\ from_to q r)).
    2: exact (W n1 R4).
    eapply go_bind with (U1 := U) (L1 := X) (V := yes); [replace X with (X - lenN rest + lenN rest) at 2 by lia; apply g_rest; [lia | lia | exact R2] | intros ? _ | lia | lia | lia | lia].
    st. st. apply go_ret. split; [split; [split; cbn; [flia | intros _; flia] | intros _ _; cbn; lia] | split; cbn; [flia | reflexivity]].
  Qed.

  Lemma g_votereq : forall U L q, U <= T -> L <= X -> go U L U L (handle_vote_req q) (fun r => resp_in r /\ from_to q r).
  Proof.
    intros U L q HU HL. unfold handle_vote_req. st. cbv zeta. st; [|apply go_ret; split; [split; [split; cbn; [flia | intros _; lia] | discriminate] | split; cbn; [flia | reflexivity]]].
    st. st. apply go_ret. split; [split; [split; cbn; [flia | intros _; flia] | intros K; discriminate] | split; cbn; [flia | reflexivity]].
  Qed.
  Lemma g_prevotereq : forall U L q, U <= T -> L <= X -> go U L U L (handle_prevote_req q) (fun r => resp_in r /\ rs_type r = prevote_response /\ from_to q r).
  Proof.
    intros U L q HU HL. unfold handle_prevote_req. st. cbv zeta. apply go_ret. match goal with |- context [if ?b then accept _ _ else _] => destruct b end;
    (split; [split; [split; cbn; [flia | intros _; flia] | intros K; discriminate] | split; [reflexivity | split; cbn; [flia | reflexivity]]]).
  Qed.
  Lemma g_cliapp : forall es U L t, U <= T -> L + lenN es <= X -> t <= T -> go U L U (L + lenN es) (cli_append t es) yes.
  Proof.
    induction es as [|e es IH]; intros U L t HU HL Ht; cbn [cli_append].
    - change (lenN (@nil entry_val)) with 0 in *. rewrite N.add_0_r in *. apply go_ret. exact I.
    - assert (Q : lenN (e :: es) = lenN es + 1) by (unfold lenN; cbn [length]; lia). cbv zeta.
      eapply go_bind; [apply g_append; [lia | lia | exact Ht] | intros i _ | lia | lia | lia | lia].
      st. st. replace (L + lenN (e :: es)) with (L + 1 + lenN es) by lia. apply IH; [lia | lia | assumption].
  Qed.
  Lemma g_cli : forall U L now q, U <= T -> L + lenN (rq_entries q) <= X -> go U L U (L + lenN (rq_entries q)) (handle_cli_req now q) resp_in.
  Proof.
    intros U L now q HU HL. unfold handle_cli_req. set (k := lenN (rq_entries q)) in *.
    eapply go_bind; [apply g_isl; lia | intros ld _ | lia | lia | lia | lia]. st.
    assert (E1 : go U L U (L + k) (ret (resp_of (n_term n) append_entries_response (n_id n) (-1))) resp_in).
    { apply go_plus; [lia | lia | lia | lia|]. apply go_ret. split; [split; cbn; [flia | intros _; lia] | discriminate]. }
    assert (E2 : go U L U (L + k) (ret (resp_of (n_term n) append_entries_response (n_id n) (n_leader n))) resp_in).
    { apply go_plus; [lia | lia | lia | lia|]. apply go_ret. split; [split; cbn; [flia | intros _; lia] | discriminate]. }
    assert (E3 : go U L U (L + k) (cli_append (n_term n) (rq_entries q) ;;; request_append_entries ;;; nx <- next_slot_ ;; ret (accept nx (resp_of (n_term n) append_entries_response (n_id n) (n_leader n)))) resp_in).
    { eapply go_bind; [apply g_cliapp; flia | intros ? _ | lia | lia | lia | lia]. st. st. apply go_ret. split; [split; cbn; [flia | intros _; flia] | intros _ _; cbn; flia]. }
    destruct (n_role n), ld; cbv zeta; assumption.
  Qed.
  Lemma g_compact : forall U k, U <= T -> k <= X -> go U X U X (log_compact k) yes.
  Proof.
    intros U k HU Hk. unfold log_compact. apply tri_get. intros n0 Hn. unfold n_log. pose proof (small_log _ _ _ Hn) as F. destruct (k <? al_start (dk_log (n_disk n0))) eqn:B.
    - intros n ->. apply (go_throw U X bool RangeError yes n0 Hn).
    - assert (S : small U X (set_disk (disk_apply (n_disk n0) (ACompact k)) n0)).
      { assert (Hn' := Hn). destruct Hn as [[D1 D2 D3 D4 D5]]. 
        assert (N1 : a_next (a_compact (dk_log (n_disk n0)) k) = N.max (k + 1) (a_next (dk_log (n_disk n0)))) by (apply a_next_compact; lia).
        split; try assumption; [|cbn [set_disk n_disk disk_apply dk_log]; rewrite N1; lia].
        split; cbn [set_disk n_disk disk_apply dk_log dk_commit dk_snp]; try assumption.
        - cbn [a_compact al_ents]. apply Forall_part, D2.
        - rewrite N1. cbn [a_compact al_start]. lia. }
      intros n -> r n' l E. inversion E; subst r n' l. split; [reflexivity|]. split.
      { intros p s Es. destruct p as [|b p]; [apply Hn|]. inversion Es. assert (p = [] /\ s = []) as [-> ->] by (apply app_eq_nil; congruence). subst. apply S. }
      split; [constructor; [exact I | constructor]|]. split; [exact S|]. intros a _. split; [exact S | exact I].
  Qed.
  Lemma g_snpsync : forall U s, U <= T -> snp_in (sv_snp s) -> go U X U X (handle_snapshot_sync_req s) yes.
  Proof.
    intros U s HU [S1 S2]. unfold handle_snapshot_sync_req. apply go_catch; [|apply go_exit]. st. st; [|st]. st. st; try st.
    eapply go_bind; [apply g_compact; lia | intros ok _ | lia | lia | lia | lia]. st; [|st]. st.
    eapply go_bind with (U1 := U) (L1 := X) (V := yes); [ | intros ? _ | lia | lia | lia | lia].
    { apply (go_emit U X X); [exact I|]. intros n1 [[D1 D2 D3 D4 D5]]. split; try assumption. split; cbn [set_disk n_disk disk_apply dk_log dk_commit dk_snp]; try assumption.
      intros s0 E. inversion E; subst. split; assumption. }
    st. st. st. st. st. st.
    eapply go_bind with (U1 := U) (L1 := X) (V := yes); [ | intros ? _; repeat st | lia | lia | lia | lia].
    apply go_modify; [reflexivity|]. intros n1 []. split; try assumption. intros s0 E. inversion E; subst. split; assumption.
  Qed.
  Lemma g_install : forall U q, U <= T -> snp_req_in q -> rq_type q = install_snapshot_request -> go U X U X (handle_install_snapshot_req q) (fun r => resp_in r /\ from_to q r).
  Proof.
    intros U q HU Hq Ty. unfold handle_install_snapshot_req. st.
    eapply go_bind with (U1 := U) (L1 := X) (V := yes); [repeat st | intros ? _ | lia | lia | lia | lia]. cbv zeta.
    set (r0 := resp_of (n_term n) install_snapshot_response (n_id n) (rq_src q)). assert (E1 : resp_in r0 /\ from_to q r0).
    { split; [split; [split; cbn; [flia | intros _; lia] | discriminate] | split; cbn; [flia | reflexivity]]. }
    st; [apply go_ret; exact E1|]. destruct (rq_entries q) as [|e [|e2 es]] eqn:Es; [apply go_ret; exact E1 | | apply go_ret; exact E1].
    st; [apply go_ret; exact E1|].
    eapply go_bind with (U1 := U) (L1 := X) (V := fun s => snp_in (sv_snp s)); [ | intros s Hs | lia | lia | lia | lia].
    { apply go_lift. intros s Hs. apply (Hq Ty e s); [rewrite Es; left; reflexivity | exact Hs]. }
    st. st; [apply go_ret; exact E1|]. eapply go_bind; [apply g_snpsync; [lia | exact Hs] | intros ok _ | lia | lia | lia | lia].
    apply go_ret. destruct ok; [|exact E1]. split; [|exact (proj2 E1)]. split; [split; cbn; [flia | intros K; contradiction K; reflexivity] | intros K; discriminate].
  Qed.

  (** a request from another server; a request from a client *)
  Definition answer_in (q : req) (r : resp_msg) : Prop := resp_in r /\ (rq_type q = prevote_request -> rs_type r = prevote_response).
  Lemma g_process : forall now q, req_in q -> go T X T X (process_req now q) (fun r => answer_in q r /\ from_to q r).
  Proof.
    intros now q (Ty & Hq & Hs). unfold process_req. cbv zeta. assert (rq_term q <= T) by apply Hq.
    eapply go_bind with (U1 := T) (L1 := X) (V := yes); [ | intros ? _ | lia | lia | lia | lia].
    { apply go_when. repeat st. }
    destruct Ty as [E|[E|[E|E]]]; rewrite E; cbn [beq Byte.eqb].
    - change (beq append_entries_request append_entries_request) with true. cbv iota. eapply go_up; [apply g_ae; [lia | exact Hq | exact E] | lia | lia | lia | lia|]. intros r [Hr Hf]. split; [|exact Hf]. split; [exact Hr|]. rewrite E. discriminate.
    - change (beq vote_request append_entries_request) with false. change (beq vote_request vote_request) with true. cbv iota. eapply go_up; [apply g_votereq; lia | lia | lia | lia | lia|]. intros r [Hr Hf]. split; [|exact Hf]. split; [exact Hr|]. rewrite E. discriminate.
    - change (beq prevote_request append_entries_request) with false. change (beq prevote_request vote_request) with false. change (beq prevote_request client_request) with false. cbv iota.
      unfold handle_extended_msg. rewrite E. cbv zeta. change (handle_prevote_req q) with (handle_prevote_req q). eapply go_up; [apply g_prevotereq; lia | lia | lia | lia | lia|]. intros r (Hr1 & Hr2 & Hf). split; [|exact Hf]. split; [exact Hr1 | intros _; exact Hr2].
    - change (beq install_snapshot_request append_entries_request) with false. change (beq install_snapshot_request vote_request) with false. change (beq install_snapshot_request client_request) with false. cbv iota.
      unfold handle_extended_msg. rewrite E. cbv zeta. eapply go_up; [apply g_install; [lia | exact Hs | exact E] | lia | lia | lia | lia|]. intros r [Hr Hf]. split; [|exact Hf]. split; [exact Hr | rewrite E; discriminate].
  Qed.
  Lemma g_client : forall U L now q, U <= T -> L + lenN (rq_entries q) <= X -> rq_type q = client_request -> go U L U (L + lenN (rq_entries q)) (process_req now q) (answer_in q).
  Proof.
    intros U L now q HU HL E. unfold process_req. cbv zeta. rewrite E.
    change (beq client_request append_entries_request || beq client_request vote_request || beq client_request install_snapshot_request) with false. cbn [when].
    eapply go_bind; [apply go_ret with (V := yes); exact I | intros ? _ | lia | lia | lia | lia].
    change (beq client_request append_entries_request) with false. change (beq client_request vote_request) with false. change (beq client_request client_request) with true. cbv iota.
    eapply go_up; [apply g_cli; [lia | lia] | lia | lia | lia | lia|]. intros r Hr. split; [exact Hr | rewrite E; discriminate].
  Qed.

  (** ** Responses *)
  Lemma pred_in : forall v, 1 <= v -> v <= X + 1 -> pred64 v <= X.
  Proof. intros v H1 H2. unfold pred64. destruct (N.eqb_spec v 0); lia. Qed.
  Lemma g_aeresp : forall U L r, U <= T -> L <= X -> resp_in r -> rs_type r = append_entries_response -> go U L U L (handle_append_entries_resp r) yes.
  Proof.
    intros U L r HU HL [[R1 R2] R3] Ty. specialize (R3 Ty). assert (R2' := R2 ltac:(rewrite Ty; discriminate)). unfold handle_append_entries_resp. st. st; [|st]. cbv zeta.
    eapply go_bind with (U1 := U) (L1 := L) (V := yes); [ | intros need _; repeat st | lia | lia | lia | lia].
    destruct (rs_accepted r).
    - specialize (R3 eq_refl). eapply go_bind with (U1 := U) (L1 := L) (V := yes); [ | intros ? _ | lia | lia | lia | lia].
      { st. intros q [[P1 P2] P3]. split; [split; [exact R2' | exact (pred_in _ R3 R2')] | exact P3]. }
      st. cbv zeta. eapply go_bind with (U1 := U) (L1 := L) (V := yes); [ | intros ? _; repeat st | lia | lia | lia | lia].
      apply g_commit; [lia | lia|]. apply sort_desc_le. constructor; [unfold n_log; flia|]. destruct Hn0. apply Forall_forall. intros x Hx. apply in_map_iff in Hx. destruct Hx as (q & <- & Hin).
      rewrite Forall_forall in s_peers0. apply (s_peers0 q Hin).
    - eapply go_bind with (U1 := U) (L1 := L) (V := yes); [ | intros ? _; repeat st | lia | lia | lia | lia].
      st. intros q [[P1 P2] P3]. destruct (_ && _); [split; [split; [exact R2' | exact P2] | exact P3]|]. destruct (0 <? p_next q); [split; [split; [cbn; lia | exact P2] | exact P3] | split; [split; assumption | exact P3]].
  Qed.
  Lemma g_insresp : forall U L r, U <= T -> L <= X -> go U L U L (handle_install_snapshot_resp r) yes.
  Proof.
    intros U L r HU HL. unfold handle_install_snapshot_resp. st. st; [|st]. cbv zeta.
    eapply go_bind with (U1 := U) (L1 := L) (V := yes); [ | intros need _; repeat st | lia | lia | lia | lia].
    destruct (rs_accepted r); [|st]. destruct (p_sync p) as [[s off]|] eqn:Ep; [|st].
    assert (Hs : snp_in s).
    { destruct Hn. rewrite Forall_forall in s_peers0. unfold find_peer in Heqo. apply find_some in Heqo. destruct (s_peers0 p ltac:(apply Heqo)) as [_ Q]. apply Q. rewrite Ep. reflexivity. }
    destruct (sn_size s <=? rs_next_idx r).
    - eapply go_bind with (U1 := U) (L1 := L) (V := yes); [ | intros ? _; repeat st | lia | lia | lia | lia].
      st. intros q [[P1 P2] P3]. destruct Hs as [S1 S2]. split; [split; cbn; lia|]. intros s0 E. discriminate.
    - eapply go_bind with (U1 := U) (L1 := L) (V := yes); [ | intros ? _; repeat st | lia | lia | lia | lia].
      st. intros q [[P1 P2] P3]. split; [split; assumption|]. intros s0 E. inversion E; subst. exact Hs.
  Qed.
  Lemma g_votresp : forall U L r, U <= T -> L + 1 <= X -> go U L U (L + 1) (handle_voting_resp r) yes.
  Proof.
    intros U L r HU HL. unfold handle_voting_resp. st.
    assert (E : go U L U (L + 1) (ret tt) yes) by (apply go_plus; [lia | lia | lia | lia | apply go_ret; exact I]).
    st; [exact E|]. st; [exact E|]. st; [exact E|]. st. st. st. st.
    destruct (majority _ _); cbn [when]; [|exact E]. st. apply g_leader; lia.
  Qed.
  Lemma g_preresp : forall U L r, U + 1 <= T -> L + 1 <= X -> go U L (U + 1) (L + 1) (handle_prevote_resp r) yes.
  Proof.
    intros U L r HU HL. unfold handle_prevote_resp. st.
    assert (E : go U L (U + 1) (L + 1) (ret tt) yes) by (apply go_plus; [lia | lia | lia | lia | apply go_ret; exact I]).
    destruct (n_prevote n) as [[acc voted]|]; [|exact E]. destruct (set_add (rs_src r) voted) as [v2 added]. st; [exact E|]. cbv zeta. st.
    st; [apply g_candidate; lia|]. st; [|exact E]. st. apply go_plus; [lia | lia | lia | lia | st].
  Qed.
  Lemma g_peerresp : forall U L now r, U <= T -> L + 1 <= X -> resp_in r -> rs_term r <= U -> go U L U (L + 1) (handle_peer_resp now r) yes.
  Proof.
    intros U L now r HU HL Hr Ht. unfold handle_peer_resp. st.
    assert (E : go U L U (L + 1) (ret tt) yes) by (apply go_plus; [lia | lia | lia | lia | apply go_ret; exact I]).
    st; [|exact E]. st. st. st; [exact E|]. st; [apply g_votresp; lia|]. apply go_plus; [lia | lia | lia | lia|].
    st; [apply g_aeresp; [lia | lia | exact Hr | apply Byte.byte_dec_bl; assumption]|]. st; [apply g_insresp; lia | st].
  Qed.
  (** the answer to a request that has been sent *)
  Lemma g_rpc : forall U L now uid ext q r, U + 1 <= T -> L + 1 <= X -> (ext = true -> rq_type q = prevote_request) ->
    (forall x, r = Some x -> answer_in q x /\ rs_term x <= U) -> go U L (U + 1) (L + 1) (rpc_done now uid ext q r) yes.
  Proof.
    intros U L now uid ext q r HU HL He Hr. unfold rpc_done. st. destruct (live_ref uid n) as [ref|]; [|apply go_plus; [lia | lia | lia | lia | apply go_ub]].
    eapply go_bind with (U1 := U) (L1 := L) (V := yes); [apply go_when; st | intros ? _ | lia | lia | lia | lia].
    destruct r as [x|].
    - destruct (Hr x eq_refl) as [[Hx Hp] Ht].
      eapply go_bind with (U1 := U) (L1 := L) (V := yes); [st | intros ? _ | lia | lia | lia | lia].
      destruct ext.
      + specialize (Hp (He eq_refl)). unfold handle_ext_resp. st. cbv zeta. rewrite Hp. apply (g_preresp U L x); lia.
      + eapply go_up; [apply g_peerresp; [lia | lia | exact Hx | exact Ht] | lia | lia | lia | lia | auto].
    - eapply go_bind with (U1 := U) (L1 := L) (V := yes); [st | intros ? _ | lia | lia | lia | lia].
      apply go_plus; [lia | lia | lia | lia|]. destruct ext; cbn [when]; [|st]. unfold handle_ext_resp_err. cbv zeta. rewrite (He eq_refl). apply go_ret. exact I.
  Qed.

  (** ** Committing and snapshots *)
  Lemma g_find : forall k U L i c, U <= T -> L <= X -> go U L U L (find_conf k i c) yes.
  Proof.
    induction k as [|k IH]; intros U L i c HU HL; cbn [find_conf]; [st|]. st. st; [|st].
    eapply go_bind; [apply g_entry; lia | intros e _ | lia | lia | lia | lia]. eapply go_bind; [apply g_deref; lia | intros e1 _ | lia | lia | lia | lia].
    eapply go_bind with (U1 := U) (L1 := L) (V := yes); [apply go_lift; intros; exact I | intros c1 _ | lia | lia | lia | lia]. apply IH; lia.
  Qed.
  Lemma g_snap : forall U L i, U <= T -> L <= X -> i <= X -> go U L U L (snapshot_and_compact i) yes.
  Proof.
    intros U L i HU HL Hi. unfold snapshot_and_compact. st. cbv zeta. st; [st|]. destruct (_ && _); [|st]. apply go_catch; [|st]. st.
    eapply go_bind; [apply g_find; lia | intros c _ | lia | lia | lia | lia]. st.
    eapply go_bind with (U1 := U) (L1 := L) (V := yes); [repeat st | intros c2 _ | lia | lia | lia | lia].
    eapply go_bind with (U1 := U) (L1 := L) (V := fun t => t <= T); [ | intros t Ht | lia | lia | lia | lia].
    { unfold log_term_at. st. st; [st|]. st; [|st]. apply go_ret. eapply entry_in; eassumption. }
    apply (go_emit U L L); [split; assumption|]. sm.
  Qed.
  Lemma g_made : forall U s d ok, U <= T -> snp_in s -> go U X U X (on_snapshot_completed s d ok) yes.
  Proof.
    intros U s d ok HU [S1 S2]. unfold on_snapshot_completed. eapply go_bind with (U1 := U) (L1 := X) (V := yes); [apply go_when | intros ? _; st | lia | lia | lia | lia].
    eapply go_bind with (U1 := U) (L1 := X) (V := yes); [ | intros ? _ | lia | lia | lia | lia].
    { apply (go_emit U X X); [exact I|]. intros n1 [[D1 D2 D3 D4 D5]]. split; try assumption. split; cbn [set_disk n_disk disk_apply dk_log dk_commit dk_snp]; try assumption.
      intros s0 E. inversion E; subst. split; assumption. }
    eapply go_bind with (U1 := U) (L1 := X) (V := yes); [ | intros ? _ | lia | lia | lia | lia].
    { apply go_modify; [reflexivity|]. intros n1 []. split; try assumption. intros s0 E. inversion E; subst. split; assumption. }
    st. apply go_when. eapply go_bind; [apply g_compact; lia | intros ? _; st | lia | lia | lia | lia].
  Qed.
  Lemma g_cstep : forall U L, U <= T -> L <= X -> go U L U L commit_step yes.
  Proof.
    intros U L HU HL. unfold commit_step. st. destruct (_ && _) eqn:B; [|st]. assert (n_smc n + 1 <= X) by (apply andb_prop in B; flia).
    apply go_catch; [|st]. cbv zeta. st.
    eapply go_bind; [apply g_entry; lia | intros e _ | lia | lia | lia | lia]. eapply go_bind; [apply g_deref; lia | intros e1 _ | lia | lia | lia | lia].
    eapply go_bind with (U1 := U) (L1 := L) (V := yes); [ | intros ? _; apply g_snap; lia | lia | lia | lia | lia].
    st.
    - apply (go_emit U L L); [exact I|]. intros n1 [[D1 D2 D3 D4 D5]]. split; try assumption. split; cbn [set_disk n_disk disk_apply dk_log dk_commit dk_snp]; assumption.
    - st; [|st]. eapply go_bind with (U1 := U) (L1 := L) (V := yes); [apply go_lift; intros; exact I | intros c1 _ | lia | lia | lia | lia]. repeat st.
  Qed.

  (** ** Calls of the application *)
  Lemma g_repl : forall U L now d, U <= T -> L + 1 <= X -> go U L U (L + 1) (replicate_log now d) yes.
  Proof.
    intros U L now d HU HL. unfold replicate_log. eapply go_bind; [apply g_isl; lia | intros b _ | lia | lia | lia | lia].
    st; [apply go_plus; [lia | lia | lia | lia | st]|]. st. eapply go_bind; [apply g_append; cbn [ev_term]; flia | intros ? _ | lia | lia | lia | lia]. repeat st.
  Qed.
  Lemma g_api : forall U L now logs, U <= T -> L + lenN logs <= X -> go U L U (L + lenN logs) (append_entries now logs) yes.
  Proof.
    intros U L now logs HU HL. destruct logs as [|x xs]; [apply go_plus; [lia | lia | lia | lia | apply go_ret; exact I]|].
    cbn [append_entries]. unfold send_msg_to_leader. st. st; [apply go_plus; [lia | lia | lia | lia | apply go_ret; exact I]|].
    st.
    - set (q := api_req client_request (map (mkEV 0 app_log) (x :: xs))). assert (K : lenN (rq_entries q) = lenN (x :: xs)) by (unfold lenN; cbn [rq_entries q api_req]; rewrite map_length; reflexivity).
      rewrite <- K in *. eapply go_bind; [apply g_client; [lia | exact HL | reflexivity] | intros r _ | lia | lia | lia | lia]. apply go_ret. exact I.
    - apply go_plus; [lia | lia | lia | lia|]. repeat st.
  Qed.

  (** ** Everything that can happen to a server *)
  Definition event_in (U : N) (e : event) : Prop :=
    match e with
    | ERequest _ q => rq_type q = client_request \/ req_in q
    | ERpc _ _ ext q r => (ext = true -> rq_type q = prevote_request) /\ forall x, r = Some x -> answer_in q x /\ rs_term x <= U
    | ESnapshot s _ _ => snp_in s
    | ERetry _ _ | EAddSrv _ _ | ERemoveSrv _ _ => False
    | _ => True
    end.
  Definition outcome_in (e : event) (a : answer) : Prop :=
    match e, a with ERequest _ q, Response r => answer_in q r /\ (plain_type (rq_type q) -> from_to q r) | _, _ => True end.
  Lemma g_event : forall U L e, U + 1 <= T -> L + 1 + handed e <= X -> event_in U e ->
    tri T X (small U L) (run_event e) (fun a _ => outcome_in e a).
  Proof.
    intros U L e HU HL He.
    assert (W : forall A U' L' (m : M A) V (f : A -> answer), U' <= T -> L' <= X -> U <= U' -> L <= L' -> go U L U' L' m V -> (forall a, V a -> outcome_in e (f a)) ->
      tri T X (small U L) (x <- m ;; ret (f x)) (fun a _ => outcome_in e a)).
    { intros A U' L' m V f H1 H2 H3 H4 G H. eapply tri_weak with (U := U') (L := L') (P := small U L) (Q := fun a n => small U' L' n /\ outcome_in e a); [ | auto | lia | lia | lia | lia | intros ? ? _ [_ K]; exact K].
      eapply (go_bind U L U' L'); [exact G | intros a Ha; apply go_ret; apply H, Ha | lia | lia | lia | lia]. }
    assert (Z : forall A (m : M A) V (f : A -> answer), go T X T X m V -> (forall a, V a -> outcome_in e (f a)) -> tri T X (small U L) (x <- m ;; ret (f x)) (fun a _ => outcome_in e a)).
    { intros A m V f G H n Hn. assert (K : go T X T X (x <- m ;; ret (f x)) (outcome_in e)) by (eapply go_bind; [exact G | intros a Ha; apply go_ret; apply H, Ha | lia | lia | lia | lia]).
      intros r n' l E. destruct (K n ltac:(eapply small_up; [exact Hn | lia..]) r n' l E) as (A1 & A2 & A3 & A4 & A5). split; [exact A1|]. split; [exact A2|]. split; [exact A3|]. split; [exact A4|].
      intros a Ha. apply (A5 a Ha). }
    destruct e; cbn [run_event event_in handed] in *; try contradiction.
    - apply (W _ (U + 1) (L + 1) _ yes (fun _ => Nothing)); [lia | lia | lia | lia | apply g_election; lia | intros; exact I].
    - apply (W _ U L _ yes (fun _ => Nothing)); [lia | lia | lia | lia | apply g_hbt; lia | intros; exact I].
    - destruct He as [Ec|Hq].
      + rewrite Ec in HL. change (beq client_request client_request) with true in HL. cbv iota in HL. apply (W _ U (L + lenN (rq_entries q)) _ (answer_in q) Response); [lia | lia | lia | lia | apply g_client; [lia | lia | exact Ec] | intros r Hr; split; [exact Hr | rewrite Ec; intros [K|[K|[K|K]]]; discriminate]].
      + apply (Z _ _ (fun r => answer_in q r /\ from_to q r) Response); [apply g_process, Hq | intros r [Hr Hf]; split; [exact Hr | intros _; exact Hf]].
    - apply (W _ (U + 1) (L + 1) _ yes (fun _ => Nothing)); [lia | lia | lia | lia | apply g_rpc; [lia | lia | apply He | apply He] | intros; exact I].
    - apply (W _ U L _ yes (fun _ => Nothing)); [lia | lia | lia | lia | apply g_cstep; lia | intros; exact I].
    - apply (Z _ _ yes (fun _ => Nothing)); [apply g_made; [lia | exact He] | intros; exact I].
    - apply (W _ U (L + 1) _ yes Bool); [lia | lia | lia | lia | apply g_repl; lia | intros; exact I].
    - apply (W _ U (L + lenN logs) _ yes Async); [lia | lia | lia | lia | apply g_api; lia | intros; exact I].
  Qed.
End Walk.

(** ** A start *)
Lemma start_small : forall T X i pm d, disk_within T X d -> small T X i T X (start_node i pm d).
Proof.
  intros T X i pm d D. unfold start_node. destruct D as [D1 D2 [D3 D4] D5 D6]. unfold saved in D1.
  assert (P : forall l u, Forall (peer_in T X) (start_peers i pm u l)).
  { induction l as [|s l IH]; intros u; cbn [start_peers]; [constructor|]. destruct (sc_id s =? i)%Z; [apply IH|]. constructor.
    - split; [split; cbn; lia|]. intros z E. discriminate.
    - apply Forall_forall. intros p Hp. apply filter_In in Hp. specialize (IH (u + 1)). rewrite Forall_forall in IH. apply IH, Hp. }
  destruct (dk_state d) as [[t v]|] eqn:Es.
  - split; cbn [n_disk n_term n_quick n_smc n_peers n_join n_snp]; try lia; try discriminate; try (apply P); try exact D6; try exact D1; try reflexivity.
    split; try assumption; [unfold saved; rewrite Es; exact D1 | split; assumption].
  - split; cbn [n_disk n_term n_quick n_smc n_peers n_join n_snp]; try lia; try discriminate; try (apply P); try exact D6; try exact D1; try reflexivity.
    split; try assumption; [unfold saved; rewrite Es; exact D1 | split; assumption].
Qed.
