(** * Alive: computations that do not end the process

    [lives U Q m n]: running [m] in state [n] neither throws nor ends the process, leaves a value
    and a state in [Q], the process is not ended, and what is sent goes to peer objects in [U] (identifiers and numbers). *)

From Verif Require Import Base Buffer Codec CodecSpec Msg FsLogStore FsLogSpec Alog Raft RaftQuiet NodeSpec NodeFacts PeerInv AppendFacts Cluster ClusterElect.
Local Open Scope N_scope.

Definition fits (U : list (Z * N)) (a : act) : Prop := match a with ASend u _ _ => In u (map snd U) | AExit _ => False | _ => True end.
Definition lives {A} (U : list (Z * N)) (Q : A -> node -> Prop) (m : M A) (n : node) : Prop :=
  exists a n' l, m n = (ROk a, n', l) /\ Forall (fits U) l /\ Q a n'.
Definition pairs (n : node) : list (Z * N) := map (fun p => (p_id p, p_uid p)) (n_peers n).
(** what holds of a running server of a cluster with fixed membership and without snapshots, as
    long as it does not believe its followers have more than it has *)
Definition sane (U : list (Z * N)) (n : node) : Prop :=
  pairs n = U /\ al_start (n_log n) = 1 /\
  (n_role n = Leader -> Forall (fun p => p_next p <= a_next (n_log n)) (n_peers n)).

Section Rules.
  Variable U : list (Z * N).
  Notation lv := (lives U).
  Context {A B : Type}.
  Lemma lv_ret : forall (Q : A -> node -> Prop) a n, Q a n -> lv Q (ret a) n.
  Proof. intros Q a n H. exists a, n, []. repeat split; [constructor | exact H]. Qed.
  Lemma lv_get : forall (Q : A -> node -> Prop) g n, Q (g n) n -> lv Q (get g) n.
  Proof. intros Q g n H. exists (g n), n, []. repeat split; [constructor | exact H]. Qed.
  Lemma lv_modify : forall (Q : unit -> node -> Prop) f n, Q tt (f n) -> lv Q (modify f) n.
  Proof. intros Q f n H. exists tt, (f n), []. repeat split; [constructor | exact H]. Qed.
  Lemma lv_emit : forall (Q : unit -> node -> Prop) a n, fits U a -> Q tt (set_disk (disk_apply (n_disk n) a) n) -> lv Q (emit a) n.
  Proof. intros Q a n F H. exists tt, (set_disk (disk_apply (n_disk n) a) n), [a]. repeat split; [constructor; [exact F | constructor] | exact H]. Qed.
  Lemma lv_bind : forall (Q : B -> node -> Prop) (m : M A) (f : A -> M B) n, lv (fun a n1 => lv Q (f a) n1) m n -> lv Q (bind m f) n.
  Proof.
    intros Q m f n (a & n1 & l1 & E1 & F1 & b & n2 & l2 & E2 & F2 & H). exists b, n2, (l1 ++ l2). unfold bind. rewrite E1, E2.
    repeat split; [apply Forall_app; split; assumption | exact H].
  Qed.
  Lemma lv_mono : forall (Q Q' : A -> node -> Prop) m n, lv Q m n -> (forall a n, Q a n -> Q' a n) -> lv Q' m n.
  Proof. intros Q Q' m n (a & n1 & l1 & E1 & F1 & H) K. exists a, n1, l1. auto. Qed.
  Lemma lv_when : forall (Q : unit -> node -> Prop) b m n, (b = true -> lv Q m n) -> (b = false -> Q tt n) -> lv Q (when b m) n.
  Proof. intros Q [|] m n H1 H2; cbn [when]; [apply H1, eq_refl|]. exists tt, n, []. repeat split; [constructor | apply H2, eq_refl]. Qed.
  (** [I done n]: the elements of [done] have been dealt with *)
  Lemma lv_each : forall (I : list A -> node -> Prop) f l done n,
    (forall done x n, I done n -> In x l -> lv (fun _ => I (done ++ [x])) (f x) n) -> I done n -> lv (fun _ => I (done ++ l)) (for_each l f) n.
  Proof.
    intros I f l. induction l as [|x l IH]; intros done n H H0; cbn [for_each].
    - exists tt, n, []. rewrite app_nil_r. repeat split; [constructor | exact H0].
    - destruct (H done x n H0 (or_introl eq_refl)) as (a & n1 & l1 & E1 & F1 & H1).
      destruct (IH (done ++ [x]) n1 (fun d y m Hd Hy => H d y m Hd (or_intror Hy)) H1) as (b & n2 & l2 & E2 & F2 & H2).
      exists b, n2, (l1 ++ l2). unfold bind. rewrite E1, E2. repeat split; [apply Forall_app; split; assumption|]. rewrite <- app_assoc in H2. exact H2.
  Qed.
  Lemma lv_each_inv : forall (I : node -> Prop) (f : A -> M unit) l n, (forall x n, In x l -> I n -> lv (fun _ => I) (f x) n) -> I n -> lv (fun _ => I) (for_each l f) n.
  Proof. intros I f l n H H0. apply (lv_each (fun _ => I) f l [] n); auto. Qed.
End Rules.
Ltac lvs :=
  match goal with
  | |- lives _ _ (ret _) _ => apply lv_ret
  | |- lives _ _ (get _) _ => apply lv_get
  | |- lives _ _ (modify _) _ => apply lv_modify
  | |- lives _ _ (emit _) _ => apply lv_emit; [exact I|]
  | |- lives _ _ (bind _ _) _ => apply lv_bind
  | |- lives _ _ (when _ _) _ => apply lv_when; intros ?
  end; cbv beta.

Section Walk.
  Variable U : list (Z * N).
  Notation lv := (lives U).
  Notation ok := (sane U).
  (** nothing but what [sane] does not look at, and the role and the term, stays as it is *)
  Definition same (n n' : node) : Prop := n_role n' = n_role n /\ n_term n' = n_term n /\ n_log n' = n_log n.

  Lemma restart_lives : forall n, ok n -> lv (fun _ n' => ok n' /\ same n n') restart_election_timer n.
  Proof.
    intros n Ok. unfold restart_election_timer. repeat lvs. destruct (n_catching n); repeat lvs; (split; [exact Ok | repeat split]).
  Qed.
  Lemma disabled : forall l, map (fun p => (p_id p, p_uid p)) (map p_disable_hb l) = map (fun p => (p_id p, p_uid p)) l.
  Proof. intros l. rewrite map_map. reflexivity. Qed.
  Lemma follower_lives : forall n, ok n -> lv (fun _ n' => ok n' /\ n_role n' = Follower /\ n_term n' = n_term n /\ n_log n' = n_log n) become_follower n.
  Proof.
    intros n (S1 & S2 & S3). unfold become_follower. repeat lvs. eapply lv_mono; [apply restart_lives|].
    - split; [unfold pairs; cbn; rewrite disabled; exact S1|]. split; [exact S2 | discriminate].
    - intros _ m ((T1 & T2 & T3) & E1 & E2 & E3). lvs. split; [split; [exact T1|]; split; [exact T2 | exact T3]|]. split; [exact E1|]. split; [exact E2 | exact E3].
  Qed.
  Lemma update_lives : forall t n, ok n -> lv (fun up n' => ok n' /\ n_log n' = n_log n /\
    (up = true /\ n_term n < t /\ n_role n' = Follower /\ n_term n' = t \/ up = false /\ t <= n_term n /\ n' = n)) (update_term t) n.
  Proof.
    intros t n Ok. unfold update_term. repeat lvs. destruct (N.ltb_spec (n_term n) t) as [L|L]; repeat lvs.
    - unfold save_state. repeat lvs. eapply lv_mono; [apply follower_lives; destruct Ok as (S1 & S2 & S3); split; [exact S1|]; split; [exact S2 | exact S3]|].
      intros _ m (T1 & T2 & T3 & T4). lvs. split; [exact T1|]. split; [exact T4|]. left. auto.
    - split; [exact Ok|]. split; [reflexivity|]. right. auto.
  Qed.
  Lemma term_lives : forall i n, al_start (n_log n) = 1 -> i < a_next (n_log n) -> lv (fun _ n' => n' = n) (term_for_log i) n.
  Proof.
    intros i n S H. unfold term_for_log. destruct (N.eqb_spec i 0) as [E|E]; [apply lv_ret; reflexivity|]. unfold start_index_. repeat lvs.
    replace (al_start (n_log n) <=? i) with true by lia. unfold log_term_at. repeat lvs. replace (i <? al_start (n_log n)) with false by lia.
    destruct (a_get_in (n_log n) i) as (e & ->); [lia|]. lvs. reflexivity.
  Qed.
  Lemma has_peer : forall n j, ok n -> In j (map fst U) -> exists p, find_peer j (n_peers n) = Some p /\ In p (n_peers n) /\ p_id p = j /\ In (p_uid p) (map snd U).
  Proof.
    intros n j (S1 & _) H. rewrite <- S1 in H |- *. unfold pairs in *. rewrite !map_map in *. cbn [fst snd] in *.
    clear S1. unfold find_peer. induction (n_peers n) as [|p l IH]; [destruct H|]. cbn [find map] in *. destruct (Z.eqb_spec (p_id p) j) as [E|E].
    - exists p. repeat split; auto using in_eq.
    - destruct H as [H|H]; [contradiction|]. destruct (IH H) as (x & X1 & X2 & X3 & X4). exists x. repeat split; try assumption; right; assumption.
  Qed.
  Lemma peer_lives : forall n j (Q : peer -> node -> Prop), ok n -> In j (map fst U) -> (forall p, find_peer j (n_peers n) = Some p -> In p (n_peers n) -> p_id p = j -> In (p_uid p) (map snd U) -> Q p n) ->
    lv Q (the_peer (PPeer j)) n.
  Proof.
    intros n j Q Ok Hj H. destruct (has_peer n j Ok Hj) as (p & P1 & P2 & P3 & P4). unfold the_peer. repeat lvs. cbn [get_peer]. rewrite P1. lvs. apply H; assumption.
  Qed.
  Lemma send_lives : forall j x q n, ok n -> In j (map fst U) -> lv (fun _ n' => n' = n) (send_req (PPeer j) x q) n.
  Proof.
    intros j x q n Ok Hj. unfold send_req. lvs. apply peer_lives; [exact Ok | exact Hj|]. intros p P1 P2 P3 P4. apply lv_emit; [exact P4|]. destruct n. reflexivity.
  Qed.
  Lemma upd_pairs : forall j f l, (forall p, p_id (f p) = p_id p /\ p_uid (f p) = p_uid p) ->
    map (fun p => (p_id p, p_uid p)) (upd_peers j f l) = map (fun p => (p_id p, p_uid p)) l.
  Proof. intros j f l H. apply upd_peers_map. intros p. destruct (H p) as [-> ->]. reflexivity. Qed.
  Lemma upd_sane : forall j f n, ok n -> (forall p, p_id (f p) = p_id p /\ p_uid (f p) = p_uid p) ->
    (n_role n = Leader -> forall p, In p (n_peers n) -> p_next (f p) <= a_next (n_log n)) -> ok (upd_peer (PPeer j) f n).
  Proof.
    intros j f n (S1 & S2 & S3) H H1. split; [unfold pairs; cbn; rewrite upd_pairs by exact H; exact S1|]. split; [exact S2|]. intros R. cbn in R. assert (S5 := S3 R).
    cbn. rewrite Forall_forall in *. intros p Hp. unfold upd_peers in Hp. apply in_map_iff in Hp. destruct Hp as (x & <- & Hx).
    destruct (p_id x =? j)%Z; [apply H1; assumption | apply S5, Hx].
  Qed.
  Lemma upd_keep : forall j f n, ok n -> (forall p, p_id (f p) = p_id p /\ p_uid (f p) = p_uid p /\ p_next (f p) = p_next p) -> ok (upd_peer (PPeer j) f n).
  Proof.
    intros j f n Ok H. apply upd_sane; [exact Ok | intros p; destruct (H p) as (-> & -> & _); auto|]. intros R p Hp. destruct (H p) as (_ & _ & ->).
    destruct Ok as (_ & _ & S3). assert (S5 := S3 R). rewrite Forall_forall in S5. apply S5, Hp.
  Qed.
  Definition lead (n : node) : Prop := ok n /\ n_role n = Leader.
  Lemma create_lives : forall j n, lead n -> In j (map fst U) -> lv (fun _ n' => lead n' /\ same n n') (create_append_entries_req (PPeer j)) n.
  Proof.
    intros j n (Ok & R) Hj. unfold create_append_entries_req. lvs. apply peer_lives; [exact Ok | exact Hj|]. intros p P1 P2 P3 P4. lvs. lvs. cbv zeta.
    assert (Ok0 := Ok). destruct Ok0 as (S1 & S2 & S3). assert (S5 := S3 R). rewrite Forall_forall in S5. assert (Np := S5 p P2). assert (N1 : 1 <= a_next (n_log n)) by (unfold a_next; lia).
    set (x := if p_next p =? 0 then a_next (n_log n) else p_next p). assert (X : 1 <= x <= a_next (n_log n)) by (unfold x; destruct (N.eqb_spec (p_next p) 0); lia).
    assert (G : forall m, lead m -> same n m -> n_disk m = n_disk n -> lv (fun _ n' => lead n' /\ same n n')
      (if a_next (n_log n) <=? x - 1 then system_exit (-1) else if (0 <? x - 1) && (x - 1 <? al_start (n_log n) - 1) then create_sync_snapshot_req (PPeer j) (x - 1) (n_term n) (n_quick n)
       else last_log_term <- term_for_log (x - 1) ;; let end_idx := N.min (a_next (n_log n)) (x - 1 + 1 + pm_max_append (n_prm n)) in
         es <- (if a_next (n_log n) <=? x - 1 + 1 then ret [] else log_entries_ (x - 1 + 1) end_idx) ;;
         ret (mkReq (n_term n) append_entries_request (n_id n) (p_id p) last_log_term (x - 1) (n_quick n) es)) m).
    { intros m Lm Sm Dm. assert (Lg : n_log m = n_log n) by apply Sm. replace (a_next (n_log n) <=? x - 1) with false by lia. replace (x - 1 <? al_start (n_log n) - 1) with false by lia. rewrite andb_false_r.
      lvs. eapply lv_mono; [apply term_lives; rewrite Lg; [exact S2 | lia]|]. intros t m' ->. cbv zeta. lvs.
      assert (Es : lv (fun _ n' => n' = m) (if a_next (n_log n) <=? x - 1 + 1 then ret [] else log_entries_ (x - 1 + 1) (N.min (a_next (n_log n)) (x - 1 + 1 + pm_max_append (n_prm n)))) m).
      { destruct (a_next (n_log n) <=? x - 1 + 1); [lvs; reflexivity|]. unfold log_entries_. repeat lvs. replace (x - 1 + 1 <? al_start (n_log m)) with false by (rewrite Lg; lia). lvs. reflexivity. }
      eapply lv_mono; [exact Es|]. intros es m' ->. lvs. auto. }
    fold x. lvs. lvs.
    - lvs. apply G; [|repeat split | reflexivity]. split; [|exact R]. apply upd_sane; [exact Ok | auto|]. intros _ y Hy. cbn. lia.
    - apply G; [split; [exact Ok | exact R] | repeat split | reflexivity].
  Qed.
  Lemma serve_lives : forall j n, lead n -> In j (map fst U) -> lv (fun _ n' => lead n' /\ same n n') (request_append_entries_to j) n.
  Proof.
    intros j n (Ok & R) Hj. unfold request_append_entries_to. lvs. apply peer_lives; [exact Ok | exact Hj|]. intros p P1 P2 P3 P4. destruct (p_busy p).
    - lvs. split; [split; assumption | repeat split].
    - repeat lvs. set (m := upd_peer _ _ n). assert (Om : lead m) by (split; [apply upd_keep; [exact Ok | auto] | exact R]).
      eapply lv_mono; [apply create_lives; [exact Om | exact Hj]|]. intros q m' (Lm & Sm). lvs. eapply lv_mono; [apply send_lives; [apply Lm | exact Hj]|].
      intros _ m2 ->. lvs. split; [exact Lm | exact Sm].
  Qed.
  Lemma ids_known : forall n, ok n -> map p_id (n_peers n) = map fst U.
  Proof. intros n (S1 & _). rewrite <- S1. unfold pairs. rewrite map_map. reflexivity. Qed.
  Lemma same_trans : forall a b c, same a b -> same b c -> same a c.
  Proof. intros a b c (A1 & A2 & A3) (B1 & B2 & B3). repeat split; congruence. Qed.
  Lemma commit_lives : forall k n, ok n -> lv (fun _ n' => ok n' /\ same n n') (commit k) n.
  Proof.
    intros k n Ok. unfold commit. repeat lvs. destruct (n_quick n <? k); [|lvs; split; [exact Ok | repeat split]]. repeat lvs.
    assert (Ok1 : ok (set_quick k n)) by exact Ok. change (n_role (set_quick k n)) with (n_role n). destruct (n_role n) eqn:R; try (lvs; split; [exact Ok1 | repeat split]; fail).
    unfold peer_ids. repeat lvs. change (n_peers (set_quick k n)) with (n_peers n). rewrite (ids_known n Ok). set (m := set_quick k n).
    eapply lv_mono; [apply (lv_each_inv U (fun x => lead x /\ same m x))|].
    - intros j x Hj (Lx & Sx). lvs. eapply lv_mono; [apply serve_lives; [exact Lx | exact Hj]|]. intros b y (Ly & Sy). lvs.
      + lvs. split; [split; [apply upd_keep; [apply Ly | auto] | apply Ly]|]. apply (same_trans _ _ _ Sx Sy).
      + split; [exact Ly | apply (same_trans _ _ _ Sx Sy)].
    - split; [split; [exact Ok1 | exact R] | repeat split].
    - intros _ x ((Ox & _) & Sx). split; [exact Ox | exact Sx].
  Qed.
  Lemma serve_all_lives : forall n, lead n -> lv (fun _ n' => lead n' /\ same n n') request_append_entries n.
  Proof.
    intros n Ln. assert (Rn := proj2 Ln). unfold request_append_entries, peer_ids. repeat lvs. rewrite (ids_known n (proj1 Ln)). destruct (map fst U) as [|j l] eqn:E.
    - unfold next_slot_. repeat lvs. eapply lv_mono; [apply commit_lives, Ln|]. intros _ x (Ox & Sx). split; [split; [exact Ox | rewrite <- Rn; apply Sx] | exact Sx].
    - eapply lv_mono; [apply (lv_each_inv U (fun x => lead x /\ same n x))|].
      + intros k x Hk (Lx & Sx). lvs. eapply lv_mono; [apply serve_lives; [exact Lx | rewrite E; exact Hk]|]. intros b y (Ly & Sy). lvs. split; [exact Ly | apply (same_trans _ _ _ Sx Sy)].
      + split; [exact Ln | repeat split].
      + intros u x Hx. exact Hx.
  Qed.
  (** appending an entry to the log of a leader *)
  Lemma log_append_disk : forall e n, n_log (set_disk (disk_apply (n_disk n) (AAppend e)) n) = a_replace (n_log n) (a_next (n_log n)) [e].
  Proof. reflexivity. Qed.
  Lemma grown_sane : forall e n, ok n -> ok (set_disk (disk_apply (n_disk n) (AAppend e)) n).
  Proof.
    intros e n (S1 & S2 & S3). split; [exact S1|]. split; [exact S2|]. intros R. assert (S5 := S3 R). rewrite log_append_disk, a_next_append.
    eapply Forall_impl; [|exact S5]. cbv beta. intros p Hp. lia.
  Qed.
  Lemma append_lives : forall e n, ok n -> lv (fun _ n' => ok n' /\ n_role n' = n_role n /\ n_term n' = n_term n) (log_append e) n.
  Proof. intros e n Ok. unfold log_append, next_slot_. repeat lvs. split; [apply grown_sane, Ok | split; reflexivity]. Qed.
  Lemma become_leader_lives : forall n, ok n -> lv (fun _ n' => lead n') become_leader n.
  Proof.
    intros n (S1 & S2 & S3). unfold become_leader, stop_election_timer. repeat lvs. unfold next_slot_, peer_ids. repeat lvs.
    match goal with |- context [for_each _ _ ] => idtac end.
    match goal with |- lives _ _ (for_each _ _) ?m0 => set (m := m0) end.
    assert (Em : n_peers m = n_peers n /\ n_log m = n_log n) by (split; reflexivity). destruct Em as [Em1 Em2]. rewrite Em1, Em2. set (nx := a_next (n_log n)).
    apply lv_mono with (Q := fun _ x => pairs x = U /\ n_log x = n_log n /\ n_role x = Leader /\ Forall (fun p => In (p_id p) (map p_id (n_peers n)) -> p_next p <= nx) (n_peers x)).
    - apply (lv_each U (fun done x => pairs x = U /\ n_log x = n_log n /\ n_role x = Leader /\ Forall (fun p => In (p_id p) done -> p_next p <= nx) (n_peers x)) _ _ []).
      + intros done j x (X1 & X2 & X3 & X5) Hj. unfold enable_hb_for_peer. repeat lvs. split; [|split; [exact X2|]; split; [exact X3|]].
        * unfold pairs. cbn [n_peers set_disk upd_peer set_peers]. rewrite !upd_pairs by (intros p; split; reflexivity). exact X1.
        * cbn [n_peers set_disk upd_peer set_peers]. rewrite Forall_forall in *. intros p Hp Hd. unfold upd_peers in Hp. rewrite map_map in Hp. apply in_map_iff in Hp. destruct Hp as (y & <- & Hy).
          destruct (p_id y =? j)%Z eqn:Ej; cbn [p_set_busy p_set_sync p_set_next p_id p_cfg] in *.
          -- change (p_id (p_set_busy false (p_set_sync None (p_set_next nx y)))) with (p_id y) in *. rewrite Ej in *. cbn. lia.
          -- rewrite Ej in Hd |- *. apply X5; [exact Hy|]. apply in_app_or in Hd. destruct Hd as [Hd|[Hd|[]]]; [exact Hd | lia].
      + split; [exact S1|]. split; [reflexivity|]. split; [reflexivity|]. apply Forall_forall. intros p _ [].
    - intros _ x (X1 & X2 & X3 & X5).
      assert (Lx : lead x).
      { split; [|exact X3]. split; [exact X1|]. rewrite X2. split; [exact S2|]. intros _. rewrite Forall_forall in *. intros p Hp. apply X5; [exact Hp|].
        assert (I1 : In (p_id p) (map fst (pairs x))) by (unfold pairs; rewrite map_map; apply (in_map p_id), Hp). rewrite X1, <- S1 in I1. unfold pairs in I1. rewrite map_map in I1. exact I1. }
      assert (Tail : forall y, lead y -> lv (fun _ n' => lead n') request_append_entries y) by (intros y Ly; eapply lv_mono; [apply serve_all_lives, Ly | intros u z Hz; apply Hz]).
      repeat lvs.
      + unfold next_slot_. repeat lvs. unfold log_append, next_slot_. repeat lvs. apply Tail. split; [|exact X3]. apply (grown_sane _ x (proj1 Lx)).
      + apply Tail. exact Lx.
  Qed.
  Lemma end_term_lives : forall n, ok n -> lv (fun _ n' => n' = n) (term_for_log (a_next (n_log n) - 1)) n.
  Proof. intros n (_ & S2 & _). apply term_lives; [exact S2 | unfold a_next; lia]. Qed.
  Lemma request_vote_lives : forall n, ok n -> lv (fun _ n' => ok n') request_vote n.
  Proof.
    intros n Ok. unfold request_vote, save_state. repeat lvs. match goal with |- context [majority ?m0 _] => set (m := m0) end.
    assert (Om : ok m) by exact Ok. destruct (majority m (n_votes m)); repeat lvs.
    - eapply lv_mono; [apply become_leader_lives; exact Om | intros u x Hx; apply Hx].
    - unfold peer_ids. repeat lvs. rewrite (ids_known m Om). eapply lv_mono; [apply (lv_each_inv U (fun x => ok x))|].
      + intros j x Hj Ox. unfold next_slot_. repeat lvs. eapply lv_mono; [apply end_term_lives, Ox|]. intros t y ->. eapply lv_mono; [apply send_lives; [exact Ox | exact Hj]|].
        intros u y ->. exact Ox.
      + exact Om.
      + intros u x Hx. exact Hx.
  Qed.
  Lemma candidate_lives : forall n, ok n -> lv (fun _ n' => ok n') become_candidate n.
  Proof.
    intros n (S1 & S2 & S3). unfold become_candidate, save_state. repeat lvs. eapply lv_mono; [apply request_vote_lives|].
    - split; [exact S1|]. split; [exact S2 | discriminate].
    - intros u x Ox. repeat lvs. destruct (n_role x) eqn:R; try (eapply lv_mono; [apply restart_lives; exact Ox | intros v y Hy; apply Hy]). lvs. exact Ox.
  Qed.
  Lemma request_prevote_lives : forall n, ok n -> lv (fun _ n' => ok n') request_prevote n.
  Proof.
    intros n Ok. unfold request_prevote, peer_ids. repeat lvs. rewrite (ids_known n Ok). destruct (map fst U) as [|j0 l0] eqn:E; [apply candidate_lives, Ok|]. repeat lvs.
    destruct (match n_prevote n with Some x => x | None => (0%Z, []) end) as [acc voted]. repeat lvs.
    match goal with |- lives _ _ (for_each _ _) ?m0 => set (m := m0) end. assert (Om : ok m) by exact Ok.
    eapply lv_mono; [apply (lv_each_inv U (fun x => ok x))|].
    - intros j x Hj Ox. unfold next_slot_. repeat lvs. eapply lv_mono; [apply end_term_lives, Ox|]. intros t y ->. eapply lv_mono; [apply send_lives; [exact Ox | rewrite E; exact Hj]|].
      intros u y ->. exact Ox.
    - exact Om.
    - intros u x Hx. exact Hx.
  Qed.
  Lemma election_lives : forall n, ok n -> n_steps n = 0%Z -> n_role n <> Leader -> lv (fun _ n' => ok n') handle_election_timeout n.
  Proof.
    intros n Ok St R. unfold handle_election_timeout. repeat lvs. set (m := set_timer false n). assert (Om : ok m) by exact Ok.
    change (n_steps m) with (n_steps n). rewrite St. cbn [Z.ltb Z.compare]. change (n_catching m) with (n_catching n). change (n_role m) with (n_role n).
    destruct (n_catching n); [eapply lv_mono; [apply restart_lives; exact Om | intros u y Hy; apply Hy]|].
    destruct (n_role n) eqn:E; [|apply candidate_lives, Om | elim (R eq_refl)].
    destruct (pm_prevote (n_prm m)); [|apply candidate_lives, Om]. destruct (n_prevote m) as [[acc [|x l]]|]; [apply request_prevote_lives, Om | lvs; exact Om | apply request_prevote_lives, Om].
  Qed.
  Lemma hb_lives : forall j n, ok n -> lv (fun _ n' => ok n') (handle_hb_timeout j) n.
  Proof.
    intros j n Ok. unfold handle_hb_timeout. repeat lvs. set (m := upd_peer _ _ n). assert (Om : ok m) by (apply upd_keep; [exact Ok | auto]).
    destruct (n_role m) eqn:R; try (lvs; exact Om). destruct (get_peer (PPeer j) m) as [p|] eqn:F; [|lvs; exact Om].
    assert (Hj : In j (map fst U)).
    { cbn [get_peer] in F. apply find_some in F. destruct F as [F1 F2]. rewrite <- (ids_known m Om). apply in_map_iff. exists p. split; [lia | exact F1]. }
    repeat lvs. eapply lv_mono; [apply serve_lives; [split; [exact Om | exact R] | exact Hj]|]. intros b x ((Ox & Rx) & _). lvs.
    apply peer_lives; [exact Ox | exact Hj|]. intros p' P1 P2 P3 P4. lvs; [|exact Ox]. repeat lvs. exact (upd_keep j (fun p => p_set_hb (p_hb_on p) true p) x Ox (fun p => conj eq_refl (conj eq_refl eq_refl))).
  Qed.

  (** ** Requests *)
  Lemma skip_lives : forall es i n, ok n -> 1 <= i -> lv (fun r n' => n' = n /\ 1 <= fst r) (skip_matching i es) n.
  Proof.
    induction es as [|e es IH]; intros i n Ok Hi; cbn [skip_matching].
    - lvs. auto.
    - unfold next_slot_. repeat lvs. destruct (N.ltb_spec i (a_next (n_log n))) as [L|L]; [|lvs; auto]. assert (S2 : al_start (n_log n) = 1) by apply Ok.
      unfold log_term_at. repeat lvs. replace (i <? al_start (n_log n)) with false by lia. destruct (a_get_in (n_log n) i) as (x & ->); [lia|]. lvs.
      destruct (ev_term x =? ev_term e); [apply IH; [exact Ok | lia] | lvs; auto].
  Qed.
  Definition follows (n : node) : Prop := ok n /\ n_role n <> Leader.
  Lemma written_sane : forall i e n, follows n -> ok (set_disk (disk_apply (n_disk n) (AWriteAt i e)) n).
  Proof. intros i e n ((S1 & S2 & S3) & R). split; [exact S1|]. split; [exact S2|]. intros E. elim (R E). Qed.
  Lemma overwrite_lives : forall es i n, follows n -> 1 <= i -> lv (fun _ n' => follows n') (overwrite i es) n.
  Proof.
    induction es as [|e es IH]; intros i n F Hi; cbn [overwrite].
    - lvs. exact F.
    - unfold next_slot_. repeat lvs. destruct (N.ltb_spec i (a_next (n_log n))) as [L|L]; [|lvs; exact F]. assert (S2 : al_start (n_log n) = 1) by apply F.
      unfold log_entry_at. repeat lvs. replace (i <? al_start (n_log n)) with false by lia. destruct (a_get_in (n_log n) i) as (x & ->); [lia|]. lvs. unfold deref. do 2 lvs.
      assert (W : forall m, n_log m = n_log n -> follows m -> lv (fun _ n' => follows n') (log_write_at i e ;;; when (beq (ev_type e) app_log) (emit (APreCommit i e)) ;;;
        when (beq (ev_type e) conf_log) (modify (set_changing true)) ;;; overwrite (i + 1) es) m).
      { intros m Lm Fm. unfold log_write_at. lvs. repeat lvs. rewrite Lm. replace (i <? al_start (n_log n)) with false by lia. replace (a_next (n_log n) <? i) with false by lia. cbn [orb]. lvs.
        assert (F2 : follows (set_disk (disk_apply (n_disk m) (AWriteAt i e)) m)) by (split; [apply written_sane, Fm | apply Fm]).
        repeat lvs; (apply IH; [exact F2 | lia]). }
      lvs. apply lv_mono with (Q := fun _ m => n_log m = n_log n /\ follows m); [lvs; [lvs|]; (split; [reflexivity | exact F])|]. intros u m (Lm & Fm).
      lvs. apply lv_mono with (Q := fun _ m => n_log m = n_log n /\ follows m); [lvs; [lvs|]; (split; [exact Lm | exact Fm])|]. intros v y (Ly & Fy). apply W; [exact Ly | exact Fy].
  Qed.
  Lemma append_rest_lives : forall es n, follows n -> lv (fun _ n' => follows n') (append_rest es) n.
  Proof.
    induction es as [|e es IH]; intros n F; cbn [append_rest].
    - lvs. exact F.
    - lvs. eapply lv_mono; [apply append_lives, F|]. intros i x (Ox & Rx & _). assert (Fx : follows x) by (split; [exact Ox | rewrite Rx; apply F]). repeat lvs; (apply IH; exact Fx).
  Qed.
  Lemma entries_lives : forall q n, ok n -> rq_term q <= n_term n -> (rq_term q = n_term n -> n_role n <> Leader) -> lv (fun _ n' => ok n') (handle_append_entries q) n.
  Proof.
    intros q n Ok Le Nl. unfold handle_append_entries. do 2 lvs. lvs. apply lv_mono with (Q := fun _ n' => ok n' /\ n_log n' = n_log n /\ n_term n' = n_term n /\ (rq_term q = n_term n -> n_role n' <> Leader)).
    { lvs; [|repeat split; auto; apply Ok]. assert (E : rq_term q = n_term n) by lia. destruct (n_role n) eqn:R.
      - eapply lv_mono; [apply restart_lives; exact Ok|]. intros u x (Ox & Rx & Tx & Lx). repeat split; try assumption; try apply Ox. intros _. rewrite Rx, R. discriminate.
      - eapply lv_mono; [apply follower_lives, Ok|]. intros u x (Ox & Rx & Tx & Lx). repeat split; try assumption; try apply Ox. intros _. rewrite Rx. discriminate.
      - elim (Nl E eq_refl). }
    intros u m (Om & Lm & Tm & Rm). unfold next_slot_. do 2 lvs. cbv zeta. lvs.
    assert (S2 : al_start (n_log m) = 1) by apply Om.
    apply lv_mono with (Q := fun _ n' => n' = m).
    { destruct (rq_last_idx q =? 0); [lvs; reflexivity|]. destruct (N.ltb_spec (rq_last_idx q) (a_next (n_log m))) as [L|L]; [|lvs; reflexivity].
      lvs. eapply lv_mono; [apply term_lives; [exact S2 | exact L]|]. intros t x ->. lvs. reflexivity. }
    intros okay x ->. destruct (N.ltb_spec (rq_term q) (n_term n)) as [Lt|Ge]; cbn [orb]; [lvs; exact Om|]. destruct (negb okay); [lvs; exact Om|].
    assert (F : follows m) by (split; [exact Om | apply Rm; lia]).
    lvs. eapply lv_mono; [apply skip_lives; [exact Om | lia]|]. intros r x (-> & Hr). lvs. eapply lv_mono; [apply overwrite_lives; [exact F | exact Hr]|]. intros rest y Fy. lvs.
    eapply lv_mono; [apply append_rest_lives, Fy|]. intros v z Fz. repeat lvs. eapply lv_mono; [apply commit_lives; exact (proj1 Fz)|]. intros v2 a (Oa & _). lvs. exact Oa.
  Qed.
  Lemma vote_lives : forall q n, ok n -> lv (fun _ n' => ok n') (handle_vote_req q) n.
  Proof. intros q n Ok. unfold handle_vote_req. do 2 lvs. cbv zeta. destruct (_ && _ && _); unfold save_state; repeat lvs; exact Ok. Qed.
  Lemma prevote_lives : forall q n, ok n -> lv (fun _ n' => ok n') (handle_prevote_req q) n.
  Proof. intros q n Ok. unfold handle_prevote_req. do 2 lvs. cbv zeta. lvs. exact Ok. Qed.
  Lemma is_leader_lives : forall now n, ok n -> lv (fun b n' => ok n' /\ same n n' /\ (b = true -> n_role n = Leader)) (is_leader now) n.
  Proof.
    intros now n Ok. unfold is_leader. do 2 lvs. cbv zeta.
    assert (B : (match n_role n with Leader => true | _ => false end) = true -> n_role n = Leader) by (destruct (n_role n); [discriminate | discriminate | reflexivity]).
    destruct (_ && _ && _); [|lvs; repeat split; try exact B; apply Ok]. do 2 lvs. destruct (_ <? _)%Z; lvs; (split; [exact Ok|]; split; [repeat split|]); [discriminate | exact B].
  Qed.
  Lemma cli_append_lives : forall t es n, lead n -> lv (fun _ n' => lead n') (cli_append t es) n.
  Proof.
    intros t es. induction es as [|e es IH]; intros n Ln; cbn [cli_append].
    - lvs. exact Ln.
    - cbv zeta. lvs. eapply lv_mono; [apply append_lives, Ln|]. intros i x (Ox & Rx & _). unfold next_slot_. repeat lvs. apply IH. split; [exact Ox|]. cbn. rewrite Rx. apply Ln.
  Qed.
  Lemma client_lives : forall now q n, ok n -> lv (fun _ n' => ok n') (handle_cli_req now q) n.
  Proof.
    intros now q n Ok. unfold handle_cli_req. lvs. eapply lv_mono; [apply is_leader_lives, Ok|]. intros b x (Ox & Sx & Bx). do 2 lvs.
    assert (G : b = true -> lv (fun _ n' => ok n') (cli_append (n_term x) (rq_entries q) ;;; request_append_entries ;;; nx <- next_slot_ ;; ret (accept nx (resp_of (n_term x) append_entries_response (n_id x) (n_leader x)))) x).
    { intros E. lvs. eapply lv_mono; [apply cli_append_lives; split; [exact Ox | rewrite (proj1 Sx); apply Bx, E]|]. intros u y Ly. lvs. eapply lv_mono; [apply serve_all_lives, Ly|].
      intros v z ((Oz & _) & _). unfold next_slot_. repeat lvs. exact Oz. }
    destruct (n_role x), b; cbv zeta; try (lvs; exact Ox); apply G; reflexivity.
  Qed.
  Lemma request_lives : forall now q n, ok n -> n_steps n = 0%Z ->
    rq_type q = append_entries_request \/ rq_type q = vote_request \/ rq_type q = prevote_request \/ rq_type q = client_request ->
    (rq_type q = append_entries_request -> rq_term q = n_term n -> n_role n <> Leader) -> lv (fun _ n' => ok n') (process_req now q) n.
  Proof.
    intros now q n Ok St T Nl. unfold process_req. cbv zeta. lvs.
    assert (Up : forall m, ok m -> lv (fun _ n' => ok n' /\ (n_term n' = rq_term q /\ n_role n' = Follower \/ rq_term q <= n_term m /\ n_term n' = n_term m /\ n_role n' = n_role m))
      (update_term (rq_term q) ;;; s <- get n_steps ;; when (0 <? s)%Z (modify (set_steps 2))) m).
    { intros m Om. lvs. eapply lv_mono; [apply update_lives, Om|]. intros up x (Ox & _ & Ux). do 2 lvs.
      assert (C : n_term x = rq_term q /\ n_role x = Follower \/ rq_term q <= n_term m /\ n_term x = n_term m /\ n_role x = n_role m) by (destruct Ux as [(_ & _ & U1 & U2)|(_ & U1 & ->)]; auto).
      lvs; [lvs|]; (split; [exact Ox | exact C]). }
    destruct T as [T|[T|[T|T]]]; rewrite T; cbn [beq Byte.eqb orb].
    - change (beq append_entries_request append_entries_request || beq append_entries_request vote_request || beq append_entries_request install_snapshot_request) with true. cbn [when].
      eapply lv_mono; [apply Up, Ok|]. intros u x (Ox & Cx). change (beq append_entries_request append_entries_request) with true. cbv iota. destruct Cx as [(C1 & C2)|(C1 & C2 & C3)].
      + apply entries_lives; [exact Ox | lia | rewrite C2; discriminate].
      + apply entries_lives; [exact Ox | lia | rewrite C2, C3; apply Nl, T].
    - change (beq vote_request append_entries_request || beq vote_request vote_request || beq vote_request install_snapshot_request) with true. cbn [when].
      eapply lv_mono; [apply Up, Ok|]. intros u x (Ox & _). change (beq vote_request append_entries_request) with false. change (beq vote_request vote_request) with true. cbv iota. apply vote_lives, Ox.
    - change (beq prevote_request append_entries_request || beq prevote_request vote_request || beq prevote_request install_snapshot_request) with false. cbn [when]. lvs.
      change (lv (fun _ n' => ok n') (handle_prevote_req q) n) || (unfold handle_extended_msg; rewrite T); apply prevote_lives, Ok.
    - change (beq client_request append_entries_request || beq client_request vote_request || beq client_request install_snapshot_request) with false. cbn [when]. lvs.
      change (beq client_request append_entries_request) with false. change (beq client_request vote_request) with false. change (beq client_request client_request) with true. cbv iota. apply client_lives, Ok.
  Qed.

  (** ** Answers *)
  Lemma entries_resp_lives : forall r n, ok n -> (n_role n = Leader -> rs_accepted r = true -> rs_next_idx r <= a_next (n_log n)) -> lv (fun _ n' => ok n') (handle_append_entries_resp r) n.
  Proof.
    intros r n Ok Hr. unfold handle_append_entries_resp. do 2 lvs. destruct (find_peer (rs_src r) (n_peers n)) as [p|] eqn:F; [|lvs; exact Ok].
    assert (Hj : In (rs_src r) (map fst U)).
    { apply find_some in F. destruct F as [F1 F2]. rewrite <- (ids_known n Ok). apply in_map_iff. exists p. split; [lia | exact F1]. }
    cbv zeta. lvs. apply lv_mono with (Q := fun _ n' => ok n').
    - destruct (rs_accepted r).
      + repeat lvs. set (m := upd_peer _ _ n).
        assert (Om : ok m) by (apply upd_sane; [exact Ok | auto|]; intros R x _; cbn; apply Hr; [exact R | reflexivity]).
        eapply lv_mono; [apply commit_lives, Om|]. intros u x (Ox & _). lvs. apply peer_lives; [exact Ox | exact Hj|]. intros p' _ _ _ _. unfold next_slot_. repeat lvs.
        exact (upd_keep (rs_src r) (p_set_pending false) x Ox (fun p => conj eq_refl (conj eq_refl eq_refl))).
      + repeat lvs. apply upd_sane; [exact Ok | |].
        * intros x. destruct (_ && _); [auto|]. destruct (0 <? p_next x); auto.
        * intros R x Hx. destruct Ok as (_ & _ & S3). assert (S5 := S3 R). rewrite Forall_forall in S5. specialize (S5 x Hx).
          destruct (_ && _) eqn:E; [cbn; apply andb_prop in E; lia|]. destruct (0 <? p_next x); cbn; lia.
    - intros need x Ox. do 2 lvs. destruct (n_role x) eqn:R; try (lvs; exact Ox). lvs; [|exact Ox]. lvs. eapply lv_mono; [apply serve_lives; [split; [exact Ox | exact R] | exact Hj]|].
      intros b y ((Oy & _) & _). lvs. exact Oy.
  Qed.
  Lemma voting_resp_lives : forall r n, ok n -> lv (fun _ n' => ok n') (handle_voting_resp r) n.
  Proof.
    intros r n Ok. unfold handle_voting_resp. do 2 lvs. destruct (negb _); [lvs; exact Ok|]. destruct (n_done n); [lvs; exact Ok|]. destruct (existsb _ _); [lvs; exact Ok|].
    assert (L : forall x, ok x -> lv (fun _ n' => ok n') become_leader x) by (intros x Ox; eapply lv_mono; [apply become_leader_lives, Ox | intros u y Hy; apply Hy]).
    repeat lvs; try (apply L); exact Ok.
  Qed.
  Lemma prevote_resp_lives : forall r n, ok n -> lv (fun _ n' => ok n') (handle_prevote_resp r) n.
  Proof.
    intros r n Ok. unfold handle_prevote_resp. do 2 lvs. destruct (n_prevote n) as [[acc voted]|] eqn:E; [|lvs; exact Ok].
    destruct (set_add (rs_src r) voted) as [voted' added]. destruct (negb added); [lvs; exact Ok|]. cbv zeta. do 2 lvs. destruct (majority _ _); [apply candidate_lives; exact Ok|].
    destruct (Nat.leb _ _); [|lvs; exact Ok]. do 2 lvs. eapply lv_mono; [apply restart_lives; exact Ok | intros u y Hy; apply Hy].
  Qed.
  Lemma peer_resp_lives : forall now r n, ok n -> rs_type r = vote_response \/ rs_type r = append_entries_response ->
    (n_role n = Leader -> rs_type r = append_entries_response -> rs_accepted r = true -> rs_next_idx r <= a_next (n_log n)) -> lv (fun _ n' => ok n') (handle_peer_resp now r) n.
  Proof.
    intros now r n Ok T Hr. unfold handle_peer_resp. do 2 lvs. destruct (find_peer (rs_src r) (n_peers n)) as [p|]; [|lvs; exact Ok]. do 2 lvs. lvs. set (m := upd_peer _ _ n).
    assert (Om : ok m) by (apply upd_keep; [exact Ok | auto]). eapply lv_mono; [apply update_lives, Om|]. intros up x (Ox & Lx & [(-> & _)|(-> & _ & ->)]); [lvs; exact Ox|].
    destruct T as [T|T]; rewrite T.
    - change (beq vote_response vote_response) with true. cbv iota. apply voting_resp_lives, Om.
    - change (beq append_entries_response vote_response) with false. change (beq append_entries_response append_entries_response) with true. cbv iota. apply entries_resp_lives; [exact Om|].
      intros R A. exact (Hr R T A).
  Qed.
  Lemma live_known : forall u n, ok n -> In u (map snd U) -> exists j, live_ref u n = Some (PPeer j) /\ In j (map fst U).
  Proof.
    intros u n Ok H. unfold live_ref. destruct (find (fun p => p_uid p =? u) (n_peers n)) as [p|] eqn:F.
    - exists (p_id p). split; [reflexivity|]. rewrite <- (ids_known n Ok). apply in_map. apply find_some in F. apply F.
    - exfalso. destruct Ok as (S1 & _). rewrite <- S1 in H. unfold pairs in H. rewrite map_map in H. apply in_map_iff in H. destruct H as (p & E & Hp). cbn in E.
      apply (find_none _ _ F) in Hp. lia.
  Qed.
  Lemma rpc_lives : forall now u (x : bool) (q : req) (r : option resp_msg) n, ok n -> In u (map snd U) ->
    match r with
    | Some a => if x then rs_type a = prevote_response
                else (rs_type a = vote_response \/ rs_type a = append_entries_response) /\
                     (n_role n = Leader -> rs_type a = append_entries_response -> rs_accepted a = true -> rs_next_idx a <= a_next (n_log n))
    | None => x = true -> rq_type q = prevote_request
    end -> lv (fun _ n' => ok n') (rpc_done now u x q r) n.
  Proof.
    intros now u x q r n Ok Hu Hr. destruct (live_known u n Ok Hu) as (j & Lv & Hj). unfold rpc_done. do 2 lvs. rewrite Lv. lvs.
    apply lv_mono with (Q := fun _ m => ok m /\ n_role m = n_role n /\ n_log m = n_log n).
    { lvs; [lvs|]; (split; [first [exact Ok | apply upd_keep; [exact Ok | auto]] | split; reflexivity]). }
    intros v m (Om & Rm & Lm). destruct r as [a|].
    - do 2 lvs. set (m2 := upd_peer _ _ m). assert (O2 : ok m2) by (apply upd_keep; [exact Om | auto]). destruct x.
      + unfold handle_ext_resp. do 2 lvs. rewrite Hr. change (lv (fun _ n' => ok n') (handle_prevote_resp a) m2). apply prevote_resp_lives, O2.
      + destruct Hr as [T Hr]. apply peer_resp_lives; [exact O2 | exact T|]. intros R. change (n_role m2) with (n_role m) in R. rewrite Rm in R. change (n_log m2) with (n_log m). rewrite Lm. apply Hr, R.
    - do 2 lvs. set (m2 := upd_peer _ _ m). assert (O2 : ok m2) by (apply upd_keep; [exact Om | auto]). lvs; [|exact O2]. unfold handle_ext_resp_err. cbv zeta. rewrite (Hr H).
      change (lv (fun _ n' => ok n') (ret tt) m2). lvs. exact O2.
  Qed.
  Lemma replicate_lives : forall now d n, ok n -> lv (fun _ n' => ok n') (replicate_log now d) n.
  Proof.
    intros now d n Ok. unfold replicate_log. lvs. eapply lv_mono; [apply is_leader_lives, Ok|]. intros b x (Ox & Sx & Bx). destruct b; cbn [negb]; [|lvs; exact Ox]. do 2 lvs.
    lvs. eapply lv_mono; [apply append_lives, Ox|]. intros i y (Oy & Ry & _). lvs. eapply lv_mono; [apply serve_all_lives; split; [exact Oy | rewrite Ry, (proj1 Sx); apply Bx; reflexivity]|].
    intros u z ((Oz & _) & _). lvs. exact Oz.
  Qed.
  Lemma api_append_lives : forall now logs n, ok n -> n_steps n = 0%Z -> lv (fun _ n' => ok n') (append_entries now logs) n.
  Proof.
    intros now logs n Ok St. unfold append_entries. destruct logs as [|d logs]; [lvs; exact Ok|]. set (q := api_req _ _). unfold send_msg_to_leader. do 2 lvs. destruct (_ =? -1)%Z; [lvs; exact Ok|].
    destruct (_ =? _)%Z.
    - lvs. eapply lv_mono; [apply request_lives; [exact Ok | exact St | right; right; right; reflexivity | discriminate]|]. intros r x Ox. lvs. exact Ox.
    - match goal with |- context [match find ?f ?l with _ => _ end] => destruct (find f l) end; [repeat lvs; exact Ok|]. destruct (cfg_server _ _); repeat lvs; exact Ok.
  Qed.
End Walk.
