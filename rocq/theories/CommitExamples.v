(** * CommitExamples: running concrete clusters and checking the rules of CommitSpec.v *)

From Verif Require Import Base Buffer Codec CodecSpec Msg FsLogStore FsLogSpec Alog Raft NodeSpec NodeExamples Cluster ClusterElect CommitSpec ClusterExamples.
Local Open Scope N_scope.

Section Check.
  Variable servers : list srv_config.
  Variable prm : Z -> params.

  Definition ackedb (w : world) (j : Z) (t k : N) : bool :=
    (0 <? k) && existsb (fun o => match o with
      | mkObs (ERequest _ q) _ (Some (Response r)) =>
          beq (rq_type q) append_entries_request && rs_accepted r && (rq_term q =? t) && (k <=? rq_last_idx q + lenN (rq_entries q))
      | _ => false
      end) (w_hist w j).
  Lemma ackedb_ok : forall w j t k, ackedb w j t k = true -> acked w j t k.
  Proof.
    intros w j t k H. apply andb_prop in H. destruct H as [H1 H]. split; [lia|]. apply existsb_exists in H. destruct H as ([e l a] & Hin & H).
    destruct e as [| |now q|now uid ext q r|uid q| |sn d ok| | | |]; try discriminate. destruct a as [[|r|b|x]|]; try discriminate.
    apply andb_prop in H. destruct H as [H H4]. apply andb_prop in H. destruct H as [H H3]. apply andb_prop in H. destruct H as [H H2].
    exists q, r. split; [exists now, l; exact Hin|]. split; [apply Byte.byte_dec_bl; exact H|]. split; [exact H2|]. split; lia.
  Qed.
  Definition majb (w : world) (i : Z) (n : node) (m : N) : bool :=
    memb servers i && existsb (N.eqb (n_term n)) (leads (w_acts w i)) &&
    match a_get (n_log n) m with Some x => ev_term x =? n_term n | None => false end &&
    (length (ids servers) <? 2 * length (filter (fun j => (j =? i)%Z || ackedb w j (n_term n) m) (ids servers)))%nat.
  Lemma majb_ok : forall w i n m, NoDup (ids servers) -> majb w i n m = true -> majority_has servers w i n m.
  Proof.
    intros w i n m ND H. apply andb_prop in H. destruct H as [H H4]. apply andb_prop in H. destruct H as [H H3]. apply andb_prop in H. destruct H as [H1 H2].
    split; [|split].
    - split; [apply (memb_in servers prm), H1|]. apply existsb_exists in H2. destruct H2 as (t & Ht & E). apply N.eqb_eq in E. rewrite E. apply leads_in, Ht.
    - destruct (a_get (n_log n) m) as [x|]; [|discriminate]. exists x. split; [reflexivity | lia].
    - eexists. split; [apply NoDup_filter, ND|]. split; [|split; [apply Nat.ltb_lt, H4|]].
      + intros j Hj. apply filter_In in Hj. apply Hj.
      + intros j Hj. apply filter_In in Hj. destruct Hj as [_ Hj]. apply orb_prop in Hj. destruct Hj as [Hj|Hj]; [left; lia | right; apply ackedb_ok, Hj].
  Qed.
  Definition rulesb (w : world) (i : Z) (n : node) (e : event) (n' : node) : bool :=
    match e with
    | ERpc _ _ _ _ (Some _) => (n_quick n' <=? n_quick n) || majb w i n (n_quick n')
    | ERequest _ q => negb (beq (rq_type q) append_entries_request) || (rq_commit q <=? n_quick n) ||
        (rq_commit q <=? rq_last_idx q + lenN (rq_entries q)) || (a_next (n_log n) <=? rq_last_idx q + lenN (rq_entries q) + 1)
    | _ => true
    end.
  Lemma rulesb_ok : forall w i n e n', NoDup (ids servers) -> rulesb w i n e n' = true -> rules servers w i n e n'.
  Proof.
    intros w i n e n' ND H. destruct e as [| |now q|now uid ext q r|uid q| |sn d ok| | | |]; try exact I.
    - cbn [rules rulesb] in *. intros T Lt. rewrite T in H. change (beq append_entries_request append_entries_request) with true in H. unfold covered. cbn [negb orb] in H.
      apply orb_prop in H. destruct H as [H|H]; [|right; lia]. apply orb_prop in H. destruct H as [H|H]; [lia | left; lia].
    - destruct r as [r|]; [|exact I]. cbn [rules rulesb] in *. intros Lt. apply orb_prop in H. destruct H as [H|H]; [lia | apply majb_ok; assumption].
  Qed.
  Definition localb (w : world) (i : Z) (n : node) (e : event) (n' : node) : bool :=
    match e with
    | ERpc _ _ _ _ (Some _) => (n_quick n' <=? n_quick n) ||
        (match n_role n with Leader => true | _ => false end && forallb (fun t => t =? n_term n) (leads (w_acts w i)) &&
         match a_get (n_log n) (n_quick n') with Some x => ev_term x =? n_term n | None => false end)
    | _ => rulesb w i n e n'
    end.
  Lemma localb_ok : forall w i n e n', NoDup (ids servers) -> localb w i n e n' = true -> local_rules servers w i n e n'.
  Proof.
    intros w i n e n' ND H. destruct e as [| |now q|now uid ext q r|uid q| |sn d ok| | | |]; try exact I; [exact (rulesb_ok w i n (ERequest now q) n' ND H)|].
    destruct r as [r|]; [|exact I]. cbn [local_rules localb] in *. intros Lt. apply orb_prop in H. destruct H as [H|H]; [lia|].
    apply andb_prop in H. destruct H as [H H3]. apply andb_prop in H. destruct H as [H1 H2]. split; [destruct (n_role n); try discriminate; reflexivity|]. split.
    - intros t [_ Ht]. rewrite forallb_forall in H2. apply leads_in in Ht. specialize (H2 t Ht). lia.
    - destruct (a_get (n_log n) (n_quick n')) as [x|]; [|discriminate]. exists x. split; [reflexivity | lia].
  Qed.
End Check.

Section Run.
  Variable servers : list srv_config.
  Variable prm : Z -> params.
  Variable rule : world -> Z -> node -> event -> node -> Prop.
  Variable ruleb : world -> Z -> node -> event -> node -> bool.
  Hypothesis ruleb_ok : forall w i n e n', NoDup (ids servers) -> ruleb w i n e n' = true -> rule w i n e n'.
  Notation careful s := (obeys s rule).

  Definition ok_at (w : world) (i : Z) (e : event) : bool :=
    match w_sys w i with Up n => let '(_, n', _) := run_event e n in ruleb w i n e n' | Down _ => true end.
  Lemma careful_next : forall w0 w i n e x l a, careful servers prm w0 w -> NoDup (ids servers) -> w_sys w i = Up n ->
    step servers prm w (next_world w i x [mkObs e l a]) -> ok_at w i e = true -> careful servers prm w0 (next_world w i x [mkObs e l a]).
  Proof.
    intros w0 w i n e x l a C ND Hs St Ok. eapply Careful_S; [exact C | exact St|]. intros j m f n' Hj (Hm & (l1 & a1 & Hh) & (r1 & l2 & Hr)).
    unfold next_world in Hh. cbn [w_hist] in Hh. destruct (Z.eq_dec j i) as [->|Hne].
    - rewrite put_same in Hh. apply app_inv_head in Hh. inversion Hh; subst f l1 a1. unfold ok_at in Ok. rewrite Hm, Hr in Ok. apply ruleb_ok; assumption.
    - rewrite put_other in Hh by exact Hne. exfalso. apply (f_equal (@length obs)) in Hh. rewrite app_length in Hh. cbn in Hh. lia.
  Qed.
  Lemma event_at_careful : forall w0 w i e, careful servers prm w0 w -> NoDup (ids servers) -> In i (ids servers) -> possible servers w i e -> ok_at w i e = true ->
    careful servers prm w0 (fst (event_at w i e)).
  Proof.
    intros w0 w i e C ND Hi P Ok. unfold event_at. destruct (w_sys w i) as [n|d] eqn:Es; [|exact C].
    destruct (run_event e n) as [[r n'] l] eqn:Er. destruct (goes_on r) eqn:Eg; cbn [fst]; (eapply careful_next; [exact C | exact ND | exact Es | | exact Ok]).
    - eapply W_event; eassumption.
    - eapply W_stop; eassumption.
  Qed.

  Definition ok_k (w : world) (c : kcmd) : bool :=
    match c with
    | KStart _ => true
    | KDo i e => ok_at w i e
    | KDeliver k j m => match pick w k j m with Some (_, _, q) => ok_at w j (ERequest 0 q) | None => true end
    | KRpc k j m =>
        match pick w k j m with
        | Some (u, x, q) =>
            ok_at w j (ERequest 0 q) &&
            (let '(w1, a) := event_at w j (ERequest 0 q) in match a with Some r => ok_at w1 k (ERpc 0 u x q (Some r)) | None => true end)
        | None => true
        end
    | KLost k j m => match pick w k j m with Some (u, x, q) => ok_at w k (ERpc 0 u x q None) | None => true end
    | KCrash i e _ => ok_at w i e
    | KSnap i data => match asked_snp (w_acts w i) with Some s => ok_at w i (ESnapshot s data true) | None => true end
    | KHalf k j m _ => match pick w k j m with Some (_, _, q) => ok_at w j (ERequest 0 q) | None => true end
    | KLate k j m =>
        match pick w k j m with
        | Some (u, x, q) => match answer_to q (w_hist w j) with Some r => ok_at w k (ERpc 0 u x q (Some r)) | None => true end
        | None => true
        end
    end.
  Lemma run_k_careful : forall w0 w c, careful servers prm w0 w -> NoDup (ids servers) -> ok_k w c = true -> careful servers prm w0 (run_k servers prm w c).
  Proof.
    intros w0 w c R ND Ok. destruct c as [i|i e|k j m|k j m|k j m|i e c|i data|k j m c|k j m]; cbn [run_k ok_k] in *.
    - destruct (w_sys w i) as [n|d] eqn:Es; [exact R|]. destruct (memb servers i) eqn:Em; [|exact R]. eapply Careful_S; [exact R | apply W_start; [apply (memb_in servers prm), Em | exact Es]|].
      intros j m f n' Hj (Hm & (l1 & a1 & Hh) & _). exfalso. unfold next_world in Hh. cbn [w_hist] in Hh. destruct (Z.eq_dec j i) as [->|Hne].
      + congruence.
      + rewrite put_other in Hh by exact Hne. apply (f_equal (@length obs)) in Hh. rewrite app_length in Hh. cbn in Hh. lia.
    - destruct (memb servers i) eqn:Em; [|exact R]. destruct (always e) eqn:Ea; [|exact R]. cbn [andb]. apply event_at_careful; [exact R | exact ND | apply (memb_in servers prm), Em | apply (always_ok servers), Ea | exact Ok].
    - destruct (pick w k j m) as [[[u x] q]|] eqn:Ep; [|exact R]. destruct (memb servers k) eqn:Ek; [|exact R]. destruct (memb servers j) eqn:Ej; [|exact R]. cbn [andb].
      destruct (pick_sent prm _ _ _ _ _ _ _ Ep) as [P1 P2].
      apply event_at_careful; [exact R | exact ND | apply (memb_in servers prm), Ej| | exact Ok]. left. exists k, u, x. split; [apply (memb_in servers prm), Ek|]. split; assumption.
    - destruct (pick w k j m) as [[[u x] q]|] eqn:Ep; [|exact R]. destruct (memb servers k) eqn:Ek; [|exact R]. destruct (memb servers j) eqn:Ej; [|exact R]. cbn [andb].
      destruct (pick_sent prm _ _ _ _ _ _ _ Ep) as [P1 P2]. apply andb_prop in Ok. destruct Ok as [Ok1 Ok2].
      assert (R1 : careful servers prm w0 (fst (event_at w j (ERequest 0 q)))).
      { apply event_at_careful; [exact R | exact ND | apply (memb_in servers prm), Ej| | exact Ok1]. left. exists k, u, x. split; [apply (memb_in servers prm), Ek|]. split; assumption. }
      assert (S1 := event_at_sent w j (ERequest 0 q) k u x q P1). assert (A1 := event_at_answer w j 0 q).
      destruct (event_at w j (ERequest 0 q)) as [w1 [r|]]; cbn [fst snd] in *; [|exact R1].
      apply event_at_careful; [exact R1 | exact ND | apply (memb_in servers prm), Ek| | exact Ok2]. split; [exact S1|]. rewrite P2. split; [apply (memb_in servers prm), Ej | apply A1; reflexivity].
    - destruct (pick w k j m) as [[[u x] q]|] eqn:Ep; [|exact R]. destruct (memb servers k) eqn:Ek; [|exact R].
      destruct (pick_sent prm _ _ _ _ _ _ _ Ep) as [P1 P2]. apply event_at_careful; [exact R | exact ND | apply (memb_in servers prm), Ek | exact P1 | exact Ok].
    - destruct (memb servers i) eqn:Em; [|exact R]. destruct (always e) eqn:Ea; [|exact R]. cbn [andb]. destruct (w_sys w i) as [n|d] eqn:Es; [|exact R].
      destruct (run_event e n) as [[r n'] l] eqn:Er. eapply careful_next; [exact R | exact ND | exact Es | | exact Ok].
      eapply (W_crash servers prm w i n e r n' (firstn c l) (skipn c l)); [apply (memb_in servers prm), Em | exact Es | apply (always_ok servers), Ea | rewrite firstn_skipn; exact Er].
    - destruct (asked_snp (w_acts w i)) as [s|] eqn:Ea; [|exact R]. destruct (memb servers i) eqn:Em; [|exact R].
      apply event_at_careful; [exact R | exact ND | apply (memb_in servers prm), Em | apply asked_snp_in, Ea | exact Ok].
    - destruct (pick w k j m) as [[[u x] q]|] eqn:Ep; [|exact R]. destruct (w_sys w j) as [n|d] eqn:Es; [|exact R].
      destruct (memb servers k) eqn:Ek; [|exact R]. destruct (memb servers j) eqn:Ej; [|exact R]. cbn [andb].
      destruct (pick_sent prm _ _ _ _ _ _ _ Ep) as [P1 P2].
      destruct (run_event (ERequest 0 q) n) as [[r n'] l] eqn:Er. eapply careful_next; [exact R | exact ND | exact Es | | exact Ok].
      eapply (W_crash servers prm w j n (ERequest 0 q) r n' (firstn c l) (skipn c l)); [apply (memb_in servers prm), Ej | exact Es | | rewrite firstn_skipn; exact Er].
      left. exists k, u, x. split; [apply (memb_in servers prm), Ek|]. split; assumption.
    - destruct (pick w k j m) as [[[u x] q]|] eqn:Ep; [|exact R]. destruct (memb servers k) eqn:Ek; [|exact R]. destruct (memb servers j) eqn:Ej; [|exact R]. cbn [andb].
      destruct (pick_sent prm _ _ _ _ _ _ _ Ep) as [P1 P2]. destruct (answer_to q (w_hist w j)) as [r|] eqn:Ea; [|exact R].
      apply event_at_careful; [exact R | exact ND | apply (memb_in servers prm), Ek| | exact Ok]. split; [exact P1|]. rewrite P2. split; [apply (memb_in servers prm), Ej | apply answer_to_in, Ea].
  Qed.
  Fixpoint ok_ks (w : world) (cs : list kcmd) : bool :=
    match cs with [] => true | c :: cs => ok_k w c && ok_ks (run_k servers prm w c) cs end.
  Lemma run_ks_careful : forall cs w0 w, careful servers prm w0 w -> NoDup (ids servers) -> ok_ks w cs = true -> careful servers prm w0 (fold_left (run_k servers prm) cs w).
  Proof.
    induction cs as [|c cs IH]; intros w0 w R ND Ok; [exact R|]. cbn [fold_left ok_ks] in *. apply andb_prop in Ok. destruct Ok as [Ok1 Ok2].
    apply IH; [apply run_k_careful; assumption | exact ND | exact Ok2].
  Qed.
End Run.

Lemma ex_careful_with : forall pm cs, ok_ks ex_servers (fun _ => pm) (rulesb ex_servers) ex_world cs = true -> careful ex_servers (fun _ => pm) ex_world (ex_run_with pm cs).
Proof. intros pm cs H. apply (run_ks_careful ex_servers (fun _ => pm) (rules ex_servers) (rulesb ex_servers)); [apply (rulesb_ok ex_servers (fun _ => pm)) | constructor | apply ex_okay | exact H]. Qed.
Lemma ex_cautious_with : forall pm cs, ok_ks ex_servers (fun _ => pm) (localb ex_servers) ex_world cs = true -> cautious ex_servers (fun _ => pm) ex_world (ex_run_with pm cs).
Proof. intros pm cs H. apply (run_ks_careful ex_servers (fun _ => pm) (local_rules ex_servers) (localb ex_servers)); [apply (localb_ok ex_servers (fun _ => pm)) | constructor | apply ex_okay | exact H]. Qed.
