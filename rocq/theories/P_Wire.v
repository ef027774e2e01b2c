(** * P_Wire: a cluster over byte connections is a cluster over messages (C101) *)

From Verif Require Import Base Buffer BufferSpec BufferProofs BufferTop Codec CodecSpec CodecProofs Msg FsLogStore FsLogSpec Rpc RpcSpec RpcProofs Raft NodeSpec NodeFacts NodeExamples Cluster ClusterElect ClusterExamples Bounds BoundsWalk P_Bounds P_Cluster Wire WireFacts.
Local Open Scope N_scope.

(** ** Connections *)
Lemma sent_bytes : forall qs rs bss, Forall2 req_is qs rs -> Forall2 (fun r bs => exists junk, rpc_encode junk r = Ok bs) rs bss ->
  bss = map req_bytes qs /\ Forall (fun q => 45 + lenN (evs_bytes (rq_entries q)) < two31) qs.
Proof.
  induction qs as [|q qs IH]; intros rs bss H H'.
  - inversion H; subst. inversion H'; subst. split; [reflexivity | constructor].
  - inversion H as [|? r ? rs' R Rs]; subst. inversion H' as [|? b ? bss' [junk K] Ks]; subst.
    destruct (encode_inv _ _ _ _ R K) as [-> L]. destruct (IH _ _ Rs Ks) as [-> F]. split; [reflexivity | constructor; assumption].
Qed.
Lemma wire_prefix : forall qs got, Forall req_ok qs -> on_wire qs got -> exists k, got = firstn k qs.
Proof.
  intros qs got O (rs & bss & p & rest & n & junk & hdr & log & l & s & R & E & C & I & S & G).
  destruct (sent_bytes qs rs bss R E) as [-> F]. destruct (cut_run junk qs n hdr log p rest l s I O F C S) as [[k K] _].
  exists k. eapply reqs_fun; eassumption.
Qed.

(** C101: Of requests written to a connection, whose fields are in range, exactly the first few
    arrive, unchanged, in order and once each, wherever the connection breaks and whatever the
    session's buffers hold; and the session never reads beyond its buffers. *)
Theorem C101_first_few_arrive : forall qs rs bss p rest n junk hdr log l s,
  Forall req_ok qs -> Forall2 req_is qs rs -> Forall2 (fun r bs => exists junk, rpc_encode junk r = Ok bs) rs bss ->
  concat bss = p ++ rest -> idle hdr -> session_run junk n hdr log p = (l, s) ->
  (exists k, Forall2 req_is (firstn k qs) l) /\ (forall u, s <> SUB u).
Proof.
  intros qs rs bss p rest n junk hdr log l s O R E C I S. destruct (sent_bytes qs rs bss R E) as [-> F].
  exact (cut_run junk qs n hdr log p rest l s I O F C S).
Qed.
Print Assumptions C101_first_few_arrive.

(** one request of at most 16 MiB arrives *)
Lemma wire_one : forall q, req_ok q -> lenN (evs_bytes (rq_entries q)) <= 16777216 -> on_wire [q] [q].
Proof.
  intros q O L. assert (L31 : 45 + lenN (evs_bytes (rq_entries q)) < two31) by (unfold two31; lia).
  set (r := mkReq (rq_term q) (rq_type q) (rq_src q) (rq_dst q) (rq_last_term q) (rq_last_idx q) (rq_commit q) (map raw_of (rq_entries q))).
  assert (R : req_is q r).
  { unfold req_is, r. cbn [rq_term rq_type rq_src rq_dst rq_last_term rq_last_idx rq_commit rq_entries]. repeat (split; [reflexivity|]). apply raw_of_all. lia. }
  assert (Lh : length (repeat x00 45) = 45%nat) by apply repeat_length.
  destruct (session_run_reqs (fun _ => x00) [q] 1 (bk [] (repeat x00 45)) (bk [] []) [] (bk_idle _ Lh)) as (l & h' & l' & S & _ & G); [constructor; [exact O | constructor] | constructor; [exact L | constructor] | cbn; lia|].
  cbn [map concat length Nat.sub] in S. rewrite !app_nil_r in S.
  destruct (session_run (fun _ => x00) 0 h' l' []) as [l2 s2] eqn:S2.
  assert (l2 = []). { cbn [session_run] in S2. destruct (session_step (fun _ => x00) h' l' []); inversion S2; reflexivity. }
  subst l2. rewrite app_nil_r in S.
  exists [r], [req_bytes q], (req_bytes q), [], 1%nat, (fun _ => x00), (bk [] (repeat x00 45)), (bk [] []), l, s2.
  split; [constructor; [exact R | constructor]|]. split; [constructor; [exists (fun _ => x00); apply rpc_encode_ok; assumption | constructor]|].
  split; [cbn [concat]; reflexivity|]. split; [apply bk_idle, Lh|]. split; [exact S | exact G].
Qed.
Lemma back_same : forall r r', resp_ok r -> comes_back r r' -> r' = r.
Proof.
  intros r r' O (j & j' & bs & E & D). rewrite resp_encode_ok in E. inversion E; subst bs. rewrite (resp_decode_ok j' r O) in D. congruence.
Qed.
Lemma back_ok : forall r, resp_ok r -> comes_back r r.
Proof. intros r O. exists (fun _ => x00), (fun _ => x00), (resp_bytes r). split; [apply resp_encode_ok | apply resp_decode_ok, O]. Qed.

(** what has been observed stays observed *)
Lemma hist_next : forall w i s o j x, In x (w_hist w j) -> In x (w_hist (next_world w i s o) j).
Proof.
  intros w i s o j x H. cbn [next_world w_hist]. unfold put. destruct (j =? i)%Z eqn:E; [|exact H]. assert (j = i) by lia. subst j. apply in_or_app. left. exact H.
Qed.
Lemma pieces_back : forall w i s o, pieces_fit (next_world w i s o) -> pieces_fit w.
Proof. intros w i s o H j q r (now & l & Ha). apply (H j q r). exists now, l. apply hist_next, Ha. Qed.
Section Run.
  Variable servers : list srv_config.
  Variable prm : Z -> params.
  Hypothesis HC : cluster_okay servers.
  Variable w0 : world.
  Hypothesis H0 : initial servers w0.

  Lemma id_int : forall i, In i (ids servers) -> is_int32 i.
  Proof.
    intros i Hi. destruct HC as (_ & _ & F & _). unfold ids in Hi. apply in_map_iff in Hi. destruct Hi as (s & <- & Hs). rewrite Forall_forall in F. apply F, Hs.
  Qed.

  Section World.
    Variable w : world.
    Hypothesis R : reach servers prm w0 w.
    Hypothesis Hw : work servers w + 2 < two64.

    Lemma sent_ok : forall k uid ext q, In k (ids servers) -> sent w k uid ext q -> In (rq_dst q) (ids servers) -> req_ok q.
    Proof.
      intros k uid ext q Hk Hs Hd. destruct (C100_no_wrap servers prm w0 w H0 R Hw) as (_ & _ & B & _). destruct (B k uid ext q Hs) as (B1 & B2 & B3 & B4 & _ & B6).
      destruct (b_acts _ _ (binv_reach servers prm w0 w H0 R) k _ Hs) as (_ & _ & Src). unfold req_ok, is_ulong.
      split; [rewrite Src; apply id_int, Hk|]. split; [apply id_int, Hd|]. split; [exact B1|]. split; [exact B2|]. split; [lia|]. split; [exact B3|].
      apply Forall_forall. exact B6.
    Qed.
    Lemma answer_ok : pieces_fit w -> forall i uid ext q r, In i (ids servers) -> sent w i uid ext q -> In (rq_dst q) (ids servers) -> answered w (rq_dst q) q r -> resp_ok r.
    Proof.
      intros P i uid ext q r Hi Hs Hd Ha. destruct (C100_no_wrap servers prm w0 w H0 R Hw) as (_ & _ & _ & B). destruct (B _ q r Ha) as [B1 B2].
      pose proof (binv_reach servers prm w0 w H0 R) as V. destruct (b_acts _ _ V i _ Hs) as ((Ty & _) & _ & Src). destruct (b_answers _ _ V _ q r Ha) as [_ F].
      destruct (F Ty) as [F1 F2]. unfold resp_ok, is_ulong. split; [rewrite F1; apply id_int, Hd|]. split; [rewrite F2, Src; apply id_int, Hi|]. split; [exact B1|].
      destruct (Byte.byte_eq_dec (rs_type r) install_snapshot_response) as [E|E]; [exact (P _ q r Ha E) | exact (B2 E)].
    Qed.

    Lemma written_ok : forall k i qs, In k (ids servers) -> In i (ids servers) -> written w k i qs -> Forall req_ok qs.
    Proof.
      intros k i qs Hk Hi H. apply Forall_forall. intros q Hq. destruct (H q Hq) as (uid & ext & Hs & Hd). eapply sent_ok; [exact Hk | exact Hs | rewrite Hd; exact Hi].
    Qed.
    Lemma arrived_in : forall qs got q, Forall req_ok qs -> on_wire qs got -> In q got -> In q qs.
    Proof. intros qs got q O W Hq. destruct (wire_prefix qs got O W) as [k ->]. rewrite <- (firstn_skipn k qs). apply in_or_app. left. exact Hq. Qed.

    Lemma no_difference : pieces_fit w -> forall i e, In i (ids servers) -> wpossible servers w i e -> possible servers w i e.
    Proof.
      intros P i e Hi H. destruct e as [| |now q|now uid ext q [r|]| | | | | | |]; try exact H.
      - cbn [wpossible possible] in *. destruct H as (qs & got & W & Hq & [(k & Hk & Wr)|Cl]).
        + left. assert (O := written_ok k i qs Hk Hi Wr). pose proof (arrived_in qs got q O W Hq) as Hin. destruct (Wr q Hin) as (uid & ext & Hs & Hd). exists k, uid, ext. auto.
        + right. assert (O : Forall req_ok qs) by (eapply Forall_impl; [|exact Cl]; intros x [_ X]; exact X).
          pose proof (arrived_in qs got q O W Hq) as Hin. rewrite Forall_forall in Cl. apply Cl, Hin.
      - cbn [wpossible possible] in *. destruct H as (Hs & Hd & qs & got & m & q' & r0 & Wr & W & N1 & N2 & Ha & Hb).
        assert (O := written_ok i (rq_dst q) qs Hi Hd Wr). destruct (wire_prefix qs got O W) as [k ->].
        assert (q' = q).
        { clear - N1 N2. revert k m N1 N2. induction qs as [|x qs IH]; intros [|k] [|m] N1 N2; cbn in *; try discriminate; [congruence | eauto]. }
        subst q'. assert (Or := answer_ok P i uid ext q r0 Hi Hs Hd Ha). rewrite (back_same r0 r Or Hb). auto.
    Qed.
    Lemma nothing_lost : pieces_fit w -> forall i e, In i (ids servers) -> possible servers w i e ->
      (forall now q, e = ERequest now q -> lenN (evs_bytes (rq_entries q)) <= 16777216 /\ (client_req q -> req_ok q)) ->
      (forall j now q l a, In (mkObs (ERequest now q) l a) (w_hist w j) -> lenN (evs_bytes (rq_entries q)) <= 16777216) ->
      wpossible servers w i e.
    Proof.
      intros P i e Hi H He Hh. destruct e as [| |now q|now uid ext q [r|]| | | | | | |]; try exact H.
      - destruct (He now q eq_refl) as [L Cq]. cbn [wpossible possible] in *. exists [q], [q]. destruct H as [(k & uid & ext & Hk & Hs & Hd)|Cl].
        + split; [apply wire_one; [eapply sent_ok; [exact Hk | exact Hs | rewrite Hd; exact Hi] | exact L]|]. split; [left; reflexivity|]. left. exists k. split; [exact Hk|].
          intros x [<-|[]]. exists uid, ext. auto.
        + split; [apply wire_one; [apply Cq, Cl | exact L]|]. split; [left; reflexivity|]. right. constructor; [auto | constructor].
      - cbn [wpossible possible] in *. destruct H as (Hs & Hd & Ha). split; [exact Hs|]. split; [exact Hd|]. exists [q], [q], 0%nat, q, r.
        split; [intros x [<-|[]]; exists uid, ext; auto|].
        assert (L : lenN (evs_bytes (rq_entries q)) <= 16777216) by (destruct Ha as (t & l & Ha); eapply Hh, Ha).
        split; [apply wire_one; [exact (sent_ok i uid ext q Hi Hs Hd) | exact L]|]. split; [reflexivity|]. split; [reflexivity|]. split; [exact Ha|].
        apply back_ok. exact (answer_ok P i uid ext q r Hi Hs Hd Ha).
    Qed.
  End World.

  Lemma work_back : forall w i s o, In i (ids servers) -> work servers (next_world w i s [o]) + 2 < two64 -> work servers w + 2 < two64.
  Proof. intros w i s o Hi H. destruct (P_Bounds.grows servers prm w i s o Hi) as [_ G]. lia. Qed.
End Run.

(** C101: Whatever happens to a cluster over byte connections also happens to a cluster
    over messages: encoding, connections that break at any byte, and decoding make no difference
    but the loss of messages.  So everything proved of Cluster.v's runs holds of the runs here. *)
Theorem C101_bytes_make_no_difference : forall servers prm w0 w,
  cluster_okay servers -> initial servers w0 -> wreach servers prm w0 w ->
  work servers w + 2 < two64 -> pieces_fit w -> reach servers prm w0 w.
Proof.
  intros servers prm w0 w HC H0 R. induction R as [|w w' R IH S]; intros Hw P; [apply Reach_0|].
  assert (W : forall i s o, In i (ids servers) -> w' = next_world w i s [o] -> work servers w + 2 < two64 /\ pieces_fit w).
  { intros i s o Hi ->. split; [exact (work_back servers prm w i s _ Hi Hw) | exact (pieces_back _ _ _ _ P)]. }
  destruct S as [i n e r n' l Hi En Pe E Hg | i n e r n' l Hi En Pe E Hg | i n e r n' p q Hi En Pe E | i d Hi Ed].
  - destruct (W i _ _ Hi eq_refl) as [W1 W2]. eapply Reach_S; [apply IH; assumption|]. eapply W_event; try eassumption. eapply no_difference; eauto.
  - destruct (W i _ _ Hi eq_refl) as [W1 W2]. eapply Reach_S; [apply IH; assumption|]. eapply W_stop; try eassumption. eapply no_difference; eauto.
  - destruct (W i _ _ Hi eq_refl) as [W1 W2]. eapply Reach_S; [apply IH; assumption|]. eapply W_crash; try eassumption. eapply no_difference; eauto.
  - rewrite (proj2 (start_same servers prm w i _)) in Hw. eapply Reach_S; [apply IH; [exact Hw | exact (pieces_back _ _ _ _ P)]|]. apply W_start; assumption.
Qed.
Print Assumptions C101_bytes_make_no_difference.

(** Conversely every run over messages is a run over bytes if every request delivered in it
    carries at most 16 MiB of entries and those of clients have their fields in range. *)
Theorem C101_every_run_in_bytes : forall servers prm w0 w,
  cluster_okay servers -> initial servers w0 -> reach servers prm w0 w ->
  work servers w + 2 < two64 -> pieces_fit w ->
  (forall j now q l a, In (mkObs (ERequest now q) l a) (w_hist w j) ->
     lenN (evs_bytes (rq_entries q)) <= 16777216 /\ (client_req q -> req_ok q)) ->
  wreach servers prm w0 w.
Proof.
  intros servers prm w0 w HC H0 R. induction R as [|w w' R IH S]; intros Hw P D; [apply WReach_0|].
  assert (Dd : (forall j x, In x (w_hist w j) -> In x (w_hist w' j)) -> forall j now q l a, In (mkObs (ERequest now q) l a) (w_hist w j) ->
     lenN (evs_bytes (rq_entries q)) <= 16777216 /\ (client_req q -> req_ok q)).
  { intros K j now q l a Hin. apply (D j now q l a), K, Hin. }
  assert (De : forall i s e l a, w' = next_world w i s [mkObs e l a] -> In i (ids servers) ->
    (forall now q, e = ERequest now q -> lenN (evs_bytes (rq_entries q)) <= 16777216 /\ (client_req q -> req_ok q)) /\ work servers w + 2 < two64 /\ pieces_fit w /\
    (forall j x, In x (w_hist w j) -> In x (w_hist w' j))).
  { intros i s e l a -> Hi. split; [|split; [exact (work_back servers prm w i s _ Hi Hw) | split; [exact (pieces_back _ _ _ _ P) | intros j x; apply hist_next]]].
    intros now q ->. apply (D i now q l a). cbn [next_world w_hist]. unfold put. rewrite Z.eqb_refl. apply in_or_app. right. left. reflexivity. }
  destruct S as [i n e r n' l Hi En Pe E Hg | i n e r n' l Hi En Pe E Hg | i n e r n' p q Hi En Pe E | i d Hi Ed].
  - destruct (De i _ _ _ _ eq_refl Hi) as (K1 & K2 & K3 & K4). eapply WReach_S; [apply IH; [exact K2 | exact K3 | exact (Dd K4)]|]. eapply B_event; try eassumption. eapply nothing_lost; eauto. intros j now q l0 a Hin. apply (Dd K4 j now q l0 a Hin).
  - destruct (De i _ _ _ _ eq_refl Hi) as (K1 & K2 & K3 & K4). eapply WReach_S; [apply IH; [exact K2 | exact K3 | exact (Dd K4)]|]. eapply B_stop; try eassumption. eapply nothing_lost; eauto. intros j now q l0 a Hin. apply (Dd K4 j now q l0 a Hin).
  - destruct (De i _ _ _ _ eq_refl Hi) as (K1 & K2 & K3 & K4). eapply WReach_S; [apply IH; [exact K2 | exact K3 | exact (Dd K4)]|]. eapply B_crash; try eassumption. eapply nothing_lost; eauto. intros j now q0 l0 a Hin. apply (Dd K4 j now q0 l0 a Hin).
  - rewrite (proj2 (start_same servers prm w i _)) in Hw. eapply WReach_S; [apply IH; [exact Hw | exact (pieces_back _ _ _ _ P) | apply Dd; intros j x; apply hist_next]|]. apply B_start; assumption.
Qed.
Print Assumptions C101_every_run_in_bytes.

(** Messages name their sender and their receiver: a request carries the id of the server that
    sent it, a response that of the server that gave it and that of the server that asked. *)
Theorem C101_messages_name_servers : forall servers prm w0 w, initial servers w0 -> reach servers prm w0 w ->
  forall i uid ext q, sent w i uid ext q ->
  rq_src q = i /\ (forall j r, answered w j q r -> rs_src r = j /\ rs_dst r = i).
Proof.
  intros servers prm w0 w H0 R i uid ext q Hs. pose proof (binv_reach servers prm w0 w H0 R) as V. destruct (b_acts _ _ V i _ Hs) as ((Ty & _) & _ & Src).
  split; [exact Src|]. intros j r Ha. destruct (b_answers _ _ V _ q r Ha) as [_ F]. destruct (F Ty) as [F1 F2]. split; [exact F1 | congruence].
Qed.
Print Assumptions C101_messages_name_servers.

(** For instance: over byte connections too a term has one leader, and two servers that apply
    entries with the same index and term apply the same entry. *)
Theorem C101_one_leader_in_bytes : forall servers prm w0 w,
  cluster_okay servers -> initial servers w0 -> wreach servers prm w0 w -> work servers w + 2 < two64 -> pieces_fit w ->
  forall i j t, led servers w i t -> led servers w j t -> i = j.
Proof.
  intros servers prm w0 w HC H0 R Hw P. exact (C35_one_leader_per_term servers prm w0 w HC H0 (C101_bytes_make_no_difference servers prm w0 w HC H0 R Hw P)).
Qed.
Theorem C101_same_entry_in_bytes : forall servers prm w0 w,
  cluster_okay servers -> no_snapshots prm -> initial servers w0 -> wreach servers prm w0 w -> work servers w + 2 < two64 -> pieces_fit w ->
  forall i j k e f, applied servers w i k e -> applied servers w j k f -> ev_term e = ev_term f -> e = f.
Proof.
  intros servers prm w0 w HC HS H0 R Hw P. exact (C38_same_term_same_entry_partial servers prm w0 w HC HS H0 (C101_bytes_make_no_difference servers prm w0 w HC H0 R Hw P)).
Qed.
Print Assumptions C101_one_leader_in_bytes.
Print Assumptions C101_same_entry_in_bytes.

(** ** A run over bytes *)
Lemma hist_outside : forall servers prm w0 w, reach servers prm w0 w -> forall j, ~ In j (ids servers) -> w_hist w j = w_hist w0 j.
Proof.
  intros servers prm w0 w R. induction R as [|w w' R IH S]; intros j Hj; [reflexivity|]. rewrite <- (IH j Hj).
  destruct S; cbn [next_world w_hist]; unfold put; (destruct (j =? i)%Z eqn:E; [|reflexivity]); assert (j = i) by lia; subst; contradiction.
Qed.
(** requests are small and in range, answers too *)
Definition int32_b (z : Z) : bool := (-2147483648 <=? z)%Z && (z <=? 2147483647)%Z.
Definition fine (o : obs) : bool :=
  match o_event o with
  | ERequest _ q => (lenN (evs_bytes (rq_entries q)) <=? 16777216) && int32_b (rq_src q) && int32_b (rq_dst q) &&
      (rq_term q <? two64) && (rq_last_term q <? two64) && (rq_last_idx q <? two64) && (rq_commit q <? two64) && forallb (fun v => ev_term v <? two64) (rq_entries q)
  | _ => true
  end && match o_answer o with Some (Response r) => rs_next_idx r <? two64 | _ => true end.
Lemma fine_req : forall now q l a, fine (mkObs (ERequest now q) l a) = true -> lenN (evs_bytes (rq_entries q)) <= 16777216 /\ req_ok q.
Proof.
  intros now q l a H. unfold fine in H. cbn [o_event o_answer] in H. apply andb_prop in H. destruct H as [H _]. repeat (apply andb_prop in H; let K := fresh in destruct H as [H K]).
  split; [lia|]. unfold req_ok, is_int32, is_ulong, int32_b in *. repeat match goal with |- _ /\ _ => split end; try lia.
  apply Forall_forall. intros v Hv. match goal with K : forallb _ _ = true |- _ => rewrite forallb_forall in K; specialize (K v Hv); cbv beta in K; lia end.
Qed.

Lemma fine_run : forall w, reach ex_servers (fun _ => ex_prm) ex_world w -> forallb (fun j => forallb fine (w_hist w j)) (ids ex_servers) = true ->
  work ex_servers w + 2 < two64 -> wreach ex_servers (fun _ => ex_prm) ex_world w /\ pieces_fit w.
Proof.
  intros w R F Hw.
  assert (G : forall j o, In o (w_hist w j) -> fine o = true).
  { intros j o Ho. destruct (in_dec Z.eq_dec j (ids ex_servers)) as [Hj|Hj].
    - rewrite forallb_forall in F. specialize (F j Hj). rewrite forallb_forall in F. exact (F o Ho).
    - rewrite (hist_outside _ _ _ _ R j Hj) in Ho. destruct (ex_initial j) as [K _]. rewrite K in Ho. contradiction. }
  assert (P : pieces_fit w).
  { intros j q r (now & l & Ha) _. apply G in Ha. unfold fine in Ha. apply andb_prop in Ha. destruct Ha as [_ Ha]. cbn [o_answer] in Ha. apply N.ltb_lt, Ha. }
  split; [|exact P]. apply (C101_every_run_in_bytes ex_servers (fun _ => ex_prm) ex_world w ex_okay ex_initial R Hw P).
  intros j now q l a Hin. destruct (fine_req now q l a (G j _ Hin)) as [L O]. auto.
Qed.

(** the hypotheses of C101 in a run in which a leader is elected, two servers replicate and
    apply entries, and a client's request arrives *)
Definition ex_bytes : list kcmd :=
  ex_small ++ [KDo 1 (ERequest 0 (mkReq 0 client_request 7 1 0 0 0 [mkEV 0 app_log [x64]])); KRpc 1 3 0; KDo 1 ECommit; KDeliver 1 2 0].
Example C101_run : let w := ex_run ex_bytes in
  cluster_okay ex_servers /\ initial ex_servers ex_world /\ wreach ex_servers (fun _ => ex_prm) ex_world w /\ work ex_servers w + 2 < two64 /\ pieces_fit w /\
  led ex_servers w 1 1 /\ events ex_servers w = 23 /\
  exists n, w_sys w 1 = Up n /\ (n_role n, n_term n, a_next (n_log n)) = (Leader, 1, 6).
Proof.
  cbv zeta. split; [exact ex_okay|]. split; [exact ex_initial|].
  assert (R : reach ex_servers (fun _ => ex_prm) ex_world (ex_run ex_bytes)) by apply ex_reach.
  assert (Hw : work ex_servers (ex_run ex_bytes) + 2 < two64) by (vm_compute; reflexivity).
  destruct (fine_run (ex_run ex_bytes) R) as [W P]; [vm_compute; reflexivity | exact Hw|].
  split; [exact W|]. split; [exact Hw|]. split; [exact P|]. split; [|split; [vm_compute; reflexivity|]].
  - split; [left; reflexivity|]. assert (E : existsb (fun a => match a with ABecomeLeader t => t =? 1 | _ => false end) (w_acts (ex_run ex_bytes) 1) = true) by (vm_compute; reflexivity).
    apply existsb_exists in E. destruct E as (a & Ha & E). destruct a; try discriminate E. apply N.eqb_eq in E. rewrite E in Ha. exact Ha.
  - eexists. split; [vm_compute; reflexivity | vm_compute; reflexivity].
Qed.
