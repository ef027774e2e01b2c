(** * WireFacts: what a session makes of the bytes of a connection that may break *)

From Verif Require Import Base Buffer BufferSpec BufferProofs BufferTop Codec CodecSpec CodecProofs Msg Rpc RpcSpec RpcProofs.
Local Open Scope N_scope.

(** ** What is written was small enough to be written *)
Lemma entry_buf_inv junk v e b : entry_is v e -> rpc_entry_buf junk e = Ok b -> b = bk [] (ev_bytes v) /\ lenN (ev_bytes v) < two31.
Proof.
  intros I E. destruct (N.lt_ge_cases (lenN (ev_bytes v)) two31) as [L|L].
  - split; [|exact L]. rewrite (rpc_entry_buf_ok junk v e I L) in E. congruence.
  - exfalso. destruct I as (E1 & E2 & n & p & E3 & R & E4). unfold rpc_entry_buf in E. rewrite E3 in E.
    destruct (reachable_bk _ _ R) as (d & r & F & -> & _ & D & _). rewrite buf_size_bk in E by exact F.
    rewrite ev_bytes_len, <- E4 in L. rewrite D in E4. 
    assert (Dd : adata (view (bk d r)) = d ++ r) by congruence. rewrite Dd in L.
    unfold build, alloc in E. change 2147483648 with two31 in E. replace (two31 <=? 8 + 1 + 4 + lenN (d ++ r)) with true in E by lia. discriminate.
Qed.
Lemma entry_bufs_inv junk vs : forall es acc bs t, Forall2 entry_is vs es -> (0 <= acc)%Z ->
  rpc_entry_bufs junk es acc = Ok (bs, t) -> t = (acc + Z.of_N (lenN (evs_bytes vs)))%Z.
Proof.
  induction vs as [|v vs IH]; intros es acc bs t H Ha E; inversion H; subst.
  - cbn in E. inversion E. change (lenN (evs_bytes [])) with 0. lia.
  - cbn [rpc_entry_bufs] in E. destruct (rpc_entry_buf junk y) as [b|x|u] eqn:Eb; cbn [res_bind] in E; try discriminate.
    destruct (entry_buf_inv junk v y b H2 Eb) as [-> L]. rewrite buf_size_bk in E by exact L. cbn [app] in E.
    rewrite to_int32_id in E by (unfold is_int32, two31 in *; lia).
    destruct (Z.ltb_spec 2147483647 (acc + Z.of_N (lenN (ev_bytes v)))); [discriminate|].
    destruct (rpc_entry_bufs junk l' _) as [[bs' t']|x|u] eqn:Er; cbn [res_bind] in E; try discriminate.
    inversion E; subst. pose proof (IH l' (acc + Z.of_N (lenN (ev_bytes v)))%Z bs' t H4 ltac:(lia) Er) as Et. rewrite Et. unfold evs_bytes. cbn [map concat]. rewrite lenN_app. lia.
Qed.
Lemma encode_inv junk q r bs : req_is q r -> rpc_encode junk r = Ok bs -> bs = req_bytes q /\ 45 + lenN (evs_bytes (rq_entries q)) < two31.
Proof.
  intros R E. assert (L : 45 + lenN (evs_bytes (rq_entries q)) < two31).
  { unfold rpc_encode in E. destruct (rpc_entry_bufs junk (rq_entries r) 0) as [[b t]|x|u] eqn:Eb; cbn [res_bind] in E; try discriminate.
    apply (entry_bufs_inv junk (rq_entries q)) in Eb; [|apply R | lia]. change (Z.of_N RPC_REQ_HEADER_SIZE) with 45%Z in E.
    destruct (Z.ltb_spec 2147483647 (45 + t)); [discriminate|]. unfold two31. lia. }
  split; [|exact L]. rewrite (rpc_encode_ok junk q r R L) in E. congruence.
Qed.

(** ** A session that gets only part of a request takes nothing *)
Lemma short_step junk hdr log q p z : idle hdr -> req_ok q -> 45 + lenN (evs_bytes (rq_entries q)) < two31 -> req_bytes q = p ++ z -> z <> [] ->
  session_step junk hdr log p = SWait \/ session_step junk hdr log p = SStop.
Proof.
  intros I (H1 & H2 & H3 & H4 & H5 & H6 & H7) U E Nz. destruct (idle_bk _ I) as (h & Lh & ->).
  destruct (N.lt_ge_cases (lenN p) 45) as [L|L].
  { left. unfold session_step. change RPC_REQ_HEADER_SIZE with 45. replace (lenN p <? 45) with true by lia. reflexivity. }
  rewrite req_bytes_hdr in E. set (H := hdr_bytes _ _ _ _ _ _ _ _) in E. assert (LH : length H = 45%nat) by apply hdr_bytes_len.
  set (D := evs_bytes (rq_entries q)) in *.
  assert (Ep : exists p2, p = H ++ p2 /\ D = p2 ++ z).
  { apply app_eq_app in E. destruct E as (x & [[A B]|[A B]]).
    - assert (x = []) as -> by (apply length_zero_iff_nil; apply (f_equal (@length byte)) in A; rewrite app_length, LH in A; unfold lenN in L; lia).
      rewrite app_nil_r in A. exists []. rewrite app_nil_r. split; [congruence | symmetry; exact B].
    - exists x. auto. }
  destruct Ep as (p2 & -> & ED). subst H.
  rewrite session_step_spec by (auto; unfold is_int32, two31 in *; lia).
  destruct ((Z.of_N (lenN D) <? 0) || (16777216 <? Z.of_N (lenN D)))%Z%bool; [right; reflexivity|].
  assert (LD : length D = (length p2 + length z)%nat) by (rewrite ED, app_length; reflexivity).
  assert (0 < length z)%nat by (destruct z; [contradiction | cbn; lia]).
  destruct (Z.eqb_spec (Z.of_N (lenN D)) 0) as [E0|N0]; [unfold lenN in E0; lia|].
  destruct (Nat.ltb_spec (length p2) (Z.to_nat (Z.of_N (lenN D)))) as [_|B]; [left; reflexivity | unfold lenN in B; lia].
Qed.

(** ** What arrives is what was written first *)
Lemma cut_run junk qs : forall n hdr log p rest l s,
  idle hdr -> Forall req_ok qs -> Forall (fun q => 45 + lenN (evs_bytes (rq_entries q)) < two31) qs ->
  concat (map req_bytes qs) = p ++ rest -> session_run junk n hdr log p = (l, s) ->
  (exists k, Forall2 req_is (firstn k qs) l) /\ (forall u, s <> SUB u).
Proof.
  assert (Stop : forall n hdr log p l s, session_run junk n hdr log p = (l, s) -> session_step junk hdr log p = SWait \/ session_step junk hdr log p = SStop ->
    l = [] /\ (forall u, s <> SUB u)).
  { intros n hdr log p l s E [K|K]; destruct n; cbn [session_run] in E; rewrite K in E; inversion E; subst; split; try reflexivity; discriminate. }
  induction qs as [|q qs IH]; intros n hdr log p rest l s I H1 H2 E R.
  - cbn in E. symmetry in E. apply app_eq_nil in E. destruct E as [-> ->].
    destruct (Stop n hdr log [] l s R) as [-> S].
    { left. unfold session_step. change (lenN (@nil byte) <? RPC_REQ_HEADER_SIZE) with true. reflexivity. }
    split; [exists 0%nat; constructor | exact S].
  - inversion H1 as [|? ? H3 H4]; subst. inversion H2 as [|? ? H5 H6]; subst. cbn [map concat] in E. apply app_eq_app in E. destruct E as (x & [[A B]|[A B]]).
    + destruct x as [|b x].
      * rewrite app_nil_r in A. destruct (N.le_gt_cases (lenN (evs_bytes (rq_entries q))) 16777216) as [L|L].
        -- destruct (session_step_req junk hdr log q [] I H3 L) as (q' & h' & l' & K & I' & Q). rewrite app_nil_r in K.
           assert (K2 : session_step junk h' l' [] = SWait) by (unfold session_step; change (lenN (@nil byte) <? RPC_REQ_HEADER_SIZE) with true; reflexivity).
           rewrite <- A in R. destruct n as [|n]; cbn [session_run] in R; rewrite K in R.
           ++ inversion R; subst. split; [exists 0%nat; constructor | discriminate].
           ++ destruct n; cbn [session_run] in R; rewrite K2 in R; inversion R; subst; (split; [exists 1%nat; cbn [firstn]; constructor; [exact Q | constructor] | discriminate]).
        -- destruct (Stop n hdr log p l s R) as [-> S]; [|split; [exists 0%nat; constructor | exact S]].
           right. rewrite <- A. rewrite <- (app_nil_r (req_bytes q)). apply session_too_big; [exact I | exact H3 | exact L | lia].
      * destruct (Stop n hdr log p l s R) as [-> S]; [|split; [exists 0%nat; constructor | exact S]].
        eapply short_step; [exact I | exact H3 | exact H5 | exact A | discriminate].
    + subst p. destruct (N.le_gt_cases (lenN (evs_bytes (rq_entries q))) 16777216) as [L|L].
      * destruct (session_step_req junk hdr log q x I H3 L) as (q' & h' & l' & K & I' & Q).
        destruct n as [|n]; cbn [session_run] in R; rewrite K in R.
        -- inversion R; subst. split; [exists 0%nat; constructor | discriminate].
        -- destruct (session_run junk n h' l' x) as [l2 s2] eqn:R2. inversion R; subst l s.
           destruct (IH n h' l' x rest l2 s2 I' H4 H6 B R2) as [[k Hk] Sk]. split; [|exact Sk]. exists (S k). cbn [firstn]. constructor; [exact Q | exact Hk].
      * destruct (Stop n hdr log _ l s R) as [-> S]; [|split; [exists 0%nat; constructor | exact S]].
        right. apply session_too_big; [exact I | exact H3 | exact L | lia].
Qed.

(** ** A request object holds one request *)
Lemma entry_is_fun v v' e : entry_is v e -> entry_is v' e -> v = v'.
Proof.
  intros (A1 & A2 & n & b & A3 & _ & A4) (B1 & B2 & n' & b' & B3 & _ & B4). assert (b' = b) by congruence. subst b'.
  destruct v, v'; cbn in *; congruence.
Qed.
Lemma entries_fun vs : forall vs' es, Forall2 entry_is vs es -> Forall2 entry_is vs' es -> vs = vs'.
Proof.
  induction vs as [|v vs IH]; intros vs' es H H'; inversion H; subst; inversion H'; subst; [reflexivity|].
  f_equal; [eapply entry_is_fun; eassumption | eapply IH; eassumption].
Qed.
Lemma req_is_fun q q' r : req_is q r -> req_is q' r -> q = q'.
Proof.
  intros (A1 & A2 & A3 & A4 & A5 & A6 & A7 & A8) (B1 & B2 & B3 & B4 & B5 & B6 & B7 & B8).
  pose proof (entries_fun _ _ _ A8 B8) as E. destruct q, q'; cbn in *; subst. congruence.
Qed.
Lemma reqs_fun qs : forall qs' rs, Forall2 req_is qs rs -> Forall2 req_is qs' rs -> qs = qs'.
Proof.
  induction qs as [|v vs IH]; intros vs' es H H'; inversion H; subst; inversion H'; subst; [reflexivity|].
  f_equal; [eapply req_is_fun; eassumption | eapply IH; eassumption].
Qed.
