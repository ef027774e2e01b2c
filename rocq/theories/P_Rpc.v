(** * Properties of the RPC framing (C11-C13)

    Vocabulary: RpcSpec.v (user-visible content of requests, wire format);
    [idle hdr]: the session's header buffer between two requests, with
    arbitrary old content. *)

From Verif Require Import Base Buffer BufferSpec BufferProofs BufferTop Codec CodecSpec CodecProofs Msg Rpc RpcSpec RpcProofs.
Local Open Scope N_scope.

(** C11, encoding: whatever memory held before, the client writes exactly the
    wire format of the request *)
Theorem C11_request_bytes junk q r :
  req_is q r -> 45 + lenN (evs_bytes (rq_entries q)) < two31 -> rpc_encode junk r = Ok (req_bytes q).
Proof. exact (rpc_encode_ok junk q r). Qed.
Print Assumptions C11_request_bytes.

(** C11: the bytes of any sequence of requests written back to back by a client
    decode in the session to exactly these requests, whatever was in the
    session's buffers before and whatever follows. *)
Theorem C11_requests_arrive junk junk' (qs : list (req_msg entry_val)) rs rest n hdr log :
  Forall2 req_is qs rs -> Forall req_ok qs ->
  Forall (fun q => lenN (evs_bytes (rq_entries q)) <= 16777216) qs ->
  idle hdr -> (length qs <= n)%nat ->
  exists sent got hdr' log',
    Forall2 (fun r bs => rpc_encode junk r = Ok bs) rs sent /\
    session_run junk' n hdr log (concat sent ++ rest) =
    (let '(l, s) := session_run junk' (n - length qs) hdr' log' rest in (got ++ l, s)) /\
    idle hdr' /\ Forall2 req_is qs got.
Proof.
  intros H1 H2 H3 I Hn.
  destruct (session_run_reqs junk' qs n hdr log rest I H2 H3 Hn) as (got & h & l & E & I' & R).
  exists (map req_bytes qs), got, h, l. split; [|auto].
  clear - H1 H3. revert H3. induction H1 as [|q r qs rs Hq Hqs IH]; intros H3; [constructor|].
  inversion H3; subst. constructor; auto. apply rpc_encode_ok; auto. unfold two31. lia.
Qed.
Print Assumptions C11_requests_arrive.

Theorem C11_response_arrives junk junk' r :
  resp_ok r -> exists bs, resp_encode junk r = Ok bs /\ lenN bs = 26 /\ resp_decode junk' bs = Ok r.
Proof.
  intros H. exists (resp_bytes r). split; [exact (resp_encode_ok junk r)|]. split; [|exact (resp_decode_ok junk' r H)].
  unfold resp_bytes. lens. reflexivity.
Qed.
Print Assumptions C11_response_arrives.

Definition ex_ev := mkEV 3 x01 [x41; x42; x43].
Definition ex_q : req_msg entry_val := mkReq 3 x03 1 2 2 7 5 [ex_ev; mkEV 3 x02 []].
Definition ex_r : req_msg raw_entry :=
  mkReq 3 x03 1 2 2 7 5 [mkRaw 3 x01 (Some (set_pos (bk [] [x41; x42; x43]) 1)); mkRaw 3 x02 (Some (ex_block x00 0))].

Example C11_example : req_is ex_q ex_r /\ req_ok ex_q /\ lenN (evs_bytes (rq_entries ex_q)) = 29 /\
  idle (ex_block x09 45).
Proof.
  split; [|split; [|split; [vm_compute; reflexivity|split; [apply ex_block_reachable; reflexivity|vm_compute; reflexivity]]]].
  - repeat (split; [reflexivity|]). constructor; [|constructor; [|constructor]].
    + split; [reflexivity|]. split; [reflexivity|]. exists 3, (set_pos (bk [] [x41; x42; x43]) 1).
      split; [reflexivity|]. split; [|vm_compute; reflexivity].
      eapply (r_op 3 _ (OSetPos 1)); [apply (bk_reachable [x41; x42; x43]); reflexivity|reflexivity].
    + split; [reflexivity|]. split; [reflexivity|]. exists 0, (ex_block x00 0).
      split; [reflexivity|]. split; [apply ex_block_reachable; reflexivity|vm_compute; reflexivity].
  - unfold req_ok, ex_q, ex_ev. cbn [rq_src rq_dst rq_term rq_last_term rq_last_idx rq_commit rq_entries].
    do 2 (split; [unfold is_int32; lia|]). do 4 (split; [unfold is_ulong, two64; lia|]).
    constructor; [unfold is_ulong, two64; cbn [ev_term]; lia|].
    constructor; [unfold is_ulong, two64; cbn [ev_term]; lia|constructor].
Qed.

(** C12 is false: every request carrying more than 16 MiB of log data (for one
    entry: payload above 16777203 bytes) makes the receiving session close the
    connection, whatever state it is in. *)
Theorem C12_big_entry_refuted :
  exists n payload e, reachable n payload /\ e = mkRaw 1 x01 (Some payload) /\
    forall junk hdr log rest bs, idle hdr ->
      rpc_encode junk (mkReq 1 x03 1 2 1 1 0 [e]) = Ok bs ->
      session_step junk hdr log (bs ++ rest) = SStop.
Proof.
  assert (X : exists pl : list byte, lenN pl = 16777216).
  { exists (repeat x00 (N.to_nat 16777216)). unfold lenN. rewrite repeat_length. apply Nnat.N2Nat.id. }
  destruct X as [pl Lp].
  assert (F : fits pl) by (unfold fits; rewrite Lp; reflexivity).
  exists (lenN pl), (bk [] pl), (mkRaw 1 x01 (Some (bk [] pl))).
  split; [exact (bk_reachable _ F)|]. split; [reflexivity|].
  intros junk hdr log rest bs I E.
  set (q := mkReq 1 x03 1 2 1 1 0 [mkEV 1 x01 pl] : req_msg entry_val).
  assert (L : lenN (evs_bytes (rq_entries q)) = 16777229).
  { unfold q, evs_bytes. cbn [rq_entries map concat]. rewrite app_nil_r, ev_bytes_len. cbn [ev_data].
    rewrite Lp. reflexivity. }
  rewrite rpc_encode_ok with (q := q) in E.
  - injection E as <-. apply session_too_big; auto.
    + unfold q, req_ok. cbn [rq_src rq_dst rq_term rq_last_term rq_last_idx rq_commit rq_entries].
      do 2 (split; [unfold is_int32; lia|]). do 4 (split; [unfold is_ulong, two64; lia|]).
      constructor; [unfold is_ulong, two64; cbn [ev_term]; lia|constructor].
    + lia.
    + rewrite L. reflexivity.
  - unfold q, req_is. cbn [rq_src rq_dst rq_term rq_last_term rq_last_idx rq_commit rq_entries rq_type].
    repeat (split; [reflexivity|]). constructor; [|constructor].
    split; [reflexivity|]. split; [reflexivity|]. exists (lenN pl), (bk [] pl).
    split; [reflexivity|]. split; [exact (bk_reachable _ F)|]. rewrite (view_bk [] _ F). reflexivity.
  - rewrite L. reflexivity.
Qed.
Print Assumptions C12_big_entry_refuted.

(** every entry set up to the limit is delivered, everything above is not *)
Theorem C12_delivery_limit_partial junk junk' hdr log q r rest :
  idle hdr -> req_ok q -> req_is q r -> 45 + lenN (evs_bytes (rq_entries q)) < two31 ->
  exists bs, rpc_encode junk r = Ok bs /\
    (lenN (evs_bytes (rq_entries q)) <= 16777216 ->
       exists q' hdr' log', session_step junk' hdr log (bs ++ rest) = SReq q' hdr' log' rest /\ req_is q q') /\
    (16777216 < lenN (evs_bytes (rq_entries q)) -> session_step junk' hdr log (bs ++ rest) = SStop).
Proof.
  intros I O Q L. exists (req_bytes q). split; [exact (rpc_encode_ok junk q r Q L)|]. split; intros B.
  - destruct (session_step_req junk' hdr log q rest I O B) as (q' & h & l & E & _ & R). eauto.
  - apply session_too_big; auto. lia.
Qed.
Print Assumptions C12_delivery_limit_partial.

(** C13 is false: 58 bytes from the network make the session read outside its
    buffer (log data announcing a payload longer than the data). *)
Theorem C13_overread_refuted :
  exists stream, length stream = 58%nat /\
    forall junk hdr log, idle hdr -> session_step junk hdr log stream = SUB OutOfBoundsRead.
Proof.
  exists (hdr_bytes x03 1 2 1 0 0 0 13 ++ le 8 1 ++ [x01] ++ int_b 1000).
  split; [reflexivity|]. intros junk hdr log I. destruct (idle_bk _ I) as (h & Lh & ->).
  rewrite session_step_spec; try (unfold is_int32; lia); try reflexivity; exact Lh.
Qed.
Print Assumptions C13_overread_refuted.

(** Exactly the streams whose log data announces, in some entry, more payload
    than is left lead to undefined behaviour; for all others the session
    waits, closes or produces a request. *)
Theorem C13_session_safe_partial junk hdr log stream :
  idle hdr ->
  ((exists u, session_step junk hdr log stream = SUB u) <->
   (45 <= length stream)%nat /\ (0 < announced stream <= 16777216)%Z /\
   (Z.to_nat (announced stream) <= length (skipn 45 stream))%nat /\
   overrun (firstn (Z.to_nat (announced stream)) (skipn 45 stream))).
Proof. exact (session_ub_iff junk hdr log stream). Qed.
Print Assumptions C13_session_safe_partial.
