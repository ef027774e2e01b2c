(** * Specification vocabulary for the RPC framing *)

From Verif Require Import Base Buffer BufferSpec BufferTop Codec CodecSpec Msg Rpc.
Local Open Scope N_scope.

Definition entry_is (v : entry_val) (e : raw_entry) : Prop :=
  re_term e = ev_term v /\ re_type e = ev_type v /\
  exists n b, re_buf e = Some b /\ reachable n b /\ adata (view b) = ev_data v.

(** wire format *)
Definition ev_bytes (v : entry_val) : list byte :=
  le 8 (ev_term v) ++ [ev_type v] ++ int_b (Z.of_nat (length (ev_data v))) ++ ev_data v.
Definition evs_bytes (l : list entry_val) : list byte := concat (map ev_bytes l).
Definition req_bytes (q : req_msg entry_val) : list byte :=
  [rq_type q] ++ int_b (rq_src q) ++ int_b (rq_dst q) ++ le 8 (rq_term q) ++ le 8 (rq_last_term q)
  ++ le 8 (rq_last_idx q) ++ le 8 (rq_commit q) ++ int_b (Z.of_N (lenN (evs_bytes (rq_entries q))))
  ++ evs_bytes (rq_entries q).
Definition resp_bytes (r : resp_msg) : list byte :=
  [rs_type r] ++ int_b (rs_src r) ++ int_b (rs_dst r) ++ le 8 (rs_term r) ++ le 8 (rs_next_idx r)
  ++ [if rs_accepted r then x01 else x00].

(** a request object whose user-visible content is [q] *)
Definition req_is (q : req_msg entry_val) (r : req_msg raw_entry) : Prop :=
  rq_term r = rq_term q /\ rq_type r = rq_type q /\ rq_src r = rq_src q /\ rq_dst r = rq_dst q /\
  rq_last_term r = rq_last_term q /\ rq_last_idx r = rq_last_idx q /\ rq_commit r = rq_commit q /\
  Forall2 entry_is (rq_entries q) (rq_entries r).

(** field ranges *)
Definition req_ok (q : req_msg entry_val) : Prop :=
  is_int32 (rq_src q) /\ is_int32 (rq_dst q) /\ is_ulong (rq_term q) /\ is_ulong (rq_last_term q) /\
  is_ulong (rq_last_idx q) /\ is_ulong (rq_commit q) /\ Forall (fun v => is_ulong (ev_term v)) (rq_entries q).
Definition resp_ok (r : resp_msg) : Prop :=
  is_int32 (rs_src r) /\ is_int32 (rs_dst r) /\ is_ulong (rs_term r) /\ is_ulong (rs_next_idx r).

(** log data in which some entry announces more payload than there is *)
Inductive overrun : list byte -> Prop :=
| ov_here term t size r :
    is_ulong term -> (Z.of_N (lenN r) < size <= 2147483647)%Z ->
    overrun (le 8 term ++ [t] ++ int_b size ++ r)
| ov_later v r :
    is_ulong (ev_term v) -> overrun r -> overrun (ev_bytes v ++ r).
