(** * Messages

    include/msg_base.hxx:27-66, include/req_msg.hxx:27-75 and
    include/resp_msg.hxx:25-56.  The entry type is a parameter: raw payload
    blocks at the RPC layer, plain bytes at the Raft layer.  Message types are
    the byte values of include/msg_type.hxx:22-43. *)

From Verif Require Import Base.

Record req_msg (E : Type) := mkReq {
  rq_term : N; rq_type : byte; rq_src : Z; rq_dst : Z;
  rq_last_term : N; rq_last_idx : N; rq_commit : N; rq_entries : list E }.
Arguments mkReq {E}.
Arguments rq_term {E}.
Arguments rq_type {E}.
Arguments rq_src {E}.
Arguments rq_dst {E}.
Arguments rq_last_term {E}.
Arguments rq_last_idx {E}.
Arguments rq_commit {E}.
Arguments rq_entries {E}.

Record resp_msg := mkResp {
  rs_term : N; rs_type : byte; rs_src : Z; rs_dst : Z; rs_next_idx : N; rs_accepted : bool }.

(** A log entry with a (non-null) payload buffer as the user sees it: term,
    value type byte (include/log_val_type.hxx:22-29) and all payload bytes. *)
Record entry_val := mkEV { ev_term : N; ev_type : byte; ev_data : list byte }.
