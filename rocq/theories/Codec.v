(** * Codec: serializers built on buffer

    Models src/srv_config.cxx, src/cluster_config.cxx, src/snapshot.cxx,
    src/snapshot_sync_req.cxx and the (de)serialization in
    include/log_entry.hxx, using the raw buffer operations of Buffer.v.
    Deserializers take the buffer (by reference in C++) and return it moved
    forward; serializers allocate new buffers ([junk]: uninitialised memory). *)

From Verif Require Import Base Buffer.
Local Open Scope N_scope.

(** Operations on one buffer, sequenced; exceptions stop the sequence. *)
Definition BM (A : Type) := block -> res A * block.
Definition bret {A} (a : A) : BM A := fun b => (Ok a, b).
Definition bfail {A} (r : res A) : BM A := fun b => (r, b).
Definition bbind {A B} (m : BM A) (f : A -> BM B) : BM B :=
  fun b => match m b with
           | (Ok a, b) => f a b
           | (Throw e, b) => (Throw e, b)
           | (UB u, b) => (UB u, b)
           end.
Declare Scope bm_scope.
Delimit Scope bm_scope with bm.
Notation "x <- m ;; k" := (bbind m (fun x => k)) (at level 61, m at next level, right associativity) : bm_scope.
Notation "m ;;; k" := (bbind m (fun _ => k)) (at level 61, right associativity) : bm_scope.
Open Scope bm_scope.

Definition bseek (p : N) : BM unit := fun b => (Ok tt, set_pos b p).

(** bufptr buf = buffer::alloc(size); puts...; buf->pos(0); return buf; *)
Definition build (junk : nat -> byte) (size : N) (puts : BM unit) : res block :=
  res_bind (alloc junk size) (fun b =>
    match (puts ;;; bseek 0) b with
    | (Ok _, b) => Ok b
    | (Throw e, _) => Throw e
    | (UB u, _) => UB u
    end).

(** ** srv_config (include/srv_config.hxx:26-55) *)
Record srv_config := mkSrv { sc_id : Z; sc_endpoint : list byte }.

(** src/srv_config.cxx:28-34 *)
Definition srv_serialize (junk : nat -> byte) (s : srv_config) : res block :=
  build junk (4 + lenN (sc_endpoint s) + 1)
    (put_int (sc_id s) ;;; put_str (sc_endpoint s)).

(** src/srv_config.cxx:21-26: cs_new<srv_config>(id, endpoint) builds a
    std::string from the char pointer; a null pointer is undefined behaviour *)
Definition srv_deserialize : BM srv_config :=
  id <- get_int ;;
  endpoint <- get_str ;;
  match endpoint with
  | Some s => bret (mkSrv id s)
  | None => bfail (UB NullString)
  end.

(** ** cluster_config (include/cluster_config.hxx:25-92) *)
Record cluster_config := mkCfg { cc_log_idx : N; cc_prev_log_idx : N; cc_servers : list srv_config }.

Fixpoint serialize_all (junk : nat -> byte) (l : list srv_config) : res (list block) :=
  match l with
  | [] => Ok []
  | s :: l => res_bind (srv_serialize junk s) (fun b =>
              res_bind (serialize_all junk l) (fun bs => Ok (b :: bs)))
  end.

Fixpoint put_all (l : list block) : BM unit :=
  match l with
  | [] => bret tt
  | b :: l => put_buf b ;;; put_all l
  end.

(** src/cluster_config.cxx:22-44 *)
Definition cfg_serialize (junk : nat -> byte) (c : cluster_config) : res block :=
  res_bind (serialize_all junk (cc_servers c)) (fun srv_buffs =>
  let sz := fold_left (fun sz b => sz + buf_size b) srv_buffs (2 * 8 + 4) in
  build junk sz
    (put_ulong (cc_log_idx c) ;;;
     put_ulong (cc_prev_log_idx c) ;;;
     put_int (to_int32 (Z.of_nat (length (cc_servers c)))) ;;;
     put_all srv_buffs)).

(** src/cluster_config.cxx:46-58, the loop `while (cnt-- > 0)` *)
Fixpoint srv_deserialize_n (n : nat) : BM (list srv_config) :=
  match n with
  | O => bret []
  | S n => s <- srv_deserialize ;; l <- srv_deserialize_n n ;; bret (s :: l)
  end.

Definition cfg_deserialize : BM cluster_config :=
  log_idx <- get_ulong ;;
  prev_log_idx <- get_ulong ;;
  cnt <- get_int ;;
  servers <- srv_deserialize_n (Z.to_nat cnt) ;;
  bret (mkCfg log_idx prev_log_idx servers).

(** ** snapshot (include/snapshot.hxx:25-68) *)
Record snapshot := mkSnp { sn_last_log_idx : N; sn_last_log_term : N; sn_size : N; sn_config : cluster_config }.

(** src/snapshot.cxx:29-39 *)
Definition snp_serialize (junk : nat -> byte) (s : snapshot) : res block :=
  res_bind (cfg_serialize junk (sn_config s)) (fun conf_buf =>
  build junk (buf_size conf_buf + 8 * 3)
    (put_ulong (sn_last_log_idx s) ;;;
     put_ulong (sn_last_log_term s) ;;;
     put_ulong (sn_size s) ;;;
     put_buf conf_buf)).

(** src/snapshot.cxx:20-27 *)
Definition snp_deserialize : BM snapshot :=
  last_log_idx <- get_ulong ;;
  last_log_term <- get_ulong ;;
  size <- get_ulong ;;
  conf <- cfg_deserialize ;;
  bret (mkSnp last_log_idx last_log_term size conf).

(** ** snapshot_sync_req (include/snapshot_sync_req.hxx:24-66); the data is a buffer *)
Record sync_req := mkSync { sy_snapshot : snapshot; sy_offset : N; sy_data : block; sy_done : bool }.

(** src/snapshot_sync_req.cxx:41-51 *)
Definition sync_serialize (junk : nat -> byte) (r : sync_req) : res block :=
  res_bind (snp_serialize junk (sy_snapshot r)) (fun snp_buf =>
  build junk (buf_size snp_buf + 8 + 1 + avail (sy_data r))
    (put_buf snp_buf ;;;
     put_ulong (sy_offset r) ;;;
     put_byte (if sy_done r then x01 else x00) ;;;
     put_buf (sy_data r))).

(** src/snapshot_sync_req.cxx:22-39.  Reading the chunk with memcpy does not
    move the position of the source buffer. *)
Definition sync_deserialize (junk : nat -> byte) : BM sync_req :=
  snp <- snp_deserialize ;;
  offset <- get_ulong ;;
  done_byte <- get_byte ;;
  fun b =>
    let is_done := Byte.eqb done_byte x01 in
    if buf_pos b <? buf_size b then
      let sz := avail b in
      match res_bind (alloc junk sz) (fun d => res_bind (load b (data_off b) sz) (stream_in d)) with
      | Ok d => (Ok (mkSync snp offset d is_done), b)
      | Throw e => (Throw e, b)
      | UB u => (UB u, b)
      end
    else match alloc junk 0 with
         | Ok d => (Ok (mkSync snp offset d is_done), b)
         | Throw e => (Throw e, b)
         | UB u => (UB u, b)
         end.

(** ** log_entry (include/log_entry.hxx:55-138).  [re_buf] is the payload
    buffer (None for a nil buffer); the cookie is an in-memory object of the
    application and is not modelled. *)
Record raw_entry := mkRaw { re_term : N; re_type : byte; re_buf : option block }.

(** include/log_entry.hxx:104-113; [serialize] rewinds the payload buffer, so
    the entry afterwards is returned too.  A nil buffer is dereferenced. *)
Definition entry_serialize (junk : nat -> byte) (e : raw_entry) : res block * raw_entry :=
  match re_buf e with
  | None => (UB NullDeref, e)
  | Some buff =>
      let buff := set_pos buff 0 in
      (build junk (8 + 1 + buf_size buff)
         (put_ulong (re_term e) ;;; put_byte (re_type e) ;;; put_buf buff),
       mkRaw (re_term e) (re_type e) (Some buff))
  end.

(** include/log_entry.hxx:115-121 *)
Definition entry_deserialize (junk : nat -> byte) : BM raw_entry :=
  term <- get_ulong ;;
  t <- get_byte ;;
  fun b => match buf_copy junk b with
           | Ok d => (Ok (mkRaw term t (Some d)), b)
           | Throw e => (Throw e, b)
           | UB u => (UB u, b)
           end.

(** include/log_entry.hxx:123-128 *)
Definition term_in_buffer : BM N :=
  term <- get_ulong ;; bseek 0 ;;; bret term.
