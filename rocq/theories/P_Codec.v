(** * Properties of the serializers (C08-C10)

    Vocabulary: [view]/[reachable] (BufferTop.v) for buffers, the byte formats
    and value ranges of CodecSpec.v. *)

From Verif Require Import Base Buffer BufferSpec BufferProofs BufferTop Codec CodecSpec CodecProofs.
Local Open Scope N_scope.

(** C08.  Whatever the uninitialised memory held, serialize yields one and the
    same block, rewound, holding the documented format; and deserialize, given
    any buffer at whose position these bytes start (whatever precedes and
    follows them), returns the configuration and consumes exactly these bytes.
    Missing from the full statement: servers with an empty endpoint or an
    endpoint with a NUL byte (refuted below). *)
Theorem C08_config_round_trip_partial c :
  cfg_ok c -> lenN (cfg_bytes c) < two31 ->
  exists b, (forall junk, cfg_serialize junk c = Ok b) /\
    reachable (lenN (cfg_bytes c)) b /\
    view b = mkAbuf 0 (cfg_bytes c) /\
    (forall n src rest, reachable n src -> arest (view src) = cfg_bytes c ++ rest ->
       exists src', cfg_deserialize src = (Ok c, src') /\ adata (view src') = adata (view src) /\
                    buf_pos src' = buf_pos src + lenN (cfg_bytes c)).
Proof.
  intros H1 H2. exists (bk [] (cfg_bytes c)).
  split; [intros junk; exact (cfg_serialize_ok junk c H2)|].
  split; [exact (bk_reachable _ H2)|]. split; [exact (view_bk [] _ H2)|].
  intros n src rest R E. apply (after_read _ _ _ _ _ _ R E).
  intros d F. exact (cfg_deserialize_ok d c rest H1 F).
Qed.
Print Assumptions C08_config_round_trip_partial.

Theorem C08_srv_round_trip_partial s :
  srv_ok s -> lenN (srv_bytes s) < two31 ->
  exists b, (forall junk, srv_serialize junk s = Ok b) /\
    reachable (lenN (srv_bytes s)) b /\
    view b = mkAbuf 0 (srv_bytes s) /\
    (forall n src rest, reachable n src -> arest (view src) = srv_bytes s ++ rest ->
       exists src', srv_deserialize src = (Ok s, src') /\ adata (view src') = adata (view src) /\
                    buf_pos src' = buf_pos src + lenN (srv_bytes s)).
Proof.
  intros H1 H2. exists (bk [] (srv_bytes s)).
  split; [intros junk; apply srv_serialize_ok; rewrite <- srv_bytes_len; exact H2|].
  split; [exact (bk_reachable _ H2)|]. split; [exact (view_bk [] _ H2)|].
  intros n src rest R E. apply (after_read _ _ _ _ _ _ R E).
  intros d F. exact (srv_deserialize_ok d s rest H1 F).
Qed.
Print Assumptions C08_srv_round_trip_partial.

(** a configuration too large for a buffer is refused with an exception *)
Theorem C08_too_large_throws junk c :
  two31 <= lenN (cfg_bytes c) -> cfg_serialize junk c = Throw OutOfRange.
Proof. exact (cfg_serialize_throws junk c). Qed.
Print Assumptions C08_too_large_throws.

Definition ex_cfg : cluster_config :=
  mkCfg 7 3 [mkSrv 1 [x61; x62]; mkSrv (-2) [x63]].

Example C08_example : cfg_ok ex_cfg /\ lenN (cfg_bytes ex_cfg) < two31 /\ lenN (cfg_bytes ex_cfg) = 33.
Proof.
  split; [|vm_compute; auto]. split; [reflexivity|]. split; [reflexivity|].
  repeat constructor; cbn; try discriminate;
    intros [|H]; try discriminate; repeat (destruct H as [H|H]; try discriminate); auto.
Qed.

(** C08 is false for a server with an empty endpoint: the program passes a null
    pointer to std::string when it reads the configuration back. *)
Theorem C08_empty_endpoint_refuted :
  exists c b, cfg_serialize (fun _ => x00) c = Ok b /\ fst (cfg_deserialize b) = UB NullString.
Proof.
  exists (mkCfg 1 0 [mkSrv 1 []]), (unblock (cfg_serialize (fun _ => x00) (mkCfg 1 0 [mkSrv 1 []]))).
  split; vm_compute; reflexivity.
Qed.
Print Assumptions C08_empty_endpoint_refuted.

(** and silently wrong for an endpoint containing a NUL byte *)
Theorem C08_nul_in_endpoint_refuted :
  exists c b c', cfg_serialize (fun _ => x00) c = Ok b /\ fst (cfg_deserialize b) = Ok c' /\ c' <> c.
Proof.
  exists (mkCfg 1 0 [mkSrv 1 [x61; x00; x62]]),
    (unblock (cfg_serialize (fun _ => x00) (mkCfg 1 0 [mkSrv 1 [x61; x00; x62]]))),
    (mkCfg 1 0 [mkSrv 1 [x61]]).
  split; [vm_compute; reflexivity|]. split; [vm_compute; reflexivity|discriminate].
Qed.
Print Assumptions C08_nul_in_endpoint_refuted.

(** C09, snapshot metadata (endpoints as in C08) *)
Theorem C09_snapshot_round_trip s :
  snp_ok s -> lenN (snp_bytes s) < two31 ->
  exists b, (forall junk, snp_serialize junk s = Ok b) /\
    reachable (lenN (snp_bytes s)) b /\
    view b = mkAbuf 0 (snp_bytes s) /\
    (forall n src rest, reachable n src -> arest (view src) = snp_bytes s ++ rest ->
       exists src', snp_deserialize src = (Ok s, src') /\ adata (view src') = adata (view src) /\
                    buf_pos src' = buf_pos src + lenN (snp_bytes s)).
Proof.
  intros H1 H2. exists (bk [] (snp_bytes s)).
  split; [intros junk; exact (snp_serialize_ok junk s H2)|].
  split; [exact (bk_reachable _ H2)|]. split; [exact (view_bk [] _ H2)|].
  intros n src rest R E. apply (after_read _ _ _ _ _ _ R E).
  intros d F. exact (snp_deserialize_ok d s rest H1 F).
Qed.
Print Assumptions C09_snapshot_round_trip.

(** C09, chunks: the data block may be at any position; its unread bytes arrive
    as a fresh rewound block. *)
Theorem C09_sync_req_round_trip s off done n data :
  snp_ok s -> is_ulong off -> reachable n data ->
  lenN (sync_bytes s off done (arest (view data))) < two31 ->
  exists b, (forall junk, sync_serialize junk (mkSync s off data done) = Ok b) /\
    view b = mkAbuf 0 (sync_bytes s off done (arest (view data))) /\
    (forall junk, exists data',
       fst (sync_deserialize junk b) = Ok (mkSync s off data' done) /\
       view data' = mkAbuf 0 (arest (view data))).
Proof.
  intros H1 H2 R H. destruct (reachable_bk _ _ R) as (d & r & F & -> & E1 & E2 & E3).
  rewrite E1 in *. exists (bk [] (sync_bytes s off done r)).
  split; [intros junk; exact (sync_serialize_ok junk s off d r done H F)|].
  split; [exact (view_bk [] _ H)|].
  intros junk. exists (bk [] r). split; [exact (sync_deserialize_ok junk s off done r [] H1 H2 H)|].
  apply (view_bk [] r). unfold fits in *. rewrite lenN_app in F. cbn [app]. lia.
Qed.
Print Assumptions C09_sync_req_round_trip.

Definition ex_snp : snapshot := mkSnp 100 4 12 ex_cfg.

Example C09_example :
  snp_ok ex_snp /\ lenN (snp_bytes ex_snp) = 57 /\
  lenN (sync_bytes ex_snp 5 true [x01; x02]) < two31 /\
  arest (view (set_pos (ex_block x07 4) 2)) = [x07; x07].
Proof. split; [repeat (split; [reflexivity|]); apply C08_example|]. vm_compute. auto. Qed.

(** C10.  [pl] is the payload buffer at whatever position. *)
Theorem C10_entry_round_trip term t n pl :
  is_ulong term -> reachable n pl -> 9 + n < two31 ->
  exists b, (forall junk, fst (entry_serialize junk (mkRaw term t (Some pl))) = Ok b) /\
    view b = mkAbuf 0 (entry_bytes term t (adata (view pl))) /\
    (forall junk, exists pl',
       fst (entry_deserialize junk b) = Ok (mkRaw term t (Some pl')) /\
       view pl' = mkAbuf 0 (adata (view pl))) /\
    term_in_buffer b = (Ok term, b).
Proof.
  intros H1 R H.
  assert (Hn : lenN (adata (view pl)) = n).
  { destruct (reachable_mk _ _ R) as (a & W & -> & <-). rewrite view_mk by auto. reflexivity. }
  destruct (reachable_bk _ _ R) as (d & r & F & -> & E1 & E2 & E3).
  rewrite E2 in *.
  assert (L : lenN (entry_bytes term t (d ++ r)) < two31).
  { unfold entry_bytes. rewrite !lenN_app, lenN_le in *. change (lenN [t]) with 1. lia. }
  exists (bk [] (entry_bytes term t (d ++ r))).
  split; [intros junk; rewrite entry_serialize_ok by exact L; reflexivity|].
  split; [exact (view_bk [] _ L)|].
  split; [|exact (term_in_buffer_ok term t (d ++ r) H1 L)].
  intros junk. exists (bk [] (d ++ r)). rewrite entry_deserialize_ok by (auto; exact L).
  split; [reflexivity|exact (view_bk [] _ F)].
Qed.
Print Assumptions C10_entry_round_trip.

Example C10_example : reachable 4 (set_pos (ex_block x07 4) 2) /\ 9 + 4 < two31 /\
  buf_pos (set_pos (ex_block x07 4) 2) = 2.
Proof.
  split; [eapply (r_op 4 _ (OSetPos 2)); [apply ex_block_reachable; reflexivity|reflexivity]|].
  vm_compute. auto.
Qed.
