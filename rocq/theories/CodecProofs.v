(** * Round-trip proofs for the serializers *)

From Verif Require Import Base Buffer BufferSpec BufferProofs BufferTop Codec CodecSpec.
Local Open Scope N_scope.

(** A block holding the bytes [d ++ r] with position after [d]. *)
Definition bk (d r : list byte) : block := mk_block (mkAbuf (length d) (d ++ r)).
Definition fits (l : list byte) : Prop := lenN l < two31.

Lemma lenN_app {A} (a b : list A) : lenN (a ++ b) = lenN a + lenN b.
Proof. unfold lenN. rewrite app_length. lia. Qed.
Lemma lenN_le k n : lenN (le k n) = N.of_nat k.
Proof. unfold lenN. rewrite le_length. reflexivity. Qed.
Lemma lenN_cons {A} (a : A) l : lenN (a :: l) = 1 + lenN l.
Proof. unfold lenN. cbn [length]. lia. Qed.
Lemma lenN_nil {A} : lenN (@nil A) = 0.
Proof. reflexivity. Qed.

Lemma bk_wf d r : fits (d ++ r) -> wf_abuf (mkAbuf (length d) (d ++ r)).
Proof. intros H. split; cbn [apos adata]; auto. unfold asize; cbn [adata]. rewrite app_length. lia. Qed.

Lemma bk_rest d r : arest (mkAbuf (length d) (d ++ r)) = r.
Proof. unfold arest; cbn [apos adata]. apply skipn_app_exact. reflexivity. Qed.

Lemma bk_aput d r bs : (length bs <= length r)%nat ->
  aput (mkAbuf (length d) (d ++ r)) bs =
  mkAbuf (length (d ++ bs)) ((d ++ bs) ++ skipn (length bs) r).
Proof.
  intros H. unfold aput; cbn [apos adata]. rewrite app_length. f_equal.
  rewrite firstn_app_exact by reflexivity. rewrite skipn_app_ge by lia.
  rewrite <- app_assoc. do 3 f_equal. lia.
Qed.

Lemma bk_askip d x r : askip (mkAbuf (length d) (d ++ x ++ r)) (length x) =
  mkAbuf (length (d ++ x)) ((d ++ x) ++ r).
Proof. unfold askip; cbn [apos adata]. rewrite app_length, <- app_assoc. reflexivity. Qed.

Lemma bk_put d r bs : fits (d ++ r) -> (length bs <= length r)%nat ->
  lift (aput_op (mkAbuf (length d) (d ++ r)) bs) = (Ok tt, bk (d ++ bs) (skipn (length bs) r)).
Proof.
  intros F H. unfold aput_op, asize. cbn [apos adata]. rewrite app_length.
  destruct (Nat.ltb_spec (length d + length r - length d) (length bs)); [lia|].
  unfold lift; cbn [fst snd]. rewrite bk_aput by auto. reflexivity.
Qed.

Lemma put_ulong_bk d r n : fits (d ++ r) -> (8 <= length r)%nat ->
  put_ulong n (bk d r) = (Ok tt, bk (d ++ le 8 n) (skipn 8 r)).
Proof. intros F H. unfold bk at 1. rewrite put_ulong_mk by (apply bk_wf; auto). rewrite bk_put; auto. Qed.
Lemma put_int_bk d r z : fits (d ++ r) -> (4 <= length r)%nat ->
  put_int z (bk d r) = (Ok tt, bk (d ++ le 4 (Z.to_N (z mod 4294967296))) (skipn 4 r)).
Proof. intros F H. unfold bk at 1. rewrite put_int_mk by (apply bk_wf; auto). rewrite bk_put; auto. Qed.
Lemma put_byte_bk d r b : fits (d ++ r) -> (1 <= length r)%nat ->
  put_byte b (bk d r) = (Ok tt, bk (d ++ [b]) (skipn 1 r)).
Proof. intros F H. unfold bk at 1. rewrite put_byte_mk by (apply bk_wf; auto). rewrite bk_put; auto. Qed.
Lemma put_str_bk d r s : fits (d ++ r) -> (length s + 1 <= length r)%nat ->
  put_str s (bk d r) = (Ok tt, bk (d ++ s ++ [x00]) (skipn (length s + 1) r)).
Proof.
  intros F H. unfold bk at 1. rewrite put_str_mk by (apply bk_wf; auto).
  rewrite bk_put by (auto; rewrite app_length; cbn [length]; lia). rewrite app_length. reflexivity.
Qed.
Lemma put_buf_bk d r d' r' : fits (d ++ r) -> fits (d' ++ r') -> (length r' <= length r)%nat ->
  put_buf (bk d' r') (bk d r) = (Ok tt, bk (d ++ r') (skipn (length r') r)).
Proof.
  intros F F' H. unfold bk at 1 2. rewrite put_buf_mk by (apply bk_wf; auto).
  rewrite bk_rest. rewrite bk_put; auto.
Qed.

Lemma get_bk {A} d x r (f : list byte -> A) : fits (d ++ x ++ r) ->
  lift (aget_op (mkAbuf (length d) (d ++ x ++ r)) (length x) f) = (Ok (f x), bk (d ++ x) r).
Proof.
  intros F. unfold aget_op, asize. cbn [apos adata]. rewrite !app_length.
  destruct (Nat.ltb_spec (length d + (length x + length r) - length d) (length x)); [lia|].
  unfold lift; cbn [fst snd]. rewrite bk_rest, bk_askip, firstn_app_exact by reflexivity. reflexivity.
Qed.

Lemma get_ulong_bk d n r : fits (d ++ le 8 n ++ r) -> is_ulong n ->
  get_ulong (bk d (le 8 n ++ r)) = (Ok n, bk (d ++ le 8 n) r).
Proof.
  intros F H. unfold bk at 1. rewrite get_ulong_mk by (apply bk_wf; auto).
  change 8%nat with (length (le 8 n)) at 2. rewrite get_bk by auto. rewrite of_le_le8 by auto. reflexivity.
Qed.
Lemma get_int_bk d z r : fits (d ++ le 4 (Z.to_N (z mod 4294967296)) ++ r) -> is_int32 z ->
  get_int (bk d (le 4 (Z.to_N (z mod 4294967296)) ++ r)) = (Ok z, bk (d ++ le 4 (Z.to_N (z mod 4294967296))) r).
Proof.
  intros F H. unfold bk at 1. rewrite get_int_mk by (apply bk_wf; auto).
  change 4%nat with (length (le 4 (Z.to_N (z mod 4294967296)))) at 2. rewrite get_bk by auto.
  rewrite int32_of_le by auto. reflexivity.
Qed.
Lemma get_byte_bk d b r : fits (d ++ b :: r) ->
  get_byte (bk d (b :: r)) = (Ok b, bk (d ++ [b]) r).
Proof.
  intros F. unfold bk at 1. rewrite get_byte_mk by (apply bk_wf; auto).
  change (b :: r) with ([b] ++ r). change 1%nat with (length [b]). rewrite get_bk by auto. reflexivity.
Qed.
Lemma get_str_bk d s r : fits (d ++ s ++ x00 :: r) -> s <> [] -> no_nul s ->
  get_str (bk d (s ++ x00 :: r)) = (Ok (Some s), bk (d ++ s ++ [x00]) r).
Proof.
  intros F Hne Hnn. unfold bk at 1. rewrite get_str_mk by (apply bk_wf; auto).
  unfold aget_str, lift. rewrite bk_rest, first_nul_app by auto.
  destruct s as [|c s]; [congruence|]. cbn [length fst snd].
  rewrite firstn_app_exact by reflexivity. f_equal.
  replace ((c :: s) ++ x00 :: r) with (((c :: s) ++ [x00]) ++ r) by (rewrite <- app_assoc; reflexivity).
  replace (S (length s) + 1)%nat with (length ((c :: s) ++ [x00])) by (rewrite app_length; reflexivity).
  rewrite bk_askip. reflexivity.
Qed.
Lemma bseek0_bk d r : fits (d ++ r) -> bseek 0 (bk d r) = (Ok tt, bk [] (d ++ r)).
Proof.
  intros F. unfold bseek, bk. change 0 with (N.of_nat 0). rewrite set_pos_mk' by (apply bk_wf; auto). reflexivity.
Qed.
Lemma buf_size_bk d r : fits (d ++ r) -> buf_size (bk d r) = lenN (d ++ r).
Proof. intros F. unfold bk. rewrite buf_size_mk by (apply bk_wf; auto). reflexivity. Qed.
Lemma buf_pos_bk d r : fits (d ++ r) -> buf_pos (bk d r) = lenN d.
Proof. intros F. unfold bk. rewrite buf_pos_mk by (apply bk_wf; auto). reflexivity. Qed.
Lemma avail_bk d r : fits (d ++ r) -> avail (bk d r) = lenN r.
Proof.
  intros F. unfold bk. rewrite avail_mk by (apply bk_wf; auto). unfold asize, lenN; cbn [apos adata].
  rewrite app_length. lia.
Qed.
Lemma load_bk d r : fits (d ++ r) -> load (bk d r) (data_off (bk d r)) (lenN r) = Ok r.
Proof.
  intros F. unfold bk, lenN. rewrite load_mk by (apply bk_wf; auto).
  unfold asize; cbn [apos adata]. rewrite app_length.
  destruct (Nat.leb_spec (length r) (length d + length r - length d)); [|lia].
  rewrite bk_rest, firstn_all. reflexivity.
Qed.
Lemma alloc_bk junk n : n < two31 -> exists r, lenN r = n /\ alloc junk n = Ok (bk [] r).
Proof.
  intros H. exists (adata (fresh junk n)). split; [apply fresh_size|]. rewrite alloc_mk by auto. reflexivity.
Qed.

(** [build] with puts that write exactly the allocated number of bytes yields
    those bytes, whatever was in the memory before *)
Lemma build_bk junk size puts out :
  size < two31 -> lenN out = size ->
  (forall r, lenN r = size -> puts (bk [] r) = (Ok tt, bk out (skipn (length out) r))) ->
  build junk size puts = Ok (bk [] out).
Proof.
  intros H L Hp. unfold build. destruct (alloc_bk junk size H) as (r & Lr & ->). cbn [res_bind].
  unfold bbind. rewrite Hp by auto.
  assert (E : skipn (length out) r = []) by (apply skipn_all2; unfold lenN in *; lia).
  rewrite E. rewrite bseek0_bk.
  - rewrite app_nil_r. reflexivity.
  - rewrite app_nil_r. unfold fits. rewrite L. auto.
Qed.

Ltac lens := unfold fits in *; unfold int_b in *;
  repeat (rewrite lenN_app in * || rewrite lenN_le in * || rewrite lenN_cons in * || rewrite lenN_nil in * );
  unfold two31 in *.

Ltac lens_nat := rewrite ?app_length, ?le_length, ?skipn_length; cbn [length];
  repeat match goal with H : context [lenN ?x] |- _ => unfold lenN in H end;
  rewrite ?app_length in *; lia.

Ltac fin_bk := match goal with
  | |- (Ok tt, bk ?a (skipn ?m ?r)) = (Ok tt, bk ?b (skipn ?n ?r)) =>
      replace m with n; [reflexivity | rewrite ?app_length, ?le_length; unfold int_b; cbn [length];
                                       rewrite ?app_length, ?le_length; cbn [length]; lia] end.

Lemma bbind_ok {A B} (m : BM A) (f : A -> BM B) b a b' :
  m b = (Ok a, b') -> bbind m f b = f a b'.
Proof. intros H. unfold bbind. rewrite H. reflexivity. Qed.

Lemma lenN_length {A} (l : list A) n : lenN l = n -> length l = N.to_nat n.
Proof. unfold lenN. lia. Qed.

(** srv_config *)
Lemma srv_serialize_ok junk s :
  lenN (sc_endpoint s) + 5 < two31 -> srv_serialize junk s = Ok (bk [] (srv_bytes s)).
Proof.
  intros H. unfold srv_serialize. apply build_bk.
  - unfold two31 in *. lia.
  - unfold srv_bytes. lens. lia.
  - intros r Hr. apply lenN_length in Hr as Lr.
    erewrite bbind_ok.
    2:{ apply put_int_bk; [unfold fits; cbn [app]; unfold two31 in *; lia | unfold lenN in *; lia]. }
    rewrite put_str_bk.
    + cbn [app]. rewrite skipn_skipn. f_equal. unfold srv_bytes, int_b.
      f_equal. f_equal. rewrite !app_length, le_length. cbn [length]. lia.
    + cbn [app]. lens. unfold lenN. rewrite skipn_length. unfold lenN in *. lia.
    + rewrite skipn_length. unfold lenN in *. lia.
Qed.

Lemma srv_deserialize_ok d s r :
  srv_ok s -> fits (d ++ srv_bytes s ++ r) ->
  srv_deserialize (bk d (srv_bytes s ++ r)) = (Ok s, bk (d ++ srv_bytes s) r).
Proof.
  intros (Hi & Hne & Hnn) F. unfold srv_deserialize, srv_bytes in *. rewrite <- !app_assoc in *.
  erewrite bbind_ok by (apply get_int_bk; auto).
  cbn [app] in *.
  erewrite bbind_ok.
  2:{ apply get_str_bk; auto. rewrite <- app_assoc. exact F. }
  unfold bret. destruct s as [si se]; cbn [sc_id sc_endpoint]. rewrite <- !app_assoc. reflexivity.
Qed.

(** lists of servers *)
Lemma serialize_all_ok junk l :
  Forall (fun s => lenN (sc_endpoint s) + 5 < two31) l ->
  serialize_all junk l = Ok (map (fun s => bk [] (srv_bytes s)) l).
Proof.
  induction 1 as [|s l Hs Hl IH]; cbn [serialize_all map]; auto.
  rewrite srv_serialize_ok by auto. cbn [res_bind]. rewrite IH. reflexivity.
Qed.

Lemma put_all_bk l : forall d r,
  Forall (fun x => fits x) l -> fits (d ++ r) -> (length (concat l) <= length r)%nat ->
  put_all (map (bk []) l) (bk d r) = (Ok tt, bk (d ++ concat l) (skipn (length (concat l)) r)).
Proof.
  induction l as [|x l IH]; intros d r Hl F Hr; cbn [map put_all concat].
  - cbn [length skipn]. rewrite app_nil_r. reflexivity.
  - inversion Hl; subst. cbn [concat] in Hr. rewrite app_length in Hr.
    erewrite bbind_ok by (apply put_buf_bk; auto; lia).
    rewrite IH.
    + rewrite skipn_skipn, app_length, app_assoc. reflexivity.
    + auto.
    + unfold fits in *. lens. unfold lenN in *. rewrite skipn_length. lia.
    + rewrite skipn_length. lia.
Qed.

Lemma fold_sizes l : forall z,
  Forall (fun x => fits x) l ->
  fold_left (fun sz b => sz + buf_size b) (map (bk []) l) z = z + lenN (concat l).
Proof.
  induction l as [|x l IH]; intros z Hl; cbn [map fold_left concat].
  - unfold lenN; cbn [length]; lia.
  - inversion Hl; subst. rewrite IH by auto. rewrite buf_size_bk by auto. cbn [app]. rewrite lenN_app. lia.
Qed.

Lemma concat_part {A} (l : list (list A)) x : In x l -> (lenN x <= lenN (concat l)).
Proof.
  induction l as [|y l IH]; intros H; [destruct H|]. cbn [concat]. rewrite lenN_app.
  destruct H as [-> | H]; [lia|]. specialize (IH H). lia.
Qed.

Lemma srv_bytes_len s : lenN (srv_bytes s) = lenN (sc_endpoint s) + 5.
Proof. unfold srv_bytes. lens. lia. Qed.

Lemma servers_count l : N.of_nat (length l) <= lenN (servers_bytes l).
Proof.
  induction l as [|s l IH]; unfold servers_bytes in *; cbn [map concat length].
  - unfold lenN; cbn [length]; lia.
  - rewrite lenN_app, srv_bytes_len. lia.
Qed.

Lemma cfg_serialize_ok junk c :
  lenN (cfg_bytes c) < two31 -> cfg_serialize junk c = Ok (bk [] (cfg_bytes c)).
Proof.
  intros H. unfold cfg_serialize.
  assert (Hlen : lenN (cfg_bytes c) = 20 + lenN (servers_bytes (cc_servers c))).
  { unfold cfg_bytes. lens. lia. }
  assert (Hsm : Forall (fun s => lenN (sc_endpoint s) + 5 < two31) (cc_servers c)).
  { apply Forall_forall. intros s Hs. rewrite <- srv_bytes_len.
    pose proof (concat_part (map srv_bytes (cc_servers c)) (srv_bytes s) (in_map _ _ _ Hs)) as Q.
    unfold servers_bytes in Hlen. lia. }
  rewrite serialize_all_ok by auto. cbn [res_bind].
  rewrite <- (map_map srv_bytes (bk [])).
  assert (Hf : Forall (fun x => fits x) (map srv_bytes (cc_servers c))).
  { apply Forall_forall. intros x Hx. apply in_map_iff in Hx as (s & <- & Hs).
    rewrite Forall_forall in Hsm. specialize (Hsm s Hs). unfold fits. rewrite srv_bytes_len. auto. }
  rewrite fold_sizes by auto. fold (servers_bytes (cc_servers c)).
  pose proof (servers_count (cc_servers c)) as Hc.
  assert (Hi : to_int32 (Z.of_nat (length (cc_servers c))) = Z.of_nat (length (cc_servers c))).
  { apply to_int32_id. unfold is_int32. unfold two31 in *. lia. }
  rewrite Hi.
  apply build_bk.
  - lia.
  - rewrite Hlen. lia.
  - intros r Hr. apply lenN_length in Hr as Lr.
    assert (Lr' : length r = (20 + length (servers_bytes (cc_servers c)))%nat) by (unfold lenN in *; lia).
    assert (Fr : lenN r < two31) by lia.
    erewrite bbind_ok by (apply put_ulong_bk; [exact Fr|lia]).
    erewrite bbind_ok.
    2:{ apply put_ulong_bk; [|rewrite skipn_length; lia].
        unfold fits; cbn [app]; lens; unfold lenN; rewrite skipn_length; unfold lenN in *; lia. }
    erewrite bbind_ok.
    2:{ apply put_int_bk; [|rewrite !skipn_length; lia].
        unfold fits; cbn [app]; lens; unfold lenN; rewrite !skipn_length; unfold lenN in *; lia. }
    rewrite put_all_bk; auto.
    + fold (servers_bytes (cc_servers c)). cbn [app]. rewrite !skipn_skipn.
      unfold cfg_bytes. rewrite <- !app_assoc. fin_bk.
    + cbn [app]. unfold fits. lens. unfold lenN. rewrite !skipn_length. unfold lenN in *. lia.
    + fold (servers_bytes (cc_servers c)). rewrite !skipn_length. lia.
Qed.

Lemma srv_deserialize_n_ok l : forall d r,
  Forall srv_ok l -> fits (d ++ servers_bytes l ++ r) ->
  srv_deserialize_n (length l) (bk d (servers_bytes l ++ r)) = (Ok l, bk (d ++ servers_bytes l) r).
Proof.
  induction l as [|s l IH]; intros d r Hl F; cbn [length srv_deserialize_n].
  - unfold servers_bytes; cbn. rewrite app_nil_r. reflexivity.
  - inversion Hl; subst. unfold servers_bytes in *. cbn [map concat] in *. rewrite <- !app_assoc in *.
    erewrite bbind_ok by (apply srv_deserialize_ok; auto).
    erewrite bbind_ok.
    2:{ apply IH; auto. rewrite <- app_assoc. exact F. }
    unfold bret. rewrite <- app_assoc. reflexivity.
Qed.

Lemma cfg_deserialize_ok d c r :
  cfg_ok c -> fits (d ++ cfg_bytes c ++ r) ->
  cfg_deserialize (bk d (cfg_bytes c ++ r)) = (Ok c, bk (d ++ cfg_bytes c) r).
Proof.
  intros (H1 & H2 & H3) F. unfold cfg_deserialize.
  assert (Hi : is_int32 (Z.of_nat (length (cc_servers c)))).
  { pose proof (servers_count (cc_servers c)). unfold cfg_bytes in F. lens. unfold is_int32. lia. }
  unfold cfg_bytes in *. rewrite <- !app_assoc in *.
  erewrite bbind_ok by (apply get_ulong_bk; auto).
  erewrite bbind_ok by (apply get_ulong_bk; auto; rewrite <- app_assoc; exact F).
  unfold int_b.
  erewrite bbind_ok by (apply get_int_bk; auto; rewrite <- !app_assoc; exact F).
  rewrite Nat2Z.id.
  erewrite bbind_ok by (apply srv_deserialize_n_ok; auto; rewrite <- !app_assoc; exact F).
  unfold bret. destruct c as [a1 a2 a3]; cbn [cc_log_idx cc_prev_log_idx cc_servers]. rewrite <- !app_assoc. reflexivity.
Qed.

(** snapshot *)
Lemma snp_serialize_ok junk s :
  lenN (snp_bytes s) < two31 -> snp_serialize junk s = Ok (bk [] (snp_bytes s)).
Proof.
  intros H. unfold snp_serialize.
  assert (Hlen : lenN (snp_bytes s) = 24 + lenN (cfg_bytes (sn_config s))) by (unfold snp_bytes; lens; lia).
  rewrite cfg_serialize_ok by lia. cbn [res_bind].
  rewrite buf_size_bk by (unfold fits; cbn [app]; lia). cbn [app].
  apply build_bk.
  - lia.
  - lia.
  - intros r Hr. assert (Lr : length r = (24 + length (cfg_bytes (sn_config s)))%nat) by (unfold lenN in *; lia).
    assert (Fr : lenN r < two31) by lia.
    erewrite bbind_ok by (apply put_ulong_bk; [exact Fr|lia]).
    erewrite bbind_ok.
    2:{ apply put_ulong_bk; [|rewrite skipn_length; lia].
        unfold fits; cbn [app]; lens; unfold lenN; rewrite skipn_length; unfold lenN in *; lia. }
    erewrite bbind_ok.
    2:{ apply put_ulong_bk; [|rewrite !skipn_length; lia].
        unfold fits; cbn [app]; lens; unfold lenN; rewrite !skipn_length; unfold lenN in *; lia. }
    rewrite put_buf_bk.
    + cbn [app]. rewrite !skipn_skipn. unfold snp_bytes. rewrite <- !app_assoc. fin_bk.
    + cbn [app]. unfold fits. lens. unfold lenN. rewrite !skipn_length. unfold lenN in *. lia.
    + cbn [app]. unfold fits. lia.
    + rewrite !skipn_length. lia.
Qed.

Lemma snp_deserialize_ok d s r :
  snp_ok s -> fits (d ++ snp_bytes s ++ r) ->
  snp_deserialize (bk d (snp_bytes s ++ r)) = (Ok s, bk (d ++ snp_bytes s) r).
Proof.
  intros (H1 & H2 & H3 & H4) F. unfold snp_deserialize.
  unfold snp_bytes in *. rewrite <- !app_assoc in *.
  erewrite bbind_ok by (apply get_ulong_bk; auto).
  erewrite bbind_ok by (apply get_ulong_bk; auto; rewrite <- !app_assoc; exact F).
  erewrite bbind_ok by (apply get_ulong_bk; auto; rewrite <- !app_assoc; exact F).
  erewrite bbind_ok by (apply cfg_deserialize_ok; auto; rewrite <- !app_assoc; exact F).
  unfold bret. destruct s as [a1 a2 a3 a4]; cbn [sn_last_log_idx sn_last_log_term sn_size sn_config]. rewrite <- !app_assoc. reflexivity.
Qed.

(** snapshot_sync_req *)
Lemma sync_serialize_ok junk s off dp dr done :
  lenN (sync_bytes s off done dr) < two31 -> fits (dp ++ dr) ->
  sync_serialize junk (mkSync s off (bk dp dr) done) = Ok (bk [] (sync_bytes s off done dr)).
Proof.
  intros H Fd. unfold sync_serialize. cbn [sy_snapshot sy_offset sy_data sy_done].
  assert (Hlen : lenN (sync_bytes s off done dr) = lenN (snp_bytes s) + 9 + lenN dr) by (unfold sync_bytes; lens; lia).
  rewrite snp_serialize_ok by lia. cbn [res_bind].
  rewrite buf_size_bk by (unfold fits; cbn [app]; lia). cbn [app].
  rewrite avail_bk by auto.
  apply build_bk.
  - lia.
  - lia.
  - intros r Hr.
    assert (Lr : length r = (length (snp_bytes s) + (9 + length dr))%nat) by (unfold lenN in *; lia).
    assert (Fr : lenN r < two31) by lia.
    erewrite bbind_ok.
    2:{ apply put_buf_bk; [exact Fr | unfold fits; cbn [app]; lia | lia]. }
    erewrite bbind_ok.
    2:{ apply put_ulong_bk; [|rewrite skipn_length; lia].
        unfold fits; cbn [app]; lens; unfold lenN; rewrite skipn_length; unfold lenN in *; lia. }
    erewrite bbind_ok.
    2:{ apply put_byte_bk; [|rewrite !skipn_length; lia].
        unfold fits; cbn [app]; lens; unfold lenN; rewrite !skipn_length; unfold lenN in *; lia. }
    rewrite put_buf_bk.
    + cbn [app]. rewrite !skipn_skipn. unfold sync_bytes. rewrite <- !app_assoc. fin_bk.
    + cbn [app]. unfold fits. lens. unfold lenN. rewrite !skipn_length. unfold lenN in *. lia.
    + auto.
    + rewrite !skipn_length. lia.
Qed.

Lemma sync_deserialize_ok junk s off done data d :
  snp_ok s -> is_ulong off -> fits (d ++ sync_bytes s off done data) ->
  fst (sync_deserialize junk (bk d (sync_bytes s off done data))) =
  Ok (mkSync s off (bk [] data) done).
Proof.
  intros H1 H2 F. unfold sync_deserialize. unfold sync_bytes in *.
  erewrite bbind_ok by (apply snp_deserialize_ok; auto).
  erewrite bbind_ok by (apply get_ulong_bk; auto; rewrite <- !app_assoc; exact F).
  cbn [app] in *.
  erewrite bbind_ok by (apply get_byte_bk; rewrite <- !app_assoc; exact F).
  assert (F2 : fits ((((d ++ snp_bytes s) ++ le 8 off) ++ [if done then x01 else x00]) ++ data)).
  { rewrite <- !app_assoc. exact F. }
  rewrite buf_pos_bk, buf_size_bk, avail_bk by auto.
  assert (Ed : Byte.eqb (if done then x01 else x00) x01 = done) by (destruct done; reflexivity).
  rewrite Ed.
  rewrite (lenN_app _ data).
  destruct (N.ltb_spec (lenN (((d ++ snp_bytes s) ++ le 8 off) ++ [if done then x01 else x00]))
              (lenN (((d ++ snp_bytes s) ++ le 8 off) ++ [if done then x01 else x00]) + lenN data)) as [L|G].
  - assert (Hd : lenN data < two31) by (unfold fits in F2; rewrite lenN_app in F2; lia).
    rewrite alloc_mk by auto. cbn [res_bind].
    rewrite load_bk by auto. cbn [res_bind].
    rewrite stream_in_mk; [|apply fresh_wf; auto|rewrite fresh_asize; unfold lenN; cbn [fresh apos]; lia].
    reflexivity.
  - assert (data = []) as -> by (destruct data; auto; rewrite lenN_cons in G; lia).
    destruct (alloc_bk junk 0) as (r & Lr & E); [unfold two31; lia|]. rewrite E. cbn [fst].
    destruct r; [|rewrite lenN_cons in Lr; lia]. reflexivity.
Qed.

(** log_entry *)
Lemma entry_serialize_ok junk term t dp dr :
  lenN (entry_bytes term t (dp ++ dr)) < two31 ->
  entry_serialize junk (mkRaw term t (Some (bk dp dr))) =
  (Ok (bk [] (entry_bytes term t (dp ++ dr))), mkRaw term t (Some (bk [] (dp ++ dr)))).
Proof.
  intros H. unfold entry_serialize. cbn [re_buf re_term re_type].
  assert (Hlen : lenN (entry_bytes term t (dp ++ dr)) = 9 + lenN (dp ++ dr)) by (unfold entry_bytes; lens; lia).
  assert (Fd : fits (dp ++ dr)) by (unfold fits; lia).
  assert (E : set_pos (bk dp dr) 0 = bk [] (dp ++ dr)).
  { pose proof (bseek0_bk dp dr Fd) as E. unfold bseek in E. congruence. }
  rewrite E. rewrite buf_size_bk by auto. cbn [app].
  f_equal. apply build_bk.
  - lia.
  - lia.
  - intros r Hr. assert (Lr : length r = (9 + length (dp ++ dr))%nat) by (unfold lenN in *; lia).
    assert (Fr : lenN r < two31) by lia.
    erewrite bbind_ok by (apply put_ulong_bk; [exact Fr|lia]).
    erewrite bbind_ok.
    2:{ apply put_byte_bk; [|rewrite skipn_length; lia].
        unfold fits; cbn [app]; lens; unfold lenN; rewrite skipn_length; unfold lenN in *; lia. }
    rewrite put_buf_bk.
    + cbn [app]. rewrite !skipn_skipn. unfold entry_bytes. rewrite <- !app_assoc. fin_bk.
    + cbn [app]. unfold fits. lens. unfold lenN. rewrite !skipn_length. unfold lenN in *. lia.
    + auto.
    + rewrite !skipn_length. lia.
Qed.

Lemma entry_deserialize_ok junk d term t payload :
  is_ulong term -> fits (d ++ entry_bytes term t payload) ->
  entry_deserialize junk (bk d (entry_bytes term t payload)) =
  (Ok (mkRaw term t (Some (bk [] payload))), bk (d ++ le 8 term ++ [t]) payload).
Proof.
  intros H F. unfold entry_deserialize, entry_bytes in *.
  erewrite bbind_ok by (apply get_ulong_bk; auto).
  cbn [app] in *.
  erewrite bbind_ok by (apply get_byte_bk; rewrite <- !app_assoc; exact F).
  unfold bk at 1. rewrite buf_copy_mk.
  - rewrite bk_rest. rewrite <- app_assoc. reflexivity.
  - apply bk_wf. rewrite <- !app_assoc. exact F.
Qed.

Lemma term_in_buffer_ok term t payload :
  is_ulong term -> fits (entry_bytes term t payload) ->
  term_in_buffer (bk [] (entry_bytes term t payload)) = (Ok term, bk [] (entry_bytes term t payload)).
Proof.
  intros H F. unfold term_in_buffer, entry_bytes in *.
  erewrite bbind_ok by (apply get_ulong_bk; auto).
  erewrite bbind_ok by (apply bseek0_bk; exact F). reflexivity.
Qed.

(** reading from any reachable buffer *)
Lemma reachable_bk n b : reachable n b ->
  exists d r, fits (d ++ r) /\ b = bk d r /\ arest (view b) = r /\ adata (view b) = d ++ r /\ buf_pos b = lenN d.
Proof.
  intros R. destruct (reachable_mk _ _ R) as ([p l] & W & -> & L).
  pose proof W as [W1 W2]. cbn [apos adata] in *. unfold asize in W1; cbn [adata] in W1.
  exists (firstn p l), (skipn p l).
  assert (E : mkAbuf p l = mkAbuf (length (firstn p l)) (firstn p l ++ skipn p l)).
  { rewrite firstn_skipn. f_equal. rewrite firstn_length. lia. }
  split; [unfold fits; rewrite firstn_skipn; auto|].
  split; [unfold bk; rewrite <- E; reflexivity|].
  rewrite view_mk, buf_pos_mk by auto. cbn [adata apos arest]. rewrite firstn_skipn.
  repeat split. unfold lenN. rewrite firstn_length. f_equal. lia.
Qed.

Lemma view_bk d r : fits (d ++ r) -> view (bk d r) = mkAbuf (length d) (d ++ r).
Proof. intros F. unfold bk. apply view_mk, bk_wf, F. Qed.

(** what "a buffer at whose position the bytes [x] start" gives *)
Lemma reachable_at n src x rest : reachable n src -> arest (view src) = x ++ rest ->
  exists d, fits (d ++ x ++ rest) /\ src = bk d (x ++ rest) /\ adata (view src) = d ++ x ++ rest /\ buf_pos src = lenN d.
Proof.
  intros R E. destruct (reachable_bk _ _ R) as (d & r & F & -> & E1 & E2 & E3).
  rewrite E1 in E. subst r. exists d. auto.
Qed.

Lemma after_read {A} (m : BM A) v n src x rest :
  reachable n src -> arest (view src) = x ++ rest ->
  (forall d, fits (d ++ x ++ rest) -> m (bk d (x ++ rest)) = (Ok v, bk (d ++ x) rest)) ->
  exists src', m src = (Ok v, src') /\ adata (view src') = adata (view src) /\
               buf_pos src' = buf_pos src + lenN x.
Proof.
  intros R E H. destruct (reachable_at _ _ _ _ R E) as (d & F & -> & E2 & E3).
  exists (bk (d ++ x) rest). rewrite H by auto. split; [reflexivity|].
  assert (F' : fits ((d ++ x) ++ rest)) by (rewrite <- app_assoc; exact F).
  rewrite view_bk, E2, buf_pos_bk, E3 by auto. cbn [adata]. rewrite <- app_assoc, lenN_app. auto.
Qed.

(** serialized blocks are ordinary reachable buffers *)
Lemma bk_reachable x : fits x -> reachable (lenN x) (bk [] x).
Proof.
  intros F.
  set (h := if lenN x <? 0x8000 then 4 else 8).
  set (junk := fun i => nth (i - N.to_nat h) x x00).
  assert (E : alloc junk (lenN x) = Ok (bk [] x)).
  { rewrite alloc_mk by exact F. f_equal. unfold bk, fresh. f_equal. cbn [length app]. f_equal.
    fold h. unfold junk_bytes, junk. rewrite skipn_map.
    replace (N.to_nat (lenN x + h)) with (N.to_nat h + length x)%nat by (unfold lenN; lia).
    rewrite seq_app, skipn_app_exact.
    2:{ rewrite seq_length. unfold h. destruct (lenN x <? 0x8000); reflexivity. }
    cbn [Nat.add]. generalize (N.to_nat h) as k. clear. intros k.
    assert (G : forall m, map (fun i => nth (i - k) (repeat x00 m ++ x) x00) (seq (k + m) (length x)) = x).
    { induction x as [|c x IH]; intros m; cbn [length seq map]; auto. f_equal.
      - replace (k + m - k)%nat with m by lia. rewrite app_nth2; rewrite repeat_length; [|lia].
        rewrite Nat.sub_diag. reflexivity.
      - rewrite <- (IH (S m)) at 2. replace (S (k + m)) with (k + S m)%nat by lia.
        apply map_ext_in. intros i Hi. apply in_seq in Hi.
        destruct (Nat.leb_spec (k + S m) i); [|lia].
        rewrite !app_nth2; rewrite ?repeat_length; try lia.
        replace (i - k - m)%nat with (S (i - k - S m)) by lia. reflexivity. }
    specialize (G O). cbn [repeat app] in G. rewrite Nat.add_0_r in G. exact G. }
  exact (r_alloc junk _ _ E).
Qed.

Lemma serialize_all_throws junk l :
  ~ Forall (fun s => lenN (sc_endpoint s) + 5 < two31) l -> serialize_all junk l = Throw OutOfRange.
Proof.
  induction l as [|s l IH]; intros H; [exfalso; apply H; constructor|]. cbn [serialize_all].
  destruct (N.lt_ge_cases (lenN (sc_endpoint s) + 5) two31) as [L|G].
  - rewrite srv_serialize_ok by auto. cbn [res_bind]. rewrite IH; auto.
  - unfold srv_serialize, build. rewrite alloc_throws by lia. reflexivity.
Qed.

Lemma cfg_serialize_throws junk c :
  two31 <= lenN (cfg_bytes c) -> cfg_serialize junk c = Throw OutOfRange.
Proof.
  intros H. unfold cfg_serialize.
  assert (Hlen : lenN (cfg_bytes c) = 20 + lenN (servers_bytes (cc_servers c))).
  { unfold cfg_bytes. lens. lia. }
  assert (D : Forall (fun s => lenN (sc_endpoint s) + 5 < two31) (cc_servers c) \/
              ~ Forall (fun s => lenN (sc_endpoint s) + 5 < two31) (cc_servers c)).
  { induction (cc_servers c) as [|s l IH] in |- *; [left; constructor|].
    destruct (N.lt_ge_cases (lenN (sc_endpoint s) + 5) two31) as [L|G].
    - destruct IH as [F|NF]; [left; constructor; auto|]. right. intros F. apply NF. inversion F; auto.
    - right. intros F. inversion F. lia. }
  destruct D as [F|NF].
  - rewrite serialize_all_ok by auto. cbn [res_bind].
    rewrite <- (map_map srv_bytes (bk [])).
    rewrite fold_sizes.
    + unfold build. rewrite alloc_throws; [reflexivity|]. fold (servers_bytes (cc_servers c)). lia.
    + apply Forall_map. eapply Forall_impl; [|exact F]. intros s Hs. unfold fits. rewrite srv_bytes_len. auto.
  - rewrite serialize_all_throws by auto. reflexivity.
Qed.
