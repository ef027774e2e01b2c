(** * Reachable blocks and the properties C01-C07 (lemmas) *)

From Verif Require Import Base Buffer BufferSpec BufferProofs.
Local Open Scope N_scope.

(** ** What the API shows of a block *)

(** the size() bytes behind the header, and pos() *)
Definition view (b : block) : abuf :=
  mkAbuf (N.to_nat (buf_pos b)) (skipn (length b - N.to_nat (buf_size b)) b).

(** Running one API operation on the raw block. *)
Definition run_op (o : bop) (b : block) : res bval * block :=
  match o with
  | OGetInt => pmap VInt (get_int b)
  | OGetUlong => pmap VUlong (get_ulong b)
  | OGetByte => pmap VByte (get_byte b)
  | OGetStr => pmap VStr (get_str b)
  | OSetPos p => (Ok VUnit, set_pos b p)
  | OPutByte x => pmap (fun _ => VUnit) (put_byte x b)
  | OPutInt z => pmap (fun _ => VUnit) (put_int z b)
  | OPutUlong n => pmap (fun _ => VUnit) (put_ulong n b)
  | OPutStr s => pmap (fun _ => VUnit) (put_str s b)
  end.

(** Blocks obtained from alloc by any sequence of operations; [reachable n b]:
    b was allocated with size n. *)
Inductive reachable : N -> block -> Prop :=
| r_alloc junk n b : alloc junk n = Ok b -> reachable n b
| r_op n b o r b' : reachable n b -> run_op o b = (r, b') -> reachable n b'
| r_put_buf n b m src r b' : reachable n b -> reachable m src -> put_buf src b = (r, b') -> reachable n b'
| r_copy n src junk b : reachable n src -> buf_copy junk src = Ok b -> reachable (buf_size b) b.

Lemma view_mk a : wf_abuf a -> view (mk_block a) = a.
Proof.
  intros wf. unfold view. rewrite buf_pos_mk, buf_size_mk by auto.
  rewrite length_mk. unfold lenN.
  replace (hlen a + asize a - N.to_nat (N.of_nat (length (adata a))))%nat with (hlen a + 0)%nat
    by (unfold asize; lia).
  rewrite skipn_mk. cbn [skipn]. rewrite Nnat.Nat2N.id. destruct a; reflexivity.
Qed.

Lemma spec_op_wf o a : wf_abuf a -> wf_abuf (snd (spec_op o a)).
Proof.
  intros wf. destruct o; cbn [spec_op]; unfold pmap; cbn [snd];
    auto using aget_op_wf, aput_op_wf, aget_str_wf.
  destruct wf as [W1 W2]. split; cbn [apos adata]; auto. unfold asize, lenN; cbn [adata]. lia.
Qed.

Lemma aput_op_size a bs : wf_abuf a -> asize (snd (aput_op a bs)) = asize a.
Proof.
  intros [W1 W2]. unfold aput_op. destruct (Nat.ltb_spec (asize a - apos a) (length bs)); cbn [snd]; auto.
  apply aput_size; lia.
Qed.

Lemma spec_op_size o a : wf_abuf a -> asize (snd (spec_op o a)) = asize a.
Proof.
  intros [W1 W2].
  assert (HP : forall bs, asize (snd (aput_op a bs)) = asize a).
  { intros bs. unfold aput_op. destruct (Nat.ltb_spec (asize a - apos a) (length bs)); cbn [snd]; auto.
    apply aput_size; lia. }
  assert (HG : forall A n (f : list byte -> A), asize (snd (aget_op a n f)) = asize a).
  { intros A n f. unfold aget_op. destruct (Nat.ltb_spec (asize a - apos a) n); reflexivity. }
  destruct o; cbn [spec_op]; unfold pmap; cbn [snd]; auto.
  unfold aget_str. destruct (first_nul (arest a)) as [[|]|]; reflexivity.
Qed.

Lemma run_op_mk o a : wf_abuf a ->
  run_op o (mk_block a) = (fst (spec_op o a), mk_block (snd (spec_op o a))).
Proof.
  intros wf. destruct o; cbn [run_op spec_op]; unfold pmap.
  - rewrite get_int_mk by auto. reflexivity.
  - rewrite get_ulong_mk by auto. reflexivity.
  - rewrite get_byte_mk by auto. reflexivity.
  - rewrite get_str_mk by auto. reflexivity.
  - rewrite set_pos_mkN by auto. reflexivity.
  - rewrite put_byte_mk by auto. reflexivity.
  - rewrite put_int_mk by auto. reflexivity.
  - rewrite put_ulong_mk by auto. reflexivity.
  - rewrite put_str_mk by auto. reflexivity.
Qed.

Lemma put_buf_mk' a src : wf_abuf a -> wf_abuf src ->
  put_buf (mk_block src) (mk_block a) = (fst (aput_op a (arest src)), mk_block (snd (aput_op a (arest src)))).
Proof. intros. rewrite put_buf_mk by auto. reflexivity. Qed.

Lemma reachable_mk n b : reachable n b ->
  exists a, wf_abuf a /\ b = mk_block a /\ lenN (adata a) = n.
Proof.
  induction 1 as [junk n b E | n b o r b' R IH E | n b m src r b' R IH Rs IHs E | n src junk b R IH E].
  - destruct (N.lt_ge_cases n two31) as [L|G].
    + rewrite alloc_mk in E by auto. injection E as <-. exists (fresh junk n).
      split; [apply fresh_wf; auto|]. split; [reflexivity|apply fresh_size].
    + rewrite alloc_throws in E by auto. discriminate.
  - destruct IH as (a & wf & -> & <-). rewrite run_op_mk in E by auto. injection E as <- <-.
    exists (snd (spec_op o a)). split; [apply spec_op_wf; auto|]. split; [reflexivity|].
    pose proof (spec_op_size o a wf). unfold asize, lenN in *. lia.
  - destruct IH as (a & wf & -> & <-). destruct IHs as (s & ws & -> & _).
    rewrite put_buf_mk' in E by auto. injection E as <- <-.
    exists (snd (aput_op a (arest s))). split; [apply aput_op_wf; auto|]. split; [reflexivity|].
    pose proof (aput_op_size a (arest s) wf) as HS.
    unfold asize, lenN in *. lia.
  - destruct IH as (a & wf & -> & <-). rewrite buf_copy_mk in E by auto. injection E as <-.
    assert (W : wf_abuf (mkAbuf 0 (arest a))).
    { destruct wf as [W1 W2]. split; cbn [apos adata]; [lia|]. unfold arest, lenN in *.
      rewrite skipn_length. lia. }
    exists (mkAbuf 0 (arest a)). rewrite buf_size_mk by auto. auto.
Qed.

(** ** C01 *)
Lemma reachable_refines n b o r b' :
  reachable n b -> run_op o b = (r, b') ->
  (r, view b') = spec_op o (view b).
Proof.
  intros R E. destruct (reachable_mk _ _ R) as (a & wf & -> & _).
  rewrite run_op_mk in E by auto. injection E as <- <-.
  rewrite !view_mk by auto using spec_op_wf. destruct (spec_op o a); reflexivity.
Qed.

Lemma reachable_put_buf n b m src r b' :
  reachable n b -> reachable m src -> put_buf src b = (r, b') ->
  (r, view b') = aput_op (view b) (arest (view src)).
Proof.
  intros R Rs E. destruct (reachable_mk _ _ R) as (a & wf & -> & _).
  destruct (reachable_mk _ _ Rs) as (s & ws & -> & _).
  rewrite put_buf_mk' in E by auto. injection E as <- <-.
  rewrite !view_mk by auto using aput_op_wf. destruct (aput_op a (arest s)); reflexivity.
Qed.

Lemma aput_op_noub a bs : is_ub (fst (aput_op a bs)) = false.
Proof. unfold aput_op. destruct (Nat.ltb _ _); reflexivity. Qed.
Lemma aget_op_noub {A} a n (f : list byte -> A) : is_ub (fst (aget_op a n f)) = false.
Proof. unfold aget_op. destruct (Nat.ltb _ _); reflexivity. Qed.
Lemma aput_op_throw a bs e : fst (aput_op a bs) = Throw e -> snd (aput_op a bs) = a.
Proof. unfold aput_op. destruct (Nat.ltb _ _); cbn; [reflexivity|discriminate]. Qed.
Lemma aget_op_throw {A} a n (f : list byte -> A) e : fst (aget_op a n f) = Throw e -> snd (aget_op a n f) = a.
Proof. unfold aget_op. destruct (Nat.ltb _ _); cbn; [reflexivity|discriminate]. Qed.

Lemma rmap_noub {A B} (f : A -> B) r : is_ub (rmap f r) = is_ub r.
Proof. destruct r; reflexivity. Qed.
Lemma rmap_throw {A B} (f : A -> B) r e : rmap f r = Throw e -> r = Throw e.
Proof. destruct r; cbn; congruence. Qed.

Lemma spec_op_noub o a : is_ub (fst (spec_op o a)) = false.
Proof.
  destruct o; cbn [spec_op]; unfold pmap; cbn [fst]; rewrite ?rmap_noub;
    auto using aput_op_noub, @aget_op_noub.
  unfold aget_str. destruct (first_nul (arest a)) as [[|]|]; reflexivity.
Qed.

Lemma spec_op_throw o a e : fst (spec_op o a) = Throw e -> snd (spec_op o a) = a.
Proof.
  destruct o; cbn [spec_op]; unfold pmap; cbn [fst snd]; intros H;
    try apply rmap_throw in H; eauto using aput_op_throw, @aget_op_throw; try discriminate.
  unfold aget_str in *. destruct (first_nul (arest a)) as [[|]|]; cbn in *; congruence.
Qed.

(** the bytes of the header are inside the block: the header occupies 4 or 8
    bytes (8 exactly for blocks flagged big) and the rest is the data *)
Lemma reachable_block_header n b : reachable n b ->
  length b = ((if is_big b then 8 else 4) + N.to_nat n)%nat /\
  is_big b = (0x8000 <=? n).
Proof.
  intros R. destruct (reachable_mk _ _ R) as (a & wf & -> & <-).
  rewrite is_big_mk by auto. rewrite length_mk. unfold hlen, asize, lenN.
  destruct (N.ltb_spec (N.of_nat (length (adata a))) 32768); cbn [negb];
  destruct (N.leb_spec 0x8000 (N.of_nat (length (adata a)))); lia.
Qed.

Lemma buffer_safe n b :
  reachable n b ->
  buf_size b = n /\ buf_pos b <= n /\
  (forall o r b', run_op o b = (r, b') ->
     is_ub r = false /\ length b' = length b /\ buf_size b' = n /\ buf_pos b' <= n /\
     (forall e, r = Throw e -> b' = b)) /\
  (forall m src r b', reachable m src -> put_buf src b = (r, b') ->
     is_ub r = false /\ length b' = length b /\ buf_size b' = n /\ buf_pos b' <= n /\
     (forall e, r = Throw e -> b' = b)).
Proof.
  intros R. destruct (reachable_mk _ _ R) as (a & wf & -> & En).
  rewrite buf_size_mk, buf_pos_mk by auto.
  assert (Hsz : forall a', wf_abuf a' -> asize a' = asize a ->
     length (mk_block a') = length (mk_block a) /\ buf_size (mk_block a') = n /\ buf_pos (mk_block a') <= n).
  { intros a' W' S'. rewrite buf_size_mk, buf_pos_mk, !length_mk by auto. unfold hlen, lenN, asize in *.
    rewrite S'. destruct W' as [W1 _]. unfold asize in W1. lia. }
  destruct (Hsz a wf eq_refl) as (_ & S0 & P0). rewrite buf_size_mk in S0 by auto.
  rewrite buf_pos_mk in P0 by auto.
  split; [auto|]. split; [auto|]. split.
  - intros o r b' E. rewrite run_op_mk in E by auto. injection E as <- <-.
    destruct (Hsz (snd (spec_op o a))) as (L & S & P); auto using spec_op_wf, spec_op_size.
    repeat split; auto using spec_op_noub. intros e He. f_equal. eapply spec_op_throw; eauto.
  - intros m src r b' Rs E. destruct (reachable_mk _ _ Rs) as (s & ws & -> & _).
    rewrite put_buf_mk' in E by auto. injection E as <- <-.
    destruct (Hsz (snd (aput_op a (arest s)))) as (L & S & P); auto using aput_op_wf.
    { apply aput_op_size; auto. }
    repeat split; auto using aput_op_noub. intros e He. f_equal. eapply aput_op_throw; eauto.
Qed.

(** ** C02: typed sequences *)

(** write one value through the API; a byte string is written with
    put(const buffer&) from a fresh source buffer *)
Definition write_val (junk : nat -> byte) (v : tval) (b : block) : res unit * block :=
  match v with
  | TByte x => put_byte x b
  | TInt z => put_int z b
  | TUlong n => put_ulong n b
  | TStr s => put_str s b
  | TBytes bs =>
      match alloc junk (lenN bs) with
      | Ok src => match stream_in src bs with
                  | Ok src => put_buf src b
                  | Throw e => (Throw e, b) | UB u => (UB u, b)
                  end
      | Throw e => (Throw e, b) | UB u => (UB u, b)
      end
  end.

Fixpoint write_vals (junk : nat -> byte) (vs : list tval) (b : block) : res unit * block :=
  match vs with
  | [] => (Ok tt, b)
  | v :: vs => match write_val junk v b with
               | (Ok _, b) => write_vals junk vs b
               | (Throw e, b) => (Throw e, b)
               | (UB u, b) => (UB u, b)
               end
  end.

(** read a value of the same type (and, for byte strings, length) as [v]; byte
    strings are read with get(bufptr&) into a fresh destination *)
Definition read_like (junk : nat -> byte) (v : tval) (b : block) : res tval * block :=
  match v with
  | TByte _ => pmap TByte (get_byte b)
  | TInt _ => pmap TInt (get_int b)
  | TUlong _ => pmap TUlong (get_ulong b)
  | TStr _ => match get_str b with
              | (Ok (Some s), b) => (Ok (TStr s), b)
              | (Ok None, b) => (UB NullString, b)
              | (Throw e, b) => (Throw e, b)
              | (UB u, b) => (UB u, b)
              end
  | TBytes bs =>
      match alloc junk (lenN bs) with
      | Ok dst => match get_buf b dst with
                  | (Ok _, b, dst) => match stream_out dst with
                                      | Ok r => (Ok (TBytes r), b)
                                      | Throw e => (Throw e, b) | UB u => (UB u, b)
                                      end
                  | (Throw e, b, _) => (Throw e, b)
                  | (UB u, b, _) => (UB u, b)
                  end
      | Throw e => (Throw e, b) | UB u => (UB u, b)
      end
  end.

Fixpoint read_vals (junk : nat -> byte) (shape : list tval) (b : block) : res (list tval) * block :=
  match shape with
  | [] => (Ok [], b)
  | v :: vs => match read_like junk v b with
               | (Ok x, b) => match read_vals junk vs b with
                              | (Ok xs, b) => (Ok (x :: xs), b)
                              | r => r
                              end
               | (Throw e, b) => (Throw e, b)
               | (UB u, b) => (UB u, b)
               end
  end.

Definition tval_bytes (v : tval) : list byte :=
  match v with
  | TByte b => [b]
  | TInt z => le 4 (Z.to_N (z mod 4294967296))
  | TUlong n => le 8 n
  | TStr s => s ++ [x00]
  | TBytes bs => bs
  end.

Lemma tval_bytes_size v : length (tval_bytes v) = tval_size v.
Proof. destruct v; cbn [tval_bytes tval_size]; rewrite ?le_length, ?app_length; auto. Qed.

Definition vals_bytes (vs : list tval) : list byte := concat (map tval_bytes vs).
Lemma vals_bytes_size vs : length (vals_bytes vs) = total_size vs.
Proof.
  induction vs as [|v vs IH]; cbn; auto. unfold vals_bytes in *. cbn [map concat].
  rewrite app_length, IH, tval_bytes_size. reflexivity.
Qed.

Lemma stream_in_fresh junk bs : lenN bs < two31 ->
  exists src, alloc junk (lenN bs) = Ok src /\ stream_in src bs = Ok (mk_block (mkAbuf 0 bs)).
Proof.
  intros H. exists (mk_block (fresh junk (lenN bs))). split; [apply alloc_mk; auto|].
  rewrite stream_in_mk.
  - reflexivity.
  - apply fresh_wf; auto.
  - rewrite fresh_asize. unfold lenN. cbn [fresh apos]. lia.
Qed.

Lemma write_val_mk junk v a :
  wf_abuf a -> (tval_size v <= asize a - apos a)%nat ->
  write_val junk v (mk_block a) = (Ok tt, mk_block (aput a (tval_bytes v))).
Proof.
  intros wf H.
  assert (HP : aput_op a (tval_bytes v) = (Ok tt, aput a (tval_bytes v))).
  { unfold aput_op. rewrite tval_bytes_size. destruct (Nat.ltb_spec (asize a - apos a) (tval_size v)); [lia|reflexivity]. }
  destruct v; cbn [write_val tval_bytes tval_size] in *.
  - rewrite put_byte_mk, HP by auto. reflexivity.
  - rewrite put_int_mk, HP by auto. reflexivity.
  - rewrite put_ulong_mk, HP by auto. reflexivity.
  - rewrite put_str_mk, HP by auto. reflexivity.
  - assert (L : lenN bs < two31).
    { destruct wf as [_ W]. unfold lenN, asize, two31 in *. lia. }
    destruct (stream_in_fresh junk bs L) as (src & -> & ->).
    rewrite put_buf_mk; auto.
    + unfold arest. cbn [apos adata skipn]. rewrite HP. reflexivity.
    + split; cbn [apos adata]; [lia|auto].
Qed.

Lemma aput_app a x y : (length x + length y <= asize a - apos a)%nat -> (apos a <= asize a)%nat ->
  aput (aput a x) y = aput a (x ++ y).
Proof.
  intros H W. unfold aput; cbn [apos adata]. rewrite app_length. f_equal; [lia|].
  assert (Lf : length (firstn (apos a) (adata a)) = apos a).
  { rewrite firstn_length. unfold asize in *. lia. }
  rewrite (app_assoc (firstn (apos a) (adata a)) x).
  rewrite firstn_app_exact by (rewrite app_length, Lf; reflexivity).
  rewrite skipn_app_ge by (rewrite app_length, Lf; lia).
  rewrite app_length, Lf, skipn_skipn. rewrite <- !app_assoc.
  do 4 f_equal. lia.
Qed.

Lemma write_vals_mk junk vs : forall a,
  wf_abuf a -> (total_size vs <= asize a - apos a)%nat ->
  write_vals junk vs (mk_block a) = (Ok tt, mk_block (aput a (vals_bytes vs))).
Proof.
  induction vs as [|v vs IH]; intros a wf H; cbn [write_vals].
  - unfold vals_bytes, aput. cbn [map concat length app]. rewrite Nat.add_0_r, firstn_skipn. destruct a; reflexivity.
  - change (total_size (v :: vs)) with (tval_size v + total_size vs)%nat in H.
    rewrite write_val_mk by (auto; lia).
    assert (Hs : asize (aput a (tval_bytes v)) = asize a).
    { destruct wf. apply aput_size; auto. rewrite tval_bytes_size. lia. }
    assert (Hp : apos (aput a (tval_bytes v)) = (apos a + tval_size v)%nat).
    { unfold aput; cbn [apos]. rewrite tval_bytes_size. reflexivity. }
    rewrite IH.
    + f_equal. f_equal. destruct wf as [W _].
      rewrite aput_app; auto. rewrite tval_bytes_size, vals_bytes_size. lia.
    + apply aput_wf; auto. rewrite tval_bytes_size. lia.
    + rewrite Hs, Hp. lia.
Qed.

Lemma first_nul_app s r : no_nul s -> first_nul (s ++ x00 :: r) = Some (length s).
Proof.
  induction s as [|b s IH]; intros H; cbn [app first_nul length]; auto.
  destruct (Byte.eqb b x00) eqn:F.
  - apply Byte.byte_dec_bl in F. subst b. exfalso. apply H. left. reflexivity.
  - rewrite IH; auto. intros I. apply H. right. exact I.
Qed.

(** reading at a position where the value's bytes are *)
Lemma read_like_mk junk v a rest :
  wf_abuf a -> tval_ok v -> arest a = tval_bytes v ++ rest ->
  read_like junk v (mk_block a) = (Ok v, mk_block (askip a (tval_size v))).
Proof.
  intros wf Hok Hr.
  assert (Hl : (asize a - apos a = tval_size v + length rest)%nat).
  { assert (E : length (arest a) = (asize a - apos a)%nat) by (unfold arest, asize; apply skipn_length).
    rewrite <- E, Hr, app_length, tval_bytes_size. reflexivity. }
  assert (HG : forall A n (f : list byte -> A), n = tval_size v ->
     aget_op a n f = (Ok (f (tval_bytes v)), askip a n)).
  { intros A n f ->. unfold aget_op. destruct (Nat.ltb_spec (asize a - apos a) (tval_size v)); [lia|].
    rewrite Hr, firstn_app_exact by apply tval_bytes_size. reflexivity. }
  destruct v; cbn [read_like tval_size tval_bytes tval_ok] in *; unfold pmap.
  - rewrite get_byte_mk, HG by auto. reflexivity.
  - rewrite get_int_mk, HG by auto. cbn [lift fst snd rmap]. rewrite int32_of_le by auto. reflexivity.
  - rewrite get_ulong_mk, HG by auto. cbn [lift fst snd rmap]. rewrite of_le_le8 by auto. reflexivity.
  - rewrite get_str_mk by auto. unfold aget_str, lift. rewrite Hr. rewrite <- app_assoc. cbn [app].
    destruct Hok as [Hne Hnn]. rewrite first_nul_app by auto.
    destruct s as [|b s]; [congruence|]. cbn [length]. cbn [fst snd].
    rewrite firstn_app_exact by reflexivity. cbn [length]. reflexivity.
  - assert (L : lenN bs < two31).
    { destruct wf as [_ W]. unfold lenN, asize, two31 in *. lia. }
    rewrite alloc_mk by auto. rewrite get_buf_mk by (auto using fresh_wf).
    rewrite fresh_asize. cbn [fresh apos]. unfold lenN. rewrite Nnat.Nat2N.id, Nat.sub_0_r.
    destruct (Nat.leb_spec (length bs) (asize a - apos a)); [|lia].
    rewrite Hr, firstn_app_exact by reflexivity.
    fold (lenN bs).
    assert (E : mkAbuf 0 (adata (aput (fresh junk (lenN bs)) bs)) = mkAbuf 0 bs).
    { f_equal. unfold aput; cbn [adata]. change (apos (fresh junk (lenN bs))) with 0%nat.
      rewrite firstn_O, app_nil_l. rewrite skipn_all2; [apply app_nil_r|].
      pose proof (fresh_asize junk (lenN bs)) as F. unfold asize, lenN in *. lia. }
    cbv beta zeta. unfold fresh in E. cbn [apos] in E.
    unfold fresh. rewrite E.
    rewrite stream_out_mk by (split; cbn [apos adata]; [lia|exact L]).
    unfold arest. cbn [apos adata skipn]. reflexivity.
Qed.

Lemma read_vals_mk junk vs : forall a rest,
  wf_abuf a -> Forall tval_ok vs -> arest a = vals_bytes vs ++ rest ->
  read_vals junk vs (mk_block a) = (Ok vs, mk_block (askip a (total_size vs))).
Proof.
  induction vs as [|v vs IH]; intros a rest wf Hok Hr; cbn [read_vals].
  - unfold askip. cbn. rewrite Nat.add_0_r. destruct a; reflexivity.
  - inversion Hok as [|? ? Hv Hvs]; subst.
    unfold vals_bytes in Hr. cbn [map concat] in Hr. fold (vals_bytes vs) in Hr. rewrite <- app_assoc in Hr.
    rewrite (read_like_mk junk v a _ wf Hv Hr).
    assert (Hl : (asize a - apos a = tval_size v + (total_size vs + length rest))%nat).
    { assert (E : length (arest a) = (asize a - apos a)%nat) by (unfold arest, asize; apply skipn_length).
      rewrite <- E, Hr, !app_length, tval_bytes_size, vals_bytes_size. lia. }
    rewrite (IH (askip a (tval_size v)) rest).
    + f_equal. f_equal. unfold askip; cbn [apos adata]. f_equal.
      change (total_size (v :: vs)) with (tval_size v + total_size vs)%nat. lia.
    + apply askip_wf; auto. lia.
    + auto.
    + unfold askip, arest in *. cbn [apos adata]. rewrite <- skipn_skipn. rewrite Hr.
      apply skipn_app_exact. apply tval_bytes_size.
Qed.

Lemma typed_round_trip junk n b vs :
  alloc junk n = Ok b ->
  Forall tval_ok vs ->
  N.of_nat (total_size vs) <= n ->
  exists b1 b2,
    write_vals junk vs b = (Ok tt, b1) /\
    read_vals junk vs (set_pos b1 0) = (Ok vs, b2) /\
    buf_pos b2 = buf_pos b1 /\ buf_pos b1 = N.of_nat (total_size vs).
Proof.
  intros Ha Hok Hn.
  destruct (N.lt_ge_cases n two31) as [L|G]; [|rewrite alloc_throws in Ha by auto; discriminate].
  rewrite alloc_mk in Ha by auto. injection Ha as <-.
  set (a := fresh junk n). assert (wf : wf_abuf a) by (apply fresh_wf; auto).
  assert (Hs : asize a = N.to_nat n) by apply fresh_asize.
  assert (Hp : apos a = 0%nat) by reflexivity.
  assert (Hfit : (length (vals_bytes vs) <= asize a - apos a)%nat) by (rewrite vals_bytes_size; lia).
  exists (mk_block (aput a (vals_bytes vs))).
  assert (W1 : wf_abuf (aput a (vals_bytes vs))) by (apply aput_wf; auto).
  change 0 with (N.of_nat 0).
  rewrite set_pos_mk' by auto.
  exists (mk_block (askip (aseek (aput a (vals_bytes vs)) 0) (total_size vs))).
  assert (Hr : arest (aseek (aput a (vals_bytes vs)) 0) =
               vals_bytes vs ++ skipn (length (vals_bytes vs)) (adata a)).
  { unfold arest, aseek, aput. cbn [apos adata Nat.min skipn]. rewrite Hp, firstn_O, app_nil_l. reflexivity. }
  assert (W2 : wf_abuf (aseek (aput a (vals_bytes vs)) 0)) by (apply aseek_wf; auto).
  split; [|split].
  - apply write_vals_mk; auto. lia.
  - eapply read_vals_mk; eauto.
  - rewrite !buf_pos_mk; auto.
    + unfold askip, aseek, aput; cbn [apos Nat.min]. rewrite vals_bytes_size, Hp. lia.
    + apply askip_wf; auto. unfold aseek at 2. cbn [apos Nat.min].
      change (asize (aseek (aput a (vals_bytes vs)) 0)) with (asize (aput a (vals_bytes vs))).
      rewrite aput_size by lia. lia.
Qed.

(** ** C03: explicit layout *)

Lemma nth_le k n i : (i < k)%nat -> nth i (le k n) x00 = nbyte (n / 256 ^ N.of_nat i).
Proof.
  revert n i; induction k as [|k IH]; intros n i H; [lia|]. cbn [le].
  destruct i as [|i].
  - cbn [nth]. change (256 ^ N.of_nat 0) with 1. rewrite N.div_1_r. reflexivity.
  - cbn [nth]. rewrite IH by lia. replace (N.of_nat (S i)) with (N.succ (N.of_nat i)) by lia.
    rewrite N.pow_succ_r'. rewrite N.div_div; auto; try lia.
Qed.

Lemma nth_aput a bs i : (length bs <= asize a - apos a)%nat -> (apos a <= asize a)%nat ->
  nth i (adata (aput a bs)) x00 =
  if (apos a <=? i)%nat && (i <? apos a + length bs)%nat then nth (i - apos a) bs x00
  else nth i (adata a) x00.
Proof.
  intros H W. unfold aput; cbn [adata].
  assert (Lf : length (firstn (apos a) (adata a)) = apos a).
  { rewrite firstn_length. unfold asize in *. lia. }
  destruct (Nat.leb_spec (apos a) i) as [L|L]; cbn [andb].
  - rewrite app_nth2 by lia. rewrite Lf.
    destruct (Nat.ltb_spec i (apos a + length bs)).
    + rewrite app_nth1 by lia. reflexivity.
    + rewrite app_nth2 by lia.
      rewrite <- (firstn_skipn (apos a + length bs) (adata a)) at 2.
      rewrite (app_nth2 (firstn _ _)) by (rewrite firstn_length; unfold asize in *; lia).
      f_equal. rewrite firstn_length. unfold asize in *. lia.
  - rewrite app_nth1 by lia.
    rewrite <- (firstn_skipn (apos a) (adata a)) at 2.
    rewrite app_nth1 by lia. reflexivity.
Qed.

Lemma put_ulong_layout n b v b' :
  reachable n b -> is_ulong v -> put_ulong v b = (Ok tt, b') ->
  apos (view b') = (apos (view b) + 8)%nat /\
  (forall i, nth i (adata (view b')) x00 =
     if (apos (view b) <=? i)%nat && (i <? apos (view b) + 8)%nat
     then nbyte (v / 256 ^ N.of_nat (i - apos (view b)))
     else nth i (adata (view b)) x00).
Proof.
  intros R Hv E. destruct (reachable_mk _ _ R) as (a & wf & -> & _).
  rewrite put_ulong_mk in E by auto. unfold lift, aput_op in E. rewrite le_length in E.
  destruct (Nat.ltb_spec (asize a - apos a) 8); cbn [fst snd] in E; [discriminate|].
  apply (f_equal snd) in E. cbn [snd] in E. subst b'. pose proof wf as [W _].
  rewrite !view_mk by (auto; apply aput_wf; auto; rewrite le_length; auto).
  split; [unfold aput; cbn [apos]; rewrite le_length; reflexivity|].
  intros i. rewrite nth_aput by (rewrite ?le_length; auto). rewrite le_length.
  destruct ((apos a <=? i)%nat && (i <? apos a + 8)%nat) eqn:B; auto.
  apply nth_le. lia.
Qed.

Lemma put_int_layout n b v b' :
  reachable n b -> is_int32 v -> put_int v b = (Ok tt, b') ->
  apos (view b') = (apos (view b) + 4)%nat /\
  (forall i, nth i (adata (view b')) x00 =
     if (apos (view b) <=? i)%nat && (i <? apos (view b) + 4)%nat
     then nbyte (Z.to_N ((v / 256 ^ Z.of_nat (i - apos (view b))) mod 256))
     else nth i (adata (view b)) x00).
Proof.
  intros R Hv E. destruct (reachable_mk _ _ R) as (a & wf & -> & _).
  rewrite put_int_mk in E by auto. unfold lift, aput_op in E. rewrite le_length in E.
  destruct (Nat.ltb_spec (asize a - apos a) 4); cbn [fst snd] in E; [discriminate|].
  apply (f_equal snd) in E. cbn [snd] in E. subst b'. pose proof wf as [W _].
  rewrite !view_mk by (auto; apply aput_wf; auto; rewrite le_length; auto).
  split; [unfold aput; cbn [apos]; rewrite le_length; reflexivity|].
  intros i. rewrite nth_aput by (rewrite ?le_length; auto). rewrite le_length.
  destruct ((apos a <=? i)%nat && (i <? apos a + 4)%nat) eqn:B; auto.
  rewrite nth_le by lia. rewrite <- nbyte_mod.
  set (k := (i - apos a)%nat). assert (Hk : (k = 0 \/ k = 1 \/ k = 2 \/ k = 3)%nat) by lia.
  destruct Hk as [-> | [-> | [-> | ->]]].
  - change (256 ^ N.of_nat 0) with 1. change (256 ^ Z.of_nat 0)%Z with 1%Z. f_equal. lia.
  - change (256 ^ N.of_nat 1) with 256. change (256 ^ Z.of_nat 1)%Z with 256%Z. f_equal. lia.
  - change (256 ^ N.of_nat 2) with 65536. change (256 ^ Z.of_nat 2)%Z with 65536%Z. f_equal. lia.
  - change (256 ^ N.of_nat 3) with 16777216. change (256 ^ Z.of_nat 3)%Z with 16777216%Z. f_equal. lia.
Qed.

(** ** C05 *)
Lemma get_buf_ub_iff n m src dst r s' d' :
  reachable n src -> reachable m dst -> get_buf src dst = (r, s', d') ->
  (is_ub r = true <-> n - buf_pos src < m - buf_pos dst) /\
  (n - buf_pos src >= m - buf_pos dst ->
     r = Ok tt /\
     view s' = askip (view src) (N.to_nat (m - buf_pos dst)) /\
     apos (view d') = apos (view dst) /\
     adata (view d') = aread (view dst) ++ firstn (N.to_nat (m - buf_pos dst)) (arest (view src))).
Proof.
  intros R Rd E. destruct (reachable_mk _ _ R) as (a & wf & -> & <-).
  destruct (reachable_mk _ _ Rd) as (d & wd & -> & <-).
  rewrite get_buf_mk in E by auto. rewrite !buf_pos_mk by auto. rewrite !view_mk by auto.
  pose proof wf as [W1 W2]. pose proof wd as [V1 V2].
  replace (N.to_nat (lenN (adata d) - N.of_nat (apos d))) with (asize d - apos d)%nat
    by (unfold lenN, asize; lia).
  destruct (Nat.leb_spec (asize d - apos d) (asize a - apos a)) as [L|G].
  - injection E as <- <- <-. cbn [is_ub]. split.
    + split; [discriminate|]. unfold asize, lenN in *. lia.
    + intros _. split; [reflexivity|].
      assert (Lf : length (firstn (asize d - apos d) (arest a)) = (asize d - apos d)%nat) by (apply firstn_arest_len; auto).
      rewrite view_mk by (apply askip_wf; auto).
      split; [reflexivity|].
      rewrite view_mk.
      * cbn [apos adata]. split; [reflexivity|]. unfold aput, aread. cbn [adata]. f_equal.
        rewrite skipn_all2; [apply app_nil_r|]. rewrite Lf. unfold asize in *. lia.
      * pose proof (aput_wf d (firstn (asize d - apos d) (arest a)) wd ltac:(lia)) as [Q1 Q2].
        split; cbn [apos adata]; auto.
        pose proof (aput_size d (firstn (asize d - apos d) (arest a)) ltac:(lia) V1) as Q.
        etransitivity; [exact V1|]. apply Nat.eq_le_incl. symmetry. exact Q.
  - injection E as <- <- <-. cbn [is_ub]. split.
    + split; auto. intros _. unfold asize, lenN in *. lia.
    + unfold asize, lenN in *. lia.
Qed.

(** ** C06 *)
Lemma str_round_trip n b s b' :
  reachable n b -> s <> [] -> no_nul s -> put_str s b = (Ok tt, b') ->
  fst (get_str (set_pos b' (buf_pos b))) = Ok (Some s).
Proof.
  intros R Hne Hnn E. destruct (reachable_mk _ _ R) as (a & wf & -> & _).
  rewrite put_str_mk in E by auto. unfold lift, aput_op in E.
  destruct (Nat.ltb_spec (asize a - apos a) (length (s ++ [x00]))) as [L|G]; cbn [fst snd] in E; [discriminate|].
  injection E as <-. pose proof wf as [W _].
  assert (W' : wf_abuf (aput a (s ++ [x00]))) by (apply aput_wf; auto).
  rewrite buf_pos_mk by auto. rewrite set_pos_mk' by auto.
  rewrite get_str_mk by (apply aseek_wf; auto). unfold lift; cbn [fst].
  unfold aget_str.
  assert (Hr : arest (aseek (aput a (s ++ [x00])) (apos a)) =
               s ++ x00 :: skipn (apos a + length (s ++ [x00])) (adata a)).
  { unfold arest, aseek. cbn [apos adata]. rewrite aput_size by lia. rewrite Nat.min_l by auto.
    unfold aput; cbn [adata]. rewrite skipn_app_exact.
    - rewrite <- app_assoc. reflexivity.
    - rewrite firstn_length. unfold asize in *. lia. }
  rewrite Hr, first_nul_app by auto. destruct s as [|c s]; [congruence|]. cbn [length fst].
  rewrite firstn_app_exact by reflexivity. reflexivity.
Qed.

Lemma empty_str_lost n b b' :
  reachable n b -> put_str [] b = (Ok tt, b') ->
  get_str (set_pos b' (buf_pos b)) = (Ok None, set_pos b' (buf_pos b)).
Proof.
  intros R E. destruct (reachable_mk _ _ R) as (a & wf & -> & _).
  rewrite put_str_mk in E by auto. unfold lift, aput_op in E. cbn [app length] in E.
  destruct (Nat.ltb_spec (asize a - apos a) 1) as [L|G]; cbn [fst snd] in E; [discriminate|].
  injection E as <-. pose proof wf as [W _].
  assert (W' : wf_abuf (aput a [x00])) by (apply aput_wf; auto).
  rewrite buf_pos_mk by auto. rewrite set_pos_mk' by auto.
  rewrite get_str_mk by (apply aseek_wf; auto). unfold lift.
  unfold aget_str.
  assert (Hr : arest (aseek (aput a [x00]) (apos a)) =
               x00 :: skipn (apos a + 1) (adata a)).
  { unfold arest, aseek. cbn [apos adata]. rewrite aput_size by (cbn [length]; lia). rewrite Nat.min_l by auto.
    unfold aput; cbn [adata]. rewrite skipn_app_exact.
    - reflexivity.
    - rewrite firstn_length. unfold asize in *. lia. }
  rewrite Hr. cbn. reflexivity.
Qed.

(** ** C07 *)
Lemma buf_copy_spec junk n src :
  reachable n src ->
  exists b, buf_copy junk src = Ok b /\ view b = mkAbuf 0 (arest (view src)) /\
            buf_size b = n - buf_pos src /\ buf_pos b = 0.
Proof.
  intros R. destruct (reachable_mk _ _ R) as (a & wf & -> & <-).
  rewrite buf_copy_mk by auto. eexists; split; [reflexivity|].
  assert (W : wf_abuf (mkAbuf 0 (arest a))).
  { destruct wf as [W1 W2]. split; cbn [apos adata]; [lia|]. unfold arest, lenN in *.
    rewrite skipn_length. lia. }
  rewrite !view_mk by auto. split; [reflexivity|].
  rewrite buf_size_mk, !buf_pos_mk by auto. cbn [apos adata]. split; [|reflexivity].
  unfold lenN, arest. rewrite skipn_length. lia.
Qed.

Lemma put_buf_spec n m b src r b' :
  reachable n b -> reachable m src -> put_buf src b = (r, b') ->
  (m - buf_pos src <= n - buf_pos b ->
     r = Ok tt /\ apos (view b') = (apos (view b) + length (arest (view src)))%nat /\
     adata (view b') = aread (view b) ++ arest (view src) ++
                       skipn (apos (view b) + length (arest (view src))) (adata (view b))) /\
  (m - buf_pos src > n - buf_pos b -> r = Throw OverflowError /\ b' = b).
Proof.
  intros R Rs E. destruct (reachable_mk _ _ R) as (a & wf & -> & <-).
  destruct (reachable_mk _ _ Rs) as (s & ws & -> & <-).
  rewrite put_buf_mk' in E by auto. rewrite !buf_pos_mk by auto.
  pose proof wf as [W1 W2]. pose proof ws as [V1 V2].
  assert (Hl : length (arest s) = (asize s - apos s)%nat) by (unfold arest, asize; apply skipn_length).
  unfold aput_op in E.
  destruct (Nat.ltb_spec (asize a - apos a) (length (arest s))) as [L|G]; cbn [fst snd] in E; injection E as <- <-.
  - split.
    + unfold asize, lenN in *. lia.
    + auto.
  - split; [|unfold asize, lenN in *; lia].
    intros _. rewrite !view_mk by (auto; apply aput_wf; auto). auto.
Qed.

(** ** remaining lemmas for the property file *)
Lemma get_ulong_layout n b v b' :
  reachable n b -> get_ulong b = (Ok v, b') ->
  is_ulong v /\ view b' = askip (view b) 8 /\
  (forall i, (i < 8)%nat -> nth (apos (view b) + i) (adata (view b)) x00 = nbyte (v / 256 ^ N.of_nat i)).
Proof.
  intros R E. destruct (reachable_mk _ _ R) as (a & wf & -> & _).
  rewrite get_ulong_mk in E by auto. unfold lift, aget_op in E.
  destruct (Nat.ltb_spec (asize a - apos a) 8); cbn [fst snd] in E; [discriminate|].
  assert (Ev : of_le (firstn 8 (arest a)) = v) by congruence.
  assert (Eb : mk_block (askip a 8) = b') by congruence. clear E. subst b'.
  rewrite !view_mk by (auto; apply askip_wf; auto).
  assert (Lf : length (firstn 8 (arest a)) = 8%nat) by (apply firstn_arest_len; lia).
  split; [|split; [reflexivity|]].
  - rewrite <- Ev. pose proof (of_le_lt (firstn 8 (arest a))) as HH. rewrite Lf in HH. exact HH.
  - intros i Hi. rewrite <- (nth_le 8) by auto.
    rewrite <- Ev. rewrite <- Lf at 1. rewrite le_of_le.
    rewrite <- (firstn_skipn (apos a) (adata a)) at 1.
    rewrite app_nth2 by (rewrite firstn_length; destruct wf; unfold asize in *; lia).
    rewrite firstn_length. destruct wf as [W _]. unfold asize in W. rewrite Nat.min_l by auto.
    replace (apos a + i - apos a)%nat with i by lia. fold (arest a).
    rewrite <- (firstn_skipn 8 (arest a)) at 1. rewrite app_nth1 by lia. reflexivity.
Qed.

Lemma get_int_layout n b v b' :
  reachable n b -> get_int b = (Ok v, b') ->
  is_int32 v /\ view b' = askip (view b) 4 /\
  (forall i, (i < 4)%nat -> nth (apos (view b) + i) (adata (view b)) x00 =
                            nbyte (Z.to_N ((v / 256 ^ Z.of_nat i) mod 256))).
Proof.
  intros R E. destruct (reachable_mk _ _ R) as (a & wf & -> & _).
  rewrite get_int_mk in E by auto. unfold lift, aget_op in E.
  destruct (Nat.ltb_spec (asize a - apos a) 4); cbn [fst snd] in E; [discriminate|].
  assert (Ev : int32_of_bytes (firstn 4 (arest a)) = v) by congruence.
  assert (Eb : mk_block (askip a 4) = b') by congruence. clear E. subst b'.
  rewrite !view_mk by (auto; apply askip_wf; auto).
  assert (Lf : length (firstn 4 (arest a)) = 4%nat) by (apply firstn_arest_len; lia).
  split; [|split; [reflexivity|]].
  - rewrite <- Ev. apply int32_of_bytes_range; auto.
  - intros i Hi.
    transitivity (nth i (firstn 4 (arest a)) x00).
    { rewrite <- (firstn_skipn (apos a) (adata a)) at 1.
      rewrite app_nth2 by (rewrite firstn_length; destruct wf; unfold asize in *; lia).
      rewrite firstn_length. destruct wf as [W _]. unfold asize in W. rewrite Nat.min_l by auto.
      replace (apos a + i - apos a)%nat with i by lia. fold (arest a).
      rewrite <- (firstn_skipn 4 (arest a)) at 1. rewrite app_nth1 by lia. reflexivity. }
    rewrite <- Ev. unfold int32_of_bytes.
    rewrite <- (le_of_le (firstn 4 (arest a))) at 1. rewrite Lf, nth_le by auto.
    pose proof (of_le_lt (firstn 4 (arest a))) as HL. rewrite Lf in HL.
    change (256 ^ N.of_nat 4) with 4294967296 in HL.
    set (w := of_le (firstn 4 (arest a))) in *. clearbody w.
    rewrite <- nbyte_mod.
    assert (Hk : (i = 0 \/ i = 1 \/ i = 2 \/ i = 3)%nat) by lia.
    destruct Hk as [-> | [-> | [-> | ->]]].
    + change (256 ^ N.of_nat 0) with 1. change (256 ^ Z.of_nat 0)%Z with 1%Z.
      rewrite N.div_1_r, Z.div_1_r.
      destruct (Z.ltb_spec (Z.of_N w) 2147483648); f_equal; lia.
    + change (256 ^ N.of_nat 1) with 256. change (256 ^ Z.of_nat 1)%Z with 256%Z.
      destruct (Z.ltb_spec (Z.of_N w) 2147483648); f_equal; lia.
    + change (256 ^ N.of_nat 2) with 65536. change (256 ^ Z.of_nat 2)%Z with 65536%Z.
      destruct (Z.ltb_spec (Z.of_N w) 2147483648); f_equal; [lia|].
      replace (Z.of_N w - 4294967296)%Z with (Z.of_N w + (-65536) * 65536)%Z by lia.
      rewrite Z.div_add by lia. lia.
    + change (256 ^ N.of_nat 3) with 16777216. change (256 ^ Z.of_nat 3)%Z with 16777216%Z.
      destruct (Z.ltb_spec (Z.of_N w) 2147483648); f_equal; [lia|].
      replace (Z.of_N w - 4294967296)%Z with (Z.of_N w + (-256) * 16777216)%Z by lia.
      rewrite Z.div_add by lia. lia.
Qed.

Lemma alloc_spec junk n :
  (n >= 2147483648 -> alloc junk n = Throw OutOfRange) /\
  (n < 2147483648 -> exists b, alloc junk n = Ok b /\ buf_size b = n /\ buf_pos b = 0 /\
                     length (adata (view b)) = N.to_nat n).
Proof.
  split; intros H.
  - apply alloc_throws. unfold two31. lia.
  - exists (mk_block (fresh junk n)). pose proof (fresh_wf junk n H).
    rewrite alloc_mk, buf_size_mk, buf_pos_mk, view_mk by auto.
    rewrite fresh_size. repeat split. apply fresh_asize.
Qed.

Lemma set_pos_reach n b p : reachable n b -> buf_pos (set_pos b p) = N.min p n.
Proof.
  intros R. destruct (reachable_mk _ _ R) as (a & wf & -> & <-).
  rewrite set_pos_mkN, buf_pos_mk; cbn [apos adata]; auto.
  - lia.
  - destruct wf. split; cbn [apos adata]; auto. unfold asize, lenN; cbn [adata]. lia.
Qed.

(** the block returned by a successful allocation (for concrete examples) *)
Definition unblock (r : res block) : block := match r with Ok b => b | _ => [] end.
Definition ex_block (c : byte) (n : N) : block := unblock (alloc (fun _ => c) n).

Lemma ex_block_reachable c n : n < two31 -> reachable n (ex_block c n).
Proof.
  intros H. apply (r_alloc (fun _ => c)). unfold ex_block. rewrite alloc_mk by auto. reflexivity.
Qed.

Lemma get_buf_overread :
  exists n m src dst, reachable n src /\ reachable m dst /\
    fst (fst (get_buf src dst)) = UB OutOfBoundsRead.
Proof.
  exists 1, 2, (ex_block x07 1), (ex_block x08 2).
  split; [apply ex_block_reachable; reflexivity|]. split; [apply ex_block_reachable; reflexivity|].
  vm_compute. reflexivity.
Qed.

Lemma empty_string_witness :
  exists n b b', reachable n b /\ put_str [] b = (Ok tt, b') /\
    fst (get_str (set_pos b' (buf_pos b))) <> Ok (Some []).
Proof.
  exists 3, (ex_block x07 3), (snd (put_str [] (ex_block x07 3))).
  split; [apply ex_block_reachable; reflexivity|]. split; [vm_compute; reflexivity|].
  vm_compute. discriminate.
Qed.
