(** * Reads of the file log store while other threads change it (C95) *)

From Verif Require Import Base Codec CodecSpec CodecProofs Msg FsLogStore FsLogSpec FsLogProofs FsLogOps FsLogReads FsLogChange
  FsLogTop FsLogCrash P_LogStore P_Crash LogShare.
From Coq Require Import Lia.
Local Open Scope N_scope.
Local Open Scope sm_scope.

(** ** The parts make up the calls *)
Lemma entry_parts i s : entry_at i s = match c_at (s_cache s) i with Some e => (Ok (Some e), s) | None => entry_rest i s end.
Proof. unfold entry_at, sbind at 1, sget. destruct (c_at (s_cache s) i); reflexivity. Qed.
Lemma term_parts i s : term_at i s =
  if (c_start (s_cache s) <=? i) && (i <? c_last_idx (s_cache s)) then (c_get_term (s_cache s) i, s) else term_rest i s.
Proof. unfold term_at, sbind at 1, sget. destruct (_ && _); reflexivity. Qed.
Lemma range_parts a b s : log_entries a b s =
  match range_bounds a b s with
  | Ok None => (Ok None, s)
  | Ok (Some (lstart, sstart, good_end)) =>
      match c_fill (s_cache s) a good_end with
      | Ok results =>
          if a <? c_start (s_cache s) then range_rest lstart sstart (c_start (s_cache s)) results s
          else (Ok (Some results), s)
      | Throw e => (Throw e, s)
      | UB u => (UB u, s)
      end
  | Throw e => (Throw e, s)
  | UB u => (UB u, s)
  end.
Proof.
  unfold log_entries, range_bounds. cbv zeta.
  unfold sbind at 1, sget at 1. unfold sbind at 1, sget at 1.
  destruct (a <? s_start s); [reflexivity|].
  destruct ((b <=? a) || (wadd (s_start s) (s_entries s) <=? a)); [reflexivity|].
  match goal with |- context [if ?c <=? ?d then sret None else _] => destruct (c <=? d); [reflexivity|] end.
  unfold sbind at 1, sget at 1. unfold sbind at 1, slift at 1.
  destruct (c_fill _ _ _); try reflexivity.
  destruct (a <? c_start (s_cache s)); reflexivity.
Qed.

(** A call that runs alone, from its beginning to its end. *)
Fixpoint alone (fuel : nat) (q : call) (p : pc) (s : store) : option (res lret * store) :=
  match p with
  | Gave r => Some (r, s)
  | _ => match fuel with
         | O => None
         | S fuel => match reader_step q p true s with Some (p, s) => alone fuel q p s | None => None end
         end
  end.

(** For every store the parts of a call, run one after the other without
    another thread in between, are the call as modelled for a single thread. *)
Theorem C95_alone : forall q s, alone 4 q Called s = Some (run_lop (call_op q) s).
Proof.
  intros q s. destruct q as [i|i|a b|]; cbn [alone call_op run_lop reader_step].
  - rewrite entry_parts. destruct (c_at (s_cache s) i) as [e|]; [reflexivity|].
    unfold gave. cbn [alone]. destruct (rmap REntry (entry_rest i s)); reflexivity.
  - rewrite term_parts. destruct (c_start (s_cache s) <=? i) eqn:E1; cbn [andb reader_step].
    + destruct (i <? c_last_idx (s_cache s)) eqn:E2; cbn [reader_step].
      * unfold rmap. cbn [fst snd]. destruct (c_get_term (s_cache s) i); reflexivity.
      * unfold gave. cbn [alone]. destruct (rmap RIdx (term_rest i s)); reflexivity.
    + unfold gave. cbn [alone]. destruct (rmap RIdx (term_rest i s)); reflexivity.
  - rewrite range_parts. destruct (range_bounds a b s) as [[[[ls ss] ge]|]|e|u] eqn:E; cbn [reader_step]; try reflexivity.
    destruct (c_fill (s_cache s) a ge) as [rs|e|u]; try reflexivity.
    destruct (a <? c_start (s_cache s)); [|reflexivity].
    cbn [reader_step]. unfold gave. cbn [alone]. destruct (rmap REntries (range_rest _ _ _ _ s)); reflexivity.
  - reflexivity.
Qed.
Print Assumptions C95_alone.

(** ** What is to hold *)

(** the log after the first [j] changes *)
Definition log_after (l0 : alog) (y : shared) (j : nat) : alog := spec_run l0 (firstn j (y_ops y)).

(** The call has answered as the log at some moment between the call and the
    answer: after at least the changes that were over when it was made, and at
    most those that had begun when it answered. *)
Definition right (l0 : alog) (y : shared) (t : reader) : Prop :=
  forall r, rd_pc t = Gave r ->
  exists j, (rd_since t <= j <= rd_at t)%nat /\ (rd_at t <= begun y)%nat /\ r = spec_ans (log_after l0 y j) (call_op (rd_call t)).

(** The moments at which a step of a call goes wrong. *)
Definition unlucky (y : shared) (t : reader) : Prop :=
  let c := s_cache (y_store y) in
  match rd_call t, rd_pc t with
  | QEntry i, Locked =>                (* gets the lock when its entry is the last one of the log *)
      i + 1 = next_slot (y_store y)
  | QTerm i, Within =>                 (* the index has left the cache since it was found there *)
      c_at c i = None
  | QTerm i, Locked =>                 (* the index is behind the end of the log *)
      next_slot (y_store y) <= i
  | QRange a b, Called =>              (* the range ends before the cached entries (C18) *)
      a < b /\ b < c_start c
  | QRange a b, (Bounds _ _ _ | Filled _ _ _ _) =>    (* a change has begun since the call's last step *)
      rd_at t <> begun y
  | QLast, Called =>                   (* a change other than an append is under way *)
      y_ahead y <> None /\ (forall e, last (y_ops y) (LCompact 0) <> LAppend e)
  | _, _ => False
  end.

Definition call_ok (q : call) : Prop :=
  match q with QEntry i => is_ulong i | QTerm i => is_ulong i | QRange a b => is_ulong a /\ is_ulong b | QLast => True end.

(** Changes are made under the conditions of C14, indices are ulong values and
    no call is unlucky. *)
Definition fine (l0 : alog) (y : shared) (v : turn) : Prop :=
  match v with
  | EBegin op => op_ok (c_start (s_cache (y_store y))) (spec_run l0 (y_ops y)) op
  | ECall q => call_ok q
  | ERead n => forall t, nth_error (y_readers y) n = Some t -> ~ unlucky y t
  | _ => True
  end.
Fixpoint all_fine (l0 : alog) (vs : list turn) (y : shared) : Prop :=
  match vs with
  | [] => True
  | v :: vs => fine l0 y v /\ forall y', ev_step y v = Some y' -> all_fine l0 vs y'
  end.

(** ** Reading under the lock *)
(** [m] neither looks at the cache nor changes it. *)
Definition blind {A} (m : SM A) : Prop := forall c s, m (set_cache c s) = (fst (m s), set_cache c (snd (m s))).
Lemma blind_bind {A B} (m : SM A) (f : A -> SM B) : blind m -> (forall a, blind (f a)) -> blind (sbind m f).
Proof.
  intros Hm Hf c s. unfold sbind. rewrite Hm. destruct (m s) as [[a|e|u] s']; [exact (Hf a c s')|reflexivity|reflexivity].
Qed.
Lemma blind_ret {A} (a : A) : blind (sret a). Proof. intros c s. reflexivity. Qed.
Lemma blind_fail {A} e : blind (@sfail A e). Proof. intros c s. reflexivity. Qed.
Lemma blind_lift {A} (r : res A) : blind (slift r). Proof. intros c s. reflexivity. Qed.
Lemma blind_start : blind (sget s_start). Proof. intros c s. reflexivity. Qed.
Lemma blind_entries : blind (sget s_entries). Proof. intros c s. reflexivity. Qed.
Lemma blind_idx f : blind (idx_do f). Proof. intros c s. reflexivity. Qed.
Lemma blind_dat f : blind (dat_do f). Proof. intros c s. reflexivity. Qed.
Lemma blind_on_idx {A} (m : file -> res A * file) : blind (on_idx m).
Proof. intros c s. unfold on_idx. cbn [set_cache s_idx]. destruct (m (s_idx s)); reflexivity. Qed.
Lemma blind_on_dat {A} (m : file -> res A * file) : blind (on_dat m).
Proof. intros c s. unfold on_dat. cbn [set_cache s_dat]. destruct (m (s_dat s)); reflexivity. Qed.
Lemma blind_io : blind check_io.
Proof. intros c s. unfold check_io. cbn [set_cache s_dat s_idx]. destruct (_ || _); reflexivity. Qed.
Lemma blind_read : blind read_idx_ulong.
Proof. apply blind_bind; [apply blind_on_idx|intros; apply blind_ret]. Qed.
Lemma blind_read_dat n : blind (read_dat n).
Proof. apply blind_bind; [apply blind_lift|intros; apply blind_on_dat]. Qed.
Ltac blind := repeat match goal with
  | |- blind (sbind _ _) => apply blind_bind; [|intros]
  | |- blind (if ?b then _ else _) => destruct b
  | |- _ => first [apply blind_ret|apply blind_fail|apply blind_lift|apply blind_start|apply blind_entries|apply blind_idx|
                   apply blind_dat|apply blind_on_idx|apply blind_on_dat|apply blind_io|apply blind_read|apply blind_read_dat]
  end.
Lemma blind_entry i : blind (entry_rest i). Proof. unfold entry_rest. blind. Qed.
Lemma blind_term i : blind (term_rest i). Proof. unfold term_rest. blind. Qed.

Lemma set_cache_id s : set_cache (s_cache s) s = s. Proof. destruct s; reflexivity. Qed.
Lemma set_cache_twice a b s : set_cache a (set_cache b s) = set_cache a s. Proof. reflexivity. Qed.

(** The cache cut down to the last entry. *)
Definition last_only (l : alog) (mx : N) : cache :=
  mkCache (al_start l + (lenN (al_ents l) - 1)) (skipn (length (al_ents l) - 1) (al_ents l)) mx.
Lemma R_last_only s l : R s l -> R (set_cache (last_only l (s_buf_size s)) s) l.
Proof.
  intros H. pose proof H as [? ? ? ? ? ? ? ? ? ? ? ? ? ? ? ?]. constructor; unfold set_cache, last_only; sfields; auto.
  - lia.
  - unfold a_next. lia.
  - f_equal. unfold lenN. lia.
  - unfold lenN in *. rewrite skipn_length. lia.
  - intros NE. unfold a_next. assert (lenN (al_ents l) <> 0) by (destruct (al_ents l); [congruence|discriminate]). lia.
Qed.
Lemma back_cache {A} (m : SM A) c s r s' l : blind m -> c_max c = s_buf_size s -> R s l ->
  m (set_cache c s) = (r, s') -> moved (set_cache c s) s' l -> exists s2, m s = (r, s2) /\ moved s s2 l.
Proof.
  intros B Hc HR E [HR' HC]. rewrite B in E. destruct (m s) as [r0 s2] eqn:Q. cbn [fst snd] in E. injection E as -> <-.
  exists s2. split; [reflexivity|].
  assert (X: blind m) by exact B. specialize (X (s_cache s) s). rewrite set_cache_id, Q in X. cbn [fst snd] in X.
  injection X as X.
  assert (C2: s_cache s2 = s_cache s) by (rewrite X; reflexivity).
  split; [|exact C2].
  destruct HR as [A1 A2 A3 A4 A5 A6 A7 A8 A9 A10 A11 A12 A13 A14 A15 A16].
  destruct HR' as [B1 B2 B3 B4 B5 B6 B7 B8 B9 B10 B11 B12 B13 B14 B15 B16].
  unfold set_cache in *. sfields. constructor; sfields; rewrite ?C2; auto; congruence.
Qed.

Lemma next_slot_R s l : R s l -> next_slot s = a_next l.
Proof.
  intros HR. pose proof (R_small _ _ HR) as (_ & S & _). unfold next_slot.
  rewrite (R_start _ _ HR), (R_entries _ _ HR), wadd_small by (unfold two64; lia). reflexivity.
Qed.

Lemma at_last_only l mx i : small l -> i + 1 <> a_next l -> is_ulong i -> c_at (last_only l mx) i = None.
Proof.
  intros (S0 & S1 & S2 & S3) H Hu. unfold c_at, last_only, is_ulong, a_next in *. sfields.
  destruct (N.ltb_spec i (al_start l + (lenN (al_ents l) - 1))) as [L|L]; [rewrite orb_true_r; reflexivity|].
  rewrite orb_false_r, wsub_small by lia.
  replace (lenN (skipn _ _)) with (lenN (al_ents l) - (lenN (al_ents l) - 1)) by (unfold lenN; rewrite skipn_length; lia).
  destruct (N.leb_spec (lenN (al_ents l) - (lenN (al_ents l) - 1)) (i - (al_start l + (lenN (al_ents l) - 1)))); [reflexivity|lia].
Qed.

Lemma entry_rest_ok s l i : R s l -> is_ulong i -> i + 1 <> next_slot s ->
  exists s', entry_rest i s = ((if i <? al_start l then Throw RangeError else Ok (a_get l i)), s') /\ moved s s' l.
Proof.
  intros HR Hu Hl. rewrite (next_slot_R _ _ HR) in Hl.
  pose proof (R_last_only _ _ HR) as HR1.
  destruct (entry_at_ok _ l i HR1 Hu) as (s' & E & M). rewrite entry_parts in E.
  replace (c_at _ i) with (@None entry_val) in E
    by (symmetry; cbn [set_cache s_cache]; apply at_last_only; [exact (R_small _ _ HR)|exact Hl|exact Hu]).
  exact (back_cache _ (last_only l (s_buf_size s)) _ _ _ _ (blind_entry i) eq_refl HR E M).
Qed.
Lemma term_rest_ok s l i : R s l -> i < next_slot s ->
  exists s', term_rest i s = (match a_get l i with Some e => Ok (ev_term e) | None => Throw RangeError end, s') /\ moved s s' l.
Proof.
  intros HR Hl. rewrite (next_slot_R _ _ HR) in Hl.
  pose proof (R_small _ _ HR) as Sl. pose proof (check_io_ok _ _ HR) as CIO. pose proof (R_start _ _ HR) as Est.
  pose proof (dsize_small _ Sl) as DS. pose proof Sl as (S0 & S1 & S2 & S3).
  unfold term_rest. erewrite sbind_ok by reflexivity. rewrite Est.
  destruct (N.ltb_spec i (al_start l)) as [L1|L1].
  - exists s. split; [|apply moved_refl; auto]. unfold a_get. destruct (N.ltb_spec i (al_start l)); [reflexivity|lia].
  - erewrite sbind_ok by exact CIO.
    unfold a_next in Hl.
    destruct (split_nth (al_ents l) (N.to_nat (i - al_start l))) as (p & e & q & Ex & Hp); [unfold lenN in *; lia|].
    assert (Hi: i = al_start l + lenN p) by (unfold lenN in *; lia). clear Hp.
    pose proof HR as HR'.
    destruct HR as [H1 H2 H3 H4 H5 H6 H7 H8 H9 H10 H11 H12 H13 H14 H15 H16].
    destruct s as [[id ip ib] [dd dp db] sf n st c b]. sfields. subst.
    rewrite Ex in *. rewrite lenN_app, lenN_cons in *. rewrite dsize_app in DS. cbn [dsize] in DS.
    rewrite (wsub_small (al_start l + lenN p) (al_start l)) by (unfold two64; lia).
    replace (al_start l + lenN p - al_start l) with (lenN p) by lia.
    rewrite int_small by (unfold two31; lia). rewrite ulong_small by lia. rewrite N2Z.id.
    rewrite wmul_small by (unfold two64; lia).
    apply in_ok in S3. destruct S3 as [He1 He2].
    rewrite idx_split, dat_split. rewrite N.add_0_l.
    unfold sbind at 1, idx_do at 1, smod, set_idx. sfields. rewrite f_seek_ok by lia.
    erewrite sbind_ok by (apply read_idx_at; [rewrite lenN_offs; lia|unfold is_ulong, two64; lia]).
    unfold sbind at 1, dat_do at 1, smod, set_dat. sfields. rewrite f_seek_ok by lia.
    assert (En: enc e ++ encs q = le 8 (ev_term e) ++ ([ev_type e] ++ ev_data e) ++ encs q).
    { unfold enc, entry_bytes. rewrite <- app_assoc. reflexivity. }
    rewrite En.
    erewrite sbind_ok by (apply read_dat_at; [rewrite lenN_encs; reflexivity|rewrite lenN_le; reflexivity|unfold two31; lia]).
    rewrite of_le_le8 by auto.
    assert (A0: a_get l (al_start l + lenN p) = Some e) by (destruct l as [ls les]; sfields; subst les; apply a_get_at).
    rewrite A0. unfold sret. eexists. split; [reflexivity|]. split; [|reflexivity].
    pose proof (fun a b => R_move a b _ _ HR') as RM. sfields.
    rewrite idx_split, dat_split in RM. rewrite N.add_0_l in RM. rewrite En in RM. apply RM.
Qed.

(** ** What the cache shows *)
Lemma nth_drop {A} (m : list A) : forall c j, nth_error (skipn c m) j = nth_error m (c + j).
Proof. induction m as [|a m IH]; intros [|c] j; cbn [skipn Nat.add nth_error]; auto. destruct j; reflexivity. Qed.
Definition seen (l l' : alog) (c : cache) : Prop :=
  (forall i e, is_ulong i -> c_at c i = Some e -> a_get l i = Some e \/ a_get l' i = Some e) /\
  c_start c + lenN (c_buf c) < 1152921504606846976 /\ lenN (c_buf c) < 268435456.

Lemma c_at_iff c i : c_start c + lenN (c_buf c) < 1152921504606846976 -> is_ulong i ->
  c_at c i = if i <? c_start c then None else nth_error (c_buf c) (N.to_nat (i - c_start c)).
Proof.
  intros S Hi. unfold c_at, is_ulong in *. destruct (N.ltb_spec i (c_start c)); [rewrite orb_true_r; reflexivity|].
  rewrite orb_false_r, wsub_small by lia. destruct (N.leb_spec (lenN (c_buf c)) (i - c_start c)); [|reflexivity].
  symmetry. apply nth_error_None. unfold lenN in *. lia.
Qed.
Lemma c_at_low c i e : c_at c i = Some e -> c_start c <= i.
Proof. unfold c_at. destruct (N.ltb_spec i (c_start c)); [rewrite orb_true_r; discriminate|auto]. Qed.
Lemma c_at_high c i e : c_start c + lenN (c_buf c) < 1152921504606846976 -> c_at c i = Some e -> is_ulong i -> i < c_start c + lenN (c_buf c).
Proof.
  intros S H Hi. rewrite c_at_iff in H by auto. destruct (N.ltb_spec i (c_start c)); [discriminate|].
  assert (N.to_nat (i - c_start c) < length (c_buf c))%nat by (apply nth_error_Some; congruence). unfold lenN. lia.
Qed.
Lemma R_cache_end s l : R s l -> c_start (s_cache s) + lenN (c_buf (s_cache s)) = a_next l.
Proof.
  intros HR. rewrite (R_c_buf _ _ HR). pose proof (R_c_lo _ _ HR). pose proof (R_c_hi _ _ HR). unfold a_next in *.
  unfold lenN in *. rewrite skipn_length. lia.
Qed.
Lemma R_c_at s l i : R s l -> is_ulong i -> c_at (s_cache s) i = if i <? c_start (s_cache s) then None else a_get l i.
Proof.
  intros HR Hi. pose proof (R_cache_end _ _ HR) as E. pose proof (R_small _ _ HR) as (_ & S & _). pose proof (R_c_lo _ _ HR).
  rewrite c_at_iff by (auto; unfold a_next in E; lia). destruct (N.ltb_spec i (c_start (s_cache s))); [reflexivity|].
  rewrite (R_c_buf _ _ HR). unfold a_get. destruct (N.ltb_spec i (al_start l)); [lia|].
  rewrite nth_drop. f_equal. lia.
Qed.

Lemma nth_take {A} (m : list A) : forall n k, (k < n)%nat -> nth_error (firstn n m) k = nth_error m k.
Proof. induction m as [|a m IH]; intros [|n] [|k] L; cbn [firstn nth_error]; auto; try lia. apply IH. lia. Qed.
Lemma R_seen_l s l l' : R s l -> seen l l' (s_cache s).
Proof.
  intros HR. pose proof (R_cache_end _ _ HR) as E. pose proof (R_small _ _ HR) as (S0 & S1 & S2 & _). pose proof (R_c_lo _ _ HR).
  unfold a_next in E. split; [|split; lia].
  intros i e Hi H1. rewrite (R_c_at _ _ _ HR Hi) in H1. destruct (i <? _); [discriminate|auto].
Qed.
Lemma R_seen_r s l l' : R s l' -> seen l l' (s_cache s).
Proof.
  intros HR. destruct (R_seen_l s l' l HR) as (A & B). split; [|exact B]. intros i e Hi H. destruct (A i e Hi H); auto.
Qed.
Lemma seen_trim l l' c i : seen l l' c -> seen l l' (c_trim c i).
Proof.
  intros (A & B & C). unfold c_trim. destruct (i <? c_start c); [split; auto|]. destruct (_ <? _); [|split; auto].
  set (n := N.to_nat (wsub i (c_start c))).
  assert (L: lenN (firstn n (c_buf c)) <= lenN (c_buf c)) by (unfold lenN; rewrite firstn_length; lia).
  split; [|cbn [c_start c_buf]; split; lia].
  intros j e Hj H. apply (A j e Hj). rewrite c_at_iff in H |- * by (cbn [c_start c_buf]; auto; lia). cbn [c_start c_buf] in H.
  destruct (j <? c_start c); [discriminate|].
  destruct (Nat.lt_ge_cases (N.to_nat (j - c_start c)) n) as [L1|L1].
  - rewrite nth_take in H by exact L1. exact H.
  - assert (X: nth_error (firstn n (c_buf c)) (N.to_nat (j - c_start c)) = None)
      by (apply nth_error_None; rewrite firstn_length; lia). congruence.
Qed.
Lemma seen_filling l l' f : seen l l' f -> Forall (seen l l') (filling f).
Proof.
  intros (A & B & C). unfold filling. apply Forall_forall. intros c Hc. apply in_map_iff in Hc. destruct Hc as (n & <- & _).
  assert (L: lenN (firstn n (c_buf f)) <= lenN (c_buf f)) by (unfold lenN; rewrite firstn_length; lia).
  split; [|cbn [c_start c_buf]; split; lia].
  intros j e Hj H. apply (A j e Hj). rewrite c_at_iff in H |- * by (cbn [c_start c_buf]; auto; lia). cbn [c_start c_buf] in H.
  destruct (j <? c_start f); [discriminate|].
  destruct (Nat.lt_ge_cases (N.to_nat (j - c_start f)) n) as [L1|L1].
  - rewrite nth_take in H by exact L1. exact H.
  - assert (X: nth_error (firstn n (c_buf f)) (N.to_nat (j - c_start f)) = None)
      by (apply nth_error_None; rewrite firstn_length; lia). congruence.
Qed.

Definition whole (op : lop) (sb s' : store) (c : cache) : Prop := forall e, op = LAppend e -> c = s_cache sb \/ c = s_cache s'.

Lemma steps_seen s l op : R s l -> is_change op = true -> op_ok (c_start (s_cache s)) l op ->
  R (snd (run_lop op s)) (spec_next l op) /\
  Forall (fun c => seen l (spec_next l op) c /\ whole op s (snd (run_lop op s)) c) (s_cache s :: cache_steps op s).
Proof.
  intros HR Hc Hop. destruct (op_step s l op HR Hop) as (s' & E & HR' & _). unfold cache_steps. rewrite E. cbn [fst snd].
  split; [exact HR'|].
  pose proof (R_seen_l _ _ (spec_next l op) HR) as B. pose proof (R_seen_r _ l _ HR') as A.
  constructor; [split; [exact B|intros e _; auto]|].
  assert (W: forall c, (forall e, op <> LAppend e) -> whole op s s' c) by (intros c H e He; elim (H e He)).
  destruct (spec_ans l op) as [r|e|u]; [|destruct op; constructor|destruct op; constructor].
  destruct op; try discriminate Hc.
  - constructor; [split; [exact A|intros ? _; auto]|constructor].
  - constructor; [split; [apply seen_trim; exact B|apply W; discriminate]|].
    constructor; [split; [exact A|apply W; discriminate]|constructor].
  - apply seen_filling in A. revert A. apply Forall_impl. intros c Sc. split; [exact Sc|apply W; discriminate].
  - apply seen_filling in A. revert A. apply Forall_impl. intros c Sc. split; [exact Sc|apply W; discriminate].
Qed.

(** ** The invariant *)
Definition idle_inv (l0 : alog) (y : shared) : Prop := y_ahead y = None /\ R (y_store y) (spec_run l0 (y_ops y)).
Definition busy_inv (l0 : alog) (y : shared) : Prop :=
  exists ops op c sb s' cs, y_ahead y = Some (cs, s') /\ y_ops y = ops ++ [op] /\
    R sb (spec_run l0 ops) /\ R s' (spec_run l0 (ops ++ [op])) /\ y_store y = set_cache c sb /\
    Forall (fun c => seen (spec_run l0 ops) (spec_run l0 (ops ++ [op])) c /\ whole op sb s' c) (c :: cs).

Definition range_inv (y : shared) (t : reader) : Prop :=
  match rd_call t, rd_pc t with
  | QRange a b, Bounds ls ss ge =>
      rd_at t = begun y -> y_ahead y = None /\ range_bounds a b (y_store y) = Ok (Some (ls, ss, ge)) /\
        (b <= a \/ c_start (s_cache (y_store y)) <= b)
  | QRange a b, Filled ls ss f rs =>
      rd_at t = begun y -> y_ahead y = None /\
        (exists ge, range_bounds a b (y_store y) = Ok (Some (ls, ss, ge)) /\ c_fill (s_cache (y_store y)) a ge = Ok rs) /\
        f = c_start (s_cache (y_store y)) /\ a < f /\ (b <= a \/ c_start (s_cache (y_store y)) <= b)
  | _, _ => True
  end.
Definition reader_inv (l0 : alog) (y : shared) (t : reader) : Prop :=
  (rd_since t <= rd_at t <= begun y)%nat /\ (rd_since t <= ended y)%nat /\ call_ok (rd_call t) /\ right l0 y t /\ range_inv y t.
Definition inv (l0 : alog) (y : shared) : Prop :=
  (idle_inv l0 y \/ busy_inv l0 y) /\ Forall (reader_inv l0 y) (y_readers y).

Lemma spec_run_app ops op : forall l, spec_run l (ops ++ [op]) = spec_next (spec_run l ops) op.
Proof. induction ops as [|o ops IH]; intros l; cbn [app spec_run]; auto. Qed.
Lemma spec_run_plus ops ops' : forall l, spec_run l (ops ++ ops') = spec_run (spec_run l ops) ops'.
Proof. induction ops as [|o ops IH]; intros l; cbn [app spec_run]; auto. Qed.
Lemma set_nth_forall {A} (P : A -> Prop) x : P x -> forall l n, Forall P l -> Forall P (set_nth n x l).
Proof. intros Hx. induction l as [|y l IH]; intros [|n] H; cbn [set_nth]; auto; inversion H; constructor; auto. Qed.

(** Moving file positions only. *)
Lemma moved_bounds s s' l a b : R s l -> moved s s' l -> range_bounds a b s' = range_bounds a b s.
Proof.
  intros HR [HR' _]. unfold range_bounds. rewrite (R_start _ _ HR), (R_start _ _ HR'), (R_entries _ _ HR), (R_entries _ _ HR'). reflexivity.
Qed.

Lemma log_all l0 y : log_after l0 y (begun y) = spec_run l0 (y_ops y).
Proof. unfold log_after, begun. rewrite firstn_all. reflexivity. Qed.

Lemma core_seen l0 y : idle_inv l0 y \/ busy_inv l0 y ->
  seen (log_after l0 y (ended y)) (log_after l0 y (begun y)) (s_cache (y_store y)).
Proof.
  intros [[HA HR]|(ops & op & c & sb & s' & cs & HA & HO & HR & HR' & HS & HC)].
  - unfold ended. rewrite HA, log_all. apply R_seen_l. exact HR.
  - rewrite log_all. unfold ended, log_after, begun. rewrite HA, HO, app_length, HS. cbn [length].
    rewrite Nat.add_1_r, Nat.pred_succ, firstn_app, firstn_all, Nat.sub_diag, firstn_O, app_nil_r.
    inversion HC as [|? ? [H _] _]. exact H.
Qed.
Lemma ended_begun y : (ended y <= begun y)%nat.
Proof. unfold ended. destruct (y_ahead y); lia. Qed.
Lemma get_low l i e : a_get l i = Some e -> i <? al_start l = false.
Proof. unfold a_get. destruct (i <? al_start l); [discriminate|reflexivity]. Qed.

Lemma free_idle l0 y : idle_inv l0 y \/ busy_inv l0 y -> free y = true ->
  y_ahead y = None /\ R (y_store y) (spec_run l0 (y_ops y)) /\ ended y = begun y.
Proof.
  intros [[HA HR]|(ops & op & c & sb & s' & cs & HA & _)] HF.
  - split; [exact HA|]. split; [exact HR|]. unfold ended. rewrite HA. reflexivity.
  - unfold free in HF. rewrite HA in HF. discriminate.
Qed.
Lemma same_store l0 y : idle_inv l0 y \/ busy_inv l0 y ->
  match y_ahead y with None => moved (y_store y) (y_store y) (spec_run l0 (y_ops y)) | Some _ => y_store y = y_store y end.
Proof.
  intros [[HA HR]|(ops & op & c & sb & s' & cs & HA & _)]; rewrite HA; [apply moved_refl; exact HR|reflexivity].
Qed.

(** last_entry *)
Lemma last_R s l : R s l -> last_entry s = a_last l.
Proof.
  intros HR. unfold last_entry, c_last_entry, a_last.
  destruct (R_explicit _ _ HR) as (x & y & ip & dp & sp & E & NE & Es & Hy & Hb).
  rewrite Es, E. sfields. destruct y as [|e y]; [rewrite (NE eq_refl); reflexivity|]. rewrite last_app_cons. reflexivity.
Qed.

(** What one step of a reader is worth. *)
Lemma step_answer l0 y n t p s : inv l0 y -> nth_error (y_readers y) n = Some t -> ~ unlucky y t ->
  reader_step (rd_call t) (rd_pc t) (free y) (y_store y) = Some (p, s) ->
  (match y_ahead y with None => moved (y_store y) s (spec_run l0 (y_ops y)) | Some _ => s = y_store y end) /\
  (forall r, p = Gave r -> exists j, (ended y <= j <= begun y)%nat /\ r = spec_ans (log_after l0 y j) (call_op (rd_call t))) /\
  range_inv (mkSh s (y_ahead y) (y_ops y) (y_readers y)) (mkRd (rd_call t) (rd_since t) (begun y) p).
Proof.
  intros [Core RS] Hn UL E.
  assert (RI: reader_inv l0 y t) by (rewrite Forall_forall in RS; apply RS; eapply nth_error_In; exact Hn).
  destruct RI as (_ & _ & CO & _ & RGI).
  pose proof (core_seen _ _ Core) as (SN & SB & SL). pose proof (ended_begun y) as EB. pose proof (same_store _ _ Core) as SS.
  assert (NoAns: forall p0, (forall r, p0 <> Gave r) -> forall r, p0 = Gave r ->
    exists j, (ended y <= j <= begun y)%nat /\ r = spec_ans (log_after l0 y j) (call_op (rd_call t))) by (intros p0 H r Hr; elim (H r Hr)).
  unfold unlucky in UL. unfold range_inv in RGI |- *. cbn [rd_call rd_pc rd_at begun y_ops y_ahead y_store].
  destruct t as [q si at_ pcv]. cbn [rd_call rd_since rd_at rd_pc] in *.
  destruct q as [i|i|a b|]; destruct pcv as [ | | | |ls ss ge|ls ss f rs|r0]; cbn [reader_step call_op] in *; try discriminate E.
  - (* entry_at, the cache *)
    destruct (c_at (s_cache (y_store y)) i) as [e|] eqn:Q; injection E as <- <-.
    + split; [exact SS|]. split; [|exact I]. intros r Hr. injection Hr as <-. cbn [call_ok] in CO.
      destruct (SN i e CO Q) as [G|G]; [exists (ended y)|exists (begun y)]; (split; [lia|]);
        cbn [spec_ans]; rewrite (get_low _ _ _ G), G; reflexivity.
    + split; [exact SS|]. split; [apply NoAns; discriminate|exact I].
  - (* entry_at, the files *)
    destruct (free y) eqn:F; [|discriminate]. destruct (free_idle _ _ Core F) as (HA & HR & EE).
    destruct (entry_rest_ok _ _ i HR CO UL) as (s2 & E2 & M). unfold gave, rmap in E. rewrite E2 in E. cbn [fst snd] in E.
    injection E as <- <-. rewrite HA. split; [exact M|]. split; [|exact I]. intros r Hr. injection Hr as <-.
    exists (begun y). split; [lia|]. rewrite log_all. cbn [spec_ans]. destruct (i <? _); reflexivity.
  - (* term_at, first_idx *)
    injection E as <- <-. split; [exact SS|]. split; [apply NoAns; destruct (_ <=? _); discriminate|exact I].
  - (* last_idx *)
    injection E as <- <-. split; [exact SS|]. split; [apply NoAns; destruct (_ <? _); discriminate|exact I].
  - (* get_term *)
    injection E as <- <-. split; [exact SS|]. split; [|exact I]. intros r Hr. injection Hr as <-. cbn [call_ok] in CO.
    destruct (c_at (s_cache (y_store y)) i) as [e|] eqn:Q; [|elim UL; reflexivity].
    assert (T: c_get_term (s_cache (y_store y)) i = Ok (ev_term e)).
    { pose proof (c_at_low _ _ _ Q) as L1. pose proof (c_at_high _ _ _ SB Q CO) as L2. unfold c_get_term.
      destruct (N.ltb_spec i (c_start (s_cache (y_store y)))); [lia|].
      rewrite wadd_small by (unfold two64; lia).
      destruct (N.leb_spec (c_start (s_cache (y_store y)) + lenN (c_buf (s_cache (y_store y)))) i); [lia|]. cbn [orb].
      unfold is_ulong, two64 in CO. rewrite wsub_small by (unfold two64; lia). rewrite int_small by (unfold two31; lia).
      rewrite c_at_iff in Q by auto. destruct (i <? _); [discriminate|].
      replace (Z.to_nat (Z.of_N (i - c_start (s_cache (y_store y))))) with (N.to_nat (i - c_start (s_cache (y_store y)))) by lia.
      rewrite Q. destruct (Z.ltb_spec (Z.of_N (i - c_start (s_cache (y_store y)))) 0); [lia|reflexivity]. }
    rewrite T. cbn [to_ret].
    destruct (SN i e CO Q) as [G|G]; [exists (ended y)|exists (begun y)]; (split; [lia|]); cbn [spec_ans]; rewrite G; reflexivity.
  - (* term_at, the files *)
    destruct (free y) eqn:F; [|discriminate]. destruct (free_idle _ _ Core F) as (HA & HR & EE).
    destruct (term_rest_ok _ _ i HR ltac:(lia)) as (s2 & E2 & M). unfold gave, rmap in E. rewrite E2 in E. cbn [fst snd] in E.
    injection E as <- <-. rewrite HA. split; [exact M|]. split; [|exact I]. intros r Hr. injection Hr as <-.
    exists (begun y). split; [lia|]. rewrite log_all. cbn [spec_ans]. destruct (a_get _ i); reflexivity.
  - (* log_entries, the bounds *)
    destruct (free y) eqn:F; [|discriminate]. destruct (free_idle _ _ Core F) as (HA & HR & EE).
    destruct CO as [Ha Hb].
    assert (OK: b <= a \/ c_start (s_cache (y_store y)) <= b) by lia.
    destruct (log_entries_ok _ _ a b HR Hb OK) as (s2 & E2 & M). rewrite range_parts in E2.
    destruct (range_bounds a b (y_store y)) as [[[[ls ss] ge]|]|e|u] eqn:RB; injection E as <- <-; rewrite HA in SS |- *.
    + split; [exact SS|]. split; [apply NoAns; discriminate|]. intros _. auto.
    + split; [exact SS|]. split; [|exact I]. intros r Hr. injection Hr as <-. exists (begun y). split; [lia|]. rewrite log_all.
      cbn [spec_ans]. injection E2 as E2 _. destruct (a <? _); [discriminate|]. destruct (_ || _); [reflexivity|discriminate].
    + split; [exact SS|]. split; [|exact I]. intros r Hr. injection Hr as <-. exists (begun y). split; [lia|]. rewrite log_all.
      cbn [spec_ans]. injection E2 as E2 _. destruct (a <? _); [injection E2 as <-; reflexivity|]. destruct (_ || _); discriminate.
    + injection E2 as E2 _. destruct (a <? _); [discriminate|]. destruct (_ || _); discriminate.
  - (* the cache *)
    assert (AT: at_ = begun y) by (destruct (Nat.eq_dec at_ (begun y)); [auto|elim UL; auto]).
    destruct (RGI AT) as (HA & RB & OK). destruct CO as [Ha Hb].
    assert (F: free y = true) by (unfold free; rewrite HA; reflexivity). destruct (free_idle _ _ Core F) as (_ & HR & EE).
    destruct (log_entries_ok _ _ a b HR Hb OK) as (s2 & E2 & M). rewrite range_parts, RB in E2.
    destruct (c_fill (s_cache (y_store y)) a ge) as [rs|e|u] eqn:CF.
    + destruct (N.ltb_spec a (c_start (s_cache (y_store y)))) as [L|L]; injection E as <- <-; rewrite HA in SS |- *.
      * split; [exact SS|]. split; [apply NoAns; discriminate|]. intros _. split; [reflexivity|]. split; [eauto|]. auto.
      * split; [exact SS|]. split; [|exact I]. intros r Hr. injection Hr as <-. exists (begun y). split; [lia|]. rewrite log_all.
        cbn [spec_ans]. injection E2 as E2 _. destruct (a <? _); [discriminate|]. destruct (_ || _); [discriminate|].
        injection E2 as ->. reflexivity.
    + injection E as <- <-; rewrite HA in SS |- *. split; [exact SS|]. split; [|exact I]. intros r Hr. injection Hr as <-. exists (begun y). split; [lia|]. rewrite log_all.
      cbn [spec_ans]. injection E2 as E2 _. destruct (a <? _); [injection E2 as <-; reflexivity|]. destruct (_ || _); discriminate.
    + injection E2 as E2 _. destruct (a <? _); [discriminate|]. destruct (_ || _); discriminate.
  - (* the files *)
    assert (AT: at_ = begun y) by (destruct (Nat.eq_dec at_ (begun y)); [auto|elim UL; auto]).
    destruct (RGI AT) as (HA & (ge & RB & CF) & -> & La & OK). destruct CO as [Ha Hb].
    destruct (free y) eqn:F; [|discriminate]. destruct (free_idle _ _ Core F) as (_ & HR & EE).
    destruct (log_entries_ok _ _ a b HR Hb OK) as (s2 & E2 & M). rewrite range_parts, RB, CF in E2.
    assert (a <? c_start (s_cache (y_store y)) = true) as X by lia. rewrite X in E2.
    unfold gave, rmap in E. rewrite E2 in E. cbn [fst snd] in E. injection E as <- <-. rewrite HA. split; [exact M|]. split; [|exact I].
    intros r Hr. injection Hr as <-. exists (begun y). split; [lia|]. rewrite log_all. cbn [spec_ans].
    destruct (a <? _); [reflexivity|]. destruct (_ || _); reflexivity.
  - (* last_entry *)
    injection E as <- <-. split; [exact SS|]. split; [|exact I]. intros r Hr. injection Hr as <-. cbn [spec_ans].
    destruct Core as [[HA HR]|(ops & op & c & sb & s' & cs & HA & HO & HR & HR' & HS & HC)].
    + exists (begun y). split; [lia|]. rewrite log_all, (last_R _ _ HR). reflexivity.
    + assert (OPA: exists e, op = LAppend e).
      { destruct op; try (exfalso; apply UL; split; [rewrite HA; discriminate|]; intros e0; rewrite HO, last_last; discriminate). eauto. }
      destruct OPA as (e & OPA). inversion HC as [|? ? [_ W] _]; subst. destruct (W e eq_refl) as [->| ->].
      * exists (ended y). split; [lia|]. rewrite HS, set_cache_id, (last_R _ _ HR). unfold log_after, ended, begun.
        rewrite HA, HO, app_length. cbn [length]. rewrite Nat.add_1_r, Nat.pred_succ, firstn_app, firstn_all, Nat.sub_diag, firstn_O, app_nil_r. reflexivity.
      * exists (begun y). split; [lia|]. rewrite log_all, HO, HS.
        assert (last_entry (set_cache (s_cache s') sb) = last_entry s') as -> by reflexivity. rewrite (last_R _ _ HR'). reflexivity.
Qed.

Lemma log_more l0 y op j s a rs : (j <= begun y)%nat ->
  log_after l0 (mkSh s a (y_ops y ++ [op]) rs) j = log_after l0 y j.
Proof.
  intros L. unfold log_after, begun in *. cbn [y_ops]. rewrite firstn_app. replace (j - length (y_ops y))%nat with 0%nat by lia.
  rewrite firstn_O, app_nil_r. reflexivity.
Qed.

Lemma inv_step l0 y v y' : inv l0 y -> fine l0 y v -> ev_step y v = Some y' -> inv l0 y'.
Proof.
  intros HI HF E. pose proof HI as [Core RS]. destruct v as [op| | |q|n]; cbn [ev_step fine] in *.
  - (* begin *)
    destruct Core as [[HA HR]|(ops & op' & c & sb & s' & cs & HA & _)]; rewrite HA in E; [|discriminate].
    destruct (is_change op) eqn:IC; [|discriminate]. injection E as <-.
    destruct (steps_seen _ _ op HR IC HF) as (HR' & SC). split.
    + right. exists (y_ops y), op, (s_cache (y_store y)), (y_store y), (snd (run_lop op (y_store y))), (cache_steps op (y_store y)).
      cbn [y_ahead y_ops y_store]. rewrite set_cache_id, spec_run_app. auto 8.
    + cbn [y_readers]. revert RS. apply Forall_impl. intros t (A1 & A2 & A3 & A4 & A5).
      assert (EB: ended y = begun y) by (unfold ended; rewrite HA; reflexivity).
      split; [unfold begun in *; cbn [y_ops]; rewrite app_length; cbn [length]; lia|].
      split; [unfold ended, begun in *; cbn [y_ahead y_ops]; rewrite HA in *; rewrite app_length; cbn [length]; lia|].
      split; [exact A3|]. split.
      * intros r Hr. destruct (A4 r Hr) as (j & J1 & J2 & J3). exists j. split; [exact J1|].
        split; [unfold begun in *; cbn [y_ops]; rewrite app_length; lia|]. rewrite log_more by lia. exact J3.
      * unfold range_inv in *. destruct (rd_call t); destruct (rd_pc t); auto;
          intros H; exfalso; unfold begun in *; cbn [y_ops] in H; rewrite app_length in H; cbn [length] in H; lia.
  - (* the cache *)
    destruct Core as [[HA HR]|(ops & op & c & sb & s' & cs & HA & HO & HR & HR' & HS & HC)]; rewrite HA in E; [discriminate|].
    destruct cs as [|c1 cs]; [discriminate|]. injection E as <-. split.
    + right. exists ops, op, c1, sb, s', cs. cbn [y_ahead y_ops y_store]. rewrite HS, set_cache_twice.
      inversion HC; subst. auto 8.
    + cbn [y_readers]. revert RS. apply Forall_impl. intros t (A1 & A2 & A3 & A4 & A5).
      split; [exact A1|]. split; [unfold ended in *; cbn [y_ahead]; rewrite HA in A2; exact A2|]. split; [exact A3|]. split; [exact A4|].
      unfold range_inv in *. destruct (rd_call t); destruct (rd_pc t); auto;
        intros H; destruct (A5 H) as (X & _); congruence.
  - (* end *)
    destruct Core as [[HA HR]|(ops & op & c & sb & s' & cs & HA & HO & HR & HR' & HS & HC)]; rewrite HA in E; [discriminate|].
    destruct cs as [|c1 cs]; [|discriminate]. injection E as <-. split.
    + left. split; [reflexivity|]. cbn [y_store y_ops]. rewrite HO. exact HR'.
    + cbn [y_readers]. revert RS. apply Forall_impl. intros t (A1 & A2 & A3 & A4 & A5).
      split; [exact A1|]. split; [unfold ended in *; cbn [y_ahead]; rewrite HA in A2; unfold begun in *; cbn [y_ops]; lia|].
      split; [exact A3|]. split; [exact A4|].
      unfold range_inv in *. destruct (rd_call t); destruct (rd_pc t); auto;
        intros H; destruct (A5 H) as (X & _); congruence.
  - (* call *)
    assert (E': Some y' = Some (mkSh (y_store y) (y_ahead y) (y_ops y) (y_readers y ++ [mkRd q (ended y) (begun y) Called])))
      by (destruct (y_ahead y) as [[[|? ?] ?]|]; congruence). clear E. injection E' as ->.
    split; [destruct Core as [[HA HR]|H]; [left; split; auto|right; exact H]|].
    cbn [y_readers]. apply Forall_app. split; [exact RS|]. constructor; [|constructor].
    pose proof (ended_begun y). unfold reader_inv. cbn [rd_since rd_at rd_call rd_pc].
    split; [unfold begun in *; cbn [y_ops]; lia|]. split; [reflexivity|]. split; [exact HF|]. split; [intros r Hr; discriminate|].
    destruct q; exact I.
  - (* read *)
    assert (E': match nth_error (y_readers y) n with
      | Some t =>
          match reader_step (rd_call t) (rd_pc t) (free y) (y_store y) with
          | Some (p, s) => Some (mkSh s (y_ahead y) (y_ops y) (set_nth n (mkRd (rd_call t) (rd_since t) (begun y) p) (y_readers y)))
          | None => None
          end
      | None => None
      end = Some y') by (destruct (y_ahead y) as [[[|? ?] ?]|]; exact E). clear E.
    destruct (nth_error (y_readers y) n) as [t|] eqn:Hn; [|discriminate].
    destruct (reader_step _ _ _ _) as [[p s]|] eqn:Q; [|discriminate]. injection E' as <-.
    destruct (step_answer l0 y n t p s HI Hn (HF t eq_refl) Q) as (M & ANS & RG).
    assert (ST: match y_ahead y with None => R s (spec_run l0 (y_ops y)) /\ s_cache s = s_cache (y_store y) /\
                  (forall a b, range_bounds a b s = range_bounds a b (y_store y)) | Some _ => s = y_store y end).
    { destruct (y_ahead y) eqn:HA; [exact M|].
      assert (FR: free y = true) by (unfold free; rewrite HA; reflexivity). destruct (free_idle _ _ Core FR) as (_ & HR & _).
      split; [exact (proj1 M)|]. split; [exact (proj2 M)|]. intros a b. exact (moved_bounds _ _ _ _ _ HR M). }
    split.
    + destruct Core as [[HA HR]|H].
      * left. rewrite HA in ST. split; [exact HA|exact (proj1 ST)].
      * right. destruct H as (ops & op & c & sb & s' & cs & HA & HO & HX). rewrite HA in ST. subst s.
        exists ops, op, c, sb, s', cs. split; [exact HA|]. split; [exact HO|exact HX].
    + cbn [y_readers].
      assert (RI: reader_inv l0 y t) by (rewrite Forall_forall in RS; apply RS; eapply nth_error_In; exact Hn).
      apply set_nth_forall.
      * destruct RI as (A1 & A2 & A3 & A4 & A5). unfold reader_inv. cbn [rd_since rd_at rd_call rd_pc].
        split; [unfold begun in *; cbn [y_ops]; lia|]. split; [exact A2|]. split; [exact A3|]. split.
        { intros r Hr. cbn [rd_pc] in Hr. destruct (ANS r Hr) as (j & J1 & J2). exists j. cbn [rd_since rd_at rd_call].
          split; [lia|]. split; [unfold begun; cbn [y_ops]; lia|exact J2]. }
        exact RG.
      * revert RS. apply Forall_impl. intros u (A1 & A2 & A3 & A4 & A5).
        split; [exact A1|]. split; [exact A2|]. split; [exact A3|]. split; [exact A4|].
        unfold range_inv in *. destruct (rd_call u) as [|?|a b|]; auto. destruct (rd_pc u); auto.
        { intros H. destruct (A5 H) as (X & B & C). cbn [y_ahead y_store]. rewrite X in ST. destruct ST as (_ & SC & SB).
          rewrite SB, SC. auto. }
        { intros H. destruct (A5 H) as (X & (ge & B & C) & D). cbn [y_ahead y_store]. rewrite X in ST. destruct ST as (_ & SC & SB).
          rewrite SC. split; [exact X|]. split; [exists ge; rewrite SB; auto|exact D]. }
Qed.

Lemma inv_run l0 vs : forall y y', inv l0 y -> all_fine l0 vs y -> ev_run vs y = Some y' -> inv l0 y'.
Proof.
  induction vs as [|v vs IH]; intros y y' HI HAF E; cbn [ev_run] in E; [congruence|].
  destruct HAF as [HF HN].
  destruct (ev_step y v) as [y1|] eqn:Q; [|discriminate]. exact (IH y1 y' (inv_step _ _ _ _ HI HF Q) (HN y1 eq_refl) E).
Qed.

(** ** C95 *)
(** Any number of threads read while others change the store: every answer is
    the one of the log at some moment between the call and the answer, in every
    interleaving in which no call is unlucky. *)
Theorem C95_linear_partial : forall z ops s vs y,
  z <> 0%Z -> is_int32 z -> ops_ok (cache_limit z) 1 a_empty ops -> used z ops s ->
  ev_run vs (share s) = Some y -> all_fine (spec_run a_empty ops) vs (share s) ->
  Forall (right (spec_run a_empty ops) y) (y_readers y) /\
  (y_ahead y = None -> answers_as (y_store y) (spec_run a_empty (ops ++ y_ops y))).
Proof.
  intros z ops s vs y Hz Hz32 H U E HF.
  assert (HI: inv (spec_run a_empty ops) (share s)).
  { split; [left; split; [reflexivity|exact (used_R _ _ _ Hz Hz32 H U)]|constructor]. }
  pose proof (inv_run _ _ _ _ HI HF E) as [Core RS]. split.
  - revert RS. apply Forall_impl. intros t (_ & _ & _ & A & _). exact A.
  - intros HA. destruct Core as [[_ HR]|(? & ? & ? & ? & ? & ? & X & _)]; [|congruence].
    apply R_answers. rewrite spec_run_plus. exact HR.
Qed.
Print Assumptions C95_linear_partial.

(** *** The last entry of the log under the lock *)
Lemma entry_rest_last s l : R s l -> al_ents l <> [] ->
  exists s', entry_rest (a_next l - 1) s = (Throw IosFailure, s') /\ f_fail (s_idx s') = true.
Proof.
  intros HR NE. pose proof (R_small _ _ HR) as Sl. pose proof (check_io_ok _ _ HR) as CIO.
  pose proof (R_start _ _ HR) as Est. pose proof (R_entries _ _ HR) as Een.
  pose proof (dsize_small _ Sl) as DS. pose proof Sl as (S0 & S1 & S2 & S3).
  destruct (exists_last NE) as (p & e & Ex).
  assert (Hl: lenN (al_ents l) = lenN p + 1) by (rewrite Ex, lenN_app; reflexivity).
  unfold a_next. rewrite Hl. replace (al_start l + (lenN p + 1) - 1) with (al_start l + lenN p) by lia.
  unfold entry_rest. do 2 (erewrite sbind_ok by reflexivity). rewrite Est, Een, Hl.
  destruct (N.ltb_spec (al_start l + lenN p) (al_start l)); [lia|].
  erewrite sbind_ok by exact CIO. rewrite wadd_small by (unfold two64; lia).
  destruct (N.leb_spec (al_start l + (lenN p + 1)) (al_start l + lenN p)); [lia|].
  rewrite (wsub_small (al_start l + lenN p) (al_start l)) by (unfold two64; lia).
  replace (al_start l + lenN p - al_start l) with (lenN p) by lia. rewrite wmul_small by (unfold two64; lia).
  rewrite Ex, dsize_app in DS. cbn [dsize] in DS.
  destruct HR as [H1 H2 H3 H4 H5 H6 H7 H8 H9 H10 H11 H12 H13 H14 H15 H16].
  destruct s as [[id ip ib] [dd dp db] sf n st c b]. sfields. subst. rewrite Ex.
  rewrite offs_app. cbn [offs]. rewrite N.add_0_l.
  unfold sbind at 1, idx_do at 1, smod, set_idx. sfields. rewrite f_seek_ok by lia.
  erewrite sbind_ok by (apply read_idx_at; [rewrite lenN_offs; lia|unfold is_ulong, two64; lia]).
  unfold sbind at 1, read_idx_ulong at 1, sbind at 1, on_idx, f_read, set_idx. sfields.
  match goal with |- context [?a + 8 <=? ?b] => destruct (N.leb_spec (a + 8) b) as [L|L] end.
  { exfalso. rewrite !lenN_app, lenN_le, lenN_offs in L. change (lenN (@nil byte)) with 0 in L. lia. }
  eexists. split; [reflexivity|]. reflexivity.
Qed.

(** A store whose index stream has failed takes no more entries. *)
Lemma dead_append e s : f_fail (s_idx s) = true ->
  exists s', run_lop (LAppend e) s = (Throw IosFailure, s') /\ f_fail (s_idx s') = true.
Proof.
  intros H. destruct s as [[id ip ib] df sf n st c b]. cbn [s_idx f_fail] in H. subst ib.
  cbn [run_lop]. unfold append, sbind at 1, idx_do, smod, set_idx. sfields. unfold f_seek_end at 1. cbn [f_fail].
  unfold sbind at 1, dat_do, smod, set_dat. sfields. unfold sbind at 1, sget. unfold sbind at 1, on_idx, f_write, set_idx. sfields.
  eexists. split; reflexivity.
Qed.
Definition takes_no_more (s : store) : Prop :=
  forall es, Forall (fun r => r = Throw IosFailure) (fst (run_lops (map LAppend es) s)).
Lemma dead_takes s : f_fail (s_idx s) = true -> takes_no_more s.
Proof.
  intros H es. revert s H. induction es as [|e es IH]; intros s H; cbn [map run_lops]; [constructor|].
  destruct (dead_append e s H) as (s1 & E & H1). rewrite E. specialize (IH s1 H1).
  destruct (run_lops (map LAppend es) s1) as [rs s2]. cbn [fst] in *. constructor; auto.
Qed.

(** *** Driving a change to its end *)
Lemma ev_run_app a : forall b y, ev_run (a ++ b) y = match ev_run a y with Some y => ev_run b y | None => None end.
Proof. induction a as [|v a IH]; intros b y; cbn [app ev_run]; [reflexivity|]. destruct (ev_step y v); auto. Qed.
Lemma drive cs : forall s s' ops rs,
  ev_run (repeat ECache (length cs) ++ [EEnd]) (mkSh s (Some (cs, s')) ops rs) = Some (mkSh s' None ops rs).
Proof. induction cs as [|c cs IH]; intros s s' ops rs; cbn [length repeat app ev_run ev_step y_ahead]; [reflexivity|]. apply IH. Qed.

Lemma compact_kept l k i : al_start l <= k -> k < i -> i < a_next l -> a_get (a_compact l k) i = a_get l i.
Proof.
  intros H1 H2 H3. unfold a_compact, a_get. cbn [al_start al_ents].
  destruct (N.ltb_spec i (k + 1)); [lia|]. destruct (N.ltb_spec i (al_start l)); [lia|].
  rewrite nth_drop. f_equal. lia.
Qed.
Lemma compact_next l k : al_start l <= k -> k < a_next l -> a_next (a_compact l k) = a_next l.
Proof. intros H1 H2. unfold a_next, a_compact in *. cbn [al_start al_ents]. unfold lenN in *. rewrite skipn_length. lia. Qed.

Lemma filling_first f : exists cs, filling f = mkCache (c_start f) [] (c_max f) :: cs.
Proof. unfold filling. cbn [seq map firstn]. eauto. Qed.
Lemma empty_at st mx i : c_at (mkCache st [] mx) i = None.
Proof. unfold c_at. cbn [c_buf c_start]. change (lenN (@nil entry_val)) with 0. destruct (N.leb_spec 0 (wsub i st)); [reflexivity|lia]. Qed.

Lemma trim_at c i : c_at (c_trim c i) i = None.
Proof.
  unfold c_trim. destruct (i <? c_start c) eqn:L1; [unfold c_at; rewrite L1, orb_true_r; reflexivity|].
  destruct (N.ltb_spec (wsub i (c_start c)) (lenN (c_buf c))) as [L2|L2].
  - unfold c_at. cbn [c_start c_buf].
    destruct (N.leb_spec (lenN (firstn (N.to_nat (wsub i (c_start c))) (c_buf c))) (wsub i (c_start c))) as [L|L]; [reflexivity|].
    exfalso. unfold lenN in L. rewrite firstn_length in L. lia.
  - unfold c_at. destruct (N.leb_spec (lenN (c_buf c)) (wsub i (c_start c))); [reflexivity|lia].
Qed.

(** The conditions on the next operation, for the cache as it is. *)
Lemma run_window ops ops' : forall s l, R s l -> ops_ok (s_buf_size s) (c_start (s_cache s)) l (ops ++ ops') ->
  exists rs s', run_lops ops s = (rs, s') /\ ops_ok (s_buf_size s') (c_start (s_cache s')) (spec_run l ops) ops'.
Proof.
  induction ops as [|op ops IH]; intros s l HR H; cbn [run_lops spec_run app] in *.
  - eauto.
  - destruct H as [H1 H2]. destruct (op_step s l op HR H1) as (s1 & E & HR1 & C & B).
    rewrite E. destruct (IH s1 (spec_next l op) HR1) as (rs & s2 & E2 & H3); [rewrite C, B; exact H2|].
    rewrite E2. eauto.
Qed.
Lemma next_ok z ops op s : z <> 0%Z -> is_int32 z -> ops_ok (cache_limit z) 1 a_empty (ops ++ [op]) -> used z ops s ->
  R s (spec_run a_empty ops) /\ op_ok (c_start (s_cache s)) (spec_run a_empty ops) op.
Proof.
  intros Hz Hz32 H U. split; [exact (used_R _ _ _ Hz Hz32 (ops_ok_prefix _ _ _ _ _ H) U)|].
  destruct U as (s0 & rs & E0 & E1). destruct (open_fresh z Hz Hz32) as (s0' & E & HR & C & B).
  rewrite E0 in E. injection E as <-.
  destruct (run_window ops [op] s0 a_empty HR) as (rs' & s' & E2 & H2); [rewrite C, B; exact H|].
  rewrite E1 in E2. injection E2 as _ <-. exact (proj1 H2).
Qed.

Lemma compacting s l k : R s l -> al_start l <= k -> op_ok (c_start (s_cache s)) l (LCompact k) ->
  R (snd (run_lop (LCompact k) s)) (a_compact l k) /\ exists st mx cs, cache_steps (LCompact k) s = mkCache st [] mx :: cs.
Proof.
  intros HR H1 OK.
  destruct (op_step s l _ HR OK) as (s1 & E & HR1 & _). unfold cache_steps. rewrite E. cbn [fst snd spec_next spec_ans] in *.
  destruct (N.ltb_spec k (al_start l)); [lia|]. split; [exact HR1|].
  destruct (filling_first (s_cache s1)) as (cs & ->). eauto.
Qed.

(** The entry is read while the log is compacted, the entry being kept: if the
    look at the cache falls into the time between emptying and refilling it,
    and the entry is the last one, the read throws, and from then on no entry
    can be appended any more. *)
Theorem C95_compact_entry_refuted : forall z ops s k,
  z <> 0%Z -> is_int32 z -> ops_ok (cache_limit z) 1 a_empty (ops ++ [LCompact k]) -> used z ops s ->
  al_start (spec_run a_empty ops) <= k -> k + 1 < a_next (spec_run a_empty ops) ->
  exists vs y t, ev_run vs (share s) = Some y /\ y_ops y = [LCompact k] /\ y_readers y = [t] /\
    rd_call t = QEntry (a_next (spec_run a_empty ops) - 1) /\ rd_pc t = Gave (Throw IosFailure) /\
    ~ right (spec_run a_empty ops) y t /\ takes_no_more (y_store y).
Proof.
  intros z ops s k Hz Hz32 H U H1 H2. set (l := spec_run a_empty ops) in *.
  destruct (next_ok _ _ _ _ Hz Hz32 H U) as (HR & OK). fold l in HR, OK.
  destruct (compacting s l k HR H1 OK) as (HR' & st & mx & cs & CS).
  set (s' := snd (run_lop (LCompact k) s)) in *.
  pose proof (compact_next l k H1 ltac:(lia)) as NX.
  assert (NE: al_ents (a_compact l k) <> []).
  { intros Q. unfold a_next in NX at 1. rewrite Q in NX. unfold a_compact in NX. cbn [al_start] in NX. change (lenN (@nil entry_val)) with 0 in NX. lia. }
  destruct (entry_rest_last s' _ HR' NE) as (s2 & E & D). rewrite NX in E.
  set (i := a_next l - 1) in *.
  exists ([ECall (QEntry i); EBegin (LCompact k); ECache; ERead 0] ++ (repeat ECache (length cs) ++ [EEnd]) ++ [ERead 0]).
  exists (mkSh s2 None [LCompact k] [mkRd (QEntry i) 0 1 (Gave (Throw IosFailure))]). eexists.
  split.
  { rewrite ev_run_app. cbn [ev_run ev_step share y_ahead is_change y_store y_ops y_readers app]. rewrite CS. fold s'.
    cbn [ended begun y_ahead y_ops length nth_error rd_call rd_pc reader_step s_cache set_cache y_readers y_store rd_since].
    rewrite empty_at. cbn [set_nth]. rewrite ev_run_app, drive.
    cbn [ev_run ev_step y_ahead y_readers nth_error rd_call rd_pc free y_store reader_step rd_since]. unfold gave, rmap. rewrite E.
    cbn [fst snd set_nth begun y_ops length]. reflexivity. }
  split; [reflexivity|]. split; [reflexivity|]. split; [reflexivity|]. split; [reflexivity|].
  split; [|exact (dead_takes _ D)].
  intros HRt. destruct (HRt _ eq_refl) as (j & _ & _ & Q). cbn [call_op rd_call spec_ans] in Q.
  match type of Q with context [if ?b then _ else _] => destruct b end; discriminate.
Qed.
Print Assumptions C95_compact_entry_refuted.

(** The entry is overwritten while it is read: the same. *)
Theorem C95_overwrite_entry_refuted : forall z ops s i e,
  z <> 0%Z -> is_int32 z -> ops_ok (cache_limit z) 1 a_empty (ops ++ [LWriteAt i e]) -> used z ops s ->
  al_start (spec_run a_empty ops) <= i -> i < a_next (spec_run a_empty ops) ->
  exists vs y t, ev_run vs (share s) = Some y /\ y_ops y = [LWriteAt i e] /\ y_readers y = [t] /\
    rd_call t = QEntry i /\ rd_pc t = Gave (Throw IosFailure) /\
    ~ right (spec_run a_empty ops) y t /\ takes_no_more (y_store y).
Proof.
  intros z ops s i e Hz Hz32 H U H1 H2. set (l := spec_run a_empty ops) in *.
  destruct (next_ok _ _ _ _ Hz Hz32 H U) as (HR & OK). fold l in HR, OK.
  destruct (op_step s l _ HR OK) as (s' & E & HR' & _). cbn [spec_next spec_ans] in *.
  assert (OUT: (i <? al_start l) || (a_next l <? i) = false) by lia. rewrite OUT in *.
  assert (NE: al_ents (a_replace l i [e]) <> []) by (unfold a_replace; cbn [al_ents]; destruct (firstn _ _); discriminate).
  assert (NX: a_next (a_replace l i [e]) - 1 = i).
  { unfold a_next, a_replace in *. cbn [al_start al_ents]. rewrite lenN_app. change (lenN [e]) with 1. unfold lenN in *. rewrite firstn_length. lia. }
  destruct (entry_rest_last s' _ HR' NE) as (s2 & E2 & D). rewrite NX in E2.
  exists [ECall (QEntry i); EBegin (LWriteAt i e); ECache; ERead 0; ECache; EEnd; ERead 0].
  exists (mkSh s2 None [LWriteAt i e] [mkRd (QEntry i) 0 1 (Gave (Throw IosFailure))]). eexists.
  split.
  { cbn [ev_run ev_step share y_ahead is_change y_store y_ops y_readers app].
    assert (CS: cache_steps (LWriteAt i e) s = [c_trim (s_cache s) i; s_cache s']) by (unfold cache_steps; rewrite E; reflexivity).
    rewrite CS, E.
    cbn [ended begun y_ahead y_ops length nth_error rd_call rd_pc reader_step s_cache set_cache y_readers y_store rd_since].
    rewrite trim_at. cbn [set_nth].
    cbn [ev_run ev_step y_ahead y_readers nth_error rd_call rd_pc free y_store reader_step rd_since snd]. unfold gave, rmap. rewrite E2.
    cbn [fst snd set_nth begun y_ops length]. reflexivity. }
  split; [reflexivity|]. split; [reflexivity|]. split; [reflexivity|]. split; [reflexivity|].
  split; [|exact (dead_takes _ D)].
  intros HRt. destruct (HRt _ eq_refl) as (j & _ & _ & Q). cbn [call_op rd_call spec_ans] in Q.
  match type of Q with context [if ?b then _ else _] => destruct b end; discriminate.
Qed.
Print Assumptions C95_overwrite_entry_refuted.

(** An entry is appended while its index is read: the same. *)
Theorem C95_append_entry_refuted : forall z ops s e,
  z <> 0%Z -> is_int32 z -> ops_ok (cache_limit z) 1 a_empty (ops ++ [LAppend e]) -> used z ops s ->
  exists vs y t, ev_run vs (share s) = Some y /\ y_ops y = [LAppend e] /\ y_readers y = [t] /\
    rd_call t = QEntry (a_next (spec_run a_empty ops)) /\ rd_pc t = Gave (Throw IosFailure) /\
    ~ right (spec_run a_empty ops) y t /\ takes_no_more (y_store y).
Proof.
  intros z ops s e Hz Hz32 H U. set (l := spec_run a_empty ops) in *.
  destruct (next_ok _ _ _ _ Hz Hz32 H U) as (HR & OK). fold l in HR, OK.
  destruct (op_step s l _ HR OK) as (s' & E & HR' & _). cbn [spec_next spec_ans] in *.
  assert (NE: al_ents (a_replace l (a_next l) [e]) <> []) by (unfold a_replace; cbn [al_ents]; destruct (firstn _ _); discriminate).
  assert (NX: a_next (a_replace l (a_next l) [e]) - 1 = a_next l).
  { unfold a_next, a_replace in *. cbn [al_start al_ents]. rewrite lenN_app. change (lenN [e]) with 1. unfold lenN in *. rewrite firstn_length. lia. }
  destruct (entry_rest_last s' _ HR' NE) as (s2 & E2 & D). rewrite NX in E2.
  assert (MISS: c_at (s_cache s) (a_next l) = None).
  { pose proof (R_small _ _ HR) as (_ & S1 & _). rewrite (R_c_at _ _ _ HR) by (unfold is_ulong, two64, a_next; lia).
    destruct (_ <? _); [reflexivity|]. unfold a_get, a_next. destruct (_ <? _); [reflexivity|]. apply nth_error_None. unfold lenN. lia. }
  exists [ECall (QEntry (a_next l)); ERead 0; EBegin (LAppend e); ECache; EEnd; ERead 0].
  exists (mkSh s2 None [LAppend e] [mkRd (QEntry (a_next l)) 0 1 (Gave (Throw IosFailure))]). eexists.
  split.
  { cbn [ev_run ev_step share y_ahead is_change y_store y_ops y_readers app].
    cbn [ended begun y_ahead y_ops length nth_error rd_call rd_pc reader_step s_cache set_cache y_readers y_store rd_since].
    rewrite MISS. cbn [set_nth].
    cbn [ev_run ev_step y_ahead y_readers nth_error rd_call rd_pc free y_store reader_step rd_since snd is_change y_ops app].
    assert (CS: cache_steps (LAppend e) s = [s_cache s']) by (unfold cache_steps; rewrite E; reflexivity).
    rewrite CS, E.
    cbn [ev_run ev_step y_ahead y_readers nth_error rd_call rd_pc free y_store reader_step rd_since snd is_change y_ops app].
    unfold gave, rmap. rewrite E2.
    cbn [fst snd set_nth begun y_ops length]. reflexivity. }
  split; [reflexivity|]. split; [reflexivity|]. split; [reflexivity|]. split; [reflexivity|].
  split; [|exact (dead_takes _ D)].
  intros HRt. destruct (HRt _ eq_refl) as (j & _ & _ & Q). cbn [call_op rd_call spec_ans] in Q.
  match type of Q with context [if ?b then _ else _] => destruct b end; discriminate.
Qed.
Print Assumptions C95_append_entry_refuted.

(** the logs before and after one change *)
Lemma log_one l0 y op j : y_ops y = [op] -> log_after l0 y j = l0 \/ log_after l0 y j = spec_next l0 op.
Proof. intros H. unfold log_after. rewrite H. destruct j as [|j]; [auto|]. cbn [firstn]. destruct j; auto. Qed.
Lemma last_after_compact l k : al_start l <= k -> k + 1 < a_next l -> a_last (a_compact l k) = a_last l.
Proof.
  intros H1 H2. unfold a_last, a_compact. cbn [al_ents]. unfold a_next, lenN in H2.
  rewrite <- (firstn_skipn (N.to_nat (k + 1 - al_start l)) (al_ents l)) at 2.
  destruct (skipn (N.to_nat (k + 1 - al_start l)) (al_ents l)) as [|e r] eqn:Q.
  - assert (length (skipn (N.to_nat (k + 1 - al_start l)) (al_ents l)) = 0%nat) as X by (rewrite Q; reflexivity).
    rewrite skipn_length in X. lia.
  - rewrite last_app_cons. apply last_cons.
Qed.

(** The last entry is asked for while the log is compacted: the answer is the
    dummy entry with term 0, although the log is never empty. *)
Theorem C95_last_refuted : forall z ops s k,
  z <> 0%Z -> is_int32 z -> ops_ok (cache_limit z) 1 a_empty (ops ++ [LCompact k]) -> used z ops s ->
  al_start (spec_run a_empty ops) <= k -> k + 1 < a_next (spec_run a_empty ops) ->
  a_last (spec_run a_empty ops) <> mkEV 0 x01 [] ->
  exists vs y t, ev_run vs (share s) = Some y /\ y_ops y = [LCompact k] /\ y_readers y = [t] /\
    rd_call t = QLast /\ rd_pc t = Gave (Ok (REntry (Some (mkEV 0 x01 [])))) /\ ~ right (spec_run a_empty ops) y t.
Proof.
  intros z ops s k Hz Hz32 H U H1 H2 HL. set (l := spec_run a_empty ops) in *.
  destruct (next_ok _ _ _ _ Hz Hz32 H U) as (HR & OK). fold l in HR, OK.
  destruct (compacting s l k HR H1 OK) as (HR' & st & mx & cs & CS).
  exists [ECall QLast; EBegin (LCompact k); ECache; ERead 0]. eexists. eexists.
  split.
  { cbn [ev_run ev_step share y_ahead is_change y_store y_ops y_readers app]. rewrite CS.
    cbn [ended begun y_ahead y_ops length nth_error rd_call rd_pc reader_step s_cache set_cache y_readers y_store rd_since set_nth].
    reflexivity. }
  cbn [y_ops y_readers]. split; [reflexivity|]. split; [reflexivity|]. cbn [rd_call rd_pc]. split; [reflexivity|].
  split; [reflexivity|].
  intros HRt. destruct (HRt _ eq_refl) as (j & _ & _ & Q). cbn [call_op rd_call spec_ans] in Q. injection Q as Q.
  apply HL. symmetry. etransitivity; [exact Q|].
  match goal with |- a_last (log_after _ ?y _) = _ => destruct (log_one l y (LCompact k) j eq_refl) as [X|X] end; fold l; rewrite X; [reflexivity|].
  cbn [spec_next]. destruct (N.ltb_spec k (al_start l)); [lia|]. apply last_after_compact; assumption.
Qed.
Print Assumptions C95_last_refuted.

(** The term of a cached entry is asked for while the log is compacted, the
    entry being kept: the answer is 0. *)
Theorem C95_term_refuted : forall z ops s k i e,
  z <> 0%Z -> is_int32 z -> ops_ok (cache_limit z) 1 a_empty (ops ++ [LCompact k]) -> used z ops s ->
  al_start (spec_run a_empty ops) <= k -> k < i -> c_start (s_cache s) <= i ->
  a_get (spec_run a_empty ops) i = Some e -> ev_term e <> 0 ->
  exists vs y t, ev_run vs (share s) = Some y /\ y_ops y = [LCompact k] /\ y_readers y = [t] /\
    rd_call t = QTerm i /\ rd_pc t = Gave (Ok (RIdx 0)) /\ ~ right (spec_run a_empty ops) y t.
Proof.
  intros z ops s k i e Hz Hz32 H U H1 H2 Hc HG HT. set (l := spec_run a_empty ops) in *.
  destruct (next_ok _ _ _ _ Hz Hz32 H U) as (HR & OK). fold l in HR, OK.
  destruct (compacting s l k HR H1 OK) as (HR' & st & mx & cs & CS).
  assert (Hi: i < a_next l).
  { unfold a_get in HG. destruct (i <? al_start l); [discriminate|].
    assert (N.to_nat (i - al_start l) < length (al_ents l))%nat by (apply nth_error_Some; congruence). unfold a_next, lenN. lia. }
  pose proof (R_cache_end _ _ HR) as CE. pose proof (R_small _ _ HR) as (_ & S1 & _).
  exists [ECall (QTerm i); ERead 0; ERead 0; EBegin (LCompact k); ECache; ERead 0]. eexists. eexists.
  split.
  { cbn [ev_run ev_step share y_ahead is_change y_store y_ops y_readers app].
    cbn [ended begun y_ahead y_ops length nth_error rd_call rd_pc reader_step s_cache set_cache y_readers y_store rd_since set_nth].
    assert (c_start (s_cache s) <=? i = true) as -> by lia.
    cbn [nth_error y_readers rd_call rd_pc reader_step y_store rd_since set_nth].
    assert (i <? c_last_idx (s_cache s) = true) as ->.
    { unfold c_last_idx. rewrite wadd_small by (rewrite CE; unfold a_next, two64; lia). lia. }
    cbn [nth_error y_readers rd_call rd_pc reader_step y_store rd_since set_nth y_ahead y_ops app]. rewrite CS.
    cbn [nth_error y_readers rd_call rd_pc reader_step y_store rd_since set_nth y_ahead y_ops app s_cache set_cache].
    unfold c_get_term. cbn [c_start c_buf]. change (lenN (@nil entry_val)) with 0.
    assert ((i <? st) || (wadd st 0 <=? i) = true) as ->.
    { destruct (N.ltb_spec i st); [reflexivity|]. cbn [orb].
      assert (wadd st 0 <= st) by (unfold wadd, w64; rewrite N.add_0_r; apply N.mod_le; unfold two64; lia). lia. }
    cbn [to_ret begun y_ops length]. reflexivity. }
  cbn [y_ops y_readers]. split; [reflexivity|]. split; [reflexivity|]. cbn [rd_call rd_pc]. split; [reflexivity|].
  split; [reflexivity|].
  intros HRt. destruct (HRt _ eq_refl) as (j & _ & _ & Q). cbn [call_op rd_call spec_ans] in Q.
  match type of Q with context [log_after _ ?y _] => destruct (log_one l y (LCompact k) j eq_refl) as [X|X] end; rewrite X in Q.
  - rewrite HG in Q. congruence.
  - cbn [spec_next] in Q. destruct (N.ltb_spec k (al_start l)); [lia|]. rewrite compact_kept, HG in Q by assumption. congruence.
Qed.
Print Assumptions C95_term_refuted.

Lemma c_elems_over c n : forall k, (0 <= k <= Z.of_N (lenN (c_buf c)))%Z -> (Z.of_N (lenN (c_buf c)) < k + Z.of_nat n)%Z ->
  c_elems c k n = UB OutOfBoundsRead.
Proof.
  induction n as [|n IH]; intros k Hk H; [lia|]. cbn [c_elems]. unfold c_elem. destruct (Z.ltb_spec k 0); [lia|].
  destruct (nth_error (c_buf c) (Z.to_nat k)) as [e|] eqn:Q; [|reflexivity]. cbn [res_bind].
  assert (Z.to_nat k < length (c_buf c))%nat by (apply nth_error_Some; congruence).
  rewrite IH; [reflexivity| |]; unfold lenN in *; lia.
Qed.
Lemma int_back a c : a < c -> c - a < two31 -> c < two64 -> (int_of_ulong (wsub a c) <= 0)%Z.
Proof.
  intros H1 H2 H3.
  assert (W: wsub a c = two64 - (c - a)).
  { unfold wsub. rewrite (N.mod_small c) by exact H3. rewrite N.mod_small by (unfold two64 in *; lia). unfold two64 in *. lia. }
  rewrite W. unfold int_of_ulong, to_int32.
  assert (E: ((Z.of_N (two64 - (c - a)) + 2147483648) mod 4294967296 = 2147483648 - Z.of_N (c - a))%Z).
  { symmetry. apply (Z.mod_unique _ _ 4294967296); unfold two31, two64 in *; lia. }
  rewrite E. lia.
Qed.
Lemma bounds_at s l a b : R s l -> al_start l <= a -> a < a_next l -> a < b -> is_ulong b ->
  range_bounds a b s = Ok (Some (a - al_start l, al_start l, N.min b (a_next l))).
Proof.
  intros HR H1 H2 H3 H4. pose proof (R_small _ _ HR) as (S0 & S1 & S2 & _). unfold range_bounds, is_ulong, a_next in *.
  rewrite (R_start _ _ HR), (R_entries _ _ HR).
  destruct (N.ltb_spec a (al_start l)); [lia|]. rewrite !wsub_small by (unfold two64 in *; lia). rewrite wadd_small by (unfold two64; lia).
  destruct (N.leb_spec b a); [lia|]. destruct (N.leb_spec (al_start l + lenN (al_ents l)) a); [lia|]. cbn [orb]. cbv zeta.
  destruct (N.ltb_spec (lenN (al_ents l)) (b - al_start l)).
  - destruct (N.leb_spec (lenN (al_ents l)) (a - al_start l)); [lia|]. rewrite wadd_small by (unfold two64 in *; lia). do 3 f_equal. lia.
  - destruct (N.leb_spec (b - al_start l) (a - al_start l)); [lia|]. rewrite wadd_small by (unfold two64 in *; lia). do 3 f_equal. lia.
Qed.
(** Reading more than the cache holds. *)
Lemma fill_over s l a ge : R s l -> al_start l <= a -> a <= a_next l -> a_next l < ge -> ge < 1152921504606846976 ->
  ge - al_start l < 268435456 -> c_fill (s_cache s) a ge = UB OutOfBoundsRead.
Proof.
  intros HR H1 H2 H3 H4 H5. pose proof (R_cache_end _ _ HR) as CE. pose proof (R_small _ _ HR) as (S0 & S1 & S2 & _).
  pose proof (R_c_lo _ _ HR) as LO. pose proof (R_c_hi _ _ HR) as HI. unfold c_fill.
  destruct (N.ltb_spec ge (c_start (s_cache s))); [lia|]. cbv zeta.
  rewrite (wsub_small ge a), (wsub_small ge (c_start (s_cache s))) by (unfold two64; lia). rewrite !(int_small (ge - _)) by (unfold two31; lia).
  destruct (N.lt_ge_cases a (c_start (s_cache s))) as [L|L].
  - pose proof (int_back a (c_start (s_cache s)) L ltac:(unfold two31; lia) ltac:(unfold two64; lia)) as IB.
    destruct (Z.ltb_spec 0 (int_of_ulong (wsub a (c_start (s_cache s))))); [lia|].
    rewrite c_elems_over; [reflexivity|lia|lia].
  - rewrite wsub_small by (unfold two64; lia). rewrite int_small by (unfold two31; lia).
    destruct (Z.ltb_spec 0 (Z.of_N (a - c_start (s_cache s)))).
    + rewrite c_elems_over; [reflexivity|lia|lia].
    + rewrite c_elems_over; [reflexivity|lia|lia].
Qed.

(** A range of entries is read while its end is cut off by an overwrite: what
    is behind the end of the cache is read, undefined behaviour. *)
Theorem C95_range_refuted : forall z ops s i e a b,
  z <> 0%Z -> is_int32 z -> ops_ok (cache_limit z) 1 a_empty (ops ++ [LWriteAt i e]) -> used z ops s ->
  i + 1 < a_next (spec_run a_empty ops) ->
  al_start (spec_run a_empty ops) <= a -> a <= i -> i + 1 < b -> is_ulong b ->
  exists vs y t, ev_run vs (share s) = Some y /\ y_ops y = [LWriteAt i e] /\ y_readers y = [t] /\
    rd_call t = QRange a b /\ rd_pc t = Gave (UB OutOfBoundsRead).
Proof.
  intros z ops s i e a b Hz Hz32 H U H2 H3 H4 H5 Hb. set (l := spec_run a_empty ops) in *.
  destruct (next_ok _ _ _ _ Hz Hz32 H U) as (HR & OK). fold l in HR, OK.
  destruct (op_step s l _ HR OK) as (s' & E & HR' & _). cbn [spec_next spec_ans] in *.
  assert (OUT: (i <? al_start l) || (a_next l <? i) = false) by lia. rewrite OUT in *.
  assert (NX: a_next (a_replace l i [e]) = i + 1).
  { unfold a_next, a_replace in *. cbn [al_start al_ents]. rewrite lenN_app. change (lenN [e]) with 1. unfold lenN in *. rewrite firstn_length. lia. }
  pose proof (R_small _ _ HR) as (S0 & S1 & S2 & _).
  assert (BD: range_bounds a b s = Ok (Some (a - al_start l, al_start l, N.min b (a_next l)))) by (apply bounds_at; auto; lia).
  assert (CF: c_fill (s_cache s') a (N.min b (a_next l)) = UB OutOfBoundsRead).
  { apply (fill_over s' (a_replace l i [e])); [exact HR'|exact H3|lia|lia| |]; unfold a_next, a_replace in *; cbn [al_start]; lia. }
  exists [ECall (QRange a b); ERead 0; EBegin (LWriteAt i e); ECache; ECache; EEnd; ERead 0]. eexists. eexists.
  split.
  { cbn [ev_run ev_step share y_ahead is_change y_store y_ops y_readers app].
    cbn [ended begun y_ahead y_ops length nth_error rd_call rd_pc reader_step free s_cache set_cache y_readers y_store rd_since set_nth].
    rewrite BD. cbn [ev_run ev_step y_ahead y_readers nth_error rd_call rd_pc free y_store reader_step rd_since snd is_change y_ops app set_nth].
    assert (CS: cache_steps (LWriteAt i e) s = [c_trim (s_cache s) i; s_cache s']) by (unfold cache_steps; rewrite E; reflexivity).
    rewrite CS, E.
    cbn [ev_run ev_step y_ahead y_readers nth_error rd_call rd_pc free y_store reader_step rd_since snd is_change y_ops app set_nth].
    rewrite CF. reflexivity. }
  cbn [y_ops y_readers rd_call rd_pc]. auto.
Qed.
Print Assumptions C95_range_refuted.

(** Between the look at the cache and the reading of the files the log is
    compacted: entries 2, 3, 4 are handed out as entries 1, 2, 3. *)
Definition five : list lop := [LAppend (ev 1 [x61]); LAppend (ev 2 [x62]); LAppend (ev 3 [x63]); LAppend (ev 4 [x64]); LAppend (ev 5 [x65])].
Definition five_log : alog := mkAL 1 [ev 1 [x61]; ev 2 [x62]; ev 3 [x63]; ev 4 [x64]; ev 5 [x65]].
Theorem C95_range_shifted_refuted : exists s vs y t,
  used 2 five s /\ spec_run a_empty five = five_log /\ ops_ok (cache_limit 2) 1 a_empty (five ++ [LCompact 1]) /\
  ev_run vs (share s) = Some y /\ y_ops y = [LCompact 1] /\ y_readers y = [t] /\ rd_call t = QRange 1 5 /\
  rd_pc t = Gave (Ok (REntries (Some [Some (ev 2 [x62]); Some (ev 3 [x63]); Some (ev 4 [x64]); Some (ev 4 [x64])]))) /\
  ~ right five_log y t.
Proof.
  eexists. exists ([ECall (QRange 1 5); ERead 0; ERead 0; EBegin (LCompact 1); ECache; ECache; ECache; EEnd; ERead 0]). eexists. eexists.
  split; [run_it|]. split; [reflexivity|]. split; [hist|]. split; [vm_compute; reflexivity|]. split; [reflexivity|]. split; [reflexivity|].
  split; [reflexivity|]. split; [reflexivity|].
  intros H. destruct (H _ eq_refl) as (j & _ & _ & Q). destruct j as [|[|j]]; vm_compute in Q; discriminate.
Qed.
Print Assumptions C95_range_shifted_refuted.

(** *** The hypotheses are met *)
(** Two reads and an append at the same time: entry_at misses the cache before
    the append and gets the lock after it, last_entry sees the new entry before
    the append is over. *)
Definition ex_share : list turn :=
  [ECall (QEntry 2); ERead 0; EBegin (LAppend (ev 6 [x66])); ECache; ECall QLast; ERead 1; ECall (QTerm 5); ERead 2; ERead 2; EEnd;
   ERead 0; ERead 2; ECall (QRange 2 7); ERead 3; ERead 3; ERead 3].
Ltac fine_step := split; [cbn [fine]; first [exact I | unfold is_ulong, two64; cbn [call_ok]; unfold is_ulong, two64; lia
   | split; [eok|sml]
   | intros t Ht; vm_compute in Ht; injection Ht as <-; intros HU; vm_compute in HU; first [exact HU | exact (proj2 HU _ eq_refl) | destruct HU; congruence | intuition congruence]]
  | let y' := fresh in let E := fresh in intros y' E; vm_compute in E; injection E as <-].
Example C95_linear_example : exists s y,
  used 2 five s /\ ops_ok (cache_limit 2) 1 a_empty five /\ ev_run ex_share (share s) = Some y /\
  all_fine (spec_run a_empty five) ex_share (share s) /\
  map rd_pc (y_readers y) = [Gave (Ok (REntry (Some (ev 2 [x62])))); Gave (Ok (REntry (Some (ev 6 [x66])))); Gave (Ok (RIdx 5));
     Gave (Ok (REntries (Some [Some (ev 2 [x62]); Some (ev 3 [x63]); Some (ev 4 [x64]); Some (ev 5 [x65]); Some (ev 6 [x66])])))].
Proof.
  eexists. eexists. split; [run_it|]. split; [hist|]. split; [vm_compute; reflexivity|]. split; [|vm_compute; reflexivity].
  unfold ex_share. cbn [all_fine].
  do 16 fine_step. exact I.
Qed.
Example C95_refuted_example : exists s,
  used 2 five s /\ ops_ok (cache_limit 2) 1 a_empty (five ++ [LCompact 1]) /\ ops_ok (cache_limit 2) 1 a_empty (five ++ [LWriteAt 4 (ev 7 [x67])]) /\
  ops_ok (cache_limit 2) 1 a_empty (five ++ [LAppend (ev 6 [x66])]) /\
  al_start (spec_run a_empty five) <= 1 /\ 4 + 1 < a_next (spec_run a_empty five) /\ a_last (spec_run a_empty five) <> mkEV 0 x01 [] /\
  c_start (s_cache s) <= 4 /\ a_get (spec_run a_empty five) 4 = Some (ev 4 [x64]).
Proof.
  eexists. split; [run_it|]. split; [hist|]. split; [hist|]. split; [hist|]. split; [vm_compute; discriminate|].
  split; [vm_compute; reflexivity|]. split; [vm_compute; discriminate|]. split; [vm_compute; discriminate|reflexivity].
Qed.
