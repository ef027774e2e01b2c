(** * P_Endpoint: which endpoints can be used, and where they lead (C74) *)

From Coq Require Import Arith.
From Verif Require Import Base Endpoint.
From Coq Require String.
Import String.StringSyntax.
Local Open Scope string_scope.
Local Open Scope list_scope.

(** ** Specification *)
(** letters, digits, and what may be inside a label of a host name *)
Definition letter_or_digit (x : byte) : Prop := In x (text "abcdefghijklmnopqrstuvwxyzABCDEFGHIJKLMNOPQRSTUVWXYZ0123456789").
Definition label_char (x : byte) : Prop := letter_or_digit x \/ x = "-"%byte.
Definition label (l : list byte) : Prop := l <> [] /\ Forall label_char l.
(** labels with dots between them *)
Fixpoint dotted (ls : list (list byte)) : list byte :=
  match ls with
  | [] => []
  | [l] => l
  | l :: ls => l ++ ["."%byte] ++ dotted ls
  end.
(** a host name as in RFC 1123: labels that do not begin or end with a dash *)
Definition host_name (h : list byte) : Prop :=
  exists ls, ls <> [] /\ h = dotted ls /\
    forall l, In l ls -> label l /\ letter_or_digit (hd "-"%byte l) /\ letter_or_digit (last l "-"%byte).
Definition port_number (p : list byte) : Prop := p <> [] /\ Forall (fun x => In x (text "0123456789")) p.
Definition endpoint (h p : list byte) : list byte := text "tcp://" ++ h ++ text ":" ++ p.
(** the host names that work: no dash in the last label *)
Definition usable_host (h : list byte) : Prop :=
  exists ls l, h = dotted (ls ++ [l]) /\ Forall label ls /\ l <> [] /\ Forall letter_or_digit l.

(** ** The matcher finds exactly the matches *)
Inductive matches : re -> list byte -> caps -> caps -> Prop :=
| M_char : forall f x c, f x = true -> matches (Char f) [x] c c
| M_empty : forall c, matches Empty [] c c
| M_seq : forall a b s t c1 c2 c3, matches a s c1 c2 -> matches b t c2 c3 -> matches (Seq a b) (s ++ t) c1 c3
| M_star0 : forall a c, matches (Star a) [] c c
| M_star : forall a s t c1 c2 c3, s <> [] -> matches a s c1 c2 -> matches (Star a) t c2 c3 -> matches (Star a) (s ++ t) c1 c3
| M_group : forall n a s c1 c2, matches a s c1 c2 -> matches (Group n a) s c1 (set_cap n s c2).

Lemma firstn_before {A} : forall (p s : list A), firstn (length (p ++ s) - length s) (p ++ s) = p.
Proof. intros. rewrite app_length. replace (length p + length s - length s)%nat with (length p) by lia. rewrite firstn_app, Nat.sub_diag, firstn_all. cbn. apply app_nil_r. Qed.

Definition finds (f : caps -> list byte -> list (caps * list byte)) (m : list byte -> caps -> caps -> Prop) : Prop :=
  forall c s c' s', In (c', s') (f c s) <-> exists p, s = p ++ s' /\ m p c c'.

Lemma star_finds : forall a f, finds f (matches a) -> forall fuel c s c' s', (length s <= fuel)%nat ->
  (In (c', s') (star f fuel c s) <-> exists p, s = p ++ s' /\ matches (Star a) p c c').
Proof.
  intros a f H. induction fuel as [|k IH]; intros c s c' s' L.
  - destruct s; [|cbn in L; lia]. cbn. split.
    + intros [E|[]]. injection E as <- <-. exists []. split; [reflexivity|constructor].
    + intros (p & E & M). destruct p; [|discriminate]. cbn in E. subst s'. left.
      inversion M; subst; [reflexivity|]. destruct s; [congruence|discriminate].
  - cbn [star]. rewrite in_app_iff, in_flat_map. split.
    + intros [((c1, s1) & I & J)|[E|[]]].
      * cbn [fst snd] in J. destruct (Nat.ltb_spec (length s1) (length s)) as [L1|]; [|destruct J].
        apply H in I. destruct I as (p & -> & M). apply IH in J; [|lia]. destruct J as (p' & -> & M').
        exists (p ++ p'). split; [apply app_assoc|]. eapply M_star; eauto. intros ->. cbn in L1. lia.
      * injection E as <- <-. exists []. split; [reflexivity|constructor].
    + intros (p & -> & M). inversion M; subst.
      * right. left. reflexivity.
      * left. exists (c2, t ++ s'). split; [apply H; exists s; split; [symmetry; apply app_assoc|assumption]|].
        cbn [fst snd]. assert (L1 : (length (t ++ s') < length ((s ++ t) ++ s'))%nat).
        { rewrite <- app_assoc, (app_length s). destruct s; [congruence|cbn; lia]. }
        destruct (Nat.ltb_spec (length (t ++ s')) (length ((s ++ t) ++ s'))); [|lia].
        apply IH; [lia|]. exists t. auto.
Qed.

Lemma ways_finds : forall r, finds (ways r) (matches r).
Proof.
  induction r as [f| |a IHa b IHb|a IHa|n a IHa]; intros c s c' s'; cbn [ways].
  - split.
    + destruct s as [|x s]; [intros []|]. destruct (f x) eqn:E; [|intros []]. intros [E1|[]]. injection E1 as <- <-.
      exists [x]. split; [reflexivity|constructor; exact E].
    + intros (p & -> & M). inversion M; subst. cbn. match goal with E : f _ = true |- _ => rewrite E end. left. reflexivity.
  - split.
    + intros [E|[]]. injection E as <- <-. exists []. split; [reflexivity|constructor].
    + intros (p & -> & M). inversion M; subst. left. reflexivity.
  - rewrite in_flat_map. split.
    + intros ((c1, s1) & I & J). apply IHa in I. destruct I as (p & -> & M). apply IHb in J. destruct J as (p' & E & M'). cbn [fst snd] in *. subst s1.
      exists (p ++ p'). split; [apply app_assoc|]. econstructor; eauto.
    + intros (p & -> & M). inversion M; subst. exists (c2, t ++ s'). split; [apply IHa; exists s; split; [symmetry; apply app_assoc|assumption]|].
      apply IHb. exists t. auto.
  - apply star_finds; [exact IHa|lia].
  - rewrite in_map_iff. split.
    + intros ((c1, s1) & E & I). cbn [fst snd] in E. injection E as <- <-. apply IHa in I. destruct I as (p & -> & M).
      exists p. split; [reflexivity|]. rewrite firstn_before. constructor. exact M.
    + intros (p & -> & M). inversion M; subst. exists (c2, s'). split; [|apply IHa; exists p; auto].
      cbn [fst snd]. rewrite firstn_before. reflexivity.
Qed.

Lemma regex_match_some : forall r s c, regex_match r s = Some c -> matches r s (fun _ => None) c.
Proof.
  unfold regex_match. intros r s c H. destruct (find _ _) as [[c1 s1]|] eqn:E; [|discriminate]. injection H as <-.
  apply find_some in E. destruct E as [I E]. destruct s1; [|discriminate]. apply ways_finds in I. destruct I as (p & -> & M). rewrite app_nil_r. exact M.
Qed.
Lemma regex_match_none : forall r s, regex_match r s = None -> forall c, ~ matches r s (fun _ => None) c.
Proof.
  unfold regex_match. intros r s H c M. destruct (find _ _) as [[c1 s1]|] eqn:E; [discriminate|].
  eapply find_none in E; [|apply ways_finds; exists s; split; [symmetry; apply app_nil_r|exact M]]. discriminate.
Qed.

Lemma seq_inv : forall a b p c c', matches (Seq a b) p c c' -> exists s t c1, p = s ++ t /\ matches a s c c1 /\ matches b t c1 c'.
Proof. intros a b p c c' M. inversion M; subst. eauto 6. Qed.
Lemma group_inv : forall n a p c c', matches (Group n a) p c c' -> exists c1, c' = set_cap n p c1 /\ matches a p c c1.
Proof. intros n a p c c' M. inversion M; subst. eauto. Qed.
Lemma char_inv : forall f p c c', matches (Char f) p c c' -> exists x, p = [x] /\ f x = true /\ c' = c.
Proof. intros f p c c' M. inversion M; subst. eauto. Qed.

(** ** The expression *)
Lemma lit_matches : forall s p c c', matches (lit s) p c c' <-> p = text s /\ c' = c.
Proof.
  intros s. unfold lit. induction (text s) as [|b l IH]; intros p c c'; cbn [fold_right].
  - split; [intros M; inversion M; auto|intros [-> ->]; constructor].
  - split.
    + intros M. apply seq_inv in M. destruct M as (s1 & t & c1 & -> & M1 & M2). apply char_inv in M1. destruct M1 as (x & -> & E & ->). apply IH in M2. destruct M2 as [-> ->]. apply Byte.byte_dec_bl in E. subst. auto.
    + intros [-> ->]. change (b :: l) with ([b] ++ l). econstructor; [constructor; apply Byte.byte_dec_lb; reflexivity|apply IH; auto].
Qed.
Lemma chars_matches : forall f p c c', matches (Star (Char f)) p c c' <-> Forall (fun x => f x = true) p /\ c' = c.
Proof.
  intros f p c c'. split.
  - intros M. remember (Star (Char f)) as r eqn:E. revert E. induction M; intros E; try discriminate; injection E as ->.
    + auto.
    + apply char_inv in M1. destruct M1 as (x & -> & Hx & ->). destruct (IHM2 eq_refl) as [F ->]. split; [constructor; auto|reflexivity].
  - intros [F ->]. induction F as [|x p Hx F IH]; [constructor|]. change (x :: p) with ([x] ++ p). eapply M_star; [discriminate|constructor; exact Hx|exact IH].
Qed.
Lemma plus_matches : forall f p c c', matches (plus (Char f)) p c c' <-> (p <> [] /\ Forall (fun x => f x = true) p) /\ c' = c.
Proof.
  intros f p c c'. unfold plus. split.
  - intros M. apply seq_inv in M. destruct M as (s1 & t & c1 & -> & M1 & M2). apply char_inv in M1. destruct M1 as (x & -> & Hx & ->). apply chars_matches in M2. destruct M2 as [F ->]. split; [split; [discriminate|constructor; auto]|reflexivity].
  - intros [[N F] ->]. destruct p as [|x p]; [congruence|]. inversion F; subst. change (x :: p) with ([x] ++ p).
    econstructor; [constructor; assumption|apply chars_matches; auto].
Qed.

Lemma chars_spec : forall (f : byte -> bool) s, (forall x, f x = existsb (Byte.eqb x) s) -> forall x, f x = true <-> In x s.
Proof.
  intros f s H x. rewrite H, existsb_exists. split.
  - intros (y & I & E). apply Byte.byte_dec_bl in E. subst. exact I.
  - intros I. exists x. split; [exact I|apply Byte.byte_dec_lb; reflexivity].
Qed.
Lemma digit_spec : forall x, digit x = true <-> In x (text "0123456789").
Proof. apply chars_spec. intros x. destruct x; reflexivity. Qed.
Lemma alnum_spec : forall x, alnum x = true <-> letter_or_digit x.
Proof. apply chars_spec. intros x. destruct x; reflexivity. Qed.
Lemma dash_spec : forall x, alnum_or_dash x = true <-> label_char x.
Proof.
  intros x. unfold alnum_or_dash, label_char. rewrite orb_true_iff, alnum_spec. split; intros [H|H]; auto.
  - right. apply Byte.byte_dec_bl. exact H.
  - right. apply Byte.byte_dec_lb. exact H.
Qed.
Lemma forall_iff {A} : forall (P Q : A -> Prop) l, (forall x, P x <-> Q x) -> (Forall P l <-> Forall Q l).
Proof. intros P Q l H. split; apply Forall_impl; apply H. Qed.

Lemma dotted_cons : forall l ls, ls <> [] -> dotted (l :: ls) = l ++ ["."%byte] ++ dotted ls.
Proof. intros l [|m ls] H; [congruence|reflexivity]. Qed.
Definition upto_dots (ls : list (list byte)) : list byte := concat (map (fun l => l ++ ["."%byte]) ls).
Lemma dotted_last : forall ls l, dotted (ls ++ [l]) = upto_dots ls ++ l.
Proof.
  induction ls as [|m ls IH]; intros l; [reflexivity|]. cbn [app]. rewrite dotted_cons by (destruct ls; discriminate).
  rewrite IH. unfold upto_dots. cbn. rewrite <- !app_assoc. reflexivity.
Qed.

Definition labels_re : re := Star (Group 2 (Seq (plus (Char alnum_or_dash)) (lit "."))).
Lemma labels_matches : forall p c c', matches labels_re p c c' -> exists ls, Forall label ls /\ p = upto_dots ls /\ (forall n, n <> 2%nat -> c' n = c n).
Proof.
  intros p c c' M. unfold labels_re in M. remember (Star _) as r eqn:E. revert E. induction M; intros E; try discriminate; injection E as ->.
  - exists []. auto.
  - destruct (IHM2 eq_refl) as (ls & F & -> & K). apply group_inv in M1. destruct M1 as (c4 & -> & M1). apply seq_inv in M1. destruct M1 as (s0 & t & c1' & -> & M1 & M3).
    apply plus_matches in M1. destruct M1 as [[N A] ->]. apply lit_matches in M3. destruct M3 as [-> ->].
    exists (s0 :: ls). split; [constructor; [split; [exact N|revert A; apply (proj1 (forall_iff _ _ _ dash_spec))]|exact F]|].
    split; [reflexivity|]. intros n Hn. rewrite K by exact Hn. unfold set_cap. apply Nat.eqb_neq in Hn. rewrite Hn. reflexivity.
Qed.
Lemma labels_matched : forall ls c, Forall label ls -> exists c', matches labels_re (upto_dots ls) c c'.
Proof.
  induction ls as [|l ls IH]; intros c F.
  - exists c. constructor.
  - inversion F as [|x y [N A] F']; subst. destruct (IH (set_cap 2 (l ++ ["."%byte]) c) F') as (c' & M). exists c'.
    unfold upto_dots. cbn [map concat]. eapply M_star; [destruct l; discriminate| |exact M].
    constructor. econstructor; [apply plus_matches; split; [split; [exact N|revert A; apply (proj2 (forall_iff _ _ _ dash_spec))]|reflexivity]|].
    apply lit_matches. auto.
Qed.

Definition the_re : re :=
  Seq (lit "tcp://") (Seq (Group 1 (Seq labels_re (Group 3 (plus (Char alnum))))) (Seq (lit ":") (Group 4 (plus (Char digit))))).

Lemma endpoint_matches : forall s c, matches endpoint_re s (fun _ => None) c ->
  exists h p, s = endpoint h p /\ usable_host h /\ port_number p /\ c 1%nat = Some h /\ c 4%nat = Some p.
Proof.
  intros s c M. change endpoint_re with the_re in M. unfold the_re in M.
  apply seq_inv in M. destruct M as (s1 & t1 & c1 & -> & M1 & M). apply lit_matches in M1. destruct M1 as [-> ->].
  apply seq_inv in M. destruct M as (s2 & t2 & c2 & -> & M2 & M). apply group_inv in M2. destruct M2 as (c3 & -> & M2).
  apply seq_inv in M2. destruct M2 as (s3 & t3 & c4 & -> & M2 & M3). apply labels_matches in M2. destruct M2 as (ls & F & -> & K).
  apply group_inv in M3. destruct M3 as (c5 & -> & M3). apply plus_matches in M3. destruct M3 as [[N A] ->].
  apply seq_inv in M. destruct M as (s4 & t4 & c6 & -> & M4 & M). apply lit_matches in M4. destruct M4 as [-> ->].
  apply group_inv in M. destruct M as (c7 & -> & M). apply plus_matches in M. destruct M as [[N' A'] ->].
  eexists (upto_dots ls ++ _), _. split; [reflexivity|]. split; [|split; [|split; reflexivity]].
  - eexists ls, _. rewrite dotted_last. split; [reflexivity|]. split; [exact F|]. split; [exact N|]. revert A. apply (proj1 (forall_iff _ _ _ alnum_spec)).
  - split; [exact N'|]. revert A'. apply (proj1 (forall_iff _ _ _ digit_spec)).
Qed.
Lemma endpoint_matched : forall h p, usable_host h -> port_number p -> exists c, matches endpoint_re (endpoint h p) (fun _ => None) c.
Proof.
  intros h p (ls & l & -> & F & N & A) [N' A']. change endpoint_re with the_re. unfold the_re, endpoint. rewrite dotted_last.
  destruct (labels_matched ls (fun _ => None) F) as (c' & M). eexists.
  eapply M_seq; [apply lit_matches; split; reflexivity|]. eapply M_seq; [apply M_group; eapply M_seq; [exact M|]|].
  - apply M_group. apply plus_matches. split; [split; [exact N|]|reflexivity]. revert A. apply (proj2 (forall_iff _ _ _ alnum_spec)).
  - eapply M_seq; [apply lit_matches; split; reflexivity|]. apply M_group. apply plus_matches. split; [split; [exact N'|]|reflexivity].
    revert A'. apply (proj2 (forall_iff _ _ _ digit_spec)).
Qed.

(** the host and the port of an endpoint are determined by it *)
Lemma no_colon_digits : forall p, port_number p -> ~ In ":"%byte p.
Proof. intros p [_ A] I. rewrite Forall_forall in A. apply A in I. vm_compute in I. intuition discriminate. Qed.
Lemma last_colon : forall (h h' p p' : list byte), ~ In ":"%byte p -> ~ In ":"%byte p' -> h ++ ":"%byte :: p = h' ++ ":"%byte :: p' -> h = h' /\ p = p'.
Proof.
  induction h as [|x h IH]; intros h' p p' H H' E.
  - destruct h' as [|y h']; cbn in E; [injection E as E2; auto|injection E as E1 E2]. exfalso. apply H. rewrite E2. apply in_or_app. right. left. reflexivity.
  - destruct h' as [|y h']; cbn in E; injection E as E1 E2.
    + exfalso. apply H'. rewrite <- E2. apply in_or_app. right. left. reflexivity.
    + destruct (IH _ _ _ H H' E2). subst. auto.
Qed.
Lemma endpoint_inj : forall h p h' p', port_number p -> port_number p' -> endpoint h p = endpoint h' p' -> h = h' /\ p = p'.
Proof.
  intros h p h' p' A A' E. unfold endpoint in E. apply app_inv_head in E. apply last_colon in E; auto using no_colon_digits.
Qed.

(** ** C74 *)
(** The claim is false: a host name whose last label has a dash gives no client, and the peer
    made for it dereferences a null pointer when it has to send. *)
Theorem C74_dash_refuted : exists h p, host_name h /\ port_number p /\ create_client (endpoint h p) = None /\ peer_send (endpoint h p) = NullPointer.
Proof.
  exists (text "raft-node"), (text "9001"). split; [|split; [|split; vm_compute; reflexivity]].
  - exists [text "raft-node"]. split; [discriminate|]. split; [reflexivity|]. intros l [<-|[]]. split.
    + split; [discriminate|]. unfold label_char, letter_or_digit. vm_compute. repeat (constructor; [solve [auto 80]|]). constructor.
    + unfold letter_or_digit. split; vm_compute; auto 70.
  - split; [discriminate|]. vm_compute. repeat (constructor; [solve [auto 20]|]). constructor.
Qed.

(** What holds, for every string: there is a client exactly for tcp://host:port with a host
    name without a dash in its last label, and it is a client for this host and this port. *)
Theorem C74_endpoint_partial : forall s h p,
  create_client s = Some (h, p) <-> s = endpoint h p /\ usable_host h /\ port_number p.
Proof.
  intros s h p. unfold create_client. destruct (regex_match endpoint_re s) as [c|] eqn:E.
  - apply regex_match_some in E. apply endpoint_matches in E. destruct E as (h' & p' & -> & U & P & C1 & C4).
    unfold capture. rewrite C1, C4. split.
    + intros X. injection X as <- <-. auto.
    + intros (X & _ & P'). apply endpoint_inj in X; auto. destruct X as [-> ->]. reflexivity.
  - split; [discriminate|]. intros (-> & U & P). destruct (endpoint_matched h p U P) as (c & M). exfalso. exact (regex_match_none _ _ E c M).
Qed.

(** so two endpoints with clients for the same host and port are the same *)
Theorem C74_one_endpoint_partial : forall s s' h p, create_client s = Some (h, p) -> create_client s' = Some (h, p) -> s = s'.
Proof. intros s s' h p H H'. apply C74_endpoint_partial in H. apply C74_endpoint_partial in H'. destruct H as [-> _], H' as [-> _]. reflexivity. Qed.

Example C74_example : usable_host (text "a-1.b.org") /\ port_number (text "9001") /\ create_client (endpoint (text "a-1.b.org") (text "9001")) = Some (text "a-1.b.org", text "9001").
Proof.
  assert (H : create_client (endpoint (text "a-1.b.org") (text "9001")) = Some (text "a-1.b.org", text "9001")) by (vm_compute; reflexivity).
  pose proof H as K. apply C74_endpoint_partial in K. tauto.
Qed.

Print Assumptions C74_dash_refuted.
Print Assumptions C74_endpoint_partial.
Print Assumptions C74_one_endpoint_partial.
