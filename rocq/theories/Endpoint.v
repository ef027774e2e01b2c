(** * Endpoint: how an endpoint string becomes a client

    src/asio_service.cxx:746-760 (create_client) matches the endpoint against a regular
    expression with std::regex_match.  The matcher is modelled by its specification
    (ECMAScript 15.10.2): it tries the alternatives in a fixed order (as many repetitions
    as possible first, no empty repetition) and takes the first way that uses up the
    whole string; a group captures what its last match covered.  With regex_match the
    anchors ^ and $ of the expression are always met, so they are left out.
    Simplification: the locale is "C"; groups inside a repetition are not reset (only
    groups 1 and 4 are used). *)

From Coq Require Import Arith.
From Coq Require String.
From Verif Require Import Base.
Import String.StringSyntax.
Notation string := String.string.
Local Open Scope string_scope.
Local Open Scope list_scope.

Inductive re :=
| Char (f : byte -> bool)
| Empty
| Seq (a b : re)
| Star (a : re)
| Group (n : nat) (a : re).

(** what the groups have captured *)
Definition caps := nat -> option (list byte).
Definition set_cap (n : nat) (v : list byte) (c : caps) : caps := fun m => if Nat.eqb m n then Some v else c m.

(** All ways to match a prefix of [s], in the order in which they are tried: the captures
    and what is left of [s]. *)
Fixpoint star (f : caps -> list byte -> list (caps * list byte)) (fuel : nat) (c : caps) (s : list byte)
  : list (caps * list byte) :=
  match fuel with
  | O => [(c, s)]
  | S k => flat_map (fun x => if Nat.ltb (length (snd x)) (length s) then star f k (fst x) (snd x) else []) (f c s) ++ [(c, s)]
  end.
Fixpoint ways (r : re) (c : caps) (s : list byte) : list (caps * list byte) :=
  match r with
  | Char f => match s with x :: s' => if f x then [(c, s')] else [] | [] => [] end
  | Empty => [(c, s)]
  | Seq a b => flat_map (fun x => ways b (fst x) (snd x)) (ways a c s)
  | Star a => star (ways a) (length s) c s
  | Group n a => map (fun x => (set_cap n (firstn (length s - length (snd x)) s) (fst x), snd x)) (ways a c s)
  end.

Definition is_nil {A} (l : list A) : bool := match l with [] => true | _ => false end.
(** std::regex_match *)
Definition regex_match (r : re) (s : list byte) : option caps :=
  match find (fun x => is_nil (snd x)) (ways r (fun _ => None) s) with
  | Some (c, _) => Some c
  | None => None
  end.

(** [+] *)
Definition plus (r : re) : re := Seq r (Star r).
Definition text (s : string) : list byte := String.list_byte_of_string s.
Definition lit (s : string) : re := fold_right (fun b r => Seq (Char (Byte.eqb b)) r) Empty (text s).

Definition between (a b x : byte) : bool := (Byte.to_N a <=? Byte.to_N x)%N && (Byte.to_N x <=? Byte.to_N b)%N.
(** [0-9], [a-zA-Z0-9], [a-zA-Z0-9\-] *)
Definition digit (x : byte) : bool := between "0"%byte "9"%byte x.
Definition alnum (x : byte) : bool := between "a"%byte "z"%byte x || between "A"%byte "Z"%byte x || digit x.
Definition alnum_or_dash (x : byte) : bool := alnum x || Byte.eqb x "-"%byte.

(** src/asio_service.cxx:750:
    ^tcp://(([a-zA-Z0-9\-]+\.)*([a-zA-Z0-9]+)):([0-9]+)$ *)
Definition endpoint_re : re :=
  Seq (lit "tcp://")
    (Seq (Group 1 (Seq (Star (Group 2 (Seq (plus (Char alnum_or_dash)) (lit "."))))
                       (Group 3 (plus (Char alnum)))))
       (Seq (lit ":") (Group 4 (plus (Char digit))))).

(** src/asio_service.cxx:746-760: the host and the port of the client, or a null pointer.
    ssub_match::str() of a group that took no part in the match is empty. *)
Definition capture (c : caps) (n : nat) : list byte := match c n with Some v => v | None => [] end.
Definition create_client (endpoint : list byte) : option (list byte * list byte) :=
  match regex_match endpoint_re endpoint with
  | Some c => Some (capture c 1, capture c 4)
  | None => None
  end.

Example endpoint_example : create_client (text "tcp://a-1.b.org:9001") = Some (text "a-1.b.org", text "9001").
Proof. vm_compute. reflexivity. Qed.

(** What a peer does with it: include/peer.hxx:31 keeps the client, src/peer.cxx:25 calls
    it without looking. *)
Inductive attempt := Connects (host port : list byte) | NullPointer.
Definition peer_send (endpoint : list byte) : attempt :=
  match create_client endpoint with Some (h, p) => Connects h p | None => NullPointer end.
