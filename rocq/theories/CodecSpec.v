(** * Specification vocabulary for the serializers

    The byte formats of the serialized objects, written down independently of
    the serializers, and the values that can be represented. *)

From Verif Require Import Base BufferSpec Codec.
Local Open Scope N_scope.

(** little-endian two's complement *)
Definition int_b (z : Z) : list byte := le 4 (Z.to_N (z mod 4294967296)).
Definition srv_bytes (s : srv_config) : list byte := int_b (sc_id s) ++ sc_endpoint s ++ [x00].
Definition servers_bytes (l : list srv_config) : list byte := concat (map srv_bytes l).
Definition cfg_bytes (c : cluster_config) : list byte :=
  le 8 (cc_log_idx c) ++ le 8 (cc_prev_log_idx c) ++ int_b (Z.of_nat (length (cc_servers c)))
  ++ servers_bytes (cc_servers c).
Definition snp_bytes (s : snapshot) : list byte :=
  le 8 (sn_last_log_idx s) ++ le 8 (sn_last_log_term s) ++ le 8 (sn_size s) ++ cfg_bytes (sn_config s).
Definition sync_bytes (s : snapshot) (off : N) (done : bool) (data : list byte) : list byte :=
  snp_bytes s ++ le 8 off ++ [if done then x01 else x00] ++ data.
Definition entry_bytes (term : N) (t : byte) (payload : list byte) : list byte :=
  le 8 term ++ [t] ++ payload.


(** ids are int32, indexes and terms 64-bit, endpoints non-empty C strings *)
Definition srv_ok (s : srv_config) : Prop :=
  is_int32 (sc_id s) /\ sc_endpoint s <> [] /\ no_nul (sc_endpoint s).

Definition cfg_ok (c : cluster_config) : Prop :=
  is_ulong (cc_log_idx c) /\ is_ulong (cc_prev_log_idx c) /\ Forall srv_ok (cc_servers c).

Definition snp_ok (s : snapshot) : Prop :=
  is_ulong (sn_last_log_idx s) /\ is_ulong (sn_last_log_term s) /\ is_ulong (sn_size s) /\ cfg_ok (sn_config s).

