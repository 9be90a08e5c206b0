(** Specification for replaced signatures: which signature of a condition is replaced, and what it would take for the
    replacement to go unnoticed.  Over SpecSign.v, SpecBind.v and SpecCurve.v. *)

From Verif Require Import Base SpecText SpecWire Hash Tx SpecTx SpecSign SpecBind Secp SpecCurve.
Local Open Scope N_scope.

(** [c'] is [c] with one signature replaced by its twin; [after] is what is listed after that signature. *)
Inductive twinned : scond -> list auth_field -> scond -> Prop :=
| twinned_single s g : compact_form g -> std_sig s = sig_bytes g ->
    twinned (SStd s) [] (SStd (with_sig s (sig_bytes (twin g))))
| twinned_multi m before g after : compact_form g -> ms_fields m = before ++ FSig (sig_bytes g) :: after ->
    twinned (SMulti m) after (SMulti (with_fields m (before ++ FSig (sig_bytes (twin g)) :: after))).

(** Two lists of signatures agree at a place where ECDSA is asked about two digests that it cannot tell apart. *)
Definition chain_clash (typ : byte) (f n : N) (h : bytes) (sigs sigs' : list bytes) : Prop :=
  exists a s b a' b', sigs = a ++ s :: b /\ sigs' = a' ++ s :: b' /\ length a = length a'
    /\ digest_clash (digest (hash_after typ f n h a) typ f n) (digest (hash_after typ f n h a') typ f n).

(** What makes both of two conditions with the same terms verify although the signatures differ before the last one:
    SHA-512/256 collisions, digests equal modulo the group order, or two key lists with one address. *)
Definition unnoticed (E : ecdsa) (typ : byte) (h : bytes) (c c' : scond) : Prop :=
  chain_collision typ (fee_of c) (nonce_of c) h (signatures c) (fee_of c) (nonce_of c) h (signatures c')
  \/ chain_clash typ (fee_of c) (nonce_of c) h (signatures c) (signatures c')
  \/ key_swap E typ h c h c'.

(** The same for a sponsor [p] over two origins. *)
Definition unnoticed_by_sponsor (E : ecdsa) (h : bytes) (o o' p : scond) : Prop :=
  let h1 := hash_after x04 (fee_of o) (nonce_of o) h (signatures o) in
  let h1' := hash_after x04 (fee_of o') (nonce_of o') h (signatures o') in
  chain_collision x04 (fee_of o) (nonce_of o) h (signatures o) (fee_of o') (nonce_of o') h (signatures o')
  \/ collision (first_message h1 x05 p) (first_message h1' x05 p)
  \/ digest_clash (first_digest h1 x05 p) (first_digest h1' x05 p)
  \/ key_swap E x05 h1 p h1' p.

(** [c'] is [c] with a signature replaced by the key [pk] alone. *)
Definition unsigned_at (m : sc_multi) (before : list auth_field) (sig pk : bytes) (after : list auth_field) (m' : sc_multi) : Prop :=
  ms_fields m = before ++ FSig sig :: after /\ m' = with_fields m (before ++ FPk pk :: after).
