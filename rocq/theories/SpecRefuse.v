(** Signing one step, as plain record updates. *)

From Verif Require Import Base Hash Tx SpecTx SpecSign.
Local Open Scope N_scope.

(** The condition with one more signature; single-signature conditions hold one. *)
Definition with_signature (c : scond) (sig : bytes) : scond :=
  match c with
  | SStd s => SStd (with_sig s sig)
  | SMulti m => SMulti (with_fields m (ms_fields m ++ [FSig sig]))
  end.

(** What key [sk] signs for condition [c] on top of [h]: kind [typ], fee and nonce of the condition. *)
Definition fresh_signature (E : ecdsa) (h : bytes) (typ : byte) (c : scond) (sk : bytes) : bytes :=
  sig_bytes (sign_rec E (digest h typ (fee_of c) (nonce_of c)) sk).

(** The transaction with another origin, or another sponsor. *)
Definition auth_becomes (t : tx) (a : auth) : tx :=
  {| tx_ver := tx_ver t; tx_chain := tx_chain t; tx_auth := a; tx_anchor := tx_anchor t; tx_pcmode := tx_pcmode t;
     tx_conds := tx_conds t; tx_payload := tx_payload t |}.
Definition origin_becomes (t : tx) (o : scond) : tx :=
  auth_becomes t match sponsor_of t with None => AStandard o | Some p => ASponsored o p end.
Definition sponsor_becomes (t : tx) (p : scond) : tx := auth_becomes t (ASponsored (origin_of t) p).
