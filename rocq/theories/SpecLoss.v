(** Specification of what an account can lose when nobody forges signatures: every signature of its key that the ledger has taken is
    of a message the key was asked to sign.  On the wire format; of the library's code only that transfers are sent as in SpecLedger.v. *)

From Verif Require Import Base Sha2 SpecText Hash Clarity SpecWire Tx SpecTx Signer Builder SpecSign SpecNode SpecCharge SpecLedger SpecShare.
Local Open Scope N_scope.

(** The message that the key signs for a transfer. *)
Definition asked (E : ecdsa) (b : stx_transfer) (m : bytes) : Prop :=
  exists v, wf_tx v /\ sends E b (ser_tx v) /\ m = digest (sha512_256 (ser_tx (clear_tx v))) x04 (fee_in (worigin v)) (nonce_in (worigin v)).

(** Among the transactions [es], every signature by the key is of a message asked for one of the transfers [bs]. *)
Definition unforged (E : ecdsa) (sk : bytes) (bs : list stx_transfer) (es : list bytes) : Prop := forall w typ h mode signer nonce fee sig,
  In (ser_tx w) es -> wf_tx w -> speaks E w typ h (WsSingle mode signer nonce fee sig) ->
  recovers E (digest h typ fee nonce) sig (pubkey_of E sk) -> exists b, In b bs /\ asked E b (digest h typ fee nonce).

(** What is hashed with SHA-512/256 before the signatures of a transaction. *)
Definition hashed (E : ecdsa) (w : wtx) (x : bytes) : Prop :=
  x = ser_tx (clear_tx w) \/ exists typ h c, speaks E w typ h c /\ x = message_text h typ (fee_in c) (nonce_in c).

(** Two different texts with one hash are in view: of the key, or of what was signed. *)
Definition coincides (E : ecdsa) (sk : bytes) (bs : list stx_transfer) (es : list bytes) : Prop := exists w, In (ser_tx w) es /\ wf_tx w
  /\ ((exists typ h c y, speaks E w typ h c /\ opens E typ h c y /\ clash hash20 y (pubkey_of E sk))
      \/ exists b v x y, In b bs /\ sends E b (ser_tx v) /\ hashed E w x /\ hashed E v y /\ clash sha512_256 x y).

(** One of the transfers as it was sent, but for what its signature says. *)
Definition resent (E : ecdsa) (bs : list stx_transfer) (e : bytes) : Prop := exists b v w, In b bs /\ wf_tx v /\ sends E b (ser_tx v)
  /\ wf_tx w /\ e = ser_tx w /\ clear_tx w = clear_tx v /\ fee_in (worigin w) = fee_in (worigin v) /\ nonce_in (worigin w) = nonce_in (worigin v).
