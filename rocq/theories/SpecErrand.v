(** Specification of what an account that transfers and calls can lose when nobody forges signatures.  Like SpecLoss.v, with calls
    of contracts beside the transfers. *)

From Verif Require Import Base Sha2 SpecText Hash Clarity SpecWire Tx SpecTx Signer Builder SpecSign SpecNode SpecCharge SpecLedger SpecShare SpecInvoke SpecLoss.
Local Open Scope N_scope.

(** What a key is asked for: a transfer, or a call with its nonce that lets the contract take no more than [limit] from the caller. *)
Inductive order := Transfer (b : stx_transfer) | Call (d : stx_call) (nonce limit : N).
Definition nonce_of (o : order) : N := match o with Transfer b => st_nonce b | Call _ nonce _ => nonce end.
Definition cost (o : order) : N := match o with Transfer b => st_amount b + st_fee b | Call d _ limit => limit + cc_fee d end.
Definition costs (l : list order) : N := fold_right (fun o k => cost o + k) 0 l.

(** The order fits the wire, and a call limits what the caller may lose. *)
Definition sound_order (E : ecdsa) (n : network) (sk : bytes) (o : order) : Prop :=
  match o with
  | Transfer b => exists to, sound_transfer E n sk b to
  | Call d nonce limit => sound_call d /\ nonce < 2 ^ 64 /\ limited d (key_account E n sk) (key_account E n sk) limit
  end.

(** The bytes that come of it: built, signed with the key, encoded. *)
Definition becomes (E : ecdsa) (n : network) (sk : bytes) (o : order) (e : bytes) : Prop :=
  match o with
  | Transfer b => sends E b e
  | Call d nonce _ => calls E (invocation n sk nonce d) e
  end.

(** The orders use the nonces from [k] on, one after the other. *)
Fixpoint numbered (k : N) (l : list order) : Prop := match l with [] => True | o :: r => nonce_of o = k /\ numbered (k + 1) r end.

(** Among the transactions [es], every signature by the key is of the message it signs for one of the orders [os]. *)
Definition only_ordered (E : ecdsa) (n : network) (sk : bytes) (os : list order) (es : list bytes) : Prop := forall w typ h mode signer nonce fee sig,
  In (ser_tx w) es -> wf_tx w -> speaks E w typ h (WsSingle mode signer nonce fee sig) -> recovers E (digest h typ fee nonce) sig (pubkey_of E sk) ->
  exists o v, In o os /\ wf_tx v /\ becomes E n sk o (ser_tx v)
    /\ digest h typ fee nonce = digest (sha512_256 (ser_tx (clear_tx v))) x04 (fee_in (worigin v)) (nonce_in (worigin v)).

(** Two different texts with one hash are in view: of the key, or of what was signed. *)
Definition collides (E : ecdsa) (n : network) (sk : bytes) (os : list order) (es : list bytes) : Prop := exists w, In (ser_tx w) es /\ wf_tx w
  /\ ((exists typ h c y, speaks E w typ h c /\ opens E typ h c y /\ clash hash20 y (pubkey_of E sk))
      \/ exists o v x y, In o os /\ becomes E n sk o (ser_tx v) /\ hashed E w x /\ hashed E v y /\ clash sha512_256 x y).

(** The transaction [e] is [e'] but for what its signature says. *)
Definition varies (e e' : bytes) : Prop := exists v w, wf_tx v /\ wf_tx w /\ e = ser_tx w /\ e' = ser_tx v
  /\ clear_tx w = clear_tx v /\ fee_in (worigin w) = fee_in (worigin v) /\ nonce_in (worigin w) = nonce_in (worigin v).
