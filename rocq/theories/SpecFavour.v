(** Specification of what a key risks that signs as sponsor only: histories in which every signature of the key is one given for a
    sponsored transaction. *)

From Verif Require Import Base Sha2 SpecText Hash Clarity SpecWire Tx SpecTx Signer Builder SpecSign SpecNode SpecCharge SpecLedger SpecShare SpecLoss.
Local Open Scope N_scope.

(** A transaction that someone else has signed, and the sponsor's condition for it: fee and nonce. *)
Definition favour := (tx * scond)%type.
Definition sound_favour (f : favour) : Prop := typed (origin_of (fst f)) /\ fee_of (snd f) < 2 ^ 64 /\ nonce_of (snd f) < 2 ^ 64.
Definition fees (l : list favour) : N := fold_right (fun f k => fee_of (snd f) + k) 0 l.
Fixpoint queued (k : N) (l : list favour) : Prop := match l with [] => True | f :: r => nonce_of (snd f) = k /\ queued (k + 1) r end.

(** What is hashed for the message that the sponsor signs. *)
Definition sealing (E : ecdsa) (f : favour) (x : bytes) : Prop :=
  exists s, signer_new_sponsor E (fst f) (snd f) = Ok s /\ x = message_text (sg_hash s) x05 (fee_of (snd f)) (nonce_of (snd f)).

(** Among the transactions [es], every signature by the key is of the message it signs for one of the favours. *)
Definition only_sponsors (E : ecdsa) (sk : bytes) (fs : list favour) (es : list bytes) : Prop := forall w typ h mode signer nonce fee sig,
  In (ser_tx w) es -> wf_tx w -> speaks E w typ h (WsSingle mode signer nonce fee sig) -> recovers E (digest h typ fee nonce) sig (pubkey_of E sk) ->
  exists f x, In f fs /\ sealing E f x /\ digest h typ fee nonce = sha512_256 x.

(** Two different texts with one hash are in view: of the key, or of what was signed. *)
Definition meets (E : ecdsa) (sk : bytes) (fs : list favour) (es : list bytes) : Prop := exists w, In (ser_tx w) es /\ wf_tx w
  /\ ((exists typ h c y, speaks E w typ h c /\ opens E typ h c y /\ clash hash20 y (pubkey_of E sk))
      \/ exists f x y, In f fs /\ sealing E f y /\ hashed E w x /\ clash sha512_256 x y).

(** The bytes that come of a favour: sponsored, signed with the key, encoded. *)
Definition served (E : ecdsa) (sk : bytes) (f : favour) (e : bytes) : Prop :=
  exists s s' w, signer_new_sponsor E (fst f) (snd f) = Ok s /\ sign_sponsor E s sk = (s', Ok tt) /\ tx_means (sg_tx s') w /\ wf_tx w /\ enc_tx (sg_tx s') = Ok e.

(** The key has not signed as the origin. *)
Definition not_origin (E : ecdsa) (sk : bytes) (e : bytes) : Prop := forall w mode signer nonce fee sig, e = ser_tx w -> wf_tx w ->
  worigin w = WsSingle mode signer nonce fee sig -> ~ recovers E (digest (sha512_256 (ser_tx (clear_tx w))) x04 fee nonce) sig (pubkey_of E sk).
