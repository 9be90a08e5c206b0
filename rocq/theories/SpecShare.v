(** Specification of shared accounts: the account of a list of keys and a threshold, and what it takes to act for it.  Over the
    node's side (SpecNode.v) and its ledger (SpecLedger.v); nothing of the library's code. *)

From Verif Require Import Base Sha2 SpecText SpecWire Hash C32 Tx SpecTx Builder SpecSign SpecNode SpecCharge SpecLedger.
Local Open Scope N_scope.

(** The text whose hash is in the address of [m] of [ks]. *)
Definition own_text (mode : hmode) (m : N) (ks : list bytes) : bytes :=
  match mode with P2WSH => witness_program (script m ks) | _ => script m ks end.

(** [c] is a condition of the transaction [w], as its origin or its sponsor, and speaks for the hash [h]. *)
Definition speaks (E : ecdsa) (w : wtx) (typ : byte) (h : bytes) (c : wspend) : Prop :=
  typ = x04 /\ h = sha512_256 (ser_tx (clear_tx w)) /\ c = worigin w
  \/ typ = x05 /\ exists o, w_auth w = WaSponsored o c /\ node_spend E x04 (sha512_256 (ser_tx (clear_tx w))) o h.

(** The owners' keys in their order, exactly [m] of them with a signature over the transaction, each on top of the ones before. *)
Definition approved (E : ecdsa) (typ : byte) (h : bytes) (c : wspend) (m : N) (ks : list bytes) : Prop :=
  exists mode signer nonce fee fields h', c = WsMulti mode signer nonce fee fields m /\ walk E typ fee nonce h fields ks m h'.

(** Someone knows another text for the address: one with the same hash, or a script with the same SHA-256. *)
Definition forged (E : ecdsa) (typ : byte) (h : bytes) (c : wspend) (mode : hmode) (m : N) (ks : list bytes) : Prop :=
  (exists y, opens E typ h c y /\ clash hash20 y (own_text mode m ks))
  \/ exists signer nonce fee fields required ks' h', c = WsMulti x03 signer nonce fee fields required
       /\ walk E typ fee nonce h fields ks' required h' /\ clash sha256 (node_script required ks') (script m ks).
