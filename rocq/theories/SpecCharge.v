(** Specification of the account a transaction spends from, as nodes derive it from the bytes (SIP-005, "Transaction
    authorization": the hash mode selects the address version).  Over SpecNode.v; nothing of the library's code. *)

From Verif Require Import Base Sha2 SpecText SpecWire SpecAddr C32 Hash Tx SpecTx Builder SpecSign SpecNode.
Local Open Scope N_scope.

(** P2PKH conditions belong to single-signature addresses, all others to multi-signature addresses. *)
Definition charged_version (n : network) (mode : byte) : byte :=
  match n, mode with
  | NetMainnet, x00 => x16
  | NetMainnet, _ => x14
  | _, x00 => x1a
  | _, _ => x15
  end.
Definition mode_of (c : wspend) : byte := match c with WsSingle mode _ _ _ _ | WsMulti mode _ _ _ _ _ => mode end.
Definition signer_of (c : wspend) : bytes := match c with WsSingle _ signer _ _ _ | WsMulti _ signer _ _ _ _ => signer end.

(** The origin of an authorization. *)
Definition worigin (w : wtx) : wspend := match w_auth w with WaStandard o | WaSponsored o _ => o end.

(** The text that the condition shows to open the hash in its address. *)
Inductive opens (E : ecdsa) (typ : byte) (h : bytes) : wspend -> bytes -> Prop :=
| opens_key signer nonce fee sig pk : recovers E (digest h typ fee nonce) sig pk ->
    opens E typ h (WsSingle x00 signer nonce fee sig) pk
| opens_witness_key signer nonce fee sig pk : recovers E (digest h typ fee nonce) sig pk ->
    opens E typ h (WsSingle x02 signer nonce fee sig) (x00 :: x14 :: hash20 pk)
| opens_script signer nonce fee fields required ks h' : walk E typ fee nonce h fields ks required h' ->
    opens E typ h (WsMulti x01 signer nonce fee fields required) (node_script required ks)
| opens_witness_script signer nonce fee fields required ks h' : walk E typ fee nonce h fields ks required h' ->
    opens E typ h (WsMulti x03 signer nonce fee fields required) (x00 :: x20 :: sha256 (node_script required ks)).

(** A node of network [n] accepts the bytes as the transaction [w], spending from the address [s]. *)
Definition charges (E : ecdsa) (n : network) (w : wtx) (s : bytes) : Prop :=
  wf_tx w /\ node_network n w /\ node_auth E (sha512_256 (ser_tx (clear_tx w))) (w_auth w)
  /\ address_text (signer_of (worigin w)) (charged_version n (mode_of (worigin w))) s.

(** The kind of address that belongs to one key on a network. *)
Definition single_version (n : network) : c32_version := match n with NetMainnet => MainnetP2PKH | _ => TestnetP2PKH end.
Definition multi_version (n : network) : c32_version := match n with NetMainnet => MainnetP2SH | _ => TestnetP2SH end.
