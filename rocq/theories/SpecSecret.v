(** Specification of what may depend on a secret key: programs that use the library with keys they cannot look into, and two worlds
    that differ in the keys but not in public keys and signatures. *)

From Verif Require Import Base Sha2 SpecText Hash C32 Clarity SpecWire Tx SpecTx Signer Builder Wallet Rpc Session.
Local Open Scope N_scope.

(** What keys are asked to sign (SIP-005): the hash of a transaction or of what was signed before, with the kind of signature, fee and
    nonce. *)
Definition to_sign (m : bytes) : Prop := exists h typ fee nonce, m = sha512_256 (h ++ typ :: big_endian 8 fee ++ big_endian 8 nonce).

(** An implementation of ECDSA and one of BIP-32, and the accounts a program has. *)
Record world := { wd_ecdsa : ecdsa; wd_hd : hd; wd_account : N -> account wd_hd }.
Definition secret (W : world) (i : N) : bytes := xprv_bytes (wd_hd W) (acc_ext (wd_account W i)).
Definition public (W : world) (i : N) : bytes := xpub_bytes (wd_hd W) (acc_ext (wd_account W i)).

(** Two worlds in which all accounts have the same public keys and sign alike what they are asked to sign. *)
Record twins (W W' : world) : Prop := {
  tw_public : forall i, public W' i = public W i;
  tw_key : forall i, pubkey_of (wd_ecdsa W') (secret W' i) = pubkey_of (wd_ecdsa W) (secret W i);
  tw_sign : forall i m, to_sign m -> sign_rec (wd_ecdsa W') m (secret W' i) = sign_rec (wd_ecdsa W) m (secret W i);
  tw_recover : forall m r, recover (wd_ecdsa W') m r = recover (wd_ecdsa W) m r
}.

(** Drafts with the sender filled in. *)
Definition transfer_from (sk : bytes) (d : stx_transfer) : stx_transfer :=
  {| st_recipient := st_recipient d; st_amount := st_amount d; st_sender := sk; st_network := st_network d; st_fee := st_fee d;
     st_nonce := st_nonce d; st_anchor := st_anchor d; st_memo := st_memo d; st_pcmode := st_pcmode d; st_conds := st_conds d;
     st_sponsored := st_sponsored d |}.
Definition call_from (sk : bytes) (d : stx_call) : stx_call :=
  {| cc_address := cc_address d; cc_contract := cc_contract d; cc_fname := cc_fname d; cc_args := cc_args d; cc_sender := sk;
     cc_network := cc_network d; cc_fee := cc_fee d; cc_nonce := cc_nonce d; cc_anchor := cc_anchor d; cc_pcmode := cc_pcmode d;
     cc_conds := cc_conds d; cc_sponsored := cc_sponsored d |}.

(** A program: what it does next may depend on everything it has learnt.  What needs neither keys nor the network, such as encoding,
    decoding, hashing, listing keys or setting fees, it does in between. *)
Inductive program (A : Type) : Type :=
| Return (a : A)
| Address (i : N) (v : c32_version) (k : option bytes -> program A)
| PublicKey (i : N) (k : bytes -> program A)
| BuildTransfer (i : N) (d : stx_transfer) (k : res unit tx -> program A)
| BuildCall (i : N) (d : stx_call) (k : res cl_err tx -> program A)
| NextSignature (i : N) (h : bytes) (typ : byte) (fee nonce : N) (k : res hash_err (bytes * bytes) -> program A)
| SignTx (i : N) (t : tx) (k : res tx_err tx -> program A)
| OriginSigns (i : N) (s : signer) (k : signer * res tx_err unit -> program A)
| SponsorSigns (i : N) (s : signer) (k : signer * res tx_err unit -> program A)
| NewSponsor (t : tx) (c : scond) (k : res tx_err signer -> program A)
| Verify (a : auth) (h : bytes) (k : res tx_err unit -> program A)
| VerifyOrigin (t : tx) (k : res tx_err bytes -> program A)
| Ask (url : bytes) (c : rpc_call) (k : rpc_answer -> program A).
Arguments Return {A}. Arguments Address {A}. Arguments PublicKey {A}. Arguments BuildTransfer {A}. Arguments BuildCall {A}.
Arguments NextSignature {A}. Arguments SignTx {A}. Arguments OriginSigns {A}. Arguments SponsorSigns {A}. Arguments NewSponsor {A}.
Arguments Verify {A}. Arguments VerifyOrigin {A}. Arguments Ask {A}.

(** Running it in a world, against a node: what becomes of the node, and what comes out. *)
Fixpoint run {S A} (W : world) (net : node S) (p : program A) (s : S) : S * A :=
  let E := wd_ecdsa W in
  match p with
  | Return a => (s, a)
  | Address i v k => run W net (k (match get_address (wd_account W i) v with Ok x => Some x | _ => None end)) s
  | PublicKey i k => run W net (k (pubkey_of E (secret W i))) s
  | BuildTransfer i d k => run W net (k (build_transfer E (transfer_from (secret W i) d))) s
  | BuildCall i d k => run W net (k (build_call E (call_from (secret W i) d))) s
  | NextSignature i h typ fee nonce k => run W net (k (next_signature E h typ fee nonce (secret W i))) s
  | SignTx i t k => run W net (k (tx_sign E t (secret W i))) s
  | OriginSigns i g k => run W net (k (sign_origin E g (secret W i))) s
  | SponsorSigns i g k => run W net (k (sign_sponsor E g (secret W i))) s
  | NewSponsor t c k => run W net (k (signer_new_sponsor E t c)) s
  | Verify a h k => run W net (k (auth_verify E a h)) s
  | VerifyOrigin t k => run W net (k (tx_verify_origin E t)) s
  | Ask url c k => let '(s1, x) := make_call net url c s in run W net (k x) s1
  end.
