(** Specification of what a run of a program asks of its accounts' keys. *)

From Verif Require Import Base Sha2 SpecText Hash C32 Clarity SpecWire Tx SpecTx Signer Builder Wallet Rpc Session SpecSign SpecNode SpecLedger SpecLoss SpecShare SpecSecret SpecBill.
Local Open Scope N_scope.

(** To sign a transaction as its origin, or to sign a hash with the kind of signature, fee and nonce. *)
Inductive request := SignsTx (t : tx) | SignsAs (h : bytes) (typ : byte) (fee nonce : N).

(** What is hashed for the message the key then signs (SIP-005). *)
Definition text_of (r : request) (x : bytes) : Prop := match r with
  | SignsTx t => exists v, tx_means t v /\ x = message_text (sha512_256 (ser_tx (clear_tx v))) x04 (fee_of (origin_of t)) (nonce_of (origin_of t))
  | SignsAs h typ fee nonce => x = message_text h typ fee nonce
  end.

(** In a run: which account is asked for what, in order. *)
Fixpoint requests {S A} (W : world) (net : node S) (p : program A) (s : S) : list (N * request) :=
  let E := wd_ecdsa W in
  match p with
  | Return a => []
  | Address i v k => requests W net (k (match get_address (wd_account W i) v with Ok x => Some x | _ => None end)) s
  | PublicKey i k => requests W net (k (pubkey_of E (secret W i))) s
  | BuildTransfer i d k => requests W net (k (build_transfer E (transfer_from (secret W i) d))) s
  | BuildCall i d k => requests W net (k (build_call E (call_from (secret W i) d))) s
  | NextSignature i h typ fee nonce k => (i, SignsAs h typ fee nonce) :: requests W net (k (next_signature E h typ fee nonce (secret W i))) s
  | SignTx i t k => (i, SignsTx t) :: requests W net (k (tx_sign E t (secret W i))) s
  | OriginSigns i g k => let o := origin_of (sg_tx g) in
      (i, SignsAs (sg_hash g) x04 (fee_of o) (nonce_of o)) :: requests W net (k (sign_origin E g (secret W i))) s
  | SponsorSigns i g k =>
      match tx_auth (sg_tx g) with ASponsored _ q => [(i, SignsAs (sg_hash g) x05 (fee_of q) (nonce_of q))] | AStandard _ => [] end
        ++ requests W net (k (sign_sponsor E g (secret W i))) s
  | NewSponsor t c k => requests W net (k (signer_new_sponsor E t c)) s
  | Verify a h k => requests W net (k (auth_verify E a h)) s
  | VerifyOrigin t k => requests W net (k (tx_verify_origin E t)) s
  | Ask url c k => let '(s1, x) := make_call net url c s in requests W net (k x) s1
  end.

(** Another world with the same public keys, in which the accounts sign alike what the run asks them to sign; what else they would
    sign, and how, is open. *)
Record twins_for (rs : list (N * request)) (W W' : world) : Prop := {
  tf_public : forall i, public W' i = public W i;
  tf_key : forall i, pubkey_of (wd_ecdsa W') (secret W' i) = pubkey_of (wd_ecdsa W) (secret W i);
  tf_sign : forall i r x, In (i, r) rs -> text_of r x -> sign_rec (wd_ecdsa W') (sha512_256 x) (secret W' i) = sign_rec (wd_ecdsa W) (sha512_256 x) (secret W i);
  tf_recover : forall m r, recover (wd_ecdsa W') m r = recover (wd_ecdsa W) m r
}.

(** Among the transactions [es], every signature by account [i]'s key is of a message the run asked it to sign. *)
Definition from_run (W : world) (i : N) (rs : list (N * request)) (es : list bytes) : Prop := forall w typ h mode signer nonce fee sig,
  In (ser_tx w) es -> wf_tx w -> speaks (wd_ecdsa W) w typ h (WsSingle mode signer nonce fee sig) ->
  recovers (wd_ecdsa W) (digest h typ fee nonce) sig (pubkey_of (wd_ecdsa W) (secret W i)) ->
  exists r x, In (i, r) rs /\ text_of r x /\ digest h typ fee nonce = sha512_256 x.

(** All that is asked of account [i] is to sign these transactions. *)
Definition asks_for (i : N) (bs : list bill) (rs : list (N * request)) : Prop := forall r, In (i, r) rs -> exists b, In b bs /\ r = SignsTx (fst b).
