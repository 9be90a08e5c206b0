(** Specification of what a key risks that signs as origin, whatever transactions: built by the library's builders or by hand,
    standard or sponsored, for its own account or another. *)

From Verif Require Import Base Sha2 SpecText Hash Clarity SpecWire Tx SpecTx Signer Builder SpecSign SpecNode SpecCharge SpecCond SpecLedger SpecShare SpecLoss.
Local Open Scope N_scope.

(** What the origin pays for the transaction itself: nothing if it leaves that to a sponsor. *)
Definition own_fee (t : tx) : N := match tx_auth t with AStandard o => fee_of o | ASponsored _ _ => 0 end.

(** The transaction takes no more than this from [me] when [me] is its origin. *)
Inductive outlay (me : wval) (t : tx) : N -> Prop :=
| outlay_transfer to amount memo : tx_payload t = PTransfer to amount memo -> outlay me t (amount + own_fee t)
| outlay_condition addr k c : is_call (tx_payload t) -> In (CondSTX addr k c) (tx_conds t) -> means addr me -> In c [CcEQ; CcLT; CcLTE] -> outlay me t (k + own_fee t)
| outlay_silence : is_call (tx_payload t) -> tx_pcmode t = PcDeny -> (forall addr k c, In (CondSTX addr k c) (tx_conds t) -> ~ means addr me) -> outlay me t (own_fee t).

(** A transaction that fits the wire, and what it takes. *)
Definition bill := (tx * N)%type.
Definition sound_bill (me : wval) (b : bill) : Prop := outlay me (fst b) (snd b) /\ exists v, tx_means (fst b) v /\ wf_tx v.
Definition total (l : list bill) : N := fold_right (fun b k => snd b + k) 0 l.
Fixpoint in_order (k : N) (l : list bill) : Prop := match l with [] => True | b :: r => nonce_of (origin_of (fst b)) = k /\ in_order (k + 1) r end.

(** What is hashed for the message that an origin with one key signs (SIP-005). *)
Definition signing (t : tx) (x : bytes) : Prop :=
  exists v, tx_means t v /\ wf_tx v /\ x = message_text (sha512_256 (ser_tx (clear_tx v))) x04 (fee_of (origin_of t)) (nonce_of (origin_of t)).

(** Among the transactions [es], every signature by the key is of the message it signs for one of these. *)
Definition only_signed (E : ecdsa) (sk : bytes) (bs : list bill) (es : list bytes) : Prop := forall w typ h mode signer nonce fee sig,
  In (ser_tx w) es -> wf_tx w -> speaks E w typ h (WsSingle mode signer nonce fee sig) -> recovers E (digest h typ fee nonce) sig (pubkey_of E sk) ->
  exists b x, In b bs /\ signing (fst b) x /\ digest h typ fee nonce = sha512_256 x.

(** Two different texts with one hash are in view: of the key, or of what was signed. *)
Definition coincidence (E : ecdsa) (sk : bytes) (bs : list bill) (es : list bytes) : Prop := exists w, In (ser_tx w) es /\ wf_tx w
  /\ ((exists typ h c y, speaks E w typ h c /\ opens E typ h c y /\ clash hash20 y (pubkey_of E sk))
      \/ exists b v x y, In b bs /\ tx_means (fst b) v /\ wf_tx v /\ hashed E w x
           /\ (y = ser_tx (clear_tx v) \/ signing (fst b) y) /\ clash sha512_256 x y).

(** The transaction [e] is [t] but for what its signature says and who sponsors it. *)
Definition stems (t : tx) (e : bytes) : Prop := exists v w, tx_means t v /\ wf_tx v /\ wf_tx w /\ e = ser_tx w /\ clear_tx w = clear_tx v
  /\ fee_in (worigin w) = fee_of (origin_of t) /\ nonce_in (worigin w) = nonce_of (origin_of t).

(** The key has not signed as the sponsor. *)
Definition not_sponsor (E : ecdsa) (sk : bytes) (e : bytes) : Prop := forall w h mode signer nonce fee sig, e = ser_tx w -> wf_tx w ->
  speaks E w x05 h (WsSingle mode signer nonce fee sig) -> ~ recovers E (digest h x05 fee nonce) sig (pubkey_of E sk).
