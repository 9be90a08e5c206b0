(** Specification of calling a contract through a node: a program that takes an account of a wallet, asks a node for the account's
    nonce, builds a call with it, signs it and broadcasts it.  Nodes keep a ledger as in SpecLedger.v and SpecPay.v; what the
    contract does is up to it. *)

From Coq Require Import Strings.String.
From Verif Require Import Base SpecText SpecAddr Hash C32 Clarity SpecWire Tx SpecTx Signer Builder Wallet SpecSign SpecNode SpecCharge SpecCond SpecFlow SpecLedger
     Rpc SpecClient Session SpecPay.
Local Open Scope N_scope.

(** The call that a draft becomes with sender, network and nonce filled in. *)
Definition invocation (n : network) (sk : bytes) (nonce : N) (d : stx_call) : stx_call :=
  {| cc_address := cc_address d; cc_contract := cc_contract d; cc_fname := cc_fname d; cc_args := cc_args d; cc_sender := sk; cc_network := n;
     cc_fee := cc_fee d; cc_nonce := nonce; cc_anchor := cc_anchor d; cc_pcmode := cc_pcmode d; cc_conds := cc_conds d;
     cc_sponsored := cc_sponsored d |}.

(** A draft that fits the wire. *)
Definition sound_call (d : stx_call) : Prop :=
  cc_sponsored d = false /\ (exists wcs, conds_wire (cc_conds d) wcs) /\ (exists h v, address_spelling h v (cc_address d) /\ length h = 20%nat)
  /\ count (cc_contract d) <= 128 /\ count (cc_fname d) <= 128
  /\ (exists args, Forall2 means (cc_args d) args /\ Forall solid args /\ count args < 2 ^ 32) /\ cc_fee d < 2 ^ 64.

(** The bytes that come of a call: built, signed with the sender's key, encoded. *)
Definition calls (E : ecdsa) (b : stx_call) (e : bytes) : Prop :=
  exists t s s', build_call E b = Ok t /\ signer_new t = Ok s /\ succeeds E s [SignOrigin (cc_sender b)] s' /\ enc_tx (sg_tx s') = Ok e.

(** The program gets as far as its broadcast, which returns [r].  It moves the node from [s] to [s']. *)
Definition invokes {S H} (E : ecdsa) (n : network) (net : node S) (url : bytes) (a : account H) (d : stx_call) (s s' : S)
    (r : res rpc_err broadcast_resp) : Prop :=
  exists addr sk info s1 t t', get_address a (single_version n) = Ok addr /\ account_private_key a = Ok sk
    /\ address_in net url addr s = (s1, Ok info) /\ build_call E (invocation n sk (ad_nonce info) d) = Ok t
    /\ tx_sign E t sk = Ok t' /\ broadcast_in net url t' s1 = (s', r).
Definition outcome_of_call {H} (E : ecdsa) (n : network) (a : account H) (d : stx_call) (e : bytes) : Prop :=
  exists sk nonce, account_private_key a = Ok sk /\ nonce < 2 ^ 64 /\ calls E (invocation n sk nonce d) e.

(** The draft lets the contract take no more than [k] from [who], when [me] calls: by a condition on the amount, by saying nothing
    about the STX of [who] in mode Deny, or because [who] is a person who has not signed. *)
Inductive limited (d : stx_call) (me : wval) : wval -> N -> Prop :=
| limited_condition addr who k c : In (CondSTX addr k c) (cc_conds d) -> means addr who -> In c [CcEQ; CcLT; CcLTE] -> limited d me who k
| limited_silence who : cc_pcmode d = PcDeny -> (forall addr k c, In (CondSTX addr k c) (cc_conds d) -> ~ means addr who) -> limited d me who 0
| limited_stranger v h : WStd v h <> me -> limited d me (WStd v h) 0.

(** The call has run, or failed to: the caller has used a nonce and paid the fee, and nobody has lost more than the draft allows. *)
Definition ran (d : stx_call) (me : wval) (L L' : ledger) : Prop :=
  (forall who k, limited d me who k -> coins L who <= coins L' who + k + when (same who me) (cc_fee d))
  /\ cc_fee d <= coins L me /\ forall x, turn L' x = turn L x + when (same x me) 1.

(** The fee is gone and nothing else has happened. *)
Definition only_fee (d : stx_call) (me : wval) (L L' : ledger) : Prop := forall x,
  coins L' x + when (same x me) (cc_fee d) = coins L x /\ turn L' x = turn L x + when (same x me) 1.
