(** Specification of paying with an estimated fee: a program that takes an account of a wallet, asks a node for the account's nonce,
    builds a transfer, asks what it should cost, sets one of the fees in the answer, signs and broadcasts.  Over SpecPay.v. *)

From Coq Require Import Strings.String.
From Verif Require Import Base SpecText Hash C32 Clarity SpecWire Tx SpecTx Signer Builder Wallet SpecSign SpecBind SpecCharge Rpc SpecClient Session SpecPay.
Local Open Scope N_scope.

(** [fee] is the fee the program has picked. *)
Definition pays_estimate {S H} (E : ecdsa) (n : network) (net : node S) (url : bytes) (a : account H) (d : stx_transfer) (fee : N) (s s' : S)
    (r : res rpc_err broadcast_resp) : Prop :=
  exists addr sk info s1 t fees s2 t', get_address a (single_version n) = Ok addr /\ account_private_key a = Ok sk
    /\ address_in net url addr s = (s1, Ok info) /\ @build_transfer unit E (payment n sk (ad_nonce info) d) = Ok t
    /\ estimate_in net url t s1 = (s2, Ok (EsOk fees)) /\ In fee (map fe_fee fees)
    /\ tx_sign E (tx_set_fee t fee) sk = Ok t' /\ broadcast_in net url t' s2 = (s', r).

(** The draft with another fee. *)
Definition costing (d : stx_transfer) (fee : N) : stx_transfer :=
  {| st_recipient := st_recipient d; st_amount := st_amount d; st_sender := st_sender d; st_network := st_network d; st_fee := fee; st_nonce := st_nonce d;
     st_anchor := st_anchor d; st_memo := st_memo d; st_pcmode := st_pcmode d; st_conds := st_conds d; st_sponsored := st_sponsored d |}.

(** One signature good for two fees or nonces of the transaction with hash [h]: the messages have the same hash, ECDSA cannot tell
    their digests apart, or two keys have the same address. *)
Definition good_for_both (E : ecdsa) (h : bytes) (mode : hmode) (sig : bytes) (fee nonce fee' nonce' : N) : Prop :=
  collision (message_text h x04 fee nonce) (message_text h x04 fee' nonce')
  \/ digest_clash (digest h x04 fee nonce) (digest h x04 fee' nonce')
  \/ exists k k', recovers E (digest h x04 fee nonce) sig k /\ recovers E (digest h x04 fee' nonce') sig k' /\ key_clash mode k k'.

(** The node answers every question about fees, and [fee] is among what it says. *)
Definition quotes {S} (net : node S) (url : bytes) (fee : N) : Prop := forall s w,
  exists r j fees, snd (net s (post_json (url ++ str "/v2/fees/transaction"%string) (fee_question w))) = OOk r /\ rs_json r = Some j
    /\ fees_json j fees /\ In fee (map fe_fee fees).
