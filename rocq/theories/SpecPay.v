(** Specification of paying through a node: a program that takes an account of a wallet, asks a node for the account's nonce, builds a
    transfer with it, signs it and broadcasts it; and nodes that keep the ledger of SpecLedger.v. *)

From Coq Require Import Strings.String.
From Verif Require Import Base SpecText SpecAddr Hash C32 Clarity SpecWire Tx SpecTx Signer Builder Wallet SpecSign SpecNode SpecCharge SpecLedger Rpc SpecClient Session.
Local Open Scope N_scope.

(** The transfer that a draft becomes with sender, network and nonce filled in. *)
Definition payment (n : network) (sk : bytes) (nonce : N) (d : stx_transfer) : stx_transfer :=
  {| st_recipient := st_recipient d; st_amount := st_amount d; st_sender := sk; st_network := n; st_fee := st_fee d; st_nonce := nonce;
     st_anchor := st_anchor d; st_memo := st_memo d; st_pcmode := st_pcmode d; st_conds := st_conds d; st_sponsored := st_sponsored d |}.

(** A draft that fits the wire and goes to [to]. *)
Record sound_draft (d : stx_transfer) (to : wval) : Prop := {
  sd_alone : st_sponsored d = false; sd_bare : st_conds d = []; sd_to : means (st_recipient d) to; sd_solid : solid to;
  sd_memo : exists m, memo_field (st_memo d) m; sd_amount : st_amount d < 2 ^ 64; sd_fee : st_fee d < 2 ^ 64
}.

(** The program gets as far as its broadcast, which returns [r].  It moves the node from [s] to [s']. *)
Definition pays {S H} (E : ecdsa) (n : network) (net : node S) (url : bytes) (a : account H) (d : stx_transfer) (s s' : S)
    (r : res rpc_err broadcast_resp) : Prop :=
  exists addr sk info s1 t t', get_address a (single_version n) = Ok addr /\ account_private_key a = Ok sk
    /\ address_in net url addr s = (s1, Ok info) /\ @build_transfer unit E (payment n sk (ad_nonce info) d) = Ok t
    /\ tx_sign E t sk = Ok t' /\ broadcast_in net url t' s1 = (s', r).

(** The account's principal on the network. *)
Definition owner {H} (n : network) (a : account H) : wval := WStd (charged_version n x00) (hash20 (xpub_bytes H (acc_ext a))).

(** A node that keeps a ledger: it answers with success to the bytes of a transaction only if it takes it, or if it had taken it
    before; if the exchange breaks off it may have taken it or not.  Nothing else changes the ledger. *)
Definition seen (E : ecdsa) (n : network) (L : ledger) (e : bytes) : Prop := exists L0 L1, takes E n L0 e L1 /\ later E n L1 L.
Definition banking {S} (E : ecdsa) (n : network) (net : node S) (book : S -> ledger) : Prop := forall s q,
  match rq_body q, snd (net s q) with
  | BBytes b, OOk _ => takes E n (book s) b (book (fst (net s q))) \/ seen E n (book s) b /\ book (fst (net s q)) = book s
  | BBytes b, OTransport => takes E n (book s) b (book (fst (net s q))) \/ book (fst (net s q)) = book s
  | _, _ => book (fst (net s q)) = book s
  end.

(** It reports the nonces in its ledger. *)
Definition accounts_request (url addr : bytes) : request := get (url ++ str "/v2/accounts/"%string ++ addr).
Definition truthful {S} (net : node S) (book : S -> ledger) (url : bytes) : Prop := forall s h v addr r j info,
  address_text h v addr -> snd (net s (accounts_request url addr)) = OOk r -> rs_json r = Some j -> address_json j info ->
  ad_nonce info = turn (book s) (WStd v h).

(** It answers: every question about an account, and with success to the bytes [P] when it can take them. *)
Definition prompt {S} (E : ecdsa) (n : network) (net : node S) (book : S -> ledger) (url : bytes) (P : bytes -> Prop) : Prop :=
  (forall s h v addr, address_text h v addr -> turn (book s) (WStd v h) < 2 ^ 64 ->
     exists r j info, snd (net s (accounts_request url addr)) = OOk r /\ rs_json r = Some j /\ address_json j info)
  /\ (forall s b L, P b -> takes E n (book s) b L ->
     exists r id, snd (net s (post_bytes (url ++ str "/v2/transactions"%string) b)) = OOk r /\ rs_text r = Some id).

(** The bytes that can come of the draft. *)
Definition outcome_of_draft {H} (E : ecdsa) (n : network) (a : account H) (d : stx_transfer) (e : bytes) : Prop :=
  exists sk nonce, account_private_key a = Ok sk /\ nonce < 2 ^ 64 /\ sends E (payment n sk nonce d) e.

(** The amount has gone from one account to the other, and the fee is paid. *)
Definition moved (me to : wval) (amount fee : N) (L L' : ledger) : Prop := forall x,
  coins L' x + when (same x me) (amount + fee) = coins L x + when (same x to) amount /\ turn L' x = turn L x + when (same x me) 1.
