(** Specification of payments made before earlier ones are in the ledger: nodes that answer first and take transactions later, and a
    program that counts the nonces itself.  Over SpecPay.v. *)

From Coq Require Import Strings.String.
From Verif Require Import Base SpecText Hash C32 Clarity SpecWire Tx SpecTx Signer Builder Wallet SpecSign SpecCharge SpecLedger Rpc SpecClient Session SpecPay.
Local Open Scope N_scope.

(** A node whose ledger does not move while it answers; it gives an id only to what its ledger could take as it is. *)
Definition pooling {S} (E : ecdsa) (n : network) (net : node S) (book : S -> ledger) : Prop := forall s q,
  book (fst (net s q)) = book s
  /\ match rq_body q, snd (net s q) with BBytes b, OOk _ => exists L, takes E n (book s) b L | _, _ => True end.

(** The node was sent these bytes. *)
Definition posted {S} (net : node S) (url e : bytes) (s s' : S) : Prop :=
  exists o, net s (post_bytes (url ++ str "/v2/transactions"%string) e) = (s', o).
Fixpoint posted_all {S} (net : node S) (url : bytes) (es : list bytes) (s s' : S) : Prop :=
  match es with
  | [] => s' = s
  | e :: r => exists s1, posted net url e s s1 /\ posted_all net url r s1 s'
  end.

(** Whichever is taken first, the other never is. *)
Definition never_both (E : ecdsa) (n : network) (e e' : bytes) : Prop := forall L L' M M', later E n L' M ->
  (takes E n L e L' -> ~ takes E n M e' M') /\ (takes E n L e' L' -> ~ takes E n M e M').

(** Of the transactions [es], only those in [mine] are the account's. *)
Definition only_mine (n : network) (me : wval) (mine es : list bytes) : Prop := forall e k, In e es -> turn_of n e me k -> In e mine.

(** The program asks for the nonce once and sends all the drafts, counting up from it. *)
Fixpoint sends_queue {S} (E : ecdsa) (n : network) (net : node S) (url sk : bytes) (k : N) (ds : list stx_transfer) (s s' : S) : Prop :=
  match ds with
  | [] => s' = s
  | d :: r => exists t t' s1 x, @build_transfer unit E (payment n sk k d) = Ok t /\ tx_sign E t sk = Ok t' /\ broadcast_in net url t' s = (s1, x)
      /\ sends_queue E n net url sk (k + 1) r s1 s'
  end.
Definition pays_queue {S H} (E : ecdsa) (n : network) (net : node S) (url : bytes) (a : account H) (ds : list stx_transfer) (s s' : S) : Prop :=
  exists addr sk info s1, get_address a (single_version n) = Ok addr /\ account_private_key a = Ok sk
    /\ address_in net url addr s = (s1, Ok info) /\ sends_queue E n net url sk (ad_nonce info) ds s1 s'.
