(** Specification of what becomes of money when nodes take transactions (SIP-005, "Transaction accounting" and "Transaction
    payloads"): balances in micro-STX and the next nonce of every account.  On the wire format; nothing of the library's code.
    What a contract does is any list of movements, but STX leave only the caller or contracts, as Clarity ensures.  To whom fees go,
    locked and vesting STX, and block limits are not part of it. *)

From Verif Require Import Base Sha2 SpecText Hash Clarity SpecWire Tx SpecTx Signer Builder SpecSign SpecNode SpecCharge SpecCond.
Local Open Scope N_scope.

(** What each account has, and the nonce its next transaction must carry.  Accounts are principals. *)
Record ledger := { coins : wval -> N; turn : wval -> N }.

Definition nonce_in (c : wspend) : N := match c with WsSingle _ _ n _ _ | WsMulti _ _ n _ _ _ => n end.
Definition fee_in (c : wspend) : N := match c with WsSingle _ _ _ f _ | WsMulti _ _ _ f _ _ => f end.

(** The account of a spending condition; the condition that pays. *)
Definition account_of (n : network) (c : wspend) : wval := WStd (charged_version n (mode_of c)) (signer_of c).
Definition wpayer (w : wtx) : wspend := match w_auth w with WaStandard o => o | WaSponsored _ p => p end.

Definition give (who : wval) (k : N) (f : wval -> N) : wval -> N := fun a => if wval_dec a who then f a + k else f a.
Definition take (who : wval) (k : N) (f : wval -> N) : wval -> N := fun a => if wval_dec a who then f a - k else f a.

(** Origin and sponsor use the nonces that are next; afterwards each has used one. *)
Definition in_turn (n : network) (w : wtx) (L : ledger) : Prop :=
  nonce_in (worigin w) = turn L (account_of n (worigin w)) /\ nonce_in (wpayer w) = turn L (account_of n (wpayer w)).
Definition acts (n : network) (w : wtx) (a : wval) : Prop := a = account_of n (worigin w) \/ a = account_of n (wpayer w).
Definition advance (n : network) (w : wtx) (f : wval -> N) : wval -> N :=
  fun a => if wval_dec a (account_of n (worigin w)) then f a + 1 else if wval_dec a (account_of n (wpayer w)) then f a + 1 else f a.

(** The movements of a run, each with where it goes, one after the other; STX only if they are there. *)
Fixpoint pour (l : list (movement * wval)) (f : wval -> N) : wval -> N :=
  match l with
  | [] => f
  | (MStx who k, to) :: r => pour r (give to k (take who k f))
  | _ :: r => pour r f
  end.
Fixpoint affordable (l : list (movement * wval)) (f : wval -> N) : Prop :=
  match l with
  | [] => True
  | (MStx who k, to) :: r => k <= f who /\ affordable r (give to k (take who k f))
  | _ :: r => affordable r f
  end.
Definition is_contract (a : wval) : Prop := match a with WCon _ _ _ => True | _ => False end.
Definition from_caller (n : network) (w : wtx) (m : movement * wval) : Prop :=
  source (fst m) = account_of n (worigin w) \/ is_contract (source (fst m)).

(** The bytes pass the checks of SIP-005 as [w], its nonces are next, and the fee is there. *)
Definition admitted (E : ecdsa) (n : network) (L : ledger) (e : bytes) (w : wtx) : Prop :=
  e = ser_tx w /\ wf_tx w /\ node_network n w /\ node_auth E (sha512_256 (ser_tx (clear_tx w))) (w_auth w)
  /\ in_turn n w L /\ fee_in (wpayer w) <= coins L (account_of n (wpayer w)).
Definition charged (n : network) (w : wtx) (L : ledger) : wval -> N := take (account_of n (wpayer w)) (fee_in (wpayer w)) (coins L).

(** A node of network [n] with ledger [L] takes the bytes and has ledger [L'] afterwards.  Transfers carry no conditions, move
    something, and go to someone else.  A call whose run does not stand costs the fee. *)
Inductive takes (E : ecdsa) (n : network) (L : ledger) (e : bytes) : ledger -> Prop :=
| takes_transfer w to amount memo : admitted E n L e w -> w_payload w = WpTransfer to amount memo -> w_conds w = [] ->
    0 < amount -> to <> account_of n (worigin w) -> amount <= charged n w L (account_of n (worigin w)) ->
    takes E n L e {| coins := give to amount (take (account_of n (worigin w)) amount (charged n w L)); turn := advance n w (turn L) |}
| takes_call w ver hash contract fname args ms : admitted E n L e w -> w_payload w = WpCall ver hash contract fname args ->
    run_stands w (map fst ms) -> Forall (from_caller n w) ms -> affordable ms (charged n w L) ->
    takes E n L e {| coins := pour ms (charged n w L); turn := advance n w (turn L) |}
| takes_nothing w ver hash contract fname args : admitted E n L e w -> w_payload w = WpCall ver hash contract fname args ->
    takes E n L e {| coins := charged n w L; turn := advance n w (turn L) |}.

(** A series of transactions; anything that may happen in between. *)
Fixpoint takes_all (E : ecdsa) (n : network) (L : ledger) (es : list bytes) (M : ledger) : Prop :=
  match es with
  | [] => M = L
  | e :: r => exists L1, takes E n L e L1 /\ takes_all E n L1 r M
  end.
Definition later (E : ecdsa) (n : network) (L M : ledger) : Prop := exists es, takes_all E n L es M.

(** The bytes are a transaction of this account with this nonce. *)
Definition turn_of (n : network) (e : bytes) (a : wval) (nonce : N) : Prop :=
  exists w, e = ser_tx w /\ wf_tx w
  /\ (a = account_of n (worigin w) /\ nonce = nonce_in (worigin w) \/ a = account_of n (wpayer w) /\ nonce = nonce_in (wpayer w)).

Definition when (b : bool) (k : N) : N := if b then k else 0.
Definition same (a b : wval) : bool := if wval_dec a b then true else false.

(** ** The library's transactions *)

(** The account of a private key on a network: a single-signature address. *)
Definition key_account (E : ecdsa) (n : network) (sk : bytes) : wval := WStd (charged_version n x00) (hash20 (pubkey_of E sk)).

(** The account that a transaction of the library pays its fee from: the sponsor's, if there is one. *)
Definition payer_of (t : tx) : scond := match sponsor_of t with Some p => p | None => origin_of t end.

(** The bytes that come of a transfer: built, signed with the sender's key, encoded. *)
Definition sends (E : ecdsa) (b : stx_transfer) (e : bytes) : Prop :=
  exists t s s', @build_transfer unit E b = Ok t /\ signer_new t = Ok s /\ succeeds E s [SignOrigin (st_sender b)] s' /\ enc_tx (sg_tx s') = Ok e.

(** A transfer from a key to a principal that fits the wire and nodes can take. *)
Record sound_transfer (E : ecdsa) (n : network) (sk : bytes) (b : stx_transfer) (to : wval) : Prop := {
  so_sender : st_sender b = sk; so_network : st_network b = n; so_alone : st_sponsored b = false; so_bare : st_conds b = [];
  so_to : means (st_recipient b) to; so_solid : solid to; so_memo : exists m, memo_field (st_memo b) m;
  so_amount : st_amount b < 2 ^ 64; so_fee : st_fee b < 2 ^ 64; so_nonce : st_nonce b < 2 ^ 64
}.

(** Nonces count up from [k]; what is spent in all, and what [x] receives. *)
Fixpoint counting (k : N) (bs : list stx_transfer) : Prop :=
  match bs with [] => True | b :: r => st_nonce b = k /\ counting (k + 1) r end.
Definition spent (bs : list stx_transfer) : N := fold_right (fun b s => st_amount b + st_fee b + s) 0 bs.
Fixpoint received (x : wval) (bs : list stx_transfer) (tos : list wval) : N :=
  match bs, tos with
  | b :: r, to :: q => when (same x to) (st_amount b) + received x r q
  | _, _ => 0
  end.
