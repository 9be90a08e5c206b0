(** What a node is meant to see of the calls made on clients, and what becomes of the transactions. *)

From Coq Require Import Strings.String.
From Verif Require Import Base SpecText Clarity SpecWire Tx SpecTx Rpc SpecClient Session.
Local Open Scope N_scope.

(** The request that a call on the client of a URL is for; [None] for values that do not fit the wire format, which have none. *)
Definition asks (url : bytes) (c : rpc_call) (q : option request) : Prop :=
  match c with
  | CallInfo => q = Some (get (url ++ str "/v2/info"%string))
  | CallAddress a => q = Some (get (url ++ str "/v2/accounts/"%string ++ a))
  | CallEstimate t =>
    (exists w, tx_means t w /\ fits_tx w /\ q = Some (post_json (url ++ str "/v2/fees/transaction"%string) (fee_question w)))
    \/ (forall w, tx_means t w -> ~ fits_tx w) /\ q = None
  | CallBroadcast t =>
    (exists w, tx_means t w /\ fits_tx w /\ q = Some (post_bytes (url ++ str "/v2/transactions"%string) (ser_tx w)))
    \/ (forall w, tx_means t w -> ~ fits_tx w) /\ q = None
  | CallReadOnly a n f args sender =>
    (exists ws, Forall2 means args ws /\ Forall (wall fits1) ws
       /\ q = Some (post_json (url ++ str "/v2/contracts/call-read/"%string ++ a ++ str "/"%string ++ n ++ str "/"%string ++ f)
                      (call_question sender ws)))
    \/ (forall ws, Forall2 means args ws -> ~ Forall (wall fits1) ws) /\ q = None
  end.

(** The outcome of the request as the result of the call. *)
Definition answers (c : rpc_call) (o : outcome) (a : rpc_answer) : Prop :=
  match c, a with
  | CallInfo, AnsInfo r => plain_result info_json o r
  | CallAddress _, AnsAddress r => plain_result address_json o r
  | CallEstimate _, AnsEstimate r => estimate_result o r
  | CallBroadcast _, AnsBroadcast r => broadcast_result o r
  | CallReadOnly _ _ _ _ _, AnsReadOnly r => plain_result read_only_json o r
  | _, _ => False
  end.
Definition refuses (c : rpc_call) (a : rpc_answer) : Prop :=
  match c, a with
  | CallEstimate _, AnsEstimate r => exists e, r = Err (RClarity e)
  | CallBroadcast _, AnsBroadcast r => exists e, r = Err (RClarity e)
  | CallReadOnly _ _ _ _ _, AnsReadOnly r => exists e, r = Err (RClarity e)
  | _, _ => False
  end.

(** A run of calls: the node moves by one request for every call that has one, in order, and not otherwise. *)
Inductive session {S} (net : node S) : S -> list (bytes * rpc_call) -> S -> list rpc_answer -> Prop :=
| session_end s : session net s [] s []
| session_sent s url c q s1 o a l s2 r : asks url c (Some q) -> net s q = (s1, o) -> answers c o a -> session net s1 l s2 r ->
    session net s ((url, c) :: l) s2 (a :: r)
| session_kept s url c a l s2 r : asks url c None -> refuses c a -> session net s l s2 r ->
    session net s ((url, c) :: l) s2 (a :: r).

(** A node that keeps a log of what it is sent. *)
Definition logged {S} (net : node S) : node (S * list request) :=
  fun s q => let '(s', o) := net (fst s) q in ((s', snd s ++ [q]), o).
Definition asked (q : option request) : list request := match q with Some q => [q] | None => [] end.

(** A node with a pool of transactions: it takes the bytes of a request it answers with success, not those of a request it
    answers with an error status; if the exchange breaks off it may have taken them or not. Nothing else changes the pool. *)
Definition pooling {S} (net : node S) (pool : S -> list bytes) : Prop := forall s q,
  match rq_body q, snd (net s q) with
  | BBytes b, OOk _ => pool (fst (net s q)) = pool s ++ [b]
  | BBytes b, OTransport => pool (fst (net s q)) = pool s ++ [b] \/ pool (fst (net s q)) = pool s
  | _, _ => pool (fst (net s q)) = pool s
  end.

(** What a program can tell about the pool from the answers it got: [settled_by l r b] if the bytes [b], in order, are those of
    the transactions in [l] whose broadcast came back with an id, perhaps together with some whose broadcast broke off. *)
Inductive settled_by : list (bytes * rpc_call) -> list rpc_answer -> list bytes -> Prop :=
| settled_end : settled_by [] [] []
| settled_taken url t w id l r b : tx_means t w -> fits_tx w -> settled_by l r b ->
    settled_by ((url, CallBroadcast t) :: l) (AnsBroadcast (Ok (BcOk id)) :: r) (ser_tx w :: b)
| settled_refused url t e l r b : settled_by l r b ->
    settled_by ((url, CallBroadcast t) :: l) (AnsBroadcast (Ok (BcErr e)) :: r) b
| settled_unfit url t e l r b : (forall w, tx_means t w -> ~ fits_tx w) -> settled_by l r b ->
    settled_by ((url, CallBroadcast t) :: l) (AnsBroadcast (Err (RClarity e)) :: r) b
| settled_lost url t w e l r b : tx_means t w -> fits_tx w -> e = RIo \/ e = RUreq None -> settled_by l r b ->
    settled_by ((url, CallBroadcast t) :: l) (AnsBroadcast (Err e) :: r) b
| settled_lost_taken url t w e l r b : tx_means t w -> fits_tx w -> e = RIo \/ e = RUreq None -> settled_by l r b ->
    settled_by ((url, CallBroadcast t) :: l) (AnsBroadcast (Err e) :: r) (ser_tx w :: b)
| settled_other url c a l r b : (forall t, c <> CallBroadcast t) -> settled_by l r b ->
    settled_by ((url, c) :: l) (a :: r) b.
