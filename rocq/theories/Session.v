(** Model of stacks/src/rpc.rs with its effects: what a node, whatever it remembers, gets to see of the calls made on clients.

    A node is a function from its state and a request to its next state and the outcome of the request. The functions of Rpc.v
    give the results alone. *)

From Coq Require Import Strings.String.
From Verif Require Import Base F64 Hex Clarity Tx Rpc.
Local Open Scope string_scope.
Local Open Scope N_scope.

Definition node (S : Type) := S -> request -> S * outcome.

(** [?] on the values computed before a request is sent: nothing is sent if they cannot be computed. *)
Definition exchange {S A} (net : node S) (rq : res rpc_err request) (k : outcome -> res rpc_err A) (s : S) : S * res rpc_err A :=
  match rq with
  | Ok rq => let '(s', o) := net s rq in (s', k o)
  | Err e => (s, Err e)
  | Panic p => (s, Panic p)
  | NoFuel => (s, NoFuel)
  end.

(** [request.call()?.into_json::<T>()?] (rpc.rs:198, 207) and [req.send_json(..)?] with [into_json] (rpc.rs:268-273). *)
Definition json_answer {A} (p : json -> option A) (o : outcome) : res rpc_err A :=
  match o with
  | OOk r => into_json p r
  | OStatus c _ => Err (RUreq (Some c))
  | OTransport => Err (RUreq None)
  end.

(** rpc.rs:196-199 [info], 202-208 [address]. *)
Definition info_in {S} (net : node S) (url : bytes) : S -> S * res rpc_err node_info :=
  exchange net (Ok (info_request url)) (json_answer parse_info).
Definition address_in {S} (net : node S) (url addr : bytes) : S -> S * res rpc_err address_info :=
  exchange net (Ok (address_request url addr)) (json_answer parse_address).

(** rpc.rs:211-225 [estimate_fee]. *)
Definition estimate_in {S} (net : node S) (url : bytes) (t : tx) : S -> S * res rpc_err estimate_resp :=
  exchange net (estimate_request url t) (fun o =>
    match o with
    | OOk r => let* f := into_json parse_fee_ok r in Ok (EsOk f)
    | OStatus _ r => let* s := io (rs_text r) in Ok (EsErr s)
    | OTransport => Err (RUreq None)
    end).

(** rpc.rs:228-244 [broadcast]. *)
Definition broadcast_in {S} (net : node S) (url : bytes) (t : tx) : S -> S * res rpc_err broadcast_resp :=
  exchange net (broadcast_request url t) (fun o =>
    match o with
    | OOk r => let* s := io (rs_text r) in Ok (BcOk s)
    | OStatus _ r => let* e := into_json parse_broadcast_err r in Ok (BcErr e)
    | OTransport => Err (RUreq None)
    end).

(** rpc.rs:247-274 [read_only]. *)
Definition read_only_in {S} (net : node S) (url addr name fname : bytes) (args : list cval) (sender : bytes)
  : S -> S * res rpc_err read_only_resp :=
  exchange net (read_only_request url addr name fname args sender) (json_answer parse_read_only).

(** A call on a client; a client is its URL (rpc.rs:180-193), which [clone] copies and no method changes ([&self]). *)
Inductive rpc_call :=
| CallInfo
| CallAddress (addr : bytes)
| CallEstimate (t : tx)
| CallBroadcast (t : tx)
| CallReadOnly (addr name fname : bytes) (args : list cval) (sender : bytes).
Inductive rpc_answer :=
| AnsInfo (r : res rpc_err node_info)
| AnsAddress (r : res rpc_err address_info)
| AnsEstimate (r : res rpc_err estimate_resp)
| AnsBroadcast (r : res rpc_err broadcast_resp)
| AnsReadOnly (r : res rpc_err read_only_resp).
Definition answer_with {S A} (k : A -> rpc_answer) (x : S * A) : S * rpc_answer := (fst x, k (snd x)).
Definition make_call {S} (net : node S) (url : bytes) (c : rpc_call) (s : S) : S * rpc_answer :=
  match c with
  | CallInfo => answer_with AnsInfo (info_in net url s)
  | CallAddress a => answer_with AnsAddress (address_in net url a s)
  | CallEstimate t => answer_with AnsEstimate (estimate_in net url t s)
  | CallBroadcast t => answer_with AnsBroadcast (broadcast_in net url t s)
  | CallReadOnly a n f args w => answer_with AnsReadOnly (read_only_in net url a n f args w s)
  end.
(** A program's calls, one after the other, each on a client of its own. *)
Fixpoint make_calls {S} (net : node S) (l : list (bytes * rpc_call)) (s : S) : S * list rpc_answer :=
  match l with
  | [] => (s, [])
  | (url, c) :: l => let '(s1, a) := make_call net url c s in let '(s2, r) := make_calls net l s1 in (s2, a :: r)
  end.
