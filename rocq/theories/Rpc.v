(** Model of stacks/src/rpc.rs.

    The HTTP exchange (crate [ureq]) is a function from requests to outcomes; JSON text is replaced by
    a JSON syntax tree, and [into_json] failing is [None] of the corresponding reader. *)

From Coq Require Import Strings.String.
From Verif Require Import Base F64 Hex Clarity Tx.
Local Open Scope string_scope.
Local Open Scope N_scope.

(** Numbers as [serde_json] classifies them: integers of the [i64]/[u64] range, anything else as [f64]
    (F64.v; the tree keeps the text). *)
Inductive json :=
| JNull | JBool (b : bool) | JInt (z : Z) | JFloat (text : bytes) | JStr (s : bytes) | JArr (l : list json)
| JObj (l : list (bytes * json)).

Inductive body := BNone | BJson (j : json) | BBytes (b : bytes).

Record request := { rq_post : bool; rq_url : bytes; rq_headers : list (bytes * bytes);
                    rq_body : body }.

(** Outcome of a ureq call: a success response, [ureq::Error::Status] or another [ureq::Error].
    A response body is text that may also parse as JSON; [None] models an I/O or parse failure. *)
Record response := { rs_text : option bytes; rs_json : option json }.
Inductive outcome := OOk (r : response) | OStatus (code : N) (r : response) | OTransport.

(** rpc.rs:21-31 [Error]. *)
Inductive rpc_err := RIo | RUreq (status : option N) | RClarity (e : cl_err).

(** rpc.rs:34-60 [NodeInfoResponse], 62-76 [AddressInfoResponse]. *)
Record node_info := {
  ni_peer_version : N; ni_pox_consensus : bytes; ni_burn_height : N; ni_stable_pox : bytes; ni_stable_burn_height : N;
  ni_server_version : bytes; ni_network : N; ni_parent_network : N; ni_tip_height : N; ni_tip : bytes;
  ni_tip_consensus : bytes; ni_genesis : bytes }.
Record address_info := {
  ad_balance : bytes; ad_locked : bytes; ad_unlock : N; ad_nonce : N; ad_balance_proof : bytes; ad_nonce_proof : bytes }.

(** rpc.rs:94-106. *)
Record fee_estimate := { fe_fee : N; fe_rate : f64 }.

(** rpc.rs:133-140, 164-169, 173-178. *)
Record broadcast_err := { be_error : bytes; be_reason : bytes; be_txid : bytes }.
Inductive read_only_resp :=
| ROk (okay : bool) (result : bytes)
| RErr (okay : bool) (cause : bytes).
Inductive broadcast_resp := BcOk (txid : bytes) | BcErr (e : broadcast_err).
Inductive estimate_resp := EsOk (l : list fee_estimate) | EsErr (s : bytes).

(** rpc.rs:123-130, 143-147 [Display]. *)
Definition broadcast_err_text (e : broadcast_err) : bytes :=
  str "message: " ++ be_error e ++ str ", reason: " ++ be_reason e.
Definition broadcast_text (r : broadcast_resp) : bytes :=
  match r with BcOk s => s | BcErr e => broadcast_err_text e end.

(** serde's derived struct deserializers: an object in which each field occurs exactly once (other
    keys are ignored, a repeated field is an error), or an array of the fields in order. *)
Fixpoint jcount (k : bytes) (l : list (bytes * json)) : N :=
  match l with
  | [] => 0
  | (k', _) :: r => if bytes_eqb k' k then 1 + jcount k r else jcount k r
  end.
Fixpoint jfind (k : bytes) (l : list (bytes * json)) : option json :=
  match l with
  | [] => None
  | (k', v) :: r => if bytes_eqb k' k then Some v else jfind k r
  end.
Definition jget (k : bytes) (l : list (bytes * json)) : option json :=
  if jcount k l =? 1 then jfind k l else None.
Fixpoint jfields (ks : list bytes) (l : list (bytes * json)) : option (list json) :=
  match ks with
  | [] => Some []
  | k :: r =>
    match jget k l, jfields r l with
    | Some v, Some vs => Some (v :: vs)
    | _, _ => None
    end
  end.
Definition struct_of (ks : list bytes) (j : json) : option (list json) :=
  match j with
  | JObj l => jfields ks l
  | JArr l => if Nat.eqb (length l) (length ks) then Some l else None
  | _ => None
  end.

(** Field types. *)
Definition as_str (j : json) : option bytes := match j with JStr s => Some s | _ => None end.
Definition as_bool (j : json) : option bool := match j with JBool b => Some b | _ => None end.
Definition as_uint (bits : N) (j : json) : option N :=
  match j with
  | JInt z => if (0 <=? z)%Z && (z <? 2 ^ Z.of_N bits)%Z then Some (Z.to_N z) else None
  | _ => None
  end.
Definition as_f64 (j : json) : option f64 :=
  match j with JInt z => Some (float_of_int z) | JFloat t => float_of_text t | _ => None end.

(** [into_json::<FeeOk>()] (rpc.rs:93-106). *)
Definition parse_estimate (j : json) : option fee_estimate :=
  match struct_of [str "fee"; str "fee_rate"] j with
  | Some [f; r] =>
    match as_uint 64 f, as_f64 r with
    | Some n, Some x => Some {| fe_fee := n; fe_rate := x |}
    | _, _ => None
    end
  | _ => None
  end.
Fixpoint parse_estimates (l : list json) : option (list fee_estimate) :=
  match l with
  | [] => Some []
  | j :: r =>
    match parse_estimate j, parse_estimates r with
    | Some e, Some t => Some (e :: t)
    | _, _ => None
    end
  end.
Definition parse_fee_ok (j : json) : option (list fee_estimate) :=
  match struct_of [str "estimations"] j with
  | Some [JArr l] => parse_estimates l
  | _ => None
  end.

(** [into_json::<BroadcastErr>()]. *)
Definition parse_broadcast_err (j : json) : option broadcast_err :=
  match struct_of [str "error"; str "reason"; str "txid"] j with
  | Some [a; b; c] =>
    match as_str a, as_str b, as_str c with
    | Some a, Some b, Some c => Some {| be_error := a; be_reason := b; be_txid := c |}
    | _, _, _ => None
    end
  | _ => None
  end.

(** [into_json::<ReadOnlyResponse>()]: [#[serde(untagged)]] (rpc.rs:150) tries [ReadOnlyOk] first. *)
Definition parse_ro_ok (j : json) : option read_only_resp :=
  match struct_of [str "okay"; str "result"] j with
  | Some [a; b] =>
    match as_bool a, as_str b with Some x, Some s => Some (ROk x s) | _, _ => None end
  | _ => None
  end.
Definition parse_ro_err (j : json) : option read_only_resp :=
  match struct_of [str "okay"; str "cause"] j with
  | Some [a; b] =>
    match as_bool a, as_str b with Some x, Some s => Some (RErr x s) | _, _ => None end
  | _ => None
  end.
Definition parse_read_only (j : json) : option read_only_resp :=
  match parse_ro_ok j with Some r => Some r | None => parse_ro_err j end.

(** [into_json::<NodeInfoResponse>()]. *)
Definition parse_info (j : json) : option node_info :=
  match struct_of [str "peer_version"; str "pox_consensus"; str "burn_block_height"; str "stable_pox_consensus";
                   str "stable_burn_block_height"; str "server_version"; str "network_id"; str "parent_network_id";
                   str "stacks_tip_height"; str "stacks_tip"; str "stacks_tip_consensus_hash";
                   str "genesis_chainstate_hash"] j with
  | Some [a; b; c; d; e; f; g; h; i; k; l; m] =>
    match as_uint 64 a, as_str b, as_uint 64 c, as_str d, as_uint 64 e, as_str f, as_uint 32 g, as_uint 32 h,
          as_uint 64 i, as_str k, as_str l, as_str m with
    | Some a, Some b, Some c, Some d, Some e, Some f, Some g, Some h, Some i, Some k, Some l, Some m =>
      Some {| ni_peer_version := a; ni_pox_consensus := b; ni_burn_height := c; ni_stable_pox := d;
              ni_stable_burn_height := e; ni_server_version := f; ni_network := g; ni_parent_network := h;
              ni_tip_height := i; ni_tip := k; ni_tip_consensus := l; ni_genesis := m |}
    | _, _, _, _, _, _, _, _, _, _, _, _ => None
    end
  | _ => None
  end.

(** [into_json::<AddressInfoResponse>()]. *)
Definition parse_address (j : json) : option address_info :=
  match struct_of [str "balance"; str "locked"; str "unlock_height"; str "nonce"; str "balance_proof"; str "nonce_proof"] j with
  | Some [a; b; c; d; e; f] =>
    match as_str a, as_str b, as_uint 64 c, as_uint 64 d, as_str e, as_str f with
    | Some a, Some b, Some c, Some d, Some e, Some f =>
      Some {| ad_balance := a; ad_locked := b; ad_unlock := c; ad_nonce := d; ad_balance_proof := e; ad_nonce_proof := f |}
    | _, _, _, _, _, _ => None
    end
  | _ => None
  end.

Definition io {A} (o : option A) : res rpc_err A := match o with Some a => Ok a | None => Err RIo end.

(** [r.into_json::<T>()?]. *)
Definition into_json {A} (p : json -> option A) (r : response) : res rpc_err A :=
  let* j := io (rs_json r) in io (p j).

(** rpc.rs:211-213: the request of [estimate_fee]. *)
Definition estimate_request (url : bytes) (t : tx) : res rpc_err request :=
  let* p := map_err RClarity (enc_payload (tx_payload t)) in
  let* e := map_err RClarity (enc_tx t) in
  Ok {| rq_post := true; rq_url := url ++ str "/v2/fees/transaction"; rq_headers := [];
        rq_body := BJson (JObj [(str "transaction_payload", JStr (bytes_to_hex p));
                                (str "estimated_len", JInt (Z.of_N (lenN e)))]) |}.

(** rpc.rs:211-225 [estimate_fee]. *)
Definition estimate_fee (http : request -> outcome) (url : bytes) (t : tx)
  : res rpc_err estimate_resp :=
  let* rq := estimate_request url t in
  match http rq with
  | OOk r => let* f := into_json parse_fee_ok r in Ok (EsOk f)
  | OStatus _ r => let* s := io (rs_text r) in Ok (EsErr s)
  | OTransport => Err (RUreq None)
  end.

(** rpc.rs:228-231: the request of [broadcast]. *)
Definition broadcast_request (url : bytes) (t : tx) : res rpc_err request :=
  let* e := map_err RClarity (enc_tx t) in
  Ok {| rq_post := true; rq_url := url ++ str "/v2/transactions";
        rq_headers := [(str "Content-Type", str "application/octet-stream")];
        rq_body := BBytes e |}.

(** rpc.rs:228-244 [broadcast]. *)
Definition broadcast (http : request -> outcome) (url : bytes) (t : tx)
  : res rpc_err broadcast_resp :=
  let* rq := broadcast_request url t in
  match http rq with
  | OOk r => let* s := io (rs_text r) in Ok (BcOk s)
  | OStatus _ r => let* e := into_json parse_broadcast_err r in Ok (BcErr e)
  | OTransport => Err (RUreq None)
  end.

(** rpc.rs:263-266: the hex arguments, first error returned. *)
Fixpoint hex_args (l : list cval) : res cl_err (list bytes) :=
  match l with
  | [] => Ok []
  | a :: r => let* h := codec_hex a in let* t := hex_args r in Ok (h :: t)
  end.

(** rpc.rs:255-271: the request of [read_only]. *)
Definition read_only_request (url addr name fname : bytes) (args : list cval) (sender : bytes)
  : res rpc_err request :=
  let* hs := map_err RClarity (hex_args args) in
  Ok {| rq_post := true;
        rq_url := url ++ str "/v2/contracts/call-read/" ++ addr ++ str "/" ++ name
                  ++ str "/" ++ fname;
        rq_headers := [];
        rq_body := BJson (JObj [(str "sender", JStr sender);
                                (str "arguments", JArr (map JStr hs))]) |}.

(** rpc.rs:247-274 [read_only]: an error status is an error here. *)
Definition read_only (http : request -> outcome) (url addr name fname : bytes)
           (args : list cval) (sender : bytes) : res rpc_err read_only_resp :=
  let* rq := read_only_request url addr name fname args sender in
  match http rq with
  | OOk r => into_json parse_read_only r
  | OStatus c _ => Err (RUreq (Some c))
  | OTransport => Err (RUreq None)
  end.

(** rpc.rs:196-199 [info], 202-208 [address]. *)
Definition info_request (url : bytes) : request :=
  {| rq_post := false; rq_url := url ++ str "/v2/info"; rq_headers := []; rq_body := BNone |}.
Definition address_request (url addr : bytes) : request :=
  {| rq_post := false; rq_url := url ++ str "/v2/accounts/" ++ addr; rq_headers := [];
     rq_body := BNone |}.
(** [request.call()?.into_json::<T>()?]. *)
Definition call {A} (http : request -> outcome) (rq : request) (p : json -> option A) : res rpc_err A :=
  match http rq with
  | OOk r => into_json p r
  | OStatus c _ => Err (RUreq (Some c))
  | OTransport => Err (RUreq None)
  end.
Definition info (http : request -> outcome) (url : bytes) : res rpc_err node_info :=
  call http (info_request url) parse_info.
Definition address_info_of (http : request -> outcome) (url addr : bytes) : res rpc_err address_info :=
  call http (address_request url addr) parse_address.
