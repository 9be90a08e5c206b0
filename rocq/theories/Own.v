(** Model of the library's code over types of the user's own: [Clarity] (clarity/mod.rs:88-89), [Payload] (payload.rs:28-29),
    [Condition] (condition.rs:53-54) and [Network] (network.rs:33-40) are public traits.

    The other files have the types the crate itself defines.  Of a value of any other type the library calls nothing but [encode]
    and the methods provided with it (and [clone]), so such a value is what its [encode] returns, which is taken to be the same
    each time; the provided methods [len] and [hex] (clarity/mod.rs:101-113) are taken not to be overridden.  The crate's own
    [PostConditions], which is a [Clarity] type too, and user-defined types in its conditions are among these. *)

From Coq Require Import Strings.String.
From Verif Require Import Base Hex Hash C32 Clarity Tx Signer Builder Rpc.
Local Open Scope string_scope.
Local Open Scope list_scope.
Local Open Scope N_scope.

Definition own := res cl_err bytes.

(** ** Clarity values *)

(** clarity/mod.rs:139-164: the types with [Box<dyn Clarity>] inside, which can hold values of any type. *)
Inductive oval :=
| OLib (v : cval)
| OOwn (o : own)
| ORespOk (v : oval)
| ORespErr (v : oval)
| OSome (v : oval)
| OList (l : list oval)
| OTuple (l : list (bytes * oval))
| OFnArgs (l : list oval).

(** impl.rs: [encode] of these types, the same lines as in Clarity.v. *)
Fixpoint oencode (v : oval) : res cl_err bytes :=
  match v with
  | OLib v => encode v
  | OOwn o => o
  | ORespOk x => let* e := oencode x in Ok (x07 :: e)                          (* 405-409 *)
  | ORespErr x => let* e := oencode x in Ok (x08 :: e)                         (* 443-447 *)
  | OSome x => let* e := oencode x in Ok (x0a :: e)                            (* 481-485 *)
  | OList l =>                                                                 (* 556-565 *)
    let* n := enc_len32 (lenN l) in
    let* e := (fix enc_all (l : list oval) : res cl_err bytes :=
                 match l with
                 | [] => Ok []
                 | x :: r => let* e := oencode x in let* t := enc_all r in Ok (e ++ t)
                 end) l in
    Ok (x0b :: n ++ e)
  | OTuple l =>                                                                (* 688-698 *)
    let* n := enc_len32 (lenN l) in
    let* e := (fix enc_all (l : list (bytes * oval)) : res cl_err bytes :=
                 match l with
                 | [] => Ok []
                 | (k, x) :: r =>
                   let* ke := enc_lps k in
                   let* e := oencode x in
                   let* t := enc_all r in Ok (ke ++ e ++ t)
                 end) l in
    Ok (x0c :: n ++ e)
  | OFnArgs l =>                                                               (* 905-914 *)
    let* n := enc_len32 (lenN l) in
    let* e := (fix enc_all (l : list oval) : res cl_err bytes :=
                 match l with
                 | [] => Ok []
                 | x :: r => let* e := oencode x in let* t := enc_all r in Ok (e ++ t)
                 end) l in
    Ok (n ++ e)
  end.

(** payload.rs:82-99 [TokenTransferPayload::encode], 164-172 [ContractCallPayload::encode]. *)
Definition enc_otransfer (recipient : oval) (amount : N) (memo : bytes) : own :=
  if 34 <? lenN memo then Err (ClBadStringLength (lenN memo) 34)
  else
    let memo_bytes := memo ++ repeat x00 (34 - length memo) in
    let* a := oencode recipient in
    Ok ([x00] ++ a ++ be_bytes 8 amount ++ memo_bytes).
Definition enc_ocall (addr : address) (contract fname : bytes) (args : list oval) : own :=
  let* c := enc_lps contract in
  let* n := enc_lps fname in
  let* a := oencode (OFnArgs args) in
  Ok ([x02] ++ [addr_version addr] ++ addr_hash addr ++ c ++ n ++ a).

(** condition.rs:175-183 (same at 233-241, 293-301): a value of another type is not a principal, whatever it encodes to. *)
Definition enc_ocond_addr (addr : oval) : res cl_err bytes :=
  match addr with OLib v => enc_cond_addr v | _ => Err ClBadDowncast end.
(** condition.rs:171-189 [STXPostCondition::encode], 229-248 [FungiblePostCondition::encode]. *)
Definition enc_ocond_stx (addr : oval) (amount : N) (code : cond_code) : own :=
  let* a := enc_ocond_addr addr in
  Ok ([x00] ++ a ++ [cond_code_byte code] ++ be_bytes 8 amount).
Definition enc_ocond_ft (addr : oval) (amount : N) (code : cond_code) (info : asset_info) : own :=
  let* a := enc_ocond_addr addr in
  let* i := enc_asset info in
  Ok ([x01] ++ a ++ i ++ [cond_code_byte code] ++ be_bytes 8 amount).
(** condition.rs:289-307 [NonFungiblePostCondition::encode]. *)
Definition enc_ocond_nft (addr name : oval) (code : cond_code) (info : asset_info) : own :=
  let* a := enc_ocond_addr addr in
  let* i := enc_asset info in
  let* n := oencode name in
  Ok ([x02] ++ a ++ i ++ n ++ [cond_code_byte code]).

(** ** Transactions *)

(** base.rs:43-58 [Transaction]. *)
Record otx := {
  o_ver : tx_version; o_chain : chain_id; o_auth : auth; o_anchor : anchor_mode;
  o_pcmode : pc_mode; o_conds : list own; o_payload : own }.
Definition o_with_auth (t : otx) (a : auth) : otx :=
  {| o_ver := o_ver t; o_chain := o_chain t; o_auth := a; o_anchor := o_anchor t;
     o_pcmode := o_pcmode t; o_conds := o_conds t; o_payload := o_payload t |}.

(** condition.rs:93-102 [PostConditions::encode]. *)
Fixpoint enc_oconds_body (l : list own) : res cl_err bytes :=
  match l with
  | [] => Ok []
  | c :: r => let* e := c in let* t := enc_oconds_body r in Ok (e ++ t)
  end.
Definition enc_oconds (l : list own) : res cl_err bytes :=
  let* n := enc_len32 (lenN l) in
  let* b := enc_oconds_body l in
  Ok (n ++ b).

(** base.rs:171-183 [Transaction::encode]. *)
Definition enc_otx (t : otx) : res cl_err bytes :=
  let* a := enc_auth (o_auth t) in
  let* c := enc_oconds (o_conds t) in
  let* p := o_payload t in
  Ok ([tx_version_byte (o_ver t)] ++ be_bytes 4 (chain_id_N (o_chain t)) ++ a
      ++ [anchor_byte (o_anchor t)] ++ [pc_mode_byte (o_pcmode t)] ++ c ++ p).
(** base.rs:92-95 [hash], 113-117 [initial_hash], 108-110 [verify_origin], 98-105 [set_fee], [set_nonce]. *)
Definition otx_hash (t : otx) : res tx_err bytes :=
  let* e := map_err TxClarity (enc_otx t) in Ok (sighash e).
Definition o_initial_hash (t : otx) : res tx_err bytes := otx_hash (o_with_auth t (auth_reset (o_auth t))).
Definition o_verify_origin (E : ecdsa) (t : otx) : res tx_err bytes :=
  let* h := o_initial_hash t in auth_verify_origin E (o_auth t) h.
Definition o_set_fee (t : otx) (fee : N) : otx := o_with_auth t (auth_set_fee (o_auth t) fee).
Definition o_set_nonce (t : otx) (nonce : N) : otx := o_with_auth t (auth_set_nonce (o_auth t) nonce).

(** base.rs:120-126 [sign_next_origin], 129-135 [sign_next_sponsor], 138-145 [append_next_origin]. *)
Definition o_sign_next_origin (E : ecdsa) (t : otx) (hash sk : bytes) : otx * res tx_err bytes :=
  let '(o, r) := sign_and_append E (auth_origin (o_auth t)) hash auth_type_standard sk in
  (o_with_auth t (auth_with_origin (o_auth t) o), r).
Definition o_sign_next_sponsor (E : ecdsa) (t : otx) (hash sk : bytes) : otx * res tx_err bytes :=
  match o_auth t with
  | ASponsored o s =>
    let '(s', r) := sign_and_append E s hash auth_type_sponsored sk in
    (o_with_auth t (ASponsored o s'), r)
  | AStandard _ => (t, Err TxBadModification)
  end.
Definition o_append_next_origin (t : otx) (pk : bytes) : otx * res tx_err unit :=
  let o := auth_origin (o_auth t) in
  match sc_mode o with
  | P2SH | P2WSH =>
    let '(o', r) := modify o (MAddPublicKey pk) in
    (o_with_auth t (auth_with_origin (o_auth t) o'), r)
  | P2PKH | P2WPKH => (t, Err TxBadModification)
  end.

(** ** The signer *)

(** signer.rs:19-30 [TransactionSigner]. *)
Record osigner := { os_tx : otx; os_hash : bytes; os_origin_signed : bool; os_oversign : bool; os_overlap : bool }.
(** signer.rs:34-44 [new], 47-66 [new_sponser]. *)
Definition osigner_new (t : otx) : res tx_err osigner :=
  let* h := o_initial_hash t in
  Ok {| os_tx := t; os_hash := h; os_origin_signed := false; os_oversign := true; os_overlap := true |}.
Definition osigner_new_sponsor (E : ecdsa) (t : otx) (sponsor : scond) : res tx_err osigner :=
  if negb (is_sponsored (o_auth t)) then Err TxBadModification
  else
    let '(a, r) := auth_set_sponsor (o_auth t) sponsor in
    let* _ := r in
    let t' := o_with_auth t a in
    let* h := o_verify_origin E t' in
    let* s := osigner_new t' in
    Ok {| os_tx := os_tx s; os_hash := h; os_origin_signed := true; os_oversign := true; os_overlap := true |}.
(** signer.rs:69-82 [sign_origin]. *)
Definition o_sign_origin (E : ecdsa) (s : osigner) (sk : bytes) : osigner * res tx_err unit :=
  if os_overlap s && os_origin_signed s then (s, Err TxOriginPostSponsorSign)
  else
    let o := auth_origin (o_auth (os_tx s)) in
    let over := if os_oversign s then let* n := signatures o in Ok (req_signatures o <=? n) else Ok false in
    match over with
    | Ok true => (s, Err TxOriginOversign)
    | Ok false =>
      let '(t, r) := o_sign_next_origin E (os_tx s) (os_hash s) sk in
      match r with
      | Ok h => ({| os_tx := t; os_hash := h; os_origin_signed := os_origin_signed s;
                    os_oversign := os_oversign s; os_overlap := os_overlap s |}, Ok tt)
      | Err e => ({| os_tx := t; os_hash := os_hash s; os_origin_signed := os_origin_signed s;
                     os_oversign := os_oversign s; os_overlap := os_overlap s |}, Err e)
      | Panic p => (s, Panic p)
      | NoFuel => (s, NoFuel)
      end
    | Err e => (s, Err e)
    | Panic p => (s, Panic p)
    | NoFuel => (s, NoFuel)
    end.
(** signer.rs:85-96 [sign_sponsor]. *)
Definition o_sign_sponsor (E : ecdsa) (s : osigner) (sk : bytes) : osigner * res tx_err unit :=
  let over :=
    let* sp := auth_sponsor (o_auth (os_tx s)) in
    if os_oversign s then let* n := signatures sp in Ok (req_signatures sp <=? n) else Ok false in
  match over with
  | Ok true => (s, Err TxSponsorOversign)
  | Ok false =>
    let '(t, r) := o_sign_next_sponsor E (os_tx s) (os_hash s) sk in
    match r with
    | Ok h => ({| os_tx := t; os_hash := h; os_origin_signed := true;
                  os_oversign := os_oversign s; os_overlap := os_overlap s |}, Ok tt)
    | Err e => ({| os_tx := t; os_hash := os_hash s; os_origin_signed := os_origin_signed s;
                   os_oversign := os_oversign s; os_overlap := os_overlap s |}, Err e)
    | Panic p => (s, Panic p)
    | NoFuel => (s, NoFuel)
    end
  | Err e => (s, Err e)
  | Panic p => (s, Panic p)
  | NoFuel => (s, NoFuel)
  end.
(** signer.rs:99-105 [append_origin]. *)
Definition o_append_origin (s : osigner) (pk : bytes) : osigner * res tx_err unit :=
  if os_overlap s && os_origin_signed s then (s, Err TxOriginPostSponsorAppend)
  else
    let '(t, r) := o_append_next_origin (os_tx s) pk in
    ({| os_tx := t; os_hash := os_hash s; os_origin_signed := os_origin_signed s;
        os_oversign := os_oversign s; os_overlap := os_overlap s |}, r).
(** base.rs:85-89 [Transaction::sign]. *)
Definition otx_sign (E : ecdsa) (t : otx) (sk : bytes) : res tx_err otx :=
  let* s := osigner_new t in
  let '(s', r) := o_sign_origin E s sk in
  let* _ := r in
  Ok (os_tx s').

(** ** Builders *)

(** network.rs:33-40 [Network]: what the builders ask of a network. *)
Record onet := { on_version : tx_version; on_chain : chain_id }.
(** builder.rs:29-73 [STXTokenTransfer], 81-101 [transaction]. *)
Record own_transfer := {
  ot_recipient : oval; ot_amount : N; ot_sender : bytes; ot_network : onet; ot_fee : N; ot_nonce : N;
  ot_anchor : anchor_mode; ot_memo : bytes; ot_pcmode : pc_mode; ot_conds : list own; ot_sponsored : bool }.
Definition obuild_transfer {X} (E : ecdsa) (b : own_transfer) : res X otx :=
  let pk := pubkey_of E (ot_sender b) in
  let pl := enc_otransfer (ot_recipient b) (ot_amount b) (ot_memo b) in
  let* c := std_new pk (ot_fee b) (ot_nonce b) P2PKH in
  if ot_sponsored b then Panic PUnimplemented
  else Ok {| o_ver := on_version (ot_network b); o_chain := on_chain (ot_network b);
             o_auth := AStandard (SStd c); o_anchor := ot_anchor b; o_pcmode := ot_pcmode b;
             o_conds := ot_conds b; o_payload := pl |}.
(** builder.rs:105-150 [STXContractCall], 157-181 [transaction]. *)
Record own_call := {
  oc_address : bytes; oc_contract : bytes; oc_fname : bytes; oc_args : list oval; oc_sender : bytes; oc_network : onet;
  oc_fee : N; oc_nonce : N; oc_anchor : anchor_mode; oc_pcmode : pc_mode; oc_conds : list own; oc_sponsored : bool }.
Definition obuild_call (E : ecdsa) (b : own_call) : res cl_err otx :=
  let pk := pubkey_of E (oc_sender b) in
  let* addr := map_err ClC32 (address_from_str (oc_address b)) in
  let pl := enc_ocall addr (oc_contract b) (oc_fname b) (oc_args b) in
  let* c := std_new pk (oc_fee b) (oc_nonce b) P2PKH in
  if oc_sponsored b then Panic PUnimplemented
  else Ok {| o_ver := on_version (oc_network b); o_chain := on_chain (oc_network b);
             o_auth := AStandard (SStd c); o_anchor := oc_anchor b; o_pcmode := oc_pcmode b;
             o_conds := oc_conds b; o_payload := pl |}.

(** ** Requests *)

(** rpc.rs:211-213, 228-231: the requests of [estimate_fee] and [broadcast]. *)
Definition o_estimate_request (url : bytes) (t : otx) : res rpc_err request :=
  let* p := map_err RClarity (o_payload t) in
  let* e := map_err RClarity (enc_otx t) in
  Ok {| rq_post := true; rq_url := url ++ str "/v2/fees/transaction"; rq_headers := [];
        rq_body := BJson (JObj [(str "transaction_payload", JStr (bytes_to_hex p));
                                (str "estimated_len", JInt (Z.of_N (lenN e)))]) |}.
Definition o_broadcast_request (url : bytes) (t : otx) : res rpc_err request :=
  let* e := map_err RClarity (enc_otx t) in
  Ok {| rq_post := true; rq_url := url ++ str "/v2/transactions";
        rq_headers := [(str "Content-Type", str "application/octet-stream")];
        rq_body := BBytes e |}.
(** rpc.rs:263-266, 255-271: the request of [read_only], whose arguments are [Box<dyn Clarity>]. *)
Fixpoint o_hex_args (l : list oval) : res cl_err (list bytes) :=
  match l with
  | [] => Ok []
  | a :: r => let* e := oencode a in let* t := o_hex_args r in Ok (bytes_to_hex e :: t)
  end.
Definition o_read_only_request (url addr name fname : bytes) (args : list oval) (sender : bytes) : res rpc_err request :=
  let* hs := map_err RClarity (o_hex_args args) in
  Ok {| rq_post := true;
        rq_url := url ++ str "/v2/contracts/call-read/" ++ addr ++ str "/" ++ name ++ str "/" ++ fname;
        rq_headers := [];
        rq_body := BJson (JObj [(str "sender", JStr sender); (str "arguments", JArr (map JStr hs))]) |}.
