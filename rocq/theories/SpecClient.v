(** Specification of the wallet, of structs derived from tuples and of the node client.  Literal texts and
    constants; no reference to the model's readers. *)

From Coq Require Import Strings.String.
From Verif Require Import Base C32 Hash SpecText SpecAddr Clarity SpecWire SpecShow Tx SpecTx SpecSign Wallet Derive F64 Rpc SpecJson SpecF64.
Local Open Scope N_scope.

(** ** Wallets *)

Inductive wop (H : hd) := Look (i : N) | Store (i : N) (a : account H).
Arguments Look {H} _.
Arguments Store {H} _ _.

(** The wallet after a history of calls. *)
Definition wstep {H} (w : wallet H) (o : wop H) : wallet H :=
  match o with Look i => fst (get_account w i) | Store i a => set_account w i a end.
Definition wrun {H} (w : wallet H) (l : list (wop H)) : wallet H := fold_left wstep l w.

(** The account most recently stored under [i]. *)
Fixpoint stored {H} (l : list (wop H)) (i : N) : option (account H) :=
  match l with
  | [] => None
  | o :: r =>
    match stored r i with
    | Some a => Some a
    | None => match o with Store j a => if i =? j then Some a else None | Look _ => None end
    end
  end.

(** What a look-up of [i] returns: but for stored accounts, the child of the root key. *)
Definition looked_up {H} (root : xprv H) (l : list (wop H)) (i : N) : res (wallet_err H) (account H) :=
  match stored l i with
  | Some a => Ok a
  | None => match derive_child H root i with inr x => Ok {| acc_ext := x; acc_index := i |} | inl e => Err (WHd e) end
  end.

Definition is_store {H} (o : wop H) : bool := match o with Store _ _ => true | Look _ => false end.

(** Version numbers of the four kinds of address. *)
Definition address_code (v : c32_version) : byte :=
  match v with MainnetP2PKH => x16 | MainnetP2SH => x14 | TestnetP2PKH => x1a | TestnetP2SH => x15 end.

(** What theorems assume of the [bip32] crate when they assume anything: private keys are valid, and the
    public key is the one belonging to the private key. *)
Record hd_correct (E : ecdsa) (H : hd) : Prop := {
  hd_key : forall x, valid_key (xprv_bytes H x);
  hd_pub : forall x, pubkey_of E (xprv_bytes H x) = xpub_bytes H x;
  hd_point : forall x, point_ok H (xpub_bytes H x) = true
}.

(** ** Structs derived from tuples *)

(** [v] is the first value under key [k]; none. *)
Definition under (k : bytes) (t : entries) (v : cval) : Prop :=
  exists a b, t = a ++ (k, v) :: b /\ ~ In k (map fst a).
Definition missing (k : bytes) (t : entries) : Prop := ~ In k (map fst t).

(** Field [x] of type [ft] and key [k], filled from the tuple [t]. *)
Fixpoint fills (t : entries) (k : bytes) (ft : fty) (x : fval) : Prop :=
  match ft, x with
  | FI128, VI128 z => under k t (CInt z)
  | FI128Resp, VI128 z => under k t (CRespOk (CInt z))
  | FU128, VU128 n => under k t (CUInt n)
  | FU128Resp, VU128 n => under k t (CRespOk (CUInt n))
  | FBool, VBool b => under k t (if b then CTrue else CFalse)
  | FString, VString s => exists v, under k t v /\ shows v s
  | FVecU8, VBytes b => under k t (CBuffer b)
  | FVecString, VStrings ss => exists l, under k t (CList l) /\ every2 shows l ss
  | FOptI128, VOptI (Some z) => under k t (CSome (CInt z))
  | FOptI128, VOptI None => exists v, under k t v /\ forall z, v <> CSome (CInt z)
  | FOptU128, VOptU (Some n) => under k t (CSome (CUInt n))
  | FOptU128, VOptU None => exists v, under k t v /\ forall n, v <> CSome (CUInt n)
  | FOptString, VOptS (Some s) => exists v, under k t (CSome v) /\ shows v s
  | FOptString, VOptS None => forall v, ~ under k t (CSome v)
  | FStruct _ fields, VStruct xs =>
    exists t', under k t (CTuple t') /\ every2 (fun f y => fills t' (fst f) (snd f) y) fields xs
  | _, _ => False
  end.
Definition fills_all (t : entries) (fields : list (bytes * fty)) (xs : list fval) : Prop :=
  every2 (fun f y => fills t (fst f) (snd f) y) fields xs.

(** The only field type that tolerates an absent key. *)
Definition needs_key (ft : fty) : Prop := ft <> FOptString.

(** The values a plain field type accepts. *)
Definition plain_accepts (ft : fty) (v : cval) : Prop :=
  match ft, v with
  | FI128, CInt _ | FU128, CUInt _ | FBool, CTrue | FBool, CFalse | FVecU8, CBuffer _ => True
  | _, _ => False
  end.

(** Why field [k] of struct [s] is not filled: absent, not of the field's type, or for a nested struct its first
    field that is not filled. *)
Inductive fails : bytes -> entries -> bytes -> fty -> de_err -> Prop :=
| fail_missing s t k ft : needs_key ft -> missing k t -> fails s t k ft (DeExtract k s)
| fail_match s t k ft v : In ft [FI128; FU128; FBool; FVecU8] -> under k t v -> ~ plain_accepts ft v -> fails s t k ft (DeMatch k s)
| fail_response s t k ft v : In ft [FI128Resp; FU128Resp] -> under k t v -> (forall x, v <> CRespOk x) ->
    fails s t k ft (DeCast k (str "ResponseOk"%string) s)
| fail_int s t k v : under k t (CRespOk v) -> (forall z, v <> CInt z) -> fails s t k FI128Resp (DeCast k (str "Int"%string) s)
| fail_uint s t k v : under k t (CRespOk v) -> (forall n, v <> CUInt n) -> fails s t k FU128Resp (DeCast k (str "UInt"%string) s)
| fail_list s t k v : under k t v -> (forall l, v <> CList l) -> fails s t k FVecString (DeCast k (str "List"%string) (str "Vec"%string))
| fail_tuple s t k name fields v : under k t v -> (forall l, v <> CTuple l) ->
    fails s t k (FStruct name fields) (DeCast k (str "Tuple"%string) name)
| fail_nested s t k name before k' ft after t' xs e : under k t (CTuple t') -> fills_all t' before xs -> fails name t' k' ft e ->
    fails s t k (FStruct name (before ++ (k', ft) :: after)) e.

(** The error of a whole struct: that of its first field that is not filled. *)
Definition fails_all (s : bytes) (t : entries) (fields : list (bytes * fty)) (e : de_err) : Prop :=
  exists before k ft after xs, fields = before ++ (k, ft) :: after /\ fills_all t before xs /\ fails s t k ft e.

(** ** Node responses *)

(** [v] is the value of the only member [k] of an object. *)
Definition member (l : list (bytes * json)) (k : bytes) (v : json) : Prop :=
  exists a b, l = a ++ (k, v) :: b /\ ~ In k (map fst a) /\ ~ In k (map fst b).

(** [j] has the members [ks] with values [vs]: an object with each of them exactly once, or the bare values in order. *)
Definition record_of (ks : list bytes) (j : json) (vs : list json) : Prop :=
  (exists l, j = JObj l /\ Forall2 (member l) ks vs) \/ (j = JArr vs /\ length vs = length ks).

Definition number (n : N) : json := JInt (Z.of_N n).

Definition info_json (j : json) (i : node_info) : Prop :=
  record_of (map str ["peer_version"; "pox_consensus"; "burn_block_height"; "stable_pox_consensus"; "stable_burn_block_height";
                      "server_version"; "network_id"; "parent_network_id"; "stacks_tip_height"; "stacks_tip";
                      "stacks_tip_consensus_hash"; "genesis_chainstate_hash"]%string) j
    [number (ni_peer_version i); JStr (ni_pox_consensus i); number (ni_burn_height i); JStr (ni_stable_pox i);
     number (ni_stable_burn_height i); JStr (ni_server_version i); number (ni_network i); number (ni_parent_network i);
     number (ni_tip_height i); JStr (ni_tip i); JStr (ni_tip_consensus i); JStr (ni_genesis i)]
  /\ ni_peer_version i < 2 ^ 64 /\ ni_burn_height i < 2 ^ 64 /\ ni_stable_burn_height i < 2 ^ 64
  /\ ni_network i < 2 ^ 32 /\ ni_parent_network i < 2 ^ 32 /\ ni_tip_height i < 2 ^ 64.

Definition address_json (j : json) (a : address_info) : Prop :=
  record_of (map str ["balance"; "locked"; "unlock_height"; "nonce"; "balance_proof"; "nonce_proof"]%string) j
    [JStr (ad_balance a); JStr (ad_locked a); number (ad_unlock a); number (ad_nonce a); JStr (ad_balance_proof a);
     JStr (ad_nonce_proof a)]
  /\ ad_unlock a < 2 ^ 64 /\ ad_nonce a < 2 ^ 64.

Definition estimate_json (j : json) (e : fee_estimate) : Prop :=
  exists r, record_of (map str ["fee"; "fee_rate"]%string) j [number (fe_fee e); r] /\ fe_fee e < 2 ^ 64 /\ rate_of r (fe_rate e).
Definition fees_json (j : json) (es : list fee_estimate) : Prop :=
  exists l, record_of [str "estimations"%string] j [JArr l] /\ Forall2 estimate_json l es.

Definition rejection_json (j : json) (e : broadcast_err) : Prop :=
  record_of (map str ["error"; "reason"; "txid"]%string) j [JStr (be_error e); JStr (be_reason e); JStr (be_txid e)].

(** A read-only call: a result wins over a cause. *)
Definition result_json (j : json) (okay : bool) (r : bytes) : Prop :=
  record_of (map str ["okay"; "result"]%string) j [JBool okay; JStr r].
Definition cause_json (j : json) (okay : bool) (c : bytes) : Prop :=
  record_of (map str ["okay"; "cause"]%string) j [JBool okay; JStr c].
Definition read_only_json (j : json) (r : read_only_resp) : Prop :=
  match r with
  | ROk okay s => result_json j okay s
  | RErr okay c => cause_json j okay c /\ forall o s, ~ result_json j o s
  end.

(** A response read as [P]: its value, or an I/O error when there is none. *)
Definition read_as {A B} (P : json -> A -> Prop) (k : A -> B) (r : response) (out : res rpc_err B) : Prop :=
  (exists j a, rs_json r = Some j /\ P j a /\ out = Ok (k a))
  \/ ((forall j a, rs_json r = Some j -> ~ P j a) /\ out = Err RIo).
Definition read_text {B} (k : bytes -> B) (r : response) (out : res rpc_err B) : Prop :=
  out = match rs_text r with Some s => Ok (k s) | None => Err RIo end.

(** How each method turns the outcome of its request into its result. *)
Definition plain_result {A} (P : json -> A -> Prop) (o : outcome) (out : res rpc_err A) : Prop :=
  match o with
  | OOk r => read_as P (fun a => a) r out
  | OStatus c _ => out = Err (RUreq (Some c))
  | OTransport => out = Err (RUreq None)
  end.
Definition broadcast_result (o : outcome) (out : res rpc_err broadcast_resp) : Prop :=
  match o with
  | OOk r => read_text BcOk r out
  | OStatus _ r => read_as rejection_json BcErr r out
  | OTransport => out = Err (RUreq None)
  end.
Definition estimate_result (o : outcome) (out : res rpc_err estimate_resp) : Prop :=
  match o with
  | OOk r => read_as fees_json EsOk r out
  | OStatus _ r => read_text EsErr r out
  | OTransport => out = Err (RUreq None)
  end.

(** ** Requests *)

Definition get (url : bytes) : request := {| rq_post := false; rq_url := url; rq_headers := []; rq_body := BNone |}.
Definition post_json (url : bytes) (j : json) : request := {| rq_post := true; rq_url := url; rq_headers := []; rq_body := BJson j |}.
Definition post_bytes (url : bytes) (b : bytes) : request :=
  {| rq_post := true; rq_url := url; rq_headers := [(str "Content-Type"%string, str "application/octet-stream"%string)];
     rq_body := BBytes b |}.
Definition fee_question (w : wtx) : json :=
  JObj [(str "transaction_payload"%string, JStr (hex_text (ser_payload (w_payload w))));
        (str "estimated_len"%string, number (count (ser_tx w)))].
Definition call_question (sender : bytes) (args : list wval) : json :=
  JObj [(str "sender"%string, JStr sender); (str "arguments"%string, JArr (map (fun w => JStr (hex_text (wser w))) args))].
