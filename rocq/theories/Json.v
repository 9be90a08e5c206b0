(** Model of the JSON text of requests and of stored responses (rpc.rs), and of the derived [Serialize].

    rpc.rs hands JSON to the crates [ureq] and [serde_json]: [send_json(ureq::json!(..))] (rpc.rs:212-213, 268-271) sends the
    compact text of a [serde_json::Value], and the responses derive [Serialize] (rpc.rs:34-178).  Modelled here: the compact
    formatter of [serde_json], the key order of its [Map] (a [BTreeMap] unless the feature [preserve_order] is on), and what
    [derive(Serialize)] generates.  Floating-point numbers are written as in F64Show.v. *)

From Coq Require Import Strings.String.
From Verif Require Import Base Clarity F64 F64Show Rpc.
Local Open Scope string_scope.
Local Open Scope list_scope.
Local Open Scope N_scope.

(** [format_escaped_str]: the five short escapes of control characters, quote and backslash, \u00xx for the other
    control characters; everything else as it is. *)
Definition hex_digit (n : N) : byte := n2b (if n <? 10 then 48 + n else 87 + n).
Definition escape (b : byte) : bytes :=
  match b with
  | x22 => [x5c; x22] | x5c => [x5c; x5c]
  | x08 => [x5c; x62] | x09 => [x5c; x74] | x0a => [x5c; x6e] | x0c => [x5c; x66] | x0d => [x5c; x72]
  | _ => if b2n b <? 32 then str "\u00" ++ [hex_digit (b2n b / 16); hex_digit (b2n b mod 16)] else [b]
  end.
Definition quoted (s : bytes) : bytes := x22 :: flat_map escape s ++ [x22].

(** Items separated by commas. *)
Fixpoint commas (l : list bytes) : bytes :=
  match l with
  | [] => []
  | [x] => x
  | x :: r => x ++ x2c :: commas r
  end.

(** [to_string] / [to_vec]. *)
Fixpoint json_text (j : json) : bytes :=
  match j with
  | JNull => str "null"
  | JBool true => str "true"
  | JBool false => str "false"
  | JInt z => show_Z z
  | JFloat t => t
  | JStr s => quoted s
  | JArr l => x5b :: commas (map json_text l) ++ [x5d]
  | JObj l => x7b :: commas (map (fun '(k, v) => quoted k ++ x3a :: json_text v) l) ++ [x7d]
  end.

(** [Map::insert]: keys in byte order, a repeated key overwritten. *)
Fixpoint bytes_ltb (a b : bytes) : bool :=
  match a, b with
  | _, [] => false
  | [], _ => true
  | x :: r, y :: t => (b2n x <? b2n y) || ((b2n x =? b2n y) && bytes_ltb r t)
  end.
Fixpoint map_insert (k : bytes) (v : json) (l : list (bytes * json)) : list (bytes * json) :=
  match l with
  | [] => [(k, v)]
  | (k', v') :: r =>
    if bytes_ltb k k' then (k, v) :: l
    else if bytes_eqb k k' then (k, v) :: r
    else (k', v') :: map_insert k v r
  end.
Definition json_map (l : list (bytes * json)) : list (bytes * json) :=
  fold_left (fun m '(k, v) => map_insert k v m) l [].

(** The bytes that follow the headers of a request: rpc.rs:213 and 268 [send_json] of an object, 230 [send_bytes]. *)
Definition body_bytes (b : body) : bytes :=
  match b with
  | BNone => []
  | BBytes bs => bs
  | BJson (JObj l) => json_text (JObj (json_map l))
  | BJson j => json_text j
  end.

(** [derive(Serialize)]: the fields in order of declaration; [#[serde(untagged)]] enums as what they hold. *)
Definition jnum (n : N) : json := JInt (Z.of_N n).
(** rpc.rs:34-60. *)
Definition info_value (i : node_info) : json :=
  JObj [(str "peer_version", jnum (ni_peer_version i)); (str "pox_consensus", JStr (ni_pox_consensus i));
        (str "burn_block_height", jnum (ni_burn_height i)); (str "stable_pox_consensus", JStr (ni_stable_pox i));
        (str "stable_burn_block_height", jnum (ni_stable_burn_height i)); (str "server_version", JStr (ni_server_version i));
        (str "network_id", jnum (ni_network i)); (str "parent_network_id", jnum (ni_parent_network i));
        (str "stacks_tip_height", jnum (ni_tip_height i)); (str "stacks_tip", JStr (ni_tip i));
        (str "stacks_tip_consensus_hash", JStr (ni_tip_consensus i)); (str "genesis_chainstate_hash", JStr (ni_genesis i))].
(** rpc.rs:62-76. *)
Definition address_value (a : address_info) : json :=
  JObj [(str "balance", JStr (ad_balance a)); (str "locked", JStr (ad_locked a)); (str "unlock_height", jnum (ad_unlock a));
        (str "nonce", jnum (ad_nonce a)); (str "balance_proof", JStr (ad_balance_proof a)); (str "nonce_proof", JStr (ad_nonce_proof a))].
(** rpc.rs:79-106.  [serialize_f64] writes null for a rate that is infinite or not a number. *)
Definition rate_value (r : f64) : json := match r with Fin neg v => JFloat (f64_text neg v) | _ => JNull end.
Definition estimate_value (e : fee_estimate) : json := JObj [(str "fee", jnum (fe_fee e)); (str "fee_rate", rate_value (fe_rate e))].
Definition fees_value (l : list fee_estimate) : json := JObj [(str "estimations", JArr (map estimate_value l))].
(** rpc.rs:109-140. *)
Definition rejection_value (e : broadcast_err) : json :=
  JObj [(str "error", JStr (be_error e)); (str "reason", JStr (be_reason e)); (str "txid", JStr (be_txid e))].
Definition broadcast_value (r : broadcast_resp) : json :=
  match r with BcOk s => JStr s | BcErr e => rejection_value e end.
(** rpc.rs:149-178. *)
Definition read_only_value (r : read_only_resp) : json :=
  match r with
  | ROk b s => JObj [(str "okay", JBool b); (str "result", JStr s)]
  | RErr b s => JObj [(str "okay", JBool b); (str "cause", JStr s)]
  end.

(** [derive(Deserialize)] of the untagged enums not read by a method (rpc.rs:79-90, 109-121): the variants in order. *)
Definition read_broadcast (j : json) : option broadcast_resp :=
  match as_str j with
  | Some s => Some (BcOk s)
  | None => match parse_broadcast_err j with Some e => Some (BcErr e) | None => None end
  end.
Definition read_estimate (j : json) : option estimate_resp :=
  match parse_fee_ok j with
  | Some l => Some (EsOk l)
  | None => match as_str j with Some s => Some (EsErr s) | None => None end
  end.
