(** Specification of the node's side: whether the bytes of a transaction pass the layout, network and authorization
    checks of SIP-005 ("Transaction Encoding", "Transaction signing and verifying").  Everything is stated on the wire
    format of SpecTx.v; nothing here refers to the library's signing or verification code.  The admission rules for
    names, Clarity values and account balances are not part of it. *)

From Verif Require Import Base Sha2 SpecText SpecWire C32 Hash Tx SpecTx Builder SpecSign.
Local Open Scope N_scope.

(** A number in a Bitcoin script: OP_0, OP_1 to OP_16, or a push of its little-endian bytes with a clear sign bit. *)
Definition push_number (n : N) : bytes :=
  if n =? 0 then [x00]
  else if n <=? 16 then [octet (80 + n)]
  else if n <? 128 then [x01; octet n]
  else if n <? 32768 then [x02; octet n; octet (n / 256)]
  else [x03; octet n; octet (n / 256); octet (n / 65536)].

(** The script of an m-of-n multi-signature: m, the keys, n, OP_CHECKMULTISIG. *)
Definition node_script (m : N) (keys : list bytes) : bytes :=
  push_number m ++ flat_map (fun k => octet (count k) :: k) keys ++ push_number (count keys) ++ [xae].

(** Hash of a key, and of a script, for each hash mode. *)
Definition node_key_hash (mode : byte) (pk : bytes) : option bytes :=
  match mode with
  | x00 => Some (hash20 pk)
  | x02 => Some (hash20 (x00 :: x14 :: hash20 pk))
  | _ => None
  end.
Definition node_script_hash (mode : byte) (s : bytes) : option bytes :=
  match mode with
  | x01 => Some (hash20 s)
  | x03 => Some (hash20 (x00 :: x20 :: sha256 s))
  | _ => None
  end.

(** The fields of a condition from the hash [h]: keys in order, number of signatures, resulting hash. *)
Inductive walk (E : ecdsa) (typ : byte) (fee nonce : N) : bytes -> list wfield -> list bytes -> N -> bytes -> Prop :=
| walk_nil h : walk E typ fee nonce h [] [] 0 h
| walk_key h pk fs ks n h' :
    walk E typ fee nonce h fs ks n h' -> walk E typ fee nonce h (WfKey pk :: fs) (pk :: ks) n h'
| walk_sig h sig pk fs ks n h' :
    recovers E (digest h typ fee nonce) sig pk ->
    walk E typ fee nonce (link (digest h typ fee nonce) sig) fs ks n h' ->
    walk E typ fee nonce h (WfSig sig :: fs) (pk :: ks) (n + 1) h'.

(** A condition passes for the hash [h]; exactly the required number of signatures. *)
Inductive node_spend (E : ecdsa) (typ : byte) (h : bytes) : wspend -> bytes -> Prop :=
| node_single mode signer nonce fee sig pk :
    recovers E (digest h typ fee nonce) sig pk -> node_key_hash mode pk = Some signer ->
    node_spend E typ h (WsSingle mode signer nonce fee sig) (link (digest h typ fee nonce) sig)
| node_multi mode signer nonce fee fields required ks h' :
    walk E typ fee nonce h fields ks required h' -> node_script_hash mode (node_script required ks) = Some signer ->
    node_spend E typ h (WsMulti mode signer nonce fee fields required) h'.

(** Origin first, then the sponsor on the hash that the origin leaves. *)
Definition node_auth (E : ecdsa) (h : bytes) (a : wauth) : Prop :=
  match a with
  | WaStandard o => exists h', node_spend E x04 h o h'
  | WaSponsored o p => exists h1 h2, node_spend E x04 h o h1 /\ node_spend E x05 h1 p h2
  end.

(** Version and chain id a node of the network insists on. *)
Definition node_network (n : network) (w : wtx) : Prop :=
  match n with
  | NetMainnet => w_version w = x00 /\ w_chain w = 1
  | _ => w_version w = x80 /\ w_chain w = 2147483648
  end.

Definition node_accepts (E : ecdsa) (n : network) (b : bytes) : Prop :=
  exists w, b = ser_tx w /\ wf_tx w /\ node_network n w /\ node_auth E (sha512_256 (ser_tx (clear_tx w))) (w_auth w).

(** ** The library's transactions *)

(** Threshold and number of keys are those a Bitcoin script can express with OP_1 to OP_16. *)
Definition small (c : scond) : Prop :=
  match c with SStd _ => True | SMulti m => 1 <= Byte.to_N (ms_required m) <= 16 /\ 1 <= count (ms_fields m) <= 16 end.
Definition small_tx (t : tx) : Prop := small (origin_of t) /\ forall p, sponsor_of t = Some p -> small p.

(** As many signatures as required, not more. *)
Definition exact_count (c : scond) : Prop := match c with SStd _ => True | SMulti m => held (SMulti m) = threshold (SMulti m) end.
Definition exact_tx (t : tx) : Prop := exact_count (origin_of t) /\ forall p, sponsor_of t = Some p -> exact_count p.

(** What the library says about a transaction: origin verification, or full verification if it is sponsored. *)
Definition verified (E : ecdsa) (t : tx) : Prop :=
  match tx_auth t with
  | AStandard _ => exists g, tx_verify_origin E t = Ok g
  | ASponsored _ _ => exists h, initial_hash t = Ok h /\ auth_verify E (tx_auth t) h = Ok tt
  end.
