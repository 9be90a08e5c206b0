(** Model of the comparisons the library derives ([PartialEq], [PartialOrd], [Ord]): hashes, signatures, spending conditions,
    codes, responses, accounts and wallets.  Post-conditions, payloads and builders are in Debug.v.

    Derived comparisons go through the fields in the order of their declaration and stop at the first difference; variants of
    an enum are ordered by their discriminants.  [PublicKey] is compared by its 33 bytes (secp256k1_ec_pubkey_cmp). *)

From Coq Require Import ZArith.
From Verif Require Import Base Hash C32 Tx Builder Wallet F64 Rpc.
Local Open Scope N_scope.

(** [Ord] of [u8], of arrays, slices and strings of bytes. *)
Definition byte_cmp (a b : byte) : comparison := b2n a ?= b2n b.
Fixpoint list_cmp {A} (c : A -> A -> comparison) (a b : list A) : comparison :=
  match a, b with
  | [], [] => Eq
  | [], _ :: _ => Lt
  | _ :: _, [] => Gt
  | x :: a', y :: b' => match c x y with Eq => list_cmp c a' b' | d => d end
  end.
Definition bytes_cmp : bytes -> bytes -> comparison := list_cmp byte_cmp.
Definition bool_cmp (a b : bool) : comparison :=
  match a, b with false, true => Lt | true, false => Gt | _, _ => Eq end.
(** One field after the other. *)
Definition then_cmp (c d : comparison) : comparison := match c with Eq => d | _ => c end.
Local Notation "c ;; d" := (then_cmp c d) (at level 61, right associativity).

(** hash.rs:35-36: [Sha256Hash], [Hash160], [MessageSignature] and the other byte arrays. *)
Definition hash_cmp : bytes -> bytes -> comparison := bytes_cmp.
(** c32.rs:82 [Address]: equality only. *)

(** c32.rs:56 [Mode], 69 [Version]; network.rs:20 [TransactionVersion], 27 [ChainID]; base.rs:31 [AnchorMode]; condition.rs:58
    [ConditionCode], 78 [PostConditionMode]. *)
Definition mode_cmp (a b : hmode) : comparison := byte_cmp (mode_byte a) (mode_byte b).
Definition version_cmp (a b : c32_version) : comparison := byte_cmp (version_byte a) (version_byte b).
Definition tx_version_cmp (a b : tx_version) : comparison := byte_cmp (tx_version_byte a) (tx_version_byte b).
Definition chain_cmp (a b : chain_id) : comparison := chain_id_N a ?= chain_id_N b.
Definition anchor_cmp (a b : anchor_mode) : comparison := byte_cmp (anchor_byte a) (anchor_byte b).
Definition code_cmp (a b : cond_code) : comparison := byte_cmp (cond_code_byte a) (cond_code_byte b).
Definition pcmode_cmp (a b : pc_mode) : comparison := byte_cmp (pc_mode_byte a) (pc_mode_byte b).

(** auth.rs:223-235 [SpendingConditionStandard], 359-365 [AuthField], 368-382 [SpendingConditionMultiSig]. *)
Definition std_cmp (a b : sc_std) : comparison :=
  mode_cmp (std_mode a) (std_mode b) ;; (std_fee a ?= std_fee b) ;; (std_nonce a ?= std_nonce b)
  ;; hash_cmp (std_signer a) (std_signer b) ;; hash_cmp (std_sig a) (std_sig b).
Definition field_cmp (a b : auth_field) : comparison :=
  match a, b with
  | FPk p, FPk q => bytes_cmp p q
  | FSig s, FSig t => hash_cmp s t
  | FPk _, FSig _ => Lt
  | FSig _, FPk _ => Gt
  end.
Definition multi_cmp (a b : sc_multi) : comparison :=
  mode_cmp (ms_mode a) (ms_mode b) ;; (ms_fee a ?= ms_fee b) ;; (ms_nonce a ?= ms_nonce b)
  ;; hash_cmp (ms_signer a) (ms_signer b) ;; list_cmp field_cmp (ms_fields a) (ms_fields b)
  ;; byte_cmp (ms_required a) (ms_required b).

(** auth.rs:65-75 [Modification]: in the order of the variants. *)
Definition mod_rank (m : modification) : N :=
  match m with MSetPublicKey _ => 0 | MSetSignature _ => 1 | MAddPublicKey _ => 2 | MAddSignature _ => 3 end.
Definition modification_cmp (a b : modification) : comparison :=
  match a, b with
  | MSetPublicKey p, MSetPublicKey q => bytes_cmp p q
  | MSetSignature s, MSetSignature t => hash_cmp s t
  | MAddPublicKey p, MAddPublicKey q => bytes_cmp p q
  | MAddSignature s, MAddSignature t => hash_cmp s t
  | _, _ => mod_rank a ?= mod_rank b
  end.
(** network.rs:67-71: a network is its version and chain id; only networks of one type can be compared. *)
Definition network_cmp (a b : network) : comparison :=
  tx_version_cmp (net_version a) (net_version b) ;; chain_cmp (net_chain a) (net_chain b).
(** b58.rs:48-58 [Version]. *)
Inductive b58_version := BMainnetP2PKH | BMainnetP2SH | BTestnetP2PKH | BTestnetP2SH.
Definition b58_version_N (v : b58_version) : N :=
  match v with BMainnetP2PKH => 0 | BMainnetP2SH => 5 | BTestnetP2PKH => 111 | BTestnetP2SH => 196 end.
Definition b58_version_cmp (a b : b58_version) : comparison := b58_version_N a ?= b58_version_N b.

(** rpc.rs:34-60 [NodeInfoResponse], 62-76 [AddressInfoResponse]. *)
Definition info_cmp (a b : node_info) : comparison :=
  (ni_peer_version a ?= ni_peer_version b) ;; bytes_cmp (ni_pox_consensus a) (ni_pox_consensus b)
  ;; (ni_burn_height a ?= ni_burn_height b) ;; bytes_cmp (ni_stable_pox a) (ni_stable_pox b)
  ;; (ni_stable_burn_height a ?= ni_stable_burn_height b) ;; bytes_cmp (ni_server_version a) (ni_server_version b)
  ;; (ni_network a ?= ni_network b) ;; (ni_parent_network a ?= ni_parent_network b)
  ;; (ni_tip_height a ?= ni_tip_height b) ;; bytes_cmp (ni_tip a) (ni_tip b)
  ;; bytes_cmp (ni_tip_consensus a) (ni_tip_consensus b) ;; bytes_cmp (ni_genesis a) (ni_genesis b).
Definition address_info_cmp (a b : address_info) : comparison :=
  bytes_cmp (ad_balance a) (ad_balance b) ;; bytes_cmp (ad_locked a) (ad_locked b) ;; (ad_unlock a ?= ad_unlock b)
  ;; (ad_nonce a ?= ad_nonce b) ;; bytes_cmp (ad_balance_proof a) (ad_balance_proof b)
  ;; bytes_cmp (ad_nonce_proof a) (ad_nonce_proof b).
(** rpc.rs:109-119 [BroadcastResponse], 132-140 [BroadcastErr], 149-161 [ReadOnlyResponse], 163-178. *)
Definition broadcast_err_cmp (a b : broadcast_err) : comparison :=
  bytes_cmp (be_error a) (be_error b) ;; bytes_cmp (be_reason a) (be_reason b) ;; bytes_cmp (be_txid a) (be_txid b).
Definition broadcast_cmp (a b : broadcast_resp) : comparison :=
  match a, b with
  | BcOk s, BcOk t => bytes_cmp s t
  | BcErr x, BcErr y => broadcast_err_cmp x y
  | BcOk _, BcErr _ => Lt
  | BcErr _, BcOk _ => Gt
  end.
Definition read_only_cmp (a b : read_only_resp) : comparison :=
  match a, b with
  | ROk o s, ROk p t => bool_cmp o p ;; bytes_cmp s t
  | RErr o s, RErr p t => bool_cmp o p ;; bytes_cmp s t
  | ROk _ _, RErr _ _ => Lt
  | RErr _ _, ROk _ _ => Gt
  end.

(** IEEE 754 comparison of [f64]: [None] is "unordered"; the two zeros are equal. *)
Definition f64_cmp (a b : f64) : option comparison :=
  match a, b with
  | NaN, _ | _, NaN => None
  | Inf s, Inf t => Some (bool_cmp t s)
  | Inf s, Fin _ _ => Some (if s then Lt else Gt)
  | Fin _ _, Inf t => Some (if t then Gt else Lt)
  | Fin s v, Fin t w =>
    Some (match s, t with
          | false, false => v ?= w
          | true, true => w ?= v
          | false, true => if (v =? 0) && (w =? 0) then Eq else Gt
          | true, false => if (v =? 0) && (w =? 0) then Eq else Lt
          end)
  end.
Definition f64_eq (a b : f64) : bool :=
  match a, b with
  | NaN, _ | _, NaN => false
  | Inf s, Inf t => Bool.eqb s t
  | Fin s v, Fin t w => if (v =? 0) && (w =? 0) then true else Bool.eqb s t && (v =? w)
  | _, _ => false
  end.
(** rpc.rs:79-106 [EstimateFeeResponse], [FeeOk], [FeeEstimate]: [PartialEq], [PartialOrd]. *)
Definition estimate_eq (a b : fee_estimate) : bool := (fe_fee a =? fe_fee b) && f64_eq (fe_rate a) (fe_rate b).
Definition estimate_cmp (a b : fee_estimate) : option comparison :=
  match fe_fee a ?= fe_fee b with Eq => f64_cmp (fe_rate a) (fe_rate b) | d => Some d end.
Fixpoint estimates_eq (a b : list fee_estimate) : bool :=
  match a, b with
  | [], [] => true
  | x :: a', y :: b' => estimate_eq x y && estimates_eq a' b'
  | _, _ => false
  end.
Fixpoint estimates_cmp (a b : list fee_estimate) : option comparison :=
  match a, b with
  | [], [] => Some Eq
  | [], _ :: _ => Some Lt
  | _ :: _, [] => Some Gt
  | x :: a', y :: b' => match estimate_cmp x y with Some Eq => estimates_cmp a' b' | d => d end
  end.
Definition fees_eq (a b : estimate_resp) : bool :=
  match a, b with
  | EsOk l, EsOk m => estimates_eq l m
  | EsErr s, EsErr t => bytes_eqb s t
  | _, _ => false
  end.
Definition fees_cmp (a b : estimate_resp) : option comparison :=
  match a, b with
  | EsOk l, EsOk m => estimates_cmp l m
  | EsErr s, EsErr t => Some (bytes_cmp s t)
  | EsOk _, EsErr _ => Some Lt
  | EsErr _, EsOk _ => Some Gt
  end.

(** wallet.rs:46 [StacksAccount], 85 [StacksWallet]: [PartialEq].  [key_eq] is that of [XPrv] (crate [bip32]). *)
Definition account_eq {H} (key_eq : xprv H -> xprv H -> bool) (a b : account H) : bool :=
  key_eq (acc_ext a) (acc_ext b) && (acc_index a =? acc_index b).
(** [HashMap]: as many entries, and each is in the other. *)
Definition accounts_eq {H} (key_eq : xprv H -> xprv H -> bool) (m n : list (N * account H)) : bool :=
  Nat.eqb (length m) (length n)
  && forallb (fun e => match map_get (fst e) n with Some b => account_eq key_eq (snd e) b | None => false end) m.
Definition wallet_eq {H} (key_eq : xprv H -> xprv H -> bool) (w v : wallet H) : bool :=
  key_eq (w_ext w) (w_ext v) && accounts_eq key_eq (w_accounts w) (w_accounts v).
