(** Model of stacks/src/wallet.rs.

    BIP-32 / BIP-39 arithmetic (crates [bip32], [bip39]) is a parameter: a type of extended private
    keys with child derivation and public key bytes. *)

From Verif Require Import Base Hash C32.
Local Open Scope N_scope.

(** What wallet.rs uses of the crates [bip32] and [bip39]. *)
Record hd := {
  xprv : Type;
  hd_err : Type;
  derive_child : xprv -> N -> hd_err + xprv;    (* XPrv::derive_child(u32) *)
  xpub_bytes : xprv -> bytes;                   (* XPrv::public_key().to_bytes(), 33 bytes *)
  xprv_bytes : xprv -> bytes;                   (* XPrv::private_key().to_bytes(), 32 bytes *)
  point_ok : bytes -> bool;                     (* secp256k1::PublicKey::from_slice accepts *)
  from_mnemonic : bytes -> hd_err + xprv        (* parse, seed, derive m/44'/5757'/0'/0 *)
}.

(** wallet.rs:24-37 [Error]. *)
Inductive wallet_err (H : hd) := WC32 (e : c32_err) | WHd (e : hd_err H) | WSecp (e : secp_err).
Arguments WC32 {H} _.
Arguments WHd {H} _.
Arguments WSecp {H} _.

(** wallet.rs:47-52 [StacksAccount]. *)
Record account (H : hd) := { acc_ext : xprv H; acc_index : N }.
Arguments acc_ext {H} _.
Arguments acc_index {H} _.

(** wallet.rs:61-64 [StacksAccount::derive]. *)
Definition account_derive {H} (index : N) (ext : xprv H) : res (wallet_err H) (account H) :=
  match derive_child H ext index with
  | inr c => Ok {| acc_ext := c; acc_index := index |}
  | inl e => Err (WHd e)
  end.

(** wallet.rs:67-71 [get_address]. *)
Definition get_address {H} (a : account H) (v : c32_version) : res (wallet_err H) bytes :=
  let addr := hash_p2pkh (xpub_bytes H (acc_ext a)) in
  map_err WC32 (c32_address addr (version_byte v)).

(** [secp256k1::SecretKey::from_slice]: 32 bytes, a scalar between 1 and the group order. *)
Definition secret_from_slice {H} (b : bytes) : res (wallet_err H) bytes :=
  if Nat.eqb (length b) 32 && (0 <? be_val b) && (be_val b <? secp_n) then Ok b
  else Err (WSecp SecpInvalidSecretKey).
(** [secp256k1::PublicKey::from_slice], the resulting key by its 33-byte compressed form. *)
Definition public_from_slice {H : hd} (b : bytes) : res (wallet_err H) bytes :=
  if point_ok H b then Ok b else Err (WSecp SecpInvalidPublicKey).

(** wallet.rs:74-81 [private_key], [public_key] of an account. *)
Definition account_private_key {H} (a : account H) : res (wallet_err H) bytes :=
  secret_from_slice (xprv_bytes H (acc_ext a)).
Definition account_public_key {H} (a : account H) : res (wallet_err H) bytes :=
  public_from_slice (xpub_bytes H (acc_ext a)).

(** wallet.rs:43, 86-91: the wallet.  The [HashMap<u32, StacksAccount>] is an association list with
    replace-on-insert. *)
Record wallet (H : hd) := { w_ext : xprv H; w_accounts : list (N * account H) }.
Arguments w_ext {H} _.
Arguments w_accounts {H} _.

Fixpoint map_get {A} (k : N) (m : list (N * A)) : option A :=
  match m with
  | [] => None
  | (k', v) :: r => if k =? k' then Some v else map_get k r
  end.

Fixpoint map_insert {A} (k : N) (v : A) (m : list (N * A)) : list (N * A) :=
  match m with
  | [] => [(k, v)]
  | (k', v') :: r => if k =? k' then (k, v) :: r else (k', v') :: map_insert k v r
  end.

(** wallet.rs:100-109 [from_secret_key]. *)
Definition from_secret_key {H} (phrase : bytes) : res (wallet_err H) (wallet H) :=
  match from_mnemonic H phrase with
  | inr ext => Ok {| w_ext := ext; w_accounts := [] |}
  | inl e => Err (WHd e)
  end.

(** wallet.rs:134-136 [set_account]. *)
Definition set_account {H} (w : wallet H) (index : N) (a : account H) : wallet H :=
  {| w_ext := w_ext w; w_accounts := map_insert index a (w_accounts w) |}.

(** wallet.rs:112-121 [get_account]: the wallet after the call, and the result. *)
Definition get_account {H} (w : wallet H) (index : N)
  : wallet H * res (wallet_err H) (account H) :=
  match map_get index (w_accounts w) with
  | Some a => (w, Ok a)
  | None =>
    match account_derive index (w_ext w) with
    | Ok a => (set_account w index a, Ok a)
    | Err e => (w, Err e)
    | Panic p => (w, Panic p)
    | NoFuel => (w, NoFuel)
    end
  end.

(** wallet.rs:124-131 [private_key], [public_key] of the wallet. *)
Definition wallet_private_key {H} (w : wallet H) : res (wallet_err H) bytes :=
  secret_from_slice (xprv_bytes H (w_ext w)).
Definition wallet_public_key {H} (w : wallet H) : res (wallet_err H) bytes :=
  public_from_slice (xpub_bytes H (w_ext w)).
