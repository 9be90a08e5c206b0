(** Model of the [Display] texts of the error types ([thiserror]).  [None]: the text is another crate's or the standard
    library's ([#[error(transparent)]]). *)

From Coq Require Import Strings.String.
From Verif Require Import Base Utf8 Hex Hash C32 B58 Clarity Tx Derive.
Local Open Scope string_scope.
Local Open Scope list_scope.
Local Open Scope N_scope.

(** [{}] of a [char]: [char::encode_utf8]. *)
Definition char_text (c : N) : bytes :=
  let cont n := n2b (N.lor 128 (N.land n 63)) in
  if c <? 0x80 then [n2b c]
  else if c <? 0x800 then [n2b (N.lor 192 (N.shiftr c 6)); cont c]
  else if c <? 0x10000 then [n2b (N.lor 224 (N.shiftr c 12)); cont (N.shiftr c 6); cont c]
  else [n2b (N.lor 240 (N.shiftr c 18)); cont (N.shiftr c 12); cont (N.shiftr c 6); cont c].

(** [{:?}] of bytes: [[1, 2, 3]]. *)
Fixpoint bytes_items (first : bool) (l : bytes) : bytes :=
  match l with
  | [] => []
  | b :: r => (if first then [] else str ", ") ++ show_N (b2n b) ++ bytes_items false r
  end.
Definition bytes_debug (l : bytes) : bytes := str "[" ++ bytes_items true l ++ str "]".

(** hex.rs:12-20. *)
Definition hex_message (e : hex_err) : bytes :=
  match e with
  | HexBadChar => str "Bad hex character encountered"
  | HexUnpadded s n => str "Received unpadded hex: input " ++ s ++ str " with length " ++ show_N n
  end.

(** c32.rs:29-52. *)
Definition c32_message (e : c32_err) : option bytes :=
  match e with
  | C32BadChar c => Some (str "Bad character encountered: " ++ char_text c)
  | C32BadInput => Some (str "Bad input string, must be ASCII and contain only valid C32 characters.")
  | C32BadChecksum a b => Some (str "Bad checksum - expected " ++ bytes_debug a ++ str ", received " ++ bytes_debug b)
  | C32BadAddress s => Some (str "Bad C32 address: " ++ s)
  | C32UnknownAddressVersion v =>
    Some (str "Unknown address version, received: " ++ show_N (b2n v) ++ str " - expected one of '[22, 26, 20, 21]'")
  | C32TryFromInt | C32TryFromUtf8 => None
  end.

(** b58.rs:31-45; the two texts of [BadChecksum] are made with [{:?}] at b58.rs:186-189. *)
Definition b58_message (e : b58_err) : option bytes :=
  match e with
  | B58BadChar c => Some (str "Bad character encountered: " ++ char_text c)
  | B58BadChecksum a b => Some (str "Bad checksum - expected " ++ bytes_debug a ++ str ", received: " ++ bytes_debug b)
  | B58UnknownAddressVersion v => Some (str "Unknown address version, received: " ++ show_N (b2n v))
  | B58TryFromInt => None
  end.

(** clarity/mod.rs:24-53. *)
Definition clarity_message (e : cl_err) : option bytes :=
  match e with
  | ClBadStringLength n m =>
    Some (str "Bad string length - received " ++ show_N n ++ str " bytes, max. " ++ show_N m ++ str " bytes")
  | ClBadStringType s => Some (str "Bad string type - expected: " ++ s)
  | ClBadIdentifier a b =>
    Some (str "Bad type identifier - expected: " ++ show_N (b2n a) ++ str ", received: " ++ show_N (b2n b))
  | ClBadDowncast => Some (str "Bad downcast, please check the type identifier and the cast type")
  | ClUnexpectedType b => Some (str "Unexpected type identifier - received: " ++ show_N (b2n b))
  | ClC32 e => c32_message e
  | ClTryFromInt | ClTryFromUtf8 | ClTryFromSlice => None
  end.

(** hash.rs:20-31. *)
Definition hash_message (e : hash_err) : option bytes :=
  match e with
  | HashInvalidSigLength n => Some (str "Invalid message signature length, expected 65 bytes - got: " ++ show_N n)
  | HashSecp _ | HashTryFromInt => None
  end.

(** transaction/mod.rs:46-78. *)
Definition tx_message (e : tx_err) : option bytes :=
  match e with
  | TxOriginOversign => Some (str "Attempted to sign origin with too many signatures")
  | TxOriginPostSponsorSign => Some (str "Attempted to sign origin after sponsor key")
  | TxOriginPostSponsorAppend => Some (str "Attempted to append public key to origin after sponsor key")
  | TxSponsorOversign => Some (str "Attempted to sign sponsor with too many signatures")
  | TxBadSigner a b => Some (str "Invalid signer hash, expected " ++ a ++ str " - got: " ++ b)
  | TxBadSignatureCount a b => Some (str "Invalid signature count, expected " ++ show_N a ++ str " - got: " ++ show_N b)
  | TxBadModification => Some (str "Attempted to modify a spending condition with an incompatible action")
  | TxHex e => Some (hex_message e)
  | TxHash e => hash_message e
  | TxClarity e => clarity_message e
  end.

(** derive.rs:10-20. *)
Definition derive_message (e : de_err) : bytes :=
  match e with
  | DeCast k t i => str "Failed to cast field '" ++ k ++ str "' as '" ++ t ++ str "' on struct '" ++ i ++ str "'"
  | DeExtract k i => str "Failed to extract value for field '" ++ k ++ str "' on '" ++ i ++ str "'"
  | DeMatch k i => str "Failed to match value for field '" ++ k ++ str "' on '" ++ i ++ str "'"
  end.

(** hash.rs:33-57: [hex] and [Debug] of the hash types. *)
Definition hash_hex (h : bytes) : bytes := bytes_to_hex h.
Fixpoint hash_debug (h : bytes) : bytes :=
  match h with
  | [] => []
  | b :: r => hex_char (N.shiftr (b2n b) 4) :: hex_char (N.land (b2n b) 15) :: hash_debug r
  end.
