(** The calls of the crate's interface that return a [Result] or can panic, and how each of them ends.  Public functions
    not listed (getters and setters, constructors that only store, [bytes_to_hex], [Display], ...) are total functions
    of the model. *)

From Verif Require Import Base Hex Hash C32 B58 Clarity Tx Signer Builder Wallet Rpc Derive Expand.
Local Open Scope N_scope.

(** The types of the crate whose [decode] is [unimplemented!()]. *)
Inductive undecodable := UdConditions | UdStx | UdFungible | UdNonFungible | UdAsset | UdAuth | UdStandard | UdMulti | UdTransaction.

(** condition.rs:105-110, 191-196, 250-255, 310-315, 353-358; auth.rs:214-219, 272-277, 436-441; base.rs:186-191. *)
Definition decode_unimplemented (d : undecodable) (bs : bytes) : res cl_err unit := Panic PUnimplemented.

Inductive use (H : hd) : Type :=
(* crypto/hex.rs, c32.rs, b58.rs *)
| UHexDecode (s : bytes)                                    (* hex_to_bytes *)
| UC32Encode (b : bytes)
| UC32Decode (s : bytes)
| UC32CheckEncode (h : bytes) (v : byte)
| UC32CheckDecode (s : bytes)
| UC32Address (h : bytes) (v : byte)
| UC32AddressDecode (s : bytes)
| UAddress (s : bytes)                                      (* Address::from_str *)
| UB58Encode (b : bytes)
| UB58Decode (s : bytes)
| UB58CheckEncode (h : bytes) (v : byte)
| UB58CheckDecode (s : bytes)
| UP2sh (sigs : byte) (keys : list bytes)
| UP2wsh (sigs : byte) (keys : list bytes)
(* crypto/hash.rs *)
| UHash160New (b : bytes)
| USigNew (b : bytes)
| USigFromSlice (b : bytes)
| USigFromRecov (r : rsig)
| USigIntoRecov (sig : bytes)
| UNextSignature (h : bytes) (typ : byte) (fee nonce : N) (sk : bytes)
| UNextVerify (h : bytes) (typ : byte) (fee nonce : N) (sig : bytes)
(* clarity *)
| UEncode (v : cval)
| ULen (v : cval)
| UIsEmpty (v : cval)
| UHex (v : cval)
| UHexPrefixed (v : cval)
| UCast (t : cty) (v : cval)
| UDecode (b : bytes)                                       (* decode_clarity_type *)
| UDecodeAs (t : cty) (b : bytes)                           (* T::decode *)
| UDerived (name : bytes) (fields : list (bytes * fty)) (t : entries)   (* the generated try_from *)
(* transaction *)
| UEncPayload (p : payload)
| UDecPayload (b : bytes)
| UDecTransfer (b : bytes)
| UDecCall (b : bytes)
| UEncCondition (c : condition)
| UEncConditions (l : list condition)
| UEncAsset (i : asset_info)
| UEncSpending (c : scond)
| UEncAuth (a : auth)
| UEncTx (t : tx)
| UDecNever (d : undecodable) (b : bytes)
| UTxHash (t : tx)
| UStdNew (pk : bytes) (fee nonce : N) (mode : hmode)
| UMultiNew (pks : list bytes) (fee nonce : N) (required : byte) (mode : hmode)
| UVerify (c : scond) (h : bytes) (typ : byte)
| UModify (c : scond) (m : modification)
| UAuthVerify (a : auth) (h : bytes)
| UAuthVerifyOrigin (a : auth) (h : bytes)
| USponsor (a : auth)
| USetSponsor (a : auth) (c : scond)
| UTxSign (t : tx) (sk : bytes)
| USignerNew (t : tx)
| USignerSponsor (t : tx) (c : scond)
| USignOrigin (s : signer) (sk : bytes)
| USignSponsor (s : signer) (sk : bytes)
| UAppendOrigin (s : signer) (pk : bytes)
| UBuildTransfer (b : stx_transfer)
| UBuildCall (b : stx_call)
(* wallet.rs *)
| UWallet (phrase : bytes)
| UAccount (w : wallet H) (i : N)
| UAccountAddress (a : account H) (v : c32_version)
| UAccountPrivate (a : account H)
| UAccountPublic (a : account H)
| UWalletPrivate (w : wallet H)
| UWalletPublic (w : wallet H)
(* rpc.rs *)
| UInfo (http : request -> outcome) (url : bytes)
| UAddressInfo (http : request -> outcome) (url addr : bytes)
| UEstimate (http : request -> outcome) (url : bytes) (t : tx)
| UBroadcast (http : request -> outcome) (url : bytes) (t : tx)
| UReadOnly (http : request -> outcome) (url addr name fname : bytes) (args : list cval) (sender : bytes).

(** How a call ends: with a value or an error, by aborting the thread, or (the model's out-of-fuel) not at all. *)
Inductive ending := Returns | Stops (p : panic) | Hangs.

Definition end_of {E A} (r : res E A) : ending :=
  match r with Ok _ | Err _ => Returns | Panic p => Stops p | NoFuel => Hangs end.

Definition ending_of {H} (E : ecdsa) (u : use H) : ending :=
  match u with
  | UHexDecode _ s => end_of (hex_to_bytes s)
  | UC32Encode _ b => end_of (c32_encode b)
  | UC32Decode _ s => end_of (c32_decode s)
  | UC32CheckEncode _ h v => end_of (c32check_encode h v)
  | UC32CheckDecode _ s => end_of (c32check_decode s)
  | UC32Address _ h v => end_of (c32_address h v)
  | UC32AddressDecode _ s => end_of (c32_address_decode s)
  | UAddress _ s => end_of (address_from_str s)
  | UB58Encode _ b => end_of (@b58_encode unit b)
  | UB58Decode _ s => end_of (b58_decode s)
  | UB58CheckEncode _ h v => end_of (@base58check_encode unit h v)
  | UB58CheckDecode _ s => end_of (base58check_decode s)
  | UP2sh _ m ks => end_of (@hash_p2sh unit m ks)
  | UP2wsh _ m ks => end_of (@hash_p2wsh unit m ks)
  | UHash160New _ b => end_of (@hash160_new unit b)
  | USigNew _ b => end_of (@msig_new unit b)
  | USigFromSlice _ b => end_of (msig_from_slice b)
  | USigFromRecov _ r => end_of (msig_from_recov r)
  | USigIntoRecov _ sig => end_of (msig_into_recov sig)
  | UNextSignature _ h typ fee nonce sk => end_of (next_signature E h typ fee nonce sk)
  | UNextVerify _ h typ fee nonce sig => end_of (next_verify E h typ fee nonce sig)
  | UEncode _ v => end_of (encode v)
  | ULen _ v => end_of (codec_len v)
  | UIsEmpty _ v => end_of (codec_is_empty v)
  | UHex _ v => end_of (codec_hex v)
  | UHexPrefixed _ v => end_of (codec_hex_prefixed v)
  | UCast _ t v => end_of (cast t v)
  | UDecode _ b => end_of (decode_clarity_type b)
  | UDecodeAs _ t b => end_of (decode_as t b)
  | UDerived _ n fs t => end_of (derive_fields n fs t)
  | UEncPayload _ p => end_of (enc_payload p)
  | UDecPayload _ b => end_of (dec_payload b)
  | UDecTransfer _ b => end_of (dec_transfer b)
  | UDecCall _ b => end_of (dec_call b)
  | UEncCondition _ c => end_of (enc_condition c)
  | UEncConditions _ l => end_of (enc_conditions l)
  | UEncAsset _ i => end_of (enc_asset i)
  | UEncSpending _ c => end_of (enc_scond c)
  | UEncAuth _ a => end_of (enc_auth a)
  | UEncTx _ t => end_of (enc_tx t)
  | UDecNever _ d b => end_of (decode_unimplemented d b)
  | UTxHash _ t => end_of (tx_hash t)
  | UStdNew _ pk fee nonce mode => end_of (@std_new unit pk fee nonce mode)
  | UMultiNew _ pks fee nonce required mode => end_of (@multi_new unit pks fee nonce required mode)
  | UVerify _ c h typ => end_of (verify_scond E c h typ)
  | UModify _ c m => end_of (snd (modify c m))
  | UAuthVerify _ a h => end_of (auth_verify E a h)
  | UAuthVerifyOrigin _ a h => end_of (auth_verify_origin E a h)
  | USponsor _ a => end_of (auth_sponsor a)
  | USetSponsor _ a c => end_of (snd (auth_set_sponsor a c))
  | UTxSign _ t sk => end_of (tx_sign E t sk)
  | USignerNew _ t => end_of (signer_new t)
  | USignerSponsor _ t c => end_of (signer_new_sponsor E t c)
  | USignOrigin _ s sk => end_of (snd (sign_origin E s sk))
  | USignSponsor _ s sk => end_of (snd (sign_sponsor E s sk))
  | UAppendOrigin _ s pk => end_of (snd (append_origin s pk))
  | UBuildTransfer _ b => end_of (@build_transfer unit E b)
  | UBuildCall _ b => end_of (build_call E b)
  | UWallet _ phrase => end_of (@from_secret_key H phrase)
  | UAccount _ w i => end_of (snd (get_account w i))
  | UAccountAddress _ a v => end_of (get_address a v)
  | UAccountPrivate _ a => end_of (account_private_key a)
  | UAccountPublic _ a => end_of (account_public_key a)
  | UWalletPrivate _ w => end_of (wallet_private_key w)
  | UWalletPublic _ w => end_of (wallet_public_key w)
  | UInfo _ http url => end_of (info http url)
  | UAddressInfo _ http url addr => end_of (address_info_of http url addr)
  | UEstimate _ http url t => end_of (estimate_fee http url t)
  | UBroadcast _ http url t => end_of (broadcast http url t)
  | UReadOnly _ http url addr name fname args sender => end_of (read_only http url addr name fname args sender)
  end.
