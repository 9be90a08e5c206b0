(** Specification of the calls that abort: one clause per reason.  A call without a clause never aborts.
    No reference to the functions of the model. *)

From Verif Require Import Base Sha2 SpecText SpecUtf8 SpecAddr SpecWire Hash C32 Clarity SpecTx Tx SpecSign SpecFault Signer Builder Wallet Rpc Derive Calls.
Local Open Scope N_scope.

(** ** Inputs that end too early *)

(** Neither does a whole value stand at the beginning, nor anything a reader refuses before the end. *)
Definition cut (b : bytes) : Prop := (~ exists w t, b = wser w ++ t /\ decodable w) /\ forall e, ~ faulty b e.

Definition cut_payload (b : bytes) : Prop :=
  (~ exists w t, b = ser_payload w ++ t /\ proper_payload w) /\ forall e, ~ faulty_payload b e.

(** What is too short for a given type: its identifier is looked at first, except for UTF-8 strings, names and
    argument lists (a list without its identifier). *)
Inductive cut_as : cty -> bytes -> Prop :=
| cut_empty t : cut_as t []
| cut_tagged t tag r : In (t, tag) tagged -> cut (tag :: r) -> cut_as t (tag :: r)
| cut_utf8 b r : cut (x0e :: r) -> cut_as TUtf8 (b :: r)
| cut_name n r : count r < Byte.to_N n -> cut_as TLps (n :: r)
| cut_args b : cut (x0b :: b) -> cut_as TFnArgs b.

(** The first character outside the Bitcoin alphabet is above U+00FF. *)
Definition exotic (s : bytes) : Prop :=
  exists p c t, spells_text (p ++ c :: t) s /\ Forall (fun c => In c (map Byte.to_N bitcoin58)) p /\ 256 <= c.

(** ** Verification *)

(** The 256th signature of a multi-signature condition is reached, or its keys do not fit a script. *)
Inductive verify_stops (E : ecdsa) (typ : byte) (h : bytes) : scond -> Prop :=
| vs_count m fs rest ks h' : ms_fields m = fs ++ rest ->
    chain E typ (ms_fee m) (ms_nonce m) h fs ks 256 h' -> verify_stops E typ h (SMulti m)
| vs_script m ks n h' : chain E typ (ms_fee m) (ms_nonce m) h (ms_fields m) ks n h' -> n < 256 ->
    Byte.to_N (ms_required m) <= n -> ~ script_fits (Byte.to_N (ms_required m)) ks -> verify_stops E typ h (SMulti m).

(** The hash signing starts from. *)
Definition start_hash (t : tx) (h : bytes) : Prop :=
  exists w, tx_means t w /\ fits_body w /\ h = sha512_256 (ser_tx (clear_tx w)).

(** The transaction once its sponsor is replaced. *)
Definition sponsored_by (t : tx) (c : scond) (t' : tx) : Prop :=
  exists o p, tx_auth t = ASponsored o p /\ t' = tx_with_auth t (ASponsored o c).

Definition full (c : scond) : Prop := 2 ^ 16 <= held c.

(** ** The reasons *)

Inductive stops {H : hd} (E : ecdsa) : use H -> panic -> Prop :=
| st_c32check_encode h v : 32 <= Byte.to_N v -> stops E (UC32CheckEncode H h v) PIndex
| st_c32check_decode : stops E (UC32CheckDecode H []) PIndex
| st_address s h v : address_spelling h v s -> length h <> 20%nat -> stops E (UAddress H s) PCopyLen
| st_b58_decode s : exotic s -> stops E (UB58Decode H s) PIndex
| st_b58check_exotic s : exotic s -> stops E (UB58CheckDecode H s) PIndex
| st_b58check_few s b : numeral 58 bitcoin58 b s -> (length b < 4)%nat -> stops E (UB58CheckDecode H s) POverflow
| st_b58check_four s b : numeral 58 bitcoin58 b s -> length b = 4%nat -> stops E (UB58CheckDecode H s) PIndex
| st_p2sh m ks : ~ script_fits (Byte.to_N m) ks -> stops E (UP2sh H m ks) POverflow
| st_p2wsh m ks : ~ script_fits (Byte.to_N m) ks -> stops E (UP2wsh H m ks) POverflow
| st_hash160 b : length b <> 20%nat -> stops E (UHash160New H b) PCopyLen
| st_signature b : length b <> 65%nat -> stops E (USigNew H b) PCopyLen
| st_decode b : cut b -> stops E (UDecode H b) PIndex
| st_decode_as t b : cut_as t b -> stops E (UDecodeAs H t b) PIndex
| st_payload b : cut_payload b -> stops E (UDecPayload H b) PIndex
| st_transfer b : (b = [] \/ exists r, b = x00 :: r) -> cut_payload b -> stops E (UDecTransfer H b) PIndex
| st_call b : (b = [] \/ exists r, b = x02 :: r) -> cut_payload b -> stops E (UDecCall H b) PIndex
| st_never d b : stops E (UDecNever H d b) PUnimplemented
| st_std pk fee nonce mode : mode = P2SH \/ mode = P2WSH -> stops E (UStdNew H pk fee nonce mode) PExplicit
| st_multi_mode pks fee nonce m mode : mode = P2PKH \/ mode = P2WPKH -> stops E (UMultiNew H pks fee nonce m mode) PExplicit
| st_multi_script pks fee nonce m mode : mode = P2SH \/ mode = P2WSH -> ~ script_fits (Byte.to_N m) pks ->
    stops E (UMultiNew H pks fee nonce m mode) POverflow
| st_verify c h typ : verify_stops E typ h c -> stops E (UVerify H c h typ) POverflow
| st_auth_origin o p h : verify_stops E x04 h o -> stops E (UAuthVerify H (ASponsored o p) h) POverflow
| st_auth_sponsor o p h h' : satisfied E x04 h o h' -> verify_stops E x05 h' p ->
    stops E (UAuthVerify H (ASponsored o p) h) POverflow
| st_verify_origin a h : verify_stops E x04 h (match a with AStandard o | ASponsored o _ => o end) ->
    stops E (UAuthVerifyOrigin H a h) POverflow
| st_new_sponsor t c t' h : sponsored_by t c t' -> start_hash t' h -> verify_stops E x04 h (origin_of t') ->
    stops E (USignerSponsor H t c) POverflow
| st_tx_sign t sk h : start_hash t h -> full (origin_of t) -> stops E (UTxSign H t sk) POverflow
| st_sign_origin s sk : ~ frozen s -> sg_oversign s = true -> full (origin_of (sg_tx s)) ->
    stops E (USignOrigin H s sk) POverflow
| st_sign_sponsor s sk c : sponsor_of (sg_tx s) = Some c -> sg_oversign s = true -> full c ->
    stops E (USignSponsor H s sk) POverflow
| st_build_transfer b : st_sponsored b = true -> stops E (UBuildTransfer H b) PUnimplemented
| st_build_call b h v : address_spelling h v (cc_address b) -> length h = 20%nat -> cc_sponsored b = true ->
    stops E (UBuildCall H b) PUnimplemented
| st_build_address b h v : address_spelling h v (cc_address b) -> length h <> 20%nat -> stops E (UBuildCall H b) PCopyLen.

(** ** The arguments a program can pass *)

(** What the Rust types say about the arguments ([&str] is UTF-8, a [MessageSignature] 65 bytes) and, for spending
    conditions, what C52 proves of every condition a program can get hold of. *)
Definition sound_cond (c : scond) : Prop := typed c /\ mode_fits c.
Definition sound_auth (a : auth) : Prop :=
  match a with AStandard o => sound_cond o | ASponsored o p => sound_cond o /\ sound_cond p end.

Definition possible {H} (u : use H) : Prop :=
  match u with
  | UB58Decode _ s | UB58CheckDecode _ s => utf8 s
  | USigIntoRecov _ sig | UNextVerify _ _ _ _ _ sig => length sig = 65%nat
  | UVerify _ c _ _ => sound_cond c
  | UAuthVerify _ a _ | UAuthVerifyOrigin _ a _ => sound_auth a
  | UTxSign _ t _ | USignerNew _ t => sound_auth (tx_auth t)
  | USignerSponsor _ t c => sound_auth (tx_auth t) /\ sound_cond c
  | USignOrigin _ s _ | USignSponsor _ s _ | UAppendOrigin _ s _ => sound_auth (tx_auth (sg_tx s))
  | _ => True
  end.
