(** Model of stacks/src/transaction/{network,payload,condition,auth,base}.rs. *)

From Verif Require Import Base Utf8 Hex Hash C32 Clarity.
Local Open Scope N_scope.

(** ** network.rs *)

(** network.rs:21-24 [TransactionVersion], [as u8]. *)
Inductive tx_version := VMainnet | VTestnet.
Definition tx_version_byte (v : tx_version) : byte :=
  match v with VMainnet => x00 | VTestnet => x80 end.

(** network.rs:28-31 [ChainID], [as u32]. *)
Inductive chain_id := ChTestnet | ChMainnet.
Definition chain_id_N (c : chain_id) : N :=
  match c with ChTestnet => 0x80000000 | ChMainnet => 0x00000001 end.

(** ** payload.rs *)

(** payload.rs:57-64 [TokenTransferPayload], 136-145 [ContractCallPayload] as the two [Payload]
    implementations of the crate.  [amount] is a [u64]. *)
Inductive payload :=
| PTransfer (recipient : cval) (amount : N) (memo : bytes)
| PCall (addr : address) (contract fname : bytes) (args : list cval).

(** payload.rs:82-99 [TokenTransferPayload::encode]; the memo is copied over 34 zero bytes. *)
Definition enc_transfer (recipient : cval) (amount : N) (memo : bytes) : res cl_err bytes :=
  if 34 <? lenN memo then Err (ClBadStringLength (lenN memo) 34)
  else
    let memo_bytes := memo ++ repeat x00 (34 - length memo) in
    let* a := encode recipient in
    Ok ([x00] ++ a ++ be_bytes 8 amount ++ memo_bytes).

(** payload.rs:164-172 [ContractCallPayload::encode]. *)
Definition enc_call (addr : address) (contract fname : bytes) (args : list cval)
  : res cl_err bytes :=
  let* c := enc_lps contract in
  let* n := enc_lps fname in
  let* a := encode (CFnArgs args) in
  Ok ([x02] ++ [addr_version addr] ++ addr_hash addr ++ c ++ n ++ a).

(** payload.rs:33-35 [Box<dyn Payload>::encode]. *)
Definition enc_payload (p : payload) : res cl_err bytes :=
  match p with
  | PTransfer r a m => enc_transfer r a m
  | PCall ad c n args => enc_call ad c n args
  end.

(** payload.rs:101-129 [TokenTransferPayload::decode]. *)
Definition dec_transfer (bs : bytes) : res cl_err payload :=
  let* b0 := index 0 bs in
  if negb (byte_eqb b0 x00) then Err (ClUnexpectedType b0)
  else
    let* r := drop_slice 1 bs in
    let* a := decode_clarity_type r in
    let* e := encode a in
    let off := S (length e) in
    let* am := sub_slice off 8 bs in
    let* mb := sub_slice (off + 8) 34 bs in
    let* memo := from_utf8 mb in
    Ok (PTransfer a (be_val am) memo).

(** payload.rs:174-206 [ContractCallPayload::decode]. *)
Definition dec_call (bs : bytes) : res cl_err payload :=
  let* b0 := index 0 bs in
  if negb (byte_eqb b0 x02) then Err (ClUnexpectedType b0)
  else
    let* v := index 1 bs in
    let* h := sub_slice 2 20 bs in
    let* h := hash160_new h in
    let* r := drop_slice 22 bs in
    let* cv := dec_lps r in
    let* ce := encode cv in
    let* r1 := drop_slice (length ce) r in
    let* nv := dec_lps r1 in
    let* ne := encode nv in
    let* r2 := drop_slice (length ne) r1 in
    let* av := dec_fnargs decode_clarity_type r2 in
    match cv, nv, av with
    | CLps c, CLps n, CFnArgs args =>
      Ok (PCall {| addr_hash := h; addr_version := v |} c n args)
    | _, _, _ => Err ClBadDowncast (* unreachable: the decoders above return these constructors *)
    end.

(** payload.rs:37-52 [Box<dyn Payload>::decode]. *)
Definition dec_payload (bs : bytes) : res cl_err payload :=
  let* b0 := index 0 bs in
  match b0 with
  | x00 => dec_transfer bs
  | x02 => dec_call bs
  | _ => Err (ClUnexpectedType b0)
  end.

(** ** condition.rs *)

(** condition.rs:59-74 [ConditionCode], [as u8]. *)
Inductive cond_code := CcEQ | CcGT | CcGTE | CcLT | CcLTE | CcHasNot | CcHas.
Definition cond_code_byte (c : cond_code) : byte :=
  match c with
  | CcEQ => x01 | CcGT => x02 | CcGTE => x03 | CcLT => x04 | CcLTE => x05
  | CcHasNot => x10 | CcHas => x11
  end.

(** condition.rs:79-84 [PostConditionMode], [as u8]. *)
Inductive pc_mode := PcAllow | PcDeny.
Definition pc_mode_byte (m : pc_mode) : byte := match m with PcAllow => x01 | PcDeny => x02 end.

(** condition.rs:321-328 [AssetInfo]. *)
Record asset_info := { ai_addr : bytes; ai_contract : bytes; ai_asset : bytes }.

(** condition.rs:148-155, 203-212, 262-271: the three [Condition] implementations. *)
Inductive condition :=
| CondSTX (addr : cval) (amount : N) (code : cond_code)
| CondFT (addr : cval) (amount : N) (code : cond_code) (info : asset_info)
| CondNFT (addr : cval) (name : cval) (code : cond_code) (info : asset_info).

(** condition.rs:344-350 [AssetInfo::encode]; [encode()?[1..]]. *)
Definition enc_asset (i : asset_info) : res cl_err bytes :=
  let* a := encode (CPrinStd (ai_addr i)) in
  let* a1 := drop_slice 1 a in
  let* n := enc_lps (ai_contract i) in
  let* s := enc_lps (ai_asset i) in
  Ok (a1 ++ n ++ s).

(** condition.rs:175-183 (same at 233-241, 293-301): the principal of a condition. *)
Definition enc_cond_addr (addr : cval) : res cl_err bytes :=
  match cast TPrinStd addr with
  | Ok a => let* e := encode a in let* e1 := drop_slice 1 e in Ok (x02 :: e1)
  | _ =>
    match cast TPrinCon addr with
    | Ok a => let* e := encode a in let* e1 := drop_slice 1 e in Ok (x03 :: e1)
    | _ => Err ClBadDowncast
    end
  end.

(** condition.rs:171-188, 229-247, 289-307 [encode]. *)
Definition enc_condition (c : condition) : res cl_err bytes :=
  match c with
  | CondSTX addr amount code =>
    let* a := enc_cond_addr addr in
    Ok ([x00] ++ a ++ [cond_code_byte code] ++ be_bytes 8 amount)
  | CondFT addr amount code info =>
    let* a := enc_cond_addr addr in
    let* i := enc_asset info in
    Ok ([x01] ++ a ++ i ++ [cond_code_byte code] ++ be_bytes 8 amount)
  | CondNFT addr name code info =>
    let* a := enc_cond_addr addr in
    let* i := enc_asset info in
    let* n := encode name in
    Ok ([x02] ++ a ++ i ++ n ++ [cond_code_byte code])
  end.

Fixpoint enc_conditions_body (l : list condition) : res cl_err bytes :=
  match l with
  | [] => Ok []
  | c :: r => let* e := enc_condition c in let* t := enc_conditions_body r in Ok (e ++ t)
  end.

(** condition.rs:93-102 [PostConditions::encode]. *)
Definition enc_conditions (l : list condition) : res cl_err bytes :=
  let* n := enc_len32 (lenN l) in
  let* b := enc_conditions_body l in
  Ok (n ++ b).

(** ** auth.rs *)

(** transaction/mod.rs [Error]. *)
Inductive tx_err :=
| TxOriginOversign
| TxOriginPostSponsorSign
| TxOriginPostSponsorAppend
| TxSponsorOversign
| TxBadSigner (expected received : bytes)
| TxBadSignatureCount (required count : N)
| TxBadModification
| TxHex (e : hex_err)
| TxHash (e : hash_err)
| TxClarity (e : cl_err).

(** auth.rs:224-235 [SpendingConditionStandard]; [fee], [nonce] are [u64], [signer] 20 bytes,
    [sig] 65 bytes. *)
Record sc_std := {
  std_mode : hmode; std_fee : N; std_nonce : N; std_signer : bytes; std_sig : bytes }.

(** auth.rs:360-365 [AuthField]; a [PublicKey] is its 33-byte serialization. *)
Inductive auth_field := FPk (pk : bytes) | FSig (sig : bytes).

(** auth.rs:369-382 [SpendingConditionMultiSig]. *)
Record sc_multi := {
  ms_mode : hmode; ms_fee : N; ms_nonce : N; ms_signer : bytes;
  ms_fields : list auth_field; ms_required : byte }.

(** [Box<dyn SpendingCondition>]: the two implementations of the crate. *)
Inductive scond := SStd (s : sc_std) | SMulti (m : sc_multi).

(** auth.rs:79-84 [Auth]. *)
Inductive auth := AStandard (origin : scond) | ASponsored (origin sponsor : scond).

(** auth.rs:66-75 [Modification]. *)
Inductive modification :=
| MSetPublicKey (pk : bytes) | MSetSignature (sig : bytes)
| MAddPublicKey (pk : bytes) | MAddSignature (sig : bytes).

(** auth.rs:29, 31. *)
Definition auth_type_standard : byte := x04.
Definition auth_type_sponsored : byte := x05.

(** auth.rs:239-256 [SpendingConditionStandard::new]; panics for a multi-sig mode. *)
Definition std_new {E} (pk : bytes) (fee nonce : N) (mode : hmode) : res E sc_std :=
  match mode with
  | P2PKH => Ok {| std_mode := mode; std_fee := fee; std_nonce := nonce;
                   std_signer := hash_p2pkh pk; std_sig := sig_default |}
  | P2WPKH => Ok {| std_mode := mode; std_fee := fee; std_nonce := nonce;
                    std_signer := hash_p2wpkh pk; std_sig := sig_default |}
  | _ => Panic PExplicit
  end.

(** auth.rs:346-356 [Default]. *)
Definition std_default : sc_std :=
  {| std_mode := P2PKH; std_fee := 0; std_nonce := 0;
     std_signer := repeat x00 20; std_sig := sig_default |}.

(** auth.rs:386-404 [SpendingConditionMultiSig::new]; panics for a single-sig mode or on [u8]
    overflow in the script. *)
Definition multi_new {E} (pks : list bytes) (fee nonce : N) (required : byte) (mode : hmode)
  : res E sc_multi :=
  let* signer := match mode with
                 | P2SH => hash_p2sh required pks
                 | P2WSH => hash_p2wsh required pks
                 | _ => Panic PExplicit
                 end in
  Ok {| ms_mode := mode; ms_fee := fee; ms_nonce := nonce; ms_signer := signer;
        ms_fields := []; ms_required := required |}.

(** auth.rs:259-269. *)
Definition enc_std (s : sc_std) : bytes :=
  [mode_byte (std_mode s)] ++ std_signer s ++ be_bytes 8 (std_nonce s) ++ be_bytes 8 (std_fee s)
  ++ [x00] ++ std_sig s.

(** auth.rs:418-429. *)
Definition enc_field (f : auth_field) : bytes :=
  match f with FPk pk => x00 :: pk | FSig sg => x02 :: sg end.

(** auth.rs:408-433. *)
Definition enc_multi (m : sc_multi) : res cl_err bytes :=
  let* n := enc_len32 (lenN (ms_fields m)) in
  Ok ([mode_byte (ms_mode m)] ++ ms_signer m ++ be_bytes 8 (ms_nonce m) ++ be_bytes 8 (ms_fee m)
      ++ n ++ concat (map enc_field (ms_fields m)) ++ be_bytes 2 (b2n (ms_required m))).

Definition enc_scond (c : scond) : res cl_err bytes :=
  match c with SStd s => Ok (enc_std s) | SMulti m => enc_multi m end.

(** auth.rs:195-211 [Auth::encode]. *)
Definition enc_auth (a : auth) : res cl_err bytes :=
  match a with
  | AStandard o => let* e := enc_scond o in Ok (auth_type_standard :: e)
  | ASponsored o s =>
    let* e := enc_scond o in
    let* f := enc_scond s in
    Ok (auth_type_sponsored :: e ++ f)
  end.

(** auth.rs:281-298 [SpendingConditionStandard::verify]. *)
Definition verify_std (E : ecdsa) (s : sc_std) (hash : bytes) (typ : byte) : res tx_err bytes :=
  let* r := map_err TxHash (next_verify E hash typ (std_fee s) (std_nonce s) (std_sig s)) in
  let '(pk, next) := r in
  let* signer := match std_mode s with
                 | P2PKH => Ok (hash_p2pkh pk)
                 | P2WPKH => Ok (hash_p2wpkh pk)
                 | _ => Panic PExplicit
                 end in
  if bytes_eqb signer (std_signer s) then Ok next
  else Err (TxBadSigner (bytes_to_hex (std_signer s)) (bytes_to_hex signer)).

(** auth.rs:446-463: the loop over the fields; [count] is a [u8] and overflows at the 256th
    signature. Returns the keys (in order), the next hash and the count. *)
Fixpoint verify_fields (E : ecdsa) (fields : list auth_field) (next : bytes) (typ : byte)
         (fee nonce : N) (keys : list bytes) (count : N)
  : res tx_err (list bytes * bytes * N) :=
  match fields with
  | [] => Ok (keys, next, count)
  | FPk pk :: rest => verify_fields E rest next typ fee nonce (keys ++ [pk]) count
  | FSig sg :: rest =>
    let* r := map_err TxHash (next_verify E next typ fee nonce sg) in
    let '(pk, h) := r in
    if count + 1 <? 256 then verify_fields E rest h typ fee nonce (keys ++ [pk]) (count + 1)
    else Panic POverflow
  end.

(** auth.rs:445-482 [SpendingConditionMultiSig::verify]. *)
Definition verify_multi (E : ecdsa) (m : sc_multi) (hash : bytes) (typ : byte)
  : res tx_err bytes :=
  let* r := verify_fields E (ms_fields m) hash typ (ms_fee m) (ms_nonce m) [] 0 in
  let '(keys, next, count) := r in
  if count <? b2n (ms_required m) then Err (TxBadSignatureCount (b2n (ms_required m)) count)
  else
    let* signer := match ms_mode m with
                   | P2SH => hash_p2sh (ms_required m) keys
                   | P2WSH => hash_p2wsh (ms_required m) keys
                   | _ => Panic PExplicit
                   end in
    if bytes_eqb signer (ms_signer m) then Ok next
    else Err (TxBadSigner (bytes_to_hex (ms_signer m)) (bytes_to_hex signer)).

Definition verify_scond (E : ecdsa) (c : scond) (hash : bytes) (typ : byte) : res tx_err bytes :=
  match c with SStd s => verify_std E s hash typ | SMulti m => verify_multi E m hash typ end.

(** auth.rs:300-309 and 484-496 [modify]: the new condition and the result. *)
Definition modify (c : scond) (cmd : modification) : scond * res tx_err unit :=
  match c, cmd with
  | SStd s, MSetSignature sg =>
    (SStd {| std_mode := std_mode s; std_fee := std_fee s; std_nonce := std_nonce s;
             std_signer := std_signer s; std_sig := sg |}, Ok tt)
  | SMulti m, MAddSignature sg =>
    (SMulti {| ms_mode := ms_mode m; ms_fee := ms_fee m; ms_nonce := ms_nonce m;
               ms_signer := ms_signer m; ms_fields := ms_fields m ++ [FSig sg];
               ms_required := ms_required m |}, Ok tt)
  | SMulti m, MAddPublicKey pk =>
    (SMulti {| ms_mode := ms_mode m; ms_fee := ms_fee m; ms_nonce := ms_nonce m;
               ms_signer := ms_signer m; ms_fields := ms_fields m ++ [FPk pk];
               ms_required := ms_required m |}, Ok tt)
  | _, _ => (c, Err TxBadModification)
  end.

(** auth.rs:311-315 and 498-502 [reset]. *)
Definition reset_scond (c : scond) : scond :=
  match c with
  | SStd s => SStd {| std_mode := std_mode s; std_fee := 0; std_nonce := 0;
                      std_signer := std_signer s; std_sig := sig_default |}
  | SMulti m => SMulti {| ms_mode := ms_mode m; ms_fee := 0; ms_nonce := 0;
                          ms_signer := ms_signer m; ms_fields := [];
                          ms_required := ms_required m |}
  end.

(** auth.rs:504-512: counting loop with a [u16] counter. *)
Fixpoint count_sigs {E} (fields : list auth_field) (count : N) : res E N :=
  match fields with
  | [] => Ok count
  | FPk _ :: r => count_sigs r count
  | FSig _ :: r => if count + 1 <? 65536 then count_sigs r (count + 1) else Panic POverflow
  end.

(** auth.rs:317-319 and 504-512 [signatures]. *)
Definition signatures {E} (c : scond) : res E N :=
  match c with
  | SStd s => Ok (if bytes_eqb (std_sig s) sig_default then 0 else 1)
  | SMulti m => count_sigs (ms_fields m) 0
  end.

(** auth.rs:321-323 and 514-516 [req_signatures]. *)
Definition req_signatures (c : scond) : N :=
  match c with SStd _ => 1 | SMulti m => b2n (ms_required m) end.

(** auth.rs:325-335, 518-528 [fee], [nonce], [mode]. *)
Definition sc_fee (c : scond) : N := match c with SStd s => std_fee s | SMulti m => ms_fee m end.
Definition sc_nonce (c : scond) : N :=
  match c with SStd s => std_nonce s | SMulti m => ms_nonce m end.
Definition sc_mode (c : scond) : hmode :=
  match c with SStd s => std_mode s | SMulti m => ms_mode m end.

(** auth.rs:337-343, 530-536 [set_fee], [set_nonce]. *)
Definition sc_set_fee (c : scond) (fee : N) : scond :=
  match c with
  | SStd s => SStd {| std_mode := std_mode s; std_fee := fee; std_nonce := std_nonce s;
                      std_signer := std_signer s; std_sig := std_sig s |}
  | SMulti m => SMulti {| ms_mode := ms_mode m; ms_fee := fee; ms_nonce := ms_nonce m;
                          ms_signer := ms_signer m; ms_fields := ms_fields m;
                          ms_required := ms_required m |}
  end.
Definition sc_set_nonce (c : scond) (nonce : N) : scond :=
  match c with
  | SStd s => SStd {| std_mode := std_mode s; std_fee := std_fee s; std_nonce := nonce;
                      std_signer := std_signer s; std_sig := std_sig s |}
  | SMulti m => SMulti {| ms_mode := ms_mode m; ms_fee := ms_fee m; ms_nonce := nonce;
                          ms_signer := ms_signer m; ms_fields := ms_fields m;
                          ms_required := ms_required m |}
  end.

(** auth.rs:129-133 [origin]. *)
Definition auth_origin (a : auth) : scond :=
  match a with AStandard o => o | ASponsored o _ => o end.
(** auth.rs:136-140 [origin_mut]: replacing the origin in place. *)
Definition auth_with_origin (a : auth) (o : scond) : auth :=
  match a with AStandard _ => AStandard o | ASponsored _ s => ASponsored o s end.
(** auth.rs:143-148 [sponsor]. *)
Definition auth_sponsor (a : auth) : res tx_err scond :=
  match a with ASponsored _ s => Ok s | AStandard _ => Err TxBadModification end.
(** auth.rs:173-181 [set_sponsor]. *)
Definition auth_set_sponsor (a : auth) (s : scond) : auth * res tx_err unit :=
  match a with
  | AStandard _ => (a, Err TxBadModification)
  | ASponsored o _ => (ASponsored o s, Ok tt)
  end.
(** auth.rs:159-170 [set_fee], [set_nonce]. *)
Definition auth_set_fee (a : auth) (fee : N) : auth :=
  auth_with_origin a (sc_set_fee (auth_origin a) fee).
Definition auth_set_nonce (a : auth) (nonce : N) : auth :=
  auth_with_origin a (sc_set_nonce (auth_origin a) nonce).
(** auth.rs:184-186 [is_standard]. *)
Definition is_standard (a : auth) : bool :=
  match a with AStandard _ => true | ASponsored _ _ => false end.
(** auth.rs:189-191 [is_sponsored]. *)
Definition is_sponsored (a : auth) : bool :=
  match a with ASponsored _ _ => true | AStandard _ => false end.

(** auth.rs:115-126 [Auth::reset]. *)
Definition auth_reset (a : auth) : auth :=
  match a with
  | AStandard o => AStandard (reset_scond o)
  | ASponsored o _ => ASponsored (reset_scond o) (SStd std_default)
  end.

(** auth.rs:88-99 [Auth::verify]. *)
Definition auth_verify (E : ecdsa) (a : auth) (hash : bytes) : res tx_err unit :=
  match a with
  | ASponsored o s =>
    let* h := verify_scond E o hash auth_type_standard in
    let* _ := verify_scond E s h auth_type_sponsored in
    Ok tt
  | AStandard _ => Ok tt
  end.

(** auth.rs:102-111 [Auth::verify_origin]. *)
Definition auth_verify_origin (E : ecdsa) (a : auth) (hash : bytes) : res tx_err bytes :=
  verify_scond E (auth_origin a) hash auth_type_standard.

(** ** base.rs *)

(** base.rs:32-39 [AnchorMode], [as u8]. *)
Inductive anchor_mode := AnStrict | AnMicro | AnAny.
Definition anchor_byte (a : anchor_mode) : byte :=
  match a with AnStrict => x01 | AnMicro => x02 | AnAny => x03 end.

(** base.rs:43-58 [Transaction]. *)
Record tx := {
  tx_ver : tx_version; tx_chain : chain_id; tx_auth : auth; tx_anchor : anchor_mode;
  tx_pcmode : pc_mode; tx_conds : list condition; tx_payload : payload }.

Definition tx_with_auth (t : tx) (a : auth) : tx :=
  {| tx_ver := tx_ver t; tx_chain := tx_chain t; tx_auth := a; tx_anchor := tx_anchor t;
     tx_pcmode := tx_pcmode t; tx_conds := tx_conds t; tx_payload := tx_payload t |}.

(** base.rs:171-183 [Transaction::encode]. *)
Definition enc_tx (t : tx) : res cl_err bytes :=
  let* a := enc_auth (tx_auth t) in
  let* c := enc_conditions (tx_conds t) in
  let* p := enc_payload (tx_payload t) in
  Ok ([tx_version_byte (tx_ver t)] ++ be_bytes 4 (chain_id_N (tx_chain t)) ++ a
      ++ [anchor_byte (tx_anchor t)] ++ [pc_mode_byte (tx_pcmode t)] ++ c ++ p).

(** base.rs:92-95 [Transaction::hash]. *)
Definition tx_hash (t : tx) : res tx_err bytes :=
  let* e := map_err TxClarity (enc_tx t) in Ok (sighash e).

(** base.rs:98-105 [set_fee], [set_nonce]. *)
Definition tx_set_fee (t : tx) (fee : N) : tx := tx_with_auth t (auth_set_fee (tx_auth t) fee).
Definition tx_set_nonce (t : tx) (nonce : N) : tx :=
  tx_with_auth t (auth_set_nonce (tx_auth t) nonce).

(** base.rs:113-117 [initial_hash]. *)
Definition initial_hash (t : tx) : res tx_err bytes :=
  tx_hash (tx_with_auth t (auth_reset (tx_auth t))).

(** base.rs:108-110 [verify_origin]. *)
Definition tx_verify_origin (E : ecdsa) (t : tx) : res tx_err bytes :=
  let* h := initial_hash t in auth_verify_origin E (tx_auth t) h.

(** base.rs:148-167 [sign_and_append]: the condition after the call, and the result. *)
Definition sign_and_append (E : ecdsa) (c : scond) (hash : bytes) (typ : byte) (sk : bytes)
  : scond * res tx_err bytes :=
  match map_err TxHash (next_signature E hash typ (sc_fee c) (sc_nonce c) sk) with
  | Ok (sig, h) =>
    let '(c', r) :=
      match sc_mode c with
      | P2PKH | P2WPKH => modify c (MSetSignature sig)
      | P2SH | P2WSH => modify c (MAddSignature sig)
      end in
    (c', let* _ := r in Ok h)
  | Err e => (c, Err e)
  | Panic p => (c, Panic p)
  | NoFuel => (c, NoFuel)
  end.

(** base.rs:120-126 [sign_next_origin]. *)
Definition sign_next_origin (E : ecdsa) (t : tx) (hash sk : bytes) : tx * res tx_err bytes :=
  let '(o, r) := sign_and_append E (auth_origin (tx_auth t)) hash auth_type_standard sk in
  (tx_with_auth t (auth_with_origin (tx_auth t) o), r).

(** base.rs:129-135 [sign_next_sponsor], with auth.rs:151-156 [sponsor_mut]. *)
Definition sign_next_sponsor (E : ecdsa) (t : tx) (hash sk : bytes) : tx * res tx_err bytes :=
  match tx_auth t with
  | ASponsored o s =>
    let '(s', r) := sign_and_append E s hash auth_type_sponsored sk in
    (tx_with_auth t (ASponsored o s'), r)
  | AStandard _ => (t, Err TxBadModification)
  end.

(** base.rs:138-145 [append_next_origin]. *)
Definition append_next_origin (t : tx) (pk : bytes) : tx * res tx_err unit :=
  let o := auth_origin (tx_auth t) in
  match sc_mode o with
  | P2SH | P2WSH =>
    let '(o', r) := modify o (MAddPublicKey pk) in
    (tx_with_auth t (auth_with_origin (tx_auth t) o'), r)
  | P2PKH | P2WPKH => (t, Err TxBadModification)
  end.
