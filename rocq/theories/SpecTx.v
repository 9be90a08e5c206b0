(** Specification of the transaction wire format (SIP-005, "Transaction Encoding"), with literal
    constants and no reference to the model's encoder or decoder. *)

From Verif Require Import Base Sha2 SpecText SpecAddr Hash C32 Clarity SpecWire Tx.
Local Open Scope N_scope.

(** ** Abstract syntax of the wire *)

(** Asset of a fungible or non-fungible token: contract address, contract name, asset name. *)
Record wasset := { wa_ver : byte; wa_hash : bytes; wa_contract : bytes; wa_name : bytes }.

(** Post-conditions: who, (which asset,) condition code, amount. *)
Inductive wcond :=
| WcSTX (who : wval) (code : byte) (amount : N)
| WcFT (who : wval) (asset : wasset) (code : byte) (amount : N)
| WcNFT (who : wval) (asset : wasset) (name : wval) (code : byte).

Inductive wpayload :=
| WpTransfer (to : wval) (amount : N) (memo : bytes)
| WpCall (ver : byte) (hash contract fname : bytes) (args : list wval).

Inductive wfield := WfKey (pk : bytes) | WfSig (sig : bytes).
Inductive wspend :=
| WsSingle (mode : byte) (signer : bytes) (nonce fee : N) (sig : bytes)
| WsMulti (mode : byte) (signer : bytes) (nonce fee : N) (fields : list wfield) (required : N).
Inductive wauth := WaStandard (origin : wspend) | WaSponsored (origin sponsor : wspend).

Record wtx := {
  w_version : byte; w_chain : N; w_auth : wauth; w_anchor : byte; w_pcmode : byte;
  w_conds : list wcond; w_payload : wpayload }.

(** ** Serialization *)

Definition ser_name (s : bytes) : bytes := big_endian 1 (count s) ++ s.

(** Principal of a post-condition: 0x02 standard, 0x03 contract. *)
Definition ser_who (w : wval) : bytes :=
  match w with
  | WStd v h => x02 :: v :: h
  | WCon v h n => x03 :: v :: h ++ ser_name n
  | _ => []
  end.

Definition ser_asset (a : wasset) : bytes := wa_ver a :: wa_hash a ++ ser_name (wa_contract a) ++ ser_name (wa_name a).

Definition ser_cond (c : wcond) : bytes :=
  match c with
  | WcSTX who code amount => x00 :: ser_who who ++ code :: big_endian 8 amount
  | WcFT who asset code amount => x01 :: ser_who who ++ ser_asset asset ++ code :: big_endian 8 amount
  | WcNFT who asset name code => x02 :: ser_who who ++ ser_asset asset ++ wser name ++ [code]
  end.

Definition ser_payload (p : wpayload) : bytes :=
  match p with
  | WpTransfer to amount memo => x00 :: wser to ++ big_endian 8 amount ++ memo
  | WpCall ver hash contract fname args =>
    x02 :: ver :: hash ++ ser_name contract ++ ser_name fname ++ big_endian 4 (count args) ++ flat_map wser args
  end.

Definition ser_field (f : wfield) : bytes := match f with WfKey pk => x00 :: pk | WfSig sig => x02 :: sig end.

Definition ser_spend (s : wspend) : bytes :=
  match s with
  | WsSingle mode signer nonce fee sig => mode :: signer ++ big_endian 8 nonce ++ big_endian 8 fee ++ x00 :: sig
  | WsMulti mode signer nonce fee fields required =>
    mode :: signer ++ big_endian 8 nonce ++ big_endian 8 fee
         ++ big_endian 4 (count fields) ++ flat_map ser_field fields ++ big_endian 2 required
  end.

Definition ser_auth (a : wauth) : bytes :=
  match a with
  | WaStandard o => x04 :: ser_spend o
  | WaSponsored o s => x05 :: ser_spend o ++ ser_spend s
  end.

Definition ser_tx (w : wtx) : bytes :=
  w_version w :: big_endian 4 (w_chain w) ++ ser_auth (w_auth w) ++ w_anchor w :: w_pcmode w
  :: big_endian 4 (count (w_conds w)) ++ flat_map ser_cond (w_conds w) ++ ser_payload (w_payload w).

(** ** Well-formed wire transactions: what a SIP-005 parser distinguishes *)

(** Clarity values proper, 128-bit integers, names at most 128 bytes, 20-byte principal hashes. *)
Definition solid (w : wval) : Prop := wall fits1 w /\ wall range1 w /\ wall std1 w /\ wall hash1 w.

Definition is_principal (w : wval) : Prop := match w with WStd _ _ | WCon _ _ _ => True | _ => False end.

Definition wf_asset (a : wasset) : Prop :=
  length (wa_hash a) = 20%nat /\ count (wa_contract a) <= 128 /\ count (wa_name a) <= 128.

Definition wf_cond (c : wcond) : Prop :=
  match c with
  | WcSTX who _ amount => is_principal who /\ solid who /\ amount < 2 ^ 64
  | WcFT who asset _ amount => is_principal who /\ solid who /\ wf_asset asset /\ amount < 2 ^ 64
  | WcNFT who asset name _ => is_principal who /\ solid who /\ wf_asset asset /\ solid name
  end.

Definition wf_payload (p : wpayload) : Prop :=
  match p with
  | WpTransfer to amount memo => solid to /\ amount < 2 ^ 64 /\ length memo = 34%nat
  | WpCall _ hash contract fname args =>
    length hash = 20%nat /\ count contract <= 128 /\ count fname <= 128 /\ count args < 2 ^ 32 /\ Forall solid args
  end.

Definition wf_field (f : wfield) : Prop :=
  match f with WfKey pk => length pk = 33%nat | WfSig sig => length sig = 65%nat end.

(** Single-signature hash modes are 0x00 and 0x02, multi-signature ones 0x01 and 0x03. *)
Definition wf_spend (s : wspend) : Prop :=
  match s with
  | WsSingle mode signer nonce fee sig =>
    In mode [x00; x02] /\ length signer = 20%nat /\ nonce < 2 ^ 64 /\ fee < 2 ^ 64 /\ length sig = 65%nat
  | WsMulti mode signer nonce fee fields required =>
    In mode [x01; x03] /\ length signer = 20%nat /\ nonce < 2 ^ 64 /\ fee < 2 ^ 64
    /\ count fields < 2 ^ 32 /\ Forall wf_field fields /\ required < 2 ^ 16
  end.

Definition wf_auth (a : wauth) : Prop :=
  match a with WaStandard o => wf_spend o | WaSponsored o s => wf_spend o /\ wf_spend s end.

Definition wf_tx (w : wtx) : Prop :=
  w_chain w < 2 ^ 32 /\ wf_auth (w_auth w) /\ count (w_conds w) < 2 ^ 32 /\ Forall wf_cond (w_conds w)
  /\ wf_payload (w_payload w).

(** ** Meaning of the library's transactions *)

Definition version_code (v : tx_version) : byte := match v with VMainnet => x00 | VTestnet => x80 end.
Definition chain_code (c : chain_id) : N := match c with ChMainnet => 1 | ChTestnet => 2147483648 end.
Definition anchor_code (a : anchor_mode) : byte := match a with AnStrict => x01 | AnMicro => x02 | AnAny => x03 end.
Definition pcmode_code (m : pc_mode) : byte := match m with PcAllow => x01 | PcDeny => x02 end.
Definition mode_code (m : hmode) : byte := match m with P2PKH => x00 | P2SH => x01 | P2WPKH => x02 | P2WSH => x03 end.
Definition cond_code_code (c : cond_code) : byte :=
  match c with CcEQ => x01 | CcGT => x02 | CcGTE => x03 | CcLT => x04 | CcLTE => x05 | CcHasNot => x10 | CcHas => x11 end.

Definition asset_means (a : asset_info) (w : wasset) : Prop :=
  address_spelling (wa_hash w) (wa_ver w) (ai_addr a) /\ wa_contract w = ai_contract a /\ wa_name w = ai_asset a.

Definition cond_means (c : condition) (w : wcond) : Prop :=
  match c, w with
  | CondSTX addr amount code, WcSTX who code' amount' =>
    is_principal who /\ means addr who /\ code' = cond_code_code code /\ amount' = amount
  | CondFT addr amount code info, WcFT who asset code' amount' =>
    is_principal who /\ means addr who /\ asset_means info asset /\ code' = cond_code_code code /\ amount' = amount
  | CondNFT addr name code info, WcNFT who asset name' code' =>
    is_principal who /\ means addr who /\ asset_means info asset /\ means name name' /\ code' = cond_code_code code
  | _, _ => False
  end.

(** The memo field is the memo followed by zero bytes up to 34. *)
Definition memo_field (memo m : bytes) : Prop := length m = 34%nat /\ exists k, m = memo ++ repeat x00 k.

Definition payload_means (p : payload) (w : wpayload) : Prop :=
  match p, w with
  | PTransfer r amount memo, WpTransfer to amount' m => means r to /\ amount' = amount /\ memo_field memo m
  | PCall ad contract fname args, WpCall ver hash contract' fname' args' =>
    ver = addr_version ad /\ hash = addr_hash ad /\ contract' = contract /\ fname' = fname /\ Forall2 means args args'
  | _, _ => False
  end.

Definition field_wire (f : auth_field) : wfield := match f with FPk pk => WfKey pk | FSig sig => WfSig sig end.
Definition spend_wire (c : scond) : wspend :=
  match c with
  | SStd s => WsSingle (mode_code (std_mode s)) (std_signer s) (std_nonce s) (std_fee s) (std_sig s)
  | SMulti m => WsMulti (mode_code (ms_mode m)) (ms_signer m) (ms_nonce m) (ms_fee m)
                        (map field_wire (ms_fields m)) (Byte.to_N (ms_required m))
  end.
Definition auth_wire (a : auth) : wauth :=
  match a with
  | AStandard o => WaStandard (spend_wire o)
  | ASponsored o s => WaSponsored (spend_wire o) (spend_wire s)
  end.

Definition tx_means (t : tx) (w : wtx) : Prop :=
  w_version w = version_code (tx_ver t) /\ w_chain w = chain_code (tx_chain t) /\ w_auth w = auth_wire (tx_auth t)
  /\ w_anchor w = anchor_code (tx_anchor t) /\ w_pcmode w = pcmode_code (tx_pcmode t)
  /\ Forall2 cond_means (tx_conds t) (w_conds w) /\ payload_means (tx_payload t) (w_payload w).

(** ** What can be encoded *)

Definition fits_asset (a : wasset) : Prop := count (wa_contract a) <= 128 /\ count (wa_name a) <= 128.
Definition fits_cond (c : wcond) : Prop :=
  match c with
  | WcSTX who _ _ => wall fits1 who
  | WcFT who asset _ _ => wall fits1 who /\ fits_asset asset
  | WcNFT who asset name _ => wall fits1 who /\ fits_asset asset /\ wall fits1 name
  end.
Definition fits_payload (p : wpayload) : Prop :=
  match p with
  | WpTransfer to _ _ => wall fits1 to
  | WpCall _ _ contract fname args =>
    count contract <= 128 /\ count fname <= 128 /\ count args < 2 ^ 32 /\ Forall (wall fits1) args
  end.
Definition fits_spend (s : wspend) : Prop :=
  match s with WsSingle _ _ _ _ _ => True | WsMulti _ _ _ _ fields _ => count fields < 2 ^ 32 end.
Definition fits_auth (a : wauth) : Prop :=
  match a with WaStandard o => fits_spend o | WaSponsored o s => fits_spend o /\ fits_spend s end.
Definition fits_tx (w : wtx) : Prop :=
  fits_auth (w_auth w) /\ count (w_conds w) < 2 ^ 32 /\ Forall fits_cond (w_conds w) /\ fits_payload (w_payload w).

(** ** What can be decoded *)

(** Payloads every Stacks node and this library agree on, with texts in UTF-8. *)
Definition proper_payload (w : wpayload) : Prop :=
  match w with
  | WpTransfer to amount memo => proper to /\ amount < 2 ^ 64 /\ length memo = 34%nat /\ utf8 memo
  | WpCall _ hash contract fname args =>
    length hash = 20%nat /\ count contract <= 128 /\ utf8 contract
    /\ count fname <= 128 /\ utf8 fname /\ count args < 2 ^ 32 /\ Forall proper args
  end.

(** The payload that reads back: canonical addresses and the whole memo field. *)
Definition payload_exact (p : payload) (w : wpayload) : Prop :=
  match p, w with
  | PTransfer r amount memo, WpTransfer to amount' m => canonically_means r to /\ amount' = amount /\ m = memo
  | PCall ad contract fname args, WpCall ver hash contract' fname' args' =>
    ver = addr_version ad /\ hash = addr_hash ad /\ contract' = contract /\ fname' = fname
    /\ Forall2 canonically_means args args'
  | _, _ => False
  end.

(** ** Equal up to spelling *)

(** Same Clarity value up to the spelling of addresses. *)
Definition same_clarity (c d : cval) : Prop := exists w, means c w /\ means d w.

Definition same_asset (a b : asset_info) : Prop :=
  (exists h v, address_spelling h v (ai_addr a) /\ address_spelling h v (ai_addr b))
  /\ ai_contract a = ai_contract b /\ ai_asset a = ai_asset b.

Definition same_cond (c d : condition) : Prop :=
  match c, d with
  | CondSTX a m k, CondSTX a' m' k' => same_clarity a a' /\ m = m' /\ k = k'
  | CondFT a m k i, CondFT a' m' k' i' => same_clarity a a' /\ m = m' /\ k = k' /\ same_asset i i'
  | CondNFT a n k i, CondNFT a' n' k' i' => same_clarity a a' /\ same_clarity n n' /\ k = k' /\ same_asset i i'
  | _, _ => False
  end.

(** Memos up to trailing NULs. *)
Definition same_memo (a b : bytes) : Prop := exists i j, a ++ repeat x00 i = b ++ repeat x00 j.

Definition same_payload (p q : payload) : Prop :=
  match p, q with
  | PTransfer r a m, PTransfer r' a' m' => same_clarity r r' /\ a = a' /\ same_memo m m'
  | PCall ad c n args, PCall ad' c' n' args' => ad = ad' /\ c = c' /\ n = n' /\ Forall2 same_clarity args args'
  | _, _ => False
  end.

(** Everything but the authorization. *)
Definition same_body (t u : tx) : Prop :=
  tx_ver t = tx_ver u /\ tx_chain t = tx_chain u /\ tx_anchor t = tx_anchor u /\ tx_pcmode t = tx_pcmode u
  /\ Forall2 same_cond (tx_conds t) (tx_conds u) /\ same_payload (tx_payload t) (tx_payload u).

(** ** Signing hash (SIP-005, "Transaction signing and verifying") *)

(** The identity a spending condition commits to: kind, hash mode, signer and threshold. *)
Definition same_identity (c d : scond) : Prop :=
  match c, d with
  | SStd s, SStd s' => std_mode s = std_mode s' /\ std_signer s = std_signer s'
  | SMulti m, SMulti m' => ms_mode m = ms_mode m' /\ ms_signer m = ms_signer m' /\ ms_required m = ms_required m'
  | _, _ => False
  end.

(** Same origin identity and same kind of authorization; the sponsor is free. *)
Definition same_origin (a b : auth) : Prop :=
  match a, b with
  | AStandard o, AStandard o' => same_identity o o'
  | ASponsored o _, ASponsored o' _ => same_identity o o'
  | _, _ => False
  end.

(** Fee, nonce and signatures cleared. *)
Definition clear_spend (s : wspend) : wspend :=
  match s with
  | WsSingle mode signer _ _ _ => WsSingle mode signer 0 0 (repeat x00 65)
  | WsMulti mode signer _ _ _ required => WsMulti mode signer 0 0 [] required
  end.

(** The sponsor is replaced by an empty single-signature condition of the zero key hash. *)
Definition clear_auth (a : wauth) : wauth :=
  match a with
  | WaStandard o => WaStandard (clear_spend o)
  | WaSponsored o _ => WaSponsored (clear_spend o) (WsSingle x00 (repeat x00 20) 0 0 (repeat x00 65))
  end.

Definition clear_tx (w : wtx) : wtx :=
  {| w_version := w_version w; w_chain := w_chain w; w_auth := clear_auth (w_auth w); w_anchor := w_anchor w;
     w_pcmode := w_pcmode w; w_conds := w_conds w; w_payload := w_payload w |}.

(** Body encodable, whatever the authorization. *)
Definition fits_body (w : wtx) : Prop :=
  count (w_conds w) < 2 ^ 32 /\ Forall fits_cond (w_conds w) /\ fits_payload (w_payload w).

(** What is hashed for one signature: the hash so far, the authorization type, fee and nonce. *)
Definition message_text (h : bytes) (typ : byte) (fee nonce : N) : bytes :=
  h ++ [typ] ++ big_endian 8 fee ++ big_endian 8 nonce.

(** Two different strings with the same SHA-512/256 digest. *)
Definition collision (a b : bytes) : Prop := a <> b /\ sha512_256 a = sha512_256 b.

(** ** Post-conditions whose parts are valid *)

Definition cond_who (c : condition) : cval :=
  match c with CondSTX a _ _ => a | CondFT a _ _ _ => a | CondNFT a _ _ _ => a end.

Definition principal_value (c : cval) : Prop := (exists a, c = CPrinStd a) \/ (exists a n, c = CPrinCon a n).

Definition value_ok (c : cval) : Prop := exists w, means c w /\ wall fits1 w.
Definition asset_ok (i : asset_info) : Prop :=
  (exists h v, address_spelling h v (ai_addr i)) /\ count (ai_contract i) <= 128 /\ count (ai_asset i) <= 128.

(** Everything but the kind of the address is in order. *)
Definition parts_ok (c : condition) : Prop :=
  (principal_value (cond_who c) -> value_ok (cond_who c)) /\
  match c with
  | CondSTX _ _ _ => True
  | CondFT _ _ _ i => asset_ok i
  | CondNFT _ n _ i => asset_ok i /\ value_ok n
  end.

(** ** Origin fee and nonce on the wire *)

Definition spend_fee (f : N) (s : wspend) : wspend :=
  match s with
  | WsSingle mode signer nonce _ sig => WsSingle mode signer nonce f sig
  | WsMulti mode signer nonce _ fields required => WsMulti mode signer nonce f fields required
  end.
Definition spend_nonce (n : N) (s : wspend) : wspend :=
  match s with
  | WsSingle mode signer _ fee sig => WsSingle mode signer n fee sig
  | WsMulti mode signer _ fee fields required => WsMulti mode signer n fee fields required
  end.
Definition on_origin (f : wspend -> wspend) (w : wtx) : wtx :=
  {| w_version := w_version w; w_chain := w_chain w;
     w_auth := match w_auth w with WaStandard o => WaStandard (f o) | WaSponsored o s => WaSponsored (f o) s end;
     w_anchor := w_anchor w; w_pcmode := w_pcmode w; w_conds := w_conds w; w_payload := w_payload w |}.
