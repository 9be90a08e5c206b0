(** Model of the library's code over spending conditions of the user's own: [SpendingCondition] (auth.rs:38-60) is a public trait,
    and [Auth] (auth.rs:77-84) holds [Box<dyn SpendingCondition>].  The same functions as in Tx.v, Signer.v and Own.v, on conditions
    of which nothing is known but their methods. *)

From Coq Require Import Strings.String.
From Verif Require Import Base Hex Hash C32 Clarity Tx Signer Rpc Own.
Local Open Scope string_scope.
Local Open Scope list_scope.
Local Open Scope N_scope.

(** auth.rs:38-60 [SpendingCondition] and its [Codec::encode]: a type, its values being states, and its methods.  [encode], [verify],
    [modify] and [signatures] may fail or panic; the others are taken to return.  What [modify] leaves behind is there even if it
    fails.  Methods are functions of the state: a condition with a memory is one whose state has it. *)
Record cond_kind := {
  k_state : Type;
  k_encode : k_state -> res cl_err bytes;
  k_verify : ecdsa -> k_state -> bytes -> byte -> res tx_err bytes;
  k_modify : k_state -> modification -> k_state * res tx_err unit;
  k_reset : k_state -> k_state;
  k_signatures : k_state -> res tx_err N;
  k_required : k_state -> N;
  k_fee : k_state -> N;
  k_nonce : k_state -> N;
  k_mode : k_state -> hmode;
  k_set_fee : k_state -> N -> k_state;
  k_set_nonce : k_state -> N -> k_state }.

(** [Box<dyn SpendingCondition>]. *)
Record dcond := { d_kind : cond_kind; d_state : k_state d_kind }.
Definition d_with (c : dcond) (s : k_state (d_kind c)) : dcond := {| d_kind := d_kind c; d_state := s |}.
Definition d_encode (c : dcond) : res cl_err bytes := k_encode (d_kind c) (d_state c).
Definition d_verify (E : ecdsa) (c : dcond) : bytes -> byte -> res tx_err bytes := k_verify (d_kind c) E (d_state c).
Definition d_modify (c : dcond) (cmd : modification) : dcond * res tx_err unit :=
  let '(s, r) := k_modify (d_kind c) (d_state c) cmd in (d_with c s, r).
Definition d_reset (c : dcond) : dcond := d_with c (k_reset (d_kind c) (d_state c)).
Definition d_signatures (c : dcond) : res tx_err N := k_signatures (d_kind c) (d_state c).
Definition d_required (c : dcond) : N := k_required (d_kind c) (d_state c).
Definition d_fee (c : dcond) : N := k_fee (d_kind c) (d_state c).
Definition d_nonce (c : dcond) : N := k_nonce (d_kind c) (d_state c).
Definition d_mode (c : dcond) : hmode := k_mode (d_kind c) (d_state c).
Definition d_set_fee (c : dcond) (n : N) : dcond := d_with c (k_set_fee (d_kind c) (d_state c) n).
Definition d_set_nonce (c : dcond) (n : N) : dcond := d_with c (k_set_nonce (d_kind c) (d_state c) n).

(** auth.rs:271-343, 444-536: the library's own conditions. *)
Definition lib_kind : cond_kind :=
  {| k_state := scond; k_encode := enc_scond; k_verify := verify_scond; k_modify := modify; k_reset := reset_scond;
     k_signatures := signatures; k_required := req_signatures; k_fee := sc_fee; k_nonce := sc_nonce; k_mode := sc_mode;
     k_set_fee := sc_set_fee; k_set_nonce := sc_set_nonce |}.
Definition lib (c : scond) : dcond := {| d_kind := lib_kind; d_state := c |}.

(** ** auth.rs *)

(** auth.rs:79-84 [Auth]. *)
Inductive kauth := KStandard (origin : dcond) | KSponsored (origin sponsor : dcond).

(** auth.rs:129-133 [origin], 136-140 [origin_mut], 143-148 [sponsor], 173-181 [set_sponsor], 159-170 [set_fee], [set_nonce],
    189-191 [is_sponsored]. *)
Definition k_origin (a : kauth) : dcond := match a with KStandard o => o | KSponsored o _ => o end.
Definition k_with_origin (a : kauth) (o : dcond) : kauth :=
  match a with KStandard _ => KStandard o | KSponsored _ s => KSponsored o s end.
Definition k_sponsor (a : kauth) : res tx_err dcond :=
  match a with KSponsored _ s => Ok s | KStandard _ => Err TxBadModification end.
Definition k_set_sponsor (a : kauth) (s : dcond) : kauth * res tx_err unit :=
  match a with KStandard _ => (a, Err TxBadModification) | KSponsored o _ => (KSponsored o s, Ok tt) end.
Definition k_auth_set_fee (a : kauth) (fee : N) : kauth := k_with_origin a (d_set_fee (k_origin a) fee).
Definition k_auth_set_nonce (a : kauth) (nonce : N) : kauth := k_with_origin a (d_set_nonce (k_origin a) nonce).
Definition k_is_sponsored (a : kauth) : bool := match a with KSponsored _ _ => true | KStandard _ => false end.
(** auth.rs:115-126 [Auth::reset]: the sponsor becomes a [SpendingConditionStandard] whatever it was. *)
Definition k_auth_reset (a : kauth) : kauth :=
  match a with
  | KStandard o => KStandard (d_reset o)
  | KSponsored o _ => KSponsored (d_reset o) (lib (SStd std_default))
  end.
(** auth.rs:88-99 [Auth::verify], 102-111 [Auth::verify_origin]. *)
Definition k_auth_verify (E : ecdsa) (a : kauth) (hash : bytes) : res tx_err unit :=
  match a with
  | KSponsored o s =>
    let* h := d_verify E o hash auth_type_standard in
    let* _ := d_verify E s h auth_type_sponsored in
    Ok tt
  | KStandard _ => Ok tt
  end.
Definition k_auth_verify_origin (E : ecdsa) (a : kauth) (hash : bytes) : res tx_err bytes :=
  d_verify E (k_origin a) hash auth_type_standard.
(** auth.rs:195-211 [Auth::encode]. *)
Definition enc_kauth (a : kauth) : res cl_err bytes :=
  match a with
  | KStandard o => let* e := d_encode o in Ok (auth_type_standard :: e)
  | KSponsored o s => let* e := d_encode o in let* f := d_encode s in Ok (auth_type_sponsored :: e ++ f)
  end.

(** ** base.rs *)

(** base.rs:43-58 [Transaction], 171-183 [encode]. *)
Record ktx := {
  kt_ver : tx_version; kt_chain : chain_id; kt_auth : kauth; kt_anchor : anchor_mode;
  kt_pcmode : pc_mode; kt_conds : list own; kt_payload : own }.
Definition kt_with_auth (t : ktx) (a : kauth) : ktx :=
  {| kt_ver := kt_ver t; kt_chain := kt_chain t; kt_auth := a; kt_anchor := kt_anchor t;
     kt_pcmode := kt_pcmode t; kt_conds := kt_conds t; kt_payload := kt_payload t |}.
Definition enc_ktx (t : ktx) : res cl_err bytes :=
  let* a := enc_kauth (kt_auth t) in
  let* c := enc_oconds (kt_conds t) in
  let* p := kt_payload t in
  Ok ([tx_version_byte (kt_ver t)] ++ be_bytes 4 (chain_id_N (kt_chain t)) ++ a
      ++ [anchor_byte (kt_anchor t)] ++ [pc_mode_byte (kt_pcmode t)] ++ c ++ p).
(** base.rs:92-95 [hash], 113-117 [initial_hash], 108-110 [verify_origin], 98-105 [set_fee], [set_nonce]. *)
Definition ktx_hash (t : ktx) : res tx_err bytes :=
  let* e := map_err TxClarity (enc_ktx t) in Ok (sighash e).
Definition k_initial_hash (t : ktx) : res tx_err bytes := ktx_hash (kt_with_auth t (k_auth_reset (kt_auth t))).
Definition k_verify_origin (E : ecdsa) (t : ktx) : res tx_err bytes :=
  let* h := k_initial_hash t in k_auth_verify_origin E (kt_auth t) h.
Definition ktx_set_fee (t : ktx) (fee : N) : ktx := kt_with_auth t (k_auth_set_fee (kt_auth t) fee).
Definition ktx_set_nonce (t : ktx) (nonce : N) : ktx := kt_with_auth t (k_auth_set_nonce (kt_auth t) nonce).

(** base.rs:148-168 [sign_and_append]. *)
Definition k_sign_and_append (E : ecdsa) (c : dcond) (hash : bytes) (typ : byte) (sk : bytes) : dcond * res tx_err bytes :=
  match map_err TxHash (next_signature E hash typ (d_fee c) (d_nonce c) sk) with
  | Ok (sig, h) =>
    let '(c', r) :=
      match d_mode c with
      | P2PKH | P2WPKH => d_modify c (MSetSignature sig)
      | P2SH | P2WSH => d_modify c (MAddSignature sig)
      end in
    (c', let* _ := r in Ok h)
  | Err e => (c, Err e)
  | Panic p => (c, Panic p)
  | NoFuel => (c, NoFuel)
  end.
(** base.rs:120-126 [sign_next_origin], 129-135 [sign_next_sponsor], 138-145 [append_next_origin]. *)
Definition k_sign_next_origin (E : ecdsa) (t : ktx) (hash sk : bytes) : ktx * res tx_err bytes :=
  let '(o, r) := k_sign_and_append E (k_origin (kt_auth t)) hash auth_type_standard sk in
  (kt_with_auth t (k_with_origin (kt_auth t) o), r).
Definition k_sign_next_sponsor (E : ecdsa) (t : ktx) (hash sk : bytes) : ktx * res tx_err bytes :=
  match kt_auth t with
  | KSponsored o s =>
    let '(s', r) := k_sign_and_append E s hash auth_type_sponsored sk in
    (kt_with_auth t (KSponsored o s'), r)
  | KStandard _ => (t, Err TxBadModification)
  end.
Definition k_append_next_origin (t : ktx) (pk : bytes) : ktx * res tx_err unit :=
  let o := k_origin (kt_auth t) in
  match d_mode o with
  | P2SH | P2WSH =>
    let '(o', r) := d_modify o (MAddPublicKey pk) in
    (kt_with_auth t (k_with_origin (kt_auth t) o'), r)
  | P2PKH | P2WPKH => (t, Err TxBadModification)
  end.

(** ** signer.rs *)

(** signer.rs:19-30 [TransactionSigner], 34-44 [new], 47-66 [new_sponser]. *)
Record ksigner := { ks_tx : ktx; ks_hash : bytes; ks_origin_signed : bool; ks_oversign : bool; ks_overlap : bool }.
Definition ksigner_new (t : ktx) : res tx_err ksigner :=
  let* h := k_initial_hash t in
  Ok {| ks_tx := t; ks_hash := h; ks_origin_signed := false; ks_oversign := true; ks_overlap := true |}.
Definition ksigner_new_sponsor (E : ecdsa) (t : ktx) (sponsor : dcond) : res tx_err ksigner :=
  if negb (k_is_sponsored (kt_auth t)) then Err TxBadModification
  else
    let '(a, r) := k_set_sponsor (kt_auth t) sponsor in
    let* _ := r in
    let t' := kt_with_auth t a in
    let* h := k_verify_origin E t' in
    let* s := ksigner_new t' in
    Ok {| ks_tx := ks_tx s; ks_hash := h; ks_origin_signed := true; ks_oversign := true; ks_overlap := true |}.
(** signer.rs:69-82 [sign_origin]. *)
Definition k_sign_origin (E : ecdsa) (s : ksigner) (sk : bytes) : ksigner * res tx_err unit :=
  if ks_overlap s && ks_origin_signed s then (s, Err TxOriginPostSponsorSign)
  else
    let o := k_origin (kt_auth (ks_tx s)) in
    let over := if ks_oversign s then let* n := d_signatures o in Ok (d_required o <=? n) else Ok false in
    match over with
    | Ok true => (s, Err TxOriginOversign)
    | Ok false =>
      let '(t, r) := k_sign_next_origin E (ks_tx s) (ks_hash s) sk in
      match r with
      | Ok h => ({| ks_tx := t; ks_hash := h; ks_origin_signed := ks_origin_signed s;
                    ks_oversign := ks_oversign s; ks_overlap := ks_overlap s |}, Ok tt)
      | Err e => ({| ks_tx := t; ks_hash := ks_hash s; ks_origin_signed := ks_origin_signed s;
                     ks_oversign := ks_oversign s; ks_overlap := ks_overlap s |}, Err e)
      | Panic p => (s, Panic p)
      | NoFuel => (s, NoFuel)
      end
    | Err e => (s, Err e)
    | Panic p => (s, Panic p)
    | NoFuel => (s, NoFuel)
    end.
(** signer.rs:85-96 [sign_sponsor]. *)
Definition k_sign_sponsor (E : ecdsa) (s : ksigner) (sk : bytes) : ksigner * res tx_err unit :=
  let over :=
    let* sp := k_sponsor (kt_auth (ks_tx s)) in
    if ks_oversign s then let* n := d_signatures sp in Ok (d_required sp <=? n) else Ok false in
  match over with
  | Ok true => (s, Err TxSponsorOversign)
  | Ok false =>
    let '(t, r) := k_sign_next_sponsor E (ks_tx s) (ks_hash s) sk in
    match r with
    | Ok h => ({| ks_tx := t; ks_hash := h; ks_origin_signed := true;
                  ks_oversign := ks_oversign s; ks_overlap := ks_overlap s |}, Ok tt)
    | Err e => ({| ks_tx := t; ks_hash := ks_hash s; ks_origin_signed := ks_origin_signed s;
                   ks_oversign := ks_oversign s; ks_overlap := ks_overlap s |}, Err e)
    | Panic p => (s, Panic p)
    | NoFuel => (s, NoFuel)
    end
  | Err e => (s, Err e)
  | Panic p => (s, Panic p)
  | NoFuel => (s, NoFuel)
  end.
(** signer.rs:99-105 [append_origin]. *)
Definition k_append_origin (s : ksigner) (pk : bytes) : ksigner * res tx_err unit :=
  if ks_overlap s && ks_origin_signed s then (s, Err TxOriginPostSponsorAppend)
  else
    let '(t, r) := k_append_next_origin (ks_tx s) pk in
    ({| ks_tx := t; ks_hash := ks_hash s; ks_origin_signed := ks_origin_signed s;
        ks_oversign := ks_oversign s; ks_overlap := ks_overlap s |}, r).
(** base.rs:85-89 [Transaction::sign]. *)
Definition ktx_sign (E : ecdsa) (t : ktx) (sk : bytes) : res tx_err ktx :=
  let* s := ksigner_new t in
  let '(s', r) := k_sign_origin E s sk in
  let* _ := r in
  Ok (ks_tx s').

(** ** rpc.rs *)

(** rpc.rs:211-213, 228-231: the requests of [estimate_fee] and [broadcast]. *)
Definition k_estimate_request (url : bytes) (t : ktx) : res rpc_err request :=
  let* p := map_err RClarity (kt_payload t) in
  let* e := map_err RClarity (enc_ktx t) in
  Ok {| rq_post := true; rq_url := url ++ str "/v2/fees/transaction"; rq_headers := [];
        rq_body := BJson (JObj [(str "transaction_payload", JStr (bytes_to_hex p));
                                (str "estimated_len", JInt (Z.of_N (lenN e)))]) |}.
Definition k_broadcast_request (url : bytes) (t : ktx) : res rpc_err request :=
  let* e := map_err RClarity (enc_ktx t) in
  Ok {| rq_post := true; rq_url := url ++ str "/v2/transactions";
        rq_headers := [(str "Content-Type", str "application/octet-stream")];
        rq_body := BBytes e |}.
