(** What is asked of the library about spending conditions of the user's own: which of their methods are called, with what, and what
    becomes of the answers.  On top of the wire format of SpecTx.v and the signature chain of SpecSign.v. *)

From Verif Require Import Base Sha2 SpecText SpecAddr Hash C32 Clarity SpecWire Tx SpecTx Signer SpecSign Own SpecOwn Kind.
Local Open Scope N_scope.

(** ** Bytes *)

Definition kparts (t : ktx) (cs : list bytes) (p : bytes) : Prop := kt_conds t = map Ok cs /\ kt_payload t = Ok p.
(** The authorization: its type, then what the conditions write. *)
Inductive auth_bytes : kauth -> bytes -> Prop :=
| ab_standard o b : d_encode o = Ok b -> auth_bytes (KStandard o) (x04 :: b)
| ab_sponsored o p b c : d_encode o = Ok b -> d_encode p = Ok c -> auth_bytes (KSponsored o p) (x05 :: b ++ c).
(** The authorization that is signed: the origin after its [reset], and for any sponsor the 103 zeros of a blank single-key condition. *)
Inductive signed_bytes : kauth -> bytes -> Prop :=
| sb_standard o b : d_encode (d_reset o) = Ok b -> signed_bytes (KStandard o) (x04 :: b)
| sb_sponsored o p b : d_encode (d_reset o) = Ok b -> signed_bytes (KSponsored o p) (x05 :: b ++ repeat x00 103).
(** A transaction with an authorization of these bytes. *)
Definition kind_text (a : bytes) (t : ktx) (cs : list bytes) (p : bytes) : bytes :=
  version_code (kt_ver t) :: big_endian 4 (chain_code (kt_chain t)) ++ a ++ anchor_code (kt_anchor t) :: pcmode_code (kt_pcmode t)
  :: big_endian 4 (count cs) ++ concat cs ++ p.

(** A transaction without bytes: origin, sponsor, number of conditions, conditions, payload are looked at in this order. *)
Inductive ktx_fails : ktx -> own -> Prop :=
| kf_origin t r : d_encode (k_origin (kt_auth t)) = r -> no_bytes r -> ktx_fails t r
| kf_sponsor t o p b r : kt_auth t = KSponsored o p -> d_encode o = Ok b -> d_encode p = r -> no_bytes r -> ktx_fails t r
| kf_count t a : auth_bytes (kt_auth t) a -> 2 ^ 32 <= count (kt_conds t) -> ktx_fails t (Err ClTryFromInt)
| kf_cond t a cs r l : auth_bytes (kt_auth t) a -> count (kt_conds t) < 2 ^ 32 -> kt_conds t = map Ok cs ++ r :: l -> no_bytes r ->
    ktx_fails t r
| kf_payload t a cs r : auth_bytes (kt_auth t) a -> count (kt_conds t) < 2 ^ 32 -> kt_conds t = map Ok cs -> kt_payload t = r -> no_bytes r ->
    ktx_fails t r.

(** The head of a transaction. *)
Definition same_khead (t u : ktx) : Prop :=
  kt_ver t = kt_ver u /\ kt_chain t = kt_chain u /\ kt_anchor t = kt_anchor u /\ kt_pcmode t = kt_pcmode u.

(** ** Signing *)

(** The signature of a key for hash [h], over the fee and nonce the condition names, and the hash that comes next. *)
Definition signature_for (E : ecdsa) (typ : byte) (c : dcond) (h sk : bytes) : bytes :=
  sig_bytes (sign_rec E (digest h typ (d_fee c) (d_nonce c)) sk).
Definition hash_after (E : ecdsa) (typ : byte) (c : dcond) (h sk : bytes) : bytes :=
  link (digest h typ (d_fee c) (d_nonce c)) (signature_for E typ c h sk).
(** How a signature is handed over. *)
Definition single_mode (m : hmode) : Prop := m = P2PKH \/ m = P2WPKH.
Definition multi_mode (m : hmode) : Prop := m = P2SH \/ m = P2WSH.
Inductive hands_over (c : dcond) (sig : bytes) : modification -> Prop :=
| hand_set : single_mode (d_mode c) -> hands_over c sig (MSetSignature sig)
| hand_add : multi_mode (d_mode c) -> hands_over c sig (MAddSignature sig).

(** A condition is driven through the steps: it takes each signature while it has fewer than it requires, and each key. *)
Inductive driven (E : ecdsa) (typ : byte) : dcond -> bytes -> list step -> dcond -> bytes -> Prop :=
| driven_nil c h : driven E typ c h [] c h
| driven_sign c h sk n cmd c1 l c' h' :
    d_signatures c = Ok n -> n < d_required c ->
    hands_over c (signature_for E typ c h sk) cmd -> d_modify c cmd = (c1, Ok tt) ->
    driven E typ c1 (hash_after E typ c h sk) l c' h' -> driven E typ c h (Sign sk :: l) c' h'
| driven_list c h pk c1 l c' h' :
    multi_mode (d_mode c) -> d_modify c (MAddPublicKey pk) = (c1, Ok tt) ->
    driven E typ c1 h l c' h' -> driven E typ c h (List pk :: l) c' h'.

(** A signature is refused: the condition cannot tell how many it has, has enough, or does not take it. *)
Inductive refuses (E : ecdsa) (typ : byte) (enough : tx_err) (c : dcond) (h sk : bytes) : res tx_err unit -> Prop :=
| refuses_count r : (forall n, d_signatures c <> Ok n) -> r = bind (d_signatures c) (fun _ => Ok tt) -> refuses E typ enough c h sk r
| refuses_enough n : d_signatures c = Ok n -> d_required c <= n -> refuses E typ enough c h sk (Err enough)
| refuses_change n cmd r : d_signatures c = Ok n -> n < d_required c -> hands_over c (signature_for E typ c h sk) cmd ->
    snd (d_modify c cmd) = r -> r <> Ok tt -> refuses E typ enough c h sk r.

Definition kfrozen (s : ksigner) : Prop := ks_overlap s = true /\ ks_origin_signed s = true.
Definition kput (s : ksigner) (a : kauth) (h : bytes) (b : bool) : ksigner :=
  {| ks_tx := {| kt_ver := kt_ver (ks_tx s); kt_chain := kt_chain (ks_tx s); kt_auth := a; kt_anchor := kt_anchor (ks_tx s);
                 kt_pcmode := kt_pcmode (ks_tx s); kt_conds := kt_conds (ks_tx s); kt_payload := kt_payload (ks_tx s) |};
     ks_hash := h; ks_origin_signed := b; ks_oversign := ks_oversign s; ks_overlap := ks_overlap s |}.
Definition korigin (t : ktx) : dcond := match kt_auth t with KStandard o => o | KSponsored o _ => o end.
Definition swap_origin (a : kauth) (o : dcond) : kauth := match a with KStandard _ => KStandard o | KSponsored _ p => KSponsored o p end.

Definition kperform (E : ecdsa) (s : ksigner) (o : op) : ksigner * res tx_err unit :=
  match o with
  | SignOrigin sk => k_sign_origin E s sk
  | SignSponsor sk => k_sign_sponsor E s sk
  | AppendOrigin pk => k_append_origin s pk
  end.
Definition kperform_all (E : ecdsa) (s : ksigner) (l : list op) : ksigner := fold_left (fun s o => fst (kperform E s o)) l s.
Inductive ksucceeds (E : ecdsa) : ksigner -> list op -> ksigner -> Prop :=
| ksucceeds_nil s : ksucceeds E s [] s
| ksucceeds_cons s o s1 l s' : kperform E s o = (s1, Ok tt) -> ksucceeds E s1 l s' -> ksucceeds E s (o :: l) s'.

(** Nothing is done to a condition but handing it signatures and keys as its mode wants them. *)
Inductive moved : dcond -> dcond -> Prop :=
| moved_not c : moved c c
| moved_sig c sig cmd c' : hands_over c sig cmd -> moved (fst (d_modify c cmd)) c' -> moved c c'
| moved_key c pk c' : multi_mode (d_mode c) -> moved (fst (d_modify c (MAddPublicKey pk))) c' -> moved c c'.
Definition auth_moved (a b : kauth) : Prop :=
  match a, b with
  | KStandard o, KStandard o' => moved o o'
  | KSponsored o p, KSponsored o' p' => moved o o' /\ moved p p'
  | _, _ => False
  end.

(** What a condition owes: taking signatures and keys does not show after [reset]. *)
Definition reset_forgets (c c' : dcond) : Prop := d_encode (d_reset c') = d_encode (d_reset c).

(** ** The library's own conditions *)

Definition kauth_of (a : auth) : kauth :=
  match a with AStandard o => KStandard (lib o) | ASponsored o p => KSponsored (lib o) (lib p) end.
Definition ktx_of (t : otx) : ktx :=
  {| kt_ver := o_ver t; kt_chain := o_chain t; kt_auth := kauth_of (o_auth t); kt_anchor := o_anchor t; kt_pcmode := o_pcmode t;
     kt_conds := o_conds t; kt_payload := o_payload t |}.
Definition ksigner_of (s : osigner) : ksigner :=
  {| ks_tx := ktx_of (os_tx s); ks_hash := os_hash s; ks_origin_signed := os_origin_signed s; ks_oversign := os_oversign s;
     ks_overlap := os_overlap s |}.
