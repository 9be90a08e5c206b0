(** What is asked of the library about types of the user's own: their bytes are put in place as they are.  On top of the wire
    format of SpecWire.v and SpecTx.v. *)

From Verif Require Import Base Sha2 SpecText SpecAddr Hash C32 Clarity SpecWire Tx SpecTx Signer SpecSign SpecBind SpecFault Own.
Local Open Scope N_scope.

(** ** Values *)

(** The bytes of a value. *)
Inductive own_ser : oval -> bytes -> Prop :=
| os_lib v w : means v w -> wall fits1 w -> own_ser (OLib v) (wser w)
| os_own b : own_ser (OOwn (Ok b)) b
| os_ok v b : own_ser v b -> own_ser (ORespOk v) (x07 :: b)
| os_err v b : own_ser v b -> own_ser (ORespErr v) (x08 :: b)
| os_some v b : own_ser v b -> own_ser (OSome v) (x0a :: b)
| os_list l bs : count l < 2 ^ 32 -> Forall2 own_ser l bs -> own_ser (OList l) (x0b :: big_endian 4 (count l) ++ concat bs)
| os_tuple l bs : count l < 2 ^ 32 ->
    Forall2 (fun kv b => count (fst kv) <= 128 /\ exists c, own_ser (snd kv) c /\ b = ser_name (fst kv) ++ c) l bs ->
    own_ser (OTuple l) (x0c :: big_endian 4 (count l) ++ concat bs)
| os_args l bs : count l < 2 ^ 32 -> Forall2 own_ser l bs -> own_ser (OFnArgs l) (big_endian 4 (count l) ++ concat bs).

Definition encodes (v : oval) : Prop := exists b, own_ser v b.
Definition no_bytes (r : own) : Prop := forall b, r <> Ok b.

(** How a value without bytes ends: as its first part without bytes does, be it with an error or a panic of the user's code. *)
Inductive own_fails : oval -> own -> Prop :=
| ob_lib v e : misfit v e -> own_fails (OLib v) (Err e)
| ob_own r : no_bytes r -> own_fails (OOwn r) r
| ob_ok v r : own_fails v r -> own_fails (ORespOk v) r
| ob_err v r : own_fails v r -> own_fails (ORespErr v) r
| ob_some v r : own_fails v r -> own_fails (OSome v) r
| ob_long_list l : 2 ^ 32 <= count l -> own_fails (OList l) (Err ClTryFromInt)
| ob_list l v r e : count (l ++ v :: r) < 2 ^ 32 -> Forall encodes l -> own_fails v e -> own_fails (OList (l ++ v :: r)) e
| ob_long_args l : 2 ^ 32 <= count l -> own_fails (OFnArgs l) (Err ClTryFromInt)
| ob_args l v r e : count (l ++ v :: r) < 2 ^ 32 -> Forall encodes l -> own_fails v e -> own_fails (OFnArgs (l ++ v :: r)) e
| ob_long_tuple l : 2 ^ 32 <= count l -> own_fails (OTuple l) (Err ClTryFromInt)
| ob_key l k v r e : count (l ++ (k, v) :: r) < 2 ^ 32 -> Forall (fun kv => count (fst kv) <= 128 /\ encodes (snd kv)) l ->
    too_long k e -> own_fails (OTuple (l ++ (k, v) :: r)) (Err e)
| ob_tuple l k v r e : count (l ++ (k, v) :: r) < 2 ^ 32 -> Forall (fun kv => count (fst kv) <= 128 /\ encodes (snd kv)) l ->
    count k <= 128 -> own_fails v e -> own_fails (OTuple (l ++ (k, v) :: r)) e.

(** ** Transactions *)

(** The bytes of the conditions and of the payload. *)
Definition own_parts (t : otx) (cs : list bytes) (p : bytes) : Prop := o_conds t = map Ok cs /\ o_payload t = Ok p.

(** A transaction with authorization [a], these conditions and this payload. *)
Definition own_text (a : wauth) (t : otx) (cs : list bytes) (p : bytes) : bytes :=
  version_code (o_ver t) :: big_endian 4 (chain_code (o_chain t)) ++ ser_auth a ++ anchor_code (o_anchor t) :: pcmode_code (o_pcmode t)
  :: big_endian 4 (count cs) ++ concat cs ++ p.
(** What is hashed before the first signature. *)
Definition own_cleared (t : otx) (cs : list bytes) (p : bytes) : bytes := own_text (clear_auth (auth_wire (o_auth t))) t cs p.

(** The fields in front of the conditions. *)
Definition same_head (t u : otx) : Prop :=
  o_ver t = o_ver u /\ o_chain t = o_chain u /\ o_anchor t = o_anchor u /\ o_pcmode t = o_pcmode u.
(** Everything but the signatures. *)
Definition own_same_terms (t u : otx) : Prop :=
  same_head t u /\ o_conds t = o_conds u /\ o_payload t = o_payload u
  /\ match o_auth t, o_auth u with
     | AStandard o, AStandard o' => same_terms o o'
     | ASponsored o s, ASponsored o' s' => same_terms o o' /\ same_terms s s'
     | _, _ => False
     end.
Definition own_origin (t : otx) : scond := match o_auth t with AStandard o => o | ASponsored o _ => o end.
(** A condition with this fee and nonce. *)
Definition set_terms (c : scond) (fee nonce : N) : scond :=
  match c with
  | SStd s => SStd {| std_mode := std_mode s; std_fee := fee; std_nonce := nonce; std_signer := std_signer s; std_sig := std_sig s |}
  | SMulti m => SMulti {| ms_mode := ms_mode m; ms_fee := fee; ms_nonce := nonce; ms_signer := ms_signer m; ms_fields := ms_fields m;
                          ms_required := ms_required m |}
  end.

(** ** Histories *)

Definition operform (E : ecdsa) (s : osigner) (o : op) : osigner * res tx_err unit :=
  match o with
  | SignOrigin sk => o_sign_origin E s sk
  | SignSponsor sk => o_sign_sponsor E s sk
  | AppendOrigin pk => o_append_origin s pk
  end.
Definition operform_all (E : ecdsa) (s : osigner) (l : list op) : osigner := fold_left (fun s o => fst (operform E s o)) l s.
Inductive osucceeds (E : ecdsa) : osigner -> list op -> osigner -> Prop :=
| osucceeds_nil s : osucceeds E s [] s
| osucceeds_cons s o s1 l s' : operform E s o = (s1, Ok tt) -> osucceeds E s1 l s' -> osucceeds E s (o :: l) s'.

(** ** The library's own types *)

Definition own_of (t : tx) : otx :=
  {| o_ver := tx_ver t; o_chain := tx_chain t; o_auth := tx_auth t; o_anchor := tx_anchor t; o_pcmode := tx_pcmode t;
     o_conds := map enc_condition (tx_conds t); o_payload := enc_payload (tx_payload t) |}.
Definition own_signer (s : signer) : osigner :=
  {| os_tx := own_of (sg_tx s); os_hash := sg_hash s; os_origin_signed := sg_origin_signed s;
     os_oversign := sg_oversign s; os_overlap := sg_overlap s |}.

(** ** Failures of whole transactions *)

(** Too many fields, then too many conditions, then the first condition without bytes, then the payload. *)
Inductive otx_fails : otx -> own -> Prop :=
| of_auth t : huge_auth (o_auth t) -> otx_fails t (Err ClTryFromInt)
| of_count t : ~ huge_auth (o_auth t) -> 2 ^ 32 <= count (o_conds t) -> otx_fails t (Err ClTryFromInt)
| of_cond t cs r l : ~ huge_auth (o_auth t) -> count (o_conds t) < 2 ^ 32 -> o_conds t = map Ok cs ++ r :: l -> no_bytes r ->
    otx_fails t r
| of_payload t cs r : ~ huge_auth (o_auth t) -> count (o_conds t) < 2 ^ 32 -> o_conds t = map Ok cs -> o_payload t = r -> no_bytes r ->
    otx_fails t r.

(** ** Where one condition ends *)

(** No text of the kind is the beginning of another. *)
Definition self_delimiting (K : bytes -> Prop) : Prop := forall a b x y, K a -> K b -> a ++ x = b ++ y -> a = b.

(** ** Builders *)

(** The unsigned transaction of a single key. *)
Definition own_unsigned (n : onet) (pk : bytes) (fee nonce : N) (anchor : anchor_mode) (mode : pc_mode) (conds : list own)
  (p : own) : otx :=
  {| o_ver := on_version n; o_chain := on_chain n;
     o_auth := AStandard (SStd {| std_mode := P2PKH; std_fee := fee; std_nonce := nonce; std_signer := hash20 pk;
                                  std_sig := repeat x00 65 |});
     o_anchor := anchor; o_pcmode := mode; o_conds := conds; o_payload := p |}.
