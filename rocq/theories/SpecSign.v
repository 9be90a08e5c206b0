(** Specification of signing and verification (SIP-005, "Transaction Authorization"): ECDSA with
    public-key recovery, signature chains, address scripts, signing histories.  Literal constants, no
    reference to the model's signing or verification code. *)

From Verif Require Import Base Sha2 Ripemd SpecText SpecWire Hash C32 Clarity Tx SpecTx Signer Builder.
Local Open Scope N_scope.

(** ** Recoverable ECDSA over secp256k1 *)

Definition group_order : N := 115792089237316195423570985008687907852837564279074904382605163141518161494337.
Definition scalar (b : bytes) : N := value 256 (map Byte.to_N b).

(** Secret keys: 32 bytes, a non-zero scalar. *)
Definition valid_key (sk : bytes) : Prop := length sk = 32%nat /\ 0 < scalar sk < group_order.

(** A recoverable signature as the [secp256k1] crate hands it out: recovery id and two scalars. *)
Definition compact_form (r : rsig) : Prop :=
  rs_id r <= 3 /\ length (rs_bytes r) = 64%nat
  /\ scalar (firstn 32 (rs_bytes r)) < group_order /\ scalar (skipn 32 (rs_bytes r)) < group_order.

(** What theorems assume of the [secp256k1] crate when they assume anything: keys are 33 bytes, signatures
    are compact with non-zero r, recovery from a signature yields the signer's key, and recovered keys are 33 bytes. *)
Record ecdsa_correct (E : ecdsa) : Prop := {
  key_length : forall sk, valid_key sk -> length (pubkey_of E sk) = 33%nat;
  sign_form : forall m sk, length m = 32%nat -> valid_key sk -> compact_form (sign_rec E m sk);
  sign_nonzero : forall m sk, length m = 32%nat -> valid_key sk ->
    0 < scalar (firstn 32 (rs_bytes (sign_rec E m sk)));
  sign_recovers : forall m sk, length m = 32%nat -> valid_key sk ->
    recover E m (sign_rec E m sk) = Some (pubkey_of E sk);
  recover_length : forall m r pk, recover E m r = Some pk -> length pk = 33%nat
}.

(** A toy scheme meeting these assumptions (the "signature" reveals the key), so that they are consistent. *)
Definition toy : ecdsa :=
  {| pubkey_of := fun sk => x02 :: sk;
     sign_rec := fun m sk => {| rs_id := 1; rs_bytes := sk ++ repeat x00 31 ++ [x01] |};
     recover := fun m r => if Nat.eqb (length (rs_bytes r)) 64 then Some (x02 :: firstn 32 (rs_bytes r)) else None |}.

(** 65-byte form: recovery id, then the two scalars. *)
Definition sig_bytes (r : rsig) : bytes := octet (rs_id r) :: rs_bytes r.

(** ** One link of the signature chain *)

Definition digest (h : bytes) (typ : byte) (fee nonce : N) : bytes := sha512_256 (message_text h typ fee nonce).
Definition link_text (d sig : bytes) : bytes := d ++ [x00] ++ sig.
Definition link (d sig : bytes) : bytes := sha512_256 (link_text d sig).

(** [sig] is the 65-byte form of a signature from which [pk] is recovered for the digest [d]. *)
Definition recovers (E : ecdsa) (d sig pk : bytes) : Prop :=
  exists r, compact_form r /\ sig = sig_bytes r /\ recover E d r = Some pk.

(** ** Addresses *)

Definition hash20 (b : bytes) : bytes := ripemd160 (sha256 b).

(** Address of one key. *)
Definition key_address (mode : hmode) (pk : bytes) : option bytes :=
  match mode with
  | P2PKH => Some (hash20 pk)
  | P2WPKH => Some (hash20 (x00 :: x14 :: hash20 pk))
  | _ => None
  end.

(** OP_m, the keys each pushed with its length, OP_n, OP_CHECKMULTISIG. *)
Definition script (m : N) (keys : list bytes) : bytes :=
  octet (80 + m) :: flat_map (fun k => octet (count k) :: k) keys ++ [octet (80 + count keys); xae].
Definition witness_program (s : bytes) : bytes := x00 :: x20 :: sha256 s.

Definition keys_address (mode : hmode) (m : N) (keys : list bytes) : option bytes :=
  match mode with
  | P2SH => Some (hash20 (script m keys))
  | P2WSH => Some (hash20 (witness_program (script m keys)))
  | _ => None
  end.

(** The opcodes fit one byte. *)
Definition script_fits (m : N) (keys : list bytes) : Prop := m <= 175 /\ count keys mod 256 <= 175.

(** Two different strings with the same hash. *)
Definition clash (f : bytes -> bytes) (a b : bytes) : Prop := a <> b /\ f a = f b.

(** How two scripts of a mode can come to the same address. *)
Definition script_clash (mode : hmode) (s s' : bytes) : Prop :=
  match mode with
  | P2SH => clash hash20 s s'
  | _ => clash hash20 (witness_program s) (witness_program s') \/ clash sha256 s s'
  end.
Definition key_clash (mode : hmode) (k k' : bytes) : Prop :=
  match mode with
  | P2PKH => clash hash20 k k'
  | _ => clash hash20 (x00 :: x14 :: hash20 k) (x00 :: x14 :: hash20 k') \/ clash hash20 k k'
  end.

(** ** Verification *)

(** The fields of a multi-signature condition, walked from hash [h]: the keys in order (declared or
    recovered), the number of signatures and the final hash. *)
Inductive chain (E : ecdsa) (typ : byte) (fee nonce : N) : bytes -> list auth_field -> list bytes -> N -> bytes -> Prop :=
| chain_nil h : chain E typ fee nonce h [] [] 0 h
| chain_key h pk fs ks n h' :
    chain E typ fee nonce h fs ks n h' -> chain E typ fee nonce h (FPk pk :: fs) (pk :: ks) n h'
| chain_sig h sig pk fs ks n h' :
    recovers E (digest h typ fee nonce) sig pk ->
    chain E typ fee nonce (link (digest h typ fee nonce) sig) fs ks n h' ->
    chain E typ fee nonce h (FSig sig :: fs) (pk :: ks) (1 + n) h'.

(** The condition is satisfied for the hash [h], and [h'] is what the next signer signs. *)
Inductive satisfied (E : ecdsa) (typ : byte) (h : bytes) : scond -> bytes -> Prop :=
| sat_single s pk :
    recovers E (digest h typ (std_fee s) (std_nonce s)) (std_sig s) pk ->
    key_address (std_mode s) pk = Some (std_signer s) ->
    satisfied E typ h (SStd s) (link (digest h typ (std_fee s) (std_nonce s)) (std_sig s))
| sat_multi m ks n h' :
    chain E typ (ms_fee m) (ms_nonce m) h (ms_fields m) ks n h' ->
    Byte.to_N (ms_required m) <= n -> n < 256 -> script_fits (Byte.to_N (ms_required m)) ks ->
    keys_address (ms_mode m) (Byte.to_N (ms_required m)) ks = Some (ms_signer m) ->
    satisfied E typ h (SMulti m) h'.

(** ** Signing histories *)

Inductive op := SignOrigin (sk : bytes) | SignSponsor (sk : bytes) | AppendOrigin (pk : bytes).

Definition perform (E : ecdsa) (s : signer) (o : op) : signer * res tx_err unit :=
  match o with
  | SignOrigin sk => sign_origin E s sk
  | SignSponsor sk => sign_sponsor E s sk
  | AppendOrigin pk => append_origin s pk
  end.

(** The signer after a sequence of operations, failed ones included. *)
Definition perform_all (E : ecdsa) (s : signer) (l : list op) : signer :=
  fold_left (fun s o => fst (perform E s o)) l s.

(** Every operation of the sequence succeeds, leading from [s] to [s']. *)
Inductive succeeds (E : ecdsa) : signer -> list op -> signer -> Prop :=
| succeeds_nil s : succeeds E s [] s
| succeeds_cons s o s1 l s' : perform E s o = (s1, Ok tt) -> succeeds E s1 l s' -> succeeds E s (o :: l) s'.

(** Number of signatures a condition holds. *)
Definition is_sig (f : auth_field) : bool := match f with FSig _ => true | FPk _ => false end.
Definition held (c : scond) : N :=
  match c with
  | SStd s => if bytes_eqb (std_sig s) (repeat x00 65) then 0 else 1
  | SMulti m => count (filter is_sig (ms_fields m))
  end.
Definition threshold (c : scond) : N := match c with SStd _ => 1 | SMulti m => Byte.to_N (ms_required m) end.

Definition fee_of (c : scond) : N := match c with SStd s => std_fee s | SMulti m => ms_fee m end.
Definition nonce_of (c : scond) : N := match c with SStd s => std_nonce s | SMulti m => ms_nonce m end.

(** Same condition except for its signatures. *)
Definition same_terms (c d : scond) : Prop := same_identity c d /\ fee_of c = fee_of d /\ nonce_of c = nonce_of d.

(** Same transaction except for signatures. *)
Definition same_but_signatures (t u : tx) : Prop :=
  tx_ver t = tx_ver u /\ tx_chain t = tx_chain u /\ tx_anchor t = tx_anchor u /\ tx_pcmode t = tx_pcmode u
  /\ tx_conds t = tx_conds u /\ tx_payload t = tx_payload u
  /\ match tx_auth t, tx_auth u with
     | AStandard o, AStandard o' => same_terms o o'
     | ASponsored o s, ASponsored o' s' => same_terms o o' /\ same_terms s s'
     | _, _ => False
     end.

(** What the Rust types guarantee: a [PublicKey] is 33 bytes, a [MessageSignature] 65. *)
Definition typed_field (f : auth_field) : Prop :=
  match f with FPk pk => length pk = 33%nat | FSig sig => length sig = 65%nat end.
Definition typed (c : scond) : Prop :=
  match c with SStd s => length (std_sig s) = 65%nat | SMulti m => Forall typed_field (ms_fields m) end.
Definition typed_change (c : modification) : Prop :=
  match c with
  | MSetPublicKey pk | MAddPublicKey pk => length pk = 33%nat
  | MSetSignature sig | MAddSignature sig => length sig = 65%nat
  end.

(** Hash mode fitting the kind of condition. *)
Definition mode_fits (c : scond) : Prop :=
  match c with
  | SStd s => std_mode s = P2PKH \/ std_mode s = P2WPKH
  | SMulti m => ms_mode m = P2SH \/ ms_mode m = P2WSH
  end.

(** The conditions a program can get hold of: constructed, then modified, reset, re-priced or signed. *)
Inductive reachable (E : ecdsa) : scond -> Prop :=
| reach_std pk fee nonce mode s : @std_new unit pk fee nonce mode = Ok s -> reachable E (SStd s)
| reach_default : reachable E (SStd std_default)
| reach_multi pks fee nonce required mode m :
    @multi_new unit pks fee nonce required mode = Ok m -> reachable E (SMulti m)
| reach_modify c cmd : reachable E c -> typed_change cmd -> reachable E (fst (modify c cmd))
| reach_reset c : reachable E c -> reachable E (reset_scond c)
| reach_fee c f : reachable E c -> reachable E (sc_set_fee c f)
| reach_nonce c n : reachable E c -> reachable E (sc_set_nonce c n)
| reach_sign c h typ sk : reachable E c -> reachable E (fst (sign_and_append E c h typ sk)).

(** Signatures and keys already present stay: nothing is dropped or replaced. *)
Definition grows (c d : scond) : Prop :=
  match c, d with
  | SStd s, SStd s' => std_sig s' = std_sig s \/ std_sig s = repeat x00 65
  | SMulti m, SMulti m' => exists fs, ms_fields m' = ms_fields m ++ fs
  | _, _ => False
  end.

Definition origin_of (t : tx) : scond := match tx_auth t with AStandard o => o | ASponsored o _ => o end.
Definition sponsor_of (t : tx) : option scond := match tx_auth t with AStandard _ => None | ASponsored _ s => Some s end.

Definition tx_grows (t u : tx) : Prop :=
  grows (origin_of t) (origin_of u)
  /\ match sponsor_of t, sponsor_of u with Some p, Some q => grows p q | None, None => True | _, _ => False end.

(** No condition holds more signatures than it needs. *)
Definition not_oversigned (t : tx) : Prop :=
  held (origin_of t) <= threshold (origin_of t)
  /\ match sponsor_of t with Some s => held s <= threshold s | None => True end.

(** The sponsor has signed and overlap checking is on. *)
Definition frozen (s : signer) : Prop := sg_overlap s = true /\ sg_origin_signed s = true.

(** ** Plans: who signs what *)

(** One participant of a multi-signature: either signs or is only listed. *)
Inductive step := Sign (sk : bytes) | List (pk : bytes).

Definition step_key (E : ecdsa) (s : step) : bytes := match s with Sign sk => pubkey_of E sk | List pk => pk end.
Definition is_sign (s : step) : bool := match s with Sign _ => true | List _ => false end.
Definition step_valid (s : step) : Prop := match s with Sign sk => valid_key sk | List pk => length pk = 33%nat end.
Definition step_op (s : step) : op := match s with Sign sk => SignOrigin sk | List pk => AppendOrigin pk end.

(** The participants carry out what the unsigned condition asks for. *)
Inductive plan (E : ecdsa) : scond -> list step -> Prop :=
| plan_single s sk :
    valid_key sk -> std_sig s = repeat x00 65 -> key_address (std_mode s) (pubkey_of E sk) = Some (std_signer s) ->
    plan E (SStd s) [Sign sk]
| plan_multi m l :
    Forall step_valid l -> ms_fields m = [] ->
    keys_address (ms_mode m) (Byte.to_N (ms_required m)) (map (step_key E) l) = Some (ms_signer m) ->
    script_fits (Byte.to_N (ms_required m)) (map (step_key E) l) ->
    count (filter is_sign l) = Byte.to_N (ms_required m) ->
    plan E (SMulti m) l.

(** The condition with its signature, or its fields, replaced. *)
Definition with_sig (s : sc_std) (sig : bytes) : sc_std :=
  {| std_mode := std_mode s; std_fee := std_fee s; std_nonce := std_nonce s; std_signer := std_signer s; std_sig := sig |}.
Definition with_fields (m : sc_multi) (fs : list auth_field) : sc_multi :=
  {| ms_mode := ms_mode m; ms_fee := ms_fee m; ms_nonce := ms_nonce m; ms_signer := ms_signer m; ms_fields := fs;
     ms_required := ms_required m |}.

(** Modifications that fit the kind of condition. *)
Definition accepts (c : scond) (cmd : modification) : Prop :=
  match c, cmd with
  | SStd _, MSetSignature _ | SMulti _, MAddSignature _ | SMulti _, MAddPublicKey _ => True
  | _, _ => False
  end.

(** ** Builders *)

(** Version and chain id of each network; the mocknet shares the testnet's. *)
Definition net_ids (n : network) : tx_version * chain_id :=
  match n with NetMainnet => (VMainnet, ChMainnet) | NetTestnet => (VTestnet, ChTestnet) | NetMocknet => (VTestnet, ChTestnet) end.

(** The unsigned transaction of a single key that a builder describes. *)
Definition unsigned (net : network) (pk : bytes) (fee nonce : N) (anchor : anchor_mode) (mode : pc_mode)
  (conds : list condition) (p : payload) : tx :=
  {| tx_ver := fst (net_ids net); tx_chain := snd (net_ids net);
     tx_auth := AStandard (SStd {| std_mode := P2PKH; std_fee := fee; std_nonce := nonce; std_signer := hash20 pk;
                                   std_sig := repeat x00 65 |});
     tx_anchor := anchor; tx_pcmode := mode; tx_conds := conds; tx_payload := p |}.
