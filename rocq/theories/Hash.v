(** Model of stacks/src/crypto/hash.rs. *)

From Verif Require Import Base Sha2 Ripemd.
Local Open Scope N_scope.

(** The subset of [secp256k1::Error] that the repository can observe. *)
Inductive secp_err :=
| SecpInvalidRecoveryId
| SecpInvalidSignature
| SecpInvalidMessage
| SecpInvalidSecretKey
| SecpInvalidPublicKey.

(** hash.rs:22-31 [Error]. *)
Inductive hash_err :=
| HashInvalidSigLength (len : N)
| HashSecp (e : secp_err)
| HashTryFromInt.

(** hash.rs:105-117 [Sha256Hash::from_slice] is [sha256] (Sha2.v).
    hash.rs:129-142 [DSha256Hash::from_slice]. *)
Definition dsha256 (bs : bytes) : bytes := sha256 (sha256 bs).

(** hash.rs:145-150 (and 120-125, 169-174, 203-208) [checksum]: the first four bytes. *)
Definition checksum (h : bytes) : bytes := firstn 4 h.

(** hash.rs:180-187 [Hash160::new]: [copy_from_slice] into 20 bytes panics on another length. *)
Definition hash160_new {E} (bs : bytes) : res E bytes :=
  if Nat.eqb (length bs) 20 then Ok bs else Panic PCopyLen.

(** hash.rs:190-200 [Hash160::from_slice]. *)
Definition hash160 (bs : bytes) : bytes := ripemd160 (sha256 bs).

(** hash.rs:59-63 [MessageSignature::default()]: 65 zero bytes. *)
Definition sig_default : bytes := repeat x00 65.

(** The order of the secp256k1 group. *)
Definition secp_n : N :=
  0xfffffffffffffffffffffffffffffffebaaedce6af48a03bbfd25e8cd0364141.

(** A [secp256k1::ecdsa::RecoverableSignature], by its [serialize_compact] content: recovery id
    (0..3) and 64 bytes r || s with r, s below the group order. *)
Record rsig := { rs_id : N; rs_bytes : bytes }.

(** [RecoverableSignature::from_compact(bytes, id)]: wrong length or a scalar overflow is
    [InvalidSignature] (libsecp256k1 [recoverable_signature_parse_compact]). *)
Definition compact_ok (bs : bytes) : bool :=
  Nat.eqb (length bs) 64
  && (be_val (firstn 32 bs) <? secp_n) && (be_val (skipn 32 bs) <? secp_n).

(** secp256k1 signing and recovery, as the crate's interface.  A value of this record plays the part
    of the crate; theorems that need it to be correct say so ([ecdsa_correct] in SpecSign.v).
    - [pubkey_of sk]: 33-byte compressed serialization of the public key of the 32-byte secret key;
    - [sign_rec m sk]: [sign_ecdsa_recoverable], (recovery id, 64 bytes);
    - [recover m s]: [recover_ecdsa], [None] for an error. *)
Record ecdsa := {
  pubkey_of : bytes -> bytes;
  sign_rec : bytes -> bytes -> rsig;
  recover : bytes -> rsig -> option bytes
}.

(** hash.rs:214-221 [MessageSignature::new]: [copy_from_slice] into 65 bytes panics on another length. *)
Definition msig_new {E} (bs : bytes) : res E bytes :=
  if Nat.eqb (length bs) 65 then Ok bs else Panic PCopyLen.

(** hash.rs:224-238 [MessageSignature::from_slice]. *)
Definition msig_from_slice (bs : bytes) : res hash_err bytes :=
  if Nat.eqb (length bs) 65 then Ok bs else Err (HashInvalidSigLength (lenN bs)).

(** hash.rs:241-249 [MessageSignature::from_recov]; [u8::try_from(id.to_i32())]. *)
Definition msig_from_recov (r : rsig) : res hash_err bytes :=
  if rs_id r <? 256 then msig_from_slice (n2b (rs_id r) :: rs_bytes r)
  else Err HashTryFromInt.

(** hash.rs:252-256 [MessageSignature::into_recov]; [RecoveryId::from_i32] accepts 0..=3. *)
Definition msig_into_recov (sig : bytes) : res hash_err rsig :=
  let* b0 := index 0 sig in
  if b2n b0 <? 4 then
    let* tl := drop_slice 1 sig in
    if compact_ok tl then Ok {| rs_id := b2n b0; rs_bytes := tl |}
    else Err (HashSecp SecpInvalidSignature)
  else Err (HashSecp SecpInvalidRecoveryId).

(** hash.rs:262-268 [SignatureHash::from_slice]. *)
Definition sighash (bs : bytes) : bytes := sha512_256 bs.

(** hash.rs:315-324 [SignatureHash::make_presign_hash]. *)
Definition presign_hash (hash : bytes) (typ : byte) (fee nonce : N) : bytes :=
  sighash (hash ++ [typ] ++ be_bytes 8 fee ++ be_bytes 8 nonce).

(** hash.rs:326-337 [SignatureHash::make_postsign_hash]. *)
Definition postsign_hash (hash : bytes) (sig : bytes) : bytes :=
  sighash (hash ++ [x00] ++ sig).

(** [Message::from_digest_slice]: the digest must be 32 bytes. *)
Definition message_of (h : bytes) : res hash_err bytes :=
  if Nat.eqb (length h) 32 then Ok h else Err (HashSecp SecpInvalidMessage).

(** hash.rs:270-290 [SignatureHash::next_signature]. *)
Definition next_signature (E : ecdsa) (hash : bytes) (typ : byte) (fee nonce : N) (sk : bytes)
  : res hash_err (bytes * bytes) :=
  let pre := presign_hash hash typ fee nonce in
  let* msg := message_of pre in
  let* sig := msig_from_recov (sign_rec E msg sk) in
  Ok (sig, postsign_hash pre sig).

(** hash.rs:292-313 [SignatureHash::next_verify]. *)
Definition next_verify (E : ecdsa) (hash : bytes) (typ : byte) (fee nonce : N) (sig : bytes)
  : res hash_err (bytes * bytes) :=
  let pre := presign_hash hash typ fee nonce in
  let* r := msig_into_recov sig in
  let* msg := message_of pre in
  match recover E msg r with
  | Some pk => Ok (pk, postsign_hash pre sig)
  | None => Err (HashSecp SecpInvalidSignature)
  end.
