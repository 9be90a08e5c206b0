(** BIP-39 seeds and BIP-32 private derivation (crates [bip39], [bip32]).

    The repository only calls the crates (/repo/stacks/src/wallet.rs:61-64, 100-109).  This file
    implements the published standards so that the wallet computes; VectorsWallet.v replays the
    repository's own wallet tests with it.  The theorems hold for every [hd] record, or for every one
    meeting [hd_correct]; CurveThms.v proves that [bip_hd] below meets it.
    Phrases are read by Mnemonic.v.  Simplified: the depth counter of BIP-32 is left out. *)

From Coq Require Import Strings.String.
From Verif Require Import Base Sha2 Hash Mnemonic Wallet Secp.
Local Open Scope N_scope.

(** FIPS 180-4 SHA-512. *)
Definition iv512 : state8 :=
  (0x6a09e667f3bcc908, 0xbb67ae8584caa73b, 0x3c6ef372fe94f82b, 0xa54ff53a5f1d36f1,
   0x510e527fade682d1, 0x9b05688c2b3e6c1f, 0x1f83d9abfb41bd6b, 0x5be0cd19137e2179).
Definition state_bytes (st : state8) : bytes :=
  let '(a, b, c, d, e, f, g, h) := st in
  be_bytes 8 a ++ be_bytes 8 b ++ be_bytes 8 c ++ be_bytes 8 d ++
  be_bytes 8 e ++ be_bytes 8 f ++ be_bytes 8 g ++ be_bytes 8 h.
Definition sha512_from (st : state8) (m : bytes) : bytes :=
  state_bytes (blocks (length m) 128 compress512 st m).
Definition sha512 (bs : bytes) : bytes := sha512_from iv512 (sha_pad 128 16 bs).

(** HMAC-SHA512 (RFC 2104), with the two keyed states computed once. *)
Definition hkey (key : bytes) : state8 * state8 :=
  let k := if 128 <? lenN key then sha512 key else key in
  let padded := k ++ repeat x00 (128 - length k) in
  let side c := compress512 iv512 (map (fun b => n2b (N.lxor (b2n b) c)) padded) in
  (side 0x36, side 0x5c).
(** Padding of a message that follows one 128-byte block. *)
Definition pad_after (bs : bytes) : bytes := skipn 128 (sha_pad 128 16 (repeat x00 128 ++ bs)).
Definition hmac512 (k : state8 * state8) (msg : bytes) : bytes :=
  sha512_from (snd k) (pad_after (sha512_from (fst k) (pad_after msg))).

(** PBKDF2 (RFC 2898), one 64-byte block. *)
Definition xor_bytes (a b : bytes) : bytes :=
  map (fun p => n2b (N.lxor (b2n (fst p)) (b2n (snd p)))) (combine a b).
Definition pbkdf2 (password salt : bytes) (iterations : N) : bytes :=
  let k := hkey password in
  let u1 := hmac512 k (salt ++ [x00; x00; x00; x01]) in
  snd (N.iter (iterations - 1)
              (fun st => let u := hmac512 k (fst st) in (u, xor_bytes (snd st) u)) (u1, u1)).

(** BIP-39 [to_seed("")]. *)
Definition bip39_seed (phrase : bytes) : bytes := pbkdf2 phrase (str "mnemonic"%string) 2048.

(** Extended private keys: secret scalar (crate [secp256k1], [SecretKey]: never zero, below the order) and
    chain code. *)
Definition secret_ok (s : Z) : bool := (0 <? s)%Z && (s <? gn)%Z.
Record xkey := { xk_secret : Z; xk_chain : bytes; xk_ok : secret_ok xk_secret = true }.
(** [bip32::Error] as derivation gives it, [bip39::Error]: the variants [Bip32], [Bip39] of wallet.rs:28-33. *)
Inductive bip_err := Bip32Bad | Bip39Bad (e : bip39_err).

(** The rule of BIP-32.  The crate [bip32] also refuses a tweak of zero, which the standard allows and nobody has seen. *)
Definition xkey_of (tweak : Z) (parent : Z) (i : bytes) : bip_err + xkey :=
  let s := ((tweak + parent) mod gn)%Z in
  if (tweak <? gn)%Z
  then match Sumbool.sumbool_of_bool (secret_ok s) with
       | left ok => inr {| xk_secret := s; xk_chain := skipn 32 i; xk_ok := ok |}
       | right _ => inl Bip32Bad
       end
  else inl Bip32Bad.
Definition secret_bytes (k : xkey) : bytes := be_bytes 32 (Z.to_N (xk_secret k)).
Definition public_bytes (k : xkey) : bytes := secp_pubkey (secret_bytes k).

(** BIP-32 master key. *)
Definition master (seed : bytes) : bip_err + xkey :=
  let i := hmac512 (hkey (str "Bitcoin seed"%string)) seed in
  xkey_of (zval (firstn 32 i)) 0 i.
(** BIP-32 CKDpriv; indices from 2^31 are hardened. *)
Definition ckd_priv (k : xkey) (index : N) : bip_err + xkey :=
  let data := (if 2 ^ 31 <=? index then x00 :: secret_bytes k else public_bytes k) ++ be_bytes 4 index in
  let i := hmac512 (hkey (xk_chain k)) data in
  xkey_of (zval (firstn 32 i)) (xk_secret k) i.

Fixpoint derive_path (k : xkey) (path : list N) : bip_err + xkey :=
  match path with
  | [] => inr k
  | i :: r => match ckd_priv k i with inr c => derive_path c r | inl e => inl e end
  end.

(** wallet.rs:40 [STX_DERIVATION_PATH]: m/44'/5757'/0'/0. *)
Definition stx_path : list N := [2 ^ 31 + 44; 2 ^ 31 + 5757; 2 ^ 31; 0].

Definition at_stx_path (m : bip_err + xkey) : bip_err + xkey :=
  match m with inr k => derive_path k stx_path | inl e => inl e end.
Definition is_point (b : bytes) : bool := match point_parse b with Some _ => true | None => false end.

Definition bip_hd : hd :=
  {| xprv := xkey; hd_err := bip_err; derive_child := ckd_priv; xpub_bytes := public_bytes;
     xprv_bytes := secret_bytes; point_ok := is_point;
     from_mnemonic := fun phrase =>
       match parse_phrase phrase with
       | inr ns => at_stx_path (master (bip39_seed (phrase_text ns)))
       | inl e => inl (Bip39Bad e)
       end |}.
