(** secp256k1 signing and recovery (crate [secp256k1] / libsecp256k1).

    The repository only calls the crate (/repo/stacks/src/crypto/hash.rs:270-313).  This file implements
    the published standards (SEC 2 curve parameters, RFC 6979 nonces as libsecp256k1 uses them, low-s
    normalisation, SEC 1 key recovery) so that signing computes; VectorsSign.v replays the signed
    transactions of the repository's own tests with it.  The theorems hold for every [ecdsa] record, or for
    every one meeting [ecdsa_correct] or [binds_digest]; EcSign.v proves that [secp] below meets both. *)

From Verif Require Import Base Sha2 Hash.
Local Open Scope Z_scope.

(** Field prime and group order. *)
Definition fp : Z := 2 ^ 256 - 2 ^ 32 - 977.
Definition gn : Z := Z.of_N secp_n.

(** Reduction modulo [fp] of a product of two residues, folding the high half twice
    (2^256 = 2^32 + 977 modulo [fp]). *)
Definition fred (x : Z) : Z :=
  let a := Z.land x (Z.ones 256) + 4294968273 * Z.shiftr x 256 in
  let b := Z.land a (Z.ones 256) + 4294968273 * Z.shiftr a 256 in
  if b <? fp then b else b - fp.
Definition fmul (x y : Z) : Z := fred (x * y).
Definition fadd (x y : Z) : Z := let s := x + y in if s <? fp then s else s - fp.
Definition fsub (x y : Z) : Z := let s := x - y in if s <? 0 then s + fp else s.

(** [x ^ e] modulo [fp]. *)
Fixpoint fpow (x : Z) (e : positive) : Z :=
  match e with
  | xH => x
  | xO e' => let r := fpow x e' in fmul r r
  | xI e' => let r := fpow x e' in fmul (fmul r r) x
  end.
Definition finv (x : Z) : Z := fpow x (Z.to_pos (fp - 2)).
(** The square root candidate of [x] ([fp] is 3 modulo 4). *)
Definition fsqrt (x : Z) : Z := fpow x (Z.to_pos ((fp + 1) / 4)).

(** Inverse modulo [gn] by the extended Euclidean algorithm. *)
Fixpoint egcd (fuel : nat) (a b x y : Z) : Z :=
  match fuel with
  | O => x
  | S f => if b =? 0 then x else egcd f b (a mod b) y (x - a / b * y)
  end.
Definition ninv (a : Z) : Z := (egcd 512 gn (a mod gn) 0 1) mod gn.

(** Points: affine, and Jacobian coordinates ([Z = 0] is the point at infinity). *)
Definition apoint := (Z * Z)%type.
Definition jpoint := (Z * Z * Z)%type.
Definition jinf : jpoint := (1, 1, 0).
Definition to_j (q : apoint) : jpoint := let '(x, y) := q in (x, y, 1).

Definition jdouble (q : jpoint) : jpoint :=
  let '(x, y, z) := q in
  let a := fmul x x in
  let b := fmul y y in
  let c := fmul b b in
  let t := fadd x b in
  let d0 := fsub (fsub (fmul t t) a) c in
  let d := fadd d0 d0 in
  let e := fadd (fadd a a) a in
  let x3 := fsub (fmul e e) (fadd d d) in
  let c2 := fadd c c in
  let c4 := fadd c2 c2 in
  let y3 := fsub (fmul e (fsub d x3)) (fadd c4 c4) in
  let yz := fmul y z in
  (x3, y3, fadd yz yz).

(** Jacobian plus affine. *)
Definition jadd (q : jpoint) (r : apoint) : jpoint :=
  let '(x1, y1, z1) := q in
  let '(x2, y2) := r in
  if z1 =? 0 then to_j r
  else
    let zz := fmul z1 z1 in
    let h := fsub (fmul x2 zz) x1 in
    let s := fsub (fmul y2 (fmul z1 zz)) y1 in
    if h =? 0 then (if s =? 0 then jdouble q else jinf)
    else
      let hh := fmul h h in
      let hhh := fmul h hh in
      let v := fmul x1 hh in
      let x3 := fsub (fsub (fmul s s) hhh) (fadd v v) in
      let y3 := fsub (fmul s (fsub v x3)) (fmul y1 hhh) in
      (x3, y3, fmul z1 h).

Definition to_a (q : jpoint) : option apoint :=
  let '(x, y, z) := q in
  if z =? 0 then None
  else
    let i := finv z in
    let ii := fmul i i in
    Some (fmul x ii, fmul y (fmul i ii)).

(** [k] times a point, from the most significant bit. *)
Fixpoint jmul_pos (k : positive) (q : apoint) : jpoint :=
  match k with
  | xH => to_j q
  | xO k' => jdouble (jmul_pos k' q)
  | xI k' => jadd (jdouble (jmul_pos k' q)) q
  end.
Definition jmul (k : Z) (q : apoint) : jpoint :=
  match k with Zpos p => jmul_pos p q | _ => jinf end.

(** The generator. *)
Definition secp_g : apoint :=
  (0x79BE667EF9DCBBAC55A06295CE870B07029BFCDB2DCE28D959F2815B16F81798,
   0x483ADA7726A3C4655DA4FBFC0E1108A8FD17B448A68554199C47D08FFB10D4B8).

(** 33-byte compressed form. *)
Definition compress_point (q : apoint) : bytes :=
  let '(x, y) := q in
  (if Z.odd y then x03 else x02) :: be_bytes 32 (Z.to_N x).

Definition zval (bs : bytes) : Z := Z.of_N (be_val bs).

(** The point with first coordinate [x] and the given parity. *)
Definition lift_x (x : Z) (odd : bool) : option apoint :=
  let c := fadd (fmul (fmul x x) x) 7 in
  let y := fsqrt c in
  if fmul y y =? c then Some (x, if Bool.eqb (Z.odd y) odd then y else fsub 0 y) else None.

(** [PublicKey::from_slice] on 33 bytes. *)
Definition point_parse (bs : bytes) : option apoint :=
  match bs with
  | b :: r =>
    if Nat.eqb (length r) 32 && (zval r <? fp)
    then match b with
         | x02 => lift_x (zval r) false
         | x03 => lift_x (zval r) true
         | _ => None
         end
    else None
  | [] => None
  end.

(** Public key of a secret key. *)
Definition secp_pubkey (sk : bytes) : bytes :=
  match to_a (jmul (zval sk) secp_g) with
  | Some q => compress_point q
  | None => []
  end.

(** HMAC-SHA256 (RFC 2104) for keys of at most 64 bytes. *)
Definition xor_pad (c : N) (key : bytes) : bytes :=
  map (fun b => n2b (N.lxor (b2n b) c)) (key ++ repeat x00 (64 - length key)).
Definition hmac256 (key msg : bytes) : bytes :=
  sha256 (xor_pad 0x5c key ++ sha256 (xor_pad 0x36 key ++ msg)).

(** RFC 6979 generator as in libsecp256k1 ([nonce_function_rfc6979], no extra data): initial state
    [(K, V)] from the key and the message, then the successive candidates. *)
Definition nonce_init (sk msg : bytes) : bytes * bytes :=
  let v0 := repeat x01 32 in
  let k0 := repeat x00 32 in
  let k1 := hmac256 k0 (v0 ++ [x00] ++ sk ++ msg) in
  let v1 := hmac256 k1 v0 in
  let k2 := hmac256 k1 (v1 ++ [x01] ++ sk ++ msg) in
  (k2, hmac256 k2 v1).
Definition nonce_retry (kv : bytes * bytes) : bytes * bytes :=
  let '(k, v) := kv in
  let k' := hmac256 k (v ++ [x00]) in (k', hmac256 k' v).

(** One signing attempt with nonce [k]: r, s below the order and non-zero, low s, recovery id. *)
Definition sign_with (k z d : Z) : option rsig :=
  if (0 <? k) && (k <? gn) then
    match to_a (jmul k secp_g) with
    | None => None
    | Some (x, y) =>
      let r := x mod gn in
      let s := (ninv k * ((z + r * d) mod gn)) mod gn in
      if (r =? 0) || (s =? 0) then None
      else
        let high := gn / 2 <? s in
        let s' := if high then gn - s else s in
        let odd := xorb (Z.odd y) high in
        let id := ((if (gn <=? x)%Z then 2 else 0) + (if odd then 1 else 0))%N in
        Some {| rs_id := id; rs_bytes := be_bytes 32 (Z.to_N r) ++ be_bytes 32 (Z.to_N s') |}
    end
  else None.

(** The loop over candidates.  libsecp256k1 tries candidates until one is found; here 16 of them (a candidate
    fails with probability about 2^-127), and then the nonces 1 and 2, so that the loop is total. *)
Definition sign_or (k z d : Z) (last : rsig) : rsig :=
  match sign_with k z d with Some r => r | None => last end.
Definition sign_last (z d : Z) : rsig :=
  sign_or 1 z d (sign_or 2 z d {| rs_id := 0; rs_bytes := repeat x00 64 |}).
Fixpoint sign_loop (fuel : nat) (kv : bytes * bytes) (z d : Z) : rsig :=
  match fuel with
  | O => sign_last z d
  | S f =>
    let '(k, v) := kv in
    let v' := hmac256 k v in
    match sign_with (zval v') z d with
    | Some r => r
    | None => sign_loop f (nonce_retry (k, v')) z d
    end
  end.
Definition secp_sign (msg sk : bytes) : rsig :=
  sign_loop 16 (nonce_init sk msg) (zval msg mod gn) (zval sk).

(** [recover_ecdsa]. *)
Definition secp_recover (msg : bytes) (sg : rsig) : option bytes :=
  let r := zval (firstn 32 (rs_bytes sg)) in
  let s := zval (skipn 32 (rs_bytes sg)) in
  let z := zval msg mod gn in
  if (r =? 0) || (s =? 0) then None
  else
    let x := if N.testbit (rs_id sg) 1 then r + gn else r in
    if fp <=? x then None
    else
      match lift_x x (N.testbit (rs_id sg) 0) with
      | None => None
      | Some q =>
        let ri := ninv r in
        let u1 := (- (z * ri)) mod gn in
        let u2 := (s * ri) mod gn in
        let sum := match to_a (jmul u1 secp_g) with
                   | Some g => jadd (jmul u2 q) g
                   | None => jmul u2 q
                   end in
        match to_a sum with
        | Some q' => Some (compress_point q')
        | None => None
        end
      end.

Definition secp : ecdsa :=
  {| pubkey_of := secp_pubkey; sign_rec := secp_sign; recover := secp_recover |}.
