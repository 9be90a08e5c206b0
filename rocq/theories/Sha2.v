(** SHA-256 and SHA-512/256 (FIPS 180-4).

    These stand for the digests computed by the crate [ring] (/repo/stacks/src/crypto/hash.rs:9-11,
    107-117, 156-166).  The repository only calls the crate; the functions below implement the
    published standard so that the model computes, and are checked on published vectors and on the
    repository's own expected outputs in Vectors.v.  Proofs use nothing about them but the output
    length. *)

From Verif Require Import Base.
Local Open Scope N_scope.

Section Words.
  (** Word size in bits. *)
  Variable w : N.

  Definition wmask (x : N) : N := N.land x (N.ones w).
  Definition wadd (x y : N) : N := wmask (x + y).
  Definition rotr (n x : N) : N := N.lor (N.shiftr x n) (wmask (N.shiftl x (w - n))).
  Definition wnot (x : N) : N := N.lxor x (N.ones w).
  Definition ch (x y z : N) : N := N.lxor (N.land x y) (N.land (wnot x) z).
  Definition maj (x y z : N) : N := N.lxor (N.lxor (N.land x y) (N.land x z)) (N.land y z).
End Words.

Definition state8 := (N * N * N * N * N * N * N * N)%type.

(** Splits into [k]-byte big-endian words; the fuel is the number of words. *)
Fixpoint words (k cnt : nat) (bs : bytes) : list N :=
  match cnt with
  | O => []
  | S c => be_val (firstn k bs) :: words k c (skipn k bs)
  end.

(** Message schedule: [win] is the window of the last 16 words (oldest first). *)
Fixpoint schedule (step : N -> N -> N -> N -> N) (cnt : nat) (win : list N) : list N :=
  match cnt with
  | O => []
  | S c =>
    match win with
    | w0 :: rest =>
      let w1 := nth 0 rest 0 in
      let w9 := nth 8 rest 0 in
      let w14 := nth 13 rest 0 in
      let nw := step w0 w1 w9 w14 in
      nw :: schedule step c (rest ++ [nw])
    | [] => []
    end
  end.

Definition round (w : N) (S0 S1 : N -> N) (st : state8) (kw : N * N) : state8 :=
  let '(a, b, c, d, e, f, g, h) := st in
  let '(k, wt) := kw in
  let t1 := wmask w (h + S1 e + ch w e f g + k + wt) in
  let t2 := wmask w (S0 a + maj a b c) in
  (wadd w t1 t2, a, b, c, wadd w d t1, e, f, g).

Definition add8 (w : N) (x y : state8) : state8 :=
  let '(a, b, c, d, e, f, g, h) := x in
  let '(a', b', c', d', e', f', g', h') := y in
  (wadd w a a', wadd w b b', wadd w c c', wadd w d d',
   wadd w e e', wadd w f f', wadd w g g', wadd w h h').

(** Padding: 0x80, zeros, then the bit length on [lb] bytes, to a multiple of [blk] bytes. *)
Definition sha_pad (blk lb : N) (bs : bytes) : bytes :=
  let n := lenN bs in
  let used := (n + 1 + lb) mod blk in
  let z := if used =? 0 then 0 else blk - used in
  bs ++ [x80] ++ repeat x00 (N.to_nat z) ++ be_bytes (N.to_nat lb) (8 * n).

(** Folds the compression function over the blocks; fuel = number of bytes. *)
Fixpoint blocks (fuel : nat) (blk : nat) (f : state8 -> bytes -> state8) (st : state8) (bs : bytes)
  : state8 :=
  match fuel with
  | O => st
  | S fu =>
    match bs with
    | [] => st
    | _ => blocks fu blk f (f st (firstn blk bs)) (skipn blk bs)
    end
  end.

(** ** SHA-256 *)

Definition k256 : list N :=
  [ 0x428a2f98; 0x71374491; 0xb5c0fbcf; 0xe9b5dba5; 
    0x3956c25b; 0x59f111f1; 0x923f82a4; 0xab1c5ed5; 
    0xd807aa98; 0x12835b01; 0x243185be; 0x550c7dc3; 
    0x72be5d74; 0x80deb1fe; 0x9bdc06a7; 0xc19bf174; 
    0xe49b69c1; 0xefbe4786; 0xfc19dc6; 0x240ca1cc; 
    0x2de92c6f; 0x4a7484aa; 0x5cb0a9dc; 0x76f988da; 
    0x983e5152; 0xa831c66d; 0xb00327c8; 0xbf597fc7; 
    0xc6e00bf3; 0xd5a79147; 0x6ca6351; 0x14292967; 
    0x27b70a85; 0x2e1b2138; 0x4d2c6dfc; 0x53380d13; 
    0x650a7354; 0x766a0abb; 0x81c2c92e; 0x92722c85; 
    0xa2bfe8a1; 0xa81a664b; 0xc24b8b70; 0xc76c51a3; 
    0xd192e819; 0xd6990624; 0xf40e3585; 0x106aa070; 
    0x19a4c116; 0x1e376c08; 0x2748774c; 0x34b0bcb5; 
    0x391c0cb3; 0x4ed8aa4a; 0x5b9cca4f; 0x682e6ff3; 
    0x748f82ee; 0x78a5636f; 0x84c87814; 0x8cc70208; 
    0x90befffa; 0xa4506ceb; 0xbef9a3f7; 0xc67178f2 ].

Definition iv256 : state8 :=
  (0x6a09e667,
   0xbb67ae85,
   0x3c6ef372,
   0xa54ff53a,
   0x510e527f,
   0x9b05688c,
   0x1f83d9ab,
   0x5be0cd19).

Definition sm0_256 x := N.lxor (N.lxor (rotr 32 7 x) (rotr 32 18 x)) (N.shiftr x 3).
Definition sm1_256 x := N.lxor (N.lxor (rotr 32 17 x) (rotr 32 19 x)) (N.shiftr x 10).
Definition bs0_256 x := N.lxor (N.lxor (rotr 32 2 x) (rotr 32 13 x)) (rotr 32 22 x).
Definition bs1_256 x := N.lxor (N.lxor (rotr 32 6 x) (rotr 32 11 x)) (rotr 32 25 x).

Definition compress256 (st : state8) (blk : bytes) : state8 :=
  let w16 := words 4 16 blk in
  let ws := w16 ++ schedule (fun w0 w1 w9 w14 =>
                     wmask 32 (w0 + sm0_256 w1 + w9 + sm1_256 w14)) 48 w16 in
  add8 32 st (fold_left (round 32 bs0_256 bs1_256) (combine k256 ws) st).

Definition sha256 (bs : bytes) : bytes :=
  let m := sha_pad 64 8 bs in
  let '(a, b, c, d, e, f, g, h) := blocks (length m) 64 compress256 iv256 m in
  be_bytes 4 a ++ be_bytes 4 b ++ be_bytes 4 c ++ be_bytes 4 d ++
  be_bytes 4 e ++ be_bytes 4 f ++ be_bytes 4 g ++ be_bytes 4 h.

(** ** SHA-512/256 *)

Definition k512 : list N :=
  [ 0x428a2f98d728ae22; 0x7137449123ef65cd; 
    0xb5c0fbcfec4d3b2f; 0xe9b5dba58189dbbc; 
    0x3956c25bf348b538; 0x59f111f1b605d019; 
    0x923f82a4af194f9b; 0xab1c5ed5da6d8118; 
    0xd807aa98a3030242; 0x12835b0145706fbe; 
    0x243185be4ee4b28c; 0x550c7dc3d5ffb4e2; 
    0x72be5d74f27b896f; 0x80deb1fe3b1696b1; 
    0x9bdc06a725c71235; 0xc19bf174cf692694; 
    0xe49b69c19ef14ad2; 0xefbe4786384f25e3; 
    0xfc19dc68b8cd5b5; 0x240ca1cc77ac9c65; 
    0x2de92c6f592b0275; 0x4a7484aa6ea6e483; 
    0x5cb0a9dcbd41fbd4; 0x76f988da831153b5; 
    0x983e5152ee66dfab; 0xa831c66d2db43210; 
    0xb00327c898fb213f; 0xbf597fc7beef0ee4; 
    0xc6e00bf33da88fc2; 0xd5a79147930aa725; 
    0x6ca6351e003826f; 0x142929670a0e6e70; 
    0x27b70a8546d22ffc; 0x2e1b21385c26c926; 
    0x4d2c6dfc5ac42aed; 0x53380d139d95b3df; 
    0x650a73548baf63de; 0x766a0abb3c77b2a8; 
    0x81c2c92e47edaee6; 0x92722c851482353b; 
    0xa2bfe8a14cf10364; 0xa81a664bbc423001; 
    0xc24b8b70d0f89791; 0xc76c51a30654be30; 
    0xd192e819d6ef5218; 0xd69906245565a910; 
    0xf40e35855771202a; 0x106aa07032bbd1b8; 
    0x19a4c116b8d2d0c8; 0x1e376c085141ab53; 
    0x2748774cdf8eeb99; 0x34b0bcb5e19b48a8; 
    0x391c0cb3c5c95a63; 0x4ed8aa4ae3418acb; 
    0x5b9cca4f7763e373; 0x682e6ff3d6b2b8a3; 
    0x748f82ee5defb2fc; 0x78a5636f43172f60; 
    0x84c87814a1f0ab72; 0x8cc702081a6439ec; 
    0x90befffa23631e28; 0xa4506cebde82bde9; 
    0xbef9a3f7b2c67915; 0xc67178f2e372532b; 
    0xca273eceea26619c; 0xd186b8c721c0c207; 
    0xeada7dd6cde0eb1e; 0xf57d4f7fee6ed178; 
    0x6f067aa72176fba; 0xa637dc5a2c898a6; 
    0x113f9804bef90dae; 0x1b710b35131c471b; 
    0x28db77f523047d84; 0x32caab7b40c72493; 
    0x3c9ebe0a15c9bebc; 0x431d67c49c100d4c; 
    0x4cc5d4becb3e42b6; 0x597f299cfc657e2a; 
    0x5fcb6fab3ad6faec; 0x6c44198c4a475817 ].

Definition iv512_256 : state8 :=
  (0x22312194fc2bf72c,
   0x9f555fa3c84c64c2,
   0x2393b86b6f53b151,
   0x963877195940eabd,
   0x96283ee2a88effe3,
   0xbe5e1e2553863992,
   0x2b0199fc2c85b8aa,
   0xeb72ddc81c52ca2).

Definition sm0_512 x := N.lxor (N.lxor (rotr 64 1 x) (rotr 64 8 x)) (N.shiftr x 7).
Definition sm1_512 x := N.lxor (N.lxor (rotr 64 19 x) (rotr 64 61 x)) (N.shiftr x 6).
Definition bs0_512 x := N.lxor (N.lxor (rotr 64 28 x) (rotr 64 34 x)) (rotr 64 39 x).
Definition bs1_512 x := N.lxor (N.lxor (rotr 64 14 x) (rotr 64 18 x)) (rotr 64 41 x).

Definition compress512 (st : state8) (blk : bytes) : state8 :=
  let w16 := words 8 16 blk in
  let ws := w16 ++ schedule (fun w0 w1 w9 w14 =>
                     wmask 64 (w0 + sm0_512 w1 + w9 + sm1_512 w14)) 64 w16 in
  add8 64 st (fold_left (round 64 bs0_512 bs1_512) (combine k512 ws) st).

Definition sha512_256 (bs : bytes) : bytes :=
  let m := sha_pad 128 16 bs in
  let '(a, b, c, d, e, f, g, h) := blocks (length m) 128 compress512 iv512_256 m in
  be_bytes 8 a ++ be_bytes 8 b ++ be_bytes 8 c ++ be_bytes 8 d.
