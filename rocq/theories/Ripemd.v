(** RIPEMD-160, standing for the crate [ripemd] used at /repo/stacks/src/crypto/hash.rs:12-13, 197.
    Implements the published algorithm; checked on published vectors in Vectors.v.  Proofs use only
    the output length. *)

From Verif Require Import Base Sha2.
Local Open Scope N_scope.

Definition rotl32 (n x : N) : N := N.lor (wmask 32 (N.shiftl x n)) (N.shiftr x (32 - n)).

(** Little-endian words of a block. *)
Fixpoint le_words (cnt : nat) (bs : bytes) : list N :=
  match cnt with
  | O => []
  | S c => be_val (rev (firstn 4 bs)) :: le_words c (skipn 4 bs)
  end.

Definition rmd_f (j : N) (x y z : N) : N :=
  match j with
  | 0 => N.lxor (N.lxor x y) z
  | 1 => N.lor (N.land x y) (N.land (wnot 32 x) z)
  | 2 => N.lxor (N.lor x (wnot 32 y)) z
  | 3 => N.lor (N.land x z) (N.land y (wnot 32 z))
  | _ => N.lxor x (N.lor y (wnot 32 z))
  end.

Definition rmd_r1 : list nat :=
  [0;1;2;3;4;5;6;7;8;9;10;11;12;13;14;15;
   7;4;13;1;10;6;15;3;12;0;9;5;2;14;11;8;
   3;10;14;4;9;15;8;1;2;7;0;6;13;11;5;12;
   1;9;11;10;0;8;12;4;13;3;7;15;14;5;6;2;
   4;0;5;9;7;12;2;10;14;1;3;8;11;6;15;13]%nat.
Definition rmd_r2 : list nat :=
  [5;14;7;0;9;2;11;4;13;6;15;8;1;10;3;12;
   6;11;3;7;0;13;5;10;14;15;8;12;4;9;1;2;
   15;5;1;3;7;14;6;9;11;8;12;2;10;0;4;13;
   8;6;4;1;3;11;15;0;5;12;2;13;9;7;10;14;
   12;15;10;4;1;5;8;7;6;2;13;14;0;3;9;11]%nat.
Definition rmd_s1 : list N :=
  [11;14;15;12;5;8;7;9;11;13;14;15;6;7;9;8;
   7;6;8;13;11;9;7;15;7;12;15;9;11;7;13;12;
   11;13;6;7;14;9;13;15;14;8;13;6;5;12;7;5;
   11;12;14;15;14;15;9;8;9;14;5;6;8;6;5;12;
   9;15;5;11;6;8;13;12;5;12;13;14;11;8;5;6].
Definition rmd_s2 : list N :=
  [8;9;9;11;13;15;15;5;7;7;8;11;14;14;12;6;
   9;13;15;7;12;8;9;11;7;7;12;7;6;15;13;11;
   9;7;15;11;8;6;6;14;12;13;5;14;13;13;7;5;
   15;5;8;11;14;14;6;14;6;9;12;9;12;5;15;8;
   8;5;12;9;12;5;14;6;8;13;6;5;15;13;11;11].
Definition rmd_k1 : list N := [0; 0x5a827999; 0x6ed9eba1; 0x8f1bbcdc; 0xa953fd4e].
Definition rmd_k2 : list N := [0x50a28be6; 0x5c4dd124; 0x6d703ef3; 0x7a6d76e9; 0].

Definition state5 := (N * N * N * N * N)%type.

(** One of the two lines: [j] counts 0..79, [rs] the remaining (word index, shift) pairs. *)
Fixpoint rmd_line (par : bool) (x : list N) (j : N) (rs : list (nat * N)) (st : state5) : state5 :=
  match rs with
  | [] => st
  | (r, s) :: rest =>
    let '(a, b, c, d, e) := st in
    let rnd := j / 16 in
    let fj := if par then 4 - rnd else rnd in
    let k := nth (N.to_nat rnd) (if par then rmd_k2 else rmd_k1) 0 in
    let t := wmask 32 (rotl32 s (wmask 32 (a + rmd_f fj b c d + nth r x 0 + k)) + e) in
    rmd_line par x (j + 1) rest (e, t, b, rotl32 10 c, d)
  end.

Definition rmd_compress (st : state5) (blk : bytes) : state5 :=
  let x := le_words 16 blk in
  let '(h0, h1, h2, h3, h4) := st in
  let '(a, b, c, d, e) := rmd_line false x 0 (combine rmd_r1 rmd_s1) st in
  let '(a', b', c', d', e') := rmd_line true x 0 (combine rmd_r2 rmd_s2) st in
  (wmask 32 (h1 + c + d'), wmask 32 (h2 + d + e'), wmask 32 (h3 + e + a'),
   wmask 32 (h4 + a + b'), wmask 32 (h0 + b + c')).

Definition rmd_iv : state5 := (0x67452301, 0xefcdab89, 0x98badcfe, 0x10325476, 0xc3d2e1f0).

Definition rmd_pad (bs : bytes) : bytes :=
  let n := lenN bs in
  let used := (n + 9) mod 64 in
  let z := if used =? 0 then 0 else 64 - used in
  bs ++ [x80] ++ repeat x00 (N.to_nat z) ++ rev (be_bytes 8 (8 * n)).

Fixpoint rmd_blocks (fuel : nat) (st : state5) (bs : bytes) : state5 :=
  match fuel with
  | O => st
  | S fu =>
    match bs with
    | [] => st
    | _ => rmd_blocks fu (rmd_compress st (firstn 64 bs)) (skipn 64 bs)
    end
  end.

Definition ripemd160 (bs : bytes) : bytes :=
  let m := rmd_pad bs in
  let '(a, b, c, d, e) :=
    rmd_blocks (length m) rmd_iv m in
  rev (be_bytes 4 a) ++ rev (be_bytes 4 b) ++ rev (be_bytes 4 c) ++ rev (be_bytes 4 d) ++
  rev (be_bytes 4 e).
