(** Output lengths of the hash functions: all that proofs use about them. *)

From Coq Require Import Lia.
From Verif Require Import Base BaseFacts Sha2 Ripemd Hash.

Lemma sha256_length bs : length (sha256 bs) = 32%nat.
Proof.
  unfold sha256. destruct (blocks _ _ _ _ _) as [[[[[[[a b] c] d] e] f] g] h].
  rewrite !app_length, !be_bytes_length. reflexivity.
Qed.

Lemma sha512_256_length bs : length (sha512_256 bs) = 32%nat.
Proof.
  unfold sha512_256. destruct (blocks _ _ _ _ _) as [[[[[[[a b] c] d] e] f] g] h].
  rewrite !app_length, !be_bytes_length. reflexivity.
Qed.

Lemma ripemd160_length bs : length (ripemd160 bs) = 20%nat.
Proof.
  unfold ripemd160. destruct (rmd_blocks _ _ _) as [[[[a b] c] d] e].
  rewrite !app_length, !rev_length, !be_bytes_length. reflexivity.
Qed.

Lemma dsha256_length bs : length (dsha256 bs) = 32%nat.
Proof. apply sha256_length. Qed.

Lemma hash160_length bs : length (hash160 bs) = 20%nat.
Proof. apply ripemd160_length. Qed.

Lemma sighash_length bs : length (sighash bs) = 32%nat.
Proof. apply sha512_256_length. Qed.

Lemma checksum_length bs : length (checksum (dsha256 bs)) = 4%nat.
Proof. unfold checksum. rewrite firstn_length, dsha256_length. reflexivity. Qed.

Global Opaque sha256 sha512_256 ripemd160.
