(** The key tree as published: HMAC (RFC 2104), PBKDF2 (RFC 2898), BIP-39 seeds, BIP-32 derivation of private and of public
    keys, over SHA-512 and the points of EcGroup.v.  No reference to the model of derivation. *)

From Coq Require Import Strings.String ZArith List.
From Verif Require Import Base SpecText SpecWire Hash SpecSign EcField EcGroup EcMul SpecCurve Hd.
Import ListNotations.
Local Open Scope Z_scope.

(** Byte-wise exclusive or. *)
Definition xored (a b : bytes) : bytes := map (fun p => n2b (N.lxor (Byte.to_N (fst p)) (Byte.to_N (snd p)))) (combine a b).

Definition hmac (key msg : bytes) : bytes :=
  let k0 := if Nat.leb (length key) 128 then key else sha512 key in
  let k := k0 ++ repeat x00 (128 - length k0) in
  sha512 (xored k (repeat x5c 128) ++ sha512 (xored k (repeat x36 128) ++ msg)).

(** The successive values U, each the HMAC of the one before. *)
Fixpoint repeated (key u : bytes) (n : nat) : list bytes :=
  match n with O => [] | S m => u :: repeated key (hmac key u) m end.
Definition stretched (password salt : bytes) (rounds : N) : bytes :=
  let u := hmac password (salt ++ [x00; x00; x00; x01]) in
  fold_left xored (repeated password (hmac password u) (N.to_nat (rounds - 1))) u.
(** BIP-39, with an empty passphrase. *)
Definition seed_of (phrase : bytes) : bytes := stretched phrase (str "mnemonic"%string) 2048.

Definition secret_point (s : Z) : pt := zmul s base_point.

(** BIP-32: master key; child of a private key; child of a public key. *)
Definition master_key (seed : bytes) (s : Z) (ch : bytes) : Prop :=
  let i := hmac (str "Bitcoin seed"%string) seed in
  0 < scalar_z (firstn 32 i) < curve_order /\ s = scalar_z (firstn 32 i) /\ ch = skipn 32 i.
Definition hardened (i : N) : Prop := (2 ^ 31 <= i)%N.
Definition child_data (s : Z) (i : N) (d : bytes) : Prop :=
  (hardened i /\ d = x00 :: big_endian 32 (Z.to_N s) ++ big_endian 4 i)
  \/ (~ hardened i /\ exists b, point_bytes (secret_point s) b /\ d = b ++ big_endian 4 i).
Definition child_private (s : Z) (ch : bytes) (i : N) (s' : Z) (ch' : bytes) : Prop :=
  exists d, child_data s i d
    /\ scalar_z (firstn 32 (hmac ch d)) < curve_order /\ s' = (scalar_z (firstn 32 (hmac ch d)) + s) mod curve_order /\ s' <> 0
    /\ ch' = skipn 32 (hmac ch d).
(** What is added to a key, from public data. *)
Definition public_tweak (P : pt) (ch : bytes) (i : N) (h : bytes) : Prop :=
  exists b, point_bytes P b /\ h = hmac ch (b ++ big_endian 4 i).
Definition child_public (P : pt) (ch : bytes) (i : N) (P' : pt) (ch' : bytes) : Prop :=
  exists h, public_tweak P ch i h
    /\ scalar_z (firstn 32 h) < curve_order /\ P' = add (zmul (scalar_z (firstn 32 h)) base_point) P /\ P' <> Inf
    /\ ch' = skipn 32 h.

Inductive descends : Z -> bytes -> list N -> Z -> bytes -> Prop :=
| descends_here s ch : descends s ch [] s ch
| descends_child s ch i s1 ch1 path s' ch' : child_private s ch i s1 ch1 -> descends s1 ch1 path s' ch' -> descends s ch (i :: path) s' ch'.

(** m/44'/5757'/0'/0 *)
Definition stacks_path : list N := [2 ^ 31 + 44; 2 ^ 31 + 5757; 2 ^ 31 + 0; 0]%N.
