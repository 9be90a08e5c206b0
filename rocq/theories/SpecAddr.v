(** Specification of Stacks address texts (c32check), over the numerals of SpecText.v and the
    concrete SHA-256 of Sha2.v. *)

From Verif Require Import Base Sha2 SpecText.
Local Open Scope N_scope.

(** First four bytes of the double SHA-256 of version byte and payload. *)
Definition addr_sum (v : byte) (h : bytes) : bytes := firstn 4 (sha256 (sha256 (v :: h))).

(** [t] is the c32check text of payload [h] under version [v]: the digit of [v], then the base-32
    numeral of payload and checksum. *)
Definition c32check_text (h : bytes) (v : byte) (t : bytes) : Prop :=
  Byte.to_N v < 32 /\
  exists body, t = nth (N.to_nat (Byte.to_N v)) crockford x00 :: body
               /\ numeral 32 crockford (h ++ addr_sum v h) body.

(** [s] is the canonical address text: the letter S, then the c32check text. *)
Definition address_text (h : bytes) (v : byte) (s : bytes) : Prop :=
  exists t, s = x53 :: t /\ c32check_text h v t.

(** The four address versions of Stacks. *)
Definition stacks_version (v : byte) : Prop := In (Byte.to_N v) [20; 21; 22; 26].

(** An address text as users may type it: after the S, letter case and the O/I/L look-alikes are
    free. *)
Definition address_spelling (h : bytes) (v : byte) (s : bytes) : Prop :=
  exists t, s = x53 :: t /\ Forall crockford_ok t /\ c32check_text h v (map crockford_norm t).

(** [s] is the Base58Check text of payload [h] under version [v]. *)
Definition base58check_text (h : bytes) (v : byte) (s : bytes) : Prop :=
  numeral 58 bitcoin58 (v :: h ++ addr_sum v h) s.
