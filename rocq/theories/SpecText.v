(** Specifications for the text encodings, independent of the model: hexadecimal notation and
    positional numerals with leading zeros, over literal alphabets. *)

From Coq Require Import Strings.String.
From Verif Require Import Base.
Local Open Scope N_scope.

(** ** Hexadecimal *)

Definition lower_hex_digits : bytes := str "0123456789abcdef"%string.

(** Two lower-case digits per byte, high nibble first. *)
Definition hex_text (bs : bytes) : bytes :=
  flat_map (fun b => [nth (N.to_nat (Byte.to_N b / 16)) lower_hex_digits x00;
                      nth (N.to_nat (Byte.to_N b mod 16)) lower_hex_digits x00]) bs.

Definition is_hex_char (c : byte) : Prop := In c (str "0123456789abcdefABCDEF"%string).

(** ASCII case mappings. *)
Definition ascii_lower (c : byte) : byte :=
  if (65 <=? Byte.to_N c) && (Byte.to_N c <=? 90) then n2b (Byte.to_N c + 32) else c.
Definition ascii_upper (c : byte) : byte :=
  if (97 <=? Byte.to_N c) && (Byte.to_N c <=? 122) then n2b (Byte.to_N c - 32) else c.

(** ** Positional numerals *)

(** Big-endian value of a digit list. *)
Definition value (base : N) (ds : list N) : N := fold_left (fun a d => a * base + d) ds 0.

(** Number of leading zero digits. *)
Fixpoint lead0 (ds : list N) : nat :=
  match ds with
  | 0 :: r => S (lead0 r)
  | _ => O
  end.

(** [s] is the numeral, over [alphabet], of the byte string [b]: same big-endian value, same number
    of leading zeros. *)
Definition numeral (base : N) (alphabet : bytes) (b s : bytes) : Prop :=
  exists ds,
    Forall (fun d => d < base) ds
    /\ s = map (fun d => nth (N.to_nat d) alphabet x00) ds
    /\ value base ds = value 256 (map Byte.to_N b)
    /\ lead0 ds = lead0 (map Byte.to_N b).

(** ** Crockford base 32 *)

Definition crockford : bytes := str "0123456789ABCDEFGHJKMNPQRSTVWXYZ"%string.

(** ASCII letters and digits except the letter U. *)
Definition crockford_ok (c : byte) : Prop :=
  In c (str "0123456789ABCDEFGHIJKLMNOPQRSTVWXYZabcdefghijklmnopqrstvwxyz"%string).

(** The canonical form of a character: upper case, with O read as 0 and I, L as 1. *)
Definition crockford_norm (c : byte) : byte :=
  match ascii_upper c with
  | x4f => x30               (* O -> 0 *)
  | x49 | x4c => x31         (* I, L -> 1 *)
  | u => u
  end.

Definition ascii (s : bytes) : Prop := Forall (fun c => Byte.to_N c < 128) s.

(** ** Base 58 *)

Definition bitcoin58 : bytes :=
  str "123456789ABCDEFGHJKLMNPQRSTUVWXYZabcdefghijkmnopqrstuvwxyz"%string.
