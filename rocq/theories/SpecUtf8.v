(** Specification of UTF-8 (RFC 3629): the bytes of a character and the texts made of them. *)

From Verif Require Import Base.
Local Open Scope N_scope.

Definition octet (n : N) : byte :=
  match Byte.of_N (n mod 256) with Some b => b | None => x00 end.

(** Unicode scalar values: code points other than surrogates. *)
Definition scalar_value (n : N) : Prop := n < 55296 \/ 57344 <= n <= 1114111.

(** One to four bytes. *)
Definition utf8_text (n : N) : bytes :=
  if n <? 128 then [octet n]
  else if n <? 2048 then [octet (192 + n / 64); octet (128 + n mod 64)]
  else if n <? 65536 then [octet (224 + n / 4096); octet (128 + n / 64 mod 64); octet (128 + n mod 64)]
  else [octet (240 + n / 262144); octet (128 + n / 4096 mod 64); octet (128 + n / 64 mod 64); octet (128 + n mod 64)].

(** [s] is the text of the characters [l]; [s] is a text. *)
Definition spells_text (l : list N) (s : bytes) : Prop := Forall scalar_value l /\ s = flat_map utf8_text l.
Definition utf8 (s : bytes) : Prop := exists l, spells_text l s.
