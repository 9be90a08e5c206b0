(** UTF-8: [String::from_utf8], [str.chars()].

    Rust standard library behaviour (Unicode well-formedness table 3-7, as implemented by
    [core::str::validations]); no /repo source lines. *)

From Verif Require Import Base.
Local Open Scope N_scope.

(** Continuation byte 80..BF and its payload. *)
Definition is_cont (b : N) : bool := (128 <=? b) && (b <=? 191).
Definition cont (b : N) : N := b - 128.

(** Decodes one scalar value from the front of a byte string: [Some (c, rest)]. *)
Definition utf8_next (bs : bytes) : option (N * bytes) :=
  match bs with
  | [] => None
  | b0 :: r0 =>
    let a := b2n b0 in
    if a <? 128 then Some (a, r0)
    else if (194 <=? a) && (a <=? 223) then
      match r0 with
      | b1 :: r1 =>
        if is_cont (b2n b1) then Some ((a - 192) * 64 + cont (b2n b1), r1) else None
      | _ => None
      end
    else if (224 <=? a) && (a <=? 239) then
      match r0 with
      | b1 :: b2 :: r2 =>
        let lo := if a =? 224 then 160 else 128 in
        let hi := if a =? 237 then 159 else 191 in
        if (lo <=? b2n b1) && (b2n b1 <=? hi) && is_cont (b2n b2)
        then Some ((a - 224) * 4096 + cont (b2n b1) * 64 + cont (b2n b2), r2)
        else None
      | _ => None
      end
    else if (240 <=? a) && (a <=? 244) then
      match r0 with
      | b1 :: b2 :: b3 :: r3 =>
        let lo := if a =? 240 then 144 else 128 in
        let hi := if a =? 244 then 143 else 191 in
        if (lo <=? b2n b1) && (b2n b1 <=? hi) && is_cont (b2n b2) && is_cont (b2n b3)
        then Some ((a - 240) * 262144 + cont (b2n b1) * 4096 + cont (b2n b2) * 64
                   + cont (b2n b3), r3)
        else None
      | _ => None
      end
    else None
  end.

(** All scalar values of a byte string, [None] if it is not well-formed UTF-8.
    Every step consumes at least one byte, so the length is enough fuel. *)
Fixpoint utf8_decode_fuel (fuel : nat) (bs : bytes) : option (list N) :=
  match bs with
  | [] => Some []
  | _ =>
    match fuel with
    | O => None
    | S f =>
      match utf8_next bs with
      | None => None
      | Some (c, r) =>
        match utf8_decode_fuel f r with
        | None => None
        | Some cs => Some (c :: cs)
        end
      end
    end
  end.

Definition utf8_decode (bs : bytes) : option (list N) := utf8_decode_fuel (length bs) bs.

(** "[bs] is the content of a Rust [String]". *)
Definition utf8_valid (bs : bytes) : bool :=
  match utf8_decode bs with Some _ => true | None => false end.

(** [str.chars()] (on a well-formed string). *)
Definition utf8_chars (bs : bytes) : list N :=
  match utf8_decode bs with Some cs => cs | None => [] end.
