(** Model of stacks/src/crypto/hex.rs. *)

From Verif Require Import Base.
Local Open Scope N_scope.

(** hex.rs:12-20 [Error]. *)
Inductive hex_err :=
| HexBadChar
| HexUnpadded (input : bytes) (len : N).

(** hex.rs:43-48 and 50-55: one hex digit to its value ([b'0'..=b'9'], [b'a'..=b'f'], [b'A'..=b'F']). *)
Definition hex_digit (b : byte) : option N :=
  let c := b2n b in
  if (48 <=? c) && (c <=? 57) then Some (c - 48)
  else if (97 <=? c) && (c <=? 102) then Some (c - 97 + 10)
  else if (65 <=? c) && (c <=? 70) then Some (c - 65 + 10)
  else None.

(** hex.rs:39-59 [HexIterator::next] driven by the loop at hex.rs:70-74.
    The iterator ends ([?] on [None]) when no byte is left, also between the two nibbles. *)
Fixpoint hex_loop (s : bytes) : res hex_err bytes :=
  match s with
  | [] => Ok []
  | h :: r =>
    match hex_digit h with
    | None => Err HexBadChar
    | Some hi =>
      match r with
      | [] => Ok []
      | l :: r' =>
        match hex_digit l with
        | None => Err HexBadChar
        | Some lo =>
          let* t := hex_loop r' in
          Ok (n2b (N.lor (N.shiftl hi 4) lo) :: t)
        end
      end
    end
  end.

(** hex.rs:62-77 [hex_to_bytes] with hex.rs:30-36 [HexIterator::new]. *)
Definition hex_to_bytes (s : bytes) : res hex_err bytes :=
  if 0 <? lenN s mod 2 then Err (HexUnpadded s (lenN s))
  else hex_loop s.

(** The digit printed by Rust's [{:02x}] for a nibble. *)
Definition hex_char (n : N) : byte :=
  if n <? 10 then n2b (48 + n) else n2b (87 + n).

(** hex.rs:80-92 [bytes_to_hex]: two lowercase digits per byte. *)
Fixpoint bytes_to_hex (bs : bytes) : bytes :=
  match bs with
  | [] => []
  | b :: r => hex_char (b2n b / 16) :: hex_char (b2n b mod 16) :: bytes_to_hex r
  end.
