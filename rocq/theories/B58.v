(** Model of stacks/src/crypto/b58.rs. *)

From Coq Require Import Strings.String.
From Verif Require Import Base Utf8 Hash.
Local Open Scope N_scope.

(** b58.rs:12-13 [B58_ALPHABET]. *)
Definition b58_alphabet : bytes :=
  str "123456789ABCDEFGHJKLMNPQRSTUVWXYZabcdefghijkmnopqrstuvwxyz"%string.

(** b58.rs:16-28 [B58_BYTE_MAP]. *)
Definition b58_byte_map : list Z :=
  [ -1; -1; -1; -1; -1; -1; -1; -1; -1; -1; -1; -1; -1; -1; -1; -1;
    -1; -1; -1; -1; -1; -1; -1; -1; -1; -1; -1; -1; -1; -1; -1; -1;
    -1; -1; -1; -1; -1; -1; -1; -1; -1; -1; -1; -1; -1; -1; -1; -1;
    -1; 0; 1; 2; 3; 4; 5; 6; 7; 8; -1; -1; -1; -1; -1; -1;
    -1; 9; 10; 11; 12; 13; 14; 15; 16; -1; 17; 18; 19; 20; 21; -1;
    22; 23; 24; 25; 26; 27; 28; 29; 30; 31; 32; -1; -1; -1; -1; -1;
    -1; 33; 34; 35; 36; 37; 38; 39; 40; 41; 42; 43; -1; 44; 45; 46;
    47; 48; 49; 50; 51; 52; 53; 54; 55; 56; 57; -1; -1; -1; -1; -1;
    -1; -1; -1; -1; -1; -1; -1; -1; -1; -1; -1; -1; -1; -1; -1; -1;
    -1; -1; -1; -1; -1; -1; -1; -1; -1; -1; -1; -1; -1; -1; -1; -1;
    -1; -1; -1; -1; -1; -1; -1; -1; -1; -1; -1; -1; -1; -1; -1; -1;
    -1; -1; -1; -1; -1; -1; -1; -1; -1; -1; -1; -1; -1; -1; -1; -1;
    -1; -1; -1; -1; -1; -1; -1; -1; -1; -1; -1; -1; -1; -1; -1; -1;
    -1; -1; -1; -1; -1; -1; -1; -1; -1; -1; -1; -1; -1; -1; -1; -1;
    -1; -1; -1; -1; -1; -1; -1; -1; -1; -1; -1; -1; -1; -1; -1; -1;
    -1; -1; -1; -1; -1; -1; -1; -1; -1; -1; -1; -1; -1; -1; -1; -1 ]%Z.

(** b58.rs:32-45 [Error].  [BadChecksum] carries the two byte strings instead of their debug text. *)
Inductive b58_err :=
| B58BadChar (c : N)
| B58BadChecksum (received : bytes) (computed : bytes)
| B58UnknownAddressVersion (v : byte)
| B58TryFromInt.

(** b58.rs:79-87: one long division of the big-endian [buff] by 58; quotient bytes are pushed once
    non-zero; returns the remainder and the quotient. *)
Fixpoint b58_divide (buff : bytes) (rem : N) (temp : bytes) : N * bytes :=
  match buff with
  | [] => (rem, temp)
  | b :: rest =>
    let cur := N.shiftl rem 8 + b2n b in
    let div := cur / 58 in
    let rem' := cur mod 58 in
    let temp' :=
      match temp with
      | [] => if div =? 0 then [] else [n2b div]
      | _ => temp ++ [n2b div]
      end in
    b58_divide rest rem' temp'
  end.

(** [B58_ALPHABET[i]]. *)
Definition b58_char {E} (i : N) : res E byte := index (N.to_nat i) b58_alphabet.

(** b58.rs:75-90: the [while !buff.is_empty()] loop; digits are pushed least significant first. *)
Fixpoint b58_enc_loop {E} (fuel : nat) (buff : bytes) (result : bytes) : res E bytes :=
  match buff with
  | [] => Ok result
  | _ =>
    match fuel with
    | O => NoFuel
    | S f =>
      let '(rem, temp) := b58_divide buff 0 [] in
      let* c := b58_char rem in
      b58_enc_loop f temp (result ++ [c])
    end
  end.

(** Number of leading bytes equal to [z] (b58.rs:67-70, 111-114). *)
Fixpoint count_lead (z : byte) (l : bytes) : nat :=
  match l with
  | b :: r => if byte_eqb b z then S (count_lead z r) else O
  | [] => O
  end.

(** b58.rs:61-98 [b58_encode].  Fuel: two digits per byte always suffice (proved). *)
Definition b58_encode {E} (data : bytes) : res E bytes :=
  let zeros := count_lead x00 data in
  let* result := b58_enc_loop (2 * length data) data [] in
  let* c := b58_char 0 in
  Ok (rev (result ++ repeat c zeros)).

(** b58.rs:127-131: multiply the big-endian buffer by 58 and add [carry], from the last byte; the
    final carry is returned (the Rust code drops it). *)
Fixpoint b58_mul_add (buff : bytes) (carry : N) : bytes * N :=
  match buff with
  | [] => ([], carry)
  | b :: rest =>
    let '(rest', c) := b58_mul_add rest carry in
    let cur := c + b2n b * 58 in
    (n2b (N.land cur 255) :: rest', N.shiftr cur 8)
  end.

(** b58.rs:118-132: the loop over [str.chars()]; [B58_BYTE_MAP[c as usize]] panics from 256 on. *)
Fixpoint b58_dec_loop (chars : list N) (buff : bytes) : res b58_err bytes :=
  match chars with
  | [] => Ok buff
  | c :: rest =>
    if 256 <=? c then Panic PIndex
    else
      let idx := nth (N.to_nat c) b58_byte_map (-1)%Z in
      if (idx =? -1)%Z then Err (B58BadChar c)
      else if (idx <? 0)%Z then Err B58TryFromInt
      else b58_dec_loop rest (fst (b58_mul_add buff (Z.to_N idx)))
  end.

(** [while !buff.is_empty() && buff[0] == 0 { buff.remove(0) }] (b58.rs:134-136). *)
Fixpoint strip_zeros (l : bytes) : bytes :=
  match l with
  | b :: r => if byte_eqb b x00 then strip_zeros r else l
  | [] => []
  end.

(** b58.rs:101-142 [b58_decode]. *)
Definition b58_decode (s : bytes) : res b58_err bytes :=
  match s with
  | [] => Ok []
  | _ =>
    let zeros := count_lead x31 s in
    let buff := repeat x00 (N.to_nat (lenN s * 733 / 1000 + 1)) in
    let* out := b58_dec_loop (utf8_chars s) buff in
    Ok (repeat x00 zeros ++ strip_zeros out)
  end.

(** b58.rs:145-166 [base58check_encode]. *)
Definition base58check_encode {E} (hash : bytes) (version : byte) : res E bytes :=
  let payload := version :: hash in
  let sum := firstn 4 (dsha256 payload) in
  b58_encode (version :: hash ++ sum).

(** b58.rs:169-194 [base58check_decode]; [buff_max - 4] underflows below 4 bytes, and the range
    [1..buff_max - 4] is invalid for exactly 4. *)
Definition base58check_decode (s : bytes) : res b58_err (bytes * byte) :=
  let* buff := b58_decode s in
  let n := length buff in
  if Nat.ltb n 4 then Panic POverflow
  else if Nat.ltb (n - 4) 1 then Panic PIndex
  else
    let sum := skipn (n - 4) buff in
    let data := skipn 1 (firstn (n - 4) buff) in
    let computed := dsha256 (firstn (n - 4) buff) in
    if bytes_eqb sum (firstn 4 computed) then
      let* v := index 0 buff in Ok (data, v)
    else Err (B58BadChecksum sum computed).
