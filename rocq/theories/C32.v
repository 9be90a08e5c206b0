(** Model of stacks/src/crypto/c32.rs. *)

From Coq Require Import Strings.String.
From Verif Require Import Base Utf8 Sha2 Hash.
Local Open Scope N_scope.

(** c32.rs:16 [C32_ALPHABET]. *)
Definition c32_alphabet : bytes := str "0123456789ABCDEFGHJKMNPQRSTVWXYZ"%string.

(** c32.rs:19-26 [C32_BYTE_MAP]. *)
Definition c32_byte_map : list Z :=
  [ -1; -1; -1; -1; -1; -1; -1; -1; -1; -1; -1; -1; -1; -1; -1; -1;
    -1; -1; -1; -1; -1; -1; -1; -1; -1; -1; -1; -1; -1; -1; -1; -1;
    -1; -1; -1; -1; -1; -1; -1; -1; -1; -1; -1; -1; -1; -1; -1; -1;
    0; 1; 2; 3; 4; 5; 6; 7; 8; 9; -1; -1; -1; -1; -1; -1;
    -1; 10; 11; 12; 13; 14; 15; 16; 17; 1; 18; 19; 1; 20; 21; 0;
    22; 23; 24; 25; 26; -1; 27; 28; 29; 30; 31; -1; -1; -1; -1; -1;
    -1; 10; 11; 12; 13; 14; 15; 16; 17; 1; 18; 19; 1; 20; 21; 0;
    22; 23; 24; 25; 26; -1; 27; 28; 29; 30; 31; -1; -1; -1; -1; -1 ]%Z.

(** c32.rs:30-52 [Error]; a Rust [char] is its scalar value. *)
Inductive c32_err :=
| C32BadChar (c : N)
| C32BadInput
| C32BadChecksum (computed : bytes) (received : bytes)
| C32BadAddress (s : bytes)
| C32UnknownAddressVersion (v : byte)
| C32TryFromInt
| C32TryFromUtf8.

(** c32.rs:57-66 [Mode] and its [as u8] discriminant. *)
Inductive hmode := P2PKH | P2SH | P2WPKH | P2WSH.
Definition mode_byte (m : hmode) : byte :=
  match m with P2PKH => x00 | P2SH => x01 | P2WPKH => x02 | P2WSH => x03 end.

(** c32.rs:70-79 [Version] and its discriminant. *)
Inductive c32_version := MainnetP2PKH | MainnetP2SH | TestnetP2PKH | TestnetP2SH.
Definition version_byte (v : c32_version) : byte :=
  match v with
  | MainnetP2PKH => n2b 22 | MainnetP2SH => n2b 20
  | TestnetP2PKH => n2b 26 | TestnetP2SH => n2b 21
  end.

(** [C32_ALPHABET[i]]. *)
Definition c32_char {E} (i : N) : res E byte := index (N.to_nat i) c32_alphabet.

(** c32.rs:121-125: the inner [while bits >= 5] loop, pushing digits onto [encoded].
    [fuel] bounds the iterations; [bits] itself is enough. *)
Fixpoint c32_enc_drain (fuel : nat) (buff bits : N) (encoded : bytes)
  : res c32_err (N * N * bytes) :=
  if bits <? 5 then Ok (buff, bits, encoded)
  else match fuel with
       | O => NoFuel
       | S f =>
         let* c := c32_char (N.land buff 31) in
         c32_enc_drain f (N.shiftr buff 5) (bits - 5) (encoded ++ [c])
       end.

(** c32.rs:117-126: the loop over [data.iter().rev()]; [u32] shift is truncated to 32 bits. *)
Fixpoint c32_enc_loop (data : bytes) (buff bits : N) (encoded : bytes)
  : res c32_err (N * N * bytes) :=
  match data with
  | [] => Ok (buff, bits, encoded)
  | byte :: rest =>
    let buff1 := N.lor buff (N.shiftl (b2n byte) bits mod 2 ^ 32) in
    let bits1 := bits + 8 in
    let* st := c32_enc_drain (N.to_nat bits1) buff1 bits1 encoded in
    let '(buff2, bits2, encoded2) := st in
    c32_enc_loop rest buff2 bits2 encoded2
  end.

(** [while let Some(i) = v.pop() { if i != z { v.push(i); break; } }] (c32.rs:132-137, 193-198):
    drops the trailing [z]s of the vector. *)
Fixpoint drop_lead (z : byte) (l : bytes) : bytes :=
  match l with
  | [] => []
  | b :: r => if byte_eqb b z then drop_lead z r else l
  end.
Definition pop_trailing (z : byte) (v : bytes) : bytes := rev (drop_lead z (rev v)).

(** [for i in data { if *i == z { v.push(c) } else { break } }] (c32.rs:139-145, 200-206):
    one [c] per leading [z] of [data]. *)
Fixpoint push_leading (z : byte) (data : bytes) (c : byte) (v : bytes) : bytes :=
  match data with
  | b :: r => if byte_eqb b z then push_leading z r c (v ++ [c]) else v
  | [] => v
  end.

(** [String::from_utf8(v)?]. *)
Definition from_utf8_c32 (v : bytes) : res c32_err bytes :=
  if utf8_valid v then Ok v else Err C32TryFromUtf8.

(** c32.rs:107-149 [c32_encode]. *)
Definition c32_encode (data : bytes) : res c32_err bytes :=
  let* st := c32_enc_loop (rev data) 0 0 [] in
  let '(buff, bits, encoded) := st in
  let* encoded1 :=
    if 0 <? bits
    then let* c := c32_char (N.land buff 31) in Ok (encoded ++ [c])
    else Ok encoded in
  let* c0 := c32_char 0 in
  let encoded2 := pop_trailing c0 encoded1 in
  let encoded3 := push_leading x00 data c0 encoded2 in
  from_utf8_c32 (rev encoded3).

(** c32.rs:164-172: table lookup of the bytes, last first; [.get(i).unwrap_or(&-1)]. *)
Fixpoint c32_lookup (s : bytes) : res c32_err bytes :=
  match s with
  | [] => Ok []
  | i :: rest =>
    let v := nth (N.to_nat (b2n i)) c32_byte_map (-1)%Z in
    if (v <? 0)%Z then Err (C32BadChar (b2n i))
    else if (v <? 256)%Z then
      let* t := c32_lookup rest in Ok (n2b (Z.to_N v) :: t)
    else Err C32TryFromInt
  end.

(** c32.rs:182-186: the inner [while carry_bits >= 8] loop. *)
Fixpoint c32_dec_drain (fuel : nat) (carry cbits : N) (decoded : bytes)
  : res c32_err (N * N * bytes) :=
  if cbits <? 8 then Ok (carry, cbits, decoded)
  else match fuel with
       | O => NoFuel
       | S f => c32_dec_drain f (N.shiftr carry 8) (cbits - 8)
                              (decoded ++ [n2b (N.land carry 255)])
       end.

(** c32.rs:178-187: the loop over the digits; [u16] shift is truncated to 16 bits. *)
Fixpoint c32_dec_loop (digits : bytes) (carry cbits : N) (decoded : bytes)
  : res c32_err (N * N * bytes) :=
  match digits with
  | [] => Ok (carry, cbits, decoded)
  | d :: rest =>
    let carry1 := N.lor carry (N.shiftl (b2n d) cbits mod 2 ^ 16) in
    let cbits1 := cbits + 5 in
    let* st := c32_dec_drain (N.to_nat cbits1) carry1 cbits1 decoded in
    let '(carry2, cbits2, decoded2) := st in
    c32_dec_loop rest carry2 cbits2 decoded2
  end.

(** c32.rs:152-210 [c32_decode]. *)
Definition c32_decode (s : bytes) : res c32_err bytes :=
  if negb (is_ascii s) then Err C32BadInput
  else
    let* buff := c32_lookup (rev s) in
    let* st := c32_dec_loop buff 0 0 [] in
    let '(carry, cbits, decoded) := st in
    let* decoded1 :=
      if 0 <? cbits
      then (if carry <? 256 then Ok (decoded ++ [n2b carry]) else Err C32TryFromInt)
      else Ok decoded in
    let decoded2 := pop_trailing x00 decoded1 in
    let decoded3 := push_leading x00 (rev buff) x00 decoded2 in
    Ok (rev decoded3).

(** c32.rs:213-230 [c32check_encode]; [C32_ALPHABET[version as usize]] panics from 32 on. *)
Definition c32check_encode (hash : bytes) (version : byte) : res c32_err bytes :=
  let sum := checksum (dsha256 (version :: hash)) in
  let* encoded := c32_encode (hash ++ sum) in
  let* c := c32_char (b2n version) in
  from_utf8_c32 (c :: encoded).

(** c32.rs:233-262 [c32check_decode]; [split_at(1)] panics on the empty string. *)
Definition c32check_decode (s : bytes) : res c32_err (bytes * byte) :=
  if negb (is_ascii s) then Err C32BadInput
  else match s with
       | [] => Panic PIndex
       | ver :: data =>
         let* decoded := c32_decode data in
         if lenN decoded <? 4 then Err C32BadInput
         else
           let k := (length decoded - 4)%nat in
           let payload := firstn k decoded in
           let exp_sum := skipn k decoded in
           let* v := c32_decode [ver] in
           let check := v ++ payload in
           let comp := checksum (dsha256 check) in
           if bytes_eqb comp exp_sum then
             let* v0 := index 0 check in
             Ok (payload, v0)
           else Err (C32BadChecksum comp exp_sum)
       end.

(** c32.rs:265-277 [c32_address]. *)
Definition c32_address (hash : bytes) (version : byte) : res c32_err bytes :=
  if existsb (N.eqb (b2n version)) [22; 26; 20; 21] then
    let* s := c32check_encode hash version in
    Ok (x53 :: s)
  else Err (C32UnknownAddressVersion version).

(** c32.rs:280-295 [c32_address_decode]. *)
Definition c32_address_decode (s : bytes) : res c32_err (bytes * byte) :=
  match s with
  | x53 :: rest => if lenN s <=? 5 then Err (C32BadAddress s) else c32check_decode rest
  | _ => Err (C32BadAddress s)
  end.

(** c32.rs:83-104 [Address] and its [FromStr]; [Hash160::new] panics unless 20 bytes. *)
Record address := { addr_hash : bytes; addr_version : byte }.
Definition address_from_str (s : bytes) : res c32_err address :=
  let* r := c32_address_decode s in
  let '(bs, v) := r in
  let* h := hash160_new bs in
  Ok {| addr_hash := h; addr_version := v |}.

(** c32.rs:298-300 [hash_p2pkh]. *)
Definition hash_p2pkh (input : bytes) : bytes := hash160 input.

(** c32.rs:304-314 [hash_p2wpkh]. *)
Definition hash_p2wpkh (input : bytes) : bytes :=
  let kh := hash160 input in
  hash160 ([x00] ++ [n2b (lenN kh)] ++ kh).

(** [u8] addition, panicking on overflow (debug build). *)
Definition u8_add {E} (a b : byte) : res E byte :=
  if b2n a + b2n b <? 256 then Ok (n2b (b2n a + b2n b)) else Panic POverflow.

(** c32.rs:318-331 / 336-349: the script shared by [hash_p2sh] and [hash_p2wsh]; [keys] are the
    serialized public keys. *)
Definition multisig_script {E} (sigs : byte) (keys : list bytes) : res E bytes :=
  let* m := u8_add sigs (n2b 80) in
  let body := concat (map (fun k => n2b (lenN k) :: k) keys) in
  let* n := u8_add (n2b (lenN keys)) (n2b 80) in
  Ok ([m] ++ body ++ [n; n2b 174]).

(** c32.rs:318-332 [hash_p2sh]. *)
Definition hash_p2sh {E} (sigs : byte) (keys : list bytes) : res E bytes :=
  let* script := multisig_script sigs keys in
  Ok (hash160 script).

(** c32.rs:336-358 [hash_p2wsh]. *)
Definition hash_p2wsh {E} (sigs : byte) (keys : list bytes) : res E bytes :=
  let* script := multisig_script sigs keys in
  let digest := sha256 script in
  Ok (hash160 ([x00] ++ [n2b (lenN digest)] ++ digest)).
