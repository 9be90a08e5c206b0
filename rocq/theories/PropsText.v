(** Property theorems C01-C13: hex, c32, base58 and the two address formats. *)

From Coq Require Import Strings.String.
From Verif Require Import Base SpecUtf8 SpecText SpecAddr Sha2 Hash Hex HexFacts C32 C32Facts AddrFacts
     B58 B58Facts B58CheckFacts TextThms.
Local Open Scope N_scope.

(** ** C01 *)
Theorem C01_hex_roundtrip : forall b, hex_to_bytes (bytes_to_hex b) = Ok b.
Proof. exact hex_roundtrip. Qed.
Print Assumptions C01_hex_roundtrip.

Theorem C01_hex_text : forall b, bytes_to_hex b = hex_text b.
Proof. exact bytes_to_hex_text. Qed.
Print Assumptions C01_hex_text.

Example C01_ex : bytes_to_hex [x00; xff; x1a] = str "00ff1a"
                 /\ hex_to_bytes (str "00ff1a") = Ok [x00; xff; x1a].
Proof. split; vm_compute; reflexivity. Qed.

(** ** C02: odd length, good, bad; the three cases are exhaustive, so decoding never panics. *)
Theorem C02_hex_decode_exact : forall s,
  (Nat.odd (length s) = true -> hex_to_bytes s = Err (HexUnpadded s (N.of_nat (length s)))) /\
  (Nat.even (length s) = true -> Forall is_hex_char s ->
     exists b, hex_to_bytes s = Ok b /\ bytes_to_hex b = map ascii_lower s) /\
  (Nat.even (length s) = true -> ~ Forall is_hex_char s -> hex_to_bytes s = Err HexBadChar).
Proof. exact hex_decode_exact. Qed.
Print Assumptions C02_hex_decode_exact.

Example C02_ex : hex_to_bytes (str "FFa") = Err (HexUnpadded (str "FFa") 3)
                 /\ hex_to_bytes (str "Fg") = Err HexBadChar
                 /\ hex_to_bytes (str "Fa") = Ok [xfa].
Proof. repeat split; vm_compute; reflexivity. Qed.

(** ** C03 *)
Theorem C03_c32_roundtrip : forall b, exists s, c32_encode b = Ok s /\ c32_decode s = Ok b.
Proof. exact c32_roundtrip. Qed.
Print Assumptions C03_c32_roundtrip.

Theorem C03_c32_injective : forall a b s, c32_encode a = Ok s -> c32_encode b = Ok s -> a = b.
Proof. exact c32_encode_inj. Qed.
Print Assumptions C03_c32_injective.

(** ** C04 *)
Theorem C04_c32_positional : forall b,
  exists s, c32_encode b = Ok s /\ numeral 32 crockford b s
            /\ forall s', numeral 32 crockford b s' -> s' = s.
Proof. exact c32_encode_form. Qed.
Print Assumptions C04_c32_positional.

Example C03_C04_ex : c32_encode [x00; xde; xad; xbe; xef] = Ok (str "03FAVFQF")
                     /\ c32_decode (str "03FAVFQF") = Ok [x00; xde; xad; xbe; xef].
Proof. split; vm_compute; reflexivity. Qed.

(** ** C05 *)
Theorem C05_c32_decode_exact : forall s,
  (Forall crockford_ok s ->
     exists b, c32_decode s = Ok b /\ c32_encode b = Ok (map crockford_norm s))
  /\ (~ ascii s -> c32_decode s = Err C32BadInput)
  /\ (forall p c t, ascii s -> s = p ++ c :: t -> ~ crockford_ok c -> Forall crockford_ok t ->
        c32_decode s = Err (C32BadChar (Byte.to_N c)))
  /\ ((exists b, c32_decode s = Ok b) -> Forall crockford_ok s).
Proof. exact c32_decode_classify. Qed.
Print Assumptions C05_c32_decode_exact.

(** The three cases of C05 are exhaustive: decoding always returns. *)
Theorem C05_c32_decode_total : forall s,
  (exists b, c32_decode s = Ok b) \/ (exists e, c32_decode s = Err e).
Proof. exact c32_decode_no_panic. Qed.
Print Assumptions C05_c32_decode_total.

Example C05_ex : c32_decode (str "O3faVfqF") = Ok [x00; xde; xad; xbe; xef]
                 /\ c32_decode (str "3!F*VFQF") = Err (C32BadChar 42).
Proof. split; vm_compute; reflexivity. Qed.

(** ** C06 *)
Theorem C06_address_roundtrip : forall h v, stacks_version v ->
  exists s, c32_address h v = Ok s /\ address_text h v s /\ c32_address_decode s = Ok (h, v).
Proof. exact c32_address_ok. Qed.
Print Assumptions C06_address_roundtrip.

Theorem C06_c32check_roundtrip : forall h v, Byte.to_N v < 32 ->
  exists t, c32check_encode h v = Ok t /\ c32check_text h v t /\ c32check_decode t = Ok (h, v).
Proof. exact c32check_roundtrip. Qed.
Print Assumptions C06_c32check_roundtrip.

Example C06_ex : stacks_version (n2b 22)
  /\ c32_address [x01; x02] (n2b 22) = Ok (str "SP10AASD19F")
  /\ c32_address_decode (str "Sp1OaasDL9f") = Ok ([x01; x02], n2b 22).
Proof. split; [cbn; tauto|]. split; vm_compute; reflexivity. Qed.

(** ** C07 *)
Theorem C07_address_decode_sound : forall s h v,
  c32_address_decode s = Ok (h, v) <-> address_spelling h v s.
Proof. exact c32_address_decode_iff. Qed.
Print Assumptions C07_address_decode_sound.

Theorem C07_spelling_unique : forall h v s s',
  address_spelling h v s -> address_spelling h v s' ->
  exists t t', s = x53 :: t /\ s' = x53 :: t' /\ map crockford_norm t = map crockford_norm t'.
Proof. exact address_spelling_unique. Qed.
Print Assumptions C07_spelling_unique.

Theorem C07_bad_checksum : forall ver v data h sum,
  c32_decode data = Ok (h ++ sum) -> length sum = 4%nat ->
  crockford_ok ver -> Byte.to_N v < 32 ->
  crockford_norm ver = nth (N.to_nat (Byte.to_N v)) crockford x00 ->
  sum <> addr_sum v h ->
  c32check_decode (ver :: data) = Err (C32BadChecksum (addr_sum v h) sum).
Proof. exact c32check_bad_checksum. Qed.
Print Assumptions C07_bad_checksum.

Example C07_ex : exists a b, c32_address_decode (str "SP10AASD19G") = Err (C32BadChecksum a b).
Proof. vm_compute. eexists. eexists. reflexivity. Qed.

(** ** C08 *)
Theorem C08_unknown_version : forall h v, ~ stacks_version v ->
  c32_address h v = Err (C32UnknownAddressVersion v).
Proof. exact c32_address_unknown. Qed.
Print Assumptions C08_unknown_version.

Theorem C08_address_only_stacks_versions : forall h v s,
  c32_address h v = Ok s -> stacks_version v /\ address_text h v s.
Proof. exact c32_address_text. Qed.
Print Assumptions C08_address_only_stacks_versions.

(** Finding: parsing does not check the version. *)
Theorem C08_parse_version_refuted :
  exists s h v, c32_address_decode s = Ok (h, v) /\ ~ stacks_version v.
Proof.
  exists (str "S0000000000000000000002AA028H"), (repeat x00 20), x00. split; [vm_compute; reflexivity|].
  unfold stacks_version. cbn. intros H. repeat destruct H as [H|H]; discriminate || contradiction.
Qed.
Print Assumptions C08_parse_version_refuted.

(** ** C09 *)
Theorem C09_address_no_panic : forall h v,
  (exists s, c32_address h v = Ok s) \/ (exists e, c32_address h v = Err e).
Proof. exact c32_address_no_panic. Qed.
Print Assumptions C09_address_no_panic.

Theorem C09_address_decode_no_panic : forall s,
  (exists r, c32_address_decode s = Ok r) \/ (exists e, c32_address_decode s = Err e).
Proof. exact c32_address_decode_no_panic. Qed.
Print Assumptions C09_address_decode_no_panic.

(** Finding: exactly the empty string makes [c32check_decode] panic. *)
Theorem C09_c32check_decode_panics_iff_empty : forall s,
  match c32check_decode s with
  | Ok _ | Err _ => s <> []
  | Panic p => s = [] /\ p = PIndex
  | NoFuel => False
  end.
Proof. exact c32check_decode_cases. Qed.
Print Assumptions C09_c32check_decode_panics_iff_empty.

(** Finding: exactly the versions from 32 on make [c32check_encode] panic. *)
Theorem C09_c32check_encode_panics_iff_version : forall h v,
  match c32check_encode h v with
  | Ok _ => Byte.to_N v < 32
  | Err _ => False
  | Panic p => 32 <= Byte.to_N v /\ p = PIndex
  | NoFuel => False
  end.
Proof. exact c32check_encode_cases. Qed.
Print Assumptions C09_c32check_encode_panics_iff_version.

(** Finding: a well-checksummed address text of a payload that is not 20 bytes makes
    [Address::from_str] panic; everything else is returned faithfully. *)
Theorem C09_from_str_exact : forall s,
  match c32_address_decode s with
  | Ok (h, v) => if Nat.eqb (length h) 20
                 then address_from_str s = Ok {| addr_hash := h; addr_version := v |}
                 else address_from_str s = Panic PCopyLen
  | Err e => address_from_str s = Err e
  | _ => False
  end.
Proof. exact address_from_str_cases. Qed.
Print Assumptions C09_from_str_exact.

Theorem C09_from_str_no_panic_refuted : exists s p, address_from_str s = Panic p.
Proof. exists (str "SP10AASD19F"), PCopyLen. vm_compute. reflexivity. Qed.
Print Assumptions C09_from_str_no_panic_refuted.

(** ** C10, C11: the exact domain, and what happens outside of it (finding: [n] zero bytes, [n > 0],
    become [n + 1] ones). *)
Theorem C10_C11_b58_encode_exact : forall E b,
  (b = [] \/ ~ Forall (eq x00) b ->
     exists s, @b58_encode E b = Ok s /\ numeral 58 bitcoin58 b s
               /\ (forall s', numeral 58 bitcoin58 b s' -> s' = s)
               /\ b58_decode s = Ok b)
  /\ (forall n, b = repeat x00 (S n) ->
     exists s, @b58_encode E b = Ok s /\ s = repeat x31 (S (S n))
               /\ b58_decode s = Ok (repeat x00 (S (S n)))).
Proof. exact @b58_encode_exact. Qed.
Print Assumptions C10_C11_b58_encode_exact.

Theorem C10_b58_lossless_refuted : exists b s, @b58_encode unit b = Ok s /\ b58_decode s <> Ok b.
Proof.
  exists [x00], [x31; x31]. split; [vm_compute; reflexivity|]. vm_compute. discriminate.
Qed.
Print Assumptions C10_b58_lossless_refuted.

Theorem C11_b58_decode_exact : forall s b, utf8 s ->
  (b58_decode s = Ok b <-> numeral 58 bitcoin58 b s).
Proof. exact b58_decode_ok_iff. Qed.
Print Assumptions C11_b58_decode_exact.

Example C10_C11_ex : ~ Forall (eq x00) [x00; x01; x02]
  /\ @b58_encode unit [x00; x01; x02] = Ok (str "15T")
  /\ b58_decode (str "15T") = Ok [x00; x01; x02].
Proof.
  split; [|split; vm_compute; reflexivity].
  intros F. apply Forall_cons_iff in F. destruct F as [_ F]. apply Forall_cons_iff in F.
  destruct F as [F _]. discriminate.
Qed.

(** ** C12: first bad character reported; finding: panic if it is above U+00FF. *)
Theorem C12_b58_decode_classify : forall s cs, spells_text cs s ->
  (Forall (fun c => In c (map Byte.to_N bitcoin58)) cs -> exists b, b58_decode s = Ok b)
  /\ (forall p c t, cs = p ++ c :: t -> Forall (fun c => In c (map Byte.to_N bitcoin58)) p ->
        ~ In c (map Byte.to_N bitcoin58) ->
        (c < 256 -> b58_decode s = Err (B58BadChar c))
        /\ (256 <= c -> b58_decode s = Panic PIndex)).
Proof. exact b58_decode_classify. Qed.
Print Assumptions C12_b58_decode_classify.

Theorem C12_no_panic_refuted : exists s p, utf8 s /\ b58_decode s = Panic p.
Proof.
  exists [xc4; x80], PIndex. split; [|vm_compute; reflexivity]. exists [256]. split; [constructor; [left; reflexivity | constructor] | reflexivity].
Qed.
Print Assumptions C12_no_panic_refuted.

Example C12_ex : b58_decode (str "1A0B") = Err (B58BadChar 48)
                 /\ b58_decode [x31; xc3; xa9] = Err (B58BadChar 233).
Proof. split; vm_compute; reflexivity. Qed.

(** ** C13 *)
Theorem C13_base58check_roundtrip : forall E h v, ~ Forall (eq x00) (v :: h ++ addr_sum v h) ->
  exists s, @base58check_encode E h v = Ok s /\ base58check_text h v s /\ base58check_decode s = Ok (h, v).
Proof. exact @base58check_roundtrip. Qed.
Print Assumptions C13_base58check_roundtrip.

Theorem C13_base58check_roundtrip_20 : forall E h v, length h = 20%nat ->
  exists s, @base58check_encode E h v = Ok s /\ base58check_text h v s /\ base58check_decode s = Ok (h, v).
Proof. exact @base58check_roundtrip_20. Qed.
Print Assumptions C13_base58check_roundtrip_20.

Theorem C13_base58check_decode_sound : forall s h v, utf8 s ->
  (base58check_decode s = Ok (h, v) <-> base58check_text h v s).
Proof. exact base58check_decode_iff. Qed.
Print Assumptions C13_base58check_decode_sound.

Theorem C13_base58check_decode_classify : forall s buff, b58_decode s = Ok buff ->
  ((length buff < 4)%nat -> base58check_decode s = Panic POverflow)
  /\ (length buff = 4%nat -> base58check_decode s = Panic PIndex)
  /\ (forall v h sum, buff = v :: h ++ sum -> length sum = 4%nat ->
        (sum = addr_sum v h -> base58check_decode s = Ok (h, v))
        /\ (sum <> addr_sum v h ->
            base58check_decode s = Err (B58BadChecksum sum (sha256 (sha256 (v :: h)))))).
Proof. exact base58check_decode_classify. Qed.
Print Assumptions C13_base58check_decode_classify.

(** Finding: the empty text panics. *)
Theorem C13_no_panic_refuted : exists s p, base58check_decode s = Panic p.
Proof. exists [], POverflow. vm_compute. reflexivity. Qed.
Print Assumptions C13_no_panic_refuted.

Example C13_ex :
  @base58check_encode unit (repeat x01 20) x00 = Ok (str "16Jswqk47s9PUcyCc88MMVwzgvHPvtEpf")
  /\ base58check_decode (str "16Jswqk47s9PUcyCc88MMVwzgvHPvtEpf") = Ok (repeat x01 20, x00).
Proof. split; vm_compute; reflexivity. Qed.
