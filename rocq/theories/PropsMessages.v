(** Error messages: what a failing operation tells the caller. *)

From Coq Require Import Strings.String Lia ZifyBool ZifyNat ZifyN.
From Verif Require Import Base BaseFacts Utf8 Hex HexFacts Sha2 Hash HashFacts C32 B58 Clarity Tx Signer Derive Messages SpecUtf8 SpecText SpecAddr SpecWire SpecShow
  SpecMessages MessageThms ClarityShort ClarityThms SpecTx SpecSign SpecClient PropsText PropsClarity PropsTx PropsSign PropsClient
  SpecRefuse PropsRefuse.
Local Open Scope string_scope.
Local Open Scope list_scope.
Local Open Scope N_scope.

(** ** C75 *)
Theorem C75_hex : forall s,
  (Nat.odd (length s) = true ->
     fails_with (fun e => Some (hex_message e)) (hex_to_bytes s)
       [Says (str "Received unpadded hex: input "); Says s; Says (str " with length "); Number (count s)])
  /\ (Nat.even (length s) = true -> ~ Forall is_hex_char s ->
     fails_with (fun e => Some (hex_message e)) (hex_to_bytes s) [Says (str "Bad hex character encountered")]).
Proof.
  intros s. destruct (C02_hex_decode_exact s) as (A & _ & B). split.
  - intros O. eexists _, _. split; [exact (A O)|]. split; [reflexivity|]. cbn [hex_message]. reading.
  - intros O F. eexists _, _. split; [exact (B O F)|]. split; [reflexivity|]. cbn [hex_message]. reading.
Qed.
Print Assumptions C75_hex.

Theorem C75_c32_letter : forall s p c t, ascii s -> s = p ++ c :: t -> ~ crockford_ok c -> Forall crockford_ok t ->
  fails_with c32_message (c32_decode s) [Says (str "Bad character encountered: "); Says [c]].
Proof.
  intros s p c t A -> N F. destruct (C05_c32_decode_exact (p ++ c :: t)) as (_ & _ & B & _).
  eexists _, _. split; [exact (B p c t A eq_refl N F)|]. split; [reflexivity|]. apply says.
  assert (C : b2n c < 128).
  { unfold ascii in A. apply Forall_app in A. destruct A as [_ A]. inversion A; subst. assumption. }
  unfold char_text. change (Byte.to_N c) with (b2n c). assert (b2n c <? 0x80 = true) as -> by lia. rewrite n2b_b2n. apply says_end.
Qed.
Print Assumptions C75_c32_letter.

(** The computed checksum is told as the expected one, the one found in the text as the received one. *)
Theorem C75_c32_checksum : forall ver v data h sum,
  c32_decode data = Ok (h ++ sum) -> length sum = 4%nat ->
  crockford_ok ver -> Byte.to_N v < 32 -> crockford_norm ver = nth (N.to_nat (Byte.to_N v)) crockford x00 ->
  sum <> addr_sum v h ->
  fails_with c32_message (c32check_decode (ver :: data))
    [Says (str "Bad checksum - expected "); Bytes (addr_sum v h); Says (str ", received "); Bytes sum].
Proof.
  intros. eexists _, _. split; [eapply C07_bad_checksum; eassumption|]. split; [reflexivity|]. reading.
Qed.
Print Assumptions C75_c32_checksum.

Theorem C75_versions : forall h v, ~ stacks_version v ->
  fails_with c32_message (c32_address h v)
    [Says (str "Unknown address version, received: "); Number (Byte.to_N v); Says (str " - expected one of '[");
     Number 22; Says (str ", "); Number 26; Says (str ", "); Number 20; Says (str ", "); Number 21; Says (str "]'")].
Proof.
  intros h v N. eexists _, _. split; [apply C08_unknown_version, N|]. split; [reflexivity|]. apply says, numbered.
  change (str " - expected one of '[22, 26, 20, 21]'")
    with (str " - expected one of '[" ++ show_N 22 ++ str ", " ++ show_N 26 ++ str ", " ++ show_N 20 ++ str ", " ++ show_N 21 ++ str "]'").
  reading.
Qed.
Print Assumptions C75_versions.

Theorem C75_b58_letter : forall s cs p c t, spells_text cs s -> cs = p ++ c :: t ->
  Forall (fun c => In c (map Byte.to_N bitcoin58)) p -> ~ In c (map Byte.to_N bitcoin58) -> c < 256 ->
  fails_with b58_message (b58_decode s) [Says (str "Bad character encountered: "); Letter c].
Proof.
  intros s cs p c t S E F N L. destruct (C12_b58_decode_classify s cs S) as [_ B]. destruct (B p c t E F N) as [B' _].
  eexists _, _. split; [exact (B' L)|]. split; [reflexivity|]. apply says, letter_end. lia.
Qed.
Print Assumptions C75_b58_letter.

(** Finding: the base58 message has the two the other way around, and shows all 32 bytes of the hash the checksum is the start of. *)
Theorem C75_b58_checksum : forall s v h sum, b58_decode s = Ok (v :: h ++ sum) -> length sum = 4%nat -> sum <> addr_sum v h ->
  fails_with b58_message (base58check_decode s)
    [Says (str "Bad checksum - expected "); Bytes sum; Says (str ", received: "); Bytes (sha256 (sha256 (v :: h)))].
Proof.
  intros s v h sum D L N. destruct (C13_base58check_decode_classify s _ D) as (_ & _ & B). destruct (B v h sum eq_refl L) as [_ B'].
  eexists _, _. split; [exact (B' N)|]. split; [reflexivity|]. reading.
Qed.
Print Assumptions C75_b58_checksum.

Theorem C75_b58_checksum_refuted : exists s v h sum, b58_decode s = Ok (v :: h ++ sum) /\ length sum = 4%nat /\ sum <> addr_sum v h
  /\ ~ fails_with b58_message (base58check_decode s)
      [Says (str "Bad checksum - expected "); Bytes (addr_sum v h); Says (str ", received: "); Bytes sum].
Proof.
  exists (str "7YXq9H"), x01, [], [x00; x00; x00; x00].
  assert (B : b58_decode (str "7YXq9H") = Ok (x01 :: [] ++ [x00; x00; x00; x00])) by (vm_compute; reflexivity).
  assert (N : [x00; x00; x00; x00] <> addr_sum x01 []) by (vm_compute; discriminate).
  split; [exact B|]. split; [reflexivity|]. split; [exact N|].
  intros (e & m & F & M & R). destruct (C13_base58check_decode_classify _ _ B) as (_ & _ & K). destruct (K _ _ _ eq_refl eq_refl) as [_ K'].
  rewrite (K' N) in F. injection F as <-. injection M as <-.
  destruct R as (m1 & E1 & t & m2 & -> & L & _). apply byte_list_debug in L. subst t. vm_compute in E1. discriminate E1.
Qed.
Print Assumptions C75_b58_checksum_refuted.

Theorem C75_identifiers : forall t i b r, In (t, i) sip_ids -> b <> i ->
  fails_with clarity_message (decode_as t (b :: r))
    [Says (str "Bad type identifier - expected: "); Number (Byte.to_N i); Says (str ", received: "); Number (Byte.to_N b)].
Proof.
  intros t i b r I N. eexists _, _. split; [apply (C18_bad_identifier t i b r I N)|]. split; [reflexivity|]. cbn [clarity_message]. reading.
Qed.
Print Assumptions C75_identifiers.

Theorem C75_unknown_tag : forall b r, 15 <= Byte.to_N b ->
  fails_with clarity_message (decode_clarity_type (b :: r)) [Says (str "Unexpected type identifier - received: "); Number (Byte.to_N b)].
Proof. intros b r H. eexists _, _. split; [apply (C18_unknown_tag b r H)|]. split; [reflexivity|]. reading. Qed.
Print Assumptions C75_unknown_tag.

Theorem C75_names : forall c w s, means c w -> wall roomy1 w -> In s (names w) -> 128 < count s ->
  exists s', In s' (names w) /\ 128 < count s'
  /\ fails_with clarity_message (encode c)
      [Says (str "Bad string length - received "); Number (count s'); Says (str " bytes, max. "); Number 128; Says (str " bytes")].
Proof.
  intros c w s M W I L. destruct (C21_name_limit c w M W) as [_ B]. destruct (B s I L) as (s' & I' & L' & E).
  exists s'. split; [exact I'|]. split; [exact L'|]. eexists _, _. split; [exact E|]. split; [reflexivity|]. reading.
Qed.
Print Assumptions C75_names.

Theorem C75_memo : forall r amount memo, 34 < count memo ->
  fails_with clarity_message (enc_transfer r amount memo)
    [Says (str "Bad string length - received "); Number (count memo); Says (str " bytes, max. "); Number 34; Says (str " bytes")].
Proof.
  intros. eexists _, _. split; [apply C28_long_memo; assumption|]. split; [reflexivity|]. reading.
Qed.
Print Assumptions C75_memo.

Theorem C75_signature : forall b, length b <> 65%nat ->
  fails_with hash_message (msig_from_slice b)
    [Says (str "Invalid message signature length, expected "); Number 65; Says (str " bytes - got: "); Number (count b)].
Proof.
  intros b N. destruct (C53_from_slice b) as [[L _]|[_ E]]; [contradiction|].
  eexists _, _. split; [exact E|]. split; [reflexivity|].
  change (str "Invalid message signature length, expected 65 bytes - got: ")
    with (str "Invalid message signature length, expected " ++ show_N 65 ++ str " bytes - got: "). rewrite <- !app_assoc. reading.
Qed.
Print Assumptions C75_signature.

(** Signatures that do not belong: the address expected and the one found are told in hexadecimal, the counts in decimal. *)
Theorem C75_signer : forall E s h typ pk a, length (std_sig s) = 65%nat -> mode_fits (SStd s) ->
  recovers E (digest h typ (std_fee s) (std_nonce s)) (std_sig s) pk -> key_address (std_mode s) pk = Some a -> a <> std_signer s ->
  fails_with tx_message (verify_scond E (SStd s) h typ)
    [Says (str "Invalid signer hash, expected "); Says (hex_text (std_signer s)); Says (str " - got: "); Says (hex_text a)].
Proof.
  intros E s h typ pk a L M R A N. destruct (C70_verify_single E s h typ L M) as [_ B]. destruct (B pk a R A) as [_ B'].
  eexists _, _. split; [exact (B' N)|]. split; [reflexivity|]. cbn [tx_message]. reading.
Qed.
Print Assumptions C75_signer.

Theorem C75_signers : forall E m h typ ks n h', typed (SMulti m) -> mode_fits (SMulti m) -> held (SMulti m) < 256 ->
  chain E typ (ms_fee m) (ms_nonce m) h (ms_fields m) ks n h' ->
  let k := threshold (SMulti m) in
  (n < k -> fails_with tx_message (verify_scond E (SMulti m) h typ)
              [Says (str "Invalid signature count, expected "); Number k; Says (str " - got: "); Number n])
  /\ (forall a, k <= n -> script_fits k ks -> keys_address (ms_mode m) k ks = Some a -> a <> ms_signer m ->
      fails_with tx_message (verify_scond E (SMulti m) h typ)
        [Says (str "Invalid signer hash, expected "); Says (hex_text (ms_signer m)); Says (str " - got: "); Says (hex_text a)]).
Proof.
  intros E m h typ ks n h' T M B C k. destruct (C70_verify_multi E m h typ T M B) as [_ K]. destruct (K ks n h' C) as (K1 & _ & K2). split.
  - intros L. eexists _, _. split; [exact (K1 L)|]. split; [reflexivity|]. cbn [tx_message]. reading.
  - intros a L S A N. destruct (K2 a L S A) as [_ K3]. eexists _, _. split; [exact (K3 N)|]. split; [reflexivity|]. cbn [tx_message]. reading.
Qed.
Print Assumptions C75_signers.

(** What a signer refuses, in words. *)
Theorem C75_refusals : forall E s sk pk, ecdsa_correct E -> valid_key sk -> mode_fits (origin_of (sg_tx s)) ->
  let o := origin_of (sg_tx s) in
  (frozen s ->
     fails_with tx_message (snd (sign_origin E s sk)) [Says (str "Attempted to sign origin after sponsor key")]
     /\ fails_with tx_message (snd (append_origin s pk)) [Says (str "Attempted to append public key to origin after sponsor key")])
  /\ (~ frozen s -> sg_oversign s = true -> threshold o <= held o < 2 ^ 16 ->
     fails_with tx_message (snd (sign_origin E s sk)) [Says (str "Attempted to sign origin with too many signatures")])
  /\ (forall p, sponsor_of (sg_tx s) = Some p -> mode_fits p -> sg_oversign s = true -> threshold p <= held p < 2 ^ 16 ->
     fails_with tx_message (snd (sign_sponsor E s sk)) [Says (str "Attempted to sign sponsor with too many signatures")])
  /\ (sponsor_of (sg_tx s) = None ->
     fails_with tx_message (snd (sign_sponsor E s sk)) [Says (str "Attempted to modify a spending condition with an incompatible action")])
  /\ (~ frozen s -> forall c, o = SStd c ->
     fails_with tx_message (snd (append_origin s pk)) [Says (str "Attempted to modify a spending condition with an incompatible action")]).
Proof.
  intros E s sk pk C V M o. destruct (C70_sign_origin E s sk C V M) as (A1 & A2 & _). destruct (C70_sign_sponsor E s sk C V) as (B1 & B2).
  destruct (C70_append_origin s pk M) as (D1 & D2 & _). repeat split.
  - rewrite (A1 H). eexists _, _. repeat split. apply says_end.
  - rewrite (D1 H). eexists _, _. repeat split. apply says_end.
  - intros F O L. rewrite (A2 F O L). eexists _, _. repeat split. apply says_end.
  - intros p S P O L. destruct (B2 p S P) as (B3 & _). rewrite (B3 O L). eexists _, _. repeat split. apply says_end.
  - intros N. rewrite (B1 N). eexists _, _. repeat split. apply says_end.
  - intros F c O. rewrite (D2 F c O). eexists _, _. repeat split. apply says_end.
Qed.
Print Assumptions C75_refusals.

Theorem C75_not_an_address : forall s, (forall t, s <> x53 :: t) \/ count s <= 5 ->
  fails_with c32_message (c32_address_decode s) [Says (str "Bad C32 address: "); Says s].
Proof.
  intros s H. exists (C32BadAddress s), (str "Bad C32 address: " ++ s). split; [|split; [reflexivity | reading]].
  unfold c32_address_decode. destruct s as [|c t]; [reflexivity|].
  destruct (byte_eqb_spec c x53) as [-> | N]; [|destruct c; congruence].
  destruct H as [H|H]; [destruct (H t); reflexivity|].
  assert (lenN (x53 :: t) <=? 5 = true) as -> by (apply N.leb_le, H). reflexivity.
Qed.
Print Assumptions C75_not_an_address.

Theorem C75_downcast : forall t v, ~ built_as t v ->
  fails_with clarity_message (cast t v) [Says (str "Bad downcast, please check the type identifier and the cast type")].
Proof. intros t v N. destruct (C26_cast t v) as [_ B]. rewrite (B N). eexists _, _. repeat split. apply says_end. Qed.
Print Assumptions C75_downcast.

(** A refused derivation names the field at fault and the struct, and for a cast the expected type. *)
Theorem C75_derive : forall s t fields e, derive_fields s fields t = Err e ->
  fails_all s t fields e
  /\ match e with
     | DeExtract k i => reads [Says (str "Failed to extract value for field '"); Says k; Says (str "' on '"); Says i; Says (str "'")] (derive_message e)
     | DeMatch k i => reads [Says (str "Failed to match value for field '"); Says k; Says (str "' on '"); Says i; Says (str "'")] (derive_message e)
     | DeCast k ty i => reads [Says (str "Failed to cast field '"); Says k; Says (str "' as '"); Says ty; Says (str "' on struct '"); Says i; Says (str "'")]
                          (derive_message e)
     end.
Proof.
  intros s t fields e F. split; [apply C50_refused, F|]. destruct e; cbn [derive_message]; reading.
Qed.
Print Assumptions C75_derive.

(** Hash values show as lowercase hexadecimal, by [hex] and by [Debug]. *)
Theorem C75_hash_text : forall h, hash_hex h = hex_text h /\ hash_debug h = hex_text h.
Proof. intros h. rewrite hash_debug_hex. unfold hash_hex. rewrite bytes_to_hex_text. auto. Qed.
Print Assumptions C75_hash_text.

Example C75_ex :
  c32_message (C32BadChecksum [x01; xff] [x0a]) = Some (str "Bad checksum - expected [1, 255], received [10]")
  /\ b58_message (B58BadChar 233) = Some (str "Bad character encountered: " ++ [xc3; xa9])
  /\ clarity_message (ClBadIdentifier x0c x0b) = Some (str "Bad type identifier - expected: 12, received: 11")
  /\ hex_message (HexUnpadded (str "abc") 3) = str "Received unpadded hex: input abc with length 3".
Proof. repeat split; vm_compute; reflexivity. Qed.
