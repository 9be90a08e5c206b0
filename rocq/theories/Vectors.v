(** Validation of the model on the expected outputs hard-coded in the repository's own tests and on
    published hash vectors.  These are tests of the model, not proofs of properties. *)

From Coq Require Import Strings.String.
From Verif Require Import Base Utf8 Hex Sha2 Ripemd Hash C32 B58 Clarity Tx Signer Builder.
Local Open Scope string_scope.

Definition okd (r : res cl_err bytes) : bytes := match r with Ok b => b | _ => [] end.
Definition hx (s : string) : bytes := match hex_to_bytes (str s) with Ok b => b | _ => [] end.
(** "encodes to the given hex text". *)
Definition encodes (r : res cl_err bytes) (s : string) : bool :=
  match r with Ok b => bytes_eqb (bytes_to_hex b) (str s) | _ => false end.

(** FIPS 180-4 / RIPEMD-160 vectors. *)
Example sha256_abc : bytes_to_hex (sha256 (str "abc")) =
  str "ba7816bf8f01cfea414140de5dae2223b00361a396177a9cb410ff61f20015ad".
Proof. vm_compute. reflexivity. Qed.
Example sha512_256_abc : bytes_to_hex (sha512_256 (str "abc")) =
  str "53048e2681941ef99b2e29b76b4c7dabe4c2d0c634fc6d46e0e2f13107e7af23".
Proof. vm_compute. reflexivity. Qed.
Example ripemd160_abc : bytes_to_hex (ripemd160 (str "abc")) =
  str "8eb208f7e05d987a9b044a8e98c6b087f15a0bfc".
Proof. vm_compute. reflexivity. Qed.

(** c32.rs:423-461. *)
Definition vec_pk : bytes :=
  hx "03ef788b3830c00abe8f64f62dc32fc863bc0b2cafeb073b6c8e1c7657d9c2c3ab".
Example vec_p2pkh : bytes_to_hex (hash_p2pkh (str "bc1qcr8te4kr609gcawutmrza0j4xv80jy8z306fyu")) =
  str "00f65a2969863fd2558441b5c27ec49e6db80024".
Proof. vm_compute. reflexivity. Qed.
Example vec_p2wpkh : bytes_to_hex (hash_p2wpkh (str "bc1qcr8te4kr609gcawutmrza0j4xv80jy8z306fyu")) =
  str "9ecb2946469c02135e5c9d85a58d18e33fb8b7fa".
Proof. vm_compute. reflexivity. Qed.
Example vec_p2sh : encodes (hash_p2sh x02 [vec_pk; vec_pk]) "b10bb6d6ff7a8b4de86614fadcc58c35808f1176"
  = true.
Proof. vm_compute. reflexivity. Qed.
Example vec_p2wsh : encodes (hash_p2wsh x02 [vec_pk; vec_pk]) "99febcfc05cb5f5836d257f34c3acb4c3a221813"
  = true.
Proof. vm_compute. reflexivity. Qed.

(** impl.rs:977-1465. *)
Example vec_int : encodes (encode (CInt (-1))) "00ffffffffffffffffffffffffffffffff" = true.
Proof. vm_compute. reflexivity. Qed.
Example vec_uint : encodes (encode (CUInt 1)) "0100000000000000000000000000000001" = true.
Proof. vm_compute. reflexivity. Qed.
Example vec_buffer : encodes (encode (CBuffer (hx "deadbeef"))) "0200000004deadbeef" = true.
Proof. vm_compute. reflexivity. Qed.
Example vec_std : encodes (encode (CPrinStd (str "SP2JXKMSH007NPYAQHKJPQMAQYAD90NQGTVJVQ02B")))
  "0516a5d9d331000f5b79578ce56bd157f29a9056f0d6" = true.
Proof. vm_compute. reflexivity. Qed.
Example vec_con :
  encodes (encode (CPrinCon (str "STB44HYPYAT2BB2QE513NSP81HTMYWBJP02HPGK6") (str "abcd")))
  "061a164247d6f2b425ac5771423ae6c80c754f7172b00461626364" = true.
Proof. vm_compute. reflexivity. Qed.
Example vec_con_dec :
  decode_clarity_type (hx "061a164247d6f2b425ac5771423ae6c80c754f7172b00461626364")
  = Ok (CPrinCon (str "STB44HYPYAT2BB2QE513NSP81HTMYWBJP02HPGK6") (str "abcd")).
Proof. vm_compute. reflexivity. Qed.
Example vec_list : encodes (encode (CList [CInt 1; CInt 2; CInt 3; CInt (-4); CUInt 1]))
  "0b0000000500000000000000000000000000000000010000000000000000000000000000000002000000000000000000000000000000000300fffffffffffffffffffffffffffffffc0100000000000000000000000000000001" = true.
Proof. vm_compute. reflexivity. Qed.
Example vec_tuple : encodes (encode (CTuple [(str "baz", CNone); (str "foobar", CTrue)]))
  "0c000000020362617a0906666f6f62617203" = true.
Proof. vm_compute. reflexivity. Qed.
Example vec_ascii : encodes (encode (CAscii (str "hello world"))) "0d0000000b68656c6c6f20776f726c64"
  = true.
Proof. vm_compute. reflexivity. Qed.
Example vec_utf8 : encodes (encode (CUtf8 (hx "68656c6c6f20f09f8cbe"))) "0e0000000a68656c6c6f20f09f8cbe"
  = true.
Proof. vm_compute. reflexivity. Qed.
Example vec_list_display :
  display (CList [CInt 1; CInt (-4); CUInt 1; CTrue; CFalse; CBuffer [x00]])
  = str "(list 1 -4 u1 true false 0x00)".
Proof. vm_compute. reflexivity. Qed.
Definition vec_addr : bytes := str "ST3J2GVMMM2R07ZFBJDWTYEYAR8FZH5WKDTFJ9AHA".
Example vec_tuple_display :
  display (CTuple
    [ (str "a", CInt (-1)); (str "b", CUInt 1); (str "c", CBuffer (str "test")); (str "d", CTrue);
      (str "e", CSome CTrue); (str "f", CNone); (str "g", CPrinStd vec_addr);
      (str "h", CPrinCon vec_addr (str "test")); (str "i", CRespOk CTrue);
      (str "j", CRespErr CFalse); (str "k", CList [CTrue; CFalse]);
      (str "l", CTuple [(str "a", CTrue)]); (str "m", CAscii (str "hello world"));
      (str "n", CUtf8 (hx "68656c6c6f20e188b4")) ])
  = str "(tuple (a -1) (b u1) (c 0x74657374) (d true) (e (some true)) (f none) (g ST3J2GVMMM2R07ZFBJDWTYEYAR8FZH5WKDTFJ9AHA) (h ST3J2GVMMM2R07ZFBJDWTYEYAR8FZH5WKDTFJ9AHA.test) (i (ok true)) (j (err false)) (k (list true false)) (l (tuple (a true))) (m ""hello world"") (n u""hello ሴ""))".
Proof. vm_compute. reflexivity. Qed.

(** auth.rs:545-573. *)
Example vec_auth_std :
  (let* s := std_new vec_pk 0 0 P2PKH in Ok (enc_std s) : res cl_err bytes)
  = Ok (hx "0015c31b8c1c11c515e244b75806bac48d1399c77500000000000000000000000000000000000000000000000000000000000000000000000000000000000000000000000000000000000000000000000000000000000000000000000000000000000000000000").
Proof. vm_compute. reflexivity. Qed.
Example vec_auth_multi :
  (let* m := multi_new [vec_pk; vec_pk] 0 0 x02 P2SH in enc_multi m)
  = Ok (hx "01b10bb6d6ff7a8b4de86614fadcc58c35808f117600000000000000000000000000000000000000000002").
Proof. vm_compute. reflexivity. Qed.

(** payload.rs:224-325. *)
Definition vec_st : bytes := str "STB44HYPYAT2BB2QE513NSP81HTMYWBJP02HPGK6".
Example vec_transfer_std :
  encodes (enc_payload (PTransfer (CPrinStd vec_st) 100000 (str "Hello, world!")))
  "00051a164247d6f2b425ac5771423ae6c80c754f7172b000000000000186a048656c6c6f2c20776f726c6421000000000000000000000000000000000000000000" = true.
Proof. vm_compute. reflexivity. Qed.
Example vec_transfer_con :
  encodes (enc_payload (PTransfer (CPrinCon vec_st (str "my-contract")) 100000 (str "Hello, world!")))
  "00061a164247d6f2b425ac5771423ae6c80c754f7172b00b6d792d636f6e747261637400000000000186a048656c6c6f2c20776f726c6421000000000000000000000000000000000000000000" = true.
Proof. vm_compute. reflexivity. Qed.
Definition vec_call_payload (args : list cval) : res cl_err bytes :=
  let* a := map_err ClC32 (address_from_str vec_st) in
  enc_payload (PCall a (str "my-contract") (str "my-function") args).
Example vec_call :
  encodes (vec_call_payload [CUInt 100; CInt (-100)])
  "021a164247d6f2b425ac5771423ae6c80c754f7172b00b6d792d636f6e74726163740b6d792d66756e6374696f6e00000002010000000000000000000000000000006400ffffffffffffffffffffffffffffff9c" = true.
Proof. vm_compute. reflexivity. Qed.
Example vec_call_complex :
  encodes (vec_call_payload
    [CTuple [(str "a", CUInt 100); (str "b", CInt (-100))]; CList [CTrue; CFalse; CSome (CUInt 100)];
     CBuffer (str "hello world"); CTrue; CUInt 100000; CFalse; CInt (-100000)])
  "021a164247d6f2b425ac5771423ae6c80c754f7172b00b6d792d636f6e74726163740b6d792d66756e6374696f6e000000070c0000000201610100000000000000000000000000000064016200ffffffffffffffffffffffffffffff9c0b0000000303040a0100000000000000000000000000000064020000000b68656c6c6f20776f726c640301000000000000000000000000000186a00400fffffffffffffffffffffffffffe7960" = true.
Proof. vm_compute. reflexivity. Qed.

(** condition.rs:361-505. *)
Definition vec_sp : bytes := str "SP2JXKMSH007NPYAQHKJPQMAQYAD90NQGTVJVQ02B".
Definition vec_info : asset_info :=
  {| ai_addr := vec_sp; ai_contract := str "my-contract"; ai_asset := str "my-asset" |}.
Example vec_conditions :
  encodes (enc_conditions
    [ CondSTX (CPrinStd vec_sp) 1000000 CcGTE;
      CondSTX (CPrinCon vec_sp (str "test")) 1000000 CcGTE;
      CondNFT (CPrinStd vec_sp) (CLps (str "test")) CcHas vec_info;
      CondFT (CPrinCon vec_sp (str "test")) 1000000 CcGTE vec_info ])
  "00000004000216a5d9d331000f5b79578ce56bd157f29a9056f0d60300000000000f4240000316a5d9d331000f5b79578ce56bd157f29a9056f0d604746573740300000000000f4240020216a5d9d331000f5b79578ce56bd157f29a9056f0d616a5d9d331000f5b79578ce56bd157f29a9056f0d60b6d792d636f6e7472616374086d792d6173736574047465737411010316a5d9d331000f5b79578ce56bd157f29a9056f0d6047465737416a5d9d331000f5b79578ce56bd157f29a9056f0d60b6d792d636f6e7472616374086d792d61737365740300000000000f4240" = true.
Proof. vm_compute. reflexivity. Qed.

(** tests/src/test_transfer.rs: the signed main-net transfer, with the expected signature put in by
    hand, and its transaction id. *)
Definition vec_signed : tx :=
  {| tx_ver := VMainnet; tx_chain := ChMainnet;
     tx_auth := AStandard (SStd {| std_mode := P2PKH; std_fee := 0; std_nonce := 0;
       std_signer := hash_p2pkh vec_pk;
       std_sig := hx "008b316d56e35b3b8d03ab3b9dbe05eb44d64c53e7ba3c468f9a78c82a13f2174c32facb0f29faeb21075ec933db935ebc28a8793cc60e14b8ee4ef05f52c94016" |});
     tx_anchor := AnAny; tx_pcmode := PcDeny; tx_conds := [];
     tx_payload := PTransfer (CPrinStd (str "SP3FGQ8Z7JY9BWYZ5WM53E0M9NK7WHJF0691NZ159")) 12345
                             (str "test memo") |}.
Example vec_tx :
  encodes (enc_tx vec_signed)
  "0000000001040015c31b8c1c11c515e244b75806bac48d1399c7750000000000000000000000000000000000008b316d56e35b3b8d03ab3b9dbe05eb44d64c53e7ba3c468f9a78c82a13f2174c32facb0f29faeb21075ec933db935ebc28a8793cc60e14b8ee4ef05f52c94016030200000000000516df0ba3e79792be7be5e50a370289accfc8c9e032000000000000303974657374206d656d6f00000000000000000000000000000000000000000000000000" = true.
Proof. vm_compute. reflexivity. Qed.
Example vec_txid :
  tx_hash vec_signed = Ok (hx "84cccb05f4bd0e1b08905ef1f1350ad635a6474448310548bdccfa04e0121bab").
Proof. vm_compute. reflexivity. Qed.
