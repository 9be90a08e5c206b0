(** The functions whose arithmetic can overflow, as a release build computes them: without overflow checks
    sums and differences wrap around.  Everything else is the same in both builds and is taken from the other
    model files. *)

From Verif Require Import Base Hex Sha2 Ripemd Hash C32 B58 Clarity Tx Signer.
Local Open Scope N_scope.

(** [u8] addition that wraps around. *)
Definition u8_wrap (a b : byte) : byte := n2b (b2n a + b2n b).

(** c32.rs:318-331 / 336-349. *)
Definition multisig_script_rel (sigs : byte) (keys : list bytes) : bytes :=
  [u8_wrap sigs (n2b 80)] ++ concat (map (fun k => n2b (lenN k) :: k) keys)
  ++ [u8_wrap (n2b (lenN keys)) (n2b 80); n2b 174].

(** c32.rs:318-332 [hash_p2sh]. *)
Definition hash_p2sh_rel (sigs : byte) (keys : list bytes) : bytes := hash160 (multisig_script_rel sigs keys).

(** c32.rs:336-358 [hash_p2wsh]. *)
Definition hash_p2wsh_rel (sigs : byte) (keys : list bytes) : bytes :=
  let digest := sha256 (multisig_script_rel sigs keys) in
  hash160 ([x00] ++ [n2b (lenN digest)] ++ digest).

(** auth.rs:386-404 [SpendingConditionMultiSig::new]. *)
Definition multi_new_rel {E} (pks : list bytes) (fee nonce : N) (required : byte) (mode : hmode) : res E sc_multi :=
  let* signer := match mode with
                 | P2SH => Ok (hash_p2sh_rel required pks)
                 | P2WSH => Ok (hash_p2wsh_rel required pks)
                 | _ => Panic PExplicit
                 end in
  Ok {| ms_mode := mode; ms_fee := fee; ms_nonce := nonce; ms_signer := signer;
        ms_fields := []; ms_required := required |}.

(** auth.rs:446-463: the loop over the fields; the [u8] counter starts again from 0. *)
Fixpoint verify_fields_rel (E : ecdsa) (fields : list auth_field) (next : bytes) (typ : byte)
         (fee nonce : N) (keys : list bytes) (count : N)
  : res tx_err (list bytes * bytes * N) :=
  match fields with
  | [] => Ok (keys, next, count)
  | FPk pk :: rest => verify_fields_rel E rest next typ fee nonce (keys ++ [pk]) count
  | FSig sg :: rest =>
    let* r := map_err TxHash (next_verify E next typ fee nonce sg) in
    let '(pk, h) := r in
    verify_fields_rel E rest h typ fee nonce (keys ++ [pk]) ((count + 1) mod 256)
  end.

(** auth.rs:445-482 [SpendingConditionMultiSig::verify]. *)
Definition verify_multi_rel (E : ecdsa) (m : sc_multi) (hash : bytes) (typ : byte) : res tx_err bytes :=
  let* r := verify_fields_rel E (ms_fields m) hash typ (ms_fee m) (ms_nonce m) [] 0 in
  let '(keys, next, count) := r in
  if count <? b2n (ms_required m) then Err (TxBadSignatureCount (b2n (ms_required m)) count)
  else
    let* signer := match ms_mode m with
                   | P2SH => Ok (hash_p2sh_rel (ms_required m) keys)
                   | P2WSH => Ok (hash_p2wsh_rel (ms_required m) keys)
                   | _ => Panic PExplicit
                   end in
    if bytes_eqb signer (ms_signer m) then Ok next
    else Err (TxBadSigner (bytes_to_hex (ms_signer m)) (bytes_to_hex signer)).

Definition verify_scond_rel (E : ecdsa) (c : scond) (hash : bytes) (typ : byte) : res tx_err bytes :=
  match c with SStd s => verify_std E s hash typ | SMulti m => verify_multi_rel E m hash typ end.

(** auth.rs:504-512: the [u16] counter starts again from 0. *)
Fixpoint count_sigs_rel (fields : list auth_field) (count : N) : N :=
  match fields with
  | [] => count
  | FPk _ :: r => count_sigs_rel r count
  | FSig _ :: r => count_sigs_rel r ((count + 1) mod 65536)
  end.

(** auth.rs:317-319 and 504-512 [signatures]. *)
Definition signatures_rel (c : scond) : N :=
  match c with
  | SStd s => if bytes_eqb (std_sig s) sig_default then 0 else 1
  | SMulti m => count_sigs_rel (ms_fields m) 0
  end.

(** auth.rs:88-99 [Auth::verify]. *)
Definition auth_verify_rel (E : ecdsa) (a : auth) (hash : bytes) : res tx_err unit :=
  match a with
  | ASponsored o s =>
    let* h := verify_scond_rel E o hash auth_type_standard in
    let* _ := verify_scond_rel E s h auth_type_sponsored in
    Ok tt
  | AStandard _ => Ok tt
  end.

(** auth.rs:102-111 [Auth::verify_origin] and base.rs:108-110 [verify_origin]. *)
Definition tx_verify_origin_rel (E : ecdsa) (t : tx) : res tx_err bytes :=
  let* h := initial_hash t in verify_scond_rel E (auth_origin (tx_auth t)) h auth_type_standard.

(** signer.rs:47-66 [new_sponser]. *)
Definition signer_new_sponsor_rel (E : ecdsa) (t : tx) (sponsor : scond) : res tx_err signer :=
  if negb (is_sponsored (tx_auth t)) then Err TxBadModification
  else
    let '(a, r) := auth_set_sponsor (tx_auth t) sponsor in
    let* _ := r in
    let t' := tx_with_auth t a in
    let* h := tx_verify_origin_rel E t' in
    let* s := signer_new t' in
    Ok {| sg_tx := sg_tx s; sg_hash := h; sg_origin_signed := true;
          sg_oversign := true; sg_overlap := true |}.

(** signer.rs:69-82 [sign_origin]: the signer after the call, and the result. *)
Definition sign_origin_rel (E : ecdsa) (s : signer) (sk : bytes) : signer * res tx_err unit :=
  if sg_overlap s && sg_origin_signed s then (s, Err TxOriginPostSponsorSign)
  else
    let o := auth_origin (tx_auth (sg_tx s)) in
    if sg_oversign s && (req_signatures o <=? signatures_rel o) then (s, Err TxOriginOversign)
    else
      let '(t, r) := sign_next_origin E (sg_tx s) (sg_hash s) sk in
      match r with
      | Ok h => ({| sg_tx := t; sg_hash := h; sg_origin_signed := sg_origin_signed s;
                    sg_oversign := sg_oversign s; sg_overlap := sg_overlap s |}, Ok tt)
      | Err e => ({| sg_tx := t; sg_hash := sg_hash s; sg_origin_signed := sg_origin_signed s;
                     sg_oversign := sg_oversign s; sg_overlap := sg_overlap s |}, Err e)
      | Panic p => (s, Panic p)
      | NoFuel => (s, NoFuel)
      end.

(** signer.rs:85-96 [sign_sponsor]. *)
Definition sign_sponsor_rel (E : ecdsa) (s : signer) (sk : bytes) : signer * res tx_err unit :=
  match auth_sponsor (tx_auth (sg_tx s)) with
  | Ok sp =>
    if sg_oversign s && (req_signatures sp <=? signatures_rel sp) then (s, Err TxSponsorOversign)
    else
      let '(t, r) := sign_next_sponsor E (sg_tx s) (sg_hash s) sk in
      match r with
      | Ok h => ({| sg_tx := t; sg_hash := h; sg_origin_signed := true;
                    sg_oversign := sg_oversign s; sg_overlap := sg_overlap s |}, Ok tt)
      | Err e => ({| sg_tx := t; sg_hash := sg_hash s; sg_origin_signed := sg_origin_signed s;
                     sg_oversign := sg_oversign s; sg_overlap := sg_overlap s |}, Err e)
      | Panic p => (s, Panic p)
      | NoFuel => (s, NoFuel)
      end
  | Err e => (s, Err e)
  | Panic p => (s, Panic p)
  | NoFuel => (s, NoFuel)
  end.

(** base.rs:85-89 [Transaction::sign]. *)
Definition tx_sign_rel (E : ecdsa) (t : tx) (sk : bytes) : res tx_err tx :=
  let* s := signer_new t in
  let '(s', r) := sign_origin_rel E s sk in
  let* _ := r in
  Ok (sg_tx s').

(** b58.rs:169-194 [base58check_decode]; below 4 bytes [buff_max - 4] wraps around to an index past the end,
    and the range [1..buff_max - 4] is invalid for exactly 4. *)
Definition base58check_decode_rel (s : bytes) : res b58_err (bytes * byte) :=
  let* buff := b58_decode s in
  let n := length buff in
  if Nat.ltb (n - 4) 1 then Panic PIndex
  else
    let sum := skipn (n - 4) buff in
    let data := skipn 1 (firstn (n - 4) buff) in
    let computed := dsha256 (firstn (n - 4) buff) in
    if bytes_eqb sum (firstn 4 computed) then
      let* v := index 0 buff in Ok (data, v)
    else Err (B58BadChecksum sum computed).
