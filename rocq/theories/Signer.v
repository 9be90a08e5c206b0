(** Model of stacks/src/transaction/signer.rs, and base.rs:85-89 [Transaction::sign]. *)

From Verif Require Import Base Hash C32 Clarity Tx.
Local Open Scope N_scope.

(** signer.rs:19-30 [TransactionSigner]. *)
Record signer := {
  sg_tx : tx; sg_hash : bytes; sg_origin_signed : bool;
  sg_oversign : bool; sg_overlap : bool }.

(** signer.rs:34-44 [new]. *)
Definition signer_new (t : tx) : res tx_err signer :=
  let* h := initial_hash t in
  Ok {| sg_tx := t; sg_hash := h; sg_origin_signed := false;
        sg_oversign := true; sg_overlap := true |}.

(** signer.rs:47-66 [new_sponser]. *)
Definition signer_new_sponsor (E : ecdsa) (t : tx) (sponsor : scond) : res tx_err signer :=
  if negb (is_sponsored (tx_auth t)) then Err TxBadModification
  else
    let '(a, r) := auth_set_sponsor (tx_auth t) sponsor in
    let* _ := r in
    let t' := tx_with_auth t a in
    let* h := tx_verify_origin E t' in
    let* s := signer_new t' in
    Ok {| sg_tx := sg_tx s; sg_hash := h; sg_origin_signed := true;
          sg_oversign := true; sg_overlap := true |}.

(** signer.rs:69-82 [sign_origin]: the signer after the call, and the result. *)
Definition sign_origin (E : ecdsa) (s : signer) (sk : bytes) : signer * res tx_err unit :=
  if sg_overlap s && sg_origin_signed s then (s, Err TxOriginPostSponsorSign)
  else
    let o := auth_origin (tx_auth (sg_tx s)) in
    let over :=
      if sg_oversign s then
        let* n := signatures o in Ok (req_signatures o <=? n)
      else Ok false in
    match over with
    | Ok true => (s, Err TxOriginOversign)
    | Ok false =>
      let '(t, r) := sign_next_origin E (sg_tx s) (sg_hash s) sk in
      match r with
      | Ok h => ({| sg_tx := t; sg_hash := h; sg_origin_signed := sg_origin_signed s;
                    sg_oversign := sg_oversign s; sg_overlap := sg_overlap s |}, Ok tt)
      | Err e => ({| sg_tx := t; sg_hash := sg_hash s; sg_origin_signed := sg_origin_signed s;
                     sg_oversign := sg_oversign s; sg_overlap := sg_overlap s |}, Err e)
      | Panic p => (s, Panic p)
      | NoFuel => (s, NoFuel)
      end
    | Err e => (s, Err e)
    | Panic p => (s, Panic p)
    | NoFuel => (s, NoFuel)
    end.

(** signer.rs:85-96 [sign_sponsor]. *)
Definition sign_sponsor (E : ecdsa) (s : signer) (sk : bytes) : signer * res tx_err unit :=
  let over :=
    let* sp := auth_sponsor (tx_auth (sg_tx s)) in
    if sg_oversign s then
      let* n := signatures sp in Ok (req_signatures sp <=? n)
    else Ok false in
  match over with
  | Ok true => (s, Err TxSponsorOversign)
  | Ok false =>
    let '(t, r) := sign_next_sponsor E (sg_tx s) (sg_hash s) sk in
    match r with
    | Ok h => ({| sg_tx := t; sg_hash := h; sg_origin_signed := true;
                  sg_oversign := sg_oversign s; sg_overlap := sg_overlap s |}, Ok tt)
    | Err e => ({| sg_tx := t; sg_hash := sg_hash s; sg_origin_signed := sg_origin_signed s;
                   sg_oversign := sg_oversign s; sg_overlap := sg_overlap s |}, Err e)
    | Panic p => (s, Panic p)
    | NoFuel => (s, NoFuel)
    end
  | Err e => (s, Err e)
  | Panic p => (s, Panic p)
  | NoFuel => (s, NoFuel)
  end.

(** signer.rs:99-105 [append_origin]. *)
Definition append_origin (s : signer) (pk : bytes) : signer * res tx_err unit :=
  if sg_overlap s && sg_origin_signed s then (s, Err TxOriginPostSponsorAppend)
  else
    let '(t, r) := append_next_origin (sg_tx s) pk in
    ({| sg_tx := t; sg_hash := sg_hash s; sg_origin_signed := sg_origin_signed s;
        sg_oversign := sg_oversign s; sg_overlap := sg_overlap s |}, r).

(** base.rs:85-89 [Transaction::sign]. *)
Definition tx_sign (E : ecdsa) (t : tx) (sk : bytes) : res tx_err tx :=
  let* s := signer_new t in
  let '(s', r) := sign_origin E s sk in
  let* _ := r in
  Ok (sg_tx s').
