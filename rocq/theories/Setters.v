(** Model of the setters that the crate [typed_builder] generates for the two builders (builder.rs:28-73, 104-150).

    [X::builder()] is a builder with nothing set; a setter exists for a field that is not yet set, [build] if all fields without a
    default are set.  Where one does not exist the program does not compile, here [None].  Conversions ([setter(into)]) from other
    text types keep the text. *)

From Coq Require Import Strings.String.
From Verif Require Import Base Hash C32 Clarity Tx Builder.
Local Open Scope N_scope.

Definition is_set {A} (o : option A) : bool := match o with None => false | Some _ => true end.
Definition or_else {A} (o : option A) (d : A) : A := match o with None => d | Some x => x end.
Fixpoint set_all {B C} (set : B -> C -> option B) (l : list C) (b : B) : option B :=
  match l with [] => Some b | c :: r => match set b c with Some b' => set_all set r b' | None => None end end.

(** ** STXTokenTransfer *)

(** A call of a setter. *)
Inductive transfer_setter :=
  | SetTRecipient (x : cval) | SetTAmount (x : N) | SetTSender (x : bytes) | SetTNetwork (x : network) | SetTFee (x : N)
  | SetTNonce (x : N) | SetTAnchor (x : anchor_mode) | SetTMemo (x : bytes) | SetTMode (x : pc_mode)
  | SetTConds (x : list condition) | SetTSponsored (x : bool).
(** What is set. *)
Record transfer_builder := {
  tb_recipient : option cval; tb_amount : option N; tb_sender : option bytes; tb_network : option network; tb_fee : option N;
  tb_nonce : option N; tb_anchor_mode : option anchor_mode; tb_memo : option bytes; tb_post_condition_mode : option pc_mode;
  tb_post_conditions : option (list condition); tb_sponsored : option bool }.
Definition transfer_new : transfer_builder :=
  {| tb_recipient := None; tb_amount := None; tb_sender := None; tb_network := None; tb_fee := None; tb_nonce := None;
     tb_anchor_mode := None; tb_memo := None; tb_post_condition_mode := None; tb_post_conditions := None; tb_sponsored := None |}.
(** The setters: one that was called before does not exist any more. *)
Definition transfer_has (b : transfer_builder) (c : transfer_setter) : bool :=
  match c with
  | SetTRecipient _ => is_set (tb_recipient b) | SetTAmount _ => is_set (tb_amount b) | SetTSender _ => is_set (tb_sender b)
  | SetTNetwork _ => is_set (tb_network b) | SetTFee _ => is_set (tb_fee b) | SetTNonce _ => is_set (tb_nonce b)
  | SetTAnchor _ => is_set (tb_anchor_mode b) | SetTMemo _ => is_set (tb_memo b)
  | SetTMode _ => is_set (tb_post_condition_mode b) | SetTConds _ => is_set (tb_post_conditions b)
  | SetTSponsored _ => is_set (tb_sponsored b)
  end.
Definition transfer_set (b : transfer_builder) (c : transfer_setter) : option transfer_builder :=
  if transfer_has b c then None
  else Some {|
    tb_recipient := match c with SetTRecipient x => Some x | _ => tb_recipient b end;
    tb_amount := match c with SetTAmount x => Some x | _ => tb_amount b end;
    tb_sender := match c with SetTSender x => Some x | _ => tb_sender b end;
    tb_network := match c with SetTNetwork x => Some x | _ => tb_network b end;
    tb_fee := match c with SetTFee x => Some x | _ => tb_fee b end;
    tb_nonce := match c with SetTNonce x => Some x | _ => tb_nonce b end;
    tb_anchor_mode := match c with SetTAnchor x => Some x | _ => tb_anchor_mode b end;
    tb_memo := match c with SetTMemo x => Some x | _ => tb_memo b end;
    tb_post_condition_mode := match c with SetTMode x => Some x | _ => tb_post_condition_mode b end;
    tb_post_conditions := match c with SetTConds x => Some x | _ => tb_post_conditions b end;
    tb_sponsored := match c with SetTSponsored x => Some x | _ => tb_sponsored b end |}.
(** builder.rs:42-72: the defaults. *)
Definition transfer_build (b : transfer_builder) : option stx_transfer :=
  match tb_recipient b, tb_amount b, tb_sender b, tb_network b with
  | Some x0, Some x1, Some x2, Some x3 =>
    Some {| st_recipient := x0; st_amount := x1; st_sender := x2; st_network := x3; st_fee := or_else (tb_fee b) 0;
      st_nonce := or_else (tb_nonce b) 0; st_anchor := or_else (tb_anchor_mode b) AnAny; st_memo := or_else (tb_memo b) [];
      st_pcmode := or_else (tb_post_condition_mode b) PcAllow; st_conds := or_else (tb_post_conditions b) [];
      st_sponsored := or_else (tb_sponsored b) false |}
  | _, _, _, _ => None
  end.
(** The builder after calls in order, and [build]. *)
Definition transfer_with (l : list transfer_setter) : option stx_transfer :=
  match set_all transfer_set l transfer_new with Some b => transfer_build b | None => None end.

(** ** STXContractCall *)

(** A call of a setter. *)
Inductive call_setter :=
  | SetCAddress (x : bytes) | SetCContract (x : bytes) | SetCFnName (x : bytes) | SetCFnArgs (x : list cval)
  | SetCSender (x : bytes) | SetCNetwork (x : network) | SetCFee (x : N) | SetCNonce (x : N) | SetCAnchor (x : anchor_mode)
  | SetCMode (x : pc_mode) | SetCConds (x : list condition) | SetCSponsored (x : bool).
(** What is set. *)
Record call_builder := {
  cb_address : option bytes; cb_contract : option bytes; cb_fn_name : option bytes; cb_fn_args : option (list cval);
  cb_sender : option bytes; cb_network : option network; cb_fee : option N; cb_nonce : option N;
  cb_anchor_mode : option anchor_mode; cb_post_condition_mode : option pc_mode; cb_post_conditions : option (list condition);
  cb_sponsored : option bool }.
Definition call_new : call_builder :=
  {| cb_address := None; cb_contract := None; cb_fn_name := None; cb_fn_args := None; cb_sender := None; cb_network := None;
     cb_fee := None; cb_nonce := None; cb_anchor_mode := None; cb_post_condition_mode := None; cb_post_conditions := None;
     cb_sponsored := None |}.
(** The setters: one that was called before does not exist any more. *)
Definition call_has (b : call_builder) (c : call_setter) : bool :=
  match c with
  | SetCAddress _ => is_set (cb_address b) | SetCContract _ => is_set (cb_contract b) | SetCFnName _ => is_set (cb_fn_name b)
  | SetCFnArgs _ => is_set (cb_fn_args b) | SetCSender _ => is_set (cb_sender b) | SetCNetwork _ => is_set (cb_network b)
  | SetCFee _ => is_set (cb_fee b) | SetCNonce _ => is_set (cb_nonce b) | SetCAnchor _ => is_set (cb_anchor_mode b)
  | SetCMode _ => is_set (cb_post_condition_mode b) | SetCConds _ => is_set (cb_post_conditions b)
  | SetCSponsored _ => is_set (cb_sponsored b)
  end.
Definition call_set (b : call_builder) (c : call_setter) : option call_builder :=
  if call_has b c then None
  else Some {|
    cb_address := match c with SetCAddress x => Some x | _ => cb_address b end;
    cb_contract := match c with SetCContract x => Some x | _ => cb_contract b end;
    cb_fn_name := match c with SetCFnName x => Some x | _ => cb_fn_name b end;
    cb_fn_args := match c with SetCFnArgs x => Some x | _ => cb_fn_args b end;
    cb_sender := match c with SetCSender x => Some x | _ => cb_sender b end;
    cb_network := match c with SetCNetwork x => Some x | _ => cb_network b end;
    cb_fee := match c with SetCFee x => Some x | _ => cb_fee b end;
    cb_nonce := match c with SetCNonce x => Some x | _ => cb_nonce b end;
    cb_anchor_mode := match c with SetCAnchor x => Some x | _ => cb_anchor_mode b end;
    cb_post_condition_mode := match c with SetCMode x => Some x | _ => cb_post_condition_mode b end;
    cb_post_conditions := match c with SetCConds x => Some x | _ => cb_post_conditions b end;
    cb_sponsored := match c with SetCSponsored x => Some x | _ => cb_sponsored b end |}.
(** builder.rs:123-149: the defaults. *)
Definition call_build (b : call_builder) : option stx_call :=
  match cb_address b, cb_contract b, cb_fn_name b, cb_fn_args b, cb_sender b, cb_network b with
  | Some x0, Some x1, Some x2, Some x3, Some x4, Some x5 =>
    Some {| cc_address := x0; cc_contract := x1; cc_fname := x2; cc_args := x3; cc_sender := x4; cc_network := x5;
      cc_fee := or_else (cb_fee b) 0; cc_nonce := or_else (cb_nonce b) 0; cc_anchor := or_else (cb_anchor_mode b) AnAny;
      cc_pcmode := or_else (cb_post_condition_mode b) PcAllow; cc_conds := or_else (cb_post_conditions b) [];
      cc_sponsored := or_else (cb_sponsored b) false |}
  | _, _, _, _, _, _ => None
  end.
(** The builder after calls in order, and [build]. *)
Definition call_with (l : list call_setter) : option stx_call :=
  match set_all call_set l call_new with Some b => call_build b | None => None end.
