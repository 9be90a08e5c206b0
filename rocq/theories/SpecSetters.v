(** What calling setters in some order asks for, field by field. *)

From Coq Require Import Strings.String.
From Verif Require Import Base Hash C32 Clarity Tx Builder Setters.
Local Open Scope string_scope.
Local Open Scope list_scope.
Local Open Scope N_scope.

(** The value given for a field, or its default if there is none. *)
Definition given {A C} (set : A -> C) (l : list C) (x : A) : Prop := In (set x) l.
Definition given_or {A C} (set : A -> C) (d : A) (l : list C) (x : A) : Prop := In (set x) l \/ (x = d /\ forall y, ~ In (set y) l).

(** The names of the setters, the transfer or call that is described, the fields without a default. *)
Definition transfer_name (c : transfer_setter) : String.string :=
  match c with
  | SetTRecipient _ => "recipient" | SetTAmount _ => "amount" | SetTSender _ => "sender" | SetTNetwork _ => "network"
  | SetTFee _ => "fee" | SetTNonce _ => "nonce" | SetTAnchor _ => "anchor_mode" | SetTMemo _ => "memo"
  | SetTMode _ => "post_condition_mode" | SetTConds _ => "post_conditions" | SetTSponsored _ => "sponsored"
  end.
Definition transfer_of (l : list transfer_setter) (b : stx_transfer) : Prop :=
  given SetTRecipient l (st_recipient b) /\ given SetTAmount l (st_amount b) /\ given SetTSender l (st_sender b) /\
  given SetTNetwork l (st_network b) /\ given_or SetTFee 0 l (st_fee b) /\ given_or SetTNonce 0 l (st_nonce b) /\
  given_or SetTAnchor AnAny l (st_anchor b) /\ given_or SetTMemo [] l (st_memo b) /\
  given_or SetTMode PcAllow l (st_pcmode b) /\ given_or SetTConds [] l (st_conds b) /\
  given_or SetTSponsored false l (st_sponsored b).
Definition transfer_required : list String.string := ["recipient"; "amount"; "sender"; "network"].

Definition call_name (c : call_setter) : String.string :=
  match c with
  | SetCAddress _ => "address" | SetCContract _ => "contract" | SetCFnName _ => "fn_name" | SetCFnArgs _ => "fn_args"
  | SetCSender _ => "sender" | SetCNetwork _ => "network" | SetCFee _ => "fee" | SetCNonce _ => "nonce"
  | SetCAnchor _ => "anchor_mode" | SetCMode _ => "post_condition_mode" | SetCConds _ => "post_conditions"
  | SetCSponsored _ => "sponsored"
  end.
Definition call_of (l : list call_setter) (b : stx_call) : Prop :=
  given SetCAddress l (cc_address b) /\ given SetCContract l (cc_contract b) /\ given SetCFnName l (cc_fname b) /\
  given SetCFnArgs l (cc_args b) /\ given SetCSender l (cc_sender b) /\ given SetCNetwork l (cc_network b) /\
  given_or SetCFee 0 l (cc_fee b) /\ given_or SetCNonce 0 l (cc_nonce b) /\ given_or SetCAnchor AnAny l (cc_anchor b) /\
  given_or SetCMode PcAllow l (cc_pcmode b) /\ given_or SetCConds [] l (cc_conds b) /\
  given_or SetCSponsored false l (cc_sponsored b).
Definition call_required : list String.string := ["address"; "contract"; "fn_name"; "fn_args"; "sender"; "network"].
