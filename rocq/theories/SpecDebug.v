(** Values, post-conditions and builders whose texts can be told apart. *)

From Verif Require Import Base SpecText SpecAddr Clarity SpecWire SpecShow Tx Builder.
Local Open Scope N_scope.

(** No closing parenthesis (0x29). *)
Definition closed_text (s : bytes) : Prop := ~ In x29 s.

(** Debug texts: strings and names without closing parenthesis, no colon (0x3a) in keys, no dot (0x2e) in addresses;
    what is inside [some] is shown by its display text. *)
Fixpoint tidy (c : cval) : Prop :=
  match c with
  | CPrinStd s | CAscii s | CUtf8 s | CLps s => closed_text s
  | CPrinCon a n => closed_text a /\ closed_text n /\ ~ In x2e a
  | CRespOk x | CRespErr x => tidy x
  | CSome x => clean x
  | CList l | CFnArgs l => every tidy l
  | CTuple l => every (fun kv => closed_text (fst kv) /\ ~ In x3a (fst kv) /\ tidy (snd kv)) l
  | _ => True
  end.

Definition tidy_asset (i : asset_info) : Prop :=
  closed_text (ai_addr i) /\ closed_text (ai_contract i) /\ closed_text (ai_asset i).
Definition tidy_cond (c : condition) : Prop :=
  match c with
  | CondSTX a _ _ => tidy a
  | CondFT a _ _ i => tidy a /\ tidy_asset i
  | CondNFT a v _ i => tidy a /\ tidy v /\ tidy_asset i
  end.
