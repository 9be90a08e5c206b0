(** The [clarity!] and [post_condition!] macros. *)

From Coq Require Import Strings.String.
From Verif Require Import Base Clarity Tx Macro SpecMacro MacroThms.
Local Open Scope string_scope.
Local Open Scope list_scope.

(** ** C76 *)
Theorem C76_exact : forall name args v, clarity_macro (call name args) = Some v <-> builds name args v.
Proof. exact macro_exact. Qed.
Print Assumptions C76_exact.

Theorem C76_every_value : forall v, written v.
Proof. exact every_written. Qed.
Print Assumptions C76_every_value.

(** Finding: the empty buffer has no call of its own, unlike the empty list, tuple and argument list. *)
Theorem C76_empty_buffer : (forall v, ~ builds (str "Buffer") [] v) /\ clarity_macro (call (str "Buffer") []) = None
  /\ clarity_macro (call (str "List") []) = Some (CList []) /\ clarity_macro (call (str "Tuple") []) = Some (CTuple [])
  /\ clarity_macro (call (str "FnArguments") []) = Some (CFnArgs []).
Proof. split; [|repeat split; reflexivity]. intros v B. apply macro_exact in B. discriminate. Qed.
Print Assumptions C76_empty_buffer.

(** Every condition given is in the list, in the order given. *)
Theorem C76_conditions : forall groups cs, post_conditions groups = Some cs <-> Forall2 condition_of groups cs.
Proof.
  intros groups cs. unfold post_conditions. rewrite push_conditions_iff. split; [intros (l & F & ->); exact F | eauto].
Qed.
Print Assumptions C76_conditions.

Example C76_ex :
  clarity_macro (call (str "Tuple") [RPair (RText (str "a")) (RVal (CInt (-1))); RPair (RText (str "b")) (RVal CNone)])
    = Some (CTuple [(str "a", CInt (-1)); (str "b", CNone)])
  /\ clarity_macro (call (str "StringAscii") [RVal (CList [CUInt 5; CTrue])]) = Some (CAscii (str "(list u5 true)"))
  /\ clarity_macro (call (str "Int") [RUInt 1]) = None
  /\ clarity_macro (call (str "True") [RInt 1]) = None
  /\ post_conditions [(str "STXCondition", [AVal CNone; AAmount 5; ACode CcGT]); (str "STXCondition", [AVal CTrue; AAmount 6; ACode CcEQ])]
     = Some [CondSTX CNone 5 CcGT; CondSTX CTrue 6 CcEQ].
Proof. repeat split; vm_compute; reflexivity. Qed.
