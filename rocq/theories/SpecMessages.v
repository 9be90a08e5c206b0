(** Specification of error texts: a text read as a sequence of fixed wording and printed data. *)

From Verif Require Import Base SpecUtf8 SpecShow.
Local Open Scope N_scope.

(** Byte lists as programmers write them: decimal numbers, a comma and a space between them, in square brackets. *)
Fixpoint comma_separated (l : list bytes) : bytes :=
  match l with
  | [] => []
  | [t] => t
  | t :: r => t ++ [x2c; x20] ++ comma_separated r
  end.
Definition byte_list (b s : bytes) : Prop :=
  exists ts, Forall2 (fun c t => decimal (Byte.to_N c) t) b ts /\ s = [x5b] ++ comma_separated ts ++ [x5d].

Inductive part :=
| Says (s : bytes)      (* fixed wording, or a text quoted as it is *)
| Number (n : N)        (* a decimal number *)
| Bytes (b : bytes)     (* a byte list *)
| Letter (c : N).       (* a Unicode character *)

Fixpoint reads (l : list part) (s : bytes) : Prop :=
  match l with
  | [] => s = []
  | Says t :: r => exists s', s = t ++ s' /\ reads r s'
  | Number n :: r => exists t s', s = t ++ s' /\ decimal n t /\ reads r s'
  | Bytes b :: r => exists t s', s = t ++ s' /\ byte_list b t /\ reads r s'
  | Letter c :: r => exists s', s = utf8_text c ++ s' /\ reads r s'
  end.

(** The operation fails with an error whose message reads [l]; with an error without a text of its own. *)
Definition fails_with {E A} (msg : E -> option bytes) (r : res E A) (l : list part) : Prop :=
  exists e m, r = Err e /\ msg e = Some m /\ reads l m.
