(** Specification of structs filled from a contract's answer: what the fields hold, said of the tuple on the wire.  No reference to
    the decoder, to the reader of structs or to the library's own tuples. *)

From Verif Require Import Base Clarity SpecWire SpecShow Derive.

(** Every tuple in the value has distinct keys, as Clarity's tuples have. *)
Definition keys1 (w : wval) : Prop := match w with WTuple l => NoDup (map fst l) | _ => True end.
Definition keyed (w : wval) : Prop := wall keys1 w.

(** The text of a value on the wire: how Clarity writes it, with addresses in their one canonical text. *)
Definition text_of (w : wval) (s : bytes) : Prop := exists c, canonically_means c w /\ shows c s.

(** Field [x] of type [ft] and key [k] says what the tuple with entries [l] says. *)
Fixpoint holds (l : list (bytes * wval)) (k : bytes) (ft : fty) (x : fval) : Prop :=
  match ft, x with
  | FI128, VI128 z => In (k, WInt z) l
  | FI128Resp, VI128 z => In (k, WOk (WInt z)) l
  | FU128, VU128 n => In (k, WUInt n) l
  | FU128Resp, VU128 n => In (k, WOk (WUInt n)) l
  | FBool, VBool b => In (k, if b then WTrue else WFalse) l
  | FString, VString s => exists w, In (k, w) l /\ text_of w s
  | FVecU8, VBytes b => In (k, WBuf b) l
  | FVecString, VStrings ss => exists ws, In (k, WList ws) l /\ every2 text_of ws ss
  | FOptI128, VOptI (Some z) => In (k, WSome (WInt z)) l
  | FOptI128, VOptI None => exists w, In (k, w) l /\ forall z, w <> WSome (WInt z)
  | FOptU128, VOptU (Some n) => In (k, WSome (WUInt n)) l
  | FOptU128, VOptU None => exists w, In (k, w) l /\ forall n, w <> WSome (WUInt n)
  | FOptString, VOptS (Some s) => exists w, In (k, WSome w) l /\ text_of w s
  | FOptString, VOptS None => forall w, ~ In (k, WSome w) l
  | FStruct _ fields, VStruct xs =>
    exists l', In (k, WTuple l') l /\ every2 (fun f y => holds l' (fst f) (snd f) y) fields xs
  | _, _ => False
  end.
Definition holds_all (l : list (bytes * wval)) (fields : list (bytes * fty)) (xs : list fval) : Prop :=
  every2 (fun f y => holds l (fst f) (snd f) y) fields xs.

(** Field types whose value tells the value on the wire. *)
Definition telling (ft : fty) : bool :=
  match ft with FI128 | FI128Resp | FU128 | FU128Resp | FBool | FVecU8 => true | _ => false end.
