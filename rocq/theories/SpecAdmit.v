(** Specification of what a node asks of the names and Clarity values of a transaction beyond their layout (SIP-002,
    SIP-005): the grammar of names, distinct tuple keys, printable ASCII strings, lists of one type, principals as
    recipients, condition codes that fit the asset.  Stated on the wire format, without reference to the library.
    Limits on the depth and size of values are not included. *)

From Coq Require Import Strings.String.
From Verif Require Import Base Sha2 SpecText SpecWire Hash Tx SpecTx Builder SpecSign SpecNode.
Local Open Scope N_scope.

Definition letters : bytes := str "abcdefghijklmnopqrstuvwxyzABCDEFGHIJKLMNOPQRSTUVWXYZ"%string.
Definition digits : bytes := str "0123456789"%string.

(** A letter, then letters, digits and some marks; or an operator. *)
Definition clarity_name (s : bytes) : Prop :=
  (exists c r, s = c :: r /\ In c letters /\ Forall (fun x => In x (letters ++ digits ++ str "-_!?+<>=/*"%string)) r)
  \/ In s (map str ["-"; "+"; "="; "/"; "*"; "<"; ">"; "<="; ">="]%string).

(** A letter, then letters, digits, hyphens and underscores; or the reserved name. *)
Definition contract_name (s : bytes) : Prop :=
  (exists c r, s = c :: r /\ In c letters /\ Forall (fun x => In x (letters ++ digits ++ str "-_"%string)) r)
  \/ s = str "__transient"%string.

(** Graphic characters, space, tab, line feed, form feed, carriage return. *)
Definition printable (b : byte) : Prop := 33 <= Byte.to_N b <= 126 \/ In b [x20; x09; x0a; x0c; x0d].

(** Two values have a common type. *)
Fixpoint alike (v w : wval) {struct v} : Prop :=
  match v, w with
  | WInt _, WInt _ | WUInt _, WUInt _ | WBuf _, WBuf _ | WAscii _, WAscii _ | WUtf8 _, WUtf8 _ => True
  | (WTrue | WFalse), (WTrue | WFalse) => True
  | (WStd _ _ | WCon _ _ _), (WStd _ _ | WCon _ _ _) => True
  | WOk x, WOk y | WErr x, WErr y | WSome x, WSome y => alike x y
  | WOk _, WErr _ | WErr _, WOk _ | WNone, WSome _ | WSome _, WNone | WNone, WNone => True
  | WList l, WList m => every (fun x => every (alike x) m) l
  | WTuple l, WTuple m =>
    (forall k, In k (map fst l) <-> In k (map fst m))
    /\ every (fun kx => every (fun ky => fst kx = fst ky -> alike (snd kx) (snd ky)) m) l
  | _, _ => False
  end.

(** What is asked at each place of a value. *)
Definition admit1 (w : wval) : Prop :=
  match w with
  | WCon _ _ name => contract_name name
  | WTuple l => l <> [] /\ NoDup (map fst l) /\ Forall clarity_name (map fst l)
  | WList l => forall x y, In x l -> In y l -> alike x y
  | WAscii s => Forall printable s
  | _ => True
  end.
Definition admit_value (w : wval) : Prop := wall admit1 w.

Definition admit_asset (a : wasset) : Prop := contract_name (wa_contract a) /\ clarity_name (wa_name a).

(** Amounts are compared with codes 1 to 5, ownership with 16 and 17. *)
Definition admit_cond (c : wcond) : Prop :=
  match c with
  | WcSTX who code _ => admit_value who /\ In code [x01; x02; x03; x04; x05]
  | WcFT who a code _ => admit_value who /\ admit_asset a /\ In code [x01; x02; x03; x04; x05]
  | WcNFT who a name code => admit_value who /\ admit_asset a /\ admit_value name /\ In code [x10; x11]
  end.

Definition admit_payload (p : wpayload) : Prop :=
  match p with
  | WpTransfer to _ _ => is_principal to /\ admit_value to
  | WpCall _ _ contract fname args => contract_name contract /\ clarity_name fname /\ Forall admit_value args
  end.

Definition admit_tx (w : wtx) : Prop := Forall admit_cond (w_conds w) /\ admit_payload (w_payload w).

(** The checks of SpecNode.v and these. *)
Definition node_admits (E : ecdsa) (n : network) (b : bytes) : Prop :=
  exists w, b = ser_tx w /\ wf_tx w /\ node_network n w /\ node_auth E (sha512_256 (ser_tx (clear_tx w))) (w_auth w) /\ admit_tx w.
