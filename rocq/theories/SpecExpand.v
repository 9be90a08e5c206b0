(** Specification of [#[derive(FromTuple)]]: the meaning of a field from its type as written.  Literal type
    names; no reference to the macro's tests. *)

From Coq Require Import Strings.String.
From Verif Require Import Base Clarity Derive Expand.

(** The type written as the single word [n]. *)
Definition word (n : string) : rust_ty := RPath false [(str n, ANone)].

(** The type written as a path ending in [n<a>]. *)
Definition generic (lead : bool) (before : list (bytes * path_args)) (n a : string) : rust_ty :=
  RPath lead (before ++ [(str n, AAngle (str a))]).

(** The single words that are not struct names. *)
Definition builtin (n : bytes) : Prop := In n (map str ["i128"; "u128"; "bool"; "String"]%string).

(** A field with [response] attribute [r] and type as written is read as [k]. *)
Inductive declared : option bool -> rust_ty -> kind -> Prop :=
| d_i128 r : r <> Some true -> declared r (word "i128") KI128
| d_i128_response : declared (Some true) (word "i128") KI128Resp
| d_u128 r : r <> Some true -> declared r (word "u128") KU128
| d_u128_response : declared (Some true) (word "u128") KU128Resp
| d_bool r : declared r (word "bool") KBool
| d_string r : declared r (word "String") KString
| d_buffer r lead before : declared r (generic lead before "Vec" "u8") KVecU8
| d_strings r lead before : declared r (generic lead before "Vec" "String") KVecString
| d_opt_i128 r lead before : declared r (generic lead before "Option" "i128") KOptI128
| d_opt_u128 r lead before : declared r (generic lead before "Option" "u128") KOptU128
| d_opt_string r lead before : declared r (generic lead before "Option" "String") KOptString
| d_nested r lead before n : (lead = false -> before = [] -> ~ builtin n) ->
    declared r (RPath lead (before ++ [(n, ANone)])) (KNested n).

(** The error for a type that is not declared as anything. *)
Definition type_error (t : rust_ty) : expand_err := match t with RPath _ _ => XPath | ROther => XOther end.

(** One field of the struct, as (name, key, kind). *)
Definition field_of (f : field_recv) (x : bytes * bytes * kind) : Prop :=
  fr_ident f = Some (fst (fst x)) /\ fr_key f = Some (snd (fst x)) /\ declared (fr_response f) (fr_ty f) (snd x).

Definition nameless (f : field_recv) : Prop := fr_ident f = None \/ fr_key f = None.

(** Kind [k] in a scope of structs, as a field type of C50. *)
Inductive resolves (sc : scope) : kind -> fty -> Prop :=
| rs_i128 : resolves sc KI128 FI128
| rs_i128_response : resolves sc KI128Resp FI128Resp
| rs_u128 : resolves sc KU128 FU128
| rs_u128_response : resolves sc KU128Resp FU128Resp
| rs_bool : resolves sc KBool FBool
| rs_string : resolves sc KString FString
| rs_buffer : resolves sc KVecU8 FVecU8
| rs_strings : resolves sc KVecString FVecString
| rs_opt_i128 : resolves sc KOptI128 FOptI128
| rs_opt_u128 : resolves sc KOptU128 FOptU128
| rs_opt_string : resolves sc KOptString FOptString
| rs_nested n fs : sc n = Some fs -> resolves sc (KNested n) (FStruct n fs).

(** The written field is filled from the key and with the type of [x]. *)
Definition reads (sc : scope) (f : field_recv) (x : bytes * fty) : Prop :=
  fr_ident f <> None /\ fr_key f = Some (fst x)
  /\ exists k, declared (fr_response f) (fr_ty f) k /\ resolves sc k (snd x).
