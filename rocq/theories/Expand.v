(** Model of the expansion of [#[derive(FromTuple)]] (stacks_derive/src/from_tuple.rs): which structs the
    macro accepts and what each field is turned into.  A struct is given as syn and darling present it: name,
    and per field its name, the [key] and [response] attributes and its type.  Parsing of the tokens by syn
    and of the attributes by darling is not modelled; neither are generics, which are passed through
    (from_tuple.rs:263-264). *)

From Coq Require Import Strings.String.
From Verif Require Import Base Clarity Derive.

(** [syn::PathArguments]: none, [<..>] with the text [quote!(#args).to_string()], or [(..)]. *)
Inductive path_args := ANone | AAngle (text : bytes) | AParen.

(** [syn::Type]: a path, with leading [::] or not, and its segments; or another type (reference, array,
    tuple, ...).  A path parsed by syn has at least one segment. *)
Inductive rust_ty := RPath (leading : bool) (segs : list (bytes * path_args)) | ROther.

(** from_tuple.rs:33-67 [FieldRecv]. *)
Record field_recv := { fr_ident : option bytes; fr_key : option bytes; fr_response : option bool; fr_ty : rust_ty }.

(** from_tuple.rs:22-31 [InputRecv]: [None] for the fields of an enum. *)
Record input_recv := { in_ident : bytes; in_fields : option (list field_recv) }.

(** What the macro makes of a field: the code of from_tuple.rs:143-260. *)
Inductive kind :=
| KI128 | KI128Resp | KU128 | KU128Resp | KBool | KString | KVecU8 | KVecString
| KOptI128 | KOptU128 | KOptString
| KNested (name : bytes).                      (* [name::try_from] on the tuple under the key *)

(** from_tuple.rs:117-121, 125-130, 251-254, 256-259: the compile errors. *)
Inductive expand_err := XUnit | XUnnamed | XPath | XOther.

(** [syn::Path::is_ident]: no leading [::], one segment, without arguments. *)
Definition is_ident (leading : bool) (segs : list (bytes * path_args)) (name : bytes) : bool :=
  match leading, segs with
  | false, [(i, ANone)] => bytes_eqb i name
  | _, _ => false
  end.

(** from_tuple.rs:360-372 [__internal_parse_type_path]. *)
Definition parse_type_path (segs : list (bytes * path_args)) : option (bytes * option bytes) :=
  match rev segs with
  | (i, AAngle t) :: _ => Some (i, Some t)
  | (i, ANone) :: _ => Some (i, None)
  | _ => None
  end.

(** [field.response == Some(true)]. *)
Definition is_response (r : option bool) : bool := match r with Some b => b | None => false end.

(** from_tuple.rs:142-260: the [match &field.ty], top to bottom. *)
Definition select (r : option bool) (t : rust_ty) : res expand_err kind :=
  match t with
  | RPath lead segs =>
    if is_ident lead segs (str "i128"%string) then Ok (if is_response r then KI128Resp else KI128)
    else if is_ident lead segs (str "u128"%string) then Ok (if is_response r then KU128Resp else KU128)
    else if is_ident lead segs (str "bool"%string) then Ok KBool
    else if is_ident lead segs (str "String"%string) then Ok KString
    else
      match parse_type_path segs with
      | Some (i, Some a) =>
        if bytes_eqb i (str "Vec"%string) && bytes_eqb a (str "u8"%string) then Ok KVecU8
        else if bytes_eqb i (str "Vec"%string) && bytes_eqb a (str "String"%string) then Ok KVecString
        else if bytes_eqb i (str "Option"%string) && bytes_eqb a (str "i128"%string) then Ok KOptI128
        else if bytes_eqb i (str "Option"%string) && bytes_eqb a (str "u128"%string) then Ok KOptU128
        else if bytes_eqb i (str "Option"%string) && bytes_eqb a (str "String"%string) then Ok KOptString
        else Err XPath
      | Some (i, None) => Ok (KNested i)
      | None => Err XPath
      end
  | ROther => Err XOther
  end.

(** from_tuple.rs:133-262: the fields in order, the first unsupported type reported.  Name and key are
    present by then; a missing one would be an empty token stream. *)
Fixpoint expand_fields (l : list field_recv) : res expand_err (list (bytes * bytes * kind)) :=
  match l with
  | [] => Ok []
  | f :: r =>
    let* k := select (fr_response f) (fr_ty f) in
    let* ks := expand_fields r in
    match fr_ident f, fr_key f with
    | Some i, Some key => Ok ((i, key, k) :: ks)
    | _, _ => Panic PExplicit
    end
  end.

Definition unnamed (f : field_recv) : bool :=
  match fr_ident f, fr_key f with Some _, Some _ => false | _, _ => true end.

(** from_tuple.rs:106-279 [__impl]: the struct fields as (name, key, kind).  [expect] panics on enums
    (111-115). *)
Definition expand (inp : input_recv) : res expand_err (list (bytes * bytes * kind)) :=
  match in_fields inp with
  | None => Panic PExplicit
  | Some [] => Err XUnit
  | Some l => if existsb unnamed l then Err XUnnamed else expand_fields l
  end.

(** The structs in scope by name, each with its expanded fields: what rustc resolves [name::try_from] to. *)
Definition scope := bytes -> option (list (bytes * fty)).

Definition fty_of (sc : scope) (k : kind) : option fty :=
  match k with
  | KI128 => Some FI128 | KI128Resp => Some FI128Resp | KU128 => Some FU128 | KU128Resp => Some FU128Resp
  | KBool => Some FBool | KString => Some FString | KVecU8 => Some FVecU8 | KVecString => Some FVecString
  | KOptI128 => Some FOptI128 | KOptU128 => Some FOptU128 | KOptString => Some FOptString
  | KNested n => match sc n with Some fs => Some (FStruct n fs) | None => None end
  end.

Fixpoint ftys_of (sc : scope) (l : list (bytes * bytes * kind)) : option (list (bytes * fty)) :=
  match l with
  | [] => Some []
  | (_, key, k) :: r =>
    match fty_of sc k, ftys_of sc r with
    | Some f, Some fs => Some ((key, f) :: fs)
    | _, _ => None
    end
  end.

(** from_tuple.rs:263-278: the generated [try_from], [None] when the struct or the generated code is refused
    at compile time. *)
Definition derived_try_from (sc : scope) (inp : input_recv) : option (entries -> res de_err (list fval)) :=
  match expand inp with
  | Ok l =>
    match ftys_of sc l with
    | Some fs => Some (derive_fields (in_ident inp) fs)
    | None => None
    end
  | _ => None
  end.
