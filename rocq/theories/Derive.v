(** Model of the code generated by [#[derive(FromTuple)]] (stacks_derive/src/from_tuple.rs) and of
    stacks/src/derive.rs.  The parsing of the Rust struct by the macro is not modelled: a struct is
    given by its name and its fields (key attribute, field type), which is what the generated
    [try_from] depends on. *)

From Coq Require Import Strings.String.
From Verif Require Import Base Clarity.
Local Open Scope N_scope.

(** from_tuple.rs:143-260: the supported field types ([response] attribute folded in). *)
Inductive fty :=
| FI128 | FI128Resp | FU128 | FU128Resp | FBool | FString | FVecU8 | FVecString
| FOptI128 | FOptU128 | FOptString
| FStruct (name : bytes) (fields : list (bytes * fty)).

(** Values of the fields of the generated struct. *)
Inductive fval :=
| VI128 (z : Z) | VU128 (n : N) | VBool (b : bool) | VString (s : bytes) | VBytes (b : bytes)
| VStrings (l : list bytes) | VOptI (o : option Z) | VOptU (o : option N) | VOptS (o : option bytes)
| VStruct (l : list fval).

(** derive.rs:10-20 [Error]: key, type, ident. *)
Inductive de_err :=
| DeCast (key ty ident : bytes)
| DeExtract (key ident : bytes)
| DeMatch (key ident : bytes).

(** from_tuple.rs:281-290: [tuple.get(key).ok_or_else(|| Extract)]. *)
Definition extract (key ident : bytes) (t : entries) : res de_err cval :=
  match tuple_get key t with
  | Some v => Ok v
  | None => Err (DeExtract key ident)
  end.

(** from_tuple.rs:329-339: [.cast::<ty>().map_err(|_| Cast)]. *)
Definition de_cast (ty : cty) (tyname key ident : bytes) (v : cval) : res de_err cval :=
  match cast ty v with
  | Ok x => Ok x
  | _ => Err (DeCast key tyname ident)
  end.

(** [Int::into_value], [UInt::into_value], ... on a value already cast to that type; [None] on another
    constructor, which cannot happen after a successful [cast]. *)
Definition as_int (v : cval) : option Z := match v with CInt z => Some z | _ => None end.
Definition as_uint (v : cval) : option N := match v with CUInt n => Some n | _ => None end.
Definition as_buffer (v : cval) : option bytes := match v with CBuffer b => Some b | _ => None end.
Definition as_bool (v : cval) : option bool :=
  match v with CTrue => Some true | CFalse => Some false | _ => None end.
Definition as_list (v : cval) : option (list cval) := match v with CList l => Some l | _ => None end.
Definition as_tuple (v : cval) : option entries := match v with CTuple l => Some l | _ => None end.
Definition unwrap_resp (v : cval) : option cval := match v with CRespOk x => Some x | _ => None end.
Definition unwrap_some (v : cval) : option cval := match v with CSome x => Some x | _ => None end.

(** Continues with a projection that cannot fail. *)
Definition proj {A B} (o : option A) (k : A -> res de_err B) : res de_err B :=
  match o with Some a => k a | None => Panic PExplicit end.

(** from_tuple.rs:292-327 [if value.as_any().is::<T>() { value.cast::<T>().. } .. else Err(Match)],
    for the list [tys] of accepted types. *)
Definition if_chain (tys : list cty) (key ident : bytes) (v : cval) : res de_err cval :=
  if existsb (fun t => if cty_eq_dec (type_of v) t then true else false) tys
  then Ok v else Err (DeMatch key ident).

(** from_tuple.rs:341-354 [__internal_derive_option]: any failing cast becomes [None]. *)
Definition derive_option {A} (ty : cty) (pr : cval -> option A) (v : cval) : option A :=
  match cast TSome v with
  | Ok s => match cast_inner ty s with
            | Some (Ok x) => pr x
            | _ => None
            end
  | _ => None
  end.

(** from_tuple.rs:143-260: one field of the struct [sname]. *)
Fixpoint derive_field (sname key : bytes) (ft : fty) (t : entries) : res de_err fval :=
  match ft with
  | FI128 =>                                                                  (* 155-158 *)
    let* v := extract key sname t in
    let* v := if_chain [TInt] key sname v in
    proj (as_int v) (fun z => Ok (VI128 z))
  | FI128Resp =>                                                              (* 146-154 *)
    let* v := extract key sname t in
    let* r := de_cast TRespOk (str "ResponseOk"%string) key sname v in
    proj (unwrap_resp r) (fun x =>
    let* i := de_cast TInt (str "Int"%string) key sname x in
    proj (as_int i) (fun z => Ok (VI128 z)))
  | FU128 =>                                                                  (* 172-175 *)
    let* v := extract key sname t in
    let* v := if_chain [TUInt] key sname v in
    proj (as_uint v) (fun n => Ok (VU128 n))
  | FU128Resp =>                                                              (* 163-171 *)
    let* v := extract key sname t in
    let* r := de_cast TRespOk (str "ResponseOk"%string) key sname v in
    proj (unwrap_resp r) (fun x =>
    let* i := de_cast TUInt (str "UInt"%string) key sname x in
    proj (as_uint i) (fun n => Ok (VU128 n)))
  | FBool =>                                                                  (* 178-182 *)
    let* v := extract key sname t in
    let* v := if_chain [TTrue; TFalse] key sname v in
    proj (as_bool v) (fun b => Ok (VBool b))
  | FString =>                                                                (* 183-188 *)
    let* v := extract key sname t in
    Ok (VString (display v))
  | FVecU8 =>                                                                 (* 194-198 *)
    let* v := extract key sname t in
    let* v := if_chain [TBuffer] key sname v in
    proj (as_buffer v) (fun b => Ok (VBytes b))
  | FVecString =>                                                             (* 201-211 *)
    let* v := extract key sname t in
    let* l := de_cast TList (str "List"%string) key (str "Vec"%string) v in
    proj (as_list l) (fun items => Ok (VStrings (map display items)))
  | FOptI128 =>                                                               (* 214-218 *)
    let* v := extract key sname t in
    Ok (VOptI (derive_option TInt as_int v))
  | FOptU128 =>                                                               (* 221-225 *)
    let* v := extract key sname t in
    Ok (VOptU (derive_option TUInt as_uint v))
  | FOptString =>                                                             (* 228-239 *)
    match (let* v := extract key sname t in
           de_cast TSome (str "OptionalSome"%string) key (str "Option"%string) v) with
    | Ok s => proj (unwrap_some s) (fun x => Ok (VOptS (Some (display x))))
    | _ => Ok (VOptS None)
    end
  | FStruct name fields =>                                                    (* 243-248 *)
    let* v := extract key sname t in
    let* tv := de_cast TTuple (str "Tuple"%string) key name v in
    proj (as_tuple tv) (fun t' =>
    let* fs := (fix go (fs : list (bytes * fty)) : res de_err (list fval) :=
                  match fs with
                  | [] => Ok []
                  | (k, f) :: r =>
                    let* x := derive_field name k f t' in
                    let* xs := go r in Ok (x :: xs)
                  end) fields in
    Ok (VStruct fs))
  end.

(** from_tuple.rs:270-278: [try_from], the fields in declaration order, first error returned. *)
Fixpoint derive_fields (sname : bytes) (fields : list (bytes * fty)) (t : entries)
  : res de_err (list fval) :=
  match fields with
  | [] => Ok []
  | (k, f) :: r =>
    let* x := derive_field sname k f t in
    let* xs := derive_fields sname r t in
    Ok (x :: xs)
  end.
