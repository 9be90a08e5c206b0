(** Specification of the [clarity!] and [post_condition!] macros. *)

From Coq Require Import Strings.String.
From Verif Require Import Base Clarity Tx SpecShow Macro.
Local Open Scope string_scope.
Local Open Scope list_scope.

(** [clarity!(name, arg, ..., arg)]. *)
Definition call (name : bytes) (args : list rexpr) : list tok := Id name :: flat_map (fun e => [Comma; Ex e]) args.

(** The text an argument stands for: a text itself, the numeral of a number, the text of a Clarity value. *)
Inductive stands_for : rexpr -> bytes -> Prop :=
| sf_text s : stands_for (RText s) s
| sf_int z s : signed_decimal z s -> stands_for (RInt z) s
| sf_uint n s : decimal n s -> stands_for (RUInt n) s
| sf_val v s : shows v s -> stands_for (RVal v) s.

(** [clarity!(name, args)] is the value [v]. *)
Inductive builds : bytes -> list rexpr -> cval -> Prop :=
| b_int z : builds (str "Int") [RInt z] (CInt z)
| b_uint n : builds (str "UInt") [RUInt n] (CUInt n)
| b_buffer b : builds (str "Buffer") [RBytes b] (CBuffer b)
| b_true : builds (str "True") [] CTrue
| b_false : builds (str "False") [] CFalse
| b_std e s : stands_for e s -> builds (str "PrincipalStandard") [e] (CPrinStd s)
| b_con e s f t : stands_for e s -> stands_for f t -> builds (str "PrincipalContract") [e; f] (CPrinCon s t)
| b_ok v : builds (str "ResponseOk") [RVal v] (CRespOk v)
| b_err v : builds (str "ResponseErr") [RVal v] (CRespErr v)
| b_none : builds (str "OptionalNone") [] CNone
| b_some v : builds (str "OptionalSome") [RVal v] (CSome v)
| b_list vs : builds (str "List") (map RVal vs) (CList vs)
| b_tuple ks kvs : Forall2 stands_for ks (map fst kvs) ->
    builds (str "Tuple") (map (fun p => RPair (fst p) (RVal (snd (snd p)))) (combine ks kvs)) (CTuple kvs)
| b_ascii e s : stands_for e s -> builds (str "StringAscii") [e] (CAscii s)
| b_utf8 e s : stands_for e s -> builds (str "StringUtf8") [e] (CUtf8 s)
| b_lps e s : stands_for e s -> builds (str "LengthPrefixedStr") [e] (CLps s)
| b_args vs : builds (str "FnArguments") (map RVal vs) (CFnArgs vs).

(** Values that can be written with nested calls of the macro alone. *)
Inductive written : cval -> Prop :=
| w_call name args v : clarity_macro (call name args) = Some v -> Forall wexpr args -> written v
with wexpr : rexpr -> Prop :=
| w_int z : wexpr (RInt z)
| w_uint n : wexpr (RUInt n)
| w_bytes b : wexpr (RBytes b)
| w_text s : wexpr (RText s)
| w_val v : written v -> wexpr (RVal v)
| w_pair a b : wexpr a -> wexpr b -> wexpr (RPair a b).

(** One parenthesised condition. *)
Inductive condition_of : bytes * list parg -> condition -> Prop :=
| c_stx a n c : condition_of (str "STXCondition", [AVal a; AAmount n; ACode c]) (CondSTX a n c)
| c_ft a n c i : condition_of (str "FungibleCondition", [AVal a; AAmount n; ACode c; AInfo i]) (CondFT a n c i)
| c_nft a v c i : condition_of (str "NonFungibleCondition", [AVal a; AVal v; ACode c; AInfo i]) (CondNFT a v c i).
