(** Model of stacks/src/clarity/{mod,impl,macro}.rs: Clarity values and their codec. *)

From Coq Require Import Strings.String.
From Coq Require Import DecimalNat DecimalN DecimalZ.
From Verif Require Import Base Utf8 Hex Hash C32.
Local Open Scope N_scope.

(** clarity/mod.rs:25-53 [Error].  [FromUtf8Error], [TryFromIntError] and [TryFromSliceError] carry no
    payload in the model. *)
Inductive cl_err :=
| ClBadStringLength (received max : N)
| ClBadStringType (expected : bytes)
| ClBadIdentifier (expected received : byte)
| ClBadDowncast
| ClUnexpectedType (tag : byte)
| ClC32 (e : c32_err)
| ClTryFromInt
| ClTryFromUtf8
| ClTryFromSlice.

(** clarity/mod.rs:147-171: the Clarity types.  A value of type [Box<dyn Clarity>] is one of these
    (implementations of [Clarity] outside the two crates, and [PostConditions] used as a Clarity
    value, are in [Own.v], by the result of their [encode]). [CInt]/[CUInt] hold an [i128]/[u128]; strings hold UTF-8 bytes. *)
Inductive cval :=
| CInt (z : Z)
| CUInt (n : N)
| CBuffer (b : bytes)
| CTrue
| CFalse
| CPrinStd (addr : bytes)
| CPrinCon (addr name : bytes)
| CRespOk (v : cval)
| CRespErr (v : cval)
| CNone
| CSome (v : cval)
| CList (l : list cval)
| CTuple (l : list (bytes * cval))
| CAscii (s : bytes)
| CUtf8 (s : bytes)
| CLps (s : bytes)
| CFnArgs (l : list cval).

(** The concrete types, for [Ident::id], [cast] and [T::decode]. *)
Inductive cty :=
| TInt | TUInt | TBuffer | TTrue | TFalse | TPrinStd | TPrinCon | TRespOk | TRespErr | TNone | TSome
| TList | TTuple | TAscii | TUtf8 | TLps | TFnArgs.

(** clarity/mod.rs:55-86: the type identifiers, [Ident::id] (macro.rs:84-88). *)
Definition ty_id (t : cty) : byte :=
  match t with
  | TInt => x00 | TUInt => x01 | TBuffer => x02 | TTrue => x03 | TFalse => x04
  | TPrinStd => x05 | TPrinCon => x06 | TRespOk => x07 | TRespErr => x08
  | TNone => x09 | TSome => x0a | TList => x0b | TTuple => x0c
  | TAscii => x0d | TUtf8 => x0e
  | TLps => xff | TFnArgs => xff
  end.

(** The dynamic type of a boxed value ([std::any::TypeId]). *)
Definition type_of (v : cval) : cty :=
  match v with
  | CInt _ => TInt | CUInt _ => TUInt | CBuffer _ => TBuffer | CTrue => TTrue | CFalse => TFalse
  | CPrinStd _ => TPrinStd | CPrinCon _ _ => TPrinCon | CRespOk _ => TRespOk
  | CRespErr _ => TRespErr | CNone => TNone | CSome _ => TSome | CList _ => TList
  | CTuple _ => TTuple | CAscii _ => TAscii | CUtf8 _ => TUtf8 | CLps _ => TLps
  | CFnArgs _ => TFnArgs
  end.

Definition cty_eq_dec (a b : cty) : {a = b} + {a <> b}.
Proof. decide equality. Defined.

(** macro.rs:96-110 [cast]/[cast_as] for [Box<dyn Clarity>]: [Any::downcast]. *)
Definition cast (t : cty) (v : cval) : res cl_err cval :=
  if cty_eq_dec (type_of v) t then Ok v else Err ClBadDowncast.

(** macro.rs:116-130 [cast]/[cast_as] of [ResponseOk]/[ResponseErr]/[OptionalSome]: of the inner value.
    Only these types and boxes implement [Cast]. *)
Definition cast_inner (t : cty) (v : cval) : option (res cl_err cval) :=
  match v with
  | CRespOk x | CRespErr x | CSome x => Some (cast t x)
  | _ => None
  end.

(** ** Encoding *)

(** [u32::try_from(len)?.to_be_bytes()]. *)
Definition enc_len32 (n : N) : res cl_err bytes :=
  if n <? 2 ^ 32 then Ok (be_bytes 4 n) else Err ClTryFromInt.

(** impl.rs:851-862 [LengthPrefixedStr::encode]. *)
Definition enc_lps (s : bytes) : res cl_err bytes :=
  if 128 <? lenN s then Err (ClBadStringLength (lenN s) 128)
  else if lenN s <? 256 then Ok (n2b (lenN s) :: s)
  else Err ClTryFromInt.

(** impl.rs:294-299 and 351-355: address part of principals. *)
Definition dec_addr (addr : bytes) : res cl_err (bytes * byte) :=
  map_err ClC32 (c32_address_decode addr).

(** [Codec::encode]; impl.rs lines of each case are cited in place. *)
Fixpoint encode (v : cval) : res cl_err bytes :=
  match v with
  | CInt z => Ok (x00 :: be_bytes 16 (u128_of_i128 z))                         (* 39-43 *)
  | CUInt n => Ok (x01 :: be_bytes 16 n)                                       (* 92-96 *)
  | CBuffer b => let* l := enc_len32 (lenN b) in Ok (x02 :: l ++ b)            (* 145-150 *)
  | CTrue => Ok [x03]                                                          (* 220-222 *)
  | CFalse => Ok [x04]                                                         (* 257-259 *)
  | CPrinStd addr =>                                                           (* 294-299 *)
    let* r := dec_addr addr in
    let '(h, ver) := r in Ok (x05 :: ver :: h)
  | CPrinCon addr name =>                                                      (* 351-358 *)
    let* r := dec_addr addr in
    let '(h, ver) := r in
    let* n := enc_lps name in
    Ok (x06 :: ver :: h ++ n)
  | CRespOk x => let* e := encode x in Ok (x07 :: e)                           (* 405-409 *)
  | CRespErr x => let* e := encode x in Ok (x08 :: e)                          (* 443-447 *)
  | CNone => Ok [x09]                                                          (* 519-521 *)
  | CSome x => let* e := encode x in Ok (x0a :: e)                             (* 481-485 *)
  | CList l =>                                                                 (* 556-565 *)
    let* n := enc_len32 (lenN l) in
    let* e := (fix enc_all (l : list cval) : res cl_err bytes :=
                 match l with
                 | [] => Ok []
                 | x :: r => let* e := encode x in let* t := enc_all r in Ok (e ++ t)
                 end) l in
    Ok (x0b :: n ++ e)
  | CTuple l =>                                                                (* 688-698 *)
    let* n := enc_len32 (lenN l) in
    let* e := (fix enc_all (l : list (bytes * cval)) : res cl_err bytes :=
                 match l with
                 | [] => Ok []
                 | (k, x) :: r =>
                   let* ke := enc_lps k in
                   let* e := encode x in
                   let* t := enc_all r in Ok (ke ++ e ++ t)
                 end) l in
    Ok (x0c :: n ++ e)
  | CAscii s =>                                                                (* 768-779 *)
    if is_ascii s then let* n := enc_len32 (lenN s) in Ok (x0d :: n ++ s)
    else Err (ClBadStringType (str "Ascii"%string))
  | CUtf8 s => let* n := enc_len32 (lenN s) in Ok (x0e :: n ++ s)              (* 814-820 *)
  | CLps s => enc_lps s                                                        (* 851-862 *)
  | CFnArgs l =>                                                               (* 905-914 *)
    let* n := enc_len32 (lenN l) in
    let* e := (fix enc_all (l : list cval) : res cl_err bytes :=
                 match l with
                 | [] => Ok []
                 | x :: r => let* e := encode x in let* t := enc_all r in Ok (e ++ t)
                 end) l in
    Ok (n ++ e)
  end.

(** mod.rs:101-103 [Codec::len]. *)
Definition codec_len (v : cval) : res cl_err N := let* e := encode v in Ok (lenN e).
(** mod.rs:105-107 [Codec::is_empty]. *)
Definition codec_is_empty (v : cval) : res cl_err bool := let* n := codec_len v in Ok (n =? 0).
(** mod.rs:111-113 [Codec::hex]. *)
Definition codec_hex (v : cval) : res cl_err bytes := let* e := encode v in Ok (bytes_to_hex e).
(** mod.rs:117-119 [Codec::hex_prefixed]. *)
Definition codec_hex_prefixed (v : cval) : res cl_err bytes :=
  let* h := codec_hex v in Ok (str "0x"%string ++ h).

(** ** Decoding *)

(** [String::from_utf8(..)?]. *)
Definition from_utf8 (bs : bytes) : res cl_err bytes :=
  if utf8_valid bs then Ok bs else Err ClTryFromUtf8.

(** [if bytes[0] != Self::id() { return Err(BadIdentifier(..)) }]. *)
Definition check_id (t : cty) (bs : bytes) : res cl_err unit :=
  let* b := index 0 bs in
  if byte_eqb b (ty_id t) then Ok tt else Err (ClBadIdentifier (ty_id t) b).

(** [u32::from_be_bytes([bytes[1], bytes[2], bytes[3], bytes[4]])]. *)
Definition read_len32 (bs : bytes) : res cl_err N :=
  let* a := index 1 bs in
  let* b := index 2 bs in
  let* c := index 3 bs in
  let* d := index 4 bs in
  Ok (be_val [a; b; c; d]).

(** impl.rs:45-56. *)
Definition dec_int (bs : bytes) : res cl_err cval :=
  let* _ := check_id TInt bs in
  let* b := sub_slice 1 16 bs in
  Ok (CInt (i128_of_u128 (be_val b))).

(** impl.rs:98-109. *)
Definition dec_uint (bs : bytes) : res cl_err cval :=
  let* _ := check_id TUInt bs in
  let* b := sub_slice 1 16 bs in
  Ok (CUInt (be_val b)).

(** impl.rs:152-171: the byte-by-byte loop is [take_slice] (same panic when running out). *)
Definition dec_buffer (bs : bytes) : res cl_err cval :=
  let* _ := check_id TBuffer bs in
  let* n := read_len32 bs in
  let* r := drop_slice 5 bs in
  let* b := take_slice n r in
  Ok (CBuffer b).

(** impl.rs:224-233. *)
Definition dec_true (bs : bytes) : res cl_err cval :=
  let* _ := check_id TTrue bs in Ok CTrue.
(** impl.rs:261-270. *)
Definition dec_false (bs : bytes) : res cl_err cval :=
  let* _ := check_id TFalse bs in Ok CFalse.

(** impl.rs:301-311. *)
Definition dec_prin_std (bs : bytes) : res cl_err cval :=
  let* _ := check_id TPrinStd bs in
  let* h := sub_slice 2 20 bs in
  let* v := index 1 bs in
  let* a := map_err ClC32 (c32_address h v) in
  Ok (CPrinStd a).

(** impl.rs:360-371. *)
Definition dec_prin_con (bs : bytes) : res cl_err cval :=
  let* _ := check_id TPrinCon bs in
  let* h := sub_slice 2 20 bs in
  let* v := index 1 bs in
  let* a := map_err ClC32 (c32_address h v) in
  let* n := index 22 bs in
  let* r := drop_slice 23 bs in
  let* nm := take_slice (b2n n) r in
  let* nm := from_utf8 nm in
  Ok (CPrinCon a nm).

(** impl.rs:523-532. *)
Definition dec_none (bs : bytes) : res cl_err cval :=
  let* _ := check_id TNone bs in Ok CNone.

(** impl.rs:781-792. *)
Definition dec_ascii (bs : bytes) : res cl_err cval :=
  let* _ := check_id TAscii bs in
  let* n := read_len32 bs in
  let* r := drop_slice 5 bs in
  let* s := take_slice n r in
  let* s := from_utf8 s in
  Ok (CAscii s).

(** impl.rs:822-829: no identifier check. *)
Definition dec_utf8 (bs : bytes) : res cl_err cval :=
  let* n := read_len32 bs in
  let* r := drop_slice 5 bs in
  let* s := take_slice n r in
  let* s := from_utf8 s in
  Ok (CUtf8 s).

(** impl.rs:864-871: [bytes[1..=(bytes[0] as usize)]]. *)
Definition dec_lps (bs : bytes) : res cl_err cval :=
  let* n := index 0 bs in
  let* r := drop_slice 1 bs in
  let* s := take_slice (b2n n) r in
  let* s := from_utf8 s in
  Ok (CLps s).

Section Recursive.
  (** [decode_clarity_type] on the sub-slices. *)
  Variable dec : bytes -> res cl_err cval.

  (** impl.rs:412-421, 450-459, 487-497. *)
  Definition dec_wrap (t : cty) (mk : cval -> cval) (bs : bytes) : res cl_err cval :=
    let* _ := check_id t bs in
    let* r := drop_slice 1 bs in
    let* v := dec r in
    Ok (mk v).

  (** impl.rs:580-584 (and 925-930): [n] elements; the slice advances by the re-encoded length of the
      element just read.  [bs] is the slice from the current offset.  [fuel] bounds the iterations. *)
  Fixpoint dec_items (fuel : nat) (n : N) (bs : bytes) : res cl_err (list cval) :=
    if n =? 0 then Ok []
    else match fuel with
         | O => NoFuel
         | S f =>
           let* v := dec bs in
           let* e := encode v in
           let* r := drop_slice (length e) bs in
           let* vs := dec_items f (n - 1) r in
           Ok (v :: vs)
         end.

  (** impl.rs:713-720. *)
  Fixpoint dec_entries (fuel : nat) (n : N) (bs : bytes) : res cl_err (list (bytes * cval)) :=
    if n =? 0 then Ok []
    else match fuel with
         | O => NoFuel
         | S f =>
           let* kl := index 0 bs in
           let* r := drop_slice 1 bs in
           let* k := take_slice (b2n kl) r in
           let* k := from_utf8 k in
           let* r1 := drop_slice (length k) r in
           let* v := dec r1 in
           let* e := encode v in
           let* r2 := drop_slice (length e) r1 in
           let* vs := dec_entries f (n - 1) r2 in
           Ok ((k, v) :: vs)
         end.

  (** impl.rs:567-587.  In the Rust code a failing [&bytes[offset..]] happens at the start of the next
      iteration rather than at the end of the current one; the offset is never past the end
      (theorem C17), so the difference is unobservable. *)
  Definition dec_list (bs : bytes) : res cl_err cval :=
    let* _ := check_id TList bs in
    let* n := read_len32 bs in
    let* r := drop_slice 5 bs in
    let* vs := dec_items (S (length r)) n r in
    Ok (CList vs).

  (** impl.rs:700-723. *)
  Definition dec_tuple (bs : bytes) : res cl_err cval :=
    let* _ := check_id TTuple bs in
    let* n := read_len32 bs in
    let* r := drop_slice 5 bs in
    let* vs := dec_entries (S (length r)) n r in
    Ok (CTuple vs).

  (** impl.rs:916-933: [split_at(4)]. *)
  Definition dec_fnargs (bs : bytes) : res cl_err cval :=
    let* l := sub_slice 0 4 bs in
    let* r := drop_slice 4 bs in
    let* vs := dec_items (S (length r)) (be_val l) r in
    Ok (CFnArgs vs).
End Recursive.

(** mod.rs:174-195 [decode_clarity_type]. *)
Fixpoint decode_fuel (fuel : nat) (bs : bytes) : res cl_err cval :=
  match fuel with
  | O => NoFuel
  | S f =>
    let* tag := index 0 bs in
    match tag with
    | x00 => dec_int bs
    | x01 => dec_uint bs
    | x02 => dec_buffer bs
    | x03 => dec_true bs
    | x04 => dec_false bs
    | x05 => dec_prin_std bs
    | x06 => dec_prin_con bs
    | x07 => dec_wrap (decode_fuel f) TRespOk CRespOk bs
    | x08 => dec_wrap (decode_fuel f) TRespErr CRespErr bs
    | x09 => dec_none bs
    | x0a => dec_wrap (decode_fuel f) TSome CSome bs
    | x0b => dec_list (decode_fuel f) bs
    | x0c => dec_tuple (decode_fuel f) bs
    | x0d => dec_ascii bs
    | x0e => dec_utf8 bs
    | _ => Err (ClUnexpectedType tag)
    end
  end.

(** Nesting consumes at least one byte per level, so the length bounds the depth. *)
Definition decode_clarity_type (bs : bytes) : res cl_err cval := decode_fuel (S (length bs)) bs.

(** [T::decode(bytes)] for each concrete type. *)
Definition decode_as (t : cty) (bs : bytes) : res cl_err cval :=
  match t with
  | TInt => dec_int bs
  | TUInt => dec_uint bs
  | TBuffer => dec_buffer bs
  | TTrue => dec_true bs
  | TFalse => dec_false bs
  | TPrinStd => dec_prin_std bs
  | TPrinCon => dec_prin_con bs
  | TRespOk => dec_wrap decode_clarity_type TRespOk CRespOk bs
  | TRespErr => dec_wrap decode_clarity_type TRespErr CRespErr bs
  | TNone => dec_none bs
  | TSome => dec_wrap decode_clarity_type TSome CSome bs
  | TList => dec_list decode_clarity_type bs
  | TTuple => dec_tuple decode_clarity_type bs
  | TAscii => dec_ascii bs
  | TUtf8 => dec_utf8 bs
  | TLps => dec_lps bs
  | TFnArgs => dec_fnargs decode_clarity_type bs
  end.

(** ** Display and equality *)

(** Decimal digits as printed by Rust for an unsigned integer. *)
Fixpoint uint_bytes (d : Decimal.uint) : bytes :=
  match d with
  | Decimal.Nil => []
  | Decimal.D0 r => x30 :: uint_bytes r
  | Decimal.D1 r => x31 :: uint_bytes r
  | Decimal.D2 r => x32 :: uint_bytes r
  | Decimal.D3 r => x33 :: uint_bytes r
  | Decimal.D4 r => x34 :: uint_bytes r
  | Decimal.D5 r => x35 :: uint_bytes r
  | Decimal.D6 r => x36 :: uint_bytes r
  | Decimal.D7 r => x37 :: uint_bytes r
  | Decimal.D8 r => x38 :: uint_bytes r
  | Decimal.D9 r => x39 :: uint_bytes r
  end.
Definition show_N (n : N) : bytes := uint_bytes (N.to_uint n).
Definition show_Z (z : Z) : bytes :=
  if (z <? 0)%Z then x2d :: show_N (Z.to_N (- z)) else show_N (Z.to_N z).

(** [ToString::to_string] through [Display]; impl.rs lines cited in place. *)
Fixpoint display (v : cval) : bytes :=
  match v with
  | CInt z => show_Z z                                                         (* 59-63 *)
  | CUInt n => str "u"%string ++ show_N n                                      (* 112-116 *)
  | CBuffer b => str "0x"%string ++ bytes_to_hex b                             (* 174-178 *)
  | CTrue => str "true"%string                                                 (* 236-240 *)
  | CFalse => str "false"%string                                               (* 273-277 *)
  | CPrinStd a => a                                                            (* 314-318 *)
  | CPrinCon a n => a ++ str "."%string ++ n                                   (* 374-378 *)
  | CRespOk x => str "(ok "%string ++ display x ++ str ")"%string              (* 424-428 *)
  | CRespErr x => str "(err "%string ++ display x ++ str ")"%string            (* 462-466 *)
  | CNone => str "none"%string                                                 (* 535-539 *)
  | CSome x => str "(some "%string ++ display x ++ str ")"%string              (* 500-504 *)
  | CList l =>                                                                 (* 590-601 *)
    str "(list "%string ++
    (fix go (first : bool) (l : list cval) : bytes :=
       match l with
       | [] => []
       | x :: r => (if first then [] else str " "%string) ++ display x ++ go false r
       end) true l ++ str ")"%string
  | CTuple l =>                                                                (* 726-737 *)
    str "(tuple "%string ++
    (fix go (first : bool) (l : list (bytes * cval)) : bytes :=
       match l with
       | [] => []
       | (k, x) :: r =>
         (if first then [] else str " "%string) ++
         str "("%string ++ k ++ str " "%string ++ display x ++ str ")"%string ++ go false r
       end) true l ++ str ")"%string
  | CAscii s => x22 :: s ++ [x22]                                              (* 795-799 *)
  | CUtf8 s => str "u"%string ++ x22 :: s ++ [x22]                             (* 832-836 *)
  | CLps s => s                                                                (* 874-878 *)
  | CFnArgs l =>                                                               (* 936-947 *)
    str "(fn-args "%string ++
    (fix go (first : bool) (l : list cval) : bytes :=
       match l with
       | [] => []
       | x :: r => (if first then [] else str " "%string) ++ display x ++ go false r
       end) true l ++ str ")"%string
  end.

(** macro.rs:70-74 [PartialEq::eq] (both sides have the same Rust type). *)
Definition cl_eq (a b : cval) : bool := bytes_eqb (display a) (display b).

(** ** Tuple operations (impl.rs:631-685), on the underlying vector of pairs *)

Definition entries := list (bytes * cval).

(** impl.rs:633-641 [Tuple::get]. *)
Fixpoint tuple_get (k : bytes) (t : entries) : option cval :=
  match t with
  | [] => None
  | (k', v) :: r => if bytes_eqb k' k then Some v else tuple_get k r
  end.

(** impl.rs:644-652 [Tuple::get_mut], as the effect of writing [x] through the returned reference;
    [None] when it returns [None]. *)
Fixpoint tuple_write (k : bytes) (x : cval) (t : entries) : option entries :=
  match t with
  | [] => None
  | (k', v) :: r =>
    if bytes_eqb k' k then Some ((k', x) :: r)
    else match tuple_write k x r with
         | Some r' => Some ((k', v) :: r')
         | None => None
         end
  end.

(** impl.rs:655-660 [Tuple::insert]. *)
Definition tuple_insert (k : bytes) (v : cval) (t : entries) : entries := t ++ [(k, v)].

(** impl.rs:665-674 [Tuple::remove]: the first matching pair is removed. *)
Fixpoint tuple_remove (k : bytes) (t : entries) : option cval * entries :=
  match t with
  | [] => (None, [])
  | (k', v) :: r =>
    if bytes_eqb k' k then (Some v, r)
    else let '(o, r') := tuple_remove k r in (o, (k', v) :: r')
  end.

(** impl.rs:677-684 [Tuple::keys], [Tuple::values]. *)
Definition tuple_keys (t : entries) : list bytes := map fst t.
Definition tuple_values (t : entries) : list cval := map snd t.
