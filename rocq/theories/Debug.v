(** Model of the [Debug] texts of values and post-conditions, and of the equalities computed from texts. *)

From Coq Require Import Strings.String.
From Verif Require Import Base Hash C32 Clarity Tx Builder.
Local Open Scope N_scope.

(** [Debug] of the Clarity types; impl.rs lines cited in place.  [{:#?}] of the elements sets a flag that no
    implementation looks at; [SomeCV] shows its value by [Display]. *)
Fixpoint debug (v : cval) : bytes :=
  match v with
  | CInt z => str "IntCV("%string ++ show_Z z ++ str ")"%string                            (* 65-69 *)
  | CUInt n => str "UIntCV("%string ++ show_N n ++ str ")"%string                          (* 118-122 *)
  | CBuffer b => str "BufferCV("%string ++ display (CBuffer b) ++ str ")"%string           (* 180-184 *)
  | CTrue => str "TrueCV"%string                                                           (* 242-246 *)
  | CFalse => str "FalseCV"%string                                                         (* 279-283 *)
  | CPrinStd a => str "StandardPrincipalCV("%string ++ a ++ str ")"%string                 (* 320-324 *)
  | CPrinCon a n => str "ContractPrincipalCV("%string ++ display (CPrinCon a n) ++ str ")"%string   (* 380-384 *)
  | CRespOk x => str "OkCV("%string ++ debug x ++ str ")"%string                           (* 430-434 *)
  | CRespErr x => str "ErrCV("%string ++ debug x ++ str ")"%string                         (* 468-472 *)
  | CSome x => str "SomeCV("%string ++ display x ++ str ")"%string                         (* 506-510 *)
  | CNone => str "NoneCV"%string                                                           (* 541-545 *)
  | CList l =>                                                                             (* 603-614 *)
    str "ListCV("%string ++
    (fix go (first : bool) (l : list cval) : bytes :=
       match l with
       | [] => []
       | x :: r => (if first then [] else str ", "%string) ++ debug x ++ go false r
       end) true l ++ str ")"%string
  | CTuple l =>                                                                            (* 739-750 *)
    str "TupleCV("%string ++
    (fix go (first : bool) (l : list (bytes * cval)) : bytes :=
       match l with
       | [] => []
       | (k, x) :: r => (if first then [] else str ", "%string) ++ k ++ str ": "%string ++ debug x ++ go false r
       end) true l ++ str ")"%string
  | CAscii s => str "StringAsciiCV("%string ++ s ++ str ")"%string                         (* 801-805 *)
  | CUtf8 s => str "StringUtf8CV("%string ++ s ++ str ")"%string                           (* 838-842 *)
  | CLps s => str "LengthPrefixedStr("%string ++ s ++ str ")"%string                       (* 880-884 *)
  | CFnArgs l =>                                                                           (* 949-960 *)
    str "FnArguments("%string ++
    (fix go (first : bool) (l : list cval) : bytes :=
       match l with
       | [] => []
       | x :: r => (if first then [] else str ", "%string) ++ debug x ++ go false r
       end) true l ++ str ")"%string
  end.

(** condition.rs:58-75 [#[derive(Debug)] ConditionCode]. *)
Definition debug_code (c : cond_code) : bytes :=
  match c with
  | CcEQ => str "EQ"%string | CcGT => str "GT"%string | CcGTE => str "GTE"%string
  | CcLT => str "LT"%string | CcLTE => str "LTE"%string
  | CcHasNot => str "HasNot"%string | CcHas => str "Has"%string
  end.

(** condition.rs:320-328 [#[derive(Debug)] AssetInfo]. *)
Definition debug_asset (i : asset_info) : bytes :=
  str "AssetInfo { address: "%string ++ debug (CPrinStd (ai_addr i)) ++ str ", name: "%string ++ debug (CLps (ai_contract i))
  ++ str ", asset: "%string ++ debug (CLps (ai_asset i)) ++ str " }"%string.

(** [#[derive(Debug)]] of the conditions: condition.rs:148-156, 202-212, 260-270. *)
Definition debug_cond (c : condition) : bytes :=
  match c with
  | CondSTX a n k =>
    str "STXPostCondition { address: "%string ++ debug a ++ str ", amount: "%string ++ show_N n
    ++ str ", code: "%string ++ debug_code k ++ str " }"%string
  | CondFT a n k i =>
    str "FungiblePostCondition { address: "%string ++ debug a ++ str ", amount: "%string ++ show_N n
    ++ str ", code: "%string ++ debug_code k ++ str ", info: "%string ++ debug_asset i ++ str " }"%string
  | CondNFT a v k i =>
    str "NonFungiblePostCondition { address: "%string ++ debug a ++ str ", name: "%string ++ debug v
    ++ str ", code: "%string ++ debug_code k ++ str ", info: "%string ++ debug_asset i ++ str " }"%string
  end.

(** condition.rs:119-129 [Display] and [Debug] of [PostConditions], the text of a [Vec]. *)
Fixpoint debug_tail (l : list condition) : bytes :=
  match l with [] => str "]"%string | c :: r => str ", "%string ++ debug_cond c ++ debug_tail r end.
Definition debug_conds (l : list condition) : bytes :=
  str "["%string ++ match l with [] => str "]"%string | c :: r => debug_cond c ++ debug_tail r end.

(** macro.rs:70-74 [PartialEq for PostConditions]. *)
Definition conds_eq (a b : list condition) : bool := bytes_eqb (debug_conds a) (debug_conds b).

(** condition.rs:320 [#[derive(PartialEq)] AssetInfo]; fields compared by macro.rs:70-74. *)
Definition asset_eq (a b : asset_info) : bool :=
  cl_eq (CPrinStd (ai_addr a)) (CPrinStd (ai_addr b)) && cl_eq (CLps (ai_contract a)) (CLps (ai_contract b))
  && cl_eq (CLps (ai_asset a)) (CLps (ai_asset b)).

(** c32.rs:82 [#[derive(PartialEq)] Address]. *)
Definition address_eq (a b : address) : bool :=
  bytes_eqb (addr_hash a) (addr_hash b) && byte_eqb (addr_version a) (addr_version b).

(** payload.rs:135 [#[derive(PartialEq)] ContractCallPayload]. *)
Definition call_payload_eq (ad ad' : address) (c c' f f' : bytes) (l l' : list cval) : bool :=
  address_eq ad ad' && cl_eq (CLps c) (CLps c') && cl_eq (CLps f) (CLps f') && cl_eq (CFnArgs l) (CFnArgs l').

(** base.rs:31 [AnchorMode], condition.rs:78 [PostConditionMode]: [#[derive(PartialEq)]] on the discriminants. *)
Definition anchor_eq (a b : anchor_mode) : bool :=
  match a, b with AnStrict, AnStrict | AnMicro, AnMicro | AnAny, AnAny => true | _, _ => false end.
Definition pcmode_eq (a b : pc_mode) : bool :=
  match a, b with PcAllow, PcAllow | PcDeny, PcDeny => true | _, _ => false end.

(** builder.rs:28 [#[derive(PartialEq)] STXTokenTransfer<T, N>]; both sides have the same [T] and [N]. *)
Definition transfer_eq (a b : stx_transfer) : bool :=
  cl_eq (st_recipient a) (st_recipient b) && (st_amount a =? st_amount b) && bytes_eqb (st_sender a) (st_sender b)
  && (st_fee a =? st_fee b) && (st_nonce a =? st_nonce b) && anchor_eq (st_anchor a) (st_anchor b)
  && bytes_eqb (st_memo a) (st_memo b) && pcmode_eq (st_pcmode a) (st_pcmode b) && conds_eq (st_conds a) (st_conds b)
  && Bool.eqb (st_sponsored a) (st_sponsored b).

(** builder.rs:104 [#[derive(PartialEq)] STXContractCall<N>]; both sides have the same [N]. *)
Definition call_eq (a b : stx_call) : bool :=
  bytes_eqb (cc_address a) (cc_address b) && bytes_eqb (cc_contract a) (cc_contract b) && bytes_eqb (cc_fname a) (cc_fname b)
  && cl_eq (CFnArgs (cc_args a)) (CFnArgs (cc_args b)) && bytes_eqb (cc_sender a) (cc_sender b)
  && (cc_fee a =? cc_fee b) && (cc_nonce a =? cc_nonce b) && anchor_eq (cc_anchor a) (cc_anchor b)
  && pcmode_eq (cc_pcmode a) (cc_pcmode b) && conds_eq (cc_conds a) (cc_conds b) && Bool.eqb (cc_sponsored a) (cc_sponsored b).
