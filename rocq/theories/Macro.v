(** Model of the [clarity!] (macro.rs:9-34) and [post_condition!] (condition.rs:36-49) macros: the first arm whose pattern
    matches is expanded; [None] where the call does not compile. *)

From Coq Require Import Strings.String.
From Verif Require Import Base Clarity Tx.
Local Open Scope string_scope.
Local Open Scope list_scope.

(** ** [clarity!] *)

(** Argument expressions, by type and value: [i128], [u128], byte slices or vectors, [&str] or [String], Clarity values,
    written pairs. Expressions of other types are not modelled. *)
Inductive rexpr :=
| RInt (z : Z)
| RUInt (n : N)
| RBytes (b : bytes)
| RText (s : bytes)
| RVal (v : cval)
| RPair (a b : rexpr).

(** The tokens of a call, each argument expression being one token. *)
Inductive tok := Id (s : bytes) | At | Comma | Ex (e : rexpr).

(** Patterns: literal tokens, [$i:ident], [$x:expr], [($k:expr, $v:expr)]. *)
Inductive pat := PId (s : bytes) | PAt | PComma | PIdent | PExpr | PPair.

(** What the fragments of a pattern are bound to. *)
Inductive bound := BId (s : bytes) | BEx (e : rexpr).

Fixpoint match_pats (ps : list pat) (ts : list tok) : option (list bound * list tok) :=
  match ps with
  | [] => Some ([], ts)
  | p :: ps' =>
    match ts with
    | [] => None
    | t :: ts' =>
      let continue b :=
        match match_pats ps' ts' with Some (bs, r) => Some (b ++ bs, r) | None => None end in
      match p, t with
      | PId a, Id b => if bytes_eqb a b then continue [] else None
      | PAt, At | PComma, Comma => continue []
      | PIdent, Id b => continue [BId b]
      | PExpr, Ex e => continue [BEx e]
      | PPair, Ex (RPair k v) => continue [BEx (RPair k v)]
      | _, _ => None
      end
    end
  end.

(** A [$( ... )*] at the end of a pattern; [n]: at least as many rounds as there are tokens. *)
Fixpoint match_rep (n : nat) (ps : list pat) (ts : list tok) : option (list bound) :=
  match ts with
  | [] => Some []
  | _ =>
    match n with
    | O => None
    | S n' =>
      match match_pats ps ts with
      | Some (b, r) => match match_rep n' ps r with Some bs => Some (b ++ bs) | None => None end
      | None => None
      end
    end
  end.

Record arm := { arm_pre : list pat; arm_rep : option (list pat); arm_out : list bound -> option cval }.

Definition match_arm (a : arm) (ts : list tok) : option (list bound) :=
  match match_pats (arm_pre a) ts with
  | None => None
  | Some (b, r) =>
    match arm_rep a with
    | None => match r with [] => Some b | _ => None end
    | Some ps => match match_rep (List.length r) ps r with Some bs => Some (b ++ bs) | None => None end
    end
  end.

Fixpoint expand (arms : list arm) (ts : list tok) : option cval :=
  match arms with
  | [] => None
  | a :: r => match match_arm a ts with Some b => arm_out a b | None => expand r ts end
  end.

(** [.to_string()]: of anything with a [Display]. *)
Definition to_text (e : rexpr) : option bytes :=
  match e with
  | RInt z => Some (show_Z z)
  | RUInt n => Some (show_N n)
  | RText s => Some s
  | RVal v => Some (display v)
  | RBytes _ | RPair _ _ => None
  end.

(** macro.rs:11: [Box::new($e) as Box<dyn Clarity>]. *)
Definition boxed (e : rexpr) : option cval := match e with RVal v => Some v | _ => None end.

Fixpoint all {A B} (f : A -> option B) (l : list A) : option (list B) :=
  match l with
  | [] => Some []
  | x :: r =>
    match f x, all f r with Some y, Some ys => Some (y :: ys) | _, _ => None end
  end.

(** macro.rs:12: [$crate::clarity::$i::new(vec![])], for the types whose [new] takes a vector. *)
Definition empty_of (i : bytes) : option cval :=
  if bytes_eqb i (str "Buffer") then Some (CBuffer [])
  else if bytes_eqb i (str "List") then Some (CList [])
  else if bytes_eqb i (str "Tuple") then Some (CTuple [])
  else if bytes_eqb i (str "FnArguments") then Some (CFnArgs [])
  else None.

Definition plain (ps : list pat) (out : list bound -> option cval) : arm := {| arm_pre := ps; arm_rep := None; arm_out := out |}.
Definition one (f : rexpr -> option cval) (b : list bound) : option cval := match b with [BEx e] => f e | _ => None end.
Definition ex (b : bound) : option rexpr := match b with BEx e => Some e | BId _ => None end.
Definition values (b : list bound) : option (list cval) := match all ex b with Some es => all boxed es | None => None end.
Definition texted (f : bytes -> cval) (e : rexpr) : option cval := option_map f (to_text e).
Definition boxing (f : cval -> cval) (e : rexpr) : option cval := option_map f (boxed e).
Definition pair_of (e : rexpr) : option (bytes * cval) :=
  match e with
  | RPair k v => match to_text k, boxed v with Some s, Some x => Some (s, x) | _, _ => None end
  | _ => None
  end.

(** macro.rs:12-33, in order (macro.rs:11 is [boxed]; a call of it makes a box, not a plain value). *)
Definition clarity_arms : list arm :=
  [ plain [PAt; PId (str "empty"); PComma; PIdent] (fun b => match b with [BId i] => empty_of i | _ => None end);       (* 12 *)
    plain [PId (str "Int"); PComma; PExpr] (one (fun e => match e with RInt z => Some (CInt z) | _ => None end));         (* 13 *)
    plain [PId (str "UInt"); PComma; PExpr] (one (fun e => match e with RUInt n => Some (CUInt n) | _ => None end));      (* 14 *)
    plain [PId (str "Buffer"); PComma; PExpr] (one (fun e => match e with RBytes b => Some (CBuffer b) | _ => None end)); (* 15 *)
    plain [PId (str "Buffer")] (fun _ => None);                  (* 16: expands to [@empty, Buffer], which is not an expression *)
    plain [PId (str "True")] (fun _ => Some CTrue);                                                                       (* 17 *)
    plain [PId (str "False")] (fun _ => Some CFalse);                                                                     (* 18 *)
    plain [PId (str "PrincipalStandard"); PComma; PExpr] (one (texted CPrinStd));                                         (* 19 *)
    plain [PId (str "PrincipalContract"); PComma; PExpr; PComma; PExpr]
      (fun b => match b with
                | [BEx x; BEx y] => match to_text x, to_text y with Some a, Some n => Some (CPrinCon a n) | _, _ => None end
                | _ => None
                end);                                                                                                     (* 20 *)
    plain [PId (str "ResponseOk"); PComma; PExpr] (one (boxing CRespOk));                                                 (* 21 *)
    plain [PId (str "ResponseErr"); PComma; PExpr] (one (boxing CRespErr));                                               (* 22 *)
    plain [PId (str "OptionalSome"); PComma; PExpr] (one (boxing CSome));                                                 (* 23 *)
    plain [PId (str "OptionalNone")] (fun _ => Some CNone);                                                               (* 24 *)
    plain [PId (str "List")] (fun _ => empty_of (str "List"));                                                            (* 25 *)
    plain [PId (str "Tuple")] (fun _ => empty_of (str "Tuple"));                                                          (* 26 *)
    plain [PId (str "StringAscii"); PComma; PExpr] (one (texted CAscii));                                                 (* 27 *)
    plain [PId (str "StringUtf8"); PComma; PExpr] (one (texted CUtf8));                                                   (* 28 *)
    plain [PId (str "FnArguments")] (fun _ => empty_of (str "FnArguments"));                                              (* 29 *)
    plain [PId (str "LengthPrefixedStr"); PComma; PExpr] (one (texted CLps));                                             (* 30 *)
    {| arm_pre := [PId (str "List")]; arm_rep := Some [PComma; PExpr];
       arm_out := fun b => option_map CList (values b) |};                                                                (* 31 *)
    {| arm_pre := [PId (str "Tuple")]; arm_rep := Some [PComma; PPair];
       arm_out := fun b => match all ex b with Some es => option_map CTuple (all pair_of es) | None => None end |};       (* 32 *)
    {| arm_pre := [PId (str "FnArguments")]; arm_rep := Some [PComma; PExpr];
       arm_out := fun b => option_map CFnArgs (values b) |} ].                                                            (* 33 *)

Definition clarity_macro (ts : list tok) : option cval := expand clarity_arms ts.

(** ** [post_condition!] *)

(** Arguments of a condition, by type. *)
Inductive parg := AVal (v : cval) | AAmount (n : N) | ACode (c : cond_code) | AInfo (i : asset_info).

(** condition.rs:46-48: the [@gen] arms, the arguments handed to [new] (158-166, 215-226, 274-286). *)
Definition gen_condition (ty : bytes) (args : list parg) : option condition :=
  if bytes_eqb ty (str "STXCondition") then
    match args with [AVal a; AAmount n; ACode c] => Some (CondSTX a n c) | _ => None end
  else if bytes_eqb ty (str "FungibleCondition") then
    match args with [AVal a; AAmount n; ACode c; AInfo i] => Some (CondFT a n c i) | _ => None end
  else if bytes_eqb ty (str "NonFungibleCondition") then
    match args with [AVal a; AVal v; ACode c; AInfo i] => Some (CondNFT a v c i) | _ => None end
  else None.

(** condition.rs:39-44: [()] and the list of parenthesised conditions, pushed one after the other. *)
Fixpoint push_conditions (tmp : list condition) (groups : list (bytes * list parg)) : option (list condition) :=
  match groups with
  | [] => Some tmp
  | (ty, args) :: r => match gen_condition ty args with Some c => push_conditions (tmp ++ [c]) r | None => None end
  end.
Definition post_conditions (groups : list (bytes * list parg)) : option (list condition) := push_conditions [] groups.
