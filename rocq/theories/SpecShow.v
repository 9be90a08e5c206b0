(** Specification of the display texts of Clarity values. *)

From Coq Require Import Strings.String.
From Verif Require Import Base SpecText SpecAddr Clarity SpecWire.
Local Open Scope N_scope.

(** ** Decimal numerals *)

Definition digit (c : byte) : Prop := 48 <= Byte.to_N c <= 57.
Definition decimal_value (s : bytes) : N :=
  fold_left (fun acc c => 10 * acc + (Byte.to_N c - 48)) s 0.

(** [s] is the decimal numeral of [n], without superfluous zeros. *)
Definition decimal (n : N) (s : bytes) : Prop :=
  Forall digit s /\ decimal_value s = n /\ (s = [x30] \/ exists c r, s = c :: r /\ c <> x30).

(** [s] is the numeral of the integer [z], a minus sign (0x2d) in front of negative ones. *)
Definition signed_decimal (z : Z) (s : bytes) : Prop :=
  ((0 <= z)%Z /\ decimal (Z.to_N z) s) \/ ((z < 0)%Z /\ exists r, s = x2d :: r /\ decimal (Z.to_N (- z)) r).

(** ** The text of a value *)

(** Texts separated by single spaces (0x20). *)
Fixpoint spaced (l : list bytes) : bytes :=
  match l with
  | [] => []
  | t :: r => t ++ match r with [] => [] | _ => x20 :: spaced r end
  end.

(** [s] is the text of [v]: Clarity's literals and value constructors. *)
Fixpoint shows (v : cval) (s : bytes) : Prop :=
  match v with
  | CInt z => signed_decimal z s
  | CUInt n => exists r, s = x75 :: r /\ decimal n r
  | CBuffer b => s = [x30; x78] ++ hex_text b
  | CTrue => s = str "true"%string
  | CFalse => s = str "false"%string
  | CPrinStd a => s = a
  | CPrinCon a n => s = a ++ x2e :: n
  | CRespOk x => exists r, s = str "(ok "%string ++ r ++ [x29] /\ shows x r
  | CRespErr x => exists r, s = str "(err "%string ++ r ++ [x29] /\ shows x r
  | CNone => s = str "none"%string
  | CSome x => exists r, s = str "(some "%string ++ r ++ [x29] /\ shows x r
  | CList l => exists ts, s = str "(list "%string ++ spaced ts ++ [x29] /\ every2 shows l ts
  | CTuple l => exists ts, s = str "(tuple "%string ++ spaced ts ++ [x29]
      /\ every2 (fun e t => exists r, t = x28 :: fst e ++ x20 :: r ++ [x29] /\ shows (snd e) r) l ts
  | CAscii r => s = x22 :: r ++ [x22]
  | CUtf8 r => s = x75 :: x22 :: r ++ [x22]
  | CLps r => s = r
  | CFnArgs l => exists ts, s = str "(fn-args "%string ++ spaced ts ++ [x29] /\ every2 shows l ts
  end.

(** ** Values with unambiguous text *)

(** No space and no closing parenthesis (true of every Clarity name). *)
Definition plain_name (s : bytes) : Prop := Forall (fun c => c <> x20 /\ c <> x29) s.

(** Clarity values proper whose principals are addresses, whose names are plain and whose strings
    contain no double quote (0x22). *)
Fixpoint clean (c : cval) : Prop :=
  match c with
  | CPrinStd a => exists h v, address_spelling h v a
  | CPrinCon a n => (exists h v, address_spelling h v a) /\ plain_name n
  | CRespOk x | CRespErr x | CSome x => clean x
  | CList l => every clean l
  | CTuple l => every (fun kv => plain_name (fst kv) /\ clean (snd kv)) l
  | CAscii s | CUtf8 s => ~ In x22 s
  | CLps _ | CFnArgs _ => False
  | _ => True
  end.
