(** Model of how a floating-point number is written ([serialize_f64] of the crate [serde_json], which uses [format_finite] of the
    crate [ryu]).

    The digits are those [ryu] promises: the fewest that are closer to the number than to any other, and of those the closest;
    its tables are not modelled.  The layout is that of [ryu::pretty]. *)

From Coq Require Import Strings.String.
From Verif Require Import Base Clarity F64.
Local Open Scope string_scope.
Local Open Scope list_scope.
Local Open Scope N_scope.

(** The number closest to [c * 10^k]. *)
Definition round_decimal (c : N) (k : Z) : N :=
  if (0 <=? k)%Z then round (c * 10 ^ Z.to_N k) 1 else round c (10 ^ Z.to_N (- k)).
(** The power of ten of the first digit. *)
Definition first_power (v : N) : Z := (Z.of_nat (length (show_N (v * 10 ^ 324 / f64_one))) - 325)%Z.
(** [p] digits for [v], the first of which counts for [10^e]; [None] if that is not enough. *)
Definition pick (v : N) (e : Z) (p : nat) : option (N * Z) :=
  let k := (e - Z.of_nat p + 1)%Z in
  let n := if (0 <=? k)%Z then v else v * 10 ^ Z.to_N (- k) in
  let d := if (0 <=? k)%Z then f64_one * 10 ^ Z.to_N k else f64_one in
  let q := n / d in
  let r := n mod d in
  let low := round_decimal q k =? v in
  let high := round_decimal (q + 1) k =? v in
  if low && high then Some (if (2 * r <? d) || ((2 * r =? d) && N.even q) then q else q + 1, k)
  else if low then Some (q, k)
  else if high then Some (q + 1, k)
  else None.
Fixpoint pick_from (v : N) (e : Z) (p n : nat) : option (N * Z) :=
  match n with
  | O => None
  | S m => match pick v e p with Some x => Some x | None => pick_from v e (S p) m end
  end.
(** Digits and exponent: 17 digits are always enough ([d2d]). *)
Definition shortest (v : N) : N * Z :=
  match pick_from v (first_power v) 1 17 with
  | Some (c, k) => if c =? 10 then (1, (k + 1)%Z) else (c, k)
  | None => (0, 0%Z)
  end.

(** [format64]: 1234e7 as 12340000000.0, 1234e-2 as 12.34, 1234e-6 as 0.001234, 1e30 as such, 1234e30 as 1.234e33. *)
Definition zeros (n : Z) : bytes := repeat x30 (Z.to_nat n).
Definition layout (c : N) (k : Z) : bytes :=
  let d := show_N c in
  let kk := (Z.of_nat (length d) + k)%Z in
  if ((0 <=? k) && (kk <=? 16))%Z then d ++ zeros k ++ str ".0"
  else if ((0 <? kk) && (kk <=? 16))%Z then firstn (Z.to_nat kk) d ++ x2e :: skipn (Z.to_nat kk) d
  else if ((-5 <? kk) && (kk <=? 0))%Z then str "0." ++ zeros (- kk) ++ d
  else
    match d with
    | [a] => a :: x65 :: show_Z (kk - 1)
    | a :: r => a :: x2e :: r ++ x65 :: show_Z (kk - 1)
    | [] => []
    end.
Definition f64_text (neg : bool) (v : N) : bytes :=
  (if neg then [x2d] else []) ++ (if v =? 0 then str "0.0" else layout (fst (shortest v)) (snd (shortest v))).
