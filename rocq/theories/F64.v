(** Model of the floating-point numbers of fee rates (rpc.rs:105: [f64]) and of how JSON numbers become such (crate [serde_json]
    without the feature [float_roundtrip], which the repository does not ask for: stacks/Cargo.toml:36-44).

    A finite number is a sign and a multiple of 2^-1074, the smallest positive one.  Arithmetic is that of IEEE 754: the exact
    result, rounded to nearest, ties to even.  Simplified: counters of digits and exponents are unbounded, where the crate has
    an [i32] and special cases for its overflow; that makes a difference for texts of 2^31 digits only. *)

From Verif Require Import Base.
Local Open Scope N_scope.

Inductive f64 := Fin (neg : bool) (v : N) | Inf (neg : bool) | NaN.

(** 1, and the first number that is too large. *)
Definition f64_one : N := 2 ^ 1074.
Definition f64_limit : N := 2 ^ 2098.

(** The number closest to [n / d] smallest positive ones; the mantissa has 53 bits. *)
Definition round_units (n d : N) : N :=
  let s := N.log2 (n / d) - 52 in
  let m := d * 2 ^ s in
  let q := n / m in
  let r := n mod m in
  (if (m <? 2 * r) || ((2 * r =? m) && N.odd q) then q + 1 else q) * 2 ^ s.
(** The number closest to [n / d]. *)
Definition round (n d : N) : N := round_units (n * f64_one) d.

(** [u64 as f64], multiplication, division, the literals [1e0] to [1e308] (POW10). *)
Definition f64_of_int (n : N) : N := round n 1.
Definition f64_mul (a b : N) : N := round (a * b) (f64_one * f64_one).
Definition f64_div (a b : N) : N := round a b.
Definition pow10 (k : N) : N := round (10 ^ k) 1.

(** [f64_from_parts], without the sign; [None] is "number out of range".  After two divisions by 1e308 nothing is left. *)
Fixpoint from_parts (fuel : nat) (f : N) (e : Z) : option N :=
  if (Z.abs e <=? 308)%Z then
    if (0 <=? e)%Z then
      let r := f64_mul f (pow10 (Z.to_N e)) in if r <? f64_limit then Some r else None
    else Some (f64_div f (pow10 (Z.to_N (- e))))
  else if f =? 0 then Some 0
  else if (0 <=? e)%Z then None
  else match fuel with O => Some 0 | S g => from_parts g (f64_div f (pow10 308)) (e + 308) end.

(** ** Number texts *)
Definition is_dec (c : byte) : bool := (48 <=? b2n c) && (b2n c <=? 57).
Fixpoint digits (b : bytes) : bytes * bytes :=
  match b with
  | [] => ([], [])
  | c :: r => if is_dec c then (c :: fst (digits r), snd (digits r)) else ([], b)
  end.
(** [parse_decimal]. *)
Definition fraction (b : bytes) : option (bytes * bytes) :=
  match b with
  | [] => Some ([], [])
  | c :: r =>
    if byte_eqb c x2e then match digits r with ([], _) => None | (d, q) => Some (c :: d, q) end else Some ([], b)
  end.
(** [parse_exponent]. *)
Definition exponent (b : bytes) : option (bytes * bytes) :=
  match b with
  | [] => Some ([], [])
  | c :: r =>
    if byte_eqb c x65 || byte_eqb c x45 then
      let '(s, q) := match r with
                     | x :: q => if byte_eqb x x2b || byte_eqb x x2d then ([x], q) else ([], r)
                     | [] => ([], [])
                     end in
      match digits q with ([], _) => None | (d, p) => Some (c :: s ++ d, p) end
    else Some ([], b)
  end.
Definition dec_value (s : bytes) : N := fold_left (fun a c => 10 * a + (b2n c - 48)) s 0.
Definition is_nil (b : bytes) : bool := match b with [] => true | _ => false end.

(** Digits are taken as long as they fit a [u64] ([parse_integer], [parse_decimal]); the digits left over. *)
Fixpoint take_digits (s : N) (b : bytes) : N * bytes :=
  match b with
  | [] => (s, [])
  | c :: r => let n := 10 * s + (b2n c - 48) in if n <? 2 ^ 64 then take_digits n r else (s, b)
  end.
(** The digits of a fraction, the value of an exponent, given with their marks. *)
Definition frac_digits (f : bytes) : bytes := match f with [] => [] | _ :: d => d end.
Definition exp_value (e : bytes) : Z :=
  match e with
  | _ :: s :: d =>
    if byte_eqb s x2d then - Z.of_N (dec_value d) else if byte_eqb s x2b then Z.of_N (dec_value d) else Z.of_N (dec_value (s :: d))
  | _ => 0
  end.
(** [parse_integer], [parse_long_integer], [parse_decimal], [parse_decimal_overflow], [parse_exponent]: what digits do not fit
    before the point are counted, behind it they are dropped. *)
Definition float_of_parts (i f e : bytes) : option N :=
  let '(s, ri) := take_digits 0 i in
  let '(s', rf) := take_digits s (frac_digits f) in
  from_parts 2 (f64_of_int s') (exp_value e + Z.of_nat (length ri) + Z.of_nat (length rf) - Z.of_nat (length (frac_digits f))).

(** The number of a JSON text that is not an integer of 64 bits. *)
Definition float_of_text (t : bytes) : option f64 :=
  let '(neg, b) := match t with c :: r => if byte_eqb c x2d then (true, r) else (false, t) | [] => (false, []) end in
  let '(i, b1) := digits b in
  if is_nil i || (byte_eqb (hd x31 i) x30 && negb (is_nil (tl i))) then None
  else
    match fraction b1 with
    | None => None
    | Some (f, b2) =>
      match exponent b2 with
      | Some (e, []) => match float_of_parts i f e with Some v => Some (Fin neg v) | None => None end
      | _ => None
      end
    end.
(** [i64 as f64], [u64 as f64]. *)
Definition float_of_int (z : Z) : f64 := Fin (z <? 0)%Z (f64_of_int (Z.abs_N z)).
