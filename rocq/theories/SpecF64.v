(** Floating-point numbers as published (IEEE 754, binary64) and JSON numbers read as such.  Nothing of the model's arithmetic. *)

From Coq Require Import Strings.String.
From Verif Require Import Base SpecShow F64 Rpc SpecJson.
Local Open Scope N_scope.

(** ** Doubles *)

(** Magnitudes are counted in the smallest one, 2^-1074. *)
Definition one : N := 2 ^ 1074.
Definition infinite : N := 2 ^ 1024 * one.
(** 53 significant bits. *)
Definition double (v : N) : Prop := exists a b, a < 2 ^ 53 /\ v = a * 2 ^ b.
(** The last of them is 0. *)
Definition even_double (v : N) : Prop := exists a b, N.Even a /\ a <= 2 ^ 53 /\ (b = 0 \/ 2 ^ 52 <= a) /\ v = a * 2 ^ b.
(** How far [v] is from the number [n / d]. *)
Definition off (n d v : N) : Z := Z.abs (Z.of_N (n * one) - Z.of_N (v * d)).
(** The double closest to [n / d], of two the even one. *)
Definition closest (n d v : N) : Prop :=
  double v /\ forall w, double w -> (off n d v <= off n d w)%Z /\ (off n d v = off n d w -> w = v \/ even_double v).

(** ** Number texts *)

(** Sign, digits before and behind the point, and exponent of a number (RFC 8259). *)
Definition number_of (t : bytes) (neg : bool) (int frac : bytes) (ex : Z) : Prop :=
  exists m f e, t = m ++ int ++ f ++ e
  /\ m = (if neg then [x2d] else [])
  /\ int_text int
  /\ ((frac = [] /\ f = []) \/ (digits1 frac /\ f = x2e :: frac))
  /\ ((ex = 0%Z /\ e = [])
      \/ exists c s d, (c = x65 \/ c = x45) /\ digits1 d /\ e = c :: s ++ d
         /\ ((s = [x2d] /\ ex = (- Z.of_N (decimal_value d))%Z) \/ ((s = [] \/ s = [x2b]) /\ ex = Z.of_N (decimal_value d)))).
(** The number [c * 10^k] as a fraction, and the double closest to it. *)
Definition ten_fraction (c : N) (k : Z) (n d : N) : Prop :=
  ((0 <= k)%Z /\ n = c * 10 ^ Z.to_N k /\ d = 1) \/ ((k < 0)%Z /\ n = c /\ d = 10 ^ Z.to_N (- k)).
Definition closest_to (c : N) (k : Z) (v : N) : Prop := exists n d, ten_fraction c k n d /\ closest n d v.
(** The digits of a number and the power of ten they are to be multiplied by. *)
Definition significand (int frac : bytes) : N := decimal_value (int ++ frac).
Definition power (frac : bytes) (ex : Z) : Z := (ex - Z.of_nat (length frac))%Z.

(** [v] differs from [n / d] by no more than a 2^50th of that and the smallest positive number. *)
Definition about (n d v : N) : Prop := (2 ^ 50 * off n d v <= Z.of_N (n * one) + 2 ^ 50 * Z.of_N d)%Z.

(** ** What [serde_json] makes of them *)

(** As many of the digits [ds], behind the digits [a], as fit 64 bits. *)
Definition kept (a ds k r : bytes) : Prop :=
  ds = k ++ r /\ (r = [] \/ exists c q, r = c :: q /\ 2 ^ 64 <= decimal_value (a ++ k ++ [c]))
  /\ (k = [] \/ decimal_value (a ++ k) < 2 ^ 64).
(** [s * 10^e], computed with doubles. *)
Inductive scaled (s : N) (e : Z) : N -> Prop :=
| scaled_up f p v : (0 <= e <= 308)%Z -> closest s 1 f -> closest (10 ^ Z.to_N e) 1 p -> closest (f * p) (one * one) v ->
    v < infinite -> scaled s e v
| scaled_down f p v : (-308 <= e < 0)%Z -> closest s 1 f -> closest (10 ^ Z.to_N (- e)) 1 p -> closest f p v -> scaled s e v
| scaled_twice f p g q v : (-616 <= e < -308)%Z -> closest s 1 f -> closest (10 ^ 308) 1 p -> closest f p g ->
    closest (10 ^ Z.to_N (- e - 308)) 1 q -> closest g q v -> scaled s e v
| scaled_zero : s = 0 \/ (e < -616)%Z -> scaled s e 0.
Definition double_of (t : bytes) (r : f64) : Prop :=
  exists neg int frac ex ki ri kf rf v, number_of t neg int frac ex /\ kept [] int ki ri /\ kept ki frac kf rf
  /\ scaled (decimal_value (ki ++ kf)) (ex + Z.of_nat (length ri) - Z.of_nat (length kf)) v /\ r = Fin neg v.

(** The rate a JSON value is read as. *)
Definition rate_of (j : json) (r : f64) : Prop :=
  match j with
  | JInt z => exists v, closest (Z.abs_N z) 1 v /\ r = Fin (z <? 0)%Z v
  | JFloat t => double_of t r
  | _ => False
  end.

(** ** Numbers written *)

(** What a fee rate can be: zero, positive or negative doubles, infinities, not a number. *)
Definition is_f64 (r : f64) : Prop := match r with Fin _ v => double v /\ v < infinite | _ => True end.
Definition finite (r : f64) : Prop := match r with Fin _ _ => True | _ => False end.
(** A decimal number of up to 15 digits, up to 22 of them behind the point, as closely as it can be had. *)
Definition short_decimal (r : f64) : Prop :=
  exists neg v c k, r = Fin neg v /\ c < 10 ^ 15 /\ (-22 <= k <= 0)%Z /\ closest_to c k v.
(** [c * 10^k] has the fewest digits by which [v] is told from other doubles, and is as close to [v] as any with these. *)
Definition fewest (v c : N) (k : Z) : Prop :=
  0 < c /\ closest_to c k v
  /\ (forall c' k' m, 0 < c' -> c' < 10 ^ m -> closest_to c' k' v -> c < 10 ^ m)
  /\ forall c' k' m n d n' d', c' < 10 ^ m -> 10 ^ (m - 1) <= c -> closest_to c' k' v -> ten_fraction c k n d -> ten_fraction c' k' n' d' ->
       (off n d v * Z.of_N d' <= off n' d' v * Z.of_N d)%Z.
(** The JSON number [t] stands for [c * 10^k]. *)
Definition stands_for (t : bytes) (neg : bool) (c : N) (k : Z) : Prop :=
  exists int frac ex n d n' d', number_of t neg int frac ex /\ ten_fraction (significand int frac) (power frac ex) n d
  /\ ten_fraction c k n' d' /\ n * d' = n' * d.

(** ** Fee estimates *)

(** A rate is about what a JSON value says. *)
Definition rate_about (j : json) (r : f64) : Prop :=
  exists neg v n d, r = Fin neg v /\ double v /\ about n d v
  /\ ((exists z, j = JInt z /\ neg = (z <? 0)%Z /\ n = Z.abs_N z /\ d = 1)
      \/ exists t int frac ex, j = JFloat t /\ number_of t neg int frac ex /\ ten_fraction (significand int frac) (power frac ex) n d).
(** An estimate differs from another in the last places of its rate at most. *)
Definition near_estimate (e e' : fee_estimate) : Prop :=
  fe_fee e' = fe_fee e
  /\ exists neg v w, fe_rate e = Fin neg v /\ fe_rate e' = Fin neg w /\ double w /\ w < infinite
     /\ (2 ^ 49 * Z.abs (Z.of_N w - Z.of_N v) <= Z.of_N v + 2 ^ 50)%Z.
