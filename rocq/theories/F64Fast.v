(** Other ways to compute the same roundings, on smaller numbers: what examples are evaluated by. *)

From Coq Require Import Lia.
From Verif Require Import Base BaseFacts Clarity F64 F64Show.
Local Open Scope N_scope.

(** ** Common factors 2 *)
Fixpoint strip_pos (p q : positive) : positive * positive :=
  match p, q with
  | xO p', xO q' => strip_pos p' q'
  | _, _ => (p, q)
  end.
Definition strip (n d : N) : N * N :=
  match n, d with
  | Npos p, Npos q => let '(a, b) := strip_pos p q in (Npos a, Npos b)
  | _, _ => (n, d)
  end.

Lemma units_double n d : d <> 0 -> round_units (2 * n) (2 * d) = round_units n d.
Proof.
  intros D. unfold round_units. rewrite N.div_mul_cancel_l by (assumption || discriminate).
  set (s := N.log2 (n / d) - 52). rewrite <- N.mul_assoc. set (m := d * 2 ^ s).
  assert (M : m <> 0) by (apply N.neq_mul_0; split; [exact D|apply N.pow_nonzero; discriminate]).
  rewrite N.div_mul_cancel_l, N.mul_mod_distr_l by (assumption || discriminate). generalize (n mod m) (n / m). intros r q. clearbody m s.
  replace (2 * m <? 2 * (2 * r)) with (m <? 2 * r) by (apply eq_true_iff_eq; rewrite !N.ltb_lt; clear; lia).
  replace (2 * (2 * r) =? 2 * m) with (2 * r =? m) by (apply eq_true_iff_eq; rewrite !N.eqb_eq; clear; lia). reflexivity.
Qed.
Lemma strip_pos_spec p : forall q, exists k, (Npos p = 2 ^ k * Npos (fst (strip_pos p q)) /\ Npos q = 2 ^ k * Npos (snd (strip_pos p q))).
Proof.
  induction p as [p IH|p IH|]; intros [q|q|]; cbn [strip_pos fst snd]; try (exists 0; rewrite !N.mul_1_l; split; reflexivity).
  destruct (IH q) as (k & P & Q). exists (N.succ k). rewrite N.pow_succ_r', <- !N.mul_assoc, <- P, <- Q. split; reflexivity.
Qed.
Lemma strip_spec n d : exists k, n = 2 ^ k * fst (strip n d) /\ d = 2 ^ k * snd (strip n d).
Proof.
  destruct n as [|p], d as [|q]; cbn [strip fst snd]; try (exists 0; rewrite !N.mul_1_l; split; reflexivity).
  destruct (strip_pos_spec p q) as (k & P & Q). exists k. destruct (strip_pos p q). split; assumption.
Qed.
Lemma units_scale k : forall n d, d <> 0 -> round_units (2 ^ k * n) (2 ^ k * d) = round_units n d.
Proof.
  induction k as [|k IH] using N.peano_ind; intros n d D; [now rewrite !N.mul_1_l|]. rewrite N.pow_succ_r', <- !N.mul_assoc, units_double; [apply IH, D|].
  apply N.neq_mul_0. split; [apply N.pow_nonzero; discriminate|exact D].
Qed.

(** ** Powers of 2 in front *)
Lemma div_shift n d t : d <> 0 -> n * 2 ^ t / (d * 2 ^ t) = n / d /\ (n * 2 ^ t) mod (d * 2 ^ t) = n mod d * 2 ^ t.
Proof.
  intros D. assert (T : 2 ^ t <> 0) by (apply N.pow_nonzero; discriminate).
  split; [apply N.div_mul_cancel_r; assumption|apply N.mul_mod_distr_r; assumption].
Qed.
Lemma log2_shift n d t : d <> 0 -> 0 < n / d -> N.log2 (n * 2 ^ t / d) = N.log2 (n / d) + t.
Proof.
  intros D P. assert (T : 0 < 2 ^ t) by (apply N.neq_0_lt_0, N.pow_nonzero; discriminate).
  destruct (N.log2_spec _ P) as [L U]. apply N.log2_unique; [apply N.le_0_l|]. split.
  - rewrite N.pow_add_r. apply N.div_le_lower_bound; [exact D|]. rewrite N.mul_assoc. apply N.mul_le_mono_r.
    apply N.le_trans with (d * (n / d)); [apply N.mul_le_mono_l, L|apply N.mul_div_le, D].
  - rewrite <- N.add_succ_l, N.pow_add_r. apply N.div_lt_upper_bound; [exact D|]. rewrite N.mul_assoc. apply N.mul_lt_mono_pos_r; [exact T|].
    apply N.lt_le_trans with (d * N.succ (n / d)); [apply N.mul_succ_div_gt, D|]. apply N.mul_le_mono_l. apply N.le_succ_l, U.
Qed.
Lemma units_shift n d t : d <> 0 -> 52 <= N.log2 (n / d) -> round_units (n * 2 ^ t) d = 2 ^ t * round_units n d.
Proof.
  intros D L. assert (P : 0 < n / d) by (destruct (n / d); [exfalso; clear - L; cbn in L; lia|reflexivity]).
  unfold round_units. rewrite log2_shift by assumption. replace (N.log2 (n / d) + t - 52) with (N.log2 (n / d) - 52 + t) by (clear - L; lia).
  set (s := N.log2 (n / d) - 52). rewrite N.pow_add_r, (N.mul_assoc d). set (m := d * 2 ^ s).
  assert (M : m <> 0) by (apply N.neq_mul_0; split; [exact D|apply N.pow_nonzero; discriminate]).
  destruct (div_shift n m t M) as [-> ->]. assert (T : 0 < 2 ^ t) by (apply N.neq_0_lt_0, N.pow_nonzero; discriminate).
  generalize dependent (2 ^ t). generalize (n mod m) (n / m) (2 ^ s). clearbody m. intros r q w z T.
  replace (m * z <? 2 * (r * z)) with (m <? 2 * r)
    by (apply eq_true_iff_eq; rewrite !N.ltb_lt, N.mul_assoc; apply (N.mul_lt_mono_pos_r z _ _ T)).
  replace (2 * (r * z) =? m * z) with (2 * r =? m)
    by (apply eq_true_iff_eq; rewrite !N.eqb_eq, N.mul_assoc; split; [now intros ->|]; intros E; apply N.mul_cancel_r in E; [exact E|clear - T; lia]).
  rewrite N.mul_assoc. apply N.mul_comm.
Qed.

(** ** Rounding *)
Definition fast_units (n d : N) (t : N) : N :=
  let '(n, d) := strip n d in
  let j := N.min t (54 + N.log2 d - N.log2 n) in
  let x := n * 2 ^ j in
  if 52 <=? N.log2 (x / d) then 2 ^ (t - j) * round_units x d else round_units (n * 2 ^ t) d.
Definition fast_round (n d : N) : N := fast_units n d 1074.

Lemma round_fast n d : d <> 0 -> round n d = fast_round n d.
Proof.
  intros D. unfold round, fast_round, fast_units, f64_one. generalize 1074. intros t. destruct (strip_spec n d) as (k & A & B). destruct (strip n d) as [n' d']. cbn [fst snd] in A, B.
  assert (D' : d' <> 0) by (intros ->; rewrite N.mul_0_r in B; contradiction).
  assert (R : round_units (n * 2 ^ t) d = round_units (n' * 2 ^ t) d') by (rewrite A, B, <- N.mul_assoc; apply units_scale, D').
  rewrite R. set (j := N.min t (54 + N.log2 d' - N.log2 n')). destruct (52 <=? N.log2 (n' * 2 ^ j / d')) eqn:L; [|reflexivity].
  apply N.leb_le in L. rewrite <- units_shift by assumption. f_equal. rewrite <- N.mul_assoc, <- N.pow_add_r. do 2 f_equal.
  subst j. clear. lia.
Qed.

(** ** Reading *)
Definition fast_pow10 (k : N) : N := fast_round (10 ^ k) 1.
Fixpoint fast_parts (fuel : nat) (f : N) (e : Z) : option N :=
  if (Z.abs e <=? 308)%Z then
    if (0 <=? e)%Z then
      let r := fast_round (f * fast_pow10 (Z.to_N e)) (f64_one * f64_one) in if r <? f64_limit then Some r else None
    else Some (fast_round f (fast_pow10 (Z.to_N (- e))))
  else if f =? 0 then Some 0
  else if (0 <=? e)%Z then None
  else match fuel with O => Some 0 | S g => fast_parts g (fast_round f (fast_pow10 308)) (e + 308) end.
Lemma one_nonzero : f64_one <> 0. Proof. apply N.pow_nonzero. discriminate. Qed.
Lemma round_nonzero n : 0 < n -> round n 1 <> 0.
Proof.
  intros P. unfold round, round_units. rewrite N.div_1_r. set (x := n * f64_one). assert (X : 0 < x) by (apply N.mul_pos_pos; [exact P|apply N.neq_0_lt_0, one_nonzero]).
  set (s := N.log2 x - 52). rewrite N.mul_1_l. assert (T : 2 ^ s <> 0) by (apply N.pow_nonzero; discriminate).
  assert (Q : x / 2 ^ s <> 0).
  { intros E. apply N.div_small_iff in E; [|exact T]. destruct (N.log2_spec x X) as [L _]. assert (2 ^ s <= 2 ^ N.log2 x) by (apply N.pow_le_mono_r; [discriminate|subst s; clear; lia]).
    clear - E L H. generalize dependent (2 ^ s). generalize dependent (2 ^ N.log2 x). intros. lia. }
  apply N.neq_mul_0. split; [|exact T]. generalize dependent (x / 2 ^ s). intros q Q. destruct (_ || _); [clear; lia|exact Q].
Qed.
Lemma int_fast n : f64_of_int n = fast_round n 1.
Proof. apply round_fast. discriminate. Qed.
Lemma pow10_fast k : pow10 k = fast_pow10 k.
Proof. apply round_fast. discriminate. Qed.
Lemma parts_fast fuel : forall f e, from_parts fuel f e = fast_parts fuel f e.
Proof.
  assert (P : forall k, fast_pow10 k <> 0).
  { intros k. rewrite <- pow10_fast. apply round_nonzero, N.neq_0_lt_0, N.pow_nonzero. discriminate. }
  assert (M : forall a b, f64_mul a b = fast_round (a * b) (f64_one * f64_one)).
  { intros a b. apply round_fast, N.neq_mul_0. split; exact one_nonzero. }
  assert (D : forall a k, f64_div a (fast_pow10 k) = fast_round a (fast_pow10 k)).
  { intros a k. apply round_fast, P. }
  induction fuel as [|g IH]; intros f e; cbn [from_parts fast_parts]; rewrite !pow10_fast, M, !D; [reflexivity|]. rewrite IH. reflexivity.
Qed.
Definition fast_of_parts (i f e : bytes) : option N :=
  let '(s, ri) := take_digits 0 i in
  let '(s', rf) := take_digits s (frac_digits f) in
  fast_parts 2 (fast_round s' 1) (exp_value e + Z.of_nat (length ri) + Z.of_nat (length rf) - Z.of_nat (length (frac_digits f))).
Lemma of_parts_fast i f e : float_of_parts i f e = fast_of_parts i f e.
Proof.
  unfold float_of_parts, fast_of_parts. destruct (take_digits 0 i) as [s ri]. destruct (take_digits s (frac_digits f)) as [s' rf].
  rewrite int_fast. apply parts_fast.
Qed.
Definition fast_of_text (t : bytes) : option f64 :=
  let '(neg, b) := match t with c :: r => if byte_eqb c x2d then (true, r) else (false, t) | [] => (false, []) end in
  let '(i, b1) := digits b in
  if is_nil i || (byte_eqb (hd x31 i) x30 && negb (is_nil (tl i))) then None
  else
    match fraction b1 with
    | None => None
    | Some (f, b2) =>
      match exponent b2 with
      | Some (e, []) => match fast_of_parts i f e with Some v => Some (Fin neg v) | None => None end
      | _ => None
      end
    end.
Lemma of_text_fast t : float_of_text t = fast_of_text t.
Proof.
  unfold float_of_text, fast_of_text. destruct (match t with [] => _ | c :: r => _ end) as [neg b]. destruct (digits b) as [i b1].
  destruct (is_nil i || _); [reflexivity|]. destruct (fraction b1) as [[f b2]|]; [|reflexivity]. destruct (exponent b2) as [[e [|c r]]|]; [|reflexivity|reflexivity].
  rewrite of_parts_fast. reflexivity.
Qed.

(** ** Writing *)
Definition fast_decimal (c : N) (k : Z) : N :=
  if (0 <=? k)%Z then fast_round (c * 10 ^ Z.to_N k) 1 else fast_round c (10 ^ Z.to_N (- k)).
Lemma decimal_fast c k : round_decimal c k = fast_decimal c k.
Proof. unfold round_decimal, fast_decimal. destruct (0 <=? k)%Z; apply round_fast; [discriminate|apply N.pow_nonzero; discriminate]. Qed.
Definition fast_first (v : N) : Z := let '(n, d) := strip (v * 10 ^ 324) f64_one in (Z.of_nat (length (show_N (n / d))) - 325)%Z.
Lemma strip_div n d : d <> 0 -> n / d = fst (strip n d) / snd (strip n d).
Proof.
  intros D. destruct (strip_spec n d) as (k & A & B). revert A B. generalize (strip n d). intros [a b] A B. cbn [fst snd] in *. subst.
  apply N.div_mul_cancel_l; [|apply N.pow_nonzero; discriminate]. intros ->. apply D, N.mul_0_r.
Qed.
Lemma first_fast v : first_power v = fast_first v.
Proof.
  unfold first_power, fast_first. rewrite strip_div by apply one_nonzero. destruct (strip (v * 10 ^ 324) f64_one). reflexivity.
Qed.
Definition fast_pick (v : N) (e : Z) (p : nat) : option (N * Z) :=
  let k := (e - Z.of_nat p + 1)%Z in
  let n := if (0 <=? k)%Z then v else v * 10 ^ Z.to_N (- k) in
  let d := if (0 <=? k)%Z then f64_one * 10 ^ Z.to_N k else f64_one in
  let '(n, d) := strip n d in
  let q := n / d in
  let r := n mod d in
  let low := fast_decimal q k =? v in
  let high := fast_decimal (q + 1) k =? v in
  if low && high then Some (if (2 * r <? d) || ((2 * r =? d) && N.even q) then q else q + 1, k)
  else if low then Some (q, k)
  else if high then Some (q + 1, k)
  else None.
Lemma pick_fast v e p : pick v e p = fast_pick v e p.
Proof.
  unfold pick, fast_pick. set (k := (e - Z.of_nat p + 1)%Z). set (n := if (0 <=? k)%Z then v else _). set (d := if (0 <=? k)%Z then f64_one * _ else _).
  assert (D : d <> 0).
  { subst d. destruct (0 <=? k)%Z; [apply N.neq_mul_0; split; [|apply N.pow_nonzero; discriminate]|]; apply one_nonzero. }
  clearbody n d. rewrite strip_div by exact D. destruct (strip_spec n d) as (j & A & B). destruct (strip n d) as [n' d']. cbn [fst snd] in *.
  assert (D' : d' <> 0) by (intros E; apply D; rewrite B, E; apply N.mul_0_r).
  assert (J : 0 < 2 ^ j) by (apply N.neq_0_lt_0, N.pow_nonzero; discriminate).
  rewrite <- !decimal_fast. assert (R : n mod d = 2 ^ j * (n' mod d')) by (rewrite A, B; apply N.mul_mod_distr_l; [exact D'|clear - J; lia]).
  rewrite R. generalize (n' mod d'). intros r. rewrite B. clear R A B. generalize dependent (2 ^ j). intros z J.
  replace (2 * (z * r) <? z * d') with (2 * r <? d')
    by (apply eq_true_iff_eq; rewrite !N.ltb_lt; replace (2 * (z * r)) with (z * (2 * r)) by (clear; lia); apply (N.mul_lt_mono_pos_l z _ _ J)).
  replace (2 * (z * r) =? z * d') with (2 * r =? d')
    by (apply eq_true_iff_eq; rewrite !N.eqb_eq; replace (2 * (z * r)) with (z * (2 * r)) by (clear; lia);
        split; [now intros ->|]; intros E; apply N.mul_cancel_l in E; [exact E|clear - J; lia]).
  reflexivity.
Qed.
Fixpoint fast_pick_from (v : N) (e : Z) (p n : nat) : option (N * Z) :=
  match n with
  | O => None
  | S m => match fast_pick v e p with Some x => Some x | None => fast_pick_from v e (S p) m end
  end.
Lemma pick_from_fast v e n : forall p, pick_from v e p n = fast_pick_from v e p n.
Proof. induction n as [|n IH]; intros p; [reflexivity|]. cbn [pick_from fast_pick_from]. rewrite pick_fast, IH. reflexivity. Qed.
Definition fast_shortest (v : N) : N * Z :=
  match fast_pick_from v (fast_first v) 1 17 with
  | Some (c, k) => if c =? 10 then (1, (k + 1)%Z) else (c, k)
  | None => (0, 0%Z)
  end.
Lemma shortest_fast v : shortest v = fast_shortest v.
Proof. unfold shortest, fast_shortest. rewrite first_fast, pick_from_fast. reflexivity. Qed.
Definition fast_text (neg : bool) (v : N) : bytes :=
  (if neg then [x2d] else []) ++ (if v =? 0 then [x30; x2e; x30] else let '(c, k) := fast_shortest v in layout c k).
Lemma text_fast neg v : f64_text neg v = fast_text neg v.
Proof. unfold f64_text, fast_text. rewrite shortest_fast. destruct (fast_shortest v). reflexivity. Qed.
