(** Proofs about reading number texts: when the result is the closest double, and that what is written reads back. *)

From Coq Require Import Strings.String Lia.
From Verif Require Import Base BaseFacts Clarity SpecShow F64 F64Show Rpc SpecJson SpecF64 F64Thms F64ShowThms.
Local Open Scope N_scope.

(** ** Exact arithmetic *)
Transparent one.
Lemma double_units n : double n -> double (n * one).
Proof. intros (a & b & A & ->). exists a, (b + 1074). split; [exact A|]. unfold one. rewrite N.pow_add_r. apply eq_sym, N.mul_assoc. Qed.
Transparent infinite.
Lemma infinite_is : infinite = 2 ^ 1024 * one.
Proof. reflexivity. Qed.
Opaque one infinite.
Lemma round_exact n : double n -> round n 1 = n * one.
Proof.
  intros D. apply double_units in D. apply N.le_antisymm; [apply round_le|apply round_ge]; try assumption; try reflexivity; rewrite ?N.mul_1_r; apply N.le_refl.
Qed.
Lemma double_ten k : k <= 22 -> double (10 ^ k).
Proof.
  intros K. exists (5 ^ k), k. split; [|now rewrite <- N.pow_mul_l]. apply N.le_lt_trans with (5 ^ 22); [|reflexivity]. apply N.pow_le_mono_r; [discriminate|exact K].
Qed.
Lemma double_small n : n < 2 ^ 53 -> double n.
Proof. intros H. exists n, 0. split; [exact H|]. now rewrite N.pow_0_r, N.mul_1_r. Qed.
Lemma ten_fraction_iff c k n d : ten_fraction c k n d <-> n = num c k /\ d = den k.
Proof.
  unfold ten_fraction, num, den. destruct (0 <=? k)%Z eqn:S; [apply Z.leb_le in S|apply Z.leb_gt in S].
  - split; [intros [(_ & A & B)|(H & _)]; [auto|clear - S H; lia]|intros [A B]; left; auto].
  - split; [intros [(H & _)|(_ & A & B)]; [clear - S H; lia|auto]|intros [A B]; right; auto].
Qed.
Lemma closest_to_iff c k v : closest_to c k v <-> v = round_decimal c k.
Proof.
  unfold closest_to. rewrite round_decimal_is. split.
  - intros (n & d & T & C). apply ten_fraction_iff in T as [-> ->]. apply closest_iff in C; [exact C|apply den_pos].
  - intros ->. exists (num c k), (den k). split; [now apply ten_fraction_iff|]. apply round_closest, den_pos.
Qed.

Lemma exact_scaled s e v : s < 2 ^ 64 -> double s -> (-22 <= e <= 22)%Z -> closest_to s e v -> scaled s e v.
Proof.
  intros S D E (n & d & [(E0 & -> & ->)|(E0 & -> & ->)] & C).
  - apply scaled_up with (s * one) (10 ^ Z.to_N e * one).
    + clear - E E0. lia.
    + apply closest_iff; [reflexivity|]. symmetry. now apply round_exact.
    + apply closest_iff; [reflexivity|]. symmetry. apply round_exact, double_ten. clear - E E0. lia.
    + eapply closest_ratio; [| | |exact C]; [reflexivity|apply N.mul_pos_pos; apply one_pos|]. generalize (10 ^ Z.to_N e) one. clear. intros. nia.
    + apply closest_iff in C; [|reflexivity]. subst v. assert (L : s * 10 ^ Z.to_N e < 2 ^ 138).
      { apply N.lt_le_trans with (2 ^ 64 * 10 ^ 22); [|vm_compute; discriminate]. apply N.lt_le_trans with (2 ^ 64 * 10 ^ Z.to_N e).
        - apply N.mul_lt_mono_pos_r; [apply pow10_pos|exact S].
        - apply N.mul_le_mono_l, N.pow_le_mono_r; [discriminate|]. clear - E E0. lia. }
      apply N.le_lt_trans with (2 ^ 138 * one).
      * apply round_le; [reflexivity|apply double_units, double_pow|]. rewrite N.mul_1_r. apply N.mul_le_mono_r, N.lt_le_incl, L.
      * rewrite infinite_is. apply N.mul_lt_mono_pos_r; [apply one_pos|reflexivity].
  - apply scaled_down with (s * one) (10 ^ Z.to_N (- e) * one).
    + clear - E E0. lia.
    + apply closest_iff; [reflexivity|]. symmetry. now apply round_exact.
    + apply closest_iff; [reflexivity|]. symmetry. apply round_exact, double_ten. clear - E E0. lia.
    + eapply closest_ratio; [| | |exact C]; [apply pow10_pos|apply N.mul_pos_pos; [apply pow10_pos|apply one_pos]|]. generalize (10 ^ Z.to_N (- e)) one. clear. intros. nia.
Qed.
Lemma exact_read t neg int frac ex v : number_of t neg int frac ex -> significand int frac < 2 ^ 64 -> double (significand int frac) ->
  (-22 <= power frac ex <= 22)%Z -> closest_to (significand int frac) (power frac ex) v -> double_of t (Fin neg v).
Proof.
  intros T S D E C. exists neg, int, frac, ex, int, [], frac, [], v. split; [exact T|]. unfold significand, power in *.
  assert (I : decimal_value int < 2 ^ 64) by (eapply N.le_lt_trans; [apply dv_app_le|exact S]).
  split; [|split; [|split; [|reflexivity]]].
  - split; [symmetry; apply app_nil_r|]. split; [now left|]. right. exact I.
  - split; [symmetry; apply app_nil_r|]. split; [now left|]. right. exact S.
  - cbn [length Z.of_nat]. rewrite Z.add_0_r. now apply exact_scaled.
Qed.

(** ** Rounding errors *)
Transparent round.
Lemma round_is n d : round n d = round_units (n * one) d.
Proof. unfold round. now rewrite one_is. Qed.
Opaque round.
Lemma round_error n d : 0 < d -> (2 * off n d (round n d) <= Z.of_N d)%Z \/ (2 ^ 53 * off n d (round n d) <= Z.of_N (n * one))%Z.
Proof.
  intros D. rewrite round_is. unfold off. set (m := n * one). clearbody m. clear n. destruct (round_units_gap m d D) as (s & q & r & (_ & E & R & Q & S) & ->).
  assert (P := pow_pos2 s). unfold rounded.
  assert (H : (2 * Z.abs (Z.of_N m - Z.of_N ((if goes_up d s q r then q + 1 else q) * 2 ^ s * d)) <= Z.of_N (d * 2 ^ s))%Z).
  { unfold goes_up. destruct (d * 2 ^ s <? 2 * r) eqn:L; cbn [orb].
    - apply N.ltb_lt in L. subst m. clear - L R. generalize dependent (2 ^ s). intros. nia.
    - apply N.ltb_ge in L. destruct ((2 * r =? d * 2 ^ s) && N.odd q) eqn:T.
      + apply andb_prop in T as [T _]. apply N.eqb_eq in T. subst m. clear - T R. generalize dependent (2 ^ s). intros. nia.
      + subst m. clear - L R. generalize dependent (2 ^ s). intros. nia. }
  destruct S as [->|S]; [left; change (2 ^ 0) with 1 in *; rewrite (N.mul_1_r d) in H; exact H|right].
  assert (M : (Z.of_N (d * 2 ^ s) * 2 ^ 52 <= Z.of_N m)%Z).
  { subst m. clear - S. generalize dependent (2 ^ s). intros p. apply (N.mul_le_mono_l _ _ (d * p)) in S. rewrite N2Z.inj_add. change (2 ^ 52)%Z with (Z.of_N (2 ^ 52)). generalize dependent (d * p). intros. lia. }
  clear - H M. generalize dependent (Z.abs (Z.of_N m - Z.of_N ((if goes_up d s q r then q + 1 else q) * 2 ^ s * d))). intros. lia.
Qed.
Lemma round_rel n d : 0 < d -> 2 ^ 52 * d <= n * one -> (2 ^ 53 * off n d (round n d) <= Z.of_N (n * one))%Z.
Proof. intros D L. destruct (round_error n d D) as [H|H]; [|exact H]. generalize dependent (off n d (round n d)). generalize dependent (n * one). clear. intros. lia. Qed.

(** ** Fifteen digits *)
Lemma abs_scale a n : (Z.abs a * Z.of_N n = Z.abs (a * Z.of_N n))%Z.
Proof. rewrite Z.abs_mul. f_equal. clear. lia. Qed.
Lemma off_scaled B c k v : (0 <= B)%Z -> (0 <= k + B)%Z ->
  (off (num c k) (den k) v * Z.of_N (ten B) = Z.abs (Z.of_N (c * ten (k + B) * one) - Z.of_N (v * ten B)) * Z.of_N (den k))%Z.
Proof.
  intros H K. pose proof (shift B c k H K) as S. unfold off. rewrite !abs_scale. f_equal.
  apply (f_equal (N.mul one)) in S. generalize dependent one. intros. generalize dependent (num c k). generalize dependent (ten B). generalize dependent (ten (k + B)). generalize dependent (den k). clear. intros. nia.
Qed.
Lemma near_scaled B c k : (0 <= B)%Z -> (0 <= k + B)%Z -> 2 ^ 52 * den k <= num c k * one ->
  let x := Z.of_N (c * ten (k + B) * one) in (2 ^ 53 * Z.abs (x - Z.of_N (round_decimal c k * ten B)) <= x)%Z.
Proof.
  intros H K L x. pose proof (round_rel (num c k) (den k) (den_pos k) L) as R. rewrite <- round_decimal_is in R. pose proof (off_scaled B c k (round_decimal c k) H K) as O. fold x in O.
  pose proof (shift B c k H K) as S. apply (f_equal (N.mul one)) in S. assert (X : (Z.of_N (num c k * one) * Z.of_N (ten B) = x * Z.of_N (den k))%Z).
  { subst x. generalize dependent one. intros. clear - S. generalize dependent (num c k). generalize dependent (ten B). generalize dependent (ten (k + B)). generalize dependent (den k). intros. nia. }
  clearbody x. pose proof (ten_pos B) as TB. pose proof (den_pos k) as DK. clear S L.
  generalize dependent (Z.of_N (num c k * one)). generalize dependent (off (num c k) (den k) (round_decimal c k)).
  generalize dependent (Z.abs (x - Z.of_N (round_decimal c k * ten B))). generalize dependent (ten B). generalize dependent (den k). clear. intros dk DK tb TB a o O n R X.
  apply Z.mul_le_mono_pos_r with (Z.of_N dk); [clear - DK; lia|]. rewrite <- X. rewrite <- Z.mul_assoc, <- O. rewrite Z.mul_assoc. apply Z.mul_le_mono_nonneg_r; [clear; lia|exact R].
Qed.

(** Two numbers of up to fifteen digits that round to the same double are the same. *)
Lemma same_close x1 x2 g : (0 < g)%Z -> (0 <= x1)%Z -> (0 <= x2)%Z -> (2 ^ 53 * Z.abs (x1 - x2) <= x1 + x2)%Z ->
  (x1 < 10 ^ 15 * g \/ x2 < 10 ^ 15 * g)%Z -> (x1 <> x2 -> g <= Z.abs (x1 - x2))%Z -> x1 = x2.
Proof. intros G A B C L N. destruct (Z.eq_dec x1 x2) as [E|E]; [exact E|]. specialize (N E). change (2 ^ 53)%Z with 9007199254740992%Z in C. change (10 ^ 15)%Z with 1000000000000000%Z in L. clear - A B G C L N. lia. Qed.
Lemma fifteen c k c' k' : c < 10 ^ 15 -> c' < 10 ^ 15 -> 2 ^ 52 * den k <= num c k * one -> 2 ^ 52 * den k' <= num c' k' * one ->
  round_decimal c k = round_decimal c' k' -> num c k * den k' = num c' k' * den k.
Proof.
  intros C C' L L' R. set (B := Z.max (Z.max 0 (- k)) (- k')). assert (B0 : (0 <= B)%Z) by (subst B; clear; lia). assert (Bk : (0 <= k + B)%Z) by (subst B; clear; lia).
  assert (Bk' : (0 <= k' + B)%Z) by (subst B; clear; lia). clearbody B.
  pose proof (near_scaled B c k B0 Bk L) as H. pose proof (near_scaled B c' k' B0 Bk' L') as H'. cbv zeta in *. rewrite R in H.
  assert (E : c * ten (k + B) = c' * ten (k' + B)).
  { set (m := Z.min (k + B) (k' + B)). assert (M : (0 <= m)%Z) by (subst m; clear - Bk Bk'; lia).
    replace (k + B)%Z with ((k + B - m) + m)%Z in * by (clear; lia). replace (k' + B)%Z with ((k' + B - m) + m)%Z in * by (clear; lia).
    assert (M1 : (0 <= k + B - m)%Z) by (subst m; clear; lia). assert (M2 : (0 <= k' + B - m)%Z) by (subst m; clear; lia).
    assert (MM : (k + B - m = 0 \/ k' + B - m = 0)%Z) by (subst m; clear; lia).
    rewrite (ten_add (k + B - m) m) in * by assumption. rewrite (ten_add (k' + B - m) m) in * by assumption. set (t1 := ten (k + B - m)) in *. set (t2 := ten (k' + B - m)) in *.
    assert (TT : t1 = 1 \/ t2 = 1) by (destruct MM as [E|E]; [left; subst t1|right; subst t2]; rewrite E; reflexivity).
    pose proof (ten_pos m) as Tm. pose proof one_pos as O. set (u := ten m) in *.
    assert (X : Z.of_N (c * (t1 * u) * one) = Z.of_N (c' * (t2 * u) * one)).
    { apply same_close with (Z.of_N (u * one)).
      - clear - Tm O. nia.
      - clear; lia.
      - clear; lia.
      - clear - H H'. set (w := Z.of_N (round_decimal c' k' * ten B)) in *. clearbody w. set (a := Z.of_N (c * (t1 * u) * one)) in *. set (b := Z.of_N (c' * (t2 * u) * one)) in *. clearbody a b. lia.
      - clear - TT C C' Tm O. assert (U : 0 < u * one) by (clear - Tm O; nia). destruct TT as [->| ->]; [left|right].
        + replace (c * (1 * u) * one) with (c * (u * one)) by (clear; lia). generalize dependent (u * one). intros. change (10 ^ 15)%Z with (Z.of_N (10 ^ 15)). nia.
        + replace (c' * (1 * u) * one) with (c' * (u * one)) by (clear; lia). generalize dependent (u * one). intros. change (10 ^ 15)%Z with (Z.of_N (10 ^ 15)). nia.
      - replace (c * (t1 * u) * one) with (c * t1 * (u * one)) by (clear; lia). replace (c' * (t2 * u) * one) with (c' * t2 * (u * one)) by (clear; lia).
        assert (U : 0 < u * one) by (clear - Tm O; nia). clear - U. generalize dependent (u * one). generalize (c * t1) (c' * t2). intros a b g G G0.
        assert (AB : (1 <= Z.abs (Z.of_N a - Z.of_N b))%Z) by (assert (a <> b) by (intros ->; now apply G0); clear - H; lia).
        rewrite !N2Z.inj_mul, <- Z.mul_sub_distr_r, <- abs_scale. rewrite <- (Z.mul_1_l (Z.of_N g)) at 1. apply Z.mul_le_mono_nonneg_r; [clear; lia|exact AB]. }
    apply N2Z.inj in X. apply N.mul_cancel_r in X; [exact X|]. apply pos_nz, O. }
  pose proof (shift B c k B0 Bk) as S. pose proof (shift B c' k' B0 Bk') as S'. rewrite E in S. clear - S S'.
  apply N.mul_cancel_r with (ten B); [apply pos_nz, ten_pos|]. generalize dependent (ten B). intros. generalize dependent (num c k). generalize dependent (num c' k'). generalize dependent (den k). generalize dependent (den k').
  generalize (c' * ten (k' + B)). intros. nia.
Qed.

(** ** What is written reads back *)
Lemma zero_closest k : closest_to 0 k 0.
Proof. apply closest_to_iff. rewrite round_decimal_is, num_mul, N.mul_0_l. symmetry. apply round_0, den_pos. Qed.
Lemma zero_back neg : double_of (f64_text neg 0) (Fin neg 0).
Proof.
  destruct (zero_number neg) as [_ T]. change (f64_text neg 0) with ((if neg then [x2d] else []) ++ str "0.0"%string).
  apply exact_read with [x30] [x30] 0%Z; [exact T| | | |]; unfold significand, power; cbn [app length Z.of_nat]; change (decimal_value [x30; x30]) with 0.
  - reflexivity.
  - apply double_0.
  - clear. cbn. lia.
  - apply zero_closest.
Qed.
Lemma same_decimal c k c' k' : num c k * den k' = num c' k' * den k -> round_decimal c k = round_decimal c' k'.
Proof.
  intros E. rewrite !round_decimal_is. apply closest_iff; [apply den_pos|]. eapply closest_ratio; [apply den_pos|apply den_pos|exact E|apply round_closest, den_pos].
Qed.
Lemma normal_decimal c k : 0 < c -> (-22 <= k)%Z -> 2 ^ 53 * den k <= num c k * one.
Proof.
  intros C K. apply N.le_trans with (2 ^ 53 * 10 ^ 22).
  - apply N.mul_le_mono_l. unfold den. destruct (0 <=? k)%Z eqn:S; [vm_compute; discriminate|]. apply N.pow_le_mono_r; [discriminate|]. clear - K. lia.
  - apply N.le_trans with (1 * one).
    + rewrite N.mul_1_l. apply N.leb_le. vm_compute. reflexivity.
    + apply N.mul_le_mono_r. rewrite num_mul. pose proof (num_pos k) as P. clear - C P. nia.
Qed.
Lemma text_back neg v D k0 : D < 10 ^ 15 -> (-22 <= k0 <= 0)%Z -> closest_to D k0 v -> double_of (f64_text neg v) (Fin neg v).
Proof.
  intros HD K0 H. apply closest_to_iff in H. destruct (N.eq_dec D 0) as [->|D0].
  { assert (v = 0) as -> by (subst v; symmetry; apply closest_to_iff, zero_closest). apply zero_back. }
  apply N.neq_0_lt_0 in D0. pose proof (normal_decimal D k0 D0 (proj1 K0)) as L. assert (V : double v) by (subst v; rewrite round_decimal_is; apply round_closest, den_pos).
  assert (V2 : 2 ^ 53 <= v) by (subst v; rewrite round_decimal_is; apply round_ge; [apply den_pos|apply double_pow|exact L]).
  assert (V0 : 0 < v) by (eapply N.lt_le_trans; [|exact V2]; reflexivity). destruct (shortest_spec v V0 V) as (C & R & F & _). unfold f64_text. replace (v =? 0) with false by (symmetry; apply N.eqb_neq, pos_nz, V0).
  set (c := fst (shortest v)) in *. set (k := snd (shortest v)) in *. clearbody c k.
  assert (C15 : c < 10 ^ 15) by (apply (F D k0 15); auto).
  assert (L' : 2 ^ 52 * den k <= num c k * one).
  { apply N.le_ngt. intros G. assert (W : v <= 2 ^ 52) by (rewrite <- R, round_decimal_is; apply round_le; [apply den_pos|apply double_pow|apply N.lt_le_incl, G]).
    pose proof (N.le_trans _ _ _ V2 W) as X. revert X. vm_compute. auto. }
  assert (E : num c k * den k0 = num D k0 * den k).
  { apply fifteen; auto; [|now rewrite R]. eapply N.le_trans; [|exact L]. apply N.mul_le_mono_r. vm_compute. discriminate. }
  assert (N0 : num D k0 = D) by (unfold num; destruct (0 <=? k0)%Z eqn:S; [|reflexivity]; assert (k0 = 0%Z) as -> by (apply Z.leb_le in S; clear - S K0; lia); apply N.mul_1_r).
  rewrite N0 in E. destruct (layout_number neg c k C) as (_ & int & frac & ex & T & SD & SP).
  apply exact_read with int frac ex; [exact T| | | |]; unfold significand, power; rewrite ?SD, ?SP; unfold seen_digits, seen_power; destruct (plain_int c k) eqn:PI.
  1, 3, 5, 7: assert (K : (0 <= k)%Z) by (unfold plain_int in PI; apply andb_prop in PI as [PI _]; now apply Z.leb_le in PI);
    assert (X : c * 10 ^ Z.to_N k <= D) by
      (unfold num, den in E; apply Z.leb_le in K; rewrite K in E; fold (den k0) in E; pose proof (den_pos k0) as P; clear - E P; generalize dependent (c * 10 ^ Z.to_N k); generalize dependent (den k0); intros; nia);
    assert (Y : c * 10 ^ Z.to_N (k + 1) = 10 * (c * 10 ^ Z.to_N k)) by (rewrite Z2N.inj_add by (clear - K; lia); rewrite N.pow_add_r; change (10 ^ Z.to_N 1) with 10; clear; lia);
    rewrite ?Y; assert (XD : c * 10 ^ Z.to_N k < 10 ^ 15) by (eapply N.le_lt_trans; eauto).
  - clear - XD. revert XD. generalize (c * 10 ^ Z.to_N k). intros x X. apply N.lt_le_trans with (10 * 10 ^ 15); [now apply N.mul_lt_mono_pos_l|vm_compute; discriminate].
  - exists (5 * (c * 10 ^ Z.to_N k)), 1. split.
    + apply N.lt_le_trans with (5 * 10 ^ 15); [now apply N.mul_lt_mono_pos_l|vm_compute; discriminate].
    + change (2 ^ 1) with 2. clear. lia.
  - clear. lia.
  - apply closest_to_iff. rewrite <- R. apply same_decimal. change (den (-1)) with 10. unfold num, den. apply Z.leb_le in K. rewrite K. change (0 <=? -1)%Z with false. cbv iota. rewrite N.mul_1_r. apply N.mul_comm.
  - eapply N.lt_trans; [exact C15|reflexivity].
  - apply double_small. eapply N.lt_trans; [exact C15|reflexivity].
  - split.
    + apply Z.le_ngt. intros G. unfold num, den in E. replace (0 <=? k)%Z with false in E by (symmetry; apply Z.leb_gt; clear - G; lia). fold (den k0) in E.
      assert (DK : den k0 = 10 ^ Z.to_N (- k0)) by (unfold den; destruct (0 <=? k0)%Z eqn:S; [assert (k0 = 0%Z) as -> by (apply Z.leb_le in S; clear - S K0; lia)|]; reflexivity).
      rewrite DK in E. assert (SP2 : 10 ^ Z.to_N (- k) = 10 ^ Z.to_N (k0 - k) * 10 ^ Z.to_N (- k0)) by (rewrite <- N.pow_add_r; f_equal; clear - G K0; lia).
      rewrite SP2, N.mul_assoc in E. apply N.mul_cancel_r in E; [|apply pos_nz, pow10_pos]. destruct (show_length D D0) as [S1 S2]. specialize (F D k0 _ D0 S2 (eq_sym H)).
      assert (T10 : 10 <= 10 ^ Z.to_N (k0 - k)) by (change 10 with (10 ^ 1) at 1; apply N.pow_le_mono_r; [discriminate|]; clear - G K0; lia).
      set (l := N.of_nat (length (show_N D))) in *. assert (P10 : 10 ^ l <= 10 ^ (l - 1) * 10).
      { replace l with (l - 1 + 1) at 1; [rewrite N.pow_add_r; apply N.le_refl|]. assert (l <> 0); [|clear - H0; lia]. intros Z. rewrite Z in S2. cbn in S2. clear - S2 D0. lia. }
      clear - F E S1 T10 P10. generalize dependent (10 ^ l). generalize dependent (10 ^ (l - 1)). generalize dependent (10 ^ Z.to_N (k0 - k)). intros. nia.
    + apply Z.le_ngt. intros G. unfold num, den in E. replace (0 <=? k)%Z with true in E by (symmetry; apply Z.leb_le; clear - G; lia). fold (den k0) in E.
      assert (X : c * 10 ^ Z.to_N k <= D) by (pose proof (den_pos k0) as P; clear - E P; generalize dependent (c * 10 ^ Z.to_N k); generalize dependent (den k0); intros; nia).
      assert (Y : 10 ^ 22 <= 10 ^ Z.to_N k) by (apply N.pow_le_mono_r; [discriminate|]; clear - G; lia).
      assert (Z : 10 ^ Z.to_N k < 10 ^ 15) by (eapply N.le_lt_trans; [|eapply N.le_lt_trans; [exact X|exact HD]]; clear - C; nia).
      pose proof (N.le_lt_trans _ _ _ Y Z) as W. revert W. vm_compute. discriminate.
  - apply closest_to_iff. now symmetry.
Qed.

(** ** The digits written *)
Lemma seen_same c k : num (seen_digits c k) (seen_power c k) * den k = num c k * den (seen_power c k).
Proof.
  unfold seen_digits, seen_power. destruct (plain_int c k) eqn:PI; [|reflexivity]. unfold plain_int in PI. apply andb_prop in PI as [K _].
  change (den (-1)) with 10. unfold num, den. rewrite K. change (0 <=? -1)%Z with false. cbv iota. apply Z.leb_le in K. rewrite Z2N.inj_add by (clear - K; lia). rewrite N.pow_add_r. change (10 ^ Z.to_N 1) with 10. clear. lia.
Qed.
Lemma written_fewest neg v : 0 < v -> double v -> exists c k, fewest v c k /\ stands_for (f64_text neg v) neg c k.
Proof.
  intros P V. destruct (shortest_spec v P V) as (C & R & F & N). unfold f64_text. replace (v =? 0) with false by (symmetry; apply N.eqb_neq, pos_nz, P).
  set (c := fst (shortest v)) in *. set (k := snd (shortest v)) in *. clearbody c k. exists c, k. split.
  - split; [exact C|]. split; [apply closest_to_iff; now symmetry|]. split.
    + intros c' k' m C' M H. apply closest_to_iff in H. eapply F; eauto.
    + intros c' k' m n d n' d' M L H T T'. apply closest_to_iff in H. apply ten_fraction_iff in T as [-> ->]. apply ten_fraction_iff in T' as [-> ->]. exact (N c' k' m M L (eq_sym H)).
  - destruct (layout_number neg c k C) as (_ & int & frac & ex & T & SD & SP). exists int, frac, ex, (num (seen_digits c k) (seen_power c k)), (den (seen_power c k)), (num c k), (den k).
    split; [exact T|]. split; [unfold significand, power; rewrite SD, SP; now apply ten_fraction_iff|]. split; [now apply ten_fraction_iff|]. apply seen_same.
Qed.
Lemma written_number neg v : 0 < v -> double v -> number_text (f64_text neg v) (JFloat (f64_text neg v)).
Proof.
  intros P V. destruct (shortest_spec v P V) as (C & _). unfold f64_text. replace (v =? 0) with false by (symmetry; apply N.eqb_neq, pos_nz, P). apply layout_number, C.
Qed.
Lemma written_text neg v : double v -> number_text (f64_text neg v) (JFloat (f64_text neg v)).
Proof. intros V. destruct (N.eq_dec v 0) as [->|H]; [apply zero_number|]. apply written_number; [now apply N.neq_0_lt_0|exact V]. Qed.
