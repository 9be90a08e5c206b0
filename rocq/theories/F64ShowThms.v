(** Proofs about writing floating-point numbers (C83, C93). *)

From Coq Require Import Strings.String Lia.
From Verif Require Import Base BaseFacts SpecShow Clarity ShowFacts F64 F64Show Rpc SpecJson SpecF64 F64Thms.
Local Open Scope list_scope.
Local Open Scope N_scope.

(** ** Digits *)
Lemma dv_one c : decimal_value [c] = Byte.to_N c - 48.
Proof. rewrite <- (app_nil_l [c]), dv_snoc. change (decimal_value []) with 0. clear. lia. Qed.
Lemma dv_app a b : decimal_value (a ++ b) = decimal_value a * 10 ^ N.of_nat (length b) + decimal_value b.
Proof.
  revert a. induction b as [|c b IH]; intros a.
  - rewrite app_nil_r. change (decimal_value []) with 0. cbn [length]. change (10 ^ N.of_nat 0) with 1. clear. lia.
  - replace (a ++ c :: b) with ((a ++ [c]) ++ b) by now rewrite <- app_assoc. rewrite IH, dv_snoc.
    change (c :: b) with ([c] ++ b). rewrite (IH [c]), dv_one. cbn [length app].
    rewrite Nat2N.inj_succ, N.pow_succ_r'. clear. generalize (10 ^ N.of_nat (length b)). intros n. lia.
Qed.
Lemma dv_zeros n : decimal_value (repeat x30 n) = 0.
Proof. induction n as [|n IH]; [reflexivity|]. change (repeat x30 (S n)) with ([x30] ++ repeat x30 n). rewrite dv_app, IH. change (decimal_value [x30]) with 0. clear. lia. Qed.
Lemma dv_bound d : Forall digit d -> decimal_value d < 10 ^ N.of_nat (length d).
Proof.
  induction d as [|c d IH] using rev_ind; intros D; [reflexivity|]. apply Forall_app in D. destruct D as [D C]. inversion C as [|? ? C' _]; subst. specialize (IH D).
  rewrite dv_snoc, app_length. cbn [length]. rewrite Nat.add_1_r, Nat2N.inj_succ, N.pow_succ_r'. unfold digit in C'. clear - IH C'.
  generalize dependent (10 ^ N.of_nat (length d)). intros n L. lia.
Qed.
Lemma digits_show c : Forall digit (show_N c).
Proof. exact (proj1 (show_N_decimal c)). Qed.
Lemma value_show c : decimal_value (show_N c) = c.
Proof. exact (proj1 (proj2 (show_N_decimal c))). Qed.
Lemma show_pos c : 0 < c -> exists a r, show_N c = a :: r /\ digit a /\ a <> x30 /\ Forall digit r.
Proof.
  intros P. destruct (show_N_decimal c) as (D & V & [E|(a & r & E & H)]).
  - rewrite E in V. cbn in V. subst c. discriminate.
  - exists a, r. rewrite E in D. inversion D; subst. auto.
Qed.
(** How many digits a number has. *)
Lemma show_length c : 0 < c -> let n := N.of_nat (length (show_N c)) in 10 ^ (n - 1) <= c < 10 ^ n.
Proof.
  intros P n. subst n. split.
  - destruct (show_pos c P) as (a & r & E & D & Z & R). pose proof (value_show c) as V. rewrite E in V |- *. rewrite <- V. clear V. cbn [length]. rewrite Nat2N.inj_succ.
    replace (N.succ (N.of_nat (length r)) - 1) with (N.of_nat (length r)) by (clear; lia). change (a :: r) with ([a] ++ r). rewrite dv_app.
    rewrite dv_one. assert (G : 1 <= Byte.to_N a - 48).
    { unfold digit in D. assert (Byte.to_N a <> 48) by (intros X; apply Z; change 48 with (Byte.to_N x30) in X; apply b2n_inj; exact X). clear - D H. lia. }
    clear - G. generalize (10 ^ N.of_nat (length r)). intros n. nia.
  - pose proof (dv_bound _ (digits_show c)) as B. now rewrite value_show in B.
Qed.
Lemma length_show c n : 10 ^ (n - 1) <= c < 10 ^ n -> 0 < n -> N.of_nat (length (show_N c)) = n.
Proof.
  intros [L H] P. assert (C : 0 < c) by (apply N.lt_le_trans with (10 ^ (n - 1)); [apply pow10_pos|exact L]).
  destruct (show_length c C) as [L' H']. set (m := N.of_nat (length (show_N c))) in *.
  assert (M : 0 < m) by (destruct (show_pos c C) as (a & r & E & _); subst m; rewrite E; cbn [length]; clear; lia).
  assert (A : n - 1 < m) by (apply (N.pow_lt_mono_r_iff 10); [reflexivity|]; eapply N.le_lt_trans; eassumption).
  assert (B : m - 1 < n) by (apply (N.pow_lt_mono_r_iff 10); [reflexivity|]; eapply N.le_lt_trans; eassumption).
  clear - A B M P. lia.
Qed.

(** ** Layout *)
(** A number with a point or an exponent is never taken for an integer. *)
Lemma float_text m i f e : (m = [] \/ m = [x2d]) -> int_text i -> frac_text f -> exp_text e -> f ++ e <> [] ->
  number_text (m ++ i ++ f ++ e) (JFloat (m ++ i ++ f ++ e)).
Proof.
  intros M I F X FE. right. split; [|exists m, i, f, e; repeat split; auto].
  intros z _ H.
  assert (A : exists x, (m ++ i) ++ f ++ e = x /\ Forall (fun c => digit c \/ c = x2d) x).
  { eexists. split; [now rewrite <- app_assoc|]. destruct H as [[_ (D & _)]|[_ (r & -> & (D & _))]].
    - revert D. apply Forall_impl. auto.
    - constructor; [auto|]. revert D. apply Forall_impl. auto. }
  destruct A as (x & <- & A). apply Forall_app in A. destruct A as [_ A]. apply Forall_app in A. destruct A as [Af Ae].
  destruct F as [->|(d & _ & ->)].
  - destruct X as [->|(c & s & d & C & _ & _ & ->)]; [now destruct FE|]. apply Forall_inv in Ae.
    destruct C as [-> | ->], Ae as [G|G]; try discriminate; unfold digit in G; cbn in G; clear - G; lia.
  - inversion Af as [|? ? [G|G] _]; subst; [unfold digit in G; cbn in G; clear - G; lia|discriminate].
Qed.

Lemma zeros_length k : (0 <= k)%Z -> Z.of_nat (length (zeros k)) = k.
Proof. intros H. unfold zeros. rewrite repeat_length. clear - H. lia. Qed.
Lemma zeros_digits k : Forall digit (zeros k).
Proof. unfold zeros. apply Forall_forall. intros x X. apply repeat_spec in X. subst x. unfold digit. cbn. clear. lia. Qed.
Lemma exp_show z : exp_is (x65 :: show_Z z) z.
Proof.
  right. unfold show_Z. destruct (z <? 0)%Z eqn:S.
  - apply Z.ltb_lt in S. exists x65, [x2d], (show_N (Z.to_N (- z))). split; [now left|]. split.
    + split; [|apply digits_show]. destruct (show_pos (Z.to_N (- z))) as (a & r & E & _); [clear - S; lia|]. now rewrite E.
    + split; [reflexivity|]. left. split; [reflexivity|]. rewrite value_show. clear - S. lia.
  - apply Z.ltb_ge in S. exists x65, [], (show_N (Z.to_N z)). split; [now left|]. split.
    + split; [|apply digits_show]. destruct (show_N_decimal (Z.to_N z)) as (_ & _ & [E|(a & r & E & _)]); now rewrite E.
    + split; [reflexivity|]. right. split; [now left|]. rewrite value_show. clear - S. lia.
Qed.

(** The digits and the exponent that are read where [c * 10^k] is written. *)
Definition plain_int (c : N) (k : Z) : bool := ((0 <=? k) && (Z.of_nat (length (show_N c)) + k <=? 16))%Z.
Definition seen_digits (c : N) (k : Z) : N := if plain_int c k then c * 10 ^ Z.to_N (k + 1) else c.
Definition seen_power (c : N) (k : Z) : Z := if plain_int c k then (-1)%Z else k.
Lemma layout_parts c k : 0 < c -> exists int frac ex f e, layout c k = int ++ f ++ e /\ int_text int /\ frac_is f frac /\ exp_is e ex
  /\ f ++ e <> [] /\ decimal_value (int ++ frac) = seen_digits c k /\ (ex - Z.of_nat (length frac))%Z = seen_power c k.
Proof.
  intros P. unfold layout, seen_digits, seen_power. destruct (show_pos c P) as (a & r & E & A & Z & R). pose proof (digits_show c) as D. pose proof (value_show c) as V.
  fold (plain_int c k). set (d := show_N c) in *. set (kk := (Z.of_nat (length d) + k)%Z) in *.
  assert (I : forall q, Forall digit q -> int_text (a :: q)).
  { intros q Q. right. split; [split; [discriminate|now constructor]|exact Z]. }
  destruct (plain_int c k) eqn:C1.
  - unfold plain_int in C1. apply andb_true_iff in C1. destruct C1 as [K _]. apply Z.leb_le in K.
    exists (d ++ zeros k), [x30], 0%Z, (str ".0"%string), []. split; [now rewrite app_nil_r, <- app_assoc|]. split.
    { rewrite E. cbn [app]. apply I. apply Forall_app. split; [exact R|apply zeros_digits]. }
    split; [right; split; [split; [discriminate|repeat constructor; unfold digit; cbn; clear; lia]|reflexivity]|].
    split; [now left|]. split; [discriminate|]. split; [|reflexivity].
    rewrite !dv_app, V. unfold zeros. rewrite dv_zeros, repeat_length. change (decimal_value [x30]) with 0. cbn [length].
    replace (Z.to_N (k + 1)) with (N.of_nat (Z.to_nat k) + N.of_nat 1) by (clear - K; lia). rewrite N.pow_add_r. clear. lia.
  - destruct ((0 <? kk) && (kk <=? 16))%Z eqn:C2.
    + apply andb_true_iff in C2. destruct C2 as [K K']. apply Z.ltb_lt in K.
      assert (Kn : (k < 0)%Z).
      { unfold plain_int in C1. apply andb_false_iff in C1. destruct C1 as [C1|C1]; [now apply Z.leb_gt in C1|]. fold d kk in C1. congruence. }
      assert (L : (0 < Z.to_nat kk < length d)%nat) by (subst kk; clear - K Kn; lia). set (n := Z.to_nat kk) in *.
      exists (firstn n d), (skipn n d), 0%Z, (x2e :: skipn n d), []. split; [now rewrite app_nil_r|]. split.
      { rewrite E. destruct n as [|n]; [clear - L; lia|]. cbn [firstn]. apply I. rewrite <- (firstn_skipn n r) in R. now apply Forall_app in R. }
      split; [right; split; [|reflexivity]; split|].
      { intros H. apply (f_equal (@length byte)) in H. rewrite skipn_length in H. cbn in H. clear - H L. lia. }
      { rewrite <- (firstn_skipn n d) in D. now apply Forall_app in D. }
      split; [now left|]. split; [discriminate|]. rewrite firstn_skipn. split; [exact V|]. rewrite skipn_length. subst n kk. clear - K Kn. lia.
    + destruct ((-5 <? kk) && (kk <=? 0))%Z eqn:C3.
      * apply andb_true_iff in C3. destruct C3 as [_ K]. apply Z.leb_le in K.
        exists [x30], (zeros (- kk) ++ d), 0%Z, (x2e :: zeros (- kk) ++ d), []. split; [now rewrite app_nil_r|]. split; [now left|].
        split; [right; split; [|reflexivity]; split|].
        { rewrite E. intros H. apply app_eq_nil in H. destruct H. discriminate. }
        { apply Forall_app. split; [apply zeros_digits|exact D]. }
        split; [now left|]. split; [discriminate|]. split.
        { change ([x30] ++ zeros (- kk) ++ d) with (([x30] ++ zeros (- kk)) ++ d). rewrite dv_app. unfold zeros. rewrite dv_app, dv_zeros. change (decimal_value [x30]) with 0. rewrite V. clear. lia. }
        rewrite app_length, Nat2Z.inj_add, zeros_length by (clear - K; lia). subst kk. clear. lia.
      * rewrite E. assert (Lk : kk = (Z.of_nat (length r) + 1 + k)%Z) by (subst kk; rewrite E; cbn [length]; clear; lia).
        rewrite E in V. destruct r as [|b r].
        -- exists [a], [], (kk - 1)%Z, [], (x65 :: show_Z (kk - 1)). split; [reflexivity|]. split; [apply I; constructor|].
           split; [now left|]. split; [apply exp_show|]. split; [discriminate|]. split; [exact V|]. cbn [length] in *. clear - Lk. lia.
        -- exists [a], (b :: r), (kk - 1)%Z, (x2e :: b :: r), (x65 :: show_Z (kk - 1)). split; [reflexivity|]. split; [apply I; constructor|].
           split; [right; split; [split; [discriminate|exact R]|reflexivity]|]. split; [apply exp_show|]. split; [discriminate|]. split; [exact V|]. clear - Lk. lia.
Qed.

Lemma frac_is_frac f frac : frac_is f frac -> frac_text f.
Proof. intros F. apply frac_is_text. eauto. Qed.
Lemma exp_is_exp e ex : exp_is e ex -> exp_text e.
Proof. intros X. apply exp_is_text. eauto. Qed.
(** What is written for [c * 10^k]. *)
Lemma layout_number (neg : bool) c k : 0 < c -> let t := (if neg then [x2d] else []) ++ layout c k in
  number_text t (JFloat t) /\ exists int frac ex, number_of t neg int frac ex /\ decimal_value (int ++ frac) = seen_digits c k
    /\ (ex - Z.of_nat (length frac))%Z = seen_power c k.
Proof.
  intros P t. destruct (layout_parts c k P) as (int & frac & ex & f & e & E & I & F & X & NE & V & L). subst t. rewrite E. split.
  - apply float_text; [destruct neg; auto|exact I|eapply frac_is_frac; eauto|eapply exp_is_exp; eauto|exact NE].
  - exists int, frac, ex. split; [|split; assumption]. apply number_of_is. exists f, e. auto.
Qed.
Lemma zero_number (neg : bool) : let t := (if neg then [x2d] else []) ++ str "0.0"%string in
  number_text t (JFloat t) /\ number_of t neg [x30] [x30] 0.
Proof.
  assert (D : digits1 [x30]) by (split; [discriminate|repeat constructor; unfold digit; cbn; clear; lia]).
  assert (F : frac_is (str ".0"%string) [x30]) by (right; split; [exact D|reflexivity]). split.
  - apply (float_text _ [x30] (str ".0"%string) []); [destruct neg; auto|now left|eapply frac_is_frac; eauto|now left|discriminate].
  - apply number_of_is. exists (str ".0"%string), []. split; [now destruct neg|]. split; [now left|]. split; [exact F|now left].
Qed.

(** ** Rounding keeps the order *)
Lemma closest_ratio n d n' d' v : 0 < d -> 0 < d' -> n * d' = n' * d -> closest n d v -> closest n' d' v.
Proof.
  intros D D' E [V C]. split; [exact V|]. intros w W. destruct (C w W) as [L T].
  assert (H : forall u, (off n' d' u * Z.of_N d = off n d u * Z.of_N d')%Z).
  { intros u. unfold off. rewrite <- (Z.abs_eq (Z.of_N d)), <- (Z.abs_eq (Z.of_N d')), <- !Z.abs_mul by (clear; lia). f_equal. rewrite !N2Z.inj_mul.
    apply (f_equal Z.of_N) in E. rewrite !N2Z.inj_mul in E. rewrite !Z.mul_sub_distr_r.
    replace (Z.of_N n * Z.of_N one * Z.of_N d')%Z with (Z.of_N n * Z.of_N d' * Z.of_N one)%Z by ring. rewrite E. ring. }
  split.
  - apply (Z.mul_le_mono_pos_r _ _ (Z.of_N d)); [clear - D; lia|]. rewrite !H. apply Z.mul_le_mono_nonneg_r; [clear; lia|exact L].
  - intros Q. apply T. apply (Z.mul_reg_r _ _ (Z.of_N d')); [clear - D'; lia|]. rewrite <- !H. now rewrite Q.
Qed.
Lemma round_mono n d n' d' : 0 < d -> 0 < d' -> n * d' <= n' * d -> round n d <= round n' d'.
Proof.
  intros D D' L. pose proof (round_closest n d D) as C. pose proof (round_closest n' d' D') as C'.
  set (w := round n d) in *. set (w' := round n' d') in *. apply N.le_ngt. intros G.
  pose proof (proj1 (proj2 C w' (proj1 C'))) as O. pose proof (proj1 (proj2 C' w (proj1 C))) as O'. unfold off in O, O'.
  assert (A : (w + w') * d <= 2 * (n * one)) by (clear - O G D; assert (w' * d < w * d) by (apply N.mul_lt_mono_pos_r; assumption); lia).
  assert (A' : 2 * (n' * one) <= (w + w') * d') by (clear - O' G D'; assert (w' * d' < w * d') by (apply N.mul_lt_mono_pos_r; assumption); lia).
  assert (Q : n * d' = n' * d).
  { apply N.le_antisymm; [exact L|]. apply (N.mul_le_mono_pos_r _ _ (2 * one)); [pose proof one_pos; clear - H; lia|].
    apply (N.mul_le_mono_r _ _ d') in A. apply (N.mul_le_mono_r _ _ d) in A'. clear - A A'. 
    replace (n' * d * (2 * one)) with (2 * (n' * one) * d) by (clear; lia). replace (n * d' * (2 * one)) with (2 * (n * one) * d') by (clear; lia).
    etransitivity; [exact A'|]. etransitivity; [|exact A]. clear. lia. }
  assert (E : w = w').
  { apply (closest_iff n' d' w D'). now apply (closest_ratio n d). }
  clear - G E. lia.
Qed.

(** ** Doubles are apart *)
Lemma doubles_apart v w : double v -> double w -> v <> w -> (Z.of_N v <= Z.abs (Z.of_N w - Z.of_N v) * 2 ^ 53)%Z.
Proof.
  intros (a & b & A & ->) (c & e & C & ->) N. destruct (N.le_gt_cases b e) as [L|L].
  - replace e with ((e - b) + b) in * by (clear - L; lia). rewrite N.pow_add_r in *. set (x := c * 2 ^ (e - b)). pose proof (pow_pos2 b) as P.
    assert (X : x <> a) by (intros X; apply N; subst x; rewrite <- X; clear; lia).
    replace (c * (2 ^ (e - b) * 2 ^ b)) with (x * 2 ^ b) by (subst x; clear; lia). clear N C. generalize dependent (2 ^ b). intros y P. clear - A X P.
    rewrite !N2Z.inj_mul, <- Z.mul_sub_distr_r, Z.abs_mul, (Z.abs_eq (Z.of_N y)) by (clear; lia).
    assert (1 <= Z.abs (Z.of_N x - Z.of_N a))%Z by (clear - X; lia). assert (Z.of_N a < 2 ^ 53)%Z by (change (2 ^ 53)%Z with (Z.of_N (2 ^ 53)); clear - A; lia).
    set (g := Z.abs (Z.of_N x - Z.of_N a)) in *. clear - H H0 P. nia.
  - replace b with ((b - e) + e) in * by (clear - L; lia). rewrite N.pow_add_r in *. set (x := a * 2 ^ (b - e)). pose proof (pow_pos2 e) as P.
    assert (X : x <> c) by (intros X; apply N; subst x; rewrite <- X; clear; lia).
    replace (a * (2 ^ (b - e) * 2 ^ e)) with (x * 2 ^ e) by (subst x; clear; lia). clear N. generalize dependent (2 ^ e). intros y P. clear - C X P.
    rewrite !N2Z.inj_mul, <- Z.mul_sub_distr_r, Z.abs_mul, (Z.abs_eq (Z.of_N y)) by (clear; lia).
    assert (Z.of_N c < 2 ^ 53)%Z by (change (2 ^ 53)%Z with (Z.of_N (2 ^ 53)); clear - C; lia).
    assert (0 < Z.of_N y)%Z by (clear - P; lia). assert (Xz : Z.of_N x <> Z.of_N c) by (clear - X; lia).
    enough (Z.of_N x <= Z.abs (Z.of_N c - Z.of_N x) * 2 ^ 53)%Z by (clear - H1 H0; nia).
    set (X' := Z.of_N x) in *. set (C' := Z.of_N c) in *. assert (0 <= X' /\ 0 <= C')%Z by (subst X' C'; clear; lia). clear - H Xz H1. lia.
Qed.
(** So a number close enough to a double rounds to it. *)
Lemma near_closest n d v : 0 < d -> 0 < v -> double v -> (off n d v * 2 ^ 54 < Z.of_N (v * d))%Z -> closest n d v.
Proof.
  intros D P V L. split; [exact V|]. intros w W. destruct (N.eq_dec w v) as [->|N]; [split; [apply Z.le_refl|auto]|].
  assert (G : (off n d v < off n d w)%Z).
  { pose proof (doubles_apart v w V W (not_eq_sym N)) as A. unfold off in *. rewrite !N2Z.inj_mul in *.
    set (x := (Z.of_N n * Z.of_N one)%Z) in *. apply (Z.mul_le_mono_nonneg_r _ _ (Z.of_N d)) in A; [|clear; lia].
    assert (Z.abs (Z.of_N w - Z.of_N v) * Z.of_N d = Z.abs (Z.of_N w * Z.of_N d - Z.of_N v * Z.of_N d))%Z.
    { rewrite <- Z.mul_sub_distr_r, Z.abs_mul, (Z.abs_eq (Z.of_N d)) by (clear; lia). reflexivity. }
    replace (Z.abs (Z.of_N w - Z.of_N v) * 2 ^ 53 * Z.of_N d)%Z with (Z.abs (Z.of_N w - Z.of_N v) * Z.of_N d * 2 ^ 53)%Z in A by ring. rewrite H in A. clear H.
    set (y := (Z.of_N w * Z.of_N d)%Z) in *. set (z := (Z.of_N v * Z.of_N d)%Z) in *. clear - A L. lia. }
  split; [clear - G; lia|]. intros Q. clear - Q G. lia.
Qed.

(** ** Decimals *)
Definition num (c : N) (k : Z) : N := if (0 <=? k)%Z then c * 10 ^ Z.to_N k else c.
Definition den (k : Z) : N := if (0 <=? k)%Z then 1 else 10 ^ Z.to_N (- k).
Lemma den_pos k : 0 < den k.
Proof. unfold den. destruct (0 <=? k)%Z; [reflexivity|apply pow10_pos]. Qed.
Lemma round_decimal_is c k : round_decimal c k = round (num c k) (den k).
Proof. unfold round_decimal, num, den. now destruct (0 <=? k)%Z. Qed.
Lemma num_mul c k : num c k = c * num 1 k.
Proof. unfold num. destruct (0 <=? k)%Z; clear; lia. Qed.
Lemma num_pos k : 0 < num 1 k.
Proof. unfold num. destruct (0 <=? k)%Z; [|reflexivity]. rewrite N.mul_1_l. apply pow10_pos. Qed.
(** Shifted far enough, all decimals are integers. *)
Definition ten (z : Z) : N := 10 ^ Z.to_N z.
Lemma ten_pos z : 0 < ten z.
Proof. apply pow10_pos. Qed.
Lemma ten_add a b : (0 <= a)%Z -> (0 <= b)%Z -> ten (a + b) = ten a * ten b.
Proof. intros A B. unfold ten. rewrite <- N.pow_add_r. f_equal. clear - A B. lia. Qed.
Lemma shift B c k : (0 <= B)%Z -> (0 <= k + B)%Z -> num c k * ten B = c * ten (k + B) * den k.
Proof.
  intros H K. unfold num, den. destruct (0 <=? k)%Z eqn:S.
  - apply Z.leb_le in S. rewrite ten_add by assumption. unfold ten at 2. clear. lia.
  - apply Z.leb_gt in S. replace B with (- k + (k + B))%Z at 1 by (clear; lia). rewrite ten_add; [|clear - S; lia|exact K]. unfold ten at 1. clear. lia.
Qed.
Lemma below_iff B c k v : (0 <= B)%Z -> (0 <= k + B)%Z -> num c k * one <= v * den k <-> c * ten (k + B) * one <= v * ten B.
Proof.
  intros H K. pose proof (shift B c k H K) as S. pose proof (den_pos k) as D. pose proof (ten_pos B) as T.
  rewrite (N.mul_le_mono_pos_r _ _ (ten B) T). rewrite (N.mul_le_mono_pos_r (c * ten (k + B) * one) _ (den k) D).
  replace (num c k * one * ten B) with (num c k * ten B * one) by (clear; lia). rewrite S.
  replace (c * ten (k + B) * den k * one) with (c * ten (k + B) * one * den k) by (clear; lia).
  replace (v * den k * ten B) with (v * ten B * den k) by (clear; lia). reflexivity.
Qed.
Lemma above_iff B c k v : (0 <= B)%Z -> (0 <= k + B)%Z -> v * den k < num c k * one <-> v * ten B < c * ten (k + B) * one.
Proof. intros H K. rewrite !N.lt_nge. now rewrite (below_iff B c k v H K). Qed.
Lemma order_iff B c k c' k' : (0 <= B)%Z -> (0 <= k + B)%Z -> (0 <= k' + B)%Z ->
  num c k * den k' <= num c' k' * den k <-> c * ten (k + B) <= c' * ten (k' + B).
Proof.
  intros H K K'. pose proof (shift B c k H K) as S. pose proof (shift B c' k' H K') as S'.
  pose proof (den_pos k) as D. pose proof (den_pos k') as D'. pose proof (ten_pos B) as T.
  rewrite (N.mul_le_mono_pos_r _ _ (ten B) T). rewrite (N.mul_le_mono_pos_r (c * ten (k + B)) _ (den k * den k')) by now apply N.mul_pos_pos.
  replace (num c k * den k' * ten B) with (num c k * ten B * den k') by (clear; lia). rewrite S.
  replace (num c' k' * den k * ten B) with (num c' k' * ten B * den k) by (clear; lia). rewrite S'.
  replace (c * ten (k + B) * den k * den k') with (c * ten (k + B) * (den k * den k')) by (clear; lia).
  replace (c' * ten (k' + B) * den k' * den k) with (c' * ten (k' + B) * (den k * den k')) by (clear; lia). reflexivity.
Qed.

(** ** The shortest digits *)
Lemma pos_nz n : 0 < n -> n <> 0.
Proof. clear. lia. Qed.
Lemma tiny_decimal : one <= 10 ^ 324.
Proof. apply N.leb_le. vm_compute. reflexivity. Qed.
Lemma first_power_spec v : 0 < v -> let e := first_power v in
  (-324 <= e)%Z /\ num 1 e * one <= v * den e /\ v * den (e + 1) < num 1 (e + 1) * one.
Proof.
  intros P e. subst e. unfold first_power. rewrite one_is. set (m := v * 10 ^ 324 / one).
  assert (Pm : 0 < m).
  { apply N.div_str_pos. split; [apply one_pos|]. pose proof tiny_decimal as T. clear - T P. generalize dependent (10 ^ 324). generalize one. intros o t T. nia. }
  destruct (show_length m Pm) as [L H]. set (n := N.of_nat (length (show_N m))) in *.
  assert (Pn : 0 < n) by (destruct (show_pos m Pm) as (a & r & E & _); subst n; rewrite E; cbn [length]; clear; lia).
  replace (Z.of_nat (length (show_N m)) - 325)%Z with (Z.of_N n - 325)%Z by (subst n; clear; lia).
  assert (A : one * m <= v * 10 ^ 324 < one * (m + 1)).
  { pose proof (N.div_mod (v * 10 ^ 324) one (pos_nz _ one_pos)) as DM. fold m in DM.
    pose proof (N.mod_lt (v * 10 ^ 324) one (pos_nz _ one_pos)) as ML. generalize dependent ((v * 10 ^ 324) mod one). intros r DM ML. rewrite DM. clearbody m. clear - ML. lia. }
  split; [clear - Pn; lia|]. split.
  - apply (below_iff 324); [clear; lia|clear - Pn; lia|]. rewrite N.mul_1_l. replace (ten (Z.of_N n - 325 + 324)) with (10 ^ (n - 1)) by (unfold ten; f_equal; clear - Pn; lia).
    change (ten 324) with (10 ^ 324). destruct A as [A _]. apply (N.mul_le_mono_l _ _ one) in L. clear - A L. generalize dependent (v * 10 ^ 324). intros x A. lia.
  - apply (above_iff 324); [clear; lia|clear - Pn; lia|]. rewrite N.mul_1_l. replace (ten (Z.of_N n - 325 + 1 + 324)) with (10 ^ n) by (unfold ten; f_equal; clear - Pn; lia).
    change (ten 324) with (10 ^ 324). destruct A as [_ A]. assert (L' : m + 1 <= 10 ^ n) by (clear - H; lia). apply (N.mul_le_mono_l _ _ one) in L'.
    clear - A L'. generalize dependent (v * 10 ^ 324). intros x A. lia.
Qed.

(** The two candidates of [p] digits. *)
Definition quot (v : N) (k : Z) : N := (v * den k) / (one * num 1 k).
Lemma quot_spec v k : num (quot v k) k * one <= v * den k < num (quot v k + 1) k * one.
Proof.
  unfold quot. set (d := one * num 1 k). assert (D : 0 < d) by (apply N.mul_pos_pos; [apply one_pos|apply num_pos]).
  pose proof (N.div_mod (v * den k) d (pos_nz _ D)) as DM. pose proof (N.mod_lt (v * den k) d (pos_nz _ D)) as ML.
  rewrite (num_mul (v * den k / d)), (num_mul (v * den k / d + 1)). generalize dependent ((v * den k) mod d). intros r DM ML. set (q := v * den k / d) in *.
  replace (q * num 1 k * one) with (d * q) by (subst d; clear; lia). replace ((q + 1) * num 1 k * one) with (d * (q + 1)) by (subst d; clear; lia). clear - DM ML. lia.
Qed.
Definition rest_of (v : N) (k : Z) : N := (v * den k) mod (one * num 1 k).
Lemma pick_is v e p : pick v e p =
  let k := (e - Z.of_nat p + 1)%Z in
  let low := round_decimal (quot v k) k =? v in
  let high := round_decimal (quot v k + 1) k =? v in
  if low && high then Some (if (2 * rest_of v k <? one * num 1 k) || ((2 * rest_of v k =? one * num 1 k) && N.even (quot v k)) then quot v k else quot v k + 1, k)
  else if low then Some (quot v k, k) else if high then Some (quot v k + 1, k) else None.
Proof.
  unfold pick, quot, rest_of, den, num. rewrite one_is. destruct (0 <=? e - Z.of_nat p + 1)%Z; [|now rewrite N.mul_1_r].
  now rewrite !N.mul_1_r, !N.mul_1_l.
Qed.

(** How far decimals are from [v], as fractions of [den k]. *)
Definition far (v c : N) (k : Z) : Z := off (num c k) (den k) v.
Definition nearer (v c : N) (k : Z) (c' : N) (k' : Z) : Prop := (far v c k * Z.of_N (den k') <= far v c' k' * Z.of_N (den k))%Z.

Lemma low_between v c k c' k' : double v -> round_decimal c' k' = v -> num c' k' * den k <= num c k * den k' -> num c k * one <= v * den k -> round_decimal c k = v.
Proof.
  intros V R L U. rewrite round_decimal_is in *. apply N.le_antisymm; [apply round_le; [apply den_pos|exact V|exact U]|].
  rewrite <- R at 1. apply round_mono; try apply den_pos. exact L.
Qed.
Lemma high_between v c k c' k' : double v -> round_decimal c' k' = v -> num c k * den k' <= num c' k' * den k -> v * den k <= num c k * one -> round_decimal c k = v.
Proof.
  intros V R L U. rewrite round_decimal_is in *. apply N.le_antisymm; [|apply round_ge; [apply den_pos|exact V|exact U]].
  rewrite <- R at 1. apply round_mono; try apply den_pos. exact L.
Qed.
Lemma low_nearer v c k c' k' : num c' k' * den k <= num c k * den k' -> num c k * one <= v * den k -> nearer v c k c' k'.
Proof.
  intros L U. unfold nearer, far, off. apply (N.mul_le_mono_r _ _ one) in L. pose proof (den_pos k'). pose proof (den_pos k). rewrite Z.abs_neq by (clear - U; lia).
  assert (U' : num c' k' * one <= v * den k').
  { apply (N.mul_le_mono_pos_r _ _ (den k)); [apply den_pos|]. apply (N.mul_le_mono_r _ _ (den k')) in U. clear - U L. lia. }
  rewrite Z.abs_neq by (clear - U'; lia). clear - L. rewrite !N2Z.inj_mul in *. 
  assert (L' : (Z.of_N (num c' k') * Z.of_N one * Z.of_N (den k) <= Z.of_N (num c k) * Z.of_N one * Z.of_N (den k'))%Z) by (rewrite <- !N2Z.inj_mul; clear - L; lia).
  clear L. generalize dependent (Z.of_N (num c' k')). generalize dependent (Z.of_N (num c k)). generalize (Z.of_N one) (Z.of_N v) (Z.of_N (den k)) (Z.of_N (den k')).
  intros o w d d' a b L. ring_simplify. ring_simplify in L. clear - L. nia.
Qed.
Lemma high_nearer v c k c' k' : num c k * den k' <= num c' k' * den k -> v * den k <= num c k * one -> nearer v c k c' k'.
Proof.
  intros L U. unfold nearer, far, off. apply (N.mul_le_mono_r _ _ one) in L. pose proof (den_pos k'). pose proof (den_pos k). rewrite Z.abs_eq by (clear - U; lia).
  assert (U' : v * den k' <= num c' k' * one).
  { apply (N.mul_le_mono_pos_r _ _ (den k)); [apply den_pos|]. apply (N.mul_le_mono_r _ _ (den k')) in U. clear - U L. lia. }
  rewrite Z.abs_eq by (clear - U'; lia). clear - L. rewrite !N2Z.inj_mul in *.
  assert (L' : (Z.of_N (num c k) * Z.of_N one * Z.of_N (den k') <= Z.of_N (num c' k') * Z.of_N one * Z.of_N (den k))%Z) by (rewrite <- !N2Z.inj_mul; clear - L; lia).
  clear L. generalize dependent (Z.of_N (num c' k')). generalize dependent (Z.of_N (num c k)). generalize (Z.of_N one) (Z.of_N v) (Z.of_N (den k)) (Z.of_N (den k')).
  intros o w d d' a b L. ring_simplify. ring_simplify in L. clear - L. nia.
Qed.

(** Every decimal of at most [p] digits is on one side of the candidates. *)
Lemma covers v p c' k' : 0 < v -> (0 < p)%nat -> c' < 10 ^ N.of_nat p -> let k := (first_power v - Z.of_nat p + 1)%Z in
  num c' k' * den k <= num (quot v k) k * den k' \/ num (quot v k + 1) k * den k' <= num c' k' * den k.
Proof.
  intros P Pp C k. destruct (first_power_spec v P) as (E & F & _). set (e := first_power v) in *. set (q := quot v k). pose proof (quot_spec v k) as [Q Q']. fold q in Q, Q'.
  set (B := Z.max 0 (Z.max (- k) (- k'))). assert (B0 : (0 <= B)%Z) by (subst B; clear; lia). assert (Bk : (0 <= k + B)%Z) by (subst B; clear; lia). assert (Bk' : (0 <= k' + B)%Z) by (subst B; clear; lia).
  rewrite (order_iff B c' k' q k), (order_iff B (q + 1) k c' k') by assumption.
  destruct (Z.le_gt_cases k k') as [L|L].
  - replace (k' + B)%Z with ((k' - k) + (k + B))%Z by (clear; lia). rewrite ten_add; [|clear - L; lia|exact Bk]. set (x := c' * ten (k' - k)).
    replace (c' * (ten (k' - k) * ten (k + B))) with (x * ten (k + B)) by (subst x; clear; lia).
    destruct (N.le_gt_cases x q) as [H|H]; [left; now apply N.mul_le_mono_r|right; apply N.mul_le_mono_r; clear - H; lia].
  - left. assert (Hq : 10 ^ N.of_nat (p - 1) <= q).
    { assert (Lq : num (10 ^ N.of_nat (p - 1)) k * one < num (q + 1) k * one).
      { eapply N.le_lt_trans; [|exact Q']. apply (below_iff B); [exact B0|exact Bk|]. assert (Be : (0 <= e + B)%Z) by (subst k; clear - Bk Pp; lia).
        apply (below_iff B) in F; [|exact B0|exact Be]. replace (e + B)%Z with (Z.of_nat (p - 1) + (k + B))%Z in F by (subst k; clear - Pp; lia).
        rewrite ten_add in F; [|clear; lia|exact Bk]. unfold ten at 1 in F. rewrite <- nat_N_Z, N2Z.id in F. clear - F. lia. }
      rewrite (num_mul (10 ^ N.of_nat (p - 1))), (num_mul (q + 1)) in Lq. apply N.mul_lt_mono_pos_r in Lq; [|apply one_pos]. apply N.mul_lt_mono_pos_r in Lq; [|apply num_pos]. clear - Lq. lia. }
    apply N.le_trans with (10 ^ N.of_nat (p - 1) * ten (k + B)); [|now apply N.mul_le_mono_r].
    replace (k + B)%Z with (1 + ((k - k' - 1) + (k' + B)))%Z by (clear; lia). rewrite (ten_add 1), (ten_add (k - k' - 1)); try (clear - L Bk'; lia). change (ten 1) with 10.
    replace (10 ^ N.of_nat (p - 1) * (10 * (ten (k - k' - 1) * ten (k' + B)))) with (10 ^ N.of_nat p * ten (k - k' - 1) * ten (k' + B)).
    2:{ replace (N.of_nat p) with (N.succ (N.of_nat (p - 1))) by (clear - Pp; lia). rewrite N.pow_succ_r'. clear. lia. }
    apply N.mul_le_mono_r. pose proof (ten_pos (k - k' - 1)). clear - C H. nia.
Qed.
Lemma rest_spec v k : v * den k = num (quot v k) k * one + rest_of v k /\ rest_of v k < one * num 1 k.
Proof.
  unfold quot, rest_of. set (d := one * num 1 k). assert (D : 0 < d) by (apply N.mul_pos_pos; [apply one_pos|apply num_pos]).
  split; [|apply N.mod_lt, (pos_nz _ D)]. rewrite (num_mul (v * den k / d)). rewrite (N.div_mod (v * den k) d (pos_nz _ D)) at 1.
  generalize ((v * den k) mod d) (v * den k / d). intros r q. subst d. clear. lia.
Qed.
Lemma far_low v k : far v (quot v k) k = Z.of_N (rest_of v k).
Proof. destruct (rest_spec v k) as [E _]. unfold far, off. rewrite E. generalize (num (quot v k) k * one) (rest_of v k). clear. intros. lia. Qed.
Lemma far_high v k : far v (quot v k + 1) k = (Z.of_N (one * num 1 k) - Z.of_N (rest_of v k))%Z.
Proof.
  destruct (rest_spec v k) as [E L]. unfold far, off. rewrite E. rewrite (num_mul (quot v k + 1)), (num_mul (quot v k)).
  replace ((quot v k + 1) * num 1 k * one) with (quot v k * num 1 k * one + one * num 1 k) by (generalize (quot v k); clear; intros; lia).
  generalize dependent (rest_of v k). intros r E L. generalize dependent (one * num 1 k). generalize (quot v k * num 1 k * one). clear. intros. lia.
Qed.
Lemma nearer_far v c c2 k c' k' : (far v c k <= far v c2 k)%Z -> nearer v c2 k c' k' -> nearer v c k c' k'.
Proof. unfold nearer. intros L H. eapply Z.le_trans; [|exact H]. apply Z.mul_le_mono_nonneg_r; [clear; lia|exact L]. Qed.

Definition digits_at (v : N) (p : nat) (c : N) (k : Z) : Prop :=
  k = (first_power v - Z.of_nat p + 1)%Z /\ (c = quot v k \/ c = quot v k + 1) /\ round_decimal c k = v
  /\ forall c' k', c' < 10 ^ N.of_nat p -> round_decimal c' k' = v -> nearer v c k c' k'.
Lemma pick_some v p c k : 0 < v -> double v -> (0 < p)%nat -> pick v (first_power v) p = Some (c, k) -> digits_at v p c k.
Proof.
  intros P V Pp. rewrite pick_is. set (k0 := (first_power v - Z.of_nat p + 1)%Z). cbv zeta. set (q := quot v k0). pose proof (quot_spec v k0) as [Q Q']. fold q in Q, Q'.
  apply N.lt_le_incl in Q'.
  assert (S : forall c' k', c' < 10 ^ N.of_nat p -> round_decimal c' k' = v ->
    (round_decimal q k0 = v /\ nearer v q k0 c' k') \/ (round_decimal (q + 1) k0 = v /\ nearer v (q + 1) k0 c' k')).
  { intros c' k' C R. destruct (covers v p c' k' P Pp C) as [L|L]; fold k0 q in L.
    - left. split; [exact (low_between v q k0 c' k' V R L Q)|exact (low_nearer v q k0 c' k' L Q)].
    - right. split; [exact (high_between v (q + 1) k0 c' k' V R L Q')|exact (high_nearer v (q + 1) k0 c' k' L Q')]. }
  pose proof (far_low v k0) as Fl. pose proof (far_high v k0) as Fh. fold q in Fl, Fh.
  assert (Up : (2 * rest_of v k0 <? one * num 1 k0) || ((2 * rest_of v k0 =? one * num 1 k0) && N.even q) = true -> (far v q k0 <= far v (q + 1) k0)%Z).
  { intros B. rewrite Fl, Fh. apply orb_true_iff in B. rewrite andb_true_iff, N.ltb_lt, N.eqb_eq in B. generalize dependent (rest_of v k0). clear. intros. lia. }
  assert (Dn : (2 * rest_of v k0 <? one * num 1 k0) || ((2 * rest_of v k0 =? one * num 1 k0) && N.even q) = false -> (far v (q + 1) k0 <= far v q k0)%Z).
  { intros B. rewrite Fl, Fh. apply orb_false_iff in B. destruct B as [B _]. apply N.ltb_ge in B. generalize dependent (rest_of v k0). clear. intros. lia. }
  destruct ((2 * rest_of v k0 <? one * num 1 k0) || ((2 * rest_of v k0 =? one * num 1 k0) && N.even q)).
  all: destruct (round_decimal q k0 =? v) eqn:Lo, (round_decimal (q + 1) k0 =? v) eqn:Hi; cbn [andb]; intros H; try discriminate H;
    rewrite ?N.eqb_eq, ?N.eqb_neq in Lo; rewrite ?N.eqb_eq, ?N.eqb_neq in Hi; injection H as <- <-; (split; [reflexivity|]).
  1: { split; [now left|]. split; [exact Lo|]. intros c' k' C R. destruct (S c' k' C R) as [[_ G]|[_ G]]; [exact G|]. exact (nearer_far v q (q + 1) k0 c' k' (Up eq_refl) G). }
  3: { split; [now right|]. split; [exact Hi|]. intros c' k' C R. destruct (S c' k' C R) as [[_ G]|[_ G]]; [|exact G]. exact (nearer_far v (q + 1) q k0 c' k' (Dn eq_refl) G). }
  1,3: split; [now left|]; split; [exact Lo|]; intros c' k' C R; destruct (S c' k' C R) as [[_ G]|[X _]]; [exact G|now destruct (Hi X)].
  all: split; [now right|]; split; [exact Hi|]; intros c' k' C R; destruct (S c' k' C R) as [[X _]|[_ G]]; [now destruct (Lo X)|exact G].
Qed.
Lemma pick_none v p c' k' : 0 < v -> double v -> (0 < p)%nat -> c' < 10 ^ N.of_nat p -> round_decimal c' k' = v -> pick v (first_power v) p <> None.
Proof.
  intros P V Pp C R. rewrite pick_is. set (k0 := (first_power v - Z.of_nat p + 1)%Z). cbv zeta. set (q := quot v k0). pose proof (quot_spec v k0) as [Q Q']. fold q in Q, Q'.
  apply N.lt_le_incl in Q'. destruct (covers v p c' k' P Pp C) as [L|L]; fold k0 q in L.
  - rewrite (low_between v q k0 c' k' V R L Q), N.eqb_refl. cbn [andb]. destruct (_ =? v); discriminate.
  - rewrite (high_between v (q + 1) k0 c' k' V R L Q'), N.eqb_refl. rewrite andb_true_r. destruct (_ =? v); discriminate.
Qed.
Lemma quot_range v p : 0 < v -> (0 < p)%nat -> let q := quot v (first_power v - Z.of_nat p + 1) in 10 ^ N.of_nat (p - 1) <= q < 10 ^ N.of_nat p.
Proof.
  intros P Pp. set (k := (first_power v - Z.of_nat p + 1)%Z). cbv zeta. destruct (first_power_spec v P) as (E & F & F'). set (e := first_power v) in *. pose proof (quot_spec v k) as [Q Q']. set (q := quot v k) in *.
  set (B := Z.max 0 (- k)). assert (B0 : (0 <= B)%Z) by (subst B; clear; lia). assert (Bk : (0 <= k + B)%Z) by (subst B; clear; lia). split.
  - assert (Lq : num (10 ^ N.of_nat (p - 1)) k * one < num (q + 1) k * one).
    { eapply N.le_lt_trans; [|exact Q']. apply (below_iff B); [exact B0|exact Bk|]. assert (Be : (0 <= e + B)%Z) by (subst k; clear - Bk Pp; lia).
      apply (below_iff B) in F; [|exact B0|exact Be]. replace (e + B)%Z with (Z.of_nat (p - 1) + (k + B))%Z in F by (subst k; clear - Pp; lia).
      rewrite ten_add in F; [|clear; lia|exact Bk]. unfold ten at 1 in F. rewrite <- nat_N_Z, N2Z.id in F. clear - F. lia. }
    rewrite (num_mul (10 ^ N.of_nat (p - 1))), (num_mul (q + 1)) in Lq. apply N.mul_lt_mono_pos_r in Lq; [|apply one_pos]. apply N.mul_lt_mono_pos_r in Lq; [|apply num_pos]. clear - Lq. lia.
  - assert (Lq : num q k * one < num (10 ^ N.of_nat p) k * one).
    { eapply N.le_lt_trans; [exact Q|]. apply (above_iff B); [exact B0|exact Bk|]. assert (Be : (0 <= e + 1 + B)%Z) by (subst k; clear - Bk Pp; lia).
      apply (above_iff B) in F'; [|exact B0|exact Be]. replace (e + 1 + B)%Z with (Z.of_nat p + (k + B))%Z in F' by (subst k; clear - Pp; lia).
      rewrite ten_add in F'; [|clear; lia|exact Bk]. unfold ten at 2 in F'. rewrite <- nat_N_Z, N2Z.id in F'. clear - F'. lia. }
    rewrite (num_mul (10 ^ N.of_nat p)), (num_mul q) in Lq. apply N.mul_lt_mono_pos_r in Lq; [|apply one_pos]. now apply N.mul_lt_mono_pos_r in Lq; [|apply num_pos].
Qed.
(** 17 digits are enough. *)
Lemma pick_last v : 0 < v -> double v -> pick v (first_power v) 17 <> None.
Proof.
  intros P V. rewrite pick_is. pose proof (quot_range v 17 P ltac:(clear; lia)) as [R _]. cbv zeta in *. set (k := (first_power v - Z.of_nat 17 + 1)%Z) in *.
  destruct (rest_spec v k) as [E L]. pose proof (far_low v k) as Fl. pose proof (far_high v k) as Fh. pose proof (num_mul (quot v k) k) as Nm.
  set (q := quot v k) in *. set (r := rest_of v k) in *. set (d := one * num 1 k) in *. change (10 ^ N.of_nat (17 - 1)) with (10 ^ 16) in R.
  assert (D : 10 ^ 16 * d <= v * den k).
  { rewrite E, Nm. apply (N.mul_le_mono_r _ _ d) in R. subst d. clear - R. lia. }
  assert (VD : 0 < v * den k) by (apply N.mul_pos_pos; [exact P|apply den_pos]). change (10 ^ 16) with 10000000000000000 in D.
  assert (G : round_decimal q k = v \/ round_decimal (q + 1) k = v).
  { rewrite !round_decimal_is. destruct (N.le_gt_cases (2 * r) d) as [H|H].
    - left. symmetry. apply closest_iff; [apply den_pos|]. apply near_closest; [apply den_pos|exact P|exact V|]. fold (far v q k). rewrite Fl. change (2 ^ 54)%Z with 18014398509481984%Z.
      clear - D VD H L. clearbody r d. lia.
    - right. symmetry. apply closest_iff; [apply den_pos|]. apply near_closest; [apply den_pos|exact P|exact V|]. fold (far v (q + 1) k). rewrite Fh. change (2 ^ 54)%Z with 18014398509481984%Z.
      clear - D VD H L. clearbody r d. lia. }
  destruct G as [G|G]; rewrite G, N.eqb_refl; [cbn [andb]|rewrite andb_true_r]; destruct (_ =? v); discriminate.
Qed.
Lemma pick_from_spec v e n : forall p, match pick_from v e p n with
  | Some x => exists m, (p <= m < p + n)%nat /\ pick v e m = Some x /\ forall i, (p <= i < m)%nat -> pick v e i = None
  | None => forall i, (p <= i < p + n)%nat -> pick v e i = None
  end.
Proof.
  induction n as [|n IH]; intros p; cbn [pick_from]; [intros i H; exfalso; clear - H; lia|]. destruct (pick v e p) as [x|] eqn:E.
  - exists p. split; [clear; lia|]. split; [exact E|]. intros i H. exfalso. clear - H. lia.
  - specialize (IH (S p)). destruct (pick_from v e (S p) n) as [x|].
    + destruct IH as (m & M & X & N). exists m. split; [clear - M; lia|]. split; [exact X|]. intros i H. destruct (Nat.eq_dec i p) as [->|Hi]; [exact E|apply N; clear - H Hi; lia].
    + intros i H. destruct (Nat.eq_dec i p) as [->|Hi]; [exact E|apply IH; clear - H Hi; lia].
Qed.

(** The decimal found. *)
Theorem shortest_spec v : 0 < v -> double v -> let c := fst (shortest v) in let k := snd (shortest v) in
  0 < c /\ round_decimal c k = v
  /\ (forall c' k' m, 0 < c' -> c' < 10 ^ m -> round_decimal c' k' = v -> c < 10 ^ m)
  /\ (forall c' k' m, c' < 10 ^ m -> 10 ^ (m - 1) <= c -> round_decimal c' k' = v -> nearer v c k c' k').
Proof.
  intros P V. cbv zeta. unfold shortest. pose proof (pick_from_spec v (first_power v) 17 1) as S. destruct (pick_from v (first_power v) 1 17) as [[c k]|] eqn:EP.
  2:{ exfalso. apply (pick_last v P V). apply S. clear. lia. }
  destruct S as (p & B & X & N). assert (Pp : (0 < p)%nat) by (clear - B; lia). pose proof (pick_some v p c k P V Pp X) as (K & C & R & Nr).
  destruct (quot_range v p P Pp) as [Q Q']. rewrite <- K in Q, Q'.
  assert (Cp : 0 < c) by (pose proof (pow10_pos (N.of_nat (p - 1))) as T; clear - C Q T; destruct C; subst; lia).
  assert (Least : forall c' k' m, 0 < c' -> c' < 10 ^ m -> round_decimal c' k' = v -> N.of_nat p <= m).
  { intros c' k' m C' L R'. apply N.le_ngt. intros G. assert (M : 0 < m) by (destruct (N.eq_dec m 0) as [->|M]; [change (10 ^ 0) with 1 in L; clear - L C'; lia|clear - M; lia]).
    apply (pick_none v (N.to_nat m) c' k' P V); [clear - M; lia|now rewrite N2Nat.id|exact R'|]. apply N. clear - G M. lia. }
  assert (Full : c = 10 ^ N.of_nat p -> p = 1%nat).
  { intros ->. assert (R' : round_decimal 1 (k + Z.of_nat p) = v).
    { rewrite <- R, !round_decimal_is. set (B' := Z.max 0 (- k)). apply N.le_antisymm; apply round_mono; try apply den_pos; apply (order_iff B'); subst B'; try (clear; lia);
        replace (k + Z.of_nat p + Z.max 0 (- k))%Z with (Z.of_nat p + (k + Z.max 0 (- k)))%Z by (clear; lia); rewrite (ten_add (Z.of_nat p)) by (clear; lia);
        replace (ten (Z.of_nat p)) with (10 ^ N.of_nat p) by (unfold ten; f_equal; clear; lia); generalize (10 ^ N.of_nat p) (ten (k + Z.max 0 (- k))); clear; intros; lia. }
    pose proof (Least 1 (k + Z.of_nat p)%Z 1 eq_refl eq_refl R') as L. clear - L Pp. lia. }
  destruct (c =? 10) eqn:T; cbn [fst snd].
  - apply N.eqb_eq in T. subst c.
    assert (Sh : num 1 (k + 1) * den k = num 10 k * den (k + 1)).
    { set (B' := Z.max 0 (- k)). apply N.le_antisymm; apply (order_iff B'); subst B'; try (clear; lia);
        replace (k + 1 + Z.max 0 (- k))%Z with (1 + (k + Z.max 0 (- k)))%Z by (clear; lia); rewrite (ten_add 1) by (clear; lia); change (ten 1) with 10; clear; lia. }
    split; [reflexivity|]. split.
    { rewrite <- R, !round_decimal_is. apply N.le_antisymm; apply round_mono; try apply den_pos; rewrite Sh; apply N.le_refl. }
    split.
    + intros c' k' m C' L R'. destruct (N.eq_dec m 0) as [->|M]; [change (10 ^ 0) with 1 in *; clear - L C'; lia|]. apply N.pow_gt_1; [reflexivity|exact M].
    + intros c' k' m L H R'. assert (L' : c' < 10 ^ N.of_nat p).
      { eapply N.lt_le_trans; [exact L|]. apply N.pow_le_mono_r; [discriminate|]. assert (m - 1 < 1); [|clear - H0 Pp; lia]. apply (N.pow_lt_mono_r_iff 10); [reflexivity|]. eapply N.le_lt_trans; [exact H|reflexivity]. }
      pose proof (Nr c' k' L' R') as G. unfold nearer, far in *.
      assert (O : (off (num 1 (k + 1)) (den (k + 1)) v * Z.of_N (den k) = off (num 10 k) (den k) v * Z.of_N (den (k + 1)))%Z).
      { unfold off. rewrite <- (Z.abs_eq (Z.of_N (den k))), <- (Z.abs_eq (Z.of_N (den (k + 1)))) by (clear; lia). rewrite <- !Z.abs_mul. f_equal.
        apply (f_equal Z.of_N) in Sh. rewrite !N2Z.inj_mul in *. rewrite !Z.mul_sub_distr_r.
        replace (Z.of_N (num 1 (k + 1)) * Z.of_N one * Z.of_N (den k))%Z with (Z.of_N (num 1 (k + 1)) * Z.of_N (den k) * Z.of_N one)%Z by ring. rewrite Sh. ring. }
      apply (Z.mul_le_mono_pos_r _ _ (Z.of_N (den k))); [pose proof (den_pos k) as Dk; clear - Dk; lia|].
      replace (off (num 1 (k + 1)) (den (k + 1)) v * Z.of_N (den k') * Z.of_N (den k))%Z with (off (num 1 (k + 1)) (den (k + 1)) v * Z.of_N (den k) * Z.of_N (den k'))%Z by ring.
      rewrite O. replace (off (num 10 k) (den k) v * Z.of_N (den (k + 1)) * Z.of_N (den k'))%Z with (off (num 10 k) (den k) v * Z.of_N (den k') * Z.of_N (den (k + 1)))%Z by ring.
      replace (off (num c' k') (den k') v * Z.of_N (den (k + 1)) * Z.of_N (den k))%Z with (off (num c' k') (den k') v * Z.of_N (den k) * Z.of_N (den (k + 1)))%Z by ring.
      apply Z.mul_le_mono_nonneg_r; [clear; lia|exact G].
  - apply N.eqb_neq in T. assert (Lc : c < 10 ^ N.of_nat p).
    { destruct (N.eq_dec c (10 ^ N.of_nat p)) as [H|H]; [|clear - H C Q'; destruct C; subst; lia]. exfalso. rewrite (Full H) in H. apply T. exact H. }
    split; [exact Cp|]. split; [exact R|]. split.
    + intros c' k' m C' L R'. eapply N.lt_le_trans; [exact Lc|]. apply N.pow_le_mono_r; [discriminate|]. exact (Least c' k' m C' L R').
    + intros c' k' m L H R'. apply Nr; [|exact R']. eapply N.lt_le_trans; [exact L|]. apply N.pow_le_mono_r; [discriminate|].
      assert (m - 1 < N.of_nat p); [|clear - H0; lia]. apply (N.pow_lt_mono_r_iff 10); [reflexivity|]. eapply N.le_lt_trans; eassumption.
Qed.
