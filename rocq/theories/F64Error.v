(** Proofs about how far what is read is from what the text says. *)

From Coq Require Import Strings.String Lia QArith Qabs Qpower Lqa.
From Verif Require Import Base BaseFacts Clarity SpecShow F64 F64Show F64Fast Rpc SpecJson SpecF64 F64Thms F64ShowThms F64ReadThms.
Local Open Scope N_scope.

Definition q (n : N) : Q := inject_Z (Z.of_N n).
Lemma q_mul a b : (q (a * b) == q a * q b)%Q.
Proof. unfold q. rewrite N2Z.inj_mul, inject_Z_mult. reflexivity. Qed.
Lemma q_pos a : 0 < a -> (0 < q a)%Q.
Proof. intros H. unfold q. change 0%Q with (inject_Z 0). rewrite <- Zlt_Qlt. clear - H. lia. Qed.
Lemma q_nonneg a : (0 <= q a)%Q.
Proof. unfold q. change 0%Q with (inject_Z 0). rewrite <- Zle_Qle. clear. lia. Qed.
Lemma q_le a b : a <= b -> (q a <= q b)%Q.
Proof. intros H. unfold q. rewrite <- Zle_Qle. clear - H. lia. Qed.
Lemma q_nz a : 0 < a -> ~ (q a == 0)%Q.
Proof. intros H E. apply q_pos in H. lra. Qed.

(** ** Factors close to 1 *)
(** Counted in 2^-57. *)
Definition unit57 : Q := (1 # 144115188075855872).
Definition close (k : Q) (a : Q) : Prop := (1 - k * unit57 <= a /\ a <= 1 + k * unit57)%Q.
Lemma close_weak k m a : (k <= m)%Q -> close k a -> close m a.
Proof. intros L [A B]. unfold close, unit57 in *. split; lra. Qed.
Lemma close_one : close 0 1.
Proof. unfold close, unit57. split; lra. Qed.
Lemma close_eq k a b : (a == b)%Q -> close k a -> close k b.
Proof. intros E [A B]. unfold close. split; rewrite <- E; assumption. Qed.
Lemma close_pos k a : (k <= 1000)%Q -> close k a -> (1 # 2 <= a)%Q.
Proof. intros L [A _]. unfold unit57 in *. lra. Qed.
Lemma close_mul k m a b : (0 <= k <= 1000)%Q -> (0 <= m <= 1000)%Q -> close k a -> close m b -> close (k + m + 1) (a * b).
Proof.
  intros K M A B. pose proof (close_pos _ _ (proj2 K) A) as PA. destruct A as [A1 A2], B as [B1 B2]. unfold close.
  assert (KM : (0 <= k * m <= 1000000)%Q) by (clear - K M; split; nra).
  split.
  - apply Qle_trans with (a * (1 - m * unit57))%Q; [|apply Qmult_le_l; [lra|exact B1]].
    apply Qle_trans with ((1 - k * unit57) * (1 - m * unit57))%Q; [|apply Qmult_le_compat_r; [exact A1|]; unfold unit57; lra].
    unfold unit57. clear - KM K M. destruct KM as [X _]. generalize dependent (k * m)%Q. intros. nra.
  - apply Qle_trans with (a * (1 + m * unit57))%Q; [apply Qmult_le_l; [lra|exact B2]|].
    apply Qle_trans with ((1 + k * unit57) * (1 + m * unit57))%Q; [apply Qmult_le_compat_r; [exact A2|]; unfold unit57; lra|].
    setoid_replace ((1 + k * unit57) * (1 + m * unit57))%Q with (1 + k * unit57 + m * unit57 + (k * m) * (unit57 * unit57))%Q by ring.
    unfold unit57. clear - KM K M. destruct KM as [_ X]. lra.
Qed.
Lemma close_inv k a : (0 <= k <= 1000)%Q -> close k a -> close (k + 1) (/ a).
Proof.
  intros K A. pose proof (close_pos _ _ (proj2 K) A) as PA. destruct A as [A1 A2]. unfold close.
  assert (KK : (0 <= k * k <= 1000000)%Q) by (clear - K; split; nra).
  split.
  - apply Qle_shift_inv_l; [lra|]. apply Qle_trans with ((1 - (k + 1) * unit57) * (1 + k * unit57))%Q.
    + rewrite Qmult_comm, (Qmult_comm (1 - (k + 1) * unit57)). apply Qmult_le_compat_r; [exact A2|]. unfold unit57. lra.
    + setoid_replace ((1 - (k + 1) * unit57) * (1 + k * unit57))%Q with (1 - unit57 - (k * k + k) * (unit57 * unit57))%Q by ring. unfold unit57. clear - KK K. lra.
  - apply Qle_shift_inv_r; [lra|]. apply Qle_trans with ((1 + (k + 1) * unit57) * (1 - k * unit57))%Q.
    + setoid_replace ((1 + (k + 1) * unit57) * (1 - k * unit57))%Q with (1 + unit57 - (k * k + k) * (unit57 * unit57))%Q by ring. unfold unit57. clear - KK K. lra.
    + rewrite Qmult_comm, (Qmult_comm (1 + (k + 1) * unit57)). apply Qmult_le_compat_r; [exact A1|]. unfold unit57. lra.
Qed.

(** ** Rounding *)
Definition half (e : Q) : Prop := (- (1 # 2) <= e /\ e <= 1 # 2)%Q.
Lemma q_off n d v : 0 < d -> exists z : Q, (z == q (n * one) / q d - q v /\ inject_Z (off n d v) == Qabs.Qabs z * q d)%Q.
Proof.
  intros D. exists (q (n * one) / q d - q v)%Q. split; [reflexivity|]. unfold off. pose proof (q_pos d D) as P.
  assert (E : (inject_Z (Z.of_N (n * one) - Z.of_N (v * d)) == (q (n * one) / q d - q v) * q d)%Q).
  { unfold Z.sub. rewrite inject_Z_plus, inject_Z_opp. fold (q (n * one)) (q (v * d)). rewrite (q_mul v d). field. lra. }
  rewrite <- (Qabs.Qabs_pos (q d)) at 2 by lra. rewrite <- Qabs.Qabs_Qmult, <- E. reflexivity.
Qed.
Lemma round_q n d : 0 < d -> exists a e, (q (round n d) == q (n * one) / q d * a + e)%Q /\ close 16 a /\ half e
  /\ (2 ^ 52 * d <= n * one -> (e == 0)%Q).
Proof.
  intros D. pose proof (q_pos d D) as P. destruct (q_off n d (round n d) D) as (z & Z & O).
  destruct (N.eq_dec n 0) as [->|N0].
  { exists 1%Q, 0%Q. rewrite round_0 by exact D. rewrite N.mul_0_l. split; [unfold q; cbn; field; exact (q_nz d D)|].
    split; [eapply close_weak; [|apply close_one]; lra|]. split; [split; lra|]. intros _. lra. }
  assert (X : (0 < q (n * one) / q d)%Q).
  { apply Qlt_shift_div_l; [exact P|]. rewrite Qmult_0_l. apply q_pos. apply N.mul_pos_pos; [now apply N.neq_0_lt_0|apply one_pos]. }
  assert (R2 : (2 ^ 53 * off n d (round n d) <= Z.of_N (n * one))%Z -> exists a e, (q (round n d) == q (n * one) / q d * a + e)%Q /\ close 16 a /\ half e /\ (2 ^ 52 * d <= n * one -> (e == 0)%Q)).
  { intros H. rewrite Zle_Qle, inject_Z_mult, O in H. fold (q (n * one)) in H. set (x := (q (n * one) / q d)%Q) in *.
    assert (E : (q (n * one) == x * q d)%Q) by (subst x; field; lra). rewrite E in H.
    assert (B : (inject_Z (2 ^ 53) * Qabs.Qabs z <= x)%Q).
    { apply Qmult_le_r with (q d); [exact P|]. eapply Qle_trans; [|exact H]. apply Qle_lteq. right. ring. }
    exists (q (round n d) / x)%Q, 0%Q. split; [field; lra|]. split; [|split; [split; lra|reflexivity]].
    assert (V : (q (round n d) == x - z)%Q) by (rewrite Z; ring). change (inject_Z (2 ^ 53)) with (9007199254740992 # 1) in B.
    pose proof (Qabs.Qle_Qabs z) as L1. pose proof (Qabs.Qle_Qabs (- z)) as L2. rewrite Qabs.Qabs_opp in L2. unfold close. rewrite V. clearbody x. clear - X B L1 L2. unfold unit57. split.
    - apply Qle_shift_div_l; [exact X|]. lra.
    - apply Qle_shift_div_r; [exact X|]. lra. }
  destruct (round_error n d D) as [H|H]; [|auto]. destruct (N.le_gt_cases (2 ^ 52 * d) (n * one)) as [L|L]; [apply R2, round_rel; auto|].
  exists 1%Q, (q (round n d) - q (n * one) / q d)%Q. split; [ring|]. split; [eapply close_weak; [|apply close_one]; lra|]. split; [|intros G; clear - L G; lia].
  rewrite Zle_Qle, inject_Z_mult, O in H. fold (q d) in H.
  assert (B : (2 * Qabs.Qabs z <= 1)%Q).
  { apply Qmult_le_r with (q d); [exact P|]. change (inject_Z 2) with 2%Q in H. eapply Qle_trans; [|eapply Qle_trans; [exact H|]]; apply Qle_lteq; right; ring. }
  pose proof (Qabs.Qle_Qabs z) as L1. pose proof (Qabs.Qle_Qabs (- z)) as L2. rewrite Qabs.Qabs_opp in L2. clear - B L1 L2 Z. unfold half. split; lra.
Qed.

(** ** Powers of ten *)
Definition tq (k : Z) : Q := Qpower (10 # 1) k.
Lemma tq_pos k : (0 < tq k)%Q.
Proof. apply Qpower_0_lt. reflexivity. Qed.
Lemma tq_add a b : (tq (a + b) == tq a * tq b)%Q.
Proof. apply Qpower_plus. discriminate. Qed.
Lemma tq_N n : (q (10 ^ n) == tq (Z.of_N n))%Q.
Proof.
  unfold q, tq. rewrite N2Z.inj_pow. change (10 # 1)%Q with (inject_Z 10). change (Z.of_N 10) with 10%Z. apply Zpower_Qpower. clear. lia.
Qed.
Lemma tq_opp k : (tq (- k) == / tq k)%Q.
Proof. apply Qpower_opp. Qed.
Lemma tq_frac c k : (q (num c k) / q (den k) == q c * tq k)%Q.
Proof.
  unfold num, den. destruct (0 <=? k)%Z eqn:S; [apply Z.leb_le in S|apply Z.leb_gt in S].
  - rewrite q_mul, tq_N, Z2N.id by exact S. change (q 1) with 1%Q. field.
  - rewrite tq_N, Z2N.id by (clear - S; lia). rewrite tq_opp. pose proof (tq_pos k). field. lra.
Qed.
Lemma pow_ge1 k : 1 <= 10 ^ k.
Proof. pose proof (pow10_pos k) as P. revert P. generalize (10 ^ k). clear. intros. lia. Qed.

(** ** What is computed *)
Lemma one_big : 2 ^ 52 <= one.
Proof. apply N.leb_le. vm_compute. reflexivity. Qed.
Lemma int_q s f : 0 < s -> closest s 1 f -> one <= f /\ exists a, (q f == q s * q one * a)%Q /\ close 16 a.
Proof.
  intros S C. apply closest_iff in C; [|reflexivity]. subst f. assert (SO : one <= s * one) by (pose proof one_pos; clear - S H; nia). split.
  - apply round_ge; [reflexivity| |now rewrite N.mul_1_r]. rewrite <- (N.mul_1_l one). apply double_units, double_small. reflexivity.
  - destruct (round_q s 1 ltac:(reflexivity)) as (a & e & E & A & _ & Z). exists a. split; [|exact A].
    rewrite E, Z, q_mul; [change (q 1) with 1%Q; field|]. rewrite N.mul_1_r. eapply N.le_trans; [apply one_big|exact SO].
Qed.
Lemma one_q : (0 < q one)%Q.
Proof. apply q_pos, one_pos. Qed.
Lemma mul_q f p v : one <= f -> one <= p -> closest (f * p) (one * one) v -> exists a, (q v == q f * q p / q one * a)%Q /\ close 16 a.
Proof.
  intros F P C. assert (O : 0 < one * one) by (apply N.mul_pos_pos; apply one_pos). apply closest_iff in C; [|exact O]. subst v.
  destruct (round_q (f * p) (one * one) O) as (a & e & E & A & _ & Z). exists a. split; [|exact A]. pose proof one_q.
  rewrite E, Z, !q_mul; [field; lra|]. pose proof one_big. assert (one * one <= f * p) by (apply N.mul_le_mono; assumption). rewrite (N.mul_comm (f * p)). apply N.mul_le_mono; assumption.
Qed.
Lemma div_q f p v : 0 < p -> closest f p v -> exists a e, (q v == q f * q one / q p * a + e)%Q /\ close 16 a /\ half e.
Proof.
  intros P C. apply closest_iff in C; [|exact P]. subst v. destruct (round_q f p P) as (a & e & E & A & H & _). exists a, e. split; [|auto]. rewrite E, q_mul. reflexivity.
Qed.

Ltac num_side := split; lra.
Definition unit_off (e : Q) : Prop := (-1 <= e /\ e <= 1)%Q.
Lemma scaled_q s e v : s < 2 ^ 64 -> scaled s e v -> exists g h, (q v == q s * tq e * q one * g + h)%Q /\ close 90 g /\ unit_off h.
Proof.
  intros S64 S. pose proof one_q as O. destruct (N.eq_dec s 0) as [->|S0].
  { assert (v = 0) as ->.
    { apply scaled_iff in S; [|reflexivity]. assert (F : scaled 0 e 0) by (apply scaled_zero; now left). apply scaled_iff in F; [|reflexivity]. congruence. }
    exists 1%Q, 0%Q. split; [change (q 0) with 0%Q; ring|]. split; [eapply close_weak; [|apply close_one]; lra|split; lra]. }
  apply N.neq_0_lt_0 in S0. destruct S as [f p v E F P V _|f p v E F P V|f p g r v E F P G R V|[Z|E]].
  - destruct (int_q s f S0 F) as (F1 & a1 & E1 & A1). destruct (int_q _ p (pow10_pos _) P) as (P1 & a2 & E2 & A2). destruct (mul_q f p v F1 P1 V) as (a3 & E3 & A3).
    exists (a1 * a2 * a3)%Q, 0%Q. rewrite E3, E1, E2, tq_N, Z2N.id by apply E. split; [field; lra|]. split; [|split; lra].
    eapply close_weak; [|apply close_mul; [| |apply close_mul; [| |exact A1|exact A2]|exact A3]; num_side]. lra.
  - destruct (int_q s f S0 F) as (F1 & a1 & E1 & A1). destruct (int_q _ p (pow10_pos _) P) as (P1 & a2 & E2 & A2). assert (P0 : 0 < p) by (eapply N.lt_le_trans; [apply one_pos|exact P1]).
    destruct (div_q f p v P0 V) as (a3 & h & E3 & A3 & H). pose proof (close_pos 16 _ ltac:(lra) A2) as I2. pose proof (tq_pos e) as T.
    exists (a1 * a3 * / a2)%Q, h. rewrite E3, E1, E2, tq_N, Z2N.id by (clear - E; lia). rewrite tq_opp. split; [field; repeat split; lra|]. split; [|unfold half, unit_off in *; lra].
    eapply close_weak; [|apply close_mul; [| |apply close_mul; [| |exact A1|exact A3]|apply close_inv; [|exact A2]]; num_side]. lra.
  - destruct (int_q s f S0 F) as (F1 & a1 & E1 & A1). destruct (int_q _ p (pow10_pos _) P) as (P1 & a2 & E2 & A2). assert (P0 : 0 < p) by (eapply N.lt_le_trans; [apply one_pos|exact P1]).
    destruct (div_q f p g P0 G) as (a3 & h & E3 & A3 & H). destruct (int_q _ r (pow10_pos _) R) as (R1 & a4 & E4 & A4). assert (R0 : 0 < r) by (eapply N.lt_le_trans; [apply one_pos|exact R1]).
    destruct (div_q g r v R0 V) as (a5 & h' & E5 & A5 & H'). pose proof (close_pos 16 _ ltac:(lra) A2) as I2. pose proof (close_pos 16 _ ltac:(lra) A4) as I4.
    set (j := Z.to_N (- e - 308)) in *. pose proof (tq_pos e) as T. pose proof (q_pos _ (pow10_pos j)) as TJ. pose proof (q_pos _ (pow10_pos 308)) as T308.
    assert (TE : (tq e == / (q (10 ^ 308) * q (10 ^ j)))%Q).
    { rewrite !tq_N. rewrite <- tq_add, <- tq_opp. subst j. replace (- (Z.of_N 308 + Z.of_N (Z.to_N (- e - 308))))%Z with e; [reflexivity|]. clear - E. lia. }
    assert (J10 : (10 <= q (10 ^ j))%Q).
    { change 10%Q with (q (10 ^ 1)). apply q_le, N.pow_le_mono_r; [discriminate|]. subst j. clear - E. lia. }
    assert (B : close 34 (a5 * / a4)) by (eapply close_weak; [|apply close_mul; [| |exact A5|apply close_inv; [|exact A4]]; num_side]; lra).
    exists ((a1 * a3 * / a2) * (a5 * / a4))%Q, (h * (a5 * / a4) / q (10 ^ j) + h')%Q. generalize dependent (q (10 ^ 308)). intros T308. generalize dependent (q (10 ^ j)). intros TJ. intros. split; [|split].
    + rewrite E5, E3, E1, E2, E4, TE. field. repeat split; lra.
    + eapply close_weak; [|apply close_mul; [| |apply close_mul; [| |apply close_mul; [| |exact A1|exact A3]|apply close_inv; [|exact A2]]|exact B]; num_side]. lra.
    + destruct B as [B1 B2]. generalize dependent (a5 * / a4)%Q. intros b B1 B2. unfold unit57 in *. destruct H as [H1 H2], H' as [H3 H4]. unfold unit_off.
      assert (X : (- (1 # 2) <= h * b / TJ <= 1 # 2)%Q); [|lra].
      assert (Y : (- (1) <= h * b <= 1)%Q) by (split; nra).
      split; [apply Qle_shift_div_l|apply Qle_shift_div_r]; try lra.
  - subst s. discriminate.
  - exists 1%Q, (- (q s * tq e * q one))%Q. split; [change (q 0) with 0%Q; ring|]. split; [eapply close_weak; [|apply close_one]; lra|].
    assert (L : (tq e <= / q (10 ^ 617))%Q).
    { rewrite tq_N. rewrite <- tq_opp. replace (- Z.of_N 617)%Z with (e + (-617 - e))%Z by (clear; lia). rewrite tq_add. pose proof (tq_pos e) as T.
      assert (1 <= tq (-617 - e))%Q; [|nra]. rewrite <- (Z2N.id (-617 - e)) by (clear - E; lia). rewrite <- tq_N. change 1%Q with (q 1). apply q_le, pow_ge1. }
    assert (M : (q s * q one * / q (10 ^ 617) <= 1)%Q).
    { apply Qle_shift_div_r; [apply q_pos, pow10_pos|]. rewrite Qmult_1_l, <- q_mul. apply q_le. apply N.le_trans with (2 ^ 64 * one); [apply N.mul_le_mono_r, N.lt_le_incl, S64|].
      apply N.leb_le. vm_compute. reflexivity. }
    pose proof (q_nonneg s) as SN. assert (X : (q s * tq e * q one <= 1)%Q).
    { eapply Qle_trans; [|exact M]. setoid_replace (q s * tq e * q one)%Q with (tq e * (q s * q one))%Q by ring. setoid_replace (q s * q one * / q (10 ^ 617))%Q with (/ q (10 ^ 617) * (q s * q one))%Q by ring.
      apply Qmult_le_compat_r; [exact L|]. nra. }
    pose proof (tq_pos e). assert (0 <= q s * tq e * q one)%Q by (apply Qmult_le_0_compat; [apply Qmult_le_0_compat|]; lra). unfold unit_off. split; lra.
Qed.

(** ** Digits left out *)
Lemma kept_more a c q' : Forall digit (a ++ c :: q') -> 2 ^ 64 <= decimal_value (a ++ [c]) -> 2 ^ 60 <= decimal_value a.
Proof.
  intros D L. rewrite dv_snoc in L. assert (C : Byte.to_N c - 48 <= 9).
  { apply Forall_app in D as [_ D]. inversion D; subst. unfold digit in *. clear - H1. lia. }
  change (2 ^ 64) with 18446744073709551616 in L. change (2 ^ 60) with 1152921504606846976. clear - L C. lia.
Qed.
Lemma dropped int frac ki ri kf rf : Forall digit int -> Forall digit frac -> kept [] int ki ri -> kept ki frac kf rf ->
  let b := decimal_value (ki ++ kf) * 10 ^ N.of_nat (length ri + length rf) in
  (2 ^ 60 * Z.abs (Z.of_N (decimal_value (int ++ frac)) - Z.of_N b) <= Z.of_N b)%Z.
Proof.
  intros DI DF (EI & RI & _) (EF & RF & _) b. subst b int frac. cbn [app] in RI. pose proof DI as DI2. pose proof DF as DF2. apply Forall_app in DI as [Dki Dri]. apply Forall_app in DF as [Dkf Drf].
  rewrite !dv_app. rewrite !app_length. pose proof (dv_bound _ Dri) as Bri. pose proof (dv_bound _ Drf) as Brf. pose proof (dv_bound _ Dkf) as Bkf.
  rewrite !Nat2N.inj_add, !N.pow_add_r. set (m := decimal_value ki) in *. set (x := decimal_value ri) in *. set (y := decimal_value kf) in *. set (z := decimal_value rf) in *.
  destruct RI as [->|(c & qq & -> & LI)].
  - cbn [length] in *. change (N.of_nat 0) with 0 in *. change (10 ^ 0) with 1 in *. assert (x = 0) as -> by (clear - Bri; lia). clear Bri.
    set (Y := 10 ^ N.of_nat (length kf)) in *. set (Z := 10 ^ N.of_nat (length rf)) in *.
    destruct RF as [->|(c & qq & -> & LF)].
    + subst Z z. cbn [length]. change (10 ^ N.of_nat 0) with 1. change (decimal_value []) with 0. replace (m * 1 + 0) with m by (clear; lia). clear.
      replace (m * (Y * 1) + (y * 1 + 0)) with ((m * Y + y) * (1 * 1)) by (clear; lia). rewrite Z.sub_diag. cbn. lia.
    + assert (G : 2 ^ 60 <= decimal_value (ki ++ kf)).
      { eapply (kept_more _ c qq); [|rewrite <- app_assoc; exact LF]. rewrite <- app_assoc. apply Forall_app. split; [rewrite app_nil_r in DI2; exact DI2|exact DF2]. }
      rewrite dv_app in G. fold m y Y in G. clearbody Y Z m y z. clear - G Brf. set (s := m * Y + y) in *.
      replace ((m * 1 + 0) * (Y * Z) + (y * Z + z)) with (s * Z + z) by (subst s; clear; lia). replace (s * (1 * Z)) with (s * Z) by (clear; lia). clearbody s.
      replace (Z.of_N (s * Z + z) - Z.of_N (s * Z))%Z with (Z.of_N z) by (clear; lia). rewrite Z.abs_eq by (clear; lia).
      apply (N.mul_le_mono_r _ _ Z) in G. clear - G Brf. change (2 ^ 60)%Z with (Z.of_N (2 ^ 60)). generalize dependent (s * Z). intros. lia.
  - assert (G : 2 ^ 60 <= m) by (eapply kept_more; [exact DI2|exact LI]).
    set (X := 10 ^ N.of_nat (length (c :: qq))) in *. set (Y := 10 ^ N.of_nat (length kf)) in *. set (Z := 10 ^ N.of_nat (length rf)) in *. clearbody X Y Z m x y z. clear - G Bri Brf Bkf.
    set (T := X * Y * Z). assert (A1 : x * (Y * Z) + (y * Z + z) < T).
    { subst T. assert (y * Z + z < Y * Z) by (clear - Brf Bkf; nia). assert (x * (Y * Z) + Y * Z <= X * Y * Z) by (clear - Bri; rewrite <- N.mul_assoc; generalize (Y * Z); intros; nia). clear - H H0. lia. }
    assert (A2 : y * (X * Z) <= T) by (subst T; clear - Bkf; replace (X * Y * Z) with (Y * (X * Z)) by (clear; lia); apply N.mul_le_mono_r, N.lt_le_incl, Bkf).
    replace ((m * X + x) * (Y * Z) + (y * Z + z)) with (m * T + (x * (Y * Z) + (y * Z + z))) by (subst T; clear; nia).
    replace ((m * Y + y) * (X * Z)) with (m * T + y * (X * Z)) by (subst T; clear; nia). generalize dependent (x * (Y * Z) + (y * Z + z)). generalize dependent (y * (X * Z)). clearbody T.
    intros u U w W. apply (N.mul_le_mono_r _ _ T) in G. change (2 ^ 60)%Z with (Z.of_N (2 ^ 60)). generalize dependent (m * T). intros. clear - U W G. lia.
Qed.

(** ** Texts *)
Lemma number_digits t neg int frac ex : number_of t neg int frac ex -> Forall digit int /\ Forall digit frac.
Proof.
  intros (m & f & e & _ & _ & I & F & _). split.
  - destruct I as [->|[[_ D] _]]; [repeat constructor; unfold digit; cbn; clear; lia|exact D].
  - destruct F as [[-> _]|[[_ D] _]]; [constructor|exact D].
Qed.
Lemma kept_value int frac ex ki ri kf rf : Forall digit int -> Forall digit frac -> kept [] int ki ri -> kept ki frac kf rf ->
  exists a, (q (decimal_value (ki ++ kf)) * tq (ex + Z.of_nat (length ri) - Z.of_nat (length kf)) == q (significand int frac) * tq (power frac ex) * a)%Q /\ close 2 a.
Proof.
  intros DI DF KI KF. pose proof (dropped int frac ki ri kf rf DI DF KI KF) as H. cbv zeta in H. destruct KF as (EF & _). unfold significand, power.
  set (w := decimal_value (int ++ frac)) in *. set (s := decimal_value (ki ++ kf)) in *. set (r := N.of_nat (length ri + length rf)) in *.
  replace (ex + Z.of_nat (length ri) - Z.of_nat (length kf))%Z with (Z.of_N r + (ex - Z.of_nat (length frac)))%Z by (subst r; rewrite EF, app_length; clear; lia).
  set (b := s * 10 ^ r) in *. assert (B : (q s * q (10 ^ r) == q b)%Q) by (subst b; now rewrite q_mul). set (T := tq (ex - Z.of_nat (length frac))).
  assert (TE : (tq (Z.of_N r + (ex - Z.of_nat (length frac))) == q (10 ^ r) * T)%Q) by (subst T; rewrite tq_add, <- tq_N; reflexivity).
  destruct (N.eq_dec b 0) as [B0|B0].
  { rewrite B0 in H. assert (w = 0) as -> by (clear - H; lia). exists 1%Q. rewrite TE, Qmult_assoc, B, B0. change (q 0) with 0%Q. split; [ring|]. eapply close_weak; [|apply close_one]. lra. }
  assert (W0 : w <> 0) by (intros ->; clear - H B0; lia). apply N.neq_0_lt_0, q_pos in W0. apply N.neq_0_lt_0, q_pos in B0.
  assert (L : (inject_Z (2 ^ 60) * (q b - q w) <= q b /\ inject_Z (2 ^ 60) * (q w - q b) <= q b)%Q).
  { assert (SUB : forall x y, (q x - q y == inject_Z (Z.of_N x - Z.of_N y))%Q) by (intros; unfold Z.sub; now rewrite inject_Z_plus, inject_Z_opp).
    rewrite !SUB, <- !inject_Z_mult. unfold q. rewrite <- !Zle_Qle. generalize dependent (Z.of_N w). generalize dependent (Z.of_N b). clear. intros. lia. }
  exists (q b / q w)%Q. split; [rewrite TE, Qmult_assoc, B; field; lra|]. change (inject_Z (2 ^ 60)) with (1152921504606846976 # 1) in L. clear - L W0 B0. unfold close, unit57. destruct L.
  split; [apply Qle_shift_div_l|apply Qle_shift_div_r]; lra.
Qed.
Lemma kept_64 int frac ki ri kf rf : kept [] int ki ri -> kept ki frac kf rf -> decimal_value (ki ++ kf) < 2 ^ 64.
Proof.
  intros KI KF. eapply kept_small; [|exact KF]. change ki with ([] ++ ki). eapply kept_small; [|exact KI]. reflexivity.
Qed.
(** A text is taken apart in one way. *)
Definition parts (t : bytes) : option (bool * bytes * bytes * Z) :=
  let '(neg, b) := match t with c :: r => if byte_eqb c x2d then (true, r) else (false, t) | [] => (false, []) end in
  match fraction (snd (digits b)) with
  | Some (f, b2) => match exponent b2 with Some (e, []) => Some (neg, fst (digits b), frac_digits f, exp_value e) | _ => None end
  | None => None
  end.
Lemma number_parts t neg int frac ex : number_of t neg int frac ex -> parts t = Some (neg, int, frac, ex).
Proof.
  intros N. apply number_of_is in N. destruct N as (f & e & -> & I & F & X). rewrite <- (frac_is_digits f frac F), <- (exp_is_value e ex X).
  assert (F' : frac_text f) by (apply frac_is_text; eauto). assert (X' : exp_text e) by (apply exp_is_text; eauto). clear F X. unfold parts.
  assert (Mb : match (if neg then [x2d] else []) ++ int ++ f ++ e with c :: q => if byte_eqb c x2d then (true, q) else (false, (if neg then [x2d] else []) ++ int ++ f ++ e) | [] => (false, []) end
    = (neg, int ++ f ++ e)).
  { destruct (int_head int I) as (c & r & -> & D). destruct neg; cbn [app]; [reflexivity|]. rewrite (proj2 (beq_false c x2d)); [reflexivity|].
    intros ->. unfold digit in D. cbn in D. clear - D. lia. }
  rewrite Mb. rewrite digits_of.
  2:{ destruct I as [->|[[_ D] _]]; [|exact D]. constructor; [unfold digit; cbn; clear; lia|constructor]. }
  2:{ destruct F' as [->|(d & _ & ->)]; cbn [app].
      - destruct X' as [->|(c & s & d & C & _ & _ & ->)]; cbn [app]; [exact Logic.I|]. cbn. unfold digit. destruct C as [-> | ->]; cbn; clear; lia.
      - cbn. unfold digit. cbn. clear. lia. }
  cbn [fst snd]. pose proof (fraction_complete f e [] F' X' Logic.I) as P. rewrite !app_nil_r in P. rewrite P.
  pose proof (exponent_complete e [] X' Logic.I) as Q. rewrite app_nil_r in Q. now rewrite Q.
Qed.
(** What is read of a text. *)
Lemma read_q t neg int frac ex neg' v : number_of t neg int frac ex -> double_of t (Fin neg' v) ->
  neg' = neg /\ exists g h, (q v == q (significand int frac) * tq (power frac ex) * q one * g + h)%Q /\ close 93 g /\ unit_off h.
Proof.
  intros T (n2 & i2 & f2 & e2 & ki & ri & kf & rf & v2 & T2 & KI & KF & S & E). injection E as -> ->.
  assert (U : n2 = neg /\ i2 = int /\ f2 = frac /\ e2 = ex) by (apply number_parts in T; apply number_parts in T2; rewrite T in T2; injection T2; intros; now subst). destruct U as (-> & -> & -> & ->). split; [reflexivity|].
  destruct (number_digits _ _ _ _ _ T) as [DI DF]. destruct (scaled_q _ _ _ (kept_64 _ _ _ _ _ _ KI KF) S) as (g & h & V & G & H).
  destruct (kept_value int frac ex ki ri kf rf DI DF KI KF) as (a & A & C). exists (a * g)%Q, h. split; [|split; [|exact H]].
  - rewrite V, A. ring.
  - eapply close_weak; [|apply close_mul; [| |exact C|exact G]; num_side]. lra.
Qed.

Lemma frac_q c k n d : ten_fraction c k n d -> 0 < d /\ (q (n * one) / q d == q c * tq k * q one)%Q.
Proof.
  intros T. apply ten_fraction_iff in T as [-> ->]. split; [apply den_pos|]. rewrite q_mul. rewrite <- tq_frac. pose proof (q_pos _ (den_pos k)). field. lra.
Qed.
Lemma read_about t neg int frac ex neg' v n d : number_of t neg int frac ex -> double_of t (Fin neg' v) ->
  ten_fraction (significand int frac) (power frac ex) n d -> neg' = neg /\ about n d v.
Proof.
  intros T D F. destruct (read_q t neg int frac ex neg' v T D) as (E & g & h & V & G & H). split; [exact E|]. destruct (frac_q _ _ _ _ F) as [D0 X]. rewrite <- X in V. clear X.
  unfold about. destruct (q_off n d v D0) as (z & Z & O). rewrite Zle_Qle, inject_Z_plus, !inject_Z_mult, O. fold (q (n * one)) (q d). pose proof (q_pos d D0) as P.
  assert (XE : (q (n * one) == q (n * one) / q d * q d)%Q) by (field; lra). rewrite XE. clear XE. assert (X0 : (0 <= q (n * one) / q d)%Q) by (apply Qle_shift_div_l; [exact P|]; rewrite Qmult_0_l; apply q_nonneg).
  set (x := (q (n * one) / q d)%Q) in *. clearbody x. clear O F D T. change (inject_Z (2 ^ 50)) with (1125899906842624 # 1).
  assert (B : ((1125899906842624 # 1) * Qabs z <= x + (1125899906842624 # 1))%Q).
  { assert (ZE : (z == x - x * g - h)%Q) by (rewrite Z, V; ring). destruct G as [G1 G2], H as [H1 H2]. unfold unit57 in *.
    assert (Y1 : (x * g <= x * (1 + 93 * (1 # 144115188075855872)))%Q) by (rewrite (Qmult_comm x g), (Qmult_comm x); apply Qmult_le_compat_r; assumption).
    assert (Y2 : (x * (1 - 93 * (1 # 144115188075855872)) <= x * g)%Q) by (rewrite (Qmult_comm x g), (Qmult_comm x); apply Qmult_le_compat_r; assumption).
    apply Qabs_case; intros _; rewrite ZE; generalize dependent (x * g)%Q; intros; lra. }
  rewrite Qmult_assoc. rewrite <- Qmult_plus_distr_l. apply Qmult_le_compat_r; [exact B|]. lra.
Qed.

Lemma scaled_finite s e v : s < 2 ^ 64 -> scaled s e v -> v < infinite.
Proof.
  intros S64 S. assert (F : forall f, closest s 1 f -> f <= 2 ^ 64 * one).
  { intros f C. apply closest_iff in C; [|reflexivity]. subst f. apply round_le; [reflexivity|apply double_units, double_pow|]. rewrite N.mul_1_r. apply N.mul_le_mono_r, N.lt_le_incl, S64. }
  assert (D : forall f p g, f <= 2 ^ 64 * one -> one <= p -> closest f p g -> g <= 2 ^ 64 * one).
  { intros f p g Hf Hp C. assert (0 < p) by (eapply N.lt_le_trans; [apply one_pos|exact Hp]). apply closest_iff in C; [|assumption]. subst g. apply round_le; [assumption|apply double_units, double_pow|]. apply N.mul_le_mono; assumption. }
  assert (I : 2 ^ 64 * one < infinite) by (rewrite infinite_is; apply N.mul_lt_mono_pos_r; [apply one_pos|reflexivity]).
  destruct S as [f p v _ _ _ _ L|f p v _ Hf Hp V|f p g r v _ Hf Hp G Hr V|_]; [exact L| | |].
  - eapply N.le_lt_trans; [|exact I]. eapply D; [apply F, Hf| |exact V]. apply (int_q _ p (pow10_pos _) Hp).
  - eapply N.le_lt_trans; [|exact I]. eapply D; [eapply D; [apply F, Hf| |exact G]| |exact V]; [apply (int_q _ p (pow10_pos _) Hp)|apply (int_q _ r (pow10_pos _) Hr)].
  - apply infinite_pos.
Qed.
Lemma infinite_q : (0 < q infinite)%Q.
Proof. apply q_pos, infinite_pos. Qed.
Lemma infinite_big : 2 ^ 52 <= infinite.
Proof. rewrite infinite_is. pose proof one_big. change (2 ^ 52) with (1 * 2 ^ 52) at 1. apply N.mul_le_mono; [vm_compute; discriminate|exact H]. Qed.
Lemma read_none t neg int frac ex n d r : number_of t neg int frac ex -> ten_fraction (significand int frac) (power frac ex) n d ->
  (2 ^ 50 + 1) * (2 ^ 1024 * d) <= n * 2 ^ 50 -> ~ double_of t r.
Proof.
  intros T F L D. pose proof D as (n2 & i2 & f2 & e2 & ki & ri & kf & rf & v & _ & KI & KF & S & ->). apply scaled_finite in S; [|eapply kept_64; eauto].
  destruct (read_q t neg int frac ex n2 v T D) as (_ & g & h & V & G & H). destruct (frac_q _ _ _ _ F) as [D0 X]. rewrite <- X in V. clear X.
  apply (N.mul_le_mono_r _ _ one) in L. assert (L2 : (2 ^ 50 + 1) * infinite * d <= n * one * 2 ^ 50) by (rewrite infinite_is; revert L; generalize (2 ^ 1024) one; clear; intros; nia).
  pose proof (q_pos d D0) as P. pose proof infinite_big as IB. apply q_le in IB. apply q_le in L2. rewrite !q_mul in L2.
  assert (XL : (q (2 ^ 50 + 1) * q infinite <= q (n * one) / q d * q (2 ^ 50))%Q).
  { rewrite q_mul. setoid_replace (q n * q one / q d * q (2 ^ 50))%Q with ((q n * q one * q (2 ^ 50)) / q d)%Q by (field; lra). apply Qle_shift_div_l; [exact P|]. exact L2. }
  assert (W : (q v + 1 <= q infinite)%Q).
  { change 1%Q with (q 1). unfold q. rewrite <- inject_Z_plus, <- Zle_Qle. clear - S. lia. }
  clear - XL V G H IB W. generalize dependent (q (n * one) / q d)%Q. intros x V XL. rewrite V in W. change (q (2 ^ 50 + 1)) with (1125899906842625 # 1) in *. change (q (2 ^ 50)) with (1125899906842624 # 1) in *. change (q (2 ^ 52)) with (4503599627370496 # 1) in *.
  destruct G as [G1 _], H as [H1 _]. unfold unit57 in *. assert (Y2 : (x * (1 - 93 * (1 # 144115188075855872)) <= x * g)%Q) by (rewrite (Qmult_comm x g), (Qmult_comm x); apply Qmult_le_compat_r; [exact G1|lra]).
  generalize dependent (x * g)%Q. generalize dependent (q infinite). intros. lra.
Qed.

Lemma parts_read t neg int frac ex ki ri kf rf v : number_of t neg int frac ex -> kept [] int ki ri -> kept ki frac kf rf ->
  scaled (decimal_value (ki ++ kf)) (ex + Z.of_nat (length ri) - Z.of_nat (length kf)) v -> double_of t (Fin neg v).
Proof. intros T KI KF S. exists neg, int, frac, ex, ki, ri, kf, rf, v. auto. Qed.
Lemma scaled_some s e : s < 2 ^ 64 -> (q s * tq e * q one <= q infinite * (1 - 120 * unit57))%Q -> exists v, scaled s e v.
Proof.
  intros S64 L. destruct (N.eq_dec s 0) as [->|S0]; [exists 0; apply scaled_zero; now left|]. apply N.neq_0_lt_0 in S0.
  destruct (Z.le_gt_cases 0 e) as [E|E]; [|destruct (Z.le_gt_cases (-308) e) as [E2|E2]; [|destruct (Z.le_gt_cases (-616) e) as [E3|E3]]].
  - assert (QS : (1 <= q s)%Q) by (change 1%Q with (q 1); apply q_le; clear - S0; lia). pose proof one_q as O. pose proof (tq_pos e) as T. pose proof infinite_q as IQ.
    assert (E308 : (e <= 308)%Z).
    { apply Z.le_ngt. intros G. assert (X : (q (10 ^ 309) <= tq e)%Q).
      { rewrite <- (Z2N.id e E), <- tq_N. apply q_le, N.pow_le_mono_r; [discriminate|]. clear - G. lia. }
      assert (Y : (q infinite <= q (10 ^ 309) * q one)%Q).
      { rewrite <- q_mul. apply q_le. rewrite infinite_is. apply N.mul_le_mono_r. apply N.leb_le. vm_compute. reflexivity. }
      assert (Z : (q (10 ^ 309) * q one <= q s * tq e * q one)%Q).
      { apply Qmult_le_compat_r; [|lra]. clear - X QS T. generalize dependent (q (10 ^ 309)). intros. nra. }
      unfold unit57 in L. generalize dependent (q (10 ^ 309) * q one)%Q. generalize dependent (q s * tq e * q one)%Q. clear - IQ. intros. lra. }
    assert (V : closest (f64_of_int s * pow10 (Z.to_N e)) (one * one) (f64_mul (f64_of_int s) (pow10 (Z.to_N e)))) by apply closest_mul.
    eexists. eapply scaled_up; [split; [exact E|exact E308]|apply closest_int|apply closest_pow10|exact V|].
    destruct (int_q s _ S0 (closest_int s)) as (F1 & a1 & E1 & A1). destruct (int_q _ _ (pow10_pos (Z.to_N e)) (closest_pow10 _)) as (P1 & a2 & E2 & A2). destruct (mul_q _ _ _ F1 P1 V) as (a3 & E3 & A3).
    rewrite E1, E2, tq_N, Z2N.id in E3 by exact E. set (v := f64_mul _ _) in *. clearbody v.
    assert (A : close 50 (a1 * a2 * a3)) by (eapply close_weak; [|apply close_mul; [| |apply close_mul; [| |exact A1|exact A2]|exact A3]; num_side]; lra).
    assert (VE : (q v == q s * tq e * q one * (a1 * a2 * a3))%Q) by (rewrite E3; field; lra). destruct A as [_ A].
    assert (X0 : (0 <= q s * tq e * q one)%Q) by (apply Qmult_le_0_compat; [apply Qmult_le_0_compat|]; lra).
    assert (VL : (q v < q infinite)%Q).
    { rewrite VE. clear VE. generalize dependent (a1 * a2 * a3)%Q. intros a A. clear - L A X0 IQ. generalize dependent (q s * tq e * q one)%Q. intros x L X0. unfold unit57 in *.
      apply (Qle_lt_trans _ (x * (1 + 50 * (1 # 144115188075855872)))%Q); [rewrite (Qmult_comm x a), (Qmult_comm x); apply Qmult_le_compat_r; assumption|]. generalize dependent (q infinite). intros. lra. }
    unfold q in VL. rewrite <- Zlt_Qlt in VL. clear - VL. lia.
  - eexists. eapply scaled_down; [split; eassumption|apply closest_int|apply closest_pow10|apply closest_div, pow10_f64].
  - eexists. eapply scaled_twice; [split; eassumption|apply closest_int|apply closest_pow10|apply closest_div, pow10_f64|apply closest_pow10|apply closest_div, pow10_f64].
  - exists 0. apply scaled_zero. now right.
Qed.
Lemma read_ok t neg int frac ex n d : number_of t neg int frac ex -> ten_fraction (significand int frac) (power frac ex) n d ->
  n * 2 ^ 50 <= (2 ^ 50 - 1) * (2 ^ 1024 * d) -> exists v, double_of t (Fin neg v).
Proof.
  intros T F L. destruct (frac_q _ _ _ _ F) as [D0 X]. destruct (kept_take int []) as (ki & ri & KI). destruct (kept_take frac ki) as (kf & rf & KF).
  destruct (number_digits _ _ _ _ _ T) as [DI DF]. destruct (kept_value int frac ex ki ri kf rf DI DF KI KF) as (a & A & C).
  destruct (scaled_some (decimal_value (ki ++ kf)) (ex + Z.of_nat (length ri) - Z.of_nat (length kf))) as (v & S); [eapply kept_64; eauto| |exists v; eapply parts_read; eauto].
  rewrite A. setoid_replace (q (significand int frac) * tq (power frac ex) * a * q one)%Q with (q (significand int frac) * tq (power frac ex) * q one * a)%Q by ring. rewrite <- X. pose proof (q_pos d D0) as P.
  apply (N.mul_le_mono_r _ _ one) in L. assert (L2 : n * one * 2 ^ 50 <= (2 ^ 50 - 1) * infinite * d) by (rewrite infinite_is; revert L; generalize (2 ^ 50 - 1) (2 ^ 1024) one; clear; intros; nia).
  apply q_le in L2. rewrite !q_mul in L2. assert (XL : (q (n * one) / q d * q (2 ^ 50) <= q (2 ^ 50 - 1) * q infinite)%Q).
  { rewrite q_mul. setoid_replace (q n * q one / q d * q (2 ^ 50))%Q with ((q n * q one * q (2 ^ 50)) / q d)%Q by (field; lra). apply Qle_shift_div_r; [exact P|]. exact L2. }
  assert (X0 : (0 <= q (n * one) / q d)%Q) by (apply Qle_shift_div_l; [exact P|]; rewrite Qmult_0_l; apply q_nonneg). pose proof infinite_q as IQ. clear - XL X0 C IQ.
  generalize dependent (q (n * one) / q d)%Q. intros x XL X0. change (q (2 ^ 50 - 1)) with (1125899906842623 # 1) in *. change (q (2 ^ 50)) with (1125899906842624 # 1) in *. destruct C as [_ C]. unfold unit57 in *.
  apply Qle_trans with (x * (1 + 2 * (1 # 144115188075855872)))%Q; [rewrite (Qmult_comm x a), (Qmult_comm x); apply Qmult_le_compat_r; assumption|]. generalize dependent (q infinite). intros. lra.
Qed.

(** ** What is written can be read *)
Lemma shortest_small v : fst (shortest v) <= 10 ^ 17.
Proof.
  destruct (N.eq_dec v 0) as [->|P]; [vm_compute; discriminate|]. apply N.neq_0_lt_0 in P. unfold shortest. pose proof (pick_from_spec v (first_power v) 17 1) as H.
  destruct (pick_from v (first_power v) 1 17) as [[c k]|]; [|vm_compute; discriminate]. destruct H as (m & M & K & _).
  assert (C : c <= 10 ^ 17).
  { rewrite pick_is in K. pose proof (quot_range v m P ltac:(clear - M; lia)) as [_ Q]. cbv zeta in *. set (x := quot v (first_power v - Z.of_nat m + 1)) in *.
    assert (T : 10 ^ N.of_nat m <= 10 ^ 17) by (apply N.pow_le_mono_r; [discriminate|clear - M; lia]). assert (X : x + 1 <= 10 ^ 17) by (clear - Q T; lia).
    repeat match type of K with context [if ?b then _ else _] => destruct b end; try discriminate; injection K as <- _; clear - X; lia. }
  destruct (c =? 10); [vm_compute; discriminate|exact C].
Qed.
Definition top : N := 17976931348623125.
Lemma top_low : round (17976931348623124 * 10 ^ 292) 1 * 2 ^ 49 <= (2 ^ 49 - 1) * infinite.
Proof. rewrite round_fast by discriminate. apply N.leb_le. vm_compute. reflexivity. Qed.
Lemma top_low' : round (10 ^ 308) 1 * 2 ^ 49 <= (2 ^ 49 - 1) * infinite.
Proof. rewrite round_fast by discriminate. apply N.leb_le. vm_compute. reflexivity. Qed.
Lemma top_high : infinite <= round (17976931348623159 * 10 ^ 292) 1.
Proof. rewrite round_fast by discriminate. apply N.leb_le. vm_compute. reflexivity. Qed.
Lemma top_range v c k : 0 < c -> c <= 10 ^ 17 -> round_decimal c k = v -> v < infinite -> (2 ^ 49 - 1) * infinite < v * 2 ^ 49 ->
  (k = 292%Z /\ exists i, c = top + N.of_nat i /\ (i < 34)%nat) \/ (k = 293%Z /\ exists i, c = 1797693134862313 + N.of_nat i /\ (i < 3)%nat).
Proof.
  intros P C R U L. assert (K : (292 <= k)%Z).
  { apply Z.le_ngt. intros G. assert (v <= round (10 ^ 308) 1).
    { rewrite <- R, round_decimal_is. apply round_mono; [apply den_pos|reflexivity|]. rewrite N.mul_1_r. unfold num, den. destruct (0 <=? k)%Z eqn:S.
      - rewrite N.mul_1_r. change (10 ^ 308) with (10 ^ 17 * 10 ^ 291). apply N.mul_le_mono; [exact C|]. apply N.pow_le_mono_r; [discriminate|]. clear - G. lia.
      - apply N.le_trans with (10 ^ 308 * 1); [|apply N.mul_le_mono_l, pow_ge1]. eapply N.le_trans; [exact C|vm_compute; discriminate]. }
    apply (N.mul_le_mono_r _ _ (2 ^ 49)) in H. pose proof top_low' as T. pose proof (N.le_trans _ _ _ H T) as X. clear - X L. lia. }
  set (j := Z.to_N (k - 292)). assert (N1 : round_decimal c k = round (c * 10 ^ j * 10 ^ 292) 1).
  { rewrite round_decimal_is. unfold num, den. replace (0 <=? k)%Z with true by (symmetry; apply Z.leb_le; clear - K; lia). f_equal. rewrite <- N.mul_assoc, <- N.pow_add_r. do 2 f_equal. subst j. clear - K. lia. }
  rewrite N1 in R. assert (LO : top <= c * 10 ^ j).
  { apply N.le_ngt. intros G. assert (v <= round (17976931348623124 * 10 ^ 292) 1).
    { rewrite <- R. apply round_mono; [reflexivity|reflexivity|]. rewrite !N.mul_1_r. apply N.mul_le_mono_r. unfold top in G. clear - G. lia. }
    apply (N.mul_le_mono_r _ _ (2 ^ 49)) in H. pose proof top_low as T. pose proof (N.le_trans _ _ _ H T) as X. clear - X L. lia. }
  assert (HI : c * 10 ^ j < 17976931348623159).
  { apply N.lt_nge. intros G. assert (infinite <= v); [|clear - H U; lia]. eapply N.le_trans; [apply top_high|]. rewrite <- R. apply round_mono; [reflexivity|reflexivity|]. rewrite !N.mul_1_r. apply N.mul_le_mono_r, G. }
  unfold top in *. destruct (N.eq_dec j 0) as [J|J]; [left|destruct (N.eq_dec j 1) as [J1|J1]; [right|exfalso]].
  - rewrite J in *. change (10 ^ 0) with 1 in *. split; [subst j; clear - J K; lia|]. exists (N.to_nat (c - 17976931348623125)). clear - LO HI. lia.
  - rewrite J1 in *. change (10 ^ 1) with 10 in *. split; [subst j; clear - J1 K; lia|]. exists (N.to_nat (c - 1797693134862313)). clear - LO HI. lia.
  - replace j with (2 + (j - 2)) in * by (clear - J J1; lia). rewrite N.pow_add_r in *. change (10 ^ 2) with 100 in *. clear - LO HI. replace (c * (100 * 10 ^ (j - 2))) with (100 * (c * 10 ^ (j - 2))) in * by (clear; lia).
    generalize dependent (c * 10 ^ (j - 2)). intros. lia.
Qed.
Definition reads (c : N) (k : Z) : bool := match from_parts 2 (f64_of_int c) k with Some _ => true | None => false end.
Lemma of_int_mono c d : c <= d -> f64_of_int c <= f64_of_int d.
Proof.
  intros L. pose proof (closest_int c) as C. pose proof (closest_int d) as D. apply closest_iff in C; [|reflexivity]. apply closest_iff in D; [|reflexivity]. rewrite C, D.
  apply round_mono; [reflexivity|reflexivity|]. now rewrite !N.mul_1_r.
Qed.
Lemma mul_mono a b p : a <= b -> f64_mul a p <= f64_mul b p.
Proof.
  intros L. assert (O : 0 < one * one) by (apply N.mul_pos_pos; apply one_pos). pose proof (closest_mul a p) as A. pose proof (closest_mul b p) as B. apply closest_iff in A; [|exact O]. apply closest_iff in B; [|exact O]. rewrite A, B.
  apply round_mono; [exact O|exact O|]. apply N.mul_le_mono_r, N.mul_le_mono_r, L.
Qed.
Lemma reads_mono c d k : (0 <= k <= 308)%Z -> c <= d -> reads d k = true -> reads c k = true.
Proof.
  intros K L. unfold reads. cbn [from_parts]. replace (Z.abs k <=? 308)%Z with true by (symmetry; apply Z.leb_le; clear - K; lia). replace (0 <=? k)%Z with true by (symmetry; apply Z.leb_le, K).
  destruct (f64_mul (f64_of_int d) (pow10 (Z.to_N k)) <? f64_limit) eqn:D; [|discriminate]. intros _. apply N.ltb_lt in D.
  pose proof (mul_mono _ _ (pow10 (Z.to_N k)) (of_int_mono c d L)) as M. pose proof (N.le_lt_trans _ _ _ M D) as X. apply N.ltb_lt in X. now rewrite X.
Qed.
Lemma top_reads : reads 17976931348623157 292 && reads 1797693134862315 293 = true.
Proof. apply andb_true_intro. unfold reads. split; rewrite parts_fast, int_fast; vm_compute; reflexivity. Qed.
Lemma top_last v : round_decimal 17976931348623158 292 = v -> round_decimal 17976931348623157 292 = v /\ ~ nearer v 17976931348623158 292 17976931348623157 292.
Proof. intros <-. rewrite !decimal_fast. split; [vm_compute; reflexivity|]. unfold nearer. intros H. apply Z.leb_le in H. revert H. vm_compute. discriminate. Qed.
Lemma top_scaled v : 0 < v -> double v -> v < infinite -> (2 ^ 49 - 1) * infinite < v * 2 ^ 49 ->
  let c := fst (shortest v) in let k := snd (shortest v) in (292 <= k)%Z /\ c < 2 ^ 64 /\ exists w, scaled c k w.
Proof.
  intros P V U L c k. destruct (shortest_spec v P V) as (C & R & _ & N). fold c k in C, R, N. pose proof (shortest_small v) as S. fold c in S.
  assert (C64 : c < 2 ^ 64) by (eapply N.le_lt_trans; [exact S|reflexivity]). pose proof (top_range v c k C S R U L) as T. clearbody c k.
  assert (G : (292 <= k)%Z /\ reads c k = true).
  { pose proof top_reads as TR. apply andb_prop in TR as [T1 T2]. destruct T as [(-> & i & -> & I)|(-> & i & -> & I)]; (split; [clear; lia|]).
    - destruct (Nat.eq_dec i 33) as [->|J]; [|apply (reads_mono _ 17976931348623157); [clear; lia|unfold top; clear - I J; lia|exact T1]]. exfalso. change (top + N.of_nat 33) with 17976931348623158 in *.
      destruct (top_last v R) as [R' NN]. apply NN. apply (N _ _ 17); [reflexivity|vm_compute; discriminate|exact R'].
    - apply (reads_mono _ 1797693134862315); [clear; lia|clear - I; lia|exact T2]. }
  destruct G as [K G]. split; [exact K|]. split; [exact C64|]. unfold reads in G. destruct (from_parts 2 (f64_of_int c) k) as [w|] eqn:F; [|discriminate]. exists w. now apply scaled_iff.
Qed.

Lemma written_read (neg : bool) v : double v -> v < infinite ->
  exists w, double_of (f64_text neg v) (Fin neg w) /\ (2 ^ 49 * Z.abs (Z.of_N w - Z.of_N v) <= Z.of_N v + 2 ^ 50)%Z.
Proof.
  intros V U. destruct (N.eq_dec v 0) as [->|P]; [exists 0; split; [apply zero_back|cbn; clear; lia]|]. apply N.neq_0_lt_0 in P.
  destruct (shortest_spec v P V) as (C & R & _). pose proof (top_scaled v P V U) as TS. cbv zeta in TS. pose proof (shortest_small v) as SM.
  unfold f64_text. replace (v =? 0) with false by (symmetry; apply N.eqb_neq, pos_nz, P).
  set (c := fst (shortest v)) in *. set (k := snd (shortest v)) in *. clearbody c k.
  destruct (layout_number neg c k C) as (_ & int & frac & ex & T & SD & SP). set (t := (if neg then [x2d] else []) ++ layout c k) in *. clearbody t.
  assert (F : ten_fraction (significand int frac) (power frac ex) (num (seen_digits c k) (seen_power c k)) (den (seen_power c k))) by (unfold significand, power; rewrite SD, SP; now apply ten_fraction_iff).
  assert (RV : v = round (num (seen_digits c k) (seen_power c k)) (den (seen_power c k))).
  { rewrite <- R. rewrite <- round_decimal_is. symmetry. apply same_decimal, seen_same. }
  set (n := num (seen_digits c k) (seen_power c k)) in *. pose proof (den_pos (seen_power c k)) as D0. set (d := den (seen_power c k)) in *.
  pose proof (round_error n d D0) as RE. rewrite <- RV in RE. clear RV. clearbody n d.
  assert (RD : exists w, double_of t (Fin neg w)).
  { destruct (N.le_gt_cases (v * 2 ^ 49) ((2 ^ 49 - 1) * infinite)) as [L|L].
    - apply (read_ok t neg int frac ex n d T F). apply (N.mul_le_mono_pos_r _ _ one one_pos). replace ((2 ^ 50 - 1) * (2 ^ 1024 * d) * one) with ((2 ^ 50 - 1) * (infinite * d)) by (rewrite infinite_is; generalize (2 ^ 1024) one (2 ^ 50 - 1); clear; intros; lia).
      replace (n * 2 ^ 50 * one) with (n * one * 2 ^ 50) by (clear; lia). unfold off in RE. apply (N.mul_le_mono_r _ _ d) in L. pose proof infinite_big as IB. apply (N.mul_le_mono_r _ _ d) in IB.
      replace (v * 2 ^ 49 * d) with (v * d * 2 ^ 49) in L by (clear; lia). rewrite <- (N.mul_assoc _ infinite d) in L. clear - RE L IB. generalize dependent (infinite * d). generalize dependent (v * d). generalize dependent (n * one). intros.
      change (2 ^ 52) with 4503599627370496 in *. change (2 ^ 49 - 1) with 562949953421311 in *. change (2 ^ 49) with 562949953421312 in *. change (2 ^ 50 - 1) with 1125899906842623 in *. change (2 ^ 50) with 1125899906842624 in *. change (2 ^ 53)%Z with 9007199254740992%Z in *. destruct RE; lia.
    - destruct (TS L) as (K & C64 & w & S). exists w. assert (PI : plain_int c k = false).
      { unfold plain_int. apply andb_false_intro2, Z.leb_gt. clear - K. lia. }
      unfold seen_digits, seen_power in SD, SP. rewrite PI in SD, SP. apply (parts_read t neg int frac ex int [] frac []); [exact T| | |].
      + split; [symmetry; apply app_nil_r|]. split; [now left|]. right. cbn [app]. eapply N.le_lt_trans; [apply (dv_app_le int frac)|]. now rewrite SD.
      + split; [symmetry; apply app_nil_r|]. split; [now left|]. right. now rewrite SD.
      + rewrite SD. cbn [length Z.of_nat]. rewrite Z.add_0_r, SP. exact S. }
  destruct RD as (w & W). exists w. split; [exact W|]. destruct (read_about t neg int frac ex neg w n d T W F) as [_ A]. unfold about, off in *. clear - A RE D0.
  apply (Z.mul_le_mono_pos_r _ _ (Z.of_N d)); [clear - D0; lia|]. rewrite <- Z.mul_assoc, abs_scale. rewrite Z.mul_sub_distr_r, Z.mul_add_distr_r, <- !N2Z.inj_mul.
  generalize dependent (v * d). generalize dependent (w * d). generalize dependent (n * one). intros. change (2 ^ 53)%Z with 9007199254740992%Z in *. change (2 ^ 50)%Z with 1125899906842624%Z in *. change (2 ^ 49)%Z with 562949953421312%Z in *. destruct RE; lia.
Qed.

(** ** What comes out is a double *)
Lemma scaled_double s e v : scaled s e v -> double v.
Proof. intros [f p w _ _ _ [D _] _|f p w _ _ _ [D _]|f p g r w _ _ _ _ _ [D _]|_]; try exact D. apply double_0. Qed.
Lemma read_double t neg v : double_of t (Fin neg v) -> double v /\ v < infinite.
Proof.
  intros (n & i & f & e & ki & ri & kf & rf & w & _ & KI & KF & S & E). injection E as _ ->. split; [exact (scaled_double _ _ _ S)|].
  eapply scaled_finite; [|exact S]. eapply kept_64; eauto.
Qed.
Lemma closest_about n v : closest n 1 v -> about n 1 v.
Proof.
  intros C. apply closest_iff in C; [|reflexivity]. subst v. unfold about. destruct (round_error n 1) as [H|H]; [reflexivity| |];
    (assert (O : (0 <= off n 1 (round n 1))%Z) by (unfold off; apply Z.abs_nonneg)); generalize dependent (off n 1 (round n 1)); generalize (n * one); clear; intros m z H O;
    change (2 ^ 50)%Z with 1125899906842624%Z; change (2 ^ 53)%Z with 9007199254740992%Z in *; lia.
Qed.

(** ** What is written tells doubles apart *)
Lemma stands_same t neg neg' c k c' k' : stands_for t neg c k -> stands_for t neg' c' k' -> neg = neg' /\ round_decimal c k = round_decimal c' k'.
Proof.
  intros (i & f & e & n & d & n1 & d1 & T & F & F1 & E) (i' & f' & e' & n' & d' & n1' & d1' & T' & F' & F1' & E').
  apply number_parts in T, T'. rewrite T in T'. injection T' as <- <- <- <-. split; [reflexivity|].
  apply ten_fraction_iff in F as [-> ->], F' as [-> ->], F1 as [-> ->], F1' as [-> ->].
  rewrite <- (same_decimal _ _ _ _ E). apply same_decimal. exact E'.
Qed.
Lemma zero_stands neg : stands_for (f64_text neg 0) neg 0 0.
Proof.
  exists [x30], [x30], 0%Z, 0, 10, 0, 1. split.
  - exists (if neg then [x2d] else []), [x2e; x30], []. split; [now destruct neg|]. split; [reflexivity|]. split; [left; reflexivity|].
    split; [right; split; [split; [discriminate|repeat constructor; unfold digit; cbn; lia]|reflexivity]|left; auto].
  - split; [right; repeat split; reflexivity|]. split; [left; repeat split; reflexivity|reflexivity].
Qed.
Lemma written_stands neg v : double v -> exists c k, round_decimal c k = v /\ stands_for (f64_text neg v) neg c k.
Proof.
  intros V. destruct (N.eq_dec v 0) as [->|P].
  - exists 0, 0%Z. split; [symmetry; apply closest_to_iff, zero_closest|apply zero_stands].
  - destruct (written_fewest neg v) as (c & k & (_ & C & _) & S); [now apply N.neq_0_lt_0|exact V|]. exists c, k. split; [symmetry; now apply closest_to_iff|exact S].
Qed.
Lemma written_distinct neg v neg' v' : double v -> double v' -> f64_text neg v = f64_text neg' v' -> neg = neg' /\ v = v'.
Proof.
  intros V V' E. destruct (written_stands neg v V) as (c & k & R & S), (written_stands neg' v' V') as (c' & k' & R' & S'). rewrite <- E in S'.
  destruct (stands_same _ _ _ _ _ _ _ S S') as [-> X]. split; [reflexivity|]. now rewrite <- R, <- R', X.
Qed.
Lemma rate_is_about j r : rate_of j r -> rate_about j r.
Proof.
  destruct j as [| |z|t| | |]; try (intros []; fail); cbn [rate_of]; intros H.
  - destruct H as (v & C & ->). exists (z <? 0)%Z, v, (Z.abs_N z), 1. split; [reflexivity|]. split; [apply C|]. split; [now apply closest_about|]. left. exists z. auto.
  - pose proof H as (neg & i & f & e & ki & ri & kf & rf & v & T & _ & _ & _ & ->). destruct (read_double _ _ _ H) as [V _].
    exists neg, v, (num (significand i f) (power f e)), (den (power f e)). split; [reflexivity|]. split; [exact V|].
    assert (X : ten_fraction (significand i f) (power f e) (num (significand i f) (power f e)) (den (power f e))) by now apply ten_fraction_iff.
    split; [exact (proj2 (read_about t neg i f e neg v _ _ T H X))|]. right. exists t, i, f, e. auto.
Qed.
Lemma int_finite n v : n < 2 ^ 64 -> closest n 1 v -> v < infinite.
Proof.
  intros L C. apply closest_iff in C; [|reflexivity]. subst v. apply N.le_lt_trans with (2 ^ 64 * one).
  - apply round_le; [reflexivity|apply double_units, double_pow|]. rewrite N.mul_1_r. apply N.mul_le_mono_r, N.lt_le_incl, L.
  - rewrite infinite_is. apply N.mul_lt_mono_pos_r; [apply one_pos|reflexivity].
Qed.
