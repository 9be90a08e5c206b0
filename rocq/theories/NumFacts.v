(** Lemmas about positional numerals (SpecText.v) and bit operations. *)

From Coq Require Import Lia ZifyBool ZifyNat ZifyN.
From Verif Require Import Base BaseFacts SpecText.
Local Open Scope N_scope.

(** ** Bit operations as arithmetic *)


Lemma lor_shiftl a b k : a < 2 ^ k -> N.lor a (N.shiftl b k) = a + b * 2 ^ k.
Proof.
  intros H.
  assert (D : N.land a (N.shiftl b k) = 0).
  { rewrite <- (N.mod_small a (2 ^ k)) by exact H.
    apply N.bits_inj. intros i. rewrite N.land_spec, N.bits_0.
    destruct (N.lt_ge_cases i k).
    - rewrite N.shiftl_spec_low by assumption. apply andb_false_r.
    - rewrite N.mod_pow2_bits_high by assumption. reflexivity. }
  rewrite <- N.lxor_lor by exact D. rewrite <- N.add_nocarry_lxor by exact D.
  rewrite N.shiftl_mul_pow2. reflexivity.
Qed.

(** ** Values *)

Lemma value_nil base : value base [] = 0.
Proof. reflexivity. Qed.

Lemma value_snoc base l d : value base (l ++ [d]) = value base l * base + d.
Proof. unfold value. rewrite fold_left_app. reflexivity. Qed.

Lemma pow_S base k : base ^ N.of_nat (S k) = base * base ^ N.of_nat k.
Proof. rewrite Nat2N.inj_succ, N.pow_succ_r'. reflexivity. Qed.

Lemma value_app base a b :
  value base (a ++ b) = value base a * base ^ N.of_nat (length b) + value base b.
Proof.
  induction b as [|x b IH] using rev_ind.
  - rewrite app_nil_r. cbn. lia.
  - rewrite app_assoc, !value_snoc, IH, app_length. cbn [length].
    rewrite Nat.add_1_r, pow_S. lia.
Qed.

Lemma value_cons base d l : value base (d :: l) = d * base ^ N.of_nat (length l) + value base l.
Proof.
  change (d :: l) with ([d] ++ l). rewrite value_app. unfold value at 1. cbn [fold_left]. lia.
Qed.

Lemma value_bound base l :
  0 < base -> Forall (fun d => d < base) l -> value base l < base ^ N.of_nat (length l).
Proof.
  intros B. induction l as [|x l IH] using rev_ind; [cbn; lia|].
  intros F. apply Forall_app in F. destruct F as [F Fx]. inv Fx. specialize (IH F).
  rewrite value_snoc, app_length. cbn [length]. rewrite Nat.add_1_r, pow_S. nia.
Qed.

Lemma value_zeros base k l : value base (repeat 0 k ++ l) = value base l.
Proof.
  induction k as [|k IH]; [reflexivity|]. cbn [repeat app]. rewrite value_cons, IH. lia.
Qed.

Lemma value_repeat0 base k : value base (repeat 0 k) = 0.
Proof. rewrite <- (app_nil_r (repeat 0 k)), value_zeros. reflexivity. Qed.

Lemma be_val_value bs : be_val bs = value 256 (map b2n bs).
Proof.
  induction bs as [|b bs IH] using rev_ind; [reflexivity|].
  rewrite map_app, be_val_snoc, IH. cbn [map]. rewrite value_snoc. reflexivity.
Qed.

(** ** Leading zeros *)

(** The digits after the leading zeros. *)
Fixpoint strip0 (ds : list N) : list N :=
  match ds with
  | 0 :: r => strip0 r
  | _ => ds
  end.

Lemma lead0_strip0 ds : ds = repeat 0 (lead0 ds) ++ strip0 ds.
Proof. induction ds as [|[|p] r IH]; cbn; congruence. Qed.

Lemma strip0_value base ds : value base (strip0 ds) = value base ds.
Proof. rewrite (lead0_strip0 ds) at 2. rewrite value_zeros. reflexivity. Qed.

Lemma strip0_Forall P ds : Forall P ds -> Forall P (strip0 ds).
Proof. induction ds as [|[|p] r IH]; cbn; intros F; auto. inv F. auto. Qed.

Lemma strip0_head ds d r : strip0 ds = d :: r -> 0 < d.
Proof. induction ds as [|[|p] r' IH]; cbn; intros H; auto; [discriminate|]. inv H. lia. Qed.

Lemma lead0_app_repeat k l : lead0 (repeat 0 k ++ l) = (k + lead0 l)%nat.
Proof. induction k as [|k IH]; cbn; [reflexivity|]. rewrite IH. reflexivity. Qed.

Lemma lead0_repeat k : lead0 (repeat 0 k) = k.
Proof. rewrite <- (app_nil_r (repeat 0 k)), lead0_app_repeat. cbn. lia. Qed.

Lemma strip0_lead0 ds : lead0 (strip0 ds) = O.
Proof. induction ds as [|[|p] r IH]; cbn; auto. Qed.

Lemma strip0_app_repeat k l : strip0 (repeat 0 k ++ l) = strip0 l.
Proof. induction k as [|k IH]; cbn; auto. Qed.

Lemma strip0_strip0 ds : strip0 (strip0 ds) = strip0 ds.
Proof. induction ds as [|[|p] r IH]; cbn; auto. Qed.

Lemma strip0_nil_value base ds : 1 < base -> strip0 ds = [] <-> value base ds = 0.
Proof.
  intros B. rewrite <- (strip0_value base ds). split; [intros ->; reflexivity|].
  destruct (strip0 ds) as [|d r] eqn:E; [auto|]. intros V.
  apply strip0_head in E. rewrite value_cons in V.
  assert (base ^ N.of_nat (length r) <> 0) by (apply N.pow_nonzero; lia). nia.
Qed.

(** Same-length numerals are determined by their value. *)
Lemma value_inj_len base a b :
  0 < base -> Forall (fun d => d < base) a -> Forall (fun d => d < base) b ->
  length a = length b -> value base a = value base b -> a = b.
Proof.
  intros B. revert b. induction a as [|x a IH] using rev_ind; intros b Fa Fb L V.
  - destruct b; [reflexivity | discriminate].
  - destruct b as [|y b _] using rev_ind; [rewrite app_length in L; cbn in L; lia|].
    rewrite !app_length in L. cbn in L. rewrite !value_snoc in V.
    apply Forall_app in Fa. destruct Fa as [Fa Fx]. inv Fx.
    apply Forall_app in Fb. destruct Fb as [Fb Fy]. inv Fy.
    assert (value base a = value base b /\ x = y) as [V' ->].
    { assert (x = y).
      { apply (f_equal (fun n => n mod base)) in V.
        rewrite !(N.add_comm (_ * base)), !N.mod_add, !N.mod_small in V by lia. exact V. }
      subst. split; [|reflexivity]. nia. }
    f_equal. apply IH; auto. lia.
Qed.

(** A numeral without leading zeros has its length determined by its value. *)
Lemma strip0_length base ds d r :
  Forall (fun d => d < base) ds -> strip0 ds = d :: r -> 1 < base ->
  base ^ N.of_nat (length r) <= value base ds < base ^ N.of_nat (S (length r)).
Proof.
  intros F E B. rewrite <- (strip0_value base ds).
  pose proof (strip0_Forall _ _ F) as F'. rewrite E in *.
  pose proof (strip0_head _ _ _ E).
  split.
  - rewrite value_cons. nia.
  - apply (value_bound base (d :: r)); [lia | exact F'].
Qed.

Lemma pow_length_unique base m n v :
  1 < base -> base ^ N.of_nat m <= v < base ^ N.of_nat (S m) ->
  base ^ N.of_nat n <= v < base ^ N.of_nat (S n) -> m = n.
Proof.
  intros B H1 H2.
  destruct (Nat.lt_trichotomy m n) as [L|[->|L]]; [|reflexivity|].
  - assert (base ^ N.of_nat (S m) <= base ^ N.of_nat n) by (apply N.pow_le_mono_r; lia). lia.
  - assert (base ^ N.of_nat (S n) <= base ^ N.of_nat m) by (apply N.pow_le_mono_r; lia). lia.
Qed.

(** Uniqueness of numerals: value and number of leading zeros determine the digits. *)
Lemma numeral_unique base a b :
  1 < base -> Forall (fun d => d < base) a -> Forall (fun d => d < base) b ->
  value base a = value base b -> lead0 a = lead0 b -> a = b.
Proof.
  intros B Fa Fb V L. rewrite (lead0_strip0 a), (lead0_strip0 b), L. f_equal.
  destruct (strip0 a) as [|x r] eqn:Ea.
  - apply (strip0_nil_value base) in Ea; [|assumption].
    symmetry. apply (strip0_nil_value base); [assumption|]. congruence.
  - destruct (strip0 b) as [|y r'] eqn:Eb.
    + apply (strip0_nil_value base) in Eb; [|assumption].
      assert (strip0 a = []) by (apply (strip0_nil_value base); congruence). congruence.
    + pose proof (strip0_length base a x r Fa Ea B) as La.
      pose proof (strip0_length base b y r' Fb Eb B) as Lb.
      rewrite V in La. pose proof (pow_length_unique _ _ _ _ B La Lb).
      rewrite <- Ea, <- Eb. apply (value_inj_len base); try lia.
      * apply strip0_Forall, Fa.
      * apply strip0_Forall, Fb.
      * rewrite Ea, Eb. cbn. lia.
      * rewrite !strip0_value. exact V.
Qed.

(** Digits of a smaller base need at least as many positions. *)
Lemma numeral_length base base' a b :
  1 < base -> base <= base' ->
  Forall (fun d => d < base) a -> Forall (fun d => d < base') b ->
  value base a = value base' b -> lead0 a = lead0 b -> (length b <= length a)%nat.
Proof.
  intros B BB Fa Fb V L. rewrite (lead0_strip0 a), (lead0_strip0 b), !app_length, !repeat_length, L.
  apply Nat.add_le_mono_l.
  destruct (strip0 b) as [|y r'] eqn:Eb; [cbn; lia|].
  destruct (strip0 a) as [|x r] eqn:Ea.
  - apply (strip0_nil_value base) in Ea; [|assumption].
    assert (strip0 b = []) by (apply (strip0_nil_value base'); [lia|congruence]). congruence.
  - pose proof (strip0_length base a x r Fa Ea B) as La.
    pose proof (strip0_length base' b y r' Fb Eb ltac:(lia)) as Lb.
    cbn [length]. destruct (Nat.le_gt_cases (S (length r')) (S (length r))) as [|G]; [assumption|].
    exfalso.
    assert (base ^ N.of_nat (S (length r)) <= base' ^ N.of_nat (length r')).
    { etransitivity; [apply N.pow_le_mono_l; exact BB|]. apply N.pow_le_mono_r; lia. }
    lia.
Qed.
