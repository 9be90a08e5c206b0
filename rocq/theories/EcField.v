(** The field of integers modulo [fp], with Leibniz equality. *)

From Coq Require Import ZArith List Lia Znumtheory Eqdep_dec Bool Field.
From Verif Require Import EcNum Base Hash Secp EcPrime.
Import ListNotations.
Local Open Scope Z_scope.

Definition in_range (x : Z) : bool := (0 <=? x) && (x <? fp).
Record fe := mkfe { fv : Z; fv_ok : in_range fv = true }.

Lemma fp_big : 2 ^ 255 < fp.
Proof. reflexivity. Qed.
Lemma fp_pos : 0 < fp.
Proof. reflexivity. Qed.
Lemma fp_eq : fp = 2 ^ 256 - 4294968273.
Proof. reflexivity. Qed.
Global Opaque fp.

Lemma fv_range a : 0 <= fv a < fp.
Proof. destruct a as [x H]. cbn. unfold in_range in H. apply andb_prop in H. lia. Qed.
Lemma fe_ext a b : fv a = fv b -> a = b.
Proof.
  destruct a as [x H], b as [y K]. cbn. intros ->. f_equal. apply UIP_dec. apply bool_dec.
Qed.
Lemma fe_dec (a b : fe) : {a = b} + {a <> b}.
Proof. destruct (Z.eq_dec (fv a) (fv b)) as [E|E]; [left; now apply fe_ext|right; congruence]. Qed.

Lemma mod_in_range z : in_range (z mod fp) = true.
Proof. pose proof (Z.mod_pos_bound z fp fp_pos). unfold in_range. apply andb_true_intro. lia. Qed.
Definition of_Z (z : Z) : fe := mkfe (z mod fp) (mod_in_range z).
Lemma fv_of_Z z : fv (of_Z z) = z mod fp.
Proof. reflexivity. Qed.
Lemma of_Z_fv a : of_Z (fv a) = a.
Proof. apply fe_ext. rewrite fv_of_Z. apply Z.mod_small. apply fv_range. Qed.
Lemma of_Z_cong x y : cong fp x y <-> of_Z x = of_Z y.
Proof.
  rewrite cong_iff by apply fp_pos. split.
  - intros H. apply fe_ext. now rewrite !fv_of_Z.
  - intros H. apply (f_equal fv) in H. exact H.
Qed.
Lemma of_Z_small x : 0 <= x < fp -> fv (of_Z x) = x.
Proof. intros H. rewrite fv_of_Z. now apply Z.mod_small. Qed.

Definition f0 : fe := of_Z 0.
Definition f1 : fe := of_Z 1.
Definition f_add (a b : fe) : fe := of_Z (fv a + fv b).
Definition f_mul (a b : fe) : fe := of_Z (fv a * fv b).
Definition f_sub (a b : fe) : fe := of_Z (fv a - fv b).
Definition f_opp (a : fe) : fe := of_Z (- fv a).
Definition f_inv (a : fe) : fe := of_Z (fv a ^ (fp - 2)).
Definition f_div (a b : fe) : fe := f_mul a (f_inv b).

Lemma cong_fv z : cong fp (fv (of_Z z)) z.
Proof. rewrite fv_of_Z. apply cong_mod. pose proof fp_pos. lia. Qed.
Lemma of_Z_add x y : of_Z (x + y) = f_add (of_Z x) (of_Z y).
Proof. apply of_Z_cong. apply cong_add; apply cong_sym, cong_fv. Qed.
Lemma of_Z_mul x y : of_Z (x * y) = f_mul (of_Z x) (of_Z y).
Proof. apply of_Z_cong. apply cong_mul; apply cong_sym, cong_fv. Qed.
Lemma of_Z_sub x y : of_Z (x - y) = f_sub (of_Z x) (of_Z y).
Proof. apply of_Z_cong. apply cong_sub; apply cong_sym, cong_fv. Qed.
Lemma of_Z_opp x : of_Z (- x) = f_opp (of_Z x).
Proof. apply of_Z_cong. replace (- x) with (0 - x) by ring. unfold cong. 
  replace (0 - x - - fv (of_Z x)) with (fv (of_Z x) - x) by ring. apply cong_fv. Qed.

(** Rewriting in the integers. *)
Ltac to_Z := repeat match goal with
  | a : fe |- _ => is_var a; rewrite <- (of_Z_fv a); generalize (fv a); clear a; intros a
  end; unfold f0, f1; rewrite <- ?of_Z_opp, <- ?of_Z_add, <- ?of_Z_mul, <- ?of_Z_sub.

Lemma fe_ring : ring_theory f0 f1 f_add f_mul f_sub f_opp eq.
Proof.
  constructor; intros; to_Z; repeat rewrite <- ?of_Z_opp, <- ?of_Z_add, <- ?of_Z_mul, <- ?of_Z_sub; f_equal; ring.
Qed.

Lemma f1_neq_f0 : f1 <> f0.
Proof.
  intros H. apply of_Z_cong in H. pose proof fp_big. unfold cong in H. apply Z.divide_pos_le in H; lia.
Qed.
Lemma of_Z_pow x e : 0 <= e -> cong fp (fv (of_Z x) ^ e) (x ^ e).
Proof. intros H. apply cong_pow; [exact H|apply cong_fv]. Qed.

Lemma f_inv_l a : a <> f0 -> f_mul (f_inv a) a = f1.
Proof.
  intros H. unfold f_inv. rewrite <- (of_Z_fv a) at 2. rewrite <- of_Z_mul. apply of_Z_cong.
  pose proof fp_big. replace (fv a ^ (fp - 2) * fv a) with (fv a ^ (fp - 1)).
  - apply fermat; [apply fp_prime|]. intros D. apply H. rewrite <- (of_Z_fv a). apply of_Z_cong.
    unfold cong. now rewrite Z.sub_0_r.
  - replace (fp - 1) with (Z.succ (fp - 2)) by lia. rewrite Z.pow_succ_r by lia. ring.
Qed.
Lemma fe_field : field_theory f0 f1 f_add f_mul f_sub f_opp f_div f_inv eq.
Proof. constructor; [exact fe_ring|exact f1_neq_f0|reflexivity|exact f_inv_l]. Qed.

Add Field Fe : fe_field.
Global Opaque f_add f_mul f_sub f_opp f_inv of_Z.

Declare Scope fe_scope.
Delimit Scope fe_scope with fe.
Bind Scope fe_scope with fe.
Notation "0" := f0 : fe_scope.
Notation "1" := f1 : fe_scope.
Infix "+" := f_add : fe_scope.
Infix "*" := f_mul : fe_scope.
Infix "-" := f_sub : fe_scope.
Notation "- x" := (f_opp x) : fe_scope.
Infix "/" := f_div : fe_scope.
Local Open Scope fe_scope.

Lemma f_mul_0 a b : a * b = 0 -> a = 0 \/ b = 0.
Proof.
  intros H. destruct (fe_dec a 0) as [E|E]; [now left|right].
  replace b with (f_inv a * (a * b)).
  - rewrite H. ring.
  - field. exact E.
Qed.
Lemma f_mul_neq a b : a <> 0 -> b <> 0 -> a * b <> 0.
Proof. intros A B C. apply f_mul_0 in C. tauto. Qed.
Lemma f_sub_0 a b : a - b = 0 -> a = b.
Proof. intros H. replace a with ((a - b) + b) by ring. rewrite H. ring. Qed.
Lemma f_small_neq z : (0 < z < 2 ^ 255)%Z -> of_Z z <> 0.
Proof.
  intros H E. unfold f0 in E. apply of_Z_cong in E. pose proof fp_big. unfold cong in E. rewrite Z.sub_0_r in E.
  apply Z.divide_pos_le in E; lia.
Qed.
