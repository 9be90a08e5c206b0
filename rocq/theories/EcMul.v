(** Multiples of a point, and the group generated by a point of prime order. *)

From Coq Require Import ZArith List Lia Znumtheory.
From Verif Require Import EcNum EcField EcRing EcGroup.
Import ListNotations.
Local Open Scope Z_scope.

Fixpoint pmulp (k : positive) (P : pt) : pt :=
  match k with
  | xH => P
  | xO k' => let R := pmulp k' P in add R R
  | xI k' => let R := pmulp k' P in add (add R R) P
  end.
Definition zmul (k : Z) (P : pt) : pt :=
  match k with Z0 => Inf | Zpos p => pmulp p P | Zneg p => neg (pmulp p P) end.

Lemma neg_add P Q : on_curve P -> on_curve Q -> neg (add P Q) = add (neg P) (neg Q).
Proof.
  intros HP HQ. pose proof (neg_on_curve P HP). pose proof (neg_on_curve Q HQ). pose proof (add_on_curve P Q HP HQ) as HS.
  pose proof (neg_on_curve _ HS) as HN.
  (* add (neg P) (neg Q) = neg (P+Q) + (P + Q) + ... *)
  transitivity (add (neg (add P Q)) (add (add P Q) (add (neg P) (neg Q)))).
  - assert (E : add (add P Q) (add (neg P) (neg Q)) = Inf).
    { rewrite (add_comm P Q) by assumption. rewrite add_assoc by auto using add_on_curve.
      rewrite <- (add_assoc P (neg P) (neg Q)) by assumption. rewrite add_neg, add_inf_l. apply add_neg. }
    now rewrite E, add_inf_r.
  - rewrite <- add_assoc by auto using add_on_curve. rewrite (add_comm (neg (add P Q))) by assumption.
    now rewrite add_neg, add_inf_l.
Qed.

Section Mul.
  Variable P : pt.
  Hypothesis HP : on_curve P.

  Lemma pmulp_on_curve k : on_curve (pmulp k P).
  Proof. induction k; cbn; auto using add_on_curve. Qed.
  Lemma zmul_on_curve k : on_curve (zmul k P).
  Proof. destruct k; cbn; [exact I|apply pmulp_on_curve|apply neg_on_curve, pmulp_on_curve]. Qed.
  Lemma pmulp_succ k : pmulp (Pos.succ k) P = add (pmulp k P) P.
  Proof.
    induction k as [k IH|k IH|]; cbn; [|reflexivity|reflexivity].
    rewrite IH. pose proof (pmulp_on_curve k) as HR. set (R := pmulp k P) in *.
    rewrite <- (add_assoc (add R P)) by auto using add_on_curve. f_equal.
    rewrite (add_comm (add R P)) by auto using add_on_curve. now rewrite <- add_assoc by auto using add_on_curve.
  Qed.
  Lemma zmul_succ k : zmul (Z.succ k) P = add (zmul k P) P.
  Proof.
    destruct k as [|p|p].
    - cbn. reflexivity.
    - cbn [zmul]. rewrite <- pmulp_succ, <- Pos2Z.inj_succ. reflexivity.
    - destruct (Pos.eq_dec p 1) as [->|Hp].
      + cbn [zmul Z.succ Z.add Z.pos_sub pmulp]. rewrite add_comm by (auto using neg_on_curve). now rewrite add_neg.
      + rewrite <- (Pos.succ_pred p Hp). set (q := Pos.pred p).
        assert (E : Z.succ (Zneg (Pos.succ q)) = Zneg q) by lia. rewrite E. cbn [zmul]. rewrite pmulp_succ.
        pose proof (pmulp_on_curve q) as HR. rewrite neg_add by assumption.
        rewrite add_assoc by auto using neg_on_curve. rewrite (add_comm (neg P)) by auto using neg_on_curve.
        now rewrite add_neg, add_inf_r.
  Qed.
  Lemma zmul_pred k : zmul (Z.pred k) P = add (zmul k P) (neg P).
  Proof.
    rewrite <- (Z.succ_pred k) at 2. rewrite zmul_succ.
    rewrite add_assoc by auto using zmul_on_curve, neg_on_curve. now rewrite add_neg, add_inf_r.
  Qed.
  Lemma zmul_add a b : zmul (a + b) P = add (zmul a P) (zmul b P).
  Proof.
    revert b. apply Z.peano_ind.
    - rewrite Z.add_0_r. cbn. now rewrite add_inf_r.
    - intros b IH. rewrite Z.add_succ_r, !zmul_succ, IH. apply add_assoc; auto using zmul_on_curve.
    - intros b IH. rewrite Z.add_pred_r, !zmul_pred, IH. apply add_assoc; auto using zmul_on_curve, neg_on_curve.
  Qed.
  Lemma zmul_opp a : zmul (- a) P = neg (zmul a P).
  Proof. destruct a; cbn; [reflexivity|reflexivity|now rewrite neg_neg]. Qed.
  Lemma zmul_1 : zmul 1 P = P.
  Proof. reflexivity. Qed.
  Lemma zmul_sub a b : zmul (a - b) P = add (zmul a P) (neg (zmul b P)).
  Proof. unfold Z.sub. now rewrite zmul_add, zmul_opp. Qed.
End Mul.

Lemma zmul_mul P a b : on_curve P -> zmul (a * b) P = zmul a (zmul b P).
Proof.
  intros HP. revert a. apply Z.peano_ind.
  - reflexivity.
  - intros a IH. rewrite Z.mul_succ_l, zmul_add, IH, zmul_succ by auto using zmul_on_curve. reflexivity.
  - intros a IH. rewrite Z.mul_pred_l, zmul_sub, IH, zmul_pred by auto using zmul_on_curve. reflexivity.
Qed.
Lemma zmul_Inf a : zmul a Inf = Inf.
Proof.
  revert a. apply Z.peano_ind; [reflexivity|..]; intros a IH.
  - now rewrite zmul_succ, IH by exact I.
  - now rewrite zmul_pred, IH by exact I.
Qed.
Lemma zmul_neg P a : on_curve P -> zmul a (neg P) = neg (zmul a P).
Proof.
  intros HP. rewrite <- zmul_opp. replace (neg P) with (zmul (-1) P) by reflexivity. rewrite <- zmul_mul by exact HP. f_equal. lia.
Qed.

(** A point of prime order. *)
Section Order.
  Variables (G : pt) (n : Z).
  Hypothesis HG : on_curve G.
  Hypothesis Hn : prime n.
  Hypothesis HnG : zmul n G = Inf.
  Hypothesis HG0 : G <> Inf.

  Lemma zmul_cong a b : cong n a b -> zmul a G = zmul b G.
  Proof.
    intros [k E]. replace a with (b + k * n) by lia. rewrite zmul_add by exact HG.
    rewrite zmul_mul, HnG, zmul_Inf by exact HG. apply add_inf_r.
  Qed.
  Lemma zmul_zero k : zmul k G = Inf -> (n | k).
  Proof.
    intros H. destruct (Zdivide_dec n k) as [D|D]; [exact D|exfalso]. apply HG0.
    apply prime_rel_prime in D; [|exact Hn]. apply rel_prime_bezout in D. destruct D as [u v E].
    rewrite <- (zmul_1 G), <- E, zmul_add by exact HG. rewrite !zmul_mul by exact HG. rewrite H, HnG, !zmul_Inf. reflexivity.
  Qed.
  Lemma zmul_inj a b : zmul a G = zmul b G -> cong n a b.
  Proof. intros H. apply zmul_zero. rewrite zmul_sub, H by exact HG. apply add_neg. Qed.
End Order.
