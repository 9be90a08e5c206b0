(** Polynomials in one variable over the field of integers modulo [fp]: lists of coefficients, equal when
    all coefficients are. *)

From Coq Require Import ZArith List Lia Setoid Morphisms Ring.
From Verif Require Import EcField.
Import ListNotations.
Local Open Scope fe_scope.

Definition poly := list fe.
Definition coef (p : poly) (i : nat) : fe := nth i p 0.
Inductive peq (p q : poly) : Prop := peq_intro : (forall i, coef p i = coef q i) -> peq p q.
Lemma peq_coef p q : peq p q -> forall i, coef p i = coef q i.
Proof. now intros []. Qed.

Global Instance peq_equiv : Equivalence peq.
Proof.
  split.
  - intros p. constructor. reflexivity.
  - intros p q [H]. constructor. intros i. symmetry. apply H.
  - intros p q r [H] [K]. constructor. intros i. now rewrite H.
Qed.

Fixpoint padd (p q : poly) : poly :=
  match p, q with
  | [], _ => q
  | _, [] => p
  | a :: p', b :: q' => (a + b) :: padd p' q'
  end.
Definition pscale (a : fe) (p : poly) : poly := map (f_mul a) p.
Definition popp (p : poly) : poly := map f_opp p.
Definition psub (p q : poly) : poly := padd p (popp q).
Fixpoint pmul (p q : poly) : poly :=
  match p with
  | [] => []
  | a :: p' => padd (pscale a q) (0 :: pmul p' q)
  end.

Lemma coef_nil i : coef [] i = 0.
Proof. now destruct i. Qed.
Lemma coef_cons_0 a p : coef (a :: p) 0 = a.
Proof. reflexivity. Qed.
Lemma coef_cons_S a p i : coef (a :: p) (S i) = coef p i.
Proof. reflexivity. Qed.
Lemma coef_add p : forall q i, coef (padd p q) i = coef p i + coef q i.
Proof.
  induction p as [|a p IH]; intros [|b q] i; cbn [padd].
  - rewrite !coef_nil. ring.
  - rewrite coef_nil. ring.
  - rewrite coef_nil. ring.
  - destruct i; [reflexivity|]. rewrite !coef_cons_S. apply IH.
Qed.
Lemma coef_scale a p i : coef (pscale a p) i = a * coef p i.
Proof.
  revert i. induction p as [|b p IH]; intros i; cbn [pscale map].
  - rewrite !coef_nil. ring.
  - destruct i; [reflexivity|]. rewrite !coef_cons_S. apply IH.
Qed.
Lemma coef_opp p i : coef (popp p) i = - coef p i.
Proof.
  revert i. induction p as [|b p IH]; intros i; cbn [popp map].
  - rewrite !coef_nil. ring.
  - destruct i; [reflexivity|]. rewrite !coef_cons_S. apply IH.
Qed.
Lemma coef_mul_0 a p q : coef (pmul (a :: p) q) 0 = a * coef q 0.
Proof. cbn [pmul]. rewrite coef_add, coef_scale, coef_cons_0. ring. Qed.
Lemma coef_mul_S a p q i : coef (pmul (a :: p) q) (S i) = a * coef q (S i) + coef (pmul p q) i.
Proof. cbn [pmul]. rewrite coef_add, coef_scale, coef_cons_S. ring. Qed.

Global Instance padd_proper : Proper (peq ==> peq ==> peq) padd.
Proof. intros p p' [H] q q' [K]. constructor. intros i. now rewrite !coef_add, H, K. Qed.
Global Instance popp_proper : Proper (peq ==> peq) popp.
Proof. intros p p' [H]. constructor. intros i. now rewrite !coef_opp, H. Qed.
Global Instance pscale_proper : Proper (eq ==> peq ==> peq) pscale.
Proof. intros a ? <- p p' [H]. constructor. intros i. now rewrite !coef_scale, H. Qed.
Global Instance psub_proper : Proper (peq ==> peq ==> peq) psub.
Proof. intros p p' H q q' K. unfold psub. now rewrite H, K. Qed.

Lemma coef_mul_nil p i : coef (pmul p []) i = 0.
Proof.
  revert i. induction p as [|a p IH]; intros i; [apply coef_nil|].
  destruct i; [rewrite coef_mul_0|rewrite coef_mul_S, IH]; rewrite coef_nil; ring.
Qed.
Lemma coef_mul_r_0 p b q : coef (pmul p (b :: q)) 0 = b * coef p 0.
Proof. destruct p as [|a p]; [cbn [pmul]; rewrite !coef_nil; ring|]. rewrite coef_mul_0, !coef_cons_0. ring. Qed.
Lemma coef_mul_r_S p : forall b q i, coef (pmul p (b :: q)) (S i) = b * coef p (S i) + coef (pmul p q) i.
Proof.
  induction p as [|a p IH]; intros b q i.
  - cbn [pmul]. rewrite !coef_nil. ring.
  - rewrite coef_mul_S, !coef_cons_S. destruct i.
    + rewrite coef_mul_r_0, coef_mul_0. ring.
    + rewrite IH, coef_mul_S. ring.
Qed.
Lemma pmul_comm p q : peq (pmul p q) (pmul q p).
Proof.
  revert q. induction p as [|a p IH]; intros q; constructor; intros i.
  - rewrite coef_mul_nil. apply coef_nil.
  - destruct i; [now rewrite coef_mul_0, coef_mul_r_0|]. now rewrite coef_mul_S, coef_mul_r_S, (peq_coef _ _ (IH q)).
Qed.
Lemma pmul_proper_r p q q' : peq q q' -> peq (pmul p q) (pmul p q').
Proof.
  intros H. induction p as [|a p IH]; [reflexivity|]. cbn [pmul].
  apply padd_proper; [now rewrite H|]. constructor. intros [|i]; [reflexivity|]. apply (peq_coef _ _ IH).
Qed.
Global Instance pmul_proper : Proper (peq ==> peq ==> peq) pmul.
Proof.
  intros p p' H q q' K. rewrite (pmul_proper_r p q q' K), (pmul_comm p), (pmul_comm p').
  now apply pmul_proper_r.
Qed.
Lemma pmul_add_r p q r : peq (pmul p (padd q r)) (padd (pmul p q) (pmul p r)).
Proof.
  induction p as [|a p IH]; constructor; intros i.
  - now rewrite coef_add, !coef_nil; ring_simplify.
  - rewrite coef_add. destruct i; [rewrite !coef_mul_0, coef_add; ring|].
    rewrite !coef_mul_S, (peq_coef _ _ IH), !coef_add. ring.
Qed.
Lemma pmul_add_l p q r : peq (pmul (padd p q) r) (padd (pmul p r) (pmul q r)).
Proof. now rewrite pmul_comm, pmul_add_r, (pmul_comm r p), (pmul_comm r q). Qed.
Lemma pmul_scale a p q : peq (pmul (pscale a p) q) (pscale a (pmul p q)).
Proof.
  induction p as [|b p IH]; [reflexivity|]. constructor. intros i. cbn [pscale map]. fold (pscale a p). rewrite coef_scale.
  destruct i; [rewrite !coef_mul_0; ring|]. rewrite !coef_mul_S, (peq_coef _ _ IH), coef_scale. ring.
Qed.
Lemma pmul_shift p q : peq (pmul (0 :: p) q) (0 :: pmul p q).
Proof. constructor. intros [|i]; [rewrite coef_mul_0, coef_cons_0; ring|]. rewrite coef_mul_S, coef_cons_S. ring. Qed.
Lemma pmul_assoc p q r : peq (pmul p (pmul q r)) (pmul (pmul p q) r).
Proof.
  induction p as [|a p IH]; [reflexivity|].
  cbn [pmul]. rewrite pmul_add_l, pmul_scale, pmul_shift.
  apply padd_proper; [reflexivity|]. constructor. intros [|i]; [reflexivity|]. rewrite !coef_cons_S. apply (peq_coef _ _ IH).
Qed.

Definition pconst (a : fe) : poly := [a].
Lemma pmul_const a p : peq (pmul (pconst a) p) (pscale a p).
Proof. constructor. intros i. unfold pconst. cbn [pmul]. rewrite coef_add. destruct i; [rewrite coef_cons_0|rewrite coef_cons_S, coef_nil]; ring. Qed.

Lemma poly_ring : @ring_theory poly (@nil fe) (pconst 1) padd pmul psub popp peq.
Proof.
  constructor; intros; try reflexivity.
  - constructor. intros i. rewrite !coef_add. ring.
  - constructor. intros i. rewrite !coef_add. ring.
  - rewrite pmul_const. constructor. intros i. rewrite coef_scale. ring.
  - apply pmul_comm.
  - apply pmul_assoc.
  - apply pmul_add_l.
  - constructor. intros i. unfold psub. rewrite coef_add, coef_opp, coef_nil. ring.
Qed.
Lemma poly_ext : ring_eq_ext padd pmul popp peq.
Proof.
  constructor; repeat intro.
  - now apply padd_proper.
  - now apply pmul_proper.
  - now apply popp_proper.
Qed.
Add Ring Poly : poly_ring (setoid peq_equiv poly_ext).
Lemma poly_ring' : @ring_theory (list fe) (@nil fe) (pconst 1) padd pmul psub popp peq.
Proof. exact poly_ring. Qed.
Add Ring Poly' : poly_ring' (setoid peq_equiv poly_ext).

(** Constants. *)
Lemma pconst_add a b : peq (pconst (a + b)) (padd (pconst a) (pconst b)).
Proof. reflexivity. Qed.
Lemma pconst_mul a b : peq (pconst (a * b)) (pmul (pconst a) (pconst b)).
Proof. rewrite pmul_const. reflexivity. Qed.
Lemma pconst_opp a : peq (pconst (- a)) (popp (pconst a)).
Proof. reflexivity. Qed.
Lemma pconst_0 : peq (pconst 0) [].
Proof. constructor. intros [|i]; [reflexivity|]. unfold pconst. now rewrite coef_cons_S, !coef_nil. Qed.

(** ** Degree *)

Definition has_deg (p : poly) (n : nat) : Prop := coef p n <> 0 /\ forall i, (n < i)%nat -> coef p i = 0.

Global Instance has_deg_proper : Proper (peq ==> eq ==> iff) has_deg.
Proof.
  intros p q [H] n ? <-. unfold has_deg. rewrite (H n). split; intros [A B]; (split; [exact A|]); intros i Hi; [rewrite <- H|rewrite H]; auto.
Qed.
Lemma deg_dec p : peq p [] \/ exists n, has_deg p n.
Proof.
  induction p as [|a p IH]; [now left|]. destruct IH as [E|[n [A B]]].
  - destruct (fe_dec a 0) as [->|Ha].
    + left. constructor. intros [|i]; [reflexivity|]. rewrite coef_cons_S, (peq_coef _ _ E), !coef_nil. reflexivity.
    + right. exists O. split; [exact Ha|]. intros [|i] Hi; [lia|]. rewrite coef_cons_S, (peq_coef _ _ E). apply coef_nil.
  - right. exists (S n). split; [exact A|]. intros [|i] Hi; [lia|]. rewrite coef_cons_S. apply B. lia.
Qed.
Lemma deg_unique p n m : has_deg p n -> has_deg p m -> n = m.
Proof.
  intros [A B] [C D]. destruct (lt_eq_lt_dec n m) as [[L|E]|L]; [|exact E|].
  - exfalso. apply C. now apply B.
  - exfalso. apply A. now apply D.
Qed.
Lemma deg_nonzero p n : has_deg p n -> ~ peq p [].
Proof. intros [A _] [E]. apply A. rewrite E. apply coef_nil. Qed.
Lemma deg_mul p : forall q n m, has_deg p n -> has_deg q m -> has_deg (pmul p q) (n + m).
Proof.
  induction p as [|a p IH]; intros q n m Hp Hq.
  - destruct Hp as [A _]. rewrite coef_nil in A. contradiction.
  - destruct n as [|n].
    + assert (Ep : peq (a :: p) (pconst a)).
      { constructor. intros [|i]; [reflexivity|]. unfold pconst. rewrite (proj2 Hp) by lia. now rewrite coef_cons_S, coef_nil. }
      rewrite Ep, pmul_const. destruct Hp as [A _]. cbn in A. destruct Hq as [C D]. split.
      * rewrite coef_scale. now apply f_mul_neq.
      * intros i Hi. rewrite coef_scale, D by exact Hi. ring.
    + assert (Hp' : has_deg p n).
      { destruct Hp as [A B]. split; [exact A|]. intros i Hi. rewrite <- (coef_cons_S a). apply B. lia. }
      destruct (IH q n m Hp' Hq) as [A B]. destruct Hq as [C D]. cbn [Nat.add]. split.
      * rewrite coef_mul_S, D by lia. intros E. apply A. rewrite <- E. ring.
      * intros [|i] Hi; [lia|]. rewrite coef_mul_S, D, B by lia. ring.
Qed.
Lemma pmul_zero p q : peq (pmul p q) [] -> peq p [] \/ peq q [].
Proof.
  intros H. destruct (deg_dec p) as [E|[n Hn]]; [now left|]. destruct (deg_dec q) as [E|[m Hm]]; [now right|].
  exfalso. exact (deg_nonzero _ _ (deg_mul _ _ _ _ Hn Hm) H).
Qed.
(** Different degrees do not cancel. *)
Lemma deg_sub_l p q n m : has_deg p n -> has_deg q m -> (m < n)%nat -> has_deg (psub p q) n.
Proof.
  intros [A B] [C D] L. unfold psub. split.
  - rewrite coef_add, coef_opp, D by exact L. intros E. apply A. rewrite <- E. ring.
  - intros i Hi. rewrite coef_add, coef_opp, B, D by lia. ring.
Qed.
Lemma deg_opp p n : has_deg p n -> has_deg (popp p) n.
Proof.
  intros [A B]. split.
  - rewrite coef_opp. intros E. apply A. replace (coef p n) with (- (- coef p n)) by ring. rewrite E. ring.
  - intros i Hi. rewrite coef_opp, B by exact Hi. ring.
Qed.
Lemma deg_sub_r p q n m : has_deg p n -> has_deg q m -> (n < m)%nat -> has_deg (psub p q) m.
Proof.
  intros Hp Hq L. assert (E : peq (psub p q) (popp (psub q p))) by ring. rewrite E. apply deg_opp.
  now apply deg_sub_l with n.
Qed.
Lemma deg_const p : has_deg p 0 -> exists a, a <> 0 /\ peq p (pconst a).
Proof.
  intros [A B]. exists (coef p 0). split; [exact A|]. constructor. intros [|i]; [reflexivity|].
  rewrite B by lia. unfold pconst. now rewrite coef_cons_S, coef_nil.
Qed.

(** ** Values *)

Fixpoint peval (p : poly) (x : fe) : fe := match p with [] => 0 | a :: q => a + x * peval q x end.
Lemma peval_add p : forall q x, peval (padd p q) x = peval p x + peval q x.
Proof. induction p as [|a p IH]; intros [|b q] x; cbn [padd peval]; rewrite ?IH; ring. Qed.
Lemma peval_scale a p x : peval (pscale a p) x = a * peval p x.
Proof. induction p as [|b p IH]; cbn [pscale map peval]; [ring|]. fold (pscale a p). rewrite IH. ring. Qed.
Lemma peval_mul p q x : peval (pmul p q) x = peval p x * peval q x.
Proof. induction p as [|a p IH]; cbn [pmul peval]; [ring|]. rewrite peval_add, peval_scale. cbn [peval]. rewrite IH. ring. Qed.
Lemma peval_nil p x : peq p [] -> peval p x = 0.
Proof.
  induction p as [|a p IH]; intros H; [reflexivity|]. cbn [peval].
  destruct H as [H]. rewrite (H O : a = coef [] 0), coef_nil, IH; [ring|]. constructor. intros i. rewrite <- (coef_cons_S a), H, !coef_nil. reflexivity.
Qed.
Lemma peval_opp p x : peval (popp p) x = - peval p x.
Proof. induction p as [|b p IH]; cbn [popp map peval]; [ring|]. fold (popp p). rewrite IH. ring. Qed.
Global Instance peval_proper : Proper (peq ==> eq ==> eq) peval.
Proof.
  intros p q H x ? <-. apply f_sub_0.
  replace (peval p x - peval q x) with (peval (psub p q) x).
  - apply peval_nil. rewrite H. ring.
  - unfold psub. rewrite peval_add, peval_opp. ring.
Qed.
