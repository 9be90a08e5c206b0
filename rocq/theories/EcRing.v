(** The coordinate ring of y^2 = x^3 + 7: pairs [(a, b)] standing for a(X) + b(X) Y, and its norm. *)

From Coq Require Import ZArith List Lia Setoid Morphisms Ring.
From Verif Require Import EcField EcPoly.
Import ListNotations.
Local Open Scope fe_scope.

Definition f7 : fe := of_Z 7.
Definition cubic : poly := [f7; 0; 0; 1].

Definition cr := (poly * poly)%type.
Inductive req (f g : cr) : Prop := req_intro : peq (fst f) (fst g) -> peq (snd f) (snd g) -> req f g.
Global Instance req_equiv : Equivalence req.
Proof.
  split.
  - intros f. now constructor.
  - intros f g []. now constructor.
  - intros f g h [] []. constructor; etransitivity; eassumption.
Qed.

Definition r0 : cr := ([], []).
Definition r1 : cr := (pconst 1, []).
Definition radd (f g : cr) : cr := (padd (fst f) (fst g), padd (snd f) (snd g)).
Definition ropp (f : cr) : cr := (popp (fst f), popp (snd f)).
Definition rsub (f g : cr) : cr := (psub (fst f) (fst g), psub (snd f) (snd g)).
Definition rmul (f g : cr) : cr :=
  (padd (pmul (fst f) (fst g)) (pmul (pmul (snd f) (snd g)) cubic),
   padd (pmul (fst f) (snd g)) (pmul (snd f) (fst g))).

Global Instance radd_proper : Proper (req ==> req ==> req) radd.
Proof. intros f f' [A B] g g' [C D]. constructor; cbn; [now rewrite A, C|now rewrite B, D]. Qed.
Global Instance rsub_proper : Proper (req ==> req ==> req) rsub.
Proof. intros f f' [A B] g g' [C D]. constructor; cbn; [now rewrite A, C|now rewrite B, D]. Qed.
Global Instance ropp_proper : Proper (req ==> req) ropp.
Proof. intros f f' [A B]. constructor; cbn; [now rewrite A|now rewrite B]. Qed.
Global Instance rmul_proper : Proper (req ==> req ==> req) rmul.
Proof. intros f f' [A B] g g' [C D]. constructor; cbn [rmul fst snd]; now rewrite A, B, C, D. Qed.

Lemma cr_ring : @ring_theory cr r0 r1 radd rmul rsub ropp req.
Proof.
  constructor; intros; constructor; unfold r0, r1, radd, rmul, rsub, ropp; cbn [fst snd]; generalize cubic; intros; ring.
Qed.
Lemma cr_ext : ring_eq_ext radd rmul ropp req.
Proof.
  constructor; repeat intro.
  - now apply radd_proper.
  - now apply rmul_proper.
  - now apply ropp_proper.
Qed.
Add Ring Cr : cr_ring (setoid req_equiv cr_ext).

(** Constants and the two coordinates. *)
Definition rc (a : fe) : cr := (pconst a, []).
Definition rX : cr := ([0; 1], []).
Definition rY : cr := ([], pconst 1).

Lemma rc_add a b : req (rc (a + b)) (radd (rc a) (rc b)).
Proof. constructor; cbn; reflexivity. Qed.
Lemma rc_opp a : req (rc (- a)) (ropp (rc a)).
Proof. constructor; cbn; reflexivity. Qed.
Lemma rc_sub a b : req (rc (a - b)) (rsub (rc a) (rc b)).
Proof.
  constructor; cbn; [|reflexivity]. unfold pconst. replace (a - b) with (a + - b) by ring. reflexivity.
Qed.
Lemma rc_mul a b : req (rc (a * b)) (rmul (rc a) (rc b)).
Proof. constructor; cbn [rmul rc fst snd]; [rewrite pconst_mul|]; ring. Qed.
Lemma rc_0 : req (rc 0) r0.
Proof. constructor; cbn; [apply pconst_0|reflexivity]. Qed.
Lemma rc_1 : req (rc 1) r1.
Proof. reflexivity. Qed.

(** Y^2 = X^3 + 7. *)
Lemma curve_eq : req (rmul rY rY) (radd (rmul rX (rmul rX rX)) (rc f7)).
Proof.
  constructor; cbn [rmul radd rX rY rc fst snd]; [|ring].
  transitivity cubic; [ring_simplify|].
  - change (pconst 1) with (pconst 1). ring.
  - unfold cubic, pconst. constructor. intros i. do 5 (destruct i; [cbn; ring|]).
    cbn. now rewrite ?coef_nil.
Qed.

(** ** Norm *)

Definition norm (f : cr) : poly := psub (pmul (fst f) (fst f)) (pmul (pmul (snd f) (snd f)) cubic).
Global Instance norm_proper : Proper (req ==> peq) norm.
Proof. intros f g [A B]. unfold norm. now rewrite A, B. Qed.
Lemma norm_mul f g : peq (norm (rmul f g)) (pmul (norm f) (norm g)).
Proof. unfold norm, rmul. cbn [fst snd]. generalize cubic. intros. ring. Qed.

Lemma cubic_deg : has_deg cubic 3.
Proof.
  split; [exact f1_neq_f0|]. intros i Hi. do 4 (destruct i; [lia|]). unfold coef, cubic. now destruct i.
Qed.
Lemma norm_deg f : ~ req f r0 ->
  exists n, has_deg (norm f) n /\ n <> 1%nat /\ (n = 0%nat -> exists a, a <> 0 /\ req f (rc a)).
Proof.
  intros H. destruct f as [a b]. unfold norm. cbn [fst snd].
  assert (G : forall j, has_deg b j -> has_deg (pmul (pmul b b) cubic) (j + j + 3)).
  { intros j Hj. apply deg_mul; [now apply deg_mul|apply cubic_deg]. }
  destruct (deg_dec a) as [Ea|[i Hi]]; destruct (deg_dec b) as [Eb|[j Hj]].
  - exfalso. apply H. now constructor.
  - exists (j + j + 3)%nat. split; [|split; [lia|intros; lia]].
    assert (E : peq (psub (pmul a a) (pmul (pmul b b) cubic)) (popp (pmul (pmul b b) cubic))).
    { rewrite Ea. generalize cubic. intros. ring. }
    rewrite E. apply deg_opp. now apply G.
  - exists (i + i)%nat. split; [|split; [lia|]].
    + assert (E : peq (psub (pmul a a) (pmul (pmul b b) cubic)) (pmul a a)).
      { rewrite Eb. generalize cubic. intros. ring. }
      rewrite E. now apply deg_mul.
    + intros E. assert (i = O) as -> by lia. destruct (deg_const a Hi) as (c & Hc & Ec).
      exists c. split; [exact Hc|]. now constructor.
  - specialize (G j Hj). pose proof (deg_mul _ _ _ _ Hi Hi) as G'.
    destruct (lt_eq_lt_dec (i + i) (j + j + 3)) as [[L|E]|L].
    + exists (j + j + 3)%nat. split; [|split; [lia|intros; lia]]. now apply deg_sub_r with (i + i)%nat.
    + exfalso. lia.
    + exists (i + i)%nat. split; [|split; [lia|intros; lia]]. now apply deg_sub_l with (j + j + 3)%nat.
Qed.

Lemma cr_dec f : req f r0 \/ ~ req f r0.
Proof.
  destruct f as [a b]. destruct (deg_dec a) as [Ea|[i Hi]]; [destruct (deg_dec b) as [Eb|[j Hj]]|].
  - left. now constructor.
  - right. intros [_ E]. exact (deg_nonzero _ _ Hj E).
  - right. intros [E _]. exact (deg_nonzero _ _ Hi E).
Qed.
Lemma norm_0 : peq (norm r0) [].
Proof. unfold norm. cbn [r0 fst snd]. generalize cubic. intros. ring. Qed.
Lemma cr_domain f g : ~ req f r0 -> ~ req g r0 -> ~ req (rmul f g) r0.
Proof.
  intros Hf Hg E. destruct (norm_deg f Hf) as (n & Hn & _). destruct (norm_deg g Hg) as (m & Hm & _).
  apply (deg_nonzero _ _ (deg_mul _ _ _ _ Hn Hm)). rewrite <- norm_mul, E. apply norm_0.
Qed.
Lemma cr_cancel a f g : ~ req a r0 -> req (rmul a f) (rmul a g) -> req f g.
Proof.
  intros Ha H. destruct (cr_dec (rsub f g)) as [E|E].
  - transitivity (radd (rsub f g) g); [ring|]. rewrite E. ring.
  - exfalso. apply (cr_domain _ _ Ha E). transitivity (rsub (rmul a f) (rmul a g)); [ring|]. rewrite H. ring.
Qed.

(** ** Values at a point *)

Definition reval (f : cr) (x y : fe) : fe := peval (fst f) x + y * peval (snd f) x.
Global Instance reval_proper : Proper (req ==> eq ==> eq ==> eq) reval.
Proof. intros f g [A B] x ? <- y ? <-. unfold reval. now rewrite A, B. Qed.
Lemma reval_add f g x y : reval (radd f g) x y = reval f x y + reval g x y.
Proof. unfold reval, radd. cbn [fst snd]. rewrite !peval_add. ring. Qed.
Lemma reval_mul f g x y : y * y = x * x * x + f7 -> reval (rmul f g) x y = reval f x y * reval g x y.
Proof.
  intros H. unfold reval, rmul. cbn [fst snd]. rewrite !peval_add, !peval_mul.
  assert (E : peval cubic x = y * y) by (rewrite H; cbn; ring). rewrite E. ring.
Qed.
