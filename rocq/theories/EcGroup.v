(** The chord-and-tangent law on y^2 = x^3 + 7 makes a group: points embed in the ideal classes of the
    coordinate ring. *)

From Coq Require Import ZArith List Lia Setoid Morphisms Ring Field.
From Verif Require Import EcField EcPoly EcRing EcIdeal.
Import ListNotations.
Local Open Scope fe_scope.

(** ** Points *)

Inductive pt := Inf | Aff (x y : fe).
Definition on_curve (P : pt) : Prop := match P with Inf => True | Aff x y => y * y = x * x * x + f7 end.
Definition neg (P : pt) : pt := match P with Inf => Inf | Aff x y => Aff x (- y) end.
Definition two : fe := 1 + 1.
Definition three : fe := two + 1.
Definition third (l x1 y1 x2 : fe) : pt :=
  let x3 := l * l - x1 - x2 in Aff x3 (l * (x1 - x3) - y1).
Definition add (P Q : pt) : pt :=
  match P, Q with
  | Inf, _ => Q
  | _, Inf => P
  | Aff x1 y1, Aff x2 y2 =>
    if fe_dec x1 x2
    then if fe_dec (y1 + y2) 0 then Inf else third (three * (x1 * x1) / (two * y1)) x1 y1 x2
    else third ((y2 - y1) / (x2 - x1)) x1 y1 x2
  end.

Lemma two_neq : two <> 0.
Proof.
  unfold two, f1. rewrite <- of_Z_add. apply f_small_neq. split; reflexivity.
Qed.
Lemma three_neq : three <> 0.
Proof.
  unfold three, two, f1. rewrite <- !of_Z_add. apply f_small_neq. split; reflexivity.
Qed.
Lemma f7_neq : f7 <> 0.
Proof. apply f_small_neq. split; reflexivity. Qed.

(** ** Ideals of points *)

Definition uX (x : fe) : cr := rsub rX (rc x).
Definition uY (y : fe) : cr := rsub rY (rc y).
Definition Ipt (P : pt) : ideal := match P with Inf => top | Aff x y => gen2 (uX x) (uY y) end.

Lemma Ipt_ideal P : is_ideal (Ipt P).
Proof. destruct P; [apply top_ideal|apply gen2_ideal]. Qed.

Lemma uX_neq x : ~ req (uX x) r0.
Proof.
  intros [[H] _]. specialize (H 1%nat). cbn in H. apply f1_neq_f0. exact H.
Qed.

(** Scalars of the ring. *)
Ltac rcs := repeat first [rewrite rc_add | rewrite rc_sub | rewrite rc_mul | rewrite rc_opp | rewrite rc_1 | rewrite rc_0].
Lemma rc_mor a b : a = b -> req (rc a) (rc b).
Proof. now intros ->. Qed.
Lemma rc_inv a : a <> 0 -> req (rmul (rc (f_inv a)) (rc a)) r1.
Proof. intros H. rewrite <- rc_mul. transitivity (rc 1); [|apply rc_1]. apply rc_mor. field. exact H. Qed.
(** A non-zero multiple in the ideal puts the element in the ideal. *)
Lemma id_unit (I : ideal) a f : is_ideal I -> a <> 0 -> I (rmul (rc a) f) -> I f.
Proof.
  intros HI Ha H. apply (id_eq I HI (rmul (rc (f_inv a)) (rmul (rc a) f))).
  - transitivity (rmul (rmul (rc (f_inv a)) (rc a)) f); [ring|]. rewrite (rc_inv a Ha). ring.
  - now apply HI.
Qed.

Lemma ip_gen2_sub f g f' g' K : is_ideal K ->
  K (rmul f f') -> K (rmul f g') -> K (rmul g f') -> K (rmul g g') -> isub (ip (gen2 f g) (gen2 f' g')) K.
Proof.
  intros HK A B C D. apply ip_sub; [exact HK|]. intros a b (u & v & Ea) (u' & v' & Eb).
  apply (id_eq K HK (radd (radd (rmul (rmul u u') (rmul f f')) (rmul (rmul u v') (rmul f g')))
                          (radd (rmul (rmul v u') (rmul g f')) (rmul (rmul v v') (rmul g g'))))).
  - rewrite Ea, Eb. ring.
  - repeat apply (id_add K HK); now apply (id_mul K HK).
Qed.
Lemma ip_id_add I J f g h : is_ideal I -> is_ideal J -> ip I J f -> ip I J g -> req h (radd f g) -> ip I J h.
Proof. intros HI HJ F G E. now apply ip_add with f g. Qed.

(** ** A point and its opposite *)

Lemma inverse x y : on_curve (Aff x y) -> ieq (ip (Ipt (Aff x y)) (Ipt (neg (Aff x y)))) (gen1 (uX x)).
Proof.
  intros Hc. cbn [on_curve] in Hc. cbn [Ipt neg].
  set (K := ip (gen2 (uX x) (uY y)) (gen2 (uX x) (uY (- y)))).
  assert (HK : is_ideal K) by (apply ip_ideal; apply gen2_ideal).
  assert (Hr : req (rmul (rc y) (rc y)) (radd (rmul (rc x) (rmul (rc x) (rc x))) (rc f7))).
  { rewrite <- !rc_mul, <- rc_add. apply rc_mor. rewrite Hc. ring. }
  assert (EYY : req (rmul (uY y) (uY (- y)))
                    (rmul (uX x) (radd (rmul rX rX) (radd (rmul rX (rc x)) (rmul (rc x) (rc x)))))).
  { unfold uX, uY. rcs. transitivity (rsub (rmul rY rY) (rmul (rc y) (rc y))); [ring|].
    rewrite curve_eq, Hr. ring. }
  apply isub_eq.
  - apply ip_gen2_sub; [apply gen1_ideal|..].
    + now exists (uX x).
    + exists (uY (- y)). ring.
    + now exists (uY y).
    + exists (radd (rmul rX rX) (radd (rmul rX (rc x)) (rmul (rc x) (rc x)))). rewrite EYY. ring.
  - assert (HX : K (uX x)).
    { assert (P1 : K (rmul (uX x) (uX x))) by (apply ip_in with (uX x) (uX x); [apply gen2_l|apply gen2_l|reflexivity]).
      assert (P2 : K (rmul (uX x) (uY (- y)))) by (apply ip_in with (uX x) (uY (- y)); [apply gen2_l|apply gen2_r|reflexivity]).
      assert (P3 : K (rmul (uY y) (uX x))) by (apply ip_in with (uY y) (uX x); [apply gen2_r|apply gen2_l|reflexivity]).
      assert (P4 : K (rmul (uY y) (uY (- y)))) by (apply ip_in with (uY y) (uY (- y)); [apply gen2_r|apply gen2_r|reflexivity]).
      destruct (fe_dec y 0) as [E|E].
      - apply (id_unit K (three * (x * x))); [exact HK| |].
        + apply f_mul_neq; [apply three_neq|]. assert (x <> 0); [|now apply f_mul_neq].
          intros ->. apply f7_neq. subst y. transitivity (0 * 0 * 0 + f7); [ring|]. rewrite <- Hc. ring.
        + apply (id_eq K HK (radd (rmul (uY y) (uY (- y)))
                                  (rmul (ropp (radd rX (radd (rc x) (rc x)))) (rmul (uX x) (uX x))))).
          * rewrite EYY. unfold three, two, uX. rcs. ring.
          * apply HK; [exact P4|]. now apply HK.
      - apply (id_unit K (two * y)); [exact HK| |].
        + apply f_mul_neq; [apply two_neq|exact E].
        + apply (id_eq K HK (radd (rmul (uX x) (uY (- y))) (rmul (ropp r1) (rmul (uY y) (uX x))))).
          * unfold two, uX, uY. rcs. ring.
          * apply HK; [exact P2|]. now apply HK. }
    intros z (u & E). apply (id_eq K HK (rmul u (uX x))); [now rewrite E|]. now apply HK.
Qed.
Lemma inverse_sim P : on_curve P -> sim (ip (Ipt P) (Ipt (neg P))) top.
Proof.
  intros H. destruct P as [|x y].
  - apply sim_ieq. apply ip_top. apply top_ideal.
  - apply sim_trans with (gen1 (uX x)); [apply sim_ieq; now apply inverse|]. apply sim_gen1, uX_neq.
Qed.

(** ** Three points on a line *)

Definition line (l x1 y1 : fe) : cr := rsub rY (radd (rmul (rc l) (uX x1)) (rc y1)).
Lemma line_neq l x1 y1 : ~ req (line l x1 y1) r0.
Proof.
  intros [_ [H]]. specialize (H O). cbn in H. apply f1_neq_f0. rewrite <- H. ring.
Qed.
Lemma gen2_line l x1 y1 x y : y = l * (x - x1) + y1 -> ieq (gen2 (uX x) (uY y)) (gen2 (uX x) (line l x1 y1)).
Proof.
  intros E. apply isub_eq.
  - apply gen2_sub; [apply gen2_ideal|apply gen2_l|]. exists (rc l), r1. unfold uX, uY, line, uX. subst y. rcs. ring.
  - apply gen2_sub; [apply gen2_ideal|apply gen2_l|]. exists (ropp (rc l)), r1. unfold uX, uY, line, uX. subst y. rcs. ring.
Qed.

Section Line.
  Variables (l x1 y1 x2 x3 : fe).
  Let b := y1 - l * x1.
  Hypothesis Hc : y1 * y1 = x1 * x1 * x1 + f7.
  Hypothesis H2 : x1 * x1 + x1 * x2 + x2 * x2 = l * l * (x1 + x2) + two * (l * b).
  Hypothesis H3 : x3 = l * l - x1 - x2.

  Lemma vieta2 : x1 * x2 + x1 * x3 + x2 * x3 + two * (l * b) = 0.
  Proof.
    rewrite H3. replace (two * (l * b)) with (x1 * x1 + x1 * x2 + x2 * x2 - l * l * (x1 + x2)) by (rewrite H2; ring). ring.
  Qed.
  Lemma vieta3 : x1 * x2 * x3 = b * b - f7.
  Proof.
    replace f7 with (y1 * y1 - x1 * x1 * x1) by (rewrite Hc; ring).
    transitivity (x1 * (l * l * (x1 + x2) + two * (l * b) - (x1 * x1 + x1 * x2 + x2 * x2) + x1 * x1 - l * l * x1 - two * (l * b))).
    - rewrite H3. ring.
    - rewrite <- H2. unfold b, two. ring.
  Qed.

  Definition y_on (x : fe) : fe := l * (x - x1) + y1.
  Lemma third_on_curve : y_on x3 * y_on x3 = x3 * x3 * x3 + f7.
  Proof.
    pose proof vieta2 as V2. pose proof vieta3 as V3.
    replace f7 with (b * b - x1 * x2 * x3) by (rewrite V3; ring).
    replace (y_on x3) with (l * x3 + b) by (unfold y_on, b; ring).
    apply f_sub_0. transitivity (x3 * (x1 * x2 + x1 * x3 + x2 * x3 + two * (l * b)) + x3 * x3 * (l * l - x1 - x2 - x3)).
    - unfold two. ring.
    - rewrite V2, H3. ring.
  Qed.

  Notation e := (line l x1 y1).
  Notation L := (radd (rmul (rc l) (uX x1)) (rc y1)).

  Lemma rc_vieta2 : req (radd (radd (rmul (rc x1) (rc x2)) (rmul (rc x1) (rc x3)))
                              (radd (rmul (rc x2) (rc x3)) (rmul (radd r1 r1) (rmul (rc l) (rc b))))) r0.
  Proof.
    rewrite <- rc_0, <- rc_1, <- !rc_mul, <- !rc_add, <- !rc_mul, <- !rc_add. apply rc_mor. rewrite <- vieta2. unfold two. ring.
  Qed.
  Lemma rc_vieta3 : req (rmul (rc x1) (rmul (rc x2) (rc x3))) (rsub (rmul (rc b) (rc b)) (rc f7)).
  Proof. rewrite <- !rc_mul, <- rc_sub. apply rc_mor. rewrite <- vieta3. ring. Qed.
  Lemma rc_vieta1 : req (rc x3) (rsub (rsub (rmul (rc l) (rc l)) (rc x1)) (rc x2)).
  Proof. rewrite <- !rc_mul, <- !rc_sub. apply rc_mor. exact H3. Qed.
  Lemma rc_b : req (rc b) (rsub (rc y1) (rmul (rc l) (rc x1))).
  Proof. rewrite <- rc_mul, <- rc_sub. reflexivity. Qed.

  (** The polynomial identities: the product, and its derivative. *)
  Lemma line_product : req (rmul (uX x1) (rmul (uX x2) (uX x3))) (rmul e (radd rY L)).
  Proof.
    transitivity (rsub (rmul rY rY) (rmul L L)); [|unfold line; ring].
    rewrite curve_eq.
    transitivity (radd (rsub (rmul rX (rmul rX rX)) (rmul (rmul rX rX) (radd (radd (rc x1) (rc x2)) (rc x3))))
        (rsub (rmul rX (radd (radd (rmul (rc x1) (rc x2)) (rmul (rc x1) (rc x3))) (rmul (rc x2) (rc x3))))
              (rmul (rc x1) (rmul (rc x2) (rc x3))))); [unfold uX; ring|].
    rewrite rc_vieta3.
    assert (V2 : req (radd (radd (rmul (rc x1) (rc x2)) (rmul (rc x1) (rc x3))) (rmul (rc x2) (rc x3)))
                     (ropp (rmul (radd r1 r1) (rmul (rc l) (rc b))))).
    { transitivity (radd (radd (radd (rmul (rc x1) (rc x2)) (rmul (rc x1) (rc x3)))
                              (radd (rmul (rc x2) (rc x3)) (rmul (radd r1 r1) (rmul (rc l) (rc b)))))
                        (ropp (rmul (radd r1 r1) (rmul (rc l) (rc b))))); [ring|]. rewrite rc_vieta2. ring. }
    rewrite V2, rc_vieta1, rc_b. unfold uX. ring.
  Qed.
  Definition pairs : cr := radd (rmul (uX x1) (uX x2)) (radd (rmul (uX x1) (uX x3)) (rmul (uX x2) (uX x3))).
  Definition r3 : cr := radd r1 (radd r1 r1).
  Lemma line_derivative : req (rmul r3 (rmul rX rX)) (radd pairs (rmul (radd r1 r1) (rmul (rc l) L))).
  Proof.
    transitivity (radd (radd (rmul r3 (rmul rX rX)) (rmul (rmul (radd r1 r1) rX) (rsub (rmul (rc l) (rc l)) (radd (radd (rc x1) (rc x2)) (rc x3)))))
       (radd (radd (rmul (rc x1) (rc x2)) (rmul (rc x1) (rc x3)))
                              (radd (rmul (rc x2) (rc x3)) (rmul (radd r1 r1) (rmul (rc l) (rc b)))))).
    - rewrite rc_vieta2, rc_vieta1. unfold r3. ring.
    - rewrite rc_b. unfold pairs, r3, uX. ring.
  Qed.

  Lemma line_ideal :
    ieq (ip (ip (gen2 (uX x1) e) (gen2 (uX x2) e)) (gen2 (uX x3) e)) (gen1 e).
  Proof.
    set (I12 := ip (gen2 (uX x1) e) (gen2 (uX x2) e)). set (K := ip I12 (gen2 (uX x3) e)).
    assert (H12 : is_ideal I12) by (apply ip_ideal; apply gen2_ideal).
    assert (HK : is_ideal K) by (apply ip_ideal; [exact H12|apply gen2_ideal]).
    apply isub_eq.
    - (* every product is a multiple of the line *)
      apply ip_sub; [apply gen1_ideal|]. intros a c Ha (u & v & Ec).
      assert (G : gen1 e (rmul a (uX x3))).
      { revert a Ha. apply (ip_gen2_sub _ _ _ _ (fun a => gen1 e (rmul a (uX x3)))).
        - pose proof (gen1_ideal e) as HG. constructor.
          + intros f g E H. apply (id_eq _ HG (rmul f (uX x3))); [now rewrite E|exact H].
          + apply (id_eq _ HG r0); [ring|apply HG].
          + intros f g F G. apply (id_eq _ HG (radd (rmul f (uX x3)) (rmul g (uX x3)))); [ring|now apply HG].
          + intros d f F. apply (id_eq _ HG (rmul d (rmul f (uX x3)))); [ring|now apply HG].
        - exists (radd rY L). transitivity (rmul (uX x1) (rmul (uX x2) (uX x3))); [ring|]. rewrite line_product. ring.
        - exists (rmul (uX x1) (uX x3)). ring.
        - exists (rmul (uX x2) (uX x3)). ring.
        - exists (rmul e (uX x3)). ring. }
      destruct G as (w & Ew). exists (radd (rmul u w) (rmul v a)). rewrite Ec.
      transitivity (radd (rmul u (rmul a (uX x3))) (rmul (rmul v a) e)); [ring|]. rewrite Ew. ring.
    - (* and the line is a combination of the products *)
      assert (P : forall p q, gen2 (uX x1) e p -> gen2 (uX x2) e q -> forall r, gen2 (uX x3) e r -> K (rmul (rmul p q) r)).
      { intros p q Hp Hq r Hr. apply ip_in with (rmul p q) r; [|exact Hr|reflexivity]. now apply ip_in with p q. }
      assert (K1 : K (rmul e (radd rY L))).
      { apply (id_eq K HK (rmul (rmul (uX x1) (uX x2)) (uX x3))).
        - rewrite <- line_product. ring.
        - apply P; apply gen2_l. }
      assert (K2 : K (rmul e pairs)).
      { apply (id_eq K HK (radd (rmul (rmul (uX x1) (uX x2)) e) (radd (rmul (rmul (uX x1) e) (uX x3)) (rmul (rmul e (uX x2)) (uX x3))))).
        - unfold pairs. ring.
        - repeat apply (id_add K HK); apply P; apply gen2_l || apply gen2_r. }
      assert (K3 : K (rmul e (rmul e e))).
      { apply (id_eq K HK (rmul (rmul e e) e)); [ring|]. apply P; apply gen2_r. }
      assert (HE : K e).
      { apply (id_unit K (two * two * (three * three) * (f7 * f7))); [exact HK| |].
        - repeat apply f_mul_neq; first [apply two_neq|apply three_neq|apply f7_neq].
        - pose (c := radd (rmul rX (rmul rX rX)) (rc f7)).
          pose (r9 := rmul r3 r3). pose (r2 := radd r1 r1).
          pose (g := radd (rsub (rmul r9 c) (rmul (rmul r9 r2) (rmul rX (rmul rX rX))))
                          (rmul (rmul r2 r2) (rmul (rmul (rc l) (rc l)) (rmul rX rX)))).
          pose (al := rsub (rmul (radd (rmul r2 e) (radd rY L)) g)
                           (rmul (rmul (rmul r2 r2) (rmul r2 r2)) (rmul (rmul rX rX) (rmul (rmul (rc l) (rc l)) e)))).
          pose (be := rmul (rmul (rmul r2 r2) (rmul rX rX)) (radd pairs (rmul (rmul r2 r2) (rmul (rc l) L)))).
          apply (id_eq K HK (radd (rmul al (rmul e (radd rY L))) (radd (rmul be (rmul e pairs)) (rmul g (rmul e (rmul e e)))))).
          + assert (Epairs : req pairs (rsub (rmul r3 (rmul rX rX)) (rmul r2 (rmul (rc l) L)))).
            { rewrite line_derivative. unfold r2. ring. }
            unfold be. rewrite Epairs. unfold al, g, c, three, two. rcs.
            unfold line. generalize L. intros M.
            transitivity (rmul (rsub rY M) (radd (rmul (rmul rY rY) (rmul (rmul r2 r2) (rsub (rmul r9 (radd (rmul rX (rmul rX rX)) (rc f7))) (rmul (rmul r9 r2) (rmul rX (rmul rX rX))))))
                     (rmul (rmul r9 (rmul r2 r2)) (rmul (rmul rX (rmul rX rX)) (rmul rX (rmul rX rX)))))).
            * unfold r9, r3, r2. ring.
            * rewrite curve_eq. unfold r9, r3, r2. ring.
          + repeat apply (id_add K HK); now apply (id_mul K HK). }
      intros z (u & E). apply (id_eq K HK (rmul u e)); [now rewrite E|]. now apply HK.
  Qed.
End Line.

(** ** The class of a sum *)

Lemma line_case l x1 y1 x2 y2 :
  y1 * y1 = x1 * x1 * x1 + f7 ->
  x1 * x1 + x1 * x2 + x2 * x2 = l * l * (x1 + x2) + two * (l * (y1 - l * x1)) ->
  y2 = l * (x2 - x1) + y1 ->
  on_curve (third l x1 y1 x2)
  /\ sim (ip (Ipt (Aff x1 y1)) (Ipt (Aff x2 y2))) (Ipt (third l x1 y1 x2)).
Proof.
  intros Hc H2 Hy. set (x3 := l * l - x1 - x2). set (R := Aff x3 (y_on l x1 y1 x3)).
  assert (ET : third l x1 y1 x2 = neg R).
  { unfold third, neg, R, y_on. fold x3. f_equal. ring. }
  assert (HR : on_curve R) by (exact (third_on_curve l x1 y1 x2 x3 Hc H2 eq_refl)).
  assert (HN : on_curve (neg R)).
  { unfold R in *. cbn [neg on_curve] in *. rewrite <- HR. ring. }
  rewrite ET. split; [exact HN|].
  set (I12 := ip (Ipt (Aff x1 y1)) (Ipt (Aff x2 y2))).
  assert (H12 : is_ideal I12) by (apply ip_ideal; apply Ipt_ideal).
  assert (HL : sim (ip I12 (Ipt R)) top).
  { apply sim_trans with (gen1 (line l x1 y1)); [|apply sim_gen1, line_neq].
    apply sim_ieq. eapply ieq_trans; [|exact (line_ideal l x1 y1 x2 x3 Hc H2 eq_refl)].
    apply ip_proper; [apply ip_proper|]; apply gen2_line; [ring|exact Hy|reflexivity]. }
  apply sim_trans with (ip I12 top); [apply sim_ieq, ieq_sym, ip_top, H12|].
  apply sim_trans with (ip I12 (ip (Ipt R) (Ipt (neg R)))); [apply sim_ip_r, sim_sym, inverse_sim, HR|].
  apply sim_trans with (ip (ip I12 (Ipt R)) (Ipt (neg R))).
  { apply sim_ieq, ieq_sym, ip_assoc; [exact H12|apply Ipt_ideal|apply Ipt_ideal]. }
  apply sim_trans with (ip top (Ipt (neg R))); [apply sim_ip_l, HL|].
  apply sim_ieq. eapply ieq_trans; [apply ip_comm|]. apply ip_top, Ipt_ideal.
Qed.

Lemma f_cancel a x y : a <> 0 -> a * x = a * y -> x = y.
Proof.
  intros Ha H. apply f_sub_0. assert (E : a * (x - y) = 0) by (replace (a * (x - y)) with (a * x - a * y) by ring; rewrite H; ring).
  apply f_mul_0 in E. tauto.
Qed.

Lemma add_spec P Q : on_curve P -> on_curve Q ->
  on_curve (add P Q) /\ sim (ip (Ipt P) (Ipt Q)) (Ipt (add P Q)).
Proof.
  intros HP HQ. destruct P as [|x1 y1]; [|destruct Q as [|x2 y2]].
  - split; [exact HQ|]. apply sim_ieq. eapply ieq_trans; [apply ip_comm|]. apply ip_top, Ipt_ideal.
  - split; [exact HP|]. apply sim_ieq. apply ip_top, Ipt_ideal.
  - cbn [on_curve] in HP, HQ. cbn [add].
    destruct (fe_dec x1 x2) as [E|E].
    + subst x2. destruct (fe_dec (y1 + y2) 0) as [F|F].
      * split; [exact I|]. assert (y2 = - y1) as -> by (replace y2 with ((y1 + y2) - y1) by ring; rewrite F; ring).
        exact (inverse_sim (Aff x1 y1) HP).
      * assert (y1 = y2) as <-.
        { apply f_sub_0. assert (G : (y1 + y2) * (y1 - y2) = 0).
          { transitivity (y1 * y1 - y2 * y2); [ring|]. rewrite HP, HQ. ring. }
          apply f_mul_0 in G. tauto. }
        assert (G : two * y1 <> 0) by (intros G; apply F; rewrite <- G; unfold two; ring).
        assert (G2 : y1 <> 0) by (intros ->; apply G; ring).
        pose proof two_neq as G3.
        apply line_case; [exact HP| |].
        -- unfold three, two in *.
           set (l := (1 + 1 + 1) * (x1 * x1) / ((1 + 1) * y1)).
           assert (El : l * ((1 + 1) * y1) = (1 + 1 + 1) * (x1 * x1)) by (unfold l; field; split; assumption).
           transitivity ((1 + 1 + 1) * (x1 * x1)); [ring|]. rewrite <- El. ring.
        -- ring.
    + apply line_case; [exact HP| |].
      * set (l := (y2 - y1) / (x2 - x1)).
        assert (Hd : x2 - x1 <> 0) by (intros G; apply E; symmetry; now apply f_sub_0).
        assert (El : l * (x2 - x1) = y2 - y1) by (unfold l; field; exact Hd).
        apply (f_cancel (x2 - x1)); [exact Hd|]. apply f_sub_0.
        transitivity ((x2 * x2 * x2 + f7) - (x1 * x1 * x1 + f7) - (l * (x2 - x1)) * ((l * (x2 - x1)) + two * y1)).
        -- unfold two. ring.
        -- rewrite El, <- HP, <- HQ. unfold two. ring.
      * field. intros G; apply E; symmetry; now apply f_sub_0.
Qed.
Lemma add_on_curve P Q : on_curve P -> on_curve Q -> on_curve (add P Q).
Proof. intros. now apply add_spec. Qed.
Lemma neg_on_curve P : on_curve P -> on_curve (neg P).
Proof. destruct P as [|x y]; [trivial|]. cbn. intros <-. ring. Qed.

(** ** Different points have different classes *)

Lemma uX_norm x : has_deg (norm (uX x)) 2.
Proof.
  split.
  - cbn. intros E. apply f1_neq_f0. rewrite <- E. ring.
  - intros i Hi. do 3 (destruct i; [lia|]). do 8 (destruct i; [cbn; ring|]). unfold coef. cbn. now destruct i.
Qed.
Lemma uY_norm y : has_deg (norm (uY y)) 3.
Proof.
  split.
  - cbn. intros E. apply f1_neq_f0. transitivity (- 0); [|ring]. rewrite <- E. ring.
  - intros i Hi. do 4 (destruct i; [lia|]). do 8 (destruct i; [cbn; ring|]). unfold coef. cbn. now destruct i.
Qed.
Lemma reval_Ipt x y f : y * y = x * x * x + f7 -> Ipt (Aff x y) f -> reval f x y = 0.
Proof.
  intros H (u & v & E). rewrite E, reval_add, !reval_mul by exact H.
  assert (E1 : reval (uX x) x y = 0) by (unfold reval; cbn; ring).
  assert (E2 : reval (uY y) x y = 0) by (unfold reval; cbn; ring).
  rewrite E1, E2. ring.
Qed.

Lemma principal P : on_curve P -> sim (Ipt P) top -> P = Inf.
Proof.
  destruct P as [|x y]; [reflexivity|]. intros Hc (a & b & Ha & Hb & H). exfalso.
  assert (HF : exists f, Ipt (Aff x y) f /\ req b (rmul a f)).
  { apply H. exists r1. split; [exact I|]. ring. }
  destruct HF as (f & Hf & Ef).
  assert (HG : forall i, Ipt (Aff x y) i -> exists t, req i (rmul f t)).
  { intros i Hi. assert (G : scale b top (rmul a i)) by (apply H; exists i; split; [exact Hi|reflexivity]).
    destruct G as (t & _ & Et). exists t. apply (cr_cancel a); [exact Ha|]. rewrite Et, Ef. ring. }
  assert (Hf0 : ~ req f r0).
  { intros E. apply Hb. rewrite Ef, E. ring. }
  destruct (norm_deg f Hf0) as (n & Dn & N1 & N0).
  destruct (HG (uX x) (gen2_l _ _)) as (g & Eg). destruct (HG (uY y) (gen2_r _ _)) as (h & Eh).
  assert (Hg0 : ~ req g r0) by (intros E; apply (uX_neq x); rewrite Eg, E; ring).
  assert (Hh0 : ~ req h r0).
  { intros E. apply (deg_nonzero _ _ (uY_norm y)). rewrite Eh, E. transitivity (norm r0); [|apply norm_0].
    apply norm_proper. ring. }
  destruct (norm_deg g Hg0) as (m & Dm & M1 & _). destruct (norm_deg h Hh0) as (k & Dk & K1 & _).
  assert (S2 : (n + m)%nat = 2%nat).
  { apply (deg_unique (norm (uX x))); [|apply uX_norm]. rewrite Eg, norm_mul. now apply deg_mul. }
  assert (S3 : (n + k)%nat = 3%nat).
  { apply (deg_unique (norm (uY y))); [|apply uY_norm]. rewrite Eh, norm_mul. now apply deg_mul. }
  destruct (N0 ltac:(lia)) as (c & Hc0 & Ec). apply Hc0.
  pose proof (reval_Ipt x y f Hc Hf) as E. rewrite Ec in E. unfold reval in E. cbn in E. rewrite <- E. ring.
Qed.

Lemma add_neg_eq P Q : add P (neg Q) = Inf -> P = Q.
Proof.
  destruct P as [|x1 y1], Q as [|x2 y2]; cbn; try discriminate; try reflexivity.
  destruct (fe_dec x1 x2) as [->|E]; [|discriminate]. destruct (fe_dec (y1 + - y2) 0) as [F|F]; [|discriminate].
  intros _. f_equal. apply f_sub_0. rewrite <- F. ring.
Qed.
Lemma class_inj P Q : on_curve P -> on_curve Q -> sim (Ipt P) (Ipt Q) -> P = Q.
Proof.
  intros HP HQ H. apply add_neg_eq. apply principal; [now apply add_on_curve, neg_on_curve|].
  apply sim_trans with (ip (Ipt P) (Ipt (neg Q))).
  - apply sim_sym. apply add_spec; [exact HP|now apply neg_on_curve].
  - apply sim_trans with (ip (Ipt Q) (Ipt (neg Q))); [now apply sim_ip_l|now apply inverse_sim].
Qed.

(** ** The group *)

Theorem add_assoc P Q R : on_curve P -> on_curve Q -> on_curve R -> add (add P Q) R = add P (add Q R).
Proof.
  intros HP HQ HR.
  destruct (add_spec P Q HP HQ) as [C1 S1]. destruct (add_spec Q R HQ HR) as [C2 S2].
  destruct (add_spec (add P Q) R C1 HR) as [C3 S3]. destruct (add_spec P (add Q R) HP C2) as [C4 S4].
  apply class_inj; [exact C3|exact C4|].
  eapply sim_trans; [apply sim_sym, S3|]. eapply sim_trans; [|exact S4].
  eapply sim_trans; [apply sim_ip_l, sim_sym, S1|].
  eapply sim_trans; [apply sim_ieq, ip_assoc; apply Ipt_ideal|]. now apply sim_ip_r.
Qed.
Theorem add_comm P Q : on_curve P -> on_curve Q -> add P Q = add Q P.
Proof.
  intros HP HQ. destruct (add_spec P Q HP HQ) as [C1 S1]. destruct (add_spec Q P HQ HP) as [C2 S2].
  apply class_inj; [exact C1|exact C2|].
  eapply sim_trans; [apply sim_sym, S1|]. eapply sim_trans; [|exact S2]. apply sim_ieq, ip_comm.
Qed.
Theorem add_inf_l P : add Inf P = P.
Proof. reflexivity. Qed.
Theorem add_inf_r P : add P Inf = P.
Proof. now destruct P. Qed.
Theorem add_neg P : add P (neg P) = Inf.
Proof.
  destruct P as [|x y]; [reflexivity|]. cbn. destruct (fe_dec x x) as [_|E]; [|now destruct E].
  destruct (fe_dec (y + - y) 0) as [_|E]; [reflexivity|]. exfalso. apply E. ring.
Qed.
Lemma neg_neg P : neg (neg P) = P.
Proof. destruct P as [|x y]; [reflexivity|]. cbn. f_equal. ring. Qed.
Lemma neg_on_curve_iff P : on_curve (neg P) <-> on_curve P.
Proof. split; [|apply neg_on_curve]. intros H. rewrite <- (neg_neg P). now apply neg_on_curve. Qed.
