(** Every point of the curve is a multiple of the generator. *)

From Coq Require Import ZArith List Lia Znumtheory Ring Bool.
From Verif Require Import EcNum EcPrime EcField EcRing EcGroup EcMul EcOrder Secp EcJac EcEcdsa.
Import ListNotations.
Local Open Scope Z_scope.

Definition gen (P : pt) : Prop := exists k, P = zmul k gpt.

Lemma gen_add P Q : gen P -> gen Q -> gen (add P Q).
Proof. intros [a ->] [b ->]. exists (a + b). now rewrite zmul_add by apply gpt_on_curve. Qed.
Lemma gen_neg P : gen P -> gen (neg P).
Proof. intros [a ->]. exists (- a). now rewrite zmul_opp. Qed.
Lemma gen_inf : gen Inf.
Proof. now exists 0. Qed.
Lemma gen_curve P : gen P -> on_curve P.
Proof. intros [a ->]. apply zmul_on_curve, gpt_on_curve. Qed.

(** ** Numbers for points *)

Definition code (P : pt) : Z :=
  match P with Inf => 0 | Aff x y => 1 + 2 * fv x + (if Z.odd (fv y) then 1 else 0) end.
Lemma code_range P : 0 <= code P < 2 * fp + 1.
Proof. destruct P as [|x y]; cbn [code]; [pose proof fp_pos; lia|]. pose proof (fv_range x). destruct (Z.odd (fv y)); lia. Qed.
Lemma code_inj P Q : on_curve P -> on_curve Q -> code P = code Q -> P = Q.
Proof.
  intros HP HQ. destruct P as [|x y], Q as [|x' y']; cbn [code].
  - reflexivity.
  - pose proof (fv_range x'). destruct (Z.odd (fv y')); lia.
  - pose proof (fv_range x). destruct (Z.odd (fv y)); lia.
  - intros E. assert (Ex : fv x = fv x') by (destruct (Z.odd (fv y)), (Z.odd (fv y')); lia).
    assert (Ey : Z.odd (fv y) = Z.odd (fv y')) by (destruct (Z.odd (fv y)), (Z.odd (fv y')); lia || reflexivity).
    apply fe_ext in Ex. subst x'. f_equal. destruct (fe_dec y y') as [F|F]; [exact F|exfalso].
    pose proof (on_curve_opp x y y' HP HQ F) as O.
    assert (E' : y' = f_opp y) by (replace y' with (f_sub (f_add y y') y) by ring; rewrite O; ring).
    destruct (fe_dec y f0) as [Z0|NZ].
    + apply F. rewrite E', Z0. ring.
    + subst y'. rewrite odd_opp in Ey by exact NZ. destruct (Z.odd (fv y)); discriminate.
Qed.

(** ** Three cosets are too many *)

Lemma nodup_map {A B} (f : A -> B) l : (forall x y, In x l -> In y l -> f x = f y -> x = y) -> NoDup l -> NoDup (map f l).
Proof.
  induction l as [|a l IH]; intros H N; cbn; [constructor|]. inversion_clear N as [|? ? N1 N2]. constructor.
  - intros I. apply in_map_iff in I. destruct I as (x & E & Ix). apply N1. replace a with x; [exact Ix|].
    apply H; [now right|now left|exact E].
  - apply IH; [|exact N2]. intros x y Ix Iy. apply H; now right.
Qed.
Lemma pigeon (f : Z -> Z) (n m : Z) : 0 <= n -> 0 <= m -> (forall i, 0 <= i < n -> 0 <= f i < m) ->
  (forall i j, 0 <= i < n -> 0 <= j < n -> f i = f j -> i = j) -> n <= m.
Proof.
  intros Hn Hm R I. set (l := map f (map Z.of_nat (seq 0 (Z.to_nat n)))). set (t := map Z.of_nat (seq 0 (Z.to_nat m))).
  assert (M : forall k i, 0 <= k -> In i (map Z.of_nat (seq 0 (Z.to_nat k))) <-> 0 <= i < k).
  { intros k i Hk. rewrite in_map_iff. split.
    - intros (a & <- & Ha). apply in_seq in Ha. lia.
    - intros Hi. exists (Z.to_nat i). split; [lia|]. apply in_seq. lia. }
  assert (ND : NoDup l).
  { apply nodup_map.
    - intros x y Hx Hy. apply M in Hx, Hy; try exact Hn. now apply I.
    - apply nodup_map; [intros; lia|apply seq_NoDup]. }
  assert (IN : incl l t).
  { intros x Hx. apply in_map_iff in Hx. destruct Hx as (i & <- & Hi). apply M in Hi; [|exact Hn]. apply M; [exact Hm|now apply R]. }
  pose proof (NoDup_incl_length ND IN) as L. unfold l, t in L. rewrite !map_length, !seq_length in L. lia.
Qed.

Lemma add_neg_cancel A B P Q : on_curve A -> on_curve B -> on_curve P -> on_curve Q ->
  add A P = add B Q -> add A (neg B) = add Q (neg P).
Proof.
  intros HA HB HP HQ E. pose proof (neg_on_curve B HB) as HB'. pose proof (neg_on_curve P HP) as HP'.
  assert (E1 : A = add (add B Q) (neg P)).
  { rewrite <- E. rewrite add_assoc by assumption. now rewrite add_neg, add_inf_r. }
  rewrite E1. rewrite (add_comm B Q) by assumption. rewrite (add_assoc Q B (neg P)) by assumption.
  rewrite (add_comm B (neg P)) by assumption. rewrite <- (add_assoc Q (neg P) B) by assumption.
  rewrite add_assoc by (try assumption; now apply add_on_curve). now rewrite add_neg, add_inf_r.
Qed.

Lemma three_bound : 2 * fp + 1 < 3 * gn.
Proof. rewrite fp_eq. vm_compute. reflexivity. Qed.

Definition rep3 (A B : pt) (i : Z) : pt := if i =? 0 then Inf else if i =? 1 then A else B.

Lemma three_cosets A B : on_curve A -> on_curve B -> ~ gen A -> ~ gen B -> ~ gen (add A (neg B)) -> False.
Proof.
  intros HA HB NA NB NAB. destruct gn_bounds as (B1 & _). pose proof three_bound as T. pose proof fp_pos as FP.
  assert (G0 : 0 < gn) by (clear - B1; lia).
  assert (HR : forall i, on_curve (rep3 A B i)).
  { intros i. unfold rep3. destruct (i =? 0); [exact I|]. now destruct (i =? 1). }
  set (f := fun j => code (add (rep3 A B (j / gn)) (zmul (j mod gn) gpt))).
  assert (L : 3 * gn <= 2 * fp + 1); [|clear - L T; lia].
  apply (pigeon f); [clear - G0; lia|clear - FP; lia|intros; apply code_range|].
  intros i j Hi Hj E. unfold f in E.
  assert (HG : forall k, on_curve (zmul k gpt)) by (intros k; apply zmul_on_curve, gpt_on_curve).
  apply code_inj in E; [|apply add_on_curve; [apply HR|apply HG]..].
  apply add_neg_cancel in E; [|apply HR|apply HR|apply HG|apply HG].
  assert (GG : gen (add (rep3 A B (i / gn)) (neg (rep3 A B (j / gn))))).
  { rewrite E. apply gen_add; [|apply gen_neg]; eexists; reflexivity. }
  assert (Ri : 0 <= i / gn < 3) by (split; [apply Z.div_pos; lia|apply Z.div_lt_upper_bound; lia]).
  assert (Rj : 0 <= j / gn < 3) by (split; [apply Z.div_pos; lia|apply Z.div_lt_upper_bound; lia]).
  assert (NN : forall X Y, on_curve X -> on_curve Y -> ~ gen (add X (neg Y)) -> ~ gen (add Y (neg X))).
  { intros X Y HX HY N F. apply N. apply gen_neg in F. rewrite neg_add in F by (try assumption; now apply neg_on_curve).
    rewrite neg_neg in F. now rewrite add_comm by (try assumption; now apply neg_on_curve). }
  assert (NA' : ~ gen (neg A)) by (intros F; apply NA; apply gen_neg in F; now rewrite neg_neg in F).
  assert (NB' : ~ gen (neg B)) by (intros F; apply NB; apply gen_neg in F; now rewrite neg_neg in F).
  assert (Eq : i / gn = j / gn).
  { remember (i / gn) as a. remember (j / gn) as b.
    assert (Ca : a = 0 \/ a = 1 \/ a = 2) by (clear - Ri; lia). assert (Cb : b = 0 \/ b = 1 \/ b = 2) by (clear - Rj; lia).
    clear - Ca Cb GG NA NB NA' NB' NAB NN HA HB.
    destruct Ca as [->|[->| ->]], Cb as [->|[->| ->]]; try reflexivity; exfalso; cbn in GG;
      rewrite ?add_inf_l, ?add_inf_r in GG; try contradiction. revert GG. now apply NN. }
  rewrite Eq in E. rewrite add_neg in E. symmetry in E. apply add_neg_eq in E. apply mulg_inj in E.
  apply cong_iff in E; [|clear - G0; lia]. rewrite !Z.mod_mod in E by (clear - G0; lia).
  rewrite (Z.div_mod i gn), (Z.div_mod j gn) by (clear - G0; lia). now rewrite Eq, E.
Qed.

(** ** No point of order two *)

(** A cube root of one. *)
Definition beta : fe := of_Z 0x7ae96a2b657c07106e64479eac3434e99cf0497512f58995c1396c28719501ee.
Lemma beta_cube : f_mul (f_mul beta beta) beta = f1.
Proof.
  unfold beta, f1. rewrite <- !of_Z_mul. apply of_Z_cong.
  apply Z.mod_divide; [rewrite fp_eq; discriminate|]. rewrite fp_eq. vm_compute. reflexivity.
Qed.
Lemma beta_neq : beta <> f1.
Proof.
  intros E. apply (f_equal fv) in E. unfold beta in E. rewrite of_Z_small in E by (rewrite fp_eq; split; [discriminate|reflexivity]).
  rewrite fv_1 in E. discriminate.
Qed.

Lemma twice_zero x : add (Aff x f0) (Aff x f0) = Inf.
Proof.
  cbn [add]. destruct (fe_dec x x) as [_|F]; [|now destruct F].
  destruct (fe_dec (f_add f0 f0) f0) as [_|F]; [reflexivity|]. exfalso. apply F. ring.
Qed.
Lemma gen_no_two P : gen P -> add P P = Inf -> P = Inf.
Proof.
  intros [k ->] E. rewrite <- zmul_add in E by apply gpt_on_curve. apply mulg_zero in E.
  replace (k + k) with (2 * k) in E by ring. apply prime_mult in E; [|apply gn_prime].
  destruct gn_bounds as (B1 & _). destruct E as [E|E].
  - apply Z.divide_pos_le in E; lia.
  - change Inf with (zmul 0 gpt). apply mulg_cong. destruct E as [q ->]. exists q. ring.
Qed.
Lemma no_two x : ~ on_curve (Aff x f0).
Proof.
  intros H. set (A := Aff x f0) in *. set (B := Aff (f_mul beta x) f0).
  assert (HB : on_curve B).
  { cbn in H |- *. rewrite H.
    transitivity (f_add (f_mul (f_mul (f_mul beta beta) beta) (f_mul (f_mul x x) x)) f7); [|ring]. rewrite beta_cube. ring. }
  assert (Nx : x <> f0).
  { intros ->. cbn in H. assert (E : f7 = f0) by (transitivity (f_mul f0 f0); [rewrite H; ring|ring]).
    revert E. unfold f7. apply f_small_neq. split; reflexivity. }
  assert (NB : neg B = B).
  { unfold B. cbn [neg]. apply (f_equal (Aff (f_mul beta x))). ring. }
  assert (Naff : forall u, ~ gen (Aff u f0)).
  { intros u G. pose proof (gen_no_two _ G (twice_zero u)). discriminate. }
  assert (HS : on_curve (add A B)) by (now apply add_on_curve).
  apply (three_cosets A B H HB); [apply Naff|apply Naff|]. rewrite NB. intros G.
  assert (Z2 : add (add A B) (add A B) = Inf).
  { rewrite (add_assoc A B) by assumption. rewrite (add_comm A B) by assumption. rewrite <- (add_assoc B B A) by assumption.
    unfold B at 1 2. rewrite twice_zero, add_inf_l. apply twice_zero. }
  pose proof (gen_no_two _ G Z2) as Z1. rewrite <- NB in Z1. apply add_neg_eq in Z1. unfold A, B in Z1. injection Z1 as Z1.
  apply beta_neq. apply (f_cancel x beta f1 Nx).
  transitivity (f_mul beta x); [ring|]. rewrite <- Z1. ring.
Qed.

(** ** The whole curve *)

Lemma pt_dec (P Q : pt) : P = Q \/ P <> Q.
Proof.
  destruct P as [|x y], Q as [|x' y']; [now left|now right|now right|].
  destruct (fe_dec x x') as [->|N]; [|right; congruence]. destruct (fe_dec y y') as [->|N]; [now left|right; congruence].
Qed.
Lemma gen_dec P : gen P \/ ~ gen P.
Proof.
  assert (S : forall m, (exists k, P = zmul k gpt) \/ (forall k, 0 <= k < Z.of_nat m -> P <> zmul k gpt)).
  { induction m as [|m [IH|IH]]; [right; lia|now left|]. destruct (pt_dec P (zmul (Z.of_nat m) gpt)) as [E|N]; [left; now exists (Z.of_nat m)|].
    right. intros k Hk. destruct (Z.eq_dec k (Z.of_nat m)) as [->|]; [exact N|apply IH; lia]. }
  destruct gn_bounds as (B1 & _). destruct (S (Z.to_nat gn)) as [G|G]; [now left|right].
  intros [k E]. assert (R : 0 <= k mod gn < gn) by (apply Z.mod_pos_bound; lia).
  apply (G (k mod gn)); [lia|]. rewrite E. apply mulg_cong. apply cong_sym, cong_mod. lia.
Qed.
Lemma no_torsion P : on_curve P -> add P P = Inf -> P = Inf.
Proof.
  destruct P as [|x y]; [reflexivity|]. intros H E. exfalso. cbn [add] in E.
  destruct (fe_dec x x) as [_|F]; [|now destruct F].
  destruct (fe_dec (f_add y y) f0) as [Y|F]; [|discriminate].
  assert (Y0 : y = f0).
  { apply (f_cancel two y f0 two_neq). unfold two. transitivity (f_add y y); [ring|]. rewrite Y. ring. }
  subst y. now apply no_two in H.
Qed.

Theorem all_gen P : on_curve P -> gen P.
Proof.
  intros HP. destruct (gen_dec P) as [G|N]; [exact G|]. destruct (gen_dec (add P P)) as [[k E]|N2].
  - set (h := (gn + 1) / 2). destruct gn_bounds as (B1 & _).
    assert (Hh : cong gn (h * k + h * k) k).
    { assert (O : 2 * h = gn + 1) by (unfold h; vm_compute; reflexivity). exists k.
      replace (h * k + h * k) with ((2 * h) * k) by ring. rewrite O. ring. }
    set (T := zmul (h * k) gpt). assert (HT : on_curve T) by (apply zmul_on_curve, gpt_on_curve).
    assert (HT' : on_curve (neg T)) by (now apply neg_on_curve).
    assert (E2 : add T T = add P P) by (unfold T; rewrite <- zmul_add by apply gpt_on_curve; rewrite E; now apply mulg_cong).
    assert (D : add (add P (neg T)) (add P (neg T)) = Inf).
    { rewrite add_assoc by (try assumption; now apply add_on_curve). rewrite (add_comm (neg T)) by (try assumption; now apply add_on_curve).
      rewrite (add_assoc P (neg T) (neg T)) by assumption. rewrite <- (add_assoc P P) by (try assumption; now apply add_on_curve).
      rewrite <- neg_add by assumption. rewrite E2. apply add_neg. }
    apply no_torsion in D; [|now apply add_on_curve]. apply add_neg_eq in D. exists (h * k). exact D.
  - exfalso. apply (three_cosets (add P P) P); [now apply add_on_curve|exact HP|exact N2|exact N|].
    rewrite add_assoc by (try assumption; now apply neg_on_curve). now rewrite add_neg, add_inf_r.
Qed.
Corollary order_all P : on_curve P -> zmul gn P = Inf.
Proof.
  intros H. destruct (all_gen P H) as [k ->]. rewrite <- zmul_mul by apply gpt_on_curve.
  rewrite Z.mul_comm, zmul_mul, order_gpt by apply gpt_on_curve. apply zmul_Inf.
Qed.
