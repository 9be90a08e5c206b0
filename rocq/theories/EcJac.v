(** The arithmetic of Secp.v computes in the field, and its points in the group. *)

From Coq Require Import ZArith List Lia Znumtheory Ring Field Bool.
From Verif Require Import EcNum Base Hash Secp EcPrime EcField EcRing EcGroup EcMul.
Import ListNotations.
Local Open Scope Z_scope.

(** ** Field operations *)

Lemma low_high x : Z.land x (Z.ones 256) + 2 ^ 256 * Z.shiftr x 256 = x.
Proof.
  rewrite Z.land_ones, Z.shiftr_div_pow2 by lia. pose proof (Z.div_mod x (2 ^ 256) ltac:(lia)). lia.
Qed.
Lemma fred_ok x : 0 <= x < 2 ^ 512 -> fred x = x mod fp.
Proof.
  intros H. unfold fred. cbv zeta.
  set (a := Z.land x (Z.ones 256) + 4294968273 * Z.shiftr x 256).
  set (b := Z.land a (Z.ones 256) + 4294968273 * Z.shiftr a 256).
  assert (Hx : 0 <= Z.land x (Z.ones 256) < 2 ^ 256) by (rewrite Z.land_ones by lia; apply Z.mod_pos_bound; lia).
  assert (Hh : 0 <= Z.shiftr x 256 < 2 ^ 256).
  { rewrite Z.shiftr_div_pow2 by lia. split; [apply Z.div_pos; lia|]. apply Z.div_lt_upper_bound; lia. }
  assert (Ha : 0 <= a < 2 ^ 290) by (unfold a; lia).
  assert (Hl : 0 <= Z.land a (Z.ones 256) < 2 ^ 256) by (rewrite Z.land_ones by lia; apply Z.mod_pos_bound; lia).
  assert (Hs : 0 <= Z.shiftr a 256 < 2 ^ 34).
  { rewrite Z.shiftr_div_pow2 by lia. split; [apply Z.div_pos; lia|]. apply Z.div_lt_upper_bound; lia. }
  assert (Hb : 0 <= b < 2 ^ 256 + 2 ^ 67) by (unfold b; lia).
  assert (Ex : x = a + Z.shiftr x 256 * fp) by (pose proof (low_high x); unfold a; rewrite fp_eq; lia).
  assert (Ea : a = b + Z.shiftr a 256 * fp) by (pose proof (low_high a); unfold b; rewrite fp_eq; lia).
  assert (Em : x mod fp = b mod fp).
  { rewrite Ex, Ea at 1. rewrite !Z.mod_add by (rewrite fp_eq; lia). reflexivity. }
  rewrite Em. destruct (b <? fp) eqn:E.
  - apply Z.ltb_lt in E. symmetry. apply Z.mod_small. lia.
  - apply Z.ltb_ge in E. symmetry. rewrite <- (Z.mod_add b (-1)) by (rewrite fp_eq; lia).
    rewrite Z.mod_small; [lia|]. rewrite fp_eq in *. lia.
Qed.

Lemma fmul_ok a b : fmul (fv a) (fv b) = fv (f_mul a b).
Proof.
  pose proof (fv_range a). pose proof (fv_range b). unfold fmul. rewrite fred_ok.
  - rewrite <- fv_of_Z, of_Z_mul, !of_Z_fv. reflexivity.
  - rewrite fp_eq in *. nia.
Qed.
Lemma fadd_ok a b : fadd (fv a) (fv b) = fv (f_add a b).
Proof.
  pose proof (fv_range a). pose proof (fv_range b).
  assert (E : fv (f_add a b) = (fv a + fv b) mod fp) by (rewrite <- fv_of_Z, of_Z_add, !of_Z_fv; reflexivity).
  rewrite E. unfold fadd. cbv zeta. destruct (fv a + fv b <? fp) eqn:C.
  - apply Z.ltb_lt in C. symmetry. apply Z.mod_small. lia.
  - apply Z.ltb_ge in C. rewrite <- (Z.mod_add _ (-1)) by lia. rewrite Z.mod_small; lia.
Qed.
Lemma fsub_ok a b : fsub (fv a) (fv b) = fv (f_sub a b).
Proof.
  pose proof (fv_range a). pose proof (fv_range b).
  assert (E : fv (f_sub a b) = (fv a - fv b) mod fp) by (rewrite <- fv_of_Z, of_Z_sub, !of_Z_fv; reflexivity).
  rewrite E. unfold fsub. cbv zeta. destruct (fv a - fv b <? 0) eqn:C.
  - apply Z.ltb_lt in C. rewrite <- (Z.mod_add _ 1) by lia. rewrite Z.mod_small; lia.
  - apply Z.ltb_ge in C. symmetry. apply Z.mod_small. lia.
Qed.
Lemma of_Z_pow_fv a e : 0 <= e -> of_Z (fv (of_Z a) ^ e) = of_Z (a ^ e).
Proof. intros H. apply of_Z_cong. now apply of_Z_pow. Qed.
Lemma fpow_ok a e : fpow (fv a) e = fv (of_Z (fv a ^ Zpos e)).
Proof.
  induction e as [e IH|e IH|]; cbn [fpow]; cbv zeta.
  - rewrite IH, !fmul_ok. f_equal. rewrite <- (of_Z_fv a) at 3. rewrite <- !of_Z_mul. f_equal.
    replace (Zpos e~1) with (Zpos e + Zpos e + 1) by lia. rewrite !Z.pow_add_r, Z.pow_1_r by lia. reflexivity.
  - rewrite IH, !fmul_ok. f_equal. rewrite <- !of_Z_mul. f_equal.
    replace (Zpos e~0) with (Zpos e + Zpos e) by lia. rewrite !Z.pow_add_r by lia. reflexivity.
  - rewrite Z.pow_1_r, of_Z_fv. reflexivity.
Qed.
Lemma finv_ok a : finv (fv a) = fv (f_inv a).
Proof.
  unfold finv. rewrite fpow_ok. pose proof fp_big. rewrite Z2Pos.id by lia. reflexivity.
Qed.
Lemma fv_0 : fv f0 = 0.
Proof. unfold f0. rewrite of_Z_small; [reflexivity|]. pose proof fp_pos. lia. Qed.
Lemma fv_1 : fv f1 = 1.
Proof. unfold f1. rewrite of_Z_small; [reflexivity|]. pose proof fp_big. lia. Qed.
Lemma fv_eqb_0 a : (fv a =? 0) = true <-> a = f0.
Proof.
  rewrite Z.eqb_eq, <- fv_0. split; [apply fe_ext|congruence].
Qed.
Lemma fv_eqb_0_false a : (fv a =? 0) = false <-> a <> f0.
Proof. rewrite <- not_true_iff_false, fv_eqb_0. tauto. Qed.

(** ** Points *)

(** The point that Jacobian coordinates stand for. *)
Definition jpt (x y z : fe) : pt :=
  if fe_dec z f0 then Inf else Aff (f_div x (f_mul z z)) (f_div y (f_mul (f_mul z z) z)).
Definition jrep (q : jpoint) (P : pt) : Prop := exists x y z, q = (fv x, fv y, fv z) /\ P = jpt x y z.
Definition arep (q : apoint) (P : pt) : Prop := exists x y, q = (fv x, fv y) /\ P = Aff x y.

Lemma jinf_rep : jrep jinf Inf.
Proof.
  exists f1, f1, f0. split; [now rewrite fv_1, fv_0|]. unfold jpt. destruct (fe_dec f0 f0) as [_|E]; [reflexivity|now destruct E].
Qed.
Lemma to_j_rep q P : arep q P -> jrep (to_j q) P.
Proof.
  intros (x & y & -> & ->). exists x, y, f1. split; [cbn; now rewrite fv_1|]. unfold jpt.
  destruct (fe_dec f1 f0) as [E|_]; [now destruct (f1_neq_f0 E)|]. f_equal; field; exact f1_neq_f0.
Qed.

Ltac fops := repeat first [rewrite fmul_ok | rewrite fadd_ok | rewrite fsub_ok].

Lemma jdouble_rep q P : jrep q P -> jrep (jdouble q) (add P P).
Proof.
  intros (x & y & z & -> & ->). unfold jdouble. cbv zeta. fops.
  eexists _, _, _. split; [reflexivity|].
  assert (E2 : forall a, f_add a a = f_mul two a) by (intros; unfold two; ring).
  unfold jpt at 1 2. destruct (fe_dec z f0) as [Ez|Hz].
  { subst z. unfold jpt. match goal with |- context [fe_dec ?a f0] => destruct (fe_dec a f0) as [_|E] end; [reflexivity|].
    exfalso. apply E. ring. }
  cbn [add]. match goal with |- context [fe_dec ?a ?a] => destruct (fe_dec a a) as [_|E]; [|now destruct E] end.
  unfold jpt. destruct (fe_dec y f0) as [Ey|Hy].
  - subst y. match goal with |- context [fe_dec ?a f0] => destruct (fe_dec a f0) as [_|E] end.
    + match goal with |- context [fe_dec ?a f0] => destruct (fe_dec a f0) as [_|E] end; [reflexivity|].
      exfalso. apply E. ring.
    + exfalso. apply E. field. exact Hz.
  - match goal with |- context [fe_dec ?a f0] => destruct (fe_dec a f0) as [E|_] end.
    { exfalso. assert (G : f_mul two (f_div y (f_mul (f_mul z z) z)) = f0) by (rewrite <- E2; exact E).
      apply f_mul_0 in G. destruct G as [G|G]; [exact (two_neq G)|]. apply Hy.
      replace y with (f_mul (f_div y (f_mul (f_mul z z) z)) (f_mul (f_mul z z) z)) by (field; exact Hz). rewrite G. ring. }
    match goal with |- context [fe_dec ?a f0] => destruct (fe_dec a f0) as [E|Hyz] end.
    { exfalso. rewrite E2 in E. apply f_mul_0 in E. destruct E as [E|E]; [exact (two_neq E)|]. apply f_mul_0 in E. tauto. }
    pose proof two_neq as H2. unfold third. unfold three, two in *. f_equal; field; repeat split; assumption.
Qed.

Lemma on_curve_opp x y1 y2 : on_curve (Aff x y1) -> on_curve (Aff x y2) -> y1 <> y2 -> f_add y1 y2 = f0.
Proof.
  cbn. intros H1 H2 N. assert (E : f_mul (f_sub y1 y2) (f_add y1 y2) = f0).
  { transitivity (f_sub (f_mul y1 y1) (f_mul y2 y2)); [ring|]. rewrite H1, H2. ring. }
  apply f_mul_0 in E. destruct E as [E|E]; [|exact E]. exfalso. apply N. now apply f_sub_0.
Qed.

Lemma jadd_rep q P r Q : jrep q P -> arep r Q -> on_curve P -> on_curve Q -> jrep (jadd q r) (add P Q).
Proof.
  intros Hq Hr HP HQ. pose proof Hr as Hr'. destruct Hr' as (x2 & y2 & Er & EQ).
  pose proof Hq as Hq'. destruct Hq' as (x1 & y1 & z1 & Eq & EP). subst q. subst r. subst Q.
  unfold jadd. destruct (fv z1 =? 0) eqn:Ez.
  { apply fv_eqb_0 in Ez. subst P z1. unfold jpt. destruct (fe_dec f0 f0) as [_|E]; [|now destruct E].
    cbn [add]. now apply to_j_rep. }
  apply fv_eqb_0_false in Ez. cbv zeta. fops.
  assert (EP' : P = Aff (f_div x1 (f_mul z1 z1)) (f_div y1 (f_mul (f_mul z1 z1) z1))).
  { rewrite EP. unfold jpt. destruct (fe_dec z1 f0); [contradiction|reflexivity]. }
  destruct (fv (f_sub (f_mul x2 (f_mul z1 z1)) x1) =? 0) eqn:Eh.
  - apply fv_eqb_0 in Eh.
    assert (Ex : x2 = f_div x1 (f_mul z1 z1)).
    { apply f_sub_0 in Eh. rewrite <- Eh. field. exact Ez. }
    destruct (fv (f_sub (f_mul y2 (f_mul z1 (f_mul z1 z1))) y1) =? 0) eqn:Es.
    + apply fv_eqb_0 in Es.
      assert (Ey : y2 = f_div y1 (f_mul (f_mul z1 z1) z1)).
      { apply f_sub_0 in Es. rewrite <- Es. field. exact Ez. }
      rewrite Ex, Ey, <- EP'. now apply jdouble_rep.
    + apply fv_eqb_0_false in Es.
      assert (Hne : f_div y1 (f_mul (f_mul z1 z1) z1) <> y2).
      { intros E. apply Es. rewrite <- E. field. exact Ez. }
      rewrite EP', <- Ex in HP.
      pose proof (on_curve_opp _ _ _ HP HQ Hne) as E0.
      rewrite EP', <- Ex. cbn [add]. destruct (fe_dec x2 x2) as [_|E]; [|now destruct E].
      match goal with |- context [fe_dec ?a f0] => destruct (fe_dec a f0) as [_|E] end; [apply jinf_rep|contradiction].
  - apply fv_eqb_0_false in Eh. eexists _, _, _. split; [reflexivity|].
    rewrite EP'. cbn [add].
    match goal with |- context [fe_dec ?a ?b] => destruct (fe_dec a b) as [E|Hx] end.
    { exfalso. apply Eh. rewrite <- E. field. exact Ez. }
    unfold jpt. match goal with |- context [fe_dec ?a f0] => destruct (fe_dec a f0) as [E|Hz] end.
    { exfalso. apply f_mul_0 in E. tauto. }
    assert (Hd : f_sub x2 (f_div x1 (f_mul z1 z1)) <> f0) by (intros E; apply Hx; symmetry; now apply f_sub_0).
    unfold third. set (h := f_sub (f_mul x2 (f_mul z1 z1)) x1) in *.
    assert (El : f_div (f_sub y2 (f_div y1 (f_mul (f_mul z1 z1) z1))) (f_sub x2 (f_div x1 (f_mul z1 z1)))
                 = f_div (f_sub (f_mul y2 (f_mul z1 (f_mul z1 z1))) y1) (f_mul z1 h)).
    { unfold h in *. field. repeat split; assumption. }
    rewrite El.
    assert (Ex2 : x2 = f_div (f_add h x1) (f_mul z1 z1)) by (unfold h; field; exact Ez).
    clearbody h. clear El. rewrite Ex2. f_equal; field; repeat split; assumption.
Qed.

Lemma jmul_pos_rep r Q k : arep r Q -> on_curve Q -> jrep (jmul_pos k r) (pmulp k Q).
Proof.
  intros Hr HQ. induction k as [k IH|k IH|]; cbn [jmul_pos pmulp]; cbv zeta.
  - apply jadd_rep; [now apply jdouble_rep|exact Hr| |exact HQ]. pose proof (pmulp_on_curve Q HQ k). now apply add_on_curve.
  - now apply jdouble_rep.
  - now apply to_j_rep.
Qed.
Lemma jmul_rep r Q k : 0 <= k -> arep r Q -> on_curve Q -> jrep (jmul k r) (zmul k Q).
Proof.
  intros Hk Hr HQ. destruct k as [|k|k]; cbn [jmul zmul]; [apply jinf_rep|now apply jmul_pos_rep|lia].
Qed.

Definition coords (P : pt) : option apoint := match P with Inf => None | Aff x y => Some (fv x, fv y) end.
Lemma to_a_rep q P : jrep q P -> to_a q = coords P.
Proof.
  intros (x & y & z & -> & ->). unfold to_a, jpt. destruct (fv z =? 0) eqn:E.
  - apply fv_eqb_0 in E. subst z. destruct (fe_dec f0 f0) as [_|F]; [reflexivity|now destruct F].
  - apply fv_eqb_0_false in E. destruct (fe_dec z f0) as [F|_]; [contradiction|]. cbv zeta. cbn [coords].
    rewrite finv_ok. fops. do 2 f_equal; f_equal; field; exact E.
Qed.
Lemma coords_rep P q : coords P = Some q -> arep q P.
Proof. destruct P as [|x y]; [discriminate|]. intros [= <-]. now exists x, y. Qed.

(** ** Square roots *)

Lemma pow_half c y : f_mul y y = c -> c <> f0 -> of_Z (fv c ^ ((fp - 1) / 2)) = f1.
Proof.
  intros <- Hc. assert (Hy : y <> f0) by (intros ->; apply Hc; ring).
  assert (E : of_Z (fv (f_mul y y) ^ ((fp - 1) / 2)) = of_Z (fv y ^ (fp - 1))).
  { assert (F : 0 <= (fp - 1) / 2) by (apply Z.div_pos; [pose proof fp_pos; lia|lia]).
    rewrite <- (of_Z_fv y) at 1 2. rewrite <- of_Z_mul, of_Z_pow_fv by exact F.
    rewrite <- Z.pow_2_r, <- Z.pow_mul_r by lia. assert (X : 2 * ((fp - 1) / 2) = fp - 1) by (rewrite fp_eq; reflexivity). now rewrite X. }
  rewrite E. unfold f1. apply of_Z_cong. apply fermat; [apply fp_prime|].
  intros D. apply Hy. rewrite <- (of_Z_fv y). apply of_Z_cong. unfold cong. now rewrite Z.sub_0_r.
Qed.
Lemma quarter : 0 <= (fp + 1) / 4 /\ 0 <= (fp - 1) / 2 /\ (fp + 1) / 4 + (fp + 1) / 4 = (fp - 1) / 2 + 1.
Proof.
  pose proof fp_big. split; [apply Z.div_pos; lia|]. split; [apply Z.div_pos; lia|]. rewrite fp_eq. reflexivity.
Qed.
Lemma fsqrt_ok c y : f_mul y y = c -> exists s, fsqrt (fv c) = fv s /\ f_mul s s = c.
Proof.
  intros H. unfold fsqrt. rewrite fpow_ok. eexists. split; [reflexivity|].
  rewrite Z2Pos.id by (rewrite fp_eq; reflexivity).
  destruct (fe_dec c f0) as [->|Hc].
  - rewrite fv_0, Z.pow_0_l by (rewrite fp_eq; reflexivity). fold f0. ring.
  - rewrite <- of_Z_mul, <- Z.pow_add_r by apply quarter. destruct quarter as (_ & Q2 & Q3). rewrite Q3.
    rewrite Z.pow_add_r, Z.pow_1_r by (exact Q2 || lia). rewrite of_Z_mul, (pow_half c y H Hc), of_Z_fv. ring.
Qed.
Lemma fsqrt_fe c : exists s, fsqrt (fv c) = fv s.
Proof. unfold fsqrt. rewrite fpow_ok. now eexists. Qed.

(** Opposite elements have opposite parities. *)
Lemma fp_odd : Z.odd fp = true.
Proof. rewrite fp_eq. reflexivity. Qed.
Lemma odd_opp y : y <> f0 -> Z.odd (fv (f_opp y)) = negb (Z.odd (fv y)).
Proof.
  intros H. pose proof (fv_range y). assert (fv y <> 0) by (rewrite <- fv_0; intros E; apply H; now apply fe_ext).
  assert (E : fv (f_opp y) = fp - fv y).
  { rewrite <- (of_Z_fv y) at 1. rewrite <- of_Z_opp, fv_of_Z. rewrite <- (Z.mod_add _ 1) by lia. rewrite Z.mod_small; lia. }
  rewrite E, Z.odd_sub, fp_odd. reflexivity.
Qed.

Lemma of_Z_7 : fv f7 = 7.
Proof. unfold f7. rewrite of_Z_small; [reflexivity|]. pose proof fp_big. lia. Qed.

(** What [lift_x] returns is on the curve, with the first coordinate given. *)
Lemma lift_x_sound x o q : lift_x (fv x) o = Some q -> exists y, q = (fv x, fv y) /\ on_curve (Aff x y).
Proof.
  unfold lift_x. cbv zeta. rewrite <- of_Z_7. fops.
  set (c := f_add (f_mul (f_mul x x) x) f7). destruct (fsqrt_fe c) as (s & Es). rewrite Es. fops.
  destruct (fv (f_mul s s) =? fv c) eqn:E; [|discriminate]. apply Z.eqb_eq, fe_ext in E.
  destruct (Bool.eqb (Z.odd (fv s)) o); intros [= <-].
  - exists s. split; [reflexivity|exact E].
  - exists (f_opp s). split.
    + rewrite <- fv_0, fsub_ok. replace (f_opp s) with (f_sub f0 s) by ring. reflexivity.
    + cbn [on_curve]. fold c. rewrite <- E. ring.
Qed.
(** And every point is returned for its parity. *)
Lemma lift_x_complete x y : on_curve (Aff x y) -> y <> f0 -> lift_x (fv x) (Z.odd (fv y)) = Some (fv x, fv y).
Proof.
  cbn [on_curve]. intros H Hy. unfold lift_x. cbv zeta. rewrite <- of_Z_7. fops.
  set (c := f_add (f_mul (f_mul x x) x) f7) in *. destruct (fsqrt_ok c y H) as (s & Es & Hs). rewrite Es. fops.
  rewrite Hs, Z.eqb_refl. do 2 f_equal.
  assert (D : f_mul (f_sub s y) (f_add s y) = f0).
  { transitivity (f_sub (f_mul s s) (f_mul y y)); [ring|]. rewrite Hs, H. ring. }
  apply f_mul_0 in D. destruct D as [D|D].
  - apply f_sub_0 in D. subst s. now rewrite eqb_reflx.
  - assert (s = f_opp y) as -> by (replace s with (f_sub (f_add s y) y) by ring; rewrite D; ring).
    rewrite odd_opp by exact Hy.
    assert (X : fsub 0 (fv (f_opp y)) = fv y).
    { rewrite <- fv_0, fsub_ok. replace (f_sub f0 (f_opp y)) with y by ring. reflexivity. }
    destruct (Z.odd (fv y)); cbn [negb Bool.eqb]; exact X.
Qed.

