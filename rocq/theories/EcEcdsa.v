(** Signing and key recovery, on numbers and points. *)

From Coq Require Import ZArith List Lia Znumtheory Ring Bool.
From Verif Require Import EcNum Base Hash Secp EcPrime EcField EcRing EcGroup EcMul EcOrder EcJac.
Import ListNotations.
Local Open Scope Z_scope.

Lemma gn_bounds : 2 ^ 255 < gn /\ gn < 2 ^ 256 /\ gn < fp /\ fp < 2 * gn /\ fp < 2 ^ 256.
Proof. rewrite fp_eq. vm_compute. repeat split. Qed.
Lemma gx_range : 0 <= gx < fp /\ 0 <= gy < fp.
Proof. rewrite fp_eq. vm_compute. repeat split; discriminate. Qed.
Global Opaque gn.

(** ** Inverses modulo the order *)

Lemma egcd_ok n A : forall k fuel a b x y, (2 * k <= fuel)%nat -> 0 <= b < a -> a < 2 ^ Z.of_nat k ->
  cong n (x * A) a -> cong n (y * A) b -> cong n (egcd fuel a b x y * A) (Z.gcd a b).
Proof.
  induction k as [|k IH]; intros fuel a b x y Hf Hb Ha Hx Hy.
  - cbn in Ha. lia.
  - destruct fuel as [|[|f]]; [lia|lia|].
    assert (ST : forall u v p q, v <> 0 -> cong n (p * A) u -> cong n (q * A) v -> cong n ((p - u / v * q) * A) (u mod v)).
    { intros u v p q Hv P Q. rewrite Z.mod_eq by exact Hv.
      replace ((p - u / v * q) * A) with (p * A - (u / v) * (q * A)) by ring.
      replace (u - v * (u / v)) with (u - (u / v) * v) by ring.
      apply cong_sub; [exact P|]. apply cong_mul; [apply cong_refl|exact Q]. }
    assert (GM : forall u v, Z.gcd v (u mod v) = Z.gcd u v).
    { intros u v. rewrite (Z.gcd_comm v). destruct (Z.eq_dec v 0) as [->|Hv]; [rewrite Zmod_0_r; reflexivity|].
      rewrite Z.gcd_mod by exact Hv. apply Z.gcd_comm. }
    cbn [egcd]. destruct (b =? 0) eqn:Eb.
    { apply Z.eqb_eq in Eb. subst b. rewrite Z.gcd_0_r, Z.abs_eq by lia. exact Hx. }
    apply Z.eqb_neq in Eb. pose proof (Z.mod_pos_bound a b ltac:(lia)) as Hm.
    destruct (a mod b =? 0) eqn:Em.
    { apply Z.eqb_eq in Em. rewrite <- GM, Em, Z.gcd_0_r, Z.abs_eq by lia. exact Hy. }
    apply Z.eqb_neq in Em. rewrite <- GM, <- GM. apply IH.
    + lia.
    + pose proof (Z.mod_pos_bound b (a mod b) ltac:(lia)). lia.
    + rewrite Nat2Z.inj_succ, Z.pow_succ_r in Ha by lia.
      pose proof (Z.div_mod a b ltac:(lia)). assert (1 <= a / b) by (apply Z.div_le_lower_bound; lia). nia.
    + apply ST; assumption.
    + apply ST; [lia|exact Hy|]. apply ST; assumption.
Qed.
Lemma ninv_ok a : ~ (gn | a) -> cong gn (ninv a * a) 1.
Proof.
  intros Ha. destruct gn_bounds as (B1 & B2 & _). unfold ninv.
  apply cong_trans with (egcd 512 gn (a mod gn) 0 1 * a).
  { apply cong_mul; [apply cong_mod; lia|apply cong_refl]. }
  assert (G : Z.gcd gn (a mod gn) = 1).
  { rewrite Z.gcd_comm, Z.gcd_mod, Z.gcd_comm by lia.
    apply prime_rel_prime in Ha; [|apply gn_prime]. rewrite Z.gcd_comm. apply Zgcd_1_rel_prime. exact Ha. }
  apply cong_trans with (Z.gcd gn (a mod gn)); [|rewrite G; apply cong_refl]. apply (egcd_ok gn a 256).
  - apply Nat.leb_le. reflexivity.
  - apply Z.mod_pos_bound. lia.
  - exact B2.
  - exists (-1). lia.
  - rewrite Z.mul_1_l. apply cong_sym, cong_mod. lia.
Qed.

(** ** The generator *)

Lemma gpt_rep : arep secp_g gpt.
Proof.
  exists (of_Z gx), (of_Z gy). split; [|reflexivity]. destruct gx_range as [A B].
  rewrite !of_Z_small by assumption. reflexivity.
Qed.
Lemma gpt_neq : gpt <> Inf.
Proof. discriminate. Qed.
Definition mulg_cong := zmul_cong gpt gn gpt_on_curve order_gpt.
Definition mulg_inj := zmul_inj gpt gn gpt_on_curve gn_prime order_gpt gpt_neq.
Definition mulg_zero := zmul_zero gpt gn gpt_on_curve gn_prime order_gpt gpt_neq.

Lemma not_divide k : 0 < k < gn -> ~ (gn | k).
Proof. intros H D. apply Z.divide_pos_le in D; lia. Qed.
(** Multiples of the generator are points with a non-zero second coordinate. *)
Lemma mulg_point k : 0 < k < gn -> exists x y, zmul k gpt = Aff x y /\ y <> f0 /\ on_curve (Aff x y).
Proof.
  intros H. pose proof (zmul_on_curve gpt gpt_on_curve k) as Hc. destruct (zmul k gpt) as [|x y] eqn:E.
  - exfalso. apply mulg_zero in E. now apply (not_divide k H).
  - exists x, y. split; [reflexivity|]. split; [|exact Hc]. intros ->.
    assert (D : zmul (k + k) gpt = Inf).
    { rewrite zmul_add, E by apply gpt_on_curve. cbn [add]. destruct (fe_dec x x) as [_|F]; [|now destruct F].
      destruct (fe_dec (f_add f0 f0) f0) as [_|F]; [reflexivity|]. exfalso. apply F. ring. }
    apply mulg_zero in D. replace (k + k) with (2 * k) in D by ring.
    apply prime_mult in D; [|apply gn_prime]. destruct gn_bounds as (B1 & _). destruct D as [D|D].
    + apply Z.divide_pos_le in D; lia.
    + now apply (not_divide k H).
Qed.
Lemma mulg_coords k : 0 <= k -> to_a (jmul k secp_g) = coords (zmul k gpt).
Proof. intros H. apply to_a_rep. apply jmul_rep; [exact H|apply gpt_rep|apply gpt_on_curve]. Qed.

(** ** Recovery *)

(** The point recovered from a digest, a signature and the point [Q] its first half stands for. *)
Definition recovered (z r s : Z) (Q : pt) : pt :=
  add (zmul ((s * ninv r) mod gn) Q) (zmul ((- (z * ninv r)) mod gn) gpt).

Lemma sum_rep u1 u2 q Q : 0 <= u1 -> 0 <= u2 -> arep q Q -> on_curve Q ->
  to_a (match to_a (jmul u1 secp_g) with Some g => jadd (jmul u2 q) g | None => jmul u2 q end)
  = coords (add (zmul u2 Q) (zmul u1 gpt)).
Proof.
  intros H1 H2 Hq HQ. rewrite mulg_coords by exact H1. apply to_a_rep.
  pose proof (jmul_rep q Q u2 H2 Hq HQ) as HJ. destruct (coords (zmul u1 gpt)) as [g|] eqn:E.
  - apply jadd_rep; [exact HJ|now apply coords_rep|now apply zmul_on_curve|apply zmul_on_curve, gpt_on_curve].
  - destruct (zmul u1 gpt); [|discriminate]. now rewrite add_inf_r.
Qed.

Lemma cong_mod_l a b : cong gn a b -> cong gn (a mod gn) b.
Proof. destruct gn_bounds as (B & _). intros H. apply cong_trans with a; [apply cong_mod; lia|exact H]. Qed.

(** The equation of ECDSA. *)
Lemma ecdsa_equation z r d k s e :
  ~ (gn | k) -> ~ (gn | r) -> (e = 1 \/ e = -1) ->
  cong gn s (e * (ninv k * (z + r * d))) ->
  recovered z r s (zmul (e * k) gpt) = zmul d gpt.
Proof.
  intros Hk Hr He Hs. unfold recovered. rewrite <- zmul_mul by apply gpt_on_curve.
  rewrite <- zmul_add by apply gpt_on_curve. apply mulg_cong.
  apply cong_trans with ((s * ninv r) * (e * k) + - (z * ninv r)).
  { apply cong_add; [apply cong_mul; [|apply cong_refl]|]; apply cong_mod_l, cong_refl. }
  pose proof (ninv_ok k Hk) as Ik. pose proof (ninv_ok r Hr) as Ir.
  revert Ik Ir Hs. generalize (ninv k) (ninv r). intros ik ir Ik Ir Hs.
  apply cong_trans with (((e * (ik * (z + r * d))) * ir) * (e * k) + - (z * ir)).
  { apply cong_add; [|apply cong_refl]. apply cong_mul; [|apply cong_refl]. apply cong_mul; [exact Hs|apply cong_refl]. }
  replace (((e * (ik * (z + r * d))) * ir) * (e * k) + - (z * ir))
    with ((e * e) * ((ik * k) * (z + r * d)) * ir - z * ir) by ring.
  replace (e * e) with 1 by (destruct He as [->| ->]; reflexivity).
  apply cong_trans with (1 * (1 * (z + r * d)) * ir - z * ir).
  { apply cong_sub; [|apply cong_refl]. apply cong_mul; [|apply cong_refl]. apply cong_mul; [apply cong_refl|].
    apply cong_mul; [exact Ik|apply cong_refl]. }
  replace (1 * (1 * (z + r * d)) * ir - z * ir) with ((ir * r) * d) by ring.
  apply cong_trans with (1 * d); [apply cong_mul; [exact Ir|apply cong_refl]|]. rewrite Z.mul_1_l. apply cong_refl.
Qed.

(** Recovery of one point for two digests: the digests agree modulo the order. *)
Lemma recovered_inj z z' r s Q : ~ (gn | r) -> on_curve Q ->
  recovered z r s Q = recovered z' r s Q -> cong gn z z'.
Proof.
  intros Hr HQ H. unfold recovered in H.
  set (A := zmul ((s * ninv r) mod gn) Q) in *. assert (HA : on_curve A) by now apply zmul_on_curve.
  assert (E : zmul ((- (z * ninv r)) mod gn) gpt = zmul ((- (z' * ninv r)) mod gn) gpt).
  { assert (C : forall B, on_curve B -> B = add (neg A) (add A B)).
    { intros B HB. rewrite <- add_assoc by auto using neg_on_curve. rewrite (add_comm (neg A)) by auto using neg_on_curve.
      now rewrite add_neg. }
    rewrite (C (zmul ((- (z * ninv r)) mod gn) gpt)) by (apply zmul_on_curve, gpt_on_curve).
    rewrite H. symmetry. apply C. apply zmul_on_curve, gpt_on_curve. }
  apply mulg_inj in E. destruct gn_bounds as (B & _).
  assert (F : cong gn (- (z * ninv r)) (- (z' * ninv r))).
  { eapply cong_trans; [apply cong_sym, cong_mod; lia|]. eapply cong_trans; [exact E|]. apply cong_mod. lia. }
  pose proof (ninv_ok r Hr) as Ir.
  revert F Ir. clear - z. generalize (ninv r). intros ir F Ir.
  assert (T : forall w, cong gn (- (w * ir) * - r) w).
  { intros w. replace (- (w * ir) * - r) with (w * (ir * r)) by ring.
    apply cong_trans with (w * 1); [apply cong_mul; [apply cong_refl|exact Ir]|rewrite Z.mul_1_r; apply cong_refl]. }
  apply cong_trans with (- (z * ir) * - r); [apply cong_sym, T|].
  apply cong_trans with (- (z' * ir) * - r); [|apply T]. apply cong_mul; [exact F|apply cong_refl].
Qed.

(** ** One of the nonces 1 and 2 works *)

Definition g2x : Z := 0xC6047F9441ED7D6D3045406E95C07CD85C778E4B8CEF3CA7ABAC09B95C709EE5.
Lemma twice_g : exists y, zmul 2 gpt = Aff (of_Z g2x) y.
Proof.
  assert (R : reached (1, (gx, gy))) by reflexivity.
  destruct (do_step (1, (gx, gy)) (hd (Dbl 0 0 0 0) chain)) as [[k [x y]]|] eqn:E; [|vm_compute in E; discriminate E].
  pose proof (do_step_ok _ _ _ R E) as R2. unfold reached in R2. cbn [fst snd] in R2.
  assert (K : k = 2 /\ x = g2x) by (vm_compute in E; injection E as <- <- _; split; reflexivity).
  destruct K as [-> ->]. exists (of_Z y). exact R2.
Qed.
Lemma nonce_r : gx mod gn <> 0 /\ g2x mod gn <> 0 /\ gx mod gn <> g2x mod gn /\ 0 <= g2x < fp /\ 2 < gn.
Proof. rewrite fp_eq. vm_compute. repeat split; discriminate. Qed.
Lemma two_nonces z d : 0 < d < gn ->
  ~ (cong gn (z + (gx mod gn) * d) 0 /\ cong gn (z + (g2x mod gn) * d) 0).
Proof.
  intros Hd [A B]. destruct gn_bounds as (B1 & _). destruct nonce_r as (_ & _ & N & _).
  assert (D : (gn | (gx mod gn - g2x mod gn) * d)).
  { destruct A as [i Ei], B as [j Ej]. exists (i - j). lia. }
  apply prime_mult in D; [|apply gn_prime]. destruct D as [D|D]; [|now apply (not_divide d Hd)].
  pose proof (Z.mod_pos_bound gx gn ltac:(lia)). pose proof (Z.mod_pos_bound g2x gn ltac:(lia)).
  destruct D as [q E]. assert (q = 0) by nia. subst q. lia.
Qed.
