(** Recovery of keys, against the verification of SEC 1. *)

From Coq Require Import ZArith List Lia Znumtheory Ring Bool.
From Verif Require Import Base BaseFacts Hash Secp SpecSign SignFacts SpecCurve
  EcNum EcPrime EcField EcRing EcGroup EcMul EcOrder EcJac EcEcdsa EcSign EcCount.
Import ListNotations.
Local Open Scope Z_scope.

Lemma order_gn : curve_order = gn.
Proof. reflexivity. Qed.
Global Opaque curve_order.
Lemma base_gpt : base_point = gpt.
Proof. reflexivity. Qed.
Lemma scalar_zval b : scalar_z b = zval b.
Proof. symmetry. apply zval_scalar. Qed.

Lemma point_bytes_compress x y : point_bytes (Aff x y) (compress_point (fv x, fv y)).
Proof.
  exists x, y, (be_bytes 32 (Z.to_N (fv x))). split; [reflexivity|]. split; [reflexivity|].
  split; [apply be_bytes_length|]. rewrite scalar_zval. apply zval_be, fv_256.
Qed.
Lemma scalar_z_inj a b : length a = 32%nat -> length b = 32%nat -> scalar_z a = scalar_z b -> a = b.
Proof.
  intros La Lb E. rewrite !scalar_zval in E. unfold zval in E. apply N2Z.inj in E.
  apply be_val_inj; [congruence|exact E].
Qed.
Lemma point_bytes_det P b c : point_bytes P b -> point_bytes P c -> b = c.
Proof.
  intros (x & y & r & -> & -> & L & N) (x' & y' & r' & E & -> & L' & N'). injection E as <- <-. f_equal.
  apply scalar_z_inj; congruence.
Qed.

Lemma lift_x_parity x o q : lift_x (fv x) o = Some q -> exists y, q = (fv x, fv y) /\ on_curve (Aff x y) /\ Z.odd (fv y) = o.
Proof.
  intros H. destruct (lift_x_sound x o q H) as (y & E & C). exists y. split; [exact E|]. split; [exact C|].
  assert (Hy : y <> f0) by (intros ->; now apply no_two in C).
  destruct (bool_dec (Z.odd (fv y)) o) as [P|P]; [exact P|exfalso].
  assert (Hn : f_opp y <> f0) by (intros F; apply Hy; replace y with (f_opp (f_opp y)) by ring; rewrite F; ring).
  assert (Po : Z.odd (fv (f_opp y)) = o) by (rewrite odd_opp by exact Hy; revert P; case (Z.odd (fv y)); case o; intros P; reflexivity || now destruct P).
  assert (C' : on_curve (Aff x (f_opp y))) by (cbn in C |- *; rewrite <- C; ring).
  pose proof (lift_x_complete x (f_opp y) C' Hn) as L. rewrite Po, H, E in L.
  assert (E' : fv y = fv (f_opp y)) by (injection L as L; exact L).
  apply P. rewrite E'. exact Po.
Qed.

(** ** Algebra *)

Lemma to_recovered n s w r r' z q rho : cong n (s * w) 1 -> cong n (r' * r) 1 -> cong n (z * w + r * w * q) rho ->
  cong n (s * r' * rho - z * r') q.
Proof.
  intros [a Ha] [b Hb] [c Hc]. exists (r' * z * a + q * (a + b + a * b * n) - s * r' * c).
  assert (E : rho = z * w + r * w * q - c * n) by lia. rewrite E.
  replace (s * r' * (z * w + r * w * q - c * n) - z * r' - q)
    with (r' * z * (s * w - 1) + q * ((r' * r) * (s * w) - 1) - s * r' * c * n) by ring.
  replace (s * w) with (1 + a * n) by lia. replace (r' * r) with (1 + b * n) by lia. ring.
Qed.
Lemma of_recovered n s w r r' z q rho : cong n (s * w) 1 -> cong n (r' * r) 1 -> cong n (s * r' * rho - z * r') q ->
  cong n (z * w + r * w * q) rho.
Proof.
  intros [a Ha] [b Hb] [c Hc]. exists (- (w * z * b) + rho * (a + b + a * b * n) - w * r * c).
  assert (E : q = s * r' * rho - z * r' - c * n) by lia. rewrite E.
  replace (z * w + r * w * (s * r' * rho - z * r' - c * n) - rho)
    with (z * w * (1 - r' * r) + rho * ((r' * r) * (s * w) - 1) - w * r * c * n) by ring.
  replace (s * w) with (1 + a * n) by lia. replace (r' * r) with (1 + b * n) by lia. ring.
Qed.

Lemma cong_1_mod a : a mod gn = 1 <-> cong gn a 1.
Proof.
  destruct gn_bounds as (B & _). rewrite cong_iff by lia. rewrite (Z.mod_small 1 gn) by lia. reflexivity.
Qed.
Lemma mod_inverse s : 0 < s < gn -> exists w, (s * w) mod gn = 1.
Proof.
  intros H. exists (ninv s). apply cong_1_mod. rewrite Z.mul_comm. apply ninv_ok. now apply not_divide.
Qed.

Lemma recovered_exp z r s rho : recovered (z mod gn) r s (zmul rho gpt) = zmul (s * ninv r * rho - z * ninv r) gpt.
Proof.
  unfold recovered. rewrite <- zmul_mul, <- zmul_add by apply gpt_on_curve. apply mulg_cong.
  destruct gn_bounds as (B & _). assert (G0 : gn <> 0) by lia.
  replace (s * ninv r * rho - z * ninv r) with (s * ninv r * rho + - (z * ninv r)) by (generalize (ninv r); intros; ring).
  apply cong_add.
  - apply cong_mul; [apply cong_mod_l, cong_refl|apply cong_refl].
  - apply cong_mod_l. replace (- (z mod gn * ninv r)) with (0 - z mod gn * ninv r) by (generalize (ninv r); intros; ring).
    replace (- (z * ninv r)) with (0 - z * ninv r) by (generalize (ninv r); intros; ring).
    apply cong_sub; [apply cong_refl|]. apply cong_mul; [apply cong_mod_l, cong_refl|apply cong_refl].
Qed.

Lemma verify_recovered Q R z r s w : on_curve Q -> on_curve R -> 0 < r < gn -> (s * w) mod gn = 1 ->
  (add (zmul (z * w) gpt) (zmul (r * w) Q) = R <-> recovered (z mod gn) r s R = Q).
Proof.
  intros HQ HR Hr Hw. destruct (all_gen Q HQ) as [q ->]. destruct (all_gen R HR) as [rho ->].
  rewrite recovered_exp. rewrite <- zmul_mul, <- zmul_add by apply gpt_on_curve.
  apply cong_1_mod in Hw. pose proof (ninv_ok r (not_divide r Hr)) as Hi. revert Hi. generalize (ninv r). intros r' Hi.
  split; intros E; apply mulg_inj in E; apply mulg_cong.
  - now apply (to_recovered gn s w r).
  - now apply (of_recovered gn s w r r').
Qed.

(** ** Recovery *)

Theorem recover_exact d g pk : compact_form g -> (secp_recover d g = Some pk <-> key_recovered d g pk).
Proof.
  intros Hf.
  assert (Rr : 0 <= zval (firstn 32 (rs_bytes g)) < gn).
  { split; [apply N2Z.is_nonneg|]. rewrite zval_scalar, gn_N. apply N2Z.inj_lt. apply Hf. }
  assert (Rs : 0 <= zval (skipn 32 (rs_bytes g)) < gn).
  { split; [apply N2Z.is_nonneg|]. rewrite zval_scalar, gn_N. apply N2Z.inj_lt. apply Hf. }
  unfold key_recovered, sig_r, sig_s, verifies_at. rewrite !scalar_zval, order_gn, base_gpt.
  split.
  - intros H. destruct (recover_inv d g pk H) as (Hr & Hs & Hx & q & HL). pose proof (sig_x_nonneg g) as Hx0.
    assert (Ex : fv (of_Z (sig_x g)) = sig_x g) by (apply of_Z_small; split; assumption).
    pose proof HL as HL'. rewrite <- Ex in HL'. pose proof (lift_x_parity _ _ _ HL') as (y & Eq & HR & Ho).
    set (R := Aff (of_Z (sig_x g)) y) in *. assert (HA : arep q R) by (exists (of_Z (sig_x g)), y; split; [exact Eq|reflexivity]).
    rewrite (recover_eq d g q R) in H by assumption.
    set (r := zval (firstn 32 (rs_bytes g))) in *. set (s := zval (skipn 32 (rs_bytes g))) in *.
    assert (Hr' : 0 < r < gn) by (clear - Rr Hr; lia). assert (Hs' : 0 < s < gn) by (clear - Rs Hs; lia).
    assert (OC : on_curve (recovered (zval d mod gn) r s R)).
    { unfold recovered. apply add_on_curve; [now apply zmul_on_curve|apply zmul_on_curve, gpt_on_curve]. }
    destruct (mod_inverse s Hs') as [w Hw].
    pose proof (verify_recovered _ R (zval d) r s w OC HR Hr' Hw) as V.
    remember (recovered (zval d mod gn) r s R) as Q eqn:EQ. destruct Q as [|a b]; [discriminate H|].
    exists (Aff a b), (of_Z (sig_x g)), y. split; [exact OC|]. split.
    { cbn [coords option_map] in H. apply some_eq in H. subst pk. apply point_bytes_compress. }
    split; [|split].
    + split; [exact Hr'|]. split; [exact Hs'|]. exists w. split; [exact Hw|]. apply V. reflexivity.
    + rewrite Ex. unfold sig_x. cbv zeta. fold r. destruct (N.testbit (rs_id g) 1); [reflexivity|]. clear. lia.
    + exact Ho.
  - intros (Q & x & y & HQ & HP & (Hr & Hs & w & Hw & EV) & Ex & Ey).
    assert (HR : on_curve (Aff x y)).
    { rewrite <- EV. apply add_on_curve; [apply zmul_on_curve, gpt_on_curve|now apply zmul_on_curve]. }
    assert (Sx : sig_x g = fv x).
    { rewrite Ex. unfold sig_x. cbv zeta. destruct (N.testbit (rs_id g) 1); [reflexivity|]. clear. lia. }
    assert (Hy : y <> f0) by (intros ->; now apply no_two in HR).
    rewrite (recover_eq d g (fv x, fv y) (Aff x y)).
    + pose proof (proj1 (verify_recovered Q (Aff x y) (zval d) _ _ w HQ HR Hr Hw) EV) as EV'. rewrite EV'.
      destruct HP as (a & b & p & -> & -> & L & N). cbn [coords option_map]. apply f_equal.
      apply (point_bytes_det (Aff a b)); [apply point_bytes_compress|]. exists a, b, p. repeat split; assumption.
    + clear - Hr. lia.
    + clear - Hs. lia.
    + rewrite Sx. apply fv_range.
    + rewrite Sx, <- Ey. now apply lift_x_complete.
    + exists x, y. split; reflexivity.
    + exact HR.
Qed.

(** ** Signing *)

Theorem sign_valid d sk : valid_key sk -> ecdsa_valid (zmul (scalar_z sk) base_point) (scalar_z d) (sig_r (secp_sign d sk)) (sig_s (secp_sign d sk)).
Proof.
  intros Hk. destruct (secp_sign_good d sk Hk) as (Hf & _ & HR). pose proof (valid_key_range sk Hk) as Rk.
  destruct (mulg_point _ Rk) as (a & b & Eab & _).
  assert (K : key_recovered d (secp_sign d sk) (compress_point (fv a, fv b))).
  { apply recover_exact; [exact Hf|]. rewrite HR, Eab. reflexivity. }
  destruct K as (Q & x & y & HQ & HP & V & Ex & _).
  assert (EQ : Q = zmul (scalar_z sk) base_point).
  { rewrite scalar_zval, base_gpt, Eab. destruct HP as (a' & b' & p & -> & E & L & N). apply cons_eq in E. destruct E as [E1 E2].
    pose proof (zmul_on_curve gpt gpt_on_curve (zval sk)) as HC. rewrite Eab in HC.
    apply (compress_inj (Aff a' b') (Aff a b) (fv a', fv b') (fv a, fv b) HQ HC eq_refl eq_refl).
    unfold compress_point. f_equal; [symmetry; exact E1|]. apply scalar_z_inj; [apply be_bytes_length|apply be_bytes_length|].
    rewrite !scalar_zval, !zval_be by apply fv_256. rewrite <- N, scalar_zval, <- E2. apply zval_be, fv_256. }
  subst Q. exists x, y. split; [exact V|]. rewrite Ex. destruct V as (Hr & _). destruct gn_bounds as (B & _).
  rewrite order_gn in *. assert (G0 : gn <> 0) by (clear - B; lia). destruct (N.testbit (rs_id (secp_sign d sk)) 1).
  - rewrite <- (Z.mul_1_l gn) at 1. rewrite Z.mod_add by exact G0. now apply Z.mod_small; split; [apply Z.lt_le_incl|]; apply Hr.
  - rewrite Z.add_0_r. apply Z.mod_small; split; [apply Z.lt_le_incl|]; apply Hr.
Qed.

(** Low s. *)
Lemma sign_with_low k z d sg : sign_with k z d = Some sg -> 2 * sig_s sg <= curve_order.
Proof.
  unfold sign_with. destruct ((0 <? k) && (k <? gn)); [|discriminate].
  destruct (to_a (jmul k secp_g)) as [[x y]|]; [|discriminate]. cbv zeta.
  set (s := (ninv k * ((z + x mod gn * d) mod gn)) mod gn).
  destruct ((x mod gn =? 0) || (s =? 0)) eqn:E0; [discriminate|]. intros E. apply some_eq in E. subst sg.
  unfold sig_s. cbn [rs_bytes]. rewrite scalar_zval, order_gn. destruct gn_bounds as (B1 & B2 & _).
  assert (Sr : 0 <= s < gn) by (apply Z.mod_pos_bound; clear - B1; lia).
  assert (Fs : forall a b, skipn 32 (be_bytes 32 a ++ b) = b).
  { intros a b. pose proof (skipn_app_exact (be_bytes 32 a) b) as F. rewrite be_bytes_length in F. exact F. }
  rewrite Fs. clear E0. clearbody s. clear Fs.
  assert (O : gn = 2 * (gn / 2) + 1) by (vm_compute; reflexivity). revert O. generalize (gn / 2). intros h O.
  destruct (h <? s) eqn:H; [apply Z.ltb_lt in H|apply Z.ltb_ge in H]; rewrite zval_be; clear - H O Sr B1 B2; lia.
Qed.
Lemma zero_scalar : scalar_z (skipn 32 (repeat x00 64)) = 0.
Proof. reflexivity. Qed.
Lemma sign_low d sk : 2 * sig_s (secp_sign d sk) <= curve_order.
Proof.
  unfold secp_sign. generalize (nonce_init sk d). generalize 16%nat.
  assert (O : forall k z v last, 2 * sig_s last <= curve_order -> 2 * sig_s (sign_or k z v last) <= curve_order).
  { intros k z v last H. unfold sign_or. destruct (sign_with k z v) as [g|] eqn:E; [now apply sign_with_low in E|exact H]. }
  induction n as [|f IH]; intros kv; cbn [sign_loop].
  - unfold sign_last. apply O, O. unfold sig_s. cbn [rs_bytes]. rewrite zero_scalar, order_gn. destruct gn_bounds as (B & _). clear - B. lia.
  - destruct kv as [k v]. cbv zeta. destruct (sign_with (zval (hmac256 k v)) (zval d mod gn) (zval sk)) as [g|] eqn:E; [|apply IH].
    now apply sign_with_low in E.
Qed.
