(** The signature scheme of Secp.v meets [ecdsa_correct] and [binds_digest]. *)

From Coq Require Import ZArith List Lia Znumtheory Ring Bool.
From Verif Require Import Base BaseFacts Hash Secp SpecSign SignFacts SpecBind
  EcNum EcPrime EcField EcRing EcGroup EcMul EcOrder EcJac EcEcdsa.
Import ListNotations.
Local Open Scope Z_scope.

(** ** Bytes *)

Lemma gn_N : gn = Z.of_N group_order.
Proof. reflexivity. Qed.
Lemma zval_scalar b : zval b = Z.of_N (scalar b).
Proof. unfold zval. now rewrite scalar_be. Qed.
Lemma zval_be x : 0 <= x < 2 ^ 256 -> zval (be_bytes 32 (Z.to_N x)) = x.
Proof.
  intros H. unfold zval. rewrite be_val_be_bytes_small; [apply Z2N.id; lia|].
  replace (256 ^ N.of_nat 32)%N with (Z.to_N (2 ^ 256)) by reflexivity. apply Z2N.inj_lt; lia.
Qed.
Lemma be_32_inj x y : 0 <= x < 2 ^ 256 -> 0 <= y < 2 ^ 256 -> be_bytes 32 (Z.to_N x) = be_bytes 32 (Z.to_N y) -> x = y.
Proof. intros Hx Hy E. rewrite <- (zval_be x Hx), <- (zval_be y Hy), E. reflexivity. Qed.
Lemma zval_lt b : length b = 32%nat -> 0 <= zval b < 2 ^ 256.
Proof.
  intros L. unfold zval. pose proof (be_val_bound b) as H. rewrite L in H.
  replace (256 ^ N.of_nat 32)%N with (Z.to_N (2 ^ 256)) in H by reflexivity. split; [apply N2Z.is_nonneg|].
  apply N2Z.inj_lt in H. rewrite Z2N.id in H by discriminate. exact H.
Qed.
Lemma valid_key_range sk : valid_key sk -> 0 < zval sk < gn.
Proof. intros [_ [A B]]. rewrite zval_scalar, gn_N. split; [apply (N2Z.inj_lt 0); exact A|now apply N2Z.inj_lt]. Qed.
Lemma fv_256 a : 0 <= fv a < 2 ^ 256.
Proof. pose proof (fv_range a). destruct gn_bounds as (_ & _ & _ & _ & B). split; [apply H|]. eapply Z.lt_trans; [apply H|exact B]. Qed.

(** ** Compressed points *)

Lemma cons_eq {A} (a b : A) l m : a :: l = b :: m -> a = b /\ l = m.
Proof. intros [= -> ->]. now split. Qed.
Lemma some_eq {A} (a b : A) : Some a = Some b -> a = b.
Proof. now intros [= ->]. Qed.

Lemma compress_length q : length (compress_point q) = 33%nat.
Proof. destruct q as [x y]. cbn [compress_point length]. now rewrite be_bytes_length. Qed.
Lemma compress_inj P Q p q : on_curve P -> on_curve Q -> coords P = Some p -> coords Q = Some q ->
  compress_point p = compress_point q -> P = Q.
Proof.
  destruct P as [|x y], Q as [|x' y']; try discriminate. intros HP HQ [= <-] [= <-]. cbn [compress_point].
  intros E. apply cons_eq in E. destruct E as [E1 E2]. apply be_32_inj in E2; [|apply fv_256..]. apply fe_ext in E2. subst x'.
  f_equal. destruct (fe_dec y y') as [F|F]; [exact F|exfalso].
  pose proof (on_curve_opp x y y' HP HQ F) as O.
  assert (Ey : y' = f_opp y) by (replace y' with (f_sub (f_add y y') y) by ring; rewrite O; ring).
  destruct (fe_dec y f0) as [Z0|NZ].
  - apply F. rewrite Ey, Z0. ring.
  - subst y'. rewrite odd_opp in E1 by exact NZ. destruct (Z.odd (fv y)); discriminate.
Qed.

Lemma compress_inj_some P Q k : on_curve P -> on_curve Q ->
  option_map compress_point (coords P) = Some k -> option_map compress_point (coords Q) = Some k -> P = Q.
Proof.
  intros HP HQ E E'. destruct (coords P) as [p|] eqn:Ep; [|discriminate]. destruct (coords Q) as [q|] eqn:Eq; [|discriminate].
  apply (compress_inj P Q p q HP HQ Ep Eq). cbn [option_map] in E, E'. congruence.
Qed.

(** ** Public keys *)

Lemma pubkey_eq sk x y : zmul (zval sk) gpt = Aff x y -> 0 < zval sk -> secp_pubkey sk = compress_point (fv x, fv y).
Proof.
  intros E H. unfold secp_pubkey. rewrite mulg_coords, E by lia. reflexivity.
Qed.
Lemma pubkey_length sk : valid_key sk -> length (secp_pubkey sk) = 33%nat.
Proof.
  intros H. apply valid_key_range in H. destruct (mulg_point _ H) as (x & y & E & _).
  rewrite (pubkey_eq sk x y E) by lia. apply compress_length.
Qed.

(** ** Recovery *)

(** The first coordinate that a signature stands for. *)
Definition sig_x (sg : rsig) : Z :=
  let r := zval (firstn 32 (rs_bytes sg)) in if N.testbit (rs_id sg) 1 then r + gn else r.

Lemma recover_eq msg sg q Q :
  zval (firstn 32 (rs_bytes sg)) <> 0 -> zval (skipn 32 (rs_bytes sg)) <> 0 -> sig_x sg < fp ->
  lift_x (sig_x sg) (N.testbit (rs_id sg) 0) = Some q -> arep q Q -> on_curve Q ->
  secp_recover msg sg =
  option_map compress_point
    (coords (recovered (zval msg mod gn) (zval (firstn 32 (rs_bytes sg))) (zval (skipn 32 (rs_bytes sg))) Q)).
Proof.
  intros Hr Hs Hx HL Hq HQ. unfold secp_recover. cbv zeta.
  apply Z.eqb_neq in Hr. apply Z.eqb_neq in Hs. rewrite Hr, Hs. cbn [orb].
  unfold sig_x in *. cbv zeta in *. apply Z.leb_gt in Hx. rewrite Hx, HL.
  destruct gn_bounds as (B & _).
  rewrite (sum_rep _ _ q Q); [|apply Z.mod_pos_bound; lia|apply Z.mod_pos_bound; lia|exact Hq|exact HQ].
  fold (recovered (zval msg mod gn) (zval (firstn 32 (rs_bytes sg))) (zval (skipn 32 (rs_bytes sg))) Q).
  destruct (coords (recovered (zval msg mod gn) (zval (firstn 32 (rs_bytes sg))) (zval (skipn 32 (rs_bytes sg))) Q)); reflexivity.
Qed.
Lemma recover_eq2 msg sg r s q Q :
  zval (firstn 32 (rs_bytes sg)) = r -> zval (skipn 32 (rs_bytes sg)) = s -> r <> 0 -> s <> 0 -> sig_x sg < fp ->
  lift_x (sig_x sg) (N.testbit (rs_id sg) 0) = Some q -> arep q Q -> on_curve Q ->
  secp_recover msg sg = option_map compress_point (coords (recovered (zval msg mod gn) r s Q)).
Proof. intros <- <-. apply recover_eq. Qed.
Lemma recover_inv msg sg pk : secp_recover msg sg = Some pk ->
  zval (firstn 32 (rs_bytes sg)) <> 0 /\ zval (skipn 32 (rs_bytes sg)) <> 0 /\ sig_x sg < fp
  /\ exists q, lift_x (sig_x sg) (N.testbit (rs_id sg) 0) = Some q.
Proof.
  unfold secp_recover. cbv zeta. fold (sig_x sg).
  destruct (zval (firstn 32 (rs_bytes sg)) =? 0) eqn:Hr; [discriminate|].
  destruct (zval (skipn 32 (rs_bytes sg)) =? 0) eqn:Hs; [discriminate|]. cbn [orb].
  change (if N.testbit (rs_id sg) 1 then zval (firstn 32 (rs_bytes sg)) + gn else zval (firstn 32 (rs_bytes sg))) with (sig_x sg).
  destruct (fp <=? sig_x sg) eqn:Hx; [discriminate|].
  destruct (lift_x (sig_x sg) (N.testbit (rs_id sg) 0)) as [q|]; [|discriminate].
  intros _. apply Z.eqb_neq in Hr, Hs. apply Z.leb_gt in Hx. repeat split; try assumption. now exists q.
Qed.
Lemma sig_x_nonneg sg : 0 <= sig_x sg.
Proof.
  unfold sig_x. cbv zeta. destruct gn_bounds as (B & _). assert (0 <= zval (firstn 32 (rs_bytes sg))) by apply N2Z.is_nonneg.
  destruct (N.testbit (rs_id sg) 1); lia.
Qed.

Lemma secp_recover_length msg sg pk : secp_recover msg sg = Some pk -> length pk = 33%nat.
Proof.
  unfold secp_recover. cbv zeta. repeat match goal with
  | |- (if ?c then _ else _) = _ -> _ => destruct c; [discriminate|]
  | |- match ?c with _ => _ end = _ -> _ => destruct c; try discriminate
  end. intros [= <-]. apply compress_length.
Qed.

Theorem secp_binds : binds_digest secp.
Proof.
  intros d d' sg pk Ld Ld' Hf H H'. cbn [recover secp] in H, H'.
  destruct (recover_inv d sg pk H) as (Hr & Hs & Hx & q & HL).
  pose proof (sig_x_nonneg sg) as Hx0.
  assert (Ex : fv (of_Z (sig_x sg)) = sig_x sg) by (apply of_Z_small; split; assumption).
  pose proof HL as HL'. rewrite <- Ex in HL'. destruct (lift_x_sound _ _ _ HL') as (y & Eq & HQ).
  set (Q := Aff (of_Z (sig_x sg)) y) in *. assert (HA : arep q Q) by (exists (of_Z (sig_x sg)), y; split; [exact Eq|reflexivity]).
  rewrite (recover_eq d sg q Q) in H by assumption. rewrite (recover_eq d' sg q Q) in H' by assumption.
  set (r := zval (firstn 32 (rs_bytes sg))) in *. set (s := zval (skipn 32 (rs_bytes sg))) in *.
  assert (Hr' : ~ (gn | r)).
  { apply not_divide. split; [|rewrite gn_N; unfold r; rewrite zval_scalar; apply N2Z.inj_lt; apply Hf].
    assert (0 <= r) by apply N2Z.is_nonneg. lia. }
  assert (EP : recovered (zval d mod gn) r s Q = recovered (zval d' mod gn) r s Q).
  { assert (OC : forall z, on_curve (recovered z r s Q)).
    { intros z. unfold recovered. apply add_on_curve; [now apply zmul_on_curve|apply zmul_on_curve, gpt_on_curve]. }
    exact (compress_inj_some _ _ pk (OC _) (OC _) H H'). }
  apply recovered_inj in EP; [|exact Hr'|exact HQ].
  destruct gn_bounds as (B & _). apply cong_iff in EP; [|lia]. rewrite !Z.mod_mod in EP by lia.
  rewrite !zval_scalar, gn_N in EP. rewrite <- !N2Z.inj_mod in EP. now apply N2Z.inj in EP.
Qed.

(** ** Signing *)

(** A signature as it should be: well formed, with a non-zero first half, and the signer's key recovered. *)
Definition good (msg : bytes) (d : Z) (sg : rsig) : Prop :=
  compact_form sg /\ (0 < scalar (firstn 32 (rs_bytes sg)))%N
  /\ secp_recover msg sg = option_map compress_point (coords (zmul d gpt)).

Lemma sign_with_good msg d k sg : 0 < d < gn -> sign_with k (zval msg mod gn) d = Some sg -> good msg d sg.
Proof.
  intros Hd. unfold sign_with. destruct ((0 <? k) && (k <? gn)) eqn:Ek; [|discriminate].
  apply andb_prop in Ek. destruct Ek as [K1 K2]. apply Z.ltb_lt in K1, K2.
  assert (Hk : 0 < k < gn) by (split; assumption).
  destruct (mulg_point k Hk) as (x & y & Exy & Hy & Hc).
  rewrite mulg_coords, Exy by (apply Z.lt_le_incl; exact K1). cbn [coords]. cbv zeta.
  set (z := zval msg mod gn). set (r := fv x mod gn). set (s := (ninv k * ((z + r * d) mod gn)) mod gn).
  destruct ((r =? 0) || (s =? 0)) eqn:E0; [discriminate|]. apply orb_false_iff in E0. destruct E0 as [R0 S0].
  apply Z.eqb_neq in R0, S0. destruct gn_bounds as (B1 & B2 & B3 & B4 & B5).
  assert (Gpos : 0 < gn) by (clear - K1 K2; exact (Z.lt_trans _ _ _ K1 K2)).
  assert (Rr : 0 < r < gn).
  { pose proof (Z.mod_pos_bound (fv x) gn Gpos) as M. fold r in M. clear - M R0. lia. }
  assert (Sr : 0 < s < gn).
  { pose proof (Z.mod_pos_bound (ninv k * ((z + r * d) mod gn)) gn Gpos) as M. fold s in M. clear - M S0. lia. }
  set (high := gn / 2 <? s). set (s' := if high then gn - s else s).
  assert (Sr' : 0 < s' < gn) by (unfold s'; clear - Sr; destruct high; lia).
  set (odd := xorb (Z.odd (fv y)) high).
  set (id := ((if (gn <=? fv x)%Z then 2 else 0) + (if odd then 1 else 0))%N).
  intros E. apply some_eq in E. subst sg.
  assert (Lr : length (be_bytes 32 (Z.to_N r)) = 32%nat) by apply be_bytes_length.
  assert (Fr : firstn 32 (be_bytes 32 (Z.to_N r) ++ be_bytes 32 (Z.to_N s')) = be_bytes 32 (Z.to_N r)).
  { rewrite <- Lr at 1. apply firstn_app_exact. }
  assert (Fs : skipn 32 (be_bytes 32 (Z.to_N r) ++ be_bytes 32 (Z.to_N s')) = be_bytes 32 (Z.to_N s')).
  { rewrite <- Lr at 1. apply skipn_app_exact. }
  assert (Zr : zval (be_bytes 32 (Z.to_N r)) = r) by (apply zval_be; clear - Rr B2; lia).
  assert (Zs : zval (be_bytes 32 (Z.to_N s')) = s') by (apply zval_be; clear - Sr' B2; lia).
  assert (Hid : N.testbit id 1 = (gn <=? fv x) /\ N.testbit id 0 = odd /\ (id <= 3)%N).
  { unfold id. destruct (gn <=? fv x), odd; repeat split; discriminate. }
  destruct Hid as (I1 & I0 & I3).
  unfold good, compact_form. cbn [rs_id rs_bytes]. rewrite Fr, Fs.
  assert (Nr : Z.of_N (scalar (be_bytes 32 (Z.to_N r))) = r) by (rewrite <- zval_scalar; exact Zr).
  assert (Ns : Z.of_N (scalar (be_bytes 32 (Z.to_N s'))) = s') by (rewrite <- zval_scalar; exact Zs).
  split; [|split].
  - split; [exact I3|]. split; [rewrite app_length, !be_bytes_length; reflexivity|].
    split; apply N2Z.inj_lt; rewrite <- gn_N, ?Nr, ?Ns; [apply Rr|apply Sr'].
  - apply N2Z.inj_lt. rewrite Nr. apply Rr.
  - set (sg := {| rs_id := id; rs_bytes := be_bytes 32 (Z.to_N r) ++ be_bytes 32 (Z.to_N s') |}).
    set (e := if high then -1 else 1). set (y' := if high then f_opp y else y).
    assert (Ex : sig_x sg = fv x).
    { unfold sig_x, sg. cbn [rs_id rs_bytes]. cbv zeta. rewrite Fr, Zr, I1.
      pose proof (fv_range x) as X. destruct (gn <=? fv x) eqn:G.
      - apply Z.leb_le in G. unfold r. rewrite <- (Z.mod_add (fv x) (-1)) by (clear - Gpos; lia).
        rewrite Z.mod_small by (clear - X G B4; lia). clear. lia.
      - apply Z.leb_gt in G. unfold r. apply Z.mod_small. clear - X G. lia. }
    assert (Hy' : y' <> f0).
    { unfold y'. destruct high; [|exact Hy]. intros F. apply Hy. replace y with (f_opp (f_opp y)) by ring. rewrite F. ring. }
    assert (EQ : Aff x y' = zmul (e * k) gpt).
    { unfold e, y'. destruct high.
      - rewrite zmul_mul, Exy by apply gpt_on_curve. reflexivity.
      - rewrite Z.mul_1_l. symmetry. exact Exy. }
    assert (HQ : on_curve (Aff x y')) by (rewrite EQ; apply zmul_on_curve, gpt_on_curve).
    assert (Eo : odd = Z.odd (fv y')).
    { unfold odd, y'. destruct high; [rewrite odd_opp by exact Hy|]; destruct (Z.odd (fv y)); reflexivity. }
    assert (Rb : zval (firstn 32 (rs_bytes sg)) = r) by (unfold sg; cbn [rs_bytes]; rewrite Fr; exact Zr).
    assert (Sb : zval (skipn 32 (rs_bytes sg)) = s') by (unfold sg; cbn [rs_bytes]; rewrite Fs; exact Zs).
    assert (HL : lift_x (sig_x sg) (N.testbit (rs_id sg) 0) = Some (fv x, fv y')).
    { rewrite Ex. unfold sg. cbn [rs_id]. rewrite I0, Eo. now apply lift_x_complete. }
    assert (Cs : cong gn s' (e * (ninv k * (z + r * d)))).
    { assert (Cs : cong gn s (ninv k * (z + r * d))).
      { unfold s. apply cong_mod_l. apply cong_mul; [apply cong_refl|]. apply cong_mod_l, cong_refl. }
      unfold e, s'. destruct high.
      - replace (-1 * (ninv k * (z + r * d))) with (0 - ninv k * (z + r * d)) by (generalize (ninv k); intros; ring).
        apply cong_sub; [|exact Cs]. exists 1. clear. lia.
      - rewrite Z.mul_1_l. exact Cs. }
    assert (He : e = 1 \/ e = -1) by (unfold e; destruct high; [right|left]; reflexivity).
    pose proof (ecdsa_equation z r d k s' e (not_divide k Hk) (not_divide r Rr) He Cs) as EE.
    rewrite <- EQ in EE. rewrite <- EE. apply recover_eq2 with (q := (fv x, fv y')).
    + exact Rb.
    + exact Sb.
    + exact R0.
    + clear - Sr'. lia.
    + rewrite Ex. apply fv_range.
    + exact HL.
    + exists x, y'. split; reflexivity.
    + exact HQ.
Qed.

Lemma sign_with_none k z d x y : 0 < k < gn -> zmul k gpt = Aff x y -> sign_with k z d = None ->
  fv x mod gn = 0 \/ cong gn (z + (fv x mod gn) * d) 0.
Proof.
  intros Hk Exy. unfold sign_with. destruct Hk as [K1 K2].
  assert (Ek : (0 <? k) && (k <? gn) = true) by (apply andb_true_intro; split; apply Z.ltb_lt; assumption).
  rewrite Ek, mulg_coords, Exy by (apply Z.lt_le_incl; exact K1). cbn [coords]. cbv zeta.
  set (r := fv x mod gn). set (s := (ninv k * ((z + r * d) mod gn)) mod gn).
  destruct ((r =? 0) || (s =? 0)) eqn:E0; [|discriminate]. intros _.
  apply orb_prop in E0. destruct E0 as [E0|E0]; apply Z.eqb_eq in E0; [now left|right].
  assert (Gpos : gn <> 0) by (clear - K1 K2; lia).
  assert (D : (gn | ninv k * ((z + r * d) mod gn))) by (apply Z.mod_divide; [exact Gpos|exact E0]).
  assert (Nk : ~ (gn | ninv k)).
  { intros D'. assert (Hnk : ~ (gn | k)) by (apply not_divide; split; assumption).
    pose proof (ninv_ok k Hnk) as I. assert (D1 : (gn | 1)).
    { replace 1 with (ninv k * k - (ninv k * k - 1)) by (generalize (ninv k); intros; ring).
      apply Z.divide_sub_r; [now apply Z.divide_mul_l|exact I]. }
    apply Z.divide_pos_le in D1; [|reflexivity]. destruct gn_bounds as (B & _). clear - D1 B. lia. }
  apply prime_mult in D; [|apply gn_prime]. destruct D as [D|D]; [contradiction|].
  apply cong_trans with ((z + r * d) mod gn); [apply cong_sym, cong_mod; exact Gpos|].
  unfold cong. now rewrite Z.sub_0_r.
Qed.

Lemma sign_last_good msg d : 0 < d < gn -> good msg d (sign_last (zval msg mod gn) d).
Proof.
  intros Hd. unfold sign_last, sign_or.
  destruct (sign_with 1 (zval msg mod gn) d) as [sg|] eqn:E1; [now apply (sign_with_good msg d 1)|].
  destruct (sign_with 2 (zval msg mod gn) d) as [sg|] eqn:E2; [now apply (sign_with_good msg d 2)|].
  exfalso. destruct nonce_r as (N1 & N2 & _ & X2 & L2). destruct gx_range as [X1 _].
  set (z := zval msg mod gn) in *. clearbody z. assert (K1 : 0 < 1 < gn) by (clear - L2; lia). assert (K2 : 0 < 2 < gn) by (clear - L2; lia).
  destruct twice_g as (y2 & T).
  assert (T1 : zmul 1 gpt = Aff (of_Z gx) (of_Z gy)) by reflexivity.
  pose proof (sign_with_none 1 z d _ _ K1 T1 E1) as F1. pose proof (sign_with_none 2 z d _ _ K2 T E2) as F2.
  rewrite of_Z_small in F1 by exact X1. rewrite of_Z_small in F2 by exact X2.
  apply (two_nonces z d Hd). split.
  - destruct F1 as [F1|F1]; [contradiction|exact F1].
  - destruct F2 as [F2|F2]; [contradiction|exact F2].
Qed.
Lemma sign_loop_good msg d fuel : 0 < d < gn -> forall kv, good msg d (sign_loop fuel kv (zval msg mod gn) d).
Proof.
  intros Hd. induction fuel as [|f IH]; intros kv; cbn [sign_loop]; [now apply sign_last_good|].
  destruct kv as [k v]. cbv zeta.
  destruct (sign_with (zval (hmac256 k v)) (zval msg mod gn) d) as [sg|] eqn:E; [|apply IH].
  now apply (sign_with_good msg d (zval (hmac256 k v))).
Qed.
Lemma secp_sign_good msg sk : valid_key sk -> good msg (zval sk) (secp_sign msg sk).
Proof. intros H. unfold secp_sign. apply sign_loop_good. now apply valid_key_range. Qed.

Theorem secp_correct : ecdsa_correct secp.
Proof.
  constructor; cbn [secp pubkey_of sign_rec recover].
  - exact pubkey_length.
  - intros m sk _ H. apply (secp_sign_good m sk H).
  - intros m sk _ H. apply (secp_sign_good m sk H).
  - intros m sk _ H. destruct (secp_sign_good m sk H) as (_ & _ & E). rewrite E.
    pose proof (valid_key_range sk H) as R. destruct (mulg_point _ R) as (x & y & Exy & _).
    rewrite Exy, (pubkey_eq sk x y Exy) by apply R. reflexivity.
  - intros m r pk. apply secp_recover_length.
Qed.

(** ** Encoded keys are points *)

Lemma pubkey_parses sk : valid_key sk -> exists q, point_parse (secp_pubkey sk) = Some q.
Proof.
  intros H. apply valid_key_range in H. destruct (mulg_point _ H) as (x & y & E & Hy & Hc).
  rewrite (pubkey_eq sk x y E) by apply H. exists (fv x, fv y). unfold compress_point, point_parse.
  rewrite be_bytes_length. cbn [Nat.eqb]. rewrite zval_be by apply fv_256.
  assert (L : (fv x <? fp) = true) by (apply Z.ltb_lt; apply fv_range). rewrite L. cbn [andb].
  pose proof (lift_x_complete x y Hc Hy) as HL. destruct (Z.odd (fv y)); exact HL.
Qed.
