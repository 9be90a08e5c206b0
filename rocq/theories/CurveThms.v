(** The curve, the key tree and transactions. *)

From Coq Require Import ZArith List Lia Znumtheory Ring Bool.
From Verif Require Import Base BaseFacts SpecText SpecWire WireFacts Hash Secp Clarity Tx SpecTx TxThms Sha2 Signer SpecSign SignFacts SignThms PlanThms AuthThms NodeThms SpecCurve Wallet Hd SpecClient
  EcNum EcField EcRing EcGroup EcMul EcJac EcEcdsa EcSign EcCount EcRecover.
Import ListNotations.
Local Open Scope Z_scope.

(** ** The key tree *)

Lemma secret_valid x : valid_key (secret_bytes x).
Proof.
  unfold secret_bytes. destruct x as [s c ok]. cbn [xk_secret]. unfold secret_ok in ok. apply andb_prop in ok.
  destruct ok as [A B]. apply Z.ltb_lt in A, B. destruct gn_bounds as (_ & B2 & _).
  assert (R : 0 <= s < 2 ^ 256) by (clear - A B B2; lia).
  split; [apply be_bytes_length|]. pose proof (zval_be s R) as Z. rewrite zval_scalar in Z.
  split; apply N2Z.inj_lt; rewrite Z; [exact A|rewrite <- gn_N; exact B].
Qed.
Theorem bip_correct : hd_correct secp bip_hd.
Proof.
  constructor.
  - exact secret_valid.
  - intros x. cbn [pubkey_of secp xprv_bytes xpub_bytes bip_hd]. unfold public_bytes. exact eq_refl.
  - intros x. cbn [point_ok bip_hd xpub_bytes]. unfold public_bytes.
    unfold is_point. destruct (pubkey_parses _ (secret_valid x)) as [q E]. rewrite E. reflexivity.
Qed.

(** ** Twins *)

Lemma lxor_bits n : N.testbit (N.lxor n 1) 0 = negb (N.testbit n 0) /\ N.testbit (N.lxor n 1) 1 = N.testbit n 1.
Proof. rewrite !N.lxor_spec. change (N.testbit 1 0) with true. change (N.testbit 1 1) with false. now rewrite xorb_true_r, xorb_false_r. Qed.
Lemma lxor_small n : (n <= 3)%N -> (N.lxor n 1 <= 3)%N.
Proof. intros H. assert (C : (n = 0 \/ n = 1 \/ n = 2 \/ n = 3)%N) by lia. destruct C as [->|[->|[->| ->]]]; vm_compute; discriminate. Qed.

Lemma halves (a b : bytes) : length a = 32%nat -> firstn 32 (a ++ b) = a /\ skipn 32 (a ++ b) = b.
Proof. intros L. rewrite <- L. split; [apply firstn_app_exact|apply skipn_app_exact]. Qed.
Lemma big_number n : 0 <= n < 2 ^ 256 -> scalar_z (big_endian 32 (Z.to_N n)) = n.
Proof. intros H. rewrite big_endian_be, scalar_zval. now apply zval_be. Qed.
Lemma scalar_below b : (scalar b < group_order)%N <-> scalar_z b < curve_order.
Proof. unfold scalar_z. rewrite order_gn, gn_N. apply N2Z.inj_lt. Qed.

Lemma twin_parts g : compact_form g -> 0 < sig_s g ->
  compact_form (twin g) /\ sig_r (twin g) = sig_r g /\ sig_s (twin g) = curve_order - sig_s g.
Proof.
  intros (I & L & A & B) Hs. apply scalar_below in B. fold (sig_s g) in B.
  assert (Lr : length (firstn 32 (rs_bytes g)) = 32%nat) by (rewrite firstn_length, L; reflexivity).
  destruct (halves _ (big_endian 32 (Z.to_N (curve_order - sig_s g))) Lr) as [F G].
  assert (Nb : scalar_z (big_endian 32 (Z.to_N (curve_order - sig_s g))) = curve_order - sig_s g).
  { apply big_number. destruct gn_bounds as (_ & B2 & _). rewrite order_gn in *. clear - Hs B B2. lia. }
  assert (Er : sig_r (twin g) = sig_r g) by (unfold sig_r, twin; cbn [rs_bytes]; rewrite F; reflexivity).
  assert (Es : sig_s (twin g) = curve_order - sig_s g) by (unfold sig_s at 1, twin; cbn [rs_bytes]; rewrite G; exact Nb).
  split; [|split; [exact Er|exact Es]].
  split; [exact (lxor_small _ I)|]. split; [cbn [twin rs_bytes]; rewrite app_length, Lr, big_endian_length; reflexivity|].
  split; apply scalar_below.
  - fold (sig_r (twin g)). rewrite Er. apply scalar_below. exact A.
  - fold (sig_s (twin g)). rewrite Es. clear - Hs. lia.
Qed.

Theorem twin_recovers d g pk : compact_form g -> secp_recover d g = Some pk ->
  compact_form (twin g) /\ secp_recover d (twin g) = Some pk /\ sig_s (twin g) = curve_order - sig_s g /\ twin g <> g.
Proof.
  intros Hf H. apply recover_exact in H; [|exact Hf]. destruct H as (Q & x & y & HQ & HP & V & Ex & Ey).
  destruct V as (Hr & Hs & w & Hw & EV). destruct (twin_parts g Hf (proj1 Hs)) as (Tf & Tr & Ts).
  split; [exact Tf|]. split; [|split; [exact Ts|]].
  - apply recover_exact; [exact Tf|]. exists Q, x, (f_opp y). unfold verifies_at. rewrite Tr, Ts.
    split; [exact HQ|]. split; [exact HP|].
    assert (HR : on_curve (Aff x y)).
    { rewrite <- EV, base_gpt. apply add_on_curve; [apply zmul_on_curve, EcOrder.gpt_on_curve|now apply zmul_on_curve]. }
    assert (Hy : y <> f0) by (intros ->; now apply no_two in HR).
    destruct (lxor_bits (rs_id g)) as [B0 B1]. cbn [twin rs_id]. rewrite B0, B1.
    split; [|split; [exact Ex|rewrite odd_opp by exact Hy; now rewrite Ey]].
    split; [exact Hr|]. split; [clear - Hs; lia|]. exists (- w). split.
    + rewrite order_gn in *. apply cong_1_mod. apply cong_1_mod in Hw. destruct Hw as [a Hw]. exists (a - w).
      replace ((gn - sig_s g) * - w - 1) with ((sig_s g * w - 1) - w * gn) by ring. rewrite Hw. ring.
    + rewrite base_gpt in *. replace (scalar_z d * - w) with (- (scalar_z d * w)) by ring. replace (sig_r g * - w) with (- (sig_r g * w)) by ring.
      rewrite !zmul_opp. rewrite <- neg_add; [rewrite EV; reflexivity|apply zmul_on_curve, EcOrder.gpt_on_curve|now apply zmul_on_curve].
  - intros E. apply (f_equal rs_id) in E. cbn [twin rs_id] in E. destruct (lxor_bits (rs_id g)) as [B0 _]. rewrite E in B0.
    destruct (N.testbit (rs_id g) 0); discriminate.
Qed.

(** ** Transactions *)

Theorem twin_transaction t s g h g1 : tx_auth t = AStandard (SStd s) -> std_sig s = sig_bytes g -> compact_form g ->
  initial_hash t = Ok h -> tx_verify_origin secp t = Ok g1 ->
  let t' := tx_with_auth t (AStandard (SStd (with_sig s (sig_bytes (twin g))))) in
  same_but_signatures t t' /\ t' <> t /\ (exists g2, tx_verify_origin secp t' = Ok g2)
  /\ forall w, tx_means t w -> wf_tx w ->
       exists w' a b, tx_means t' w' /\ tx_hash t = Ok a /\ tx_hash t' = Ok b /\ (a <> b \/ collision (ser_tx w) (ser_tx w')).
Proof.
  intros Ha Hs Hf Hh Hv t'.
  assert (O : origin_of t = SStd s) by (unfold origin_of; rewrite Ha; reflexivity).
  assert (Ty : typed (origin_of t)) by (rewrite O; cbn [typed]; rewrite Hs; now apply sig_bytes_length).
  apply (verify_origin_iff secp t h g1 Hh Ty) in Hv. rewrite O in Hv. inversion Hv as [s0 pk R K E1 E2|]; subst s0.
  destruct R as (r & Rf & Re & Rr). rewrite Hs in Re. apply sig_bytes_inj in Re; [|exact Hf|exact Rf]. subst r.
  destruct (twin_recovers _ g pk Hf Rr) as (Tf & Tr & _ & Tn).
  assert (SO : same_origin (tx_auth t) (tx_auth t')) by (unfold t'; rewrite Ha; repeat split).
  assert (SB : same_but_signatures t t').
  { unfold t', same_but_signatures. cbn [tx_with_auth tx_ver tx_chain tx_anchor tx_pcmode tx_conds tx_payload tx_auth]. rewrite Ha. repeat split. }
  assert (Hne : tx_auth t <> tx_auth t').
  { unfold t'. cbn [tx_with_auth tx_auth]. rewrite Ha. intros E. injection E as E. apply (f_equal std_sig) in E. cbn [with_sig std_sig] in E.
    rewrite Hs in E. apply sig_bytes_inj in E; [|exact Hf|exact Tf]. now apply Tn. }
  split; [exact SB|]. split; [congruence|]. split.
  - assert (O' : origin_of t' = SStd (with_sig s (sig_bytes (twin g)))) by reflexivity.
    assert (Hh' : initial_hash t' = Ok h) by (rewrite <- Hh; now apply initial_hash_auth).
    eexists. apply (verify_origin_iff secp t' h _ Hh').
    + rewrite O'. cbn [typed with_sig std_sig]. now apply sig_bytes_length.
    + rewrite O'. apply (sat_single secp x04 h (with_sig s (sig_bytes (twin g))) pk); [|exact K].
      exists (twin g). split; [exact Tf|]. split; [reflexivity|exact Tr].
  - intros w M W. set (w' := {| w_version := w_version w; w_chain := w_chain w; w_auth := auth_wire (tx_auth t'); w_anchor := w_anchor w;
      w_pcmode := w_pcmode w; w_conds := w_conds w; w_payload := w_payload w |}).
    assert (M' : tx_means t' w').
    { destruct M as (M1 & M2 & _ & M4 & M5 & M6 & M7). repeat split; assumption. }
    assert (W' : wf_tx w').
    { destruct M as (_ & _ & M3 & _). destruct W as (W1 & W2 & W3 & W4 & W5). rewrite M3, Ha in W2.
      split; [exact W1|]. split; [|repeat split; assumption]. cbn [auth_wire wf_auth spend_wire wf_spend] in W2.
      destruct W2 as (A1 & A2 & A3 & A4 & _). cbn [w' w_auth t' tx_with_auth tx_auth auth_wire wf_auth spend_wire wf_spend with_sig std_mode std_signer std_nonce std_fee std_sig].
      repeat (split; [assumption|]). now apply sig_bytes_length. }
    assert (F : fits_tx w).
    { split; [|apply (wf_fits_body w W)]. destruct M as (_ & _ & M3 & _). rewrite M3, Ha. exact I. }
    assert (F' : fits_tx w') by (split; [exact I|apply (wf_fits_body w' W')]).
    exists w', (sha512_256 (ser_tx w)), (sha512_256 (ser_tx w')). split; [exact M'|].
    assert (A : tx_hash t = Ok (sha512_256 (ser_tx w))) by (apply txid_iff; exists w; auto).
    assert (B : tx_hash t' = Ok (sha512_256 (ser_tx w'))) by (apply txid_iff; exists w'; auto).
    split; [exact A|]. split; [exact B|].
    destruct (list_eq_dec Byte.byte_eq_dec (sha512_256 (ser_tx w)) (sha512_256 (ser_tx w'))) as [E|N]; [right|now left].
    rewrite <- E in B. destruct (txid_commits t t' w w' _ M M' W W' A B) as [[_ X]|C]; [contradiction|exact C].
Qed.
