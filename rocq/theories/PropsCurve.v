(** Property theorems C77, C78, C79: secp256k1 and BIP-32 themselves in place of an assumed signature scheme. *)

From Coq Require Import Strings.String ZArith Znumtheory List.
From Verif Require Import Base Sha2 SpecText SpecAddr Hash C32 Clarity SpecWire Tx SpecTx Signer Builder SpecSign SignFacts SignThms PlanThms
     AuthThms SpecBind BindThms Wallet Derive Rpc SpecClient ClientThms PropsClarity PropsTx PropsSign PropsBind PropsClient SpecNode NodeThms
     SpecFlow FlowThms PropsNode PropsFlow Secp Hd EcNum EcPrime EcField EcGroup EcMul EcOrder EcEcdsa EcSign EcCount SpecCurve EcRecover CurveThms.
Import ListNotations.
Local Open Scope Z_scope.

(** ** C77 *)
(** The points of y^2 = x^3 + 7 with chord-and-tangent addition are a commutative group; it has prime order, and every
    point is a multiple of the base point, by exactly one number below the order. *)
Theorem C77_group :
  prime fp /\ prime curve_order /\ on_curve base_point
  /\ (forall P Q, on_curve P -> on_curve Q -> on_curve (add P Q) /\ on_curve (neg P) /\ add P Q = add Q P /\ add P Inf = P /\ add P (neg P) = Inf)
  /\ (forall P Q R, on_curve P -> on_curve Q -> on_curve R -> add (add P Q) R = add P (add Q R))
  /\ (forall P k, on_curve P -> zmul 0 P = Inf /\ zmul (k + 1) P = add (zmul k P) P)
  /\ (forall P, on_curve P -> exists k, 0 <= k < curve_order /\ P = zmul k base_point
        /\ forall j, 0 <= j < curve_order -> P = zmul j base_point -> j = k).
Proof.
  rewrite order_gn, base_gpt. split; [exact fp_prime|]. split; [exact gn_prime|]. split; [exact gpt_on_curve|].
  split; [intros P Q HP HQ; repeat split; auto using add_on_curve, neg_on_curve, add_comm, add_inf_r, add_neg|].
  split; [exact add_assoc|]. split; [intros P k HP; split; [reflexivity|exact (zmul_succ P HP k)]|].
  intros P HP. destruct gn_bounds as (B & _). assert (G : 0 < gn) by (apply Z.lt_trans with (2 ^ 255); [reflexivity|exact B]).
  assert (G0 : gn <> 0) by (intros E; rewrite E in G; discriminate).
  destruct (all_gen P HP) as [k ->]. exists (k mod gn). split; [apply Z.mod_pos_bound; exact G|]. split.
  - apply mulg_cong, cong_sym, cong_mod. exact G0.
  - intros j Hj E. apply mulg_inj in E. apply cong_iff in E; [|exact G]. rewrite E. symmetry. apply Z.mod_small. exact Hj.
Qed.
Print Assumptions C77_group.

(** The public key is the secret number times the base point. *)
Theorem C77_public_key : forall sk, valid_key sk -> point_bytes (zmul (scalar_z sk) base_point) (pubkey_of secp sk).
Proof.
  intros sk H. rewrite scalar_zval, base_gpt. apply valid_key_range in H. destruct (mulg_point _ H) as (x & y & E & _).
  rewrite E. cbn [pubkey_of secp]. rewrite (pubkey_eq sk x y E) by apply H. apply point_bytes_compress.
Qed.
Print Assumptions C77_public_key.

(** Every signature made is a valid one of the digest under that key, with the smaller of the two possible second halves. *)
Theorem C77_sign : forall d sk, valid_key sk ->
  let g := sign_rec secp d sk in
  compact_form g /\ ecdsa_valid (zmul (scalar_z sk) base_point) (scalar_z d) (sig_r g) (sig_s g) /\ 2 * sig_s g <= curve_order
  /\ recover secp d g = Some (pubkey_of secp sk).
Proof.
  intros d sk H g. split; [apply (secp_sign_good d sk H)|]. split; [exact (sign_valid d sk H)|]. split; [exact (sign_low d sk)|].
  unfold g. cbn [recover sign_rec pubkey_of secp]. destruct (secp_sign_good d sk H) as (_ & _ & E). rewrite E.
  apply valid_key_range in H. destruct (mulg_point _ H) as (x & y & P & _). rewrite P, (pubkey_eq sk x y P) by apply H. reflexivity.
Qed.
Print Assumptions C77_sign.

(** Recovery gives exactly the key under which the signature is valid for the digest and ends in the point that the first
    half and the recovery id name. *)
Theorem C77_recover : forall d g pk, compact_form g -> (recover secp d g = Some pk <-> key_recovered d g pk).
Proof. exact recover_exact. Qed.
Print Assumptions C77_recover.

Theorem C77_assumptions : ecdsa_correct secp /\ binds_digest secp /\ hd_correct secp bip_hd.
Proof. exact (conj secp_correct (conj secp_binds bip_correct)). Qed.
Print Assumptions C77_assumptions.

Definition key_one : bytes := repeat x00 31 ++ [x01].
Lemma key_one_valid : valid_key key_one.
Proof. split; [reflexivity|]. split; reflexivity. Qed.
Example C77_ex : valid_key key_one
  /\ pubkey_of secp key_one = x02 :: big_endian 32 0x79BE667EF9DCBBAC55A06295CE870B07029BFCDB2DCE28D959F2815B16F81798
  /\ exists g, compact_form g /\ recover secp (repeat x07 32) g = Some (pubkey_of secp key_one).
Proof.
  split; [exact key_one_valid|]. split; [vm_compute; reflexivity|]. exists (sign_rec secp (repeat x07 32) key_one).
  destruct (C77_sign (repeat x07 32) key_one key_one_valid) as (A & _ & _ & B). exact (conj A B).
Qed.

(** ** C78 *)
(** The theorems about keys, signatures and whole errands, with nothing assumed about cryptography. *)
Theorem C78_account : forall (a : account bip_hd),
  exists sk, account_private_key a = Ok sk /\ valid_key sk /\ account_public_key a = Ok (pubkey_of secp sk)
    /\ pubkey_of secp sk = xpub_bytes bip_hd (acc_ext a).
Proof. intros a. exact (C60_account_keys bip_hd secp a bip_correct). Qed.
Print Assumptions C78_account.

Theorem C78_transfer : forall (a : account bip_hd) sk b wcs to m,
  account_private_key a = Ok sk -> st_sender b = sk -> st_sponsored b = false ->
  conds_wire (st_conds b) wcs -> means (st_recipient b) to -> solid to -> memo_field (st_memo b) m ->
  (st_amount b < 2 ^ 64)%N -> (st_fee b < 2 ^ 64)%N -> (st_nonce b < 2 ^ 64)%N ->
  exists t s s' sig, @build_transfer unit secp b = Ok t /\ signer_new t = Ok s /\ succeeds secp s [SignOrigin sk] s'
    /\ let w := signed_wire (st_network b) (hash20 (xpub_bytes bip_hd (acc_ext a))) (st_fee b) (st_nonce b) (st_anchor b) (st_pcmode b) wcs
                  (WpTransfer to (st_amount b) m) sig in
       node_accepts secp (st_network b) (ser_tx w)
       /\ (forall http url, broadcast_result (http (post_bytes (url ++ str "/v2/transactions"%string) (ser_tx w)))
                                             (broadcast http url (sg_tx s')))
       /\ (forall http url, estimate_result (http (post_json (url ++ str "/v2/fees/transaction"%string) (fee_question w)))
                                            (estimate_fee http url t))
       /\ tx_hash (sg_tx s') = Ok (sha512_256 (ser_tx w))
       /\ forall v, exists x, get_address a v = Ok x /\ address_text (hash20 (xpub_bytes bip_hd (acc_ext a))) (address_code v) x.
Proof. intros a sk b wcs to m. exact (C66_transfer bip_hd secp a sk b wcs to m bip_correct secp_correct). Qed.
Print Assumptions C78_transfer.

Theorem C78_call : forall (a : account bip_hd) sk b wcs h v args,
  account_private_key a = Ok sk -> cc_sender b = sk -> cc_sponsored b = false ->
  conds_wire (cc_conds b) wcs -> address_spelling h v (cc_address b) -> length h = 20%nat ->
  (count (cc_contract b) <= 128)%N -> (count (cc_fname b) <= 128)%N -> (count args < 2 ^ 32)%N ->
  Forall2 means (cc_args b) args -> Forall solid args -> (cc_fee b < 2 ^ 64)%N -> (cc_nonce b < 2 ^ 64)%N ->
  exists t s s' sig, build_call secp b = Ok t /\ signer_new t = Ok s /\ succeeds secp s [SignOrigin sk] s'
    /\ let w := signed_wire (cc_network b) (hash20 (xpub_bytes bip_hd (acc_ext a))) (cc_fee b) (cc_nonce b) (cc_anchor b) (cc_pcmode b) wcs
                  (WpCall v h (cc_contract b) (cc_fname b) args) sig in
       node_accepts secp (cc_network b) (ser_tx w)
       /\ (forall http url, broadcast_result (http (post_bytes (url ++ str "/v2/transactions"%string) (ser_tx w)))
                                             (broadcast http url (sg_tx s')))
       /\ (forall http url, estimate_result (http (post_json (url ++ str "/v2/fees/transaction"%string) (fee_question w)))
                                            (estimate_fee http url t))
       /\ tx_hash (sg_tx s') = Ok (sha512_256 (ser_tx w))
       /\ forall v, exists x, get_address a v = Ok x /\ address_text (hash20 (xpub_bytes bip_hd (acc_ext a))) (address_code v) x.
Proof. intros a sk b wcs h v args. exact (C66_call bip_hd secp a sk b wcs h v args bip_correct secp_correct). Qed.
Print Assumptions C78_call.

Theorem C78_multi : forall t l ks fee nonce m mode c h, Forall step_valid l -> map (step_key secp) l = ks ->
  @multi_new unit ks fee nonce m mode = Ok c -> count (filter is_sign l) = Byte.to_N m ->
  origin_of t = SMulti c -> initial_hash t = Ok h ->
  exists s s', signer_new t = Ok s /\ succeeds secp s (map step_op l) s'
    /\ same_but_signatures t (sg_tx s') /\ tx_verify_origin secp (sg_tx s') = Ok (sg_hash s').
Proof. intros t l ks fee nonce m mode c h. exact (C38_multi_verifies secp t l ks fee nonce m mode c h secp_correct). Qed.
Print Assumptions C78_multi.

(** A single signature that verifies is one made for this very message by the key of the address: valid ECDSA under a key
    that hashes to the signer. *)
Theorem C78_verified : forall t h s h', initial_hash t = Ok h -> origin_of t = SStd s -> length (std_sig s) = 65%nat ->
  tx_verify_origin secp t = Ok h' ->
  exists g Q pk, std_sig s = sig_bytes g /\ compact_form g /\ on_curve Q /\ point_bytes Q pk /\ key_address (std_mode s) pk = Some (std_signer s)
    /\ ecdsa_valid Q (scalar_z (digest h x04 (std_fee s) (std_nonce s))) (sig_r g) (sig_s g).
Proof.
  intros t h s h' Hh O L V. apply (C37_verify_exact secp t h s h' Hh O L) in V. destruct V as (pk & (g & Gf & Ge & Gr) & K & _).
  apply recover_exact in Gr; [|exact Gf]. destruct Gr as (Q & x & y & HQ & HP & V & Ex & _).
  exists g, Q, pk. repeat (split; [assumption|]). exists x, y. split; [exact V|]. rewrite Ex. destruct V as ((A & B) & _).
  rewrite order_gn in *. destruct gn_bounds as (G & _).
  assert (G0 : gn <> 0) by (intros E; rewrite E in G; discriminate).
  destruct (N.testbit (rs_id g) 1).
  - rewrite <- (Z.mul_1_l gn) at 1. rewrite Z.mod_add by exact G0. apply Z.mod_small. split; [apply Z.lt_le_incl; exact A|exact B].
  - rewrite Z.add_0_r. apply Z.mod_small. split; [apply Z.lt_le_incl; exact A|exact B].
Qed.
Print Assumptions C78_verified.

Theorem C78_tampering_detected : forall t u w v h k g g', typed (origin_of t) ->
  tx_means t w -> tx_means u v -> wf_tx w -> wf_tx v -> initial_hash t = Ok h -> initial_hash u = Ok k ->
  same_signatures (origin_of t) (origin_of u) -> has_signature (origin_of t) ->
  tx_verify_origin secp t = Ok g -> tx_verify_origin secp u = Ok g' ->
  (same_body t u /\ same_kind (tx_auth t) (tx_auth u) /\ origin_of t = origin_of u)
  \/ collision (ser_tx (clear_tx w)) (ser_tx (clear_tx v))
  \/ collision (first_message h x04 (origin_of t)) (first_message k x04 (origin_of u))
  \/ digest_clash (first_digest h x04 (origin_of t)) (first_digest k x04 (origin_of u))
  \/ key_swap secp x04 h (origin_of t) k (origin_of u).
Proof. intros t u w v h k g g'. exact (C62_tampering_detected secp t u w v h k g g' secp_correct secp_binds). Qed.
Print Assumptions C78_tampering_detected.

Definition ex_xkey : xkey := {| xk_secret := 1; xk_chain := repeat x00 32; xk_ok := eq_refl |}.
Definition ex_bip_account : account bip_hd := {| acc_ext := (ex_xkey : xprv bip_hd); acc_index := 0%N |}.
Definition ex_curve_tx : tx :=
  unsigned NetMocknet (pubkey_of secp key_one) 180%N 7%N AnAny PcDeny ex_conds (PTransfer (CPrinStd sample_addr) 1000%N (str "hi"%string)).
Lemma ex_curve_hash : exists h, initial_hash ex_curve_tx = Ok h.
Proof. eexists. vm_compute. reflexivity. Qed.
Example C78_ex : (exists sk, account_private_key ex_bip_account = Ok sk) /\ xprv_bytes bip_hd (acc_ext ex_bip_account) = key_one
  /\ exists t' g, tx_sign secp ex_curve_tx key_one = Ok t' /\ same_but_signatures ex_curve_tx t' /\ tx_verify_origin secp t' = Ok g.
Proof.
  split; [destruct (C78_account ex_bip_account) as (sk & K & _); exists sk; exact K|].
  split; [vm_compute; reflexivity|]. destruct ex_curve_hash as [h H].
  exact (C36_built secp NetMocknet key_one 180 7 AnAny PcDeny ex_conds _ h secp_correct key_one_valid H).
Qed.

(** ** C79 *)
(** Finding: signatures come in pairs.  Whoever sees a signature can make the other one, and it is accepted in its place. *)
Theorem C79_twin : forall d g pk, compact_form g -> recover secp d g = Some pk ->
  compact_form (twin g) /\ recover secp d (twin g) = Some pk /\ sig_s (twin g) = curve_order - sig_s g /\ twin g <> g.
Proof. exact twin_recovers. Qed.
Print Assumptions C79_twin.

(** So the transaction id of a signed transaction can be changed by anyone, without changing anything that was signed. *)
Theorem C79_txid_refuted : forall t s g h g1, tx_auth t = AStandard (SStd s) -> std_sig s = sig_bytes g -> compact_form g ->
  initial_hash t = Ok h -> tx_verify_origin secp t = Ok g1 ->
  let t' := tx_with_auth t (AStandard (SStd (with_sig s (sig_bytes (twin g))))) in
  same_but_signatures t t' /\ t' <> t /\ (exists g2, tx_verify_origin secp t' = Ok g2)
  /\ forall w, tx_means t w -> wf_tx w ->
       exists w' a b, tx_means t' w' /\ tx_hash t = Ok a /\ tx_hash t' = Ok b /\ (a <> b \/ collision (ser_tx w) (ser_tx w')).
Proof. exact twin_transaction. Qed.
Print Assumptions C79_txid_refuted.

(** The library itself never makes the other one, so a reader can refuse it by its size. *)
Theorem C79_low_half : forall d e sk sk', valid_key sk -> valid_key sk' -> twin (sign_rec secp d sk) <> sign_rec secp e sk'.
Proof.
  intros d e sk sk' H H' E.
  destruct (C77_sign d sk H) as (F & _ & L & R). destruct (C77_sign e sk' H') as (_ & _ & L' & _).
  destruct (twin_recovers d _ _ F R) as (_ & _ & T & _). cbv zeta in *. rewrite <- E, T in L'.
  remember (sig_s (sign_rec secp d sk)) as x. rewrite order_gn in *.
  assert (O : exists h, gn = 2 * h + 1) by (exists (gn / 2); vm_compute; reflexivity). destruct O as [h O]. rewrite O in *.
  clear - L L'. Lia.lia.
Qed.
Print Assumptions C79_low_half.

Example C79_ex : exists t s g h g1, tx_auth t = AStandard (SStd s) /\ std_sig s = sig_bytes g /\ compact_form g
  /\ initial_hash t = Ok h /\ tx_verify_origin secp t = Ok g1.
Proof.
  destruct ex_curve_hash as [h H].
  set (s := {| std_mode := P2PKH; std_fee := 180; std_nonce := 7; std_signer := hash20 (pubkey_of secp key_one); std_sig := repeat x00 65 |}).
  destruct (C36_sign_verifies secp ex_curve_tx s h key_one secp_correct key_one_valid eq_refl eq_refl eq_refl H)
    as (t' & _ & O & _ & (_ & _ & _ & _ & _ & _ & A) & H' & V).
  cbv zeta in O, V. set (d := digest h x04 (std_fee s) (std_nonce s)) in *. clearbody d.
  pose proof (proj1 (C77_sign d key_one key_one_valid)) as F. cbv zeta in F. revert O V F. generalize (sign_rec secp d key_one). intros g O V F.
  exists t', (with_sig s (sig_bytes g)), g, h, (link d (sig_bytes g)).
  split; [|exact (conj eq_refl (conj F (conj H' V)))].
  cbn [ex_curve_tx unsigned tx_auth] in A. destruct t' as [a b au c e f i]. cbn [tx_auth] in *. destruct au as [o|o p]; [|contradiction].
  unfold origin_of in O. cbn [tx_auth auth_origin] in O. apply (f_equal AStandard) in O. exact O.
Qed.
