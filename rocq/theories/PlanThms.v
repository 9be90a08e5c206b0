(** Theorems about carrying out a signing plan, and about full authorization. *)

From Coq Require Import Lia ZifyBool ZifyNat ZifyN.
From Verif Require Import Base BaseFacts Hex SpecText NumFacts Sha2 Ripemd Hash HashFacts C32 Clarity SpecWire Tx SpecTx Signer
  WireFacts ClarityFacts TxThms SpecSign SignFacts SignThms HistThms.
Local Open Scope N_scope.

(** ** Signing one condition *)

Definition sign_text (E : ecdsa) (h : bytes) (typ : byte) (fee nonce : N) (sk : bytes) : bytes :=
  sig_bytes (sign_rec E (digest h typ fee nonce) sk).

Lemma sign_append_std E s h typ sk : ecdsa_correct E -> valid_key sk -> mode_fits (SStd s) ->
  let d := digest h typ (std_fee s) (std_nonce s) in
  let sig := sig_bytes (sign_rec E d sk) in
  sign_and_append E (SStd s) h typ sk = (SStd (with_sig s sig), Ok (link d sig)).
Proof.
  intros C V M d sig. unfold sign_and_append. cbn [sc_fee sc_nonce sc_mode]. rewrite next_signature_ok by assumption. cbn [map_err].
  cbn [mode_fits] in M. destruct M as [-> | ->]; reflexivity.
Qed.
Lemma sign_append_multi E m h typ sk : ecdsa_correct E -> valid_key sk -> mode_fits (SMulti m) ->
  let d := digest h typ (ms_fee m) (ms_nonce m) in
  let sig := sig_bytes (sign_rec E d sk) in
  sign_and_append E (SMulti m) h typ sk = (SMulti (with_fields m (ms_fields m ++ [FSig sig])), Ok (link d sig)).
Proof.
  intros C V M d sig. unfold sign_and_append. cbn [sc_fee sc_nonce sc_mode]. rewrite next_signature_ok by assumption. cbn [map_err].
  cbn [mode_fits] in M. destruct M as [-> | ->]; reflexivity.
Qed.

Lemma address_fits_key mode pk a : key_address mode pk = Some a -> mode = P2PKH \/ mode = P2WPKH.
Proof. destruct mode; cbn; auto; discriminate. Qed.
Lemma address_fits_keys mode m ks a : keys_address mode m ks = Some a -> mode = P2SH \/ mode = P2WSH.
Proof. destruct mode; cbn; auto; discriminate. Qed.

Lemma plan_fits E c l : plan E c l -> mode_fits c.
Proof. intros P. inversion P; cbn [mode_fits]; [eapply address_fits_key | eapply address_fits_keys]; eauto. Qed.

(** ** Carrying out steps on the origin *)

Lemma sign_origin_ok E s sk o' h' : sg_overlap s && sg_origin_signed s = false ->
  held (origin_of (sg_tx s)) < threshold (origin_of (sg_tx s)) ->
  sign_and_append E (origin_of (sg_tx s)) (sg_hash s) x04 sk = (o', Ok h') ->
  sign_origin E s sk = (with_tx s (tx_with_auth (sg_tx s) (auth_with_origin (tx_auth (sg_tx s)) o')) h' (sg_origin_signed s), Ok tt).
Proof.
  intros F B S. rewrite origin_eq in *. unfold sign_origin. rewrite F.
  assert ((if sg_oversign s
           then let* n := @signatures tx_err (auth_origin (tx_auth (sg_tx s))) in Ok (req_signatures (auth_origin (tx_auth (sg_tx s))) <=? n)
           else Ok false) = Ok false) as ->.
  { destruct (sg_oversign s); [|reflexivity].
    rewrite signatures_ok by (pose proof (threshold_small (auth_origin (tx_auth (sg_tx s)))); lia). cbn [bind].
    rewrite req_threshold. f_equal. lia. }
  unfold sign_next_origin. change auth_type_standard with x04. rewrite S. reflexivity.
Qed.

Lemma sign_sponsor_ok E s sk o p p' h' : tx_auth (sg_tx s) = ASponsored o p -> held p < threshold p ->
  sign_and_append E p (sg_hash s) x05 sk = (p', Ok h') ->
  sign_sponsor E s sk = (with_tx s (tx_with_auth (sg_tx s) (ASponsored o p')) h' true, Ok tt).
Proof.
  intros A B S. unfold sign_sponsor. rewrite A. cbn [auth_sponsor bind].
  assert ((if sg_oversign s then let* n := @signatures tx_err p in Ok (req_signatures p <=? n) else Ok false) = Ok false) as ->.
  { destruct (sg_oversign s); [|reflexivity]. rewrite signatures_ok by (pose proof (threshold_small p); lia). cbn [bind].
    rewrite req_threshold. f_equal. lia. }
  unfold sign_next_sponsor. rewrite A. change auth_type_sponsored with x05. rewrite S. reflexivity.
Qed.

Lemma append_origin_ok s pk m : sg_overlap s && sg_origin_signed s = false -> origin_of (sg_tx s) = SMulti m -> mode_fits (SMulti m) ->
  append_origin s pk = (with_tx s (tx_with_auth (sg_tx s) (auth_with_origin (tx_auth (sg_tx s))
                                     (SMulti (with_fields m (ms_fields m ++ [FPk pk]))))) (sg_hash s) (sg_origin_signed s), Ok tt).
Proof.
  intros F O M. rewrite origin_eq in O. unfold append_origin, append_next_origin. rewrite F, O. cbn [sc_mode]. cbn [mode_fits] in M.
  destruct M as [-> | ->]; reflexivity.
Qed.

Lemma with_auth_twice t a b : tx_with_auth (tx_with_auth t a) b = tx_with_auth t b.
Proof. reflexivity. Qed.
Lemma with_origin_twice a o p : auth_with_origin (auth_with_origin a o) p = auth_with_origin a p.
Proof. destruct a; reflexivity. Qed.

Lemma run_multi E l : ecdsa_correct E -> Forall step_valid l -> forall s m,
  sg_overlap s && sg_origin_signed s = false -> origin_of (sg_tx s) = SMulti m -> mode_fits (SMulti m) ->
  count (filter is_sig (ms_fields m)) + count (filter is_sign l) <= Byte.to_N (ms_required m) ->
  exists fs h', chain E x04 (ms_fee m) (ms_nonce m) (sg_hash s) fs (map (step_key E) l) (count (filter is_sign l)) h'
    /\ Forall typed_field fs
    /\ succeeds E s (map step_op l)
         (with_tx s (tx_with_auth (sg_tx s) (auth_with_origin (tx_auth (sg_tx s)) (SMulti (with_fields m (ms_fields m ++ fs)))))
                  h' (sg_origin_signed s)).
Proof.
  intros C V. induction V as [|st l Vst V IH]; intros s m F O M B.
  - exists [], (sg_hash s). split; [constructor|]. split; [constructor|]. cbn [map]. rewrite app_nil_r.
    assert (with_fields m (ms_fields m) = m) as -> by (destruct m; reflexivity).
    rewrite <- O, origin_eq, with_origin_id, with_auth_id, with_tx_id. constructor.
  - destruct st as [sk|pk]; cbn [step_valid is_sign filter map step_op step_key] in *.
    + set (d := digest (sg_hash s) x04 (ms_fee m) (ms_nonce m)). set (sig := sig_bytes (sign_rec E d sk)).
      assert (S : sign_origin E s sk =
        (with_tx s (tx_with_auth (sg_tx s) (auth_with_origin (tx_auth (sg_tx s)) (SMulti (with_fields m (ms_fields m ++ [FSig sig])))))
                 (link d sig) (sg_origin_signed s), Ok tt)).
      { apply sign_origin_ok; [exact F| |].
        - rewrite O. cbn [held threshold]. unfold count in *. cbn [length] in B. lia.
        - rewrite O. apply (sign_append_multi E m (sg_hash s) x04 sk C Vst M). }
      edestruct (IH (with_tx s (tx_with_auth (sg_tx s) (auth_with_origin (tx_auth (sg_tx s)) (SMulti (with_fields m (ms_fields m ++ [FSig sig])))))
                 (link d sig) (sg_origin_signed s)) (with_fields m (ms_fields m ++ [FSig sig]))) as (fs & h' & Ch & Ty & Su).
      * exact F.
      * cbn [with_tx sg_tx]. apply with_origin_of.
      * exact M.
      * cbn [with_fields ms_fields ms_required]. rewrite filter_app. cbn [filter is_sig]. unfold count in *. rewrite app_length.
        cbn [length] in *. lia.
      * exists (FSig sig :: fs), h'. cbn [with_tx with_fields sg_hash sg_tx sg_origin_signed ms_fields ms_fee ms_nonce] in *. splits.
        -- replace (count (Sign sk :: filter is_sign l)) with (1 + count (filter is_sign l)) by (unfold count; cbn [length]; lia).
           econstructor; [|exact Ch]. apply signed_recovers; auto. apply digest_length.
        -- constructor; [|exact Ty]. apply sig_bytes_length. apply C; auto. apply digest_length.
        -- eapply succeeds_cons; [exact S|]. cbn [tx_with_auth tx_auth] in Su.
           rewrite with_origin_twice, <- app_assoc in Su. cbn [app] in Su. exact Su.
    + assert (S := append_origin_ok s pk m F O M).
      edestruct (IH (with_tx s (tx_with_auth (sg_tx s) (auth_with_origin (tx_auth (sg_tx s)) (SMulti (with_fields m (ms_fields m ++ [FPk pk])))))
                 (sg_hash s) (sg_origin_signed s)) (with_fields m (ms_fields m ++ [FPk pk]))) as (fs & h' & Ch & Ty & Su).
      * exact F.
      * cbn [with_tx sg_tx]. apply with_origin_of.
      * exact M.
      * cbn [with_fields ms_fields ms_required]. rewrite filter_app. cbn [filter is_sig]. rewrite app_nil_r. exact B.
      * exists (FPk pk :: fs), h'. cbn [with_tx with_fields sg_hash sg_tx sg_origin_signed ms_fields ms_fee ms_nonce] in *. splits.
        -- constructor. exact Ch.
        -- constructor; assumption.
        -- eapply succeeds_cons; [exact S|]. cbn [tx_with_auth tx_auth] in Su.
           rewrite with_origin_twice, <- app_assoc in Su. cbn [app] in Su. exact Su.
Qed.

(** The plan succeeds: the origin ends up satisfied for the hash the signer started from. *)
Lemma run_origin E l s : ecdsa_correct E -> plan E (origin_of (sg_tx s)) l -> sg_overlap s && sg_origin_signed s = false ->
  exists o' h', satisfied E x04 (sg_hash s) o' h'
    /\ same_terms (origin_of (sg_tx s)) o' /\ typed o'
    /\ succeeds E s (map step_op l)
         (with_tx s (tx_with_auth (sg_tx s) (auth_with_origin (tx_auth (sg_tx s)) o')) h' (sg_origin_signed s)).
Proof.
  intros C P F. assert (M := plan_fits _ _ _ P). destruct (origin_of (sg_tx s)) as [sc|m] eqn:O; inversion P; subst.
  - set (d := digest (sg_hash s) x04 (std_fee sc) (std_nonce sc)). set (sig := sig_bytes (sign_rec E d sk)).
    assert (compact_form (sign_rec E d sk)) as CF by (apply C; auto; apply digest_length).
    exists (SStd (with_sig sc sig)), (link d sig). splits.
    + apply (sat_single E x04 (sg_hash s) (with_sig sc sig) (pubkey_of E sk)); [|assumption].
      apply signed_recovers; auto. apply digest_length.
    + exact (conj (conj eq_refl eq_refl) (conj eq_refl eq_refl)).
    + apply sig_bytes_length. exact CF.
    + cbn [map step_op]. eapply succeeds_cons; [|constructor]. cbn [perform]. apply sign_origin_ok; [exact F| |].
      * rewrite O. cbn [held threshold]. match goal with H : std_sig sc = _ |- _ => rewrite H end. rewrite bytes_eqb_refl. lia.
      * rewrite O. apply (sign_append_std E sc (sg_hash s) x04 sk); auto.
  - match goal with H : ms_fields m = [] |- _ => rename H into E0 end.
    destruct (run_multi E l C) with (s := s) (m := m) as (fs & h' & Ch & Ty & Su); auto.
    { rewrite E0. cbn. lia. }
    exists (SMulti (with_fields m (ms_fields m ++ fs))), h'. rewrite E0 in *. cbn [app] in *. splits; auto.
    + apply (sat_multi E x04 (sg_hash s) (with_fields m fs) (map (step_key E) l) (count (filter is_sign l)));
        cbn [with_fields ms_fee ms_nonce ms_fields ms_required ms_mode ms_signer]; auto; try lia.
      pose proof (b2n_lt (ms_required m)). change b2n with Byte.to_N in *. lia.
    + exact (conj (conj eq_refl (conj eq_refl eq_refl)) (conj eq_refl eq_refl)).
Qed.

(** ** Carrying out signatures on the sponsor *)

Lemma run_sponsor_multi E sks : ecdsa_correct E -> Forall valid_key sks -> forall s o m,
  tx_auth (sg_tx s) = ASponsored o (SMulti m) -> mode_fits (SMulti m) ->
  count (filter is_sig (ms_fields m)) + count sks <= Byte.to_N (ms_required m) ->
  exists fs h', chain E x05 (ms_fee m) (ms_nonce m) (sg_hash s) fs (map (pubkey_of E) sks) (count sks) h'
    /\ Forall typed_field fs
    /\ succeeds E s (map SignSponsor sks)
         (with_tx s (tx_with_auth (sg_tx s) (ASponsored o (SMulti (with_fields m (ms_fields m ++ fs)))))
                  h' (match sks with [] => sg_origin_signed s | _ => true end)).
Proof.
  intros C V. induction V as [|sk l Vsk V IH]; intros s o m A M B.
  - exists [], (sg_hash s). split; [constructor|]. split; [constructor|]. cbn [map]. rewrite app_nil_r.
    assert (with_fields m (ms_fields m) = m) as -> by (destruct m; reflexivity).
    rewrite <- A, with_auth_id, with_tx_id. constructor.
  - set (d := digest (sg_hash s) x05 (ms_fee m) (ms_nonce m)). set (sig := sig_bytes (sign_rec E d sk)).
    set (s1 := with_tx s (tx_with_auth (sg_tx s) (ASponsored o (SMulti (with_fields m (ms_fields m ++ [FSig sig]))))) (link d sig) true).
    assert (S : sign_sponsor E s sk = (s1, Ok tt)).
    { eapply sign_sponsor_ok; [exact A| |].
      - cbn [held threshold]. unfold count in *. cbn [length] in B. lia.
      - apply (sign_append_multi E m (sg_hash s) x05 sk C Vsk M). }
    destruct (IH s1 o (with_fields m (ms_fields m ++ [FSig sig]))) as (fs & h' & Ch & Ty & Su).
    + reflexivity.
    + exact M.
    + cbn [with_fields ms_fields ms_required]. rewrite filter_app. cbn [filter is_sig]. unfold count in *. rewrite app_length.
      cbn [length] in *. lia.
    + exists (FSig sig :: fs), h'. subst s1. cbn [with_tx with_fields sg_hash sg_tx sg_origin_signed ms_fields ms_fee ms_nonce] in *. splits.
      * cbn [map]. replace (count (sk :: l)) with (1 + count l) by (unfold count; cbn [length]; lia).
        econstructor; [|exact Ch]. apply signed_recovers; auto. apply digest_length.
      * constructor; [|exact Ty]. apply sig_bytes_length. apply C; auto. apply digest_length.
      * cbn [map]. eapply succeeds_cons; [exact S|]. rewrite <- app_assoc in Su. cbn [app] in Su. destruct l; exact Su.
Qed.

Lemma run_sponsor E sks s o p : ecdsa_correct E -> plan E p (map Sign sks) -> tx_auth (sg_tx s) = ASponsored o p ->
  exists p' h' b, satisfied E x05 (sg_hash s) p' h' /\ same_terms p p' /\ typed p'
    /\ succeeds E s (map SignSponsor sks) (with_tx s (tx_with_auth (sg_tx s) (ASponsored o p')) h' b).
Proof.
  intros C P A. assert (M := plan_fits _ _ _ P). inversion P as [sc sk V Z K Ep El|m l V Z K Fi Cn Ep El]; subst.
  - destruct sks as [|sk' [|]]; try discriminate. inversion El; subst sk'. clear El.
    set (d := digest (sg_hash s) x05 (std_fee sc) (std_nonce sc)). set (sig := sig_bytes (sign_rec E d sk)).
    assert (compact_form (sign_rec E d sk)) as CF by (apply C; auto; apply digest_length).
    exists (SStd (with_sig sc sig)), (link d sig), true. splits.
    + apply (sat_single E x05 (sg_hash s) (with_sig sc sig) (pubkey_of E sk)); [|assumption].
      apply signed_recovers; auto. apply digest_length.
    + exact (conj (conj eq_refl eq_refl) (conj eq_refl eq_refl)).
    + apply sig_bytes_length. exact CF.
    + cbn [map]. eapply succeeds_cons; [|constructor]. cbn [perform]. eapply sign_sponsor_ok; [exact A| |].
      * cbn [held threshold]. rewrite Z, bytes_eqb_refl. lia.
      * apply (sign_append_std E sc (sg_hash s) x05 sk); auto.
  - assert (filter is_sign (map Sign sks) = map Sign sks) as Fs by (clear; induction sks; cbn; congruence).
    rewrite Fs in Cn. unfold count in Cn. rewrite map_length in Cn.
    assert (map (step_key E) (map Sign sks) = map (pubkey_of E) sks) as Km by (rewrite map_map; reflexivity). rewrite Km in *.
    destruct (run_sponsor_multi E sks C) with (s := s) (o := o) (m := m) as (fs & h' & Ch & Ty & Su); auto.
    { clear -V. induction sks; inversion V; constructor; auto. }
    { rewrite Z. unfold count. cbn [filter length]. lia. }
    exists (SMulti (with_fields m fs)), h'. eexists. rewrite Z in *. cbn [app] in *. splits; [| | |exact Su].
    + apply (sat_multi E x05 (sg_hash s) (with_fields m fs) (map (pubkey_of E) sks) (count sks));
        cbn [with_fields ms_fee ms_nonce ms_fields ms_required ms_mode ms_signer]; auto; try (unfold count; lia).
      pose proof (b2n_lt (ms_required m)). change b2n with Byte.to_N in *. unfold count. lia.
    + exact (conj (conj eq_refl (conj eq_refl eq_refl)) (conj eq_refl eq_refl)).
    + exact Ty.
Qed.

(** ** Whole transactions *)

Lemma terms_identity c d : same_terms c d -> same_identity c d.
Proof. intros T. apply T. Qed.

Lemma verify_origin_iff E t h h' : initial_hash t = Ok h -> typed (origin_of t) ->
  (tx_verify_origin E t = Ok h' <-> satisfied E x04 h (origin_of t) h').
Proof.
  intros H T. unfold tx_verify_origin, auth_verify_origin. rewrite H. cbn [bind]. rewrite origin_eq in *. apply verify_iff. exact T.
Qed.

Lemma signed_tx_hash t o : same_terms (origin_of t) o -> initial_hash (tx_with_auth t (auth_with_origin (tx_auth t) o)) = initial_hash t.
Proof. intros T. apply initial_hash_auth, origin_with. rewrite <- origin_eq. apply T. Qed.

Lemma origin_plan E t l h : ecdsa_correct E -> plan E (origin_of t) l -> initial_hash t = Ok h ->
  exists s s', signer_new t = Ok s /\ succeeds E s (map step_op l) s'
    /\ same_but_signatures t (sg_tx s') /\ tx_verify_origin E (sg_tx s') = Ok (sg_hash s').
Proof.
  intros C P H. set (s := {| sg_tx := t; sg_hash := h; sg_origin_signed := false; sg_oversign := true; sg_overlap := true |}).
  destruct (run_origin E l s C P eq_refl) as (o' & h' & Sa & T & Ty & Su).
  exists s. eexists. split; [apply signer_new_ok; eauto|]. split; [exact Su|]. split.
  - apply but_sig_origin. exact T.
  - cbn [with_tx sg_tx sg_hash]. apply (verify_origin_iff E _ h).
    + rewrite <- H. apply (signed_tx_hash t). exact T.
    + rewrite with_origin_of. exact Ty.
    + rewrite with_origin_of. exact Sa.
Qed.

Lemma succeeds_app E s l s1 l' s2 : succeeds E s l s1 -> succeeds E s1 l' s2 -> succeeds E s (l ++ l') s2.
Proof. intros A. induction A as [|s o s1 l s' P A IH]; intros B; [exact B|]. cbn [app]. eapply succeeds_cons; eauto. Qed.

Lemma succeeds_fun E s l s1 s2 : succeeds E s l s1 -> succeeds E s l s2 -> s1 = s2.
Proof.
  intros A. revert s2. induction A as [|s o s1 l s' P A IH]; intros s2 B; inversion B; subst; [reflexivity|]. apply IH. congruence.
Qed.

Lemma succeeds_all E s l s' : succeeds E s l s' -> perform_all E s l = s'.
Proof. induction 1 as [|s o s1 l s' P A IH]; [reflexivity|]. unfold perform_all in *. cbn [fold_left]. rewrite P. exact IH. Qed.

Lemma auth_verify_iff E a h : (forall o p, a = ASponsored o p -> typed o /\ typed p) ->
  (auth_verify E a h = Ok tt <->
   (exists o, a = AStandard o) \/ exists o p h1 h2, a = ASponsored o p /\ satisfied E x04 h o h1 /\ satisfied E x05 h1 p h2).
Proof.
  intros T. destruct a as [o|o p]; cbn [auth_verify].
  - split; [eauto | reflexivity].
  - destruct (T o p eq_refl) as [To Tp]. split.
    + rewrite bind_ok. intros (h1 & V & H). apply bind_ok in H. destruct H as (h2 & W & _). right. exists o, p, h1, h2.
      apply verify_iff in V, W; auto.
    + intros [[q Q]|(q & r & h1 & h2 & Q & V & W)]; [discriminate|]. inversion Q; subst.
      apply verify_iff in V, W; auto. change auth_type_standard with x04. rewrite V. cbn [bind]. change auth_type_sponsored with x05.
      rewrite W. reflexivity.
Qed.

(** Sponsored flow: one signer for both, or the sponsor attached to the origin-signed transaction later. *)
Lemma sponsored_flow E t o p q l sks h : ecdsa_correct E -> tx_auth t = ASponsored o q -> plan E o l -> plan E p (map Sign sks) ->
  initial_hash t = Ok h ->
  exists s s1 s2 s3, signer_new t = Ok s /\ succeeds E s (map step_op l) s1
    /\ signer_new_sponsor E (sg_tx s1) p = Ok s2 /\ succeeds E s2 (map SignSponsor sks) s3
    /\ same_but_signatures (tx_with_auth t (ASponsored o p)) (sg_tx s3)
    /\ auth_verify E (tx_auth (sg_tx s3)) h = Ok tt /\ initial_hash (sg_tx s3) = Ok h.
Proof.
  intros C A P Q H. set (s := {| sg_tx := t; sg_hash := h; sg_origin_signed := false; sg_oversign := true; sg_overlap := true |}).
  assert (origin_of t = o) as O by (unfold origin_of; rewrite A; reflexivity).
  destruct (run_origin E l s C) as (o' & h' & Sa & T & Ty & Su); [rewrite <- O in P; exact P | reflexivity|].
  cbn [s sg_tx sg_hash] in Sa, T. rewrite O in T.
  cbn [s with_tx sg_tx sg_hash sg_origin_signed] in Su. rewrite A in Su. cbn [auth_with_origin] in Su.
  set (t1 := tx_with_auth t (ASponsored o' q)) in *.
  set (t2 := tx_with_auth t (ASponsored o' p)).
  assert (forall x, initial_hash (tx_with_auth t (ASponsored o' x)) = Ok h) as Hx.
  { intros x. rewrite <- H. apply initial_hash_auth. rewrite A. apply T. }
  assert (tx_verify_origin E t2 = Ok h') as V.
  { apply (verify_origin_iff E t2 h); [apply Hx | exact Ty | exact Sa]. }
  set (s2 := {| sg_tx := t2; sg_hash := h'; sg_origin_signed := true; sg_oversign := true; sg_overlap := true |}).
  destruct (run_sponsor E sks s2 o' p C Q eq_refl) as (p' & h2 & b & Sp & Tp & Typ & Sup).
  exists s. eexists. exists s2. eexists. splits.
  - apply signer_new_ok. eauto.
  - exact Su.
  - unfold signer_new_sponsor. cbn [with_tx sg_tx t1 tx_with_auth tx_auth is_sponsored negb auth_set_sponsor bind].
    change (tx_with_auth t1 (ASponsored o' p)) with t2. rewrite V. cbn [bind]. unfold signer_new. rewrite (Hx p : initial_hash t2 = Ok h).
    reflexivity.
  - exact Sup.
  - eapply but_sig_trans; [|apply (but_sig_sponsor t2 o' p p' eq_refl Tp)].
    unfold same_but_signatures. cbn [t2 tx_with_auth tx_ver tx_chain tx_anchor tx_pcmode tx_conds tx_payload tx_auth]. splits; auto using terms_refl.
  - cbn [with_tx sg_tx tx_with_auth tx_auth]. apply auth_verify_iff.
    + intros a b' X. inversion X; subst. auto.
    + right. exists o', p', h', h2. auto.
  - cbn [with_tx sg_tx]. apply Hx.
Qed.

Lemma sponsored_flow_one E t o p l sks h : ecdsa_correct E -> tx_auth t = ASponsored o p -> plan E o l -> plan E p (map Sign sks) ->
  initial_hash t = Ok h ->
  exists s s', signer_new t = Ok s /\ succeeds E s (map step_op l ++ map SignSponsor sks) s'
    /\ same_but_signatures t (sg_tx s') /\ auth_verify E (tx_auth (sg_tx s')) h = Ok tt /\ initial_hash (sg_tx s') = Ok h.
Proof.
  intros C A P Q H. set (s := {| sg_tx := t; sg_hash := h; sg_origin_signed := false; sg_oversign := true; sg_overlap := true |}).
  assert (origin_of t = o) as O by (unfold origin_of; rewrite A; reflexivity).
  destruct (run_origin E l s C) as (o' & h' & Sa & T & Ty & Su); [rewrite <- O in P; exact P | reflexivity|].
  cbn [s sg_tx sg_hash] in Sa, T. rewrite O in T.
  cbn [s with_tx sg_tx sg_hash sg_origin_signed] in Su. rewrite A in Su. cbn [auth_with_origin] in Su.
  set (s1 := with_tx s (tx_with_auth t (ASponsored o' p)) h' false) in *.
  destruct (run_sponsor E sks s1 o' p C Q eq_refl) as (p' & h2 & b & Sp & Tp & Typ & Sup).
  exists s. eexists. splits.
  - apply signer_new_ok. eauto.
  - eapply succeeds_app; [exact Su | exact Sup].
  - eapply but_sig_trans; [|apply (but_sig_sponsor (sg_tx s1) o' p p' eq_refl Tp)].
    unfold same_but_signatures. cbn [s1 with_tx sg_tx tx_with_auth tx_ver tx_chain tx_anchor tx_pcmode tx_conds tx_payload tx_auth]. splits; auto.
    rewrite A. auto using terms_refl.
  - cbn [with_tx sg_tx tx_with_auth tx_auth]. apply auth_verify_iff.
    + intros a b' X. inversion X; subst. auto.
    + right. exists o', p', h', h2. auto.
  - change (initial_hash (tx_with_auth t (ASponsored o' p')) = Ok h). rewrite <- H. apply initial_hash_auth. rewrite A. apply T.
Qed.
