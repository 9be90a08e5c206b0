(** Theorems about signing with one key, soundness of verification, sponsors and builders. *)

From Coq Require Import Lia ZifyBool ZifyNat ZifyN.
From Verif Require Import Base BaseFacts Hex SpecText NumFacts Sha2 Ripemd Hash HashFacts C32 Clarity SpecWire Tx SpecTx Signer Builder
  WireFacts ClarityFacts SpecAddr AddrFacts HexFacts TextThms TxWire TxFacts PayloadFacts TxThms SpecSign SignFacts SignThms HistThms PlanThms.
Local Open Scope N_scope.

(** ** C36 *)

Lemma sign_exact E t s h sk : ecdsa_correct E -> valid_key sk -> origin_of t = SStd s -> mode_fits (SStd s) ->
  std_sig s = repeat x00 65 -> initial_hash t = Ok h ->
  tx_sign E t sk = Ok (tx_with_auth t (auth_with_origin (tx_auth t)
    (SStd (with_sig s (sig_bytes (sign_rec E (digest h x04 (std_fee s) (std_nonce s)) sk)))))).
Proof.
  intros C V O M Z H. unfold tx_sign, signer_new. rewrite H. cbn [bind].
  erewrite sign_origin_ok; [cbn [bind]; reflexivity | reflexivity | |]; cbn [sg_tx sg_hash]; rewrite O.
  - cbn [held threshold]. rewrite Z, bytes_eqb_refl. lia.
  - apply (sign_append_std E s h x04 sk C V M).
Qed.

Lemma sign_verifies E t s h sk : ecdsa_correct E -> valid_key sk -> origin_of t = SStd s -> std_sig s = repeat x00 65 ->
  key_address (std_mode s) (pubkey_of E sk) = Some (std_signer s) -> initial_hash t = Ok h ->
  let d := digest h x04 (std_fee s) (std_nonce s) in
  let sig := sig_bytes (sign_rec E d sk) in
  exists t', tx_sign E t sk = Ok t' /\ origin_of t' = SStd (with_sig s sig) /\ sponsor_of t' = sponsor_of t
    /\ same_but_signatures t t' /\ initial_hash t' = Ok h /\ tx_verify_origin E t' = Ok (link d sig).
Proof.
  intros C V O Z K H d sig. set (t' := tx_with_auth t (auth_with_origin (tx_auth t) (SStd (with_sig s sig)))). exists t'.
  assert (same_terms (origin_of t) (SStd (with_sig s sig))) as T.
  { rewrite O. exact (conj (conj eq_refl eq_refl) (conj eq_refl eq_refl)). }
  assert (initial_hash t' = Ok h) as H' by (rewrite <- H; apply signed_tx_hash; exact T).
  assert (origin_of t' = SStd (with_sig s sig)) as O' by apply with_origin_of. splits.
  - apply sign_exact; auto. apply address_fits_key in K. exact K.
  - exact O'.
  - apply with_origin_sponsor.
  - apply but_sig_origin. exact T.
  - exact H'.
  - apply (verify_origin_iff E t' h _ H'); rewrite O'.
    + apply sig_bytes_length. apply C; auto. apply digest_length.
    + apply (sat_single E x04 h (with_sig s sig) (pubkey_of E sk)); [|exact K]. apply signed_recovers; auto. apply digest_length.
Qed.

(** What the builders produce, signed with the sender's key. *)
Lemma unsigned_signs E net sk fee nonce anchor mode conds p h : ecdsa_correct E -> valid_key sk ->
  let t := unsigned net (pubkey_of E sk) fee nonce anchor mode conds p in
  initial_hash t = Ok h ->
  exists t' g, tx_sign E t sk = Ok t' /\ same_but_signatures t t' /\ tx_verify_origin E t' = Ok g.
Proof.
  intros C V t H. destruct (sign_verifies E t _ h sk C V eq_refl eq_refl eq_refl H) as (t' & A & _ & _ & B & _ & D).
  exists t'. eexists. splits; [exact A | exact B | exact D].
Qed.

(** ** C37: signatures of other keys *)

Lemma verify_std_signed E s h typ sk : ecdsa_correct E -> valid_key sk -> mode_fits (SStd s) ->
  let d := digest h typ (std_fee s) (std_nonce s) in
  std_sig s = sig_bytes (sign_rec E d sk) ->
  (key_address (std_mode s) (pubkey_of E sk) = Some (std_signer s) /\ verify_std E s h typ = Ok (link d (std_sig s)))
  \/ (exists a, key_address (std_mode s) (pubkey_of E sk) = Some a /\ a <> std_signer s
       /\ verify_std E s h typ = Err (TxBadSigner (hex_text (std_signer s)) (hex_text a))).
Proof.
  intros C V M d Z. assert (length (std_sig s) = 65%nat) as L.
  { rewrite Z. apply sig_bytes_length, C; auto. apply digest_length. }
  assert (recovers E d (std_sig s) (pubkey_of E sk)) as R. { rewrite Z. apply signed_recovers; auto. apply digest_length. }
  unfold verify_std.
  rewrite (proj2 (map_err_ok TxHash _ _) (proj2 (next_verify_iff E h typ _ _ _ (pubkey_of E sk) _ L) (conj R eq_refl))). cbn [bind].
  fold d. cbn [mode_fits] in M. destruct M as [M|M]; rewrite M.
  - cbn [bind]. rewrite p2pkh_eq. destruct (bytes_eqb_spec (hash_p2pkh (pubkey_of E sk)) (std_signer s)) as [X|X].
    + left. split; congruence.
    + right. eexists. splits; [reflexivity | exact X | rewrite <- !bytes_to_hex_text; reflexivity].
  - cbn [bind]. rewrite p2wpkh_eq. destruct (bytes_eqb_spec (hash_p2wpkh (pubkey_of E sk)) (std_signer s)) as [X|X].
    + left. split; congruence.
    + right. eexists. splits; [reflexivity | exact X | rewrite <- !bytes_to_hex_text; reflexivity].
Qed.

Lemma other_key_rejected E s h typ sk sk' : ecdsa_correct E -> valid_key sk' ->
  key_address (std_mode s) (pubkey_of E sk) = Some (std_signer s) ->
  std_sig s = sig_bytes (sign_rec E (digest h typ (std_fee s) (std_nonce s)) sk') -> pubkey_of E sk' <> pubkey_of E sk ->
  (exists a, a <> std_signer s /\ verify_std E s h typ = Err (TxBadSigner (hex_text (std_signer s)) (hex_text a)))
  \/ key_clash (std_mode s) (pubkey_of E sk') (pubkey_of E sk).
Proof.
  intros C V K Z N. destruct (verify_std_signed E s h typ sk' C V) as [[K' _]|(a & _ & X & Y)]; auto.
  - apply address_fits_key in K. exact K.
  - destruct (key_address_inj _ _ _ _ K' K) as [X|X]; [contradiction | auto].
  - left. eauto.
Qed.

(** Signing with a key that is not the sender's succeeds, and what it yields does not verify. *)
Lemma wrong_key_signed E t s h sk sk' : ecdsa_correct E -> valid_key sk' -> origin_of t = SStd s -> std_sig s = repeat x00 65 ->
  key_address (std_mode s) (pubkey_of E sk) = Some (std_signer s) -> initial_hash t = Ok h ->
  pubkey_of E sk' <> pubkey_of E sk -> exists t', tx_sign E t sk' = Ok t' /\
  ((exists a, a <> std_signer s /\ tx_verify_origin E t' = Err (TxBadSigner (hex_text (std_signer s)) (hex_text a)))
   \/ key_clash (std_mode s) (pubkey_of E sk') (pubkey_of E sk)).
Proof.
  intros C V O Z K H N. pose proof (address_fits_key _ _ _ K) as M. eexists. split; [apply sign_exact; eauto|].
  set (sig := sig_bytes _). set (t' := tx_with_auth _ _).
  assert (initial_hash t' = Ok h) as H'.
  { rewrite <- H. apply signed_tx_hash. rewrite O. exact (conj (conj eq_refl eq_refl) (conj eq_refl eq_refl)). }
  destruct (other_key_rejected E (with_sig s sig) h x04 sk sk' C V K eq_refl N) as [(a & A & B)|X]; [left | right; exact X].
  exists a. split; [exact A|]. unfold tx_verify_origin. rewrite H'. cbn [bind].
  unfold auth_verify_origin. rewrite <- origin_eq. unfold t'. rewrite with_origin_of. exact B.
Qed.

(** ** C39 *)

Lemma multi_sound E m h typ h' ks : ecdsa_correct E -> typed (SMulti m) ->
  keys_address (ms_mode m) (Byte.to_N (ms_required m)) ks = Some (ms_signer m) -> Forall (fun k => length k = 33%nat) ks ->
  verify_scond E (SMulti m) h typ = Ok h' ->
  exists ks', chain E typ (ms_fee m) (ms_nonce m) h (ms_fields m) ks' (held (SMulti m)) h'
    /\ threshold (SMulti m) <= held (SMulti m)
    /\ (ks' = ks \/ script_clash (ms_mode m) (script (threshold (SMulti m)) ks') (script (threshold (SMulti m)) ks)).
Proof.
  intros C T K L H. apply verify_iff in H; [|exact T]. inversion H as [|m' ks' n h0 Ch R B Fi A]; subst.
  exists ks'. destruct (chain_counts _ _ _ _ _ _ _ _ _ Ch) as [_ N]. subst n. cbn [held threshold]. splits; auto.
  destruct (keys_address_inj (ms_mode m) (Byte.to_N (ms_required m)) (Byte.to_N (ms_required m)) ks' ks (ms_signer m)) as [[_ X]|X]; auto; try apply Fi.
  eapply chain_keys; eauto.
Qed.

(** Below the threshold. *)
Lemma multi_threshold E m h typ : typed (SMulti m) -> held (SMulti m) < threshold (SMulti m) ->
  (exists e, verify_scond E (SMulti m) h typ = Err (TxHash e))
  \/ verify_scond E (SMulti m) h typ = Err (TxBadSignatureCount (threshold (SMulti m)) (held (SMulti m))).
Proof.
  intros T B. cbn [verify_scond]. unfold verify_multi.
  destruct (verify_fields_total E typ (ms_fee m) (ms_nonce m) _ T h [] 0) as [(ks & h' & n & V & _)|[[e ->]|[_ X]]]; cbn [bind].
  - rewrite V. cbn [bind]. apply verify_fields_iff in V; [|exact T|lia]. destruct V as (ks0 & n0 & Ch & -> & -> & _).
    apply chain_counts in Ch. destruct Ch as [_ ->]. rewrite N.add_0_l. cbn [held threshold] in *. change b2n with Byte.to_N.
    destruct (N.ltb_spec (count (filter is_sig (ms_fields m))) (Byte.to_N (ms_required m))); [auto | lia].
  - eauto.
  - exfalso. pose proof (threshold_small (SMulti m)). cbn [held] in B. lia.
Qed.

(** ** C45 *)

Lemma sponsored_verify_iff E o p h : typed o -> typed p ->
  (auth_verify E (ASponsored o p) h = Ok tt <-> exists h1 h2, satisfied E x04 h o h1 /\ satisfied E x05 h1 p h2).
Proof.
  intros To Tp. rewrite auth_verify_iff.
  - split.
    + intros [[q Q]|(q & r & h1 & h2 & Q & V & W)]; [discriminate|]. inversion Q; subst. eauto.
    + intros (h1 & h2 & V & W). right. exists o, p, h1, h2. auto.
  - intros q r Q. inversion Q; subst. auto.
Qed.

Lemma link_inj d e s s' : length d = length e -> link_text d s = link_text e s' -> d = e /\ s = s'.
Proof.
  unfold link_text. intros L H. apply app_inj_len in H; [|exact L]. destruct H as [-> H]. cbn [app] in H.
  apply (f_equal (@tl byte)) in H. cbn [tl] in H. auto.
Qed.

Lemma sha_eq a b : sha512_256 a = sha512_256 b -> a = b \/ collision a b.
Proof. intros H. destruct (bytes_dec a b); [auto | right; split; auto]. Qed.

(** The message the sponsor signs fixes what the origin signed, the origin's signature and the sponsor's terms. *)
Lemma sponsor_commits h k f g n m s s' f' g' n' m' :
  length h = 32%nat -> length k = 32%nat -> f < 2 ^ 64 -> g < 2 ^ 64 -> n < 2 ^ 64 -> m < 2 ^ 64 ->
  f' < 2 ^ 64 -> g' < 2 ^ 64 -> n' < 2 ^ 64 -> m' < 2 ^ 64 ->
  let d := digest h x04 f n in
  let e := digest k x04 g m in
  digest (link d s) x05 f' n' = digest (link e s') x05 g' m' ->
  (h = k /\ f = g /\ n = m /\ s = s' /\ f' = g' /\ n' = m')
  \/ collision (message_text (link d s) x05 f' n') (message_text (link e s') x05 g' m')
  \/ collision (link_text d s) (link_text e s')
  \/ collision (message_text h x04 f n) (message_text k x04 g m).
Proof.
  intros Lh Lk Bf Bg Bn Bm Bf' Bg' Bn' Bm' d e H.
  apply sha_eq in H. destruct H as [H|H]; [|auto].
  apply message_text_inj in H; auto; [|unfold link; rewrite !sha512_256_length; reflexivity]. destruct H as (H & _ & -> & ->).
  apply sha_eq in H. destruct H as [H|H]; [|auto].
  apply link_inj in H; [|unfold d, e; rewrite !digest_length; reflexivity]. destruct H as [H ->].
  apply sha_eq in H. destruct H as [H|H]; [|auto].
  apply message_text_inj in H; auto; [|congruence]. destruct H as (-> & _ & -> & ->). left. splits; auto.
Qed.

(** ** Sponsors: the signer has no way to list a key that does not sign *)

Definition all_signatures (c : scond) : Prop := match c with SStd _ => True | SMulti m => Forall (fun f => is_sig f = true) (ms_fields m) end.

Lemma modify_all_sigs c sig : all_signatures c ->
  all_signatures (fst (modify c (MSetSignature sig))) /\ all_signatures (fst (modify c (MAddSignature sig))).
Proof. intros A. destruct c; cbn in *; auto. split; auto. apply Forall_app. auto. Qed.

Definition sponsor_sigs (t : tx) : Prop := match sponsor_of t with Some p => all_signatures p | None => True end.

Lemma sponsor_sigs_step E s o : sponsor_sigs (sg_tx s) -> sponsor_sigs (sg_tx (fst (perform E s o))).
Proof.
  intros A. destruct o as [sk|sk|pk].
  - unfold sponsor_sigs. rewrite (sponsor_untouched E s (SignOrigin sk)). exact A.
  - cbn [perform]. destruct (sign_sponsor E s sk) as [s' r] eqn:X. apply sign_sponsor_effect in X.
    destruct X as [(_ & o & p & p' & h' & Au & S & _ & ->)|[-> _]]; [|exact A].
    cbn [fst with_tx sg_tx]. unfold sponsor_sigs, sponsor_of in *. rewrite Au in A. cbn [tx_with_auth tx_auth].
    apply sign_append_modify in S. destruct S as [->|(sig & [-> | ->])]; [exact A| |]; apply modify_all_sigs; exact A.
  - unfold sponsor_sigs. rewrite (sponsor_untouched E s (AppendOrigin pk)). exact A.
Qed.

Lemma sponsor_sigs_history E l s : sponsor_sigs (sg_tx s) -> sponsor_sigs (sg_tx (perform_all E s l)).
Proof.
  revert s. induction l as [|o l IH]; intros s A; [exact A|]. cbn [perform_all fold_left]. apply IH, sponsor_sigs_step, A.
Qed.

Lemma all_sigs_count m : all_signatures (SMulti m) -> held (SMulti m) = count (ms_fields m).
Proof.
  cbn [all_signatures held]. intros F. f_equal. induction F as [|f fs X F IH]; [reflexivity|]. cbn [filter]. rewrite X. congruence.
Qed.

Lemma perform_all_typed E s l : typed (origin_of (sg_tx s)) -> (forall p, sponsor_of (sg_tx s) = Some p -> typed p) ->
  Forall (fun o => match o with AppendOrigin pk => length pk = 33%nat | _ => True end) l ->
  typed (origin_of (sg_tx (perform_all E s l))) /\ (forall p, sponsor_of (sg_tx (perform_all E s l)) = Some p -> typed p).
Proof.
  assert (forall c h typ sk d r, sign_and_append E c h typ sk = (d, r) -> typed c -> typed d) as SA.
  { intros c h typ sk d r H T. revert H. unfold sign_and_append.
    destruct (next_signature E h typ (sc_fee c) (sc_nonce c) sk) as [[sig g]|x|x|] eqn:X; cbn [map_err]; try (intros H; inversion H; subst; exact T).
    apply next_signature_length in X.
    destruct (sc_mode c);
      [pose proof (modify_typed c (MSetSignature sig) T X) as Y|pose proof (modify_typed c (MAddSignature sig) T X) as Y
      |pose proof (modify_typed c (MSetSignature sig) T X) as Y|pose proof (modify_typed c (MAddSignature sig) T X) as Y];
      destruct (modify c _) as [d' r']; intros H; inversion H; subst; exact Y. }
  revert s. induction l as [|o l IH]; intros s To Tp F; [auto|]. inversion F as [|x y Fo Fl]; subst. cbn [perform_all fold_left].
  apply IH; [| |exact Fl]; destruct o as [sk|sk|pk].
  - cbn [perform]. destruct (sign_origin E s sk) as [s' r] eqn:X. apply sign_origin_effect in X.
    destruct X as [(_ & o' & h' & S & _ & _ & ->)|[-> _]]; [|exact To]. cbn [fst with_tx sg_tx]. rewrite with_origin_of. eapply SA; eauto.
  - cbn [perform]. rewrite origin_untouched. exact To.
  - cbn [perform]. destruct (append_origin s pk) as [s' r] eqn:X. apply append_origin_effect in X.
    destruct X as [(_ & _ & _ & ->)|[-> _]]; [|exact To]. cbn [fst with_tx sg_tx]. rewrite with_origin_of. apply modify_typed; auto.
  - rewrite (sponsor_untouched E s (SignOrigin sk)). exact Tp.
  - cbn [perform]. destruct (sign_sponsor E s sk) as [s' r] eqn:X. apply sign_sponsor_effect in X.
    destruct X as [(_ & o & p & p' & h' & Au & S & _ & ->)|[-> _]]; [|exact Tp]. cbn [fst with_tx sg_tx]. unfold sponsor_of in *.
    cbn [tx_with_auth tx_auth]. intros q Q. inversion Q; subst. eapply SA; [exact S|]. apply Tp. rewrite Au. reflexivity.
  - rewrite (sponsor_untouched E s (AppendOrigin pk)). exact Tp.
Qed.

Definition sponsor_within (t : tx) : Prop := match sponsor_of t with Some p => held p <= threshold p | None => True end.

Lemma sponsor_within_step E s o : sg_oversign s = true -> sponsor_within (sg_tx s) -> sponsor_within (sg_tx (fst (perform E s o))).
Proof.
  intros V A. destruct o as [sk|sk|pk].
  - unfold sponsor_within. rewrite (sponsor_untouched E s (SignOrigin sk)). exact A.
  - cbn [perform]. destruct (sign_sponsor E s sk) as [s' r] eqn:X. apply sign_sponsor_effect in X.
    destruct X as [(_ & o & p & p' & h' & Au & S & W & ->)|[-> _]]; [|exact A].
    cbn [fst with_tx sg_tx]. unfold sponsor_within, sponsor_of in *. rewrite Au in A. cbn [tx_with_auth tx_auth].
    destruct (W V) as (n & N & L). apply signatures_val in N. rewrite req_threshold in L. subst n. eapply sign_append_held; eauto.
  - unfold sponsor_within. rewrite (sponsor_untouched E s (AppendOrigin pk)). exact A.
Qed.
Lemma sponsor_within_history E l s : sg_oversign s = true -> sponsor_within (sg_tx s) -> sponsor_within (sg_tx (perform_all E s l)).
Proof.
  revert s. induction l as [|o l IH]; intros s V A; [exact A|]. cbn [perform_all fold_left]. apply IH.
  - destruct (perform_flags E s o). congruence.
  - apply sponsor_within_step; assumption.
Qed.

Lemma new_sponsor_ok E t p s : signer_new_sponsor E t p = Ok s -> exists g,
  s = {| sg_tx := tx_with_auth t (ASponsored (origin_of t) p); sg_hash := g; sg_origin_signed := true; sg_oversign := true; sg_overlap := true |}
  /\ is_sponsored (tx_auth t) = true /\ tx_verify_origin E (tx_with_auth t (ASponsored (origin_of t) p)) = Ok g.
Proof.
  unfold signer_new_sponsor, origin_of. destruct (tx_auth t) as [o|o q] eqn:A; [discriminate|].
  cbn [is_sponsored negb auth_set_sponsor bind]. rewrite bind_ok. intros (g & G & H). apply bind_ok in H. destruct H as (x & X & H).
  okinv H. apply signer_new_ok in X. destruct X as (y & _ & ->). exists g. auto.
Qed.

Lemma sponsor_incomplete E t p ks m mode fee nonce s l h : ecdsa_correct E ->
  @multi_new unit ks fee nonce m mode = Ok p -> Forall (fun k => length k = 33%nat) ks -> Byte.to_N m < count ks ->
  typed (origin_of t) -> Forall (fun o => match o with AppendOrigin pk => length pk = 33%nat | _ => True end) l ->
  signer_new_sponsor E t (SMulti p) = Ok s ->
  auth_verify E (tx_auth (sg_tx (perform_all E s l))) h = Ok tt ->
  exists ks', count ks' <= Byte.to_N m /\ script_clash mode (script (Byte.to_N m) ks') (script (Byte.to_N m) ks).
Proof.
  intros C N L B To F H V.
  apply multi_new_spec in N. destruct N as (Nm & Nf & Nn & Nr & Ne & Na & Ns).
  apply new_sponsor_ok in H. destruct H as (g & -> & _ & _).
  set (s := {| sg_tx := tx_with_auth t (ASponsored (origin_of t) (SMulti p)); sg_hash := g; sg_origin_signed := true;
               sg_oversign := true; sg_overlap := true |}) in *.
  assert (W : sponsor_within (sg_tx (perform_all E s l))).
  { apply sponsor_within_history; [reflexivity|]. unfold sponsor_within, sponsor_of. cbn [s sg_tx tx_with_auth tx_auth held]. rewrite Ne.
    unfold count. cbn [filter length]. lia. }
  assert (A : sponsor_sigs (sg_tx (perform_all E s l))).
  { apply sponsor_sigs_history. unfold sponsor_sigs, sponsor_of. cbn [s sg_tx tx_with_auth tx_auth all_signatures]. rewrite Ne. constructor. }
  assert (S := history_same E l s). destruct (perform_all_typed E s l) as [To' Tp']; auto.
  { intros q Q. unfold sponsor_of in Q. cbn [s sg_tx tx_with_auth tx_auth] in Q. inversion Q. cbn [typed]. rewrite Ne. constructor. }
  destruct S as (_ & _ & _ & _ & _ & _ & S). cbn [s sg_tx tx_with_auth tx_auth] in S. fold s in S.
  unfold sponsor_within, sponsor_sigs, sponsor_of, origin_of in *.
  destruct (tx_auth (sg_tx (perform_all E s l))) as [o'|o' p']; [contradiction|]. destruct S as [_ (I & _)].
  apply sponsored_verify_iff in V; [|exact To' | apply Tp'; reflexivity]. destruct V as (h1 & h2 & _ & V).
  destruct p' as [|m']; [contradiction|]. cbn [same_identity] in I. destruct I as (Im & Is & Ir).
  inversion V as [|m0 ks' n h0 Ch R Bn Fi Ad]; subst m0 h0. destruct (chain_counts _ _ _ _ _ _ _ _ _ Ch) as [Lk Nk].
  apply all_sigs_count in A. rewrite A in W. cbn [threshold] in W. rewrite <- Ir, Nr in *. rewrite <- Im, <- Is, Nm in Ad.
  exists ks'. assert (count ks' <= Byte.to_N m) as K by (unfold count in *; rewrite Lk; exact W). split; [exact K|].
  destruct (keys_address_inj mode (Byte.to_N m) (Byte.to_N m) ks' ks (ms_signer p)) as [[_ X]|X]; auto; try apply Fi.
  - eapply chain_keys; [exact C | | exact Ch]. specialize (Tp' _ eq_refl). exact Tp'.
  - exfalso. subst ks'. lia.
Qed.

(** ** Builders *)

Lemma build_transfer_cases {X} E b :
  @build_transfer X E b =
    if st_sponsored b then Panic PUnimplemented
    else Ok (unsigned (st_network b) (pubkey_of E (st_sender b)) (st_fee b) (st_nonce b) (st_anchor b) (st_pcmode b) (st_conds b)
               (PTransfer (st_recipient b) (st_amount b) (st_memo b))).
Proof. unfold build_transfer, unsigned. cbn [std_new bind]. destruct (st_sponsored b), (st_network b); reflexivity. Qed.

Lemma build_call_cases E b :
  (exists h v, address_spelling h v (cc_address b) /\ length h = 20%nat
     /\ build_call E b = (if cc_sponsored b then Panic PUnimplemented
       else Ok (unsigned (cc_network b) (pubkey_of E (cc_sender b)) (cc_fee b) (cc_nonce b) (cc_anchor b) (cc_pcmode b) (cc_conds b)
                  (PCall {| addr_hash := h; addr_version := v |} (cc_contract b) (cc_fname b) (cc_args b)))))
  \/ (exists h v, address_spelling h v (cc_address b) /\ length h <> 20%nat /\ build_call E b = Panic PCopyLen)
  \/ ((forall h v, ~ address_spelling h v (cc_address b))
      /\ exists e, c32_address_decode (cc_address b) = Err e /\ build_call E b = Err (ClC32 e)).
Proof.
  unfold build_call. pose proof (address_from_str_cases (cc_address b)) as A.
  destruct (c32_address_decode (cc_address b)) as [[h v]|e| |] eqn:D; try contradiction.
  - pose proof D as D'. apply c32_address_decode_iff in D'. destruct (Nat.eq_dec (length h) 20) as [L|L].
    + left. exists h, v. splits; auto. rewrite L in A. cbn in A. rewrite A. cbn [map_err bind std_new]. unfold unsigned.
      destruct (cc_sponsored b), (cc_network b); reflexivity.
    + right; left. apply Nat.eqb_neq in L. rewrite L in A. exists h, v. splits; auto.
      * apply Nat.eqb_neq, L.
      * rewrite A. reflexivity.
  - right; right. split.
    + intros h v S. apply c32_address_decode_iff in S. rewrite S in D. discriminate.
    + exists e. rewrite A. split; reflexivity.
Qed.

Lemma default_builders {X} E r a sk net addr c f args :
  @build_transfer X E (stx_transfer_default r a sk net) =
    Ok (unsigned net (pubkey_of E sk) 0 0 AnAny PcAllow [] (PTransfer r a []))
  /\ forall h v, address_spelling h v addr -> length h = 20%nat ->
     build_call E (stx_call_default addr c f args sk net) =
       Ok (unsigned net (pubkey_of E sk) 0 0 AnAny PcAllow [] (PCall {| addr_hash := h; addr_version := v |} c f args)).
Proof.
  split; [rewrite build_transfer_cases; reflexivity|]. intros h v S L.
  destruct (build_call_cases E (stx_call_default addr c f args sk net)) as [(h' & v' & S' & L' & B)|[(h' & v' & S' & L' & _)|[N _]]].
  - rewrite B. cbn [stx_call_default cc_address cc_sponsored cc_network cc_sender cc_fee cc_nonce cc_anchor cc_pcmode cc_conds
      cc_contract cc_fname cc_args] in *.
    apply c32_address_decode_iff in S, S'. rewrite S in S'. okinv S'. apply pair_equal_spec in S'. destruct S' as [-> ->]. reflexivity.
  - cbn in S'. apply c32_address_decode_iff in S, S'. rewrite S in S'. okinv S'. apply pair_equal_spec in S'.
    destruct S' as [-> ->]. contradiction.
  - destruct (N h v S).
Qed.

(** ** C38: conditions made with [SpendingConditionMultiSig::new] *)

Lemma multi_new_plan E t l ks fee nonce m mode c h : ecdsa_correct E -> Forall step_valid l -> map (step_key E) l = ks ->
  @multi_new unit ks fee nonce m mode = Ok c -> count (filter is_sign l) = Byte.to_N m ->
  origin_of t = SMulti c -> initial_hash t = Ok h ->
  exists s s', signer_new t = Ok s /\ succeeds E s (map step_op l) s'
    /\ same_but_signatures t (sg_tx s') /\ tx_verify_origin E (sg_tx s') = Ok (sg_hash s').
Proof.
  intros C V <- N S O H. apply origin_plan with (h := h); auto. rewrite O.
  apply multi_new_spec in N. destruct N as (A & B & D & F & G & I & J). apply plan_multi; auto; congruence.
Qed.

(** ** C41 *)

Lemma oversign_history E t s l : signer_new t = Ok s -> not_oversigned t ->
  let s' := perform_all E s l in
  not_oversigned (sg_tx s')
  /\ (held (origin_of (sg_tx s')) = threshold (origin_of (sg_tx s')) -> sg_origin_signed s' = false ->
      forall sk, sign_origin E s' sk = (s', Err TxOriginOversign))
  /\ (forall p, sponsor_of (sg_tx s') = Some p -> held p = threshold p ->
      forall sk, sign_sponsor E s' sk = (s', Err TxSponsorOversign)).
Proof.
  intros H N s'. apply signer_new_ok in H. destruct H as (h & _ & ->).
  set (s := {| sg_tx := t; sg_hash := h; sg_origin_signed := false; sg_oversign := true; sg_overlap := true |}) in *.
  assert (not_oversigned (sg_tx s')) as A by (apply not_oversigned_history; auto).
  destruct (history_flags E l s) as [F G]. splits; auto.
  - intros X Y sk. apply extra_origin; auto. fold s'. rewrite Y. apply andb_false_r.
  - intros p P X sk. apply extra_sponsor with (p := p); auto.
Qed.

(** ** C54 *)

Lemma hash_p2sh_cases {X} m ks :
  (script_fits (Byte.to_N m) ks /\ @hash_p2sh X m ks = Ok (hash20 (script (Byte.to_N m) ks)))
  \/ (~ script_fits (Byte.to_N m) ks /\ @hash_p2sh X m ks = Panic POverflow).
Proof.
  destruct (@multi_hash_cases X P2SH m ks (or_introl eq_refl)) as [[F [a A]]|B]; [left | right; exact B].
  split; [exact F|]. pose proof A as A'. apply multi_hash_iff in A'. destruct A' as [_ A']. cbn [keys_address] in A'.
  cbn [multi_hash] in A. congruence.
Qed.

Lemma hash_p2wsh_cases {X} m ks :
  (script_fits (Byte.to_N m) ks /\ @hash_p2wsh X m ks = Ok (hash20 (witness_program (script (Byte.to_N m) ks))))
  \/ (~ script_fits (Byte.to_N m) ks /\ @hash_p2wsh X m ks = Panic POverflow).
Proof.
  destruct (@multi_hash_cases X P2WSH m ks (or_intror eq_refl)) as [[F [a A]]|B]; [left | right; exact B].
  split; [exact F|]. pose proof A as A'. apply multi_hash_iff in A'. destruct A' as [_ A']. cbn [keys_address] in A'.
  cbn [multi_hash] in A. congruence.
Qed.

Lemma to_N_inj a b : Byte.to_N a = Byte.to_N b -> a = b.
Proof. intros H. apply (f_equal Byte.of_N) in H. rewrite !Byte.of_to_N in H. congruence. Qed.

Lemma p2sh_determines {X} m m' ks ks' a : Forall (fun k => length k = 33%nat) ks -> Forall (fun k => length k = 33%nat) ks' ->
  @hash_p2sh X m ks = Ok a -> @hash_p2sh X m' ks' = Ok a ->
  (m = m' /\ ks = ks') \/ clash hash20 (script (Byte.to_N m) ks) (script (Byte.to_N m') ks').
Proof.
  intros L L' A B. apply (@multi_hash_iff X P2SH) in A, B. destruct A as [[F _] A], B as [[G _] B].
  destruct (keys_address_inj P2SH _ _ ks ks' a L L' F G A B) as [[M K]|C]; [left; split; auto; apply to_N_inj, M | right; exact C].
Qed.

Lemma p2wsh_determines {X} m m' ks ks' a : Forall (fun k => length k = 33%nat) ks -> Forall (fun k => length k = 33%nat) ks' ->
  @hash_p2wsh X m ks = Ok a -> @hash_p2wsh X m' ks' = Ok a ->
  (m = m' /\ ks = ks') \/ clash sha256 (script (Byte.to_N m) ks) (script (Byte.to_N m') ks')
  \/ clash hash20 (witness_program (script (Byte.to_N m) ks)) (witness_program (script (Byte.to_N m') ks')).
Proof.
  intros L L' A B. apply (@multi_hash_iff X P2WSH) in A, B. destruct A as [[F _] A], B as [[G _] B].
  destruct (keys_address_inj P2WSH _ _ ks ks' a L L' F G A B) as [[M K]|[C|C]]; auto.
  left; split; auto; apply to_N_inj, M.
Qed.

(** ** C52 *)

Lemma modify_exact c cmd : ~ accepts c cmd -> modify c cmd = (c, Err TxBadModification).
Proof. destruct c, cmd; cbn; intros H; try reflexivity; destruct (H I). Qed.

Lemma modify_changes c cmd :
  match c, cmd with
  | SStd s, MSetSignature sig => modify c cmd = (SStd (with_sig s sig), Ok tt)
  | SMulti m, MAddSignature sig => modify c cmd = (SMulti (with_fields m (ms_fields m ++ [FSig sig])), Ok tt)
  | SMulti m, MAddPublicKey pk => modify c cmd = (SMulti (with_fields m (ms_fields m ++ [FPk pk])), Ok tt)
  | _, _ => modify c cmd = (c, Err TxBadModification)
  end.
Proof. destruct c, cmd; reflexivity. Qed.

Lemma listed_reachable E c pk n : reachable E c -> length pk = 33%nat ->
  reachable E (Nat.iter n (fun c => fst (modify c (MAddPublicKey pk))) c).
Proof. intros R L. induction n as [|n IH]; [exact R|]. cbn [Nat.iter nat_rect]. apply reach_modify; [exact IH | exact L]. Qed.

Lemma reachable_safe E c : reachable E c -> mode_fits c /\ typed c
  /\ (forall h typ, (exists h', verify_scond E c h typ = Ok h') \/ (exists e, verify_scond E c h typ = Err e)
        \/ (verify_scond E c h typ = Panic POverflow
            /\ exists m, c = SMulti m /\ (256 <= held c \/ 175 < threshold c \/ 175 < count (ms_fields m) mod 256)))
  /\ (forall h typ sk, exists r, snd (sign_and_append E c h typ sk) = r /\ r <> Err TxBadModification /\ forall p, r <> Panic p).
Proof.
  intros R. destruct (reachable_fits E c R) as [M T]. splits; auto.
  - intros h typ. apply verify_no_panic; auto.
  - intros h typ sk. destruct (sign_append_cases E c h typ sk M) as [(sig & h' & _ & _ & ->)|(e & ->)];
      eexists; (split; [reflexivity|]); cbn [snd]; split; try discriminate; intros p; discriminate.
Qed.

(** ** C59: the transaction id *)

Lemma txid_iff t h : tx_hash t = Ok h <-> exists w, tx_means t w /\ fits_tx w /\ h = sha512_256 (ser_tx w).
Proof.
  unfold tx_hash. split.
  - destruct (enc_tx t) as [e| | |] eqn:X; cbn [map_err bind]; intros H; try discriminate. okinv H.
    apply tx_iff in X. destruct X as (w & A & B & ->). exists w. auto.
  - intros (w & A & B & ->). rewrite (proj2 (tx_iff t (ser_tx w))); eauto.
Qed.

Lemma txid_commits t u w v h : tx_means t w -> tx_means u v -> wf_tx w -> wf_tx v ->
  tx_hash t = Ok h -> tx_hash u = Ok h -> (same_body t u /\ tx_auth t = tx_auth u) \/ collision (ser_tx w) (ser_tx v).
Proof.
  intros M N W V H K. unfold tx_hash in H, K.
  destruct (enc_tx t) as [e| | |] eqn:A; cbn [map_err bind] in H; try discriminate.
  destruct (enc_tx u) as [f| | |] eqn:B; cbn [map_err bind] in K; try discriminate.
  destruct (enc_means _ _ _ M A) as [_ ->], (enc_means _ _ _ N B) as [_ ->]. okinv H. okinv K.
  destruct (sha_eq _ _ K) as [E|C]; [left|right].
  - destruct (tx_injective t u w v _ _ [] [] M N W V A B) as (X & Y & _); auto. rewrite E. reflexivity.
  - destruct C as [C D]. split; auto.
Qed.

(** ** C53 *)

Lemma recov_roundtrip r : compact_form r -> msig_from_recov r = Ok (sig_bytes r) /\ length (sig_bytes r) = 65%nat
  /\ msig_into_recov (sig_bytes r) = Ok r.
Proof.
  intros C. pose proof (sig_bytes_length r C) as L. splits; auto using from_recov_ok. apply into_recov_iff; auto.
Qed.

Lemma from_slice_cases b :
  (length b = 65%nat /\ msig_from_slice b = Ok b)
  \/ (length b <> 65%nat /\ msig_from_slice b = Err (HashInvalidSigLength (count b))).
Proof. unfold msig_from_slice. destruct (Nat.eqb_spec (length b) 65) as [L|L]; auto. Qed.

(** ** C58 *)

Lemma perform_all_app E s l l' : perform_all E s (l ++ l') = perform_all E (perform_all E s l) l'.
Proof. apply fold_left_app. Qed.

Lemma nothing_dropped E t s l l' : signer_new t = Ok s ->
  tx_grows (sg_tx (perform_all E s l)) (sg_tx (perform_all E s (l ++ l'))).
Proof.
  intros H. rewrite perform_all_app. apply history_grows. destruct (history_flags E l s) as [-> _].
  apply signer_new_ok in H. destruct H as (h & _ & ->). reflexivity.
Qed.

Lemma nothing_dropped_sponsor E t p s l l' : signer_new_sponsor E t p = Ok s ->
  tx_grows (sg_tx (perform_all E s l)) (sg_tx (perform_all E s (l ++ l'))).
Proof.
  intros H. rewrite perform_all_app. apply history_grows. destruct (history_flags E l s) as [-> _].
  apply new_sponsor_ok in H. destruct H as (g & -> & _). reflexivity.
Qed.
