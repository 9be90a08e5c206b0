(** Property theorems C36-C45, C47, C52-C54, C57-C59: signing, verification, sponsors, builders. *)

From Coq Require Import Strings.String.
From Verif Require Import Base BaseFacts Sha2 SpecText SpecAddr Hash C32 Clarity SpecWire Tx SpecTx Signer Builder
     SpecSign SignFacts SignThms HistThms PlanThms AuthThms PropsClarity PropsTx.
Local Open Scope N_scope.

(** ** Samples (keys of the toy signature scheme) *)

Definition sk1 : bytes := repeat x00 31 ++ [x07].
Definition sk2 : bytes := repeat x00 31 ++ [x09].
Definition sk3 : bytes := repeat x00 31 ++ [x0b].
Lemma sk1_valid : valid_key sk1. Proof. split; [reflexivity | split; vm_compute; reflexivity]. Qed.
Lemma sk2_valid : valid_key sk2. Proof. split; [reflexivity | split; vm_compute; reflexivity]. Qed.
Lemma sk3_valid : valid_key sk3. Proof. split; [reflexivity | split; vm_compute; reflexivity]. Qed.
Definition pk1 : bytes := pubkey_of toy sk1.
Definition pk2 : bytes := pubkey_of toy sk2.
Definition pk3 : bytes := pubkey_of toy sk3.

Definition ex_transfer : stx_transfer :=
  {| st_recipient := CPrinStd sample_addr; st_amount := 1000; st_sender := sk1; st_network := NetMocknet; st_fee := 180;
     st_nonce := 7; st_anchor := AnAny; st_memo := str "hi"; st_pcmode := PcDeny; st_conds := ex_conds; st_sponsored := false |}.
Definition ex_call_b : stx_call :=
  {| cc_address := sample_addr; cc_contract := str "abc"; cc_fname := str "f"; cc_args := [sample]; cc_sender := sk2;
     cc_network := NetMainnet; cc_fee := 9; cc_nonce := 1; cc_anchor := AnStrict; cc_pcmode := PcAllow; cc_conds := [];
     cc_sponsored := false |}.
Definition ex_unsigned : tx :=
  unsigned NetMocknet pk1 180 7 AnAny PcDeny ex_conds (PTransfer (CPrinStd sample_addr) 1000 (str "hi")).
Definition ex_single : sc_std :=
  {| std_mode := P2PKH; std_fee := 180; std_nonce := 7; std_signer := hash20 pk1; std_sig := repeat x00 65 |}.

(** Two of three keys; the third is only listed. *)
Definition ex_2of3 : res unit sc_multi := multi_new [pk1; pk2; pk3] 300 9 x02 P2WSH.
Definition ex_2of3_m : sc_multi :=
  {| ms_mode := P2WSH; ms_fee := 300; ms_nonce := 9; ms_signer := hash20 (witness_program (script 2 [pk1; pk2; pk3]));
     ms_fields := []; ms_required := x02 |}.
Definition ex_steps : list step := [Sign sk1; List pk2; Sign sk3].
Lemma ex_2of3_ok : ex_2of3 = Ok ex_2of3_m. Proof. vm_compute. reflexivity. Qed.
Definition with_origin (t : tx) (a : auth) : tx := tx_with_auth t a.
Definition ex_multi_tx : tx := with_origin ex_unsigned (AStandard (SMulti ex_2of3_m)).
Definition ex_sponsored_tx : tx := with_origin ex_unsigned (ASponsored (SMulti ex_2of3_m) (SStd std_default)).
Definition ex_sponsor : scond :=
  SStd {| std_mode := P2WPKH; std_fee := 5; std_nonce := 3; std_signer := hash20 (x00 :: x14 :: hash20 pk2); std_sig := repeat x00 65 |}.

(** ** C36 *)
Theorem C36_sign_verifies : forall E t s h sk, ecdsa_correct E -> valid_key sk -> origin_of t = SStd s ->
  std_sig s = repeat x00 65 -> key_address (std_mode s) (pubkey_of E sk) = Some (std_signer s) -> initial_hash t = Ok h ->
  let d := digest h x04 (std_fee s) (std_nonce s) in
  let sig := sig_bytes (sign_rec E d sk) in
  exists t', tx_sign E t sk = Ok t' /\ origin_of t' = SStd (with_sig s sig) /\ sponsor_of t' = sponsor_of t
    /\ same_but_signatures t t' /\ initial_hash t' = Ok h /\ tx_verify_origin E t' = Ok (link d sig).
Proof. exact sign_verifies. Qed.
Print Assumptions C36_sign_verifies.

Theorem C36_built : forall E net sk fee nonce anchor mode conds p h, ecdsa_correct E -> valid_key sk ->
  let t := unsigned net (pubkey_of E sk) fee nonce anchor mode conds p in
  initial_hash t = Ok h ->
  exists t' g, tx_sign E t sk = Ok t' /\ same_but_signatures t t' /\ tx_verify_origin E t' = Ok g.
Proof. exact unsigned_signs. Qed.
Print Assumptions C36_built.

Example C36_ex : ecdsa_correct toy /\ valid_key sk1 /\ origin_of ex_unsigned = SStd ex_single
  /\ key_address (std_mode ex_single) (pubkey_of toy sk1) = Some (std_signer ex_single)
  /\ @build_transfer unit toy ex_transfer = Ok ex_unsigned /\ exists h, initial_hash ex_unsigned = Ok h.
Proof.
  refine (conj toy_correct (conj sk1_valid (conj eq_refl (conj eq_refl (conj _ _))))).
  - vm_compute. reflexivity.
  - eexists. vm_compute. reflexivity.
Qed.

(** ** C37 *)
Theorem C37_verify_exact : forall E t h s h', initial_hash t = Ok h -> origin_of t = SStd s -> length (std_sig s) = 65%nat ->
  (tx_verify_origin E t = Ok h' <->
   exists pk, recovers E (digest h x04 (std_fee s) (std_nonce s)) (std_sig s) pk
     /\ key_address (std_mode s) pk = Some (std_signer s)
     /\ h' = link (digest h x04 (std_fee s) (std_nonce s)) (std_sig s)).
Proof.
  intros E t h s h' H O L. rewrite (verify_origin_iff E t h h' H) by (rewrite O; exact L). rewrite O. split.
  - intros S. inversion S as [s' pk R K|]; subst. eauto.
  - intros (pk & R & K & ->). apply sat_single with (pk := pk); auto.
Qed.
Print Assumptions C37_verify_exact.

Theorem C37_other_key_rejected : forall E s h typ sk sk', ecdsa_correct E -> valid_key sk' ->
  key_address (std_mode s) (pubkey_of E sk) = Some (std_signer s) ->
  std_sig s = sig_bytes (sign_rec E (digest h typ (std_fee s) (std_nonce s)) sk') -> pubkey_of E sk' <> pubkey_of E sk ->
  (exists a, a <> std_signer s /\ verify_std E s h typ = Err (TxBadSigner (hex_text (std_signer s)) (hex_text a)))
  \/ key_clash (std_mode s) (pubkey_of E sk') (pubkey_of E sk).
Proof. exact other_key_rejected. Qed.
Print Assumptions C37_other_key_rejected.

(** Signing does not check the key; verification of the result does. *)
Theorem C37_wrong_key_signed : forall E t s h sk sk', ecdsa_correct E -> valid_key sk' -> origin_of t = SStd s ->
  std_sig s = repeat x00 65 -> key_address (std_mode s) (pubkey_of E sk) = Some (std_signer s) -> initial_hash t = Ok h ->
  pubkey_of E sk' <> pubkey_of E sk -> exists t', tx_sign E t sk' = Ok t' /\
  ((exists a, a <> std_signer s /\ tx_verify_origin E t' = Err (TxBadSigner (hex_text (std_signer s)) (hex_text a)))
   \/ key_clash (std_mode s) (pubkey_of E sk') (pubkey_of E sk)).
Proof. exact wrong_key_signed. Qed.
Print Assumptions C37_wrong_key_signed.

Example C37_ex : valid_key sk2 /\ pubkey_of toy sk2 <> pubkey_of toy sk1
  /\ (exists t' g, tx_sign toy ex_unsigned sk1 = Ok t' /\ tx_verify_origin toy t' = Ok g)
  /\ exists t' e, tx_sign toy ex_unsigned sk2 = Ok t' /\ tx_verify_origin toy t' = Err e.
Proof.
  refine (conj sk2_valid (conj _ (conj _ _))); [discriminate| |].
  - eexists _, _. split; [vm_compute; reflexivity|]. vm_compute. reflexivity.
  - eexists _, _. split; [vm_compute; reflexivity|]. vm_compute. reflexivity.
Qed.

(** ** C38 *)
Theorem C38_multi_verifies : forall E t l ks fee nonce m mode c h, ecdsa_correct E -> Forall step_valid l -> map (step_key E) l = ks ->
  @multi_new unit ks fee nonce m mode = Ok c -> count (filter is_sign l) = Byte.to_N m ->
  origin_of t = SMulti c -> initial_hash t = Ok h ->
  exists s s', signer_new t = Ok s /\ succeeds E s (map step_op l) s'
    /\ same_but_signatures t (sg_tx s') /\ tx_verify_origin E (sg_tx s') = Ok (sg_hash s').
Proof. exact multi_new_plan. Qed.
Print Assumptions C38_multi_verifies.

(** What the condition is made of, and exactly when it can be made. *)
Theorem C38_multi_new : forall pks fee nonce required mode c, @multi_new unit pks fee nonce required mode = Ok c <->
  keys_address mode (Byte.to_N required) pks = Some (ms_signer c) /\ script_fits (Byte.to_N required) pks
  /\ ms_mode c = mode /\ ms_fee c = fee /\ ms_nonce c = nonce /\ ms_required c = required /\ ms_fields c = [].
Proof.
  intros pks fee nonce required mode c. split.
  - intros H. apply multi_new_spec in H. intuition.
  - intros (A & F & B & D & G & I & J). destruct (@multi_new_cases unit pks fee nonce required mode) as [(_ & _ & c' & H)|[[H [->| ->]]|[_ H]]].
    + rewrite H. f_equal. apply multi_new_spec in H. destruct H as (B' & D' & G' & I' & J' & A' & _).
      destruct c, c'; cbn in *. congruence.
    + discriminate A.
    + discriminate A.
    + contradiction.
Qed.
Print Assumptions C38_multi_new.

Example C38_ex : Forall step_valid ex_steps /\ map (step_key toy) ex_steps = [pk1; pk2; pk3]
  /\ ex_2of3 = Ok ex_2of3_m /\ count (filter is_sign ex_steps) = Byte.to_N x02 /\ origin_of ex_multi_tx = SMulti ex_2of3_m
  /\ exists h, initial_hash ex_multi_tx = Ok h.
Proof.
  split. { repeat constructor; first [apply sk1_valid | apply sk3_valid | vm_compute; reflexivity]. }
  refine (conj eq_refl (conj ex_2of3_ok (conj eq_refl (conj eq_refl _)))). eexists. vm_compute. reflexivity.
Qed.

(** ** C39 *)
Theorem C39_sound : forall E m h typ h' ks, ecdsa_correct E -> typed (SMulti m) ->
  keys_address (ms_mode m) (Byte.to_N (ms_required m)) ks = Some (ms_signer m) -> Forall (fun k => length k = 33%nat) ks ->
  verify_scond E (SMulti m) h typ = Ok h' ->
  exists ks', chain E typ (ms_fee m) (ms_nonce m) h (ms_fields m) ks' (held (SMulti m)) h'
    /\ threshold (SMulti m) <= held (SMulti m)
    /\ (ks' = ks \/ script_clash (ms_mode m) (script (threshold (SMulti m)) ks') (script (threshold (SMulti m)) ks)).
Proof. exact multi_sound. Qed.
Print Assumptions C39_sound.

Theorem C39_exact : forall E c h typ h', typed c -> (verify_scond E c h typ = Ok h' <-> satisfied E typ h c h').
Proof. exact verify_iff. Qed.
Print Assumptions C39_exact.

Theorem C39_too_few : forall E m h typ, typed (SMulti m) -> held (SMulti m) < threshold (SMulti m) ->
  (exists e, verify_scond E (SMulti m) h typ = Err (TxHash e))
  \/ verify_scond E (SMulti m) h typ = Err (TxBadSignatureCount (threshold (SMulti m)) (held (SMulti m))).
Proof. exact multi_threshold. Qed.
Print Assumptions C39_too_few.

(** Finding: more signatures than required are accepted, and a threshold of zero needs none. *)
Definition signed_by (fee nonce : N) (h : bytes) (sk : bytes) : bytes := sig_bytes (sign_rec toy (digest h x04 fee nonce) sk).
Definition ex_over : sc_multi :=
  let h := repeat x05 32 in
  let s1 := signed_by 0 0 h sk1 in
  {| ms_mode := P2SH; ms_fee := 0; ms_nonce := 0; ms_signer := hash20 (script 1 [pk1; pk2]);
     ms_fields := [FSig s1; FSig (signed_by 0 0 (link (digest h x04 0 0) s1) sk2)]; ms_required := x01 |}.
Definition ex_zero : sc_multi :=
  {| ms_mode := P2SH; ms_fee := 0; ms_nonce := 0; ms_signer := hash20 (script 0 [pk1]); ms_fields := [FPk pk1]; ms_required := x00 |}.
Definition ex_zero0 : sc_multi := with_fields ex_zero [].
Theorem C39_exact_count_refuted : exists E m h h', ecdsa_correct E /\ typed (SMulti m)
  /\ verify_scond E (SMulti m) h x04 = Ok h' /\ threshold (SMulti m) < held (SMulti m).
Proof.
  exists toy, ex_over, (repeat x05 32). eexists. refine (conj toy_correct (conj _ (conj _ _))).
  - repeat constructor; vm_compute; reflexivity.
  - vm_compute. reflexivity.
  - vm_compute. reflexivity.
Qed.
Print Assumptions C39_exact_count_refuted.

Theorem C39_some_signature_refuted : exists ks m h, @multi_new unit ks 0 0 x00 P2SH = Ok m
  /\ forall E typ, let m' := with_fields m (map FPk ks) in
     held (SMulti m') = 0 /\ verify_scond E (SMulti m') h typ = Ok h.
Proof.
  exists [pk1]. eexists. exists (repeat x05 32). split; [vm_compute; reflexivity|]. intros E typ. split; [reflexivity|]. vm_compute. reflexivity.
Qed.
Print Assumptions C39_some_signature_refuted.

Example C39_ex : exists s s' c, signer_new ex_multi_tx = Ok s /\ perform_all toy s (map step_op ex_steps) = s'
  /\ origin_of (sg_tx s') = SMulti c /\ ms_signer c = ms_signer ex_2of3_m
  /\ verify_scond toy (SMulti c) (sg_hash s) x04 = Ok (sg_hash s') /\ length (ms_fields c) = 3%nat.
Proof.
  eexists _, _, _. split; [vm_compute; reflexivity|]. split; [vm_compute; reflexivity|]. split; [reflexivity|].
  split; [vm_compute; reflexivity|]. split; [vm_compute; reflexivity | reflexivity].
Qed.

(** ** C40 *)
Theorem C40_history : forall E l s, same_but_signatures (sg_tx s) (sg_tx (perform_all E s l)).
Proof. exact history_same. Qed.
Print Assumptions C40_history.

Theorem C40_failure : forall E s o s' r, perform E s o = (s', r) -> r <> Ok tt -> s' = s.
Proof. exact failure_unchanged. Qed.
Print Assumptions C40_failure.

Example C40_ex : exists s s', signer_new ex_sponsored_tx = Ok s
  /\ perform_all toy s [SignOrigin sk1; SignSponsor sk2; SignOrigin sk3; AppendOrigin pk2; SignSponsor sk1] = s'
  /\ s' <> s /\ sponsor_of (sg_tx s') <> sponsor_of (sg_tx s) /\ origin_of (sg_tx s') <> origin_of (sg_tx s)
  /\ exists e, perform toy s' (SignSponsor sk3) = (s', Err e).
Proof.
  eexists _, _. split; [vm_compute; reflexivity|]. split; [vm_compute; reflexivity|].
  split; [discriminate|]. split; [discriminate|]. split; [discriminate|]. eexists. vm_compute. reflexivity.
Qed.

(** ** C41 *)
Theorem C41_no_oversigning : forall E t s l, signer_new t = Ok s -> not_oversigned t ->
  let s' := perform_all E s l in
  not_oversigned (sg_tx s')
  /\ (held (origin_of (sg_tx s')) = threshold (origin_of (sg_tx s')) -> sg_origin_signed s' = false ->
      forall sk, sign_origin E s' sk = (s', Err TxOriginOversign))
  /\ (forall p, sponsor_of (sg_tx s') = Some p -> held p = threshold p ->
      forall sk, sign_sponsor E s' sk = (s', Err TxSponsorOversign)).
Proof. exact oversign_history. Qed.
Print Assumptions C41_no_oversigning.

Example C41_ex : exists s s', signer_new ex_sponsored_tx = Ok s /\ not_oversigned ex_sponsored_tx
  /\ perform_all toy s [SignOrigin sk1; SignOrigin sk2] = s' /\ held (origin_of (sg_tx s')) = 2
  /\ threshold (origin_of (sg_tx s')) = 2 /\ sg_origin_signed s' = false.
Proof.
  eexists _, _. split; [vm_compute; reflexivity|]. split; [split; vm_compute; discriminate|].
  split; [vm_compute; reflexivity|]. split; [|split]; vm_compute; reflexivity.
Qed.

(** ** C42 *)
Theorem C42_sponsor_freezes : forall E t s l sk s', signer_new t = Ok s ->
  sign_sponsor E (perform_all E s l) sk = (s', Ok tt) -> frozen s'.
Proof.
  intros E t s l sk s' H. apply sponsor_freezes. apply signer_new_ok in H. destruct H as (h & _ & ->).
  rewrite (proj2 (history_flags E l _)). reflexivity.
Qed.
Print Assumptions C42_sponsor_freezes.

Theorem C42_new_sponser_freezes : forall E t p s, signer_new_sponsor E t p = Ok s -> frozen s.
Proof. exact new_sponsor_freezes. Qed.
Print Assumptions C42_new_sponser_freezes.

Theorem C42_frozen : forall E s l, frozen s ->
  let s' := perform_all E s l in
  origin_of (sg_tx s') = origin_of (sg_tx s)
  /\ (forall sk, sign_origin E s' sk = (s', Err TxOriginPostSponsorSign))
  /\ (forall pk, append_origin s' pk = (s', Err TxOriginPostSponsorAppend)).
Proof.
  intros E s l F. destruct (frozen_history E l s F) as [G O]. exact (conj O (frozen_refuses E _ G)).
Qed.
Print Assumptions C42_frozen.

Example C42_ex : exists s s', signer_new ex_sponsored_tx = Ok s
  /\ sign_sponsor toy (perform_all toy s [SignOrigin sk1]) sk2 = (s', Ok tt).
Proof. eexists _, _. split; [vm_compute; reflexivity|]. vm_compute. reflexivity. Qed.

(** ** C43 *)
Theorem C43_sponsored_flow : forall E t o p q l sks h, ecdsa_correct E -> tx_auth t = ASponsored o q -> plan E o l ->
  plan E p (map Sign sks) -> initial_hash t = Ok h ->
  exists s s1 s2 s3, signer_new t = Ok s /\ succeeds E s (map step_op l) s1
    /\ signer_new_sponsor E (sg_tx s1) p = Ok s2 /\ succeeds E s2 (map SignSponsor sks) s3
    /\ same_but_signatures (tx_with_auth t (ASponsored o p)) (sg_tx s3)
    /\ auth_verify E (tx_auth (sg_tx s3)) h = Ok tt /\ initial_hash (sg_tx s3) = Ok h.
Proof. exact sponsored_flow. Qed.
Print Assumptions C43_sponsored_flow.

(** The same with one signer for both. *)
Theorem C43_one_signer : forall E t o p l sks h, ecdsa_correct E -> tx_auth t = ASponsored o p -> plan E o l ->
  plan E p (map Sign sks) -> initial_hash t = Ok h ->
  exists s s', signer_new t = Ok s /\ succeeds E s (map step_op l ++ map SignSponsor sks) s'
    /\ same_but_signatures t (sg_tx s') /\ auth_verify E (tx_auth (sg_tx s')) h = Ok tt /\ initial_hash (sg_tx s') = Ok h.
Proof. exact sponsored_flow_one. Qed.
Print Assumptions C43_one_signer.

Lemma ex_plan : plan toy (SMulti ex_2of3_m) ex_steps.
Proof.
  apply plan_multi; try reflexivity.
  - apply C38_ex.
  - split; vm_compute; discriminate.
Qed.
Lemma ex_sponsor_plan : plan toy ex_sponsor (map Sign [sk2]).
Proof. apply plan_single; [apply sk2_valid | reflexivity | reflexivity]. Qed.
Example C43_ex : plan toy (SMulti ex_2of3_m) ex_steps /\ plan toy ex_sponsor (map Sign [sk2])
  /\ tx_auth ex_sponsored_tx = ASponsored (SMulti ex_2of3_m) (SStd std_default) /\ exists h, initial_hash ex_sponsored_tx = Ok h.
Proof. refine (conj ex_plan (conj ex_sponsor_plan (conj eq_refl _))). eexists. vm_compute. reflexivity. Qed.

(** ** C44 *)
(** Full verification of a sponsored authorization implies that both conditions are satisfied. *)
Theorem C44_sponsored_sound : forall E o p h, typed o -> typed p ->
  auth_verify E (ASponsored o p) h = Ok tt -> exists h1 h2, satisfied E x04 h o h1 /\ satisfied E x05 h1 p h2.
Proof. intros E o p h To Tp. apply sponsored_verify_iff; assumption. Qed.
Print Assumptions C44_sponsored_sound.

(** Finding: of a standard authorization it checks nothing. *)
Theorem C44_standard_unchecked : forall E o h, auth_verify E (AStandard o) h = Ok tt.
Proof. reflexivity. Qed.
Print Assumptions C44_standard_unchecked.

Theorem C44_standard_refuted : exists E o h, ecdsa_correct E /\ typed o /\ held o = 0
  /\ auth_verify E (AStandard o) h = Ok tt /\ forall h', ~ satisfied E x04 h o h'.
Proof.
  exists toy, (SStd ex_single), (repeat x05 32). refine (conj toy_correct (conj eq_refl (conj eq_refl (conj eq_refl _)))).
  intros h' S. apply verify_iff in S; [|reflexivity]. revert S. vm_compute. discriminate.
Qed.
Print Assumptions C44_standard_refuted.

Example C44_ex : typed (SStd ex_single) /\ typed ex_sponsor
  /\ exists e, auth_verify toy (ASponsored (SStd ex_single) ex_sponsor) (repeat x05 32) = Err e.
Proof. refine (conj eq_refl (conj eq_refl _)). eexists. vm_compute. reflexivity. Qed.

(** ** C45 *)
Theorem C45_sponsored_exact : forall E o p h, typed o -> typed p ->
  (auth_verify E (ASponsored o p) h = Ok tt <-> exists h1 h2, satisfied E x04 h o h1 /\ satisfied E x05 h1 p h2).
Proof. exact sponsored_verify_iff. Qed.
Print Assumptions C45_sponsored_exact.

(** What a sponsor signs, after a single-signature origin, determines everything the origin signed and
    the origin's signature. *)
Theorem C45_sponsor_commits : forall h k f g n m s s' f' g' n' m',
  length h = 32%nat -> length k = 32%nat -> f < 2 ^ 64 -> g < 2 ^ 64 -> n < 2 ^ 64 -> m < 2 ^ 64 ->
  f' < 2 ^ 64 -> g' < 2 ^ 64 -> n' < 2 ^ 64 -> m' < 2 ^ 64 ->
  let d := digest h x04 f n in
  let e := digest k x04 g m in
  digest (link d s) x05 f' n' = digest (link e s') x05 g' m' ->
  (h = k /\ f = g /\ n = m /\ s = s' /\ f' = g' /\ n' = m')
  \/ collision (message_text (link d s) x05 f' n') (message_text (link e s') x05 g' m')
  \/ collision (link_text d s) (link_text e s')
  \/ collision (message_text h x04 f n) (message_text k x04 g m).
Proof. exact sponsor_commits. Qed.
Print Assumptions C45_sponsor_commits.

Definition ex_signed : scond := SStd (with_sig ex_single (signed_by 180 7 (repeat x05 32) sk1)).
Definition ex_signed_hash : bytes := link (digest (repeat x05 32) x04 180 7) (signed_by 180 7 (repeat x05 32) sk1).
Definition ex_signed_sponsor (typ : byte) (h : bytes) : scond :=
  SStd {| std_mode := P2PKH; std_fee := 5; std_nonce := 3; std_signer := hash20 pk2;
          std_sig := sig_bytes (sign_rec toy (digest h typ 5 3) sk2) |}.
Example C45_ex : typed ex_signed /\ typed (ex_signed_sponsor x05 ex_signed_hash)
  /\ auth_verify toy (ASponsored ex_signed (ex_signed_sponsor x05 ex_signed_hash)) (repeat x05 32) = Ok tt.
Proof. refine (conj eq_refl (conj eq_refl _)). vm_compute. reflexivity. Qed.

(** ** C47 *)
Theorem C47_transfer : forall X E b,
  @build_transfer X E b =
    if st_sponsored b then Panic PUnimplemented
    else Ok (unsigned (st_network b) (pubkey_of E (st_sender b)) (st_fee b) (st_nonce b) (st_anchor b) (st_pcmode b) (st_conds b)
               (PTransfer (st_recipient b) (st_amount b) (st_memo b))).
Proof. exact @build_transfer_cases. Qed.
Print Assumptions C47_transfer.

Theorem C47_call : forall E b,
  (exists h v, address_spelling h v (cc_address b) /\ length h = 20%nat
     /\ build_call E b = (if cc_sponsored b then Panic PUnimplemented
       else Ok (unsigned (cc_network b) (pubkey_of E (cc_sender b)) (cc_fee b) (cc_nonce b) (cc_anchor b) (cc_pcmode b) (cc_conds b)
                  (PCall {| addr_hash := h; addr_version := v |} (cc_contract b) (cc_fname b) (cc_args b)))))
  \/ (exists h v, address_spelling h v (cc_address b) /\ length h <> 20%nat /\ build_call E b = Panic PCopyLen)
  \/ ((forall h v, ~ address_spelling h v (cc_address b))
      /\ exists e, c32_address_decode (cc_address b) = Err e /\ build_call E b = Err (ClC32 e)).
Proof. exact build_call_cases. Qed.
Print Assumptions C47_call.

(** What the fields left out of a builder default to. *)
Theorem C47_defaults : forall X E r a sk net addr c f args,
  @build_transfer X E (stx_transfer_default r a sk net) =
    Ok (unsigned net (pubkey_of E sk) 0 0 AnAny PcAllow [] (PTransfer r a []))
  /\ forall h v, address_spelling h v addr -> length h = 20%nat ->
     build_call E (stx_call_default addr c f args sk net) =
       Ok (unsigned net (pubkey_of E sk) 0 0 AnAny PcAllow [] (PCall {| addr_hash := h; addr_version := v |} c f args)).
Proof. exact @default_builders. Qed.
Print Assumptions C47_defaults.

(** Finding: asking for a sponsored transaction panics. *)
Theorem C47_sponsored_refuted : exists E b p, st_sponsored b = true /\ @build_transfer unit E b = Panic p.
Proof.
  exists toy, {| st_recipient := CNone; st_amount := 0; st_sender := sk1; st_network := NetMainnet; st_fee := 0; st_nonce := 0;
    st_anchor := AnAny; st_memo := []; st_pcmode := PcAllow; st_conds := []; st_sponsored := true |}.
  eexists. split; reflexivity.
Qed.
Print Assumptions C47_sponsored_refuted.

Example C47_ex : @build_transfer unit toy ex_transfer = Ok ex_unsigned
  /\ (exists t, build_call toy ex_call_b = Ok t) /\ net_ids NetMainnet <> net_ids NetTestnet.
Proof. split; [vm_compute; reflexivity|]. split; [eexists; vm_compute; reflexivity | discriminate]. Qed.

(** ** C52 *)
Theorem C52_modes : forall E c, reachable E c -> mode_fits c /\ typed c
  /\ (forall h typ, (exists h', verify_scond E c h typ = Ok h') \/ (exists e, verify_scond E c h typ = Err e)
        \/ (verify_scond E c h typ = Panic POverflow
            /\ exists m, c = SMulti m /\ (256 <= held c \/ 175 < threshold c \/ 175 < count (ms_fields m) mod 256)))
  /\ (forall h typ sk, exists r, snd (sign_and_append E c h typ sk) = r /\ r <> Err TxBadModification /\ forall p, r <> Panic p).
Proof. exact reachable_safe. Qed.
Print Assumptions C52_modes.

Theorem C52_modify : forall c cmd,
  match c, cmd with
  | SStd s, MSetSignature sig => modify c cmd = (SStd (with_sig s sig), Ok tt)
  | SMulti m, MAddSignature sig => modify c cmd = (SMulti (with_fields m (ms_fields m ++ [FSig sig])), Ok tt)
  | SMulti m, MAddPublicKey pk => modify c cmd = (SMulti (with_fields m (ms_fields m ++ [FPk pk])), Ok tt)
  | _, _ => modify c cmd = (c, Err TxBadModification)
  end.
Proof. exact modify_changes. Qed.
Print Assumptions C52_modify.

(** Constructing a condition with a mode that does not fit panics. *)
Theorem C52_std_new : forall pk fee nonce mode,
  (exists s, @std_new unit pk fee nonce mode = Ok s /\ key_address mode pk = Some (std_signer s)
     /\ std_mode s = mode /\ std_fee s = fee /\ std_nonce s = nonce /\ std_sig s = repeat x00 65)
  \/ (@std_new unit pk fee nonce mode = Panic PExplicit /\ (mode = P2SH \/ mode = P2WSH)).
Proof.
  intros pk fee nonce mode. destruct (@std_new_iff unit pk fee nonce mode) as [[s H]|H]; [left | right; exact H].
  exists s. split; [exact H|]. apply std_new_spec in H. now destruct H as (? & ? & ? & ? & ?).
Qed.
Print Assumptions C52_std_new.

(** Finding: verification panics once 176 keys are listed. *)
Definition ex_listed : scond := Nat.iter 176 (fun c => fst (modify c (MAddPublicKey pk1))) (SMulti ex_zero0).
Theorem C52_verify_no_panic_refuted : exists E c h p, ecdsa_correct E /\ reachable E c /\ verify_scond E c h x04 = Panic p.
Proof.
  exists toy, ex_listed, (repeat x05 32). eexists. refine (conj toy_correct (conj _ _)).
  - apply listed_reachable; [|reflexivity]. apply reach_multi with (pks := [pk1]) (fee := 0) (nonce := 0) (required := x00) (mode := P2SH).
    vm_compute. reflexivity.
  - vm_compute. reflexivity.
Qed.
Print Assumptions C52_verify_no_panic_refuted.

Example C52_ex : reachable toy (SStd ex_single) /\ reachable toy (fst (modify (SMulti ex_2of3_m) (MAddPublicKey pk2)))
  /\ reachable toy (fst (sign_and_append toy (SStd ex_single) (repeat x05 32) x04 sk1)).
Proof.
  assert (reachable toy (SStd ex_single)) as R.
  { apply reach_std with (pk := pk1) (fee := 180) (nonce := 7) (mode := P2PKH). vm_compute. reflexivity. }
  refine (conj R (conj _ _)).
  - apply reach_modify; [|reflexivity].
    apply reach_multi with (pks := [pk1; pk2; pk3]) (fee := 300) (nonce := 9) (required := x02) (mode := P2WSH). apply ex_2of3_ok.
  - apply reach_sign. exact R.
Qed.

(** ** C53 *)
Theorem C53_from_recov : forall r, compact_form r -> msig_from_recov r = Ok (sig_bytes r) /\ length (sig_bytes r) = 65%nat
  /\ msig_into_recov (sig_bytes r) = Ok r.
Proof. exact recov_roundtrip. Qed.
Print Assumptions C53_from_recov.

Theorem C53_into_recov : forall sig r, length sig = 65%nat ->
  (msig_into_recov sig = Ok r <-> compact_form r /\ sig = sig_bytes r).
Proof. exact into_recov_iff. Qed.
Print Assumptions C53_into_recov.

Theorem C53_from_slice : forall b,
  (length b = 65%nat /\ msig_from_slice b = Ok b)
  \/ (length b <> 65%nat /\ msig_from_slice b = Err (HashInvalidSigLength (count b))).
Proof. exact from_slice_cases. Qed.
Print Assumptions C53_from_slice.

Theorem C53_new : forall X b,
  (length b = 65%nat -> @msig_new X b = Ok b) /\ (length b <> 65%nat -> @msig_new X b = Panic PCopyLen).
Proof.
  intros X b. unfold msig_new. split; intros H; [rewrite H; reflexivity|]. apply Nat.eqb_neq in H. rewrite H. reflexivity.
Qed.
Print Assumptions C53_new.

Example C53_ex : compact_form (sign_rec toy (repeat x05 32) sk1)
  /\ (exists e, msig_into_recov (x04 :: repeat x01 64) = Err e) /\ exists e, msig_into_recov (x00 :: repeat xff 64) = Err e.
Proof.
  split; [apply toy_correct; [reflexivity | apply sk1_valid]|]. split; eexists; vm_compute; reflexivity.
Qed.

(** ** C54 *)
Theorem C54_p2sh : forall X m ks,
  (script_fits (Byte.to_N m) ks /\ @hash_p2sh X m ks = Ok (hash20 (script (Byte.to_N m) ks)))
  \/ (~ script_fits (Byte.to_N m) ks /\ @hash_p2sh X m ks = Panic POverflow).
Proof. exact @hash_p2sh_cases. Qed.
Print Assumptions C54_p2sh.

Theorem C54_p2wsh : forall X m ks,
  (script_fits (Byte.to_N m) ks /\ @hash_p2wsh X m ks = Ok (hash20 (witness_program (script (Byte.to_N m) ks))))
  \/ (~ script_fits (Byte.to_N m) ks /\ @hash_p2wsh X m ks = Panic POverflow).
Proof. exact @hash_p2wsh_cases. Qed.
Print Assumptions C54_p2wsh.

Theorem C54_p2sh_determines : forall X m m' ks ks' a,
  Forall (fun k => length k = 33%nat) ks -> Forall (fun k => length k = 33%nat) ks' ->
  @hash_p2sh X m ks = Ok a -> @hash_p2sh X m' ks' = Ok a ->
  (m = m' /\ ks = ks') \/ clash hash20 (script (Byte.to_N m) ks) (script (Byte.to_N m') ks').
Proof. exact @p2sh_determines. Qed.
Print Assumptions C54_p2sh_determines.

Theorem C54_p2wsh_determines : forall X m m' ks ks' a,
  Forall (fun k => length k = 33%nat) ks -> Forall (fun k => length k = 33%nat) ks' ->
  @hash_p2wsh X m ks = Ok a -> @hash_p2wsh X m' ks' = Ok a ->
  (m = m' /\ ks = ks') \/ clash sha256 (script (Byte.to_N m) ks) (script (Byte.to_N m') ks')
  \/ clash hash20 (witness_program (script (Byte.to_N m) ks)) (witness_program (script (Byte.to_N m') ks')).
Proof. exact @p2wsh_determines. Qed.
Print Assumptions C54_p2wsh_determines.

Example C54_ex : script_fits 2 [pk1; pk2; pk3] /\ Forall (fun k => length k = 33%nat) [pk1; pk2; pk3]
  /\ @hash_p2sh unit x02 [pk1; pk2; pk3] <> hash_p2sh x01 [pk1; pk2; pk3]
  /\ @hash_p2sh unit x02 [pk1; pk2] <> hash_p2sh x02 [pk2; pk1]
  /\ exists p, @hash_p2sh unit xb0 [pk1] = Panic p.
Proof.
  split; [split; vm_compute; discriminate|]. split; [repeat constructor|].
  split; [vm_compute; discriminate|]. split; [vm_compute; discriminate|]. eexists. vm_compute. reflexivity.
Qed.

(** ** C57 *)
(** Finding: a sponsor with m of n keys, m < n, cannot be completed: whatever operations the signer is
    put through, full verification succeeds only if two different scripts have the same address. *)
Theorem C57_sponsor_incomplete : forall E t p ks m mode fee nonce s l h, ecdsa_correct E ->
  @multi_new unit ks fee nonce m mode = Ok p -> Forall (fun k => length k = 33%nat) ks -> Byte.to_N m < count ks ->
  typed (origin_of t) -> Forall (fun o => match o with AppendOrigin pk => length pk = 33%nat | _ => True end) l ->
  signer_new_sponsor E t (SMulti p) = Ok s ->
  auth_verify E (tx_auth (sg_tx (perform_all E s l))) h = Ok tt ->
  exists ks', count ks' <= Byte.to_N m /\ script_clash mode (script (Byte.to_N m) ks') (script (Byte.to_N m) ks).
Proof. exact sponsor_incomplete. Qed.
Print Assumptions C57_sponsor_incomplete.

Definition ex_multi_signed : res tx_err tx := let* s := signer_new ex_sponsored_tx in Ok (sg_tx (perform_all toy s (map step_op ex_steps))).
Example C57_ex : exists t s e, ex_multi_signed = Ok t /\ ex_2of3 = Ok ex_2of3_m /\ Byte.to_N x02 < count [pk1; pk2; pk3]
  /\ signer_new_sponsor toy t (SMulti ex_2of3_m) = Ok s
  /\ auth_verify toy (tx_auth (sg_tx (perform_all toy s [SignSponsor sk1; SignSponsor sk3; SignSponsor sk2]))) (repeat x05 32) = Err e.
Proof.
  eexists _, _, _. split; [vm_compute; reflexivity|]. split; [apply ex_2of3_ok|]. split; [reflexivity|].
  split; [vm_compute; reflexivity|]. vm_compute. reflexivity.
Qed.

(** ** C58 *)
Theorem C58_nothing_dropped : forall E t s l l', signer_new t = Ok s ->
  tx_grows (sg_tx (perform_all E s l)) (sg_tx (perform_all E s (l ++ l'))).
Proof. exact nothing_dropped. Qed.
Print Assumptions C58_nothing_dropped.

Theorem C58_nothing_dropped_sponsor : forall E t p s l l', signer_new_sponsor E t p = Ok s ->
  tx_grows (sg_tx (perform_all E s l)) (sg_tx (perform_all E s (l ++ l'))).
Proof. exact nothing_dropped_sponsor. Qed.
Print Assumptions C58_nothing_dropped_sponsor.

Example C58_ex : exists s c, signer_new ex_multi_tx = Ok s
  /\ origin_of (sg_tx (perform_all toy s (map step_op ex_steps))) = SMulti c /\ length (ms_fields c) = 3%nat.
Proof. eexists _, _. split; [vm_compute; reflexivity|]. split; [vm_compute; reflexivity|]. vm_compute. reflexivity. Qed.

(** ** C59 *)
Theorem C59_txid_exact : forall t h, tx_hash t = Ok h <-> exists w, tx_means t w /\ fits_tx w /\ h = sha512_256 (ser_tx w).
Proof. exact txid_iff. Qed.
Print Assumptions C59_txid_exact.

Theorem C59_txid_commits : forall t u w v h, tx_means t w -> tx_means u v -> wf_tx w -> wf_tx v ->
  tx_hash t = Ok h -> tx_hash u = Ok h -> (same_body t u /\ tx_auth t = tx_auth u) \/ collision (ser_tx w) (ser_tx v).
Proof. exact txid_commits. Qed.
Print Assumptions C59_txid_commits.

Example C59_ex : tx_means ex_tx ex_wtx /\ wf_tx ex_wtx /\ (exists h, tx_hash ex_tx = Ok h)
  /\ tx_hash ex_tx = tx_hash ex_tx' /\ tx_hash ex_tx <> tx_hash (tx_set_fee ex_tx 5).
Proof.
  refine (conj ex_tx_means (conj ex_wtx_wf (conj _ (conj _ _)))).
  - eexists. vm_compute. reflexivity.
  - vm_compute. reflexivity.
  - vm_compute. discriminate.
Qed.
