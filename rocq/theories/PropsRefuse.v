(** C70: the signer's calls, outcome by outcome. *)

From Coq Require Import Strings.String Lists.List Lia ZifyBool ZifyNat ZifyN.
From Verif Require Import Base BaseFacts Hex HexFacts Hash SpecText SpecWire Clarity Tx SpecTx Signer SpecSign SpecRefuse SignFacts SignThms HistThms PlanThms
  PropsSign.
Local Open Scope list_scope.
Local Open Scope N_scope.

Lemma count_sigs_over {X} fs : forall n, n < 65536 -> 65536 <= n + count (filter is_sig fs) -> @count_sigs X fs n = Panic POverflow.
Proof.
  induction fs as [|[pk|sig] fs IH]; intros n N H; cbn [filter is_sig count_sigs] in *.
  - unfold count in H. cbn in H. lia.
  - apply IH; assumption.
  - replace (count (FSig sig :: filter is_sig fs)) with (1 + count (filter is_sig fs)) in H by (unfold count; cbn [length]; lia).
    destruct (n + 1 <? 65536) eqn:E; [apply IH; lia | reflexivity].
Qed.
Lemma signatures_over {X} c : 65536 <= held c -> @signatures X c = Panic POverflow.
Proof.
  destruct c as [s|m]; cbn [held signatures]; [destruct (bytes_eqb _ _); lia|]. intros H. apply count_sigs_over; lia.
Qed.

Lemma sign_append_ok E c h typ sk : ecdsa_correct E -> valid_key sk -> mode_fits c ->
  sign_and_append E c h typ sk =
    (with_signature c (fresh_signature E h typ c sk), Ok (link (digest h typ (fee_of c) (nonce_of c)) (fresh_signature E h typ c sk))).
Proof. intros C V M. destruct c; [apply sign_append_std | apply sign_append_multi]; assumption. Qed.

Theorem C70_sign_origin : forall E s sk, ecdsa_correct E -> valid_key sk -> mode_fits (origin_of (sg_tx s)) ->
  let o := origin_of (sg_tx s) in
  let sig := fresh_signature E (sg_hash s) x04 o sk in
  (frozen s -> sign_origin E s sk = (s, Err TxOriginPostSponsorSign))
  /\ (~ frozen s -> sg_oversign s = true -> threshold o <= held o < 2 ^ 16 -> sign_origin E s sk = (s, Err TxOriginOversign))
  /\ (~ frozen s -> sg_oversign s = true -> 2 ^ 16 <= held o -> sign_origin E s sk = (s, Panic POverflow))
  /\ (~ frozen s -> sg_oversign s = false \/ held o < threshold o ->
       sign_origin E s sk =
         ({| sg_tx := origin_becomes (sg_tx s) (with_signature o sig); sg_hash := link (digest (sg_hash s) x04 (fee_of o) (nonce_of o)) sig;
             sg_origin_signed := sg_origin_signed s; sg_oversign := sg_oversign s; sg_overlap := sg_overlap s |}, Ok tt)).
Proof.
  intros E s sk C V M o sig. unfold frozen.
  assert (O : auth_origin (tx_auth (sg_tx s)) = o) by (symmetry; apply origin_eq).
  split; [intros [A B]; unfold sign_origin; rewrite A, B; reflexivity|].
  assert (N : ~ (sg_overlap s = true /\ sg_origin_signed s = true) -> sg_overlap s && sg_origin_signed s = false).
  { destruct (sg_overlap s), (sg_origin_signed s); auto. intros H. exfalso. auto. }
  split; [|split].
  - intros F V' H. unfold sign_origin. rewrite (N F), V', O, signatures_ok by lia. cbn [bind]. rewrite req_threshold.
    destruct (threshold o <=? held o) eqn:L; [reflexivity | lia].
  - intros F V' H. unfold sign_origin. rewrite (N F), V', O, signatures_over by lia. reflexivity.
  - intros F H. unfold sign_origin. rewrite (N F), O.
    assert ((if sg_oversign s then let* n := @signatures tx_err o in Ok (req_signatures o <=? n) else Ok false) = Ok false) as ->.
    { destruct (sg_oversign s); [|reflexivity]. destruct H as [H|H]; [discriminate|]. pose proof (threshold_small o).
      rewrite signatures_ok by lia. cbn [bind]. rewrite req_threshold. f_equal. lia. }
    unfold sign_next_origin. rewrite O. change auth_type_standard with x04. rewrite sign_append_ok by assumption. cbn beta iota.
    repeat f_equal. unfold origin_becomes, tx_with_auth, auth_with_origin. destruct (sg_tx s) as [? ? [a|a b] ? ? ? ?]; reflexivity.
Qed.
Print Assumptions C70_sign_origin.

Theorem C70_sign_sponsor : forall E s sk, ecdsa_correct E -> valid_key sk ->
  (sponsor_of (sg_tx s) = None -> sign_sponsor E s sk = (s, Err TxBadModification))
  /\ (forall p, sponsor_of (sg_tx s) = Some p -> mode_fits p ->
      let sig := fresh_signature E (sg_hash s) x05 p sk in
      (sg_oversign s = true -> threshold p <= held p < 2 ^ 16 -> sign_sponsor E s sk = (s, Err TxSponsorOversign))
      /\ (sg_oversign s = true -> 2 ^ 16 <= held p -> sign_sponsor E s sk = (s, Panic POverflow))
      /\ (sg_oversign s = false \/ held p < threshold p ->
          sign_sponsor E s sk =
            ({| sg_tx := sponsor_becomes (sg_tx s) (with_signature p sig); sg_hash := link (digest (sg_hash s) x05 (fee_of p) (nonce_of p)) sig;
                sg_origin_signed := true; sg_oversign := sg_oversign s; sg_overlap := sg_overlap s |}, Ok tt))).
Proof.
  intros E s sk C V. unfold sponsor_of. split.
  { unfold sign_sponsor. destruct (tx_auth (sg_tx s)); [reflexivity | discriminate]. }
  intros p Sp M. destruct (tx_auth (sg_tx s)) as [a|a q] eqn:A; [discriminate|]. injection Sp as ->. split; [|split].
  - intros V' H. unfold sign_sponsor. rewrite A. cbn [auth_sponsor bind]. rewrite V', signatures_ok by lia. cbn [bind]. rewrite req_threshold.
    destruct (threshold p <=? held p) eqn:L; [reflexivity | lia].
  - intros V' H. unfold sign_sponsor. rewrite A. cbn [auth_sponsor bind]. rewrite V', signatures_over by lia. reflexivity.
  - intros H. unfold sign_sponsor. rewrite A. cbn [auth_sponsor bind].
    assert ((if sg_oversign s then let* n := @signatures tx_err p in Ok (req_signatures p <=? n) else Ok false) = Ok false) as ->.
    { destruct (sg_oversign s); [|reflexivity]. destruct H as [H|H]; [discriminate|]. pose proof (threshold_small p).
      rewrite signatures_ok by lia. cbn [bind]. rewrite req_threshold. f_equal. lia. }
    unfold sign_next_sponsor. rewrite A. change auth_type_sponsored with x05. rewrite sign_append_ok by assumption. cbn beta iota.
    repeat f_equal. unfold sponsor_becomes, auth_becomes, tx_with_auth, origin_of. rewrite A. reflexivity.
Qed.
Print Assumptions C70_sign_sponsor.

Theorem C70_append_origin : forall s pk, mode_fits (origin_of (sg_tx s)) ->
  (frozen s -> append_origin s pk = (s, Err TxOriginPostSponsorAppend))
  /\ (~ frozen s -> forall c, origin_of (sg_tx s) = SStd c -> append_origin s pk = (s, Err TxBadModification))
  /\ (~ frozen s -> forall m, origin_of (sg_tx s) = SMulti m ->
       append_origin s pk =
         ({| sg_tx := origin_becomes (sg_tx s) (SMulti (with_fields m (ms_fields m ++ [FPk pk]))); sg_hash := sg_hash s;
             sg_origin_signed := sg_origin_signed s; sg_oversign := sg_oversign s; sg_overlap := sg_overlap s |}, Ok tt)).
Proof.
  intros s pk M. unfold frozen. split; [intros [A B]; unfold append_origin; rewrite A, B; reflexivity|].
  assert (N : ~ (sg_overlap s = true /\ sg_origin_signed s = true) -> sg_overlap s && sg_origin_signed s = false).
  { destruct (sg_overlap s), (sg_origin_signed s); auto. intros H. exfalso. auto. }
  rewrite origin_eq in *. split.
  - intros F c O. unfold append_origin, append_next_origin. rewrite (N F), O. rewrite O in M. cbn [sc_mode mode_fits] in *.
    destruct s as [t h f v l]. destruct M as [-> | ->]; reflexivity.
  - intros F m O. unfold append_origin, append_next_origin. rewrite (N F), O. rewrite O in M. cbn [sc_mode mode_fits] in *.
    destruct M as [-> | ->]; cbn [modify]; repeat f_equal; unfold origin_becomes, tx_with_auth, auth_with_origin;
      destruct (sg_tx s) as [? ? [a|a b] ? ? ? ?]; reflexivity.
Qed.
Print Assumptions C70_append_origin.

(** Verification of one condition: why it is refused. *)
Theorem C70_verify_single : forall E s h typ, length (std_sig s) = 65%nat -> mode_fits (SStd s) ->
  let d := digest h typ (std_fee s) (std_nonce s) in
  ((forall pk, ~ recovers E d (std_sig s) pk) -> exists e, verify_scond E (SStd s) h typ = Err (TxHash e))
  /\ (forall pk a, recovers E d (std_sig s) pk -> key_address (std_mode s) pk = Some a ->
        (a = std_signer s -> verify_scond E (SStd s) h typ = Ok (link d (std_sig s)))
        /\ (a <> std_signer s -> verify_scond E (SStd s) h typ = Err (TxBadSigner (hex_text (std_signer s)) (hex_text a)))).
Proof.
  intros E s h typ L M d. cbn [verify_scond]. unfold verify_std. split.
  - intros N. destruct (next_verify_total E h typ (std_fee s) (std_nonce s) (std_sig s) L) as [[[pk nx] X]|[e ->]]; [|eexists; reflexivity].
    exfalso. apply next_verify_iff in X; [|exact L]. apply (N pk), X.
  - intros pk a R A.
    rewrite (proj2 (map_err_ok TxHash _ _) (proj2 (next_verify_iff E h typ _ _ _ pk _ L) (conj R eq_refl))). cbn [bind].
    rewrite (proj2 (single_hash_iff _ _ _) A). cbn [bind]. rewrite !bytes_to_hex_text. split.
    + intros ->. rewrite bytes_eqb_refl. reflexivity.
    + intros N. destruct (bytes_eqb_spec a (std_signer s)); [contradiction | reflexivity].
Qed.
Print Assumptions C70_verify_single.

Theorem C70_verify_multi : forall E m h typ, typed (SMulti m) -> mode_fits (SMulti m) -> held (SMulti m) < 256 ->
  ((forall ks n h', ~ chain E typ (ms_fee m) (ms_nonce m) h (ms_fields m) ks n h') ->
      exists e, verify_scond E (SMulti m) h typ = Err (TxHash e))
  /\ (forall ks n h', chain E typ (ms_fee m) (ms_nonce m) h (ms_fields m) ks n h' ->
        (n < threshold (SMulti m) -> verify_scond E (SMulti m) h typ = Err (TxBadSignatureCount (threshold (SMulti m)) n))
        /\ (threshold (SMulti m) <= n -> ~ script_fits (threshold (SMulti m)) ks -> verify_scond E (SMulti m) h typ = Panic POverflow)
        /\ (forall a, threshold (SMulti m) <= n -> script_fits (threshold (SMulti m)) ks ->
              keys_address (ms_mode m) (threshold (SMulti m)) ks = Some a ->
              (a = ms_signer m -> verify_scond E (SMulti m) h typ = Ok h')
              /\ (a <> ms_signer m -> verify_scond E (SMulti m) h typ = Err (TxBadSigner (hex_text (ms_signer m)) (hex_text a))))).
Proof.
  intros E m h typ T M B. cbn [verify_scond typed held threshold] in *. unfold verify_multi. split.
  - intros N. destruct (verify_fields_total E typ (ms_fee m) (ms_nonce m) _ T h [] 0) as [(ks & h' & n & V & _)|[[e ->]|[V O]]].
    + exfalso. apply verify_fields_iff in V; [|exact T|lia]. destruct V as (ks0 & n0 & C & _). apply (N _ _ _ C).
    + eexists. reflexivity.
    + lia.
  - intros ks n h' C. pose proof (chain_counts _ _ _ _ _ _ _ _ _ C) as CC.
    assert (n < 256) as Bn by lia.
    rewrite (proj2 (verify_fields_iff E typ _ _ _ T h [] 0 ks h' n eq_refl)) by (exists ks, n; repeat split; auto; lia).
    cbn [bind]. change b2n with Byte.to_N.
    split; [intros L; destruct (N.ltb_spec n (Byte.to_N (ms_required m))); [reflexivity | lia]|].
    split.
    + intros L F. destruct (N.ltb_spec n (Byte.to_N (ms_required m))); [lia|].
      destruct (@multi_hash_cases tx_err (ms_mode m) (ms_required m) ks M) as [(F' & _)|(_ & A)]; [contradiction|].
      unfold multi_hash in A. rewrite A. reflexivity.
    + intros a L F A. destruct (N.ltb_spec n (Byte.to_N (ms_required m))); [lia|].
      pose proof (proj2 (multi_hash_iff (E:=tx_err) _ _ _ _) (conj F A)) as X. unfold multi_hash in X. rewrite X. cbn [bind].
      rewrite !bytes_to_hex_text. split; [intros ->; rewrite bytes_eqb_refl; reflexivity|].
      intros N. destruct (bytes_eqb_spec a (ms_signer m)); [contradiction | reflexivity].
Qed.
Print Assumptions C70_verify_multi.

(** Handing over to a sponsor: the origin must verify; its refusal is passed on. *)
Theorem C70_new_sponser : forall E t p,
  (sponsor_of t = None -> signer_new_sponsor E t p = Err TxBadModification)
  /\ (forall q h, sponsor_of t = Some q -> initial_hash t = Ok h ->
       (forall h', verify_scond E (origin_of t) h x04 = Ok h' ->
          signer_new_sponsor E t p = Ok {| sg_tx := sponsor_becomes t p; sg_hash := h'; sg_origin_signed := true;
                                           sg_oversign := true; sg_overlap := true |})
       /\ (forall e, verify_scond E (origin_of t) h x04 = Err e -> signer_new_sponsor E t p = Err e)).
Proof.
  intros E t p. unfold sponsor_of. split; [unfold signer_new_sponsor; destruct (tx_auth t); [reflexivity | discriminate]|].
  intros q h S H. destruct (tx_auth t) as [o|o q'] eqn:A; [discriminate|]. injection S as ->.
  assert (initial_hash (tx_with_auth t (ASponsored o p)) = Ok h) as H'.
  { rewrite <- H. unfold initial_hash. cbn [tx_with_auth tx_auth]. rewrite A. reflexivity. }
  unfold origin_of, signer_new_sponsor. rewrite A. cbn [is_sponsored negb auth_set_sponsor bind].
  unfold tx_verify_origin, signer_new. rewrite H'. cbn [bind tx_with_auth tx_auth auth_verify_origin auth_origin].
  unfold auth_verify_origin. cbn [auth_origin]. change auth_type_standard with x04. split.
  - intros h' ->. cbn [bind sg_tx]. unfold sponsor_becomes, auth_becomes, origin_of. rewrite A. reflexivity.
  - intros e ->. reflexivity.
Qed.
Print Assumptions C70_new_sponser.

(** The accessors of [Auth]. *)
Theorem C70_auth : forall t,
  (is_sponsored (tx_auth t) = true <-> sponsor_of t <> None) /\ is_standard (tx_auth t) = negb (is_sponsored (tx_auth t))
  /\ auth_origin (tx_auth t) = origin_of t
  /\ auth_sponsor (tx_auth t) = match sponsor_of t with Some p => Ok p | None => Err TxBadModification end
  /\ (forall p, sponsor_of t = None -> auth_set_sponsor (tx_auth t) p = (tx_auth t, Err TxBadModification))
  /\ (forall p, sponsor_of t <> None -> auth_set_sponsor (tx_auth t) p = (ASponsored (origin_of t) p, Ok tt)).
Proof.
  intros t. unfold sponsor_of, origin_of. destruct (tx_auth t) as [o|o q]; cbn; repeat split; try congruence; try discriminate.
Qed.
Print Assumptions C70_auth.

Definition ex_signer : signer :=
  {| sg_tx := auth_becomes ex_unsigned (ASponsored (origin_of ex_unsigned) (SMulti ex_over)); sg_hash := repeat x05 32;
     sg_origin_signed := false; sg_oversign := true; sg_overlap := true |}.
Definition freeze (s : signer) : signer :=
  {| sg_tx := sg_tx s; sg_hash := sg_hash s; sg_origin_signed := true; sg_oversign := sg_oversign s; sg_overlap := sg_overlap s |}.
Example C70_ex : ecdsa_correct toy /\ valid_key sk1 /\ mode_fits (origin_of (sg_tx ex_signer)) /\ mode_fits (SMulti ex_over)
  /\ ~ frozen ex_signer /\ frozen (freeze ex_signer)
  /\ held (origin_of (sg_tx ex_signer)) < threshold (origin_of (sg_tx ex_signer)) /\ threshold (SMulti ex_over) <= held (SMulti ex_over) < 2 ^ 16
  /\ snd (sign_origin toy ex_signer sk1) = Ok tt /\ snd (sign_origin toy (freeze ex_signer) sk1) = Err TxOriginPostSponsorSign
  /\ snd (sign_origin toy (fst (sign_origin toy ex_signer sk1)) sk1) = Err TxOriginOversign
  /\ snd (sign_sponsor toy ex_signer sk1) = Err TxSponsorOversign /\ snd (append_origin ex_signer pk1) = Err TxBadModification
  /\ (exists h, initial_hash ex_unsigned = Ok h) /\ sponsor_of ex_unsigned = None
  /\ typed (SMulti ex_over) /\ verify_scond toy (SMulti ex_over) (repeat x05 32) x04 <> Panic POverflow.
Proof.
  split; [exact toy_correct|]. split; [exact sk1_valid|]. split; [left; reflexivity|]. split; [left; reflexivity|].
  split; [intros [_ H]; discriminate H|]. split; [split; reflexivity|].
  split; [vm_compute; reflexivity|]. split; [split; vm_compute; [discriminate | reflexivity]|].
  split; [vm_compute; reflexivity|]. split; [vm_compute; reflexivity|]. split; [vm_compute; reflexivity|].
  split; [vm_compute; reflexivity|]. split; [vm_compute; reflexivity|].
  split; [eexists; vm_compute; reflexivity|]. split; [reflexivity|].
  split; [repeat constructor|]. vm_compute. discriminate.
Qed.
