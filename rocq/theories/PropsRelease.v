(** C86: what the library does when it is built without overflow checks. *)

From Coq Require Import Strings.String Lists.List Lia ZifyBool ZifyNat ZifyN.
From Verif Require Import Base BaseFacts Hex HexFacts Hash C32 SpecText SpecWire B58 Clarity Tx SpecTx Signer SpecSign SpecRefuse SignFacts SignThms HistThms
  PlanThms PropsSign PropsRefuse Release SpecRelease ReleaseThms.
Local Open Scope list_scope.
Local Open Scope N_scope.

(** Wherever a debug build does not stop on an overflow, both builds do the same. *)
Theorem C86_same :
  (forall X m ks, agrees (@hash_p2sh X m ks) (Ok (hash_p2sh_rel m ks)))
  /\ (forall X m ks, agrees (@hash_p2wsh X m ks) (Ok (hash_p2wsh_rel m ks)))
  /\ (forall X ks fee nonce m mode, agrees (@multi_new X ks fee nonce m mode) (multi_new_rel ks fee nonce m mode))
  /\ (forall E c h typ, agrees (verify_scond E c h typ) (verify_scond_rel E c h typ))
  /\ (forall E a h, agrees (auth_verify E a h) (auth_verify_rel E a h))
  /\ (forall E t, agrees (tx_verify_origin E t) (tx_verify_origin_rel E t))
  /\ (forall E t p, agrees (signer_new_sponsor E t p) (signer_new_sponsor_rel E t p))
  /\ (forall E s sk, snd (sign_origin E s sk) <> Panic POverflow -> sign_origin_rel E s sk = sign_origin E s sk)
  /\ (forall E s sk, snd (sign_sponsor E s sk) <> Panic POverflow -> sign_sponsor_rel E s sk = sign_sponsor E s sk)
  /\ (forall E t sk, agrees (tx_sign E t sk) (tx_sign_rel E t sk))
  /\ (forall s, agrees (base58check_decode s) (base58check_decode_rel s)).
Proof.
  split; [exact @p2sh_agrees|]. split; [exact @p2wsh_agrees|]. split; [exact @multi_new_agrees|]. split; [exact verify_agrees|].
  split; [exact auth_verify_agrees|]. split; [exact verify_origin_agrees|]. split; [exact new_sponsor_agrees|].
  split; [exact sign_origin_agrees|]. split; [exact sign_sponsor_agrees|]. split; [exact tx_sign_agrees | exact base58_agrees].
Qed.
Print Assumptions C86_same.

(** Addresses: the opcodes are taken modulo 256, and every required count with every list of keys has an address. *)
Theorem C86_address : forall m ks,
  hash_p2sh_rel m ks = hash20 (script (Byte.to_N m) ks) /\ hash_p2wsh_rel m ks = hash20 (witness_program (script (Byte.to_N m) ks)).
Proof. intros. split; [apply p2sh_rel | apply p2wsh_rel]. Qed.
Print Assumptions C86_address.

Theorem C86_multi_new : forall ks fee nonce m mode c, @multi_new_rel unit ks fee nonce m mode = Ok c <->
  keys_address mode (Byte.to_N m) ks = Some (ms_signer c)
  /\ ms_mode c = mode /\ ms_fee c = fee /\ ms_nonce c = nonce /\ ms_required c = m /\ ms_fields c = [].
Proof. intros. apply multi_rel_spec. Qed.
Print Assumptions C86_multi_new.

(** The wrapped opcodes leave the address unambiguous, up to hash collisions. *)
Theorem C86_determines : forall mode m m' ks ks' fee nonce fee' nonce' c c',
  Forall (fun k => length k = 33%nat) ks -> Forall (fun k => length k = 33%nat) ks' ->
  @multi_new_rel unit ks fee nonce m mode = Ok c -> @multi_new_rel unit ks' fee' nonce' m' mode = Ok c' -> ms_signer c = ms_signer c' ->
  (m = m' /\ ks = ks') \/ script_clash mode (script (Byte.to_N m) ks) (script (Byte.to_N m') ks').
Proof.
  intros mode m m' ks ks' fee nonce fee' nonce' c c' F F' A A' S. apply multi_rel_spec in A. apply multi_rel_spec in A'.
  destruct A as [A _], A' as [A' _]. rewrite <- S in A'.
  destruct (keys_address_inj_wide mode (Byte.to_N m) (Byte.to_N m') ks ks' _ F F' (b2n_lt m) (b2n_lt m') A A') as [[X Y]|X]; [left | right; exact X].
  split; [|exact Y]. rewrite <- (n2b_b2n m), <- (n2b_b2n m'). change b2n with Byte.to_N. rewrite X. reflexivity.
Qed.
Print Assumptions C86_determines.

(** Accounts of any number of keys, and any required count up to 255, can be signed for and verify. *)
Theorem C86_accounts : forall E t l ks fee nonce m mode c h, ecdsa_correct E -> Forall step_valid l -> map (step_key E) l = ks ->
  @multi_new_rel unit ks fee nonce m mode = Ok c -> count (filter is_sign l) = Byte.to_N m ->
  origin_of t = SMulti c -> initial_hash t = Ok h ->
  exists s s', signer_new t = Ok s /\ outcomes (perform_rel E) s (map step_op l) = (map (fun _ => Ok tt) l, s')
    /\ same_but_signatures t (sg_tx s') /\ tx_verify_origin_rel E (sg_tx s') = Ok (sg_hash s').
Proof. exact plan_rel. Qed.
Print Assumptions C86_accounts.

(** Exactly when a condition is accepted; it never panics. *)
Theorem C86_verify_exact : forall E c h typ h', typed c -> (verify_scond_rel E c h typ = Ok h' <-> satisfied_mod E typ h c h').
Proof. exact verify_rel_iff. Qed.
Print Assumptions C86_verify_exact.

Theorem C86_verify_total : forall E c h typ, typed c -> mode_fits c ->
  (exists h', verify_scond_rel E c h typ = Ok h') \/ (exists e, verify_scond_rel E c h typ = Err e).
Proof. exact verify_rel_total. Qed.
Print Assumptions C86_verify_total.

(** The answer for a multi-signature condition, outcome by outcome. *)
Theorem C86_verify_multi : forall E m h typ, typed (SMulti m) ->
  let t := threshold (SMulti m) in
  ((forall ks n h', ~ chain E typ (ms_fee m) (ms_nonce m) h (ms_fields m) ks n h') ->
     exists e, verify_scond_rel E (SMulti m) h typ = Err (TxHash e))
  /\ (forall ks n h' a, chain E typ (ms_fee m) (ms_nonce m) h (ms_fields m) ks n h' -> keys_address (ms_mode m) t ks = Some a ->
        (n mod 256 < t -> verify_scond_rel E (SMulti m) h typ = Err (TxBadSignatureCount t (n mod 256)))
        /\ (t <= n mod 256 -> a = ms_signer m -> verify_scond_rel E (SMulti m) h typ = Ok h')
        /\ (t <= n mod 256 -> a <> ms_signer m ->
              verify_scond_rel E (SMulti m) h typ = Err (TxBadSigner (hex_text (ms_signer m)) (hex_text a)))).
Proof.
  intros E m h typ T t. cbn [verify_scond_rel typed] in *. split; [apply verify_multi_rel_broken; exact T|].
  intros ks n h' a C A. rewrite (verify_multi_rel_chain E m h typ ks n h' a T C A). cbn [threshold] in t. fold t. split; [|split].
  - intros L. destruct (N.ltb_spec (n mod 256) t); [reflexivity | lia].
  - intros L ->. destruct (N.ltb_spec (n mod 256) t); [lia|]. rewrite bytes_eqb_refl. reflexivity.
  - intros L N. destruct (N.ltb_spec (n mod 256) t); [lia|]. destruct (bytes_eqb_spec a (ms_signer m)); [contradiction | reflexivity].
Qed.
Print Assumptions C86_verify_multi.

(** Acceptance still means enough signatures by the account's keys. *)
Theorem C86_sound : forall E m h typ h' ks, ecdsa_correct E -> typed (SMulti m) ->
  keys_address (ms_mode m) (Byte.to_N (ms_required m)) ks = Some (ms_signer m) -> Forall (fun k => length k = 33%nat) ks ->
  verify_scond_rel E (SMulti m) h typ = Ok h' ->
  exists ks', chain E typ (ms_fee m) (ms_nonce m) h (ms_fields m) ks' (held (SMulti m)) h'
    /\ threshold (SMulti m) <= held (SMulti m)
    /\ (ks' = ks \/ script_clash (ms_mode m) (script (threshold (SMulti m)) ks') (script (threshold (SMulti m)) ks)).
Proof.
  intros E m h typ h' ks C T K L H. apply verify_rel_iff in H; [|exact T]. inversion H as [|m' ks' n h0 Ch R A]; subst.
  exists ks'. destruct (chain_counts _ _ _ _ _ _ _ _ _ Ch) as [_ N]. cbn [held threshold]. rewrite <- N.
  split; [exact Ch|]. split; [pose proof (N.mod_le n 256); lia|].
  destruct (keys_address_inj_wide (ms_mode m) (Byte.to_N (ms_required m)) (Byte.to_N (ms_required m)) ks' ks (ms_signer m)) as [[_ X]|X];
    auto; try apply b2n_lt. eapply chain_keys; eauto.
Qed.
Print Assumptions C86_sound.

(** Finding: signatures are counted modulo 256, so a condition with 256 good signatures is refused as having none. *)
Lemma many_signatures E sk typ fee nonce : ecdsa_correct E -> valid_key sk -> forall n h, exists fs h',
  Forall typed_field fs /\ chain E typ fee nonce h fs (repeat (pubkey_of E sk) n) (N.of_nat n) h'.
Proof.
  intros C V. induction n as [|n IH]; intros h; [exists [], h; split; constructor|].
  set (d := digest h typ fee nonce). set (sig := sig_bytes (sign_rec E d sk)).
  destruct (IH (link d sig)) as (fs & h' & T & Ch). exists (FSig sig :: fs), h'. split.
  - constructor; [|exact T]. apply sig_bytes_length. apply C; auto. apply digest_length.
  - cbn [repeat]. replace (N.of_nat (S n)) with (1 + N.of_nat n) by lia. econstructor; [|exact Ch].
    apply signed_recovers; auto. apply digest_length.
Qed.
Theorem C86_miscount_refuted : exists E m h typ ks h', ecdsa_correct E /\ typed (SMulti m) /\ mode_fits (SMulti m)
  /\ chain E typ (ms_fee m) (ms_nonce m) h (ms_fields m) ks (held (SMulti m)) h'
  /\ keys_address (ms_mode m) (threshold (SMulti m)) ks = Some (ms_signer m) /\ threshold (SMulti m) <= held (SMulti m)
  /\ verify_scond_rel E (SMulti m) h typ = Err (TxBadSignatureCount 1 0).
Proof.
  destruct (many_signatures toy sk1 x04 5 6 toy_correct sk1_valid 256%nat (repeat x05 32)) as (fs & h' & T & Ch).
  set (ks := repeat (pubkey_of toy sk1) 256) in *.
  set (m := {| ms_mode := P2SH; ms_fee := 5; ms_nonce := 6; ms_signer := hash20 (script 1 ks); ms_fields := fs; ms_required := x01 |}).
  exists toy, m, (repeat x05 32), x04, ks, h'.
  assert (held (SMulti m) = 256) as Hd by (cbn [held m ms_fields]; rewrite <- (proj2 (chain_counts _ _ _ _ _ _ _ _ _ Ch)); reflexivity).
  split; [exact toy_correct|]. split; [exact T|]. split; [left; reflexivity|]. rewrite Hd. split; [exact Ch|]. split; [reflexivity|].
  split; [cbn; lia|]. cbn [verify_scond_rel].
  rewrite (verify_multi_rel_chain toy m (repeat x05 32) x04 ks 256 h' (hash20 (script 1 ks)) T Ch eq_refl). reflexivity.
Qed.
Print Assumptions C86_miscount_refuted.

(** Signing: the guard against too many signatures counts them modulo 65536. *)
Theorem C86_sign_origin : forall E s sk, ecdsa_correct E -> valid_key sk -> mode_fits (origin_of (sg_tx s)) ->
  let o := origin_of (sg_tx s) in
  let sig := fresh_signature E (sg_hash s) x04 o sk in
  (frozen s -> sign_origin_rel E s sk = (s, Err TxOriginPostSponsorSign))
  /\ (~ frozen s -> sg_oversign s = true -> threshold o <= held o mod 2 ^ 16 -> sign_origin_rel E s sk = (s, Err TxOriginOversign))
  /\ (~ frozen s -> sg_oversign s = false \/ held o mod 2 ^ 16 < threshold o ->
       sign_origin_rel E s sk =
         ({| sg_tx := origin_becomes (sg_tx s) (with_signature o sig); sg_hash := link (digest (sg_hash s) x04 (fee_of o) (nonce_of o)) sig;
             sg_origin_signed := sg_origin_signed s; sg_oversign := sg_oversign s; sg_overlap := sg_overlap s |}, Ok tt)).
Proof.
  intros E s sk C V M o sig. unfold frozen.
  assert (O : auth_origin (tx_auth (sg_tx s)) = o) by (symmetry; apply origin_eq).
  split; [intros [A B]; unfold sign_origin_rel; rewrite A, B; reflexivity|].
  assert (N : ~ (sg_overlap s = true /\ sg_origin_signed s = true) -> sg_overlap s && sg_origin_signed s = false).
  { destruct (sg_overlap s), (sg_origin_signed s); auto. intros H. exfalso. auto. }
  split.
  - intros F V' H. unfold sign_origin_rel. rewrite (N F), V', O, signatures_rel_eq, req_threshold. cbn [andb].
    destruct (N.leb_spec (threshold o) (held o mod 2 ^ 16)); [reflexivity | lia].
  - intros F H. unfold sign_origin_rel. rewrite (N F), O, signatures_rel_eq, req_threshold.
    assert (sg_oversign s && (threshold o <=? held o mod 2 ^ 16) = false) as ->.
    { destruct (sg_oversign s); [|reflexivity]. destruct H as [H|H]; [discriminate|]. cbn [andb]. apply N.leb_gt. exact H. }
    unfold sign_next_origin. rewrite O. change auth_type_standard with x04. rewrite sign_append_ok by assumption. cbn beta iota.
    repeat f_equal. unfold origin_becomes, tx_with_auth, auth_with_origin. destruct (sg_tx s) as [? ? [a|a b] ? ? ? ?]; reflexivity.
Qed.
Print Assumptions C86_sign_origin.

Theorem C86_sign_sponsor : forall E s sk, ecdsa_correct E -> valid_key sk ->
  (sponsor_of (sg_tx s) = None -> sign_sponsor_rel E s sk = (s, Err TxBadModification))
  /\ (forall p, sponsor_of (sg_tx s) = Some p -> mode_fits p ->
      let sig := fresh_signature E (sg_hash s) x05 p sk in
      (sg_oversign s = true -> threshold p <= held p mod 2 ^ 16 -> sign_sponsor_rel E s sk = (s, Err TxSponsorOversign))
      /\ (sg_oversign s = false \/ held p mod 2 ^ 16 < threshold p ->
          sign_sponsor_rel E s sk =
            ({| sg_tx := sponsor_becomes (sg_tx s) (with_signature p sig); sg_hash := link (digest (sg_hash s) x05 (fee_of p) (nonce_of p)) sig;
                sg_origin_signed := true; sg_oversign := sg_oversign s; sg_overlap := sg_overlap s |}, Ok tt))).
Proof.
  intros E s sk C V. unfold sponsor_of. split.
  { unfold sign_sponsor_rel. destruct (tx_auth (sg_tx s)); [reflexivity | discriminate]. }
  intros p Sp M. destruct (tx_auth (sg_tx s)) as [a|a q] eqn:A; [discriminate|]. injection Sp as ->. split.
  - intros V' H. unfold sign_sponsor_rel. rewrite A. cbn [auth_sponsor]. rewrite V', signatures_rel_eq, req_threshold. cbn [andb].
    destruct (N.leb_spec (threshold p) (held p mod 2 ^ 16)); [reflexivity | lia].
  - intros H. unfold sign_sponsor_rel. rewrite A. cbn [auth_sponsor]. rewrite signatures_rel_eq, req_threshold.
    assert (sg_oversign s && (threshold p <=? held p mod 2 ^ 16) = false) as ->.
    { destruct (sg_oversign s); [|reflexivity]. destruct H as [H|H]; [discriminate|]. cbn [andb]. apply N.leb_gt. exact H. }
    unfold sign_next_sponsor. rewrite A. change auth_type_sponsored with x05. rewrite sign_append_ok by assumption. cbn beta iota.
    repeat f_equal. unfold sponsor_becomes, auth_becomes, tx_with_auth, origin_of. rewrite A. reflexivity.
Qed.
Print Assumptions C86_sign_sponsor.

(** Finding: with 65536 signatures already held, one more is added although 1 is required and the guard is on. *)
Definition ex_crowd : sc_multi :=
  {| ms_mode := P2SH; ms_fee := 5; ms_nonce := 6; ms_signer := repeat x01 20;
     ms_fields := repeat (FSig (repeat x07 65)) (N.to_nat 65536); ms_required := x01 |}.
Definition crowded : signer :=
  {| sg_tx := auth_becomes ex_unsigned (AStandard (SMulti ex_crowd)); sg_hash := repeat x05 32;
     sg_origin_signed := false; sg_oversign := true; sg_overlap := true |}.
Lemma crowd_held : held (SMulti ex_crowd) = 65536.
Proof.
  cbn [held ex_crowd ms_fields]. generalize (FSig (repeat x07 65)) (eq_refl : is_sig (FSig (repeat x07 65)) = true). intros f F.
  assert (forall n, count (filter is_sig (repeat f n)) = N.of_nat n) as H.
  { unfold count. induction n as [|n IH]; [reflexivity|]. cbn [repeat filter]. rewrite F. cbn [length]. lia. }
  rewrite H. apply N2Nat.id.
Qed.
Theorem C86_oversign_refuted : exists E s sk, ecdsa_correct E /\ valid_key sk /\ mode_fits (origin_of (sg_tx s)) /\ ~ frozen s
  /\ sg_oversign s = true /\ threshold (origin_of (sg_tx s)) < held (origin_of (sg_tx s)) /\ snd (sign_origin_rel E s sk) = Ok tt.
Proof.
  exists toy, crowded, sk1. assert (origin_of (sg_tx crowded) = SMulti ex_crowd) as O by reflexivity.
  assert (M : mode_fits (origin_of (sg_tx crowded))) by (left; reflexivity).
  assert (F : ~ frozen crowded) by (intros [_ H]; discriminate H).
  split; [exact toy_correct|]. split; [exact sk1_valid|]. split; [exact M|]. split; [exact F|]. split; [reflexivity|].
  rewrite O, crowd_held. split; [cbn; lia|].
  rewrite (proj2 (proj2 (C86_sign_origin toy crowded sk1 toy_correct sk1_valid M)) F); [reflexivity|].
  right. rewrite O, crowd_held. reflexivity.
Qed.
Print Assumptions C86_oversign_refuted.

(** With the guard on and fewer than 65536 signatures to begin with, every sequence of the signer's operations
    gives the same results, one by one, and the same signer in both builds. *)
Theorem C86_histories : forall E s l, sg_oversign s = true -> countable (sg_tx s) ->
  outcomes (perform_rel E) s l = outcomes (perform E) s l.
Proof. intros. apply outcomes_same; assumption. Qed.
Print Assumptions C86_histories.

(** Base58Check texts of fewer than four bytes still panic, with an index out of range instead. *)
Theorem C86_base58check : forall s b, b58_decode s = Ok b ->
  ((length b <= 4)%nat -> base58check_decode_rel s = Panic PIndex)
  /\ ((4 < length b)%nat -> base58check_decode_rel s = base58check_decode s).
Proof.
  intros s b D. split.
  - intros L. unfold base58check_decode_rel. rewrite D. cbn [bind]. destruct (Nat.ltb_spec (length b - 4) 1); [reflexivity | lia].
  - intros L. apply base58_agrees. unfold base58check_decode. rewrite D. cbn [bind]. destruct (Nat.ltb_spec (length b) 4); [lia|].
    destruct (Nat.ltb_spec (length b - 4) 1); [lia|]. destruct (bytes_eqb _ _); [|discriminate]. destruct b; [cbn in L; lia | discriminate].
Qed.
Print Assumptions C86_base58check.

(** 200 keys, one signature required: no account in a debug build, an account in a release build. *)
Example C86_ex : @multi_new unit (repeat pk1 200) 1 2 x01 P2SH = Panic POverflow
  /\ (exists c, @multi_new_rel unit (repeat pk1 200) 1 2 x01 P2SH = Ok c)
  /\ (Forall step_valid (Sign sk1 :: repeat (List pk1) 199) /\ map (step_key toy) (Sign sk1 :: repeat (List pk1) 199) = repeat pk1 200
      /\ count (filter is_sign (Sign sk1 :: repeat (List pk1) 199)) = Byte.to_N x01)
  /\ countable ex_multi_tx /\ b58_decode (str "2g") = Ok [x61] /\ base58check_decode_rel (str "2g") = Panic PIndex.
Proof.
  split; [reflexivity|]. split; [eexists; reflexivity|]. split.
  { split; [|split; reflexivity]. constructor; [exact sk1_valid|]. apply Forall_forall. intros x H. apply repeat_spec in H. subst x. reflexivity. }
  split; [split; [vm_compute; reflexivity | discriminate]|]. split; vm_compute; reflexivity.
Qed.
