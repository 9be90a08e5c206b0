(** Theorems about verification, signing histories and signing plans. *)

From Coq Require Import Lia ZifyBool ZifyNat ZifyN.
From Verif Require Import Base BaseFacts Hex SpecText NumFacts Sha2 Ripemd Hash HashFacts C32 Clarity SpecWire Tx SpecTx Signer
  WireFacts ClarityFacts TxThms SpecSign SignFacts.
Local Open Scope N_scope.

(** ** Verification of one condition *)

Lemma single_hash_iff (mode : hmode) pk a :
  (match mode with P2PKH => Ok (hash_p2pkh pk) | P2WPKH => Ok (hash_p2wpkh pk) | _ => Panic PExplicit end : res tx_err bytes) = Ok a
  <-> key_address mode pk = Some a.
Proof.
  destruct mode; try (split; discriminate).
  - rewrite p2pkh_eq. split; intros H; inversion H; reflexivity.
  - rewrite p2wpkh_eq. split; intros H; inversion H; reflexivity.
Qed.

Lemma verify_std_iff E s h typ h' : length (std_sig s) = 65%nat ->
  (verify_std E s h typ = Ok h' <-> satisfied E typ h (SStd s) h').
Proof.
  intros L. unfold verify_std. split.
  - rewrite bind_ok. intros ((pk & nx) & V & H). rewrite map_err_ok in V. apply next_verify_iff in V; [|exact L].
    destruct V as [R ->]. apply bind_ok in H. destruct H as (a & A & H). apply single_hash_iff in A.
    destruct (bytes_eqb_spec a (std_signer s)) as [->|]; [|discriminate]. okinv H. exact (sat_single E typ h s pk R A).
  - intros H. inversion H as [s' pk R A|]; subst.
    rewrite (proj2 (map_err_ok TxHash _ _) (proj2 (next_verify_iff E h typ _ _ _ pk _ L) (conj R eq_refl))). cbn [bind].
    rewrite (proj2 (single_hash_iff _ _ _) A). cbn [bind]. rewrite bytes_eqb_refl. reflexivity.
Qed.

Lemma verify_fields_iff E typ fee nonce fs : Forall typed_field fs -> forall h keys cnt ks' h' n', cnt < 256 ->
  (verify_fields E fs h typ fee nonce keys cnt = Ok (ks', h', n') <->
   exists ks n, chain E typ fee nonce h fs ks n h' /\ ks' = keys ++ ks /\ n' = cnt + n /\ n' < 256).
Proof.
  induction 1 as [|f fs T F IH]; intros h keys cnt ks' h' n' B; cbn [verify_fields].
  - split.
    + intros H. okinv H. apply pair_equal_spec in H. destruct H as [H <-]. apply pair_equal_spec in H. destruct H as [<- <-].
      exists [], 0. rewrite app_nil_r. splits; try lia; constructor.
    + intros (ks & n & C & -> & -> & _). inversion C; subst. rewrite app_nil_r, N.add_0_r. reflexivity.
  - destruct f as [pk|sig].
    + rewrite IH by exact B. split.
      * intros (ks & n & C & -> & -> & Bn). exists (pk :: ks), n. splits; auto; [constructor; exact C|]. rewrite <- app_assoc. reflexivity.
      * intros (ks & n & C & -> & -> & Bn). inversion C; subst. eexists _, _. splits; eauto. rewrite <- app_assoc. reflexivity.
    + cbn [typed_field] in T. split.
      * rewrite bind_ok. intros ((pk & nx) & V & H). rewrite map_err_ok in V. apply next_verify_iff in V; [|exact T].
        destruct V as [R ->]. destruct (N.ltb_spec (cnt + 1) 256) as [B'|]; [|discriminate]. apply IH in H; [|exact B'].
        destruct H as (ks & n & C & -> & -> & Bn). exists (pk :: ks), (1 + n).
        splits; auto; [econstructor; eauto | rewrite <- app_assoc; reflexivity | lia].
      * intros (ks & n & C & -> & -> & Bn). inversion C as [| |? ? pk ? ks1 n1 ? R C1]; subst.
        rewrite (proj2 (map_err_ok TxHash _ _) (proj2 (next_verify_iff E h typ fee nonce sig pk _ T) (conj R eq_refl))). cbn [bind].
        destruct (N.ltb_spec (cnt + 1) 256); [|lia]. apply IH; [lia|]. exists ks1, n1.
        splits; auto; [rewrite <- app_assoc; reflexivity | lia].
Qed.

Lemma verify_multi_iff E m h typ h' : Forall typed_field (ms_fields m) ->
  (verify_multi E m h typ = Ok h' <-> satisfied E typ h (SMulti m) h').
Proof.
  intros T. unfold verify_multi. split.
  - rewrite bind_ok. intros (((ks & nx) & n) & V & H). apply verify_fields_iff in V; [|exact T|lia].
    destruct V as (ks0 & n0 & C & -> & -> & B). cbn [app] in *. rewrite N.add_0_l in *.
    change b2n with Byte.to_N in H. destruct (N.ltb_spec n0 (Byte.to_N (ms_required m))); [discriminate|].
    apply bind_ok in H. destruct H as (a & A & H). change (@multi_hash tx_err (ms_mode m) (ms_required m) ks0 = Ok a) in A.
    apply multi_hash_iff in A. destruct A as [Fi A].
    destruct (bytes_eqb_spec a (ms_signer m)) as [->|]; [|discriminate]. okinv H. econstructor; eauto.
  - intros H. inversion H as [|m' ks n h0 C R B Fi A]; subst.
    rewrite (proj2 (verify_fields_iff E typ _ _ _ T h [] 0 ks h' n eq_refl)) by (exists ks, n; splits; auto; lia).
    cbn [bind]. change b2n with Byte.to_N. destruct (N.ltb_spec n (Byte.to_N (ms_required m))); [lia|].
    change (bind (multi_hash (ms_mode m) (ms_required m) ks)
              (fun signer => if bytes_eqb signer (ms_signer m) then @Ok tx_err bytes h'
                             else Err (TxBadSigner (bytes_to_hex (ms_signer m)) (bytes_to_hex signer))) = Ok h').
    rewrite (proj2 (multi_hash_iff _ _ _ _) (conj Fi A)). cbn [bind]. rewrite bytes_eqb_refl. reflexivity.
Qed.

Lemma verify_iff E c h typ h' : typed c -> (verify_scond E c h typ = Ok h' <-> satisfied E typ h c h').
Proof. intros T. destruct c; [apply verify_std_iff | apply verify_multi_iff]; exact T. Qed.

(** ** Chains *)

Lemma chain_counts E typ fee nonce h fs ks n h' : chain E typ fee nonce h fs ks n h' ->
  length ks = length fs /\ n = count (filter is_sig fs).
Proof.
  induction 1 as [|h pk fs ks n h' C IH|h sig pk fs ks n h' R C IH]; [split; reflexivity| |]; destruct IH as [L ->]; cbn [length filter is_sig].
  - split; congruence.
  - split; [congruence|]. unfold count. cbn [length]. lia.
Qed.

Lemma chain_keys E typ fee nonce h fs ks n h' : ecdsa_correct E -> Forall typed_field fs -> chain E typ fee nonce h fs ks n h' ->
  Forall (fun k => length k = 33%nat) ks.
Proof.
  intros EC T C. induction C as [|h pk fs ks n h' C IH|h sig pk fs ks n h' R C IH]; [constructor| |]; inversion T; subst; constructor; auto.
  destruct R as (r & _ & _ & R). apply (recover_length E EC _ _ _ R).
Qed.

Lemma chain_app E typ fee nonce h fs ks n h1 fs' ks' n' h2 :
  chain E typ fee nonce h fs ks n h1 -> chain E typ fee nonce h1 fs' ks' n' h2 ->
  chain E typ fee nonce h (fs ++ fs') (ks ++ ks') (n + n') h2.
Proof.
  intros C. induction C as [|h pk fs ks n h' C IH|h sig pk fs ks n h' R C IH]; intros D; [exact D| |].
  - cbn [app]. constructor. auto.
  - cbn [app]. rewrite <- N.add_assoc. econstructor; eauto.
Qed.

(** ** Verification does not panic, except for oversized multi-signature conditions *)

Lemma verify_fields_total E typ fee nonce fs : Forall typed_field fs -> forall h keys cnt,
  (exists ks h' n, verify_fields E fs h typ fee nonce keys cnt = Ok (ks, h', n) /\ length ks = (length keys + length fs)%nat)
  \/ (exists e, verify_fields E fs h typ fee nonce keys cnt = Err (TxHash e))
  \/ (verify_fields E fs h typ fee nonce keys cnt = Panic POverflow /\ 256 <= cnt + count (filter is_sig fs)).
Proof.
  induction 1 as [|f fs T F IH]; intros h keys cnt; cbn [verify_fields].
  - left. eexists _, _, _. split; [reflexivity|]. cbn [length]. lia.
  - destruct f as [pk|sig]; cbn [filter is_sig].
    + destruct (IH h (keys ++ [pk]) cnt) as [(ks & h' & n & H & L)|[X|X]]; [left|right; left; exact X|right; right; exact X].
      eexists _, _, _. split; [exact H|]. rewrite app_length in L. cbn [length] in *. lia.
    + destruct (next_verify_total E h typ fee nonce sig T) as [[[pk nx] ->]|[e ->]]; cbn [map_err bind]; [|eauto].
      destruct (N.ltb_spec (cnt + 1) 256).
      * destruct (IH nx (keys ++ [pk]) (cnt + 1)) as [(ks & h' & n & H' & L)|[X|[X Y]]].
        -- left. eexists _, _, _. split; [exact H'|]. rewrite app_length in L. cbn [length] in *. lia.
        -- right; left; exact X.
        -- right; right. split; [exact X|]. unfold count in *. cbn [length]. lia.
      * right; right. split; [reflexivity|]. unfold count. cbn [length]. lia.
Qed.

Lemma verify_no_panic E c h typ : typed c -> mode_fits c ->
  (exists h', verify_scond E c h typ = Ok h') \/ (exists e, verify_scond E c h typ = Err e)
  \/ (verify_scond E c h typ = Panic POverflow
      /\ exists m, c = SMulti m /\ (256 <= held c \/ 175 < threshold c \/ 175 < count (ms_fields m) mod 256)).
Proof.
  intros T M. destruct c as [s|m]; cbn [verify_scond typed mode_fits] in *.
  - unfold verify_std. destruct (next_verify_total E h typ (std_fee s) (std_nonce s) (std_sig s) T) as [[[pk nx] ->]|[e ->]];
      cbn [map_err bind]; [|eauto].
    destruct M as [-> | ->]; cbn [bind]; destruct (bytes_eqb _ _); eauto.
  - unfold verify_multi. destruct (verify_fields_total E typ (ms_fee m) (ms_nonce m) _ T h [] 0)
      as [(ks & h' & n & -> & L)|[[e ->]|[-> B]]]; cbn [bind].
    + change b2n with Byte.to_N. destruct (N.ltb_spec n (Byte.to_N (ms_required m))); [eauto|].
      destruct (@multi_hash_cases tx_err (ms_mode m) (ms_required m) ks M) as [(F & a & A)|(F & A)];
        unfold multi_hash in A; rewrite A; cbn [bind].
      * destruct (bytes_eqb _ _); eauto.
      * right; right. split; [reflexivity|]. exists m. split; [reflexivity|]. right. cbn [threshold].
        unfold script_fits, count in *. rewrite L in F. cbn [length Nat.add] in F. lia.
    + eauto.
    + right; right. split; [reflexivity|]. exists m. split; [reflexivity|]. left. exact B.
Qed.

(** ** Reachable conditions *)

Lemma sig_default_eq : sig_default = repeat x00 65.
Proof. reflexivity. Qed.

Lemma modify_fits c cmd : mode_fits c -> mode_fits (fst (modify c cmd)).
Proof. destruct c, cmd; auto. Qed.
Lemma modify_typed c cmd : typed c -> typed_change cmd -> typed (fst (modify c cmd)).
Proof.
  destruct c, cmd; cbn [modify fst typed typed_change std_sig ms_fields]; auto; intros F L; apply Forall_app; split; auto.
Qed.

Lemma next_signature_length E h typ fee nonce sk sig h' : next_signature E h typ fee nonce sk = Ok (sig, h') -> length sig = 65%nat.
Proof.
  unfold next_signature. rewrite digest_eq, message_ok by apply digest_length. cbn [bind]. rewrite bind_ok. intros (x & X & H).
  okinv H. apply pair_equal_spec in H. destruct H as [<- _]. revert X. unfold msig_from_recov, msig_from_slice.
  destruct (_ <? _); [|discriminate]. destruct (Nat.eqb_spec (length (n2b (rs_id (sign_rec E (digest h typ fee nonce) sk))
                                                    :: rs_bytes (sign_rec E (digest h typ fee nonce) sk))) 65) as [L|]; [|discriminate].
  intros H. okinv H. exact L.
Qed.

(** What signing does to a condition. *)
Lemma sign_append_cases E c h typ sk : mode_fits c ->
  (exists sig h', next_signature E h typ (sc_fee c) (sc_nonce c) sk = Ok (sig, h') /\ length sig = 65%nat /\
     sign_and_append E c h typ sk =
       (fst (modify c match c with SStd _ => MSetSignature sig | SMulti _ => MAddSignature sig end), Ok h'))
  \/ (exists e, sign_and_append E c h typ sk = (c, Err (TxHash e))).
Proof.
  intros M. unfold sign_and_append. destruct (next_signature E h typ (sc_fee c) (sc_nonce c) sk) as [[sig h']|e|p|] eqn:X; cbn [map_err].
  - left. exists sig, h'. split; [reflexivity|]. split; [apply next_signature_length in X; exact X|].
    destruct c as [s|m]; cbn [mode_fits sc_mode] in *; destruct M as [-> | ->]; reflexivity.
  - right. eauto.
  - exfalso. revert X. unfold next_signature. rewrite digest_eq, message_ok by apply digest_length. cbn [bind].
    unfold msig_from_recov, msig_from_slice. destruct (_ <? _); [|discriminate]. destruct (Nat.eqb _ _); discriminate.
  - exfalso. revert X. unfold next_signature. rewrite digest_eq, message_ok by apply digest_length. cbn [bind].
    unfold msig_from_recov, msig_from_slice. destruct (_ <? _); [|discriminate]. destruct (Nat.eqb _ _); discriminate.
Qed.

Lemma reachable_fits E c : reachable E c -> mode_fits c /\ typed c.
Proof.
  induction 1 as [pk fee nonce mode s H| |pks fee nonce required mode m H|c cmd R [M T] L|c R [M T]|c f R [M T]|c n R [M T]|c h typ sk R [M T]].
  - unfold std_new in H. destruct mode; try discriminate; okinv H; cbn; split; auto; reflexivity.
  - cbn. split; auto; reflexivity.
  - unfold multi_new in H. apply bind_ok in H. destruct H as (a & A & H). destruct mode; try discriminate; okinv H; cbn; split; auto; constructor.
  - split; [apply modify_fits | apply modify_typed]; auto.
  - destruct c; cbn in *; split; auto; reflexivity.
  - destruct c; cbn in *; auto.
  - destruct c; cbn in *; auto.
  - destruct (sign_append_cases E c h typ sk M) as [(sig & h' & _ & L & ->)|[e ->]]; cbn [fst]; [|auto].
    split; [apply modify_fits; auto|]. apply modify_typed; auto. destruct c; exact L.
Qed.

Lemma std_new_iff {X} pk fee nonce mode :
  (exists s, @std_new X pk fee nonce mode = Ok s) \/ (@std_new X pk fee nonce mode = Panic PExplicit /\ (mode = P2SH \/ mode = P2WSH)).
Proof. destruct mode; cbn; eauto. Qed.

Lemma std_new_spec {X} pk fee nonce mode s : @std_new X pk fee nonce mode = Ok s ->
  std_mode s = mode /\ std_fee s = fee /\ std_nonce s = nonce /\ key_address mode pk = Some (std_signer s) /\ std_sig s = repeat x00 65.
Proof.
  unfold std_new. destruct mode; try discriminate; intros H; okinv H; cbn [std_mode std_fee std_nonce std_signer std_sig].
  - exact (conj eq_refl (conj eq_refl (conj eq_refl (conj (p2pkh_eq pk) eq_refl)))).
  - exact (conj eq_refl (conj eq_refl (conj eq_refl (conj (p2wpkh_eq pk) eq_refl)))).
Qed.

Lemma multi_new_spec {X} pks fee nonce required mode m : @multi_new X pks fee nonce required mode = Ok m ->
  ms_mode m = mode /\ ms_fee m = fee /\ ms_nonce m = nonce /\ ms_required m = required /\ ms_fields m = []
  /\ keys_address mode (Byte.to_N required) pks = Some (ms_signer m) /\ script_fits (Byte.to_N required) pks.
Proof.
  unfold multi_new. rewrite bind_ok. intros (a & A & H). change (@multi_hash X mode required pks = Ok a) in A.
  apply multi_hash_iff in A. okinv H. cbn. tauto.
Qed.

Lemma multi_new_cases {X} pks fee nonce required mode :
  (script_fits (Byte.to_N required) pks /\ (mode = P2SH \/ mode = P2WSH) /\ exists m, @multi_new X pks fee nonce required mode = Ok m)
  \/ (@multi_new X pks fee nonce required mode = Panic PExplicit /\ (mode = P2PKH \/ mode = P2WPKH))
  \/ (@multi_new X pks fee nonce required mode = Panic POverflow /\ ~ script_fits (Byte.to_N required) pks).
Proof.
  unfold multi_new. change (match mode with P2SH => hash_p2sh required pks | P2WSH => hash_p2wsh required pks | _ => Panic PExplicit end)
    with (@multi_hash X mode required pks).
  destruct mode.
  - right; left. auto.
  - destruct (@multi_hash_cases X P2SH required pks (or_introl eq_refl)) as [(F & a & ->)|(F & ->)]; cbn [bind]; eauto 6.
  - right; left. auto.
  - destruct (@multi_hash_cases X P2WSH required pks (or_intror eq_refl)) as [(F & a & ->)|(F & ->)]; cbn [bind]; eauto 6.
Qed.
