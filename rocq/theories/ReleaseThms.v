(** Theorems about release builds. *)

From Coq Require Import Lia ZifyBool ZifyNat ZifyN.
From Verif Require Import Base BaseFacts Hex HexFacts SpecText NumFacts Sha2 Ripemd Hash HashFacts C32 B58 Clarity SpecWire Tx SpecTx Signer
  WireFacts ClarityFacts TxThms SpecSign SignFacts SignThms HistThms PlanThms Release SpecRelease.
Local Open Scope N_scope.

(** ** Scripts *)

Lemma u8_wrap80 n : u8_wrap (n2b n) (n2b 80) = octet (80 + n).
Proof.
  unfold u8_wrap. change (b2n (n2b 80)) with 80. change octet with n2b.
  rewrite <- (n2b_mod n), b2n_n2b_small by (apply N.mod_lt; lia).
  replace (n mod 256 + 80) with (80 + n mod 256) by lia. change n2b with octet. apply octet_add.
Qed.

Lemma multisig_script_rel_eq m keys : multisig_script_rel m keys = script (Byte.to_N m) keys.
Proof.
  unfold multisig_script_rel, script. rewrite <- (n2b_b2n m) at 1. rewrite !u8_wrap80. change b2n with Byte.to_N.
  change @lenN with @count. rewrite flat_concat. reflexivity.
Qed.

Lemma p2sh_rel m keys : hash_p2sh_rel m keys = hash20 (script (Byte.to_N m) keys).
Proof. unfold hash_p2sh_rel. rewrite multisig_script_rel_eq. reflexivity. Qed.
Lemma p2wsh_rel m keys : hash_p2wsh_rel m keys = hash20 (witness_program (script (Byte.to_N m) keys)).
Proof. unfold hash_p2wsh_rel. rewrite multisig_script_rel_eq. unfold lenN. rewrite sha256_length. reflexivity. Qed.

Definition multi_hash_rel {E} (mode : hmode) (m : byte) (keys : list bytes) : res E bytes :=
  match mode with P2SH => Ok (hash_p2sh_rel m keys) | P2WSH => Ok (hash_p2wsh_rel m keys) | _ => Panic PExplicit end.
Lemma multi_hash_rel_eq {E} mode m keys : @multi_hash_rel E mode m keys =
  match keys_address mode (Byte.to_N m) keys with Some a => Ok a | None => Panic PExplicit end.
Proof. destruct mode; cbn [multi_hash_rel keys_address]; rewrite ?p2sh_rel, ?p2wsh_rel; reflexivity. Qed.

Lemma p2sh_agrees {E} m keys : agrees (@hash_p2sh E m keys) (Ok (hash_p2sh_rel m keys)).
Proof. unfold agrees, hash_p2sh. rewrite p2sh_rel, multisig_script_eq. destruct (_ && _); cbn [bind]; [reflexivity | congruence]. Qed.
Lemma p2wsh_agrees {E} m keys : agrees (@hash_p2wsh E m keys) (Ok (hash_p2wsh_rel m keys)).
Proof.
  unfold agrees, hash_p2wsh. rewrite p2wsh_rel, multisig_script_eq. destruct (_ && _); [|cbn [bind]; congruence].
  intros _. cbn [bind]. unfold lenN. rewrite sha256_length. reflexivity.
Qed.

Lemma multi_hash_agrees {E} mode m keys : agrees (@multi_hash E mode m keys) (multi_hash_rel mode m keys).
Proof. destruct mode; cbn [multi_hash multi_hash_rel]; try (intros _; reflexivity); [apply p2sh_agrees | apply p2wsh_agrees]. Qed.

Lemma agrees_bind {E A B} (r s : res E A) (f g : A -> res E B) : agrees r s -> (forall x, r = Ok x -> agrees (f x) (g x)) ->
  agrees (bind r f) (bind s g).
Proof.
  unfold agrees. intros H F N. destruct r as [x|e|p|]; cbn [bind] in *.
  - rewrite H by discriminate. apply F; auto.
  - rewrite H by discriminate. reflexivity.
  - rewrite H by congruence. reflexivity.
  - rewrite H by discriminate. reflexivity.
Qed.
Lemma agrees_refl {E A} (r : res E A) : agrees r r.
Proof. intros _. reflexivity. Qed.

Lemma multi_new_agrees {E} pks fee nonce required mode :
  agrees (@multi_new E pks fee nonce required mode) (multi_new_rel pks fee nonce required mode).
Proof. apply agrees_bind; [apply multi_hash_agrees | intros; apply agrees_refl]. Qed.

(** ** Verification *)

Lemma verify_fields_agrees E typ fee nonce fs : forall h keys n, n < 256 ->
  agrees (verify_fields E fs h typ fee nonce keys n) (verify_fields_rel E fs h typ fee nonce keys n).
Proof.
  induction fs as [|[pk|sig] fs IH]; intros h keys n B; cbn [verify_fields verify_fields_rel]; [apply agrees_refl | apply IH, B|].
  apply agrees_bind; [apply agrees_refl|]. intros [pk h1] _. destruct (N.ltb_spec (n + 1) 256); [|unfold agrees; congruence].
  rewrite N.mod_small by assumption. apply IH. assumption.
Qed.

Lemma verify_agrees E c h typ : agrees (verify_scond E c h typ) (verify_scond_rel E c h typ).
Proof.
  destruct c as [s|m]; cbn [verify_scond verify_scond_rel]; [apply agrees_refl|].
  apply agrees_bind; [apply verify_fields_agrees; lia|]. intros [[ks nx] n] _. destruct (_ <? _); [apply agrees_refl|].
  apply agrees_bind; [apply multi_hash_agrees | intros; apply agrees_refl].
Qed.

Lemma auth_verify_agrees E a h : agrees (auth_verify E a h) (auth_verify_rel E a h).
Proof.
  destruct a; cbn [auth_verify auth_verify_rel]; [apply agrees_refl|].
  apply agrees_bind; [apply verify_agrees|]. intros. apply agrees_bind; [apply verify_agrees | intros; apply agrees_refl].
Qed.
Lemma verify_origin_agrees E t : agrees (tx_verify_origin E t) (tx_verify_origin_rel E t).
Proof. apply agrees_bind; [apply agrees_refl|]. intros. apply verify_agrees. Qed.
Lemma new_sponsor_agrees E t p : agrees (signer_new_sponsor E t p) (signer_new_sponsor_rel E t p).
Proof.
  unfold signer_new_sponsor, signer_new_sponsor_rel. destruct (negb _); [apply agrees_refl|]. destruct (auth_set_sponsor _ _) as [a r].
  apply agrees_bind; [apply agrees_refl|]. intros. apply agrees_bind; [apply verify_origin_agrees | intros; apply agrees_refl].
Qed.

(** ** Signing *)

Lemma count_sigs_rel_eq fs : forall n, n < 65536 -> count_sigs_rel fs n = (n + count (filter is_sig fs)) mod 65536.
Proof.
  induction fs as [|[pk|sig] fs IH]; intros n B; cbn [count_sigs_rel filter is_sig].
  - unfold count. cbn [length]. rewrite N.mod_small; lia.
  - apply IH, B.
  - rewrite IH by (apply N.mod_lt; lia). rewrite N.add_mod_idemp_l by lia. f_equal. unfold count. cbn [length]. lia.
Qed.
Lemma signatures_rel_eq c : signatures_rel c = held c mod 2 ^ 16.
Proof.
  change (2 ^ 16) with 65536. destruct c as [s|m]; cbn [signatures_rel held].
  - rewrite sig_default_eq. destruct (bytes_eqb _ _); reflexivity.
  - rewrite count_sigs_rel_eq by lia. reflexivity.
Qed.

Lemma sign_origin_agrees E s sk : snd (sign_origin E s sk) <> Panic POverflow -> sign_origin_rel E s sk = sign_origin E s sk.
Proof.
  unfold sign_origin, sign_origin_rel. destruct (_ && sg_origin_signed s); [reflexivity|]. cbn zeta.
  destruct (sg_oversign s); cbn [andb]; [|reflexivity].
  rewrite signatures_rel_eq. change (2 ^ 16) with 65536. set (o := auth_origin _).
  destruct (N.ltb_spec (held o) 65536) as [L|L].
  - intros _. rewrite signatures_ok by exact L. cbn [bind]. rewrite N.mod_small by exact L. destruct (_ <=? _); reflexivity.
  - assert (@signatures tx_err o = Panic POverflow) as ->.
    { clear - L. destruct o as [s'|m]; cbn [held signatures] in *; [destruct (bytes_eqb _ _); lia|].
      assert (forall fs n, n < 65536 -> 65536 <= n + count (filter is_sig fs) -> @count_sigs tx_err fs n = Panic POverflow) as H.
      { induction fs as [|[pk|sig] fs IH]; intros n N H; cbn [filter is_sig count_sigs] in *.
        - unfold count in H. cbn in H. lia.
        - apply IH; assumption.
        - replace (count (FSig sig :: filter is_sig fs)) with (1 + count (filter is_sig fs)) in H by (unfold count; cbn [length]; lia).
          destruct (n + 1 <? 65536) eqn:E; [apply IH; lia | reflexivity]. }
      apply H; lia. }
    cbn [bind snd]. congruence.
Qed.
Lemma sign_sponsor_agrees E s sk : snd (sign_sponsor E s sk) <> Panic POverflow -> sign_sponsor_rel E s sk = sign_sponsor E s sk.
Proof.
  unfold sign_sponsor, sign_sponsor_rel. destruct (auth_sponsor _) as [p|e|q|]; cbn [bind]; try reflexivity.
  destruct (sg_oversign s); cbn [andb]; [|reflexivity].
  rewrite signatures_rel_eq. change (2 ^ 16) with 65536.
  destruct (@signatures tx_err p) as [n|e|q|] eqn:S; cbn [bind snd].
  - intros _. destruct (N.ltb_spec (held p) 65536) as [L|L].
    + rewrite signatures_ok in S by exact L. injection S as <-. rewrite N.mod_small by exact L. destruct (_ <=? _); reflexivity.
    + exfalso. clear - S L. destruct p as [s'|m]; cbn [held signatures] in *; [destruct (bytes_eqb _ _); lia|].
      assert (forall fs n k, n < 65536 -> @count_sigs tx_err fs n = Ok k -> k < 65536) as H.
      { induction fs as [|[pk|sig] fs IH]; intros a b N H; cbn [count_sigs] in H; [injection H as <-; exact N | eapply IH; eauto|].
        destruct (N.ltb_spec (a + 1) 65536); [eapply IH; eauto | discriminate]. }
      pose proof S as S'. apply H in S; [|lia]. apply count_sigs_val in S'. lia.
  - exfalso. clear - S. destruct p as [s'|m]; cbn [signatures] in S; [discriminate|].
    assert (forall fs n, @count_sigs tx_err fs n <> Err e) as H.
    { induction fs as [|[pk|sig] fs IH]; intros n; cbn [count_sigs]; [discriminate | apply IH|]. destruct (_ <? _); [apply IH | discriminate]. }
    exact (H _ _ S).
  - intros N. exfalso. destruct p as [st|m]; cbn [signatures] in S; [discriminate|]. apply N. f_equal. revert S. generalize 0.
    induction (ms_fields m) as [|[pk|sig] fs IH]; intros n; cbn [count_sigs]; [discriminate | apply IH|].
    destruct (_ <? _); [apply IH | congruence].
  - exfalso. clear - S. destruct p as [s'|m]; cbn [signatures] in S; [discriminate|].
    assert (forall fs n, @count_sigs tx_err fs n <> NoFuel) as H.
    { induction fs as [|[pk|sig] fs IH]; intros n; cbn [count_sigs]; [discriminate | apply IH|]. destruct (_ <? _); [apply IH | discriminate]. }
    exact (H _ _ S).
Qed.
Lemma tx_sign_agrees E t sk : agrees (tx_sign E t sk) (tx_sign_rel E t sk).
Proof.
  unfold tx_sign, tx_sign_rel. apply agrees_bind; [apply agrees_refl|]. intros s _.
  pose proof (sign_origin_agrees E s sk) as H. destruct (sign_origin E s sk) as [s' r]. cbn [snd] in H.
  destruct r as [x|e|p|]; try (rewrite H by discriminate; apply agrees_refl).
  unfold agrees. cbn [bind]. intros N. rewrite H by congruence. reflexivity.
Qed.

Lemma base58_agrees s : agrees (base58check_decode s) (base58check_decode_rel s).
Proof.
  apply agrees_bind; [apply agrees_refl|]. intros b _. cbn zeta. destruct (Nat.ltb_spec (length b) 4); [unfold agrees; congruence | apply agrees_refl].
Qed.

(** ** Exactly when a release build accepts *)

Lemma verify_fields_rel_iff E typ fee nonce fs : Forall typed_field fs -> forall h keys cnt ks' h' n', cnt < 256 ->
  (verify_fields_rel E fs h typ fee nonce keys cnt = Ok (ks', h', n') <->
   exists ks n, chain E typ fee nonce h fs ks n h' /\ ks' = keys ++ ks /\ n' = (cnt + n) mod 256).
Proof.
  induction 1 as [|f fs T F IH]; intros h keys cnt ks' h' n' B; cbn [verify_fields_rel].
  - split.
    + intros H. okinv H. apply pair_equal_spec in H. destruct H as [H <-]. apply pair_equal_spec in H. destruct H as [<- <-].
      exists [], 0. rewrite app_nil_r, N.add_0_r, N.mod_small by exact B. splits; auto. constructor.
    + intros (ks & n & C & -> & ->). inversion C; subst. rewrite app_nil_r, N.add_0_r, N.mod_small by exact B. reflexivity.
  - destruct f as [pk|sig].
    + rewrite IH by exact B. split.
      * intros (ks & n & C & -> & ->). exists (pk :: ks), n. splits; auto; [constructor; exact C|]. rewrite <- app_assoc. reflexivity.
      * intros (ks & n & C & -> & ->). inversion C; subst. eexists _, _. splits; eauto. rewrite <- app_assoc. reflexivity.
    + cbn [typed_field] in T. assert (W : forall n, ((cnt + 1) mod 256 + n) mod 256 = (cnt + (1 + n)) mod 256).
      { intros n. rewrite N.add_mod_idemp_l by lia. f_equal. lia. }
      assert (L : (cnt + 1) mod 256 < 256) by (apply N.mod_lt; lia). split.
      * rewrite bind_ok. intros ((pk & nx) & V & H). rewrite map_err_ok in V. apply next_verify_iff in V; [|exact T].
        destruct V as [R ->]. apply IH in H; [|exact L].
        destruct H as (ks & n & C & -> & ->). exists (pk :: ks), (1 + n).
        splits; [econstructor; eauto | rewrite <- app_assoc; reflexivity | apply W].
      * intros (ks & n & C & -> & ->). inversion C as [| |? ? pk ? ks1 n1 ? R C1]; subst.
        rewrite (proj2 (map_err_ok TxHash _ _) (proj2 (next_verify_iff E h typ fee nonce sig pk _ T) (conj R eq_refl))). cbn [bind].
        apply IH; [exact L|]. exists ks1, n1. splits; auto; rewrite <- app_assoc; reflexivity.
Qed.

Lemma verify_fields_rel_total E typ fee nonce fs : Forall typed_field fs -> forall h keys cnt,
  (exists r, verify_fields_rel E fs h typ fee nonce keys cnt = Ok r)
  \/ (exists e, verify_fields_rel E fs h typ fee nonce keys cnt = Err (TxHash e)).
Proof.
  induction 1 as [|f fs T F IH]; intros h keys cnt; cbn [verify_fields_rel]; [left; eauto|].
  destruct f as [pk|sig]; [apply IH|].
  destruct (next_verify_total E h typ fee nonce sig T) as [[[pk nx] ->]|[e ->]]; cbn [map_err bind]; [apply IH | right; eauto].
Qed.

(** What verification of a multi-signature condition answers, once the fields can be walked. *)
Lemma verify_multi_rel_chain E m h typ ks n h' a : Forall typed_field (ms_fields m) ->
  chain E typ (ms_fee m) (ms_nonce m) h (ms_fields m) ks n h' -> keys_address (ms_mode m) (Byte.to_N (ms_required m)) ks = Some a ->
  verify_multi_rel E m h typ =
    if n mod 256 <? Byte.to_N (ms_required m) then Err (TxBadSignatureCount (Byte.to_N (ms_required m)) (n mod 256))
    else if bytes_eqb a (ms_signer m) then Ok h' else Err (TxBadSigner (hex_text (ms_signer m)) (hex_text a)).
Proof.
  intros T C A. unfold verify_multi_rel.
  rewrite (proj2 (verify_fields_rel_iff E typ _ _ _ T h [] 0 ks h' (n mod 256) eq_refl)) by (exists ks, n; splits; auto).
  cbn [bind]. change b2n with Byte.to_N. destruct (_ <? _); [reflexivity|].
  change (bind (multi_hash_rel (ms_mode m) (ms_required m) ks)
            (fun signer => if bytes_eqb signer (ms_signer m) then @Ok tx_err bytes h'
                           else Err (TxBadSigner (bytes_to_hex (ms_signer m)) (bytes_to_hex signer)))
          = if bytes_eqb a (ms_signer m) then Ok h' else Err (TxBadSigner (hex_text (ms_signer m)) (hex_text a))).
  rewrite multi_hash_rel_eq, A. cbn [bind]. rewrite !bytes_to_hex_text. reflexivity.
Qed.

Lemma verify_multi_rel_broken E m h typ : Forall typed_field (ms_fields m) ->
  (forall ks n h', ~ chain E typ (ms_fee m) (ms_nonce m) h (ms_fields m) ks n h') -> exists e, verify_multi_rel E m h typ = Err (TxHash e).
Proof.
  intros T N. unfold verify_multi_rel.
  destruct (verify_fields_rel_total E typ (ms_fee m) (ms_nonce m) _ T h [] 0) as [[[[ks h'] n] V]|[e ->]]; [|eexists; reflexivity].
  exfalso. apply verify_fields_rel_iff in V; [|exact T|lia]. destruct V as (ks0 & n0 & C & _). apply (N _ _ _ C).
Qed.

Lemma verify_multi_rel_iff E m h typ h' : Forall typed_field (ms_fields m) ->
  (verify_multi_rel E m h typ = Ok h' <-> satisfied_mod E typ h (SMulti m) h').
Proof.
  intros T. split.
  - intros H. unfold verify_multi_rel in H. apply bind_ok in H. destruct H as (((ks & nx) & n) & V & H).
    apply verify_fields_rel_iff in V; [|exact T|lia]. destruct V as (ks0 & n0 & C & -> & ->). cbn [app] in *. rewrite N.add_0_l in *.
    change b2n with Byte.to_N in H. destruct (N.ltb_spec (n0 mod 256) (Byte.to_N (ms_required m))); [discriminate|].
    apply bind_ok in H. destruct H as (a & A & H). change (@multi_hash_rel tx_err (ms_mode m) (ms_required m) ks0 = Ok a) in A.
    rewrite multi_hash_rel_eq in A. destruct (keys_address _ _ _) as [a'|] eqn:K; [|discriminate]. injection A as A. rewrite A in K. clear A.
    destruct (bytes_eqb_spec a (ms_signer m)) as [Q|]; [|discriminate]. rewrite Q in K. okinv H. econstructor; eauto.
  - intros H. inversion H as [|m' ks n h0 C R A]; subst. rewrite (verify_multi_rel_chain E m h typ ks n h' _ T C A).
    destruct (N.ltb_spec (n mod 256) (Byte.to_N (ms_required m))); [lia|]. rewrite bytes_eqb_refl. reflexivity.
Qed.

Lemma verify_rel_iff E c h typ h' : typed c -> (verify_scond_rel E c h typ = Ok h' <-> satisfied_mod E typ h c h').
Proof.
  intros T. destruct c as [s|m]; cbn [verify_scond_rel]; [|apply verify_multi_rel_iff; exact T].
  rewrite verify_std_iff by exact T. split; intros H; inversion H; subst; econstructor; eauto.
Qed.

Lemma verify_rel_total E c h typ : typed c -> mode_fits c ->
  (exists h', verify_scond_rel E c h typ = Ok h') \/ (exists e, verify_scond_rel E c h typ = Err e).
Proof.
  intros T M. destruct c as [s|m]; cbn [verify_scond_rel typed mode_fits] in *.
  - destruct (verify_no_panic E (SStd s) h typ T M) as [H|[H|(_ & m & H & _)]]; [left; exact H | right; exact H | discriminate].
  - unfold verify_multi_rel. destruct (verify_fields_rel_total E typ (ms_fee m) (ms_nonce m) _ T h [] 0) as [[[[ks h'] n] ->]|[e ->]];
      cbn [bind]; [|eauto]. destruct (_ <? _); [eauto|]. destruct M as [-> | ->]; cbn [bind]; destruct (bytes_eqb _ _); eauto.
Qed.

Lemma satisfied_weaken E typ h c h' : satisfied E typ h c h' -> satisfied_mod E typ h c h'.
Proof.
  intros S. inversion S as [s pk R A|m ks n h0 C R B Fi A]; subst; [econstructor; eauto|].
  apply (satm_multi E typ h m ks n h' C); [rewrite N.mod_small by exact B; exact R | exact A].
Qed.

(** ** Scripts of any size are unambiguous *)

Lemma script_inj_wide m m' l l' : Forall (fun k => length k = 33%nat) l -> Forall (fun k => length k = 33%nat) l' ->
  m < 256 -> m' < 256 -> script m l = script m' l' -> m = m' /\ l = l'.
Proof.
  intros F F' B B' H. unfold script in H. assert (X := f_equal (hd x00) H). assert (Y := f_equal (@tl byte) H).
  cbn [hd tl] in X, Y. clear H. split.
  - apply (f_equal b2n) in X. change octet with n2b in X. rewrite <- (n2b_mod (80 + m)), <- (n2b_mod (80 + m')) in X.
    rewrite !b2n_n2b_small in X by (apply N.mod_lt; lia). clear - X B B'. lia.
  - apply flat_keys_inj in Y; auto; [apply Y|]. apply (f_equal (@length byte)) in Y.
    rewrite !app_length, !flat_keys_length in Y by assumption. cbn [length] in Y. lia.
Qed.

Lemma keys_address_inj_wide mode m m' l l' a : Forall (fun k => length k = 33%nat) l -> Forall (fun k => length k = 33%nat) l' ->
  m < 256 -> m' < 256 -> keys_address mode m l = Some a -> keys_address mode m' l' = Some a ->
  (m = m' /\ l = l') \/ script_clash mode (script m l) (script m' l').
Proof.
  intros F F' B B' A A'. destruct (bytes_dec (script m l) (script m' l')) as [S|N].
  - left. apply script_inj_wide in S; auto.
  - right. destruct mode; cbn in A, A'; try discriminate; cbn [script_clash].
    + split; congruence.
    + destruct (bytes_dec (sha256 (script m l)) (sha256 (script m' l'))) as [W|W].
      * right. split; assumption.
      * left. split; [|congruence]. unfold witness_program. congruence.
Qed.

(** ** Histories *)

Lemma sign_origin_same E s sk : sg_oversign s = false \/ held (origin_of (sg_tx s)) < 2 ^ 16 -> sign_origin_rel E s sk = sign_origin E s sk.
Proof.
  intros B. rewrite origin_eq in B. unfold sign_origin, sign_origin_rel. destruct (_ && sg_origin_signed s); [reflexivity|]. cbn zeta.
  destruct (sg_oversign s); cbn [andb]; [|reflexivity]. destruct B as [B|B]; [discriminate|].
  rewrite signatures_rel_eq, N.mod_small by exact B. rewrite signatures_ok by exact B. cbn [bind]. destruct (_ <=? _); reflexivity.
Qed.
Lemma sign_sponsor_same E s sk : sg_oversign s = false \/ (forall p, sponsor_of (sg_tx s) = Some p -> held p < 2 ^ 16) ->
  sign_sponsor_rel E s sk = sign_sponsor E s sk.
Proof.
  intros B. unfold sign_sponsor, sign_sponsor_rel. unfold sponsor_of in B. destruct (tx_auth (sg_tx s)) as [o|o p]; [reflexivity|].
  cbn [auth_sponsor bind]. destruct (sg_oversign s); cbn [andb]; [|reflexivity]. destruct B as [B|B]; [discriminate|]. specialize (B p eq_refl).
  rewrite signatures_rel_eq, N.mod_small by exact B. rewrite signatures_ok by exact B. cbn [bind]. destruct (_ <=? _); reflexivity.
Qed.

Lemma perform_same_rel E s o : countable (sg_tx s) -> perform_rel E s o = perform E s o.
Proof.
  intros [O P]. destruct o; cbn [perform perform_rel]; [apply sign_origin_same; auto | apply sign_sponsor_same; auto | reflexivity].
Qed.

Lemma origin_countable_step E s o : sg_oversign s = true -> held (origin_of (sg_tx s)) < 2 ^ 16 ->
  held (origin_of (sg_tx (fst (perform E s o)))) < 2 ^ 16.
Proof.
  intros V O. destruct o as [sk|sk|pk]; cbn [perform].
  - destruct (sign_origin E s sk) as [s' r] eqn:X. apply sign_origin_effect in X.
    destruct X as [(_ & o' & h' & S & _ & W & ->)|[-> _]]; [|assumption].
    cbn [fst with_tx sg_tx]. rewrite with_origin_of.
    destruct (W V) as (n & N & L). apply signatures_val in N. rewrite req_threshold in L. subst n.
    apply (sign_append_held _ _ _ _ _ _ _ S) in L. pose proof (threshold_small o'). change (2 ^ 16) with 65536. lia.
  - rewrite origin_untouched. exact O.
  - destruct (append_origin s pk) as [s' r] eqn:X. apply append_origin_effect in X.
    destruct X as [(_ & _ & _ & ->)|[-> _]]; [|assumption].
    cbn [fst with_tx sg_tx]. rewrite with_origin_of, held_list. exact O.
Qed.

Lemma countable_step E s o : sg_oversign s = true -> countable (sg_tx s) -> countable (sg_tx (fst (perform E s o))).
Proof.
  intros V [O P]. split; [apply origin_countable_step; assumption|].
  pose proof (sponsor_untouched E s o) as U. destruct o as [sk|sk|pk]; cbn [perform] in *; try (rewrite U; exact P).
  destruct (sign_sponsor E s sk) as [s' r] eqn:X. apply sign_sponsor_effect in X.
  destruct X as [(_ & o & p & p' & h' & A & S & W & ->)|[-> _]]; [|assumption].
  cbn [fst with_tx sg_tx]. unfold sponsor_of in *. rewrite A in *. cbn [tx_with_auth tx_auth].
  intros p0 Q. injection Q as <-. destruct (W V) as (n & N & L). apply signatures_val in N.
  rewrite req_threshold in L. subst n. apply (sign_append_held _ _ _ _ _ _ _ S) in L. pose proof (threshold_small p').
  change (2 ^ 16) with 65536. lia.
Qed.

Lemma outcomes_same E l : forall s, sg_oversign s = true -> countable (sg_tx s) -> outcomes (perform_rel E) s l = outcomes (perform E) s l.
Proof.
  induction l as [|o l IH]; intros s V C; [reflexivity|]. cbn [outcomes]. rewrite perform_same_rel by exact C.
  pose proof (countable_step E s o V C) as C'. pose proof (perform_flags E s o) as [F _].
  destruct (perform E s o) as [s' x]. cbn [fst] in *. rewrite IH by congruence. reflexivity.
Qed.

Lemma outcomes_same_origin E l : forall s, sg_oversign s = true -> held (origin_of (sg_tx s)) < 2 ^ 16 ->
  outcomes (perform_rel E) s (map step_op l) = outcomes (perform E) s (map step_op l).
Proof.
  induction l as [|o l IH]; intros s V C; [reflexivity|]. cbn [map outcomes].
  assert (perform_rel E s (step_op o) = perform E s (step_op o)) as ->.
  { destruct o; cbn [step_op perform perform_rel]; [apply sign_origin_same; auto | reflexivity]. }
  pose proof (origin_countable_step E s (step_op o) V C) as C'. pose proof (perform_flags E s (step_op o)) as [F _].
  destruct (perform E s (step_op o)) as [s' x]. cbn [fst] in *. rewrite IH by congruence. reflexivity.
Qed.

(** ** Plans for accounts of any size *)

Lemma succeeds_outcomes E s l s' : succeeds E s l s' -> outcomes (perform E) s l = (map (fun _ => Ok tt) l, s').
Proof. induction 1 as [|s o s1 l s' P A IH]; [reflexivity|]. cbn [outcomes map]. rewrite P, IH. reflexivity. Qed.

Lemma multi_rel_spec {X} pks fee nonce required mode c : @multi_new_rel X pks fee nonce required mode = Ok c <->
  keys_address mode (Byte.to_N required) pks = Some (ms_signer c)
  /\ ms_mode c = mode /\ ms_fee c = fee /\ ms_nonce c = nonce /\ ms_required c = required /\ ms_fields c = [].
Proof.
  unfold multi_new_rel. fold (@multi_hash_rel X mode required pks). rewrite multi_hash_rel_eq.
  destruct (keys_address _ _ _) as [a|]; cbn [bind].
  - split; [intros H; injection H as <-; cbn; auto 10|]. intros (A & B & C & D & F & G). destruct c; cbn in *. congruence.
  - split; [discriminate | intros [A _]; discriminate].
Qed.

Lemma plan_rel E t l ks fee nonce m mode c h : ecdsa_correct E -> Forall step_valid l -> map (step_key E) l = ks ->
  @multi_new_rel unit ks fee nonce m mode = Ok c -> count (filter is_sign l) = Byte.to_N m ->
  origin_of t = SMulti c -> initial_hash t = Ok h ->
  exists s s', signer_new t = Ok s /\ outcomes (perform_rel E) s (map step_op l) = (map (fun _ => Ok tt) l, s')
    /\ same_but_signatures t (sg_tx s') /\ tx_verify_origin_rel E (sg_tx s') = Ok (sg_hash s').
Proof.
  intros C V K N Cn O H. apply multi_rel_spec in N. destruct N as (A & Mm & Mf & Mn & Mr & Z).
  set (s := {| sg_tx := t; sg_hash := h; sg_origin_signed := false; sg_oversign := true; sg_overlap := true |}).
  assert (M : mode_fits (SMulti c)) by (cbn [mode_fits]; rewrite Mm; eapply address_fits_keys; eauto).
  destruct (run_multi E l C V s c eq_refl O M) as (fs & h' & Ch & Ty & Su).
  { rewrite Z, Mr. unfold count at 1. cbn [filter length]. lia. }
  rewrite Z in Su. cbn [app s sg_tx] in Su.
  assert (T : same_terms (origin_of t) (SMulti (with_fields c fs)))
    by (rewrite O; exact (conj (conj eq_refl (conj eq_refl eq_refl)) (conj eq_refl eq_refl))).
  exists s. eexists. split; [apply signer_new_ok; eauto|]. split; [|split].
  - rewrite outcomes_same_origin; [|reflexivity|change (sg_tx s) with t; rewrite O; cbn [held]; rewrite Z; reflexivity].
    rewrite (succeeds_outcomes _ _ _ _ Su), map_map. reflexivity.
  - apply but_sig_origin. exact T.
  - cbn [with_tx sg_tx sg_hash]. unfold tx_verify_origin_rel. rewrite (signed_tx_hash t _ T), H. cbn [bind].
    rewrite <- origin_eq, with_origin_of. apply verify_rel_iff; [exact Ty|]. 
    apply (satm_multi E x04 h (with_fields c fs) ks (count (filter is_sign l)));
      cbn [with_fields ms_fee ms_nonce ms_fields ms_required ms_mode ms_signer].
    + rewrite <- K. exact Ch.
    + rewrite Cn, Mr. rewrite N.mod_small; [lia|]. apply b2n_lt.
    + rewrite Mm, Mr. exact A.
Qed.
