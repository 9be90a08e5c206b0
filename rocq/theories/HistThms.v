(** Theorems about signing histories. *)

From Coq Require Import Lia ZifyBool ZifyNat ZifyN.
From Verif Require Import Base BaseFacts Hex SpecText NumFacts Sha2 Ripemd Hash HashFacts C32 Clarity SpecWire Tx SpecTx Signer
  WireFacts ClarityFacts TxThms SpecSign SignFacts SignThms.
Local Open Scope N_scope.

(** ** Single operations *)

Lemma terms_refl c : same_terms c c.
Proof. split; [apply identity_refl | auto]. Qed.
Lemma identity_trans c d e : same_identity c d -> same_identity d e -> same_identity c e.
Proof. destruct c, d, e; cbn; intuition congruence. Qed.
Lemma terms_trans c d e : same_terms c d -> same_terms d e -> same_terms c e.
Proof. intros (I & F & N) (I' & F' & N'). split; [eapply identity_trans; eauto | split; congruence]. Qed.

Lemma modify_terms c cmd : same_terms c (fst (modify c cmd)).
Proof. split; [apply modify_identity|]. destruct c, cmd; auto. Qed.

Lemma modify_err c cmd : snd (modify c cmd) <> Ok tt -> fst (modify c cmd) = c.
Proof. destruct c, cmd; cbn; congruence. Qed.

Lemma sign_append_terms E c h typ sk : same_terms c (fst (sign_and_append E c h typ sk)).
Proof.
  unfold sign_and_append. destruct (map_err _ _) as [[sig g]| | |]; try apply terms_refl.
  destruct (sc_mode c).
  - pose proof (modify_terms c (MSetSignature sig)). destruct (modify c (MSetSignature sig)); assumption.
  - pose proof (modify_terms c (MAddSignature sig)). destruct (modify c (MAddSignature sig)); assumption.
  - pose proof (modify_terms c (MSetSignature sig)). destruct (modify c (MSetSignature sig)); assumption.
  - pose proof (modify_terms c (MAddSignature sig)). destruct (modify c (MAddSignature sig)); assumption.
Qed.

Lemma modify_pair c cmd d r : modify c cmd = (d, r) -> (r = Ok tt) \/ (d = c /\ r = Err TxBadModification).
Proof. destruct c, cmd; cbn; intros H; inversion H; auto. Qed.

(** A failed signature leaves the condition alone. *)
Lemma sign_append_err E c h typ sk d r : sign_and_append E c h typ sk = (d, r) -> (exists g, r = Ok g) \/ d = c.
Proof.
  unfold sign_and_append. destruct (map_err _ _) as [[sig g]| | |]; [|intros H; inversion H; auto ..].
  destruct (sc_mode c); destruct (modify c _) as [d' r'] eqn:X; apply modify_pair in X; destruct X as [-> | [-> ->]];
    cbn [bind]; intros H; inversion H; eauto.
Qed.

Definition with_tx (s : signer) (t : tx) (h : bytes) (signed : bool) : signer :=
  {| sg_tx := t; sg_hash := h; sg_origin_signed := signed; sg_oversign := sg_oversign s; sg_overlap := sg_overlap s |}.

Lemma with_tx_id s : with_tx s (sg_tx s) (sg_hash s) (sg_origin_signed s) = s.
Proof. destruct s; reflexivity. Qed.

Lemma with_origin_id a : auth_with_origin a (auth_origin a) = a.
Proof. destruct a; reflexivity. Qed.

Lemma origin_eq t : origin_of t = auth_origin (tx_auth t).
Proof. unfold origin_of. destruct (tx_auth t); reflexivity. Qed.

Lemma sign_origin_effect E s sk s' r : sign_origin E s sk = (s', r) ->
  let t := sg_tx s in
  (r = Ok tt /\ exists o' h', sign_and_append E (origin_of t) (sg_hash s) x04 sk = (o', Ok h')
     /\ sg_overlap s && sg_origin_signed s = false
     /\ (sg_oversign s = true -> exists n, @signatures tx_err (origin_of t) = Ok n /\ n < req_signatures (origin_of t))
     /\ s' = with_tx s (tx_with_auth t (auth_with_origin (tx_auth t) o')) h' (sg_origin_signed s))
  \/ (s' = s /\ r <> Ok tt).
Proof.
  intros H t. unfold t. rewrite !origin_eq. revert H. unfold sign_origin.
  destruct (sg_overlap s && sg_origin_signed s) eqn:O; [intros H; inversion H; right; split; congruence|].
  destruct (if sg_oversign s then _ else _) as [[|]| | |] eqn:V; try (intros H; inversion H; right; split; congruence).
  unfold sign_next_origin. destruct (sign_and_append E _ (sg_hash s) auth_type_standard sk) as [o' r'] eqn:S.
  destruct r' as [h'| | |]; intros H; inversion H; subst; clear H.
  - left. split; [reflexivity|]. exists o', h'. splits; auto.
    intros T. rewrite T in V. apply bind_ok in V. destruct V as (n & N & V). exists n. split; [exact N|]. inversion V. lia.
  - right. apply sign_append_err in S. destruct S as [[g S]|S]; [discriminate|]. subst o'.
    split; [|discriminate]. rewrite with_origin_id, with_auth_id. apply with_tx_id.
  - right. split; congruence.
  - right. split; congruence.
Qed.

Lemma sign_sponsor_effect E s sk s' r : sign_sponsor E s sk = (s', r) ->
  let t := sg_tx s in
  (r = Ok tt /\ exists o p p' h', tx_auth t = ASponsored o p /\ sign_and_append E p (sg_hash s) x05 sk = (p', Ok h')
     /\ (sg_oversign s = true -> exists n, @signatures tx_err p = Ok n /\ n < req_signatures p)
     /\ s' = with_tx s (tx_with_auth t (ASponsored o p')) h' true)
  \/ (s' = s /\ r <> Ok tt).
Proof.
  intros H t. unfold t. revert H. unfold sign_sponsor, sign_next_sponsor.
  destruct (tx_auth (sg_tx s)) as [o|o p] eqn:A; cbn [auth_sponsor bind]; [intros H; inversion H; right; split; congruence|].
  destruct (if sg_oversign s then _ else _) as [[|]| | |] eqn:V; try (intros H; inversion H; right; split; congruence).
  destruct (sign_and_append E _ (sg_hash s) auth_type_sponsored sk) as [p' r'] eqn:S.
  destruct r' as [h'| | |]; intros H; inversion H; subst; clear H.
  - left. split; [reflexivity|]. exists o, p, p', h'. splits; auto.
    intros T. rewrite T in V. apply bind_ok in V. destruct V as (n & N & V). exists n. split; [exact N|]. inversion V. lia.
  - right. apply sign_append_err in S. destruct S as [[g S]|S]; [discriminate|]. subst p'.
    split; [|discriminate]. rewrite <- A, with_auth_id. apply with_tx_id.
  - right. split; congruence.
  - right. split; congruence.
Qed.

Lemma append_origin_effect s pk s' r : append_origin s pk = (s', r) ->
  let t := sg_tx s in
  (r = Ok tt /\ sg_overlap s && sg_origin_signed s = false
     /\ modify (origin_of t) (MAddPublicKey pk) = (fst (modify (origin_of t) (MAddPublicKey pk)), Ok tt)
     /\ s' = with_tx s (tx_with_auth t (auth_with_origin (tx_auth t) (fst (modify (origin_of t) (MAddPublicKey pk)))))
                     (sg_hash s) (sg_origin_signed s))
  \/ (s' = s /\ r <> Ok tt).
Proof.
  intros H t. unfold t. rewrite !origin_eq. revert H. unfold append_origin, append_next_origin.
  destruct (sg_overlap s && sg_origin_signed s) eqn:O; [intros H; inversion H; right; split; congruence|].
  destruct (modify _ _) as [o' r'] eqn:M. cbn [fst].
  destruct (sc_mode _); intros H; inversion H; subst; clear H;
    try (right; split; [apply with_tx_id | discriminate]);
    destruct (modify_pair _ _ _ _ M) as [-> | [-> ->]];
    try (left; splits; auto; fail);
    right; (split; [rewrite with_origin_id, with_auth_id; apply with_tx_id | discriminate]).
Qed.

(** ** C40: what operations leave alone *)

Lemma but_sig_refl t : same_but_signatures t t.
Proof. unfold same_but_signatures. splits; auto. destruct (tx_auth t); auto using terms_refl. Qed.
Lemma but_sig_trans t u v : same_but_signatures t u -> same_but_signatures u v -> same_but_signatures t v.
Proof.
  unfold same_but_signatures. intros (A & B & C & D & X & F & G) (A' & B' & C' & D' & X' & F' & G'). splits; try congruence.
  destruct (tx_auth t), (tx_auth u), (tx_auth v); try contradiction.
  - eapply terms_trans; eauto.
  - destruct G, G'. split; eapply terms_trans; eauto.
Qed.

Lemma but_sig_origin t o : same_terms (origin_of t) o -> same_but_signatures t (tx_with_auth t (auth_with_origin (tx_auth t) o)).
Proof.
  intros T. unfold same_but_signatures, tx_with_auth. cbn [tx_ver tx_chain tx_anchor tx_pcmode tx_conds tx_payload tx_auth]. splits; auto.
  unfold origin_of in T. destruct (tx_auth t); cbn [auth_with_origin]; auto using terms_refl.
Qed.
Lemma but_sig_sponsor t o p p' : tx_auth t = ASponsored o p -> same_terms p p' ->
  same_but_signatures t (tx_with_auth t (ASponsored o p')).
Proof.
  intros A T. unfold same_but_signatures, tx_with_auth. cbn [tx_ver tx_chain tx_anchor tx_pcmode tx_conds tx_payload tx_auth]. splits; auto.
  rewrite A. auto using terms_refl.
Qed.

Lemma perform_same E s o : same_but_signatures (sg_tx s) (sg_tx (fst (perform E s o))).
Proof.
  destruct o as [sk|sk|pk]; cbn [perform].
  - destruct (sign_origin E s sk) as [s' r] eqn:X. cbn [fst]. apply sign_origin_effect in X. cbn zeta in X.
    destruct X as [(_ & o' & h' & S & _ & _ & ->)|[-> _]]; [|apply but_sig_refl]. cbn [with_tx sg_tx].
    apply but_sig_origin. pose proof (sign_append_terms E (origin_of (sg_tx s)) (sg_hash s) x04 sk) as T. rewrite S in T. exact T.
  - destruct (sign_sponsor E s sk) as [s' r] eqn:X. cbn [fst]. apply sign_sponsor_effect in X. cbn zeta in X.
    destruct X as [(_ & o' & p & p' & h' & A & S & _ & ->)|[-> _]]; [|apply but_sig_refl]. cbn [with_tx sg_tx].
    apply (but_sig_sponsor _ _ _ _ A). pose proof (sign_append_terms E p (sg_hash s) x05 sk) as T. rewrite S in T. exact T.
  - destruct (append_origin s pk) as [s' r] eqn:X. cbn [fst]. apply append_origin_effect in X. cbn zeta in X.
    destruct X as [(_ & _ & _ & ->)|[-> _]]; [|apply but_sig_refl]. cbn [with_tx sg_tx].
    apply but_sig_origin, modify_terms.
Qed.

Lemma history_same E l s : same_but_signatures (sg_tx s) (sg_tx (perform_all E s l)).
Proof.
  revert s. induction l as [|o l IH]; intros s; [apply but_sig_refl|]. cbn [perform_all fold_left].
  eapply but_sig_trans; [apply perform_same|]. apply IH.
Qed.

Lemma failure_unchanged E s o s' r : perform E s o = (s', r) -> r <> Ok tt -> s' = s.
Proof.
  intros H N. destruct o as [sk|sk|pk]; cbn [perform] in H.
  - apply sign_origin_effect in H. destruct H as [(X & _)|[X _]]; congruence.
  - apply sign_sponsor_effect in H. destruct H as [(X & _)|[X _]]; congruence.
  - apply append_origin_effect in H. destruct H as [(X & _)|[X _]]; congruence.
Qed.

(** Signing the origin or listing a key leaves the sponsor alone; signing the sponsor leaves the origin alone. *)
Lemma sponsor_untouched E s o : match o with SignSponsor _ => True | _ => sponsor_of (sg_tx (fst (perform E s o))) = sponsor_of (sg_tx s) end.
Proof.
  destruct o as [sk|sk|pk]; cbn [perform]; auto.
  - destruct (sign_origin E s sk) as [s' r] eqn:X. apply sign_origin_effect in X.
    destruct X as [(_ & o' & h' & S & _ & _ & ->)|[-> _]]; [|reflexivity].
    cbn [fst with_tx sg_tx]. unfold sponsor_of. cbn [tx_auth tx_with_auth]. destruct (tx_auth (sg_tx s)); reflexivity.
  - destruct (append_origin s pk) as [s' r] eqn:X. apply append_origin_effect in X.
    destruct X as [(_ & _ & _ & ->)|[-> _]]; [|reflexivity].
    cbn [fst with_tx sg_tx]. unfold sponsor_of. cbn [tx_auth tx_with_auth]. destruct (tx_auth (sg_tx s)); reflexivity.
Qed.
Lemma origin_untouched E s sk : origin_of (sg_tx (fst (sign_sponsor E s sk))) = origin_of (sg_tx s).
Proof.
  destruct (sign_sponsor E s sk) as [s' r] eqn:X. apply sign_sponsor_effect in X.
  destruct X as [(_ & o' & p & p' & h' & A & S & _ & ->)|[-> _]]; [|reflexivity].
  cbn [fst with_tx sg_tx]. unfold origin_of. cbn [tx_auth tx_with_auth]. rewrite A. reflexivity.
Qed.

(** ** Flags *)

Lemma perform_flags E s o : sg_oversign (fst (perform E s o)) = sg_oversign s /\ sg_overlap (fst (perform E s o)) = sg_overlap s.
Proof.
  destruct o as [sk|sk|pk]; cbn [perform].
  - destruct (sign_origin E s sk) as [s' r] eqn:X. apply sign_origin_effect in X.
    destruct X as [(_ & o' & h' & S & _ & _ & ->)|[-> _]]; auto.
  - destruct (sign_sponsor E s sk) as [s' r] eqn:X. apply sign_sponsor_effect in X.
    destruct X as [(_ & o' & p & p' & h' & A & S & _ & ->)|[-> _]]; auto.
  - destruct (append_origin s pk) as [s' r] eqn:X. apply append_origin_effect in X.
    destruct X as [(_ & _ & _ & ->)|[-> _]]; auto.
Qed.

Lemma perform_signed E s o : sg_origin_signed s = true -> sg_origin_signed (fst (perform E s o)) = true.
Proof.
  intros T. destruct o as [sk|sk|pk]; cbn [perform].
  - destruct (sign_origin E s sk) as [s' r] eqn:X. apply sign_origin_effect in X.
    destruct X as [(_ & o' & h' & S & _ & _ & ->)|[-> _]]; auto.
  - destruct (sign_sponsor E s sk) as [s' r] eqn:X. apply sign_sponsor_effect in X.
    destruct X as [(_ & o' & p & p' & h' & A & S & _ & ->)|[-> _]]; auto.
  - destruct (append_origin s pk) as [s' r] eqn:X. apply append_origin_effect in X.
    destruct X as [(_ & _ & _ & ->)|[-> _]]; auto.
Qed.

Lemma history_flags E l s : sg_oversign (perform_all E s l) = sg_oversign s /\ sg_overlap (perform_all E s l) = sg_overlap s.
Proof.
  revert s. induction l as [|o l IH]; intros s; [auto|]. cbn [perform_all fold_left].
  destruct (IH (fst (perform E s o))) as [A B]. destruct (perform_flags E s o). unfold perform_all in *. split; congruence.
Qed.

(** ** C42: frozen origin *)

Lemma frozen_refuses E s : frozen s ->
  (forall sk, sign_origin E s sk = (s, Err TxOriginPostSponsorSign)) /\ (forall pk, append_origin s pk = (s, Err TxOriginPostSponsorAppend)).
Proof. intros [A B]. split; intros; unfold sign_origin, append_origin; rewrite A, B; reflexivity. Qed.

Lemma frozen_step E s o : frozen s -> frozen (fst (perform E s o)) /\ origin_of (sg_tx (fst (perform E s o))) = origin_of (sg_tx s).
Proof.
  intros F. split.
  - destruct F. destruct (perform_flags E s o). split; [congruence|]. apply perform_signed. assumption.
  - destruct (frozen_refuses E s F) as [A B]. destruct o; cbn [perform].
    + rewrite A. reflexivity.
    + apply origin_untouched.
    + rewrite B. reflexivity.
Qed.

Lemma frozen_history E l s : frozen s -> frozen (perform_all E s l) /\ origin_of (sg_tx (perform_all E s l)) = origin_of (sg_tx s).
Proof.
  revert s. induction l as [|o l IH]; intros s F; [auto|]. cbn [perform_all fold_left].
  destruct (frozen_step E s o F) as [F' O]. destruct (IH _ F') as [F'' O']. split; [exact F''|]. unfold perform_all in *. congruence.
Qed.

Lemma sponsor_freezes E s sk s' : sg_overlap s = true -> sign_sponsor E s sk = (s', Ok tt) -> frozen s'.
Proof.
  intros O H. apply sign_sponsor_effect in H. destruct H as [(_ & o & p & p' & h' & _ & _ & _ & ->)|[_ H]]; [|congruence].
  split; [exact O | reflexivity].
Qed.

Lemma new_sponsor_freezes E t p s : signer_new_sponsor E t p = Ok s -> frozen s.
Proof.
  unfold signer_new_sponsor. destruct (negb _); [discriminate|]. destruct (auth_set_sponsor _ _) as [a r].
  rewrite bind_ok. intros (_ & _ & H). apply bind_ok in H. destruct H as (h & _ & H). apply bind_ok in H. destruct H as (x & _ & H).
  okinv H. split; reflexivity.
Qed.

(** ** C41: no over-signing *)

Lemma count_sigs_ok {X} fs n : n + count (filter is_sig fs) < 65536 -> @count_sigs X fs n = Ok (n + count (filter is_sig fs)).
Proof.
  revert n. induction fs as [|f fs IH]; intros n B; cbn [count_sigs filter] in *.
  - cbn. f_equal. lia.
  - destruct f; cbn [is_sig] in *; [auto|]. unfold count in *. cbn [length] in *.
    destruct (N.ltb_spec (n + 1) 65536); [|lia]. rewrite IH by lia. f_equal. lia.
Qed.
Lemma count_sigs_val {X} fs n k : @count_sigs X fs n = Ok k -> k = n + count (filter is_sig fs).
Proof.
  revert n. induction fs as [|f fs IH]; intros n H; cbn [count_sigs filter] in *.
  - inversion H. cbn. lia.
  - destruct f; cbn [is_sig] in *; [auto|]. destruct (_ <? _); [|discriminate]. apply IH in H. unfold count in *. cbn [length]. lia.
Qed.

Lemma signatures_val {X} c n : @signatures X c = Ok n -> n = held c.
Proof.
  destruct c as [s|m]; cbn [signatures held]; rewrite ?sig_default_eq.
  - intros H. inversion H. reflexivity.
  - intros H. apply count_sigs_val in H. rewrite H. lia.
Qed.
Lemma signatures_ok {X} c : held c < 65536 -> @signatures X c = Ok (held c).
Proof.
  destruct c as [s|m]; cbn [signatures held]; rewrite ?sig_default_eq; [reflexivity|].
  intros B. rewrite count_sigs_ok by lia. f_equal.
Qed.
Lemma req_threshold c : req_signatures c = threshold c.
Proof. destruct c; reflexivity. Qed.
Lemma threshold_small c : threshold c < 256.
Proof. destruct c; cbn; [lia | apply b2n_lt]. Qed.

Lemma held_modify c cmd : held c < threshold c -> held (fst (modify c cmd)) <= threshold (fst (modify c cmd)).
Proof.
  intros B. destruct c as [s|m]; destruct cmd as [pk|sig|pk|sig]; cbn [modify fst] in *; try lia;
    cbn [held threshold std_sig ms_fields ms_required] in *.
  - destruct (bytes_eqb sig (repeat x00 65)); lia.
  - rewrite filter_app. cbn [filter is_sig]. rewrite app_nil_r. lia.
  - rewrite filter_app. cbn [filter is_sig]. unfold count in *. rewrite app_length. cbn [length]. lia.
Qed.
Lemma held_list c pk : held (fst (modify c (MAddPublicKey pk))) = held c.
Proof. destruct c as [s|m]; cbn [modify fst held ms_fields]; auto. rewrite filter_app. cbn [filter is_sig]. rewrite app_nil_r. reflexivity. Qed.
Lemma threshold_modify c cmd : threshold (fst (modify c cmd)) = threshold c.
Proof. destruct c, cmd; reflexivity. Qed.

Lemma sign_append_modify E c h typ sk d r : sign_and_append E c h typ sk = (d, r) ->
  d = c \/ exists sig, d = fst (modify c (MSetSignature sig)) \/ d = fst (modify c (MAddSignature sig)).
Proof.
  unfold sign_and_append. destruct (map_err _ _) as [[sig g]| | |]; [|intros H; inversion H; auto ..].
  destruct (sc_mode c); destruct (modify c _) as [d' r'] eqn:X; intros H; inversion H; subst; right; exists sig; rewrite X; auto.
Qed.

Lemma sign_append_held E c h typ sk d r : sign_and_append E c h typ sk = (d, r) -> held c < threshold c -> held d <= threshold d.
Proof.
  intros H B. apply sign_append_modify in H. destruct H as [->|(sig & [-> | ->])]; [lia| |]; apply held_modify; exact B.
Qed.

Lemma with_origin_of t o : origin_of (tx_with_auth t (auth_with_origin (tx_auth t) o)) = o.
Proof. unfold origin_of. cbn [tx_auth tx_with_auth]. destruct (tx_auth t); reflexivity. Qed.
Lemma with_origin_sponsor t o : sponsor_of (tx_with_auth t (auth_with_origin (tx_auth t) o)) = sponsor_of t.
Proof. unfold sponsor_of. cbn [tx_auth tx_with_auth]. destruct (tx_auth t); reflexivity. Qed.

Lemma not_oversigned_step E s o : sg_oversign s = true -> not_oversigned (sg_tx s) -> not_oversigned (sg_tx (fst (perform E s o))).
Proof.
  intros V [O P]. destruct o as [sk|sk|pk]; cbn [perform].
  - destruct (sign_origin E s sk) as [s' r] eqn:X. apply sign_origin_effect in X.
    destruct X as [(_ & o' & h' & S & _ & W & ->)|[-> _]]; [|split; assumption].
    cbn [fst with_tx sg_tx]. unfold not_oversigned. rewrite with_origin_of, with_origin_sponsor. split; [|exact P].
    destruct (W V) as (n & N & L). apply signatures_val in N. rewrite req_threshold in L. subst n.
    apply (sign_append_held _ _ _ _ _ _ _ S L).
  - destruct (sign_sponsor E s sk) as [s' r] eqn:X. apply sign_sponsor_effect in X.
    destruct X as [(_ & o & p & p' & h' & A & S & W & ->)|[-> _]]; [|split; assumption].
    cbn [fst with_tx sg_tx]. unfold not_oversigned, origin_of, sponsor_of in *. rewrite A in *. cbn [tx_with_auth tx_auth].
    split; [exact O|]. destruct (W V) as (n & N & L). apply signatures_val in N. rewrite req_threshold in L. subst n.
    apply (sign_append_held _ _ _ _ _ _ _ S L).
  - destruct (append_origin s pk) as [s' r] eqn:X. apply append_origin_effect in X.
    destruct X as [(_ & _ & _ & ->)|[-> _]]; [|split; assumption].
    cbn [fst with_tx sg_tx]. unfold not_oversigned. rewrite with_origin_of, with_origin_sponsor. split; [|exact P].
    rewrite held_list, threshold_modify. exact O.
Qed.

Lemma not_oversigned_history E l s : sg_oversign s = true -> not_oversigned (sg_tx s) -> not_oversigned (sg_tx (perform_all E s l)).
Proof.
  revert s. induction l as [|o l IH]; intros s V N; [exact N|]. cbn [perform_all fold_left]. apply IH.
  - destruct (perform_flags E s o). congruence.
  - apply not_oversigned_step; assumption.
Qed.

Lemma extra_origin E s sk : sg_oversign s = true -> not_oversigned (sg_tx s) -> sg_overlap s && sg_origin_signed s = false ->
  held (origin_of (sg_tx s)) = threshold (origin_of (sg_tx s)) -> sign_origin E s sk = (s, Err TxOriginOversign).
Proof.
  intros V [O _] F H. unfold sign_origin. rewrite F, V. rewrite origin_eq in *.
  rewrite signatures_ok by (pose proof (threshold_small (auth_origin (tx_auth (sg_tx s)))); lia).
  cbn [bind]. rewrite req_threshold, H, N.leb_refl. reflexivity.
Qed.
Lemma extra_sponsor E s sk p : sg_oversign s = true -> not_oversigned (sg_tx s) -> sponsor_of (sg_tx s) = Some p ->
  held p = threshold p -> sign_sponsor E s sk = (s, Err TxSponsorOversign).
Proof.
  intros V [_ P] S H. rewrite S in P. unfold sign_sponsor, sponsor_of in *. destruct (tx_auth (sg_tx s)) as [o|o q]; [discriminate|].
  inversion S; subst q. cbn [auth_sponsor bind]. rewrite V.
  rewrite signatures_ok by (pose proof (threshold_small p); lia).
  cbn [bind]. rewrite req_threshold, H, N.leb_refl. reflexivity.
Qed.

Lemma signer_new_ok t s : signer_new t = Ok s <->
  exists h, initial_hash t = Ok h /\ s = {| sg_tx := t; sg_hash := h; sg_origin_signed := false; sg_oversign := true; sg_overlap := true |}.
Proof.
  unfold signer_new. rewrite bind_ok. split; intros (h & H & X); exists h; (split; [exact H|]); [okinv X; reflexivity | subst; reflexivity].
Qed.

(** ** Nothing already signed is dropped *)

Lemma grows_refl c : grows c c.
Proof. destruct c; cbn; auto. exists []. symmetry. apply app_nil_r. Qed.
Lemma grows_trans c d e : grows c d -> grows d e -> grows c e.
Proof.
  destruct c as [s|m], d as [s'|m'], e as [s''|m'']; cbn; try contradiction.
  - intuition congruence.
  - intros [f F] [g G]. exists (f ++ g). rewrite G, F, app_assoc. reflexivity.
Qed.

Lemma held_zero s : held (SStd s) < 1 -> std_sig s = repeat x00 65.
Proof. cbn [held]. destruct (bytes_eqb_spec (std_sig s) (repeat x00 65)); [auto | lia]. Qed.

Lemma modify_grows c cmd : held c < threshold c -> grows c (fst (modify c cmd)).
Proof.
  intros B. destruct c as [s|m]; destruct cmd as [pk|sig|pk|sig]; try apply grows_refl; cbn [modify fst grows ms_fields std_sig]; eauto.
  right. apply held_zero. exact B.
Qed.
Lemma list_grows c pk : grows c (fst (modify c (MAddPublicKey pk))).
Proof. destruct c; [apply grows_refl|]. cbn. eauto. Qed.

Lemma sign_append_grows E c h typ sk d r : sign_and_append E c h typ sk = (d, r) -> held c < threshold c -> grows c d.
Proof.
  intros H B. apply sign_append_modify in H. destruct H as [->|(sig & [-> | ->])]; [apply grows_refl| |]; apply modify_grows; exact B.
Qed.

Lemma tx_grows_refl t : tx_grows t t.
Proof. split; [apply grows_refl|]. destruct (sponsor_of t); auto using grows_refl. Qed.
Lemma tx_grows_trans t u v : tx_grows t u -> tx_grows u v -> tx_grows t v.
Proof.
  intros [A B] [C D]. split; [eapply grows_trans; eauto|].
  destruct (sponsor_of t), (sponsor_of u), (sponsor_of v); try contradiction; auto. eapply grows_trans; eauto.
Qed.

Lemma perform_grows E s o : sg_oversign s = true -> tx_grows (sg_tx s) (sg_tx (fst (perform E s o))).
Proof.
  intros V. destruct o as [sk|sk|pk]; cbn [perform].
  - destruct (sign_origin E s sk) as [s' r] eqn:X. apply sign_origin_effect in X.
    destruct X as [(_ & o' & h' & S & _ & W & ->)|[-> _]]; [|apply tx_grows_refl].
    cbn [fst with_tx sg_tx]. unfold tx_grows. rewrite with_origin_of, with_origin_sponsor.
    split; [|destruct (sponsor_of (sg_tx s)); auto using grows_refl].
    destruct (W V) as (n & N & L). apply signatures_val in N. rewrite req_threshold in L. subst n. eapply sign_append_grows; eauto.
  - destruct (sign_sponsor E s sk) as [s' r] eqn:X. apply sign_sponsor_effect in X.
    destruct X as [(_ & o & p & p' & h' & A & S & W & ->)|[-> _]]; [|apply tx_grows_refl].
    cbn [fst with_tx sg_tx]. unfold tx_grows, origin_of, sponsor_of in *. rewrite A. cbn [tx_with_auth tx_auth].
    split; [apply grows_refl|]. destruct (W V) as (n & N & L). apply signatures_val in N. rewrite req_threshold in L. subst n.
    eapply sign_append_grows; eauto.
  - destruct (append_origin s pk) as [s' r] eqn:X. apply append_origin_effect in X.
    destruct X as [(_ & _ & _ & ->)|[-> _]]; [|apply tx_grows_refl].
    cbn [fst with_tx sg_tx]. unfold tx_grows. rewrite with_origin_of, with_origin_sponsor.
    split; [apply list_grows|]. destruct (sponsor_of (sg_tx s)); auto using grows_refl.
Qed.

Lemma history_grows E l s : sg_oversign s = true -> tx_grows (sg_tx s) (sg_tx (perform_all E s l)).
Proof.
  revert s. induction l as [|o l IH]; intros s V; [apply tx_grows_refl|]. cbn [perform_all fold_left].
  eapply tx_grows_trans; [apply perform_grows; exact V|]. apply IH. destruct (perform_flags E s o). congruence.
Qed.
