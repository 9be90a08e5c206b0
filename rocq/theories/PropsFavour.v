(** Property theorem C112: a key that signs as sponsor only. *)

From Coq Require Import Lia Strings.String.
From Verif Require Import Base BaseFacts Sha2 HashFacts SpecText SpecAddr AddrFacts Hash C32 Clarity ClarityFacts SpecWire WireFacts Tx SpecTx LengthThms TxFacts TxThms Signer Builder Wallet SpecSign SignFacts SignThms AuthThms PlanThms
     SpecCond SpecNode NodeThms PropsNode SpecCharge PropsCharge SpecLedger LedgerThms PropsLedger PropsSign PropsTx PropsClient SpecFlow FlowThms SpecShare PropsShare SpecLoss PropsLoss
     SpecSecret PropsSecret PropsSponsor HistThms SpecFavour.
Local Open Scope N_scope.

Lemma satisfied_length E typ h c h' : satisfied E typ h c h' -> length h = 32%nat -> length h' = 32%nat.
Proof.
  intros S L. inversion S as [|? ks m ? W _ _ _ _]; subst; [apply sha512_256_length|]. apply walk_chain in W. exact (walk_length _ _ _ _ _ _ _ _ _ W L).
Qed.

(** What [new_sponser] makes of a transaction. *)
Lemma favour_inv E t p s : signer_new_sponsor E t p = Ok s ->
  exists o q h, tx_auth t = ASponsored o q /\ initial_hash (tx_with_auth t (ASponsored o p)) = Ok h
    /\ s = {| sg_tx := tx_with_auth t (ASponsored o p); sg_hash := sg_hash s; sg_origin_signed := true; sg_oversign := true; sg_overlap := true |}
    /\ tx_verify_origin E (tx_with_auth t (ASponsored o p)) = Ok (sg_hash s).
Proof.
  unfold signer_new_sponsor, auth_set_sponsor. destruct (tx_auth t) as [o|o q] eqn:A; cbn [is_sponsored negb bind]; [discriminate|].
  intros H. apply bind_ok in H. destruct H as (h & V & H). apply bind_ok in H. destruct H as (s0 & Sn & H). injection H as <-.
  unfold signer_new in Sn. apply bind_ok in Sn. destruct Sn as (k & K & Sn). injection Sn as <-. cbn [sg_tx sg_hash]. exists o, q, k. auto.
Qed.
Lemma favour_length E f s : sound_favour f -> signer_new_sponsor E (fst f) (snd f) = Ok s -> length (sg_hash s) = 32%nat.
Proof.
  destruct f as [t p]. intros (Ty & _) N. cbn [fst snd] in *. destruct (favour_inv E t p s N) as (o & q & h & A & H & _ & V).
  assert (origin_of (tx_with_auth t (ASponsored o p)) = origin_of t) as Eo by (unfold origin_of; cbn [tx_with_auth tx_auth]; rewrite A; reflexivity).
  apply (verify_origin_iff E _ h) in V; [|exact H | rewrite Eo; exact Ty]. apply (satisfied_length _ _ _ _ _ V).
  apply initial_hash_iff in H. destruct H as (? & _ & _ & ->). apply sha512_256_length.
Qed.

(** A signature for the account of the key, as origin or as sponsor. *)
Lemma speaker_signs E n sk w typ h c h' : speaks E w typ h c -> wf_spend c -> node_spend E typ h c h' -> account_of n c = key_account E n sk ->
  exists nonce fee sig pk, c = WsSingle x00 (hash20 (pubkey_of E sk)) nonce fee sig /\ recovers E (digest h typ fee nonce) sig pk
    /\ opens E typ h c pk /\ hash20 pk = hash20 (pubkey_of E sk).
Proof.
  intros Sp Ws Sd As. destruct (spend_opens _ _ _ _ _ Sd) as (y & O & Y). unfold account_of, key_account in As. injection As as Av Ah. rewrite Ah in Y.
  inversion O as [signer nonce fee sig pk Re E1 E2|signer nonce fee sig pk Re E1 E2|signer nonce fee fields required ks h1 Wk E1 E2
                 |signer nonce fee fields required ks h1 Wk E1 E2]; rewrite <- E1 in *; cbn [mode_of signer_of] in *.
  2-4: destruct n; discriminate Av.
  subst signer y. exists nonce, fee, sig, pk. auto.
Qed.

(** Whichever way the account speaks, it is for one of the favours, as sponsor. *)
Lemma speaks_favour E n sk fs es w typ h c h' : Forall sound_favour fs -> only_sponsors E sk fs es ->
  In (ser_tx w) es -> wf_tx w -> speaks E w typ h c -> wf_spend c -> node_spend E typ h c h' -> account_of n c = key_account E n sk ->
  meets E sk fs es \/ typ = x05 /\ exists f, In f fs /\ fee_in c = fee_of (snd f) /\ nonce_in c = nonce_of (snd f).
Proof.
  intros S U I W Sp Ws Sd As. destruct (speaker_signs E n sk w typ h c h' Sp Ws Sd As) as (nonce & fee & sig & pk & -> & Re & Op & Hk).
  destruct (bytes_dec pk (pubkey_of E sk)) as [->|Nk].
  2: { left. exists w. split; [exact I|]. split; [exact W|]. left. eexists typ, h, _, pk. split; [exact Sp|]. split; [exact Op | split; assumption]. }
  destruct (U w typ h _ _ _ _ _ I W Sp Re) as (f & x & If & Se & Dg). pose proof (proj1 (Forall_forall _ _) S f If) as Sf.
  destruct (bytes_dec (message_text h typ fee nonce) x) as [Em|Nm].
  2: { left. exists w. split; [exact I|]. split; [exact W|]. right. exists f, (message_text h typ fee nonce), x. split; [exact If|]. split; [exact Se|].
       split; [right; eexists typ, h, _; split; [exact Sp | reflexivity] | split; [exact Nm | exact Dg]]. }
  destruct Se as (s & Ns & X). rewrite X in Em. pose proof (favour_length E f s Sf Ns) as Ln. destruct Sf as (_ & Bf & Bn).
  apply message_text_inj in Em; [|rewrite (speaks_length _ _ _ _ _ Sp), Ln; reflexivity|apply Ws|exact Bf|apply Ws|exact Bn].
  destruct Em as (_ & -> & -> & ->). right. split; [reflexivity|]. exists f. auto.
Qed.

Lemma favour_step E n sk fs e es L L1 w : Forall sound_favour fs ->
  let me := key_account E n sk in
  In e es -> takes E n L e L1 -> admitted E n L e w -> acts n w me -> only_sponsors E sk fs es -> meets E sk fs es
  \/ exists f, In f fs /\ nonce_of (snd f) = turn L me /\ turn L1 me = turn L me + 1 /\ coins L me <= coins L1 me + fee_of (snd f).
Proof.
  intros S me I T Ad A U. pose proof Ad as (Xe & W & _ & Na & [_ I2] & F). rewrite Xe in I.
  assert (forall o h', worigin w = o -> node_spend E x04 (sha512_256 (ser_tx (clear_tx w))) o h' -> wf_spend o -> account_of n o = me -> meets E sk fs es) as Or.
  { intros o h' Eo Sd Wo Ao. destruct (speaks_favour E n sk fs es w x04 _ o h' S U I W (or_introl (conj eq_refl (conj eq_refl (eq_sym Eo)))) Wo Sd Ao) as [X|(X & _)]; [exact X | discriminate X]. }
  destruct (wval_dec (account_of n (worigin w)) me) as [Em|Nm].
  { left. pose proof W as (_ & Wa & _). unfold worigin in Or, Em. destruct (w_auth w) as [o|o p].
    - destruct Na as [h' Sd]. exact (Or o h' eq_refl Sd Wa Em).
    - destruct Na as (h1 & h2 & S1 & _). exact (Or o h1 eq_refl S1 (proj1 Wa) Em). }
  destruct A as [A|A]; [destruct (Nm (eq_sym A))|].
  destruct (w_auth w) as [o|o p] eqn:Au.
  { exfalso. apply Nm. rewrite A. unfold worigin, wpayer. rewrite Au. reflexivity. }
  destruct Na as (h1 & h2 & S1 & S2). pose proof W as (_ & Wa & _). rewrite Au in Wa. destruct Wa as [_ Wp].
  assert (wpayer w = p) as Ep by (unfold wpayer; rewrite Au; reflexivity). rewrite Ep in A, I2, F.
  destruct (speaks_favour E n sk fs es w x05 h1 p h2 S U I W (or_intror (conj eq_refl (ex_intro _ o (conj Au S1)))) Wp S2 (eq_sym A)) as [X|(_ & f & If & Ff & Fn)]; [left; exact X|].
  right. exists f. split; [exact If|]. rewrite <- A in I2, F. split; [congruence|].
  destruct (taken_admitted _ _ _ _ _ T) as (w1 & (X1 & W1 & _) & Tu). assert (w1 = w) as -> by (apply one_reading; congruence). split.
  { rewrite Tu. apply advance_acts. right. rewrite Ep. exact A. }
  rewrite <- Ff. destruct (w_payload w) as [to amount memo|v h c g args] eqn:P.
  - destruct (transfer_exact E n w L to amount memo W P) as [_ R]. rewrite Xe in T. destruct (R L1 T me) as [R1 _].
    rewrite Ep, <- A, (same_true me me eq_refl), (same_false me _ (fun Z => Nm (eq_sym Z))) in R1. cbn [when] in R1. lia.
  - destruct (call_taken E n L e w v h c g args L1 Xe W P T) as (_ & _ & ms & _ & Fo & Q). specialize (Q me).
    rewrite Ep, <- A, (same_true me me eq_refl), none_sent in Q; [cbn [when] in Q; lia|].
    eapply Forall_impl; [|exact Fo]. cbn. intros m [Y|Y] Z; [congruence | rewrite Z in Y; exact Y].
Qed.

(** If every signature of the key among the transactions taken is of the message for one of the favours [fs], the account has lost no
    more than their fees, each at most once for its nonce, whatever the transactions do, or a coincidence of hashes is in view. *)
Theorem C112_loss : forall E n sk fs es L M, Forall sound_favour fs ->
  let me := key_account E n sk in
  takes_all E n L es M -> only_sponsors E sk fs es ->
  (exists taken, incl taken fs /\ queued (turn L me) taken /\ turn M me = turn L me + count taken /\ coins L me <= coins M me + fees taken)
  \/ meets E sk fs es.
Proof.
  intros E n sk fs es L M S me. revert L. induction es as [|e es IH]; cbn [takes_all]; intros L T U.
  - left. subst M. exists []. cbn. split; [intros x []|]. repeat split; lia.
  - destruct T as (L1 & T1 & T2).
    assert (meets E sk fs es -> meets E sk fs (e :: es)) as Mono by (intros (w & I & R); exists w; split; [right; exact I | exact R]).
    destruct (IH L1 T2) as [(q & I & Co & Tu & Sp)|X]; [intros w typ h mode signer nonce fee sig I; apply U; right; exact I| |right; auto].
    pose proof (taken_admitted _ _ _ _ _ T1) as (w & Ad & Tw).
    assert (acts n w me \/ ~ acts n w me) as [A|A].
    { unfold acts. destruct (wval_dec me (account_of n (worigin w))); [auto|]. destruct (wval_dec me (account_of n (wpayer w))); [auto|]. right. intros [?|?]; contradiction. }
    + destruct (favour_step E n sk fs e (e :: es) L L1 w S (or_introl eq_refl) T1 Ad A U) as [X|(f & If & Tn & Q2 & Q1)]; [right; exact X|]. left. fold me in Tn, Q1, Q2.
      exists (f :: q). split; [intros x [<-|Ix]; [exact If | exact (I x Ix)]|]. rewrite Q2 in Co, Tu.
      split; [split; [exact Tn | exact Co]|]. rewrite count_cons. change (fees (f :: q)) with (fee_of (snd f) + fees q). split; lia.
    + left. assert (turn L1 me = turn L me) as Te.
      { rewrite Tw, advance_eq. rewrite (same_false me (account_of n (worigin w))), (same_false me (account_of n (wpayer w))); [cbn; lia|..];
        intros Z; apply A; [right | left]; exact Z. }
      assert (coins L me <= coins L1 me) as Ce.
      { destruct (N.lt_ge_cases (coins L1 me) (coins L me)) as [D|D]; [|exact D]. exfalso. apply A.
        destruct (only_actors E n L e L1 _ _ T1 D) as (v & (X' & V' & _) & Av). destruct Ad as (X & W & _).
        assert (v = w) as -> by (apply one_reading; congruence). exact Av. }
      exists q. rewrite Te in Co, Tu. split; [exact I|]. split; [exact Co|]. split; [exact Tu | lia].
Qed.
Print Assumptions C112_loss.

(** Signing as sponsor asks the key for one signature, of this message. *)
Theorem C112_one_message : forall E f s x sk, signer_new_sponsor E (fst f) (snd f) = Ok s -> sealing E f x ->
  forall E' sk', sign_rec E' (sha512_256 x) sk' = sign_rec E (sha512_256 x) sk -> sign_sponsor E' s sk' = sign_sponsor E s sk.
Proof.
  intros E [t p] s x sk N (s0 & N0 & ->) E' sk' X. cbn [fst snd] in *. rewrite N in N0. injection N0 as <-.
  destruct (favour_inv E t p s N) as (o & q & h & A & _ & Es & _). rewrite Es. unfold sign_sponsor, sign_next_sponsor, auth_sponsor. cbn [sg_tx sg_hash tx_with_auth tx_auth].
  rewrite (append_alike E E' sk sk'); [reflexivity|]. unfold message_text in X. unfold presign_hash, sighash. rewrite !big_endian_be in X. destruct p; exact X.
Qed.
Print Assumptions C112_one_message.

Lemma chain_hash E typ fee nonce fs : forall h ks ks' m m' h1 h2, chain E typ fee nonce h fs ks m h1 -> chain E typ fee nonce h fs ks' m' h2 -> h1 = h2.
Proof.
  induction fs as [|[pk|sig] fs IH]; intros h ks ks' m m' h1 h2 A B; inversion A; inversion B; subst; [reflexivity | eapply IH; eassumption..].
Qed.
Lemma same_hash E typ h c h1 h2 : node_spend E typ h (spend_wire c) h1 -> satisfied E typ h c h2 -> h1 = h2.
Proof.
  intros A B. inversion B as [s pk _ _|m ks k g Ch _ _ _ _]; subst; cbn [spend_wire] in A; inversion A as [|? ? ? ? ? ? ? ? Wk _]; subst; [reflexivity|].
  apply walk_chain in Wk. eapply chain_hash; eassumption.
Qed.

(** Nothing is forged when the transactions are those that were sponsored, and the key has not signed as their origin. *)
Theorem C112_served : forall E sk fs es, Forall sound_favour fs ->
  Forall (fun e => (exists f, In f fs /\ served E sk f e) /\ not_origin E sk e) es -> only_sponsors E sk fs es.
Proof.
  intros E sk fs es S F w typ h mode signer nonce fee sig I W Sp Re. destruct (proj1 (Forall_forall _ _) F _ I) as ((f & If & Sv) & No).
  pose proof (proj1 (Forall_forall _ _) S f If) as (Ty & _). destruct f as [t p]. destruct Sv as (s & s' & w0 & Ns & Sg & M & W0 & En). cbn [fst snd] in *.
  destruct (enc_means _ _ _ M En) as [_ X]. assert (w0 = w) as -> by (apply one_reading; [exact W0 | exact W | symmetry; exact X]). clear X.
  destruct Sp as [(-> & -> & Ow)|(-> & ow & Wa & Sd)]; [destruct (No w mode signer nonce fee sig eq_refl W (eq_sym Ow) Re)|].
  destruct (favour_inv E t p s Ns) as (o & q & h0 & A & H0 & Es & Vo). set (t' := tx_with_auth t (ASponsored o p)) in *.
  apply sign_sponsor_effect in Sg. cbn zeta in Sg. destruct Sg as [(_ & o1 & p1 & p' & g & A1 & Ap & _ & Es')|[_ X]]; [|destruct (X eq_refl)].
  assert (sg_tx s = t') as Et by (rewrite Es; reflexivity). rewrite Et in A1, Es'. cbn [t' tx_with_auth tx_auth] in A1. injection A1 as <- <-.
  assert (sg_tx s' = tx_with_auth t' (ASponsored o p')) as Et' by (rewrite Es'; reflexivity). rewrite Et' in M.
  assert (w_auth w = WaSponsored (spend_wire o) (spend_wire p')) as Wa'.
  { destruct M as (_ & _ & X & _). exact X. }
  rewrite Wa in Wa'. injection Wa' as -> Ep.
  assert (h0 = sha512_256 (ser_tx (clear_tx w))) as ->.
  { assert (initial_hash (tx_with_auth t' (ASponsored o p')) = Ok h0) as H1.
    { rewrite <- H0. apply initial_hash_auth. cbn [t' tx_with_auth tx_auth same_origin]. apply identity_refl. }
    apply initial_hash_iff in H1. destruct H1 as (v & Mv & _ & ->). assert (v = w) as ->; [|reflexivity].
    apply (tx_same _ _ _ _ Mv M). split; [apply (body_same _ _ w w M M); splits; auto | reflexivity]. }
  assert (origin_of t' = o /\ origin_of t = o) as [Eo Eo'] by (unfold origin_of; cbn [t' tx_with_auth tx_auth]; rewrite A; auto).
  apply (verify_origin_iff E _ _ _ H0) in Vo; [|rewrite Eo, <- Eo'; exact Ty]. rewrite Eo in Vo.
  pose proof (same_hash E x04 _ o h (sg_hash s) Sd Vo) as ->.
  exists (t, p). eexists. split; [exact If|]. split; [exists s; split; [exact Ns | reflexivity]|]. cbn [snd].
  pose proof (sign_append_terms E p (sg_hash s) x05 sk) as (_ & T1 & T2). rewrite Ap in T1, T2. cbn [fst] in T1, T2. rewrite T1, T2.
  destruct p' as [x|x]; [|discriminate Ep]. cbn [spend_wire] in Ep. injection Ep as _ _ -> -> _. reflexivity.
Qed.
Print Assumptions C112_served.

(** The sponsor of C104's example: a fee of 5. *)
Example C112_ex : let me := key_account toy NetTestnet sk2 in exists f e L M, sound_favour f /\ served toy sk2 f e /\ takes_all toy NetTestnet L [e] M
  /\ only_sponsors toy sk2 [f] [e] /\ coins M me + 5 = coins L me /\ fees [f] = 5.
Proof.
  intros me.
  destruct C104_ex as (s & s1 & s2 & s3 & e & L' & Sn & Su & N2 & S3 & En & T & _ & Cf & _).
  set (L := {| coins := _; turn := _ |}) in T.
  destruct (sponsored_wire toy ex_bare_tx (SMulti ex_2of3_m) ex_friend (SStd std_default) ex_steps [sk2] (with_auth_wire ex_bare_wtx (auth_wire (ASponsored (SMulti ex_2of3_m) ex_friend))) s s1 s2 s3) as ((_ & _ & _ & _ & _ & _ & Sb) & w' & M & W);
    [reflexivity | reflexivity | exact ex_plan | exact ex_friend_plan | vm_compute; discriminate | vm_compute; discriminate | | | exact Sn | exact Su | exact N2 | exact S3 |].
  1: { destruct ex_bare_means as [(B1 & B2 & _ & B4) _]. split; [exact B1|]. split; [exact B2|]. split; [reflexivity | exact B4]. }
  1: { destruct ex_bare_means as [(_ & _ & B3 & _) (V1 & V2 & V3)]. split; [exact V1|]. split; [|exact V3]. cbn [with_auth_wire w_auth auth_wire wf_auth].
       rewrite B3 in V2. split; [apply V2 | exact ex_friend_wf]. }
  assert (sign_sponsor toy s2 sk2 = (s3, Ok tt)) as Sg.
  { inversion S3 as [|? ? y ? ? P Q]; subst. inversion Q; subst. exact P. }
  destruct (favour_inv toy (sg_tx s1) ex_friend s2 N2) as (o & q & h0 & A & _ & Es & _).
  pose proof (sign_sponsor_effect _ _ _ _ _ Sg) as Ef. cbn zeta in Ef. destruct Ef as [(_ & o1 & p1 & p' & g & A1 & _ & _ & Es')|[_ X]]; [|destruct (X eq_refl)].
  assert (sg_tx s2 = tx_with_auth (sg_tx s1) (ASponsored o ex_friend)) as Et by (rewrite Es; reflexivity). rewrite Et in A1, Es'. cbn [tx_with_auth tx_auth] in A1. injection A1 as <- <-.
  assert (tx_auth (sg_tx s3) = ASponsored o p') as A3 by (rewrite Es'; reflexivity).
  assert (served toy sk2 (sg_tx s1, ex_friend) e) as Sv by (exists s2, s3, w'; auto).
  assert (sound_favour (sg_tx s1, ex_friend)) as So.
  { split; [|split; vm_compute; reflexivity]. cbn [fst]. unfold origin_of. rewrite A. destruct M as (_ & _ & Mw & _). destruct W as (_ & Ww & _).
    rewrite Mw in Ww. apply wf_typed_auth in Ww. rewrite A3 in Ww. apply Ww. }
  exists (sg_tx s1, ex_friend), e, L, L'. split; [exact So|]. split; [exact Sv|]. split; [exists L'; split; [exact T | reflexivity]|]. split; [|split; [|reflexivity]].
  - apply C112_served; constructor; [exact So | constructor | | constructor]. split; [eexists; split; [left; reflexivity | exact Sv]|].
    intros w mode signer nonce fee sig Xe Ww Ow _. destruct (enc_means _ _ _ M En) as [_ X]. assert (w' = w) as -> by (apply one_reading; [exact W | exact Ww | congruence]).
    destruct (means_auth _ _ M) as [Mo _]. rewrite Ow in Mo. unfold origin_of in Mo. rewrite A3 in Mo. cbn [tx_with_auth tx_auth] in Sb. rewrite A3 in Sb.
    destruct Sb as [[Sb _] _]. destruct o as [x|x]; [exact Sb | discriminate Mo].
  - change me with (account_of NetTestnet (spend_wire ex_friend)). rewrite Cf. cbn [L coins].
    rewrite (same_false (account_of NetTestnet (spend_wire ex_friend))); [reflexivity|].
    unfold account_of; cbn [spend_wire mode_of charged_version ex_friend ex_2of3_m std_mode ms_mode mode_code]; discriminate.
Qed.
