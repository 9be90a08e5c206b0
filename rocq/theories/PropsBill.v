(** Property theorem C113: a key that signs as origin, whatever transactions. *)

From Coq Require Import Lia Strings.String.
From Verif Require Import Base BaseFacts Sha2 HashFacts SpecText SpecAddr AddrFacts Hash C32 Clarity ClarityFacts SpecWire WireFacts Tx SpecTx LengthThms TxFacts TxThms Signer Builder Wallet SpecSign SignFacts SignThms AuthThms PlanThms
     SpecNode NodeThms PropsNode SpecCharge PropsCharge SpecCond CondThms PropsCond SpecLedger LedgerThms PropsLedger PropsSign PropsTx PropsClarity PropsClient SpecFlow FlowThms SpecShare PropsShare SpecLoss PropsLoss
     SpecSecret PropsSecret PropsSponsor HistThms SpecFavour PropsFavour SpecBill.
Local Open Scope N_scope.

Lemma one_meaning t v w : tx_means t v -> tx_means t w -> v = w.
Proof. intros A B. apply (tx_same _ _ _ _ A B). split; [apply (body_same _ _ w w B B); splits; auto | reflexivity]. Qed.

(** Whichever way the account speaks, it is as origin, for one of the transactions signed. *)
Lemma speaks_bill E n sk bs es w typ h c h' : only_signed E sk bs es ->
  In (ser_tx w) es -> wf_tx w -> speaks E w typ h c -> wf_spend c -> node_spend E typ h c h' -> account_of n c = key_account E n sk ->
  coincidence E sk bs es \/ typ = x04 /\ exists b v, In b bs /\ tx_means (fst b) v /\ wf_tx v /\ clear_tx w = clear_tx v
    /\ fee_in c = fee_of (origin_of (fst b)) /\ nonce_in c = nonce_of (origin_of (fst b)).
Proof.
  intros U I W Sp Ws Sd As. destruct (speaker_signs E n sk w typ h c h' Sp Ws Sd As) as (nonce & fee & sig & pk & -> & Re & Op & Hk).
  destruct (bytes_dec pk (pubkey_of E sk)) as [->|Nk].
  2: { left. exists w. split; [exact I|]. split; [exact W|]. left. eexists typ, h, _, pk. split; [exact Sp|]. split; [exact Op | split; assumption]. }
  destruct (U w typ h _ _ _ _ _ I W Sp Re) as (b & x & Ib & Si & Dg). pose proof Si as (v & M & Wv & X).
  destruct (bytes_dec (message_text h typ fee nonce) x) as [Em|Nm].
  2: { left. exists w. split; [exact I|]. split; [exact W|]. right. exists b, v, (message_text h typ fee nonce), x. split; [exact Ib|]. split; [exact M|]. split; [exact Wv|].
       split; [right; eexists typ, h, _; split; [exact Sp | reflexivity]|]. split; [right; exact Si | split; [exact Nm | exact Dg]]. }
  rewrite X in Em. destruct (means_auth _ _ M) as [Mo _].
  assert (fee_of (origin_of (fst b)) < 2 ^ 64 /\ nonce_of (origin_of (fst b)) < 2 ^ 64) as [Bf Bn].
  { rewrite <- wire_fee, <- wire_nonce, <- Mo. pose proof Wv as (_ & Wa & _). unfold worigin. destruct (w_auth v) as [o|o p]; [|destruct Wa as [Wa _]]; destruct o; cbn [fee_in nonce_in]; split; apply Wa. }
  apply message_text_inj in Em; [|rewrite (speaks_length _ _ _ _ _ Sp), sha512_256_length; reflexivity|apply Ws|exact Bf|apply Ws|exact Bn].
  destruct Em as (Eh & -> & -> & ->).
  assert (h = sha512_256 (ser_tx (clear_tx w))) as Eh' by (destruct Sp as [(_ & Y & _)|(Z & _)]; [exact Y | discriminate Z]).
  destruct (bytes_dec (ser_tx (clear_tx w)) (ser_tx (clear_tx v))) as [Es|Ns].
  2: { left. exists w. split; [exact I|]. split; [exact W|]. right. exists b, v, (ser_tx (clear_tx w)), (ser_tx (clear_tx v)). split; [exact Ib|]. split; [exact M|]. split; [exact Wv|].
       split; [left; reflexivity|]. split; [left; reflexivity|]. split; [exact Ns | congruence]. }
  apply one_reading in Es; [|apply clear_wf; assumption..]. right. split; [reflexivity|]. exists b, v. auto 10.
Qed.

(** What a transaction like the one signed takes from its origin. *)
Lemma bill_bound E n t v w k L L1 : tx_means t v -> clear_tx w = clear_tx v -> wf_tx w ->
  let me := account_of n (worigin w) in outlay me t k -> fee_in (worigin w) = fee_of (origin_of t) ->
  (forall o p, w_auth w = WaSponsored o p -> account_of n p <> me) -> takes E n L (ser_tx w) L1 -> coins L me <= coins L1 me + k.
Proof.
  intros M Ec W me O Fe Np T.
  assert (w_conds w = w_conds v /\ w_payload w = w_payload v /\ w_pcmode w = w_pcmode v /\ clear_auth (w_auth w) = clear_auth (w_auth v)) as (Co & Pa & Mo & Au).
  { pose proof (f_equal w_conds Ec). pose proof (f_equal w_payload Ec). pose proof (f_equal w_pcmode Ec). pose proof (f_equal w_auth Ec). auto. }
  assert (when (same me (account_of n (wpayer w))) (fee_in (wpayer w)) = own_fee t) as Of.
  { destruct M as (_ & _ & Ma & _). rewrite Ma in Au. unfold own_fee. unfold origin_of in Fe. destruct (w_auth w) as [o|o p] eqn:Aw, (tx_auth t) as [o'|o' p']; try discriminate Au.
    - assert (wpayer w = worigin w) as -> by (unfold wpayer, worigin; rewrite Aw; reflexivity). fold me. rewrite (same_true me me eq_refl). exact Fe.
    - assert (wpayer w = p) as -> by (unfold wpayer; rewrite Aw; reflexivity). rewrite same_false; [reflexivity|]. intros X. exact (Np o p eq_refl (eq_sym X)). }
  pose proof M as (_ & _ & _ & _ & _ & _ & Mp).
  assert (is_call (tx_payload t) -> exists ms, (ms = [] \/ expected t ms) /\ coins L me <= coins L1 me + own_fee t + stx_sent me ms) as Call.
  { intros Ic. destruct (tx_payload t) as [|ad cn fn args]; [contradiction|]. cbn [payload_means] in Mp. destruct (w_payload v) as [|ver hs c' f' a'] eqn:Pv; [contradiction|].
    destruct (call_taken E n L _ w _ _ _ _ _ L1 eq_refl W Pa T) as (_ & _ & ms & S & _ & Q). exists ms. split; [|rewrite <- Of; apply Q].
    destruct S as [S|S]; [left; exact S | right]. apply (stands_expected t v ms M). unfold run_stands in *. rewrite Pv, <- Co, <- Mo. rewrite Pa in S. exact S. }
  destruct O as [to amount memo P|addr k c Ic In1 Me Cc|Ic De Si].
  - rewrite P in Mp. cbn [payload_means] in Mp. destruct (w_payload v) as [to' a' m'|]; [|contradiction]. destruct Mp as (_ & -> & _).
    destruct (transfer_exact E n w L to' amount m' W Pa) as [_ R]. destruct (R L1 T me) as [R1 _]. fold me in R1. rewrite (same_true me me eq_refl), Of in R1. cbn [when] in R1. lia.
  - destruct (Call Ic) as (ms & S & Q). assert (stx_sent me ms <= k); [|lia]. destruct S as [-> | [S _]]; [cbn; lia|]. destruct (S Ic) as [R1 _].
    rewrite Forall_forall in R1. destruct (R1 _ In1) as (who' & Me' & Na). rewrite (means_fun _ _ _ Me' Me) in Na. destruct Cc as [<-|[<-|[<-|[]]]]; cbn [amount_named] in Na; lia.
  - destruct (Call Ic) as (ms & S & Q). assert (stx_sent me ms = 0); [|lia]. destruct S as [-> | [S _]]; [reflexivity|]. destruct (S Ic) as [_ R2].
    specialize (R2 De). rewrite Forall_forall in R2.
    assert (forall m a, In (MStx a m) ms -> a <> me) as No.
    { intros m a Im ->. specialize (R2 _ Im). apply Exists_exists in R2. destruct R2 as (c & Ic' & Ab). destruct c as [ad m' c'|ad m' c' i|ad tk c' i]; cbn [about] in Ab; try contradiction.
      exact (Si _ _ _ Ic' Ab). }
    clear - No. induction ms as [|[a m| |] ms IH]; cbn [stx_sent]; auto.
    { destruct (wval_dec a me) as [X|]; [exfalso; exact (No m a (or_introl eq_refl) X)|]. rewrite IH; [reflexivity|]. intros m' a' I. apply (No m'). right. exact I. }
    { apply IH. intros m' a' I. apply (No m'). right. exact I. }
    { apply IH. intros m' a' I. apply (No m'). right. exact I. }
Qed.

Lemma bill_step E n sk bs e es L L1 w : let me := key_account E n sk in Forall (sound_bill me) bs ->
  In e es -> takes E n L e L1 -> admitted E n L e w -> acts n w me -> only_signed E sk bs es -> coincidence E sk bs es
  \/ exists b, In b bs /\ nonce_of (origin_of (fst b)) = turn L me /\ turn L1 me = turn L me + 1 /\ coins L me <= coins L1 me + snd b.
Proof.
  intros me S I T Ad A U. pose proof Ad as (Xe & W & _ & Na & [I1 _] & _). rewrite Xe in I, T.
  assert (forall o p, w_auth w = WaSponsored o p -> account_of n p = me -> coincidence E sk bs es) as Sp.
  { intros o p Au Ap. pose proof W as (_ & Wa & _). rewrite Au in Na, Wa. destruct Na as (h1 & h2 & S1 & S2). destruct Wa as [_ Wp].
    destruct (speaks_bill E n sk bs es w x05 h1 p h2 U I W (or_intror (conj eq_refl (ex_intro _ o (conj Au S1)))) Wp S2 Ap) as [X|(X & _)]; [exact X | discriminate X]. }
  assert ((exists o p, w_auth w = WaSponsored o p /\ account_of n p = me) \/ forall o p, w_auth w = WaSponsored o p -> account_of n p <> me) as [(o & p & Au & Ap)|Np].
  { destruct (w_auth w) as [o|o p]; [right; discriminate|]. destruct (wval_dec (account_of n p) me) as [X|X]; [left; eauto|]. right. intros o' p' Z. injection Z as <- <-. exact X. }
  { left. exact (Sp o p Au Ap). }
  assert (account_of n (worigin w) = me) as Em.
  { destruct A as [A|A]; [auto|]. unfold wpayer in A. unfold worigin. destruct (w_auth w) as [o|o p] eqn:Au; [auto|]. destruct (Np o p eq_refl (eq_sym A)). }
  assert (exists h', node_spend E x04 (sha512_256 (ser_tx (clear_tx w))) (worigin w) h') as [h' Sd].
  { unfold worigin. destruct (w_auth w); [exact Na|]. destruct Na as (h1 & _ & S1 & _). eauto. }
  assert (wf_spend (worigin w)) as Wo.
  { pose proof W as (_ & Wa & _). unfold worigin. destruct (w_auth w); [exact Wa | apply Wa]. }
  destruct (speaks_bill E n sk bs es w x04 _ (worigin w) h' U I W (or_introl (conj eq_refl (conj eq_refl eq_refl))) Wo Sd Em) as [X|(_ & b & v & Ib & M & Wv & Ec & Ef & En)]; [left; exact X|].
  right. exists b. split; [exact Ib|]. rewrite Em in I1. split; [congruence|].
  destruct (taken_admitted _ _ _ _ _ T) as (w1 & (X1 & W1 & _) & Tu). assert (w1 = w) as -> by (apply one_reading; congruence). split.
  { rewrite Tu. apply advance_acts. left. symmetry. exact Em. }
  pose proof (bill_bound E n (fst b) v w (snd b) L L1 M Ec W) as B. cbv zeta in B. rewrite Em in B.
  apply B; [apply (proj1 (Forall_forall _ _) S b Ib) | exact Ef | exact Np | exact T].
Qed.

(** If every signature of the key among the transactions taken is of the message it signs for one of the transactions [bs], its
    account has lost no more than these take from their origin, each at most once for its nonce, or a coincidence of hashes is in
    view.  Whoever sponsors them, whatever contracts do. *)
Theorem C113_loss : forall E n sk bs es L M, let me := key_account E n sk in Forall (sound_bill me) bs ->
  takes_all E n L es M -> only_signed E sk bs es ->
  (exists taken, incl taken bs /\ in_order (turn L me) taken /\ turn M me = turn L me + count taken /\ coins L me <= coins M me + total taken)
  \/ coincidence E sk bs es.
Proof.
  intros E n sk bs es L M me S. revert L. induction es as [|e es IH]; cbn [takes_all]; intros L T U.
  - left. subst M. exists []. cbn. split; [intros x []|]. repeat split; lia.
  - destruct T as (L1 & T1 & T2).
    assert (coincidence E sk bs es -> coincidence E sk bs (e :: es)) as Mono by (intros (w & I & R); exists w; split; [right; exact I | exact R]).
    destruct (IH L1 T2) as [(q & I & Co & Tu & Sp)|X]; [intros w typ h mode signer nonce fee sig I; apply U; right; exact I| |right; auto].
    pose proof (taken_admitted _ _ _ _ _ T1) as (w & Ad & Tw).
    assert (acts n w me \/ ~ acts n w me) as [A|A].
    { unfold acts. destruct (wval_dec me (account_of n (worigin w))); [auto|]. destruct (wval_dec me (account_of n (wpayer w))); [auto|]. right. intros [?|?]; contradiction. }
    + destruct (bill_step E n sk bs e (e :: es) L L1 w S (or_introl eq_refl) T1 Ad A U) as [X|(b & Ib & Tn & Q2 & Q1)]; [right; exact X|]. left. fold me in Tn, Q1, Q2.
      exists (b :: q). split; [intros x [<-|Ix]; [exact Ib | exact (I x Ix)]|]. rewrite Q2 in Co, Tu.
      split; [split; [exact Tn | exact Co]|]. rewrite count_cons. change (total (b :: q)) with (snd b + total q). split; lia.
    + left. assert (turn L1 me = turn L me) as Te.
      { rewrite Tw, advance_eq. rewrite (same_false me (account_of n (worigin w))), (same_false me (account_of n (wpayer w))); [cbn; lia|..];
        intros Z; apply A; [right | left]; exact Z. }
      assert (coins L me <= coins L1 me) as Ce.
      { destruct (N.lt_ge_cases (coins L1 me) (coins L me)) as [D|D]; [|exact D]. exfalso. apply A.
        destruct (only_actors E n L e L1 _ _ T1 D) as (v & (X' & V' & _) & Av). destruct Ad as (X & W & _).
        assert (v = w) as -> by (apply one_reading; congruence). exact Av. }
      exists q. rewrite Te in Co, Tu. split; [exact I|]. split; [exact Co|]. split; [exact Tu | lia].
Qed.
Print Assumptions C113_loss.

(** That message is what [sign] has the key sign: nothing else of the key enters the result. *)
Theorem C113_one_message : forall E t x sk, signing t x ->
  forall E' sk', sign_rec E' (sha512_256 x) sk' = sign_rec E (sha512_256 x) sk -> tx_sign E' t sk' = tx_sign E t sk.
Proof.
  intros E t x sk (v & M & _ & ->) E' sk' X. destruct (C109_one_message E t v sk M) as (m & -> & R). apply R. exact X.
Qed.
Print Assumptions C113_one_message.

(** Nothing is forged when the transactions are those that were signed, whatever has been done to the signatures on them and whoever
    sponsors them, so long as the key does not. *)
Theorem C113_stems : forall E sk bs es, Forall (fun e => (exists b, In b bs /\ stems (fst b) e) /\ not_sponsor E sk e) es -> only_signed E sk bs es.
Proof.
  intros E sk bs es F w typ h mode signer nonce fee sig I W Sp Re. destruct (proj1 (Forall_forall _ _) F _ I) as ((b & Ib & v & w' & M & Wv & W' & X & Ec & Ef & En) & No).
  assert (w' = w) as -> by (symmetry; apply one_reading; assumption). pose proof Sp as Sp'. destruct Sp as [(-> & -> & Ow)|(-> & _)]; [|destruct (No w h mode signer nonce fee sig eq_refl W Sp' Re)].
  rewrite <- Ow in Ef, En. cbn [fee_in nonce_in] in Ef, En. exists b. eexists. split; [exact Ib|]. split; [exists v; split; [exact M|]; split; [exact Wv | reflexivity]|].
  rewrite Ec, Ef, En. reflexivity.
Qed.
Print Assumptions C113_stems.

(** A transfer of 1000 with a fee of 9, signed and taken. *)
Example C113_ex : let me := key_account toy NetTestnet (toy_sk 6) in
  let t := unsigned NetTestnet (pubkey_of toy (toy_sk 6)) 9 0 AnAny PcDeny [] (PTransfer (CPrinStd sample_addr) 1000 (str "hi"%string)) in
  sound_bill me (t, 1009) /\ exists e L M, stems t e /\ takes_all toy NetTestnet L [e] M /\ only_signed toy (toy_sk 6) [(t, 1009)] [e] /\ coins M me + 1009 = coins L me.
Proof.
  intros me t. assert (valid_key (toy_sk 6)) as V by (apply toy_sk_valid).
  pose proof (ex_pay_sound 0 1000 eq_refl eq_refl) as [_ _ _ _ _ So [m Me] _ _ _]. cbn [ex_pay st_memo] in Me.
  assert (conds_wire [] []) as Cw by (split; [constructor | split; [reflexivity | constructor]]).
  set (wp := WpTransfer (WStd x16 key_hash) 1000 m).
  assert (payload_means (PTransfer (CPrinStd sample_addr) 1000 (str "hi"%string)) wp) as Pm by (split; [exact ex_principal | split; [reflexivity | exact Me]]).
  assert (wf_payload wp) as Wp by (split; [exact So | split; [reflexivity | apply Me]]).
  pose proof (unsigned_means toy NetTestnet (toy_sk 6) 9 0 AnAny PcDeny [] _ [] wp Cw Pm) as Mt. fold t in Mt.
  destruct (unsigned_flow toy NetTestnet (toy_sk 6) 9 0 AnAny PcDeny [] _ [] wp toy_correct V Cw Pm Wp eq_refl eq_refl) as (s & s' & sig & _ & _ & _ & W & Ac & _).
  set (w := signed_wire _ _ _ _ _ _ _ _ sig) in *. set (v := signed_wire _ _ _ _ _ _ _ _ (repeat x00 65)) in *.
  assert (wf_tx v) as Wv. { destruct W as (W1 & W2 & W3). split; [exact W1|]. split; [|exact W3]. destruct W2 as (A & B & C & D & F). repeat split; try assumption. }
  split. { split; [exact (outlay_transfer me t (CPrinStd sample_addr) 1000 (str "hi"%string) eq_refl)|]. exists v. auto. }
  assert (stems t (ser_tx w)) as St by (exists v, w; auto 10).
  set (L := {| coins := fun _ => 5000; turn := fun _ => 0 |}).
  assert (WStd x16 key_hash <> me) as Ne by (unfold me, key_account; cbn [charged_version]; discriminate).
  destruct (transfer_exact toy NetTestnet w L (WStd x16 key_hash) 1000 m W eq_refl) as [R1 R2]. cbv zeta in R1, R2.
  change (account_of NetTestnet (worigin w)) with me in *. change (account_of NetTestnet (wpayer w)) with me in *.
  change (fee_in (wpayer w)) with 9 in *. change (nonce_in (worigin w)) with 0 in *. change (nonce_in (wpayer w)) with 0 in *.
  destruct (proj2 R1) as [M T].
  { rewrite (same_true me me eq_refl). cbn [when L coins turn]. repeat (split; [first [exact Ac | reflexivity | exact Ne | lia]|]). lia. }
  exists (ser_tx w), L, M. split; [exact St|]. split; [exists M; split; [exact T | reflexivity]|]. split.
  - apply C113_stems. constructor; [|constructor]. split; [exists (t, 1009); split; [left; reflexivity | exact St]|].
    intros w' h mode signer nonce fee sg X W' [(Z & _)|(_ & o & Wa & _)] _; [discriminate Z|]. assert (w' = w) as -> by (apply one_reading; [exact W' | exact W | symmetry; exact X]). discriminate Wa.
  - destruct (R2 M T me) as [Q _]. rewrite (same_true me me eq_refl), (same_false me (WStd x16 key_hash) (fun Z => Ne (eq_sym Z))) in Q. cbn [when] in Q. lia.
Qed.
