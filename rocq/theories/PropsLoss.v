(** Property theorem C110: what an account can lose when nobody forges signatures. *)

From Coq Require Import Lia Strings.String.
From Verif Require Import Base BaseFacts Sha2 HashFacts SpecText SpecAddr AddrFacts Hash C32 Clarity SpecWire WireFacts Tx SpecTx LengthThms TxFacts TxThms Signer Builder Wallet SpecSign SignFacts SignThms AuthThms PlanThms
     SpecCond SpecNode NodeThms PropsNode SpecCharge PropsCharge SpecLedger LedgerThms PropsLedger PropsSign PropsTx PropsClient SpecFlow FlowThms SpecShare PropsShare SpecLoss.
Local Open Scope N_scope.

Lemma walk_length E typ fee nonce h fs ks m h' : walk E typ fee nonce h fs ks m h' -> length h = 32%nat -> length h' = 32%nat.
Proof. induction 1 as [| |h sig pk fs ks n h' _ _ IH]; intros L; auto. apply IH. apply sha512_256_length. Qed.
Lemma speaks_length E w typ h c : speaks E w typ h c -> length h = 32%nat.
Proof.
  intros [(_ & -> & _)|(_ & o & _ & S)]; [apply sha512_256_length|]. inversion S as [|? ? ? ? ? ? ? ? W _]; subst; [apply sha512_256_length|].
  exact (walk_length _ _ _ _ _ _ _ _ _ W (sha512_256_length _)).
Qed.

(** Whoever acts for the account of a key has its signature, or another key with the same hash. *)
Lemma actor_signs E n sk L e w : admitted E n L e w -> acts n w (key_account E n sk) ->
  exists typ h nonce fee sig pk, let c := WsSingle x00 (hash20 (pubkey_of E sk)) nonce fee sig in
    speaks E w typ h c /\ wf_spend c /\ recovers E (digest h typ fee nonce) sig pk /\ hash20 pk = hash20 (pubkey_of E sk).
Proof.
  intros (_ & W & _ & Na & _) A.
  assert (exists typ h c h', speaks E w typ h c /\ account_of n c = key_account E n sk /\ wf_spend c /\ node_spend E typ h c h') as (typ & h & c & h' & Sp & As & Ws & Sd).
  { pose proof W as (_ & Wa & _). unfold acts, worigin, wpayer in A. unfold speaks, worigin. destruct (w_auth w) as [o|o p].
    - destruct Na as [h' Sd]. eexists x04, _, o, h'. split; [left; auto|]. split; [destruct A; congruence|]. auto.
    - destruct Na as (h1 & h2 & S1 & S2). destruct Wa as [Wo Wp]. destruct A as [A|A]; symmetry in A.
      + eexists x04, _, o, h1. split; [left; auto|]. auto.
      + exists x05, h1, p, h2. split; [right; split; [reflexivity | exists o; auto]|]. auto. }
  destruct (spend_opens _ _ _ _ _ Sd) as (y & O & Y). unfold account_of, key_account in As. injection As as Av Ah. rewrite Ah in Y.
  inversion O as [signer nonce fee sig pk Re E1 E2|signer nonce fee sig pk Re E1 E2|signer nonce fee fields required ks h1 Wk E1 E2
                 |signer nonce fee fields required ks h1 Wk E1 E2]; rewrite <- E1 in *; cbn [mode_of signer_of] in *.
  2-4: destruct n; discriminate Av.
  subst signer y. exists typ, h, nonce, fee, sig, pk. auto.
Qed.

Lemma one_step E n sk bs e es L L1 w : ecdsa_correct E -> valid_key sk -> Forall (fun b => exists to, sound_transfer E n sk b to) bs ->
  let me := key_account E n sk in
  In e es -> takes E n L e L1 -> admitted E n L e w -> acts n w me -> unforged E sk bs es -> coincides E sk bs es
  \/ exists b, In b bs /\ st_nonce b = turn L me /\ turn L1 me = turn L me + 1 /\ coins L me <= coins L1 me + (st_amount b + st_fee b).
Proof.
  intros C V S me I T Ad A U. destruct (actor_signs E n sk L e w Ad A) as (typ & h & nonce & fee & sig & pk & Sp & Ws & Re & Hk).
  pose proof Ad as (Xe & W & _). rewrite Xe in I.
  destruct (bytes_dec pk (pubkey_of E sk)) as [->|Nk].
  2: { left. exists w. split; [exact I|]. split; [exact W|]. left. eexists typ, h, _, pk. split; [exact Sp|]. split; [constructor; exact Re | split; assumption]. }
  destruct (U w typ h _ _ _ _ _ I W Sp Re) as (b & Ib & v & Wv & Se & Dg).
  destruct (proj1 (Forall_forall _ _) S b Ib) as (to & Sb).
  destruct (sent_wire E n sk b to C V Sb) as (m & sg & _ & Un & Wb & _).
  pose proof (one_reading _ _ Wv Wb (Un _ Se)) as Ev.
  assert (hashed E w (message_text h typ fee nonce)) as H1 by (right; eexists typ, h, _; split; [exact Sp | reflexivity]).
  assert (worigin v = WsSingle x00 (hash20 (pubkey_of E sk)) (st_nonce b) (st_fee b) sg) as Ov by (rewrite Ev; reflexivity).
  rewrite Ov in Dg. cbn [fee_in nonce_in] in Dg.
  assert (hashed E v (message_text (sha512_256 (ser_tx (clear_tx v))) x04 (st_fee b) (st_nonce b))) as H2.
  { right. exists x04, (sha512_256 (ser_tx (clear_tx v))), (worigin v). split; [left; auto|]. rewrite Ov. reflexivity. }
  destruct (bytes_dec (message_text h typ fee nonce) (message_text (sha512_256 (ser_tx (clear_tx v))) x04 (st_fee b) (st_nonce b))) as [Em|Nm].
  2: { left. exists w. split; [exact I|]. split; [exact W|]. right. eexists b, v, _, _. split; [exact Ib|]. split; [exact Se|]. split; [exact H1|]. split; [exact H2|]. split; [exact Nm | exact Dg]. }
  apply message_text_inj in Em; [|rewrite (speaks_length _ _ _ _ _ Sp), sha512_256_length; reflexivity|apply Ws|apply Sb|apply Ws|apply Sb].
  destruct Em as (Eh & -> & -> & ->).
  assert (worigin w = WsSingle x00 (hash20 (pubkey_of E sk)) (st_nonce b) (st_fee b) sig /\ h = sha512_256 (ser_tx (clear_tx w))) as [Ow Eh'].
  { destruct Sp as [(_ & Y & X)|(X & _)]; [auto | discriminate X]. }
  destruct (bytes_dec (ser_tx (clear_tx w)) (ser_tx (clear_tx v))) as [Es|Ns].
  2: { left. exists w. split; [exact I|]. split; [exact W|]. right. exists b, v, (ser_tx (clear_tx w)), (ser_tx (clear_tx v)). split; [exact Ib|]. split; [exact Se|].
       split; [left; reflexivity|]. split; [left; reflexivity|]. split; [exact Ns | congruence]. }
  apply one_reading in Es; [|apply clear_wf; assumption..]. right. exists b. split; [exact Ib|].
  assert (w_auth w = WaStandard (worigin w) /\ w_payload w = WpTransfer to (st_amount b) m) as [Ea Ep].
  { rewrite Ev in Es. unfold clear_tx in Es. injection Es as _ _ Ea _ _ _ Ep. cbn [w_auth w_payload signed_wire clear_auth] in Ea, Ep. split; [|exact Ep].
    unfold worigin. destruct (w_auth w); [reflexivity | discriminate Ea]. }
  assert (account_of n (worigin w) = me /\ wpayer w = worigin w) as [Ac Ew].
  { split; [rewrite Ow; reflexivity|]. unfold wpayer. rewrite Ea. reflexivity. }
  inversion T as [w' to' am' me' Ad' P' _ _ Ne' Mo'|w' a1 a2 a3 a4 a5 a6 Ad' P'|w' a1 a2 a3 a4 a5 Ad' P'].
  all: assert (w' = w) as Eq by (destruct Ad' as (X' & W' & _); apply one_reading; [exact W' | exact W | congruence]); rewrite Eq in *.
  2-3: rewrite Ep in P'; discriminate P'.
  rewrite Ep in P'. injection P' as <- <- _. destruct Ad as (_ & _ & _ & _ & [Tn _] & Fe). rewrite Ac, Ow in Tn. cbn [nonce_in] in Tn.
  rewrite Ew, Ac, Ow in Fe. cbn [fee_in] in Fe. cbn [coins turn]. split; [exact Tn|]. split.
  { apply advance_acts. left. symmetry. exact Ac. }
  unfold charged in *. rewrite Ew, Ac in *. rewrite Ow in Mo' |- *. cbn [fee_in] in Mo' |- *. unfold give, take in Mo' |- *.
  destruct (wval_dec me me) as [_|X]; [|destruct (X eq_refl)]. destruct (wval_dec me to); lia.
Qed.

(** If every signature of the key among the transactions taken is of a message asked for one of the transfers [bs], the account has
    lost no more than these transfers cost, each at most once for its nonce, or a coincidence of hashes is in view.  Others may have
    sent the transfers on, changed what can be changed about them, or made transactions of their own. *)
Theorem C110_loss : forall E n sk bs es L M, ecdsa_correct E -> valid_key sk -> Forall (fun b => exists to, sound_transfer E n sk b to) bs ->
  let me := key_account E n sk in
  takes_all E n L es M -> unforged E sk bs es ->
  (exists taken, incl taken bs /\ counting (turn L me) taken /\ turn M me = turn L me + count taken /\ coins L me <= coins M me + spent taken)
  \/ coincides E sk bs es.
Proof.
  intros E n sk bs es L M C V S me. revert L. induction es as [|e es IH]; cbn [takes_all]; intros L T U.
  - left. subst M. exists []. cbn. split; [intros x []|]. repeat split; lia.
  - destruct T as (L1 & T1 & T2).
    assert (coincides E sk bs es -> coincides E sk bs (e :: es)) as Mono by (intros (w & I & R); exists w; split; [right; exact I | exact R]).
    destruct (IH L1 T2) as [(q & I & Co & Tu & Sp)|X]; [intros w typ h mode signer nonce fee sig I; apply U; right; exact I| |right; auto].
    pose proof (taken_admitted _ _ _ _ _ T1) as (w & Ad & Tw).
    assert (acts n w me \/ ~ acts n w me) as [A|A].
    { unfold acts. destruct (wval_dec me (account_of n (worigin w))); [auto|]. destruct (wval_dec me (account_of n (wpayer w))); [auto|]. right. intros [?|?]; contradiction. }
    + destruct (one_step E n sk bs e (e :: es) L L1 w C V S (or_introl eq_refl) T1 Ad A U) as [X|(b & Ib & Tn & Q2 & Q1)]; [right; exact X|]. left. fold me in Tn, Q1, Q2.
      exists (b :: q). split; [intros x [<-|Ix]; [exact Ib | exact (I x Ix)]|]. rewrite Q2 in Co, Tu.
      split; [split; [exact Tn | exact Co]|]. rewrite count_cons. change (spent (b :: q)) with (st_amount b + st_fee b + spent q). split; lia.
    + left. assert (turn L1 me = turn L me) as Te.
      { rewrite Tw, advance_eq. rewrite (same_false me (account_of n (worigin w))), (same_false me (account_of n (wpayer w))); [cbn; lia|..];
        intros Z; apply A; [right | left]; exact Z. }
      assert (coins L me <= coins L1 me) as Ce.
      { destruct (N.lt_ge_cases (coins L1 me) (coins L me)) as [D|D]; [|exact D]. exfalso. apply A.
        destruct (only_actors E n L e L1 _ _ T1 D) as (v & (X' & V' & _) & Av). destruct Ad as (X & W & _).
        assert (v = w) as -> by (apply one_reading; congruence). exact Av. }
      exists q. rewrite Te in Co, Tu. split; [exact I|]. split; [exact Co|]. split; [exact Tu | lia].
Qed.
Print Assumptions C110_loss.

(** So an account whose key signs nothing loses nothing, whatever it receives. *)
Theorem C110_silent : forall E n sk es L M, ecdsa_correct E -> valid_key sk -> takes_all E n L es M -> unforged E sk [] es ->
  let me := key_account E n sk in coins L me <= coins M me /\ turn M me = turn L me \/ coincides E sk [] es.
Proof.
  intros E n sk es L M C V T U me. destruct (C110_loss E n sk [] es L M C V (Forall_nil _) T U) as [(q & I & _ & Tu & Sp)|X]; [left|right; exact X].
  destruct q as [|b q]; [|destruct (I b (or_introl eq_refl))]. fold me in Tu, Sp. cbn in Tu, Sp. lia.
Qed.
Print Assumptions C110_silent.

(** Nothing is forged when the transactions are those that were sent, whatever has been done to the signatures on them. *)
Theorem C110_resent : forall E n sk bs es, ecdsa_correct E -> valid_key sk -> Forall (fun b => exists to, sound_transfer E n sk b to) bs ->
  Forall (resent E bs) es -> unforged E sk bs es.
Proof.
  intros E n sk bs es C V S F w typ h mode signer nonce fee sig I W Sp _.
  destruct (proj1 (Forall_forall _ _) F _ I) as (b & v & w' & Ib & Wv & Se & W' & X & Ec & Ef & En).
  assert (w' = w) as -> by (symmetry; apply one_reading; assumption). exists b. split; [exact Ib|]. exists v. split; [exact Wv|]. split; [exact Se|].
  destruct Sp as [(-> & -> & Ow)|(_ & o & Wa & _)].
  - rewrite <- Ow in Ef, En. cbn [fee_in nonce_in] in Ef, En. rewrite Ec, Ef, En. reflexivity.
  - exfalso. destruct (proj1 (Forall_forall _ _) S b Ib) as (to & Sb). destruct (sent_wire E n sk b to C V Sb) as (m & sg & _ & Un & Wb & _).
    rewrite (one_reading _ _ Wv Wb (Un _ Se)) in Ec. unfold clear_tx in Ec. rewrite Wa in Ec. injection Ec as _ _ Y. discriminate Y.
Qed.
Print Assumptions C110_resent.

(** A transfer of 1000 with a fee of 9 is sent, and taken. *)
Example C110_ex : exists b e L M, sound_transfer toy NetTestnet (toy_sk 6) b (WStd x16 key_hash) /\ sends toy b e /\ takes_all toy NetTestnet L [e] M
  /\ unforged toy (toy_sk 6) [b] [e] /\ coins M (key_account toy NetTestnet (toy_sk 6)) + 1009 = coins L (key_account toy NetTestnet (toy_sk 6))
  /\ takes_all toy NetTestnet L [] L /\ unforged toy (toy_sk 6) [] [].
Proof.
  set (b := ex_pay 0 1000). assert (sound_transfer toy NetTestnet (toy_sk 6) b (WStd x16 key_hash)) as Sb by (apply (ex_pay_sound 0 1000); reflexivity).
  assert (valid_key (toy_sk 6)) as V by (apply toy_sk_valid).
  destruct (C100_transfer toy NetTestnet (toy_sk 6) b _ toy_correct V Sb) as (e & Se & R).
  set (L := {| coins := fun _ => 5000; turn := fun _ => 0 |}).
  assert (WStd x16 key_hash <> key_account toy NetTestnet (toy_sk 6)) as Ne by (unfold key_account; cbn [charged_version]; discriminate).
  destruct (R L) as [R1 R2]. destruct (proj2 R1) as [M T]; [split; [reflexivity|]; split; [exact Ne|]; split; [reflexivity | cbn; lia]|].
  exists b, e, L, M. split; [exact Sb|]. split; [exact Se|]. split; [exists M; split; [exact T | reflexivity]|]. split; [|split].
  - apply (C110_resent toy NetTestnet (toy_sk 6) [b] [e] toy_correct V); [constructor; [eexists; exact Sb | constructor]|]. constructor; [|constructor].
    destruct (sent_wire toy NetTestnet (toy_sk 6) b _ toy_correct V Sb) as (m & sg & _ & Un & Wb & _). pose proof (Un _ Se) as X.
    eexists b, _, _. split; [left; reflexivity|]. split; [exact Wb|]. split; [rewrite <- X; exact Se|]. split; [exact Wb|]. split; [exact X|]. auto.
  - destruct (R2 M T (key_account toy NetTestnet (toy_sk 6))) as [Q _]. rewrite (same_true _ _ eq_refl), (same_false _ _ (fun X => Ne (eq_sym X))) in Q. cbn [when] in Q.
    change (st_amount b + st_fee b) with 1009 in Q. lia.
  - split; [reflexivity|]. intros w typ h mode signer nonce fee sig [].
Qed.
