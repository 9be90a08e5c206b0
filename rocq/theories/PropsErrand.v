(** Property theorem C111: what an account that transfers and calls can lose when nobody forges signatures. *)

From Coq Require Import Lia Strings.String.
From Verif Require Import Base BaseFacts Sha2 HashFacts SpecText SpecAddr AddrFacts Hash C32 Clarity SpecWire WireFacts Tx SpecTx LengthThms TxFacts TxThms Signer Builder Wallet SpecSign SignFacts SignThms AuthThms PlanThms
     SpecNode NodeThms PropsNode SpecFlow FlowThms SpecCharge PropsCharge SpecCond CondThms PropsCond SpecLedger LedgerThms PropsLedger PropsSign PropsTx PropsClarity PropsClient
     SpecInvoke PropsInvoke SpecShare PropsShare SpecLoss PropsLoss SpecErrand.
Local Open Scope N_scope.

(** An order on the wire: one text, with the key's account as its only actor. *)
Lemma order_wire E n sk o : ecdsa_correct E -> valid_key sk -> sound_order E n sk o ->
  exists w fee sig, w_auth w = WaStandard (WsSingle x00 (hash20 (pubkey_of E sk)) (nonce_of o) fee sig) /\ fee < 2 ^ 64 /\ nonce_of o < 2 ^ 64
    /\ becomes E n sk o (ser_tx w) /\ (forall e, becomes E n sk o e -> e = ser_tx w) /\ wf_tx w /\ node_accepts E n (ser_tx w).
Proof.
  intros C V. destruct o as [b|d k limit]; cbn [sound_order becomes nonce_of].
  - intros [to S]. destruct (sent_wire E n sk b to C V S) as (m & sig & Q). cbv zeta in Q. eexists _, (st_fee b), sig. split; [|split; [apply S | split; [apply S | exact Q]]]. reflexivity.
  - intros (D & K & _). destruct (called_wire E n sk k d C V D K) as (wcs & v & h & args & sig & Q). cbv zeta in Q.
    eexists _, (cc_fee d), sig. split; [|split; [apply D | split; [exact K | split; [apply Q | split; [apply Q | split; apply Q]]]]]. reflexivity.
Qed.

(** What a signature says does not matter for what a transaction does. *)
Lemma same_effect E n L v w h k fee s1 s2 M : wf_tx v -> wf_tx w -> clear_tx w = clear_tx v ->
  w_auth w = WaStandard (WsSingle x00 h k fee s1) -> w_auth v = WaStandard (WsSingle x00 h k fee s2) -> node_accepts E n (ser_tx v) ->
  takes E n L (ser_tx w) M -> takes E n L (ser_tx v) M.
Proof.
  intros Wv Ww Ec Aw Av (v' & X & Wv' & Nn & Na) T. assert (v' = v) as -> by (apply one_reading; congruence). clear Wv' X.
  assert (w_conds w = w_conds v /\ w_payload w = w_payload v /\ w_pcmode w = w_pcmode v) as (Co & Pa & Mo).
  { pose proof (f_equal w_conds Ec). pose proof (f_equal w_payload Ec). pose proof (f_equal w_pcmode Ec). auto. }
  assert (worigin w = WsSingle x00 h k fee s1 /\ wpayer w = WsSingle x00 h k fee s1 /\ worigin v = WsSingle x00 h k fee s2 /\ wpayer v = WsSingle x00 h k fee s2)
    as (O1 & P1 & O2 & P2) by (unfold worigin, wpayer; rewrite Aw, Av; auto).
  assert (forall u, admitted E n L (ser_tx w) u -> u = w /\ admitted E n L (ser_tx v) v) as Ad.
  { intros u (X & Wu & _ & _ & Tu & Fe). assert (u = w) as -> by (apply one_reading; congruence). split; [reflexivity|].
    split; [reflexivity|]. split; [exact Wv|]. split; [exact Nn|]. split; [exact Na|]. unfold in_turn in *. rewrite O1, P1 in *. rewrite O2, P2. split; assumption. }
  assert (charged n w L = charged n v L) as Ch by (unfold charged; rewrite P1, P2; reflexivity).
  assert (advance n w (turn L) = advance n v (turn L)) as Av' by (unfold advance; rewrite O1, P1, O2, P2; reflexivity).
  assert (account_of n (worigin w) = account_of n (worigin v)) as Ao by (rewrite O1, O2; reflexivity).
  inversion T as [u to am me A P Cd Pos Ne Af|u a1 a2 a3 a4 a5 ms A P St F Af|u a1 a2 a3 a4 a5 A P]; destruct (Ad u A) as [-> A'].
  - rewrite Ch in Af |- *. rewrite Av', Ao in *. apply (takes_transfer E n L (ser_tx v) v to am me A'); [rewrite <- Pa; exact P | rewrite <- Co; exact Cd | exact Pos | exact Ne | exact Af].
  - rewrite Ch in Af |- *. rewrite Av'. eapply takes_call; try eassumption; [rewrite <- Pa; exact P | |].
    + unfold run_stands in *. rewrite <- Pa, <- Co, <- Mo. exact St.
    + revert F. apply Forall_impl. intros m. unfold from_caller. rewrite Ao. auto.
  - rewrite Ch, Av'. eapply takes_nothing; [exact A' | rewrite <- Pa; exact P].
Qed.

(** A node that takes an order with another signature on it does what it could have done with the order itself. *)
Theorem C111_variant : forall E n sk o e e' L M, ecdsa_correct E -> valid_key sk -> sound_order E n sk o -> becomes E n sk o e ->
  varies e' e -> takes E n L e' M -> takes E n L e M.
Proof.
  intros E n sk o e e' L M C V S B (v & w & Wv & Ww & -> & -> & Ec & Ef & En) T.
  destruct (order_wire E n sk o C V S) as (u & fee & sig & Au & _ & _ & _ & Un & Wu & Nu).
  assert (u = v) as -> by (apply one_reading; [exact Wu | exact Wv | symmetry; exact (Un _ B)]).
  assert (exists s, w_auth w = WaStandard (WsSingle x00 (hash20 (pubkey_of E sk)) (nonce_of o) fee s)) as [s Aw].
  { pose proof (f_equal w_auth Ec) as Ea. unfold worigin in Ef, En. rewrite Au in Ef, En. cbn [clear_tx w_auth] in Ea. rewrite Au in Ea.
    destruct (w_auth w) as [c|c p]; [|discriminate Ea]. destruct c as [m sg k f s|m sg k f fs r]; [|discriminate Ea].
    cbn [fee_in nonce_in] in Ef, En. subst. cbn [clear_auth clear_spend] in Ea. injection Ea as -> ->. eauto. }
  exact (same_effect E n L v w _ _ _ _ _ M Wv Ww Ec Aw Au Nu T).
Qed.
Print Assumptions C111_variant.

(** What an order costs when it is taken. *)
Lemma order_taken E n sk o e L M : ecdsa_correct E -> valid_key sk -> sound_order E n sk o -> becomes E n sk o e -> takes E n L e M ->
  let me := key_account E n sk in nonce_of o = turn L me /\ turn M me = turn L me + 1 /\ coins L me <= coins M me + cost o.
Proof.
  intros C V S B T me. destruct o as [b|d k limit]; cbn [sound_order becomes nonce_of cost] in *.
  - destruct S as [to S]. destruct (C100_transfer E n sk b to C V S) as (e1 & Se & R). fold me in R. destruct (sent_wire E n sk b to C V S) as (m & sig & _ & Un & _).
    rewrite (Un _ B), <- (Un _ Se) in T. destruct (R L) as [R1 R2]. pose proof (proj1 R1 (ex_intro _ M T)) as (_ & Ne & Tn & _).
    destruct (R2 M T me) as [Q1 Q2]. rewrite (same_true me me eq_refl), (same_false me to (fun X => Ne (eq_sym X))) in *. cbn [when] in *. lia.
  - destruct S as (D & K & Li). destruct (called_ran E n sk k d e C V D K B L) as [R _]. fold me in R, Li. destruct (R M T) as (Tn & Q1 & _ & Q2).
    specialize (Q1 _ _ Li). specialize (Q2 me). rewrite (same_true me me eq_refl) in *. cbn [when] in *. lia.
Qed.

Lemma order_step E n sk os e es L L1 w : ecdsa_correct E -> valid_key sk -> Forall (sound_order E n sk) os ->
  let me := key_account E n sk in
  In e es -> takes E n L e L1 -> admitted E n L e w -> acts n w me -> only_ordered E n sk os es -> collides E n sk os es
  \/ exists o, In o os /\ nonce_of o = turn L me /\ turn L1 me = turn L me + 1 /\ coins L me <= coins L1 me + cost o.
Proof.
  intros C V S me I T Ad A U. destruct (actor_signs E n sk L e w Ad A) as (typ & h & nonce & fee & sig & pk & Sp & Ws & Re & Hk).
  pose proof Ad as (Xe & W & _). rewrite Xe in I, T.
  destruct (bytes_dec pk (pubkey_of E sk)) as [->|Nk].
  2: { left. exists w. split; [exact I|]. split; [exact W|]. left. eexists typ, h, _, pk. split; [exact Sp|]. split; [constructor; exact Re | split; assumption]. }
  destruct (U w typ h _ _ _ _ _ I W Sp Re) as (o & v & Io & Wv & Be & Dg). pose proof (proj1 (Forall_forall _ _) S o Io) as So.
  destruct (order_wire E n sk o C V So) as (u & fee' & sg & Au & Bf & Bn & _ & Un & Wu & Nu).
  assert (u = v) as -> by (apply one_reading; [exact Wu | exact Wv | symmetry; exact (Un _ Be)]).
  assert (worigin v = WsSingle x00 (hash20 (pubkey_of E sk)) (nonce_of o) fee' sg) as Ov by (unfold worigin; rewrite Au; reflexivity).
  rewrite Ov in Dg. cbn [fee_in nonce_in] in Dg.
  assert (hashed E w (message_text h typ fee nonce)) as H1 by (right; eexists typ, h, _; split; [exact Sp | reflexivity]).
  assert (hashed E v (message_text (sha512_256 (ser_tx (clear_tx v))) x04 fee' (nonce_of o))) as H2.
  { right. exists x04, (sha512_256 (ser_tx (clear_tx v))), (worigin v). split; [left; auto|]. rewrite Ov. reflexivity. }
  destruct (bytes_dec (message_text h typ fee nonce) (message_text (sha512_256 (ser_tx (clear_tx v))) x04 fee' (nonce_of o))) as [Em|Nm].
  2: { left. exists w. split; [exact I|]. split; [exact W|]. right. eexists o, v, _, _. split; [exact Io|]. split; [exact Be|]. split; [exact H1|]. split; [exact H2|]. split; [exact Nm | exact Dg]. }
  apply message_text_inj in Em; [|rewrite (speaks_length _ _ _ _ _ Sp), sha512_256_length; reflexivity|apply Ws|exact Bf|apply Ws|exact Bn].
  destruct Em as (Eh & -> & -> & ->).
  assert (worigin w = WsSingle x00 (hash20 (pubkey_of E sk)) (nonce_of o) fee' sig /\ h = sha512_256 (ser_tx (clear_tx w))) as [Ow Eh'].
  { destruct Sp as [(_ & Y & X)|(X & _)]; [auto | discriminate X]. }
  destruct (bytes_dec (ser_tx (clear_tx w)) (ser_tx (clear_tx v))) as [Es|Ns].
  2: { left. exists w. split; [exact I|]. split; [exact W|]. right. exists o, v, (ser_tx (clear_tx w)), (ser_tx (clear_tx v)). split; [exact Io|]. split; [exact Be|].
       split; [left; reflexivity|]. split; [left; reflexivity|]. split; [exact Ns | congruence]. }
  apply one_reading in Es; [|apply clear_wf; assumption..]. right. exists o. split; [exact Io|].
  apply (order_taken E n sk o (ser_tx v) L L1 C V So Be). apply (C111_variant E n sk o (ser_tx v) (ser_tx w) L L1 C V So Be); [|exact T].
  exists v, w. rewrite Ow, Ov. auto 10.
Qed.

(** If every signature of the key among the transactions taken is of the message for one of the orders [os], the account has lost no
    more than these cost, each at most once for its nonce, or a coincidence of hashes is in view.  Whatever the contracts called
    do, and whatever others send. *)
Theorem C111_loss : forall E n sk os es L M, ecdsa_correct E -> valid_key sk -> Forall (sound_order E n sk) os ->
  let me := key_account E n sk in
  takes_all E n L es M -> only_ordered E n sk os es ->
  (exists taken, incl taken os /\ numbered (turn L me) taken /\ turn M me = turn L me + count taken /\ coins L me <= coins M me + costs taken)
  \/ collides E n sk os es.
Proof.
  intros E n sk os es L M C V S me. revert L. induction es as [|e es IH]; cbn [takes_all]; intros L T U.
  - left. subst M. exists []. cbn. split; [intros x []|]. repeat split; lia.
  - destruct T as (L1 & T1 & T2).
    assert (collides E n sk os es -> collides E n sk os (e :: es)) as Mono by (intros (w & I & R); exists w; split; [right; exact I | exact R]).
    destruct (IH L1 T2) as [(q & I & Co & Tu & Sp)|X]; [intros w typ h mode signer nonce fee sig I; apply U; right; exact I| |right; auto].
    pose proof (taken_admitted _ _ _ _ _ T1) as (w & Ad & Tw).
    assert (acts n w me \/ ~ acts n w me) as [A|A].
    { unfold acts. destruct (wval_dec me (account_of n (worigin w))); [auto|]. destruct (wval_dec me (account_of n (wpayer w))); [auto|]. right. intros [?|?]; contradiction. }
    + destruct (order_step E n sk os e (e :: es) L L1 w C V S (or_introl eq_refl) T1 Ad A U) as [X|(o & Io & Tn & Q2 & Q1)]; [right; exact X|]. left. fold me in Tn, Q1, Q2.
      exists (o :: q). split; [intros x [<-|Ix]; [exact Io | exact (I x Ix)]|]. rewrite Q2 in Co, Tu.
      split; [split; [exact Tn | exact Co]|]. rewrite count_cons. change (costs (o :: q)) with (cost o + costs q). split; lia.
    + left. assert (turn L1 me = turn L me) as Te.
      { rewrite Tw, advance_eq. rewrite (same_false me (account_of n (worigin w))), (same_false me (account_of n (wpayer w))); [cbn; lia|..];
        intros Z; apply A; [right | left]; exact Z. }
      assert (coins L me <= coins L1 me) as Ce.
      { destruct (N.lt_ge_cases (coins L1 me) (coins L me)) as [D|D]; [|exact D]. exfalso. apply A.
        destruct (only_actors E n L e L1 _ _ T1 D) as (v & (X' & V' & _) & Av). destruct Ad as (X & W & _).
        assert (v = w) as -> by (apply one_reading; congruence). exact Av. }
      exists q. rewrite Te in Co, Tu. split; [exact I|]. split; [exact Co|]. split; [exact Tu | lia].
Qed.
Print Assumptions C111_loss.

(** Nothing is forged when the transactions are the orders, whatever has been done to the signatures on them. *)
Theorem C111_orders : forall E n sk os es, ecdsa_correct E -> valid_key sk -> Forall (sound_order E n sk) os ->
  Forall (fun e => exists o e', In o os /\ becomes E n sk o e' /\ varies e e') es -> only_ordered E n sk os es.
Proof.
  intros E n sk os es C V S F w typ h mode signer nonce fee sig I W Sp _.
  destruct (proj1 (Forall_forall _ _) F _ I) as (o & e' & Io & Be & v & w' & Wv & W' & X & -> & Ec & Ef & En).
  assert (w' = w) as -> by (symmetry; apply one_reading; assumption). exists o, v. split; [exact Io|]. split; [exact Wv|]. split; [exact Be|].
  destruct Sp as [(-> & -> & Ow)|(_ & c & Wa & _)].
  - rewrite <- Ow in Ef, En. cbn [fee_in nonce_in] in Ef, En. rewrite Ec, Ef, En. reflexivity.
  - exfalso. destruct (order_wire E n sk o C V (proj1 (Forall_forall _ _) S o Io)) as (u & fe & sg & Au & _ & _ & _ & Un & Wu & _).
    assert (u = v) as -> by (apply one_reading; [exact Wu | exact Wv | symmetry; exact (Un _ Be)]).
    pose proof (f_equal w_auth Ec) as Y. cbn [clear_tx w_auth] in Y. rewrite Wa, Au in Y. discriminate Y.
Qed.
Print Assumptions C111_orders.

(** A transfer of 1000 and a call, each with a fee of 9; the call lets the contract take nothing from the caller. *)
Example C111_ex : let sk := toy_sk 6 in let me := key_account toy NetTestnet sk in let os := [Transfer (ex_pay 0 1000); Call ex_draft_call 1 0] in
  Forall (sound_order toy NetTestnet sk) os /\ costs os = 1018
  /\ exists es L M, Forall2 (becomes toy NetTestnet sk) os es /\ takes_all toy NetTestnet L es M /\ only_ordered toy NetTestnet sk os es /\ coins M me + 1018 = coins L me.
Proof.
  intros sk me os. assert (valid_key sk) as V by (apply toy_sk_valid).
  assert (WStd x16 key_hash <> me) as Ne by (unfold me, key_account; cbn [charged_version]; discriminate).
  assert (sound_transfer toy NetTestnet sk (ex_pay 0 1000) (WStd x16 key_hash)) as Sb by (apply (ex_pay_sound 0 1000); reflexivity).
  assert (Forall (sound_order toy NetTestnet sk) os) as So.
  { constructor; [eexists; exact Sb|]. constructor; [|constructor]. split; [exact ex_draft_call_sound|]. split; [reflexivity|].
    apply limited_silence; [reflexivity|]. intros addr k c [X|[]] Me. injection X as <- _ _. apply Ne. exact (means_fun _ _ _ ex_principal Me). }
  split; [exact So|]. split; [reflexivity|].
  destruct (C100_transfer toy NetTestnet sk (ex_pay 0 1000) _ toy_correct V Sb) as (e & Se & R). fold me in R.
  assert (1 < 2 ^ 64) as K by reflexivity.
  destruct (called_wire toy NetTestnet sk 1 ex_draft_call toy_correct V ex_draft_call_sound K) as (wcs & v & h & args & sig & Ca & Uc & Wc & _). cbv zeta in *. set (wc := signed_wire _ _ _ _ _ _ _ _ _) in *.
  set (L := {| coins := fun _ => 5000; turn := fun _ => 0 |}). destruct (R L) as [R1 R2].
  destruct (proj2 R1) as [L1 T1]; [split; [reflexivity|]; split; [exact Ne|]; split; [reflexivity | cbn; lia]|].
  destruct (R2 L1 T1 me) as [Q1 Q2]. rewrite (same_true me me eq_refl), (same_false _ _ (fun X => Ne (eq_sym X))) in *. cbn [when] in *.
  change (st_amount (ex_pay 0 1000) + st_fee (ex_pay 0 1000)) with 1009 in Q1. cbn [L coins turn] in Q1, Q2.
  destruct (called_ran toy NetTestnet sk 1 ex_draft_call _ toy_correct V ex_draft_call_sound K Ca L1) as [_ R3]. fold me in R3.
  destruct R3 as (M & T2 & Q3); [lia | cbn [ex_draft_call cc_fee]; lia|]. destruct (Q3 me) as [Q4 _]. rewrite (same_true me me eq_refl) in Q4. cbn [when ex_draft_call cc_fee] in Q4.
  assert (Forall2 (becomes toy NetTestnet sk) os [e; ser_tx wc]) as B by (constructor; [exact Se | constructor; [exact Ca | constructor]]).
  exists [e; ser_tx wc], L, M. split; [exact B|]. split; [exists L1; split; [exact T1|]; exists M; split; [exact T2 | reflexivity]|]. split; [|cbn [L coins]; lia].
  apply (C111_orders toy NetTestnet sk os _ toy_correct V So).
  destruct (sent_wire toy NetTestnet sk (ex_pay 0 1000) _ toy_correct V Sb) as (m & sg & _ & Un & Wb & _). pose proof (Un _ Se) as X.
  constructor; [|constructor; [|constructor]].
  - exists (Transfer (ex_pay 0 1000)), e. split; [left; reflexivity|]. split; [exact Se|]. eexists _, _. split; [exact Wb|]. split; [exact Wb|]. split; [exact X|]. split; [exact X|]. auto.
  - exists (Call ex_draft_call 1 0), (ser_tx wc). split; [right; left; reflexivity|]. split; [exact Ca|]. exists wc, wc. split; [exact Wc|]. split; [exact Wc|]. auto.
Qed.
