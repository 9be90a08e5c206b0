(** Property theorem C100: what becomes of money. *)

From Coq Require Import Lia Strings.String.
From Verif Require Import Base BaseFacts Sha2 SpecText SpecAddr Hash Clarity SpecWire WireFacts Tx SpecTx LengthThms TxWire TxFacts TxThms PropsTx Signer Builder SpecSign SignFacts SignThms AuthThms PlanThms
     SpecNode NodeThms SpecFlow FlowThms SpecCharge SpecCond CondThms PropsClarity PropsSign PropsClient PropsCond SpecLedger LedgerThms.
Local Open Scope N_scope.

Lemma means_auth t w : tx_means t w -> worigin w = spend_wire (origin_of t) /\ wpayer w = spend_wire (payer_of t).
Proof.
  intros (_ & _ & A & _). unfold worigin, wpayer, payer_of, origin_of, sponsor_of. rewrite A. destruct (tx_auth t); split; reflexivity.
Qed.
Lemma wire_nonce c : nonce_in (spend_wire c) = nonce_of c.
Proof. destruct c; reflexivity. Qed.
Lemma wire_fee c : fee_in (spend_wire c) = fee_of c.
Proof. destruct c; reflexivity. Qed.

(** A transfer is taken exactly by nodes that accept its signatures, when its nonces are next and the money is there; no condition, an
    amount, and another account to go to.  The origin pays the amount, the sponsor, or else the origin, pays the fee of its own
    condition, and the recipient has the amount.  Nothing else changes. *)
Theorem C100_exact : forall E n t w e L to amount memo, tx_means t w -> wf_tx w -> enc_tx t = Ok e ->
  tx_payload t = PTransfer to amount memo -> forall who, means to who ->
  let o := account_of n (spend_wire (origin_of t)) in let p := account_of n (spend_wire (payer_of t)) in
  ((exists L', takes E n L e L') <->
     node_accepts E n e /\ tx_conds t = [] /\ 0 < amount /\ who <> o
     /\ turn L o = nonce_of (origin_of t) /\ turn L p = nonce_of (payer_of t)
     /\ fee_of (payer_of t) <= coins L p /\ amount + when (same o p) (fee_of (payer_of t)) <= coins L o)
  /\ forall L', takes E n L e L' -> forall x,
       coins L' x + when (same x o) amount + when (same x p) (fee_of (payer_of t)) = coins L x + when (same x who) amount
       /\ turn L' x = turn L x + when (same x o || same x p) 1.
Proof.
  intros E n t w e L to amount memo M W En P who Wh o p.
  destruct (means_auth t w M) as [Ao Ap]. pose proof M as (_ & _ & _ & _ & _ & Mc & Mp). rewrite P in Mp.
  destruct (w_payload w) as [to' amount' memo'|] eqn:Pw; [|contradiction]. cbn in Mp. destruct Mp as (M1 & Ma & _). subst amount'.
  assert (to' = who) as -> by (eapply means_fun; eassumption). destruct (enc_means t w e M En) as [_ ->].
  pose proof (transfer_exact E n w L who amount memo' W Pw) as R. cbv zeta in R. rewrite Ao, Ap, !wire_nonce, wire_fee in R. fold o p in R.
  destruct R as [R1 R2]. split; [|exact R2]. rewrite R1. split; intros (A & B & D); (split; [exact A|]); (split; [|exact D]).
  - rewrite B in Mc. inversion Mc. reflexivity.
  - rewrite B in Mc. inversion Mc. reflexivity.
Qed.
Print Assumptions C100_exact.

(** A transfer from a key, as the builder and the signer make it. *)
Lemma sent_wire E n sk b to : ecdsa_correct E -> valid_key sk -> sound_transfer E n sk b to ->
  exists m sig, let w := signed_wire n (hash20 (pubkey_of E sk)) (st_fee b) (st_nonce b) (st_anchor b) (st_pcmode b) []
                           (WpTransfer to (st_amount b) m) sig in
    sends E b (ser_tx w) /\ (forall e, sends E b e -> e = ser_tx w) /\ wf_tx w /\ node_accepts E n (ser_tx w).
Proof.
  intros C V [Se Ne Al Ba To So [m Me] Am Fe No].
  assert (payload_means (PTransfer (st_recipient b) (st_amount b) (st_memo b)) (WpTransfer to (st_amount b) m)) as P
    by (split; [exact To | split; [reflexivity | exact Me]]).
  assert (wf_payload (WpTransfer to (st_amount b) m)) as W by (split; [exact So | split; [exact Am | apply Me]]).
  assert (conds_wire [] []) as Cw by (split; [constructor | split; [reflexivity | constructor]]).
  destruct (unsigned_flow E n sk (st_fee b) (st_nonce b) (st_anchor b) (st_pcmode b) [] _ [] _ C V Cw P W Fe No)
    as (s & s' & sig & Sn & Su & M & Wf & Ac & _).
  exists m, sig. cbv zeta. set (w := signed_wire _ _ _ _ _ _ _ _ _) in *.
  assert (@build_transfer unit E b = Ok (unsigned n (pubkey_of E sk) (st_fee b) (st_nonce b) (st_anchor b) (st_pcmode b) []
            (PTransfer (st_recipient b) (st_amount b) (st_memo b)))) as B by (rewrite build_transfer_cases, Al, Se, Ne, Ba; reflexivity).
  assert (enc_tx (sg_tx s') = Ok (ser_tx w)) as En.
  { apply tx_iff. exists w. split; [exact M|]. split; [|reflexivity]. split; [exact I | apply (wf_fits_body w Wf)]. }
  split; [|split; [|split; [exact Wf | exact Ac]]].
  - eexists _, s, s'. rewrite Se. split; [exact B|]. auto.
  - intros e (t & s1 & s1' & B1 & Sn1 & Su1 & En1). rewrite B in B1. injection B1 as <-. rewrite Sn in Sn1. injection Sn1 as <-.
    rewrite Se in Su1. assert (s1' = s') as -> by (apply succeeds_all in Su, Su1; congruence). congruence.
Qed.

(** The money in a transfer from a key: taken when its nonce is next and amount and fee are there; exactly amount and fee leave the
    account of the key, exactly the amount arrives, and the account's next nonce is one higher. *)
Theorem C100_transfer : forall E n sk b to, ecdsa_correct E -> valid_key sk -> sound_transfer E n sk b to ->
  let me := key_account E n sk in
  exists e, sends E b e /\ forall L,
    ((exists L', takes E n L e L') <->
       0 < st_amount b /\ to <> me /\ turn L me = st_nonce b /\ st_amount b + st_fee b <= coins L me)
    /\ forall L', takes E n L e L' -> forall x,
         coins L' x + when (same x me) (st_amount b + st_fee b) = coins L x + when (same x to) (st_amount b)
         /\ turn L' x = turn L x + when (same x me) 1.
Proof.
  intros E n sk b to C V S me. destruct (sent_wire E n sk b to C V S) as (m & sig & Se & _ & W & Ac). set (w := signed_wire _ _ _ _ _ _ _ _ _) in *.
  exists (ser_tx w). split; [exact Se|]. intros L. destruct (transfer_exact E n w L to (st_amount b) m W eq_refl) as [R1 R2].
  change (account_of n (worigin w)) with me in R1, R2. change (account_of n (wpayer w)) with me in R1, R2.
  change (fee_in (wpayer w)) with (st_fee b) in R1, R2. change (nonce_in (worigin w)) with (st_nonce b) in R1.
  change (nonce_in (wpayer w)) with (st_nonce b) in R1. rewrite (same_true me me eq_refl) in R1. cbn [when] in R1.
  split.
  - rewrite R1. split; [tauto|]. intros (A & B & D & G). split; [exact Ac|]. split; [reflexivity|]. repeat (split; [assumption|]).
    split; [|exact G]. lia.
  - intros L' T x. specialize (R2 L' T x). rewrite orb_diag in R2. destruct (same x me); cbn [when] in *; split; lia.
Qed.
Print Assumptions C100_transfer.

(** Finding: transfers of nothing, or to oneself, are built and signed without complaint, and no node ever takes them. *)
Theorem C100_useless_refuted : forall E n sk b to, ecdsa_correct E -> valid_key sk -> sound_transfer E n sk b to ->
  st_amount b = 0 \/ to = key_account E n sk -> exists e, sends E b e /\ forall L L', ~ takes E n L e L'.
Proof.
  intros E n sk b to C V S U. destruct (C100_transfer E n sk b to C V S) as (e & Se & R). exists e. split; [exact Se|].
  intros L L' T. destruct (proj1 (proj1 (R L)) (ex_intro _ L' T)) as (A & B & _). destruct U; [lia | contradiction].
Qed.
Print Assumptions C100_useless_refuted.

(** Transfers from one key with consecutive nonces are all taken, in their order, if there is money for all of them; and so much is
    spent and received. *)
Theorem C100_series : forall E n sk bs tos es k L, ecdsa_correct E -> valid_key sk -> Forall2 (sound_transfer E n sk) bs tos -> Forall2 (sends E) bs es ->
  let me := key_account E n sk in
  Forall (fun b => 0 < st_amount b) bs -> ~ In me tos -> counting k bs -> turn L me = k -> spent bs <= coins L me ->
  exists M, takes_all E n L es M
    /\ forall x, coins M x + when (same x me) (spent bs) = coins L x + received x bs tos
                 /\ turn M x = turn L x + when (same x me) (count bs).
Proof.
  intros E n sk bs tos es k L C V S. revert es k L. induction S as [|b to bs tos S _ IH]; intros es k L Se me Am Ne Co Tu Sp.
  - inversion Se; subst. exists L. split; [reflexivity|]. intros x. cbn. unfold when. destruct (same x me); lia.
  - inversion Se as [|b' e bs' es' Se1 Se2]; subst. inversion Am; subst. apply not_in_cons in Ne. destruct Ne as [Ne1 Ne2]. destruct Co as [Co1 Co2].
    change (spent (b :: bs)) with (st_amount b + st_fee b + spent bs) in *.
    destruct (C100_transfer E n sk b to C V S) as (e' & Se' & R).
    assert (e' = e) as -> by (destruct (sent_wire E n sk b to C V S) as (m & sig & _ & U & _); rewrite (U _ Se1), (U _ Se'); reflexivity).
    destruct (R L) as [R1 R2]. fold me in R1, R2.
    destruct (proj2 R1) as [L1 T]; [split; [assumption|]; split; [intros Z; apply Ne1; symmetry; exact Z|]; split; [symmetry; exact Co1 | lia]|].
    pose proof (R2 L1 T) as X. destruct (X me) as [X1 X2]. rewrite (same_true me me eq_refl) in X1, X2. cbn [when] in X1, X2.
    rewrite (same_false me to Ne1) in X1. cbn [when] in X1.
    destruct (IH es' (turn L me + 1) L1 Se2) as (M & G & Q); try assumption; [fold me; lia|].
    exists M. split; [exists L1; auto|]. intros x. specialize (Q x). specialize (X x). cbn [received]. fold me in Q. rewrite count_cons.
    destruct (same x me); cbn [when] in *; split; lia.
Qed.
Print Assumptions C100_series.

(** A statement of account.  Among any transactions, let those of the account be outcomes of the transfers [bs], in whatever order and
    however often they were sent or built anew.  Those that were taken carry consecutive nonces, and no more than their sum is gone. *)
Theorem C100_statement : forall E n sk bs es L M, ecdsa_correct E -> valid_key sk -> Forall (fun b => exists to, sound_transfer E n sk b to) bs ->
  let me := key_account E n sk in
  takes_all E n L es M -> (forall e k, In e es -> turn_of n e me k -> exists b, In b bs /\ sends E b e) ->
  exists taken, incl taken bs /\ counting (turn L me) taken /\ turn M me = turn L me + count taken
    /\ coins L me <= coins M me + spent taken.
Proof.
  intros E n sk bs es L M C V S me. revert L. induction es as [|e es IH]; cbn [takes_all]; intros L T O.
  - subst M. exists []. cbn. split; [intros x []|]. repeat split; lia.
  - destruct T as (L1 & T1 & T2). destruct (IH L1 T2) as (q & I & Co & Tu & Sp); [intros e' k I; apply O; right; exact I|].
    pose proof (taken_admitted _ _ _ _ _ T1) as (w & (X & W & _) & Tw).
    assert (acts n w me \/ ~ acts n w me) as [A|A].
    { unfold acts. destruct (wval_dec me (account_of n (worigin w))); [auto|]. destruct (wval_dec me (account_of n (wpayer w))); [auto|]. right. intros [?|?]; contradiction. }
    + assert (exists k, turn_of n e me k) as (k & Tk) by (destruct A as [A|A]; eexists; exists w; eauto 6).
      destruct (O e k (or_introl eq_refl) Tk) as (b & Ib & Se). destruct (proj1 (Forall_forall _ _) S b Ib) as (to & Sb).
      destruct (C100_transfer E n sk b to C V Sb) as (e' & Se' & R).
      assert (e' = e) as -> by (destruct (sent_wire E n sk b to C V Sb) as (m & sig & _ & U & _); rewrite (U _ Se), (U _ Se'); reflexivity).
      destruct (R L) as [R1 R2]. fold me in R1, R2. destruct (proj1 R1 (ex_intro _ L1 T1)) as (_ & Ne & Tn & Mo).
      destruct (R2 L1 T1 me) as [Q1 Q2]. rewrite (same_true me me eq_refl) in Q1, Q2. cbn [when] in Q1, Q2.
      exists (b :: q). split; [intros x [<-|Ix]; [exact Ib | exact (I x Ix)]|]. rewrite Q2 in Co, Tu.
      split; [split; [symmetry; exact Tn | exact Co]|]. rewrite count_cons. change (spent (b :: q)) with (st_amount b + st_fee b + spent q).
      split; [lia|]. unfold when in Q1. destruct (same me to); lia.
    + assert (turn L1 me = turn L me) as Te.
      { rewrite Tw, advance_eq. rewrite (same_false me (account_of n (worigin w))), (same_false me (account_of n (wpayer w))); [cbn; lia|..];
        intros Z; apply A; [right | left]; exact Z. }
      assert (coins L me <= coins L1 me) as Ce.
      { destruct (N.lt_ge_cases (coins L1 me) (coins L me)) as [D|D]; [|exact D]. exfalso. apply A.
        destruct (only_actors E n L e L1 _ _ T1 D) as (v & (X' & V' & _) & Av). assert (v = w) as -> by (apply one_reading; congruence). exact Av. }
      exists q. rewrite Te in Co, Tu. split; [exact I|]. split; [exact Co|]. split; [exact Tu | lia].
Qed.
Print Assumptions C100_statement.

(** So trying again with the same nonce never pays twice, whatever else is changed. *)
Theorem C100_same_nonce : forall E n sk bs es L M k top, ecdsa_correct E -> valid_key sk -> Forall (fun b => exists to, sound_transfer E n sk b to) bs ->
  let me := key_account E n sk in
  takes_all E n L es M -> (forall e k, In e es -> turn_of n e me k -> exists b, In b bs /\ sends E b e) ->
  Forall (fun b => st_nonce b = k /\ st_amount b + st_fee b <= top) bs ->
  coins L me <= coins M me + top /\ turn M me <= turn L me + 1.
Proof.
  intros E n sk bs es L M k top C V S me T O B. destruct (C100_statement E n sk bs es L M C V S T O) as (q & I & Co & Tu & Sp). fold me in Co, Tu, Sp.
  rewrite Forall_forall in B. destruct q as [|b [|b' q]].
  - cbn in Tu, Sp. lia.
  - destruct (B b (I b (or_introl eq_refl))) as [_ B2]. cbn in Tu, Sp. lia.
  - exfalso. destruct (B b (I b (or_introl eq_refl))) as [B1 _]. destruct (B b' (I b' (or_intror (or_introl eq_refl)))) as [B2 _].
    cbn [counting] in Co. lia.
Qed.
Print Assumptions C100_same_nonce.

(** Trying again with the nonce that is next then pays twice. *)
Theorem C100_again_refuted : forall E n sk b b' to e e' L L1, ecdsa_correct E -> valid_key sk -> sound_transfer E n sk b to -> sound_transfer E n sk b' to ->
  let me := key_account E n sk in
  st_amount b' = st_amount b -> st_fee b' = st_fee b -> sends E b e -> sends E b' e' -> takes E n L e L1 -> st_nonce b' = turn L1 me ->
  2 * (st_amount b + st_fee b) <= coins L me ->
  exists M, takes_all E n L [e; e'] M /\ coins M me + 2 * (st_amount b + st_fee b) = coins L me /\ coins M to = coins L to + 2 * st_amount b.
Proof.
  intros E n sk b b' to e e' L L1 C V S S' me Am Fe Se Se' T No Mo.
  destruct (C100_transfer E n sk b to C V S) as (x & Sx & R). destruct (C100_transfer E n sk b' to C V S') as (x' & Sx' & R').
  assert (x = e) as -> by (destruct (sent_wire E n sk b to C V S) as (m & sig & _ & U & _); rewrite (U _ Se), (U _ Sx); reflexivity).
  assert (x' = e') as -> by (destruct (sent_wire E n sk b' to C V S') as (m & sig & _ & U & _); rewrite (U _ Se'), (U _ Sx'); reflexivity).
  destruct (R L) as [A1 A2]. destruct (R' L1) as [B1 B2]. fold me in A1, A2, B1, B2.
  destruct (proj1 A1 (ex_intro _ L1 T)) as (Po & Ne & _ & _). assert (me <> to) as Ne' by congruence.
  destruct (A2 L1 T me) as [Q1 _]. destruct (A2 L1 T to) as [Q2 _].
  rewrite (same_true me me eq_refl), (same_false me to Ne') in Q1. rewrite (same_true to to eq_refl), (same_false to me Ne) in Q2. cbn [when] in Q1, Q2.
  destruct (proj2 B1) as [M TM]; [split; [lia|]; split; [exact Ne|]; split; [symmetry; exact No | lia]|].
  destruct (B2 M TM me) as [P1 _]. destruct (B2 M TM to) as [P2 _].
  rewrite (same_true me me eq_refl), (same_false me to Ne') in P1. rewrite (same_true to to eq_refl), (same_false to me Ne) in P2. cbn [when] in P1, P2.
  exists M. split; [exists L1; split; [exact T|]; exists M; split; [exact TM | reflexivity]|]. lia.
Qed.
Print Assumptions C100_again_refuted.

(** Each nonce of an account is used once.  The same bytes are never taken twice, nor any other transaction in which the account acts
    with that nonce, however it is signed and whatever happens in between. *)
Theorem C100_once : forall E n L e L' M M', takes E n L e L' -> later E n L' M -> ~ takes E n M e M'.
Proof.
  intros E n L e L' M M' T R. destruct (taken_admitted _ _ _ _ _ T) as (w & (X & W & _) & _).
  assert (turn_of n e (account_of n (worigin w)) (nonce_in (worigin w))) as O by (exists w; auto). eapply never_again; eassumption.
Qed.
Print Assumptions C100_once.

Theorem C100_one_of_two : forall E n t u w v e f a L L' M M', tx_means t w -> wf_tx w -> enc_tx t = Ok e -> tx_means u v -> wf_tx v -> enc_tx u = Ok f ->
  forall c d, In c [origin_of t; payer_of t] -> In d [origin_of u; payer_of u] ->
  account_of n (spend_wire c) = a -> account_of n (spend_wire d) = a -> nonce_of c = nonce_of d ->
  takes E n L e L' -> later E n L' M -> ~ takes E n M f M'.
Proof.
  intros E n t u w v e f a L L' M M' Mt Wt Et Mu Wu Eu c d Ic Id Ac Ad No T R.
  assert (forall t w e c, tx_means t w -> wf_tx w -> enc_tx t = Ok e -> In c [origin_of t; payer_of t] ->
            turn_of n e (account_of n (spend_wire c)) (nonce_of c)) as K.
  { clear. intros t w e c M W En Ic. destruct (enc_means t w e M En) as [_ ->]. destruct (means_auth t w M) as [A B]. exists w.
    split; [reflexivity|]. split; [exact W|]. rewrite A, B, <- wire_nonce. destruct Ic as [<-|[<-|[]]]; auto. }
  eapply never_again; [exact T | exact (K _ _ _ _ Mt Wt Et Ic) | exact R|]. rewrite Ac, <- Ad, No. exact (K _ _ _ _ Mu Wu Eu Id).
Qed.
Print Assumptions C100_one_of_two.

Lemma call_ran E n t w L L' : tx_means t w -> wf_tx w -> is_call (tx_payload t) -> takes E n L (ser_tx w) L' ->
  exists ms, (ms = [] \/ run_stands w ms) /\ Forall (fun m => source m = account_of n (worigin w) \/ is_contract (source m)) ms
    /\ turn L' = advance n w (turn L)
    /\ forall a, coins L a <= coins L' a + when (same a (account_of n (spend_wire (payer_of t)))) (fee_of (payer_of t)) + stx_sent a ms.
Proof.
  intros M W Ca T. destruct (means_auth t w M) as [_ Ap]. pose proof M as (_ & _ & _ & _ & _ & _ & Mp).
  destruct (w_payload w) as [|v h c f args] eqn:P; [destruct (tx_payload t); contradiction|].
  destruct (call_taken E n L _ w v h c f args L' eq_refl W P T) as (_ & Tu & ms & S & F & Q). rewrite Ap, wire_fee in Q. exists ms. auto.
Qed.

(** The most a call can cost.  A condition "at most k" on an account keeps its loss to k, and to the fee besides if it pays the fee; in
    mode Deny an account no condition names loses at most the fee.  Whatever the contract does. *)
Theorem C100_limit : forall E n t w e addr who k L L', tx_means t w -> wf_tx w -> enc_tx t = Ok e -> is_call (tx_payload t) ->
  In (CondSTX addr k CcLTE) (tx_conds t) -> means addr who -> takes E n L e L' ->
  coins L who <= coins L' who + k + when (same who (account_of n (spend_wire (payer_of t)))) (fee_of (payer_of t)).
Proof.
  intros E n t w e addr who k L L' M W En Ca I Me T. pose proof (C90_limit t w e) as Lim.
  destruct (enc_means t w e M En) as [_ ->]. destruct (call_ran E n t w L L' M W Ca T) as (ms & S & _ & _ & Q).
  specialize (Q who). assert (stx_sent who ms <= k); [|lia].
  destruct S as [-> | S]; [cbn; lia|]. refine (proj1 (Lim ms addr who k M W En Ca I Me _)). exists w. auto.
Qed.
Print Assumptions C100_limit.

Theorem C100_deny : forall E n t w e who L L', tx_means t w -> wf_tx w -> enc_tx t = Ok e -> is_call (tx_payload t) ->
  tx_pcmode t = PcDeny -> (forall c, In c (tx_conds t) -> ~ means (cond_who c) who) -> takes E n L e L' ->
  coins L who <= coins L' who + when (same who (account_of n (spend_wire (payer_of t)))) (fee_of (payer_of t)).
Proof.
  intros E n t w e who L L' M W En Ca De No T. pose proof (C90_deny_protects t w e) as Den.
  destruct (enc_means t w e M En) as [_ ->]. destruct (call_ran E n t w L L' M W Ca T) as (ms & S & _ & _ & Q).
  specialize (Q who). rewrite none_sent in Q; [lia|]. apply Forall_forall.
  destruct S as [-> | S]; [intros m []|]. intros m Im. apply (Den ms who M W En Ca De No); [exists w; auto | exact Im].
Qed.
Print Assumptions C100_deny.

(** Finding: without conditions mode Allow, which the builders start from, protects from nothing.  Such a call may take from the
    account any amount it has left after the fee. *)
Theorem C100_default_refuted : forall E n t w e to k L, tx_means t w -> wf_tx w -> enc_tx t = Ok e -> node_accepts E n e -> is_call (tx_payload t) ->
  tx_conds t = [] -> tx_pcmode t = PcAllow -> tx_auth t = AStandard (origin_of t) ->
  let me := account_of n (spend_wire (origin_of t)) in
  to <> me -> turn L me = nonce_of (origin_of t) -> k + fee_of (origin_of t) <= coins L me ->
  exists L', takes E n L e L' /\ coins L' me + k + fee_of (origin_of t) = coins L me.
Proof.
  intros E n t w e to k L M W En (v & X & V & Nn & Na) Ca Co Mo Au me Ne Tu Fu. destruct (enc_means t w e M En) as [_ ->].
  assert (v = w) as -> by (symmetry; apply one_reading; assumption). destruct (means_auth t w M) as [Ao Ap].
  assert (payer_of t = origin_of t) as Pa by (unfold payer_of, sponsor_of; rewrite Au; reflexivity). rewrite Pa in Ap.
  pose proof M as (_ & _ & _ & _ & Mm & Mc & Mp). rewrite Co in Mc. assert (w_conds w = []) as Wc by (inversion Mc; reflexivity).
  destruct (w_payload w) as [|ver h c f args] eqn:P; [destruct (tx_payload t); contradiction|].
  assert (fee_in (wpayer w) <= coins L me) as Fe by (rewrite Ap, wire_fee; lia).
  assert (charged n w L me + fee_of (origin_of t) = coins L me) as Q.
  { pose proof (take_eq me (fee_in (wpayer w)) (coins L) me Fe) as Q. rewrite (same_true me me eq_refl), Ap, wire_fee in Q. cbn [when] in Q.
    unfold charged. rewrite Ap, wire_fee. exact Q. }
  eexists. split.
  - apply (takes_call E n L (ser_tx w) w ver h c f args [(MStx me k, to)]).
    + split; [reflexivity|]. split; [exact W|]. split; [exact Nn|]. split; [exact Na|]. split.
      * unfold in_turn. rewrite Ao, Ap, wire_nonce. fold me. auto.
      * rewrite Ap. fold me. rewrite <- Ap. exact Fe.
    + exact P.
    + unfold run_stands. rewrite P, Wc. split; [constructor|]. intros Z. rewrite Mm, Mo in Z. discriminate Z.
    + constructor; [|constructor]. left. cbn. rewrite Ao. reflexivity.
    + cbn [affordable]. split; [lia | exact I].
  - cbn [coins pour]. rewrite give_eq, (same_false me to) by congruence. cbn [when].
    assert (k <= charged n w L me) as K by lia. pose proof (take_eq me k (charged n w L) me K) as R.
    rewrite (same_true me me eq_refl) in R. cbn [when] in R. lia.
Qed.
Print Assumptions C100_default_refuted.

(** Nobody else's transactions cost an account anything.  Where the account of a key loses money or moves on to another nonce, a
    signature that recovers to the key, or to one with the same hash, authorises this very transaction, as its origin or its sponsor. *)
Theorem C100_only_owner : forall E n L e L' pk, let me := WStd (charged_version n x00) (hash20 pk) in
  takes E n L e L' -> coins L' me < coins L me \/ turn L' me <> turn L me ->
  exists w nonce fee sig key, e = ser_tx w /\ wf_tx w /\ (key = pk \/ clash hash20 key pk)
  /\ let h := sha512_256 (ser_tx (clear_tx w)) in
     (worigin w = WsSingle x00 (hash20 pk) nonce fee sig /\ recovers E (digest h x04 fee nonce) sig key
      \/ exists o h1, w_auth w = WaSponsored o (WsSingle x00 (hash20 pk) nonce fee sig) /\ node_spend E x04 h o h1
           /\ recovers E (digest h1 x05 fee nonce) sig key).
Proof.
  intros E n L e L' pk me T D.
  assert (exists w, admitted E n L e w /\ acts n w me) as (w & (X & W & Nn & Na & _) & A).
  { destruct D as [D|D]; [exact (only_actors E n L e L' _ _ T D)|]. destruct (taken_admitted _ _ _ _ _ T) as (w & Ad & Tu).
    exists w. split; [exact Ad|]. rewrite Tu, advance_eq in D. unfold acts.
    destruct (wval_dec me (account_of n (worigin w))) as [|N1]; [auto|]. destruct (wval_dec me (account_of n (wpayer w))) as [|N2]; [auto|].
    exfalso. apply D. rewrite (same_false _ _ N1), (same_false _ _ N2). cbn. lia. }
  assert (forall c typ h h', wf_spend c -> account_of n c = me -> node_spend E typ h c h' ->
            exists nonce fee sig key, c = WsSingle x00 (hash20 pk) nonce fee sig /\ recovers E (digest h typ fee nonce) sig key
              /\ (key = pk \/ clash hash20 key pk)) as K.
  { clear. intros c typ h h' Wc A S. unfold account_of in A. injection A as A1 A2.
    destruct S as [mode signer nonce fee sig key R Kh|mode signer nonce fee fields required ks h' Wk Sh]; cbn [mode_of signer_of] in A1, A2; subst signer.
    - destruct Wc as ([<-|[<-|[]]] & _); [|destruct n; discriminate A1]. cbn in Kh. injection Kh as Kh.
      exists nonce, fee, sig, key. split; [reflexivity|]. split; [exact R|].
      destruct (list_eq_dec Byte.byte_eq_dec key pk); [auto|]. right. split; assumption.
    - exfalso. destruct Wc as ([<-|[<-|[]]] & _); destruct n; discriminate A1. }
  pose proof W as (_ & Wa & _). unfold acts, worigin, wpayer in A. unfold worigin. destruct (w_auth w) as [o|o p] eqn:Au.
  - destruct Na as [h' S]. assert (account_of n o = me) as A' by (destruct A; congruence).
    destruct (K o x04 _ _ Wa A' S) as (nonce & fee & sig & key & -> & R & Cl). exists w, nonce, fee, sig, key. rewrite Au. auto 10.
  - destruct Na as (h1 & h2 & S1 & S2). destruct Wa as [Wo Wp]. destruct A as [A|A]; symmetry in A.
    + destruct (K o x04 _ _ Wo A S1) as (nonce & fee & sig & key & -> & R & Cl). exists w, nonce, fee, sig, key. rewrite Au. auto 10.
    + destruct (K p x05 _ _ Wp A S2) as (nonce & fee & sig & key & -> & R & Cl). exists w, nonce, fee, sig, key. rewrite Au.
      split; [exact X|]. split; [exact W|]. split; [exact Cl|]. right. exists o, h1. auto.
Qed.
Print Assumptions C100_only_owner.

(** Two transfers with nonces 4 and 5 from a key with 5000 micro-STX, next nonce 4. *)
Definition ex_pay (nonce amount : N) : stx_transfer :=
  {| st_recipient := CPrinStd sample_addr; st_amount := amount; st_sender := toy_sk 6; st_network := NetTestnet; st_fee := 9; st_nonce := nonce;
     st_anchor := AnAny; st_memo := str "hi"%string; st_pcmode := PcDeny; st_conds := []; st_sponsored := false |}.
Lemma ex_pay_sound nonce amount : amount < 2 ^ 64 -> nonce < 2 ^ 64 ->
  sound_transfer toy NetTestnet (toy_sk 6) (ex_pay nonce amount) (WStd x16 key_hash).
Proof.
  intros A B. constructor; try reflexivity; try assumption; [exact ex_principal | exact ex_solid_std | eexists; exact ex_memo].
Qed.
Example C100_ex : let me := key_account toy NetTestnet (toy_sk 6) in let L := {| coins := fun _ => 5000; turn := fun _ => 4 |} in
  exists e1 e2 M, sends toy (ex_pay 4 1000) e1 /\ sends toy (ex_pay 5 20) e2 /\ takes_all toy NetTestnet L [e1; e2] M
  /\ coins M me = 3962 /\ coins M (WStd x16 key_hash) = 6020 /\ turn M me = 6
  /\ (forall M', ~ takes toy NetTestnet M e1 M') /\ forall L', ~ takes toy NetTestnet L e2 L'.
Proof.
  intros me L. pose proof (ex_pay_sound 4 1000 eq_refl eq_refl) as S1. pose proof (ex_pay_sound 5 20 eq_refl eq_refl) as S2.
  pose proof (toy_sk_valid 6) as V.
  destruct (C100_transfer _ _ _ _ _ toy_correct V S1) as (e1 & E1 & R1). destruct (C100_transfer _ _ _ _ _ toy_correct V S2) as (e2 & E2 & R2).
  assert (WStd x16 key_hash <> me) as Ne by (unfold me, key_account; cbn [charged_version]; discriminate).
  destruct (C100_series toy NetTestnet (toy_sk 6) [ex_pay 4 1000; ex_pay 5 20] [WStd x16 key_hash; WStd x16 key_hash] [e1; e2] 4 L toy_correct V)
    as (M & T & Q); [exact (Forall2_cons _ _ S1 (Forall2_cons _ _ S2 (Forall2_nil _))) | exact (Forall2_cons _ _ E1 (Forall2_cons _ _ E2 (Forall2_nil _)))
    | repeat constructor | | split; [reflexivity | split; [reflexivity | exact I]] | reflexivity | cbn; lia |].
  { intros [X|[X|[]]]; exact (Ne X). }
  fold me in Q. exists e1, e2, M. split; [exact E1|]. split; [exact E2|]. split; [exact T|].
  destruct (Q me) as [Q1 Q2]. rewrite (same_true me me eq_refl) in Q1, Q2. cbn [when received spent fold_right] in Q1.
  rewrite (same_false me (WStd x16 key_hash)) in Q1 by congruence. destruct (Q (WStd x16 key_hash)) as [Q3 _].
  rewrite (same_false _ _ Ne) in Q3. cbn [when received] in Q3. rewrite (same_true (WStd x16 key_hash) _ eq_refl) in Q3.
  subst L. cbn [coins turn when received spent fold_right st_amount st_fee ex_pay] in Q1, Q2, Q3. change (turn M me = 6) in Q2.
  split; [lia|]. split; [lia|]. split; [exact Q2|]. split.
  - intros M' T'. destruct (proj1 (proj1 (R1 M)) (ex_intro _ M' T')) as (_ & _ & X & _). fold me in X. rewrite Q2 in X. discriminate X.
  - intros L' T'. destruct (proj1 (proj1 (R2 _)) (ex_intro _ L' T')) as (_ & _ & X & _). discriminate X.
Qed.
