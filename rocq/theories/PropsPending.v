(** Property theorem C106: payments made before earlier ones are in the ledger. *)

From Coq Require Import Lia Strings.String.
From Verif Require Import Base BaseFacts Sha2 SpecText SpecAddr AddrFacts Hash C32 Clarity SpecWire WireFacts Tx SpecTx LengthThms TxFacts TxThms Signer Builder Wallet SpecSign SignFacts SignThms AuthThms PlanThms
     SpecCond SpecNode NodeThms PropsNode SpecCharge PropsCharge SpecLedger LedgerThms PropsLedger PropsSign PropsTx PropsClarity PropsClient Rpc SpecClient ClientThms Session SpecSession SessionThms
     SpecFlow FlowThms SpecPay PropsPay SpecPending.
Local Open Scope N_scope.

Lemma sends_fun E n sk b to e e' : ecdsa_correct E -> valid_key sk -> sound_transfer E n sk b to -> sends E b e -> sends E b e' -> e' = e.
Proof. intros C V So Se Se'. destruct (sent_wire E n sk b to C V So) as (m & sig & _ & U & _). rewrite (U _ Se), (U _ Se'). reflexivity. Qed.

Lemma sends_turn E n sk b to e : ecdsa_correct E -> valid_key sk -> sound_transfer E n sk b to -> sends E b e ->
  turn_of n e (key_account E n sk) (st_nonce b) /\ forall k, turn_of n e (key_account E n sk) k -> k = st_nonce b.
Proof.
  intros C V So Se. destruct (sent_wire E n sk b to C V So) as (m & sig & _ & U & W & _). rewrite (U _ Se). set (w := signed_wire _ _ _ _ _ _ _ _ _) in *.
  assert (nonce_in (worigin w) = st_nonce b) as A by reflexivity. assert (nonce_in (wpayer w) = st_nonce b) as B by reflexivity. split.
  - exists w. split; [reflexivity|]. split; [exact W|]. left. split; reflexivity.
  - intros k (v & X & Wv & O). apply (one_reading w v W Wv) in X. subst v. destruct O as [[_ ->]|[_ ->]]; assumption.
Qed.

(** ** One nonce *)

(** Two payments made with one nonce: whatever the node answers, they are never both taken, and together cost at most as much as the
    dearer one.  If the drafts are the same, they are one transaction. *)
Theorem C106_shared : forall S H E n (net : node S) book url (a : account H) d d' to to' s s1 t t1 r r', hd_correct E H -> ecdsa_correct E ->
  sound_draft d to -> sound_draft d' to' -> truthful net book url ->
  let me := owner n a in
  pays E n net url a d s s1 r -> pays E n net url a d' t t1 r' -> turn (book t) me = turn (book s) me ->
  exists e e' x x', posted net url e x s1 /\ posted net url e' x' t1 /\ never_both E n e e' /\ (d' = d -> e' = e)
    /\ forall L es M, takes_all E n L es M -> only_mine n me [e; e'] es ->
         turn M me <= turn L me + 1 /\ coins L me <= coins M me + N.max (st_amount d + st_fee d) (st_amount d' + st_fee d').
Proof.
  intros S H E n net book url a d d' to to' s s1 t t1 r r' Hd C D D' Tr me P P' Tu.
  destruct (pays_iff E n net url a d to s s1 r Hd C D) as (sk & addr & V & Ks & Me & T & I). apply (proj1 I) in P. clear I.
  destruct (pays_iff E n net url a d' to' t t1 r' Hd C D') as (sk' & addr' & _ & Ks' & _ & T' & I). apply (proj1 I) in P'. clear I.
  rewrite Ks in Ks'. injection Ks' as <-. assert (addr' = addr) as -> by (eapply address_text_unique; eassumption).
  destruct P as (x & q & j & i & e & o & N1 & J & A & Se & N2 & _). destruct P' as (x' & q' & j' & i' & e' & o' & N1' & J' & A' & Se' & N2' & _).
  pose proof (Tr s _ _ addr q j i T ltac:(rewrite N1; reflexivity) J A) as K. pose proof (Tr t _ _ addr q' j' i' T' ltac:(rewrite N1'; reflexivity) J' A') as K'.
  change (WStd _ _) with me in K. change (WStd _ _) with me in K'. set (k := ad_nonce i) in *.
  assert (ad_nonce i' = k) as Ek by congruence. rewrite Ek in *. clear Ek.
  assert (k < 2 ^ 64) as Kb by apply A. pose proof (draft_sound E n sk d to k D Kb) as So. pose proof (draft_sound E n sk d' to' k D' Kb) as So'.
  destruct (sends_turn E n sk _ to e C V So Se) as [U _]. destruct (sends_turn E n sk _ to' e' C V So' Se') as [U' _]. rewrite Me in U, U'. fold me in U, U'.
  exists e, e', x, x'. split; [exists o; exact N2|]. split; [exists o'; exact N2'|]. split; [|split].
  - intros L L' M M' La. split; intros Ta; [exact (never_again E n L e L' M e' me k Ta U La U' M') | exact (never_again E n L e' L' M e me k Ta U' La U M')].
  - intros ->. exact (sends_fun E n sk _ to e e' C V So Se Se').
  - intros L es M Ta O.
    destruct (C100_same_nonce E n sk [payment n sk k d; payment n sk k d'] es L M k (N.max (st_amount d + st_fee d) (st_amount d' + st_fee d')) C V) as [X Y].
    + repeat constructor; eexists; eassumption.
    + exact Ta.
    + rewrite Me. intros b kb Ib Tb. destruct (O b kb Ib Tb) as [<-|[<-|[]]]; eexists; (split; [|eassumption]); cbn; auto.
    + repeat constructor; cbn [st_amount st_fee payment]; lia.
    + rewrite Me in X, Y. fold me in X, Y. split; assumption.
Qed.
Print Assumptions C106_shared.

(** Finding: two ids for one payment.  For any two drafts, each of which the account can pay, there is a node that gives each an id,
    though its ledger can take either; whatever happens then, only one of them is paid. *)
Definition patient (url addr e e' : bytes) (k : N) : node unit := fun i q =>
  match rq_body q with
  | BBytes b => if list_eq_dec Byte.byte_eq_dec b e then (i, OOk {| rs_text := Some (str "txid"%string); rs_json := None |})
                else if list_eq_dec Byte.byte_eq_dec b e' then (i, OOk {| rs_text := Some (str "txid2"%string); rs_json := None |}) else (i, OStatus 400 (report 0))
  | _ => if list_eq_dec Byte.byte_eq_dec (rq_url q) (url ++ str "/v2/accounts/"%string ++ addr) then (i, OOk (report k)) else (i, OTransport)
  end.
Theorem C106_two_ids_refuted : forall H E n url (a : account H) d d' to to' L, hd_correct E H -> ecdsa_correct E -> sound_draft d to -> sound_draft d' to' ->
  let me := owner n a in
  0 < st_amount d -> 0 < st_amount d' -> to <> me -> to' <> me -> turn L me < 2 ^ 64 ->
  st_amount d + st_fee d <= coins L me -> st_amount d' + st_fee d' <= coins L me ->
  exists (net : node unit) id id' e e', pooling E n net (fun _ => L) /\ truthful net (fun _ => L) url
    /\ pays E n net url a d tt tt (Ok (BcOk id)) /\ pays E n net url a d' tt tt (Ok (BcOk id'))
    /\ posted net url e tt tt /\ posted net url e' tt tt /\ never_both E n e e'.
Proof.
  intros H E n url a d d' to to' L Hd C D D' me Am Am' Ne Ne' No Mo Mo'.
  destruct (pays_iff E n (fun (i : unit) _ => (i, OTransport)) url a d to tt tt (Ok (BcOk [])) Hd C D) as (sk & addr & V & Ks & Me & T & _). fold me in Me.
  set (k := turn L me) in *.
  destruct (C100_transfer E n sk _ to C V (draft_sound E n sk d to k D No)) as (e & Se & R).
  destruct (C100_transfer E n sk _ to' C V (draft_sound E n sk d' to' k D' No)) as (e' & Se' & R').
  cbn [st_amount st_fee st_nonce payment] in R, R'. rewrite Me in R, R'.
  set (net := patient url addr e e' k).
  assert (forall i, net i (accounts_request url addr) = (i, OOk (report k))) as Nn.
  { intros i. unfold net, patient, accounts_request, get. cbn [rq_body rq_url]. destruct (list_eq_dec _ _ _); [reflexivity | contradiction]. }
  assert (exists id, net tt (post_bytes (url ++ str "/v2/transactions"%string) e) = (tt, OOk {| rs_text := Some id; rs_json := None |})) as [id N1].
  { unfold net, patient, post_bytes. cbn [rq_body]. destruct (list_eq_dec _ _ _); [eexists; reflexivity | contradiction]. }
  assert (exists id, net tt (post_bytes (url ++ str "/v2/transactions"%string) e') = (tt, OOk {| rs_text := Some id; rs_json := None |})) as [id' N2].
  { unfold net, patient, post_bytes. cbn [rq_body]. destruct (list_eq_dec _ e' e); [eexists; reflexivity|]. destruct (list_eq_dec _ _ _); [eexists; reflexivity | contradiction]. }
  assert (pooling E n net (fun _ => L)) as Po.
  { intros i q. split; [reflexivity|]. unfold net, patient. destruct (rq_body q) as [|j|b]; [exact I | exact I |].
    destruct (list_eq_dec _ b e) as [->|]; [|destruct (list_eq_dec _ b e') as [->|]; [|exact I]]; cbn [snd].
    - apply (proj2 (proj1 (R L))). repeat split; assumption.
    - apply (proj2 (proj1 (R' L))). repeat split; assumption. }
  assert (truthful net (fun _ => L) url) as Tr.
  { intros i h v x r j info Tx O J A. pose proof (list_eq_dec Byte.byte_eq_dec x addr) as [->|Nx].
    + rewrite Nn in O. cbn [snd] in O. injection O as <-. cbn [rs_json report] in J. injection J as <-.
      destruct (address_text_determines _ _ _ _ _ T Tx) as [Eh Ev]. rewrite <- Eh, <- Ev. fold (owner n a). fold me.
      pose proof (iff_fun _ _ parse_address_iff _ _ _ A (report_json _ No)) as ->. reflexivity.
    + exfalso. unfold net, patient, accounts_request, get in O. cbn [rq_body rq_url] in O. destruct (list_eq_dec _ _ _) as [X|X]; [|discriminate O].
      apply app_inv_head in X. apply app_inv_head in X. contradiction. }
  assert (pays E n net url a d tt tt (Ok (BcOk id))) as P.
  { destruct (pays_iff E n net url a d to tt tt (Ok (BcOk id)) Hd C D) as (sk1 & addr1 & _ & K1 & _ & T1 & I).
    rewrite Ks in K1. injection K1 as <-. assert (addr1 = addr) as -> by (eapply address_text_unique; eassumption).
    apply (proj2 I). eexists tt, _, _, _, e, _. split; [apply Nn|]. split; [reflexivity|]. split; [apply report_json; exact No|].
    split; [exact Se|]. split; [exact N1 | reflexivity]. }
  assert (pays E n net url a d' tt tt (Ok (BcOk id'))) as P'.
  { destruct (pays_iff E n net url a d' to' tt tt (Ok (BcOk id')) Hd C D') as (sk1 & addr1 & _ & K1 & _ & T1 & I).
    rewrite Ks in K1. injection K1 as <-. assert (addr1 = addr) as -> by (eapply address_text_unique; eassumption).
    apply (proj2 I). eexists tt, _, _, _, e', _. split; [apply Nn|]. split; [reflexivity|]. split; [apply report_json; exact No|].
    split; [exact Se'|]. split; [exact N2 | reflexivity]. }
  exists net, id, id', e, e'. split; [exact Po|]. split; [exact Tr|]. split; [exact P|]. split; [exact P'|].
  split; [eexists; exact N1|]. split; [eexists; exact N2|].
  destruct (sends_turn E n sk _ to e C V (draft_sound E n sk d to k D No) Se) as [U _].
  destruct (sends_turn E n sk _ to' e' C V (draft_sound E n sk d' to' k D' No) Se') as [U' _].
  intros A B M M' La. split; intros Ta; eapply never_again; eassumption.
Qed.
Print Assumptions C106_two_ids_refuted.

(** ** Counted nonces *)

Fixpoint numbered (n : network) (sk : bytes) (k : N) (ds : list stx_transfer) : list stx_transfer :=
  match ds with [] => [] | d :: r => payment n sk k d :: numbered n sk (k + 1) r end.

Lemma draft_posted {S} E n (net : node S) url sk k d to s s1 : ecdsa_correct E -> valid_key sk -> sound_draft d to -> k < 2 ^ 64 ->
  (exists t t' x, @build_transfer unit E (payment n sk k d) = Ok t /\ tx_sign E t sk = Ok t' /\ broadcast_in net url t' s = (s1, x)) <->
  exists e, sends E (payment n sk k d) e /\ posted net url e s s1.
Proof.
  intros C V D K. split.
  - intros (t & t' & x & B & Si & Br). apply tx_sign_succeeds in Si. destruct Si as (g & g' & Sn & Su & <-).
    assert (exists e, sends E (payment n sk k d) e /\ enc_tx (sg_tx g') = Ok e) as (e & Se & En).
    { destruct (sent_wire E n sk _ to C V (draft_sound E n sk d to _ D K)) as (m & sig & (t2 & g2 & g2' & B2 & Sn2 & Su2 & En2) & _).
      rewrite B in B2. injection B2 as <-. rewrite Sn in Sn2. injection Sn2 as <-. cbn [st_sender payment] in Su2.
      assert (g2' = g') as -> by (apply succeeds_all in Su, Su2; congruence). eexists. split; [|exact En2]. exists t, g, g'. auto. }
    pose proof En as En'. apply tx_iff in En'. destruct En' as (w & Mw & Fw & ->).
    apply (broadcast_in_iff net url _ w _ _ _ Mw Fw) in Br. destruct Br as (o & N3 & _). exists (ser_tx w). split; [exact Se | exists o; exact N3].
  - intros (e & (t & g & g' & B & Sn & Su & En) & o & N3). cbn [st_sender payment] in Su. apply tx_iff in En. destruct En as (w & Mw & Fw & ->).
    destruct (broadcast_in net url (sg_tx g') s) as [s2 x] eqn:Br. pose proof Br as Br'. apply (broadcast_in_iff net url _ w _ _ _ Mw Fw) in Br'.
    destruct Br' as (o' & N3' & _). rewrite N3 in N3'. injection N3' as <- _. exists t, (sg_tx g'), x. split; [exact B|]. split; [|exact Br].
    apply tx_sign_succeeds. exists g, g'. auto.
Qed.

Lemma queue_iff {S} E n (net : node S) url sk : ecdsa_correct E -> valid_key sk -> forall ds tos k s s', Forall2 sound_draft ds tos -> k + count ds <= 2 ^ 64 ->
  (sends_queue E n net url sk k ds s s' <-> exists es, Forall2 (sends E) (numbered n sk k ds) es /\ posted_all net url es s s').
Proof.
  intros C V ds. induction ds as [|d ds IH]; intros tos k s s' So K; cbn [sends_queue numbered].
  - split; [intros ->; exists []; split; [constructor | reflexivity]|]. intros (es & F & P). inversion F; subst. exact P.
  - inversion So as [|? to ? tos' D So']; subst. rewrite count_cons in K.
    assert (k < 2 ^ 64) as Kb by lia. assert (k + 1 + count ds <= 2 ^ 64) as Ks by lia. split.
    + intros (t & t' & s1 & x & B & Si & Br & R). destruct (proj1 (draft_posted E n net url sk k d to s s1 C V D Kb)) as (e & Se & P); [exists t, t', x; auto|].
      apply (IH tos' _ _ _ So' Ks) in R. destruct R as (es & F & R). exists (e :: es). split; [constructor; assumption | exists s1; auto].
    + intros (es & F & P). inversion F as [|? e ? es' Se F']; subst. destruct P as (s1 & P & R).
      destruct (proj2 (draft_posted E n net url sk k d to s s1 C V D Kb)) as (t & t' & x & B & Si & Br); [exists e; auto|].
      exists t, t', s1, x. split; [exact B|]. split; [exact Si|]. split; [exact Br|]. apply (IH tos' _ _ _ So' Ks). exists es'. auto.
Qed.

Lemma numbered_sound E n sk ds : forall tos k, Forall2 sound_draft ds tos -> k + count ds <= 2 ^ 64 -> Forall2 (sound_transfer E n sk) (numbered n sk k ds) tos.
Proof.
  induction ds as [|d ds IH]; intros tos k So K; inversion So as [|? to ? tos' D So']; subst; cbn [numbered]; constructor; rewrite count_cons in K.
  - apply draft_sound; [exact D | lia].
  - apply IH; [exact So' | lia].
Qed.
Lemma numbered_counting n sk ds : forall k, counting k (numbered n sk k ds).
Proof. induction ds as [|d ds IH]; intros k; cbn; auto. Qed.
Lemma numbered_count n sk ds : forall k, count (numbered n sk k ds) = count ds.
Proof. induction ds as [|d ds IH]; intros k; cbn [numbered]; rewrite ?count_cons, ?IH; reflexivity. Qed.
Lemma numbered_length n sk ds : forall k, length (numbered n sk k ds) = length ds.
Proof. induction ds as [|d ds IH]; intros k; cbn [numbered length]; rewrite ?IH; reflexivity. Qed.
Lemma numbered_spent n sk ds : forall k j, spent (firstn j (numbered n sk k ds)) = spent (firstn j ds).
Proof. induction ds as [|d ds IH]; intros k [|j]; try reflexivity. cbn [numbered firstn]. unfold spent in *. cbn [fold_right]. rewrite IH. reflexivity. Qed.
Lemma numbered_received n sk x ds : forall k tos, received x (numbered n sk k ds) tos = received x ds tos.
Proof. induction ds as [|d ds IH]; intros k [|to tos]; try reflexivity. cbn [numbered received]. rewrite IH. reflexivity. Qed.
Lemma numbered_nth n sk ds : forall k i b, nth_error (numbered n sk k ds) i = Some b -> st_nonce b = k + N.of_nat i.
Proof.
  induction ds as [|d ds IH]; intros k [|i] b; cbn [numbered nth_error]; try discriminate.
  - intros X. injection X as <-. cbn [st_nonce payment]. lia.
  - intros X. rewrite (IH _ _ _ X). lia.
Qed.

Lemma numbered_amount n sk ds : Forall (fun d => 0 < st_amount d) ds -> forall k, Forall (fun d => 0 < st_amount d) (numbered n sk k ds).
Proof. intros Am. induction Am as [|d ds A Am IH]; intros k; cbn [numbered]; constructor; [exact A | apply IH]. Qed.

Lemma counting_least bs : forall k b, counting k bs -> In b bs -> k <= st_nonce b.
Proof.
  induction bs as [|c bs IH]; intros k b Co I; [destruct I|]. destruct Co as [A Co]. destruct I as [->|I]; [lia | pose proof (IH _ _ Co I); lia].
Qed.
Lemma counting_prefix taken : forall k bs, counting k bs -> counting k taken -> incl taken bs -> taken = firstn (length taken) bs.
Proof.
  induction taken as [|b q IH]; intros k bs Co Cq I; [reflexivity|]. destruct Cq as [A Cq].
  destruct bs as [|c bs]; [destruct (I b (or_introl eq_refl))|]. destruct Co as [B Co]. cbn [length firstn].
  assert (c = b) as -> by (destruct (I b (or_introl eq_refl)) as [X|X]; [exact X | pose proof (counting_least _ _ _ Co X); lia]). f_equal.
  apply (IH (k + 1)); [exact Co | exact Cq|]. intros x X. destruct (I x (or_intror X)) as [<-|Y]; [|exact Y]. pose proof (counting_least _ _ _ Cq X). lia.
Qed.

(** Every nonce used up was used by a transaction. *)
Lemma turn_steps E n a es : forall L M k, takes_all E n L es M -> turn L a <= k < turn M a -> exists e, In e es /\ turn_of n e a k.
Proof.
  induction es as [|e es IH]; cbn [takes_all]; intros L M k T K; [subst M; lia|]. destruct T as (L1 & T1 & T2).
  destruct (N.le_gt_cases (turn L1 a) k) as [B|B].
  - destruct (IH L1 M k T2 ltac:(lia)) as (e' & I & Te). exists e'. split; [right; exact I | exact Te].
  - destruct (taken_admitted _ _ _ _ _ T1) as (w & (X & W & _ & _ & [I1 I2] & _) & Tw). rewrite Tw in B. unfold advance in B.
    destruct (wval_dec a (account_of n (worigin w))) as [->|].
    + exists e. split; [left; reflexivity|]. exists w. split; [exact X|]. split; [exact W|]. left. split; [reflexivity | lia].
    + destruct (wval_dec a (account_of n (wpayer w))) as [->|]; [|lia].
      exists e. split; [left; reflexivity|]. exists w. split; [exact X|]. split; [exact W|]. right. split; [reflexivity | lia].
Qed.
Lemma turn_between E n a es : forall L M e k, takes_all E n L es M -> In e es -> turn_of n e a k -> turn L a <= k < turn M a.
Proof.
  induction es as [|e es IH]; cbn [takes_all]; intros L M e' k T I O; [destruct I|]. destruct T as (L1 & T1 & T2). destruct I as [->|I].
  - destruct (turn_used _ _ _ _ _ _ _ T1 O) as [A B]. pose proof (takes_all_mono _ _ _ _ _ a T2). lia.
  - pose proof (IH L1 M e' k T2 I O). pose proof (takes_mono _ _ _ _ _ a T1). lia.
Qed.

(** The drafts are posted one after the other.  Whatever is taken of them, by any history in which the account does nothing else, are the first few, in full,
    and no more than these cost leaves the account; and all can be taken, in order, if there is money for all. *)
Theorem C106_queue : forall S H E n (net : node S) book url (a : account H) ds tos s s', hd_correct E H -> ecdsa_correct E -> Forall2 sound_draft ds tos ->
  truthful net book url ->
  let me := owner n a in let L := book s in turn L me + count ds <= 2 ^ 64 ->
  pays_queue E n net url a ds s s' ->
  exists es s1, length es = length ds /\ posted_all net url es s1 s'
    /\ (forall es' M, takes_all E n L es' M -> only_mine n me es es' ->
          exists j, (j <= length ds)%nat /\ turn M me = turn L me + N.of_nat j /\ coins L me <= coins M me + spent (firstn j ds)
            /\ forall i e, nth_error es i = Some e -> (In e es' <-> (i < j)%nat))
    /\ (Forall (fun d => 0 < st_amount d) ds -> ~ In me tos -> spent ds <= coins L me ->
          exists M, takes_all E n L es M
            /\ forall x, coins M x + when (same x me) (spent ds) = coins L x + received x ds tos /\ turn M x = turn L x + when (same x me) (count ds)).
Proof.
  intros S H E n net book url a ds tos s s' Hd C So Tr me L K (addr & sk & info & s1 & G & Ks & A & Q).
  destruct (account_keys E a Hd) as (sk' & Ks' & V & _ & Pub). rewrite Ks in Ks'. injection Ks' as <-.
  assert (key_account E n sk = me) as Me by (unfold key_account, me, owner; rewrite Pub; reflexivity).
  pose proof (proj1 (get_address_iff a _ _) G) as T.
  assert (address_code (single_version n) = charged_version n x00) as Cv by (destruct n; reflexivity). rewrite Cv in T.
  assert (ad_nonce info = turn L me) as Tn.
  { unfold address_in, exchange in A. change (address_request url addr) with (accounts_request url addr) in A.
    destruct (net s (accounts_request url addr)) as [s2 o2] eqn:N1. injection A as -> A. destruct o2 as [resp|c x|]; try discriminate A. cbn in A.
    unfold into_json in A. destruct (rs_json resp) as [j|] eqn:J; [|discriminate A]. cbn in A.
    destruct (parse_address j) as [i|] eqn:P; [|discriminate A]. injection A as ->. apply parse_address_iff in P.
    apply (Tr s _ _ addr resp j info T); [rewrite N1; reflexivity | exact J | exact P]. }
  rewrite Tn in Q. apply (queue_iff E n net url sk C V ds tos _ _ _ So K) in Q. destruct Q as (es & Se & Po).
  pose proof (numbered_sound E n sk ds tos _ So K) as Sn. set (k := turn L me) in *. set (bs := numbered n sk k ds) in *.
  assert (length es = length ds) as Le by (rewrite <- (numbered_length n sk ds k); symmetry; clear - Se; fold bs; induction Se; cbn [length]; congruence).
  exists es, s1. split; [exact Le|]. split; [exact Po|]. split.
  - intros es' M Ta O.
    destruct (C100_statement E n sk bs es' L M C V) as (taken & I & Co & Tu & Sp).
    + clear - Sn. induction Sn; constructor; eauto.
    + exact Ta.
    + rewrite Me. intros e x Ie Te. pose proof (O e x Ie Te) as Im. clear - Se Im. induction Se as [|b e' bs es F Se IH]; [destruct Im|].
      destruct Im as [->|Im]; [exists b; cbn; auto|]. destruct (IH Im) as (b' & Ib & Sb). exists b'. cbn. auto.
    + rewrite Me in Co, Tu, Sp. fold k in Co, Tu. pose proof (counting_prefix taken k bs (numbered_counting n sk ds k) Co I) as Pr.
      assert (length taken <= length ds)%nat as Lt by (rewrite Pr; rewrite firstn_length, (numbered_length n sk ds k : length bs = _); lia).
      exists (length taken). split; [exact Lt|]. split; [exact Tu|]. split; [rewrite Pr in Sp; unfold bs in Sp; rewrite numbered_spent in Sp; exact Sp|].
      intros i e Ni.
      assert (exists b to, nth_error bs i = Some b /\ sends E b e /\ sound_transfer E n sk b to) as (b & to & Nb & Sb & Sob).
      { clear - Se Sn Ni. revert tos Sn i Ni. induction Se as [|b e' bs es F Se IH]; intros tos Sn [|i] Ni; try discriminate Ni; inversion Sn; subst.
        - injection Ni as <-. eexists b, _. cbn. eauto.
        - cbn. eapply IH; eassumption. }
      pose proof (numbered_nth n sk ds k i b Nb) as Nc. destruct (sends_turn E n sk b to e C V Sob Sb) as [U1 U2]. rewrite Me in U1, U2. split.
      * intros Ie. pose proof (turn_between E n me es' L M e _ Ta Ie U1) as Bt. unfold count in Tu. lia.
      * intros Ij. destruct (turn_steps E n me es' L M (k + N.of_nat i) Ta) as (e' & Ie & Te); [unfold count in Tu; fold k; lia|].
        pose proof (O e' _ Ie Te) as Im. apply In_nth_error in Im. destruct Im as [i' Ni'].
        assert (exists b' to', nth_error bs i' = Some b' /\ sends E b' e' /\ sound_transfer E n sk b' to') as (b' & to' & Nb' & Sb' & Sob').
        { clear - Se Sn Ni'. revert tos Sn i' Ni'. induction Se as [|b e0 bs es F Se IH]; intros tos Sn [|i'] Ni; try discriminate Ni; inversion Sn; subst.
          - injection Ni as <-. eexists b, _. cbn. eauto.
          - cbn. eapply IH; eassumption. }
        destruct (sends_turn E n sk b' to' e' C V Sob' Sb') as [_ U2']. rewrite Me in U2'. pose proof (U2' _ Te) as Eq.
        pose proof (numbered_nth n sk ds k i' b' Nb') as Nc'. assert (i' = i) as -> by lia. congruence.
  - intros Am Nm Mo. destruct (C100_series E n sk bs tos es k L C V Sn Se) as (M & Ta & R).
    + exact (numbered_amount n sk ds Am k).
    + rewrite Me. exact Nm.
    + apply numbered_counting.
    + rewrite Me. reflexivity.
    + rewrite Me. pose proof (numbered_spent n sk ds k (length ds)) as X. rewrite <- (numbered_length n sk ds k) in X at 1. rewrite !firstn_all in X.
      unfold bs. rewrite X. exact Mo.
    + exists M. split; [exact Ta|]. intros x. specialize (R x). rewrite Me in R. unfold bs in R. rewrite numbered_received, numbered_count in R.
      pose proof (numbered_spent n sk ds k (length ds)) as X. rewrite <- (numbered_length n sk ds k) in X at 1. rewrite !firstn_all in X. rewrite X in R. exact R.
Qed.
Print Assumptions C106_queue.

(** The program gets through, whatever the node answers to the broadcasts. *)
Lemma queue_total {S} E n (net : node S) url sk : ecdsa_correct E -> valid_key sk -> forall ds tos k s, Forall2 sound_draft ds tos -> k + count ds <= 2 ^ 64 ->
  exists s', sends_queue E n net url sk k ds s s'.
Proof.
  intros C V ds tos k s So K.
  assert (exists es, Forall2 (sends E) (numbered n sk k ds) es) as [es Se].
  { pose proof (numbered_sound E n sk ds tos k So K) as Sn. clear - C V Sn. induction Sn as [|b to bs tos So Sn IH]; [exists []; constructor|].
    destruct IH as [es IH]. destruct (C100_transfer E n sk b to C V So) as (e & Se & _). exists (e :: es). constructor; assumption. }
  assert (forall es s, exists s', posted_all net url es s s') as P.
  { clear. intros es. induction es as [|e es IH]; intros s; [exists s; reflexivity|].
    destruct (net s (post_bytes (url ++ str "/v2/transactions"%string) e)) as [s1 o] eqn:N1. destruct (IH s1) as [s' R]. exists s', s1. split; [exists o; exact N1 | exact R]. }
  destruct (P es s) as [s' R]. exists s'. apply (queue_iff E n net url sk C V ds tos _ _ _ So K). exists es. auto.
Qed.

(** An account with 3000 and two drafts, of 1000 and of 2000, made at once: each gets an id; or sent as a queue. *)
Example C106_ex : let me := owner NetTestnet toy_account in let L := {| coins := fun _ => 3018; turn := fun _ => 4 |} in let ds := [ex_pay 0 1000; ex_pay 0 2000] in
  exists net id id' s', truthful net (fun _ => L) [] /\ pays toy NetTestnet net [] toy_account (ex_pay 0 1000) tt tt (Ok (BcOk id))
    /\ pays toy NetTestnet net [] toy_account (ex_pay 0 2000) tt tt (Ok (BcOk id'))
    /\ pays_queue toy NetTestnet net [] toy_account ds tt s' /\ Forall2 sound_draft ds [WStd x16 key_hash; WStd x16 key_hash] /\ turn L me + count ds <= 2 ^ 64
    /\ Forall (fun d => 0 < st_amount d) ds /\ ~ In me [WStd x16 key_hash; WStd x16 key_hash] /\ spent ds = coins L me.
Proof.
  intros me L ds. pose proof (ex_draft 1000 eq_refl) as D. pose proof (ex_draft 2000 eq_refl) as D'. pose proof ex_stranger as Ne.
  destruct (C106_two_ids_refuted toy_hd toy NetTestnet [] toy_account (ex_pay 0 1000) (ex_pay 0 2000) _ _ L toy_hd_correct toy_correct D D' eq_refl eq_refl Ne Ne eq_refl)
    as (net & id & id' & e & e' & _ & Tr & P & P' & _); [cbn [st_amount st_fee ex_pay coins L]; lia | cbn [st_amount st_fee ex_pay coins L]; lia |].
  assert (Forall2 sound_draft ds [WStd x16 key_hash; WStd x16 key_hash]) as So by exact (Forall2_cons _ _ D (Forall2_cons _ _ D' (Forall2_nil _))).
  assert (exists s', pays_queue toy NetTestnet net [] toy_account ds tt s') as [s' Q].
  { pose proof P as (addr & sk & info & s1 & t & t' & G & K & A & _).
    destruct (account_keys toy toy_account toy_hd_correct) as (sk' & Ks' & V & _). rewrite K in Ks'. injection Ks' as <-.
    assert (ad_nonce info = 4) as Tn.
    { destruct (pays_iff toy NetTestnet net [] toy_account (ex_pay 0 1000) _ tt tt (Ok (BcOk id)) toy_hd_correct toy_correct D) as (sk2 & addr2 & _ & _ & _ & T & I).
      pose proof (proj1 (get_address_iff toy_account _ _) G) as T'. assert (addr2 = addr) as -> by (eapply address_text_unique; eassumption).
      unfold address_in, exchange in A. change (address_request [] addr) with (accounts_request [] addr) in A.
      destruct (net tt (accounts_request [] addr)) as [s2 o2] eqn:N1. injection A as -> A. destruct o2 as [resp|c x|]; try discriminate A. cbn in A.
      unfold into_json in A. destruct (rs_json resp) as [j|] eqn:J; [|discriminate A]. cbn in A.
      destruct (parse_address j) as [i|] eqn:Pj; [|discriminate A]. injection A as ->. apply parse_address_iff in Pj.
      apply (Tr tt _ _ addr resp j info T); [rewrite N1; reflexivity | exact J | exact Pj]. }
    destruct (queue_total toy NetTestnet net [] sk toy_correct V ds _ (ad_nonce info) s1 So) as [s' Q]; [rewrite Tn; unfold ds; cbn; lia|].
    exists s', addr, sk, info, s1. auto. }
  exists net, id, id', s'. split; [exact Tr|]. split; [exact P|]. split; [exact P'|]. split; [exact Q|]. split; [exact So|]. split; [unfold ds; cbn; lia|].
  split; [repeat constructor|]. split; [intros [X|[X|[]]]; exact (Ne X) | reflexivity].
Qed.
