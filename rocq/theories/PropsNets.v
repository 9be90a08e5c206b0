(** Property theorem C108: one wallet on several networks. *)

From Coq Require Import Lia Strings.String.
From Verif Require Import Base BaseFacts Sha2 HashFacts SpecText SpecAddr AddrFacts Hash C32 Clarity SpecWire WireFacts Tx SpecTx LengthThms TxFacts TxThms Signer Builder Wallet SpecSign SignFacts SignThms AuthThms PlanThms
     SpecCond SpecNode NodeThms PropsNode SpecCharge PropsCharge SpecLedger LedgerThms PropsLedger PropsSign PropsTx PropsClarity PropsClient Rpc SpecClient ClientThms Session SpecSession SessionThms
     SpecFlow FlowThms SpecPay PropsPay SpecNets PropsReceive.
Local Open Scope N_scope.

Lemma alike_version n n' m : alike n n' -> charged_version n m = charged_version n' m.
Proof. intros [X Y]. destruct n, n'; try reflexivity; try discriminate (X eq_refl); discriminate (Y eq_refl). Qed.
Lemma unlike_network n n' w : node_network n w -> node_network n' w -> alike n n'.
Proof. destruct n, n'; cbn; intros [A _] [B _]; try (split; congruence); rewrite A in B; discriminate B. Qed.

Lemma taken_network E n L e L' w : wf_tx w -> e = ser_tx w -> takes E n L e L' -> node_network n w.
Proof.
  intros W -> T. destruct (taken_admitted _ _ _ _ _ T) as (v & (X & Wv & N & _) & _).
  apply one_reading in X; [subst v; exact N | |]; assumption.
Qed.
Lemma sends_alike E n n' sk k d e : alike n n' -> sends E (payment n sk k d) e -> sends E (payment n' sk k d) e.
Proof. intros [X Y] S. destruct n, n'; try exact S; try discriminate (X eq_refl); discriminate (Y eq_refl). Qed.

(** Drafted for one network and sent to a node of another of the other kind, a payment is never taken; the program gets no id and no
    money moves. *)
Theorem C108_wrong_node : forall S H E n n' (net : node S) book url (a : account H) d to s s' r, hd_correct E H -> ecdsa_correct E -> sound_draft d to ->
  ~ alike n n' -> banking E n' net book -> pays E n net url a d s s' r -> book s' = book s /\ forall id, r <> Ok (BcOk id).
Proof.
  intros S H E n n' net book url a d to s s' r Hd C D Un Ba P.
  destruct (pays_iff E n net url a d to s s' r Hd C D) as (sk & addr & V & _ & _ & _ & I). apply (proj1 I) in P. clear I.
  destruct P as (s1 & resp & j & info & e & o & N1 & J & A & Se & N2 & Br).
  pose proof (Ba s (accounts_request url addr)) as B1. rewrite N1 in B1. cbn [fst snd rq_body accounts_request get] in B1.
  pose proof (draft_sound E n sk d to (ad_nonce info) D (proj2 (proj2 A))) as So.
  assert (forall L L', ~ takes E n' L e L') as No.
  { destruct (sent_wire E n sk _ to C V So) as (m & sig & _ & U & W & (w' & X & W' & Nw & _)). rewrite (U _ Se).
    pose proof (one_reading _ _ W W' X) as Y. rewrite <- Y in Nw. intros L L' T. apply Un.
    eapply unlike_network; [exact Nw|]. eapply taken_network; [exact W | reflexivity | exact T]. }
  pose proof (Ba s1 (post_bytes (url ++ str "/v2/transactions"%string) e)) as B2. rewrite N2 in B2. cbn [fst snd rq_body post_bytes] in B2.
  destruct o as [x|c x|]; cbn [broadcast_result] in Br.
  - exfalso. destruct B2 as [B2|[(L0 & L1 & T0 & _) _]]; eapply No; eassumption.
  - split; [congruence|]. intros id ->. unfold read_as in Br. destruct Br as [(j' & ? & ? & ? & X)|[_ X]]; discriminate X.
  - split; [destruct B2 as [B2|B2]; [exfalso; eapply No; exact B2 | congruence]|]. subst r. discriminate.
Qed.
Print Assumptions C108_wrong_node.

(** The accounts of a wallet on networks of different kinds are different accounts. *)
Theorem C108_apart : forall H n n' (a b : account H), ~ alike n n' -> foreign n' (owner n a) /\ owner n a <> owner n' b.
Proof.
  intros H n n' a b Un. assert (charged_version n x00 <> charged_version n' x00 /\ charged_version n x00 <> charged_version n' x01) as [X Y].
  { destruct n, n'; try (exfalso; apply Un; split; congruence); split; discriminate. }
  split; [split; assumption|]. unfold owner. intros Z. apply X. injection Z as Z _. exact Z.
Qed.
Print Assumptions C108_apart.

(** Finding: what has been paid on the test network or a local one is a payment on the other too: whoever has seen the bytes can have
    them taken there, once, if the account has the same nonce and the money there. *)
Theorem C108_replay_refuted : forall S H E n n' (net : node S) book url (a : account H) d to s s' id, hd_correct E H -> ecdsa_correct E -> sound_draft d to ->
  alike n n' -> banking E n net book -> truthful net book url -> pays E n net url a d s s' (Ok (BcOk id)) ->
  let me := owner n' a in
  exists e, takes E n (book s) e (book s') /\ forall L, turn L me = turn (book s) me -> st_amount d + st_fee d <= coins L me ->
    exists L', takes E n' L e L' /\ moved me to (st_amount d) (st_fee d) L L'.
Proof.
  intros S H E n n' net book url a d to s s' id Hd C D Al Ba Tr P me.
  pose proof (C101_useless S H E n net book url a d to s s' _ Hd C D Ba Tr P) as Us.
  assert (0 < st_amount d) as Am by (destruct (N.eq_dec (st_amount d) 0) as [Z|]; [destruct (proj2 (Us (or_introl Z)) id eq_refl) | lia]).
  assert (to <> owner n a) as Ne by (intros Z; exact (proj2 (Us (or_intror (or_introl Z))) id eq_refl)).
  assert (owner n a = me) as Me by (unfold me, owner; rewrite (alike_version n n' _ Al); reflexivity).
  destruct (pays_iff E n net url a d to s s' (Ok (BcOk id)) Hd C D) as (sk & addr & V & _ & Mk & T & I). apply (proj1 I) in P. clear I.
  destruct P as (s1 & resp & j & info & e & o & N1 & J & A & Se & N2 & Br).
  pose proof (Ba s (accounts_request url addr)) as B1. rewrite N1 in B1. cbn [fst snd rq_body accounts_request get] in B1.
  assert (ad_nonce info = turn (book s) (owner n a)) as No by (apply (Tr s _ _ addr resp j info T); [rewrite N1; reflexivity | exact J | exact A]).
  pose proof (proj2 (proj2 A)) as Bn. exists e. split.
  - pose proof (Ba s1 (post_bytes (url ++ str "/v2/transactions"%string) e)) as B2. rewrite N2 in B2. cbn [fst snd rq_body post_bytes] in B2.
    destruct o as [x|c x|]; cbn [broadcast_result] in Br.
    + rewrite <- B1. destruct B2 as [B2|[(L0 & L1 & T0 & La) _]]; [exact B2|]. exfalso.
      destruct (C100_transfer E n sk _ to C V (draft_sound E n sk d to _ D Bn)) as (e' & Se' & R).
      assert (e' = e) as -> by (destruct (sent_wire E n sk _ to C V (draft_sound E n sk d to _ D Bn)) as (m & sig & _ & U & _); rewrite (U _ Se), (U _ Se'); reflexivity).
      destruct (R L0) as [_ Q0]. destruct (Q0 L1 T0 (owner n a)) as [_ T1]. rewrite Mk, (same_true _ _ eq_refl) in T1. cbn [when] in T1.
      destruct (proj1 (proj1 (R L0)) (ex_intro _ L1 T0)) as (_ & _ & T2 & _). rewrite Mk in T2. cbn [st_nonce payment] in T2.
      destruct La as (es & La). pose proof (takes_all_mono E n es L1 (book s1) (owner n a) La) as Mo. rewrite B1 in Mo. lia.
    + unfold read_as in Br. destruct Br as [(j' & ? & ? & ? & X)|[_ X]]; discriminate X.
    + discriminate Br.
  - intros L Tu Mo. apply (sends_alike E n n' sk _ d e Al) in Se.
    destruct (C100_transfer E n' sk _ to C V (draft_sound E n' sk d to _ D Bn)) as (e' & Se' & R).
    assert (e' = e) as -> by (destruct (sent_wire E n' sk _ to C V (draft_sound E n' sk d to _ D Bn)) as (m & sig & _ & U & _); rewrite (U _ Se), (U _ Se'); reflexivity).
    assert (key_account E n' sk = me) as Mk' by (rewrite <- Me, <- Mk; unfold key_account; rewrite (alike_version n n' _ Al); reflexivity).
    destruct (R L) as [R1 R2]. rewrite Mk' in R1, R2. cbn [st_amount st_fee st_nonce payment] in R1, R2.
    destruct (proj2 R1) as [L' T']; [rewrite <- Me in *; repeat split; auto; congruence|]. exists L'. split; [exact T' | exact (R2 L' T')].
Qed.
Print Assumptions C108_replay_refuted.

(** Finding: recipients of the other kind of network are not refused.  The money arrives, the sender is charged, and on that network
    nothing that is ever taken spends it. *)
Theorem C108_stranded_refuted : forall S H E n (net : node S) book url (a b : account H) v d to addr s, hd_correct E H -> ecdsa_correct E ->
  get_address b v = Ok addr -> st_recipient d = CPrinStd addr -> sound_draft d to -> v <> single_version n -> v <> multi_version n ->
  (0 < st_amount d -> banking E n net book -> truthful net book url -> prompt E n net book url (outcome_of_draft E n a d) ->
     st_amount d + st_fee d <= coins (book s) (owner n a) -> turn (book s) (owner n a) < 2 ^ 64 ->
     exists s' id, pays E n net url a d s s' (Ok (BcOk id)) /\ coins (book s') to = coins (book s) to + st_amount d
       /\ coins (book s') (owner n a) + st_amount d + st_fee d = coins (book s) (owner n a))
  /\ forall L M, later E n L M -> coins L to <= coins M to /\ turn M to = turn L to.
Proof.
  intros S H E n net book url a b v d to addr s Hd C G R D V1 V2.
  pose proof (recipient_of b _ d to addr G R D) as To. set (key := xpub_bytes H (acc_ext b)) in *.
  assert (forall c, account_of n c <> to) as Fo.
  { rewrite To. intros c X. unfold account_of in X. injection X as X _. revert V1 V2 X. clear. unfold charged_version.
    destruct n, v; cbn; intros V1 V2; try congruence; destruct (mode_of c); congruence. }
  split.
  - intros Am Ba Tr Pr Mo Tu.
    assert (to <> owner n a) as Ne.
    { intros X. apply (Fo (WsSingle x00 (hash20 (xpub_bytes H (acc_ext a))) 0 0 [])). rewrite X. reflexivity. }
    destruct (C101_succeeds S H E n net book url a d to s Hd C D Ba Tr Pr Am Ne Mo Tu) as (s' & id & P & M). exists s', id. split; [exact P|].
    destruct (M to) as [Q1 _]. destruct (M (owner n a)) as [Q2 _].
    rewrite (same_true to to eq_refl), (same_false to (owner n a) Ne) in Q1. rewrite (same_true _ _ eq_refl), (same_false (owner n a) to) in Q2 by congruence.
    cbn [when] in Q1, Q2. lia.
  - intros L M (es & T). revert L T. induction es as [|e es IH]; cbn [takes_all]; intros L T; [subst M; lia|]. destruct T as (L1 & T & Ts).
    specialize (IH L1 Ts). destruct (taken_admitted _ _ _ _ _ T) as (w & _ & Tu).
    assert (turn L1 to = turn L to) as X.
    { rewrite Tu, advance_eq. rewrite (same_false to (account_of n (worigin w))), (same_false to (account_of n (wpayer w))) by (intros X; symmetry in X; exact (Fo _ X)). cbn. lia. }
    assert (coins L to <= coins L1 to); [|lia]. rewrite To. apply N.nlt_ge. intros Lt.
    destruct (only_actors E n L e L1 _ _ T Lt) as (w' & _ & [Y|Y]); rewrite <- To in Y; symmetry in Y; exact (Fo _ Y).
Qed.
Print Assumptions C108_stranded_refuted.

Lemma runs_anywhere S H E n n' (net : node S) book url (a : account H) d to s P : hd_correct E H -> ecdsa_correct E -> sound_draft d to ->
  prompt E n' net book url P -> turn (book s) (owner n a) < 2 ^ 64 -> exists s' r, pays E n net url a d s s' r.
Proof.
  intros Hd C D [Pr _] Tu. destruct (pays_iff E n net url a d to s s (Ok (BcOk [])) Hd C D) as (sk & addr & V & K & Me & T & _).
  destruct (Pr s _ _ addr T Tu) as (resp & j & info & N1 & J & A). destruct (net s (accounts_request url addr)) as [s1 o1] eqn:N. cbn [snd] in N1. subst o1.
  destruct (sent_wire E n sk _ to C V (draft_sound E n sk d to _ D (proj2 (proj2 A)))) as (m & sig & Se & _).
  pose proof Se as (t & g & g' & _ & _ & _ & En). apply tx_iff in En. destruct En as (w & Mw & Fw & Ew).
  destruct (broadcast_in net url (sg_tx g') s1) as [s' r] eqn:B. apply (broadcast_in_iff net url _ w _ _ _ Mw Fw) in B. destruct B as (o & N2 & Br).
  exists s', r. destruct (pays_iff E n net url a d to s s' r Hd C D) as (sk' & addr' & _ & K' & _ & T' & I). rewrite K in K'. injection K' as <-.
  rewrite <- (address_text_unique _ _ _ _ T T') in I. apply I. rewrite <- Ew in N2. eauto 12.
Qed.

Lemma ex_neighbour_main : owner NetMainnet ex_neighbour <> owner NetMainnet toy_account.
Proof.
  unfold owner. intros X. apply (f_equal (fun p => match p with WStd _ h => match h with x :: _ => Byte.to_N x | [] => 0 end | _ => 0 end)) in X.
  vm_compute in X. discriminate X.
Qed.
(** An account pays 1000 on the test network to the address of another on the main network; it does so through a node of the test
    network, and then through one of the main network. *)
Example C108_ex : exists d to addr, get_address ex_neighbour MainnetP2PKH = Ok addr /\ st_recipient d = CPrinStd addr /\ sound_draft d to
  /\ MainnetP2PKH <> single_version NetTestnet /\ MainnetP2PKH <> multi_version NetTestnet /\ alike NetTestnet NetMocknet /\ ~ alike NetTestnet NetMainnet
  /\ (exists net book s id, banking toy NetTestnet net book /\ truthful net book [] /\ prompt toy NetTestnet net book [] (outcome_of_draft toy NetTestnet toy_account d)
        /\ 0 < st_amount d /\ st_amount d + st_fee d <= coins (book O) (owner NetTestnet toy_account) /\ turn (book O) (owner NetTestnet toy_account) < 2 ^ 64
        /\ pays toy NetTestnet net [] toy_account d O s (Ok (BcOk id)))
  /\ exists net book s r, banking toy NetMainnet net book /\ pays toy NetTestnet net [] toy_account d O s r.
Proof.
  destruct (C49_address toy_hd ex_neighbour MainnetP2PKH) as (addr & G & _). pose proof (proj1 (get_address_iff _ _ _) G) as T.
  set (h := hash20 _) in T. set (to := WStd x16 h).
  set (d := {| st_recipient := CPrinStd addr; st_amount := 1000; st_sender := []; st_network := NetTestnet; st_fee := 9; st_nonce := 0; st_anchor := AnAny;
               st_memo := str "hi"%string; st_pcmode := PcDeny; st_conds := []; st_sponsored := false |}).
  assert (sound_draft d to) as D.
  { constructor; try reflexivity; [apply address_text_spelling; exact T | | eexists; exact ex_memo].
    assert (length h = 20%nat) as Lh by apply hash20_length. clearbody h. unfold solid, to. cbn. rewrite Lh. auto. }
  assert (to <> owner NetTestnet toy_account) as Ne by discriminate.
  assert (to <> owner NetMainnet toy_account) as Ne' by exact ex_neighbour_main.
  exists d, to, addr. split; [exact G|]. split; [reflexivity|]. split; [exact D|]. split; [discriminate|]. split; [discriminate|]. split; [split; discriminate|].
  split; [intros [_ X]; discriminate (X eq_refl)|]. split.
  - destruct (till_exists toy_hd toy NetTestnet [] toy_account d to 4 toy_hd_correct toy_correct D eq_refl Ne eq_refl) as (net & book & B0 & Ba & Tr & Pr).
    assert (st_amount d + st_fee d <= coins (book O) (owner NetTestnet toy_account)) as Mo by (rewrite B0; cbn [coins]; lia).
    assert (turn (book O) (owner NetTestnet toy_account) < 2 ^ 64) as Tu by (rewrite B0; reflexivity).
    destruct (C101_succeeds _ _ _ _ net book [] toy_account d to O toy_hd_correct toy_correct D Ba Tr Pr eq_refl Ne Mo Tu) as (s & id & P & _).
    exists net, book, s, id. split; [exact Ba|]. split; [exact Tr|]. split; [exact Pr|]. split; [reflexivity|]. auto.
  - destruct (till_exists toy_hd toy NetMainnet [] toy_account d to 4 toy_hd_correct toy_correct D eq_refl Ne' eq_refl) as (net & book & B0 & Ba & Tr & Pr).
    destruct (runs_anywhere nat toy_hd toy NetTestnet NetMainnet net book [] toy_account d to O _ toy_hd_correct toy_correct D Pr) as (s & r & P); [rewrite B0; reflexivity|].
    exists net, book, s, r. auto.
Qed.
