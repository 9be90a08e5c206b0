(** Property theorem C105: paying with an estimated fee. *)

From Coq Require Import Lia Strings.String.
From Verif Require Import Base BaseFacts Sha2 SpecText SpecAddr AddrFacts Hash C32 Clarity SpecWire WireFacts Tx SpecTx LengthThms TxFacts TxThms Signer Builder Wallet SpecSign SignFacts SignThms AuthThms PlanThms
     F64 F64Thms SpecBind BindThms PropsBind SpecNode NodeThms PropsNode SpecCharge PropsCharge SpecLedger LedgerThms PropsLedger PropsSign PropsTx PropsClarity PropsClient Rpc SpecClient ClientThms Session SpecSession SessionThms
     SpecFlow FlowThms SpecPay PropsPay SpecEstimate.
Local Open Scope N_scope.

Lemma estimate_in_iff {S} (net : node S) url t w s s' r : tx_means t w -> fits_tx w ->
  (estimate_in net url t s = (s', r) <->
   exists o, net s (post_json (url ++ str "/v2/fees/transaction"%string) (fee_question w)) = (s', o) /\ estimate_result o r).
Proof.
  intros M F. pose proof (proj1 (proj2 (proj2 (call_results net url s))) t) as R.
  pose proof (estimate_asks (fun q => snd (net s q)) url t w M F) as B. rewrite <- R in B. clear R.
  unfold estimate_in, exchange in *. rewrite (estimate_request_ok url t w M F) in *.
  destruct (net s (post_json (url ++ str "/v2/fees/transaction"%string) (fee_question w))) as [s1 o]. cbn [fst snd] in B. split.
  - intros X. injection X as <- <-. exists o. split; [reflexivity | exact B].
  - intros (o' & X & B'). injection X as <- <-. f_equal. exact (proj1 (proj2 results_determined) o _ _ B B').
Qed.

Lemma costing_sound d to f : f < 2 ^ 64 -> sound_draft d to -> sound_draft (costing d f) to.
Proof. intros F [A B C D M G H]. constructor; auto. Qed.

(** Three requests: for the nonce, for the fees, with the bytes. *)
Lemma estimate_iff {S H} E n (net : node S) url (a : account H) d to fee s s' r : hd_correct E H -> ecdsa_correct E -> sound_draft d to ->
  exists sk addr, valid_key sk /\ account_private_key a = Ok sk /\ key_account E n sk = owner n a
  /\ address_text (hash20 (xpub_bytes H (acc_ext a))) (charged_version n x00) addr
  /\ (pays_estimate E n net url a d fee s s' r <->
      exists s1 resp j info s2 resp2 j2 fees w o, net s (accounts_request url addr) = (s1, OOk resp) /\ rs_json resp = Some j /\ address_json j info
      /\ net s1 (post_json (url ++ str "/v2/fees/transaction"%string) (fee_question w)) = (s2, OOk resp2) /\ rs_json resp2 = Some j2 /\ fees_json j2 fees
      /\ In fee (map fe_fee fees) /\ fee < 2 ^ 64 /\ wf_tx w
      /\ sends E (payment n sk (ad_nonce info) (costing d fee)) (ser_tx w)
      /\ net s2 (post_bytes (url ++ str "/v2/transactions"%string) (ser_tx w)) = (s', o) /\ broadcast_result o r).
Proof.
  intros Hd C D. destruct (account_keys E a Hd) as (sk & Ks & V & _ & Pub).
  destruct (get_address a (single_version n)) as [addr| | |] eqn:G.
  2-4: exfalso; destruct (PropsClient.C49_address H a (single_version n)) as (x & G' & _); congruence.
  pose proof (proj1 (get_address_iff a _ _) G) as T.
  assert (address_code (single_version n) = charged_version n x00) as Cv by (destruct n; reflexivity). rewrite Cv in T. clear Cv.
  exists sk, addr. split; [exact V|]. split; [exact Ks|]. split; [unfold key_account, owner; rewrite Pub; reflexivity|]. split; [exact T|].
  pose proof D as [Al Ba To So [m Me] Am Fe].
  assert (payload_means (PTransfer (st_recipient d) (st_amount d) (st_memo d)) (WpTransfer to (st_amount d) m)) as Pm
    by (split; [exact To | split; [reflexivity | exact Me]]).
  assert (wf_payload (WpTransfer to (st_amount d) m)) as Wp by (split; [exact So | split; [exact Am | apply Me]]).
  assert (conds_wire [] []) as Cw by (split; [constructor | split; [reflexivity | constructor]]).
  set (U := fun k f => unsigned n (pubkey_of E sk) f k (st_anchor d) (st_pcmode d) [] (PTransfer (st_recipient d) (st_amount d) (st_memo d))).
  set (W := fun k f g => signed_wire n (hash20 (pubkey_of E sk)) f k (st_anchor d) (st_pcmode d) [] (WpTransfer to (st_amount d) m) g).
  assert (forall k f, @build_transfer unit E (payment n sk k (costing d f)) = Ok (U k f)) as Bu.
  { intros k f. rewrite build_transfer_cases. cbn [payment costing st_sponsored st_conds st_recipient st_amount st_sender st_network st_fee st_nonce st_anchor st_memo st_pcmode].
    rewrite Al, Ba. reflexivity. }
  assert (forall k, @build_transfer unit E (payment n sk k d) = Ok (U k (st_fee d))) as Bd by (intros k; rewrite <- Bu; destruct d; reflexivity).
  assert (forall k f g, wf_tx (W k f g) -> fits_tx (W k f g)) as Ft by (intros k f g X; split; [exact I | apply (wf_fits_body (W k f g) X)]).
  (* the question is about the length of what will be sent *)
  assert (forall k, k < 2 ^ 64 -> fee < 2 ^ 64 -> exists g g' sig, signer_new (U k fee) = Ok g /\ succeeds E g [SignOrigin sk] g' /\ tx_means (sg_tx g') (W k fee sig)
            /\ wf_tx (W k fee sig) /\ forall q, estimate_in net url (U k (st_fee d)) q
               = let '(q', o) := net q (post_json (url ++ str "/v2/fees/transaction"%string) (fee_question (W k fee sig))) in
                 (q', snd (estimate_in (fun (_ : unit) _ => (tt, o)) url (U k (st_fee d)) tt))) as Fl.
  { intros k K Ff. destruct (unsigned_flow E n sk fee k (st_anchor d) (st_pcmode d) [] _ [] _ C V Cw Pm Wp Ff K) as (g & g' & sig & Sn & Su & M & Wf & _ & Cn).
    cbv zeta in M, Wf, Cn. fold (U k fee) in Sn. fold (W k fee sig) in M, Wf, Cn. fold (W k fee (repeat x00 65)) in Cn.
    exists g, g', sig. repeat (split; [assumption|]). intros q.
    pose proof (unsigned_means E n sk (st_fee d) k (st_anchor d) (st_pcmode d) [] _ [] _ Cw Pm) as M0. fold (U k (st_fee d)) in M0.
    assert (wf_tx (W k (st_fee d) (repeat x00 65))) as W0 by (apply signed_wf; auto using hash20_length; reflexivity).
    unfold estimate_in, exchange. rewrite (estimate_request_ok url _ _ M0 (Ft _ _ _ W0)).
    assert (fee_question (W k (st_fee d) (repeat x00 65)) = fee_question (W k fee sig)) as Q.
    { unfold fee_question. rewrite Cn. do 5 f_equal. unfold W, signed_wire, ser_tx.
      cbn [w_version w_chain w_auth w_anchor w_pcmode w_conds w_payload ser_auth ser_spend]. repeat rewrite ?count_cons, ?count_app.
      unfold count. rewrite !big_endian_length. reflexivity. }
    fold (W k (st_fee d) (repeat x00 65)). rewrite Q. destruct (net q _) as [q' o]. cbn [snd]. reflexivity. }
  assert (forall k o x, fee < 2 ^ 64 -> k < 2 ^ 64 -> (snd (estimate_in (fun (_ : unit) _ => (tt, o)) url (U k (st_fee d)) tt) = Ok (EsOk x)
            <-> exists r2 j2, o = OOk r2 /\ rs_json r2 = Some j2 /\ fees_json j2 x)) as An.
  { intros k o x Ff K.
    pose proof (unsigned_means E n sk (st_fee d) k (st_anchor d) (st_pcmode d) [] _ [] _ Cw Pm) as M0. fold (U k (st_fee d)) in M0.
    assert (wf_tx (W k (st_fee d) (repeat x00 65))) as W0 by (apply signed_wf; auto using hash20_length; reflexivity).
    unfold estimate_in, exchange. rewrite (estimate_request_ok url _ _ M0 (Ft _ _ _ W0)). cbn [snd]. destruct o as [r2|c r2|].
    - unfold into_json. split.
      + destruct (rs_json r2) as [j2|] eqn:J; [|discriminate]. cbn. destruct (parse_fee_ok j2) as [l|] eqn:P; [|discriminate]. cbn. intros X. injection X as <-.
        apply parse_fee_iff in P. eauto.
      + intros (r3 & j2 & X & J & F). injection X as <-. rewrite J. cbn. rewrite (proj2 (parse_fee_iff j2 x) F). reflexivity.
    - split; [unfold io; destruct (rs_text r2); discriminate | intros (? & ? & X & _); discriminate X].
    - split; [discriminate | intros (? & ? & X & _); discriminate X]. }
  split.
  - intros (addr' & sk' & info & s1 & t & fees & s2 & t' & G' & Ks' & A & B & Es & Fi & Si & Br).
    rewrite G in G'. injection G' as <-. rewrite Ks in Ks'. injection Ks' as <-.
    unfold address_in, exchange in A. change (address_request url addr) with (accounts_request url addr) in A.
    destruct (net s (accounts_request url addr)) as [s0 o0] eqn:N0. injection A as -> A. destruct o0 as [resp|c x|]; try discriminate A. cbn in A.
    unfold into_json in A. destruct (rs_json resp) as [j|] eqn:J; [|discriminate A]. cbn in A.
    destruct (parse_address j) as [i|] eqn:P; [|discriminate A]. injection A as ->. apply parse_address_iff in P.
    assert (ad_nonce info < 2 ^ 64) as No by apply P. rewrite Bd in B. injection B as <-.
    change (tx_set_fee (U (ad_nonce info) (st_fee d)) fee) with (U (ad_nonce info) fee) in Si.
    assert (fee < 2 ^ 64) as Ff.
    { pose proof (unsigned_means E n sk (st_fee d) (ad_nonce info) (st_anchor d) (st_pcmode d) [] _ [] _ Cw Pm) as M0. fold (U (ad_nonce info) (st_fee d)) in M0.
      assert (wf_tx (W (ad_nonce info) (st_fee d) (repeat x00 65))) as W0 by (apply signed_wf; auto using hash20_length; reflexivity).
      apply (estimate_in_iff net url _ _ _ _ _ M0 (Ft _ _ _ W0)) in Es. destruct Es as (o & _ & Es).
      destruct o as [resp2|c x|]; cbn [estimate_result] in Es; [|unfold read_text in Es; destruct (rs_text x); discriminate Es | discriminate Es].
      unfold read_as in Es. destruct Es as [(j2 & l & J2 & F2 & X)|[_ X]]; [|discriminate X]. injection X as <-.
      apply in_map_iff in Fi as (x & <- & Ix). destruct F2 as (l & _ & F2).
      clear - F2 Ix. induction F2 as [|y z l l' H F IH]; [destruct Ix|]. destruct Ix as [->|Ix]; [|auto]. destruct H as (? & _ & H & _). exact H. }
    destruct (Fl (ad_nonce info) No Ff) as (g & g' & sig & Sn & Su & M & Wf & Q). rewrite Q in Es.
    destruct (net s1 (post_json (url ++ str "/v2/fees/transaction"%string) (fee_question (W (ad_nonce info) fee sig)))) as [q o] eqn:N1.
    injection Es as -> Es. apply An in Es; [|assumption|assumption]. destruct Es as (resp2 & j2 & -> & J2 & F2).
    apply tx_sign_succeeds in Si. destruct Si as (g2 & g2' & Sn2 & Su2 & <-). rewrite Sn in Sn2. injection Sn2 as <-.
    assert (g2' = g') as -> by (apply succeeds_all in Su, Su2; congruence).
    apply (broadcast_in_iff net url _ _ _ _ _ M (Ft _ _ _ Wf)) in Br. destruct Br as (o & N2 & Br).
    exists s1, resp, j, info, s2, resp2, j2, fees, (W (ad_nonce info) fee sig), o. repeat (split; [assumption || reflexivity|]).
    split; [|split; [exact N2 | exact Br]]. exists (U (ad_nonce info) fee), g, g'. split; [apply Bu|]. split; [exact Sn|]. split; [exact Su|].
    apply tx_iff. eexists. split; [exact M|]. split; [apply Ft; exact Wf | reflexivity].
  - intros (s1 & resp & j & info & s2 & resp2 & j2 & fees & w & o & N0 & J & P & N1 & J2 & F2 & Fi & Ff & Ww & (t & g & g' & B & Sn & Su & En) & N2 & Br).
    assert (ad_nonce info < 2 ^ 64) as No by apply P. rewrite Bu in B. injection B as <-. cbn [payment st_sender] in Su.
    destruct (Fl (ad_nonce info) No Ff) as (g2 & g2' & sig & Sn2 & Su2 & M & Wf & Q). rewrite Sn in Sn2. injection Sn2 as <-.
    assert (g2' = g') as -> by (apply succeeds_all in Su, Su2; congruence).
    assert (enc_tx (sg_tx g') = Ok (ser_tx (W (ad_nonce info) fee sig))) as En2 by (apply tx_iff; eexists; split; [exact M|]; split; [apply Ft; exact Wf | reflexivity]).
    assert (w = W (ad_nonce info) fee sig) as -> by (apply one_reading; congruence).
    exists addr, sk, info, s1, (U (ad_nonce info) (st_fee d)), fees, s2, (sg_tx g'). split; [exact G|]. split; [exact Ks|]. split.
    { unfold address_in, exchange. change (address_request url addr) with (accounts_request url addr). rewrite N0. cbn [json_answer]. f_equal.
      unfold into_json. rewrite J. cbn [io bind]. rewrite (proj2 (parse_address_iff j info) P). reflexivity. }
    split; [apply Bd|]. split; [rewrite Q, N1; f_equal; apply An; eauto|]. split; [exact Fi|].
    split; [change (tx_set_fee (U (ad_nonce info) (st_fee d)) fee) with (U (ad_nonce info) fee); apply tx_sign_succeeds; exists g, g'; auto|].
    apply (broadcast_in_iff net url _ _ _ _ _ M (Ft _ _ _ Wf)). exists o. auto.
Qed.

(** The money: exactly the amount and the fee that was picked, once; whatever the draft's own fee was. *)
Theorem C105_exact : forall S H E n (net : node S) book url (a : account H) d to fee s s' r, hd_correct E H -> ecdsa_correct E -> sound_draft d to ->
  banking E n net book -> truthful net book url -> pays_estimate E n net url a d fee s s' r ->
  let done := moved (owner n a) to (st_amount d) fee (book s) (book s') in
  match r with
  | Ok (BcOk _) => done
  | Ok (BcErr _) => book s' = book s
  | _ => done \/ book s' = book s
  end.
Proof.
  intros S H E n net book url a d to fee s s' r Hd C D Ba Tr P done.
  destruct (estimate_iff E n net url a d to fee s s' r Hd C D) as (sk & addr & V & _ & Me & T & I). apply (proj1 I) in P. clear I.
  destruct P as (s1 & resp & j & info & s2 & resp2 & j2 & fees & w & o & N1 & J & A & N2 & _ & _ & _ & Ff & _ & Se & N3 & Br).
  pose proof (Ba s (accounts_request url addr)) as B1. rewrite N1 in B1. cbn [fst snd rq_body accounts_request get] in B1.
  pose proof (Ba s1 (post_json (url ++ str "/v2/fees/transaction"%string) (fee_question w))) as B2. rewrite N2 in B2. cbn [fst snd rq_body post_json] in B2.
  rewrite B1 in B2. clear B1. set (e := ser_tx w) in *. clearbody e.
  assert (ad_nonce info = turn (book s) (owner n a)) as No by (apply (Tr s _ _ addr resp j info T); [rewrite N1; reflexivity | exact J | exact A]).
  pose proof (draft_sound E n sk _ to (ad_nonce info) (costing_sound d to fee Ff D) (proj2 (proj2 A))) as So.
  destruct (C100_transfer E n sk _ to C V So) as (e' & Se' & R).
  assert (e' = e) as -> by (destruct (sent_wire E n sk _ to C V So) as (m & sig & _ & U & _); rewrite (U _ Se), (U _ Se'); reflexivity).
  destruct (R (book s2)) as [_ Q]. rewrite Me in Q. cbn [st_amount st_fee payment costing] in Q.
  assert (takes E n (book s2) e (book s') -> done) as K by (intros X; pose proof (Q _ X) as Y; rewrite B2 in Y; exact Y).
  pose proof (Ba s2 (post_bytes (url ++ str "/v2/transactions"%string) e)) as B3. rewrite N3 in B3. cbn [fst snd rq_body post_bytes] in B3.
  destruct o as [x|c x|]; cbn [broadcast_result] in Br.
  - assert (done) as Dn.
    { destruct B3 as [B3|[(L0 & L1 & T0 & La) _]]; [exact (K B3)|]. exfalso.
      destruct (R L0) as [_ Q0]. destruct (Q0 L1 T0 (owner n a)) as [_ T1]. rewrite Me, (same_true _ _ eq_refl) in T1. cbn [when] in T1.
      destruct (proj1 (proj1 (R L0)) (ex_intro _ L1 T0)) as (_ & _ & T2 & _). rewrite Me in T2. cbn [st_nonce payment] in T2.
      destruct La as (es & La). pose proof (takes_all_mono E n es L1 (book s2) (owner n a) La) as Mo. rewrite B2 in Mo. lia. }
    unfold read_text in Br. destruct (rs_text x); subst r; auto.
  - rewrite B2 in B3. unfold read_as in Br. destruct Br as [(j' & ? & ? & ? & ->)|[_ ->]]; auto.
  - subst r. destruct B3 as [B3|B3]; [left; exact (K B3) | right; congruence].
Qed.
Print Assumptions C105_exact.

(** What was asked about is what is sent: the same payload, and its length with signature and fee in place. *)
Theorem C105_asked : forall S H E n (net : node S) url (a : account H) d to fee s s' r, hd_correct E H -> ecdsa_correct E -> sound_draft d to ->
  pays_estimate E n net url a d fee s s' r ->
  exists addr s1 s2 w q1 q2 q3 j fees, net s (accounts_request url addr) = (s1, OOk q1)
    /\ net s1 (post_json (url ++ str "/v2/fees/transaction"%string) (fee_question w)) = (s2, OOk q2) /\ rs_json q2 = Some j /\ fees_json j fees
    /\ In fee (map fe_fee fees) /\ wf_tx w /\ fee_in (worigin w) = fee
    /\ net s2 (post_bytes (url ++ str "/v2/transactions"%string) (ser_tx w)) = (s', q3).
Proof.
  intros S H E n net url a d to fee s s' r Hd C D P.
  destruct (estimate_iff E n net url a d to fee s s' r Hd C D) as (sk & addr & V & _ & _ & _ & I). apply (proj1 I) in P. clear I.
  destruct P as (s1 & resp & j & info & s2 & resp2 & j2 & fees & w & o & N1 & J & A & N2 & J2 & F2 & Fi & Ff & W & Se & N3 & _).
  exists addr, s1, s2, w, resp, resp2, o, j2, fees. repeat (split; [assumption|]). split; [|exact N3].
  pose proof (draft_sound E n sk _ to (ad_nonce info) (costing_sound d to fee Ff D) (proj2 (proj2 A))) as So.
  destruct (sent_wire E n sk _ to C V So) as (m & sig & _ & U & Wf & _). apply U in Se. cbv zeta in Wf. apply one_reading in Se; [|assumption|assumption]. rewrite Se. reflexivity.
Qed.
Print Assumptions C105_asked.

(** With a node that answers, quotes the fee and takes what it can, the program succeeds if amount and fee are there. *)
Theorem C105_succeeds : forall S H E n (net : node S) book url (a : account H) d to fee s, hd_correct E H -> ecdsa_correct E -> sound_draft d to ->
  banking E n net book -> truthful net book url -> prompt E n net book url (outcome_of_draft E n a (costing d fee)) -> quotes net url fee ->
  0 < st_amount d -> to <> owner n a -> st_amount d + fee <= coins (book s) (owner n a) -> turn (book s) (owner n a) < 2 ^ 64 ->
  exists s' id, pays_estimate E n net url a d fee s s' (Ok (BcOk id)) /\ moved (owner n a) to (st_amount d) fee (book s) (book s').
Proof.
  intros S H E n net book url a d to fee s Hd C D Ba Tr [Pr1 Pr2] Qu Am Ne Mo No.
  assert (exists s' id, pays_estimate E n net url a d fee s s' (Ok (BcOk id))) as (s' & id & P);
    [|exists s', id; split; [exact P | exact (C105_exact S H E n net book url a d to fee s s' _ Hd C D Ba Tr P)]].
  destruct (estimate_iff E n net url a d to fee s s (Ok (BcOk [])) Hd C D) as (sk & addr & V & K & Me & T & _).
  destruct (Pr1 s _ _ addr T No) as (resp & j & info & N1 & J & A).
  assert (ad_nonce info = turn (book s) (owner n a)) as Nn by (apply (Tr s _ _ addr resp j info T); assumption).
  pose proof (Ba s (accounts_request url addr)) as B1. rewrite N1 in B1. cbn [rq_body accounts_request get] in B1.
  destruct (net s (accounts_request url addr)) as [s1 o1] eqn:N. cbn [fst snd] in B1, N1. subst o1.
  assert (fee < 2 ^ 64) as Ff.
  { destruct (Qu s {| w_version := x00; w_chain := 0; w_auth := WaStandard (WsSingle x00 [] 0 0 []); w_anchor := x00; w_pcmode := x00; w_conds := []; w_payload := WpTransfer WTrue 0 [] |})
      as (_ & _ & fees & _ & _ & (l & _ & F2) & Fi). apply in_map_iff in Fi as (x & <- & Ix).
    clear - F2 Ix. induction F2 as [|y z l l' H F IH]; [destruct Ix|]. destruct Ix as [->|Ix]; [|auto]. destruct H as (? & _ & H & _). exact H. }
  pose proof (draft_sound E n sk _ to (ad_nonce info) (costing_sound d to fee Ff D) (proj2 (proj2 A))) as So.
  destruct (sent_wire E n sk _ to C V So) as (m & sig & Se & _ & Wf & _). cbv zeta in Se, Wf. set (w := signed_wire _ _ _ _ _ _ _ _ _) in *. clearbody w.
  destruct (C100_transfer E n sk _ to C V So) as (e' & Se' & R).
  assert (e' = ser_tx w) as -> by (destruct (sent_wire E n sk _ to C V So) as (m' & sig' & _ & U & _); rewrite (U _ Se), (U _ Se'); reflexivity).
  destruct (Qu s1 w) as (r2 & j2 & fees & N2 & J2 & F2 & Fi).
  pose proof (Ba s1 (post_json (url ++ str "/v2/fees/transaction"%string) (fee_question w))) as B2.
  destruct (net s1 (post_json (url ++ str "/v2/fees/transaction"%string) (fee_question w))) as [s2 o2] eqn:N3. cbn [fst snd] in B2, N2. subst o2.
  cbn [rq_body post_json] in B2.
  assert (exists L', takes E n (book s2) (ser_tx w) L') as [L' Tk].
  { apply R. rewrite Me. cbn [st_amount st_fee st_nonce payment costing]. rewrite B2, B1. auto. }
  destruct (Pr2 s2 (ser_tx w) L') as (r3 & id & N4 & Tx); [exists sk, (ad_nonce info); split; [exact K|]; split; [exact (proj2 (proj2 A)) | exact Se] | exact Tk|].
  destruct (net s2 (post_bytes (url ++ str "/v2/transactions"%string) (ser_tx w))) as [s3 o3] eqn:N5. cbn [snd] in N4. subst o3.
  exists s3, id. destruct (estimate_iff E n net url a d to fee s s3 (Ok (BcOk id)) Hd C D) as (sk' & addr' & _ & K' & _ & T' & I).
  rewrite K in K'. injection K' as <-. assert (addr' = addr) as -> by (eapply address_text_unique; eassumption).
  apply (proj2 I). exists s1, resp, j, info, s2, r2, j2, fees, w, (OOk r3). repeat (split; [assumption|]).
  cbn [broadcast_result]. unfold read_text. rewrite Tx. reflexivity.
Qed.
Print Assumptions C105_succeeds.

(** The fee is set before signing or not at all: once a transaction with one signature verifies, setting another fee or nonce makes it
    worthless to every node and ledger, unless the one signature is good for both. *)
Theorem C105_late : forall E n t c w h f k e L L', ecdsa_correct E -> binds_digest E -> tx_auth t = AStandard (SStd c) -> tx_means t w -> wf_tx w ->
  initial_hash t = Ok h -> verified E t -> f < 2 ^ 64 -> k < 2 ^ 64 -> (f, k) <> (std_fee c, std_nonce c) ->
  enc_tx (tx_set_nonce (tx_set_fee t f) k) = Ok e -> takes E n L e L' ->
  good_for_both E h (std_mode c) (std_sig c) (std_fee c) (std_nonce c) f k.
Proof.
  intros E n t c w h f k e L L' C B A M W H V Ff Fk Ne En T.
  set (u := tx_set_nonce (tx_set_fee t f) k) in *.
  set (c' := {| std_mode := std_mode c; std_fee := f; std_nonce := k; std_signer := std_signer c; std_sig := std_sig c |}).
  assert (tx_auth u = AStandard (SStd c')) as Au by (unfold u, tx_set_nonce, tx_set_fee, auth_set_nonce, auth_set_fee; cbn [tx_with_auth tx_auth]; rewrite A; reflexivity).
  pose proof M as (M1 & M2 & M3 & M4 & M5 & M6 & M7). pose proof W as (W1 & W2 & W3).
  set (v := with_auth_wire w (auth_wire (AStandard (SStd c')))).
  assert (tx_means u v) as Mv by (split; [exact M1|]; split; [exact M2|]; split; [cbn [v with_auth_wire w_auth]; rewrite Au; reflexivity | exact (conj M4 (conj M5 (conj M6 M7)))]).
  rewrite M3, A in W2. destruct W2 as (P1 & P2 & P3 & P4 & P5).
  assert (wf_tx v) as Wv by (split; [exact W1|]; split; [repeat split; assumption | exact W3]).
  assert (clear_tx v = clear_tx w) as Cl by (unfold clear_tx, v; cbn [with_auth_wire w_version w_chain w_auth w_anchor w_pcmode w_conds w_payload]; rewrite M3, A; reflexivity).
  assert (initial_hash u = Ok h) as Hu.
  { rewrite <- H. unfold initial_hash. rewrite Au, A. reflexivity. }
  assert (node_accepts E n e) as Ac by (destruct (taken_admitted _ _ _ _ _ T) as (x & (X1 & X2 & X3 & X4 & _) & _); exists x; auto).
  assert (small_tx u) as Sm by (split; [unfold origin_of; rewrite Au; exact I | unfold sponsor_of; rewrite Au; discriminate]).
  apply (node_exact E n u v e Mv Wv En Sm) in Ac. destruct Ac as (_ & _ & Vu).
  unfold verified in V, Vu. rewrite A in V. rewrite Au in Vu. destruct V as [g V]. destruct Vu as [g' Vu].
  assert (origin_of t = SStd c) as Ot by (unfold origin_of; rewrite A; reflexivity).
  assert (origin_of u = SStd c') as Ou by (unfold origin_of; rewrite Au; reflexivity).
  destruct (C62_tampering_detected E t u w v h h g g' C B) as [(_ & _ & X)|[X|[X|[X|X]]]]; rewrite ?Ot, ?Ou in *; try assumption.
  - repeat split.
  - exact I.
  - injection X as X. exfalso. apply Ne. rewrite X. reflexivity.
  - rewrite Cl in X. destruct X as [X _]. congruence.
  - left. exact X.
  - right. left. exact X.
  - right. right. exact X.
Qed.
Print Assumptions C105_late.

(** Finding: nothing limits the fee but what the account has.  For every draft and every fee there are nodes, keeping their ledger and
    reporting nonces like any other, that quote it and get it. *)
Definition quote (fee : N) : response :=
  {| rs_text := None; rs_json := Some (JArr [JArr [JArr [number fee; JInt 1]]]) |}.
Lemma quote_json fee : fee < 2 ^ 64 -> fees_json (JArr [JArr [JArr [number fee; JInt 1]]]) [{| fe_fee := fee; fe_rate := float_of_int 1 |}].
Proof.
  intros F. exists [JArr [number fee; JInt 1]]. split; [right; split; reflexivity|]. constructor; [|constructor]. exists (JInt 1).
  split; [right; split; reflexivity|]. split; [exact F | now apply rate_int_iff].
Qed.
Theorem C105_any_fee_refuted : forall H E n url (a : account H) d to fee k, hd_correct E H -> ecdsa_correct E -> sound_draft d to -> 0 < st_amount d ->
  to <> owner n a -> fee < 2 ^ 64 -> k + 1 < 2 ^ 64 ->
  exists (net : node nat) book s id, banking E n net book /\ truthful net book url /\ pays_estimate E n net url a d fee O s (Ok (BcOk id))
    /\ coins (book O) (owner n a) = st_amount d + fee /\ turn (book O) (owner n a) = k /\ coins (book s) (owner n a) = 0.
Proof.
  intros H E n url a d to fee k Hd C D Am Ne F K.
  destruct (till_exists H E n url a (costing d fee) to k Hd C (costing_sound _ _ _ F D) Am Ne K) as (net & book & B0 & Ba & Tr & Pr).
  set (net' := fun (i : nat) (q : request) => match rq_body q with BJson _ => (i, OOk (quote fee)) | _ => net i q end).
  assert (banking E n net' book) as Ba'.
  { intros i q. specialize (Ba i q). unfold net'. destruct (rq_body q); first [reflexivity | exact Ba]. }
  assert (truthful net' book url) as Tr' by exact Tr.
  assert (quotes net' url fee) as Qu.
  { intros i w. exists (quote fee), (JArr [JArr [JArr [number fee; JInt 1]]]), [{| fe_fee := fee; fe_rate := float_of_int 1 |}].
    split; [reflexivity|]. split; [reflexivity|]. split; [exact (quote_json fee F) | left; reflexivity]. }
  destruct (C105_succeeds nat H E n net' book url a d to fee O Hd C D Ba' Tr' Pr Qu Am Ne) as (s & id & P & Q).
  { rewrite B0. cbn [coins]. change (st_amount (costing d fee)) with (st_amount d). change (st_fee (costing d fee)) with fee. lia. }
  { rewrite B0. cbn [turn]. lia. }
  exists net', book, s, id. split; [exact Ba'|]. split; [exact Tr'|]. split; [exact P|]. rewrite B0.
  split; [reflexivity|]. split; [reflexivity|]. destruct (Q (owner n a)) as [Q1 _]. rewrite (same_true _ _ eq_refl) in Q1.
  rewrite (same_false (owner n a) to) in Q1 by congruence. rewrite B0 in Q1. cbn [coins when] in Q1.
  change (st_amount (costing d fee)) with (st_amount d) in Q1. change (st_fee (costing d fee)) with fee in Q1. lia.
Qed.
Print Assumptions C105_any_fee_refuted.

Lemma std_terms t m h nonce fee sig : WaStandard (WsSingle m h nonce fee sig) = auth_wire (tx_auth t) ->
  exists c, tx_auth t = AStandard (SStd c) /\ std_fee c = fee /\ std_nonce c = nonce.
Proof.
  intros X. destruct (tx_auth t) as [[c|]|]; try discriminate X. cbn [auth_wire spend_wire] in X. injection X as _ _ X1 X2 _. exists c.
  split; [reflexivity | split; congruence].
Qed.
(** A payment of 1000 quoted a fee of 10^15; and a signed transfer with a fee of 180 and nonce 7 that meets what [C105_late] asks. *)
Example C105_ex :
  let d := ex_pay 0 1000 in let me := owner NetTestnet toy_account in
  (exists net book s id, pays_estimate toy NetTestnet net [] toy_account d 1000000000000000 O s (Ok (BcOk id))
     /\ coins (book O) me = 1000000000001000 /\ coins (book s) me = 0)
  /\ ecdsa_correct shift /\ binds_digest shift
  /\ exists t c w h, tx_auth t = AStandard (SStd c) /\ std_fee c = 180 /\ std_nonce c = 7 /\ tx_means t w /\ wf_tx w /\ initial_hash t = Ok h /\ verified shift t
       /\ exists e, enc_tx (tx_set_nonce (tx_set_fee t 181) 7) = Ok e.
Proof.
  intros d me. split; [|split; [exact shift_correct | split; [exact shift_binds|]]].
  - destruct (C105_any_fee_refuted toy_hd toy NetTestnet [] toy_account d _ 1000000000000000 4 toy_hd_correct toy_correct (ex_draft 1000 eq_refl) eq_refl ex_stranger eq_refl eq_refl)
      as (net & book & s & id & _ & _ & P & Q1 & _ & Q2).
    exists net, book, s, id. split; [exact P|]. split; [exact Q1 | exact Q2].
  - destruct (unsigned_flow shift NetTestnet sk1 180 7 AnAny PcDeny [] (PTransfer (CPrinStd sample_addr) 1000 (str "hi"%string)) []
                (WpTransfer (WStd x16 key_hash) 1000 (str "hi"%string ++ repeat x00 32)) shift_correct sk1_valid) as (s & s' & sig & _ & _ & M & W & Ac & _).
    + split; [constructor|]. split; [reflexivity | constructor].
    + exact (conj ex_principal (conj eq_refl ex_memo)).
    + split; [exact ex_solid_std|]. split; reflexivity.
    + reflexivity.
    + reflexivity.
    + set (w := signed_wire _ _ _ _ _ _ _ _ _) in *. set (t := sg_tx s') in *.
      assert (exists c, tx_auth t = AStandard (SStd c) /\ std_fee c = 180 /\ std_nonce c = 7) as (c & A & Fc & Nc).
      { exact (std_terms t _ _ _ _ _ (proj1 (proj2 (proj2 M)))). }
      assert (fits_tx w) as Fi by (split; [exact I | apply (wf_fits_body w W)]). assert (enc_tx t = Ok (ser_tx w)) as En by (apply tx_iff; exists w; auto).
      assert (exists h, initial_hash t = Ok h) as [h H] by (eexists; apply initial_hash_iff; exists w; split; [exact M|]; split; [exact (wf_fits_body w W) | reflexivity]).
      apply (node_exact shift NetTestnet t w _ M W En) in Ac.
      * exists t, c, w, h. split; [exact A|]. split; [exact Fc|]. split; [exact Nc|]. split; [exact M|]. split; [exact W|]. split; [exact H|]. split; [exact (proj2 (proj2 Ac))|].
        pose proof (set_fee_wire t 181 w M Fi) as X. apply tx_iff in X. destruct X as (w' & M' & F' & _). eexists. exact (set_nonce_wire _ 7 w' M' F').
      * split; [unfold origin_of; rewrite A; exact I | unfold sponsor_of; rewrite A; discriminate].
Qed.
