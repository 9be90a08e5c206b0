(** Property theorem C101: paying through a node. *)

From Coq Require Import Lia Strings.String.
From Verif Require Import Base BaseFacts Sha2 SpecText SpecAddr AddrFacts Hash C32 Clarity SpecWire WireFacts Tx SpecTx TxFacts TxThms Signer Builder Wallet SpecSign SignFacts AuthThms PlanThms
     SpecNode NodeThms SpecCharge PropsCharge SpecLedger LedgerThms PropsLedger PropsSign PropsTx PropsClarity PropsClient Rpc SpecClient ClientThms Session SpecSession SessionThms SpecPay.
Local Open Scope N_scope.

Lemma tx_sign_succeeds E t sk t' : tx_sign E t sk = Ok t' <-> exists s s', signer_new t = Ok s /\ succeeds E s [SignOrigin sk] s' /\ sg_tx s' = t'.
Proof.
  unfold tx_sign. split.
  - destruct (signer_new t) as [s| | |]; cbn; try discriminate. destruct (sign_origin E s sk) as [s' r] eqn:S. destruct r as [[]| | |]; cbn; try discriminate.
    intros X. injection X as <-. exists s, s'. split; [reflexivity|]. split; [|reflexivity]. econstructor; [exact S | constructor].
  - intros (s & s' & -> & S & <-). inversion S as [|? ? s1 ? ? P N]; subst. inversion N; subst. cbn in P |- *. rewrite P. reflexivity.
Qed.

Lemma draft_sound E n sk d to k : sound_draft d to -> k < 2 ^ 64 -> sound_transfer E n sk (payment n sk k d) to.
Proof. intros [A B C D M F G] K. constructor; auto. Qed.

Lemma broadcast_in_iff {S} (net : node S) url t w s s' r : tx_means t w -> fits_tx w ->
  (broadcast_in net url t s = (s', r) <->
   exists o, net s (post_bytes (url ++ str "/v2/transactions"%string) (ser_tx w)) = (s', o) /\ broadcast_result o r).
Proof.
  intros M F. pose proof (proj1 (proj2 (proj2 (proj2 (call_results net url s)))) t) as R.
  pose proof (broadcast_sends (fun q => snd (net s q)) url t w M F) as B. rewrite <- R in B. clear R.
  unfold broadcast_in, exchange in *. rewrite (broadcast_request_ok url t w M F) in *.
  destruct (net s (post_bytes (url ++ str "/v2/transactions"%string) (ser_tx w))) as [s1 o]. cbn [fst snd] in B. split.
  - intros X. injection X as <- <-. exists o. split; [reflexivity | exact B].
  - intros (o' & X & B'). injection X as <- <-. f_equal. exact (proj1 results_determined o _ _ B B').
Qed.

(** One run of the program comes down to one request for the nonce and one with the bytes of a transfer. *)
Lemma pays_iff {S H} E n (net : node S) url (a : account H) d to s s' r : hd_correct E H -> ecdsa_correct E -> sound_draft d to ->
  exists sk addr, valid_key sk /\ account_private_key a = Ok sk /\ key_account E n sk = owner n a
  /\ address_text (hash20 (xpub_bytes H (acc_ext a))) (charged_version n x00) addr
  /\ (pays E n net url a d s s' r <->
      exists s1 resp j info e o, net s (accounts_request url addr) = (s1, OOk resp) /\ rs_json resp = Some j /\ address_json j info
        /\ sends E (payment n sk (ad_nonce info) d) e /\ net s1 (post_bytes (url ++ str "/v2/transactions"%string) e) = (s', o)
        /\ broadcast_result o r).
Proof.
  intros Hd C D. destruct (account_keys E a Hd) as (sk & Ks & V & _ & Pub).
  destruct (get_address a (single_version n)) as [addr| | |] eqn:G.
  2-4: exfalso; destruct (PropsClient.C49_address H a (single_version n)) as (x & G' & _); congruence.
  pose proof (proj1 (get_address_iff a _ _) G) as T.
  assert (address_code (single_version n) = charged_version n x00) as Cv by (destruct n; reflexivity). rewrite Cv in T.
  exists sk, addr. split; [exact V|]. split; [exact Ks|]. split; [unfold key_account, owner; rewrite Pub; reflexivity|]. split; [exact T|].
  split.
  - intros (addr' & sk' & info & s1 & t & t' & G' & K' & A & B & Si & Br). rewrite G in G'. injection G' as <-. rewrite Ks in K'. injection K' as <-.
    unfold address_in, exchange in A. change (address_request url addr) with (accounts_request url addr) in A.
    destruct (net s (accounts_request url addr)) as [s2 o2]. injection A as -> A. destruct o2 as [resp|c x|]; try discriminate A. cbn in A.
    unfold into_json in A. destruct (rs_json resp) as [j|] eqn:J; [|discriminate A]. cbn in A.
    destruct (parse_address j) as [i|] eqn:P; [|discriminate A]. injection A as ->. apply parse_address_iff in P.
    assert (ad_nonce info < 2 ^ 64) as No by apply P.
    apply tx_sign_succeeds in Si. destruct Si as (g & g' & Sn & Su & <-).
    assert (exists e, sends E (payment n sk (ad_nonce info) d) e /\ enc_tx (sg_tx g') = Ok e) as (e & Se & En).
    { destruct (sent_wire E n sk _ to C V (draft_sound E n sk d to _ D No)) as (m & sig & (t2 & g2 & g2' & B2 & Sn2 & Su2 & En2) & _).
      rewrite B in B2. injection B2 as <-. rewrite Sn in Sn2. injection Sn2 as <-. cbn [st_sender payment] in Su2.
      assert (g2' = g') as -> by (apply succeeds_all in Su, Su2; congruence). eexists. split; [|exact En2]. exists t, g, g'. auto. }
    pose proof En as En'. apply tx_iff in En'. destruct En' as (w & Mw & Fw & ->).
    apply (broadcast_in_iff net url _ w _ _ _ Mw Fw) in Br. destruct Br as (o & N3 & Br).
    exists s1, resp, j, info, (ser_tx w), o. auto 10.
  - intros (s1 & resp & j & info & e & o & A & J & P & (t & g & g' & B & Sn & Su & En) & N3 & Br). cbn [st_sender payment] in Su.
    exists addr, sk, info, s1, t, (sg_tx g'). split; [exact G|]. split; [exact Ks|]. split.
    { unfold address_in, exchange. change (address_request url addr) with (accounts_request url addr). rewrite A. cbn [json_answer]. f_equal.
      unfold into_json. rewrite J. cbn [io bind]. rewrite (proj2 (parse_address_iff j info) P). reflexivity. }
    split; [exact B|]. split; [apply tx_sign_succeeds; exists g, g'; auto|].
    apply tx_iff in En. destruct En as (w & Mw & Fw & ->). apply (broadcast_in_iff net url _ w _ _ _ Mw Fw). exists o. auto.
Qed.

(** Whatever the program is told, this has become of the money: an id means that it has moved, exactly once; a rejection that it has not;
    an error that it may have. *)
Theorem C101_exact : forall S H E n (net : node S) book url (a : account H) d to s s' r, hd_correct E H -> ecdsa_correct E -> sound_draft d to ->
  banking E n net book -> truthful net book url -> pays E n net url a d s s' r ->
  let done := moved (owner n a) to (st_amount d) (st_fee d) (book s) (book s') in
  match r with
  | Ok (BcOk _) => done
  | Ok (BcErr _) => book s' = book s
  | _ => done \/ book s' = book s
  end.
Proof.
  intros S H E n net book url a d to s s' r Hd C D Ba Tr P done.
  destruct (pays_iff E n net url a d to s s' r Hd C D) as (sk & addr & V & _ & Me & T & I). apply (proj1 I) in P. clear I.
  destruct P as (s1 & resp & j & info & e & o & N1 & J & A & Se & N2 & Br).
  pose proof (Ba s (accounts_request url addr)) as B1. rewrite N1 in B1. cbn [fst snd rq_body accounts_request get] in B1.
  assert (ad_nonce info = turn (book s) (owner n a)) as No by (apply (Tr s _ _ addr resp j info T); [rewrite N1; reflexivity | exact J | exact A]).
  pose proof (draft_sound E n sk d to (ad_nonce info) D (proj2 (proj2 A))) as So.
  destruct (C100_transfer E n sk _ to C V So) as (e' & Se' & R).
  assert (e' = e) as -> by (destruct (sent_wire E n sk _ to C V So) as (m & sig & _ & U & _); rewrite (U _ Se), (U _ Se'); reflexivity).
  destruct (R (book s1)) as [_ Q]. rewrite Me in Q. cbn [st_amount st_fee payment] in Q.
  assert (takes E n (book s1) e (book s') -> done) as K by (intros X; pose proof (Q _ X) as Y; rewrite B1 in Y; exact Y).
  pose proof (Ba s1 (post_bytes (url ++ str "/v2/transactions"%string) e)) as B2. rewrite N2 in B2. cbn [fst snd rq_body post_bytes] in B2.
  destruct o as [x|c x|]; cbn [broadcast_result] in Br.
  - assert (done) as Dn.
    { destruct B2 as [B2|[(L0 & L1 & T0 & La) _]]; [exact (K B2)|]. exfalso.
      destruct (R L0) as [_ Q0]. destruct (Q0 L1 T0 (owner n a)) as [_ T1]. rewrite Me, (same_true _ _ eq_refl) in T1. cbn [when] in T1.
      destruct (proj1 (proj1 (R L0)) (ex_intro _ L1 T0)) as (_ & _ & T2 & _). rewrite Me in T2. cbn [st_nonce payment] in T2.
      destruct La as (es & La). pose proof (takes_all_mono E n es L1 (book s1) (owner n a) La) as Mo. rewrite B1 in Mo. lia. }
    unfold read_text in Br. destruct (rs_text x); subst r; auto.
  - rewrite B1 in B2. unfold read_as in Br. destruct Br as [(j' & ? & ? & ? & ->)|[_ ->]]; auto.
  - subst r. destruct B2 as [B2|B2]; [left; exact (K B2) | right; congruence].
Qed.
Print Assumptions C101_exact.

(** With a node that answers, the program succeeds if the money is there, for an amount, and for another account to go to. *)
Theorem C101_succeeds : forall S H E n (net : node S) book url (a : account H) d to s, hd_correct E H -> ecdsa_correct E -> sound_draft d to ->
  banking E n net book -> truthful net book url -> prompt E n net book url (outcome_of_draft E n a d) ->
  0 < st_amount d -> to <> owner n a -> st_amount d + st_fee d <= coins (book s) (owner n a) -> turn (book s) (owner n a) < 2 ^ 64 ->
  exists s' id, pays E n net url a d s s' (Ok (BcOk id)) /\ moved (owner n a) to (st_amount d) (st_fee d) (book s) (book s').
Proof.
  intros S H E n net book url a d to s Hd C D Ba Tr [Pr1 Pr2] Am Ne Mo No.
  assert (exists s' id, pays E n net url a d s s' (Ok (BcOk id))) as (s' & id & P);
    [|exists s', id; split; [exact P | exact (C101_exact S H E n net book url a d to s s' _ Hd C D Ba Tr P)]].
  destruct (pays_iff E n net url a d to s s (Ok (BcOk [])) Hd C D) as (sk & addr & V & K & Me & T & _).
  destruct (Pr1 s _ _ addr T No) as (resp & j & info & N1 & J & A).
  assert (ad_nonce info = turn (book s) (owner n a)) as Nn by (apply (Tr s _ _ addr resp j info T); assumption).
  pose proof (Ba s (accounts_request url addr)) as B1. rewrite N1 in B1. cbn [rq_body accounts_request get] in B1.
  destruct (net s (accounts_request url addr)) as [s1 o1] eqn:N. cbn [fst snd] in B1, N1. subst o1.
  pose proof (draft_sound E n sk d to (ad_nonce info) D (proj2 (proj2 A))) as So.
  destruct (C100_transfer E n sk _ to C V So) as (e & Se & R). destruct (R (book s1)) as [R1 _]. rewrite Me in R1.
  cbn [st_amount st_fee st_nonce payment] in R1. rewrite B1 in R1.
  destruct (proj2 R1) as [L Tk]; [repeat split; [exact Am | exact Ne | symmetry; exact Nn | exact Mo]|]. rewrite <- B1 in Tk.
  destruct (Pr2 s1 e L (ex_intro _ sk (ex_intro _ _ (conj K (conj (proj2 (proj2 A)) Se)))) Tk) as (r & id & N2 & Tx).
  destruct (net s1 (post_bytes (url ++ str "/v2/transactions"%string) e)) as [s' o] eqn:N'. cbn [snd] in N2. subst o.
  exists s', id. destruct (pays_iff E n net url a d to s s' (Ok (BcOk id)) Hd C D) as (sk' & addr' & _ & K' & _ & T' & I).
  rewrite K in K'. injection K' as <-. assert (addr' = addr) as -> by (eapply address_text_unique; eassumption).
  apply (proj2 I). exists s1, resp, j, info, e, (OOk r). repeat split; try assumption; try apply A. cbn [broadcast_result]. unfold read_text. rewrite Tx. reflexivity.
Qed.
Print Assumptions C101_succeeds.

(** Without the money, for nothing, or to oneself: nothing happens, and no id is returned. *)
Theorem C101_useless : forall S H E n (net : node S) book url (a : account H) d to s s' r, hd_correct E H -> ecdsa_correct E -> sound_draft d to ->
  banking E n net book -> truthful net book url -> pays E n net url a d s s' r ->
  st_amount d = 0 \/ to = owner n a \/ coins (book s) (owner n a) < st_amount d + st_fee d ->
  book s' = book s /\ forall id, r <> Ok (BcOk id).
Proof.
  intros S H E n net book url a d to s s' r Hd C D Ba Tr P U.
  destruct (pays_iff E n net url a d to s s' r Hd C D) as (sk & addr & V & _ & Me & T & I). apply (proj1 I) in P. clear I.
  destruct P as (s1 & resp & j & info & e & o & N1 & J & A & Se & N2 & Br).
  pose proof (Ba s (accounts_request url addr)) as B1. rewrite N1 in B1. cbn [fst snd rq_body accounts_request get] in B1.
  assert (ad_nonce info = turn (book s) (owner n a)) as No by (apply (Tr s _ _ addr resp j info T); [rewrite N1; reflexivity | exact J | exact A]).
  pose proof (draft_sound E n sk d to (ad_nonce info) D (proj2 (proj2 A))) as So.
  destruct (C100_transfer E n sk _ to C V So) as (e' & Se' & R).
  assert (e' = e) as -> by (destruct (sent_wire E n sk _ to C V So) as (m & sig & _ & U' & _); rewrite (U' _ Se), (U' _ Se'); reflexivity).
  assert (forall L', ~ takes E n (book s) e L') as No1.
  { intros L' X. destruct (proj1 (proj1 (R (book s))) (ex_intro _ L' X)) as (Y1 & Y2 & _ & Y3). rewrite Me in Y2, Y3. cbn [st_amount st_fee payment] in Y1, Y3.
    destruct U as [U|[U|U]]; [lia | contradiction | lia]. }
  assert (~ seen E n (book s) e) as No2.
  { intros (L0 & L1 & T0 & (es & La)). destruct (R L0) as [_ Q0]. destruct (Q0 L1 T0 (owner n a)) as [_ T1]. rewrite Me, (same_true _ _ eq_refl) in T1. cbn [when] in T1.
    destruct (proj1 (proj1 (R L0)) (ex_intro _ L1 T0)) as (_ & _ & T2 & _). rewrite Me in T2. cbn [st_nonce payment] in T2.
    pose proof (takes_all_mono E n es L1 (book s) (owner n a) La) as Mo. lia. }
  pose proof (Ba s1 (post_bytes (url ++ str "/v2/transactions"%string) e)) as B2. rewrite N2 in B2. cbn [fst snd rq_body post_bytes] in B2. rewrite B1 in B2.
  destruct o as [x|c x|]; cbn [broadcast_result] in Br.
  - exfalso. destruct B2 as [B2|[B2 _]]; [exact (No1 _ B2) | exact (No2 B2)].
  - split; [exact B2|]. unfold read_as in Br. destruct Br as [(j' & ? & ? & ? & ->)|[_ ->]]; discriminate.
  - subst r. split; [destruct B2 as [B2|B2]; [exfalso; exact (No1 _ B2) | exact B2] | discriminate].
Qed.
Print Assumptions C101_useless.

(** Broadcasting one and the same transaction again, any number of times and with any other requests in between, pays at most once. *)
Theorem C101_rebroadcast : forall S E n (net : node S) book t w l s, banking E n net book -> tx_means t w -> fits_tx w -> wf_tx w ->
  Forall (fun c => forall u, snd c = CallBroadcast u -> u = t) l ->
  let L' := book (fst (make_calls net l s)) in L' = book s \/ takes E n (book s) (ser_tx w) L'.
Proof.
  intros S E n net book t w l s Ba M F W Fa L'. subst L'. pose proof (run_session net l s) as R.
  set (sE := fst (make_calls net l s)) in *. set (r := snd (make_calls net l s)) in *. clearbody sE r.
  induction R as [s|s url c q s1 o a l s2 r A N _ R IH|s url c a l s2 r A _ R IH]; [left; reflexivity | |].
  - inversion Fa as [|? ? F1 F2]; subst. cbn [snd] in F1. specialize (IH F2).
    assert (book s1 = book s \/ takes E n (book s) (ser_tx w) (book s1)) as K.
    { pose proof (Ba s q) as B. rewrite N in B. cbn [fst snd] in B. destruct c as [|x|u|u|x y z args sd]; cbn [asks] in A.
      - injection A as ->. left. exact B.
      - injection A as ->. left. exact B.
      - destruct A as [(v & _ & _ & X)|[_ X]]; [injection X as ->; left; exact B | discriminate X].
      - rewrite (F1 u eq_refl) in *. destruct A as [(v & Mv & _ & X)|[_ X]]; [|discriminate X].
        assert (ser_tx v = ser_tx w) as Ev.
        { symmetry. refine (proj2 (enc_means t v (ser_tx w) Mv _)). apply tx_iff. exists w. auto. }
        injection X as ->. cbn [rq_body post_bytes] in B. rewrite Ev in B. destruct o; [destruct B as [B|[_ B]]|..]; tauto.
      - destruct A as [(v & _ & _ & X)|[_ X]]; [injection X as ->; left; exact B | discriminate X]. }
    destruct K as [K|K]; [rewrite K in IH; exact IH|]. destruct IH as [IH|IH]; [rewrite IH; right; exact K|]. exfalso.
    apply (C100_once E n (book s) (ser_tx w) (book s1) (book s1) (book s2) K); [exists []; reflexivity | exact IH].
  - inversion Fa as [|? ? _ F2]; subst. exact (IH F2).
Qed.
Print Assumptions C101_rebroadcast.

(** Finding: running the program again after an error pays again.  Here both runs end in an error and the money has moved twice. *)
Definition report (k : N) : response :=
  {| rs_text := None; rs_json := Some (JArr [JStr []; JStr []; number 0; number k; JStr []; JStr []]) |}.
Definition noisy (url addr e1 e2 : bytes) (me : wval) (book : nat -> ledger) : node nat := fun i q =>
  match rq_body q with
  | BBytes b =>
    match i with
    | O => if list_eq_dec Byte.byte_eq_dec b e1 then (1%nat, OTransport) else (i, OStatus 400 (report 0))
    | S O => if list_eq_dec Byte.byte_eq_dec b e2 then (2%nat, OTransport) else (i, OStatus 400 (report 0))
    | _ => (i, OStatus 400 (report 0))
    end
  | _ => if list_eq_dec Byte.byte_eq_dec (rq_url q) (url ++ str "/v2/accounts/"%string ++ addr) then (i, OOk (report (turn (book i) me))) else (i, OTransport)
  end.
Lemma report_json k : k < 2 ^ 64 -> address_json (JArr [JStr []; JStr []; number 0; number k; JStr []; JStr []])
  {| ad_balance := []; ad_locked := []; ad_unlock := 0; ad_nonce := k; ad_balance_proof := []; ad_nonce_proof := [] |}.
Proof. intros K. split; [right; split; reflexivity|]. split; [reflexivity | exact K]. Qed.
Theorem C101_again_refuted : forall H E n url (a : account H) d to L, hd_correct E H -> ecdsa_correct E -> sound_draft d to ->
  let me := owner n a in
  0 < st_amount d -> to <> me -> 2 * (st_amount d + st_fee d) <= coins L me -> turn L me + 1 < 2 ^ 64 ->
  exists (net : node nat) book s1 s2, book O = L /\ banking E n net book /\ truthful net book url
    /\ pays E n net url a d O s1 (Err (RUreq None)) /\ pays E n net url a d s1 s2 (Err (RUreq None))
    /\ coins (book s2) me + 2 * (st_amount d + st_fee d) = coins L me /\ coins (book s2) to = coins L to + 2 * st_amount d.
Proof.
  intros H E n url a d to L Hd C D me Am Ne Mo No. assert (me <> to) as Ne' by congruence.
  destruct (pays_iff E n (fun (i : nat) _ => (i, OTransport)) url a d to O O (Ok (BcOk [])) Hd C D) as (sk & addr & V & Ks & Me & T & _). fold me in Me.
  set (k := turn L me) in *.
  destruct (C100_transfer E n sk _ to C V (draft_sound E n sk d to k D ltac:(lia))) as (e1 & Se1 & R1).
  destruct (C100_transfer E n sk _ to C V (draft_sound E n sk d to (k + 1) D No)) as (e2 & Se2 & R2).
  cbn [st_amount st_fee st_nonce payment] in R1, R2. rewrite Me in R1, R2.
  destruct (proj2 (proj1 (R1 L))) as [L1 T1]; [repeat split; [exact Am | exact Ne | lia]|].
  destruct (proj2 (R1 L) L1 T1 me) as [Q1 Q1']. destruct (proj2 (R1 L) L1 T1 to) as [Q2 _].
  rewrite (same_true me me eq_refl) in Q1, Q1'. rewrite (same_false me to Ne') in Q1. rewrite (same_true to to eq_refl), (same_false to me Ne) in Q2. cbn [when] in Q1, Q1', Q2.
  destruct (proj2 (proj1 (R2 L1))) as [L2 T2]; [repeat split; [exact Am | exact Ne | exact Q1' | lia]|].
  destruct (proj2 (R2 L1) L2 T2 me) as [P1 _]. destruct (proj2 (R2 L1) L2 T2 to) as [P2 _].
  rewrite (same_true me me eq_refl), (same_false me to Ne') in P1. rewrite (same_true to to eq_refl), (same_false to me Ne) in P2. cbn [when] in P1, P2.
  set (book := fun i : nat => match i with O => L | S O => L1 | _ => L2 end). set (net := noisy url addr e1 e2 me book).
  assert (forall i, net i (accounts_request url addr) = (i, OOk (report (turn (book i) me)))) as Nn.
  { intros i. unfold net, noisy, accounts_request, get. cbn [rq_body rq_url]. destruct (list_eq_dec _ _ _); [reflexivity | contradiction]. }
  assert (net 0%nat (post_bytes (url ++ str "/v2/transactions"%string) e1) = (1%nat, OTransport)) as N1.
  { unfold net, noisy, post_bytes. cbn [rq_body]. destruct (list_eq_dec _ _ _); [reflexivity | contradiction]. }
  assert (net 1%nat (post_bytes (url ++ str "/v2/transactions"%string) e2) = (2%nat, OTransport)) as N2.
  { unfold net, noisy, post_bytes. cbn [rq_body]. destruct (list_eq_dec _ _ _); [reflexivity | contradiction]. }
  exists net, book, 1%nat, 2%nat. split; [reflexivity|]. split; [|split; [|split; [|split; [|split]]]].
  - intros i q. unfold net, noisy. destruct (rq_body q) as [|b|j]; try (destruct (list_eq_dec _ _ _); reflexivity).
    destruct i as [|[|i]]; try (destruct (list_eq_dec _ _ _) as [->|]); cbn [fst snd]; auto.
  - intros i h v x r j info Tx O J A. pose proof (list_eq_dec Byte.byte_eq_dec x addr) as [->|Nx].
    + rewrite Nn in O. cbn [snd] in O. injection O as <-. cbn [rs_json report] in J. injection J as <-.
      destruct (address_text_determines _ _ _ _ _ T Tx) as [Eh Ev]. rewrite <- Eh, <- Ev. fold (owner n a). fold me.
      assert (turn (book i) me < 2 ^ 64 \/ 2 ^ 64 <= turn (book i) me) as [B|B] by lia.
      * pose proof (iff_fun _ _ parse_address_iff _ _ _ A (report_json _ B)) as ->. reflexivity.
      * exfalso. destruct A as [[(l & X & _)|[X _]] [_ B']]; [discriminate X|]. injection X as _ _ X. unfold number in X. lia.
    + exfalso. unfold net, noisy, accounts_request, get in O. cbn [rq_body rq_url] in O. destruct (list_eq_dec _ _ _) as [X|X]; [|discriminate O].
      apply app_inv_head in X. apply app_inv_head in X. contradiction.
  - destruct (pays_iff E n net url a d to O 1%nat (Err (RUreq None)) Hd C D) as (sk' & addr' & _ & K' & _ & T' & I).
    rewrite Ks in K'. injection K' as <-. assert (addr' = addr) as -> by (eapply address_text_unique; eassumption).
    apply (proj2 I). eexists O, _, _, _, e1, OTransport. split; [apply Nn|]. split; [reflexivity|]. split; [apply report_json; change (k < 2 ^ 64); lia|].
    split; [exact Se1|]. split; [exact N1 | reflexivity].
  - destruct (pays_iff E n net url a d to 1%nat 2%nat (Err (RUreq None)) Hd C D) as (sk' & addr' & _ & K' & _ & T' & I).
    rewrite Ks in K'. injection K' as <-. assert (addr' = addr) as -> by (eapply address_text_unique; eassumption).
    apply (proj2 I). eexists 1%nat, _, _, _, e2, OTransport. split; [apply Nn|]. change (book 1%nat) with L1. rewrite Q1'. split; [reflexivity|]. split; [apply report_json; exact No|].
    split; [exact Se2|]. split; [exact N2 | reflexivity].
  - change (book 2%nat) with L2. lia.
  - change (book 2%nat) with L2. lia.
Qed.
Print Assumptions C101_again_refuted.

(** Such nodes exist: one for every account, with just enough money. *)
Definition till (url addr e1 : bytes) (k : N) : node nat := fun i q =>
  match rq_body q with
  | BBytes b =>
    match i with
    | O => if list_eq_dec Byte.byte_eq_dec b e1 then (1%nat, OOk {| rs_text := Some (str "txid"%string); rs_json := None |}) else (i, OStatus 400 (report 0))
    | _ => (i, OStatus 400 (report 0))
    end
  | _ => if list_eq_dec Byte.byte_eq_dec (rq_url q) (url ++ str "/v2/accounts/"%string ++ addr)
         then (i, OOk (report (match i with O => k | _ => k + 1 end))) else (i, OOk (report k))
  end.
Lemma till_exists H E n url (a : account H) d to k : hd_correct E H -> ecdsa_correct E -> sound_draft d to ->
  let me := owner n a in let L := {| coins := fun _ => st_amount d + st_fee d; turn := fun _ => k |} in
  0 < st_amount d -> to <> me -> k + 1 < 2 ^ 64 ->
  exists (net : node nat) book, book O = L /\ banking E n net book /\ truthful net book url /\ prompt E n net book url (outcome_of_draft E n a d).
Proof.
  intros Hd C D me L Am Ne No. assert (me <> to) as Ne' by congruence.
  destruct (pays_iff E n (fun (i : nat) _ => (i, OTransport)) url a d to O O (Ok (BcOk [])) Hd C D) as (sk & addr & V & Ks & Me & T & _). fold me in Me.
  assert (forall j, j < 2 ^ 64 -> exists e, sends E (payment n sk j d) e /\ (forall e', sends E (payment n sk j d) e' -> e' = e) /\ forall L,
     ((exists L', takes E n L e L') <-> 0 < st_amount d /\ to <> me /\ turn L me = j /\ st_amount d + st_fee d <= coins L me)
     /\ forall L', takes E n L e L' -> moved me to (st_amount d) (st_fee d) L L') as R.
  { intros j J. pose proof (draft_sound E n sk d to j D J) as So. destruct (C100_transfer E n sk _ to C V So) as (e & Se & Q). exists e.
    split; [exact Se|]. split.
    - intros e' Se'. destruct (sent_wire E n sk _ to C V So) as (m & sig & _ & U & _). rewrite (U _ Se), (U _ Se'). reflexivity.
    - intros M. specialize (Q M). rewrite Me in Q. exact Q. }
  destruct (R k ltac:(lia)) as (e1 & Se1 & U1 & R1).
  destruct (proj2 (proj1 (R1 L))) as [L1 T1]; [split; [exact Am|]; split; [exact Ne|]; split; [reflexivity | cbn; lia]|].
  pose proof (proj2 (R1 L) L1 T1) as Q. destruct (Q me) as [Q1 Q1'].
  rewrite (same_true me me eq_refl) in Q1, Q1'. rewrite (same_false me to Ne') in Q1. cbn [when coins turn L] in Q1, Q1'.
  set (book := fun i : nat => match i with O => L | _ => L1 end). set (net := till url addr e1 k). exists net, book. split; [reflexivity|].
  assert (forall i, net i (accounts_request url addr) = (i, OOk (report (turn (book i) me)))) as Nn.
  { intros i. unfold net, till, accounts_request, get. cbn [rq_body rq_url]. destruct (list_eq_dec _ _ _); [|contradiction].
    destruct i; cbn [book]; [reflexivity | rewrite Q1'; reflexivity]. }
  assert (forall i h v x, address_text h v x -> x <> addr -> net i (accounts_request url x) = (i, OOk (report (turn (book i) (WStd v h))))) as No'.
  { intros i h v x Tx Nx. unfold net, till, accounts_request, get. cbn [rq_body rq_url]. destruct (list_eq_dec _ _ _) as [X|_].
    { apply app_inv_head, app_inv_head in X. contradiction. }
    f_equal. f_equal. f_equal. destruct i; [reflexivity|]. cbn [book]. destruct (Q (WStd v h)) as [_ ->].
    rewrite (same_false (WStd v h) me); [cbn; lia|]. intros X. apply Nx. injection X as -> ->. eapply address_text_unique; eassumption. }
  assert (forall i h v x, address_text h v x -> net i (accounts_request url x) = (i, OOk (report (turn (book i) (WStd v h))))) as Na.
  { intros i h v x Tx. destruct (list_eq_dec Byte.byte_eq_dec x addr) as [->|Nx]; [|apply No'; assumption].
    rewrite Nn. destruct (address_text_determines _ _ _ _ _ T Tx) as [Eh Ev]. rewrite <- Eh, <- Ev. reflexivity. }
  split; [|split; [|split]].
  - intros i q. unfold net, till. destruct (rq_body q) as [|b|j]; try (destruct (list_eq_dec _ _ _); reflexivity).
    destruct i as [|i]; [destruct (list_eq_dec _ _ _) as [->|]|]; cbn [fst snd]; auto.
  - intros i h v x r j info Tx O J A. rewrite (Na i h v x Tx) in O. cbn [snd] in O. injection O as <-. cbn [rs_json report] in J. injection J as <-.
    assert (turn (book i) (WStd v h) < 2 ^ 64 \/ 2 ^ 64 <= turn (book i) (WStd v h)) as [B|B] by lia.
    + pose proof (iff_fun _ _ parse_address_iff _ _ _ A (report_json _ B)) as ->. reflexivity.
    + exfalso. destruct A as [[(l & X & _)|[X _]] [_ B']]; [discriminate X|]. injection X as _ _ X. unfold number in X. lia.
  - intros i h v x Tx B. rewrite (Na i h v x Tx). eexists _, _, _. split; [reflexivity|]. split; [reflexivity|]. apply report_json. exact B.
  - intros i b M (sk' & j & K & J & Se) Tk. rewrite Ks in K. injection K as <-.
    destruct (R j J) as (e & _ & U & Rj). assert (b = e) as -> by (apply U; exact Se). destruct (proj1 (proj1 (Rj (book i))) (ex_intro _ M Tk)) as (_ & _ & X1 & X2).
    destruct i as [|i]; cbn [book L coins turn] in X1, X2.
    + subst j. assert (e = e1) as -> by (apply U1; exact Se). unfold net, till, post_bytes. cbn [rq_body].
      destruct (list_eq_dec _ _ _); [|contradiction]. eexists _, _. split; reflexivity.
    + exfalso. lia.
Qed.

(** 1000 micro-STX with a fee of 9 from the first account of a wallet, at a node where it has 1009 and where it has 2018. *)
Lemma ex_draft amount : amount < 2 ^ 64 -> sound_draft (ex_pay 0 amount) (WStd x16 key_hash).
Proof. intros A. constructor; try reflexivity; [exact ex_principal | exact ex_solid_std | eexists; exact ex_memo | exact A]. Qed.
Lemma ex_stranger : WStd x16 key_hash <> owner NetTestnet toy_account.
Proof. unfold owner. cbn [charged_version]. discriminate. Qed.
Example C101_ex : let me := owner NetTestnet toy_account in let d := ex_pay 0 1000 in forall url,
  (exists (net : node nat) book s id, banking toy NetTestnet net book /\ truthful net book url
     /\ pays toy NetTestnet net url toy_account d O s (Ok (BcOk id))
     /\ coins (book O) me = 1009 /\ coins (book s) me = 0 /\ coins (book s) (WStd x16 key_hash) = 2009 /\ turn (book s) me = 5)
  /\ exists (net : node nat) book s1 s2, banking toy NetTestnet net book /\ truthful net book url
     /\ pays toy NetTestnet net url toy_account d O s1 (Err (RUreq None)) /\ pays toy NetTestnet net url toy_account d s1 s2 (Err (RUreq None))
     /\ coins (book O) me = 2018 /\ coins (book s2) me = 0.
Proof.
  intros me d url. pose proof (ex_draft 1000 eq_refl) as D. pose proof ex_stranger as Ne. split.
  - destruct (till_exists toy_hd toy NetTestnet url toy_account d _ 4 toy_hd_correct toy_correct D eq_refl Ne eq_refl) as (net & book & B0 & Ba & Tr & Pr).
    destruct (C101_succeeds _ _ _ _ net book url toy_account d _ O toy_hd_correct toy_correct D Ba Tr Pr eq_refl Ne) as (s & id & P & Q).
    { rewrite B0. cbn [coins]. lia. }
    { rewrite B0. reflexivity. }
    exists net, book, s, id. split; [exact Ba|]. split; [exact Tr|]. split; [exact P|].
    destruct (Q me) as [Q1 Q2]. destruct (Q (WStd x16 key_hash)) as [Q3 _]. fold me in Q1, Q2, Q3, Ne.
    rewrite (same_true me me eq_refl) in Q1, Q2. rewrite (same_false me (WStd x16 key_hash)) in Q1 by congruence.
    rewrite (same_false _ _ Ne) in Q3. rewrite (same_true _ (WStd x16 key_hash) eq_refl) in Q3. rewrite B0 in *.
    cbn [coins turn when st_amount st_fee d ex_pay] in *. repeat split; lia.
  - destruct (C101_again_refuted toy_hd toy NetTestnet url toy_account d _ {| coins := fun _ => 2018; turn := fun _ => 4 |} toy_hd_correct toy_correct D
                eq_refl Ne) as (net & book & s1 & s2 & B0 & Ba & Tr & P1 & P2 & Q & _).
    { cbn. lia. }
    { reflexivity. }
    exists net, book, s1, s2. repeat (split; [assumption|]). rewrite B0. fold me in Q. split; [reflexivity|].
    cbn [coins st_amount st_fee d ex_pay] in Q. lia.
Qed.
