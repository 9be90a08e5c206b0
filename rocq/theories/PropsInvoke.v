(** Property theorem C103: calling a contract through a node. *)

From Coq Require Import Lia Strings.String.
From Verif Require Import Base BaseFacts Sha2 SpecText SpecAddr AddrFacts Hash C32 Clarity SpecWire WireFacts Tx SpecTx TxFacts TxThms Signer Builder Wallet SpecSign SignFacts AuthThms PlanThms
     SpecNode NodeThms SpecFlow FlowThms SpecCharge PropsCharge SpecCond CondThms PropsCond SpecLedger LedgerThms PropsLedger PropsSign PropsTx PropsClarity PropsClient
     Rpc SpecClient ClientThms Session SpecSession SessionThms SpecPay PropsPay SpecInvoke.
Local Open Scope N_scope.

(** A call from a key, as the builder and the signer make it. *)
Lemma called_wire E n sk k d : ecdsa_correct E -> valid_key sk -> sound_call d -> k < 2 ^ 64 ->
  exists wcs v h args sig, let w := signed_wire n (hash20 (pubkey_of E sk)) (cc_fee d) k (cc_anchor d) (cc_pcmode d) wcs
                           (WpCall v h (cc_contract d) (cc_fname d) args) sig in
    calls E (invocation n sk k d) (ser_tx w) /\ (forall e, calls E (invocation n sk k d) e -> e = ser_tx w) /\ wf_tx w /\ node_accepts E n (ser_tx w)
    /\ forall ms, run_stands w ms -> Forall (promised ms) (cc_conds d) /\ (cc_pcmode d = PcDeny -> Forall (fun m => Exists (about m) (cc_conds d)) ms).
Proof.
  intros C V (Al & (wcs & Cw) & (h & v & Ad & Lh) & Lc & Lf & (args & Ma & Sa & La) & Fe) K.
  assert (payload_means (PCall {| addr_hash := h; addr_version := v |} (cc_contract d) (cc_fname d) (cc_args d))
            (WpCall v h (cc_contract d) (cc_fname d) args)) as P by (repeat split; exact Ma).
  assert (wf_payload (WpCall v h (cc_contract d) (cc_fname d) args)) as W by (repeat split; assumption).
  destruct (unsigned_flow E n sk (cc_fee d) k (cc_anchor d) (cc_pcmode d) (cc_conds d) _ wcs _ C V Cw P W Fe K) as (s & s' & sig & Sn & Su & M & Wf & Ac & _).
  exists wcs, v, h, args, sig. cbv zeta. set (w := signed_wire _ _ _ _ _ _ _ _ _) in *.
  pose proof (built_call E (invocation n sk k d) h v Ad Lh Al) as B. cbn [invocation cc_network cc_sender cc_fee cc_nonce cc_anchor cc_pcmode cc_conds cc_contract cc_fname cc_args] in B.
  assert (enc_tx (sg_tx s') = Ok (ser_tx w)) as En.
  { apply tx_iff. exists w. split; [exact M|]. split; [|reflexivity]. split; [exact I | apply (wf_fits_body w Wf)]. }
  split; [|split; [|split; [exact Wf | split; [exact Ac|]]]].
  - eexists _, s, s'. split; [exact B|]. auto.
  - intros e (t & s1 & s1' & B1 & Sn1 & Su1 & En1). rewrite B in B1. injection B1 as <-. rewrite Sn in Sn1. injection Sn1 as <-.
    cbn [invocation cc_sender] in Su1. assert (s1' = s') as -> by (apply succeeds_all in Su, Su1; congruence). congruence.
  - intros ms R. destruct (C90_signed E n sk (cc_fee d) k (cc_anchor d) (cc_pcmode d) (cc_conds d) _ wcs _ C V Cw P W Fe K) as (s1 & s1' & e & Sn1 & Su1 & En1 & _ & Ex).
    rewrite Sn in Sn1. injection Sn1 as <-. assert (s1' = s') as -> by (apply succeeds_all in Su, Su1; congruence).
    rewrite En in En1. injection En1 as <-. apply (proj1 (Ex ms)); [exists w; auto | exact I].
Qed.

(** What a node that takes it makes of it. *)
Lemma called_ran E n sk k d e : ecdsa_correct E -> valid_key sk -> sound_call d -> k < 2 ^ 64 -> calls E (invocation n sk k d) e ->
  let me := key_account E n sk in
  forall L, (forall L', takes E n L e L' -> turn L me = k /\ ran d me L L')
    /\ (turn L me = k -> cc_fee d <= coins L me -> exists L', takes E n L e L' /\ only_fee d me L L').
Proof.
  intros C V D K Se me L. destruct (called_wire E n sk k d C V D K) as (wcs & v & h & args & sig & _ & U & W & Ac & R). cbv zeta in *.
  rewrite (U _ Se). clear U Se. set (w := signed_wire _ _ _ _ _ _ _ _ _) in *. split.
  - intros L' T. destruct (call_taken E n L _ w v h (cc_contract d) (cc_fname d) args L' eq_refl W eq_refl T) as (A & Tu & ms & S & F & Q).
    change (account_of n (worigin w)) with me in *. change (account_of n (wpayer w)) with me in *. change (fee_in (wpayer w)) with (cc_fee d) in *.
    destruct A as (_ & _ & _ & _ & [I1 _] & Fe). split; [symmetry; exact I1|]. split; [|split; [exact Fe|]].
    + intros who l Li. specialize (Q who). assert (stx_sent who ms <= l); [|lia].
      destruct S as [-> | S]; [cbn; lia|]. destruct (R ms S) as [R1 R2]. destruct Li as [addr who l c Ic Me Co|who De Si|v' h' Ne].
      * rewrite Forall_forall in R1. destruct (R1 _ Ic) as (who' & Me' & Na). rewrite (means_fun _ _ _ Me' Me) in Na.
        destruct Co as [<-|[<-|[<-|[]]]]; cbn [amount_named] in Na; lia.
      * specialize (R2 De). rewrite Forall_forall in R2.
        assert (forall m a, In (MStx a m) ms -> a <> who) as No.
        { intros m a Im ->. specialize (R2 _ Im). apply Exists_exists in R2. destruct R2 as (c & Ic & Ab). destruct c as [ad m' c'|ad m' c' i|ad tk c' i]; cbn [about] in Ab; try contradiction.
          exact (Si _ _ _ Ic Ab). }
        clear - No. enough (stx_sent who ms = 0) by lia. induction ms as [|[a m| |] ms IH]; cbn [stx_sent]; auto.
        { destruct (wval_dec a who) as [->|]; [exfalso; exact (No m who (or_introl eq_refl) eq_refl)|]. rewrite IH; [reflexivity|]. intros m' a' I. apply (No m'). right. exact I. }
        { apply IH. intros m' a' I. apply (No m'). right. exact I. }
        { apply IH. intros m' a' I. apply (No m'). right. exact I. }
      * rewrite none_sent; [lia|]. eapply Forall_impl; [|exact F]. cbn. intros m [X|X] Y; [congruence|]. rewrite Y in X. exact X.
    + intros x. rewrite Tu, advance_eq. change (account_of n (worigin w)) with me. change (account_of n (wpayer w)) with me. rewrite orb_diag. reflexivity.
  - intros Tn Fe. eexists. split.
    + apply (takes_nothing E n L (ser_tx w) w v h (cc_contract d) (cc_fname d) args); [|reflexivity]. destruct Ac as (w' & X & W' & Nn & Na).
      assert (w' = w) as -> by (symmetry; apply one_reading; assumption). split; [reflexivity|]. split; [exact W|]. split; [exact Nn|]. split; [exact Na|].
      split; [split; symmetry; exact Tn | exact Fe].
    + intros x. cbn [coins turn]. split.
      * unfold charged. exact (take_eq me (cc_fee d) (coins L) x Fe).
      * rewrite advance_eq. change (account_of n (worigin w)) with me. change (account_of n (wpayer w)) with me. rewrite orb_diag. reflexivity.
Qed.

(** One run of the program comes down to one request for the nonce and one with the bytes of a call. *)
Lemma invokes_iff {S H} E n (net : node S) url (a : account H) d s s' r : hd_correct E H -> ecdsa_correct E -> sound_call d ->
  exists sk addr, valid_key sk /\ account_private_key a = Ok sk /\ key_account E n sk = owner n a
  /\ address_text (hash20 (xpub_bytes H (acc_ext a))) (charged_version n x00) addr
  /\ (invokes E n net url a d s s' r <->
      exists s1 resp j info e o, net s (accounts_request url addr) = (s1, OOk resp) /\ rs_json resp = Some j /\ address_json j info
        /\ calls E (invocation n sk (ad_nonce info) d) e /\ net s1 (post_bytes (url ++ str "/v2/transactions"%string) e) = (s', o)
        /\ broadcast_result o r).
Proof.
  intros Hd C D. destruct (account_keys E a Hd) as (sk & Ks & V & _ & Pub).
  destruct (get_address a (single_version n)) as [addr| | |] eqn:G.
  2-4: exfalso; destruct (PropsClient.C49_address H a (single_version n)) as (x & G' & _); congruence.
  pose proof (proj1 (get_address_iff a _ _) G) as T.
  assert (address_code (single_version n) = charged_version n x00) as Cv by (destruct n; reflexivity). rewrite Cv in T.
  exists sk, addr. split; [exact V|]. split; [exact Ks|]. split; [unfold key_account, owner; rewrite Pub; reflexivity|]. split; [exact T|].
  split.
  - intros (addr' & sk' & info & s1 & t & t' & G' & K' & A & B & Si & Br). rewrite G in G'. injection G' as <-. rewrite Ks in K'. injection K' as <-.
    unfold address_in, exchange in A. change (address_request url addr) with (accounts_request url addr) in A.
    destruct (net s (accounts_request url addr)) as [s2 o2]. injection A as -> A. destruct o2 as [resp|c x|]; try discriminate A. cbn in A.
    unfold into_json in A. destruct (rs_json resp) as [j|] eqn:J; [|discriminate A]. cbn in A.
    destruct (parse_address j) as [i|] eqn:P; [|discriminate A]. injection A as ->. apply parse_address_iff in P.
    assert (ad_nonce info < 2 ^ 64) as No by apply P.
    apply tx_sign_succeeds in Si. destruct Si as (g & g' & Sn & Su & <-).
    assert (exists e, calls E (invocation n sk (ad_nonce info) d) e /\ enc_tx (sg_tx g') = Ok e) as (e & Se & En).
    { destruct (called_wire E n sk (ad_nonce info) d C V D No) as (wcs & v & h & args & sig & (t2 & g2 & g2' & B2 & Sn2 & Su2 & En2) & _).
      rewrite B in B2. injection B2 as <-. rewrite Sn in Sn2. injection Sn2 as <-. cbn [cc_sender invocation] in Su2.
      assert (g2' = g') as -> by (apply succeeds_all in Su, Su2; congruence). eexists. split; [|exact En2]. exists t, g, g'. auto. }
    pose proof En as En'. apply tx_iff in En'. destruct En' as (w & Mw & Fw & ->).
    apply (broadcast_in_iff net url _ w _ _ _ Mw Fw) in Br. destruct Br as (o & N3 & Br).
    exists s1, resp, j, info, (ser_tx w), o. auto 10.
  - intros (s1 & resp & j & info & e & o & A & J & P & (t & g & g' & B & Sn & Su & En) & N3 & Br). cbn [cc_sender invocation] in Su.
    exists addr, sk, info, s1, t, (sg_tx g'). split; [exact G|]. split; [exact Ks|]. split.
    { unfold address_in, exchange. change (address_request url addr) with (accounts_request url addr). rewrite A. cbn [json_answer]. f_equal.
      unfold into_json. rewrite J. cbn [io bind]. rewrite (proj2 (parse_address_iff j info) P). reflexivity. }
    split; [exact B|]. split; [apply tx_sign_succeeds; exists g, g'; auto|].
    apply tx_iff in En. destruct En as (w & Mw & Fw & ->). apply (broadcast_in_iff net url _ w _ _ _ Mw Fw). exists o. auto.
Qed.

(** Whatever contract is called and whatever the program is told: an id means that the fee is paid, once, and that nobody has lost more
    than the draft allows; a rejection that nothing has happened; an error one or the other. *)
Theorem C103_bounded : forall S H E n (net : node S) book url (a : account H) d s s' r, hd_correct E H -> ecdsa_correct E -> sound_call d ->
  banking E n net book -> truthful net book url -> invokes E n net url a d s s' r ->
  let done := ran d (owner n a) (book s) (book s') in
  match r with
  | Ok (BcOk _) => done
  | Ok (BcErr _) => book s' = book s
  | _ => done \/ book s' = book s
  end.
Proof.
  intros S H E n net book url a d s s' r Hd C D Ba Tr P done.
  destruct (invokes_iff E n net url a d s s' r Hd C D) as (sk & addr & V & _ & Me & T & I). apply (proj1 I) in P. clear I.
  destruct P as (s1 & resp & j & info & e & o & N1 & J & A & Se & N2 & Br).
  pose proof (Ba s (accounts_request url addr)) as B1. rewrite N1 in B1. cbn [fst snd rq_body accounts_request get] in B1.
  assert (ad_nonce info = turn (book s) (owner n a)) as No by (apply (Tr s _ _ addr resp j info T); [rewrite N1; reflexivity | exact J | exact A]).
  pose proof (called_ran E n sk (ad_nonce info) d e C V D (proj2 (proj2 A)) Se) as R. cbv zeta in R. rewrite Me in R.
  assert (takes E n (book s1) e (book s') -> done) as K by (intros X; pose proof (proj2 (proj1 (R (book s1)) _ X)) as Y; rewrite B1 in Y; exact Y).
  pose proof (Ba s1 (post_bytes (url ++ str "/v2/transactions"%string) e)) as B2. rewrite N2 in B2. cbn [fst snd rq_body post_bytes] in B2.
  destruct o as [x|c x|]; cbn [broadcast_result] in Br.
  - assert (done) as Dn.
    { destruct B2 as [B2|[(L0 & L1 & T0 & La) _]]; [exact (K B2)|]. exfalso.
      destruct (proj1 (R L0) L1 T0) as (T2 & _ & _ & T1). specialize (T1 (owner n a)). rewrite (same_true _ _ eq_refl) in T1. cbn [when] in T1.
      destruct La as (es & La). pose proof (takes_all_mono E n es L1 (book s1) (owner n a) La) as Mo. rewrite B1 in Mo. lia. }
    unfold read_text in Br. destruct (rs_text x); subst r; auto.
  - rewrite B1 in B2. unfold read_as in Br. destruct Br as [(j' & ? & ? & ? & ->)|[_ ->]]; auto.
  - subst r. destruct B2 as [B2|B2]; [left; exact (K B2) | right; congruence].
Qed.
Print Assumptions C103_bounded.

(** With a node that answers and the fee on the account, the program gets an id; nothing but the fee is needed. *)
Theorem C103_succeeds : forall S H E n (net : node S) book url (a : account H) d s, hd_correct E H -> ecdsa_correct E -> sound_call d ->
  banking E n net book -> truthful net book url -> prompt E n net book url (outcome_of_call E n a d) ->
  cc_fee d <= coins (book s) (owner n a) -> turn (book s) (owner n a) < 2 ^ 64 ->
  exists s' id, invokes E n net url a d s s' (Ok (BcOk id)) /\ ran d (owner n a) (book s) (book s').
Proof.
  intros S H E n net book url a d s Hd C D Ba Tr [Pr1 Pr2] Mo No.
  assert (exists s' id, invokes E n net url a d s s' (Ok (BcOk id))) as (s' & id & P);
    [|exists s', id; split; [exact P | exact (C103_bounded S H E n net book url a d s s' _ Hd C D Ba Tr P)]].
  destruct (invokes_iff E n net url a d s s (Ok (BcOk [])) Hd C D) as (sk & addr & V & K & Me & T & _).
  destruct (Pr1 s _ _ addr T No) as (resp & j & info & N1 & J & A).
  assert (ad_nonce info = turn (book s) (owner n a)) as Nn by (apply (Tr s _ _ addr resp j info T); assumption).
  pose proof (Ba s (accounts_request url addr)) as B1. rewrite N1 in B1. cbn [rq_body accounts_request get] in B1.
  destruct (net s (accounts_request url addr)) as [s1 o1] eqn:N. cbn [fst snd] in B1, N1. subst o1.
  destruct (called_wire E n sk (ad_nonce info) d C V D (proj2 (proj2 A))) as (wcs & v & h & args & sig & Se & _).
  pose proof (called_ran E n sk (ad_nonce info) d _ C V D (proj2 (proj2 A)) Se) as R. cbv zeta in R. rewrite Me in R. set (e := ser_tx _) in *.
  destruct (proj2 (R (book s1))) as [L [Tk _]]; [rewrite B1; symmetry; exact Nn | rewrite B1; exact Mo|].
  destruct (Pr2 s1 e L (ex_intro _ sk (ex_intro _ _ (conj K (conj (proj2 (proj2 A)) Se)))) Tk) as (r & id & N2 & Tx).
  destruct (net s1 (post_bytes (url ++ str "/v2/transactions"%string) e)) as [s' o] eqn:N'. cbn [snd] in N2. subst o.
  exists s', id. destruct (invokes_iff E n net url a d s s' (Ok (BcOk id)) Hd C D) as (sk' & addr' & _ & K' & _ & T' & I).
  rewrite K in K'. injection K' as <-. assert (addr' = addr) as -> by (eapply address_text_unique; eassumption).
  apply (proj2 I). exists s1, resp, j, info, e, (OOk r). repeat split; try assumption; try apply A. cbn [broadcast_result]. unfold read_text. rewrite Tx. reflexivity.
Qed.
Print Assumptions C103_succeeds.

(** Without the fee nothing happens, and no id is returned. *)
Theorem C103_poor : forall S H E n (net : node S) book url (a : account H) d s s' r, hd_correct E H -> ecdsa_correct E -> sound_call d ->
  banking E n net book -> truthful net book url -> invokes E n net url a d s s' r -> coins (book s) (owner n a) < cc_fee d ->
  book s' = book s /\ forall id, r <> Ok (BcOk id).
Proof.
  intros S H E n net book url a d s s' r Hd C D Ba Tr P U. pose proof (C103_bounded S H E n net book url a d s s' r Hd C D Ba Tr P) as Q. cbv zeta in Q.
  assert (~ ran d (owner n a) (book s) (book s')) as No by (intros (_ & X & _); lia).
  destruct r as [[id|x]|e|p|]; [contradiction | split; [exact Q | discriminate]|..]; (destruct Q as [Q|Q]; [contradiction|]; split; [exact Q | discriminate]).
Qed.
Print Assumptions C103_poor.

(** Finding: an id does not mean that the call has done anything.  For every call there are nodes that return one and keep the fee, and
    nothing else has happened; they answer like any other. *)
Theorem C103_effect_refuted : forall H E n url (a : account H) d k, hd_correct E H -> ecdsa_correct E -> sound_call d ->
  let me := owner n a in 0 < cc_fee d -> k + 1 < 2 ^ 64 ->
  exists (net : node nat) book s id, banking E n net book /\ truthful net book url /\ prompt E n net book url (outcome_of_call E n a d)
    /\ invokes E n net url a d O s (Ok (BcOk id)) /\ coins (book O) me = cc_fee d /\ only_fee d me (book O) (book s).
Proof.
  intros H E n url a d k Hd C D me Fe No. set (L := {| coins := fun _ => cc_fee d; turn := fun _ => k |}).
  destruct (invokes_iff E n (fun (i : nat) _ => (i, OTransport)) url a d O O (Ok (BcOk [])) Hd C D) as (sk & addr & V & Ks & Me & T & _). fold me in Me.
  assert (k < 2 ^ 64) as Kk by lia. destruct (called_wire E n sk k d C V D Kk) as (wcs & v & h & args & sig & Se1 & U1 & _). cbv zeta in *. set (e1 := ser_tx _) in *. clearbody e1.
  pose proof (called_ran E n sk k d e1 C V D Kk Se1) as R1. cbv zeta in R1. rewrite Me in R1.
  destruct (proj2 (R1 L)) as (L1 & T1 & Q); [reflexivity | cbn; lia|]. destruct (Q me) as [Q1 Q1'].
  rewrite (same_true me me eq_refl) in Q1, Q1'. cbn [when coins turn L] in Q1, Q1'.
  set (book := fun i : nat => match i with O => L | _ => L1 end). set (net := till url addr e1 k).
  assert (forall i h v x, address_text h v x -> net i (accounts_request url x) = (i, OOk (report (turn (book i) (WStd v h))))) as Na.
  { intros i h' v' x Tx. unfold net, till, accounts_request, get. cbn [rq_body rq_url].
    destruct (list_eq_dec Byte.byte_eq_dec x addr) as [->|Nx].
    - destruct (list_eq_dec _ _ _); [|contradiction]. destruct (address_text_determines _ _ _ _ _ T Tx) as [Eh Ev]. rewrite <- Eh, <- Ev. fold (owner n a). fold me.
      destruct i; cbn [book]; [reflexivity | rewrite Q1'; reflexivity].
    - destruct (list_eq_dec _ _ _) as [X|_]; [apply app_inv_head, app_inv_head in X; contradiction|].
      f_equal. f_equal. f_equal. destruct i; [reflexivity|]. cbn [book]. destruct (Q (WStd v' h')) as [_ ->].
      rewrite (same_false (WStd v' h') me); [cbn; lia|]. intros X. apply Nx. injection X as -> ->. eapply address_text_unique; eassumption. }
  assert (banking E n net book) as Ba.
  { intros i q. unfold net, till. destruct (rq_body q) as [|b|j]; try (destruct (list_eq_dec _ _ _); reflexivity).
    destruct i as [|i]; [destruct (list_eq_dec _ _ _) as [->|]|]; cbn [fst snd]; auto. }
  assert (truthful net book url) as Tr.
  { intros i h' v' x r j info Tx O J A. rewrite (Na i h' v' x Tx) in O. cbn [snd] in O. injection O as <-. cbn [rs_json report] in J. injection J as <-.
    assert (turn (book i) (WStd v' h') < 2 ^ 64 \/ 2 ^ 64 <= turn (book i) (WStd v' h')) as [B|B] by lia.
    + pose proof (iff_fun _ _ parse_address_iff _ _ _ A (report_json _ B)) as ->. reflexivity.
    + exfalso. destruct A as [[(l & X & _)|[X _]] [_ B']]; [discriminate X|]. injection X as _ _ X. unfold number in X. lia. }
  assert (prompt E n net book url (outcome_of_call E n a d)) as Pr.
  { split.
    - intros i h' v' x Tx B. rewrite (Na i h' v' x Tx). eexists _, _, _. split; [reflexivity|]. split; [reflexivity|]. apply report_json. exact B.
    - intros i b M (sk' & j & K & J & Se) Tk. rewrite Ks in K. injection K as <-.
      pose proof (called_ran E n sk j d b C V D J Se (book i)) as [X _]. rewrite Me in X. destruct (X M Tk) as (X1 & _ & X2 & _).
      destruct i as [|i]; cbn [book L coins turn] in X1, X2; [|exfalso; lia].
      subst j. assert (b = e1) as -> by (apply U1; exact Se). unfold net, till, post_bytes. cbn [rq_body].
      destruct (list_eq_dec _ _ _); [|contradiction]. eexists _, _. split; reflexivity. }
  exists net, book, 1%nat, (str "txid"%string). split; [exact Ba|]. split; [exact Tr|]. split; [exact Pr|]. split; [|split; [reflexivity | exact Q]].
  destruct (invokes_iff E n net url a d O 1%nat (Ok (BcOk (str "txid"%string))) Hd C D) as (sk' & addr' & _ & K' & _ & T' & I).
  rewrite Ks in K'. injection K' as <-. assert (addr' = addr) as -> by (eapply address_text_unique; eassumption).
  apply (proj2 I). eexists O, _, _, _, e1, (OOk {| rs_text := Some (str "txid"%string); rs_json := None |}). split; [apply (Na O _ _ _ T)|]. split; [reflexivity|].
  split; [apply report_json; exact Kk|]. split; [exact Se1|]. split; [|reflexivity].
  unfold net, till, post_bytes. cbn [rq_body]. destruct (list_eq_dec _ _ _); [reflexivity | contradiction].
Qed.
Print Assumptions C103_effect_refuted.

(** A call with fee 9 in mode Deny, that lets someone else's account lose at most 5 and the caller's nothing. *)
Definition ex_draft_call : stx_call :=
  {| cc_address := sample_addr; cc_contract := str "abc"%string; cc_fname := str "f"%string; cc_args := [CTrue]; cc_sender := []; cc_network := NetTestnet;
     cc_fee := 9; cc_nonce := 0; cc_anchor := AnStrict; cc_pcmode := PcDeny; cc_conds := guard; cc_sponsored := false |}.
Lemma ex_draft_call_sound : sound_call ex_draft_call.
Proof.
  split; [reflexivity|]. split; [exists wguard; exact guard_wire|]. split; [exists key_hash, x16; split; [exact ex_principal | reflexivity]|].
  split; [vm_compute; discriminate|]. split; [vm_compute; discriminate|]. split; [|reflexivity].
  exists [WTrue]. split; [constructor; [exact I | constructor]|]. split; [constructor; [repeat split | constructor] | reflexivity].
Qed.
Example C103_ex : let me := owner NetTestnet toy_account in forall url,
  limited ex_draft_call me me 0 /\ limited ex_draft_call me (WStd x16 key_hash) 5 /\ limited ex_draft_call me (WStd x15 key_hash) 0
  /\ exists (net : node nat) book s id, banking toy NetTestnet net book /\ truthful net book url
     /\ invokes toy NetTestnet net url toy_account ex_draft_call O s (Ok (BcOk id)) /\ coins (book O) me = 9 /\ coins (book s) me = 0
     /\ forall s' r, invokes toy NetTestnet net url toy_account ex_draft_call s s' r -> book s' = book s.
Proof.
  intros me url. pose proof ex_stranger as Ne. fold me in Ne. split; [|split; [|split]].
  - apply limited_silence; [reflexivity|]. intros addr k c [X|[]] M. injection X as <- _ _. apply Ne. exact (means_fun _ _ _ ex_principal M).
  - eapply limited_condition; [left; reflexivity | exact ex_principal | right; right; left; reflexivity].
  - apply limited_stranger. unfold me, owner. cbn [charged_version]. discriminate.
  - destruct (C103_effect_refuted toy_hd toy NetTestnet url toy_account ex_draft_call 4 toy_hd_correct toy_correct ex_draft_call_sound eq_refl eq_refl)
      as (net & book & s & id & Ba & Tr & _ & P & B & Q). fold me in B, Q. destruct (Q me) as [Q1 _]. rewrite (same_true me me eq_refl), B in Q1. cbn [when] in Q1.
    assert (coins (book s) me = 0) as Z by lia. exists net, book, s, id. repeat (split; [assumption|]). intros s' r P'.
    apply (C103_poor nat toy_hd toy NetTestnet net book url toy_account ex_draft_call s s' r toy_hd_correct toy_correct ex_draft_call_sound Ba Tr P').
    change (coins (book s) me < 9). lia.
Qed.
