(** Property theorem C115: programs that pay as long as their budget lasts. *)

From Coq Require Import Lia Strings.String.
From Verif Require Import Base BaseFacts Sha2 HashFacts SpecText SpecAddr AddrFacts Hash C32 Clarity ClarityFacts SpecWire WireFacts Tx SpecTx LengthThms TxFacts TxThms Signer Builder Wallet SpecSign SignFacts SignThms AuthThms PlanThms
     SpecNode NodeThms PropsNode SpecCharge PropsCharge SpecCond CondThms PropsCond SpecLedger LedgerThms PropsLedger PropsSign PropsTx PropsClarity PropsClient SpecFlow FlowThms SpecShare PropsShare SpecLoss PropsLoss
     Rpc SpecClient ClientThms Session SpecPay PropsPay SpecSecret PropsSecret PropsSponsor HistThms SpecFavour PropsFavour SpecBill PropsBill SpecRun PropsRun SpecBudget.
Local Open Scope N_scope.

Lemma run_after S A B W (net : node S) (p : program A) (f : A -> program B) s :
  run W net (after p f) s = (let '(s1, a) := run W net p s in run W net (f a) s1)
  /\ requests W net (after p f) s = requests W net p s ++ (let '(s1, a) := run W net p s in requests W net (f a) s1).
Proof.
  revert s. induction p as [x|i v k IH|i k IH|i d k IH|i d k IH|i h typ fee nonce k IH|i t k IH|i g k IH|i g k IH|t c k IH|a h k IH|t k IH|url c k IH]; intros s; cbn [after run requests];
    try apply IH.
  - split; reflexivity.
  - destruct (IH (next_signature (wd_ecdsa W) h typ fee nonce (secret W i)) s) as [-> ->]. split; reflexivity.
  - destruct (IH (tx_sign (wd_ecdsa W) t (secret W i)) s) as [-> ->]. split; reflexivity.
  - destruct (IH (sign_origin (wd_ecdsa W) g (secret W i)) s) as [-> ->]. split; reflexivity.
  - destruct (IH (sign_sponsor (wd_ecdsa W) g (secret W i)) s) as [-> ->]. split; [reflexivity | apply app_assoc].
  - destruct (make_call net url c s) as [s1 x]. apply IH.
Qed.

(** One order for each nonce: none twice. *)
Lemma order_later k l b : in_order k l -> In b l -> k <= nonce_of (origin_of (fst b)).
Proof.
  revert k. induction l as [|c l IH]; intros k O I; [destruct I|]. destruct O as [On O]. destruct I as [->|I]; [lia|]. specialize (IH _ O I). lia.
Qed.
Lemma order_nodup k l : in_order k l -> NoDup l.
Proof.
  revert k. induction l as [|b l IH]; intros k O; [constructor|]. destruct O as [On O]. constructor; [|exact (IH _ O)].
  intros I. pose proof (order_later _ _ _ O I). lia.
Qed.
Lemma total_app l r : total (l ++ r) = total l + total r.
Proof. induction l as [|b l IH]; cbn [app total fold_right]; [reflexivity|]. fold (total (l ++ r)). rewrite IH. unfold total. lia. Qed.
Lemma total_incl l r : NoDup l -> incl l r -> total l <= total r.
Proof.
  intros D. revert r. induction D as [|b l N D IH]; intros r I; [cbn; lia|].
  destruct (in_split b r (I b (or_introl eq_refl))) as (r1 & r2 & ->). specialize (IH (r1 ++ r2)).
  assert (incl l (r1 ++ r2)) as J.
  { intros x Ix. specialize (I x (or_intror Ix)). apply in_app_iff in I. apply in_app_iff. destruct I as [I|[->|I]]; auto. contradiction. }
  specialize (IH J). rewrite total_app in *. cbn [total fold_right]. fold (total l) (total r2). lia.
Qed.

(** What the program of C101 asks for. *)
Lemma paying_asks S W (net : node S) url s i n d to : sound_draft d to ->
  exists bs, requests W net (paying n url i d) s = map (fun b => (i, SignsTx (fst b))) bs
    /\ Forall (sound_bill (key_account (wd_ecdsa W) n (secret W i))) bs /\ total bs <= st_amount d + st_fee d.
Proof.
  intros D. set (me := key_account _ _ _).
  assert (exists bs : list bill, [] = map (fun b => (i, SignsTx (fst b))) bs /\ Forall (sound_bill me) bs /\ total bs <= st_amount d + st_fee d) as Z
    by (exists []; cbn; repeat split; [constructor | lia]).
  unfold paying. cbn [requests]. destruct (get_address (wd_account W i) (single_version n)) as [addr| | |]; cbn [requests]; try exact Z.
  cbn [make_call]. destruct (address_in net url addr s) as [s1 a] eqn:A. unfold answer_with. cbn [fst snd]. destruct a as [info| | |]; cbn [requests]; try exact Z.
  change (transfer_from (secret W i) (payment n [] (ad_nonce info) d)) with (payment n (secret W i) (ad_nonce info) d).
  destruct (@build_transfer unit (wd_ecdsa W) (payment n (secret W i) (ad_nonce info) d)) as [t| | |] eqn:B; cbn [requests]; try exact Z.
  exists [(t, st_amount d + st_fee d)]. split; [|split; [|cbn; lia]].
  - destruct (tx_sign (wd_ecdsa W) t (secret W i)) as [u| | |]; cbn [requests]; reflexivity.
  - constructor; [|constructor]. apply (payment_bill _ _ _ (ad_nonce info) _ to); [exact D| |exact B]. clear - A.
    unfold address_in, exchange in A. destruct (net s _) as [s2 o2]. injection A as _ A. destruct o2 as [resp|c x|]; try discriminate A. cbn in A.
    unfold into_json in A. destruct (rs_json resp) as [j|] eqn:J; [|discriminate A]. cbn in A.
    destruct (parse_address j) as [a|] eqn:P; [|discriminate A]. injection A as ->. apply parse_address_iff in P. apply P.
Qed.

(** A payer that goes by a budget keeps it, whatever it is told and whenever what it sent is taken: it asks for signatures of
    transactions that take no more in all, and loses no more. *)
Theorem C115_budget : forall S W (net : node S) i n b q s, within b q -> let me := key_account (wd_ecdsa W) n (secret W i) in
  let rs := requests W net (payer (fun url d => paying n url i d) q) s in
  exists bs : list bill, rs = map (fun c => (i, SignsTx (fst c))) bs /\ Forall (sound_bill me) bs /\ total bs <= b
    /\ forall es L M, takes_all (wd_ecdsa W) n L es M -> from_run W i rs es ->
       coins L me <= coins M me + b /\ turn M me <= turn L me + count bs \/ coincidence (wd_ecdsa W) (secret W i) bs es.
Proof.
  intros S W net i n b q s Wi me rs.
  assert (exists bs : list bill, rs = map (fun c => (i, SignsTx (fst c))) bs /\ Forall (sound_bill me) bs /\ total bs <= b) as (bs & Rs & So & Le).
  { subst rs. revert b s Wi. induction q as [|url d next IH]; cbn [within payer requests]; intros b s Wi.
    - exists []. cbn. repeat split; [constructor | lia].
    - destruct Wi as ([to D] & Bd & Wi). destruct (run_after S _ _ W net (paying n url i d) (fun x => payer (fun url d => paying n url i d) (next x)) s) as [_ ->].
      destruct (paying_asks S W net url s i n d to D) as (b1 & -> & S1 & T1). fold me in S1. destruct (run W net (paying n url i d) s) as [s1 a].
      destruct (IH a _ s1 (Wi a)) as (b2 & -> & S2 & T2). exists (b1 ++ b2). rewrite map_app, total_app. split; [reflexivity|]. split; [apply Forall_app; auto | lia]. }
  exists bs. split; [exact Rs|]. split; [exact So|]. split; [exact Le|]. intros es L M T Fr.
  assert (asks_for i bs rs) as Af. { intros r I. rewrite Rs in I. apply in_map_iff in I. destruct I as (c & X & Ib). injection X as <-. exists c. auto. }
  destruct (C114_loss S _ W net (payer (fun url d => paying n url i d) q) s i n bs es L M So Af T Fr) as [(l & Il & Or & Tu & Co)|X]; [|right; exact X].
  left. fold me in Or, Tu, Co. pose proof (order_nodup _ _ Or) as Nd. pose proof (total_incl _ _ Nd Il). pose proof (NoDup_incl_length Nd Il) as Ln. unfold count in *. lia.
Qed.
Print Assumptions C115_budget.

(** A payer of 1000 that, when it hears nothing good of its first payment, pays again, up to 2018: it asks for two signatures of a node that reports nonce 0
    and refuses, and one of the two transactions is taken. *)
Definition again (d : stx_transfer) : plans := Pay [] d (fun x => match x with [_; AnsBroadcast (Ok (BcOk _))] => Done | _ => Pay [] d (fun _ => Done) end).
Definition liar : node unit := fun s q => (s, match rq_body q with BNone => OOk (report 0) | _ => OTransport end).
Definition ex_tx : tx := unsigned NetTestnet (pubkey_of toy (toy_sk 6)) 9 0 AnAny PcDeny [] (PTransfer (CPrinStd sample_addr) 1000 (str "hi"%string)).
Lemma ex_built : @build_transfer unit (wd_ecdsa toy_world) (transfer_from (secret toy_world 6) (payment NetTestnet [] 0 (ex_pay 0 1000))) = Ok ex_tx.
Proof. rewrite build_transfer_cases. reflexivity. Qed.
Lemma ex_told addr s : exists info, address_in liar [] addr s = (s, Ok info) /\ ad_nonce info = 0.
Proof.
  pose proof (proj2 (parse_address_iff _ _) (report_json 0 eq_refl)) as P.
  eexists. split; [|shelve]. unfold address_in, exchange. change (address_request [] addr) with (accounts_request [] addr). unfold liar, accounts_request, get. cbn [rq_body].
  f_equal. unfold json_answer, into_json, report. cbn [rs_json io bind]. rewrite P. reflexivity.
  Unshelve. reflexivity.
Qed.
Lemma ex_unheard u s : exists r, make_call liar [] (CallBroadcast u) s = (s, AnsBroadcast r) /\ forall id, r <> Ok (BcOk id).
Proof.
  cbn [make_call]. unfold broadcast_in, broadcast_request, exchange, answer_with. destruct (enc_tx u) as [b| | |]; cbn [map_err bind liar rq_body fst snd];
    (eexists; split; [reflexivity | discriminate]).
Qed.
Lemma paying_unheard S W (net : node S) url s i n d addr info t : get_address (wd_account W i) (single_version n) = Ok addr -> address_in net url addr s = (s, Ok info) ->
  @build_transfer unit (wd_ecdsa W) (transfer_from (secret W i) (payment n [] (ad_nonce info) d)) = Ok t ->
  (forall u, exists r, make_call net url (CallBroadcast u) s = (s, AnsBroadcast r) /\ forall id, r <> Ok (BcOk id)) ->
  exists x, run W net (paying n url i d) s = (s, x) /\ (forall y id, x <> [y; AnsBroadcast (Ok (BcOk id))]) /\ requests W net (paying n url i d) s = [(i, SignsTx t)].
Proof.
  intros G A B Br. unfold paying. cbn [run requests]. rewrite G. cbn [run requests make_call]. rewrite A. unfold answer_with. cbn [fst snd run requests]. rewrite B.
  cbn [run requests]. destruct (tx_sign (wd_ecdsa W) t (secret W i)) as [u| | |]; cbn [run requests].
  2-4: eexists; split; [reflexivity|]; split; [discriminate | reflexivity].
  destruct (Br u) as (r & -> & Nr). cbn [run requests]. eexists. split; [reflexivity|]. split; [|reflexivity]. intros y id X. injection X as _ X. exact (Nr _ X).
Qed.
Lemma ex_first : exists x, run toy_world liar (paying NetTestnet [] 6 (ex_pay 0 1000)) tt = (tt, x) /\ (forall y id, x <> [y; AnsBroadcast (Ok (BcOk id))])
    /\ requests toy_world liar (paying NetTestnet [] 6 (ex_pay 0 1000)) tt = [(6, SignsTx ex_tx)].
Proof.
  destruct (PropsClient.C49_address (wd_hd toy_world) (wd_account toy_world 6) (single_version NetTestnet)) as (addr & G & _).
  destruct (ex_told addr tt) as (info & A & Z). apply (paying_unheard unit toy_world liar [] tt 6 NetTestnet (ex_pay 0 1000) addr info ex_tx G A); [rewrite Z; exact ex_built | intros u; exact (ex_unheard u tt)].
Qed.
Lemma payer_twice S W (net : node S) s i n d t x : run W net (paying n [] i d) s = (s, x) -> (forall y id, x <> [y; AnsBroadcast (Ok (BcOk id))]) ->
  requests W net (paying n [] i d) s = [(i, SignsTx t)] ->
  requests W net (payer (fun url d => paying n url i d) (again d)) s = [(i, SignsTx t); (i, SignsTx t)].
Proof.
  intros R N Q. unfold again. cbn [payer]. destruct (run_after S _ _ W net (paying n [] i d)
    (fun x => payer (fun url d => paying n url i d) (match x with [_; AnsBroadcast (Ok (BcOk _))] => Done | _ => Pay [] d (fun _ => Done) end)) s) as [_ ->].
  rewrite R, Q. cbn [app]. f_equal.
  replace (match x with [_; AnsBroadcast (Ok (BcOk _))] => Done | _ => Pay [] d (fun _ => Done) end) with (Pay [] d (fun _ => Done)).
  - cbn [payer]. destruct (run_after S _ _ W net (paying n [] i d) (fun _ => Return tt) s) as [_ ->]. rewrite Q, R. reflexivity.
  - repeat (match goal with |- _ = match ?y with _ => _ end => destruct y end; try reflexivity). exfalso. eapply N. reflexivity.
Qed.
Lemma ex_twice : requests toy_world liar (payer (fun url d => paying NetTestnet url 6 d) (again (ex_pay 0 1000))) tt = [(6, SignsTx ex_tx); (6, SignsTx ex_tx)].
Proof. destruct ex_first as (x & R & N & Q). exact (payer_twice unit toy_world liar tt 6 NetTestnet (ex_pay 0 1000) ex_tx x R N Q). Qed.
Example C115_ex : let me := key_account toy NetTestnet (toy_sk 6) in within 2018 (again (ex_pay 0 1000))
  /\ let rs := requests toy_world liar (payer (fun url d => paying NetTestnet url 6 d) (again (ex_pay 0 1000))) tt in
     (exists t, rs = [(6, SignsTx t); (6, SignsTx t)])
     /\ exists e L M, takes_all toy NetTestnet L [e] M /\ from_run toy_world 6 rs [e] /\ coins M me + 1009 = coins L me.
Proof.
  intros me. split.
  { assert (exists to, sound_draft (ex_pay 0 1000) to) as D by (eexists; exact (ex_draft 1000 eq_refl)).
    cbn [again within]. split; [exact D|]. split; [cbn; lia|]. intros x.
    assert (within (2018 - (1000 + 9)) (Pay [] (ex_pay 0 1000) (fun _ => Done))) as X by (cbn [within]; split; [exact D|]; split; [cbn; lia | auto]).
    cbn [ex_pay st_amount st_fee]. repeat (match goal with |- within _ (match ?y with _ => _ end) => destruct y end; try exact X; try exact I). }
  cbv zeta. rewrite ex_twice. split; [exists ex_tx; reflexivity|]. destruct C113_ex as (_ & e & L & M & _ & T & On & Co). fold ex_tx in On. fold me in Co.
  exists e, L, M. split; [exact T|]. split; [|exact Co]. intros w typ h mode signer nonce fee sig I W Sp Re.
  destruct (On w typ h mode signer nonce fee sig I W Sp Re) as (b & y & [<-|[]] & (v & Mv & _ & X) & D). exists (SignsTx ex_tx), y. split; [left; reflexivity|]. split; [exists v; auto | exact D].
Qed.
