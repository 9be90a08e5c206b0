(** Property theorems C68: what a node asks of names and values that the library leaves unchecked. *)

From Coq Require Import Strings.String.
From Coq Require Import Lia ZifyBool ZifyNat ZifyN.
From Verif Require Import Base BaseFacts Sha2 SpecText SpecAddr Hash C32 Clarity SpecWire Tx SpecTx Signer Builder
     WireFacts ClarityFacts TxWire TxFacts TxThms SpecSign SignFacts SignThms AuthThms
     Wallet SpecClient PropsClarity PropsTx PropsSign PropsClient SpecNode NodeThms SpecFlow FlowThms SpecAdmit.
Local Open Scope N_scope.

(** ** C68 *)
(** A transaction is admitted iff it is accepted and what it says satisfies the rules for names and values. *)
Theorem C68_exact : forall E n t w e, tx_means t w -> wf_tx w -> enc_tx t = Ok e ->
  (node_admits E n e <-> node_accepts E n e /\ admit_tx w).
Proof.
  intros E n t w e M W En. destruct (enc_means t w e M En) as [F ->]. split.
  - intros (v & X & V & N & A & Ad). destruct (tx_prefix w v [] []) as [<- _]; auto. { rewrite !app_nil_r. exact X. }
    split; [exists w; auto | exact Ad].
  - intros [(v & X & V & N & A) Ad]. destruct (tx_prefix w v [] []) as [<- _]; auto. { rewrite !app_nil_r. exact X. }
    exists w. auto.
Qed.
Print Assumptions C68_exact.

(** What is built and signed for given conditions and payload is accepted, and is admitted iff they satisfy the rules. *)
Theorem C68_signed : forall E n sk fee nonce anchor mode conds p wcs wp, ecdsa_correct E -> valid_key sk -> conds_wire conds wcs ->
  payload_means p wp -> wf_payload wp -> fee < 2 ^ 64 -> nonce < 2 ^ 64 ->
  exists s s' e, signer_new (unsigned n (pubkey_of E sk) fee nonce anchor mode conds p) = Ok s /\ succeeds E s [SignOrigin sk] s'
    /\ enc_tx (sg_tx s') = Ok e /\ node_accepts E n e /\ (node_admits E n e <-> Forall admit_cond wcs /\ admit_payload wp).
Proof.
  intros E n sk fee nonce anchor mode conds p wcs wp C V Cw P Wp Fe No.
  destruct (unsigned_flow E n sk fee nonce anchor mode conds p wcs wp C V Cw P Wp Fe No) as (s & s' & sig & Sn & Su & M & W & A & _).
  cbv zeta in *. set (w := signed_wire _ _ _ _ _ _ _ _ _) in *.
  assert (enc_tx (sg_tx s') = Ok (ser_tx w)) as En. { apply tx_iff. exists w. split; [exact M|]. split; [|reflexivity]. split; [exact I | apply (wf_fits_body w W)]. }
  exists s, s', (ser_tx w). repeat (split; [assumption|]). rewrite (C68_exact E n _ w _ M W En). unfold admit_tx. cbn [w w_conds w_payload signed_wire]. tauto.
Qed.
Print Assumptions C68_signed.

(** Every rule for names is unchecked: any text of at most 128 bytes is encoded, wherever a name is expected. *)
Theorem C68_any_name : forall s, count s <= 128 ->
  (exists e, encode (CPrinCon sample_addr s) = Ok e) /\ (forall v e, encode v = Ok e -> exists e', encode (CTuple [(s, v)]) = Ok e')
  /\ (forall ad, exists e, enc_payload (PCall ad s s []) = Ok e)
  /\ exists e, enc_asset {| ai_addr := sample_addr; ai_contract := s; ai_asset := s |} = Ok e.
Proof.
  intros s L. split; [|split; [|split]].
  - eexists. apply encode_iff. exists (WCon x16 key_hash s). split; [exact (conj ex_principal eq_refl)|]. split; [|reflexivity].
    cbn. auto.
  - intros v e X. apply encode_iff in X. destruct X as (w & M & F & ->). eexists. apply encode_iff. exists (WTuple [(s, w)]).
    split; [cbn; auto|]. split; [|reflexivity]. cbn [wall fits1 every fst snd]. repeat split; auto; reflexivity.
  - intros ad. eexists. apply payload_iff. exists (WpCall (addr_version ad) (addr_hash ad) s s []). split; [cbn; auto|].
    split; [|reflexivity]. cbn. repeat split; auto.
  - eexists. apply asset_iff. exists {| wa_ver := x16; wa_hash := key_hash; wa_contract := s; wa_name := s |}.
    split; [exact (conj ex_principal (conj eq_refl eq_refl))|]. split; [split; exact L | reflexivity].
Qed.
Print Assumptions C68_any_name.

(** Finding: none of the rules is checked.  Each of these is built, signed and accepted, yet not admitted. *)
Definition unadmitted (conds : list condition) (p : payload) : Prop :=
  exists s s' e, signer_new (unsigned NetTestnet (pubkey_of toy (toy_sk 6)) 9 1 AnAny PcDeny conds p) = Ok s
    /\ succeeds toy s [SignOrigin (toy_sk 6)] s' /\ enc_tx (sg_tx s') = Ok e
    /\ node_accepts toy NetTestnet e /\ ~ node_admits toy NetTestnet e.

Definition plain_call (contract fname : bytes) (args : list cval) : payload := PCall ex_address contract fname args.
Definition plain_wcall (contract fname : bytes) (args : list wval) : wpayload := WpCall x1a key_hash contract fname args.
Definition ex_transfer : payload := PTransfer (CPrinStd sample_addr) 1000 (str "hi").
Definition ex_wtransfer : wpayload := WpTransfer (WStd x16 key_hash) 1000 (str "hi" ++ repeat x00 32).
Definition odd_asset : asset_info := {| ai_addr := sample_addr; ai_contract := str "tok"; ai_asset := str "a b" |}.
Definition odd_wasset : wasset := {| wa_ver := x16; wa_hash := key_hash; wa_contract := str "tok"; wa_name := str "a b" |}.

Lemma unadmitted_intro conds p wcs wp : conds_wire conds wcs -> payload_means p wp -> wf_payload wp ->
  ~ (Forall admit_cond wcs /\ admit_payload wp) -> unadmitted conds p.
Proof.
  intros C P W N. destruct (C68_signed toy NetTestnet (toy_sk 6) 9 1 AnAny PcDeny conds p wcs wp toy_correct) as (s & s' & e & A & B & X & Y & Z); auto.
  - vm_compute. repeat split; discriminate.
  - reflexivity.
  - reflexivity.
  - exists s, s', e. rewrite Z. auto.
Qed.

Definition mem (l : bytes) (b : byte) : bool := existsb (Byte.eqb b) l.
Lemma mem_iff l b : mem l b = true <-> In b l.
Proof.
  unfold mem. rewrite existsb_exists. split.
  - intros (x & I & E). apply Byte.byte_dec_bl in E. subst. exact I.
  - intros I. exists b. split; [exact I | apply Byte.byte_dec_lb; reflexivity].
Qed.
Lemma mems l r : Forall (fun x => In x l) r <-> forallb (mem l) r = true.
Proof. rewrite forallb_forall, Forall_forall. split; intros H x I; apply mem_iff, H, I. Qed.
Lemma clarity_name_reads s : clarity_name s <->
  match s with c :: r => mem letters c && forallb (mem (letters ++ digits ++ str "-_!?+<>=/*"%string)) r | [] => false end = true
  \/ In s (map str ["-"; "+"; "="; "/"; "*"; "<"; ">"; "<="; ">="]%string).
Proof.
  unfold clarity_name. apply or_iff_compat_r. destruct s as [|c r]; [split; [intros (?&?&X&_) | intros X]; discriminate X|].
  rewrite andb_true_iff, mem_iff, <- mems. split; [intros (? & ? & X & H); injection X as <- <-; exact H | intros H; exists c, r; auto].
Qed.
Lemma contract_name_reads s : contract_name s <->
  match s with c :: r => mem letters c && forallb (mem (letters ++ digits ++ str "-_"%string)) r | [] => false end = true
  \/ s = str "__transient"%string.
Proof.
  unfold contract_name. apply or_iff_compat_r. destruct s as [|c r]; [split; [intros (?&?&X&_) | intros X]; discriminate X|].
  rewrite andb_true_iff, mem_iff, <- mems. split; [intros (? & ? & X & H); injection X as <- <-; exact H | intros H; exists c, r; auto].
Qed.
Ltac bad_name H := (apply clarity_name_reads in H || apply contract_name_reads in H); vm_compute in H;
  repeat match type of H with _ \/ _ => destruct H as [H|H] end; try discriminate H; try contradiction.

Ltac wired := split; [repeat constructor | split; [reflexivity | repeat constructor]].

Theorem C68_refuted :
  unadmitted [] (plain_call [] (str "f") [])                              (* no contract name *)
  /\ unadmitted [] (plain_call (str "abc") (str "a b") [])                (* a space in a function name *)
  /\ unadmitted [] (plain_call (str "abc") (str "f") [CPrinCon sample_addr (str "1x")])
  /\ unadmitted [] (plain_call (str "abc") (str "f") [CTuple []])
  /\ unadmitted [] (plain_call (str "abc") (str "f") [CTuple [(str "a", CTrue); (str "a", CFalse)]])
  /\ unadmitted [] (plain_call (str "abc") (str "f") [CTuple [(str "1", CTrue)]])
  /\ unadmitted [] (plain_call (str "abc") (str "f") [CAscii [x07]])
  /\ unadmitted [] (plain_call (str "abc") (str "f") [CList [CTrue; CInt 1]])
  /\ unadmitted [] (PTransfer CTrue 1000 (str "hi"))
  /\ unadmitted [CondSTX (CPrinStd sample_addr) 5 CcHas] ex_transfer
  /\ unadmitted [CondFT (CPrinStd sample_addr) 5 CcEQ odd_asset] ex_transfer
  /\ unadmitted [CondNFT (CPrinStd sample_addr) CTrue CcEQ ex_asset] ex_transfer.
Proof.
  assert (conds_wire [] []) as C0 by wired.
  assert (payload_means ex_transfer ex_wtransfer) as Pt by exact (conj ex_principal (conj eq_refl ex_memo)).
  assert (wf_payload ex_wtransfer) as Wt by (split; [exact ex_solid_std | split; reflexivity]).
  assert (forall c f l m, Forall2 means l m -> payload_means (plain_call c f l) (plain_wcall c f m)) as Pc by (intros; repeat split; assumption).
  assert (forall c f m, count c <= 128 -> count f <= 128 -> count m < 2 ^ 32 -> Forall solid m -> wf_payload (plain_wcall c f m)) as Wc
    by (intros; repeat split; assumption).
  assert (forall v w, means v w -> solid w -> ~ admit_value w -> unadmitted [] (plain_call (str "abc") (str "f") [v])) as V.
  { intros v w M S N. apply (unadmitted_intro _ _ [] (plain_wcall (str "abc") (str "f") [w])); auto.
    - apply Wc; [vm_compute; discriminate | vm_compute; discriminate | reflexivity | auto].
    - intros [_ (_ & _ & H)]. inversion H. contradiction. }
  repeat split.
  - apply (unadmitted_intro _ _ [] (plain_wcall [] (str "f") [])); auto.
    + apply Wc; [vm_compute; discriminate | vm_compute; discriminate | reflexivity | auto].
    + intros [_ (H & _)]. bad_name H.
  - apply (unadmitted_intro _ _ [] (plain_wcall (str "abc") (str "a b") [])); auto.
    + apply Wc; [vm_compute; discriminate | vm_compute; discriminate | reflexivity | auto].
    + intros [_ (_ & H & _)]. bad_name H.
  - apply (V _ (WCon x16 key_hash (str "1x"))); [exact (conj ex_principal eq_refl) | unfold solid; cbn; repeat split; discriminate|].
    intros [H _]. bad_name H.
  - apply (V _ (WTuple [])); [exact I | unfold solid; cbn; repeat split; reflexivity|]. intros [[H _] _]. congruence.
  - apply (V _ (WTuple [(str "a", WTrue); (str "a", WFalse)])); [cbn; auto | unfold solid; cbn; repeat split; try reflexivity; discriminate|].
    intros [(_ & H & _) _]. inversion H. cbn in *. tauto.
  - apply (V _ (WTuple [(str "1", WTrue)])); [cbn; auto | unfold solid; cbn; repeat split; try reflexivity; discriminate|].
    intros [(_ & _ & H) _]. apply Forall_inv in H. bad_name H.
  - apply (V _ (WAscii [x07])); [reflexivity | unfold solid; cbn; repeat split; repeat constructor; vm_compute; auto|].
    intros [H _]. apply Forall_inv in H. vm_compute in H. destruct H as [[H _]|H]; [congruence | intuition discriminate].
  - apply (V _ (WList [WTrue; WInt 1])); [cbn; auto | unfold solid; cbn; repeat split; try reflexivity; discriminate|].
    intros [H _]. apply (H WTrue (WInt 1)); cbn; auto.
  - apply (unadmitted_intro _ _ [] (WpTransfer WTrue 1000 (str "hi" ++ repeat x00 32))); auto.
    + exact (conj I (conj eq_refl ex_memo)).
    + split; [unfold solid; cbn; auto | split; reflexivity].
    + intros [_ [H _]]. exact H.
  - apply (unadmitted_intro _ _ [WcSTX (WStd x16 key_hash) x11 5] ex_wtransfer); auto.
    + split; [|split; [reflexivity|]]; (constructor; [|constructor]).
      * exact (conj I (conj ex_principal (conj eq_refl eq_refl))).
      * exact (conj I (conj ex_solid_std eq_refl)).
    + intros [H _]. apply Forall_inv in H. destruct H as [_ H]. cbn in H. intuition discriminate.
  - apply (unadmitted_intro _ _ [WcFT (WStd x16 key_hash) odd_wasset x01 5] ex_wtransfer); auto.
    + split; [|split; [reflexivity|]]; (constructor; [|constructor]).
      * exact (conj I (conj ex_principal (conj (conj ex_principal (conj eq_refl eq_refl)) (conj eq_refl eq_refl)))).
      * refine (conj I (conj ex_solid_std (conj _ eq_refl))). split; [reflexivity | split; vm_compute; discriminate].
    + intros [H _]. apply Forall_inv in H. destruct H as (_ & [_ H] & _). bad_name H.
  - apply (unadmitted_intro _ _ [WcNFT (WStd x16 key_hash) ex_wasset WTrue x01] ex_wtransfer); auto.
    + split; [|split; [reflexivity|]]; (constructor; [|constructor]).
      * exact (conj I (conj ex_principal (conj ex_asset_means (conj I eq_refl)))).
      * refine (conj I (conj ex_solid_std (conj _ _))); [split; [reflexivity | split; vm_compute; discriminate] | unfold solid; cbn; auto].
    + intros [H _]. apply Forall_inv in H. destruct H as (_ & _ & _ & H). cbn in H. intuition discriminate.
Qed.
Print Assumptions C68_refuted.

(** A call with every kind of name, and three post-conditions, that is admitted. *)
Definition ex_named : list cval := [CTuple [(str "who", CPrinCon sample_addr (str "abc")); (str "xs!", CList [CInt (-5); CInt 7])]; CAscii (str "hi")].
Definition ex_wnamed : list wval :=
  [WTuple [(str "who", WCon x16 key_hash (str "abc")); (str "xs!", WList [WInt (-5); WInt 7])]; WAscii (str "hi")].
Definition ex_tidy : list condition := [CondSTX (CPrinStd sample_addr) 5 CcGTE; CondFT (CPrinCon sample_addr (str "abc")) 6 CcEQ ex_asset;
   CondNFT (CPrinStd sample_addr) CTrue CcHas ex_asset].
Definition ex_wtidy : list wcond := [WcSTX (WStd x16 key_hash) x03 5; WcFT (WCon x16 key_hash (str "abc")) ex_wasset x01 6;
   WcNFT (WStd x16 key_hash) ex_wasset WTrue x11].
Example C68_ex : conds_wire ex_tidy ex_wtidy /\ payload_means (plain_call (str "abc") (str "f?") ex_named) (plain_wcall (str "abc") (str "f?") ex_wnamed)
  /\ wf_payload (plain_wcall (str "abc") (str "f?") ex_wnamed)
  /\ exists s s' e, signer_new (unsigned NetTestnet (pubkey_of toy (toy_sk 6)) 9 1 AnAny PcDeny ex_tidy (plain_call (str "abc") (str "f?") ex_named)) = Ok s
      /\ succeeds toy s [SignOrigin (toy_sk 6)] s' /\ enc_tx (sg_tx s') = Ok e /\ node_admits toy NetTestnet e.
Proof.
  assert (conds_wire ex_tidy ex_wtidy) as C.
  { split; [|split; [reflexivity|]].
    - constructor; [exact (conj I (conj ex_principal (conj eq_refl eq_refl)))|].
      constructor; [exact (conj I (conj ex_contract (conj ex_asset_means (conj eq_refl eq_refl))))|].
      constructor; [exact (conj I (conj ex_principal (conj ex_asset_means (conj I eq_refl)))) | constructor].
    - assert (wf_asset ex_wasset) as Wa by (split; [reflexivity | split; vm_compute; discriminate]).
      constructor; [exact (conj I (conj ex_solid_std eq_refl))|].
      constructor; [exact (conj I (conj ex_solid_con (conj Wa eq_refl)))|].
      constructor; [|constructor]. refine (conj I (conj ex_solid_std (conj Wa _))). unfold solid. cbn. auto. }
  assert (payload_means (plain_call (str "abc") (str "f?") ex_named) (plain_wcall (str "abc") (str "f?") ex_wnamed)) as P.
  { repeat split; auto. constructor; [|constructor; [reflexivity | constructor]]. cbn. repeat split. exact ex_principal. }
  assert (wf_payload (plain_wcall (str "abc") (str "f?") ex_wnamed)) as W.
  { refine (conj eq_refl (conj _ (conj _ (conj eq_refl _)))); [vm_compute; discriminate | vm_compute; discriminate |].
    constructor; [|constructor; [|constructor]]; unfold solid; repeat split; try reflexivity; try discriminate.
    repeat constructor; vm_compute; reflexivity. }
  refine (conj C (conj P (conj W _))).
  assert (valid_key (toy_sk 6)) as Vk by (vm_compute; repeat split; discriminate).
  destruct (C68_signed toy NetTestnet (toy_sk 6) 9 1 AnAny PcDeny _ _ _ _ toy_correct Vk C P W eq_refl eq_refl) as (s & s' & e & A & B & X & Y & Z).
  exists s, s', e. refine (conj A (conj B (conj X (proj2 Z _)))). clear A B X Y Z.
  assert (contract_name (str "abc")) as Na by (apply contract_name_reads; left; vm_compute; reflexivity).
  assert (admit_asset ex_wasset) as Aa by (split; [apply contract_name_reads | apply clarity_name_reads]; left; vm_compute; reflexivity).
  split.
  - constructor; [split; cbn; auto 10|].
    constructor; [split; [cbn; auto | split; [exact Aa | cbn; auto]]|].
    constructor; [split; [cbn; auto | split; [exact Aa | split; cbn; auto]] | constructor].
  - split; [exact Na|]. split; [apply clarity_name_reads; left; vm_compute; reflexivity|].
    constructor; [|constructor; [|constructor]].
    + cbn. repeat split; auto; try discriminate.
      * constructor; [cbn; intuition discriminate|]. constructor; [cbn; tauto | constructor].
      * constructor; [|constructor; [|constructor]]; apply clarity_name_reads; left; vm_compute; reflexivity.
      * intros x y Hx Hy. intuition subst; exact I.
    + split; [|exact I]. constructor; [|constructor; [|constructor]]; left; vm_compute; split; discriminate.
Qed.
