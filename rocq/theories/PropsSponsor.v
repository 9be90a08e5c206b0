(** Property theorem C104: sponsored transactions on the ledger. *)

From Coq Require Import Lia Strings.String.
From Verif Require Import Base BaseFacts Sha2 SpecText Hash C32 Clarity SpecWire WireFacts Tx SpecTx LengthThms TxFacts TxThms PropsClarity PropsTx Signer Builder SpecSign SpecBind SignFacts SignThms HistThms AuthThms PlanThms
     SpecNode NodeThms SpecCharge SpecCond CondThms PropsCond PropsSign PropsNode SpecLedger LedgerThms PropsLedger SpecPay.
Local Open Scope N_scope.

(** The signed transaction on the wire. *)
Lemma sponsored_wire E t o p q l sks w s s1 s2 s3 : tx_auth t = ASponsored o q -> typed q -> plan E o l -> plan E p (map Sign sks) -> count l <= 16 -> count sks <= 16 ->
  tx_means (tx_with_auth t (ASponsored o p)) w -> wf_tx w ->
  signer_new t = Ok s -> succeeds E s (map step_op l) s1 -> signer_new_sponsor E (sg_tx s1) p = Ok s2 -> succeeds E s2 (map SignSponsor sks) s3 ->
  same_but_signatures (tx_with_auth t (ASponsored o p)) (sg_tx s3) /\ exists w', tx_means (sg_tx s3) w' /\ wf_tx w'.
Proof.
  intros A Tq P Q Lo Lp M W Sn S1 N2 S3. set (t' := tx_with_auth t (ASponsored o p)) in *.
  assert (origin_of t = o) as O by (unfold origin_of; rewrite A; reflexivity).
  assert (sponsor_of t = Some q) as Sq by (unfold sponsor_of; rewrite A; reflexivity).
  destruct (plan_typed _ _ _ P) as (Tyo & Heo & Sio & Foo). destruct (plan_typed _ _ _ Q) as (Typ & Hep & Sip & _).
  pose proof (succeeds_all _ _ _ _ S1) as P1. pose proof (succeeds_all _ _ _ _ S3) as P3.
  apply signer_new_ok in Sn as Sn'. destruct Sn' as (h' & _ & Es).
  assert (sg_tx s = t) as Et by (rewrite Es; reflexivity). clear Es.
  apply new_sponsor_ok in N2 as N2'. destruct N2' as (g & Es2 & _ & _).
  assert (sg_tx s2 = tx_with_auth (sg_tx s1) (ASponsored (origin_of (sg_tx s1)) p)) as T2 by (rewrite Es2; reflexivity). clear Es2.
  assert (origin_of (sg_tx s2) = origin_of (sg_tx s1)) as O2 by (rewrite T2; reflexivity).
  assert (sponsor_of (sg_tx s2) = Some p) as Sp2 by (rewrite T2; reflexivity).
  assert (typed_tx t) as Tt by (split; [rewrite O; exact Tyo | rewrite Sq; intros x X; injection X as <-; exact Tq]).
  assert (typed_tx (sg_tx s1)) as Ty1 by (rewrite <- P1; apply history_typed; [rewrite Et; exact Tt | exact Foo]).
  pose proof (history_size E (map step_op l) s) as [Ho _]. rewrite P1, Et, O, Sio, (proj1 (origin_ops l)) in Ho.
  assert (Forall typed_op (map SignSponsor sks)) as Fs by (apply Forall_map, Forall_forall; intros x _; exact I).
  assert (typed_tx (sg_tx s2)) as Ty2.
  { destruct Ty1 as [Ty1 _]. split; [rewrite O2; exact Ty1 | rewrite Sp2; intros x X; injection X as <-; exact Typ]. }
  assert (typed_tx (sg_tx s3)) as Ty3 by (rewrite <- P3; apply history_typed; assumption).
  assert (same_but_signatures t' (sg_tx s2)) as Sb2.
  { rewrite T2. pose proof (history_same E (map step_op l) s) as (B1 & B2 & B3 & B4 & B5 & B6 & B7). rewrite P1, Et in *.
    unfold same_but_signatures, t', tx_with_auth. cbn [tx_ver tx_chain tx_anchor tx_pcmode tx_conds tx_payload tx_auth].
    repeat (split; [assumption|]). rewrite A in B7. unfold origin_of. destruct (tx_auth (sg_tx s1)); [contradiction|]. destruct B7 as [B7 _]. split; [exact B7 | apply terms_refl]. }
  assert (same_but_signatures t' (sg_tx s3)) as Sb3 by (rewrite <- P3; eapply but_sig_trans; [exact Sb2 | apply history_same]).
  pose proof (history_size E (map SignSponsor sks) s2) as [Ho3 Hp3]. rewrite P3 in Ho3, Hp3. rewrite O2, (proj1 (sponsor_ops sks)) in Ho3.
  unfold sponsor_size in Hp3 at 2. rewrite Sp2, Sip, (proj2 (sponsor_ops sks)) in Hp3.
  assert (forall c, size c <= 16 -> fits_spend (spend_wire c)) as Fit.
  { intros [x|x] L; cbn [spend_wire fits_spend size] in *; auto. unfold count in *. rewrite map_length. change (2 ^ 32) with 4294967296. lia. }
  assert (few_fields (sg_tx s3)) as Fe.
  { split; [apply Fit; lia|]. intros x X. unfold sponsor_size in Hp3. rewrite X in Hp3. apply Fit. lia. }
  split; [exact Sb3|]. eexists. split; [exact (same_means t' (sg_tx s3) w Sb3 M) | exact (wf_auth_same t' (sg_tx s3) w Sb3 M W Ty3 Fe)].
Qed.

Lemma terms_account n c d : same_terms c d -> account_of n (spend_wire d) = account_of n (spend_wire c) /\ nonce_of d = nonce_of c /\ fee_of d = fee_of c.
Proof.
  intros [I [J1 J2]]. destruct c as [c|c], d as [d|d]; cbn [same_identity] in I; try contradiction; unfold account_of; cbn [spend_wire mode_of signer_of].
  - destruct I as [I1 I2]. repeat split; congruence.
  - destruct I as (I1 & I2 & I3). repeat split; congruence.
Qed.

(** An origin signs once.  Whoever then sponsors the transfer, signs for the sponsor and sends it: it is taken exactly when both nonces
    are next, the sponsor has its own fee and the origin the amount.  Exactly the amount leaves the origin, exactly the fee in the
    sponsor's condition leaves the sponsor; the fee in the origin's condition is charged to nobody. *)
Theorem C104_any_sponsor : forall E n t o q l to amount memo who, ecdsa_correct E -> tx_auth t = ASponsored o q -> typed q -> held q <= threshold q ->
  plan E o l -> 1 <= threshold o -> count l <= 16 -> net_ids n = (tx_ver t, tx_chain t) ->
  tx_payload t = PTransfer to amount memo -> means to who -> tx_conds t = [] -> (exists w, tx_means t w /\ wf_tx w) ->
  exists s s1, signer_new t = Ok s /\ succeeds E s (map step_op l) s1
  /\ forall p sks, plan E p (map Sign sks) -> 1 <= threshold p -> count sks <= 16 -> wf_spend (spend_wire p) ->
     let me := account_of n (spend_wire o) in let friend := account_of n (spend_wire p) in
     exists s2 s3 e, signer_new_sponsor E (sg_tx s1) p = Ok s2 /\ succeeds E s2 (map SignSponsor sks) s3 /\ enc_tx (sg_tx s3) = Ok e
     /\ forall L, ((exists L', takes E n L e L') <->
                     0 < amount /\ who <> me /\ turn L me = nonce_of o /\ turn L friend = nonce_of p
                     /\ fee_of p <= coins L friend /\ amount + when (same me friend) (fee_of p) <= coins L me)
        /\ forall L', takes E n L e L' -> forall x,
             coins L' x + when (same x me) amount + when (same x friend) (fee_of p) = coins L x + when (same x who) amount
             /\ turn L' x = turn L x + when (same x me || same x friend) 1.
Proof.
  intros E n t o q l to amount memo who C A Tq Hq P To Lo Ne Pa Wh Cs (w0 & M0 & W0).
  assert (forall p, wf_spend (spend_wire p) -> exists w, tx_means (tx_with_auth t (ASponsored o p)) w /\ wf_tx w) as Mw.
  { intros p Wp. exists (with_auth_wire w0 (auth_wire (ASponsored o p))). destruct M0 as (B1 & B2 & B3 & B4). destruct W0 as (V1 & V2 & V3). split.
    - split; [exact B1|]. split; [exact B2|]. split; [reflexivity | exact B4].
    - split; [exact V1|]. split; [|exact V3]. cbn [with_auth_wire w_auth auth_wire wf_auth]. rewrite B3, A in V2. cbn [auth_wire wf_auth] in V2. split; [apply V2 | exact Wp]. }
  assert (exists h, initial_hash t = Ok h) as [h Hi] by (eexists; apply initial_hash_iff; exists w0; auto using wf_fits_body).
  set (s := {| sg_tx := t; sg_hash := h; sg_origin_signed := false; sg_oversign := true; sg_overlap := true |}).
  assert (signer_new t = Ok s) as Sn by (apply signer_new_ok; eauto).
  assert (exists s1, succeeds E s (map step_op l) s1) as [s1 Su].
  { destruct (run_origin E l s C) as (o' & h' & _ & _ & _ & Su); [unfold origin_of; cbn [s sg_tx]; rewrite A; exact P | reflexivity|]. eexists. exact Su. }
  exists s, s1. split; [exact Sn|]. split; [exact Su|]. intros p sks Q Tp Lp Wp me friend. destruct (Mw p Wp) as (w & M & W).
  destruct (sponsored_accepted E n t o p q l sks w C A Tq Hq P Q To Tp Lo Lp M W Ne) as (x & x1 & s2 & s3 & e & Sn' & Su' & N2 & S3 & En & Ac).
  rewrite Sn in Sn'. injection Sn' as <-. assert (x1 = s1) as -> by (apply succeeds_all in Su, Su'; congruence).
  destruct (sponsored_wire E t o p q l sks w s s1 s2 s3 A Tq P Q Lo Lp M W Sn Su N2 S3) as [Sb (w' & M' & W')].
  exists s2, s3, e. split; [exact N2|]. split; [exact S3|]. split; [exact En|]. intros L.
  destruct Sb as (_ & _ & _ & _ & Sc & Sp & Sa). cbn [tx_with_auth tx_conds tx_payload tx_auth] in Sc, Sp, Sa.
  destruct (tx_auth (sg_tx s3)) as [|o3 p3] eqn:A3; [contradiction|]. destruct Sa as [So Sq].
  destruct (terms_account n _ _ So) as (O1 & O2 & O3). destruct (terms_account n _ _ Sq) as (P1 & P2 & P3).
  rewrite Pa in Sp. rewrite Cs in Sc.
  destruct (C100_exact E n (sg_tx s3) w' e L to amount memo M' W' En (eq_sym Sp) who Wh) as [R1 R2]. cbv zeta in R1, R2.
  assert (origin_of (sg_tx s3) = o3) as Eo by (unfold origin_of; rewrite A3; reflexivity).
  assert (payer_of (sg_tx s3) = p3) as Ep by (unfold payer_of, sponsor_of; rewrite A3; reflexivity).
  rewrite Eo, Ep, O1, O2, P1, P2, P3 in R1. rewrite Eo, Ep, O1, P1, P3 in R2. split; [|exact R2].
  rewrite R1. split; [intros (_ & _ & X); exact X | intros X; split; [exact Ac|]; split; [symmetry; exact Sc | exact X]].
Qed.
Print Assumptions C104_any_sponsor.

(** All a sponsor risks is the fee in its own condition, whatever the transaction does and whatever contract it calls; unless it is the
    origin too. *)
Theorem C104_sponsor_risk : forall E n t w e o p L L', tx_means t w -> wf_tx w -> enc_tx t = Ok e -> tx_auth t = ASponsored o p ->
  let me := account_of n (spend_wire o) in let friend := account_of n (spend_wire p) in
  friend <> me -> takes E n L e L' ->
  coins L friend <= coins L' friend + fee_of p /\ fee_of p <= coins L friend /\ turn L friend = nonce_of p /\ turn L' friend = nonce_of p + 1.
Proof.
  intros E n t w e o p L L' M W En A me friend Ne T.
  assert (origin_of t = o) as Eo by (unfold origin_of; rewrite A; reflexivity).
  assert (payer_of t = p) as Ep by (unfold payer_of, sponsor_of; rewrite A; reflexivity).
  destruct (means_auth t w M) as [Ao Ap]. rewrite Eo in Ao. rewrite Ep in Ap. destruct (enc_means t w e M En) as [_ Ee].
  destruct (taken_admitted _ _ _ _ _ T) as (w1 & (X & W1 & _ & _ & [_ I2] & F) & Tu).
  assert (w1 = w) as -> by (apply one_reading; congruence). rewrite Ap, wire_nonce in I2. rewrite Ap, wire_fee in F. fold friend in I2, F.
  split; [|split; [exact F | split; [symmetry; exact I2|]]].
  - destruct (w_payload w) as [to amount memo|v h c f args] eqn:P.
    + destruct (transfer_exact E n w L to amount memo W P) as [_ R]. rewrite Ee in T. destruct (R L' T friend) as [R1 _].
      rewrite Ao, Ap, wire_fee in R1. fold me friend in R1. rewrite (same_false friend me Ne), (same_true friend friend eq_refl) in R1. cbn [when] in R1. lia.
    + destruct (call_taken E n L e w v h c f args L' Ee W P T) as (_ & _ & ms & _ & Fo & Q). specialize (Q friend).
      rewrite Ap, wire_fee in Q. fold friend in Q. rewrite (same_true friend friend eq_refl), none_sent in Q; [cbn [when] in Q; lia|].
      eapply Forall_impl; [|exact Fo]. cbn. intros m [Y|Y] Z; [rewrite Ao in Y; fold me in Y; congruence | rewrite Z in Y; exact Y].
  - rewrite Tu, advance_eq, Ap. fold friend. rewrite (same_true friend friend eq_refl), orb_true_r. cbn [when]. rewrite I2. reflexivity.
Qed.
Print Assumptions C104_sponsor_risk.

(** An origin with a sponsor pays no fee: it loses at most what its conditions allow, and for a transfer exactly the amount. *)
Theorem C104_origin_risk : forall E n t w e o p L L', tx_means t w -> wf_tx w -> enc_tx t = Ok e -> tx_auth t = ASponsored o p ->
  let me := account_of n (spend_wire o) in let friend := account_of n (spend_wire p) in
  me <> friend -> takes E n L e L' ->
  match tx_payload t with
  | PTransfer _ amount _ => coins L' me + amount = coins L me
  | PCall _ _ _ _ =>
    (forall addr k, In (CondSTX addr k CcLTE) (tx_conds t) -> means addr me -> coins L me <= coins L' me + k)
    /\ (tx_pcmode t = PcDeny -> (forall c, In c (tx_conds t) -> ~ means (cond_who c) me) -> coins L me <= coins L' me)
  end.
Proof.
  intros E n t w e o p L L' M W En A me friend Ne T.
  assert (origin_of t = o) as Eo by (unfold origin_of; rewrite A; reflexivity).
  assert (payer_of t = p) as Ep by (unfold payer_of, sponsor_of; rewrite A; reflexivity).
  destruct (tx_payload t) as [to amount memo|ad c f args] eqn:P.
  - pose proof M as (_ & _ & _ & _ & _ & _ & Mp). rewrite P in Mp. destruct (w_payload w) as [who am me'|] eqn:Pw; [|contradiction].
    destruct Mp as (Wh & _). destruct (C100_exact E n t w e L to amount memo M W En P who Wh) as [R1 R2]. cbv zeta in R1, R2.
    rewrite Eo, Ep in R1, R2. fold me friend in R1, R2. destruct (R2 L' T me) as [Q _]. destruct (proj1 R1 (ex_intro _ L' T)) as (_ & _ & _ & Nw & _).
    rewrite (same_true me me eq_refl), (same_false me friend Ne), (same_false me who) in Q by congruence. cbn [when] in Q. lia.
  - assert (is_call (tx_payload t)) as Ca by (rewrite P; exact I). split.
    + intros addr k Ic Me. pose proof (C100_limit E n t w e addr me k L L' M W En Ca Ic Me T) as Q. rewrite Ep in Q. fold friend in Q.
      rewrite (same_false me friend Ne) in Q. cbn [when] in Q. lia.
    + intros De No. pose proof (C100_deny E n t w e me L L' M W En Ca De No T) as Q. rewrite Ep in Q. fold friend in Q.
      rewrite (same_false me friend Ne) in Q. cbn [when] in Q. lia.
Qed.
Print Assumptions C104_origin_risk.

(** Of all that sponsors, or the origin itself, make of what an origin has signed with one nonce, one is taken: when one is, no other
    ever is. *)
Theorem C104_one_sponsor : forall E n t u w v e f L L' M M', tx_means t w -> wf_tx w -> enc_tx t = Ok e -> tx_means u v -> wf_tx v -> enc_tx u = Ok f ->
  same_terms (origin_of t) (origin_of u) -> takes E n L e L' -> later E n L' M -> ~ takes E n M f M'.
Proof.
  intros E n t u w v e f L L' M M' Mt Wt Et Mu Wu Eu S T R. destruct (terms_account n _ _ S) as (A & B & _).
  exact (C100_one_of_two E n t u w v e f _ L L' M M' Mt Wt Et Mu Wu Eu (origin_of t) (origin_of u) (or_introl eq_refl) (or_introl eq_refl) eq_refl A (eq_sym B) T R).
Qed.
Print Assumptions C104_one_sponsor.

(** 1000 micro-STX from an account of two out of three keys; the fee of 5 from the account of another key. *)
Definition ex_bare_tx : tx := with_conds ex_sponsored_tx PcDeny [].
Definition ex_bare_wtx : wtx :=
  {| w_version := w_version ex_wtx; w_chain := w_chain ex_wtx; w_auth := auth_wire (tx_auth ex_sponsored_tx); w_anchor := w_anchor ex_wtx;
     w_pcmode := w_pcmode ex_wtx; w_conds := []; w_payload := w_payload ex_wtx |}.
Lemma ex_bare_means : tx_means ex_bare_tx ex_bare_wtx /\ wf_tx ex_bare_wtx.
Proof.
  destruct ex_tx_means as (A & B & _ & D & F & G & H). destruct ex_wtx_wf as (W1 & _ & W3 & W4 & W5). split.
  - exact (conj A (conj B (conj eq_refl (conj D (conj F (conj (Forall2_nil _) H)))))).
  - refine (conj W1 (conj _ (conj eq_refl (conj (Forall_nil _) W5)))). repeat split; [right; left; reflexivity | constructor | left; reflexivity].
Qed.
Definition ex_friend : scond := SStd {| std_mode := P2PKH; std_fee := 5; std_nonce := 3; std_signer := hash20 pk2; std_sig := repeat x00 65 |}.
Lemma ex_friend_plan : plan toy ex_friend (map Sign [sk2]).
Proof. apply plan_single; [apply sk2_valid | reflexivity | reflexivity]. Qed.
Lemma ex_friend_wf : wf_spend (spend_wire ex_friend).
Proof. split; [left; reflexivity|]. split; [vm_compute; reflexivity|]. repeat split. Qed.
Example C104_ex : let me := account_of NetTestnet (spend_wire (SMulti ex_2of3_m)) in let friend := account_of NetTestnet (spend_wire ex_friend) in
  let L := {| coins := fun x => if same x me then 1000 else 5; turn := fun x => if same x me then 9 else 3 |} in
  exists s s1 s2 s3 e L', signer_new ex_bare_tx = Ok s /\ succeeds toy s (map step_op ex_steps) s1
    /\ signer_new_sponsor toy (sg_tx s1) ex_friend = Ok s2 /\ succeeds toy s2 (map SignSponsor [sk2]) s3 /\ enc_tx (sg_tx s3) = Ok e
    /\ takes toy NetTestnet L e L' /\ coins L' me = 0 /\ coins L' friend = 0 /\ coins L' (WStd x16 key_hash) = 1005 /\ turn L' friend = 4.
Proof.
  intros me friend L.
  assert (friend <> me) as Nf by (unfold friend, me, account_of; cbn [spend_wire mode_of charged_version ex_friend ex_2of3_m std_mode ms_mode mode_code]; discriminate).
  assert (WStd x16 key_hash <> me) as Nm by (unfold me, account_of; cbn [spend_wire mode_of charged_version ex_friend ex_2of3_m std_mode ms_mode mode_code]; discriminate).
  assert (WStd x16 key_hash <> friend) as Nk by (unfold friend, account_of; cbn [spend_wire mode_of charged_version ex_friend ex_2of3_m std_mode ms_mode mode_code]; discriminate).
  destruct (C104_any_sponsor toy NetTestnet ex_bare_tx (SMulti ex_2of3_m) (SStd std_default) ex_steps (CPrinStd sample_addr) 1000 (str "hi") (WStd x16 key_hash))
    as (s & s1 & Sn & Su & K); [exact toy_correct | reflexivity | reflexivity | vm_compute; discriminate | exact ex_plan | vm_compute; discriminate
    | vm_compute; discriminate | reflexivity | reflexivity | exact ex_principal | reflexivity | exists ex_bare_wtx; exact ex_bare_means |].
  destruct (K ex_friend [sk2] ex_friend_plan) as (s2 & s3 & e & N2 & S3 & En & R); [vm_compute; discriminate | vm_compute; discriminate | exact ex_friend_wf|].
  fold me friend in R. destruct (R L) as [[_ R1] R2].
  change (nonce_of (SMulti ex_2of3_m)) with 9 in R1. change (nonce_of ex_friend) with 3 in R1. change (fee_of ex_friend) with 5 in R1, R2.
  clearbody me friend. cbn [L coins turn] in R1, R2.
  rewrite (same_true me me eq_refl), (same_false friend me Nf), (same_false me friend (not_eq_sym Nf)) in R1.
  destruct R1 as [L' T]; [cbn [when]; repeat split; try lia; congruence|].
  exists s, s1, s2, s3, e, L'. repeat (split; [assumption|]).
  destruct (R2 L' T me) as [Qm _]. destruct (R2 L' T friend) as [Qf Tf]. destruct (R2 L' T (WStd x16 key_hash)) as [Qw _].
  rewrite (same_true me me eq_refl), (same_false me friend (not_eq_sym Nf)), (same_false me (WStd x16 key_hash) (not_eq_sym Nm)) in Qm.
  rewrite (same_true friend friend eq_refl), (same_false friend me Nf), (same_false friend (WStd x16 key_hash) (not_eq_sym Nk)) in Qf.
  rewrite (same_true friend friend eq_refl), (same_false friend me Nf) in Tf.
  rewrite (same_true (WStd x16 key_hash) (WStd x16 key_hash) eq_refl), (same_false _ me Nm), (same_false _ friend Nk) in Qw.
  cbn [when orb] in *. repeat split; lia.
Qed.
