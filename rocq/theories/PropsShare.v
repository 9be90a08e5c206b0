(** Property theorem C102: shared accounts. *)

From Coq Require Import Lia ZifyBool ZifyNat ZifyN Strings.String.
From Verif Require Import Base BaseFacts Sha2 HashFacts SpecText SpecAddr Hash C32 Clarity PropsClarity SpecWire WireFacts Tx SpecTx LengthThms TxWire TxFacts TxThms PropsTx Signer Builder SpecSign SignFacts
     SignThms HistThms PropsSign AuthThms PlanThms SpecBind BindThms SpecNode NodeThms PropsNode SpecCharge PropsCharge SpecCond SpecLedger LedgerThms PropsLedger SpecPay SpecShare.
Local Open Scope N_scope.

(** A script that nodes compute, and the library computes too. *)
Lemma scripts_agree r m ks ks' : m < 176 -> Forall (fun k => length k = 33%nat) ks -> Forall (fun k => length k = 33%nat) ks' ->
  node_script r ks' = script m ks -> r = m /\ ks' = ks /\ 1 <= m <= 16 /\ 1 <= count ks <= 16.
Proof.
  intros B F F' H. assert (r = m) as ->.
  { assert (hd x00 (push_number r) = octet (80 + m)) as X.
    { unfold node_script, script in H. destruct (push_number r) eqn:P.
      - destruct (push_number_length r) as [A _]. rewrite P in A. unfold count in A. cbn in A. lia.
      - cbn [app hd] in *. congruence. }
    unfold push_number in X. destruct (r =? 0) eqn:R0.
    { apply (f_equal b2n) in X. change octet with n2b in X. rewrite b2n_n2b in X by lia. change (b2n (hd x00 [x00])) with 0 in X. lia. }
    destruct (r <=? 16) eqn:R1.
    { cbn [hd] in X. change octet with n2b in X. apply n2b_inj in X; lia. }
    exfalso. destruct (r <? 128); [|destruct (r <? 32768)]; cbn [hd] in X; apply (f_equal b2n) in X; change octet with n2b in X;
      rewrite b2n_n2b in X by lia; [change (b2n x01) with 1 in X | change (b2n x02) with 2 in X | change (b2n x03) with 3 in X]; lia. }
  assert (1 <= m <= 16 /\ 1 <= count ks <= 16) as [M K].
  { assert (m = 0 \/ 16 < m \/ count ks = 0 \/ 16 < count ks \/ (1 <= m <= 16 /\ 1 <= count ks <= 16)) as D by lia.
    destruct D as [D|[D|[D|[D|D]]]]; [| | | |exact D]; exfalso; apply (C54_nonstandard m ks ks'); auto; lia. }
  assert (count ks' = count ks) as Kc.
  { pose proof (f_equal count H) as Q. unfold node_script, script in Q. repeat (rewrite count_app in Q || rewrite count_cons in Q).
    rewrite !keys_length in Q by assumption. change (count (@nil byte)) with 0 in Q.
    destruct (push_number_length m) as [A1 A2], (push_number_length (count ks')) as [B1 B2]. lia. }
  rewrite small_script in H by lia. apply script_inj in H; auto; try lia. destruct H as [_ ->]. auto.
Qed.

Lemma own_length mode m ks : Forall (fun k => length k = 33%nat) ks ->
  length (own_text mode m ks) = match mode with P2WSH => 34%nat | _ => (3 + 34 * length ks)%nat end.
Proof.
  intros F. assert (length (script m ks) = (3 + 34 * length ks)%nat) as S
    by (unfold script; cbn [length]; rewrite app_length, flat_keys_length by assumption; cbn [length]; lia).
  destruct mode; cbn [own_text]; try exact S. unfold witness_program. cbn [length]. rewrite sha256_length. reflexivity.
Qed.
Lemma node_script_length m ks : Forall (fun k => length k = 33%nat) ks -> exists a b, (1 <= a <= 4 /\ 1 <= b <= 4)%nat
  /\ length (node_script m ks) = (a + 34 * length ks + b + 1)%nat.
Proof.
  intros F. exists (length (push_number m)), (length (push_number (count ks))).
  destruct (push_number_length m) as [A _], (push_number_length (count ks)) as [B _]. split; [unfold count in *; lia|].
  unfold node_script. rewrite !app_length, flat_keys_length by assumption. cbn [length]. lia.
Qed.

(** Who acts for a shared account. *)
Lemma share_core E n L e L' ks fee nonce m mode c : ecdsa_correct E -> @multi_new unit ks fee nonce m mode = Ok c ->
  Forall (fun k => length k = 33%nat) ks -> let me := account_of n (spend_wire (SMulti c)) in
  takes E n L e L' -> coins L' me < coins L me \/ turn L' me <> turn L me ->
  exists w typ h s, e = ser_tx w /\ wf_tx w /\ speaks E w typ h s /\ account_of n s = me
    /\ (approved E typ h s (Byte.to_N m) ks /\ 1 <= Byte.to_N m <= 16 /\ 1 <= count ks <= 16 \/ forged E typ h s mode (Byte.to_N m) ks).
Proof.
  intros C N F me T D. apply C38_multi_new in N. destruct N as (Ka & (Fit & _) & Mo & _ & _ & _ & _).
  assert (Byte.to_N m < 176) as Fit' by lia.
  assert (exists w, admitted E n L e w /\ acts n w me) as (w & (X & W & Nn & Na & _) & A).
  { destruct D as [D|D]; [exact (only_actors E n L e L' _ _ T D)|]. destruct (taken_admitted _ _ _ _ _ T) as (w & Ad & Tu).
    exists w. split; [exact Ad|]. rewrite Tu, advance_eq in D. unfold acts.
    destruct (wval_dec me (account_of n (worigin w))) as [|N1]; [auto|]. destruct (wval_dec me (account_of n (wpayer w))) as [|N2]; [auto|].
    exfalso. apply D. rewrite (same_false _ _ N1), (same_false _ _ N2). cbn. lia. }
  assert (exists typ h s h', speaks E w typ h s /\ account_of n s = me /\ wf_spend s /\ node_spend E typ h s h') as (typ & h & s & h' & Sp & As & Ws & S).
  { pose proof W as (_ & Wa & _). unfold acts, worigin, wpayer in A. unfold speaks, worigin. destruct (w_auth w) as [o|o p].
    - destruct Na as [h' S]. eexists x04, _, o, h'. split; [left; auto|]. split; [destruct A; congruence|]. auto.
    - destruct Na as (h1 & h2 & S1 & S2). destruct Wa as [Wo Wp]. destruct A as [A|A]; symmetry in A.
      + eexists x04, _, o, h1. split; [left; auto|]. auto.
      + exists x05, h1, p, h2. split; [right; split; [reflexivity | exists o; auto]|]. auto. }
  exists w, typ, h, s. split; [exact X|]. split; [exact W|]. split; [exact Sp|]. split; [exact As|]. clear X W Nn Na A Sp D T.
  destruct (spend_opens _ _ _ _ _ S) as (y & O & Y). unfold me, account_of in As. injection As as Av Ah. cbn [spend_wire mode_of signer_of] in Av, Ah.
  rewrite Mo in Av. assert (hash20 y = hash20 (own_text mode (Byte.to_N m) ks)) as Hy.
  { rewrite <- Y, Ah. destruct mode; try discriminate Ka; injection Ka as <-; reflexivity. }
  destruct (bytes_dec y (own_text mode (Byte.to_N m) ks)) as [->|Ny]; [|right; left; exists y; split; [exact O | split; assumption]].
  pose proof (own_length mode (Byte.to_N m) ks F) as Ol.
  inversion O as [signer nonce' fee' sig pk R E1 E2|signer nonce' fee' sig pk R E1 E2|signer nonce' fee' fields required ks' h1 Wk E1 E2
                 |signer nonce' fee' fields required ks' h1 Wk E1 E2]; subst s; cbn [mode_of] in Av.
  - exfalso. destruct n, mode; discriminate.
  - exfalso. rewrite <- E2 in Ol. cbn [length] in Ol. rewrite hash20_length in Ol. destruct mode; try discriminate Ol; lia.
  - destruct Ws as (_ & _ & _ & _ & _ & Wf & _). pose proof (walk_lengths _ _ _ _ _ _ _ _ _ C Wf Wk) as F'.
    destruct mode; try discriminate Ka; cbn [own_text] in E2.
    + destruct (scripts_agree _ _ _ _ Fit' F F' E2) as (-> & -> & B). left. split; [|exact B]. exists x01, signer, nonce', fee', fields, h1. auto.
    + exfalso. destruct (node_script_length required ks' F') as (a & b & Ab & Ln). rewrite E2 in Ln. cbn [own_text] in Ol. rewrite Ol in Ln. lia.
  - destruct Ws as (_ & _ & _ & _ & _ & Wf & _). pose proof (walk_lengths _ _ _ _ _ _ _ _ _ C Wf Wk) as F'.
    destruct mode; try discriminate Ka; cbn [own_text] in E2.
    + exfalso. cbn [own_text] in Ol. rewrite <- E2 in Ol. cbn [length] in Ol. rewrite sha256_length in Ol. lia.
    + unfold witness_program in E2. injection E2 as E2.
      destruct (bytes_dec (node_script required ks') (script (Byte.to_N m) ks)) as [Q|Q].
      * destruct (scripts_agree _ _ _ _ Fit' F F' Q) as (-> & -> & B). left. split; [|exact B]. exists x03, signer, nonce', fee', fields, h1. auto.
      * right. right. exists signer, nonce', fee', fields, required, ks', h1. split; [reflexivity|]. split; [exact Wk|]. split; assumption.
Qed.

(** ** C102 *)
(** Where a shared account loses money or moves on to another nonce, [m] of its owners have signed this very transaction, in the
    owners' order, and nobody else; or the hash of the address has been opened with another text. *)
Theorem C102_only_owners : forall E n L e L' ks fee nonce m mode c, ecdsa_correct E -> @multi_new unit ks fee nonce m mode = Ok c ->
  Forall (fun k => length k = 33%nat) ks -> let me := account_of n (spend_wire (SMulti c)) in
  takes E n L e L' -> coins L' me < coins L me \/ turn L' me <> turn L me ->
  exists w typ h s, e = ser_tx w /\ wf_tx w /\ speaks E w typ h s /\ account_of n s = me
    /\ (approved E typ h s (Byte.to_N m) ks \/ forged E typ h s mode (Byte.to_N m) ks).
Proof.
  intros E n L e L' ks fee nonce m mode c C N F me T D. destruct (share_core E n L e L' ks fee nonce m mode c C N F T D) as (w & typ & h & s & A & B & G & H & [[K _]|K]);
    exists w, typ, h, s; auto 10.
Qed.
Print Assumptions C102_only_owners.

(** Finding: for a threshold of zero or more than 16, no keys or more than 16, the library computes an address too, but what is sent
    there stays there. *)
Theorem C102_lost_refuted : forall E n L e L' ks fee nonce m mode c, ecdsa_correct E -> @multi_new unit ks fee nonce m mode = Ok c ->
  Forall (fun k => length k = 33%nat) ks -> Byte.to_N m = 0 \/ 16 < Byte.to_N m \/ count ks = 0 \/ 16 < count ks ->
  let me := account_of n (spend_wire (SMulti c)) in
  takes E n L e L' -> coins L' me < coins L me \/ turn L' me <> turn L me ->
  exists w typ h s, e = ser_tx w /\ wf_tx w /\ speaks E w typ h s /\ account_of n s = me /\ forged E typ h s mode (Byte.to_N m) ks.
Proof.
  intros E n L e L' ks fee nonce m mode c C N F B me T D. destruct (share_core E n L e L' ks fee nonce m mode c C N F T D) as (w & typ & h & s & A & W & G & H & [[_ K]|K]);
    [lia|]. exists w, typ, h, s. auto 10.
Qed.
Print Assumptions C102_lost_refuted.

(** The owners, in their order, sign or list their keys, [m] sign: then the transfer is taken exactly when the account has the money
    and it is its turn, and exactly the amount and the fee are gone. *)
Theorem C102_spend : forall E n t l ks fee nonce m mode c w to amount memo who, ecdsa_correct E -> Forall step_valid l -> map (step_key E) l = ks ->
  @multi_new unit ks fee nonce m mode = Ok c -> count (filter is_sign l) = Byte.to_N m -> 1 <= Byte.to_N m -> count l <= 16 ->
  tx_auth t = AStandard (SMulti c) -> tx_means t w -> wf_tx w -> net_ids n = (tx_ver t, tx_chain t) ->
  tx_payload t = PTransfer to amount memo -> means to who -> tx_conds t = [] ->
  let me := account_of n (spend_wire (SMulti c)) in
  exists s s' e, signer_new t = Ok s /\ succeeds E s (map step_op l) s' /\ enc_tx (sg_tx s') = Ok e
    /\ forall L, ((exists L', takes E n L e L') <-> 0 < amount /\ who <> me /\ turn L me = nonce /\ amount + fee <= coins L me)
       /\ forall L', takes E n L e L' -> moved me who amount fee L L'.
Proof.
  intros E n t l ks fee nonce m mode c w to amount memo who C V Ks N Cn M1 L16 A M W Ne P Wh Cs me.
  pose proof N as N'. apply C38_multi_new in N'. destruct N' as (Ka & Fit & Mo & Fe & No & Re & Fi).
  assert (plan E (SMulti c) l) as Pl.
  { rewrite <- Ks in Ka, Fit. constructor; auto; rewrite ?Mo, ?Re; auto. }
  destruct (plan_accepted E n t (SMulti c) l w C A Pl) as (s & s' & e & Sn & Su & En & Ac); auto.
  { cbn [threshold]. rewrite Re. exact M1. }
  exists s, s', e. split; [exact Sn|]. split; [exact Su|]. split; [exact En|]. intros L.
  pose proof (succeeds_all _ _ _ _ Su) as Pa. apply signer_new_ok in Sn as Sn'. destruct Sn' as (h' & _ & Es).
  assert (sg_tx s = t) as Et by (rewrite Es; reflexivity). clear Es.
  pose proof (history_same E (map step_op l) s) as Sb. rewrite Pa, Et in Sb.
  destruct (plan_typed _ _ _ Pl) as (Ty & He & Si & Fo).
  assert (typed_tx (sg_tx s')) as Tu.
  { rewrite <- Pa. apply history_typed; [|exact Fo]. rewrite Et. split; unfold origin_of, sponsor_of; rewrite A; [exact Ty | discriminate]. }
  assert (exists c', tx_auth (sg_tx s') = AStandard (SMulti c') /\ same_terms (SMulti c) (SMulti c')) as (c' & A' & St).
  { pose proof Sb as (_ & _ & _ & _ & _ & _ & Q). rewrite A in Q. destruct (tx_auth (sg_tx s')) as [[|c']|]; [destruct Q as [[] _] | | contradiction].
    exists c'. auto. }
  assert (few_fields (sg_tx s')) as Fu.
  { pose proof (history_size E (map step_op l) s) as [Ho _]. rewrite Pa in Ho. rewrite Et in Ho. unfold origin_of in Ho. rewrite A, A' in Ho.
    rewrite (proj1 (origin_ops l)) in Ho. rewrite Si in Ho. cbn [size] in Ho.
    split; unfold origin_of, sponsor_of; rewrite A'; [|discriminate]. cbn [spend_wire fits_spend]. unfold count in *. rewrite map_length.
    change (2 ^ 32) with 4294967296. lia. }
  pose proof (same_means t (sg_tx s') w Sb M) as Mu. pose proof (wf_auth_same t (sg_tx s') w Sb M W Tu Fu) as Wu.
  assert (tx_payload (sg_tx s') = PTransfer to amount memo) as P' by (destruct Sb as (_ & _ & _ & _ & _ & <- & _); exact P).
  assert (tx_conds (sg_tx s') = []) as Cs' by (destruct Sb as (_ & _ & _ & _ & <- & _); exact Cs).
  destruct (C100_exact E n (sg_tx s') _ e L to amount memo Mu Wu En P' who Wh) as [R1 R2].
  assert (account_of n (spend_wire (origin_of (sg_tx s'))) = me /\ nonce_of (origin_of (sg_tx s')) = nonce /\ fee_of (origin_of (sg_tx s')) = fee
          /\ payer_of (sg_tx s') = origin_of (sg_tx s')) as (Q1 & Q2 & Q3 & Q4).
  { unfold payer_of, origin_of, sponsor_of. rewrite A'. destruct St as [I J]. cbn [same_identity] in I. destruct I as (I1 & I2 & I3).
    unfold me, account_of. cbn [spend_wire mode_of signer_of nonce_of fee_of]. cbn [nonce_of fee_of] in J. destruct J as [J1 J2].
    repeat split; congruence. }
  cbv zeta in R1, R2. rewrite Q4, Q1, Q2, Q3 in R1. rewrite Q4, Q1, Q3 in R2. rewrite (same_true me me eq_refl) in R1. cbn [when] in R1. split.
  - rewrite R1. split.
    + intros (_ & _ & B & D & G & _ & _ & H). auto.
    + intros (B & D & G & H). repeat (split; [assumption|]). split; [lia|exact H].
  - intros L' T x. specialize (R2 L' T x). rewrite orb_diag in R2. destruct R2 as [R2 R3]. split; [|exact R3].
    unfold when in *. destruct (same x me), (same x who); lia.
Qed.
Print Assumptions C102_spend.

Lemma map_copies {A B} (f : A -> B) x i : map f (repeat x i) = repeat (f x) i.
Proof. induction i; cbn; congruence. Qed.
Lemma filter_copies {A} (f : A -> bool) x i : f x = true -> filter f (repeat x i) = repeat x i.
Proof. intros H. induction i; cbn; [reflexivity|]. rewrite H. congruence. Qed.

(** Finding: the owners need not be different.  A key listed as often as signatures are required, beside any others, spends alone; the
    library makes such accounts and takes the signatures. *)
Theorem C102_alone_refuted : forall E n sk others fee nonce m mode, ecdsa_correct E -> valid_key sk -> Forall (fun k => length k = 33%nat) others ->
  In mode [P2SH; P2WSH] -> 1 <= Byte.to_N m -> Byte.to_N m + count others <= 16 ->
  exists c, @multi_new unit (repeat (pubkey_of E sk) (N.to_nat (Byte.to_N m)) ++ others) fee nonce m mode = Ok c
  /\ forall t w to amount memo who, tx_auth t = AStandard (SMulti c) -> tx_means t w -> wf_tx w -> net_ids n = (tx_ver t, tx_chain t) ->
     tx_payload t = PTransfer to amount memo -> means to who -> tx_conds t = [] ->
     let me := account_of n (spend_wire (SMulti c)) in
     exists s s' e, signer_new t = Ok s /\ succeeds E s (repeat (SignOrigin sk) (N.to_nat (Byte.to_N m)) ++ map AppendOrigin others) s' /\ enc_tx (sg_tx s') = Ok e
       /\ forall L, ((exists L', takes E n L e L') <-> 0 < amount /\ who <> me /\ turn L me = nonce /\ amount + fee <= coins L me)
          /\ forall L', takes E n L e L' -> moved me who amount fee L L'.
Proof.
  intros E n sk others fee nonce m mode C V F Mo M1 M16. set (k := N.to_nat (Byte.to_N m)).
  set (l := repeat (Sign sk) k ++ map List others).
  assert (map (step_key E) l = repeat (pubkey_of E sk) k ++ others) as Kl
    by (unfold l; rewrite map_app, map_map, map_id, map_copies; reflexivity).
  assert (map step_op l = repeat (SignOrigin sk) k ++ map AppendOrigin others) as Ol
    by (unfold l; rewrite map_app, map_map, map_copies; reflexivity).
  assert (Forall step_valid l) as Vl.
  { apply Forall_app. split; [apply Forall_forall; intros x X; apply repeat_spec in X; subst; exact V|].
    apply Forall_map. exact F. }
  assert (count (filter is_sign l) = Byte.to_N m) as Cl.
  { unfold l. rewrite filter_app. assert (filter is_sign (map List others) = []) as -> by (clear; induction others; auto).
    rewrite app_nil_r. rewrite filter_copies by reflexivity.
    unfold count. rewrite repeat_length. unfold k. lia. }
  assert (count l <= 16) as L16 by (unfold l, count in *; rewrite app_length, repeat_length, map_length; unfold k; lia).
  assert (exists c, @multi_new unit (repeat (pubkey_of E sk) k ++ others) fee nonce m mode = Ok c) as [c N].
  { destruct (@multi_new_cases unit (repeat (pubkey_of E sk) k ++ others) fee nonce m mode) as [(_ & _ & c & H)|[[_ [X|X]]|[_ X]]].
    - eauto.
    - subst. destruct Mo as [Y|[Y|[]]]; discriminate.
    - subst. destruct Mo as [Y|[Y|[]]]; discriminate.
    - exfalso. apply X. rewrite <- Kl. unfold script_fits, count in *. rewrite map_length. split; [lia|]. rewrite N.mod_small; lia. }
  exists c. split; [exact N|]. intros t w to amount memo who A M W Ne P Wh Cs me. rewrite <- Ol.
  exact (C102_spend E n t l _ fee nonce m mode c w to amount memo who C Vl Kl N Cl M1 L16 A M W Ne P Wh Cs).
Qed.
Print Assumptions C102_alone_refuted.


(** Two of three owners pay 1000 micro-STX from an account that has 2000; an account of 17 owners can be computed. *)
Definition ex_shared : tx :=
  {| tx_ver := VTestnet; tx_chain := ChTestnet; tx_auth := AStandard (SMulti ex_2of3_m); tx_anchor := AnAny; tx_pcmode := PcDeny; tx_conds := [];
     tx_payload := PTransfer (CPrinStd sample_addr) 1000 (str "hi"%string) |}.
Definition ex_shared_wire : wtx :=
  {| w_version := x80; w_chain := 2147483648; w_auth := auth_wire (tx_auth ex_shared); w_anchor := x03; w_pcmode := x02; w_conds := [];
     w_payload := WpTransfer (WStd x16 key_hash) 1000 (str "hi"%string ++ repeat x00 32) |}.
Lemma ex_shared_means : tx_means ex_shared ex_shared_wire /\ wf_tx ex_shared_wire.
Proof.
  split.
  - refine (conj eq_refl (conj eq_refl (conj eq_refl (conj eq_refl (conj eq_refl (conj _ _)))))); [constructor|].
    exact (conj ex_principal (conj eq_refl ex_memo)).
  - refine (conj eq_refl (conj _ (conj eq_refl (conj _ _)))); [|constructor|exact (conj ex_solid_std (conj eq_refl eq_refl))].
    repeat split; [right; left; reflexivity | constructor].
Qed.
Example C102_ex : let me := account_of NetTestnet (spend_wire (SMulti ex_2of3_m)) in let L := {| coins := fun _ => 2000; turn := fun _ => 9 |} in
  @multi_new unit [pk1; pk2; pk3] 300 9 x02 P2WSH = Ok ex_2of3_m /\ Forall (fun k => length k = 33%nat) [pk1; pk2; pk3]
  /\ (exists s s' e L', signer_new ex_shared = Ok s /\ succeeds toy s (map step_op ex_steps) s' /\ enc_tx (sg_tx s') = Ok e
        /\ takes toy NetTestnet L e L' /\ coins L' me = 700 /\ coins L' (WStd x16 key_hash) = 3000 /\ turn L' me = 10)
  /\ exists c, @multi_new unit (repeat pk1 17) 0 0 x01 P2SH = Ok c.
Proof.
  intros me L. destruct ex_shared_means as [M W]. split; [exact ex_2of3_ok|]. split; [repeat constructor|].
  split; [|eexists; vm_compute; reflexivity].
  destruct (C102_spend toy NetTestnet ex_shared ex_steps [pk1; pk2; pk3] 300 9 x02 P2WSH ex_2of3_m ex_shared_wire (CPrinStd sample_addr) 1000
              (str "hi"%string) (WStd x16 key_hash) toy_correct) as (s & s' & e & Sn & Su & En & R);
    [repeat constructor; first [apply sk1_valid | apply sk3_valid | reflexivity] | reflexivity | exact ex_2of3_ok | reflexivity | discriminate | discriminate
     | reflexivity | exact M | exact W | reflexivity | reflexivity | exact ex_principal | reflexivity |].
  assert (WStd x16 key_hash <> me) as Ne by (unfold me, account_of; cbn [spend_wire mode_of ms_mode ex_2of3_m mode_code charged_version]; discriminate).
  destruct (R L) as [R1 R2]. destruct (proj2 R1) as [L' T]; [repeat split; [exact Ne | cbn; lia]|].
  exists s, s', e, L'. repeat (split; [assumption|]). destruct (R2 L' T me) as [Q1 Q2]. destruct (R2 L' T (WStd x16 key_hash)) as [Q3 _].
  fold me in Q1, Q2, Q3. rewrite (same_true me me eq_refl) in Q1, Q2. rewrite (same_false me (WStd x16 key_hash)) in Q1 by congruence.
  rewrite (same_false _ _ Ne) in Q3. rewrite (same_true (WStd x16 key_hash) _ eq_refl) in Q3.
  unfold L in Q1, Q2, Q3. cbn [coins turn when] in Q1, Q2, Q3. repeat split; lia.
Qed.
