(** Proofs about balances and nonces. *)

From Coq Require Import Lia.
From Verif Require Import Base BaseFacts Sha2 SpecText SpecWire Hash Tx SpecTx TxWire TxFacts Builder SpecSign SpecNode SpecCharge SpecCond CondThms SpecLedger.
Local Open Scope N_scope.

Lemma same_true a b : a = b -> same a b = true.
Proof. intros ->. unfold same. destruct (wval_dec b b); congruence. Qed.
Lemma same_false a b : a <> b -> same a b = false.
Proof. intros N. unfold same. destruct (wval_dec a b); congruence. Qed.
Lemma give_eq who k f a : give who k f a = f a + when (same a who) k.
Proof. unfold give, when, same. destruct (wval_dec a who); lia. Qed.
Lemma take_eq who k f a : k <= f who -> take who k f a + when (same a who) k = f a.
Proof. intros K. unfold take, when, same. destruct (wval_dec a who) as [->|]; lia. Qed.

Lemma one_reading w v : wf_tx w -> wf_tx v -> ser_tx w = ser_tx v -> w = v.
Proof. intros W V X. destruct (tx_prefix w v [] []) as [E _]; auto. rewrite !app_nil_r. exact X. Qed.

(** All that is taken was admitted. *)
Lemma taken_admitted E n L e L' : takes E n L e L' -> exists w, admitted E n L e w /\ turn L' = advance n w (turn L).
Proof. intros T. inversion T; subst; exists w; auto. Qed.

Lemma advance_eq n w f a : advance n w f a = f a + when (same a (account_of n (worigin w)) || same a (account_of n (wpayer w))) 1.
Proof.
  unfold advance, when, same. destruct (wval_dec a (account_of n (worigin w))), (wval_dec a (account_of n (wpayer w))); cbn [orb]; lia.
Qed.
Lemma advance_acts n w f a : acts n w a -> advance n w f a = f a + 1.
Proof. intros [-> | ->]; rewrite advance_eq, (same_true _ _ eq_refl); rewrite ?orb_true_r; reflexivity. Qed.
Lemma advance_mono n w f a : f a <= advance n w f a.
Proof. rewrite advance_eq. lia. Qed.

Lemma takes_mono E n L e L' a : takes E n L e L' -> turn L a <= turn L' a.
Proof. intros T. apply taken_admitted in T. destruct T as (w & _ & ->). apply advance_mono. Qed.
Lemma takes_all_mono E n es : forall L M a, takes_all E n L es M -> turn L a <= turn M a.
Proof.
  induction es as [|e es IH]; cbn [takes_all]; intros L M a.
  - intros ->. lia.
  - intros (L1 & T & R). apply (N.le_trans _ (turn L1 a)); [eapply takes_mono | eapply IH]; eassumption.
Qed.

Lemma turn_used E n L e L' a k : takes E n L e L' -> turn_of n e a k -> turn L a = k /\ turn L' a = k + 1.
Proof.
  intros T (w & X & W & O). apply taken_admitted in T. destruct T as (v & (X' & V & _ & _ & I & _) & ->).
  assert (v = w) as -> by (apply one_reading; congruence). destruct I as [I1 I2].
  destruct O as [[-> ->]|[-> ->]]; (split; [congruence|]); rewrite advance_acts by (unfold acts; auto); congruence.
Qed.

Lemma never_again E n L e L' M e' a k : takes E n L e L' -> turn_of n e a k -> later E n L' M -> turn_of n e' a k -> forall M', ~ takes E n M e' M'.
Proof.
  intros T O (es & R) O' M' T'. destruct (turn_used _ _ _ _ _ _ _ T O) as [_ A]. destruct (turn_used _ _ _ _ _ _ _ T' O') as [B _].
  pose proof (takes_all_mono _ _ _ _ _ a R). lia.
Qed.

(** ** Transfers *)

Lemma transfer_taken E n L e w to amount memo L' : e = ser_tx w -> wf_tx w -> w_payload w = WpTransfer to amount memo -> takes E n L e L' ->
  admitted E n L e w /\ w_conds w = [] /\ 0 < amount /\ to <> account_of n (worigin w)
  /\ amount <= charged n w L (account_of n (worigin w))
  /\ L' = {| coins := give to amount (take (account_of n (worigin w)) amount (charged n w L)); turn := advance n w (turn L) |}.
Proof.
  intros X W P T. inversion T as [v to' amount' memo' A P' C Am Ne Af|v ver hash contract fname args ms A P'|v ver hash contract fname args A P']; subst L';
    pose proof A as (X' & V & _); assert (v = w) as -> by (apply one_reading; congruence); try congruence.
  rewrite P in P'. injection P' as <- <- <-. auto 10.
Qed.

Lemma transfer_coins n w L to amount a : fee_in (wpayer w) <= coins L (account_of n (wpayer w)) ->
  amount <= charged n w L (account_of n (worigin w)) ->
  give to amount (take (account_of n (worigin w)) amount (charged n w L)) a
    + when (same a (account_of n (worigin w))) amount + when (same a (account_of n (wpayer w))) (fee_in (wpayer w))
  = coins L a + when (same a to) amount.
Proof.
  intros F A. rewrite give_eq. pose proof (take_eq _ _ (charged n w L) a A). pose proof (take_eq _ _ (coins L) a F) as Q.
  fold (charged n w L) in Q. lia.
Qed.

Lemma transfer_exact E n w L to amount memo : wf_tx w -> w_payload w = WpTransfer to amount memo ->
  let o := account_of n (worigin w) in let p := account_of n (wpayer w) in
  ((exists L', takes E n L (ser_tx w) L') <->
     node_accepts E n (ser_tx w) /\ w_conds w = [] /\ 0 < amount /\ to <> o
     /\ turn L o = nonce_in (worigin w) /\ turn L p = nonce_in (wpayer w)
     /\ fee_in (wpayer w) <= coins L p /\ amount + when (same o p) (fee_in (wpayer w)) <= coins L o)
  /\ forall L', takes E n L (ser_tx w) L' -> forall x,
       coins L' x + when (same x o) amount + when (same x p) (fee_in (wpayer w)) = coins L x + when (same x to) amount
       /\ turn L' x = turn L x + when (same x o || same x p) 1.
Proof.
  intros W P o p.
  assert (forall L', takes E n L (ser_tx w) L' -> admitted E n L (ser_tx w) w /\ w_conds w = [] /\ 0 < amount /\ to <> o
            /\ amount <= charged n w L o
            /\ L' = {| coins := give to amount (take o amount (charged n w L)); turn := advance n w (turn L) |}) as T.
  { intros L' T. eapply transfer_taken; try eassumption; reflexivity. }
  assert (Q : fee_in (wpayer w) <= coins L p -> charged n w L o + when (same o p) (fee_in (wpayer w)) = coins L o)
    by (intros F; apply (take_eq p (fee_in (wpayer w)) (coins L) o F)).
  split; [split|].
  - intros [L' T']. apply T in T'. destruct T' as ((_ & _ & Nn & Na & [I1 I2] & Fe) & Cs & Am & Ne & Af & _).
    fold o in I1. fold p in I2, Fe. specialize (Q Fe).
    split; [exists w; auto|]. repeat (split; [auto|]). lia.
  - intros ((v & X & V & Nn & Na) & Cs & Am & Ne & I1 & I2 & Fe & Af).
    assert (v = w) as -> by (symmetry; apply one_reading; assumption). specialize (Q Fe).
    eexists. apply (takes_transfer E n L (ser_tx w) w to amount memo); try assumption.
    + split; [reflexivity|]. repeat (split; [assumption|]). split; [split; symmetry; assumption | exact Fe].
    + fold o. lia.
  - intros L' T' x. apply T in T'. destruct T' as ((_ & _ & _ & _ & _ & Fe) & _ & _ & _ & Af & ->). cbn [coins turn].
    split; [apply transfer_coins; assumption | apply advance_eq].
Qed.

(** ** Runs of calls *)

Lemma pour_least l : forall f a, affordable l f -> f a <= pour l f a + stx_sent a (map fst l).
Proof.
  induction l as [|[m to] l IH]; intros f a; cbn [pour affordable map fst stx_sent]; [lia|].
  destruct m as [who k| |]; cbn [stx_sent]; [|apply IH..]. intros [K A]. specialize (IH _ a A). rewrite give_eq in IH.
  pose proof (take_eq who k f a K) as Q. unfold when, same in *. destruct (wval_dec who a), (wval_dec a who); try congruence; lia.
Qed.
Lemma none_sent a ms : Forall (fun m => source m <> a) ms -> stx_sent a ms = 0.
Proof.
  induction ms as [|m ms IH]; [reflexivity|]. intros F. inversion F; subst. destruct m; cbn [stx_sent source] in *; auto.
  destruct (wval_dec who a); [contradiction|]. rewrite IH by assumption. reflexivity.
Qed.

Lemma charged_least n w L a : coins L a <= charged n w L a + when (same a (account_of n (wpayer w))) (fee_in (wpayer w)).
Proof. unfold charged, take, when, same. destruct (wval_dec a (account_of n (wpayer w))); lia. Qed.

(** A call: what any account has left. *)
Lemma call_taken E n L e w ver hash contract fname args L' : e = ser_tx w -> wf_tx w -> w_payload w = WpCall ver hash contract fname args ->
  takes E n L e L' -> admitted E n L e w /\ turn L' = advance n w (turn L)
  /\ exists ms, (ms = [] \/ run_stands w ms) /\ Forall (fun m => source m = account_of n (worigin w) \/ is_contract (source m)) ms
     /\ forall a, coins L a <= coins L' a + when (same a (account_of n (wpayer w))) (fee_in (wpayer w)) + stx_sent a ms.
Proof.
  intros X W P T. inversion T as [v to amount memo A P' C Am Ne Af|v ver' hash' contract' fname' args' ms A P' S F Af|v ver' hash' contract' fname' args' A P']; subst L';
    pose proof A as (X' & V & _); assert (v = w) as -> by (apply one_reading; congruence); try congruence;
    (split; [exact A|]); (split; [reflexivity|]).
  - exists (map fst ms). split; [auto|]. split.
    + rewrite Forall_forall in *. intros m I. apply in_map_iff in I. destruct I as (y & <- & I). exact (F y I).
    + intros a. cbn [coins]. pose proof (pour_least ms _ a Af). pose proof (charged_least n w L a). lia.
  - exists []. split; [auto|]. split; [constructor|]. intros a. cbn [coins stx_sent]. pose proof (charged_least n w L a). lia.
Qed.

(** Only those who act pay. *)
Lemma only_actors E n L e L' v h : takes E n L e L' -> coins L' (WStd v h) < coins L (WStd v h) ->
  exists w, admitted E n L e w /\ acts n w (WStd v h).
Proof.
  intros T D. set (a := WStd v h) in *.
  assert (exists w, admitted E n L e w) as [w A] by (destruct (taken_admitted _ _ _ _ _ T) as (w & A & _); eauto).
  exists w. split; [exact A|]. unfold acts. destruct (wval_dec a (account_of n (worigin w))) as [|N1]; [auto|].
  destruct (wval_dec a (account_of n (wpayer w))) as [|N2]; [auto|]. exfalso.
  pose proof A as (X & W & _ & _ & _ & Fe). destruct (w_payload w) eqn:P.
  - destruct (transfer_taken _ _ _ _ _ _ _ _ _ X W P T) as (_ & _ & _ & _ & Am & ->). cbn [coins] in D.
    pose proof (transfer_coins n w L to amount a Fe Am) as Q. rewrite (same_false _ _ N1), (same_false _ _ N2) in Q. cbn [when] in Q. lia.
  - destruct (call_taken _ _ _ _ _ _ _ _ _ _ _ X W P T) as (_ & _ & ms & _ & F & Q). specialize (Q a).
    rewrite (same_false _ _ N2) in Q. cbn [when] in Q. rewrite none_sent in Q; [lia|].
    rewrite Forall_forall in *. intros m I Ea. destruct (F m I) as [G|G]; rewrite Ea in G; [contradiction | exact G].
Qed.
