(** Lemmas on post-conditions and the runs they let stand. *)

From Coq Require Import Lia ZifyBool ZifyNat ZifyN Permutation.
From Verif Require Import Base BaseFacts SpecText SpecAddr Clarity SpecWire Tx SpecTx WireFacts TxWire TxFacts TxThms SpecCond.
Local Open Scope N_scope.

Lemma amount_meaning k s n : amount_code (cond_code_code k) s n <-> amount_named k s n.
Proof.
  unfold amount_code. destruct k; cbn [cond_code_code amount_named];
  (split; [intros H; repeat (destruct H as [H|H]; [destruct H as [X H]; try discriminate X; lia|]); destruct H as [X H]; try discriminate X; lia
          | intros H; try contradiction]); [tauto | | | tauto | tauto].
  - right. left. split; [reflexivity | lia].
  - right. right. left. split; [reflexivity | lia].
Qed.

Lemma token_meaning k P : token_code (cond_code_code k) P <-> token_named k P.
Proof.
  unfold token_code. destruct k; cbn [cond_code_code token_named];
  (split; [intros [[X H]|[X H]]; try discriminate X; assumption | intros H; try contradiction]); [left | right]; auto.
Qed.

Lemma asset_fun i a b : asset_means i a -> asset_means i b -> a = b.
Proof.
  intros (S & C & N) (S' & C' & N'). destruct (address_spelling_fun _ _ _ _ _ S S') as [H V]. destruct a, b; cbn in *. congruence.
Qed.

Lemma holds_promised ms c w : cond_means c w -> (holds ms w <-> promised ms c).
Proof.
  destruct c as [addr n k|addr n k i|addr tok k i], w as [who code n'|who a code n'|who a tok' code]; cbn [cond_means holds promised]; try contradiction.
  - intros (_ & M & -> & ->). rewrite amount_meaning. split; [eauto|]. intros (w & M' & H). rewrite (means_fun _ _ _ M M'). exact H.
  - intros (_ & M & A & -> & ->). rewrite amount_meaning. split; [intros H; exists who, a; auto|]. intros (w & b & M' & B & H).
    rewrite (means_fun _ _ _ M M'), (asset_fun _ _ _ A B). exact H.
  - intros (_ & M & A & T & ->). rewrite token_meaning. split; [intros H; exists who, a, tok'; auto|]. intros (w & b & t & M' & B & T' & H).
    rewrite (means_fun _ _ _ M M'), (asset_fun _ _ _ A B), (means_fun _ _ _ T T'). exact H.
Qed.

Lemma covers_about m c w : cond_means c w -> (covers m w <-> about m c).
Proof.
  destruct c as [addr n k|addr n k i|addr tok k i], w as [who code n'|who a code n'|who a tok' code], m as [wh x|wh b x|wh b t];
    cbn [cond_means covers about]; try contradiction; try tauto.
  - intros (_ & M & _). split; [intros <-; exact M | intros M'; exact (means_fun _ _ _ M M')].
  - intros (_ & M & A & _). split; [intros [<- <-]; auto|]. intros [M' B]. split; [exact (means_fun _ _ _ M M') | exact (asset_fun _ _ _ A B)].
  - intros (_ & M & A & T & _). split; [intros (<- & <- & <-); auto|]. intros (M' & B & T').
    split; [exact (means_fun _ _ _ M M') | split; [exact (asset_fun _ _ _ A B) | exact (means_fun _ _ _ T T')]].
Qed.

Lemma Forall_two {A B} (R : A -> B -> Prop) (P : A -> Prop) (Q : B -> Prop) l m :
  (forall a b, R a b -> (P a <-> Q b)) -> Forall2 R l m -> (Forall P l <-> Forall Q m).
Proof.
  intros E F. induction F as [|a b l m X F IH]; [split; constructor|]. rewrite !Forall_cons_iff, (E a b X), IH. tauto.
Qed.
Lemma Exists_two {A B} (R : A -> B -> Prop) (P : A -> Prop) (Q : B -> Prop) l m :
  (forall a b, R a b -> (P a <-> Q b)) -> Forall2 R l m -> (Exists P l <-> Exists Q m).
Proof.
  intros E F. induction F as [|a b l m X F IH]; [split; intros H; inversion H|]. rewrite !Exists_cons, (E a b X), IH. tauto.
Qed.

Lemma stands_expected t w ms : tx_means t w -> (run_stands w ms <-> expected t ms).
Proof.
  intros (_ & _ & _ & _ & P & Cs & Pl). unfold run_stands, expected.
  assert (w_pcmode w = x02 <-> tx_pcmode t = PcDeny) as Pm by (rewrite P; destruct (tx_pcmode t); cbn; split; congruence).
  assert (Forall (holds ms) (w_conds w) <-> Forall (promised ms) (tx_conds t)) as H.
  { symmetry. apply (Forall_two cond_means); [|exact Cs]. intros a b X. symmetry. apply holds_promised, X. }
  assert (forall m, Exists (covers m) (w_conds w) <-> Exists (about m) (tx_conds t)) as K.
  { intros m. symmetry. apply (Exists_two cond_means); [|exact Cs]. intros a b X. symmetry. apply covers_about, X. }
  assert (Forall (fun m => Exists (covers m) (w_conds w)) ms <-> Forall (fun m => Exists (about m) (tx_conds t)) ms) as K'.
  { rewrite !Forall_forall. split; intros X m I; apply K, X, I. }
  destruct (tx_payload t) as [r n memo|ad c f args], (w_payload w) as [to n' m|v h c' f' args']; cbn [payload_means is_call] in *; try contradiction.
  - split.
    + intros E. split; [contradiction|]. intros _. rewrite E in Cs. inversion Cs. reflexivity.
    + intros [_ E]. rewrite (E (fun x => x)) in Cs. inversion Cs. reflexivity.
  - rewrite H, Pm, K'. tauto.
Qed.

Lemma node_stands_iff t w e ms : tx_means t w -> wf_tx w -> enc_tx t = Ok e -> (node_stands e ms <-> expected t ms).
Proof.
  intros M W En. destruct (enc_means t w e M En) as [F ->]. rewrite <- (stands_expected t w ms M). split.
  - intros (v & X & V & R). destruct (tx_prefix w v [] []) as [<- _]; auto. rewrite !app_nil_r. exact X.
  - intros R. exists w. auto.
Qed.

(** ** Sums *)

Lemma stx_at_least who n ms : In (MStx who n) ms -> n <= stx_sent who ms.
Proof.
  induction ms as [|m ms IH]; intros H; [contradiction|]. destruct H as [->|H].
  - cbn [stx_sent]. destruct (wval_dec who who); [lia | congruence].
  - specialize (IH H). destruct m as [w k|w b k|w b t]; cbn [stx_sent]; try exact IH. destruct (wval_dec w who); lia.
Qed.

Lemma stx_perm who l m : Permutation l m -> stx_sent who l = stx_sent who m.
Proof.
  induction 1 as [|x l m P IH|x y l|l m k P IH Q IH'].
  - reflexivity.
  - destruct x; cbn [stx_sent]; congruence.
  - destruct x, y; cbn [stx_sent]; try reflexivity. destruct (wval_dec who0 who), (wval_dec who1 who); lia.
  - congruence.
Qed.
Lemma ft_perm who a l m : Permutation l m -> ft_sent who a l = ft_sent who a m.
Proof.
  induction 1 as [|x l m P IH|x y l|l m k P IH Q IH'].
  - reflexivity.
  - destruct x; cbn [ft_sent]; congruence.
  - destruct x, y; cbn [ft_sent]; try reflexivity.
    destruct (wval_dec who0 who), (wval_dec who1 who), (wasset_dec asset a), (wasset_dec asset0 a); lia.
  - congruence.
Qed.
