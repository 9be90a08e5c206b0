(** Property theorems C69: equality of post-conditions, payloads and builders. *)

From Coq Require Import Strings.String.
From Verif Require Import Base BaseFacts Hex SpecText SpecAddr Hash C32 Clarity SpecWire SpecShow ShowFacts Tx SpecTx Builder
     WireFacts ClarityFacts TxFacts PropsClarity PropsTx Debug SpecDebug DebugThms.
Local Open Scope N_scope.

(** ** C69 *)
(** [==] of post-conditions compares debug texts; it is exact if the texts in them have no closing parenthesis. *)
Theorem C69_conditions : forall a b, Forall tidy_cond a -> Forall tidy_cond b -> (conds_eq a b = true <-> a = b).
Proof. intros a b A B. rewrite conds_eq_iff. split; [apply conds_told; assumption | intros ->; reflexivity]. Qed.
Print Assumptions C69_conditions.

Theorem C69_equivalence :
  (forall a, conds_eq a a = true) /\ (forall a b, conds_eq a b = conds_eq b a)
  /\ (forall a b c, conds_eq a b = true -> conds_eq b c = true -> conds_eq a c = true).
Proof.
  repeat split.
  - intros a. apply conds_eq_iff. reflexivity.
  - intros a b. destruct (conds_eq a b) eqn:E, (conds_eq b a) eqn:F; auto; rewrite conds_eq_iff in *.
    + symmetry in E. apply conds_eq_iff in E. congruence.
    + symmetry in F. apply conds_eq_iff in F. congruence.
  - intros a b c. rewrite !conds_eq_iff. congruence.
Qed.
Print Assumptions C69_equivalence.

(** The debug text of a value always tells its type, and of a tidy one the whole value. *)
Theorem C69_debug_type : forall a b, debug a = debug b -> type_of a = type_of b.
Proof. intros a b H. destruct a, b; try discriminate H; reflexivity. Qed.
Print Assumptions C69_debug_type.

Theorem C69_debug_value : forall a b, tidy a -> tidy b -> (debug a = debug b <-> a = b).
Proof. intros a b A B. split; [apply debug_inj; assumption | intros ->; reflexivity]. Qed.
Print Assumptions C69_debug_value.

Theorem C69_asset : forall a b, asset_eq a b = true <-> a = b.
Proof.
  intros [a c s] [a' c' s']. unfold asset_eq. cbn [ai_addr ai_contract ai_asset].
  rewrite !andb_true_iff, std_eq, !lps_eq. split; [intros [[-> ->] ->]; reflexivity | intros H; inversion H; auto].
Qed.
Print Assumptions C69_asset.

Theorem C69_call_payload : forall ad ad' c c' f f' l l', every clean l -> every clean l' ->
  (call_payload_eq ad ad' c c' f f' l l' = true <-> PCall ad c f l = PCall ad' c' f' l').
Proof.
  intros ad ad' c c' f f' l l' A B. unfold call_payload_eq. rewrite !andb_true_iff, address_eq_iff, !lps_eq, (args_eq l l' A B).
  split; [intros [[[-> ->] ->] ->]; reflexivity | intros H; inversion H; auto].
Qed.
Print Assumptions C69_call_payload.

(** Builders of the same Rust type (same network, same recipient type) with clean values are equal iff they agree. *)
Theorem C69_transfer : forall a b, st_network a = st_network b -> clean (st_recipient a) -> clean (st_recipient b) ->
  Forall tidy_cond (st_conds a) -> Forall tidy_cond (st_conds b) -> (transfer_eq a b = true <-> a = b).
Proof.
  intros [r n s w f k an m p c sp] [r' n' s' w' f' k' an' m' p' c' sp'].
  cbn [st_recipient st_amount st_sender st_network st_fee st_nonce st_anchor st_memo st_pcmode st_conds st_sponsored].
  intros <- R R' C C'. unfold transfer_eq.
  cbn [st_recipient st_amount st_sender st_network st_fee st_nonce st_anchor st_memo st_pcmode st_conds st_sponsored].
  rewrite !andb_true_iff, !N.eqb_eq, !bytes_eqb_eq, anchor_eq_iff, pcmode_eq_iff, Bool.eqb_true_iff, (clean_eq r r' R R'), (C69_conditions c c' C C').
  split; [intros H; intuition congruence | intros H; inversion H; intuition congruence].
Qed.
Print Assumptions C69_transfer.

Theorem C69_call : forall a b, cc_network a = cc_network b -> every clean (cc_args a) -> every clean (cc_args b) ->
  Forall tidy_cond (cc_conds a) -> Forall tidy_cond (cc_conds b) -> (call_eq a b = true <-> a = b).
Proof.
  intros [ad ct fn l s w f k an p c sp] [ad' ct' fn' l' s' w' f' k' an' p' c' sp'].
  cbn [cc_address cc_contract cc_fname cc_args cc_sender cc_network cc_fee cc_nonce cc_anchor cc_pcmode cc_conds cc_sponsored].
  intros <- A A' C C'. unfold call_eq.
  cbn [cc_address cc_contract cc_fname cc_args cc_sender cc_network cc_fee cc_nonce cc_anchor cc_pcmode cc_conds cc_sponsored].
  rewrite !andb_true_iff, !N.eqb_eq, !bytes_eqb_eq, anchor_eq_iff, pcmode_eq_iff, Bool.eqb_true_iff, (args_eq l l' A A'), (C69_conditions c c' C C').
  split; [intros H; intuition congruence | intros H; inversion H; intuition congruence].
Qed.
Print Assumptions C69_call.

Example C69_ex : Forall tidy_cond ex_conds /\ every clean [sample; CTrue] /\ conds_eq ex_conds ex_conds = true
  /\ conds_eq ex_conds (tl ex_conds) = false /\ debug sample = str "TupleCV(who: ContractPrincipalCV(SPG2081040G2081040G2081040G208107P280EP.abc), xs: ListCV(IntCV(-5), OkCV(SomeCV(""hi""))))".
Proof.
  assert (forall s, existsb (byte_eqb x29) s = false -> closed_text s) as K.
  { intros s H I. assert (existsb (byte_eqb x29) s = true); [|congruence]. apply existsb_exists. exists x29. split; [exact I | reflexivity]. }
  assert (forall s x, existsb (byte_eqb x) s = false -> ~ In x s) as K'.
  { intros s x H I. assert (existsb (byte_eqb x) s = true); [|congruence]. apply existsb_exists. exists x. split; [exact I | apply byte_eqb_eq; reflexivity]. }
  assert (tidy_asset ex_asset) as T by (repeat split; apply K; vm_compute; reflexivity).
  split; [|split; [|split; [vm_compute; reflexivity | split; vm_compute; reflexivity]]].
  - constructor; [apply K; vm_compute; reflexivity|].
    constructor; [split; [|exact T]; repeat split; (apply K || apply K'); vm_compute; reflexivity|].
    constructor; [|constructor]. split; [apply K; vm_compute; reflexivity|]. split; [|exact T].
    cbn. repeat split; try ((apply K || apply K'); vm_compute; reflexivity). all: intros H; repeat (destruct H as [H|H]; [discriminate H|]); exact H.
  - destruct C24_ex as [A _]. cbn. auto.
Qed.

(** Finding: with a closing parenthesis in a string, one condition can equal two. *)
Definition nft (s : bytes) : condition := CondNFT (CPrinStd sample_addr) (CAscii s) CcHas ex_asset.
Definition forged : bytes :=
  str "a), code: Has, info: AssetInfo { address: StandardPrincipalCV("%string ++ sample_addr
  ++ str "), name: LengthPrefixedStr(tok), asset: LengthPrefixedStr(coin) } }, NonFungiblePostCondition { address: StandardPrincipalCV("%string ++ sample_addr
  ++ str "), name: StringAsciiCV(b"%string.
Theorem C69_conditions_refuted : exists a b ea eb, conds_eq a b = true /\ count a <> count b
  /\ enc_conditions a = Ok ea /\ enc_conditions b = Ok eb /\ ea <> eb.
Proof.
  exists [nft forged], [nft (str "a"); nft (str "b")]. eexists _, _.
  refine (conj _ (conj _ (conj _ (conj _ _)))); [vm_compute; reflexivity | discriminate | vm_compute; reflexivity | vm_compute; reflexivity | vm_compute; discriminate].
Qed.
Print Assumptions C69_conditions_refuted.

(** Finding: likewise call payloads, whose arguments are compared by display text without types. *)
Theorem C69_call_payload_refuted : exists ad l l' e e', call_payload_eq ad ad (str "abc") (str "abc") (str "f") (str "f") l l' = true
  /\ enc_payload (PCall ad (str "abc") (str "f") l) = Ok e /\ enc_payload (PCall ad (str "abc") (str "f") l') = Ok e' /\ e <> e'.
Proof.
  exists ex_address, [CLps (str "u5")], [CUInt 5]. eexists _, _.
  refine (conj _ (conj _ (conj _ _))); [vm_compute; reflexivity | vm_compute; reflexivity | vm_compute; reflexivity | discriminate].
Qed.
Print Assumptions C69_call_payload_refuted.
