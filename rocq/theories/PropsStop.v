(** Property theorems C89: the complete list of calls that abort. *)

From Coq Require Import Strings.String.
From Verif Require Import Base BaseFacts Sha2 SpecText SpecUtf8 SpecAddr SpecWire Hex Hash C32 B58 Clarity SpecTx Tx SpecSign SpecFault Signer
  Builder Wallet Rpc Derive Calls SpecStop.
From Verif Require Import ClarityFacts ClarityTotal ClarityShort FaultDecThms SignFacts SignThms AuthThms StopThms PropsClarity PropsTx PropsSign.
Local Open Scope N_scope.

(** ** C89 *)

(** A call aborts with [p] exactly if the list has a clause that says so, and it always ends. *)
Theorem C89_stops_exactly : forall H E (u : use H), possible u ->
  (forall p, ending_of E u = Stops p <-> stops E u p) /\ ending_of E u <> Hangs.
Proof. exact @all_listed. Qed.
Print Assumptions C89_stops_exactly.

Theorem C89_otherwise_returns : forall H E (u : use H), possible u -> (forall p, ~ stops E u p) -> ending_of E u = Returns.
Proof.
  intros H E u P N. destruct (all_listed E u P) as [S T]. destruct (ending_of E u) as [|p|] eqn:X; [reflexivity| |contradiction].
  destruct (N p). apply S. reflexivity.
Qed.
Print Assumptions C89_otherwise_returns.

(** Hex, c32 without a version byte, everything that writes, the wallet and the client never abort. *)
Theorem C89_never : forall H E,
  (forall s, ending_of E (UHexDecode H s) = Returns) /\ (forall s, ending_of E (UC32Decode H s) = Returns)
  /\ (forall h v, ending_of E (UC32Address H h v) = Returns) /\ (forall s, ending_of E (UC32AddressDecode H s) = Returns)
  /\ (forall v, ending_of E (UEncode H v) = Returns /\ ending_of E (UHexPrefixed H v) = Returns)
  /\ (forall p, ending_of E (UEncPayload H p) = Returns) /\ (forall l, ending_of E (UEncConditions H l) = Returns)
  /\ (forall t, ending_of E (UEncTx H t) = Returns /\ ending_of E (UTxHash H t) = Returns)
  /\ (forall t, sound_auth (tx_auth t) -> ending_of E (USignerNew H t) = Returns)
  /\ (forall n fs t, ending_of E (UDerived H n fs t) = Returns)
  /\ (forall s, ending_of E (UWallet H s) = Returns) /\ (forall w i, ending_of E (UAccount H w i) = Returns)
  /\ (forall a v, ending_of E (UAccountAddress H a v) = Returns) /\ (forall a, ending_of E (UAccountPrivate H a) = Returns)
  /\ (forall http url t, ending_of E (UEstimate H http url t) = Returns /\ ending_of E (UBroadcast H http url t) = Returns)
  /\ (forall http url a n f args s, ending_of E (UReadOnly H http url a n f args s) = Returns)
  /\ (forall http url, ending_of E (UInfo H http url) = Returns)
  /\ (forall http url a, ending_of E (UAddressInfo H http url a) = Returns).
Proof.
  intros H E. splits; intros; splits; (apply C89_otherwise_returns; [first [exact I|assumption]|intros q X; inversion X]).
Qed.
Print Assumptions C89_never.

(** Being cut off is about the end of the input: some continuation cures it, and what is not cut off stays so. *)
Theorem C89_cut : forall b, (cut b -> exists t, t <> [] /\ ~ cut (b ++ t)) /\ (~ cut b -> forall t, ~ cut (b ++ t)).
Proof.
  intros b. split.
  - intros C. assert (X : decode_clarity_type b = Panic PIndex) by (apply cut_iff; auto).
    destruct (decode_answers b) as [t A]. exists t. split.
    + intros ->. rewrite app_nil_r, X in A. destruct A as [[? A]|[? A]]; discriminate.
    + intros D. assert (Y : decode_clarity_type (b ++ t) = Panic PIndex) by (apply cut_iff; auto).
      rewrite Y in A. destruct A as [[? A]|[? A]]; discriminate.
  - intros N t C. apply N. assert (Y : decode_clarity_type (b ++ t) = Panic PIndex) by (apply cut_iff; auto).
    destruct (decode_clarity_type b) as [c|e|p|] eqn:X.
    + rewrite (decode_stable b t) in Y by (left; eauto). congruence.
    + rewrite (decode_stable b t) in Y by (right; eauto). congruence.
    + apply cut_iff in X. apply X.
    + destruct (decode_nofuel b X).
Qed.
Print Assumptions C89_cut.

(** Every spending condition a program can get hold of is a possible argument. *)
Theorem C89_conditions : forall E c, reachable E c -> sound_cond c.
Proof. intros E c R. destruct (reachable_safe E c R) as (M & T & _). split; assumption. Qed.
Print Assumptions C89_conditions.

(** Finding: the reasons are not empty; text and bytes from outside are enough. *)
Theorem C89_no_abort_refuted : forall H E, exists s b : bytes,
  possible (UB58CheckDecode H s) /\ stops E (UB58CheckDecode H s) POverflow
  /\ stops E (UDecode H b) PIndex /\ stops E (UAddress H (str "SP10AASD19F"%string)) PCopyLen.
Proof.
  intros H E. exists [], [x02; x00; x00; x00; x05]. splits.
  - exists []. split; [constructor|reflexivity].
  - apply st_b58check_few with []; [|repeat constructor]. exists []. splits; [constructor|reflexivity..].
  - apply (C89_stops_exactly H E (UDecode H [x02; x00; x00; x00; x05]) I). vm_compute. reflexivity.
  - apply (C89_stops_exactly H E (UAddress H (str "SP10AASD19F"%string)) I). vm_compute. reflexivity.
Qed.
Print Assumptions C89_no_abort_refuted.

(** A condition with 65536 signatures. *)
Definition ex_full : scond := SMulti (with_fields ex_zero0 (repeat (FSig (repeat x01 65)) (N.to_nat 65536))).

Example C89_ex : forall H,
  possible (UVerify H ex_listed (repeat x05 32) x04) /\ stops toy (UVerify H ex_listed (repeat x05 32) x04) POverflow
  /\ possible (UTxSign H ex_multi_tx sk1) /\ ending_of toy (UTxSign H ex_multi_tx sk1) = Returns
  /\ sound_cond ex_full /\ full ex_full
  /\ stops toy (UDecodeAs H TInt [x00; x01]) PIndex /\ ending_of toy (UDecodeAs H TInt [x01]) = Returns
  /\ stops toy (UDecNever H UdTransaction []) PUnimplemented.
Proof.
  intros H.
  assert (L : sound_cond ex_listed).
  { apply (C89_conditions toy). apply listed_reachable; [|reflexivity].
    apply reach_multi with (pks := [pk1]) (fee := 0) (nonce := 0) (required := x00) (mode := P2SH). vm_compute. reflexivity. }
  splits.
  - exact L.
  - apply (C89_stops_exactly H toy (UVerify H ex_listed (repeat x05 32) x04) L). vm_compute. reflexivity.
  - split; [|right; reflexivity]. constructor.
  - vm_compute. reflexivity.
  - split; [|left; reflexivity]. cbn [typed ex_full with_fields ms_fields]. apply Forall_forall. intros f F. apply repeat_spec in F. subst f. reflexivity.
  - unfold full. vm_compute. discriminate.
  - apply (C89_stops_exactly H toy (UDecodeAs H TInt [x00; x01]) I). vm_compute. reflexivity.
  - vm_compute. reflexivity.
  - constructor.
Qed.
