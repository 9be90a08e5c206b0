(** Property theorems C64: what signing does to the length of the encoding. *)

From Coq Require Import Strings.String Lia.
From Verif Require Import Base BaseFacts Sha2 SpecText SpecAddr Hash C32 Clarity SpecWire Tx SpecTx Signer Builder
     Rpc SpecClient TxWire TxFacts TxThms SpecSign SignFacts SignThms HistThms PlanThms AuthThms ClientThms
     PropsClarity PropsTx PropsSign SpecBind BindThms LengthThms.
Local Open Scope N_scope.

(** ** C64 *)
(** Whatever is asked of a signer, the encoding grows by 66 bytes for every signature and 34 for every key listed. *)
Theorem C64_length : forall E s l e f, typed_tx (sg_tx s) -> Forall typed_op l -> enc_tx (sg_tx s) = Ok e ->
  enc_tx (sg_tx (perform_all E s l)) = Ok f ->
  count e + auth_weight (sg_tx (perform_all E s l)) = count f + auth_weight (sg_tx s).
Proof. exact history_length. Qed.
Print Assumptions C64_length.

(** Signing never makes a transaction unencodable. *)
Theorem C64_still_encodes : forall E s l e, enc_tx (sg_tx s) = Ok e -> few_fields (sg_tx (perform_all E s l)) ->
  exists f, enc_tx (sg_tx (perform_all E s l)) = Ok f.
Proof. intros E s l e A F. exact (signed_encodes _ _ e (history_same E l s) F A). Qed.
Print Assumptions C64_still_encodes.

(** With single-signature conditions the length never changes, so the length given to the fee estimator is exact. *)
Theorem C64_single : forall E http url t w s l f, tx_means t w -> fits_tx w -> typed_tx t ->
  (exists c, origin_of t = SStd c) -> (forall p, sponsor_of t = Some p -> exists c, p = SStd c) ->
  signer_new t = Ok s -> Forall typed_op l -> enc_tx (sg_tx (perform_all E s l)) = Ok f ->
  estimate_result (http (post_json (url ++ str "/v2/fees/transaction"%string) (fee_question w))) (estimate_fee http url t)
  /\ count f = count (ser_tx w).
Proof.
  intros E http url t w s l f M F T O P S To B. split; [apply estimate_asks; assumption|].
  apply signer_new_ok in S. destruct S as (h & _ & ->). symmetry.
  refine (single_length E _ l _ f _ _ _ To _ B); cbn [sg_tx]; auto. apply tx_iff. eauto.
Qed.
Print Assumptions C64_single.

(** Finding: for an m-of-n origin the length given to the estimator before signing is too small by 66 bytes for each of
    the m signatures and 34 for each of the other n-m keys. *)
Theorem C64_multi : forall E http url t w l ks fee nonce m mode c s s' f, tx_means t w -> fits_tx w ->
  map (step_key E) l = ks -> @multi_new unit ks fee nonce m mode = Ok c -> count (filter is_sign l) = Byte.to_N m ->
  Forall step_valid l -> origin_of t = SMulti c -> (forall p, sponsor_of t = Some p -> typed p) ->
  signer_new t = Ok s -> succeeds E s (map step_op l) s' -> enc_tx (sg_tx s') = Ok f ->
  estimate_result (http (post_json (url ++ str "/v2/fees/transaction"%string) (fee_question w))) (estimate_fee http url t)
  /\ count f = count (ser_tx w) + 66 * Byte.to_N m + 34 * (count ks - Byte.to_N m).
Proof.
  intros E http url t w l ks fee nonce m mode c s s' f M F K N C V O T S Su B. split; [apply estimate_asks; assumption|].
  refine (multi_grows E t l ks fee nonce m mode c _ s s' f K N C V O T _ S Su B). apply tx_iff. eauto.
Qed.
Print Assumptions C64_multi.

Definition enc_len (t : tx) : option N := match enc_tx t with Ok e => Some (count e) | _ => None end.
Definition ex_multi_done : res tx_err tx := let* s := signer_new ex_multi_tx in Ok (sg_tx (perform_all toy s (map step_op ex_steps))).
Example C64_ex : exists t, ex_multi_done = Ok t /\ typed_tx ex_multi_tx /\ few_fields t
  /\ enc_len ex_multi_tx = Some 341 /\ enc_len t = Some (341 + 66 * 2 + 34 * (3 - 2))
  /\ exists u, tx_sign toy ex_unsigned sk1 = Ok u /\ enc_len ex_unsigned = enc_len u /\ typed_tx u.
Proof.
  eexists. split; [vm_compute; reflexivity|]. split; [split; [constructor | discriminate]|].
  split; [split; [vm_compute; reflexivity | discriminate]|]. split; [vm_compute; reflexivity|]. split; [vm_compute; reflexivity|].
  eexists. split; [vm_compute; reflexivity|]. split; [vm_compute; reflexivity|]. split; [vm_compute; reflexivity | discriminate].
Qed.
