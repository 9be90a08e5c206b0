(** C94: the setters of the two builders. *)

From Coq Require Import Strings.String Sorting.Permutation Lia.
From Verif Require Import Base BaseFacts Hash C32 Clarity Tx Builder SpecAddr SpecWire SpecSign WireFacts AuthThms FlowThms PropsText PropsClarity PropsSign Setters SpecSetters SettersThms.
Local Open Scope string_scope.
Local Open Scope list_scope.
Local Open Scope N_scope.

(** ** C94 *)

(** A chain of setters gives [b] exactly if none is called twice and every field of [b] is the value given, or the default. *)
Theorem C94_transfer : forall l b, transfer_with l = Some b <-> NoDup (map transfer_name l) /\ transfer_of l b.
Proof. exact transfer_with_iff. Qed.
Print Assumptions C94_transfer.
Theorem C94_call : forall l b, call_with l = Some b <-> NoDup (map call_name l) /\ call_of l b.
Proof. exact call_with_iff. Qed.
Print Assumptions C94_call.

(** It compiles exactly if moreover no field without a default is left out. *)
Theorem C94_transfer_compiles : forall l,
  (exists b, transfer_with l = Some b) <-> NoDup (map transfer_name l) /\ incl transfer_required (map transfer_name l).
Proof. exact transfer_compiles. Qed.
Print Assumptions C94_transfer_compiles.
Theorem C94_call_compiles : forall l,
  (exists b, call_with l = Some b) <-> NoDup (map call_name l) /\ incl call_required (map call_name l).
Proof. exact call_compiles. Qed.
Print Assumptions C94_call_compiles.

(** The order does not matter. *)
Theorem C94_order :
  (forall l l', Permutation l l' -> transfer_with l = transfer_with l') /\ (forall l l', Permutation l l' -> call_with l = call_with l').
Proof. split; [exact transfer_order|exact call_order]. Qed.
Print Assumptions C94_order.

(** The transaction of a chain of setters; [sponsored] is what decides whether there is one. *)
Theorem C94_transfer_built : forall E l b, transfer_with l = Some b ->
  (In (SetTSponsored true) l -> @build_transfer unit E b = Panic PUnimplemented)
  /\ (~ In (SetTSponsored true) l -> exists to amount sk net fee nonce anchor mode conds memo,
        In (SetTRecipient to) l /\ In (SetTAmount amount) l /\ In (SetTSender sk) l /\ In (SetTNetwork net) l
        /\ given_or SetTFee 0 l fee /\ given_or SetTNonce 0 l nonce /\ given_or SetTAnchor AnAny l anchor
        /\ given_or SetTMode PcAllow l mode /\ given_or SetTConds [] l conds /\ given_or SetTMemo [] l memo
        /\ @build_transfer unit E b = Ok (unsigned net (pubkey_of E sk) fee nonce anchor mode conds (PTransfer to amount memo))).
Proof.
  intros E l b H. apply C94_transfer in H. destruct H as [ND (? & ? & ? & ? & ? & ? & ? & ? & ? & ? & S)].
  rewrite build_transfer_cases. split; intros I.
  - destruct S as [S|[_ S]]; [|now destruct (S true)]. destruct (st_sponsored b); [reflexivity|].
    exfalso. refine (_ (nodup_same transfer_name l _ _ ND I S eq_refl)). discriminate.
  - destruct S as [S|[S _]]; [destruct (st_sponsored b); [contradiction|]|rewrite S]; repeat eexists; eassumption.
Qed.
Print Assumptions C94_transfer_built.
Theorem C94_call_built : forall E l b h v, call_with l = Some b -> address_spelling h v (cc_address b) -> length h = 20%nat ->
  (In (SetCSponsored true) l -> build_call E b = Panic PUnimplemented)
  /\ (~ In (SetCSponsored true) l -> exists addr contract fname args sk net fee nonce anchor mode conds,
        In (SetCAddress addr) l /\ address_spelling h v addr /\ In (SetCContract contract) l /\ In (SetCFnName fname) l
        /\ In (SetCFnArgs args) l /\ In (SetCSender sk) l /\ In (SetCNetwork net) l
        /\ given_or SetCFee 0 l fee /\ given_or SetCNonce 0 l nonce /\ given_or SetCAnchor AnAny l anchor
        /\ given_or SetCMode PcAllow l mode /\ given_or SetCConds [] l conds
        /\ build_call E b = Ok (unsigned net (pubkey_of E sk) fee nonce anchor mode conds
                                  (PCall {| addr_hash := h; addr_version := v |} contract fname args))).
Proof.
  intros E l b h v H A L. apply C94_call in H. destruct H as [ND (? & ? & ? & ? & ? & ? & ? & ? & ? & ? & ? & S)].
  split; intros I.
  - destruct S as [S|[_ S]]; [|now destruct (S true)]. destruct (build_call_cases E b) as [(h' & v' & A' & _ & X)|[(h' & v' & A' & L' & _)|[N _]]].
    + rewrite X. destruct (cc_sponsored b); [reflexivity|].
      exfalso. refine (_ (nodup_same call_name l _ _ ND I S eq_refl)). discriminate.
    + destruct (address_spelling_fun h v h' v' _ A A') as [<- _]. contradiction.
    + now destruct (N h v).
  - assert (F : cc_sponsored b = false) by (destruct S as [S|[S _]]; [destruct (cc_sponsored b); [contradiction|reflexivity]|exact S]).
    exists (cc_address b), (cc_contract b), (cc_fname b), (cc_args b), (cc_sender b), (cc_network b), (cc_fee b), (cc_nonce b), (cc_anchor b),
      (cc_pcmode b), (cc_conds b). repeat (split; [assumption|]). now apply built_call.
Qed.
Print Assumptions C94_call_built.

Definition ex_setters : list transfer_setter :=
  [SetTNetwork NetTestnet; SetTMemo (str "hi"); SetTAmount 5; SetTSender sk1; SetTRecipient (CPrinStd sample_addr); SetTNonce 3].
Definition ex_call_setters : list call_setter :=
  [SetCFnName (str "mint"); SetCAddress sample_addr; SetCNetwork NetMainnet; SetCFnArgs [CUInt 7]; SetCSponsored false; SetCSender sk1;
   SetCFee 200; SetCContract (str "bns")].
Example C94_ex : option_map (fun b => (st_fee b, st_nonce b, st_memo b)) (transfer_with ex_setters) = Some (0, 3, str "hi")
  /\ transfer_with (SetTFee 1 :: SetTFee 1 :: ex_setters) = None /\ transfer_with (tl ex_setters) = None
  /\ ~ In (SetTSponsored true) ex_setters.
Proof.
  refine (conj eq_refl (conj eq_refl (conj eq_refl _))).
  cbn [ex_setters In]. intros I. repeat match type of I with _ \/ _ => destruct I as [I|I]; [discriminate I|] end. exact I.
Qed.
Example C94_call_ex : option_map (fun b => (cc_fee b, cc_args b, cc_address b)) (call_with ex_call_setters) = Some (200, [CUInt 7], sample_addr)
  /\ address_spelling (repeat x01 20) x16 sample_addr.
Proof. split; [reflexivity|]. apply C07_address_decode_sound. vm_compute. reflexivity. Qed.
