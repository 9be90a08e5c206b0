(** Property theorem C95: types of the user's own in values, payloads, conditions and networks. *)

From Coq Require Import Strings.String.
From Verif Require Import Base BaseFacts Sha2 SpecText SpecAddr Hash C32 Clarity SpecWire Tx TxFacts SpecTx Signer Builder
     SpecSign SignFacts SignThms HistThms PlanThms AuthThms PropsClarity PropsTx PropsSign SpecBind BindThms SpecFault SpecShow Rpc
     SpecClient Own SpecOwn OwnThms.
Local Open Scope string_scope.
Local Open Scope list_scope.
Local Open Scope N_scope.

(** ** Values *)

(** A value with parts of the user's own is written with their bytes in place, ... *)
Theorem C95_value_exact : forall v e, oencode v = Ok e <-> own_ser v e.
Proof. exact oencode_iff. Qed.
Print Assumptions C95_value_exact.

(** ... and one of them without bytes is reported as it is: the first in order, whether it is an error or a panic. *)
Theorem C95_value_fails : forall v r, no_bytes r -> (oencode v = r <-> own_fails v r).
Proof. exact oencode_fails. Qed.
Print Assumptions C95_value_fails.

(** Payloads and conditions of the library around values of the user's own. *)
Theorem C95_transfer : forall r n m e, enc_otransfer r n m = Ok e <->
  exists b f, own_ser r b /\ memo_field m f /\ e = x00 :: b ++ big_endian 8 n ++ f.
Proof. exact otransfer_iff. Qed.
Print Assumptions C95_transfer.
Theorem C95_call : forall a c f l e, enc_ocall a c f l = Ok e <->
  count c <= 128 /\ count f <= 128 /\ exists b, own_ser (OFnArgs l) b
    /\ e = x02 :: addr_version a :: addr_hash a ++ ser_name c ++ ser_name f ++ b.
Proof. exact ocall_iff. Qed.
Print Assumptions C95_call.
Theorem C95_nft : forall a n k i e, enc_ocond_nft a n k i = Ok e <->
  exists v w x b, a = OLib v /\ is_principal w /\ means v w /\ wall fits1 w /\ asset_means i x /\ fits_asset x /\ own_ser n b
    /\ e = x02 :: ser_who w ++ ser_asset x ++ b ++ [cond_code_code k].
Proof. exact onft_iff. Qed.
Print Assumptions C95_nft.

(** Nobody is watched by a value of the user's own, even one with the bytes of a principal. *)
Theorem C95_principal : forall a, (forall v, a <> OLib v) ->
  (forall n k, enc_ocond_stx a n k = Err ClBadDowncast) /\ (forall n k i, enc_ocond_ft a n k i = Err ClBadDowncast)
  /\ forall n k i, enc_ocond_nft a n k i = Err ClBadDowncast.
Proof. intros a H. destruct a; [now destruct (H v)|repeat split..]. Qed.
Print Assumptions C95_principal.

(** Elements of a list are not told apart by their bytes once types may write what they like. *)
Theorem C95_list_refuted : exists l l' e, l <> l' /\ length l = length l' /\ oencode (OList l) = Ok e /\ oencode (OList l') = Ok e.
Proof.
  exists [OOwn (Ok []); OLib CTrue], [OLib CTrue; OOwn (Ok [])]. eexists. split; [discriminate|]. repeat split; reflexivity.
Qed.
Print Assumptions C95_list_refuted.

(** ** Transactions *)

Theorem C95_tx_exact : forall t e, enc_otx t = Ok e <->
  exists cs p, own_parts t cs p /\ fits_auth (auth_wire (o_auth t)) /\ count cs < 2 ^ 32 /\ e = own_text (auth_wire (o_auth t)) t cs p.
Proof. exact otx_iff. Qed.
Print Assumptions C95_tx_exact.

Theorem C95_tx_fails : forall t r, no_bytes r -> (enc_otx t = r <-> otx_fails t r).
Proof. exact otx_refused. Qed.
Print Assumptions C95_tx_fails.

Theorem C95_hash_exact : forall t h, o_initial_hash t = Ok h <->
  exists cs p, own_parts t cs p /\ count cs < 2 ^ 32 /\ h = sha512_256 (own_cleared t cs p).
Proof. exact o_hash_iff. Qed.
Print Assumptions C95_hash_exact.

(** The hash commits to the head, to the origin, to the number of conditions and to all bytes from there on ... *)
Theorem C95_commits : forall t u cs p ds q h, own_parts t cs p -> own_parts u ds q ->
  wf_auth (auth_wire (o_auth t)) -> wf_auth (auth_wire (o_auth u)) -> o_initial_hash t = Ok h -> o_initial_hash u = Ok h ->
  (same_head t u /\ same_origin (o_auth t) (o_auth u) /\ count cs = count ds /\ concat cs ++ p = concat ds ++ q)
  \/ collision (own_cleared t cs p) (own_cleared u ds q).
Proof. exact own_commits. Qed.
Print Assumptions C95_commits.

(** ... which are the same conditions and the same payload if no condition is the beginning of another, ... *)
Theorem C95_delimited : forall K cs ds p q, self_delimiting K -> Forall K cs -> Forall K ds -> count cs = count ds ->
  concat cs ++ p = concat ds ++ q -> cs = ds /\ p = q.
Proof. intros K cs ds p q S. exact (delimited K S cs ds p q). Qed.
Print Assumptions C95_delimited.

(** ... as the library's own are not ... *)
Theorem C95_library_delimits : self_delimiting (fun b => exists w, wf_cond w /\ b = ser_cond w).
Proof. exact library_delimits. Qed.
Print Assumptions C95_library_delimits.

(** ... but can be two different transactions otherwise: here one with a condition and a payload that begins with what the other
    takes for the end of its condition. *)
Theorem C95_boundary_refuted : exists t u h e, same_head t u /\ o_auth t = o_auth u /\ o_conds t <> o_conds u /\ o_payload t <> o_payload u
  /\ length (o_conds t) = length (o_conds u) /\ wf_auth (auth_wire (o_auth t))
  /\ enc_otx t = Ok e /\ enc_otx u = Ok e /\ o_initial_hash t = Ok h /\ o_initial_hash u = Ok h.
Proof.
  set (n := {| on_version := VMainnet; on_chain := ChMainnet |}).
  exists (own_unsigned n pk1 180 7 AnAny PcDeny [Ok [x0a]] (Ok [x01; x02])), (own_unsigned n pk1 180 7 AnAny PcDeny [Ok [x0a; x01]] (Ok [x02])).
  eexists. eexists. split; [repeat split|]. split; [reflexivity|]. split; [discriminate|]. split; [discriminate|]. split; [reflexivity|].
  split; [cbn; repeat split; try reflexivity; auto|]. split; [vm_compute; reflexivity|]. split; [vm_compute; reflexivity|].
  split; vm_compute; reflexivity.
Qed.
Print Assumptions C95_boundary_refuted.

(** ** Signing *)

(** The participants of the origin's plan sign it: nothing but signatures changes, and the result verifies. *)
Theorem C95_signs : forall E t l h, ecdsa_correct E -> plan E (own_origin t) l -> o_initial_hash t = Ok h ->
  exists s s', osigner_new t = Ok s /\ osucceeds E s (map step_op l) s'
    /\ own_same_terms t (os_tx s') /\ o_verify_origin E (os_tx s') = Ok (os_hash s').
Proof. exact own_origin_plan. Qed.
Print Assumptions C95_signs.

Theorem C95_sponsored : forall E t o p q l sks h, ecdsa_correct E -> o_auth t = ASponsored o q -> plan E o l -> plan E p (map Sign sks) ->
  o_initial_hash t = Ok h ->
  exists s s1 s2 s3, osigner_new t = Ok s /\ osucceeds E s (map step_op l) s1
    /\ osigner_new_sponsor E (os_tx s1) p = Ok s2 /\ osucceeds E s2 (map SignSponsor sks) s3
    /\ own_same_terms (o_with_auth t (ASponsored o p)) (os_tx s3)
    /\ auth_verify E (o_auth (os_tx s3)) h = Ok tt /\ o_initial_hash (os_tx s3) = Ok h.
Proof. exact own_sponsored_flow. Qed.
Print Assumptions C95_sponsored.
Theorem C95_sponsored_one : forall E t o p l sks h, ecdsa_correct E -> o_auth t = ASponsored o p -> plan E o l -> plan E p (map Sign sks) ->
  o_initial_hash t = Ok h ->
  exists s s', osigner_new t = Ok s /\ osucceeds E s (map step_op l ++ map SignSponsor sks) s'
    /\ own_same_terms t (os_tx s') /\ auth_verify E (o_auth (os_tx s')) h = Ok tt /\ o_initial_hash (os_tx s') = Ok h.
Proof. exact own_sponsored_one. Qed.
Print Assumptions C95_sponsored_one.

(** Whatever is called on a signer, conditions, payload and terms stay. *)
Theorem C95_history : forall E s l, own_same_terms (os_tx s) (os_tx (operform_all E s l)).
Proof. exact own_history. Qed.
Print Assumptions C95_history.

(** Fee and nonce of the origin can be set, and nothing else changes by it. *)
Theorem C95_fee : forall t n, let u := o_set_fee t n in
  same_head t u /\ o_conds u = o_conds t /\ o_payload u = o_payload t /\ o_initial_hash u = o_initial_hash t
  /\ own_origin u = set_terms (own_origin t) n (nonce_of (own_origin t))
  /\ forall o p, o_auth t = ASponsored o p -> exists o', o_auth u = ASponsored o' p.
Proof. exact own_fee. Qed.
Print Assumptions C95_fee.
Theorem C95_nonce : forall t n, let u := o_set_nonce t n in
  same_head t u /\ o_conds u = o_conds t /\ o_payload u = o_payload t /\ o_initial_hash u = o_initial_hash t
  /\ own_origin u = set_terms (own_origin t) (fee_of (own_origin t)) n
  /\ forall o p, o_auth t = ASponsored o p -> exists o', o_auth u = ASponsored o' p.
Proof. exact own_nonce. Qed.
Print Assumptions C95_nonce.

(** Signatures cannot be moved to a transaction with other bytes. *)
Theorem C95_tampering : forall E t u cs p ds q h k g g', ecdsa_correct E -> binds_digest E -> typed (own_origin t) ->
  own_parts t cs p -> own_parts u ds q -> wf_auth (auth_wire (o_auth t)) -> wf_auth (auth_wire (o_auth u)) ->
  o_initial_hash t = Ok h -> o_initial_hash u = Ok k ->
  same_signatures (own_origin t) (own_origin u) -> has_signature (own_origin t) ->
  o_verify_origin E t = Ok g -> o_verify_origin E u = Ok g' ->
  (same_head t u /\ same_kind (o_auth t) (o_auth u) /\ own_origin t = own_origin u /\ count cs = count ds /\ concat cs ++ p = concat ds ++ q)
  \/ collision (own_cleared t cs p) (own_cleared u ds q)
  \/ collision (first_message h x04 (own_origin t)) (first_message k x04 (own_origin u))
  \/ digest_clash (first_digest h x04 (own_origin t)) (first_digest k x04 (own_origin u))
  \/ key_swap E x04 h (own_origin t) k (own_origin u).
Proof. exact own_tampering. Qed.
Print Assumptions C95_tampering.

(** Nor can a sponsor's: it commits to the bytes, the origin and the origin's signatures. *)
Theorem C95_sponsor_tampering : forall E t u cs b ds c h k o p o' p', ecdsa_correct E -> binds_digest E ->
  o_auth t = ASponsored o p -> o_auth u = ASponsored o' p' -> typed o -> typed p -> typed o' ->
  own_parts t cs b -> own_parts u ds c -> wf_auth (auth_wire (o_auth t)) -> wf_auth (auth_wire (o_auth u)) ->
  o_initial_hash t = Ok h -> o_initial_hash u = Ok k ->
  same_signatures p p' -> has_signature p -> length (signatures o) = length (signatures o') ->
  auth_verify E (o_auth t) h = Ok tt -> auth_verify E (o_auth u) k = Ok tt ->
  let h1 := hash_after x04 (fee_of o) (nonce_of o) h (signatures o) in
  let k1 := hash_after x04 (fee_of o') (nonce_of o') k (signatures o') in
  (same_head t u /\ count cs = count ds /\ concat cs ++ b = concat ds ++ c
   /\ p = p' /\ same_identity o o' /\ signatures o = signatures o'
   /\ (signatures o <> [] -> fee_of o = fee_of o' /\ nonce_of o = nonce_of o'))
  \/ collision (own_cleared t cs b) (own_cleared u ds c)
  \/ chain_collision x04 (fee_of o) (nonce_of o) h (signatures o) (fee_of o') (nonce_of o') k (signatures o')
  \/ collision (first_message h1 x05 p) (first_message k1 x05 p')
  \/ digest_clash (first_digest h1 x05 p) (first_digest k1 x05 p')
  \/ key_swap E x05 h1 p k1 p'.
Proof. exact own_sponsor_tampering. Qed.
Print Assumptions C95_sponsor_tampering.

(** ** Builders and requests *)

(** The builders take values, conditions and networks of the user's own. *)
Theorem C95_built : forall X E b, @obuild_transfer X E b =
  if ot_sponsored b then Panic PUnimplemented
  else Ok (own_unsigned (ot_network b) (pubkey_of E (ot_sender b)) (ot_fee b) (ot_nonce b) (ot_anchor b) (ot_pcmode b) (ot_conds b)
             (enc_otransfer (ot_recipient b) (ot_amount b) (ot_memo b))).
Proof. intros X E b. exact (obuild_transfer_cases E b). Qed.
Print Assumptions C95_built.
Theorem C95_built_call : forall E b,
  (forall h v, address_spelling h v (oc_address b) -> length h = 20%nat -> obuild_call E b =
    if oc_sponsored b then Panic PUnimplemented
    else Ok (own_unsigned (oc_network b) (pubkey_of E (oc_sender b)) (oc_fee b) (oc_nonce b) (oc_anchor b) (oc_pcmode b) (oc_conds b)
               (enc_ocall {| addr_hash := h; addr_version := v |} (oc_contract b) (oc_fname b) (oc_args b))))
  /\ (forall e, bad_address (oc_address b) e -> obuild_call E b = Err (ClC32 e)).
Proof. intros E b. split; [intros h v; exact (obuild_call_ok E b h v) | intros e; exact (obuild_call_bad E b e)]. Qed.
Print Assumptions C95_built_call.

(** Built, signed by the sender, verified. *)
Theorem C95_built_signs : forall E n sk fee nonce an mode c p h, ecdsa_correct E -> valid_key sk ->
  let t := own_unsigned n (pubkey_of E sk) fee nonce an mode c p in
  o_initial_hash t = Ok h -> exists u g, otx_sign E t sk = Ok u /\ own_same_terms t u /\ o_verify_origin E u = Ok g.
Proof.
  intros E n sk fee nonce an mode c p h C V t H.
  destruct (own_origin_plan E t [Sign sk] h C (own_plan n _ E sk fee nonce an mode c p V eq_refl) H) as (s & s' & N & S & T & Y).
  exists (os_tx s'), (os_hash s'). split; [|auto]. cbn [map step_op] in S. inversion S as [|? ? s1 ? ? P Q]; subst. inversion Q; subst.
  unfold otx_sign. rewrite N. cbn [bind]. cbn [operform] in P. rewrite P. reflexivity.
Qed.
Print Assumptions C95_built_signs.

(** What is posted is the transaction with these bytes; fees are asked for with the payload's. *)
Theorem C95_requests : forall url t q,
  (o_broadcast_request url t = Ok q <-> exists e, enc_otx t = Ok e /\ q = post_bytes (url ++ str "/v2/transactions") e)
  /\ (o_estimate_request url t = Ok q <-> exists p e, o_payload t = Ok p /\ enc_otx t = Ok e
        /\ q = post_json (url ++ str "/v2/fees/transaction")
                 (JObj [(str "transaction_payload", JStr (hex_text p)); (str "estimated_len", number (count e))])).
Proof. intros url t q. exact (conj (obroadcast_iff url t q) (oestimate_iff url t q)). Qed.
Print Assumptions C95_requests.
Theorem C95_read_only : forall url a n f l sender q, o_read_only_request url a n f l sender = Ok q <->
  exists bs, Forall2 own_ser l bs
    /\ q = post_json (url ++ str "/v2/contracts/call-read/" ++ a ++ str "/" ++ n ++ str "/" ++ f)
             (JObj [(str "sender", JStr sender); (str "arguments", JArr (map (fun b => JStr (hex_text b)) bs))]).
Proof. exact oread_iff. Qed.
Print Assumptions C95_read_only.

(** ** The library's own types *)

(** With nothing of the user's own, all of this is what the other theorems are about. *)
Theorem C95_library :
  (forall l, oencode (OList (map OLib l)) = encode (CList l) /\ oencode (OFnArgs (map OLib l)) = encode (CFnArgs l)
     /\ o_hex_args (map OLib l) = hex_args l)
  /\ (forall l, oencode (OTuple (map (fun kv => (fst kv, OLib (snd kv))) l)) = encode (CTuple l))
  /\ (forall v, oencode (ORespOk (OLib v)) = encode (CRespOk v) /\ oencode (ORespErr (OLib v)) = encode (CRespErr v)
        /\ oencode (OSome (OLib v)) = encode (CSome v))
  /\ (forall r n m, enc_otransfer (OLib r) n m = enc_payload (PTransfer r n m))
  /\ (forall a c f l, enc_ocall a c f (map OLib l) = enc_payload (PCall a c f l))
  /\ (forall a n k i, enc_ocond_nft (OLib a) (OLib n) k i = enc_condition (CondNFT a n k i))
  /\ (forall a n k i, enc_ocond_stx (OLib a) n k = enc_condition (CondSTX a n k)
        /\ enc_ocond_ft (OLib a) n k i = enc_condition (CondFT a n k i))
  /\ (forall t, enc_otx (own_of t) = enc_tx t /\ o_initial_hash (own_of t) = initial_hash t
        /\ osigner_new (own_of t) = let* s := signer_new t in Ok (own_signer s))
  /\ (forall t n, o_set_fee (own_of t) n = own_of (tx_set_fee t n) /\ o_set_nonce (own_of t) n = own_of (tx_set_nonce t n))
  /\ (forall E t p, osigner_new_sponsor E (own_of t) p = let* s := signer_new_sponsor E t p in Ok (own_signer s))
  /\ (forall E s o, operform E (own_signer s) o = let '(s', r) := perform E s o in (own_signer s', r))
  /\ (forall E t sk, o_verify_origin E (own_of t) = tx_verify_origin E t
        /\ otx_sign E (own_of t) sk = let* u := tx_sign E t sk in Ok (own_of u))
  /\ (forall url t, o_broadcast_request url (own_of t) = broadcast_request url t
        /\ o_estimate_request url (own_of t) = estimate_request url t)
  /\ (forall url a n f l sender, o_read_only_request url a n f (map OLib l) sender = read_only_request url a n f l sender).
Proof.
  assert (L : forall l : list cval, lenN (map OLib l) = lenN l) by (intros l; unfold lenN; now rewrite map_length).
  split. { intros l. rewrite oencode_list, oencode_args, oencode_lib. change @count with @lenN. rewrite L. split; [reflexivity|]. split; [reflexivity|]. apply hex_own. }
  split. { intros l. rewrite oencode_tuple, oencode_lib_entries. change @count with @lenN. unfold lenN. rewrite map_length. reflexivity. }
  split; [repeat split; reflexivity|]. split; [exact transfer_own|]. split; [exact call_own|]. split; [reflexivity|]. split; [repeat split; reflexivity|].
  split. { intros t. exact (conj (enc_own_of t) (conj (hash_own_of t) (new_own_of t))). }
  split; [repeat split; reflexivity|]. split; [exact new_sponsor_own_of|]. split; [exact perform_own|].
  split. { intros E t sk. exact (conj (verify_own_of E t) (sign_own_of E t sk)). }
  split. { intros url t. unfold o_broadcast_request, broadcast_request, o_estimate_request, estimate_request. rewrite enc_own_of. split; reflexivity. }
  intros url a n f l sender. unfold o_read_only_request, read_only_request. rewrite hex_own. reflexivity.
Qed.
Print Assumptions C95_library.

(** ** Examples *)

(** A payload the library does not have: a contract to deploy, on a network of the user's own, with a condition of the library's
    and one of the user's. *)
Definition ex_deploy : own := Ok (x01 :: ser_name (str "hello") ++ big_endian 4 8 ++ str "(list 1)").
Definition ex_onet : onet := {| on_version := VTestnet; on_chain := ChMainnet |}.
Definition ex_oconds : list own := [enc_condition (CondSTX (CPrinStd sample_addr) 5 CcGTE); Ok [x09; x01]].
Definition ex_otx : otx := own_unsigned ex_onet pk1 180 7 AnStrict PcDeny ex_oconds ex_deploy.
(** A value that refuses to be written, behind one that does not. *)
Definition ex_oval : oval := OTuple [(str "a", OSome (OOwn (Ok [xff]))); (str "b", OList [OLib CTrue; OOwn (Ok [xfe])])].
Definition ex_obad : oval := OTuple [(str "a", OSome (OOwn (Ok [xff]))); (str "b", OList [OLib CTrue; OOwn (Panic PUnimplemented); OOwn (Err ClTryFromInt)])].

Example C95_value_ex : own_ser ex_oval (x0c :: big_endian 4 2 ++ (ser_name (str "a") ++ [x0a; xff]) ++ (ser_name (str "b") ++ x0b :: big_endian 4 2 ++ [x03; xfe]))
  /\ own_fails ex_obad (Panic PUnimplemented).
Proof.
  split; [apply C95_value_exact; vm_compute; reflexivity|]. apply C95_value_fails; [intros b; discriminate|vm_compute; reflexivity].
Qed.
Example C95_principal_ex : (forall v, OOwn (encode (CPrinStd sample_addr)) <> OLib v) /\ exists b, encode (CPrinStd sample_addr) = Ok b.
Proof. split; [discriminate|]. eexists. vm_compute. reflexivity. Qed.
Example C95_tx_ex : exists h u g, o_initial_hash ex_otx = Ok h /\ wf_auth (auth_wire (o_auth ex_otx)) /\ ecdsa_correct toy /\ valid_key sk1
  /\ otx_sign toy ex_otx sk1 = Ok u /\ o_payload u = ex_deploy /\ o_conds u = ex_oconds /\ o_verify_origin toy u = Ok g.
Proof.
  eexists. eexists. eexists. split; [vm_compute; reflexivity|]. split; [cbn; repeat split; try reflexivity; auto|].
  split; [exact toy_correct|]. split; [exact sk1_valid|]. split; [vm_compute; reflexivity|]. split; [vm_compute; reflexivity|]. split; [vm_compute; reflexivity|].
  vm_compute. reflexivity.
Qed.
Definition ex_osponsored : otx := o_with_auth ex_otx (ASponsored (SMulti ex_2of3_m) ex_sponsor).
Example C95_sponsored_ex : plan toy (SMulti ex_2of3_m) ex_steps /\ plan toy ex_sponsor (map Sign [sk2])
  /\ o_auth ex_osponsored = ASponsored (SMulti ex_2of3_m) ex_sponsor /\ exists h, o_initial_hash ex_osponsored = Ok h.
Proof. refine (conj ex_plan (conj ex_sponsor_plan (conj eq_refl _))). eexists. vm_compute. reflexivity. Qed.
(** The signature of one payload is refused on another. *)
Definition ex_other (t : otx) : otx :=
  {| o_ver := o_ver t; o_chain := o_chain t; o_auth := o_auth t; o_anchor := o_anchor t; o_pcmode := o_pcmode t; o_conds := o_conds t;
     o_payload := Ok (x01 :: ser_name (str "hello") ++ big_endian 4 8 ++ str "(list 2)") |}.
Example C95_tampering_ex : ecdsa_correct shift /\ binds_digest shift
  /\ exists u, otx_sign shift ex_otx sk1 = Ok u /\ typed (own_origin u) /\ has_signature (own_origin u)
       /\ (exists g, o_verify_origin shift u = Ok g) /\ exists e, o_verify_origin shift (ex_other u) = Err e.
Proof.
  split; [exact shift_correct|]. split; [exact shift_binds|]. eexists. split; [vm_compute; reflexivity|]. split; [reflexivity|].
  split; [exact I|]. split; eexists; vm_compute; reflexivity.
Qed.
(** A sponsor's signature over one payload is refused on another. *)
Definition ex_oboth : otx := Eval vm_compute in
  match osigner_new (o_with_auth ex_otx (ASponsored (SMulti ex_2of3_m) ex_sponsor)) with
  | Ok s => os_tx (operform_all shift s (map step_op ex_steps ++ [SignSponsor sk2]))
  | _ => ex_otx
  end.
Definition ex_oboth_hash (t : otx) : bytes := match o_initial_hash t with Ok h => h | _ => [] end.
Example C95_sponsor_tampering_ex : exists o p, o_auth ex_oboth = ASponsored o p /\ typed o /\ typed p /\ has_signature p
  /\ length (signatures o) = 2%nat /\ o_initial_hash ex_oboth = Ok (ex_oboth_hash ex_oboth)
  /\ auth_verify shift (o_auth ex_oboth) (ex_oboth_hash ex_oboth) = Ok tt
  /\ exists e, auth_verify shift (o_auth (ex_other ex_oboth)) (ex_oboth_hash (ex_other ex_oboth)) = Err e.
Proof.
  eexists _, _. split; [reflexivity|].
  split; [repeat constructor|]. split; [reflexivity|]. split; [exact I|]. split; [reflexivity|].
  split; [vm_compute; reflexivity|]. split; [vm_compute; reflexivity|]. eexists. vm_compute. reflexivity.
Qed.
Definition ex_ocall : own_call :=
  {| oc_address := sample_addr; oc_contract := str "abc"; oc_fname := str "f"; oc_args := [ex_oval; OLib CNone]; oc_sender := sk2;
     oc_network := ex_onet; oc_fee := 9; oc_nonce := 1; oc_anchor := AnStrict; oc_pcmode := PcAllow; oc_conds := ex_oconds;
     oc_sponsored := false |}.
Example C95_built_ex : exists t e, obuild_call toy ex_ocall = Ok t /\ o_ver t = VTestnet /\ o_chain t = ChMainnet /\ enc_otx t = Ok e.
Proof. eexists. eexists. split; [vm_compute; reflexivity|]. split; [reflexivity|]. split; [reflexivity|]. vm_compute. reflexivity. Qed.
