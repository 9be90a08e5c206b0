(** Property theorem C109: what leaves the library of a secret key. *)

From Coq Require Import Lia Strings.String.
From Verif Require Import Base BaseFacts Sha2 HashFacts SpecText SpecAddr Hash C32 Clarity ClarityFacts SpecWire WireFacts Tx SpecTx LengthThms TxFacts TxThms Signer Builder Wallet SpecSign SignFacts SignThms AuthThms PlanThms
     SpecCharge PropsCharge PropsSign PropsTx PropsClarity PropsClient Rpc SpecClient ClientThms Session SpecLedger PropsLedger SpecPay PropsPay SpecSecret.
Local Open Scope N_scope.

Lemma presign_to_sign h typ fee nonce : to_sign (presign_hash h typ fee nonce).
Proof. exists h, typ, fee, nonce. unfold presign_hash, sighash. rewrite !big_endian_be. reflexivity. Qed.

Lemma signature_alike E E' sk sk' h typ fee nonce :
  sign_rec E' (presign_hash h typ fee nonce) sk' = sign_rec E (presign_hash h typ fee nonce) sk ->
  next_signature E' h typ fee nonce sk' = next_signature E h typ fee nonce sk.
Proof. intros X. unfold next_signature, message_of. destruct (Nat.eqb _ _); cbn [bind]; [rewrite X|]; reflexivity. Qed.
Lemma append_alike E E' sk sk' c h typ :
  sign_rec E' (presign_hash h typ (sc_fee c) (sc_nonce c)) sk' = sign_rec E (presign_hash h typ (sc_fee c) (sc_nonce c)) sk ->
  sign_and_append E' c h typ sk' = sign_and_append E c h typ sk.
Proof. intros X. unfold sign_and_append. rewrite (signature_alike E E' sk sk' _ _ _ _ X). reflexivity. Qed.
Lemma origin_alike E E' sk sk' s : (forall m, to_sign m -> sign_rec E' m sk' = sign_rec E m sk) -> sign_origin E' s sk' = sign_origin E s sk.
Proof. intros X. unfold sign_origin, sign_next_origin. rewrite (append_alike E E' sk sk') by apply X, presign_to_sign. reflexivity. Qed.
Lemma sponsor_alike E E' sk sk' s : (forall m, to_sign m -> sign_rec E' m sk' = sign_rec E m sk) -> sign_sponsor E' s sk' = sign_sponsor E s sk.
Proof.
  intros X. unfold sign_sponsor, sign_next_sponsor. destruct (tx_auth (sg_tx s)) as [o|o p]; [reflexivity|].
  rewrite (append_alike E E' sk sk') by apply X, presign_to_sign. reflexivity.
Qed.
Lemma tx_sign_alike E E' sk sk' t : (forall m, to_sign m -> sign_rec E' m sk' = sign_rec E m sk) -> tx_sign E' t sk' = tx_sign E t sk.
Proof. intros X. unfold tx_sign. destruct (signer_new t) as [s| | |]; cbn [bind]; try reflexivity. rewrite (origin_alike E E' sk sk') by exact X. reflexivity. Qed.

Lemma verify_alike E E' : (forall m r, recover E' m r = recover E m r) -> forall c h typ, verify_scond E' c h typ = verify_scond E c h typ.
Proof.
  intros R. assert (forall h typ fee nonce sig, next_verify E' h typ fee nonce sig = next_verify E h typ fee nonce sig) as V.
  { intros. unfold next_verify. destruct (msig_into_recov sig) as [r| | |]; cbn [bind]; try reflexivity.
    destruct (message_of _) as [m| | |]; cbn [bind]; try reflexivity. rewrite R. reflexivity. }
  intros [s|m] h typ; cbn [verify_scond].
  - unfold verify_std. rewrite V. reflexivity.
  - unfold verify_multi. assert (forall fs next fee nonce keys count, verify_fields E' fs next typ fee nonce keys count = verify_fields E fs next typ fee nonce keys count) as F.
    { induction fs as [|[pk|sg] fs IH]; intros; cbn [verify_fields]; [reflexivity | apply IH |]. rewrite V.
      destruct (map_err TxHash _) as [[pk x]| | |]; cbn [bind]; try reflexivity. destruct (count + 1 <? 256); [apply IH | reflexivity]. }
    rewrite F. reflexivity.
Qed.

(** Whatever a program does with the library, and whatever node it talks to: what the node has received and what comes out depend on the
    secret keys only by the public keys and by signatures of what keys are asked to sign. *)
Theorem C109_nothing_else : forall S A W W' (net : node S) (p : program A) s, twins W W' -> run W' net p s = run W net p s.
Proof.
  intros S A W W' net p s [Tp Tk Ts Tr]. revert s.
  induction p as [x|i v k IH|i k IH|i d k IH|i d k IH|i h typ fee nonce k IH|i t k IH|i g k IH|i g k IH|t c k IH|a h k IH|t k IH|url c k IH]; intros s; cbn [run].
  - reflexivity.
  - replace (match get_address (wd_account W' i) v with Ok x => Some x | _ => None end)
      with (match get_address (wd_account W i) v with Ok x => Some x | _ => None end); [apply IH|].
    specialize (Tp i). unfold public in Tp. unfold get_address. rewrite Tp. destruct (c32_address _ _); reflexivity.
  - rewrite Tk. apply IH.
  - replace (@build_transfer unit (wd_ecdsa W') (transfer_from (secret W' i) d)) with (@build_transfer unit (wd_ecdsa W) (transfer_from (secret W i) d)); [apply IH|].
    unfold build_transfer. cbn [st_sender transfer_from]. rewrite Tk. reflexivity.
  - replace (build_call (wd_ecdsa W') (call_from (secret W' i) d)) with (build_call (wd_ecdsa W) (call_from (secret W i) d)); [apply IH|].
    unfold build_call. cbn [cc_sender call_from]. rewrite Tk. reflexivity.
  - rewrite (signature_alike (wd_ecdsa W) (wd_ecdsa W') (secret W i) (secret W' i)) by apply Ts, presign_to_sign. apply IH.
  - rewrite (tx_sign_alike (wd_ecdsa W) (wd_ecdsa W') (secret W i) (secret W' i)) by (intros; apply Ts; assumption). apply IH.
  - rewrite (origin_alike (wd_ecdsa W) (wd_ecdsa W') (secret W i) (secret W' i)) by (intros; apply Ts; assumption). apply IH.
  - rewrite (sponsor_alike (wd_ecdsa W) (wd_ecdsa W') (secret W i) (secret W' i)) by (intros; apply Ts; assumption). apply IH.
  - replace (signer_new_sponsor (wd_ecdsa W') t c) with (signer_new_sponsor (wd_ecdsa W) t c); [apply IH|].
    unfold signer_new_sponsor, tx_verify_origin, auth_verify_origin. destruct (is_sponsored _); [|reflexivity]. cbn [negb].
    destruct (auth_set_sponsor _ _) as [a r]. destruct r; cbn [bind]; try reflexivity. destruct (initial_hash _); cbn [bind]; try reflexivity.
    rewrite !(verify_alike _ _ Tr). reflexivity.
  - replace (auth_verify (wd_ecdsa W') a h) with (auth_verify (wd_ecdsa W) a h); [apply IH|]. unfold auth_verify.
    destruct a as [o|o q]; rewrite ?(verify_alike _ _ Tr); [reflexivity|]. destruct (verify_scond (wd_ecdsa W) o _ _); cbn [bind]; rewrite ?(verify_alike _ _ Tr); reflexivity.
  - replace (tx_verify_origin (wd_ecdsa W') t) with (tx_verify_origin (wd_ecdsa W) t); [apply IH|].
    unfold tx_verify_origin, auth_verify_origin. destruct (initial_hash t); cbn [bind]; try reflexivity. rewrite (verify_alike _ _ Tr). reflexivity.
  - destruct (make_call net url c s) as [s1 x]. apply IH.
Qed.
Print Assumptions C109_nothing_else.

(** Signing a transaction asks the key for one signature, of this message. *)
Theorem C109_one_message : forall E t w sk, tx_means t w -> exists m,
  (m = sha512_256 (sha512_256 (ser_tx (clear_tx w)) ++ x04 :: big_endian 8 (fee_of (origin_of t)) ++ big_endian 8 (nonce_of (origin_of t))))
  /\ forall E' sk', sign_rec E' m sk' = sign_rec E m sk -> tx_sign E' t sk' = tx_sign E t sk.
Proof.
  intros E t w sk M. eexists. split; [reflexivity|]. intros E' sk' X. unfold tx_sign. destruct (signer_new t) as [s| | |] eqn:Sn; cbn [bind]; try reflexivity.
  unfold signer_new in Sn. destruct (initial_hash t) as [h| | |] eqn:Ih; try discriminate Sn. cbn [bind] in Sn. injection Sn as <-.
  apply initial_hash_iff in Ih. destruct Ih as (w' & M' & _ & ->).
  assert (w' = w) as -> by (apply (tx_same t t); auto; split; [apply (body_same t t w w); auto; splits; auto|reflexivity]).
  unfold sign_origin, sign_next_origin. cbn [sg_tx sg_hash]. rewrite (append_alike E E' sk sk'); [reflexivity|].
  unfold presign_hash, sighash. rewrite !big_endian_be in X. destruct t as [v ch a an pm cs pl]. destruct a as [o|o q], o; exact X.
Qed.
Print Assumptions C109_one_message.

(** So for the program of C101: run with other keys, it does the same to every node and hears the same. *)
Theorem C109_paying : forall S W W' i n (net : node S) url d s s' r, twins W W' -> valid_key (secret W' i) ->
  pays (wd_ecdsa W) n net url (wd_account W i) d s s' r -> pays (wd_ecdsa W') n net url (wd_account W' i) d s s' r.
Proof.
  intros S W W' i n net url d s s' r T V (addr & sk & info & s1 & t & t' & G & K & A & B & Si & Br).
  apply secret_iff in K. destruct K as [_ ->]. fold (secret W i) in *.
  exists addr, (secret W' i), info, s1, t, t'. split.
  { pose proof (tw_public W W' T i) as X. unfold public in X. apply get_address_iff in G. apply get_address_iff. rewrite X. exact G. }
  split.
  { unfold account_private_key. fold (secret W' i). apply secret_iff. auto. }
  split; [exact A|]. split.
  { revert B. unfold build_transfer. cbn [st_sender payment]. rewrite (tw_key W W' T i). auto. }
  split; [|exact Br]. rewrite (tx_sign_alike (wd_ecdsa W) (wd_ecdsa W') (secret W i) (secret W' i)); [exact Si|]. apply (tw_sign W W' T).
Qed.
Print Assumptions C109_paying.

(** The keys of the toy scheme, and the same read backwards by a scheme and a derivation that turn them round. *)
Definition toy_world : world := {| wd_ecdsa := toy; wd_hd := toy_hd; wd_account := fun i => {| acc_ext := (i : xprv toy_hd); acc_index := 0 |} |}.
Definition back : ecdsa := {| pubkey_of := fun sk => pubkey_of toy (rev sk); sign_rec := fun m sk => sign_rec toy m (rev sk); recover := recover toy |}.
Definition back_hd : hd :=
  {| xprv := N; hd_err := unit; derive_child := derive_child toy_hd; xpub_bytes := xpub_bytes toy_hd; xprv_bytes := fun x => rev (toy_sk x);
     point_ok := point_ok toy_hd; from_mnemonic := from_mnemonic toy_hd |}.
Definition back_world : world := {| wd_ecdsa := back; wd_hd := back_hd; wd_account := fun i => {| acc_ext := (i : xprv back_hd); acc_index := 0 |} |}.
Lemma back_twins : twins toy_world back_world.
Proof.
  constructor; intros; unfold public, secret, toy_world, back_world, back, back_hd; cbn [wd_ecdsa wd_hd wd_account acc_ext pubkey_of sign_rec recover xprv_bytes xpub_bytes];
    rewrite ?rev_involutive; reflexivity.
Qed.
(** The program of C101, as a program that cannot look into its keys. *)
Definition paying (n : network) (url : bytes) (i : N) (d : stx_transfer) : program (list rpc_answer) :=
  Address i (single_version n) (fun a => match a with None => Return [] | Some addr =>
  Ask url (CallAddress addr) (fun x => match x with AnsAddress (Ok info) =>
  BuildTransfer i (payment n [] (ad_nonce info) d) (fun t => match t with Ok t =>
  SignTx i t (fun u => match u with Ok u => Ask url (CallBroadcast u) (fun y => Return [x; y]) | _ => Return [x] end)
  | _ => Return [x] end) | _ => Return [x] end) end).
Lemma paying_runs S W i n (net : node S) url s s' r d : pays (wd_ecdsa W) n net url (wd_account W i) d s s' r ->
  exists x, run W net (paying n url i d) s = (s', [x; AnsBroadcast r]).
Proof.
  intros (addr & sk & info & s1 & t & t' & G & K & A & B & Si & Br). apply secret_iff in K. destruct K as [_ ->].
  exists (AnsAddress (Ok info)). unfold paying. cbn [run]. rewrite G. cbn [run make_call]. rewrite A. unfold answer_with. cbn [fst snd run].
  change (transfer_from (secret W i) (payment n [] (ad_nonce info) d)) with (payment n (secret W i) (ad_nonce info) d). unfold secret. rewrite B. cbn [run].
  unfold secret. rewrite Si. cbn [run make_call]. rewrite Br. reflexivity.
Qed.
Example C109_ex : twins toy_world back_world /\ secret toy_world 6 <> secret back_world 6 /\ valid_key (secret back_world 6)
  /\ (exists S (net : node S) s s' x id, run toy_world net (paying NetTestnet [] 6 (ex_pay 0 1000)) s = (s', [x; AnsBroadcast (Ok (BcOk id))]))
  /\ exists t w, tx_means t w /\ exists u, tx_sign toy t (toy_sk 6) = Ok u.
Proof.
  split; [exact back_twins|]. split; [discriminate|]. split; [split; [reflexivity | vm_compute; auto]|].
  destruct (till_exists toy_hd toy NetTestnet [] toy_account (ex_pay 0 1000) _ 4 toy_hd_correct toy_correct (ex_draft 1000 eq_refl) eq_refl ex_stranger eq_refl) as (net & book & B0 & Ba & Tr & Pr).
  destruct (C101_succeeds _ _ _ _ net book [] toy_account (ex_pay 0 1000) _ O toy_hd_correct toy_correct (ex_draft 1000 eq_refl) Ba Tr Pr eq_refl ex_stranger) as (s' & id & P & _).
  { rewrite B0. cbn [coins]. lia. }
  { rewrite B0. reflexivity. }
  pose proof (paying_runs nat toy_world 6 NetTestnet net [] O s' (Ok (BcOk id)) (ex_pay 0 1000) P) as (x & R).
  split; [exists nat, net, O, s', x, id; exact R|]. clear R.
  destruct P as (addr' & sk' & info & s1 & t & t' & _ & K' & _ & _ & Si & _). exists t.
  apply secret_iff in K'. destruct K' as [_ ->]. cbn [toy_account acc_ext toy_hd xprv_bytes] in Si.
  assert (exists w, tx_means t w) as [w M]; [|exists w; split; [exact M | exists t'; exact Si]].
  apply tx_sign_succeeds in Si. destruct Si as (g & _ & Sn & _). unfold signer_new in Sn. destruct (initial_hash t) as [h| | |] eqn:Ih; try discriminate Sn.
  apply initial_hash_iff in Ih. destruct Ih as (w & M & _). exists w. exact M.
Qed.
