(** Property theorem C96: spending conditions of the user's own. *)

From Coq Require Import Strings.String Lia.
From Verif Require Import Base BaseFacts Sha2 SpecText SpecAddr Hash C32 Clarity SpecWire Tx TxFacts SpecTx Signer Builder
     SpecSign SignFacts SignThms HistThms PlanThms AuthThms PropsClarity PropsTx PropsSign SpecBind BindThms Rpc
     SpecClient Own SpecOwn OwnThms Kind SpecKind KindThms.
Local Open Scope string_scope.
Local Open Scope list_scope.
Local Open Scope N_scope.

(** ** Bytes *)

(** What a condition writes stands in the transaction as it is, ... *)
Theorem C96_tx_exact : forall t e, enc_ktx t = Ok e <->
  exists a cs p, auth_bytes (kt_auth t) a /\ kparts t cs p /\ count cs < 2 ^ 32 /\ e = kind_text a t cs p.
Proof. exact ktx_iff. Qed.
Print Assumptions C96_tx_exact.

(** ... and its failure is that of the transaction, before all others. *)
Theorem C96_tx_fails : forall t r, no_bytes r -> (enc_ktx t = r <-> ktx_fails t r).
Proof. exact ktx_refused. Qed.
Print Assumptions C96_tx_fails.

(** The hash that is signed is over what the origin writes after [reset]; the sponsor is not asked. *)
Theorem C96_hash_exact : forall t h, k_initial_hash t = Ok h <->
  exists a cs p, signed_bytes (kt_auth t) a /\ kparts t cs p /\ count cs < 2 ^ 32 /\ h = sha512_256 (kind_text a t cs p).
Proof. exact k_hash_iff. Qed.
Print Assumptions C96_hash_exact.

(** Two transactions with one hash have the same version, chain and bytes from the type of authorization on. *)
Theorem C96_commits : forall t u h a cs p b ds q, k_initial_hash t = Ok h -> k_initial_hash u = Ok h ->
  signed_bytes (kt_auth t) a -> kparts t cs p -> signed_bytes (kt_auth u) b -> kparts u ds q ->
  (kt_ver t = kt_ver u /\ kt_chain t = kt_chain u
   /\ a ++ anchor_code (kt_anchor t) :: pcmode_code (kt_pcmode t) :: big_endian 4 (count cs) ++ concat cs ++ p
      = b ++ anchor_code (kt_anchor u) :: pcmode_code (kt_pcmode u) :: big_endian 4 (count ds) ++ concat ds ++ q)
  \/ collision (kind_text a t cs p) (kind_text b u ds q).
Proof.
  intros t u h a cs p b ds q H K A P B Q. apply k_hash_iff in H, K.
  destruct H as (a' & cs' & p' & A' & P' & _ & ->), K as (b' & ds' & q' & B' & Q' & _ & K).
  assert (F : forall k x y, signed_bytes k x -> signed_bytes k y -> x = y).
  { intros k x y X Y. destruct X as [o e X|o s e X]; inversion Y as [? e' Y'|? ? e' Y']; subst; rewrite X in Y'; injection Y' as <-; reflexivity. }
  assert (G : forall v cs cs' p p', kparts v cs p -> kparts v cs' p' -> cs = cs' /\ p = p').
  { intros v l l' m m' [X Y] [X' Y']. rewrite Y in Y'. injection Y' as <-. split; [|reflexivity]. rewrite X in X'. clear - X'. revert l' X'.
    induction l as [|x l IH]; intros [|y l'] E; try discriminate; [reflexivity|]. injection E as -> E. f_equal. auto. }
  rewrite <- (F _ _ _ A A') in K. rewrite <- (F _ _ _ B B') in K. destruct (G _ _ _ _ _ P P') as [<- <-]. destruct (G _ _ _ _ _ Q Q') as [<- <-].
  destruct (bytes_dec (kind_text a t cs p) (kind_text b u ds q)) as [E|E]; [left; now apply ktext_inj|right; split; assumption].
Qed.
Print Assumptions C96_commits.

(** ** Verification *)

(** The origin is asked about the hash just described with type 4; the sponsor about what the origin answers, with type 5. *)
Theorem C96_verify : forall E t g, k_verify_origin E t = Ok g <-> exists h, k_initial_hash t = Ok h /\ d_verify E (korigin t) h x04 = Ok g.
Proof. exact k_verify_iff. Qed.
Print Assumptions C96_verify.
Theorem C96_verify_sponsored : forall E o p h, k_auth_verify E (KSponsored o p) h = Ok tt <->
  exists g g', d_verify E o h x04 = Ok g /\ d_verify E p g x05 = Ok g'.
Proof.
  intros E o p h. cbn [k_auth_verify]. change auth_type_standard with x04. change auth_type_sponsored with x05. split.
  - intros H. apply bind_ok in H. destruct H as (g & G & H). apply bind_ok in H. destruct H as (g' & G' & _). eauto.
  - intros (g & g' & -> & H). cbn [bind]. rewrite H. reflexivity.
Qed.
Print Assumptions C96_verify_sponsored.
(** The condition of a transaction without sponsor is not asked by [Auth::verify], whatever it would say. *)
Theorem C96_unasked_refuted : exists E c h, (forall g typ, d_verify E c g typ = Err TxBadModification) /\ k_auth_verify E (KStandard c) h = Ok tt.
Proof.
  exists toy. exists {| d_kind := {| k_state := unit; k_encode := fun _ => Ok []; k_verify := fun _ _ _ _ => Err TxBadModification;
    k_modify := fun s _ => (s, Ok tt); k_reset := fun s => s; k_signatures := fun _ => Ok 0; k_required := fun _ => 1; k_fee := fun _ => 0;
    k_nonce := fun _ => 0; k_mode := fun _ => P2PKH; k_set_fee := fun s _ => s; k_set_nonce := fun s _ => s |}; d_state := tt |}, [].
  split; reflexivity.
Qed.
Print Assumptions C96_unasked_refuted.

(** ** Signing *)

(** A signer takes the origin through the steps of its signatures and keys, and does nothing else. *)
Theorem C96_drives : forall E l s s', ecdsa_correct E -> Forall step_valid l -> ks_oversign s = true -> ks_overlap s && ks_origin_signed s = false ->
  (ksucceeds E s (map step_op l) s' <-> exists o' h', driven E x04 (korigin (ks_tx s)) (ks_hash s) l o' h'
    /\ s' = kput s (swap_origin (kt_auth (ks_tx s)) o') h' (ks_origin_signed s)).
Proof. intros E l s s' C. exact (drives E C l s s'). Qed.
Print Assumptions C96_drives.
Theorem C96_drives_sponsor : forall E sks s s' o p, ecdsa_correct E -> Forall valid_key sks -> ks_oversign s = true -> kt_auth (ks_tx s) = KSponsored o p ->
  (ksucceeds E s (map SignSponsor sks) s' <-> exists p' h', driven E x05 p (ks_hash s) (map Sign sks) p' h'
    /\ s' = kput s (KSponsored o p') h' (match sks with [] => ks_origin_signed s | _ => true end)).
Proof. intros E sks s s' o p C. exact (drives_sponsor E C sks s s' o p). Qed.
Print Assumptions C96_drives_sponsor.
Theorem C96_sign : forall E t sk u, ecdsa_correct E -> valid_key sk -> (ktx_sign E t sk = Ok u <->
  exists h o' h', k_initial_hash t = Ok h /\ driven E x04 (korigin t) h [Sign sk] o' h' /\ u = kt_with_auth t (swap_origin (kt_auth t) o')).
Proof. exact ktx_sign_iff. Qed.
Print Assumptions C96_sign.

(** A signature is refused for the reasons named, and no other; the hash to be signed stays. *)
Theorem C96_refuses : forall E s sk r, ecdsa_correct E -> valid_key sk -> ks_oversign s = true -> r <> Ok tt ->
  (snd (k_sign_origin E s sk) = r <->
   (kfrozen s /\ r = Err TxOriginPostSponsorSign) \/ (~ kfrozen s /\ refuses E x04 TxOriginOversign (korigin (ks_tx s)) (ks_hash s) sk r)).
Proof. exact origin_refuses. Qed.
Print Assumptions C96_refuses.
Theorem C96_refuses_sponsor : forall E s sk r, ecdsa_correct E -> valid_key sk -> ks_oversign s = true -> r <> Ok tt ->
  (snd (k_sign_sponsor E s sk) = r <->
   match kt_auth (ks_tx s) with
   | KStandard _ => r = Err TxBadModification
   | KSponsored _ p => refuses E x05 TxSponsorOversign p (ks_hash s) sk r
   end).
Proof. exact sponsor_refuses. Qed.
Print Assumptions C96_refuses_sponsor.
Theorem C96_refused_hash : forall E s o, snd (kperform E s o) <> Ok tt ->
  ks_hash (fst (kperform E s o)) = ks_hash s /\ ks_origin_signed (fst (kperform E s o)) = ks_origin_signed s.
Proof. intros E s o H. exact (failed_hash E s o _ H eq_refl). Qed.
Print Assumptions C96_refused_hash.

(** Whatever is called on a signer: the rest of the transaction stays, and conditions are changed by handing them signatures and keys
    only; once the sponsor has signed the origin is left alone. *)
Theorem C96_history : forall E s l, let t := ks_tx s in let u := ks_tx (kperform_all E s l) in
  same_khead t u /\ kt_conds u = kt_conds t /\ kt_payload u = kt_payload t /\ auth_moved (kt_auth t) (kt_auth u)
  /\ (kfrozen s -> korigin u = korigin t).
Proof.
  intros E s l. destruct (history_stays E l s) as (A & B & C & D). cbn zeta. split; [exact A|]. split; [exact B|]. split; [exact C|]. split; [exact D|]. apply history_frozen.
Qed.
Print Assumptions C96_history.

(** What a condition owes in return: [reset] hides what was handed over, and [verify] answers with the last hash.  Then a signed
    transaction verifies ... *)
Theorem C96_signs : forall E t l h o' h', ecdsa_correct E -> Forall step_valid l -> k_initial_hash t = Ok h -> driven E x04 (korigin t) h l o' h' ->
  reset_forgets (korigin t) o' -> d_verify E o' h x04 = Ok h' ->
  exists s s', ksigner_new t = Ok s /\ ksucceeds E s (map step_op l) s' /\ ks_tx s' = kt_with_auth t (swap_origin (kt_auth t) o')
    /\ ks_hash s' = h' /\ k_initial_hash (ks_tx s') = Ok h /\ k_verify_origin E (ks_tx s') = Ok h'.
Proof. exact kind_signs. Qed.
Print Assumptions C96_signs.
(** ... and so does a sponsored one, of two conditions that know nothing of each other. *)
Theorem C96_sponsored : forall E t o q p l sks h o' h' p' h2, ecdsa_correct E -> Forall step_valid l -> Forall valid_key sks ->
  kt_auth t = KSponsored o q -> k_initial_hash t = Ok h -> driven E x04 o h l o' h' -> reset_forgets o o' -> d_verify E o' h x04 = Ok h' ->
  driven E x05 p h' (map Sign sks) p' h2 -> d_verify E p' h' x05 = Ok h2 ->
  exists s s1 s2 s3, ksigner_new t = Ok s /\ ksucceeds E s (map step_op l) s1
    /\ ksigner_new_sponsor E (ks_tx s1) p = Ok s2 /\ ksucceeds E s2 (map SignSponsor sks) s3
    /\ ks_tx s3 = kt_with_auth t (KSponsored o' p') /\ k_initial_hash (ks_tx s3) = Ok h
    /\ k_auth_verify E (kt_auth (ks_tx s3)) h = Ok tt.
Proof. exact kind_sponsored. Qed.
Print Assumptions C96_sponsored.
(** The library's conditions owe nothing. *)
Theorem C96_library_owes : forall E c h, ecdsa_correct E ->
  (forall l, plan E c l -> exists c' h', driven E x04 (lib c) h l (lib c') h' /\ reset_forgets (lib c) (lib c') /\ d_verify E (lib c') h x04 = Ok h')
  /\ (forall sks, plan E c (map Sign sks) -> exists c' h', driven E x05 (lib c) h (map Sign sks) (lib c') h' /\ d_verify E (lib c') h x05 = Ok h').
Proof. intros E c h C. split; [intros l; exact (library_origin E c l h C)|intros sks; exact (library_sponsor E c sks h C)]. Qed.
Print Assumptions C96_library_owes.

(** Fee and nonce are set by the origin's own methods; the hash stays if [reset] hides them. *)
Theorem C96_fee : forall t n, let u := ktx_set_fee t n in
  u = kt_with_auth t (swap_origin (kt_auth t) (d_set_fee (korigin t) n))
  /\ (reset_forgets (korigin t) (d_set_fee (korigin t) n) -> k_initial_hash u = k_initial_hash t).
Proof.
  intros t n. split; [reflexivity|]. intros R. apply k_hash_origin; [|now destruct (kt_auth t)].
  unfold korigin in *. destruct (kt_auth t); exact R.
Qed.
Print Assumptions C96_fee.
Theorem C96_nonce : forall t n, let u := ktx_set_nonce t n in
  u = kt_with_auth t (swap_origin (kt_auth t) (d_set_nonce (korigin t) n))
  /\ (reset_forgets (korigin t) (d_set_nonce (korigin t) n) -> k_initial_hash u = k_initial_hash t).
Proof.
  intros t n. split; [reflexivity|]. intros R. apply k_hash_origin; [|now destruct (kt_auth t)].
  unfold korigin in *. destruct (kt_auth t); exact R.
Qed.
Print Assumptions C96_nonce.

(** ** Requests *)

Theorem C96_requests : forall url t q,
  (k_broadcast_request url t = Ok q <-> exists e, enc_ktx t = Ok e /\ q = post_bytes (url ++ str "/v2/transactions") e)
  /\ (k_estimate_request url t = Ok q <-> exists p e, kt_payload t = Ok p /\ enc_ktx t = Ok e
        /\ q = post_json (url ++ str "/v2/fees/transaction")
                 (JObj [(str "transaction_payload", JStr (hex_text p)); (str "estimated_len", number (count e))])).
Proof. intros url t q. exact (conj (kbroadcast_iff url t q) (kestimate_iff url t q)). Qed.
Print Assumptions C96_requests.

(** ** The library's own conditions *)

Theorem C96_library :
  (forall t, enc_ktx (ktx_of t) = enc_otx t /\ k_initial_hash (ktx_of t) = o_initial_hash t
     /\ ksigner_new (ktx_of t) = let* s := osigner_new t in Ok (ksigner_of s))
  /\ (forall t n, ktx_set_fee (ktx_of t) n = ktx_of (o_set_fee t n) /\ ktx_set_nonce (ktx_of t) n = ktx_of (o_set_nonce t n))
  /\ (forall E t p, ksigner_new_sponsor E (ktx_of t) (lib p) = let* s := osigner_new_sponsor E t p in Ok (ksigner_of s))
  /\ (forall E s o, kperform E (ksigner_of s) o = (ksigner_of (fst (operform E s o)), snd (operform E s o)))
  /\ (forall E t sk, k_verify_origin E (ktx_of t) = o_verify_origin E t
        /\ ktx_sign E (ktx_of t) sk = let* u := otx_sign E t sk in Ok (ktx_of u))
  /\ (forall E a h, k_auth_verify E (kauth_of a) h = auth_verify E a h)
  /\ (forall url t, k_broadcast_request url (ktx_of t) = o_broadcast_request url t
        /\ k_estimate_request url (ktx_of t) = o_estimate_request url t).
Proof.
  split. { intros t. exact (conj (kenc_of t) (conj (khash_of t) (knew_of t))). }
  split; [exact kset_of|]. split; [exact knew_sponsor_of|]. split; [exact kperform_of|].
  split. { intros E t sk. exact (conj (kverify_of E t) (ktx_sign_of E t sk)). }
  split; [exact kauth_verify_of|].
  intros url t. unfold k_broadcast_request, o_broadcast_request, k_estimate_request, o_estimate_request. rewrite kenc_of. split; reflexivity.
Qed.
Print Assumptions C96_library.

(** ** A condition the library does not have *)

(** Either of two keys may sign. *)
Record either := { ei_one : bytes; ei_two : bytes; ei_fee : N; ei_nonce : N; ei_sig : bytes }.
Definition ei_with (s : either) (fee nonce : N) (sig : bytes) : either :=
  {| ei_one := ei_one s; ei_two := ei_two s; ei_fee := fee; ei_nonce := nonce; ei_sig := sig |}.
Definition either_kind (forget : bool) : cond_kind :=
  {| k_state := either;
     k_encode := fun s => Ok (x0f :: ei_one s ++ ei_two s ++ be_bytes 8 (ei_nonce s) ++ be_bytes 8 (ei_fee s) ++ ei_sig s);
     k_verify := fun E s h typ =>
       let* r := map_err TxHash (next_verify E h typ (ei_fee s) (ei_nonce s) (ei_sig s)) in
       if bytes_eqb (fst r) (ei_one s) || bytes_eqb (fst r) (ei_two s) then Ok (snd r) else Err (TxBadSigner [] []);
     k_modify := fun s cmd => match cmd with MSetSignature g => (ei_with s (ei_fee s) (ei_nonce s) g, Ok tt) | _ => (s, Err TxBadModification) end;
     k_reset := fun s => ei_with s 0 0 (if forget then repeat x00 65 else ei_sig s);
     k_signatures := fun s => Ok (if bytes_eqb (ei_sig s) (repeat x00 65) then 0 else 1);
     k_required := fun _ => 1; k_fee := ei_fee; k_nonce := ei_nonce; k_mode := fun _ => P2PKH;
     k_set_fee := fun s n => ei_with s n (ei_nonce s) (ei_sig s); k_set_nonce := fun s n => ei_with s (ei_fee s) n (ei_sig s) |}.
Definition either_of (forget : bool) (s : either) : dcond := {| d_kind := either_kind forget; d_state := s |}.

Lemma either_driven E forget a b fee nonce sk h typ :
  let c := either_of forget {| ei_one := a; ei_two := b; ei_fee := fee; ei_nonce := nonce; ei_sig := repeat x00 65 |} in
  driven E typ c h [Sign sk] (either_of forget {| ei_one := a; ei_two := b; ei_fee := fee; ei_nonce := nonce; ei_sig := signature_for E typ c h sk |})
    (hash_after E typ c h sk).
Proof.
  intros c. eapply (driven_sign E typ c h sk 0 (MSetSignature _)); [reflexivity|reflexivity|apply hand_set; left; reflexivity|reflexivity|].
  apply driven_nil.
Qed.

(** It owes nothing, whichever key signs. *)
Theorem C96_either : forall E a b fee nonce sk h typ, ecdsa_correct E -> valid_key sk -> pubkey_of E sk = a \/ pubkey_of E sk = b ->
  let c := either_of true {| ei_one := a; ei_two := b; ei_fee := fee; ei_nonce := nonce; ei_sig := repeat x00 65 |} in
  exists c' h', driven E typ c h [Sign sk] c' h' /\ reset_forgets c c' /\ d_verify E c' h typ = Ok h'.
Proof.
  intros E a b fee nonce sk h typ C V K c. set (d := digest h typ fee nonce). set (sig := sig_bytes (sign_rec E d sk)).
  exists (either_of true {| ei_one := a; ei_two := b; ei_fee := fee; ei_nonce := nonce; ei_sig := sig |}), (link d sig).
  split; [exact (either_driven E true a b fee nonce sk h typ)|]. split; [reflexivity|].
  unfold d_verify. cbn [either_of d_kind d_state either_kind k_verify ei_fee ei_nonce ei_sig ei_one ei_two].
  assert (Y : next_verify E h typ fee nonce sig = Ok (pubkey_of E sk, link d sig)).
  { assert (CF : compact_form (sign_rec E d sk)) by (apply C; auto; apply digest_length).
    apply next_verify_iff; [unfold sig, sig_bytes; cbn [length]; destruct CF as (_ & -> & _); reflexivity|]. split; [|reflexivity].
    exists (sign_rec E d sk). split; [exact CF|]. split; [reflexivity|]. apply C; auto. apply digest_length. }
  rewrite Y. cbn [map_err bind fst snd]. destruct K as [<-|<-]; rewrite bytes_eqb_refl; [reflexivity|now rewrite orb_true_r].
Qed.
Print Assumptions C96_either.

(** The same condition with a [reset] that keeps the signature: it signs as before, but what it signed does not verify. *)
Definition ex_key (forget : bool) (sig : bytes) : dcond :=
  either_of forget {| ei_one := pubkey_of shift sk1; ei_two := pubkey_of shift sk2; ei_fee := 180; ei_nonce := 7; ei_sig := sig |}.
Definition ex_either (c : dcond) : ktx :=
  {| kt_ver := VTestnet; kt_chain := ChTestnet; kt_auth := KStandard c;
     kt_anchor := AnAny; kt_pcmode := PcDeny; kt_conds := []; kt_payload := Ok [x09] |}.
Definition ex_blank (forget : bool) : ktx := ex_either (ex_key forget (repeat x00 65)).
Theorem C96_reset_refuted : ecdsa_correct shift /\ valid_key sk2 /\ exists t u h g, ktx_sign shift t sk2 = Ok u
  /\ k_initial_hash t = Ok h /\ d_verify shift (korigin u) h x04 = Ok g /\ k_verify_origin shift u = Err (TxBadSigner [] []).
Proof.
  split; [exact shift_correct|]. split; [exact sk2_valid|]. destruct (k_initial_hash (ex_blank false)) as [h| | |] eqn:H; [|vm_compute in H; discriminate..].
  pose (g := signature_for shift x04 (korigin (ex_blank false)) h sk2).
  exists (ex_blank false), (ex_either (ex_key false g)), h. vm_compute in H. injection H as <-. eexists. split; [|split; [|split]].
  - apply C96_sign; [exact shift_correct|exact sk2_valid|]. eexists. eexists. eexists. split; [vm_compute; reflexivity|].
    split; [apply either_driven|reflexivity].
  - vm_compute. reflexivity.
  - vm_compute. reflexivity.
  - vm_compute. reflexivity.
Qed.
Print Assumptions C96_reset_refuted.

(** ** Examples *)

Fixpoint outcomes (E : ecdsa) (s : ksigner) (l : list op) : list (res tx_err unit) :=
  match l with [] => [] | o :: r => snd (kperform E s o) :: outcomes E (fst (kperform E s o)) r end.
Definition fresh (t : ktx) (h : bytes) : ksigner :=
  {| ks_tx := t; ks_hash := h; ks_origin_signed := false; ks_oversign := true; ks_overlap := true |}.

(** Signed and verified; signing again is refused, since the condition says it has enough, and so are keys. *)
Example C96_sign_ex : exists h g, k_initial_hash (ex_blank true) = Ok h
  /\ outcomes shift (fresh (ex_blank true) h) [SignOrigin sk2; SignOrigin sk1; AppendOrigin pk1; SignSponsor sk1]
     = [Ok tt; Err TxOriginOversign; Err TxBadModification; Err TxBadModification]
  /\ k_verify_origin shift (ks_tx (kperform_all shift (fresh (ex_blank true) h) [SignOrigin sk2])) = Ok g.
Proof. eexists. eexists. split; [vm_compute; reflexivity|]. split; vm_compute; reflexivity. Qed.
(** A condition of the library sponsored by one of the user's own. *)
Definition ex_mixed : ktx :=
  kt_with_auth (ex_blank true) (KSponsored (lib (SMulti ex_2of3_m))
    (either_of true {| ei_one := pk1; ei_two := pubkey_of toy sk2; ei_fee := 9; ei_nonce := 0; ei_sig := repeat x00 65 |})).
Example C96_mixed_ex : plan toy (SMulti ex_2of3_m) ex_steps /\ Forall step_valid ex_steps /\ exists h, k_initial_hash ex_mixed = Ok h
  /\ outcomes toy (fresh ex_mixed h) (map step_op ex_steps ++ [SignSponsor sk2]) = repeat (Ok tt) (S (length ex_steps))
  /\ k_auth_verify toy (kt_auth (ks_tx (kperform_all toy (fresh ex_mixed h) (map step_op ex_steps ++ [SignSponsor sk2])))) h = Ok tt.
Proof.
  split; [exact ex_plan|]. split; [exact (plan_steps _ _ _ ex_plan)|]. eexists. split; [vm_compute; reflexivity|]. split; vm_compute; reflexivity.
Qed.
Example C96_fails_ex : exists t, ktx_fails t (Panic PUnimplemented) /\ kt_payload t = Err ClTryFromInt.
Proof.
  exists {| kt_ver := VTestnet; kt_chain := ChTestnet; kt_auth := kt_auth (ex_blank true); kt_anchor := AnAny; kt_pcmode := PcDeny;
            kt_conds := [Ok [x01]; Panic PUnimplemented]; kt_payload := Err ClTryFromInt |}.
  split; [|reflexivity]. apply C96_tx_fails; [intros b; discriminate|]. vm_compute. reflexivity.
Qed.
