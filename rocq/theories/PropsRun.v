(** Property theorem C114: what a run of a program asks of its keys. *)

From Coq Require Import Lia Strings.String.
From Verif Require Import Base BaseFacts Sha2 HashFacts SpecText SpecAddr AddrFacts Hash C32 Clarity ClarityFacts SpecWire WireFacts Tx SpecTx LengthThms TxFacts TxThms Signer Builder Wallet SpecSign SignFacts SignThms AuthThms PlanThms
     SpecNode NodeThms PropsNode SpecCharge PropsCharge SpecCond CondThms PropsCond SpecLedger LedgerThms PropsLedger PropsSign PropsTx PropsClarity PropsClient SpecFlow FlowThms SpecShare PropsShare SpecLoss PropsLoss
     Rpc SpecClient ClientThms Session SpecPay PropsPay SpecSecret PropsSecret PropsSponsor HistThms SpecFavour PropsFavour SpecBill PropsBill SpecRun.
Local Open Scope N_scope.

Lemma text_presign h typ fee nonce : presign_hash h typ fee nonce = sha512_256 (message_text h typ fee nonce).
Proof. unfold presign_hash, sighash, message_text. rewrite !big_endian_be. reflexivity. Qed.

(** A run does to the node what it does, and comes out as it does, by no signature but those it asks for. *)
Theorem C114_requests : forall S A W W' (net : node S) (p : program A) s, twins_for (requests W net p s) W W' ->
  run W' net p s = run W net p s /\ requests W' net p s = requests W net p s.
Proof.
  intros S A W W' net p s [Tp Tk Ts Tr]. revert s Ts.
  induction p as [x|i v k IH|i k IH|i d k IH|i d k IH|i h typ fee nonce k IH|i t k IH|i g k IH|i g k IH|t c k IH|a h k IH|t k IH|url c k IH]; intros s; cbn [run requests]; intros Ts.
  - auto.
  - replace (match get_address (wd_account W' i) v with Ok x => Some x | _ => None end)
      with (match get_address (wd_account W i) v with Ok x => Some x | _ => None end); [apply IH; exact Ts|].
    specialize (Tp i). unfold public in Tp. unfold get_address. rewrite Tp. destruct (c32_address _ _); reflexivity.
  - rewrite Tk. apply IH. exact Ts.
  - replace (@build_transfer unit (wd_ecdsa W') (transfer_from (secret W' i) d)) with (@build_transfer unit (wd_ecdsa W) (transfer_from (secret W i) d)); [apply IH; exact Ts|].
    unfold build_transfer. cbn [st_sender transfer_from]. rewrite Tk. reflexivity.
  - replace (build_call (wd_ecdsa W') (call_from (secret W' i) d)) with (build_call (wd_ecdsa W) (call_from (secret W i) d)); [apply IH; exact Ts|].
    unfold build_call. cbn [cc_sender call_from]. rewrite Tk. reflexivity.
  - rewrite (signature_alike (wd_ecdsa W) (wd_ecdsa W') (secret W i) (secret W' i)).
    2: { rewrite text_presign. apply (Ts i _ _ (or_introl eq_refl)). reflexivity. }
    destruct (IH (next_signature (wd_ecdsa W) h typ fee nonce (secret W i)) s) as [-> ->]; [|auto]. intros j r x I. apply Ts. right. exact I.
  - assert (tx_sign (wd_ecdsa W') t (secret W' i) = tx_sign (wd_ecdsa W) t (secret W i)) as ->.
    { destruct (initial_hash t) as [h| | |] eqn:Ih; [|unfold tx_sign, signer_new; rewrite Ih; reflexivity..].
      apply initial_hash_iff in Ih. destruct Ih as (w & M & _). destruct (C109_one_message (wd_ecdsa W) t w (secret W i) M) as (m & -> & R). apply R.
      apply (Ts i _ _ (or_introl eq_refl)). exists w. auto. }
    destruct (IH (tx_sign (wd_ecdsa W) t (secret W i)) s) as [-> ->]; [|auto]. intros j r x I. apply Ts. right. exact I.
  - assert (sign_origin (wd_ecdsa W') g (secret W' i) = sign_origin (wd_ecdsa W) g (secret W i)) as ->.
    { unfold sign_origin, sign_next_origin. rewrite (append_alike (wd_ecdsa W) (wd_ecdsa W') (secret W i) (secret W' i)); [reflexivity|].
      rewrite text_presign. apply (Ts i _ _ (or_introl eq_refl)). cbn [text_of]. unfold origin_of. destruct (tx_auth (sg_tx g)) as [o|o q], o; reflexivity. }
    destruct (IH (sign_origin (wd_ecdsa W) g (secret W i)) s) as [-> ->]; [|auto]. intros j r x I. apply Ts. right. exact I.
  - assert (sign_sponsor (wd_ecdsa W') g (secret W' i) = sign_sponsor (wd_ecdsa W) g (secret W i)) as ->.
    { unfold sign_sponsor, sign_next_sponsor. destruct (tx_auth (sg_tx g)) as [o|o q]; [reflexivity|].
      rewrite (append_alike (wd_ecdsa W) (wd_ecdsa W') (secret W i) (secret W' i)); [reflexivity|].
      rewrite text_presign. apply (Ts i _ _ (or_introl eq_refl)). cbn [text_of]. destruct q; reflexivity. }
    destruct (IH (sign_sponsor (wd_ecdsa W) g (secret W i)) s) as [-> ->]; [|auto]. intros j r x I. apply Ts. apply in_or_app. right. exact I.
  - replace (signer_new_sponsor (wd_ecdsa W') t c) with (signer_new_sponsor (wd_ecdsa W) t c); [apply IH; exact Ts|].
    unfold signer_new_sponsor, tx_verify_origin, auth_verify_origin. destruct (is_sponsored _); [|reflexivity]. cbn [negb].
    destruct (auth_set_sponsor _ _) as [a r]. destruct r; cbn [bind]; try reflexivity. destruct (initial_hash _); cbn [bind]; try reflexivity.
    rewrite !(verify_alike _ _ Tr). reflexivity.
  - replace (auth_verify (wd_ecdsa W') a h) with (auth_verify (wd_ecdsa W) a h); [apply IH; exact Ts|]. unfold auth_verify.
    destruct a as [o|o q]; rewrite ?(verify_alike _ _ Tr); [reflexivity|]. destruct (verify_scond (wd_ecdsa W) o _ _); cbn [bind]; rewrite ?(verify_alike _ _ Tr); reflexivity.
  - replace (tx_verify_origin (wd_ecdsa W') t) with (tx_verify_origin (wd_ecdsa W) t); [apply IH; exact Ts|].
    unfold tx_verify_origin, auth_verify_origin. destruct (initial_hash t); cbn [bind]; try reflexivity. rewrite (verify_alike _ _ Tr). reflexivity.
  - destruct (make_call net url c s) as [s1 x]. apply IH. exact Ts.
Qed.
Print Assumptions C114_requests.

(** An account that a run asks only to sign certain transactions loses no more than what those take, in every history without another
    signature by its key. *)
Theorem C114_loss : forall S A W (net : node S) (p : program A) s i n bs es L M,
  let me := key_account (wd_ecdsa W) n (secret W i) in Forall (sound_bill me) bs -> asks_for i bs (requests W net p s) ->
  takes_all (wd_ecdsa W) n L es M -> from_run W i (requests W net p s) es ->
  (exists taken, incl taken bs /\ in_order (turn L me) taken /\ turn M me = turn L me + count taken /\ coins L me <= coins M me + total taken)
  \/ coincidence (wd_ecdsa W) (secret W i) bs es.
Proof.
  intros S A W net p s i n bs es L M me So Af T Fr. apply (C113_loss (wd_ecdsa W) n (secret W i) bs es L M So T).
  intros w typ h mode signer nonce fee sig I Wf Sp Re. destruct (Fr _ _ _ _ _ _ _ _ I Wf Sp Re) as (r & x & Ir & Tx & Dg).
  destruct (Af r Ir) as (b & Ib & ->). exists b, x. split; [exact Ib|]. split; [|exact Dg]. destruct Tx as (v & Mv & ->).
  destruct (proj1 (Forall_forall _ _) So b Ib) as (_ & v' & Mv' & Wv). rewrite (one_meaning _ _ _ Mv' Mv) in Wv. exists v. auto.
Qed.
Print Assumptions C114_loss.

(** What building a payment yields takes amount and fee. *)
Lemma payment_bill E n sk nonce d to t : sound_draft d to -> nonce < 2 ^ 64 ->
  @build_transfer unit E (payment n sk nonce d) = Ok t -> sound_bill (key_account E n sk) (t, st_amount d + st_fee d).
Proof.
  intros D Bn B. destruct (draft_sound E n sk d to nonce D Bn) as [Se Ne Al Ba To So [m Me] Am Fe No].
  rewrite build_transfer_cases, Al, Se, Ne, Ba in B. injection B as <-. split; cbn [fst snd].
  - exact (outlay_transfer _ (unsigned n (pubkey_of E sk) (st_fee d) nonce (st_anchor d) (st_pcmode d) [] (PTransfer (st_recipient d) (st_amount d) (st_memo d))) _ _ _ eq_refl).
  - eexists. split.
    + apply (unsigned_means E n sk (st_fee d) nonce (st_anchor d) (st_pcmode d) [] (PTransfer (st_recipient d) (st_amount d) (st_memo d)) [] (WpTransfer to (st_amount d) m)).
      * split; [constructor | split; [reflexivity | constructor]].
      * split; [exact To | split; [reflexivity | exact Me]].
    + apply signed_wf; [constructor | reflexivity | split; [exact So | split; [exact Am | apply Me]] | apply hash20_length | exact Fe | exact No | reflexivity].
Qed.

(** The program of C101 asks its account for at most one signature, whatever the node answers.  So whatever the node answers, the account loses no
    more than one payment's amount and fee. *)
Theorem C114_paying : forall S W (net : node S) url s i n d to, sound_draft d to -> let me := key_account (wd_ecdsa W) n (secret W i) in
  let rs := requests W net (paying n url i d) s in
  exists bs, (length bs <= 1)%nat /\ rs = map (fun b => (i, SignsTx (fst b))) bs
    /\ forall es L M, takes_all (wd_ecdsa W) n L es M -> from_run W i rs es ->
       coins L me <= coins M me + (st_amount d + st_fee d) /\ turn M me <= turn L me + 1 \/ coincidence (wd_ecdsa W) (secret W i) bs es.
Proof.
  intros S W net url s i n d to D me rs.
  assert (exists bs, (length bs <= 1)%nat /\ rs = map (fun b => (i, SignsTx (fst b))) bs
          /\ Forall (fun b => sound_bill me b /\ snd b = st_amount d + st_fee d) bs) as (bs & Le & Rs & So).
  { assert (exists bs : list bill, (length bs <= 1)%nat /\ [] = map (fun b => (i, SignsTx (fst b))) bs
            /\ Forall (fun b => sound_bill me b /\ snd b = st_amount d + st_fee d) bs) as Z by (exists []; cbn; auto).
    subst rs. unfold paying. cbn [requests]. destruct (get_address (wd_account W i) (single_version n)) as [addr| | |]; cbn [requests]; try exact Z.
    cbn [make_call]. destruct (address_in net url addr s) as [s1 a] eqn:A. unfold answer_with. cbn [fst snd]. destruct a as [info| | |]; cbn [requests]; try exact Z.
    change (transfer_from (secret W i) (payment n [] (ad_nonce info) d)) with (payment n (secret W i) (ad_nonce info) d).
    destruct (@build_transfer unit (wd_ecdsa W) (payment n (secret W i) (ad_nonce info) d)) as [t| | |] eqn:B; cbn [requests]; try exact Z.
    exists [(t, st_amount d + st_fee d)]. cbn [length map fst]. split; [lia|]. split.
    - destruct (tx_sign (wd_ecdsa W) t (secret W i)) as [u| | |]; cbn [requests]; reflexivity.
    - constructor; [|constructor]. split; [|reflexivity]. apply (payment_bill _ _ _ (ad_nonce info) _ to); [exact D| |exact B]. clear - A.
      unfold address_in, exchange in A. destruct (net s _) as [s2 o2]. injection A as _ A. destruct o2 as [resp|c x|]; try discriminate A. cbn in A.
      unfold into_json in A. destruct (rs_json resp) as [j|] eqn:J; [|discriminate A]. cbn in A.
      destruct (parse_address j) as [a|] eqn:P; [|discriminate A]. injection A as ->. apply parse_address_iff in P. apply P. }
  exists bs. split; [exact Le|]. split; [exact Rs|]. intros es L M T Fr.
  assert (asks_for i bs rs) as Af. { intros r I. rewrite Rs in I. apply in_map_iff in I. destruct I as (b & X & Ib). injection X as <-. exists b. auto. }
  destruct (C114_loss S _ W net (paying n url i d) s i n bs es L M) as [(q & Iq & Or & Tu & Co)|X]; [|exact Af|exact T|exact Fr| |right; exact X].
  { rewrite Forall_forall in *. intros b Ib. apply (So b Ib). }
  left. fold me in Or, Tu, Co. destruct q as [|b q]; [cbn in Tu, Co; lia|]. destruct Or as [On Or]. pose proof (Iq b (or_introl eq_refl)) as Ib.
  destruct q as [|b' q].
  - rewrite Forall_forall in So. destruct (So b Ib) as [_ X]. cbn in Tu, Co. lia.
  - exfalso. pose proof (Iq b' (or_intror (or_introl eq_refl))) as Ib'. destruct Or as [On' _]. destruct bs as [|c [|c' bs]]; [destruct Ib| |cbn in Le; lia].
    destruct Ib as [<-|[]], Ib' as [<-|[]]. lia.
Qed.
Print Assumptions C114_paying.

(** A program that has account 6 sign a transfer of 1000 with a fee of 9, which is taken; and a world in which account 7, which is not asked, signs otherwise. *)
Definition swapped : ecdsa :=
  {| pubkey_of := pubkey_of toy; sign_rec := fun m sk => sign_rec toy m (if list_eq_dec Byte.byte_eq_dec sk (toy_sk 7) then toy_sk 6 else sk); recover := recover toy |}.
Definition swapped_world : world := {| wd_ecdsa := swapped; wd_hd := toy_hd; wd_account := wd_account toy_world |}.
Example C114_ex : let me := key_account toy NetTestnet (toy_sk 6) in
  let t := unsigned NetTestnet (pubkey_of toy (toy_sk 6)) 9 0 AnAny PcDeny [] (PTransfer (CPrinStd sample_addr) 1000 (str "hi"%string)) in
  let rs := requests toy_world (fun (s : unit) _ => (s, OTransport)) (SignTx 6 t (fun u => Return u)) tt in
  Forall (sound_bill me) [(t, 1009)] /\ asks_for 6 [(t, 1009)] rs
  /\ (exists e L M, takes_all toy NetTestnet L [e] M /\ from_run toy_world 6 rs [e] /\ coins M me + 1009 = coins L me)
  /\ twins_for rs toy_world swapped_world /\ ~ twins toy_world swapped_world /\ exists to, sound_draft (ex_pay 0 1000) to.
Proof.
  intros me t rs. destruct C113_ex as (So & e & L & M & _ & T & On & Co). fold me t in So, On, Co.
  split; [constructor; [exact So | constructor]|]. split; [|split; [|split; [|split]]].
  - intros r [X|[]]. injection X as <-. exists (t, 1009). split; [left|]; reflexivity.
  - exists e, L, M. split; [exact T|]. split; [|exact Co]. intros w typ h mode signer nonce fee sig I W Sp Re.
    destruct (On w typ h mode signer nonce fee sig I W Sp Re) as (b & x & [<-|[]] & (v & Mv & _ & X) & D). exists (SignsTx t), x. split; [left; reflexivity|]. split; [exists v; auto | exact D].
  - constructor; try reflexivity. intros i r x [X|[]] _. injection X as <- <-. cbn [swapped_world toy_world wd_ecdsa swapped sign_rec]. destruct (list_eq_dec _ _ _) as [Y|_]; [discriminate Y | reflexivity].
  - intros [_ _ X _]. specialize (X 7 _ (presign_to_sign [] x04 0 0)). cbn [swapped_world toy_world wd_ecdsa swapped sign_rec] in X.
    destruct (list_eq_dec _ _ _) as [_|Y]; [|apply Y; reflexivity]. discriminate X.
  - eexists. exact (ex_draft 1000 eq_refl).
Qed.
