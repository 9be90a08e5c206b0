(** Property theorem C107: money sent to the addresses of accounts. *)

From Coq Require Import Lia Strings.String.
From Verif Require Import Base BaseFacts Sha2 HashFacts SpecText SpecAddr AddrFacts Hash C32 Clarity SpecWire WireFacts Tx SpecTx LengthThms TxFacts TxThms Signer Builder Wallet SpecSign SignFacts SignThms AuthThms PlanThms
     SpecCond SpecNode NodeThms PropsNode SpecCharge PropsCharge SpecLedger LedgerThms PropsLedger PropsSign PropsTx PropsClarity PropsClient Rpc SpecClient ClientThms Session SpecSession SessionThms
     SpecFlow FlowThms SpecPay PropsPay SpecShare PropsShare.
Local Open Scope N_scope.

Lemma recipient_of {H} (b : account H) v d to addr : get_address b v = Ok addr -> st_recipient d = CPrinStd addr -> sound_draft d to ->
  to = WStd (address_code v) (hash20 (xpub_bytes H (acc_ext b))).
Proof.
  intros G R D. apply get_address_iff in G. pose proof (sd_to d to D) as M. rewrite R in M.
  apply (means_fun _ _ _ M). apply address_text_spelling. exact G.
Qed.

(** What is sent to the address that [get_address] gives for one key on the network arrives in the account of that key, and the account
    can send it on. *)
Theorem C107_received : forall S H E n (net : node S) book url (a b : account H) d to addr s s' id, hd_correct E H -> ecdsa_correct E ->
  get_address b (single_version n) = Ok addr -> st_recipient d = CPrinStd addr -> sound_draft d to ->
  banking E n net book -> truthful net book url -> pays E n net url a d s s' (Ok (BcOk id)) ->
  let it := owner n b in
  it <> owner n a /\ coins (book s') it = coins (book s) it + st_amount d /\ turn (book s') it = turn (book s) it
  /\ forall d' to', sound_draft d' to' -> prompt E n net book url (outcome_of_draft E n b d') -> 0 < st_amount d' -> to' <> it ->
       st_amount d' + st_fee d' <= coins (book s) it + st_amount d -> turn (book s) it < 2 ^ 64 ->
       exists s2 id', pays E n net url b d' s' s2 (Ok (BcOk id')) /\ moved it to' (st_amount d') (st_fee d') (book s') (book s2).
Proof.
  intros S H E n net book url a b d to addr s s' id Hd C G R D Ba Tr P it.
  assert (to = it) as ->.
  { rewrite (recipient_of b _ d to addr G R D). unfold it, owner. f_equal. destruct n; reflexivity. }
  assert (it <> owner n a) as Ne.
  { intros X. destruct (C101_useless S H E n net book url a d it s s' _ Hd C D Ba Tr P) as [_ Y]; [auto|]. exact (Y id eq_refl). }
  pose proof (C101_exact S H E n net book url a d it s s' _ Hd C D Ba Tr P it) as [Q1 Q2].
  rewrite (same_true it it eq_refl) in Q1. rewrite (same_false it (owner n a) Ne) in Q1, Q2. cbn [when] in Q1, Q2.
  split; [exact Ne|]. split; [lia|]. split; [lia|]. intros d' to' D' Pr Am Ne' Mo Tu.
  apply (C101_succeeds S H E n net book url b d' to' s' Hd C D' Ba Tr Pr Am Ne'); fold it; lia.
Qed.
Print Assumptions C107_received.

(** What an account pays changes no other account but the recipient's; two accounts are one only if their keys are, or have the same
    hash. *)
Theorem C107_apart : forall S H E n (net : node S) book url (a b : account H) d to s s' r, hd_correct E H -> ecdsa_correct E -> sound_draft d to ->
  banking E n net book -> truthful net book url -> pays E n net url a d s s' r -> to <> owner n b ->
  coins (book s') (owner n b) = coins (book s) (owner n b) /\ turn (book s') (owner n b) = turn (book s) (owner n b)
  \/ xpub_bytes H (acc_ext b) = xpub_bytes H (acc_ext a) \/ clash hash20 (xpub_bytes H (acc_ext b)) (xpub_bytes H (acc_ext a)).
Proof.
  intros S H E n net book url a b d to s s' r Hd C D Ba Tr P Ne.
  destruct (wval_dec (owner n b) (owner n a)) as [X|Nb].
  - right. destruct (bytes_dec (xpub_bytes H (acc_ext b)) (xpub_bytes H (acc_ext a))) as [|Y]; [auto|]. right. split; [exact Y|].
    unfold owner in X. injection X as X. exact X.
  - left. pose proof (C101_exact S H E n net book url a d to s s' r Hd C D Ba Tr P) as Q.
    assert (moved (owner n a) to (st_amount d) (st_fee d) (book s) (book s') \/ book s' = book s) as [M|X] by (destruct r as [[id|e]|x|p|]; cbn in Q; auto); [|rewrite X; auto].
    destruct (M (owner n b)) as [Q1 Q2]. rewrite (same_false _ _ Nb) in Q1, Q2. rewrite (same_false (owner n b) to) in Q1 by congruence. cbn [when] in Q1, Q2. lia.
Qed.
Print Assumptions C107_apart.

(** Finding: what is sent to the address that [get_address] gives for several keys arrives where nobody can ever spend it, short of a
    collision with the key. *)
Theorem C107_lost_refuted : forall S H E n (net : node S) book url (a b : account H) d to addr s s' id, hd_correct E H -> ecdsa_correct E ->
  get_address b (multi_version n) = Ok addr -> st_recipient d = CPrinStd addr -> sound_draft d to ->
  banking E n net book -> truthful net book url -> pays E n net url a d s s' (Ok (BcOk id)) ->
  coins (book s') to = coins (book s) to + st_amount d /\ coins (book s') (owner n a) + st_amount d + st_fee d = coins (book s) (owner n a)
  /\ forall L e L', takes E n L e L' -> coins L' to < coins L to \/ turn L' to <> turn L to ->
       exists w typ h c y, e = ser_tx w /\ wf_tx w /\ speaks E w typ h c /\ opens E typ h c y /\ clash hash20 y (xpub_bytes H (acc_ext b)).
Proof.
  intros S H E n net book url a b d to addr s s' id Hd C G R D Ba Tr P.
  pose proof (recipient_of b _ d to addr G R D) as To. set (key := xpub_bytes H (acc_ext b)) in *.
  assert (to <> owner n a) as Ne by (rewrite To; unfold owner; destruct n; discriminate).
  pose proof (C101_exact S H E n net book url a d to s s' _ Hd C D Ba Tr P) as M.
  destruct (M to) as [Q1 _]. destruct (M (owner n a)) as [Q2 _].
  rewrite (same_true to to eq_refl), (same_false to (owner n a) Ne) in Q1. rewrite (same_true _ _ eq_refl), (same_false (owner n a) to) in Q2 by congruence. cbn [when] in Q1, Q2.
  split; [lia|]. split; [lia|]. clear - Hd C To. intros L e L' T X.
  assert (exists w, admitted E n L e w /\ acts n w to) as (w & (Xw & W & Nn & Na & _) & A).
  { destruct X as [X|X]; [rewrite To in X |- *; exact (only_actors E n L e L' _ _ T X)|]. destruct (taken_admitted _ _ _ _ _ T) as (w & Ad & Tu).
    exists w. split; [exact Ad|]. rewrite Tu, advance_eq in X. unfold acts.
    destruct (wval_dec to (account_of n (worigin w))) as [|N1]; [auto|]. destruct (wval_dec to (account_of n (wpayer w))) as [|N2]; [auto|].
    exfalso. apply X. rewrite (same_false _ _ N1), (same_false _ _ N2). cbn. lia. }
  assert (exists typ h c h', speaks E w typ h c /\ account_of n c = to /\ wf_spend c /\ node_spend E typ h c h') as (typ & h & c & h' & Sp & As & Ws & Sd).
  { pose proof W as (_ & Wa & _). unfold acts, worigin, wpayer in A. unfold speaks, worigin. destruct (w_auth w) as [o|o p].
    - destruct Na as [h' Sd]. eexists x04, _, o, h'. split; [left; auto|]. split; [destruct A; congruence|]. auto.
    - destruct Na as (h1 & h2 & S1 & S2). destruct Wa as [Wo Wp]. destruct A as [A|A]; symmetry in A.
      + eexists x04, _, o, h1. split; [left; auto|]. auto.
      + exists x05, h1, p, h2. split; [right; split; [reflexivity | exists o; auto]|]. auto. }
  destruct (spend_opens _ _ _ _ _ Sd) as (y & O & Y). exists w, typ, h, c, y. split; [exact Xw|]. split; [exact W|]. split; [exact Sp|]. split; [exact O|].
  rewrite To in As. unfold account_of in As. injection As as Av Ah. split; [|congruence]. intros ->.
  assert (length key = 33%nat) as Lk by (unfold key; rewrite <- (hd_pub E H Hd); apply (key_length E C), (hd_key E H Hd)).
  inversion O as [signer nonce fee sig pk Re E1 E2|signer nonce fee sig pk Re E1 E2|signer nonce fee fields required ks h1 Wk E1 E2
                 |signer nonce fee fields required ks h1 Wk E1 E2]; rewrite <- E1 in *; cbn [mode_of signer_of] in *.
  - destruct n; discriminate Av.
  - rewrite <- E2 in Lk. cbn [length] in Lk. rewrite hash20_length in Lk. discriminate Lk.
  - rewrite <- E2 in Lk. apply script_length in Lk; [exact Lk| |]; [apply Ws|]. eapply walk_lengths; [exact C | apply Ws | exact Wk].
  - rewrite <- E2 in Lk. cbn [length] in Lk. rewrite sha256_length in Lk. discriminate Lk.
Qed.
Print Assumptions C107_lost_refuted.

(** An account pays 1000 to the address of another for one key, or to its address for several. *)
Definition ex_neighbour : account toy_hd := {| acc_ext := (7 : xprv toy_hd); acc_index := 1 |}.
Lemma ex_neighbour_other : owner NetTestnet ex_neighbour <> owner NetTestnet toy_account.
Proof.
  unfold owner. intros X. apply (f_equal (fun p => match p with WStd _ h => match h with x :: _ => Byte.to_N x | [] => 0 end | _ => 0 end)) in X.
  vm_compute in X. discriminate X.
Qed.
Example C107_ex : forall v, v = single_version NetTestnet \/ v = multi_version NetTestnet ->
  exists d to addr net book s id, get_address ex_neighbour v = Ok addr /\ st_recipient d = CPrinStd addr /\ sound_draft d to /\ banking toy NetTestnet net book
    /\ truthful net book [] /\ pays toy NetTestnet net [] toy_account d O s (Ok (BcOk id)) /\ st_amount d = 1000.
Proof.
  intros v Hv. destruct (C49_address toy_hd ex_neighbour v) as (addr & G & _). pose proof (proj1 (get_address_iff _ _ _) G) as T.
  set (h := hash20 _) in T. set (to := WStd (address_code v) h).
  set (d := {| st_recipient := CPrinStd addr; st_amount := 1000; st_sender := []; st_network := NetTestnet; st_fee := 9; st_nonce := 0; st_anchor := AnAny;
               st_memo := str "hi"%string; st_pcmode := PcDeny; st_conds := []; st_sponsored := false |}).
  assert (sound_draft d to) as D.
  { constructor; try reflexivity; [apply address_text_spelling; exact T | | eexists; exact ex_memo].
    assert (length h = 20%nat) as Lh by apply hash20_length. clearbody h. unfold solid, to. cbn. rewrite Lh. destruct v; cbn; auto. }
  assert (to <> owner NetTestnet toy_account) as Ne.
  { destruct Hv as [->| ->]; [exact ex_neighbour_other | discriminate]. }
  destruct (till_exists toy_hd toy NetTestnet [] toy_account d to 4 toy_hd_correct toy_correct D eq_refl Ne eq_refl) as (net & book & B0 & Ba & Tr & Pr).
  destruct (C101_succeeds _ _ _ _ net book [] toy_account d to O toy_hd_correct toy_correct D Ba Tr Pr eq_refl Ne) as (s & id & P & _).
  { rewrite B0. cbn [coins]. lia. }
  { rewrite B0. reflexivity. }
  exists d, to, addr, net, book, s, id. split; [exact G|]. auto 10.
Qed.
