(** The node's checks against the library's verification. *)

From Coq Require Import Lia ZifyBool ZifyNat ZifyN.
From Verif Require Import Base BaseFacts SpecText NumFacts Sha2 Hash HashFacts C32 Clarity SpecWire Tx SpecTx Signer Builder
  WireFacts ClarityFacts TxWire TxFacts TxThms SpecSign SignFacts SignThms HistThms PlanThms AuthThms SpecBind LengthThms SpecNode.
Local Open Scope N_scope.

Lemma walk_chain E typ fee nonce h fs ks n h' :
  walk E typ fee nonce h (map field_wire fs) ks n h' <-> chain E typ fee nonce h fs ks n h'.
Proof.
  split.
  - revert h ks n. induction fs as [|f fs IH]; intros h ks n H; [inversion H; subst; constructor|].
    destruct f as [pk|sig]; cbn [map field_wire] in H; inversion H; subst.
    + constructor. apply IH. assumption.
    + match goal with |- chain _ _ _ _ _ _ _ (?a + 1) _ => replace (a + 1) with (1 + a) by lia end.
      econstructor; [eassumption|]. apply IH. assumption.
  - induction 1 as [|h pk fs ks n h' C IH|h sig pk fs ks n h' R C IH]; cbn [map field_wire]; [constructor | constructor; exact IH|].
    replace (1 + n) with (n + 1) by lia. econstructor; eassumption.
Qed.

Lemma small_script m keys : 1 <= m <= 16 -> 1 <= count keys <= 16 -> node_script m keys = script m keys.
Proof.
  intros A B. unfold node_script, script, push_number.
  repeat match goal with |- context [if ?b then _ else _] => let X := fresh in destruct b eqn:X; try lia end. reflexivity.
Qed.

Lemma small_fits m keys : 1 <= m <= 16 -> 1 <= count keys <= 16 -> script_fits m keys.
Proof. intros A B. split; [lia|]. rewrite N.mod_small; lia. Qed.

Lemma key_hash_mode mode pk : node_key_hash (mode_code mode) pk = key_address mode pk.
Proof. destruct mode; reflexivity. Qed.
Lemma script_hash_mode mode m keys : node_script_hash (mode_code mode) (script m keys) = keys_address mode m keys.
Proof. destruct mode; reflexivity. Qed.

Lemma node_satisfied E typ h c h' : small c ->
  (node_spend E typ h (spend_wire c) h' <-> satisfied E typ h c h' /\ exact_count c).
Proof.
  destruct c as [s|m]; cbn [small spend_wire exact_count]; intros S; split.
  - intros H. inversion H; subst. split; [|exact I]. econstructor; [eassumption|]. rewrite <- key_hash_mode. assumption.
  - intros [H _]. inversion H; subst. econstructor; [eassumption|]. rewrite key_hash_mode. assumption.
  - intros H. inversion H as [|? ? ? ? ? ? ks ? W A]; subst. apply walk_chain in W. destruct (chain_counts _ _ _ _ _ _ _ _ _ W) as [L N].
    assert (count ks = count (ms_fields m)) as K by (unfold count; rewrite L; reflexivity).
    rewrite small_script, script_hash_mode in A by lia. split.
    + econstructor; [exact W | lia | lia | apply small_fits; lia | exact A].
    + cbn [held threshold]. lia.
  - intros [H X]. inversion H as [|? ks n ? W R M F A]; subst. destruct (chain_counts _ _ _ _ _ _ _ _ _ W) as [L N].
    assert (count ks = count (ms_fields m)) as K by (unfold count; rewrite L; reflexivity).
    cbn [held threshold] in X. rewrite N, X in W. econstructor; [apply walk_chain; exact W|].
    rewrite small_script, script_hash_mode by lia. exact A.
Qed.

Lemma network_ids n t w : tx_means t w -> (node_network n w <-> net_ids n = (tx_ver t, tx_chain t)).
Proof.
  intros (V & C & _). unfold node_network. rewrite V, C.
  destruct n, (tx_ver t), (tx_chain t); cbn; split; intros H; try (split; reflexivity); try reflexivity; try discriminate H; destruct H; discriminate.
Qed.

Lemma wf_typed_auth a : wf_auth (auth_wire a) ->
  match a with AStandard o => typed o | ASponsored o p => typed o /\ typed p end.
Proof.
  assert (forall c, wf_spend (spend_wire c) -> typed c) as X.
  { intros [s|m]; cbn [spend_wire wf_spend typed]; [tauto|]. intros (_ & _ & _ & _ & _ & F & _). rewrite Forall_map in F.
    eapply Forall_impl; [|exact F]. intros [pk|sig]; cbn; auto. }
  destruct a; cbn [auth_wire wf_auth]; [apply X|]. intros [A B]. split; apply X; assumption.
Qed.

Lemma node_exact E n t w e : tx_means t w -> wf_tx w -> enc_tx t = Ok e -> small_tx t ->
  (node_accepts E n e <-> net_ids n = (tx_ver t, tx_chain t) /\ exact_tx t /\ verified E t).
Proof.
  intros M W En [So Ss]. destruct (enc_means _ _ _ M En) as [F ->].
  set (h := sha512_256 (ser_tx (clear_tx w))).
  assert (initial_hash t = Ok h) as H.
  { apply initial_hash_iff. exists w. split; [exact M|]. split; [apply F | reflexivity]. }
  assert (w_auth w = auth_wire (tx_auth t)) as Au by apply M.
  pose proof W as W'. destruct W' as (_ & Wa & _). rewrite Au in Wa. apply wf_typed_auth in Wa.
  transitivity (node_network n w /\ node_auth E h (w_auth w)).
  { split.
    - intros (v & S & V & N & A). destruct (tx_prefix w v [] []) as [<- _]; auto. now rewrite !app_nil_r.
    - intros [N A]. exists w. repeat split; auto; apply W. }
  rewrite (network_ids n t w M), Au. unfold small_tx, exact_tx, verified, origin_of, sponsor_of in *.
  destruct (tx_auth t) as [o|o p] eqn:T; cbn [auth_wire node_auth] in *.
  - assert ((exists h', node_spend E x04 h (spend_wire o) h') <-> exact_count o /\ exists g, tx_verify_origin E t = Ok g) as ->.
    { assert (origin_of t = o) as O by (unfold origin_of; rewrite T; reflexivity).
      assert (forall g, tx_verify_origin E t = Ok g <-> satisfied E x04 h o g) as V.
      { intros g. rewrite (verify_origin_iff E t h g H), O by (rewrite O; exact Wa). reflexivity. }
      split.
      - intros [g G]. apply node_satisfied in G; [|exact So]. split; [apply G | exists g; apply V, G].
      - intros [X [g G]]. exists g. apply node_satisfied; [exact So|]. split; [apply V; exact G | exact X]. }
    split; [intros (A & B & C) | intros (A & [B _] & C)]; repeat split; auto; discriminate.
  - destruct Wa as [To Tp]. specialize (Ss p eq_refl). split.
    + intros (A & h1 & h2 & B & C). apply node_satisfied in B, C; auto. destruct B as [B Eo], C as [C Ep].
      split; [exact A|]. split; [split; [exact Eo | intros q Q; injection Q as <-; exact Ep]|].
      exists h. split; [exact H|]. apply sponsored_verify_iff; eauto.
    + intros (A & [Eo Ep] & k & K & V). rewrite H in K. injection K as <-. apply sponsored_verify_iff in V; auto.
      destruct V as (h1 & h2 & B & C). split; [exact A|]. exists h1, h2. split; apply node_satisfied; auto.
Qed.

(** ** From the builder to the node *)

Lemma wf_auth_same t u w : same_but_signatures t u -> tx_means t w -> wf_tx w -> typed_tx u -> few_fields u ->
  wf_tx (with_auth_wire w (auth_wire (tx_auth u))).
Proof.
  intros (_ & _ & _ & _ & _ & _ & S) (_ & _ & A & _) (C & Wa & R) [To Ts] [Fo Fs].
  split; [exact C|]. split; [|exact R]. cbn [with_auth_wire w_auth]. rewrite A in Wa. clear - S Wa To Ts Fo Fs.
  assert (forall c d, same_terms c d -> wf_spend (spend_wire c) -> typed d -> fits_spend (spend_wire d) -> wf_spend (spend_wire d)) as X.
  { intros [s|m] [s'|m']; intros [I [Fe No]] Wc Td Fd; cbn [same_identity fee_of nonce_of] in *; try contradiction.
    - destruct I as [I1 I2]. cbn [spend_wire wf_spend typed] in *. rewrite <- I1, <- I2, <- Fe, <- No. tauto.
    - destruct I as (I1 & I2 & I3). cbn [spend_wire wf_spend typed fits_spend] in *. rewrite <- I1, <- I2, <- I3, <- Fe, <- No.
      destruct Wc as (W1 & W2 & W3 & W4 & _ & _ & W7). repeat split; auto. rewrite Forall_map.
      eapply Forall_impl; [|exact Td]. intros [pk|sig]; cbn; auto. }
  unfold origin_of, sponsor_of in *. destruct (tx_auth t) as [o|o p], (tx_auth u) as [o'|o' p']; cbn [auth_wire wf_auth] in *; try contradiction.
  - apply (X o o'); auto.
  - destruct S as [S S'], Wa as [W W']. split; [apply (X o o') | apply (X p p')]; auto.
Qed.

Lemma signed_accepted E n t u w : same_but_signatures t u -> tx_means t w -> wf_tx w -> fits_body w -> typed_tx u -> small_tx u ->
  net_ids n = (tx_ver t, tx_chain t) -> exact_tx u -> verified E u -> exists e, enc_tx u = Ok e /\ node_accepts E n e.
Proof.
  intros S M W F T Sm N X V.
  assert (few_fields u) as Fu.
  { destruct Sm as [So Ss]. assert (forall c, small c -> fits_spend (spend_wire c)) as Y.
    { intros [s|m]; cbn [small spend_wire fits_spend]; [trivial|]. intros [_ [_ L]]. unfold count in *. rewrite map_length.
      change (2 ^ 32) with 4294967296. lia. }
    split; [apply Y, So | intros p P; apply Y, (Ss p P)]. }
  pose proof (same_means t u w S M) as Mu. pose proof (wf_auth_same t u w S M W T Fu) as Wu.
  assert (enc_tx u = Ok (ser_tx (with_auth_wire w (auth_wire (tx_auth u))))) as En.
  { apply tx_iff. eexists. split; [exact Mu|]. split; [|reflexivity]. split; [|exact F].
    cbn [with_auth_wire w_auth]. destruct Fu as [Fo Fs]. unfold origin_of, sponsor_of in *.
    destruct (tx_auth u); cbn [auth_wire fits_auth]; [exact Fo | split; [exact Fo | apply Fs; reflexivity]]. }
  eexists. split; [exact En|]. apply (node_exact E n u _ _ Mu Wu En Sm). split; [|split; assumption].
  destruct S as (A & B & _). rewrite <- A, <- B. exact N.
Qed.

Lemma wf_fits_body w : wf_tx w -> fits_body w.
Proof.
  intros (_ & _ & C & F & P). split; [exact C|]. split.
  - eapply Forall_impl; [|exact F]. intros [who code am|who as_ code am|who as_ nm code]; cbn [wf_cond fits_cond].
    + intros (_ & S & _). apply S.
    + intros (_ & S & A & _). split; [apply S | apply A].
    + intros (_ & S & A & Sn). split; [apply S|]. split; [apply A | apply Sn].
  - destruct (w_payload w); cbn [wf_payload fits_payload] in *; [apply P|].
    destruct P as (_ & A & B & D & G). repeat split; auto. eapply Forall_impl; [|exact G]. intros v S. apply S.
Qed.

(** ** Number of fields *)

Definition size (c : scond) : N := match c with SStd _ => 0 | SMulti m => count (ms_fields m) end.
Definition sponsor_size (t : tx) : N := match sponsor_of t with Some p => size p | None => 0 end.
Definition on_sponsor (o : op) : bool := match o with SignSponsor _ => true | _ => false end.

Lemma modify_size c cmd : size (fst (modify c cmd)) <= size c + 1.
Proof. destruct c, cmd; cbn [modify fst size ms_fields]; rewrite ?count_app; unfold count; cbn [length]; lia. Qed.

Lemma sign_append_size E c h typ sk : size (fst (sign_and_append E c h typ sk)) <= size c + 1.
Proof.
  unfold sign_and_append. destruct (map_err _ _) as [[sig x]| | |]; try (cbn [fst]; lia).
  destruct (sc_mode c); match goal with |- context [modify c ?x] => pose proof (modify_size c x) as M; destruct (modify c x) as [d [[]| | |]] end;
    cbn [bind fst] in *; lia.
Qed.

Lemma sponsor_with_origin t o : sponsor_of (tx_with_auth t (auth_with_origin (tx_auth t) o)) = sponsor_of t.
Proof. unfold sponsor_of, tx_with_auth, auth_with_origin. cbn [tx_auth]. destruct (tx_auth t); reflexivity. Qed.

Lemma perform_size E s o :
  size (origin_of (sg_tx (fst (perform E s o)))) <= size (origin_of (sg_tx s)) + (if on_sponsor o then 0 else 1)
  /\ sponsor_size (sg_tx (fst (perform E s o))) <= sponsor_size (sg_tx s) + (if on_sponsor o then 1 else 0).
Proof.
  destruct (perform E s o) as [s' r] eqn:P. cbn [fst]. destruct o as [sk|sk|pk]; cbn [perform on_sponsor] in *.
  - apply sign_origin_effect in P. cbv zeta in P. destruct P as [(_ & o' & h' & S & _ & _ & ->)|[-> _]]; [|lia].
    cbn [with_tx sg_tx]. unfold sponsor_size. rewrite with_origin_of, sponsor_with_origin.
    pose proof (sign_append_size E (origin_of (sg_tx s)) (sg_hash s) x04 sk) as X. rewrite S in X. cbn [fst] in X. lia.
  - apply sign_sponsor_effect in P. cbv zeta in P. destruct P as [(_ & o & p & p' & h' & A & S & _ & ->)|[-> _]]; [|lia].
    cbn [with_tx sg_tx]. unfold sponsor_size, sponsor_of, origin_of, tx_with_auth. cbn [tx_auth]. rewrite A.
    pose proof (sign_append_size E p (sg_hash s) x05 sk) as X. rewrite S in X. cbn [fst] in X. lia.
  - apply append_origin_effect in P. cbv zeta in P. destruct P as [(_ & _ & M & ->)|[-> _]]; [|lia].
    cbn [with_tx sg_tx]. unfold sponsor_size. rewrite with_origin_of, sponsor_with_origin.
    pose proof (modify_size (origin_of (sg_tx s)) (MAddPublicKey pk)). lia.
Qed.

Lemma history_size E l s :
  size (origin_of (sg_tx (perform_all E s l))) <= size (origin_of (sg_tx s)) + count (filter (fun o => negb (on_sponsor o)) l)
  /\ sponsor_size (sg_tx (perform_all E s l)) <= sponsor_size (sg_tx s) + count (filter on_sponsor l).
Proof.
  revert s. induction l as [|o l IH]; intros s; [unfold count; cbn; lia|].
  unfold perform_all in *. cbn [fold_left filter]. pose proof (IH (fst (perform E s o))) as H. pose proof (perform_size E s o) as P.
  destruct (on_sponsor o); cbn [negb]; rewrite ?count_cons; lia.
Qed.

(** Verified without a signature too many means exactly as many as required. *)
Lemma verified_exact E t : typed_tx t -> not_oversigned t -> (exists h, initial_hash t = Ok h) -> verified E t -> exact_tx t.
Proof.
  assert (forall typ h c h', satisfied E typ h c h' -> held c <= threshold c -> exact_count c) as X.
  { intros typ h [s|m] h' S L; cbn [exact_count]; [exact I|]. inversion S as [|? ks n ? W R M F A]; subst.
    destruct (chain_counts _ _ _ _ _ _ _ _ _ W) as [_ N]. cbn [held threshold] in *. lia. }
  intros [To Ts] [No Ns] [h H] V. unfold verified, exact_tx, origin_of, sponsor_of in *.
  destruct (tx_auth t) as [o|o p] eqn:A.
  - destruct V as [g V]. assert (origin_of t = o) as O by (unfold origin_of; rewrite A; reflexivity).
    apply (verify_origin_iff E t h g H) in V; [|rewrite O; exact To]. rewrite O in V. split; [eapply X; eauto | discriminate].
  - destruct V as (k & _ & V). apply sponsored_verify_iff in V; auto. destruct V as (h1 & h2 & B & C).
    split; [eapply X; eauto|]. intros q Q. injection Q as <-. eapply X; eauto.
Qed.

Lemma small_of E typ h c h' : satisfied E typ h c h' -> exact_count c -> 1 <= threshold c <= 16 -> size c <= 16 -> small c.
Proof.
  intros S X T L. destruct c as [s|m]; cbn [small size exact_count threshold held] in *; [exact I|]. split; [exact T|]. split; [|exact L].
  pose proof (filter_split is_sig (ms_fields m)). lia.
Qed.

(** ** Plans *)

Lemma plan_typed E c l : plan E c l -> typed c /\ held c = 0 /\ size c = 0 /\ Forall typed_op (map step_op l).
Proof.
  intros P. inversion P as [s sk V Z K|m l' V Z K Fi Cn]; subst; cbn [typed held size].
  - rewrite Z. split; [reflexivity|]. split; [vm_compute; reflexivity|]. split; [reflexivity|]. repeat constructor.
  - rewrite Z. split; [constructor|]. split; [reflexivity|]. split; [reflexivity|]. apply Forall_map. eapply Forall_impl; [|exact V].
    intros [sk|pk]; cbn; auto.
Qed.

Lemma plan_threshold E c l : plan E c l -> threshold c <= count l.
Proof.
  intros P. inversion P as [s sk V Z K|m l' V Z K Fi Cn]; subst; cbn [threshold]; [unfold count; cbn; lia|].
  pose proof (filter_split is_sign l). lia.
Qed.

Lemma terms_threshold c d : same_terms c d -> threshold c = threshold d.
Proof. intros [I _]. destruct c, d; cbn [same_identity threshold] in *; try contradiction; [reflexivity|]. destruct I as (_ & _ & ->). reflexivity. Qed.

Lemma origin_ops l : count (filter (fun o => negb (on_sponsor o)) (map step_op l)) = count l /\ count (filter on_sponsor (map step_op l)) = 0.
Proof.
  induction l as [|x l [IH IH']]; [split; reflexivity|]. destruct x; cbn [map step_op filter on_sponsor negb]; rewrite !count_cons; split; lia.
Qed.
Lemma sponsor_ops sks : count (filter (fun o => negb (on_sponsor o)) (map SignSponsor sks)) = 0 /\ count (filter on_sponsor (map SignSponsor sks)) = count sks.
Proof. induction sks as [|x l [IH IH']]; [split; reflexivity|]. cbn [map filter on_sponsor negb]; rewrite !count_cons; split; lia. Qed.

Lemma same_auth_origin t u : same_but_signatures t u -> same_terms (origin_of t) (origin_of u).
Proof.
  intros (_ & _ & _ & _ & _ & _ & S). unfold origin_of. destruct (tx_auth t), (tx_auth u); try contradiction; [exact S | apply S].
Qed.
Lemma same_auth_sponsor t u q : same_but_signatures t u -> sponsor_of u = Some q -> exists p, sponsor_of t = Some p /\ same_terms p q.
Proof.
  intros (_ & _ & _ & _ & _ & _ & S). unfold sponsor_of. destruct (tx_auth t), (tx_auth u); try contradiction; [discriminate|].
  intros Q. injection Q as <-. eexists. split; [reflexivity | apply S].
Qed.

(** What a history leaves behind, if it verifies. *)
Lemma history_accepted E n s l t w : same_but_signatures t (sg_tx s) -> tx_means t w -> wf_tx w ->
  sg_oversign s = true -> typed_tx (sg_tx s) -> not_oversigned (sg_tx s) -> Forall typed_op l ->
  1 <= threshold (origin_of t) -> (forall p, sponsor_of t = Some p -> 1 <= threshold p) ->
  threshold (origin_of t) <= 16 -> (forall p, sponsor_of t = Some p -> threshold p <= 16) ->
  size (origin_of (sg_tx s)) + count (filter (fun o => negb (on_sponsor o)) l) <= 16 ->
  sponsor_size (sg_tx s) + count (filter on_sponsor l) <= 16 ->
  net_ids n = (tx_ver t, tx_chain t) -> verified E (sg_tx (perform_all E s l)) ->
  exists e, enc_tx (sg_tx (perform_all E s l)) = Ok e /\ node_accepts E n e.
Proof.
  intros S M W Ov T N F O1 P1 O2 P2 Zo Zp Ne V. set (u := sg_tx (perform_all E s l)) in *.
  assert (same_but_signatures t u) as Su by (eapply but_sig_trans; [exact S | apply history_same]).
  assert (typed_tx u) as Tu by (apply history_typed; assumption).
  assert (exists h, initial_hash u = Ok h) as H.
  { eexists. apply initial_hash_iff. eexists. split; [apply (same_means t u w Su M)|]. split; [apply (wf_fits_body w W) | reflexivity]. }
  assert (exact_tx u) as X. { apply (verified_exact E); auto. apply not_oversigned_history; assumption. }
  pose proof (history_size E l s) as [Ho Hp]. fold u in Ho, Hp.
  assert (small_tx u) as Sm.
  { destruct H as [h H]. pose proof (terms_threshold _ _ (same_auth_origin _ _ Su)) as Th. pose proof Tu as [To Tp]. destruct X as [Xo Xp].
    unfold verified in V. split.
    - destruct (tx_auth u) as [o|o p] eqn:A.
      + destruct V as [g V]. apply (verify_origin_iff E u h g H To) in V. eapply small_of; eauto; lia.
      + destruct V as (k & _ & V). assert (origin_of u = o) as Oo by (unfold origin_of; rewrite A; reflexivity).
        assert (sponsor_of u = Some p) as Sp by (unfold sponsor_of; rewrite A; reflexivity).
        apply sponsored_verify_iff in V; [|rewrite <- Oo; exact To | apply Tp; exact Sp]. destruct V as (h1 & h2 & B & _).
        rewrite <- Oo in B. eapply small_of; eauto; lia.
    - intros p Sp. destruct (same_auth_sponsor _ _ _ Su Sp) as (q & Q & Tq). pose proof (terms_threshold _ _ Tq) as Th'.
      specialize (P1 q Q). specialize (P2 q Q). unfold sponsor_size in Hp at 1. rewrite Sp in Hp.
      unfold sponsor_of in Sp. destruct (tx_auth u) as [o|o p'] eqn:A; [discriminate|]. injection Sp as ->.
      assert (origin_of u = o) as Oo by (unfold origin_of; rewrite A; reflexivity).
      assert (sponsor_of u = Some p) as Sp by (unfold sponsor_of; rewrite A; reflexivity).
      destruct V as (k & _ & V). apply sponsored_verify_iff in V; [|rewrite <- Oo; exact To | apply Tp; exact Sp].
      destruct V as (h1 & h2 & _ & B). eapply small_of; eauto; lia. }
  apply (signed_accepted E n t u w Su M W (wf_fits_body w W) Tu Sm Ne X V).
Qed.

Lemma plan_accepted E n t o l w : ecdsa_correct E -> tx_auth t = AStandard o -> plan E o l -> 1 <= threshold o -> count l <= 16 ->
  tx_means t w -> wf_tx w -> net_ids n = (tx_ver t, tx_chain t) ->
  exists s s' e, signer_new t = Ok s /\ succeeds E s (map step_op l) s' /\ enc_tx (sg_tx s') = Ok e /\ node_accepts E n e.
Proof.
  intros C A P T L M W Ne. assert (origin_of t = o) as O by (unfold origin_of; rewrite A; reflexivity).
  assert (sponsor_of t = None) as Sp by (unfold sponsor_of; rewrite A; reflexivity).
  set (h := sha512_256 (ser_tx (clear_tx w))).
  assert (initial_hash t = Ok h) as H by (apply initial_hash_iff; exists w; auto using wf_fits_body).
  destruct (origin_plan E t l h C) as (s & s' & Sn & Su & _ & V); [rewrite O; exact P | exact H|].
  destruct (plan_typed _ _ _ P) as (Ty & He & Si & Fo). pose proof (plan_threshold _ _ _ P) as Tl.
  pose proof (succeeds_all _ _ _ _ Su) as Pa. apply signer_new_ok in Sn as Sn'. destruct Sn' as (h' & _ & Es).
  assert (sg_tx s = t) as Et by (rewrite Es; reflexivity). assert (sg_oversign s = true) as Ov by (rewrite Es; reflexivity). clear Es.
  destruct (history_accepted E n s (map step_op l) t w) as (e & En & Ac); auto.
  - rewrite Et. apply but_sig_refl.
  - rewrite Et. split; [rewrite O; exact Ty | rewrite Sp; discriminate].
  - rewrite Et. split; [rewrite O, He; lia | rewrite Sp; exact I].
  - rewrite O; exact T.
  - rewrite Sp; discriminate.
  - rewrite O. lia.
  - rewrite Sp; discriminate.
  - rewrite Et, O, Si, (proj1 (origin_ops l)). lia.
  - unfold sponsor_size. rewrite Et, Sp, (proj2 (origin_ops l)). lia.
  - rewrite Pa. unfold verified. assert (tx_auth (sg_tx s') = AStandard (origin_of (sg_tx s'))) as ->; [|eauto].
    destruct (history_same E (map step_op l) s) as (_ & _ & _ & _ & _ & _ & S). rewrite Pa, Et, A in S.
    unfold origin_of. destruct (tx_auth (sg_tx s')); [reflexivity | contradiction].
  - exists s, s', e. rewrite Pa in En. repeat split; auto.
Qed.

Lemma sponsored_accepted E n t o p q l sks w : ecdsa_correct E -> tx_auth t = ASponsored o q -> typed q -> held q <= threshold q ->
  plan E o l -> plan E p (map Sign sks) -> 1 <= threshold o -> 1 <= threshold p -> count l <= 16 -> count sks <= 16 ->
  tx_means (tx_with_auth t (ASponsored o p)) w -> wf_tx w -> net_ids n = (tx_ver t, tx_chain t) ->
  exists s s1 s2 s3 e, signer_new t = Ok s /\ succeeds E s (map step_op l) s1
    /\ signer_new_sponsor E (sg_tx s1) p = Ok s2 /\ succeeds E s2 (map SignSponsor sks) s3
    /\ enc_tx (sg_tx s3) = Ok e /\ node_accepts E n e.
Proof.
  intros C A Tq Hq P Q To Tp Lo Lp M W Ne. set (t' := tx_with_auth t (ASponsored o p)) in *.
  assert (origin_of t = o) as O by (unfold origin_of; rewrite A; reflexivity).
  assert (sponsor_of t = Some q) as Sq by (unfold sponsor_of; rewrite A; reflexivity).
  set (h := sha512_256 (ser_tx (clear_tx w))).
  assert (initial_hash t' = Ok h) as H' by (apply initial_hash_iff; exists w; auto using wf_fits_body).
  assert (initial_hash t = Ok h) as H.
  { rewrite <- H'. symmetry. apply initial_hash_auth. rewrite A. destruct o; cbn; auto. }
  destruct (sponsored_flow E t o p q l sks h C A P Q H) as (s & s1 & s2 & s3 & Sn & S1 & N2 & S3 & Sb & V & H3).
  destruct (plan_typed _ _ _ P) as (Tyo & Heo & Sio & Foo). destruct (plan_typed _ _ _ Q) as (Typ & Hep & Sip & _).
  pose proof (plan_threshold _ _ _ P) as Tlo. pose proof (plan_threshold _ _ _ Q) as Tlp.
  assert (count (map Sign sks) = count sks) as Ck by (unfold count; rewrite map_length; reflexivity).
  pose proof (succeeds_all _ _ _ _ S1) as P1. pose proof (succeeds_all _ _ _ _ S3) as P3.
  apply signer_new_ok in Sn as Sn'. destruct Sn' as (h' & _ & Es).
  assert (sg_tx s = t) as Et by (rewrite Es; reflexivity). assert (sg_oversign s = true) as Ov by (rewrite Es; reflexivity). clear Es.
  apply new_sponsor_ok in N2 as N2'. destruct N2' as (g & Es2 & _ & _).
  assert (sg_tx s2 = tx_with_auth (sg_tx s1) (ASponsored (origin_of (sg_tx s1)) p)) as T2 by (rewrite Es2; reflexivity).
  assert (sg_oversign s2 = true) as Ov2 by (rewrite Es2; reflexivity). clear Es2.
  assert (origin_of (sg_tx s2) = origin_of (sg_tx s1)) as O2 by (rewrite T2; reflexivity).
  assert (sponsor_of (sg_tx s2) = Some p) as Sp2 by (rewrite T2; reflexivity).
  assert (typed_tx t) as Tt by (split; [rewrite O; exact Tyo | rewrite Sq; intros x X; injection X as <-; exact Tq]).
  assert (typed_tx (sg_tx s1)) as Ty1 by (rewrite <- P1; apply history_typed; [rewrite Et; exact Tt | exact Foo]).
  assert (not_oversigned (sg_tx s1)) as N1.
  { rewrite <- P1. apply not_oversigned_history; [exact Ov|]. rewrite Et. split; [rewrite O, Heo; lia | rewrite Sq; exact Hq]. }
  pose proof (history_size E (map step_op l) s) as [Ho _]. rewrite P1, Et, O, Sio, (proj1 (origin_ops l)) in Ho.
  assert (Forall typed_op (map SignSponsor sks)) as Fs by (apply Forall_map, Forall_forall; intros x _; exact I).
  destruct (history_accepted E n s2 (map SignSponsor sks) t' w) as (e & En & Ac); auto.
  - rewrite T2. pose proof (history_same E (map step_op l) s) as (B1 & B2 & B3 & B4 & B5 & B6 & B7). rewrite P1, Et in *.
    unfold same_but_signatures, t', tx_with_auth. cbn [tx_ver tx_chain tx_anchor tx_pcmode tx_conds tx_payload tx_auth].
    splits; auto. all: try apply terms_refl. rewrite A in B7. unfold origin_of. destruct (tx_auth (sg_tx s1)); [contradiction | destruct B7 as [B7 _]; exact B7].
  - destruct Ty1 as [Ty1 _]. split; [rewrite O2; exact Ty1 | rewrite Sp2; intros x X; injection X as <-; exact Typ].
  - destruct N1 as [N1 _]. split; [rewrite O2; exact N1 | rewrite Sp2, Hep; lia].
  - unfold t', sponsor_of. cbn. intros x X. injection X as <-. exact Tp.
  - unfold t', origin_of. cbn. lia.
  - unfold t', sponsor_of. cbn. intros x X. injection X as <-. lia.
  - rewrite O2, (proj1 (sponsor_ops sks)). lia.
  - unfold sponsor_size. rewrite Sp2, Sip, (proj2 (sponsor_ops sks)). lia.
  - rewrite P3. unfold verified. destruct Sb as (_ & _ & _ & _ & _ & _ & Sb). unfold t' in Sb. cbn [tx_with_auth tx_auth] in Sb.
    destruct (tx_auth (sg_tx s3)) as [o3|o3 p3]; [contradiction|]. eauto.
  - exists s, s1, s2, s3, e. rewrite P3 in En. repeat split; auto.
Qed.

(** ** Beyond sixteen *)

Lemma push_number_length n : 1 <= count (push_number n) <= 4 /\ (count (push_number n) = 1 <-> n <= 16).
Proof.
  unfold push_number. repeat match goal with |- context [if ?b then _ else _] => let X := fresh in destruct b eqn:X end; unfold count; cbn [length]; lia.
Qed.

Lemma keys_length keys : Forall (fun k => length k = 33%nat) keys -> count (flat_map (fun k => octet (count k) :: k) keys) = 34 * count keys.
Proof.
  induction 1 as [|k keys L F IH]; [reflexivity|]. cbn [flat_map]. cbn [app]. rewrite !count_cons, count_app, IH. unfold count at 1. rewrite L. lia.
Qed.

Lemma large_script m ks ks' : m < 256 -> Forall (fun k => length k = 33%nat) ks -> Forall (fun k => length k = 33%nat) ks' ->
  m = 0 \/ 16 < m \/ count ks = 0 \/ 16 < count ks -> node_script m ks' <> script m ks.
Proof.
  intros B F F' L H. assert (count (node_script m ks') = count (script m ks)) as Q by (rewrite H; reflexivity).
  unfold node_script, script in Q. repeat (rewrite count_app in Q || rewrite count_cons in Q). rewrite !keys_length in Q by assumption.
  change (count (@nil byte)) with 0 in Q.
  destruct (push_number_length m) as [A1 A2], (push_number_length (count ks')) as [B1 B2].
  assert (count (push_number m) = 1 /\ count (push_number (count ks')) = 1 /\ count ks = count ks') as (M & K & Kc) by lia.
  apply A2 in M. apply B2 in K. destruct L as [L|[L|[L|L]]]; try lia.
  - subst m. unfold node_script, script in H. cbn [push_number app] in H. change (push_number 0) with [x00] in H. cbn [app] in H.
    injection H as H _. vm_compute in H. discriminate.
  - assert (ks = []) as -> by (destruct ks; [reflexivity | rewrite count_cons in L; lia]).
    assert (ks' = []) as -> by (destruct ks'; [reflexivity | rewrite count_cons in *; lia]).
    unfold node_script, script in H. cbn [flat_map app] in H. change (count (@nil bytes)) with 0 in H. change (push_number 0) with [x00] in H.
    assert (exists b, push_number m = [b]) as [b Pm].
    { unfold push_number. destruct (m =? 0); [eauto|]. destruct (m <=? 16) eqn:X; [eauto | lia]. }
    rewrite Pm in H. cbn [app] in H. injection H as _ H. vm_compute in H. discriminate.
Qed.

Lemma script_hash_clash mode s s' a b : node_script_hash (mode_code mode) s = Some a ->
  node_script_hash (mode_code mode) s' = Some b -> a = b -> s <> s' -> script_clash mode s s'.
Proof.
  intros A B -> N. destruct mode; cbn [mode_code node_script_hash] in *; try discriminate; injection A as A; injection B as B; subst; cbn [script_clash].
  - split; [exact N | congruence].
  - destruct (list_eq_dec Byte.byte_eq_dec (sha256 s) (sha256 s')) as [X|X].
    + right. split; assumption.
    + left. split; [|symmetry; exact B]. unfold witness_program. intros Y. injection Y as Y. contradiction.
Qed.

(** Addresses of thresholds or key lists outside 1..16 are not what a node computes. *)
Lemma large_refused E typ h m ks h' : ecdsa_correct E -> typed (SMulti m) ->
  keys_address (ms_mode m) (Byte.to_N (ms_required m)) ks = Some (ms_signer m) -> Forall (fun k => length k = 33%nat) ks ->
  Byte.to_N (ms_required m) = 0 \/ 16 < Byte.to_N (ms_required m) \/ count ks = 0 \/ 16 < count ks ->
  node_spend E typ h (spend_wire (SMulti m)) h' ->
  exists ks', length ks' = length (ms_fields m)
    /\ script_clash (ms_mode m) (node_script (Byte.to_N (ms_required m)) ks') (script (Byte.to_N (ms_required m)) ks).
Proof.
  intros C T K F L H. cbn [spend_wire] in H. inversion H as [|? ? ? ? ? ? ks' ? W A]; subst. apply walk_chain in W.
  exists ks'. split; [apply (chain_counts _ _ _ _ _ _ _ _ _ W)|].
  rewrite <- script_hash_mode in K. eapply script_hash_clash; [exact A | exact K | reflexivity|].
  apply large_script; auto.
  - pose proof (Byte.to_N_bounded (ms_required m)). lia.
  - apply (chain_keys _ _ _ _ _ _ _ _ _ C T W).
Qed.
