(** Length of the encoding before and after signing. *)

From Coq Require Import Lia ZifyBool ZifyNat ZifyN.
From Verif Require Import Base BaseFacts SpecText NumFacts Sha2 Hash HashFacts C32 Clarity SpecWire Tx SpecTx Signer Builder
  WireFacts ClarityFacts TxWire TxFacts TxThms SpecSign SignFacts SignThms HistThms PlanThms AuthThms SpecBind.
Local Open Scope N_scope.

Lemma count_app {A} (a b : list A) : count (a ++ b) = count a + count b.
Proof. unfold count. rewrite app_length. lia. Qed.
Lemma count_cons {A} (x : A) l : count (x :: l) = 1 + count l.
Proof. unfold count. cbn [length]. lia. Qed.
Lemma count_big k n : count (big_endian k n) = N.of_nat k.
Proof. unfold count. rewrite big_endian_length. reflexivity. Qed.

Lemma fields_length fs : Forall typed_field fs ->
  count (flat_map ser_field (map field_wire fs)) = 66 * count (filter is_sig fs) + 34 * count (filter (fun f => negb (is_sig f)) fs).
Proof.
  induction 1 as [|f fs T F IH]; [reflexivity|]. cbn [map flat_map]. rewrite count_app, IH.
  destruct f as [pk|sig]; cbn [field_wire ser_field filter is_sig negb typed_field] in *; rewrite !count_cons; unfold count at 1;
    rewrite T; lia.
Qed.

Lemma spend_length c : typed c ->
  count (ser_spend (spend_wire c)) =
    match c with SStd s => 83 + count (std_signer s) | SMulti m => 23 + count (ms_signer m) end + weight c.
Proof.
  destruct c as [s|m]; cbn [typed spend_wire ser_spend weight]; intros T.
  - rewrite count_cons, count_app, count_app, !count_app, !count_big, count_cons. unfold count at 2. rewrite T. lia.
  - rewrite count_cons, !count_app, !count_big, fields_length by exact T. lia.
Qed.

Lemma same_spend_length c d : typed c -> typed d -> same_terms c d ->
  count (ser_spend (spend_wire c)) + weight d = count (ser_spend (spend_wire d)) + weight c.
Proof.
  intros T U [I _]. rewrite !spend_length by assumption. destruct c, d; cbn [same_identity] in I; try contradiction.
  - destruct I as [_ ->]. lia.
  - destruct I as (_ & -> & _). lia.
Qed.

Definition with_auth_wire (w : wtx) (a : wauth) : wtx :=
  {| w_version := w_version w; w_chain := w_chain w; w_auth := a; w_anchor := w_anchor w; w_pcmode := w_pcmode w;
     w_conds := w_conds w; w_payload := w_payload w |}.

Lemma same_means t u w : same_but_signatures t u -> tx_means t w -> tx_means u (with_auth_wire w (auth_wire (tx_auth u))).
Proof.
  intros (V & C & A & P & Cs & Pl & _) (V' & C' & _ & A' & P' & Cs' & Pl').
  unfold tx_means, with_auth_wire. cbn [w_version w_chain w_auth w_anchor w_pcmode w_conds w_payload].
  rewrite <- V, <- C, <- A, <- P, <- Cs, <- Pl. splits; auto.
Qed.

Lemma auth_length t u w : same_but_signatures t u -> typed_tx t -> typed_tx u -> w_auth w = auth_wire (tx_auth t) ->
  count (ser_tx w) + auth_weight u = count (ser_tx (with_auth_wire w (auth_wire (tx_auth u)))) + auth_weight t.
Proof.
  intros (_ & _ & _ & _ & _ & _ & S) [To Ts] [Uo Us] A. unfold ser_tx, with_auth_wire.
  cbn [w_version w_chain w_auth w_anchor w_pcmode w_conds w_payload]. rewrite !count_cons, !count_app, A.
  unfold auth_weight, origin_of, sponsor_of in *. destruct (tx_auth t) as [o|o p], (tx_auth u) as [o'|o' p']; try contradiction;
    cbn [auth_wire ser_auth]; rewrite !count_cons, ?count_app.
  - pose proof (same_spend_length o o' To Uo S). lia.
  - destruct S as [S S']. pose proof (same_spend_length o o' To Uo S).
    pose proof (same_spend_length p p' (Ts p eq_refl) (Us p' eq_refl) S'). lia.
Qed.

Lemma signed_length t u e f : same_but_signatures t u -> typed_tx t -> typed_tx u -> enc_tx t = Ok e -> enc_tx u = Ok f ->
  count e + auth_weight u = count f + auth_weight t.
Proof.
  intros S T U Et Eu. apply tx_iff in Et. destruct Et as (w & M & F & ->).
  destruct (enc_means _ _ _ (same_means t u w S M) Eu) as [_ ->]. apply auth_length; auto. apply M.
Qed.

(** Signing does not get in the way of encoding. *)
Lemma signed_encodes t u e : same_but_signatures t u -> few_fields u -> enc_tx t = Ok e -> exists f, enc_tx u = Ok f.
Proof.
  intros S [Fo Fs] Et. apply tx_iff in Et. destruct Et as (w & M & F & ->). eexists. apply tx_iff.
  exists (with_auth_wire w (auth_wire (tx_auth u))). split; [apply (same_means t); assumption|]. split; [|reflexivity].
  destruct F as [_ F]. split; [|exact F]. cbn [with_auth_wire w_auth]. unfold origin_of, sponsor_of in *.
  destruct (tx_auth u) as [o|o p]; cbn [auth_wire fits_auth]; [exact Fo|]. split; [exact Fo | apply Fs; reflexivity].
Qed.

Lemma history_typed E s l : typed_tx (sg_tx s) -> Forall typed_op l -> typed_tx (sg_tx (perform_all E s l)).
Proof. intros [To Ts] F. apply perform_all_typed; assumption. Qed.

Lemma history_length E s l e f : typed_tx (sg_tx s) -> Forall typed_op l -> enc_tx (sg_tx s) = Ok e ->
  enc_tx (sg_tx (perform_all E s l)) = Ok f ->
  count e + auth_weight (sg_tx (perform_all E s l)) = count f + auth_weight (sg_tx s).
Proof. intros T F. apply signed_length; [apply history_same | exact T | apply history_typed; assumption]. Qed.

Lemma single_weight t : (exists s, origin_of t = SStd s) -> (forall p, sponsor_of t = Some p -> exists s, p = SStd s) -> auth_weight t = 0.
Proof.
  intros [s O] P. unfold auth_weight. rewrite O. destruct (sponsor_of t) as [p|]; [|reflexivity].
  destruct (P p eq_refl) as [s' ->]. reflexivity.
Qed.

Lemma same_kinds t u : same_but_signatures t u ->
  (exists s, origin_of t = SStd s) -> (forall p, sponsor_of t = Some p -> exists s, p = SStd s) ->
  (exists s, origin_of u = SStd s) /\ (forall p, sponsor_of u = Some p -> exists s, p = SStd s).
Proof.
  intros (_ & _ & _ & _ & _ & _ & S) [s O] P. unfold origin_of, sponsor_of in *.
  destruct (tx_auth t) as [o|o p], (tx_auth u) as [o'|o' p']; try contradiction.
  - subst o. destruct S as [I _]. destruct o' as [s'|]; [|contradiction]. split; [eauto | discriminate].
  - subst o. destruct S as [[I _] [J _]]. destruct o' as [s'|]; [|contradiction]. split; [eauto|].
    intros q Q. injection Q as <-. destruct (P p eq_refl) as [s2 ->]. destruct p' as [s3|]; [eauto | contradiction].
Qed.

Lemma single_length E s l e f : (exists c, origin_of (sg_tx s) = SStd c) -> (forall p, sponsor_of (sg_tx s) = Some p -> exists c, p = SStd c) ->
  typed_tx (sg_tx s) -> Forall typed_op l -> enc_tx (sg_tx s) = Ok e -> enc_tx (sg_tx (perform_all E s l)) = Ok f -> count e = count f.
Proof.
  intros O P T F A B. pose proof (history_length E s l e f T F A B) as H.
  destruct (same_kinds _ _ (history_same E l s) O P) as [O' P'].
  rewrite (single_weight _ O P), (single_weight _ O' P') in H. lia.
Qed.

(** ** What completing a multi-signature adds *)

Lemma modify_weight m cmd d : modify (SMulti m) cmd = (d, Ok tt) ->
  (exists sig, cmd = MAddSignature sig /\ weight d = weight (SMulti m) + 66)
  \/ (exists pk, cmd = MAddPublicKey pk /\ weight d = weight (SMulti m) + 34).
Proof.
  destruct cmd; cbn [modify]; intros H; inversion H; subst; [right|left]; eexists; (split; [reflexivity|]);
    cbn [weight ms_fields]; rewrite !filter_app, !count_app; cbn [filter is_sig negb]; unfold count at 2 4; cbn [length]; lia.
Qed.

Lemma sign_append_weight E m h typ sk d g : sign_and_append E (SMulti m) h typ sk = (d, Ok g) -> weight d = weight (SMulti m) + 66.
Proof.
  unfold sign_and_append. destruct (map_err _ _) as [[sig x]| | |]; try discriminate.
  destruct (sc_mode _); destruct (modify (SMulti m) _) as [d' [[]| | |]] eqn:X; cbn [bind]; intros H; inversion H; subst;
    destruct (modify_weight _ _ _ X) as [(s & Y & Z)|(p & Y & Z)]; (discriminate || exact Z).
Qed.

Lemma step_weight E s x s' m : origin_of (sg_tx s) = SMulti m -> perform E s (step_op x) = (s', Ok tt) ->
  weight (origin_of (sg_tx s')) = weight (SMulti m) + (if is_sign x then 66 else 34)
  /\ (exists m', origin_of (sg_tx s') = SMulti m') /\ sponsor_of (sg_tx s') = sponsor_of (sg_tx s).
Proof.
  intros O H. destruct x as [sk|pk]; cbn [step_op perform is_sign] in *.
  - apply sign_origin_effect in H. cbv zeta in H. destruct H as [(_ & o' & h' & S & _ & _ & ->)|[_ H]]; [|contradiction].
    rewrite O in S. cbn [with_tx sg_tx]. rewrite with_origin_of. split; [apply (sign_append_weight _ _ _ _ _ _ _ S)|]. split.
    + pose proof (sign_append_terms E (SMulti m) (sg_hash s) x04 sk) as T. rewrite S in T. cbn [fst] in T.
      destruct T as [I _]. destruct o'; [contradiction | eauto].
    + unfold sponsor_of, tx_with_auth, auth_with_origin. cbn [tx_auth]. destruct (tx_auth (sg_tx s)); reflexivity.
  - apply append_origin_effect in H. cbv zeta in H. destruct H as [(_ & _ & M & ->)|[_ H]]; [|contradiction].
    rewrite O in *. cbn [with_tx sg_tx]. rewrite with_origin_of. split.
    + apply modify_weight in M. destruct M as [(g & Y & _)|(p & _ & Z)]; [discriminate | exact Z].
    + split; [cbn [modify fst]; eauto|]. unfold sponsor_of, tx_with_auth, auth_with_origin. cbn [tx_auth]. destruct (tx_auth (sg_tx s)); reflexivity.
Qed.

Lemma steps_weight E s l s' m : origin_of (sg_tx s) = SMulti m -> succeeds E s (map step_op l) s' ->
  auth_weight (sg_tx s') = auth_weight (sg_tx s) + 66 * count (filter is_sign l) + 34 * count (filter (fun x => negb (is_sign x)) l).
Proof.
  revert s m. induction l as [|x l IH]; intros s m O H; inversion H as [|? ? s1 ? ? P Q]; subst.
  - unfold count. cbn. lia.
  - destruct (step_weight E s x s1 m O P) as (W & [m' O'] & Sp). rewrite (IH _ _ O' Q). unfold auth_weight. rewrite Sp, O, W.
    destruct x; cbn [filter is_sign negb]; rewrite count_cons; lia.
Qed.

Lemma filter_split {A} (p : A -> bool) l : count (filter p l) + count (filter (fun x => negb (p x)) l) = count l.
Proof. induction l as [|x l IH]; [reflexivity|]. cbn [filter]. destruct (p x); cbn [negb]; rewrite !count_cons; lia. Qed.

Lemma multi_grows E t l ks fee nonce m mode c e s s' f : map (step_key E) l = ks ->
  @multi_new unit ks fee nonce m mode = Ok c -> count (filter is_sign l) = Byte.to_N m -> Forall step_valid l ->
  origin_of t = SMulti c -> (forall p, sponsor_of t = Some p -> typed p) ->
  enc_tx t = Ok e -> signer_new t = Ok s -> succeeds E s (map step_op l) s' -> enc_tx (sg_tx s') = Ok f ->
  count f = count e + 66 * Byte.to_N m + 34 * (count ks - Byte.to_N m).
Proof.
  intros K N C V O T A Sn Su B. apply signer_new_ok in Sn. destruct Sn as (h & _ & ->).
  pose proof (multi_new_spec _ _ _ _ _ _ N) as F.
  assert (typed_tx t) as Tt.
  { split; [|exact T]. rewrite O. cbn [typed]. replace (ms_fields c) with (@nil auth_field) by (symmetry; apply F). constructor. }
  assert (Forall typed_op (map step_op l)) as To.
  { apply Forall_map. eapply Forall_impl; [|exact V]. intros [sk|pk]; cbn; auto. }
  pose proof (fun O' => steps_weight E _ l s' c O' Su) as W. cbn [sg_tx] in W. specialize (W O). pose proof (succeeds_all _ _ _ _ Su) as P. subst s'.
  pose proof (fun a b => history_length E _ (map step_op l) e f a To b B) as L. cbn [sg_tx] in L. specialize (L Tt A). cbn [sg_tx] in *.
  assert (count ks = count l) as Kl by (subst ks; unfold count; rewrite map_length; reflexivity).
  pose proof (filter_split is_sign l). lia.
Qed.
