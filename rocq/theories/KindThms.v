(** Proofs about spending conditions of the user's own. *)

From Coq Require Import Strings.String Lia.
From Verif Require Import Base BaseFacts Sha2 HashFacts SpecText SpecAddr Hash HexFacts C32 Clarity SpecWire ClarityFacts ClarityThms Tx SpecTx TxFacts TxThms WireFacts Signer
     SpecSign SignFacts SignThms HistThms PlanThms AuthThms TxWire SpecFault FaultThms Rpc SpecClient Own SpecOwn OwnThms Kind SpecKind.
Local Open Scope string_scope.
Local Open Scope list_scope.
Local Open Scope N_scope.

(** ** Bytes *)

Lemma kauth_iff a e : enc_kauth a = Ok e <-> auth_bytes a e.
Proof.
  destruct a as [o|o p]; cbn [enc_kauth]; split.
  - intros H. apply bind_ok in H. destruct H as (b & B & H). injection H as <-. now constructor.
  - intros H. inversion H as [? b B|]; subst. rewrite B. reflexivity.
  - intros H. apply bind_ok in H. destruct H as (b & B & H). apply bind_ok in H. destruct H as (c & C & H). injection H as <-. now constructor.
  - intros H. inversion H as [|? ? b c B C]; subst. rewrite B, C. reflexivity.
Qed.

Lemma ktx_iff t e : enc_ktx t = Ok e <->
  exists a cs p, auth_bytes (kt_auth t) a /\ kparts t cs p /\ count cs < 2 ^ 32 /\ e = kind_text a t cs p.
Proof.
  unfold enc_ktx, kparts. split.
  - intros H. apply bind_ok in H. destruct H as (a & A & H). apply bind_ok in H. destruct H as (c & C & H).
    apply bind_ok in H. destruct H as (p & P & H). injection H as <-.
    apply kauth_iff in A. apply oconds_iff in C. destruct C as (cs & M & K & ->).
    exists a, cs, p. splits; auto. unfold kind_text. rewrite (big_endian_be 4 (chain_code _)), <- ?app_assoc.
    destruct (kt_ver t), (kt_chain t), (kt_anchor t), (kt_pcmode t); reflexivity.
  - intros (a & cs & p & A & [M P] & K & ->).
    rewrite (proj2 (kauth_iff (kt_auth t) _) A). cbn [bind].
    rewrite (proj2 (oconds_iff (kt_conds t) _) (ex_intro _ _ (conj M (conj K eq_refl)))). cbn [bind]. rewrite P. cbn [bind].
    unfold kind_text. rewrite (big_endian_be 4 (chain_code _)), <- ?app_assoc.
    destruct (kt_ver t), (kt_chain t), (kt_anchor t), (kt_pcmode t); reflexivity.
Qed.

Lemma no_bytes_or (r : own) : (exists b, r = Ok b) \/ no_bytes r.
Proof. destruct r; [left; eauto|right; intros b; discriminate..]. Qed.

Lemma ktx_fails_enc t r : ktx_fails t r -> enc_ktx t = r.
Proof.
  unfold enc_ktx, enc_oconds. change @lenN with @count. intros H.
  destruct H as [t r A N|t o p b r T B A N|t a A K|t a cs r l A K C N|t a cs r A K C P N].
  - destruct (kt_auth t) as [o|o p]; cbn [enc_kauth k_origin] in *; rewrite A; destruct r; try reflexivity; now destruct (N a).
  - rewrite T. cbn [enc_kauth]. rewrite B. cbn [bind]. rewrite A. destruct r; try reflexivity; now destruct (N a).
  - apply kauth_iff in A. rewrite A. cbn [bind]. rewrite (enc_len32_big _ K). reflexivity.
  - apply kauth_iff in A. rewrite A. cbn [bind]. rewrite (enc_len32_small _ K). cbn [bind]. rewrite C, (oconds_stop _ _ _ N).
    destruct r; [now destruct (N a0)|reflexivity..].
  - apply kauth_iff in A. rewrite A. cbn [bind]. rewrite (enc_len32_small _ K). cbn [bind].
    rewrite C, (proj2 (oconds_body_iff _ _) (ex_intro _ cs (conj eq_refl eq_refl))). cbn [bind].
    rewrite P. destruct r; [now destruct (N a0)|reflexivity..].
Qed.
Lemma ktx_settles t : (exists e, enc_ktx t = Ok e) \/ exists r, ktx_fails t r.
Proof.
  assert ((exists a, auth_bytes (kt_auth t) a) \/ exists r, ktx_fails t r) as [[a A]|X]; [| |auto].
  { destruct (no_bytes_or (d_encode (k_origin (kt_auth t)))) as [[b B]|N]; [|right; eexists; now apply kf_origin].
    destruct (kt_auth t) as [o|o p] eqn:T; [left; eexists; apply ab_standard; exact B|].
    destruct (no_bytes_or (d_encode p)) as [[c C]|N]; [left; eexists; apply ab_sponsored; [exact B|exact C]|].
    right. eexists. eapply kf_sponsor; eauto. }
  destruct (N.lt_ge_cases (count (kt_conds t)) (2 ^ 32)) as [K|K]; [|right; eexists; now apply (kf_count t a)].
  destruct (map_ok_or (kt_conds t)) as [[cs C]|(cs & r & l & C & N)]; [|right; exists r; eapply kf_cond; eassumption].
  destruct (no_bytes_or (kt_payload t)) as [[p D]|D]; [|right; eexists; eapply kf_payload; eauto].
  left. eexists. apply ktx_iff. exists a, cs, p. split; [exact A|]. split; [split; assumption|]. split; [|reflexivity].
  rewrite <- count_map_ok, <- C. exact K.
Qed.
Lemma ktx_refused t r : no_bytes r -> (enc_ktx t = r <-> ktx_fails t r).
Proof.
  intros N. split; [|apply ktx_fails_enc]. intros H. destruct (ktx_settles t) as [[e S]|[r' S]].
  - rewrite S in H. now destruct (N e).
  - assert (X := ktx_fails_enc _ _ S). congruence.
Qed.

(** ** The hash that is signed *)

Lemma reset_bytes a e : auth_bytes (k_auth_reset a) e <-> signed_bytes a e.
Proof.
  destruct a as [o|o p]; cbn [k_auth_reset]; split; intros H; inversion H; subst; try (constructor; assumption).
  - match goal with X : d_encode (lib _) = Ok ?c |- _ => assert (c = repeat x00 103) as -> by (vm_compute in X; injection X as <-; reflexivity) end.
    now constructor.
  - constructor; [assumption|]. reflexivity.
Qed.
Lemma k_hash_iff t h : k_initial_hash t = Ok h <->
  exists a cs p, signed_bytes (kt_auth t) a /\ kparts t cs p /\ count cs < 2 ^ 32 /\ h = sha512_256 (kind_text a t cs p).
Proof.
  unfold k_initial_hash, ktx_hash. set (u := kt_with_auth t (k_auth_reset (kt_auth t))). split.
  - intros H. apply bind_ok in H. destruct H as (e & A & H). injection H as <-. destruct (enc_ktx u) as [b| | |] eqn:B; try discriminate.
    injection A as <-. apply ktx_iff in B. destruct B as (a & cs & p & S & P & K & ->). exists a, cs, p.
    splits; auto. now apply reset_bytes.
  - intros (a & cs & p & S & P & K & ->).
    assert (enc_ktx u = Ok (kind_text a t cs p)) as ->; [|reflexivity].
    apply ktx_iff. exists a, cs, p. splits; auto. now apply reset_bytes.
Qed.
Lemma k_hash_length t h : k_initial_hash t = Ok h -> length h = 32%nat.
Proof. intros H. apply k_hash_iff in H. destruct H as (a & cs & p & _ & _ & _ & ->). apply sha512_256_length. Qed.

(** Only what the origin writes after [reset] matters, and whether there is a sponsor. *)
Lemma k_hash_origin t a : reset_forgets (korigin t) (k_origin a) -> k_is_sponsored a = k_is_sponsored (kt_auth t) ->
  k_initial_hash (kt_with_auth t a) = k_initial_hash t.
Proof.
  unfold reset_forgets, korigin. intros R S.
  assert (X : enc_kauth (k_auth_reset a) = enc_kauth (k_auth_reset (kt_auth t))).
  { destruct (kt_auth t) as [o|o p], a as [o'|o' p']; try discriminate; cbn [k_auth_reset enc_kauth k_origin] in *; rewrite R; reflexivity. }
  unfold k_initial_hash, ktx_hash, enc_ktx. cbn [kt_with_auth kt_auth kt_conds kt_payload kt_ver kt_chain kt_anchor kt_pcmode]. rewrite X. reflexivity.
Qed.

Lemma ktext_inj a t cs p b u ds q : kind_text a t cs p = kind_text b u ds q ->
  kt_ver t = kt_ver u /\ kt_chain t = kt_chain u
  /\ a ++ anchor_code (kt_anchor t) :: pcmode_code (kt_pcmode t) :: big_endian 4 (count cs) ++ concat cs ++ p
     = b ++ anchor_code (kt_anchor u) :: pcmode_code (kt_pcmode u) :: big_endian 4 (count ds) ++ concat ds ++ q.
Proof.
  unfold kind_text. intros H. apply cons_both in H. destruct H as [V H].
  apply (fixed_prefix 4) in H; try apply chain_small. destruct H as [C H]. splits; auto.
  - destruct (kt_ver t), (kt_ver u); try reflexivity; discriminate.
  - destruct (kt_chain t), (kt_chain u); try reflexivity; discriminate.
Qed.

(** ** Signing *)

Lemma hand_over c sig : exists cmd, hands_over c sig cmd
  /\ match d_mode c with P2PKH | P2WPKH => d_modify c (MSetSignature sig) | P2SH | P2WSH => d_modify c (MAddSignature sig) end = d_modify c cmd.
Proof.
  destruct (d_mode c) eqn:M; eexists; (split; [|reflexivity]);
    first [apply hand_set; rewrite M; unfold single_mode; tauto | apply hand_add; rewrite M; unfold multi_mode; tauto].
Qed.
Lemma hands_fun c sig cmd cmd' : hands_over c sig cmd -> hands_over c sig cmd' -> cmd = cmd'.
Proof. intros [[]|[]] [[]|[]]; congruence. Qed.

Lemma k_sign_exact E c h typ sk : ecdsa_correct E -> valid_key sk -> exists cmd, hands_over c (signature_for E typ c h sk) cmd
  /\ k_sign_and_append E c h typ sk = (fst (d_modify c cmd), bind (snd (d_modify c cmd)) (fun _ => Ok (hash_after E typ c h sk))).
Proof.
  intros C V. unfold k_sign_and_append. rewrite next_signature_ok by assumption. cbn [map_err].
  destruct (hand_over c (signature_for E typ c h sk)) as (cmd & X & Y). exists cmd. split; [exact X|].
  unfold signature_for in Y. rewrite Y. destruct (d_modify c cmd). reflexivity.
Qed.

(** One signature of the origin. *)
Lemma sign_origin_ok E s sk s' : ecdsa_correct E -> valid_key sk -> ks_oversign s = true -> ks_overlap s && ks_origin_signed s = false ->
  (k_sign_origin E s sk = (s', Ok tt) <-> exists n cmd c1, d_signatures (korigin (ks_tx s)) = Ok n /\ n < d_required (korigin (ks_tx s))
    /\ hands_over (korigin (ks_tx s)) (signature_for E x04 (korigin (ks_tx s)) (ks_hash s) sk) cmd
    /\ d_modify (korigin (ks_tx s)) cmd = (c1, Ok tt)
    /\ s' = kput s (swap_origin (kt_auth (ks_tx s)) c1) (hash_after E x04 (korigin (ks_tx s)) (ks_hash s) sk) (ks_origin_signed s)).
Proof.
  intros C V O F. unfold k_sign_origin. rewrite F, O. change (k_origin (kt_auth (ks_tx s))) with (korigin (ks_tx s)).
  set (o := korigin (ks_tx s)). unfold k_sign_next_origin. change (k_origin (kt_auth (ks_tx s))) with o.
  destruct (k_sign_exact E o (ks_hash s) auth_type_standard sk C V) as (cmd & HO & X). rewrite X. cbn [fst snd].
  destruct (d_modify o cmd) as [c1 r] eqn:M. cbn [fst snd].
  destruct (d_signatures o) as [n|e|p|] eqn:N; cbn [bind].
  2-4: split; [discriminate|intros (? & ? & ? & Z & _); discriminate].
  destruct (N.leb_spec (d_required o) n) as [L|L].
  { split; [discriminate|]. intros (n' & ? & ? & Z & L' & _). injection Z as <-. lia. }
  split.
  - intros H. destruct r as [[]|e|p|]; cbn [bind] in H; try discriminate. injection H as <-. exists n, cmd, c1. splits; auto; unfold kput; rewrite O; reflexivity.
  - intros (n' & cmd' & c1' & Z & _ & HO' & M' & ->). rewrite (hands_fun _ _ _ _ HO' HO) in M'. rewrite M in M'. injection M' as <- ->. unfold kput; rewrite O; reflexivity.
Qed.
Lemma append_origin_ok E s pk s' : ks_overlap s && ks_origin_signed s = false ->
  (kperform E s (AppendOrigin pk) = (s', Ok tt) <-> exists c1, multi_mode (d_mode (korigin (ks_tx s)))
    /\ d_modify (korigin (ks_tx s)) (MAddPublicKey pk) = (c1, Ok tt)
    /\ s' = kput s (swap_origin (kt_auth (ks_tx s)) c1) (ks_hash s) (ks_origin_signed s)).
Proof.
  intros F. cbn [kperform]. unfold k_append_origin. rewrite F. unfold k_append_next_origin.
  change (k_origin (kt_auth (ks_tx s))) with (korigin (ks_tx s)). set (o := korigin (ks_tx s)).
  destruct (d_mode o) eqn:M; try (split; [discriminate|intros (? & [X|X] & _); discriminate]).
  all: destruct (d_modify o (MAddPublicKey pk)) as [c1 r]; split;
    [intros H; injection H as <- ->; exists c1; splits; unfold multi_mode; auto | intros (c & _ & X & ->); injection X as <- ->; reflexivity].
Qed.

Lemma kput_put s a h b a' h' b' : kput (kput s a h b) a' h' b' = kput s a' h' b'.
Proof. reflexivity. Qed.
Lemma swap_swap a o p : swap_origin (swap_origin a o) p = swap_origin a p.
Proof. destruct a; reflexivity. Qed.
Lemma swap_self a : swap_origin a (k_origin a) = a.
Proof. destruct a; reflexivity. Qed.
Lemma kput_self s : kput s (kt_auth (ks_tx s)) (ks_hash s) (ks_origin_signed s) = s.
Proof. destruct s as [[] ? ? ? ?]. reflexivity. Qed.
Lemma swap_is a o : (match swap_origin a o with KStandard x => x | KSponsored x _ => x end) = o.
Proof. destruct a; reflexivity. Qed.

Lemma drives E : ecdsa_correct E -> forall l s s', Forall step_valid l -> ks_oversign s = true -> ks_overlap s && ks_origin_signed s = false ->
  (ksucceeds E s (map step_op l) s' <-> exists o' h', driven E x04 (korigin (ks_tx s)) (ks_hash s) l o' h'
    /\ s' = kput s (swap_origin (kt_auth (ks_tx s)) o') h' (ks_origin_signed s)).
Proof.
  intros C l. induction l as [|st l IH]; intros s s' V O F; cbn [map].
  - split.
    + intros H. inversion H; subst. exists (korigin (ks_tx s')), (ks_hash s'). split; [constructor|]. unfold korigin.
      fold (k_origin (kt_auth (ks_tx s'))).
      now rewrite swap_self, kput_self.
    + intros (o' & h' & D & ->). inversion D; subst.
      change (korigin (ks_tx s)) with (k_origin (kt_auth (ks_tx s))). rewrite swap_self, kput_self. constructor.
  - inversion V as [|? ? V1 V2]; subst. destruct st as [sk|pk]; cbn [step_op].
    + split.
      * intros H. inversion H as [|? ? s1 ? ? P Q]; subst. cbn [kperform] in P.
        apply (sign_origin_ok E s sk s1 C V1 O F) in P. destruct P as (n & cmd & c1 & N & L & HO & M & ->).
        apply IH in Q; auto. destruct Q as (o' & h' & D & ->).
        exists o', h'. split.
        { eapply driven_sign; eauto. unfold korigin in D. cbn [kput ks_tx kt_auth] in D. rewrite swap_is in D. exact D. }
        cbn [kput ks_tx kt_auth]. rewrite swap_swap. reflexivity.
      * intros (o' & h' & D & ->). inversion D as [|? ? ? n cmd c1 ? ? ? N L HO M D'|]; subst.
        eapply ksucceeds_cons.
        { cbn [kperform]. apply (sign_origin_ok E s sk _ C V1 O F). exists n, cmd, c1. splits; eauto. }
        apply IH; auto. exists o', h'. split; [unfold korigin; cbn [kput ks_tx kt_auth]; rewrite swap_is; exact D'|].
        cbn [kput ks_tx kt_auth]. rewrite swap_swap. reflexivity.
    + split.
      * intros H. inversion H as [|? ? s1 ? ? P Q]; subst.
        apply (append_origin_ok E s pk s1 F) in P. destruct P as (c1 & MM & M & ->).
        apply IH in Q; auto. destruct Q as (o' & h' & D & ->).
        exists o', h'. split.
        { eapply driven_list; eauto. unfold korigin in D. cbn [kput ks_tx kt_auth] in D. rewrite swap_is in D. exact D. }
        cbn [kput ks_tx kt_auth]. rewrite swap_swap. reflexivity.
      * intros (o' & h' & D & ->). inversion D as [| |? ? ? c1 ? ? ? MM M D']; subst.
        eapply ksucceeds_cons.
        { apply (append_origin_ok E s pk _ F). exists c1. splits; eauto. }
        apply IH; auto. exists o', h'. split; [unfold korigin; cbn [kput ks_tx kt_auth]; rewrite swap_is; exact D'|].
        cbn [kput ks_tx kt_auth]. rewrite swap_swap. reflexivity.
Qed.

Lemma sign_sponsor_ok E s sk s' o p : ecdsa_correct E -> valid_key sk -> ks_oversign s = true -> kt_auth (ks_tx s) = KSponsored o p ->
  (k_sign_sponsor E s sk = (s', Ok tt) <-> exists n cmd c1, d_signatures p = Ok n /\ n < d_required p
    /\ hands_over p (signature_for E x05 p (ks_hash s) sk) cmd /\ d_modify p cmd = (c1, Ok tt)
    /\ s' = kput s (KSponsored o c1) (hash_after E x05 p (ks_hash s) sk) true).
Proof.
  intros C V O A. unfold k_sign_sponsor. rewrite O, A. cbn [k_sponsor bind]. unfold k_sign_next_sponsor. rewrite A.
  destruct (k_sign_exact E p (ks_hash s) auth_type_sponsored sk C V) as (cmd & HO & X). rewrite X. cbn [fst snd].
  destruct (d_modify p cmd) as [c1 r] eqn:M. cbn [fst snd].
  destruct (d_signatures p) as [n|e|q|] eqn:N; cbn [bind].
  2-4: split; [discriminate|intros (? & ? & ? & Z & _); discriminate].
  destruct (N.leb_spec (d_required p) n) as [L|L].
  { split; [discriminate|]. intros (n' & ? & ? & Z & L' & _). injection Z as <-. lia. }
  split.
  - intros H. destruct r as [[]|e|q|]; cbn [bind] in H; try discriminate. injection H as <-. exists n, cmd, c1. splits; auto; unfold kput; rewrite O; reflexivity.
  - intros (n' & cmd' & c1' & Z & _ & HO' & M' & ->). rewrite (hands_fun _ _ _ _ HO' HO) in M'. rewrite M in M'. injection M' as <- ->. unfold kput; rewrite O; reflexivity.
Qed.
Lemma drives_sponsor E : ecdsa_correct E -> forall sks s s' o p, Forall valid_key sks -> ks_oversign s = true -> kt_auth (ks_tx s) = KSponsored o p ->
  (ksucceeds E s (map SignSponsor sks) s' <-> exists p' h', driven E x05 p (ks_hash s) (map Sign sks) p' h'
    /\ s' = kput s (KSponsored o p') h' (match sks with [] => ks_origin_signed s | _ => true end)).
Proof.
  intros C sks. induction sks as [|sk l IH]; intros s s' o p V O A; cbn [map].
  - split.
    + intros H. inversion H; subst. exists p, (ks_hash s'). split; [constructor|]. now rewrite <- A, kput_self.
    + intros (p' & h' & D & ->). inversion D; subst. rewrite <- A, kput_self. constructor.
  - inversion V as [|? ? V1 V2]; subst. split.
    + intros H. inversion H as [|? ? s1 ? ? P Q]; subst. cbn [kperform] in P.
      apply (sign_sponsor_ok E s sk s1 o p C V1 O A) in P. destruct P as (n & cmd & c1 & N & L & HO & M & ->).
      apply (IH _ _ o c1) in Q; auto. destruct Q as (p' & h' & D & ->).
      exists p', h'. split; [eapply driven_sign; eauto|]. rewrite kput_put. now destruct l.
    + intros (p' & h' & D & ->). inversion D as [|? ? ? n cmd c1 ? ? ? N L HO M D'|]; subst.
      eapply ksucceeds_cons.
      { cbn [kperform]. apply (sign_sponsor_ok E s sk _ o p C V1 O A). exists n, cmd, c1. splits; eauto. }
      apply (IH _ _ o c1); auto. exists p', h'. split; [exact D'|]. rewrite kput_put. now destruct l.
Qed.

(** Refusals. *)
Lemma origin_refuses E s sk r : ecdsa_correct E -> valid_key sk -> ks_oversign s = true -> r <> Ok tt ->
  (snd (k_sign_origin E s sk) = r <->
   (kfrozen s /\ r = Err TxOriginPostSponsorSign) \/ (~ kfrozen s /\ refuses E x04 TxOriginOversign (korigin (ks_tx s)) (ks_hash s) sk r)).
Proof.
  intros C V O R. unfold k_sign_origin, kfrozen. destruct (ks_overlap s && ks_origin_signed s) eqn:F.
  { apply andb_true_iff in F. destruct F as [F1 F2]. rewrite F1, F2. cbn [andb snd]. split; [left; auto|intros [[_ ->]|[X _]]; [reflexivity|now destruct X]]. }
  assert (F' : ~ (ks_overlap s = true /\ ks_origin_signed s = true)).
  { intros [X Y]. rewrite X, Y in F. discriminate. }
  rewrite O. change (k_origin (kt_auth (ks_tx s))) with (korigin (ks_tx s)). set (o := korigin (ks_tx s)).
  unfold k_sign_next_origin. change (k_origin (kt_auth (ks_tx s))) with o.
  destruct (k_sign_exact E o (ks_hash s) auth_type_standard sk C V) as (cmd & HO & X). rewrite X.
  destruct (d_signatures o) as [n|e|p|] eqn:N; cbn [bind snd].
  2-4: split; [intros <-; right; split; [auto|apply refuses_count; [congruence|rewrite N; reflexivity]]
              |intros [[Z _]|[_ Z]]; [contradiction|inversion Z; subst; try congruence; rewrite N; reflexivity]].
  destruct (N.leb_spec (d_required o) n) as [L|L]; cbn [snd].
  { split; [intros <-; right; split; [auto|now apply (refuses_enough _ _ _ _ _ _ n)]|].
    intros [[Z _]|[_ Z]]; [contradiction|]. inversion Z as [? Z1|?|? ? ? Z1 Z2]; subst; [now destruct (Z1 n)|reflexivity|].
    rewrite N in Z1. injection Z1 as <-. lia. }
  assert (Y : snd (match bind (snd (d_modify o cmd)) (fun _ => Ok (hash_after E x04 o (ks_hash s) sk)) with
                   | Ok h => ({| ks_tx := kt_with_auth (ks_tx s) (k_with_origin (kt_auth (ks_tx s)) (fst (d_modify o cmd))); ks_hash := h;
                                 ks_origin_signed := ks_origin_signed s; ks_oversign := true; ks_overlap := ks_overlap s |}, Ok tt)
                   | Err e => ({| ks_tx := kt_with_auth (ks_tx s) (k_with_origin (kt_auth (ks_tx s)) (fst (d_modify o cmd))); ks_hash := ks_hash s;
                                 ks_origin_signed := ks_origin_signed s; ks_oversign := true; ks_overlap := ks_overlap s |}, Err e)
                   | Panic p => (s, Panic p)
                   | NoFuel => (s, NoFuel)
                   end) = snd (d_modify o cmd)).
  { destruct (snd (d_modify o cmd)) as [[]| | |]; reflexivity. }
  change auth_type_standard with x04. rewrite Y. split.
  - intros <-. right. split; [exact F'|]. eapply refuses_change; eauto.
  - intros [[Z _]|[_ Z]]; [contradiction|]. inversion Z as [? Z1|? Z1 Z2|? cmd' ? Z1 Z2 Z3]; subst; [now destruct (Z1 n)| |].
    + rewrite N in Z1. injection Z1 as <-. lia.
    + now rewrite (hands_fun _ _ _ _ HO Z3).
Qed.
Lemma sponsor_refuses E s sk r : ecdsa_correct E -> valid_key sk -> ks_oversign s = true -> r <> Ok tt ->
  (snd (k_sign_sponsor E s sk) = r <->
   match kt_auth (ks_tx s) with
   | KStandard _ => r = Err TxBadModification
   | KSponsored _ p => refuses E x05 TxSponsorOversign p (ks_hash s) sk r
   end).
Proof.
  intros C V O R. unfold k_sign_sponsor. destruct (kt_auth (ks_tx s)) as [o|o p] eqn:A; cbn [k_sponsor bind snd]; [split; auto|].
  rewrite O. unfold k_sign_next_sponsor. rewrite A.
  destruct (k_sign_exact E p (ks_hash s) auth_type_sponsored sk C V) as (cmd & HO & X). rewrite X.
  destruct (d_signatures p) as [n|e|q|] eqn:N; cbn [bind snd].
  2-4: split; [intros <-; apply refuses_count; [congruence|rewrite N; reflexivity]
              |intros Z; inversion Z; subst; try congruence; rewrite N; reflexivity].
  destruct (N.leb_spec (d_required p) n) as [L|L]; cbn [snd].
  { split; [intros <-; now apply (refuses_enough _ _ _ _ _ _ n)|].
    intros Z. inversion Z as [? Z1|?|? ? ? Z1 Z2]; subst; [now destruct (Z1 n)|reflexivity|].
    rewrite N in Z1. injection Z1 as <-. lia. }
  assert (Y : forall t, snd (match bind (snd (d_modify p cmd)) (fun _ => Ok (hash_after E x05 p (ks_hash s) sk)) with
                   | Ok h => ({| ks_tx := t; ks_hash := h; ks_origin_signed := true; ks_oversign := true; ks_overlap := ks_overlap s |}, Ok tt)
                   | Err e => ({| ks_tx := t; ks_hash := ks_hash s;
                                 ks_origin_signed := ks_origin_signed s; ks_oversign := true; ks_overlap := ks_overlap s |}, Err e)
                   | Panic p => (s, Panic p)
                   | NoFuel => (s, NoFuel)
                   end) = snd (d_modify p cmd)).
  { intros t. destruct (snd (d_modify p cmd)) as [[]| | |]; reflexivity. }
  change auth_type_sponsored with x05. rewrite Y. split.
  - intros <-. eapply refuses_change; eauto.
  - intros Z. inversion Z as [? Z1|? Z1 Z2|? cmd' ? Z1 Z2 Z3]; subst; [now destruct (Z1 n)| |].
    + rewrite N in Z1. injection Z1 as <-. lia.
    + now rewrite (hands_fun _ _ _ _ HO Z3).
Qed.

(** ** Histories *)

Lemma sign_moved E c h typ sk : moved c (fst (k_sign_and_append E c h typ sk)).
Proof.
  unfold k_sign_and_append. destruct (map_err TxHash (next_signature E h typ (d_fee c) (d_nonce c) sk)) as [[sig g]| | |]; try apply moved_not.
  destruct (hand_over c sig) as (cmd & X & Y). rewrite Y. eapply moved_sig; [exact X|]. destruct (d_modify c cmd). cbn [fst]. apply moved_not.
Qed.
Lemma moved_trans c d e : moved c d -> moved d e -> moved c e.
Proof. induction 1; intros; auto; [eapply moved_sig|eapply moved_key]; eauto. Qed.
Lemma auth_moved_refl a : auth_moved a a.
Proof. destruct a; cbn; auto using moved_not. Qed.
Lemma auth_moved_trans a b c : auth_moved a b -> auth_moved b c -> auth_moved a c.
Proof. destruct a, b, c; cbn; try tauto; [apply moved_trans|]. intros [] []. split; eapply moved_trans; eauto. Qed.
Lemma swap_moved a o : moved (k_origin a) o -> auth_moved a (k_with_origin a o).
Proof. destruct a; cbn; auto using moved_not. Qed.

Definition kstays (t u : ktx) : Prop :=
  same_khead t u /\ kt_conds u = kt_conds t /\ kt_payload u = kt_payload t /\ auth_moved (kt_auth t) (kt_auth u).
Lemma kstays_refl t : kstays t t.
Proof. unfold kstays, same_khead. splits; auto using auth_moved_refl. Qed.
Lemma kstays_trans t u v : kstays t u -> kstays u v -> kstays t v.
Proof.
  unfold kstays, same_khead. intros ((A & B & C & D) & F & G & H) ((A' & B' & C' & D') & F' & G' & H').
  splits; try congruence. eapply auth_moved_trans; eauto.
Qed.
Lemma kstays_auth t a : auth_moved (kt_auth t) a -> kstays t (kt_with_auth t a).
Proof. intros M. unfold kstays, same_khead. cbn. splits; auto. Qed.

Lemma step_stays E s o : kstays (ks_tx s) (ks_tx (fst (kperform E s o))).
Proof.
  destruct o as [sk|sk|pk]; cbn [kperform].
  - unfold k_sign_origin. destruct (ks_overlap s && ks_origin_signed s); [apply kstays_refl|].
    match goal with |- context [if ?b then bind ?x ?f else Ok false] => destruct (if b then bind x f else Ok false) as [[]| | |] end;
      try apply kstays_refl.
    unfold k_sign_next_origin. pose proof (sign_moved E (k_origin (kt_auth (ks_tx s))) (ks_hash s) auth_type_standard sk) as M.
    destruct (k_sign_and_append E (k_origin (kt_auth (ks_tx s))) (ks_hash s) auth_type_standard sk) as [o [h|e|p|]]; cbn [fst ks_tx] in *;
      try apply kstays_refl; now apply kstays_auth, swap_moved.
  - unfold k_sign_sponsor.
    match goal with |- context [bind (k_sponsor ?a) ?f] => destruct (bind (k_sponsor a) f) as [[]| | |] end;
      try apply kstays_refl.
    unfold k_sign_next_sponsor. destruct (kt_auth (ks_tx s)) as [o|o p] eqn:A; [apply kstays_refl|].
    pose proof (sign_moved E p (ks_hash s) auth_type_sponsored sk) as M.
    destruct (k_sign_and_append E p (ks_hash s) auth_type_sponsored sk) as [p' [h|e|q|]]; cbn [fst ks_tx] in *;
      try apply kstays_refl; apply kstays_auth; rewrite A; cbn; auto using moved_not.
  - unfold k_append_origin. destruct (ks_overlap s && ks_origin_signed s); [apply kstays_refl|]. unfold k_append_next_origin.
    destruct (d_mode (k_origin (kt_auth (ks_tx s)))) eqn:M; cbn [fst ks_tx]; try apply kstays_refl.
    all: assert (X : moved (k_origin (kt_auth (ks_tx s))) (fst (d_modify (k_origin (kt_auth (ks_tx s))) (MAddPublicKey pk))))
           by (eapply moved_key; [rewrite M; unfold multi_mode; tauto|apply moved_not]);
         destruct (d_modify (k_origin (kt_auth (ks_tx s))) (MAddPublicKey pk)) as [o' r]; cbn [fst ks_tx] in *; now apply kstays_auth, swap_moved.
Qed.
Lemma history_stays E l : forall s, kstays (ks_tx s) (ks_tx (kperform_all E s l)).
Proof.
  induction l as [|o l IH]; intros s; [apply kstays_refl|]. cbn [kperform_all fold_left].
  eapply kstays_trans; [apply (step_stays E s o)|]. apply IH.
Qed.

Lemma step_frozen E s o : kfrozen s -> kfrozen (fst (kperform E s o)) /\ korigin (ks_tx (fst (kperform E s o))) = korigin (ks_tx s).
Proof.
  intros [F G]. destruct o as [sk|sk|pk]; cbn [kperform].
  - unfold k_sign_origin. rewrite F, G. split; [split; assumption|reflexivity].
  - unfold k_sign_sponsor.
    match goal with |- context [bind (k_sponsor ?a) ?f] => destruct (bind (k_sponsor a) f) as [[]| | |] end;
      try (split; [split; assumption|reflexivity]).
    unfold k_sign_next_sponsor. destruct (kt_auth (ks_tx s)) as [o|o p] eqn:A; [split; [split; assumption|reflexivity]|].
    destruct (k_sign_and_append E p (ks_hash s) auth_type_sponsored sk) as [p' [h|e|q|]]; (split; [split; cbn; auto|]);
      unfold korigin; cbn; rewrite A; reflexivity.
  - unfold k_append_origin. rewrite F, G. split; [split; assumption|reflexivity].
Qed.
Lemma history_frozen E l : forall s, kfrozen s -> korigin (ks_tx (kperform_all E s l)) = korigin (ks_tx s).
Proof.
  induction l as [|o l IH]; intros s F; [reflexivity|]. cbn [kperform_all fold_left]. destruct (step_frozen E s o F) as [G H].
  change (fold_left _ l _) with (kperform_all E (fst (kperform E s o)) l). rewrite (IH _ G). exact H.
Qed.
(** A call that fails leaves the hash to be signed. *)
Lemma failed_hash E s o e : snd (kperform E s o) <> Ok tt -> e = fst (kperform E s o) -> ks_hash e = ks_hash s /\ ks_origin_signed e = ks_origin_signed s.
Proof.
  intros H ->. revert H. destruct o as [sk|sk|pk]; cbn [kperform].
  - unfold k_sign_origin. destruct (ks_overlap s && ks_origin_signed s); [auto|].
    match goal with |- context [if ?b then bind ?x ?f else Ok false] => destruct (if b then bind x f else Ok false) as [[]| | |] end; auto.
    destruct (k_sign_next_origin E (ks_tx s) (ks_hash s) sk) as [t [h| | |]]; cbn; auto. congruence.
  - unfold k_sign_sponsor.
    match goal with |- context [bind (k_sponsor ?a) ?f] => destruct (bind (k_sponsor a) f) as [[]| | |] end; auto.
    destruct (k_sign_next_sponsor E (ks_tx s) (ks_hash s) sk) as [t [h| | |]]; cbn; auto. congruence.
  - unfold k_append_origin. destruct (ks_overlap s && ks_origin_signed s); [auto|]. destruct (k_append_next_origin (ks_tx s) pk). auto.
Qed.

(** ** Signing and verification *)

Lemma k_verify_iff E t g : k_verify_origin E t = Ok g <-> exists h, k_initial_hash t = Ok h /\ d_verify E (korigin t) h x04 = Ok g.
Proof. unfold k_verify_origin, k_auth_verify_origin. rewrite bind_ok. reflexivity. Qed.

Lemma kind_signs E t l h o' h' : ecdsa_correct E -> Forall step_valid l -> k_initial_hash t = Ok h -> driven E x04 (korigin t) h l o' h' ->
  reset_forgets (korigin t) o' -> d_verify E o' h x04 = Ok h' ->
  exists s s', ksigner_new t = Ok s /\ ksucceeds E s (map step_op l) s' /\ ks_tx s' = kt_with_auth t (swap_origin (kt_auth t) o')
    /\ ks_hash s' = h' /\ k_initial_hash (ks_tx s') = Ok h /\ k_verify_origin E (ks_tx s') = Ok h'.
Proof.
  intros C V H D R W. set (s := {| ks_tx := t; ks_hash := h; ks_origin_signed := false; ks_oversign := true; ks_overlap := true |}).
  exists s, (kput s (swap_origin (kt_auth t) o') h' false).
  assert (X : k_initial_hash (kt_with_auth t (swap_origin (kt_auth t) o')) = Ok h).
  { rewrite <- H. apply k_hash_origin; [unfold k_origin; rewrite swap_is; exact R|]. now destruct (kt_auth t). }
  splits; [unfold ksigner_new; rewrite H; reflexivity| |reflexivity|reflexivity|exact X|].
  - apply (drives E C); auto. exists o', h'. split; [exact D|reflexivity].
  - apply k_verify_iff. exists h. split; [exact X|]. unfold korigin. cbn [kput ks_tx kt_auth s]. rewrite swap_is. exact W.
Qed.

Lemma kind_sponsored E t o q p l sks h o' h' p' h2 : ecdsa_correct E -> Forall step_valid l -> Forall valid_key sks ->
  kt_auth t = KSponsored o q -> k_initial_hash t = Ok h -> driven E x04 o h l o' h' -> reset_forgets o o' -> d_verify E o' h x04 = Ok h' ->
  driven E x05 p h' (map Sign sks) p' h2 -> d_verify E p' h' x05 = Ok h2 ->
  exists s s1 s2 s3, ksigner_new t = Ok s /\ ksucceeds E s (map step_op l) s1
    /\ ksigner_new_sponsor E (ks_tx s1) p = Ok s2 /\ ksucceeds E s2 (map SignSponsor sks) s3
    /\ ks_tx s3 = kt_with_auth t (KSponsored o' p') /\ k_initial_hash (ks_tx s3) = Ok h
    /\ k_auth_verify E (kt_auth (ks_tx s3)) h = Ok tt.
Proof.
  intros C V W A H D R Y D2 Y2.
  assert (X : forall x, k_initial_hash (kt_with_auth t (KSponsored o' x)) = Ok h).
  { intros x. rewrite <- H. apply k_hash_origin; [unfold korigin; rewrite A; exact R|now rewrite A]. }
  set (s := {| ks_tx := t; ks_hash := h; ks_origin_signed := false; ks_oversign := true; ks_overlap := true |}).
  set (s2 := {| ks_tx := kt_with_auth t (KSponsored o' p); ks_hash := h'; ks_origin_signed := true; ks_oversign := true; ks_overlap := true |}).
  exists s, (kput s (KSponsored o' q) h' false), s2, (kput s2 (KSponsored o' p') h2 true).
  splits.
  - unfold ksigner_new. rewrite H. reflexivity.
  - apply (drives E C); auto. exists o', h'. unfold korigin. cbn [s ks_tx]. rewrite A. split; [exact D|reflexivity].
  - unfold ksigner_new_sponsor. cbn [kput ks_tx kt_auth s k_is_sponsored negb k_set_sponsor bind].
    change (kt_with_auth _ (KSponsored o' p)) with (kt_with_auth t (KSponsored o' p)).
    assert (k_verify_origin E (kt_with_auth t (KSponsored o' p)) = Ok h') as ->.
    { apply k_verify_iff. exists h. split; [apply X|exact Y]. }
    cbn [bind]. unfold ksigner_new. rewrite X. reflexivity.
  - assert (Z : kput s2 (KSponsored o' p') h2 true = kput s2 (KSponsored o' p') h2 (match sks with [] => ks_origin_signed s2 | _ => true end)) by now destruct sks.
    rewrite Z. apply (drives_sponsor E C sks s2 _ o' p); auto. exists p', h2. split; [exact D2|reflexivity].
  - reflexivity.
  - apply X.
  - cbn [kput ks_tx kt_auth k_auth_verify]. change auth_type_standard with x04. rewrite Y. cbn [bind]. change auth_type_sponsored with x05. rewrite Y2. reflexivity.
Qed.

Lemma ktx_sign_iff E t sk u : ecdsa_correct E -> valid_key sk -> (ktx_sign E t sk = Ok u <->
  exists h o' h', k_initial_hash t = Ok h /\ driven E x04 (korigin t) h [Sign sk] o' h' /\ u = kt_with_auth t (swap_origin (kt_auth t) o')).
Proof.
  intros C V. unfold ktx_sign, ksigner_new. split.
  - intros H. apply bind_ok in H. destruct H as (s & S & H). apply bind_ok in S. destruct S as (h & Hh & S). injection S as <-.
    match type of H with context [k_sign_origin E ?x sk] => set (s := x) in * end.
    destruct (k_sign_origin E s sk) as [s' r] eqn:P. apply bind_ok in H. destruct H as ([] & -> & H). injection H as <-.
    assert (Q : ksucceeds E s (map step_op [Sign sk]) s') by (eapply ksucceeds_cons; [exact P|constructor]).
    apply (drives E C) in Q; auto. destruct Q as (o' & h' & D & ->). exists h, o', h'. splits; auto.
  - intros (h & o' & h' & Hh & D & ->). rewrite Hh. cbn [bind].
    match goal with |- context [k_sign_origin E ?x sk] => set (s := x) end.
    assert (Q : ksucceeds E s (map step_op [Sign sk]) (kput s (swap_origin (kt_auth t) o') h' false)).
    { apply (drives E C); auto. exists o', h'. split; [exact D|reflexivity]. }
    inversion Q as [|? ? s1 ? ? P R]; subst. inversion R; subst. cbn [step_op kperform] in P. rewrite P. reflexivity.
Qed.

(** ** The library's own conditions *)

Lemma kauth_enc a : enc_kauth (kauth_of a) = enc_auth a.
Proof. destruct a; reflexivity. Qed.
Lemma kreset_of a : k_auth_reset (kauth_of a) = kauth_of (auth_reset a).
Proof. destruct a; reflexivity. Qed.
Lemma kenc_of t : enc_ktx (ktx_of t) = enc_otx t.
Proof. unfold enc_ktx, enc_otx. cbn [ktx_of kt_auth]. rewrite kauth_enc. reflexivity. Qed.
Lemma khash_of t : k_initial_hash (ktx_of t) = o_initial_hash t.
Proof.
  unfold k_initial_hash, o_initial_hash, ktx_hash, otx_hash.
  change (kt_with_auth (ktx_of t) (k_auth_reset (kt_auth (ktx_of t)))) with (kt_with_auth (ktx_of t) (k_auth_reset (kauth_of (o_auth t)))).
  rewrite kreset_of. change (kt_with_auth (ktx_of t) (kauth_of (auth_reset (o_auth t)))) with (ktx_of (o_with_auth t (auth_reset (o_auth t)))).
  now rewrite kenc_of.
Qed.
Lemma korigin_of a : k_origin (kauth_of a) = lib (auth_origin a).
Proof. destruct a; reflexivity. Qed.
Lemma kwith_of a o : k_with_origin (kauth_of a) (lib o) = kauth_of (auth_with_origin a o).
Proof. destruct a; reflexivity. Qed.
Lemma kverify_of E t : k_verify_origin E (ktx_of t) = o_verify_origin E t.
Proof.
  unfold k_verify_origin, o_verify_origin. rewrite khash_of. destruct (o_initial_hash t) as [h| | |]; try reflexivity. cbn [bind].
  unfold k_auth_verify_origin. cbn [ktx_of kt_auth]. rewrite korigin_of. reflexivity.
Qed.
Lemma kauth_verify_of E a h : k_auth_verify E (kauth_of a) h = auth_verify E a h.
Proof. destruct a; reflexivity. Qed.
Lemma knew_of t : ksigner_new (ktx_of t) = bind (osigner_new t) (fun s => Ok (ksigner_of s)).
Proof. unfold ksigner_new, osigner_new. rewrite khash_of. destruct (o_initial_hash t); reflexivity. Qed.
Lemma knew_sponsor_of E t p : ksigner_new_sponsor E (ktx_of t) (lib p) = bind (osigner_new_sponsor E t p) (fun s => Ok (ksigner_of s)).
Proof.
  unfold ksigner_new_sponsor, osigner_new_sponsor. cbn [ktx_of kt_auth]. destruct (o_auth t) as [o|o q] eqn:A; [reflexivity|].
  cbn [kauth_of k_is_sponsored is_sponsored negb k_set_sponsor auth_set_sponsor bind].
  change (kt_with_auth _ (KSponsored (lib o) (lib p))) with (ktx_of (o_with_auth t (ASponsored o p))). rewrite kverify_of.
  destruct (o_verify_origin E (o_with_auth t (ASponsored o p))); try reflexivity. cbn [bind]. rewrite knew_of.
  destruct (osigner_new (o_with_auth t (ASponsored o p))); reflexivity.
Qed.
Lemma kmodify_of c m : d_modify (lib c) m = (lib (fst (modify c m)), snd (modify c m)).
Proof. unfold d_modify. cbn [lib d_kind d_state lib_kind k_modify]. destruct (modify c m). reflexivity. Qed.
Lemma ksign_of E c h typ sk : k_sign_and_append E (lib c) h typ sk = (lib (fst (sign_and_append E c h typ sk)), snd (sign_and_append E c h typ sk)).
Proof.
  unfold k_sign_and_append, sign_and_append. change (d_fee (lib c)) with (sc_fee c). change (d_nonce (lib c)) with (sc_nonce c). change (d_mode (lib c)) with (sc_mode c).
  destruct (map_err TxHash (next_signature E h typ (sc_fee c) (sc_nonce c) sk)) as [[sig g]| | |]; try reflexivity.
  rewrite !kmodify_of. destruct (sc_mode c), (modify c (MSetSignature sig)), (modify c (MAddSignature sig)); reflexivity.
Qed.
Lemma kperform_of E s o : kperform E (ksigner_of s) o = (ksigner_of (fst (operform E s o)), snd (operform E s o)).
Proof.
  destruct o as [sk|sk|pk]; cbn [kperform operform].
  - unfold k_sign_origin, o_sign_origin. cbn [ksigner_of ks_overlap ks_origin_signed ks_oversign ks_tx ks_hash ktx_of kt_auth].
    destruct (os_overlap s && os_origin_signed s); [reflexivity|]. rewrite korigin_of.
    change (d_signatures (lib (auth_origin (o_auth (os_tx s))))) with (@signatures tx_err (auth_origin (o_auth (os_tx s)))).
    change (d_required (lib (auth_origin (o_auth (os_tx s))))) with (req_signatures (auth_origin (o_auth (os_tx s)))).
    match goal with |- context [if ?b then bind ?x ?f else Ok false] => destruct (if b then bind x f else Ok false) as [[]| | |] end; try reflexivity.
    unfold k_sign_next_origin, o_sign_next_origin. cbn [kt_auth ktx_of]. rewrite korigin_of, ksign_of.
    destruct (sign_and_append E (auth_origin (o_auth (os_tx s))) (os_hash s) auth_type_standard sk) as [c r]. cbn [fst snd].
    rewrite kwith_of. destruct r; reflexivity.
  - unfold k_sign_sponsor, o_sign_sponsor. cbn [ksigner_of ks_oversign ks_tx ks_hash ktx_of kt_auth].
    destruct (o_auth (os_tx s)) as [o|o p] eqn:A; [reflexivity|]. cbn [kauth_of k_sponsor auth_sponsor bind].
    change (d_signatures (lib p)) with (@signatures tx_err p). change (d_required (lib p)) with (req_signatures p).
    match goal with |- context [if ?b then bind ?x ?f else Ok false] => destruct (if b then bind x f else Ok false) as [[]| | |] end; try reflexivity.
    unfold k_sign_next_sponsor, o_sign_next_sponsor. cbn [kt_auth ktx_of]. rewrite A. cbn [kauth_of]. rewrite ksign_of.
    destruct (sign_and_append E p (os_hash s) auth_type_sponsored sk) as [c r]. cbn [fst snd]. destruct r; try reflexivity.
  - unfold k_append_origin, o_append_origin. cbn [ksigner_of ks_overlap ks_origin_signed].
    destruct (os_overlap s && os_origin_signed s); [reflexivity|]. unfold k_append_next_origin, o_append_next_origin.
    cbn [ksigner_of ks_tx ktx_of kt_auth]. rewrite korigin_of. change (d_mode (lib (auth_origin (o_auth (os_tx s))))) with (sc_mode (auth_origin (o_auth (os_tx s)))).
    rewrite kmodify_of. destruct (sc_mode (auth_origin (o_auth (os_tx s)))); try reflexivity;
      destruct (modify (auth_origin (o_auth (os_tx s))) (MAddPublicKey pk)) as [c r]; cbn [fst snd]; rewrite kwith_of; reflexivity.
Qed.
Lemma ktx_sign_of E t sk : ktx_sign E (ktx_of t) sk = bind (otx_sign E t sk) (fun u => Ok (ktx_of u)).
Proof.
  unfold ktx_sign, otx_sign. rewrite knew_of. destruct (osigner_new t) as [s| | |]; try reflexivity. cbn [bind].
  pose proof (kperform_of E s (SignOrigin sk)) as X. cbn [kperform operform] in X. rewrite X. destruct (o_sign_origin E s sk) as [s' []]; reflexivity.
Qed.
Lemma kset_of t n : ktx_set_fee (ktx_of t) n = ktx_of (o_set_fee t n) /\ ktx_set_nonce (ktx_of t) n = ktx_of (o_set_nonce t n).
Proof. destruct t as [? ? [] ? ? ? ?]; split; reflexivity. Qed.

(** Planned signatures drive the library's conditions to ones that verify. *)
Lemma ksucceeds_of E l : forall s s', osucceeds E s l s' -> ksucceeds E (ksigner_of s) l (ksigner_of s').
Proof.
  induction l as [|o l IH]; intros s s' H; inversion H as [|? ? s1 ? ? P Q]; subst; [constructor|].
  eapply ksucceeds_cons; [|apply IH; exact Q]. rewrite kperform_of, P. reflexivity.
Qed.
Lemma ksucceeds_tx E s l s' : succeeds E s l s' -> ksucceeds E (ksigner_of (own_signer s)) l (ksigner_of (own_signer s')).
Proof.
  intros H. apply ksucceeds_of. revert s s' H. induction l as [|o l IH]; intros s s' H; inversion H as [|? ? s1 ? ? P Q]; subst; [constructor|].
  eapply osucceeds_cons; [|apply IH; exact Q]. rewrite perform_own, P. reflexivity.
Qed.
Lemma plan_steps E c l : plan E c l -> Forall step_valid l.
Proof. destruct 1; auto. Qed.
Lemma same_terms_reset c c' : same_terms c c' -> reset_forgets (lib c) (lib c').
Proof.
  intros (I & F & N). unfold reset_forgets, d_encode, d_reset. cbn. destruct c as [s|m], c' as [s'|m']; cbn in *; try contradiction.
  - destruct I as [-> ->]. reflexivity.
  - destruct I as (-> & -> & ->). reflexivity.
Qed.
Lemma library_origin E c l h : ecdsa_correct E -> plan E c l -> exists c' h', driven E x04 (lib c) h l (lib c') h'
  /\ reset_forgets (lib c) (lib c') /\ d_verify E (lib c') h x04 = Ok h'.
Proof.
  intros C P.
  set (t := {| tx_ver := VMainnet; tx_chain := ChMainnet; tx_auth := AStandard c; tx_anchor := AnAny; tx_pcmode := PcDeny; tx_conds := [];
               tx_payload := PTransfer CTrue 0 [] |}).
  set (s := {| sg_tx := t; sg_hash := h; sg_origin_signed := false; sg_oversign := true; sg_overlap := true |}).
  destruct (run_origin E l s C P eq_refl) as (o' & h' & Sa & T & Ty & Su). exists o', h'. split; [|split].
  - apply ksucceeds_tx in Su. apply (drives E C) in Su; auto; [|eapply plan_steps; eauto]. destruct Su as (o1 & h1 & D & X).
    assert (lib o' = o1 /\ h' = h1) as [-> ->]; [|exact D].
    assert (X1 := f_equal (fun s => korigin (ks_tx s)) X). assert (X2 := f_equal ks_hash X). cbn in X1, X2. auto.
  - now apply same_terms_reset.
  - apply verify_iff; assumption.
Qed.
Lemma library_sponsor E c sks h : ecdsa_correct E -> plan E c (map Sign sks) -> exists c' h', driven E x05 (lib c) h (map Sign sks) (lib c') h'
  /\ d_verify E (lib c') h x05 = Ok h'.
Proof.
  intros C P.
  set (t := {| tx_ver := VMainnet; tx_chain := ChMainnet; tx_auth := ASponsored c c; tx_anchor := AnAny; tx_pcmode := PcDeny; tx_conds := [];
               tx_payload := PTransfer CTrue 0 [] |}).
  set (s := {| sg_tx := t; sg_hash := h; sg_origin_signed := false; sg_oversign := true; sg_overlap := true |}).
  destruct (run_sponsor E sks s c c C P eq_refl) as (p' & h' & b & Sa & T & Ty & Su). exists p', h'. split.
  - apply ksucceeds_tx in Su. assert (V : Forall valid_key sks).
    { apply plan_steps in P. clear - P. induction sks; inversion P; subst; constructor; auto. }
    apply (drives_sponsor E C sks (ksigner_of (own_signer s)) _ (lib c) (lib c) V eq_refl eq_refl) in Su. destruct Su as (p1 & h1 & D & X).
    assert (lib p' = p1 /\ h' = h1) as [-> ->]; [|exact D].
    assert (X1 := f_equal (fun s => match kt_auth (ks_tx s) with KSponsored _ p => p | KStandard p => p end) X). assert (X2 := f_equal ks_hash X). cbn in X1, X2. auto.
  - apply verify_iff; assumption.
Qed.

(** ** Requests *)

Lemma kbroadcast_iff url t q : k_broadcast_request url t = Ok q <->
  exists e, enc_ktx t = Ok e /\ q = post_bytes (url ++ str "/v2/transactions") e.
Proof.
  unfold k_broadcast_request. split.
  - destruct (enc_ktx t) as [e| | |]; try discriminate. intros H. okinv H. exists e. auto.
  - intros (e & -> & ->). reflexivity.
Qed.
Lemma kestimate_iff url t q : k_estimate_request url t = Ok q <->
  exists p e, kt_payload t = Ok p /\ enc_ktx t = Ok e
    /\ q = post_json (url ++ str "/v2/fees/transaction")
             (JObj [(str "transaction_payload", JStr (hex_text p)); (str "estimated_len", number (count e))]).
Proof.
  unfold k_estimate_request. split.
  - destruct (kt_payload t) as [p| | |]; try discriminate. destruct (enc_ktx t) as [e| | |]; try discriminate. intros H. okinv H.
    exists p, e. rewrite bytes_to_hex_text. auto.
  - intros (p & e & -> & -> & ->). cbn [map_err bind]. rewrite bytes_to_hex_text. reflexivity.
Qed.
