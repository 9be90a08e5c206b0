(** The codecs refuse exactly what SpecFault.v describes, with exactly that error. *)

From Coq Require Import Strings.String Lia ZifyBool ZifyNat ZifyN.
From Verif Require Import Base BaseFacts Utf8 Utf8Thms Sha2 SpecText SpecAddr Hash C32 C32Facts AddrFacts Clarity SpecWire
  WireFacts ClarityFacts ClarityTotal ClarityShort TextThms Tx SpecTx TxWire TxFacts TxTotal PayloadFacts SpecFault.
Local Open Scope N_scope.

(** ** Address texts *)

Lemma address_step s : (5 < length (x53 :: s))%nat -> c32_address_decode (x53 :: s) = c32check_decode s.
Proof.
  intros L. cbn [c32_address_decode]. destruct (N.leb_spec (lenN (x53 :: s)) 5) as [H|H]; [|reflexivity].
  unfold lenN in H. lia.
Qed.

Lemma not_S b t : b <> x53 -> c32_address_decode (b :: t) = Err (C32BadAddress (b :: t)).
Proof. intros N. destruct b; try reflexivity. destruct N. reflexivity. Qed.

Lemma bad_address_err s e : bad_address s e -> c32_address_decode s = Err e.
Proof.
  intros B. destruct B.
  - destruct s as [|b t]; [reflexivity|]. apply not_S. intros ->. exact (H t eq_refl).
  - destruct s as [|b t]; [reflexivity|]. destruct (byte_eqb_spec b x53) as [->|N]; [|apply not_S, N].
    cbn [c32_address_decode]. destruct (N.leb_spec (lenN (x53 :: t)) 5) as [|X]; [reflexivity|]. unfold lenN in X. lia.
  - rewrite address_step by assumption. unfold c32check_decode. rewrite <- is_ascii_spec in H0.
    destruct (is_ascii s); [destruct H0; reflexivity|reflexivity].
  - rewrite address_step by assumption. unfold c32check_decode. pose proof H0 as A. apply is_ascii_spec in A. rewrite A. cbn [negb].
    inv H0. rewrite (c32_decode_bad (p ++ d :: q) p d q) by auto. reflexivity.
  - rewrite address_step by assumption. unfold c32check_decode.
    assert (A : is_ascii (c :: t) = true).
    { apply is_ascii_spec. inv H0. constructor; [assumption|]. apply is_ascii_spec, crockford_ok_ascii, H1. }
    rewrite A. cbn [negb]. rewrite (numeral32_decode b t) by assumption. cbn [bind].
    destruct (N.ltb_spec (lenN b) 4) as [|X]; [reflexivity|]. unfold lenN in X. lia.
  - rewrite address_step by assumption. unfold c32check_decode.
    assert (A : is_ascii (c :: t) = true).
    { apply is_ascii_spec. inv H0. constructor; [assumption|]. apply is_ascii_spec, crockford_ok_ascii, H1. }
    rewrite A. cbn [negb]. rewrite (numeral32_decode b t) by assumption. cbn [bind].
    destruct (N.ltb_spec (lenN b) 4) as [X|_]; [unfold lenN in X; lia|]. cbv zeta.
    rewrite (c32_decode_bad [c] [] c []) by auto. reflexivity.
  - rewrite address_step by assumption. apply c32check_bad_checksum; auto. apply numeral32_decode; assumption.
Qed.

Definition digit_of (c : byte) : byte := n2b (Z.to_N (c32v c)).
Lemma norm_digit c : crockford_ok c ->
  Byte.to_N (digit_of c) < 32 /\ crockford_norm c = nth (N.to_nat (Byte.to_N (digit_of c))) crockford x00.
Proof.
  intros H. unfold digit_of.
  assert (0 <= c32v c)%Z as X.
  { destruct (Z.ltb_spec (c32v c) 0) as [B|B]; [apply c32v_bad in B; contradiction|exact B]. }
  destruct (c32v_ok c X) as (_ & X1 & _ & X2). change Byte.to_N with b2n. rewrite b2n_n2b, N.mod_small by lia. split; [lia|]. symmetry. exact X2.
Qed.

Lemma address_settles s : (exists h v, address_spelling h v s) \/ exists e, bad_address s e.
Proof.
  destruct s as [|b s]; [right; eexists; apply Ba_short; cbn; lia|].
  destruct (byte_eqb_spec b x53) as [->|N]; [|right; eexists; apply Ba_start; intros t X; injection X as X _; contradiction].
  destruct (Nat.leb_spec (length (x53 :: s)) 5) as [L|L]; [right; eexists; apply Ba_short; exact L|].
  destruct (is_ascii s) eqn:A; [|right; eexists; apply Ba_ascii; [exact L|]; rewrite <- is_ascii_spec; congruence].
  apply is_ascii_spec in A. destruct s as [|c t]; [cbn in L; lia|]. inv A.
  destruct (last_bad t) as [F|(p & d & q & -> & F & B)].
  2:{ right. eexists. apply Ba_letter; auto. constructor; assumption. }
  destruct (c32_decode_norm t F) as (b & D & _). apply decode_numeral32 in D. destruct D as [_ D].
  destruct (Nat.ltb_spec (length b) 4) as [Lb|Lb]; [right; eexists; eapply Ba_few; eauto; constructor; auto|].
  destruct (crockford_ok_dec c) as [O|O]; [|right; eexists; eapply Ba_version; eauto; constructor; auto].
  destruct (norm_digit c O) as [V E]. set (v := digit_of c) in *. set (k := (length b - 4)%nat).
  pose proof (firstn_skipn k b) as FS. set (h := firstn k b) in *. set (sm := skipn k b) in *.
  assert (Ls : length sm = 4%nat) by (unfold sm; rewrite skipn_length; unfold k; lia).
  destruct (bytes_eqb_spec sm (addr_sum v h)) as [Q|Q].
  - left. exists h, v. exists (c :: t). splits; auto. split; [exact V|]. exists (map crockford_norm t). cbn [map]. split; [f_equal; exact E|].
    rewrite <- Q, FS. exact D.
  - right. eexists. eapply (Ba_checksum c t v h sm); auto. rewrite FS. exact D.
Qed.

Lemma address_refused s e : c32_address_decode s = Err e <-> bad_address s e.
Proof.
  split; [|apply bad_address_err]. intros E. destruct (address_settles s) as [(h & v & S)|(e' & B)].
  - apply c32_address_decode_iff in S. congruence.
  - pose proof (bad_address_err _ _ B) as E'. rewrite E in E'. injection E' as ->. exact B.
Qed.

(** ** Values *)

Lemma enc_len32_big n : 2 ^ 32 <= n -> enc_len32 n = Err ClTryFromInt.
Proof. intros H. unfold enc_len32. destruct (N.ltb_spec n (2 ^ 32)); [lia|reflexivity]. Qed.
Lemma enc_len32_small n : n < 2 ^ 32 -> enc_len32 n = Ok (big_endian 4 n).
Proof. intros H. apply enc_len32_ok. auto. Qed.
Lemma enc_lps_long s e : too_long s e -> enc_lps s = Err e.
Proof. intros [L ->]. unfold enc_lps. change (lenN s) with (count s). destruct (N.ltb_spec 128 (count s)); [reflexivity|lia]. Qed.
Lemma enc_lps_short s : count s <= 128 -> enc_lps s = Ok (ser_name s).
Proof. intros L. apply enc_lps_ok. auto. Qed.
Lemma fine_encodes c : fine c -> exists e, encode c = Ok e.
Proof. intros (w & M & F). eexists. apply encode_complete; eassumption. Qed.

Lemma enc_list_at p x r e : Forall fine p -> encode x = Err e -> enc_list (p ++ x :: r) = Err e.
Proof.
  intros F X. induction F as [|y p Y F IH]; cbn [app enc_list]; [rewrite X; reflexivity|].
  destruct (fine_encodes y Y) as [d ->]. cbn [bind]. rewrite IH. reflexivity.
Qed.

Lemma enc_entries_at p k x r e : Forall (fun kv => count (fst kv) <= 128 /\ fine (snd kv)) p ->
  (let* ke := enc_lps k in let* d := encode x in Ok (ke ++ d)) = Err e -> enc_entries (p ++ (k, x) :: r) = Err e.
Proof.
  intros F X. induction F as [|[j y] p [J Y] F IH]; cbn [app enc_entries].
  - destruct (enc_lps k); cbn [bind] in *; try congruence. destruct (encode x); cbn [bind] in *; congruence.
  - cbn [fst snd] in *. rewrite (enc_lps_short j J). cbn [bind]. destruct (fine_encodes y Y) as [d ->]. cbn [bind]. rewrite IH. reflexivity.
Qed.

Lemma misfit_err c e : misfit c e -> encode c = Err e.
Proof.
  induction 1; cbn [encode].
  - rewrite enc_len32_big by assumption. reflexivity.
  - unfold dec_addr. rewrite (bad_address_err _ _ H). reflexivity.
  - unfold dec_addr. rewrite (bad_address_err _ _ H). reflexivity.
  - apply dec_addr_ok in H. rewrite H. cbn [bind]. rewrite (enc_lps_long _ _ H0). reflexivity.
  - rewrite IHmisfit. reflexivity.
  - rewrite IHmisfit. reflexivity.
  - rewrite IHmisfit. reflexivity.
  - rewrite enc_len32_big by assumption. reflexivity.
  - fold enc_list. rewrite enc_len32_small by assumption. cbn [bind]. rewrite (enc_list_at p x r e) by assumption. reflexivity.
  - rewrite enc_len32_big by assumption. reflexivity.
  - fold enc_entries. rewrite enc_len32_small by assumption. cbn [bind]. rewrite (enc_entries_at p k x r e); [reflexivity|assumption|].
    rewrite (enc_lps_long _ _ H1). reflexivity.
  - fold enc_entries. rewrite enc_len32_small by assumption. cbn [bind]. rewrite (enc_entries_at p k x r e); [reflexivity|assumption|].
    rewrite enc_lps_short by assumption. cbn [bind]. rewrite IHmisfit. reflexivity.
  - rewrite <- is_ascii_spec in H. destruct (is_ascii s); [destruct H; reflexivity|reflexivity].
  - apply is_ascii_spec in H. rewrite H. rewrite enc_len32_big by assumption. reflexivity.
  - rewrite enc_len32_big by assumption. reflexivity.
  - apply enc_lps_long, H.
  - rewrite enc_len32_big by assumption. reflexivity.
  - fold enc_list. rewrite enc_len32_small by assumption. cbn [bind]. rewrite (enc_list_at p x r e) by assumption. reflexivity.
Qed.

Lemma bind_err {E A B} (r : res E A) (k : A -> res E B) e :
  bind r k = Err e <-> r = Err e \/ exists a, r = Ok a /\ k a = Err e.
Proof.
  destruct r; cbn [bind]; split.
  - eauto.
  - intros [H|(? & H & K)]; congruence.
  - intros H. left. congruence.
  - intros [H|(? & H & K)]; congruence.
  - discriminate.
  - intros [H|(? & H & K)]; congruence.
  - discriminate.
  - intros [H|(? & H & K)]; congruence.
Qed.
Ltac berr H := apply bind_err in H; destruct H as [H|(?a & ?A & H)].

Lemma encodes_fine c b : encode c = Ok b -> fine c.
Proof. intros E. apply encode_iff in E. destruct E as (w & M & F & _). exists w. auto. Qed.

Lemma enc_len32_err n e : enc_len32 n = Err e -> 2 ^ 32 <= n /\ e = ClTryFromInt.
Proof. unfold enc_len32. destruct (N.ltb_spec n (2 ^ 32)); [discriminate|]. intros [= <-]. auto. Qed.
Lemma enc_lps_err s e : enc_lps s = Err e -> too_long s e.
Proof.
  unfold enc_lps, too_long. change (lenN s) with (count s). destruct (N.ltb_spec 128 (count s)) as [L|L]; [intros [= <-]; auto|].
  destruct (N.ltb_spec (count s) 256); [discriminate|lia].
Qed.
Lemma dec_addr_err a e : dec_addr a = Err e -> exists f, e = ClC32 f /\ bad_address a f.
Proof.
  unfold dec_addr. destruct (c32_address_decode a) eqn:D; cbn [map_err]; try discriminate.
  intros [= <-]. eexists. split; [reflexivity|]. apply address_refused, D.
Qed.

Lemma enc_list_err l e : Forall (fun c => forall e, encode c = Err e -> misfit c e) l ->
  enc_list l = Err e -> exists p x r, l = p ++ x :: r /\ Forall fine p /\ misfit x e.
Proof.
  induction 1 as [|x l X F IH]; cbn [enc_list]; intros H; [discriminate|]. berr H.
  - exists [], x, l. splits; auto.
  - berr H; [|discriminate]. destruct (IH H) as (p & y & r & -> & Fp & M). exists (x :: p), y, r. splits; auto.
    constructor; [eapply encodes_fine; eassumption|assumption].
Qed.

Lemma enc_entries_err l e : Forall (fun kv => forall e, encode (snd kv) = Err e -> misfit (snd kv) e) l ->
  enc_entries l = Err e -> exists p k x r, l = p ++ (k, x) :: r
    /\ Forall (fun kv => count (fst kv) <= 128 /\ fine (snd kv)) p /\ (too_long k e \/ count k <= 128 /\ misfit x e).
Proof.
  induction 1 as [|[k x] l X F IH]; cbn [enc_entries]; intros H; [discriminate|]. cbn [snd] in X. berr H.
  - exists [], k, x, l. splits; auto. left. apply enc_lps_err, H.
  - apply enc_lps_ok in A. destruct A as [K _]. berr H.
    + exists [], k, x, l. splits; auto.
    + berr H; [|discriminate]. destruct (IH H) as (p & k' & y & r & -> & Fp & M). exists ((k, x) :: p), k', y, r. splits; auto.
      constructor; [split; [exact K|eapply encodes_fine; eassumption]|assumption].
Qed.

Lemma err_misfit c : forall e, encode c = Err e -> misfit c e.
Proof.
  induction c using cval_induction; intros e E; try (cbn [encode] in E; discriminate E).
  - cbn [encode] in E. berr E; [|discriminate]. apply enc_len32_err in E. destruct E as [L ->]. apply Mf_buffer, L.
  - cbn [encode] in E. berr E; [|destruct a0; discriminate]. apply dec_addr_err in E. destruct E as (f & -> & B). apply Mf_std, B.
  - cbn [encode] in E. berr E; [apply dec_addr_err in E; destruct E as (f & -> & B); apply Mf_con, B|].
    destruct a0 as [h v]. apply dec_addr_ok in A. berr E; [|discriminate]. apply enc_lps_err in E. eapply Mf_con_name; eassumption.
  - cbn [encode] in E. berr E; [|discriminate]. apply Mf_ok. auto.
  - cbn [encode] in E. berr E; [|discriminate]. apply Mf_err. auto.
  - cbn [encode] in E. berr E; [|discriminate]. apply Mf_some. auto.
  - rewrite encode_list in E. berr E; [apply enc_len32_err in E; destruct E as [L ->]; apply Mf_list_count, L|].
    apply enc_len32_ok in A. destruct A as [L _]. berr E; [|discriminate].
    apply enc_list_err in E; [|assumption]. destruct E as (p & x & r & -> & F & M). apply Mf_list; auto.
  - rewrite encode_tuple in E. berr E; [apply enc_len32_err in E; destruct E as [L ->]; apply Mf_tuple_count, L|].
    apply enc_len32_ok in A. destruct A as [L _]. berr E; [|discriminate].
    apply enc_entries_err in E; [|assumption]. destruct E as (p & k & x & r & -> & F & [M|[K M]]);
      [apply Mf_tuple_key|apply Mf_tuple]; auto.
  - cbn [encode] in E. destruct (is_ascii s) eqn:A.
    + berr E; [|discriminate]. apply enc_len32_err in E. destruct E as [L ->]. apply Mf_ascii_count; [apply is_ascii_spec, A|exact L].
    + injection E as <-. apply Mf_ascii. rewrite <- is_ascii_spec. congruence.
  - cbn [encode] in E. berr E; [|discriminate]. apply enc_len32_err in E. destruct E as [L ->]. apply Mf_utf8, L.
  - cbn [encode] in E. apply Mf_name, enc_lps_err, E.
  - rewrite encode_fnargs in E. berr E; [apply enc_len32_err in E; destruct E as [L ->]; apply Mf_args_count, L|].
    apply enc_len32_ok in A. destruct A as [L _]. berr E; [|discriminate].
    apply enc_list_err in E; [|assumption]. destruct E as (p & x & r & -> & F & M). apply Mf_args; auto.
Qed.

Lemma encode_refused c e : encode c = Err e <-> misfit c e.
Proof. split; [apply err_misfit|apply misfit_err]. Qed.

(** ** Transactions *)

Lemma spelling_or_bad a : (exists h v, address_spelling h v a) \/ exists e, bad_address a e.
Proof. apply address_settles. Qed.

Lemma drop1_wser c (a : bytes) : encode c = Ok a -> (exists x, c = CPrinStd x) \/ (exists x n, c = CPrinCon x n) ->
  exists b, @drop_slice cl_err 1 a = Ok b.
Proof.
  intros E P. apply encode_iff in E. destruct E as (w & M & F & ->).
  destruct P as [[x ->]|(x & n & ->)]; destruct w; cbn in M; try contradiction; cbn [wser]; rewrite drop1; eauto.
Qed.

Lemma asset_refused i e : enc_asset i = Err e <-> bad_asset i e.
Proof.
  unfold enc_asset. split.
  - intros H. berr H; [apply err_misfit in H; inv H; apply Bs_address; assumption|].
    assert (S : exists h v, address_spelling h v (ai_addr i)).
    { apply encode_iff in A. destruct A as (w & M & _). destruct w; cbn in M; try contradiction. eauto. }
    destruct S as (h & v & S). destruct (drop1_wser _ _ A (or_introl (ex_intro _ _ eq_refl))) as [b D]. rewrite D in H. cbn [bind] in H.
    berr H; [eapply Bs_contract; [eassumption|apply enc_lps_err, H]|]. apply enc_lps_ok in A0. destruct A0 as [L _].
    berr H; [|discriminate]. eapply Bs_name; [eassumption|assumption|apply enc_lps_err, H].
  - intros [? f B|? h v f S T|? h v f S L T].
    + rewrite (misfit_err _ _ (Mf_std _ _ B)). reflexivity.
    + apply dec_addr_ok in S. cbn [encode]. rewrite S. cbn [bind]. rewrite drop1. cbn [bind]. rewrite (enc_lps_long _ _ T). reflexivity.
    + apply dec_addr_ok in S. cbn [encode]. rewrite S. cbn [bind]. rewrite drop1. cbn [bind].
      rewrite (enc_lps_short _ L). cbn [bind]. rewrite (enc_lps_long _ _ T). reflexivity.
Qed.

Lemma who_std a : enc_cond_addr (CPrinStd a) = let* e := encode (CPrinStd a) in let* e1 := drop_slice 1 e in Ok (x02 :: e1).
Proof. reflexivity. Qed.
Lemma who_con a n : enc_cond_addr (CPrinCon a n) = let* e := encode (CPrinCon a n) in let* e1 := drop_slice 1 e in Ok (x03 :: e1).
Proof. reflexivity. Qed.
Lemma who_other c : (forall a, c <> CPrinStd a) -> (forall a n, c <> CPrinCon a n) -> enc_cond_addr c = Err ClBadDowncast.
Proof.
  intros S C. destruct c; try reflexivity.
  - destruct (S addr eq_refl).
  - destruct (C addr name eq_refl).
Qed.

Lemma who_refused c e : enc_cond_addr c = Err e <-> bad_who c e.
Proof.
  split.
  - intros H. destruct c; try (rewrite who_other in H by discriminate; injection H as <-; apply Bw_other; discriminate).
    + rewrite who_std in H. berr H; [apply Bw_std, err_misfit, H|].
      destruct (drop1_wser _ _ A (or_introl (ex_intro _ _ eq_refl))) as [b D]. rewrite D in H. discriminate H.
    + rewrite who_con in H. berr H; [apply Bw_con, err_misfit, H|].
      destruct (drop1_wser _ _ A (or_intror (ex_intro _ _ (ex_intro _ _ eq_refl)))) as [b D]. rewrite D in H. discriminate H.
  - intros [c0 S C|a f M|a n f M].
    + apply who_other; assumption.
    + rewrite who_std, (misfit_err _ _ M). reflexivity.
    + rewrite who_con, (misfit_err _ _ M). reflexivity.
Qed.

Lemma who_fine a : fine_who a <-> exists b, enc_cond_addr a = Ok b.
Proof.
  split.
  - intros (w & P & M & F). eexists. apply cond_addr_iff. eauto.
  - intros [b H]. apply cond_addr_iff in H. destruct H as (w & P & M & F & _). exists w. auto.
Qed.
Lemma asset_fine i : fine_asset i <-> exists b, enc_asset i = Ok b.
Proof.
  split.
  - intros (w & M & F). eexists. apply asset_iff. eauto.
  - intros [b H]. apply asset_iff in H. destruct H as (w & M & F & _). exists w. auto.
Qed.
Lemma cond_fine c : fine_cond c <-> exists b, enc_condition c = Ok b.
Proof.
  split.
  - intros (w & M & F). eexists. apply cond_iff. eauto.
  - intros [b H]. apply cond_iff in H. destruct H as (w & M & F & _). exists w. auto.
Qed.

Lemma cond_refused c e : enc_condition c = Err e <-> bad_cond c e.
Proof.
  split.
  - destruct c; cbn [enc_condition]; intros H.
    + berr H; [|discriminate]. apply who_refused in H. apply Bc_who, H.
    + berr H; [apply who_refused in H; apply Bc_who, H|]. berr H; [|discriminate].
      apply Bc_ft; [apply who_fine; eauto|apply asset_refused, H].
    + berr H; [apply who_refused in H; apply Bc_who, H|]. berr H.
      { apply Bc_nft; [apply who_fine; eauto|apply asset_refused, H]. }
      berr H; [|discriminate]. apply Bc_nft_name; [apply who_fine; eauto|apply asset_fine; eauto|apply err_misfit, H].
  - intros [c0 f W|a n k i f F B|a n k i f F B|a n k i f F G M].
    + destruct c0; apply who_refused in W; cbn [enc_condition]; rewrite W; reflexivity.
    + apply who_fine in F. destruct F as [b F]. apply asset_refused in B. cbn [enc_condition]. rewrite F. cbn [bind]. rewrite B. reflexivity.
    + apply who_fine in F. destruct F as [b F]. apply asset_refused in B. cbn [enc_condition]. rewrite F. cbn [bind]. rewrite B. reflexivity.
    + apply who_fine in F. destruct F as [b F]. apply asset_fine in G. destruct G as [g G]. cbn [enc_condition]. rewrite F. cbn [bind].
      rewrite G. cbn [bind]. rewrite (misfit_err _ _ M). reflexivity.
Qed.

Lemma conds_body_refused l e : enc_conditions_body l = Err e <-> first_bad fine_cond bad_cond l e.
Proof.
  split.
  - induction l as [|c l IH]; cbn [enc_conditions_body]; intros H; [discriminate|]. berr H.
    + exists [], c, l. splits; auto. apply cond_refused, H.
    + berr H; [|discriminate]. destruct (IH H) as (p & y & r & -> & Fp & M). exists (c :: p), y, r. splits; auto.
      constructor; [apply cond_fine; eauto|assumption].
  - intros (p & x & r & -> & F & B). apply cond_refused in B. induction F as [|y p Y F IH]; cbn [app enc_conditions_body].
    + rewrite B. reflexivity.
    + apply cond_fine in Y. destruct Y as [d Y]. rewrite Y. cbn [bind]. rewrite IH. reflexivity.
Qed.

Lemma conds_refused l e : enc_conditions l = Err e <-> bad_conds l e.
Proof.
  unfold enc_conditions. change (lenN l) with (count l). split.
  - intros H. berr H; [apply enc_len32_err in H; destruct H as [L ->]; apply Bl_count, L|].
    apply enc_len32_ok in A. destruct A as [L _]. berr H; [|discriminate]. apply Bl_item; [exact L|apply conds_body_refused, H].
  - intros [l0 L|l0 f L B]; [rewrite enc_len32_big by assumption; reflexivity|].
    rewrite enc_len32_small by assumption. cbn [bind]. apply conds_body_refused in B. rewrite B. reflexivity.
Qed.

Lemma args_refused l e : count l < 2 ^ 32 -> encode (CFnArgs l) = Err e <-> first_bad fine misfit l e.
Proof.
  intros L. rewrite encode_refused. split.
  - intros M. inv M; [lia|]. exists p, x, r. auto.
  - intros (p & x & r & -> & F & M). apply Mf_args; auto.
Qed.

Lemma payload_refused p e : enc_payload p = Err e <-> bad_payload p e.
Proof.
  split.
  - destruct p as [r n m|a c f l]; cbn [enc_payload]; unfold enc_transfer, enc_call; intros H.
    + change (lenN m) with (count m) in H. destruct (N.ltb_spec 34 (count m)) as [L|L]; [injection H as <-; apply Bp_memo, L|].
      berr H; [|discriminate]. apply Bp_to; [exact L|apply err_misfit, H].
    + berr H; [apply Bp_contract, enc_lps_err, H|]. apply enc_lps_ok in A. destruct A as [Lc _].
      berr H; [apply Bp_function; [exact Lc|apply enc_lps_err, H]|]. apply enc_lps_ok in A. destruct A as [Lf _].
      berr H; [|discriminate]. destruct (N.le_gt_cases (2 ^ 32) (count l)) as [L|L].
      * apply encode_refused in H. inv H; [|lia]. apply Bp_args_count; assumption.
      * apply Bp_args; try assumption. apply args_refused; assumption.
  - intros [r n m L|r n m f L M|a c g l f T|a c g l f L T|a c g l L K N|a c g l f L K N B]; cbn [enc_payload]; unfold enc_transfer, enc_call.
    + change (lenN m) with (count m). destruct (N.ltb_spec 34 (count m)); [reflexivity|lia].
    + change (lenN m) with (count m). destruct (N.ltb_spec 34 (count m)); [lia|]. rewrite (misfit_err _ _ M). reflexivity.
    + rewrite (enc_lps_long _ _ T). reflexivity.
    + rewrite (enc_lps_short _ L). cbn [bind]. rewrite (enc_lps_long _ _ T). reflexivity.
    + rewrite (enc_lps_short _ L). cbn [bind]. rewrite (enc_lps_short _ K). cbn [bind].
      rewrite (misfit_err _ _ (Mf_args_count _ N)). reflexivity.
    + rewrite (enc_lps_short _ L). cbn [bind]. rewrite (enc_lps_short _ K). cbn [bind].
      rewrite (proj2 (args_refused l f N) B). reflexivity.
Qed.

Lemma spend_verdict s : (huge_spend s /\ enc_scond s = Err ClTryFromInt) \/ (~ huge_spend s /\ exists b, enc_scond s = Ok b).
Proof.
  destruct s as [s|m]; cbn [enc_scond huge_spend]; [right; split; [auto|eauto]|]. unfold enc_multi.
  change (lenN (ms_fields m)) with (count (ms_fields m)).
  destruct (N.le_gt_cases (2 ^ 32) (count (ms_fields m))) as [L|L].
  - left. rewrite enc_len32_big by assumption. auto.
  - right. rewrite enc_len32_small by assumption. split; [lia|]. cbn [bind]. eauto.
Qed.

Lemma auth_verdict a : (huge_auth a /\ enc_auth a = Err ClTryFromInt) \/ (~ huge_auth a /\ exists b, enc_auth a = Ok b).
Proof.
  destruct a as [o|o s]; cbn [huge_auth enc_auth].
  - destruct (spend_verdict o) as [[H ->]|[H [b ->]]]; cbn [bind]; eauto.
  - destruct (spend_verdict o) as [[H ->]|[H [b ->]]]; cbn [bind]; [eauto|].
    destruct (spend_verdict s) as [[H' ->]|[H' [b' ->]]]; cbn [bind]; [auto|]. right. split; [tauto|eauto].
Qed.

Lemma conds_fine l : (count l < 2 ^ 32 /\ Forall fine_cond l) <-> exists b, enc_conditions l = Ok b.
Proof.
  unfold enc_conditions. change (lenN l) with (count l). split.
  - intros [L F]. rewrite enc_len32_small by assumption. cbn [bind].
    assert (X : exists b, enc_conditions_body l = Ok b).
    { clear L. induction F as [|c l C F [b IH]]; cbn [enc_conditions_body]; [eauto|]. apply cond_fine in C. destruct C as [d ->].
      cbn [bind]. rewrite IH. cbn [bind]. eauto. }
    destruct X as [b ->]. cbn [bind]. eauto.
  - intros [b H]. bind_inv. apply enc_len32_ok in Hr. split; [apply Hr|]. clear - Hr0. revert a0 Hr0.
    induction l as [|c l IH]; cbn [enc_conditions_body]; intros d H; [constructor|]. bind_inv.
    constructor; [apply cond_fine; eauto|eapply IH; reflexivity].
Qed.

Lemma tx_refused t e : enc_tx t = Err e <-> bad_tx t e.
Proof.
  unfold enc_tx. split.
  - intros H. destruct (auth_verdict (tx_auth t)) as [[A E]|[A [b E]]]; rewrite E in H; cbn [bind] in H.
    + injection H as <-. apply Bt_auth, A.
    + berr H; [apply Bt_conds; [exact A|apply conds_refused, H]|].
      assert (X : exists b, enc_conditions (tx_conds t) = Ok b) by eauto. apply conds_fine in X. destruct X.
      berr H; [|discriminate]. apply Bt_payload; auto. apply payload_refused, H.
  - intros B. destruct (auth_verdict (tx_auth t)) as [[A E]|[A [b E]]]; rewrite E; cbn [bind]; destruct B as [t H|t f H B|t f H L F B]; try contradiction.
    + reflexivity.
    + apply conds_refused in B. rewrite B. reflexivity.
    + destruct (proj1 (conds_fine _) (conj L F)) as [c ->]. cbn [bind]. apply payload_refused in B. rewrite B. reflexivity.
Qed.
