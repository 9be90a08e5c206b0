(** Proofs about c32check and addresses. *)

From Coq Require Import Lia ZifyBool ZifyNat ZifyN.
From Verif Require Import Base BaseFacts Utf8 Utf8Facts NumFacts SpecText SpecAddr Sha2 Hash HashFacts
     C32 C32Facts.
Local Open Scope N_scope.

Lemma c32_decode_single c : crockford_ok c -> c32_decode [c] = Ok [n2b (Z.to_N (c32v c))].
Proof.
  intros H.
  assert (forall c, (if existsb (byte_eqb c) crockford_accept then
                       match c32_decode [c] with
                       | Ok [d] => byte_eqb d (n2b (Z.to_N (c32v c)))
                       | _ => false
                       end else true) = true) as X.
  { apply all_byte_spec. vm_compute. reflexivity. }
  specialize (X c). apply existsb_byte_in in H. fold crockford_accept in H. rewrite H in X.
  destruct (c32_decode [c]) as [[|d [|]]| | |]; try discriminate.
  apply byte_eqb_eq in X. congruence.
Qed.

Lemma addr_sum_eq v h : checksum (dsha256 (v :: h)) = addr_sum v h.
Proof. reflexivity. Qed.

Lemma addr_sum_length v h : length (addr_sum v h) = 4%nat.
Proof. rewrite <- addr_sum_eq. apply checksum_length. Qed.

Lemma c32check_encode_ok h v : b2n v < 32 ->
  exists t, c32check_encode h v = Ok t /\ c32check_text h v t.
Proof.
  intros Hv. unfold c32check_encode. rewrite addr_sum_eq.
  destruct (c32_encode_digits (h ++ addr_sum v h)) as (ds & E & F & V & L).
  rewrite E. cbn [bind]. rewrite c32_char_ok by exact Hv. cbn [bind].
  unfold from_utf8_c32.
  assert (A : is_ascii (c32a (b2n v) :: map c32a ds) = true).
  { cbn [is_ascii forallb]. rewrite c32a_ascii by exact Hv. apply map_c32a_ascii, F. }
  rewrite utf8_valid_ascii by exact A.
  eexists. split; [reflexivity|]. split; [exact Hv|].
  exists (map c32a ds). split; [reflexivity|]. exists ds. auto.
Qed.

Lemma c32check_encode_panic h v : 32 <= b2n v -> c32check_encode h v = Panic PIndex.
Proof.
  intros Hv. unfold c32check_encode.
  destruct (c32_encode_digits (h ++ checksum (dsha256 (v :: h)))) as (ds & E & _).
  rewrite E. cbn [bind]. rewrite c32_char_panic by exact Hv. reflexivity.
Qed.

Lemma numeral32_decode b s : Forall crockford_ok s -> numeral 32 crockford b (map crockford_norm s) ->
  c32_decode s = Ok b.
Proof.
  intros F (ds & Fd & E & V & L).
  destruct (c32_decode_digits s F) as (b' & E' & V' & L'). rewrite E'. f_equal.
  destruct (c32ds_spec s F) as (F2 & N2). rewrite <- N2 in E. apply map_c32a_inj in E; try assumption.
  subst ds. apply map_b2n_inj.
  apply (numeral_unique 256); [lia | apply map_b2n_bound | apply map_b2n_bound | |];
    change b2n with Byte.to_N; change b2n with Byte.to_N in *; congruence.
Qed.

Lemma decode_numeral32 b s : c32_decode s = Ok b ->
  Forall crockford_ok s /\ numeral 32 crockford b (map crockford_norm s).
Proof.
  intros E.
  assert (F : Forall crockford_ok s).
  { destruct (last_bad s) as [F|(p & c & t & -> & B & F)]; [exact F|].
    destruct (is_ascii (p ++ c :: t)) eqn:A.
    - apply is_ascii_spec in A. rewrite (c32_decode_bad _ p c t A eq_refl B F) in E. discriminate.
    - rewrite c32_decode_nonascii in E; [discriminate|]. rewrite <- is_ascii_spec. congruence. }
  split; [exact F|].
  destruct (c32_decode_digits s F) as (b' & E' & V & L). rewrite E' in E. injection E as ->.
  destruct (c32ds_spec s F) as (F2 & N2). exists (c32ds s). auto.
Qed.

Lemma numeral32_length b s : numeral 32 crockford b s -> (length b <= length s)%nat.
Proof.
  intros (ds & F & -> & V & L). rewrite map_length.
  rewrite <- (map_length Byte.to_N b).
  apply (numeral_length 32 256); auto; try lia. apply map_b2n_bound.
Qed.

Lemma crockford_norm_digit c d : crockford_ok c -> d < 32 -> crockford_norm c = c32a d ->
  Z.to_N (c32v c) = d.
Proof.
  intros H Hd E.
  assert (0 <= c32v c)%Z as X.
  { destruct (Z.ltb_spec (c32v c) 0) as [B|B]; [apply c32v_bad in B; contradiction|exact B]. }
  pose proof (c32v_ok c X) as (_ & X1 & _ & X2). rewrite <- X2 in E. apply c32a_inj in E; lia.
Qed.

(** Exact characterisation of success of [c32check_decode]. *)
Lemma c32check_decode_iff s h v : c32check_decode s = Ok (h, v) <->
  Forall crockford_ok s /\ c32check_text h v (map crockford_norm s).
Proof.
  split.
  - unfold c32check_decode. destruct (is_ascii s); cbn [negb]; [|discriminate].
    destruct s as [|ver data]; [discriminate|]. intros H.
    destruct (c32_decode data) as [decoded| | |] eqn:D; cbn [bind] in H; try discriminate.
    apply decode_numeral32 in D. destruct D as [Fd Nd].
    destruct (N.ltb_spec (lenN decoded) 4) as [|Hl]; [discriminate|].
    destruct (c32_decode [ver]) as [vb| | |] eqn:DV; cbn [bind] in H; try discriminate.
    pose proof DV as DV'. apply decode_numeral32 in DV'. destruct DV' as [Fv _].
    pose proof (Forall_inv Fv) as Hv. rewrite c32_decode_single in DV by exact Hv. injection DV as <-.
    set (w := n2b (Z.to_N (c32v ver))) in *. cbn [app] in H. rewrite addr_sum_eq in H.
    destruct (bytes_eqb_spec (addr_sum w (firstn (length decoded - 4) decoded))
                             (skipn (length decoded - 4) decoded)) as [S|S]; [|discriminate].
    cbn [index nth_error bind] in H. injection H as <- <-.
    split; [constructor; assumption|].
    assert (0 <= c32v ver)%Z as X.
    { destruct (Z.ltb_spec (c32v ver) 0) as [B|B]; [apply c32v_bad in B; contradiction|exact B]. }
    pose proof (c32v_ok ver X) as (_ & X1 & _ & X2).
    assert (W : b2n w = Z.to_N (c32v ver)) by (apply b2n_n2b_small; lia).
    split; [change (b2n w < 32); lia|].
    exists (map crockford_norm data). split.
    + cbn [map]. f_equal. rewrite <- X2, <- W. reflexivity.
    + rewrite S, firstn_skipn. exact Nd.
  - intros (F & Hv & body & E & Nb). unfold c32check_decode.
    rewrite (crockford_ok_ascii s F). cbn [negb].
    destruct s as [|ver data]; [discriminate|]. cbn [map] in E. injection E as Ev <-.
    inv F. rename H1 into Fv. rename H2 into Fd.
    rewrite (numeral32_decode _ _ Fd Nb). cbn [bind].
    unfold lenN. rewrite app_length, addr_sum_length.
    destruct (N.ltb_spec (N.of_nat (length h + 4)) 4); [lia|].
    rewrite c32_decode_single by exact Fv. cbn [bind].
    rewrite (crockford_norm_digit ver (b2n v) Fv Hv Ev), n2b_b2n.
    replace (length h + 4 - 4)%nat with (length h) by lia.
    rewrite firstn_app_exact, skipn_app_exact. cbn [app]. rewrite addr_sum_eq, bytes_eqb_refl.
    reflexivity.
Qed.

Lemma c32check_text_norm h v t : c32check_text h v t -> Forall crockford_ok t /\ map crockford_norm t = t.
Proof.
  intros (Hv & body & -> & ds & F & -> & _).
  change (nth (N.to_nat (Byte.to_N v)) crockford x00) with (c32a (b2n v)).
  change (fun d => nth (N.to_nat d) crockford x00) with c32a. split.
  - constructor; [apply c32a_ok, Hv | apply map_c32a_ok, F].
  - cbn [map]. rewrite c32_norm_c32a by exact Hv. f_equal. apply map_norm_c32a, F.
Qed.

Lemma c32check_roundtrip h v : b2n v < 32 ->
  exists t, c32check_encode h v = Ok t /\ c32check_text h v t /\ c32check_decode t = Ok (h, v).
Proof.
  intros Hv. destruct (c32check_encode_ok h v Hv) as (t & E & T). exists t.
  split; [exact E|]. split; [exact T|]. apply c32check_decode_iff.
  destruct (c32check_text_norm _ _ _ T) as [F M]. rewrite M. auto.
Qed.

Lemma c32check_text_length h v t : c32check_text h v t -> (length h + 5 <= length t)%nat.
Proof.
  intros (_ & body & -> & N). apply numeral32_length in N. rewrite app_length, addr_sum_length in N.
  cbn [length]. lia.
Qed.

Lemma c32check_text_unique h v t t' : c32check_text h v t -> c32check_text h v t' -> t = t'.
Proof.
  intros (_ & body & -> & N) (_ & body' & -> & N'). f_equal. eapply numeral32_unique; eassumption.
Qed.

Lemma stacks_version_lt v : stacks_version v -> b2n v < 32.
Proof.
  unfold stacks_version, b2n. cbn [In]. intros H. repeat destruct H as [<-|H]; try reflexivity. contradiction.
Qed.

Lemma stacks_version_b v : existsb (N.eqb (b2n v)) [22; 26; 20; 21] = true <-> stacks_version v.
Proof.
  rewrite existsb_exists. unfold stacks_version, b2n. cbn [In]. split.
  - intros (x & Hx & E). apply N.eqb_eq in E. subst x. tauto.
  - intros H. exists (Byte.to_N v). rewrite N.eqb_refl. split; [|reflexivity]. tauto.
Qed.

Lemma c32_address_unknown h v : ~ stacks_version v -> c32_address h v = Err (C32UnknownAddressVersion v).
Proof.
  intros H. unfold c32_address. destruct (existsb _ _) eqn:E; [|reflexivity].
  apply stacks_version_b in E. contradiction.
Qed.

Lemma c32_address_decode_iff s h v : c32_address_decode s = Ok (h, v) <-> address_spelling h v s.
Proof.
  unfold address_spelling. split.
  - unfold c32_address_decode. intros H.
    destruct s as [|b t]; [discriminate|].
    assert (b = x53) as -> by (destruct b; try discriminate H; reflexivity).
    destruct (lenN (x53 :: t) <=? 5); [discriminate|].
    apply c32check_decode_iff in H. exists t. tauto.
  - intros (t & -> & F & T). unfold c32_address_decode.
    pose proof (c32check_text_length _ _ _ T) as L. rewrite map_length in L.
    rewrite lenN_cons. unfold lenN.
    destruct (N.leb_spec (N.of_nat (length t) + 1) 5); [lia|].
    apply c32check_decode_iff. auto.
Qed.

Lemma address_text_spelling h v s : address_text h v s -> address_spelling h v s.
Proof.
  intros (t & -> & T). exists t. split; [reflexivity|].
  destruct (c32check_text_norm _ _ _ T) as [F M]. rewrite M. auto.
Qed.

Lemma c32_address_ok h v : stacks_version v ->
  exists s, c32_address h v = Ok s /\ address_text h v s /\ c32_address_decode s = Ok (h, v).
Proof.
  intros Hv. unfold c32_address.
  rewrite (proj2 (stacks_version_b v) Hv).
  destruct (c32check_encode_ok h v (stacks_version_lt v Hv)) as (t & E & T).
  rewrite E. cbn [bind]. exists (x53 :: t). split; [reflexivity|].
  assert (A : address_text h v (x53 :: t)) by (exists t; auto).
  split; [exact A|]. apply c32_address_decode_iff, address_text_spelling, A.
Qed.

Lemma c32_address_text h v s : c32_address h v = Ok s -> stacks_version v /\ address_text h v s.
Proof.
  intros H. destruct (existsb (N.eqb (b2n v)) [22; 26; 20; 21]) eqn:E.
  - apply stacks_version_b in E. split; [exact E|].
    destruct (c32_address_ok h v E) as (s' & E' & T & _). congruence.
  - rewrite c32_address_unknown in H; [discriminate|]. rewrite <- stacks_version_b. congruence.
Qed.

Lemma address_text_unique h v s s' : address_text h v s -> address_text h v s' -> s = s'.
Proof.
  intros (t & -> & T) (t' & -> & T'). f_equal. eapply c32check_text_unique; eassumption.
Qed.

(** The decoder as a function of the spelling; the remaining outcomes. *)
Lemma c32_decode_no_panic s : (exists b, c32_decode s = Ok b) \/ (exists e, c32_decode s = Err e).
Proof.
  destruct (is_ascii s) eqn:A.
  - apply is_ascii_spec in A.
    destruct (last_bad s) as [F|(p & c & t & -> & B & F)].
    + left. destruct (c32_decode_digits s F) as (b & E & _). eauto.
    + right. rewrite (c32_decode_bad _ p c t A eq_refl B F). eauto.
  - right. rewrite c32_decode_nonascii; [eauto|]. rewrite <- is_ascii_spec. congruence.
Qed.

Lemma c32check_decode_no_panic s : s <> [] ->
  (exists r, c32check_decode s = Ok r) \/ (exists e, c32check_decode s = Err e).
Proof.
  intros NE. unfold c32check_decode. destruct (is_ascii s); cbn [negb]; [|eauto].
  destruct s as [|ver data]; [contradiction|].
  destruct (c32_decode_no_panic data) as [(b & ->)|(e & ->)]; cbn [bind]; [|eauto].
  destruct (lenN b <? 4); [eauto|].
  destruct (c32_decode_no_panic [ver]) as [(vb & E)|(e & ->)]; [|cbn [bind]; eauto].
  pose proof E as E'. apply decode_numeral32 in E'. destruct E' as [F _]. inv F.
  rewrite c32_decode_single in * by assumption. injection E as <-. cbn [bind app].
  destruct (bytes_eqb _ _); cbn; eauto.
Qed.

Lemma c32_address_decode_no_panic s :
  (exists r, c32_address_decode s = Ok r) \/ (exists e, c32_address_decode s = Err e).
Proof.
  destruct s as [|b t]; [right; cbn; eauto|].
  unfold c32_address_decode.
  destruct b; eauto.
  rewrite lenN_cons. destruct (N.leb_spec (lenN t + 1) 5); [eauto|].
  apply c32check_decode_no_panic. intros ->. rewrite lenN_nil in *. lia.
Qed.

(** Each wrong input has its documented error. *)
Lemma c32check_decode_sum_err ver data decoded :
  c32_decode data = Ok decoded -> (4 <= length decoded)%nat -> crockford_ok ver ->
  let k := (length decoded - 4)%nat in
  let v := n2b (Z.to_N (c32v ver)) in
  addr_sum v (firstn k decoded) <> skipn k decoded ->
  c32check_decode (ver :: data) = Err (C32BadChecksum (addr_sum v (firstn k decoded)) (skipn k decoded)).
Proof.
  intros D L O k v NE. unfold c32check_decode.
  pose proof (decode_numeral32 _ _ D) as [Fd _].
  rewrite (crockford_ok_ascii (ver :: data)) by (constructor; assumption). cbn [negb].
  rewrite D. cbn [bind]. unfold lenN. destruct (N.ltb_spec (N.of_nat (length decoded)) 4); [lia|].
  rewrite c32_decode_single by exact O. cbn [bind app]. fold k v. rewrite addr_sum_eq.
  destruct (bytes_eqb_spec (addr_sum v (firstn k decoded)) (skipn k decoded)); [contradiction|reflexivity].
Qed.
