(** Assembly of the text-encoding lemmas into the statements of PropsText.v. *)

From Coq Require Import Lia ZifyBool ZifyNat ZifyN Strings.String.
From Verif Require Import Base BaseFacts Utf8 Utf8Facts SpecUtf8 Utf8Thms NumFacts SpecText SpecAddr Sha2 Hash HashFacts
     Hex HexFacts C32 C32Facts AddrFacts B58 B58Facts B58CheckFacts.
Local Open Scope N_scope.

Lemma c32_encode_form b :
  exists s, c32_encode b = Ok s /\ numeral 32 crockford b s
            /\ forall s', numeral 32 crockford b s' -> s' = s.
Proof.
  destruct (c32_encode_numeral b) as (s & E & N). exists s. repeat split; auto.
  intros s' N'. eapply numeral32_unique; eassumption.
Qed.

Lemma c32_decode_classify s :
  (Forall crockford_ok s ->
     exists b, c32_decode s = Ok b /\ c32_encode b = Ok (map crockford_norm s))
  /\ (~ ascii s -> c32_decode s = Err C32BadInput)
  /\ (forall p c t, ascii s -> s = p ++ c :: t -> ~ crockford_ok c -> Forall crockford_ok t ->
        c32_decode s = Err (C32BadChar (Byte.to_N c)))
  /\ ((exists b, c32_decode s = Ok b) -> Forall crockford_ok s).
Proof.
  split; [exact (c32_decode_norm s)|]. split; [exact (c32_decode_nonascii s)|].
  split; [exact (c32_decode_bad s)|]. intros (b & E). apply decode_numeral32 in E. tauto.
Qed.

Lemma address_spelling_unique h v s s' :
  address_spelling h v s -> address_spelling h v s' ->
  exists t t', s = x53 :: t /\ s' = x53 :: t' /\ map crockford_norm t = map crockford_norm t'.
Proof.
  intros (t & -> & _ & T) (t' & -> & _ & T'). exists t, t'. repeat split.
  eapply c32check_text_unique; eassumption.
Qed.

Lemma numeral32_inj b b' s : numeral 32 crockford b s -> numeral 32 crockford b' s -> b = b'.
Proof.
  intros N N'.
  assert (F : Forall crockford_ok s /\ map crockford_norm s = s).
  { destruct N as (ds & F & -> & _). change (fun d => nth (N.to_nat d) crockford x00) with c32a. split.
    - apply map_c32a_ok, F.
    - apply map_norm_c32a, F. }
  destruct F as [F M].
  pose proof (numeral32_decode b s F ltac:(rewrite M; exact N)).
  pose proof (numeral32_decode b' s F ltac:(rewrite M; exact N')). congruence.
Qed.

Lemma c32check_text_inj h v h' v' t : c32check_text h v t -> c32check_text h' v' t -> h = h' /\ v = v'.
Proof.
  intros T T'.
  destruct (c32check_text_norm _ _ _ T) as [F M].
  assert (c32check_decode t = Ok (h, v)) by (apply c32check_decode_iff; rewrite M; auto).
  assert (c32check_decode t = Ok (h', v')) by (apply c32check_decode_iff; rewrite M; auto).
  split; congruence.
Qed.

(** One wrong character in a valid address is accepted only on a checksum collision: the decoded pair
    then carries a matching truncated hash of its own. *)
Lemma c32_address_checksum s h v : c32_address_decode s = Ok (h, v) ->
  exists t, s = x53 :: t /\ c32_decode (tl t) = Ok (h ++ addr_sum v h).
Proof.
  intros H. apply c32_address_decode_iff in H. destruct H as (t & -> & F & T).
  exists t. split; [reflexivity|]. destruct T as (Hv & body & E & Nb).
  destruct t as [|c t]; [discriminate|]. cbn [map] in E. injection E as _ E. subst body.
  inv F. cbn [tl]. apply numeral32_decode; assumption.
Qed.

Lemma address_from_str_cases s :
  match c32_address_decode s with
  | Ok (h, v) => if Nat.eqb (length h) 20
                 then address_from_str s = Ok {| addr_hash := h; addr_version := v |}
                 else address_from_str s = Panic PCopyLen
  | Err e => address_from_str s = Err e
  | _ => False
  end.
Proof.
  unfold address_from_str.
  destruct (c32_address_decode_no_panic s) as [([h v] & E)|(e & E)]; rewrite E; cbn [bind];
    [|reflexivity].
  unfold hash160_new. destruct (Nat.eqb (length h) 20); reflexivity.
Qed.

Lemma c32_address_no_panic h v : (exists s, c32_address h v = Ok s) \/ (exists e, c32_address h v = Err e).
Proof.
  destruct (existsb (N.eqb (b2n v)) [22; 26; 20; 21]) eqn:E.
  - apply stacks_version_b in E. destruct (c32_address_ok h v E) as (s & -> & _). eauto.
  - right. rewrite c32_address_unknown; [eauto|]. rewrite <- stacks_version_b. congruence.
Qed.

Lemma c32check_decode_cases s :
  match c32check_decode s with
  | Ok _ | Err _ => s <> []
  | Panic p => s = [] /\ p = PIndex
  | NoFuel => False
  end.
Proof.
  destruct s as [|c s]; [split; reflexivity|].
  destruct (c32check_decode_no_panic (c :: s) ltac:(discriminate)) as [(r & ->)|(e & ->)]; discriminate.
Qed.

Lemma c32check_encode_cases h v :
  match c32check_encode h v with
  | Ok _ => Byte.to_N v < 32
  | Err _ => False
  | Panic p => 32 <= Byte.to_N v /\ p = PIndex
  | NoFuel => False
  end.
Proof.
  destruct (N.ltb_spec (b2n v) 32) as [L|L].
  - destruct (c32check_encode_ok h v L) as (t & -> & _). exact L.
  - rewrite c32check_encode_panic by exact L. split; [exact L|reflexivity].
Qed.

Lemma b58_encode_exact {E} b :
  (b = [] \/ ~ Forall (eq x00) b ->
     exists s, @b58_encode E b = Ok s /\ numeral 58 bitcoin58 b s
               /\ (forall s', numeral 58 bitcoin58 b s' -> s' = s)
               /\ b58_decode s = Ok b)
  /\ (forall n, b = repeat x00 (S n) ->
     exists s, @b58_encode E b = Ok s /\ s = repeat x31 (S (S n))
               /\ b58_decode s = Ok (repeat x00 (S (S n)))).
Proof.
  split.
  - intros H. destruct (@b58_encode_numeral E b) as (s & E1 & N).
    { destruct H as [H|H]; [auto|right]. rewrite all_zero_value. exact H. }
    exists s. repeat split; auto; [|apply numeral58_decode, N].
    intros s' N'. eapply numeral58_unique; eassumption.
  - intros n ->. exists (repeat x31 (S (S n))). rewrite b58_encode_zeros by lia.
    rewrite b58_zeros_decode. auto.
Qed.

Lemma b58_decode_classify s cs : spells_text cs s ->
  (Forall (fun c => In c (map Byte.to_N bitcoin58)) cs -> exists b, b58_decode s = Ok b)
  /\ (forall p c t, cs = p ++ c :: t -> Forall (fun c => In c (map Byte.to_N bitcoin58)) p ->
        ~ In c (map Byte.to_N bitcoin58) ->
        (c < 256 -> b58_decode s = Err (B58BadChar c))
        /\ (256 <= c -> b58_decode s = Panic PIndex)).
Proof.
  intros D. apply utf8_decode_iff in D.
  assert (K : forall c, ok58 c <-> In c (map Byte.to_N bitcoin58)).
  { intros c. rewrite in_map_iff. split; intros (b & H1 & H2); exists b; auto. }
  split.
  - intros F. destruct (first_bad58 cs) as [G|(p & c & t & -> & G & B)].
    + assert (s = map n2b cs) as ->.
      { eapply utf8_decode_small; [exact D|]. eapply Forall_impl; [|exact G].
        intros c H. apply b58v_ok in H. tauto. }
      destruct (b58_decode_digits (map n2b cs)) as (b & E & _); [|eauto].
      unfold ok58s. apply Forall_map. eapply Forall_impl; [|exact G]. exact ok58_in.
    + exfalso. apply B, K. rewrite Forall_forall in F. apply F. apply in_app_iff. cbn. auto.
  - intros p c t -> F B.
    rewrite (b58_decode_bad s p c t D).
    + split; intros C; [destruct (N.ltb_spec c 256); [reflexivity|lia]|].
      destruct (N.ltb_spec c 256); [lia|reflexivity].
    + eapply Forall_impl; [|exact F]. intros x X. apply K, X.
    + rewrite K. exact B.
Qed.

Lemma base58check_decode_classify s buff : b58_decode s = Ok buff ->
  ((length buff < 4)%nat -> base58check_decode s = Panic POverflow)
  /\ (length buff = 4%nat -> base58check_decode s = Panic PIndex)
  /\ (forall v h sum, buff = v :: h ++ sum -> length sum = 4%nat ->
        (sum = addr_sum v h -> base58check_decode s = Ok (h, v))
        /\ (sum <> addr_sum v h ->
            base58check_decode s = Err (B58BadChecksum sum (sha256 (sha256 (v :: h)))))).
Proof.
  intros D. destruct (base58check_decode_cases s buff D) as [(L & P)|(v & h & sm & E & L & R)].
  - rewrite P. split; [|split].
    + intros L'. destruct (Nat.eqb_spec (length buff) 4); [lia|reflexivity].
    + intros ->. reflexivity.
    + intros v h sm -> L4. cbn in L. rewrite app_length in L. lia.
  - split; [|split].
    + intros L'. rewrite E in L'. cbn in L'. rewrite app_length in L'. lia.
    + intros L'. rewrite E in L'. cbn in L'. rewrite app_length in L'. lia.
    + intros v' h' sm' E' L'. rewrite E in E'. injection E' as -> E'.
      apply app_inj_len in E'; [|apply (f_equal (@length byte)) in E'; rewrite !app_length in E'; lia]. destruct E' as [-> ->].
      rewrite R. split; intros Q.
      * rewrite Q, bytes_eqb_refl. reflexivity.
      * destruct (bytes_eqb_spec sm' (addr_sum v' h')); [contradiction|reflexivity].
Qed.

(** For 20-byte payloads the all-zero exception cannot occur: the only candidate is computed. *)
Lemma base58check_20 h v : length h = 20%nat -> ~ Forall (eq x00) (v :: h ++ addr_sum v h).
Proof.
  intros L F. apply Forall_cons_iff in F. destruct F as [<- F].
  apply Forall_app in F. destruct F as [F1 F2].
  assert (h = repeat x00 20) as ->.
  { rewrite <- L. clear - F1. induction F1 as [|x h <- _ IH]; [reflexivity|]. cbn [length repeat]. congruence. }
  assert (X : forallb (byte_eqb x00) (addr_sum x00 (repeat x00 20)) = true).
  { apply forallb_forall. rewrite Forall_forall in F2. intros x Hx. rewrite <- (F2 x Hx).
    apply byte_eqb_refl. }
  vm_compute in X. discriminate.
Qed.

Lemma base58check_roundtrip {E} h v : ~ Forall (eq x00) (v :: h ++ addr_sum v h) ->
  exists s, @base58check_encode E h v = Ok s /\ base58check_text h v s /\ base58check_decode s = Ok (h, v).
Proof.
  intros NZ. destruct (@base58check_encode_text E h v NZ) as (s & E1 & T).
  exists s. repeat split; auto. apply base58check_decode_text, T.
Qed.

Lemma base58check_roundtrip_20 {E} h v : length h = 20%nat ->
  exists s, @base58check_encode E h v = Ok s /\ base58check_text h v s /\ base58check_decode s = Ok (h, v).
Proof. intros L. apply base58check_roundtrip, base58check_20, L. Qed.

Lemma c32check_bad_checksum ver v data h sum :
  c32_decode data = Ok (h ++ sum) -> length sum = 4%nat ->
  crockford_ok ver -> Byte.to_N v < 32 ->
  crockford_norm ver = nth (N.to_nat (Byte.to_N v)) crockford x00 ->
  sum <> addr_sum v h ->
  c32check_decode (ver :: data) = Err (C32BadChecksum (addr_sum v h) sum).
Proof.
  intros D L O Hv En NE.
  pose proof (crockford_norm_digit ver (b2n v) O Hv En) as Ed.
  pose proof (c32check_decode_sum_err ver data (h ++ sum) D) as X. cbv zeta in X.
  rewrite Ed, n2b_b2n in X.
  replace (length (h ++ sum) - 4)%nat with (length h) in X by (rewrite app_length; lia).
  rewrite firstn_app_exact, skipn_app_exact in X. apply X; auto.
  rewrite app_length. lia.
Qed.
