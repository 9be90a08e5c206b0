(** Facts about hashes, scripts and single steps of signing and verification. *)

From Coq Require Import Lia ZifyBool ZifyNat ZifyN.
From Verif Require Import Base BaseFacts SpecText NumFacts Sha2 Ripemd Hash HashFacts C32 Clarity SpecWire Tx SpecTx Signer
  WireFacts ClarityFacts TxThms SpecSign.
Local Open Scope N_scope.

Lemma scalar_be b : scalar b = be_val b.
Proof. symmetry. apply be_val_value. Qed.

Lemma order_eq : secp_n = group_order.
Proof. reflexivity. Qed.

(** ** The toy scheme *)

Lemma toy_correct : ecdsa_correct toy.
Proof.
  split.
  - intros sk [L _]. cbn. rewrite L. reflexivity.
  - intros m sk _ [L V]. cbn [sign_rec toy]. unfold compact_form. cbn [rs_id rs_bytes].
    rewrite <- L at 2. rewrite firstn_app_exact. rewrite <- L at 2. rewrite skipn_app_exact.
    rewrite !app_length, L. split; [lia|]. split; [reflexivity|]. split; [apply V|]. reflexivity.
  - intros m sk _ [L V]. cbn [sign_rec toy rs_bytes]. rewrite <- L at 1. rewrite firstn_app_exact. apply V.
  - intros m sk _ [L V]. cbn [sign_rec toy rs_bytes recover pubkey_of]. rewrite !app_length, L. cbn [length repeat Nat.add Nat.eqb].
    rewrite <- L at 1. rewrite firstn_app_exact. reflexivity.
  - intros m r pk. cbn [toy recover]. destruct (Nat.eqb_spec (length (rs_bytes r)) 64) as [L|]; [|discriminate].
    intros H. apply (f_equal (fun o => match o with Some p => length p | None => O end)) in H. rewrite <- H. cbn [length]. rewrite firstn_length, L. reflexivity.
Qed.

(** ** Signatures *)

Lemma octet_n2b n : octet n = n2b n.
Proof. reflexivity. Qed.

Lemma compact_iff bs : compact_ok bs = true <->
  length bs = 64%nat /\ scalar (firstn 32 bs) < group_order /\ scalar (skipn 32 bs) < group_order.
Proof.
  unfold compact_ok. rewrite !andb_true_iff, Nat.eqb_eq, !N.ltb_lt, !scalar_be, order_eq. tauto.
Qed.

Lemma from_recov_ok r : compact_form r -> msig_from_recov r = Ok (sig_bytes r).
Proof.
  intros (I & L & _). unfold msig_from_recov, msig_from_slice, sig_bytes.
  destruct (N.ltb_spec (rs_id r) 256); [|lia]. cbn [length]. rewrite L. reflexivity.
Qed.

Lemma into_recov_iff sig r : length sig = 65%nat ->
  (msig_into_recov sig = Ok r <-> compact_form r /\ sig = sig_bytes r).
Proof.
  intros L. destruct sig as [|b tl]; [discriminate|]. unfold msig_into_recov, sig_bytes, compact_form. cbn [index nth_error bind].
  assert (length tl = 64%nat) as Lt by (cbn in L; lia).
  unfold drop_slice. cbn [length Nat.leb skipn bind]. split.
  - destruct (N.ltb_spec (b2n b) 4) as [B|]; [|discriminate]. destruct (compact_ok tl) eqn:C; [|discriminate].
    intros H. okinv H. cbn [rs_id rs_bytes]. apply compact_iff in C. splits; try tauto; try lia.
    f_equal. change octet with n2b. rewrite n2b_b2n. reflexivity.
  - intros ((I & L6 & R & S) & H). inversion H as [[Hb Ht]]. subst tl. change octet with n2b. rewrite b2n_n2b_small by lia.
    destruct (N.ltb_spec (rs_id r) 4); [|lia]. rewrite (proj2 (compact_iff _)) by tauto. destruct r; reflexivity.
Qed.

Lemma into_recov_total sig : length sig = 65%nat ->
  (exists r, msig_into_recov sig = Ok r) \/ (exists e, msig_into_recov sig = Err e).
Proof.
  intros L. destruct sig as [|b tl]; [discriminate|]. unfold msig_into_recov, drop_slice. cbn [index nth_error bind length Nat.leb skipn].
  destruct (b2n b <? 4); [|eauto]. destruct (compact_ok tl); eauto.
Qed.

Lemma sig_bytes_length r : compact_form r -> length (sig_bytes r) = 65%nat.
Proof. intros (_ & L & _). unfold sig_bytes. cbn [length]. rewrite L. reflexivity. Qed.

Lemma sig_bytes_nonzero r : length (rs_bytes r) = 64%nat -> 0 < scalar (firstn 32 (rs_bytes r)) -> sig_bytes r <> repeat x00 65.
Proof.
  intros L P H. unfold sig_bytes in H. change (repeat x00 65) with (x00 :: repeat x00 64) in H. apply (f_equal (@tl byte)) in H. cbn [tl] in H.
  rewrite H in P. revert P. vm_compute. discriminate.
Qed.

Lemma sig_bytes_inj r r' : compact_form r -> compact_form r' -> sig_bytes r = sig_bytes r' -> r = r'.
Proof.
  intros (I & _) (I' & _) H. unfold sig_bytes in H. inversion H as [[X Y]]. change octet with n2b in X.
  apply n2b_inj in X; [|lia|lia]. destruct r, r'; cbn in *; congruence.
Qed.

(** ** One link *)

Lemma digest_eq h typ fee nonce : presign_hash h typ fee nonce = digest h typ fee nonce.
Proof. apply presign_text. Qed.
Lemma link_eq d sig : postsign_hash d sig = link d sig.
Proof. reflexivity. Qed.
Lemma digest_length h typ fee nonce : length (digest h typ fee nonce) = 32%nat.
Proof. apply sha512_256_length. Qed.
Lemma message_ok h : length h = 32%nat -> message_of h = Ok h.
Proof. intros L. unfold message_of. rewrite L. reflexivity. Qed.

Lemma next_signature_ok E h typ fee nonce sk : ecdsa_correct E -> valid_key sk ->
  let d := digest h typ fee nonce in
  next_signature E h typ fee nonce sk = Ok (sig_bytes (sign_rec E d sk), link d (sig_bytes (sign_rec E d sk))).
Proof.
  intros C V d. unfold next_signature. rewrite digest_eq. fold d.
  rewrite message_ok by apply digest_length. cbn [bind]. rewrite from_recov_ok; [reflexivity|].
  apply C; [apply digest_length | exact V].
Qed.

Lemma next_verify_iff E h typ fee nonce sig pk h' : length sig = 65%nat ->
  (next_verify E h typ fee nonce sig = Ok (pk, h') <->
   recovers E (digest h typ fee nonce) sig pk /\ h' = link (digest h typ fee nonce) sig).
Proof.
  intros L. unfold next_verify. rewrite digest_eq. split.
  - rewrite bind_ok. intros (r & R & H). apply into_recov_iff in R; [|exact L].
    rewrite message_ok in H by apply digest_length. cbn [bind] in H.
    destruct (recover E _ r) eqn:X; [|discriminate]. okinv H. apply pair_equal_spec in H. destruct H as [<- <-].
    split; [|reflexivity]. exists r. tauto.
  - intros [(r & F & S & R) ->]. rewrite (proj2 (into_recov_iff sig r L) (conj F S)). cbn [bind].
    rewrite message_ok by apply digest_length. cbn [bind]. rewrite R. reflexivity.
Qed.

Lemma next_verify_total E h typ fee nonce sig : length sig = 65%nat ->
  (exists x, next_verify E h typ fee nonce sig = Ok x) \/ (exists e, next_verify E h typ fee nonce sig = Err e).
Proof.
  intros L. unfold next_verify. rewrite digest_eq.
  destruct (into_recov_total sig L) as [[r ->]|[e ->]]; cbn [bind]; [|eauto].
  rewrite message_ok by apply digest_length. cbn [bind]. destruct (recover E _ r); eauto.
Qed.

Lemma recovers_fun E d sig pk pk' : recovers E d sig pk -> recovers E d sig pk' -> pk = pk'.
Proof.
  intros (r & F & S & R) (r' & F' & S' & R'). assert (r = r') as <- by (apply sig_bytes_inj; congruence). congruence.
Qed.

Lemma recovers_length E d sig pk : recovers E d sig pk -> length sig = 65%nat.
Proof. intros (r & F & -> & _). apply sig_bytes_length, F. Qed.

Lemma signed_recovers E d sk : ecdsa_correct E -> valid_key sk -> length d = 32%nat ->
  recovers E d (sig_bytes (sign_rec E d sk)) (pubkey_of E sk).
Proof. intros C V L. exists (sign_rec E d sk). splits; auto; apply C; auto. Qed.

(** ** Addresses *)

Lemma hash20_eq b : hash160 b = hash20 b.
Proof. reflexivity. Qed.
Lemma hash20_length b : length (hash20 b) = 20%nat.
Proof. apply hash160_length. Qed.

Lemma p2pkh_eq pk : key_address P2PKH pk = Some (hash_p2pkh pk).
Proof. reflexivity. Qed.
Lemma p2wpkh_eq pk : key_address P2WPKH pk = Some (hash_p2wpkh pk).
Proof.
  unfold key_address, hash_p2wpkh. cbn zeta. unfold lenN. rewrite hash160_length. reflexivity.
Qed.

Lemma u8_add80 {E} n : n < 256 ->
  @u8_add E (n2b n) (n2b 80) = if n <=? 175 then Ok (octet (80 + n)) else Panic POverflow.
Proof.
  intros B. unfold u8_add. rewrite b2n_n2b_small by exact B. change (b2n (n2b 80)) with 80.
  destruct (N.ltb_spec (n + 80) 256), (N.leb_spec n 175); try lia; [|reflexivity].
  change (@Ok E byte (n2b (n + 80)) = Ok (n2b (80 + n))). do 2 f_equal. lia.
Qed.

Lemma octet_mod n : octet (n mod 256) = octet n.
Proof. unfold octet. rewrite N.mod_mod by lia. reflexivity. Qed.

Lemma octet_add n k : octet (k + n mod 256) = octet (k + n).
Proof. rewrite <- (octet_mod (k + n mod 256)), N.add_mod_idemp_r, octet_mod by lia. reflexivity. Qed.

Lemma flat_concat {A B} (f : A -> list B) l : concat (map f l) = flat_map f l.
Proof. symmetry. apply flat_map_concat_map. Qed.

(** The script, or the overflow. *)
Lemma multisig_script_eq {E} m keys :
  @multisig_script E m keys =
    if (Byte.to_N m <=? 175) && (count keys mod 256 <=? 175) then Ok (script (Byte.to_N m) keys) else Panic POverflow.
Proof.
  unfold multisig_script. rewrite <- (n2b_b2n m) at 1. rewrite u8_add80 by apply b2n_lt. change b2n with Byte.to_N.
  destruct (Byte.to_N m <=? 175); [|reflexivity]. cbn [bind andb].
  rewrite <- n2b_mod, u8_add80 by (apply N.mod_lt; lia). change @lenN with @count.
  destruct (count keys mod 256 <=? 175); [|reflexivity]. cbn [bind]. unfold script. f_equal.
  rewrite octet_add, flat_concat. reflexivity.
Qed.

Lemma script_fits_b m keys : (m <=? 175) && (count keys mod 256 <=? 175) = true <-> script_fits m keys.
Proof. unfold script_fits. rewrite andb_true_iff, !N.leb_le. tauto. Qed.

Lemma p2sh_eq {E} m keys : script_fits (Byte.to_N m) keys ->
  keys_address P2SH (Byte.to_N m) keys = match @hash_p2sh E m keys with Ok a => Some a | _ => None end.
Proof. intros F. unfold hash_p2sh. rewrite multisig_script_eq, (proj2 (script_fits_b _ _) F). reflexivity. Qed.

Lemma p2wsh_eq {E} m keys : script_fits (Byte.to_N m) keys ->
  keys_address P2WSH (Byte.to_N m) keys = match @hash_p2wsh E m keys with Ok a => Some a | _ => None end.
Proof.
  intros F. unfold hash_p2wsh. rewrite multisig_script_eq, (proj2 (script_fits_b _ _) F). cbn [bind].
  unfold lenN. rewrite sha256_length. reflexivity.
Qed.

Definition multi_hash {E} (mode : hmode) (m : byte) (keys : list bytes) : res E bytes :=
  match mode with P2SH => hash_p2sh m keys | P2WSH => hash_p2wsh m keys | _ => Panic PExplicit end.

Lemma multi_hash_iff {E} mode m keys a : @multi_hash E mode m keys = Ok a <->
  script_fits (Byte.to_N m) keys /\ keys_address mode (Byte.to_N m) keys = Some a.
Proof.
  unfold multi_hash. destruct mode; cbn [keys_address].
  - split; [discriminate | intros [_ H]; discriminate].
  - change (Some (hash20 (script (Byte.to_N m) keys))) with (keys_address P2SH (Byte.to_N m) keys). split.
    + intros H. assert (script_fits (Byte.to_N m) keys) as F.
      { apply script_fits_b. revert H. unfold hash_p2sh. rewrite multisig_script_eq. destruct (_ && _); [reflexivity | discriminate]. }
      split; [exact F|]. rewrite (@p2sh_eq E _ _ F), H. reflexivity.
    + intros [F H]. rewrite (@p2sh_eq E _ _ F) in H. destruct (hash_p2sh m keys); inversion H; reflexivity.
  - split; [discriminate | intros [_ H]; discriminate].
  - change (Some (hash20 (witness_program (script (Byte.to_N m) keys)))) with (keys_address P2WSH (Byte.to_N m) keys). split.
    + intros H. assert (script_fits (Byte.to_N m) keys) as F.
      { apply script_fits_b. revert H. unfold hash_p2wsh. rewrite multisig_script_eq. destruct (_ && _); [reflexivity | discriminate]. }
      split; [exact F|]. rewrite (@p2wsh_eq E _ _ F), H. reflexivity.
    + intros [F H]. rewrite (@p2wsh_eq E _ _ F) in H. destruct (hash_p2wsh m keys); inversion H; reflexivity.
Qed.

Lemma multi_hash_cases {E} mode m keys : mode = P2SH \/ mode = P2WSH ->
  (script_fits (Byte.to_N m) keys /\ exists a, @multi_hash E mode m keys = Ok a)
  \/ (~ script_fits (Byte.to_N m) keys /\ @multi_hash E mode m keys = Panic POverflow).
Proof.
  intros M. rewrite <- script_fits_b. unfold multi_hash, hash_p2sh, hash_p2wsh.
  destruct M as [-> | ->]; rewrite multisig_script_eq; destruct (_ && _); cbn [bind]; [left|right|left|right]; split; eauto; discriminate.
Qed.

(** ** Unambiguous scripts *)

Lemma flat_keys_inj l l' t t' : Forall (fun k => length k = 33%nat) l -> Forall (fun k => length k = 33%nat) l' ->
  length l = length l' ->
  flat_map (fun k : bytes => octet (count k) :: k) l ++ t = flat_map (fun k => octet (count k) :: k) l' ++ t' -> l = l' /\ t = t'.
Proof.
  revert l'. induction l as [|k l IH]; intros [|k' l'] F F' L H; try discriminate; [auto|].
  inversion F; inversion F'; subst. cbn [flat_map] in H. rewrite <- !app_assoc, <- !app_comm_cons in H. assert (H' := f_equal (@tl byte) H). cbn [tl] in H'.
  apply app_inj_len in H'; [|congruence]. destruct H' as [-> H']. apply IH in H'; auto. destruct H' as [-> ->]. auto.
Qed.

Lemma flat_keys_length l : Forall (fun k => length k = 33%nat) l ->
  length (flat_map (fun k : bytes => octet (count k) :: k) l) = (34 * length l)%nat.
Proof.
  induction 1 as [|k l K F IH]; [reflexivity|]. cbn [flat_map]. rewrite app_length. cbn [length]. rewrite K, IH. lia.
Qed.

Lemma script_inj m m' l l' : Forall (fun k => length k = 33%nat) l -> Forall (fun k => length k = 33%nat) l' ->
  m <= 175 -> m' <= 175 -> script m l = script m' l' -> m = m' /\ l = l'.
Proof.
  intros F F' B B' H. unfold script in H. assert (X := f_equal (hd x00) H). assert (Y := f_equal (@tl byte) H).
  cbn [hd tl] in X, Y. clear H. split.
  - change octet with n2b in X. apply n2b_inj in X; [lia | clear -B; lia | clear -B'; lia].
  - apply flat_keys_inj in Y; auto; [apply Y|]. apply (f_equal (@length byte)) in Y.
    rewrite !app_length, !flat_keys_length in Y by assumption. cbn [length] in Y. lia.
Qed.

Lemma bytes_dec (a b : bytes) : a = b \/ a <> b.
Proof. destruct (bytes_eqb_spec a b); auto. Qed.

Lemma keys_address_inj mode m m' l l' a : Forall (fun k => length k = 33%nat) l -> Forall (fun k => length k = 33%nat) l' ->
  m <= 175 -> m' <= 175 -> keys_address mode m l = Some a -> keys_address mode m' l' = Some a ->
  (m = m' /\ l = l') \/ script_clash mode (script m l) (script m' l').
Proof.
  intros F F' B B' A A'. destruct (bytes_dec (script m l) (script m' l')) as [S|N].
  - left. apply script_inj in S; auto.
  - right. destruct mode; cbn in A, A'; try discriminate; cbn [script_clash].
    + split; congruence.
    + destruct (bytes_dec (sha256 (script m l)) (sha256 (script m' l'))) as [W|W].
      * right. split; assumption.
      * left. split; [|congruence]. unfold witness_program. congruence.
Qed.

Lemma key_address_inj mode k k' a : key_address mode k = Some a -> key_address mode k' = Some a -> k = k' \/ key_clash mode k k'.
Proof.
  intros A A'. destruct (bytes_dec k k') as [S|N]; [auto|right].
  destruct mode; cbn in A, A'; try discriminate; cbn [key_clash].
  - split; congruence.
  - destruct (bytes_dec (hash20 k) (hash20 k')) as [W|W].
    + right. split; assumption.
    + left. split; [|congruence]. congruence.
Qed.
