(** Proofs about SpecStop: which calls abort. *)

From Coq Require Import Lia.
From Verif Require Import Base BaseFacts Utf8 Sha2 SpecText SpecUtf8 SpecAddr SpecWire Hex Hash C32 B58 Clarity SpecTx Tx SpecSign SpecFault Signer
  Builder Wallet Rpc Derive Expand Calls SpecStop.
From Verif Require Import Utf8Thms HexFacts NumFacts C32Facts AddrFacts B58Facts B58CheckFacts TextThms Utf8Facts WireFacts ClarityFacts ClarityThms
  ClarityTotal ClarityShort HashFacts SignFacts SignThms TxFacts TxThms TxTotal PayloadFacts TxWire FaultThms FaultDecThms HistThms
  AuthThms ClientThms.
From Verif Require PropsRefuse.
Local Open Scope N_scope.

Lemma end_settled {E A} (r : res E A) : settled r -> end_of r = Returns.
Proof. intros [[a ->]|[e ->]]; reflexivity. Qed.
Lemma end_stops {E A} (r : res E A) p : end_of r = Stops p <-> r = Panic p.
Proof. destruct r; cbn [end_of]; split; intros X; try discriminate; congruence. Qed.
Lemma end_hangs {E A} (r : res E A) : end_of r = Hangs <-> r = NoFuel.
Proof. destruct r; cbn [end_of]; split; intros X; try discriminate; reflexivity. Qed.

(** ** Values *)

Lemma items_panics n b p : items n b = Panic p -> p = PIndex.
Proof. apply pidx_items. intros; apply pidx_fuel. Qed.
Lemma items_no_fuel n b : items n b <> NoFuel.
Proof. apply dec_items_nofuel; [exact (fun b c => proj1 (decode_iff b c))|intros x _; apply decode_nofuel|lia]. Qed.

Lemma cut_iff b p : decode_clarity_type b = Panic p <-> p = PIndex /\ cut b.
Proof. rewrite decode_short_iff. unfold cut. tauto. Qed.

Lemma fnargs_at n r : n < 2 ^ 32 ->
  dec_fnargs decode_clarity_type (big_endian 4 n ++ r) = let* vs := items n r in Ok (CFnArgs vs).
Proof.
  intros N. unfold dec_fnargs.
  rewrite (proj2 (sub_slice_ok 0 4 _ (big_endian 4 n))) by (exists [], r; auto using big_endian_length). cbn [bind].
  rewrite (proj2 (drop_slice_ok 4 _ r)) by (exists (big_endian 4 n); auto using big_endian_length). cbn [bind].
  rewrite big_endian_be. rewrite (be_val_be_bytes_small 4 n N). reflexivity.
Qed.

Lemma list_cut (b : bytes) : (length b < 4)%nat -> decode_clarity_type (x0b :: b) = Panic PIndex.
Proof. intros L. destruct b as [|? [|? [|? [|? ?]]]]; [reflexivity..|cbn [length] in L; lia]. Qed.

Lemma fnargs_panic b p : dec_fnargs decode_clarity_type b = Panic p <-> decode_clarity_type (x0b :: b) = Panic p.
Proof.
  destruct (Nat.leb_spec 4 (length b)) as [L|L].
  - destruct (count_split b L) as (n & r & -> & N). rewrite fnargs_at, decode_list_at by assumption.
    destruct (items n r); cbn [bind]; split; intros X; try discriminate; congruence.
  - rewrite list_cut by assumption. unfold dec_fnargs, sub_slice. destruct (Nat.leb_spec (0 + 4) (length b)); [lia|]. reflexivity.
Qed.
Lemma fnargs_nofuel b : dec_fnargs decode_clarity_type b <> NoFuel.
Proof.
  destruct (Nat.leb_spec 4 (length b)) as [L|L].
  - destruct (count_split b L) as (n & r & -> & N). rewrite fnargs_at by assumption. pose proof (items_no_fuel n r).
    destruct (items n r); cbn [bind]; congruence.
  - unfold dec_fnargs, sub_slice. destruct (Nat.leb_spec (0 + 4) (length b)); [lia|]. discriminate.
Qed.

Lemma utf8_as b r : decode_as TUtf8 (b :: r) = decode_clarity_type (x0e :: r).
Proof.
  change (decode_clarity_type (x0e :: r)) with (dec_utf8 (x0e :: r)). cbn [decode_as]. unfold dec_utf8.
  replace (read_len32 (b :: r)) with (read_len32 (x0e :: r)) by reflexivity.
  replace (@drop_slice cl_err 5 (b :: r)) with (@drop_slice cl_err 5 (x0e :: r)) by reflexivity. reflexivity.
Qed.

Lemma lps_panic b p : dec_lps b = Panic p <-> p = PIndex /\ (b = [] \/ exists n r, b = n :: r /\ count r < Byte.to_N n).
Proof.
  destruct b as [|n r]; [cbn; split; [intros X; split; [congruence|auto]|intros [-> _]; reflexivity]|].
  unfold dec_lps, index. cbn [nth_error bind]. rewrite drop1. cbn [bind]. rewrite take_slice_spec.
  change (b2n n) with (Byte.to_N n). change (lenN r) with (count r). destruct (N.leb_spec (Byte.to_N n) (count r)) as [L|L]; cbn [bind].
  - split.
    + unfold from_utf8. destruct (utf8_valid _); discriminate.
    + intros [_ [X|(m & s & X & Y)]]; [discriminate|]. injection X as -> ->. lia.
  - split; [intros X; split; [congruence|eauto 6]|intros [-> _]; reflexivity].
Qed.
Lemma lps_nofuel b : dec_lps b <> NoFuel.
Proof.
  destruct b as [|n r]; [discriminate|]. unfold dec_lps, index. cbn [nth_error bind]. rewrite drop1. cbn [bind]. rewrite take_slice_spec.
  destruct (_ <=? _); cbn [bind]; [|discriminate]. unfold from_utf8. destruct (utf8_valid _); discriminate.
Qed.

(** A type with an identifier that comes first. *)
Lemma tagged_id t tag : In (t, tag) tagged -> tag = ty_id t /\ In t (map fst tagged).
Proof.
  intros I. split; [|apply (in_map fst) in I; exact I].
  unfold tagged in I; cbn [In] in I; repeat destruct I as [[= <- <-]|I]; [reflexivity..|destruct I].
Qed.
Lemma tagged_in t : In t (map fst tagged) -> In (t, ty_id t) tagged.
Proof. unfold tagged. cbn [map fst In]. intros I. repeat destruct I as [<-|I]; cbn; tauto. Qed.
Lemma tagged_empty t : In t (map fst tagged) -> decode_as t [] = Panic PIndex.
Proof. unfold tagged. cbn [map fst In]. intros I. repeat destruct I as [<-|I]; [reflexivity..|destruct I]. Qed.
Lemma tagged_other t b r : In t (map fst tagged) -> b <> ty_id t -> decode_as t (b :: r) = Err (ClBadIdentifier (ty_id t) b).
Proof. intros I N. apply (typed_refused t (ty_id t) b r _ (tagged_in t I)). auto. Qed.
Lemma tagged_self t r : In t (map fst tagged) -> decode_as t (ty_id t :: r) = decode_clarity_type (ty_id t :: r).
Proof. intros I. apply decode_as_eq. unfold tagged in I. cbn [map fst In] in *. tauto. Qed.

Lemma types t : In t (map fst tagged) \/ t = TUtf8 \/ t = TLps \/ t = TFnArgs.
Proof. destruct t; unfold tagged; cbn; tauto. Qed.

Lemma cut_as_iff t b p : decode_as t b = Panic p <-> p = PIndex /\ cut_as t b.
Proof.
  destruct (types t) as [I|[->|[->| ->]]].
  - destruct b as [|x r].
    { rewrite tagged_empty by assumption. split; [intros X; split; [congruence|constructor]|intros [-> _]; reflexivity]. }
    destruct (byte_eqb_spec x (ty_id t)) as [->|N].
    + rewrite tagged_self, cut_iff by assumption. split; intros [-> C]; (split; [reflexivity|]).
      * apply cut_tagged; [apply tagged_in, I|exact C].
      * inversion C as [|t' tag' r' T K|x' r' K|n r' K|b' K]; subst; try exact K;
          exfalso; revert I; unfold tagged; cbn; intuition discriminate.
    + rewrite tagged_other by assumption. split; [discriminate|]. intros [_ C].
      inversion C as [|t' tag' r' T K|x' r' K|n r' K|b' K]; subst;
        try (exfalso; revert I; unfold tagged; cbn; intuition discriminate).
      apply tagged_id in T. destruct T as [T _]. contradiction.
  - destruct b as [|x r]; [cbn; split; [intros X; split; [congruence|constructor]|intros [-> _]; reflexivity]|].
    rewrite utf8_as, cut_iff. split; intros [-> C]; (split; [reflexivity|]); [apply cut_utf8, C|].
    inversion C as [|t' tag' r' T K|x' r' K|n r' K|b' K]; subst; [|exact K].
    exfalso. apply tagged_id in T. destruct T as [_ T]. revert T. unfold tagged. cbn. intuition discriminate.
  - cbn [decode_as]. rewrite lps_panic. split; intros [-> C]; (split; [reflexivity|]).
    + destruct C as [->|(n & r & -> & C)]; [apply cut_empty|apply cut_name, C].
    + inversion C as [|t' tag' r' T K|x' r' K|n r' K|b' K]; subst; eauto 6.
      exfalso. apply tagged_id in T. destruct T as [_ T]. revert T. unfold tagged. cbn. intuition discriminate.
  - cbn [decode_as]. rewrite fnargs_panic, cut_iff. split; intros [-> C]; (split; [reflexivity|]); [apply cut_args, C|].
    inversion C as [|t' tag' r' T K|x' r' K|n r' K|b' K]; subst; [| |exact K].
    + apply (cut_iff _ PIndex). reflexivity.
    + exfalso. apply tagged_id in T. destruct T as [_ T]. revert T. unfold tagged. cbn. intuition discriminate.
Qed.

Lemma decode_as_nofuel t b : decode_as t b <> NoFuel.
Proof.
  destruct (types t) as [I|[->|[->| ->]]].
  - destruct b as [|x r]; [rewrite tagged_empty by assumption; discriminate|].
    destruct (byte_eqb_spec x (ty_id t)) as [->|N]; [rewrite tagged_self by assumption; apply decode_nofuel|].
    rewrite tagged_other by assumption. discriminate.
  - destruct b as [|x r]; [discriminate|]. rewrite utf8_as. apply decode_nofuel.
  - apply lps_nofuel.
  - apply fnargs_nofuel.
Qed.

(** ** Payloads *)

Lemma cut_payload_iff b p : dec_payload b = Panic p <-> p = PIndex /\ cut_payload b.
Proof. rewrite payload_short_iff. unfold cut_payload. tauto. Qed.

Lemma transfer_other x r : x <> x00 -> exists e, dec_transfer (x :: r) = Err e.
Proof.
  intros N. unfold dec_transfer. change (@index cl_err 0 (x :: r)) with (@Ok cl_err byte x). cbn [bind].
  destruct (byte_eqb_spec x x00) as [->|_]; [contradiction|]. cbn [negb]. eauto.
Qed.
Lemma call_other x r : x <> x02 -> exists e, dec_call (x :: r) = Err e.
Proof.
  intros N. unfold dec_call. change (@index cl_err 0 (x :: r)) with (@Ok cl_err byte x). cbn [bind].
  destruct (byte_eqb_spec x x02) as [->|_]; [contradiction|]. cbn [negb]. eauto.
Qed.

Lemma transfer_panic b p : dec_transfer b = Panic p <-> p = PIndex /\ (b = [] \/ exists r, b = x00 :: r) /\ cut_payload b.
Proof.
  destruct b as [|x r].
  - change (dec_transfer []) with (dec_payload []). rewrite cut_payload_iff. tauto.
  - destruct (byte_eqb_spec x x00) as [->|N].
    + change (dec_transfer (x00 :: r)) with (dec_payload (x00 :: r)). rewrite cut_payload_iff. split; [intros [-> C]; eauto 6|tauto].
    + destruct (transfer_other x r N) as [e ->]. split; [discriminate|]. intros (_ & [X|[s X]] & _); [discriminate|]. congruence.
Qed.
Lemma call_panic b p : dec_call b = Panic p <-> p = PIndex /\ (b = [] \/ exists r, b = x02 :: r) /\ cut_payload b.
Proof.
  destruct b as [|x r].
  - change (dec_call []) with (dec_payload []). rewrite cut_payload_iff. tauto.
  - destruct (byte_eqb_spec x x02) as [->|N].
    + change (dec_call (x02 :: r)) with (dec_payload (x02 :: r)). rewrite cut_payload_iff. split; [intros [-> C]; eauto 6|tauto].
    + destruct (call_other x r N) as [e ->]. split; [discriminate|]. intros (_ & [X|[s X]] & _); [discriminate|]. congruence.
Qed.
Lemma transfer_nofuel b : dec_transfer b <> NoFuel.
Proof.
  destruct b as [|x r]; [discriminate|]. destruct (byte_eqb_spec x x00) as [->|N].
  - change (dec_transfer (x00 :: r)) with (dec_payload (x00 :: r)). apply payload_dec_nofuel.
  - destruct (transfer_other x r N) as [e ->]. discriminate.
Qed.
Lemma call_nofuel b : dec_call b <> NoFuel.
Proof.
  destruct b as [|x r]; [discriminate|]. destruct (byte_eqb_spec x x02) as [->|N].
  - change (dec_call (x02 :: r)) with (dec_payload (x02 :: r)). apply payload_dec_nofuel.
  - destruct (call_other x r N) as [e ->]. discriminate.
Qed.

(** ** Texts *)

Lemma big_not_58 c : 256 <= c -> ~ In c (map Byte.to_N bitcoin58).
Proof. intros L I. apply in_map_iff in I. destruct I as (b & <- & _). pose proof (b2n_lt b). change b2n with Byte.to_N in *. lia. Qed.

Lemma b58_ends s : utf8 s -> (b58_decode s = Panic PIndex /\ exotic s) \/ (settled (b58_decode s) /\ ~ exotic s).
Proof.
  intros [cs S]. destruct (b58_decode_classify s cs S) as [G B].
  assert (K : forall c, ok58 c <-> In c (map Byte.to_N bitcoin58)).
  { intros c. rewrite in_map_iff. split; intros (b & H1 & H2); exists b; auto. }
  assert (X : forall p c t, spells_text (p ++ c :: t) s -> cs = p ++ c :: t).
  { intros p c t D. apply utf8_decode_iff in D. apply utf8_decode_iff in S. congruence. }
  destruct (first_bad58 cs) as [F|(p & c & t & -> & F & Nc)].
  - right. destruct G as [b G]; [eapply Forall_impl; [|exact F]; intros c; apply K|]. split; [left; eauto|].
    intros (p & c & t & D & Fp & L). apply X in D. subst cs. rewrite Forall_forall in F.
    apply (big_not_58 c L), K, F. apply in_app_iff. cbn. auto.
  - assert (Fp : Forall (fun c => In c (map Byte.to_N bitcoin58)) p) by (eapply Forall_impl; [|exact F]; intros x; apply K).
    assert (Nc' : ~ In c (map Byte.to_N bitcoin58)) by (rewrite <- K; exact Nc).
    destruct (B p c t eq_refl Fp Nc') as [B1 B2]. destruct (N.lt_ge_cases c 256) as [L|L].
    + right. split; [right; eauto|]. intros (p' & c' & t' & D & Fp' & L'). apply X in D.
      assert (N' := big_not_58 c' L'). clear - D Fp Fp' Nc' N' L L'. revert p' D Fp'.
      induction p as [|x p IH]; intros [|y p'] D Fp'; cbn [app] in D; injection D as D1 D2; subst.
      * lia.
      * apply Nc'. inversion Fp'; assumption.
      * apply N'. inversion Fp; assumption.
      * inversion Fp; inversion Fp'; subst. eapply IH; eauto.
    + left. split; [auto|]. exists p, c, t. splits; auto.
Qed.

Lemma b58check_ends s : utf8 s ->
  (base58check_decode s = Panic PIndex /\ exotic s)
  \/ (exists b, numeral 58 bitcoin58 b s /\ ~ exotic s
       /\ ((length b < 4)%nat /\ base58check_decode s = Panic POverflow
           \/ length b = 4%nat /\ base58check_decode s = Panic PIndex
           \/ (4 < length b)%nat /\ settled (base58check_decode s)))
  \/ (settled (base58check_decode s) /\ ~ exotic s /\ forall b, ~ numeral 58 bitcoin58 b s).
Proof.
  intros U. destruct (b58_ends s U) as [[X Y]|[[[b X]|[e X]] Y]].
  - left. split; [|exact Y]. unfold base58check_decode. rewrite X. reflexivity.
  - right; left. exists b. split; [apply b58_decode_ok_iff; assumption|]. split; [exact Y|].
    destruct (base58check_decode_cases s b X) as [[L Z]|(v & h & sum & -> & L & Z)].
    + destruct (Nat.eqb_spec (length b) 4); [right; left; auto|left; split; [lia|exact Z]].
    + right; right. split; [cbn [length]; rewrite app_length; lia|]. rewrite Z. destruct (bytes_eqb _ _); auto.
  - right; right. splits; [right; unfold base58check_decode; rewrite X; exists e; reflexivity|exact Y|].
    intros b N. apply (b58_decode_ok_iff s b U) in N. congruence.
Qed.

Lemma b58_encode_settled {E} b : settled (@b58_encode E b).
Proof.
  destruct (@b58_encode_exact E b) as [A B]. destruct b as [|x b]; [destruct A as (s & A & _); [auto|left; eauto]|].
  destruct (Forall_dec (eq x00) (fun y => Byte.byte_eq_dec x00 y) (x :: b)) as [F|F].
  - destruct (B (length b)) as (s & Z & _); [|left; eauto]. clear - F. change (S (length b)) with (length (x :: b)). revert F.
    generalize (x :: b). intros l. induction 1 as [|y l <- F IH]; [reflexivity|]. cbn [length repeat]. congruence.
  - destruct A as (s & A & _); [auto|left; eauto].
Qed.

Lemma numeral58_fun s b b' : numeral 58 bitcoin58 b s -> numeral 58 bitcoin58 b' s -> utf8 s -> b = b'.
Proof. intros A B U. apply (b58_decode_ok_iff s _ U) in A, B. congruence. Qed.

Lemma hex_settled s : settled (hex_to_bytes s).
Proof.
  unfold hex_to_bytes. destruct (0 <? lenN s mod 2); [auto|]. remember (length s) as n. assert (L : (length s <= n)%nat) by lia. clear Heqn.
  revert s L. induction n as [n IH] using (well_founded_induction Wf_nat.lt_wf). intros s L.
  destruct s as [|a [|b s]]; cbn [hex_loop]; auto; destruct (hex_digit a); auto. destruct (hex_digit b); auto.
  apply settled_bind; [|auto]. cbn [length] in L. apply (IH (length s)); lia.
Qed.

(** ** Verification *)

Lemma chain_zero E typ fee nonce h fs ks h' : chain E typ fee nonce h fs ks 0 h' -> h' = h.
Proof.
  intros C. remember 0 as z eqn:Z. revert Z. induction C as [|h pk fs ks n h' C IH|h sig pk fs ks n h' R C IH]; intros Z;
    [reflexivity|auto|]. lia.
Qed.

Lemma fields_panic E typ fee nonce fs : Forall typed_field fs -> forall h keys cnt p, cnt < 256 ->
  (verify_fields E fs h typ fee nonce keys cnt = Panic p <->
   p = POverflow /\ exists f r ks h', fs = f ++ r /\ chain E typ fee nonce h f ks (256 - cnt) h').
Proof.
  induction 1 as [|f fs T F IH]; intros h keys cnt p B; cbn [verify_fields].
  - split; [discriminate|]. intros (_ & f & r & ks & h' & X & C). symmetry in X. apply app_eq_nil in X. destruct X as [-> ->].
    apply chain_counts in C. destruct C as [_ C]. change (count (filter is_sig [])) with 0 in C. lia.
  - destruct f as [pk|sig].
    + rewrite IH by assumption. split; intros (-> & f & r & ks & h' & X & C); (split; [reflexivity|]).
      * subst fs. exists (FPk pk :: f), r, (pk :: ks), h'. split; [reflexivity|]. constructor. exact C.
      * destruct f as [|g f]; [apply chain_counts in C; destruct C as [_ C]; change (count (filter is_sig [])) with 0 in C; lia|]. cbn [app] in X. injection X as <- ->. inversion C; subst. eexists f, r, _, _. split; [reflexivity|eassumption].
    + destruct (next_verify_total E h typ fee nonce sig T) as [[[pk nx] V]|[e V]]; rewrite V; cbn [map_err bind].
      * apply next_verify_iff in V; [|exact T]. destruct V as [R ->].
        destruct (N.ltb_spec (cnt + 1) 256) as [L|L].
        -- rewrite IH by assumption. split; intros (-> & f & r & ks & h' & X & C); (split; [reflexivity|]).
           ++ subst fs. exists (FSig sig :: f), r, (pk :: ks), h'. split; [reflexivity|].
              replace (256 - cnt) with (1 + (256 - (cnt + 1))) by lia. econstructor; eassumption.
           ++ destruct f as [|g f]; [apply chain_counts in C; destruct C as [_ C]; change (count (filter is_sig [])) with 0 in C; lia|]. cbn [app] in X. injection X as <- ->. remember (256 - cnt) as k eqn:K.
              inversion C as [| |h0 sg pk' fs' ks' n h1 R' C']; subst fs' h0 sg h1. exists f, r. replace (256 - (cnt + 1)) with n by lia. eauto.
        -- split; [|intros [-> _]; reflexivity]. intros [= <-]. split; [reflexivity|]. exists [FSig sig], fs, [pk].
           eexists. split; [reflexivity|]. replace (256 - cnt) with (1 + 0) by lia. econstructor; [exact R|constructor].
      * split; [discriminate|]. intros (-> & f & r & ks & h' & X & C).
        destruct f as [|g f]; [apply chain_counts in C; destruct C as [_ C]; change (count (filter is_sig [])) with 0 in C; lia|]. cbn [app] in X. injection X as <- ->. inversion C as [| |h0 sg pk fs' ks' n h1 R C']; subst.
        assert (Y : next_verify E h typ fee nonce sig = Ok (pk, link (digest h typ fee nonce) sig)) by (apply next_verify_iff; auto). congruence.
Qed.

Lemma chain_fun E typ fee nonce h fs ks n h' : chain E typ fee nonce h fs ks n h' -> forall ks' n' h'', chain E typ fee nonce h fs ks' n' h'' ->
  ks' = ks /\ n' = n /\ h'' = h'.
Proof.
  induction 1 as [|h pk fs ks n h' C IH|h sig pk fs ks n h' R C IH]; intros ks2 n2 h2 D; inversion D; subst; [auto| |].
  - destruct (IH _ _ _ ltac:(eassumption)) as (-> & -> & ->). auto.
  - match goal with X : recovers _ _ sig ?k |- _ => assert (k = pk) as -> by (eapply recovers_fun; eassumption) end.
    destruct (IH _ _ _ ltac:(eassumption)) as (-> & -> & ->). auto.
Qed.

Lemma verify_panic E c h typ p : sound_cond c -> (verify_scond E c h typ = Panic p <-> p = POverflow /\ verify_stops E typ h c).
Proof.
  intros [T M]. destruct c as [s|m]; cbn [verify_scond typed mode_fits] in *.
  - split.
    + unfold verify_std. destruct (next_verify_total E h typ (std_fee s) (std_nonce s) (std_sig s) T) as [[[pk nx] ->]|[e ->]];
        cbn [map_err bind]; [|discriminate]. destruct M as [-> | ->]; cbn [bind]; destruct (bytes_eqb _ _); discriminate.
    + intros [_ S]. inversion S.
  - unfold verify_multi. pose proof (fields_panic E typ (ms_fee m) (ms_nonce m) (ms_fields m) T h [] 0) as P.
    pose proof (verify_fields_iff E typ (ms_fee m) (ms_nonce m) (ms_fields m) T h [] 0) as V.
    destruct (verify_fields E (ms_fields m) h typ (ms_fee m) (ms_nonce m) [] 0) as [[[ks h'] n]|e|q|] eqn:X; cbn [bind].
    + destruct (proj1 (V ks h' n eq_refl) eq_refl) as (ks0 & n0 & C & -> & -> & B). cbn [app] in *. rewrite N.add_0_l in *.
      assert (NP : ~ exists f r ks h', ms_fields m = f ++ r /\ chain E typ (ms_fee m) (ms_nonce m) h f ks 256 h').
      { intros Y. assert (Z := proj2 (P POverflow eq_refl) (conj eq_refl Y)). discriminate. }
      change b2n with Byte.to_N. destruct (N.ltb_spec n0 (Byte.to_N (ms_required m))) as [L|L].
      * split; [discriminate|]. intros [_ S]. inversion S; subst; [destruct NP; eauto 6|].
        match goal with D : chain _ _ _ _ _ (ms_fields m) _ _ _ |- _ => destruct (chain_fun _ _ _ _ _ _ _ _ _ C _ _ _ D) as (-> & -> & ->) end. lia.
      * change (match ms_mode m with P2SH => hash_p2sh (ms_required m) ks0 | P2WSH => hash_p2wsh (ms_required m) ks0 | _ => Panic PExplicit end)
          with (@multi_hash tx_err (ms_mode m) (ms_required m) ks0).
        destruct (@multi_hash_cases tx_err (ms_mode m) (ms_required m) ks0 M) as [(F & a & ->)|(F & ->)]; cbn [bind].
        -- split; [destruct (bytes_eqb _ _); discriminate|]. intros [_ S]. inversion S; subst; [destruct NP; eauto 6|].
           match goal with D : chain _ _ _ _ _ (ms_fields m) _ _ _ |- _ => destruct (chain_fun _ _ _ _ _ _ _ _ _ C _ _ _ D) as (-> & -> & ->) end.
           contradiction.
        -- split; [intros [= <-]; split; [reflexivity|eapply vs_script; eassumption]|intros [-> _]; reflexivity].
    + split; [discriminate|]. intros [_ S]. inversion S as [m' fs rest ks h' Y C|m' ks n h' C B R F]; subst.
      * assert (Z := proj2 (P POverflow eq_refl) (conj eq_refl (ex_intro _ fs (ex_intro _ rest (ex_intro _ ks (ex_intro _ h' (conj Y C))))))). discriminate.
      * assert (Z : @Err tx_err _ e = Ok (ks, h', n)) by (apply V; [reflexivity|]; exists ks, n; splits; auto). discriminate.
    + destruct (proj1 (P q eq_refl) eq_refl) as (-> & f & r & ks & h' & Y & C). split; [|intros [-> _]; reflexivity].
      intros [= <-]. split; [reflexivity|]. eapply vs_count; eassumption.
    + exfalso. destruct (verify_fields_total E typ (ms_fee m) (ms_nonce m) _ T h [] 0) as [(ks & h' & n & Y & _)|[[e Y]|[Y _]]]; congruence.
Qed.

Lemma verify_nofuel E c h typ : sound_cond c -> verify_scond E c h typ <> NoFuel.
Proof. intros [T M] X. destruct (verify_no_panic E c h typ T M) as [[? Y]|[[? Y]|[Y _]]]; congruence. Qed.

(** ** Signing *)

Lemma sign_append_settled E c h typ sk : mode_fits c -> settled (snd (sign_and_append E c h typ sk)).
Proof.
  intros M. destruct (sign_append_cases E c h typ sk M) as [(sig & h' & _ & _ & ->)|[e ->]]; cbn [snd]; auto.
Qed.

Lemma origin_sound t : sound_auth (tx_auth t) -> sound_cond (auth_origin (tx_auth t)).
Proof. destruct (tx_auth t); cbn; tauto. Qed.

Lemma sign_origin_ends E s sk : sound_auth (tx_auth (sg_tx s)) ->
  (snd (sign_origin E s sk) = Panic POverflow /\ ~ frozen s /\ sg_oversign s = true /\ full (origin_of (sg_tx s)))
  \/ (settled (snd (sign_origin E s sk)) /\ ~ (~ frozen s /\ sg_oversign s = true /\ full (origin_of (sg_tx s)))).
Proof.
  intros S. assert (O : auth_origin (tx_auth (sg_tx s)) = origin_of (sg_tx s)) by (symmetry; apply origin_eq).
  pose proof (origin_sound _ S) as [T M]. rewrite O in *. unfold sign_origin, frozen, full. rewrite O.
  destruct (sg_overlap s && sg_origin_signed s) eqn:F.
  { right. cbn [snd]. split; [auto|]. apply andb_prop in F. tauto. }
  assert (F' : ~ (sg_overlap s = true /\ sg_origin_signed s = true)) by (intros [A B]; rewrite A, B in F; discriminate).
  assert (K : settled (snd (sign_next_origin E (sg_tx s) (sg_hash s) sk))).
  { unfold sign_next_origin. rewrite O. pose proof (sign_append_settled E (origin_of (sg_tx s)) (sg_hash s) auth_type_standard sk M) as Z.
    destruct (sign_and_append _ _ _ _ _) as [c r]. exact Z. }
  assert (K' : settled (snd (let '(t, r) := sign_next_origin E (sg_tx s) (sg_hash s) sk in
      match r with
      | Ok h => ({| sg_tx := t; sg_hash := h; sg_origin_signed := sg_origin_signed s;
                    sg_oversign := sg_oversign s; sg_overlap := sg_overlap s |}, Ok tt)
      | Err e => ({| sg_tx := t; sg_hash := sg_hash s; sg_origin_signed := sg_origin_signed s;
                     sg_oversign := sg_oversign s; sg_overlap := sg_overlap s |}, Err e)
      | Panic p => (s, Panic p)
      | NoFuel => (s, NoFuel)
      end))).
  { destruct (sign_next_origin _ _ _ _) as [t r]. cbn [snd] in K. destruct K as [[a ->]|[e ->]]; cbn [snd]; auto. }
  destruct (sg_oversign s) eqn:V.
  - destruct (N.lt_ge_cases (held (origin_of (sg_tx s))) 65536) as [L|L].
    + right. rewrite signatures_ok by assumption. cbn [bind]. split; [|change (2 ^ 16) with 65536; lia].
      destruct (_ <=? _); [cbn [snd]; auto|exact K'].
    + left. rewrite PropsRefuse.signatures_over by assumption. cbn [bind snd]. splits; auto.
  - right. split; [exact K'|]. intros (_ & X & _). discriminate.
Qed.

Lemma sign_sponsor_ends E s sk : sound_auth (tx_auth (sg_tx s)) ->
  (snd (sign_sponsor E s sk) = Panic POverflow /\ exists c, sponsor_of (sg_tx s) = Some c /\ sg_oversign s = true /\ full c)
  \/ (settled (snd (sign_sponsor E s sk)) /\ ~ exists c, sponsor_of (sg_tx s) = Some c /\ sg_oversign s = true /\ full c).
Proof.
  intros S. unfold sign_sponsor, sign_next_sponsor, sponsor_of. destruct (tx_auth (sg_tx s)) as [o|o c] eqn:A; cbn [auth_sponsor bind].
  { right. cbn [snd]. split; [auto|]. intros (c & X & _). discriminate. }
  cbn [sound_auth] in S. destruct S as [_ [T M]].
  pose proof (sign_append_settled E c (sg_hash s) auth_type_sponsored sk M) as K. destruct (sign_and_append E c _ _ _) as [c' r] eqn:X.
  cbn [snd] in K. unfold full.
  destruct (sg_oversign s) eqn:V.
  - destruct (N.lt_ge_cases (held c) 65536) as [L|L].
    + right. rewrite signatures_ok by assumption. cbn [bind]. split.
      2:{ intros (d & [= <-] & _ & Y). change (2 ^ 16) with 65536 in Y. lia. }
      destruct (_ <=? _); [cbn [snd]; auto|]. destruct K as [[a ->]|[e ->]]; cbn [snd]; auto.
    + left. rewrite PropsRefuse.signatures_over by assumption. cbn [bind snd]. split; [reflexivity|]. exists c. auto.
  - right. cbn [bind]. split; [destruct K as [[a ->]|[e ->]]; cbn [snd]; auto|]. intros (d & _ & Y & _). discriminate.
Qed.

Lemma modify_settled c m : settled (snd (modify c m)).
Proof. destruct c, m; cbn; auto. Qed.
Lemma append_settled s pk : settled (snd (append_origin s pk)).
Proof.
  unfold append_origin. destruct (_ && _); [cbn; auto|]. unfold append_next_origin.
  destruct (auth_origin (tx_auth (sg_tx s))) as [x|x]; cbn [sc_mode]; [destruct (std_mode x)|destruct (ms_mode x)]; cbn; auto.
Qed.

Lemma start_hash_iff t h : start_hash t h <-> initial_hash t = Ok h.
Proof. unfold start_hash. symmetry. apply initial_hash_iff. Qed.

Lemma signer_new_settled t : settled (signer_new t).
Proof. unfold signer_new. apply settled_bind; [apply initial_hash_settled|auto]. Qed.

Lemma new_sponsor_ends E t c : sound_auth (tx_auth t) -> sound_cond c ->
  (signer_new_sponsor E t c = Panic POverflow
     /\ exists t' h, sponsored_by t c t' /\ start_hash t' h /\ verify_stops E x04 h (origin_of t'))
  \/ (settled (signer_new_sponsor E t c)
     /\ ~ exists t' h, sponsored_by t c t' /\ start_hash t' h /\ verify_stops E x04 h (origin_of t')).
Proof.
  intros S C. unfold signer_new_sponsor, sponsored_by. destruct (tx_auth t) as [o|o p] eqn:A; cbn [is_sponsored negb auth_set_sponsor bind].
  { right. split; [auto|]. intros (t' & h & (o' & p' & X & _) & _). discriminate. }
  cbn [sound_auth] in S. set (u := tx_with_auth t (ASponsored o c)). unfold tx_verify_origin.
  assert (O : origin_of u = o) by reflexivity.
  destruct (initial_hash_settled u) as [[h I]|[e I]]; rewrite I; cbn [bind].
  - change (auth_verify_origin E (tx_auth u) h) with (verify_scond E o h x04).
    pose proof (verify_panic E o h x04) as P. pose proof (verify_nofuel E o h x04 (proj1 S)) as Nf.
    destruct (verify_scond E o h x04) as [g|e|q|]; cbn [bind].
    + right. split; [apply settled_bind; [apply signer_new_settled|auto]|]. intros (t' & k & (o' & p' & X & ->) & Sh & V).
      injection X as <- <-. apply start_hash_iff in Sh. fold u in Sh, V. rewrite I in Sh. injection Sh as <-.
      assert (Y := proj2 (P POverflow (proj1 S)) (conj eq_refl V)). discriminate.
    + right. split; [auto|]. intros (t' & k & (o' & p' & X & ->) & Sh & V).
      injection X as <- <-. apply start_hash_iff in Sh. fold u in Sh, V. rewrite I in Sh. injection Sh as <-.
      assert (Y := proj2 (P POverflow (proj1 S)) (conj eq_refl V)). discriminate.
    + left. destruct (proj1 (P q (proj1 S)) eq_refl) as [-> V]. split; [reflexivity|]. exists u, h. splits.
      * exists o, p. auto.
      * apply start_hash_iff, I.
      * exact V.
    + contradiction.
  - right. split; [auto|]. intros (t' & k & (o' & p' & X & ->) & Sh & _). injection X as <- <-. apply start_hash_iff in Sh. fold u in Sh. congruence.
Qed.

Lemma tx_sign_ends E t sk : sound_auth (tx_auth t) ->
  (tx_sign E t sk = Panic POverflow /\ exists h, start_hash t h /\ full (origin_of t))
  \/ (settled (tx_sign E t sk) /\ ~ exists h, start_hash t h /\ full (origin_of t)).
Proof.
  intros S. unfold tx_sign, signer_new. destruct (initial_hash_settled t) as [[h I]|[e I]]; rewrite I; cbn [bind].
  - match goal with |- context [sign_origin E ?s sk] => pose proof (sign_origin_ends E s sk S) as K; destruct (sign_origin E s sk) as [s' r] end.
    cbn [snd sg_tx sg_oversign sg_overlap sg_origin_signed] in K. destruct K as [(-> & _ & _ & F)|[K F]].
    + left. split; [reflexivity|]. exists h. split; [apply start_hash_iff, I|exact F].
    + right. split; [apply settled_bind; auto|]. intros (h' & _ & F'). apply F. splits; auto. unfold frozen. cbn. intros [_ X]. discriminate.
  - right. split; [auto|]. intros (h & Sh & _). apply start_hash_iff in Sh. congruence.
Qed.

Lemma auth_verify_ends E a h : sound_auth a ->
  (auth_verify E a h = Panic POverflow /\ exists o p, a = ASponsored o p
     /\ (verify_stops E x04 h o \/ exists h', satisfied E x04 h o h' /\ verify_stops E x05 h' p))
  \/ (settled (auth_verify E a h) /\ ~ exists o p, a = ASponsored o p
     /\ (verify_stops E x04 h o \/ exists h', satisfied E x04 h o h' /\ verify_stops E x05 h' p)).
Proof.
  destruct a as [o|o p]; cbn [sound_auth auth_verify]; intros S.
  { right. split; [auto|]. intros (o' & p' & X & _). discriminate. }
  destruct S as [So Sp]. unfold auth_type_standard, auth_type_sponsored.
  pose proof (fun q => verify_panic E o h x04 q So) as P. pose proof (verify_nofuel E o h x04 So) as Nf.
  pose proof (fun g => verify_iff E o h x04 g (proj1 So)) as V.
  destruct (verify_scond E o h x04) as [g|e|q|]; cbn [bind].
  - assert (G : satisfied E x04 h o g) by (apply V; reflexivity).
    assert (No : ~ verify_stops E x04 h o).
    { intros X. assert (Y := proj2 (P POverflow) (conj eq_refl X)). discriminate. }
    pose proof (fun q => verify_panic E p g x05 q Sp) as P'. pose proof (verify_nofuel E p g x05 Sp) as Nf'.
    assert (W : forall o' p', ASponsored o p = ASponsored o' p' ->
                (verify_stops E x04 h o' \/ exists h', satisfied E x04 h o' h' /\ verify_stops E x05 h' p') -> verify_stops E x05 g p).
    { intros o' p' [= <- <-] [X|(g' & X & Y)]; [contradiction|]. apply V in X. injection X as <-. exact Y. }
    destruct (verify_scond E p g x05) as [k|e|q|]; cbn [bind].
    + right. split; [auto|]. intros (o' & p' & X & Y). assert (Z := proj2 (P' POverflow) (conj eq_refl (W o' p' X Y))). discriminate.
    + right. split; [auto|]. intros (o' & p' & X & Y). assert (Z := proj2 (P' POverflow) (conj eq_refl (W o' p' X Y))). discriminate.
    + left. destruct (proj1 (P' q) eq_refl) as [-> Y]. split; [reflexivity|]. exists o, p. split; [reflexivity|]. right. eauto.
    + contradiction.
  - right. split; [auto|]. intros (o' & p' & X & Y). injection X as <- <-. destruct Y as [Y|(g' & Y & _)].
    + assert (Z := proj2 (P POverflow) (conj eq_refl Y)). discriminate.
    + apply V in Y. discriminate.
  - left. destruct (proj1 (P q) eq_refl) as [-> Y]. split; [reflexivity|]. exists o, p. auto.
  - contradiction.
Qed.

(** ** Other calls that never abort *)

Lemma next_signature_settled E h typ fee nonce sk : settled (next_signature E h typ fee nonce sk).
Proof.
  unfold next_signature. rewrite digest_eq, message_ok by apply digest_length. cbn [bind]. apply settled_bind; [|auto].
  unfold msig_from_recov, msig_from_slice. destruct (_ <? _); [|auto]. destruct (Nat.eqb _ _); auto.
Qed.
Lemma from_recov_settled r : settled (msig_from_recov r).
Proof. unfold msig_from_recov, msig_from_slice. destruct (_ <? _); [|auto]. destruct (Nat.eqb _ _); auto. Qed.
Lemma set_sponsor_settled a c : settled (snd (auth_set_sponsor a c)).
Proof. destruct a; cbn; auto. Qed.
Lemma cast_settled t v : settled (cast t v).
Proof. unfold cast. destruct (cty_eq_dec _ _); auto. Qed.
Lemma tx_hash_settled t : settled (tx_hash t).
Proof. unfold tx_hash. apply settled_bind; [apply settled_map_err, enc_tx_settled|auto]. Qed.
Lemma io_settled {A} (o : option A) : settled (io o).
Proof. destruct o; cbn; auto. Qed.
Lemma get_address_settled {H} (a : account H) v : settled (get_address a v).
Proof. unfold get_address. apply settled_map_err, c32_address_settled. Qed.
Lemma into_json_settled {A} (p : json -> option A) r : settled (into_json p r).
Proof. unfold into_json. apply settled_bind; [|intros]; apply io_settled. Qed.
Lemma call_settled {A} http rq (p : json -> option A) : settled (call http rq p).
Proof. unfold call. destruct (http rq); auto. apply into_json_settled. Qed.
Lemma estimate_settled http url t : settled (estimate_fee http url t).
Proof.
  unfold estimate_fee, estimate_request. apply settled_bind.
  - apply settled_bind; [apply settled_map_err, enc_payload_settled|intros]. apply settled_bind; [apply settled_map_err, enc_tx_settled|auto].
  - intros rq _. destruct (http rq); auto; (apply settled_bind; [|auto]); [apply into_json_settled|apply io_settled].
Qed.
Lemma broadcast_settled http url t : settled (broadcast http url t).
Proof.
  unfold broadcast, broadcast_request. apply settled_bind.
  - apply settled_bind; [apply settled_map_err, enc_tx_settled|auto].
  - intros rq _. destruct (http rq); auto; (apply settled_bind; [|auto]); [apply io_settled|apply into_json_settled].
Qed.
Lemma read_only_settled http url addr name fname args sender : settled (read_only http url addr name fname args sender).
Proof.
  unfold read_only, read_only_request. apply settled_bind.
  - apply settled_bind; [apply settled_map_err, hex_args_settled|auto].
  - intros rq _. destruct (http rq); auto. apply into_json_settled.
Qed.
Lemma public_settled {H} b : settled (@public_from_slice H b).
Proof. unfold public_from_slice. destruct (point_ok H b); auto. Qed.
Lemma secret_settled {H} b : settled (@secret_from_slice H b).
Proof. unfold secret_from_slice. destruct (_ && _); auto. Qed.
Lemma mnemonic_settled {H} phrase : settled (@from_secret_key H phrase).
Proof. rewrite from_secret_key_cases. destruct (from_mnemonic H phrase); auto. Qed.

(** ** All calls *)

Definition listed {H} (E : ecdsa) (u : use H) : Prop := (forall p, ending_of E u = Stops p <-> stops E u p) /\ ending_of E u <> Hangs.

Lemma listed_never {H} E (u : use H) : ending_of E u = Returns -> (forall p, ~ stops E u p) -> listed E u.
Proof. intros R S. split; [|rewrite R; discriminate]. intros p. rewrite R. split; [discriminate|]. intros X. destruct (S p X). Qed.
Lemma listed_always {H} E (u : use H) q : ending_of E u = Stops q -> (forall p, stops E u p <-> p = q) -> listed E u.
Proof. intros R S. split; [|rewrite R; discriminate]. intros p. rewrite R, S. split; [intros [= ->]; reflexivity|intros ->; reflexivity]. Qed.
Lemma listed_res {H E0 A} E (u : use H) (r : res E0 A) : ending_of E u = end_of r -> (forall p, r = Panic p <-> stops E u p) -> r <> NoFuel -> listed E u.
Proof. intros R S N. split; rewrite R; [|rewrite end_hangs; exact N]. intros p. rewrite end_stops. apply S. Qed.

Ltac never l := apply listed_never; [apply end_settled, l|intros ? X; inversion X].

Lemma all_listed {H} E (u : use H) : possible u -> listed E u.
Proof.
  destruct u; cbn [possible]; intros P.
  - never hex_settled.
  - apply listed_never; [|intros ? X; inversion X]. cbn [ending_of]. destruct (c32_encode_form b) as (s & -> & _). reflexivity.
  - never c32_decode_no_panic.
  - pose proof (c32check_encode_cases h v) as K. apply (listed_res E _ (c32check_encode h v)); [reflexivity| |].
    + intros p. destruct (c32check_encode h v) as [|e|q|]; split; intros X; try discriminate; try contradiction.
      * inversion X; subst. lia.
      * injection X as <-. destruct K as [K ->]. constructor. exact K.
      * inversion X; subst. destruct K as [_ ->]. reflexivity.
    + intros X. rewrite X in K. exact K.
  - pose proof (c32check_decode_cases s) as K. apply (listed_res E _ (c32check_decode s)); [reflexivity| |].
    + intros p. destruct (c32check_decode s) as [|e|q|]; split; intros X; try discriminate; try contradiction; try (inversion X; subst; contradiction).
      * injection X as <-. destruct K as [-> ->]. constructor.
      * inversion X; subst. destruct K as [_ ->]. reflexivity.
    + intros X. rewrite X in K. exact K.
  - never c32_address_settled.
  - never c32_address_decode_no_panic.
  - pose proof (address_from_str_cases s) as K. destruct (c32_address_decode s) as [[h v]|e|q|] eqn:D; try contradiction.
    + destruct (Nat.eqb_spec (length h) 20) as [L|L].
      * apply listed_never; [cbn [ending_of]; rewrite K; reflexivity|]. intros p X. inversion X as [| |s' h' v' S N| | | | | | | | | | | | | | | | | | | | | | | | | | | |]; subst.
        apply c32_address_decode_iff in S. rewrite D in S. injection S as <- <-. contradiction.
      * apply listed_always with PCopyLen; [cbn [ending_of]; rewrite K; reflexivity|]. intros p. split; [intros X; inversion X; reflexivity|].
        intros ->. eapply st_address; [apply c32_address_decode_iff, D|exact L].
    + apply listed_never; [cbn [ending_of]; rewrite K; reflexivity|]. intros p X. inversion X as [| |s' h' v' S N| | | | | | | | | | | | | | | | | | | | | | | | | | | |]; subst.
      apply c32_address_decode_iff in S. congruence.
  - never (@b58_encode_settled unit).
  - destruct (b58_ends s P) as [[X Y]|[X Y]].
    + apply listed_always with PIndex; [cbn [ending_of]; rewrite X; reflexivity|]. intros p. split; [intros Z; inversion Z; reflexivity|].
      intros ->. constructor. exact Y.
    + apply listed_never; [apply end_settled, X|]. intros p Z. inversion Z. contradiction.
  - never (@b58_encode_settled unit).
  - destruct (b58check_ends s P) as [[X Y]|[(b & N & Y & K)|(X & Y & K)]].
    + apply listed_always with PIndex; [cbn [ending_of]; rewrite X; reflexivity|]. intros p. split; [|intros ->; apply st_b58check_exotic, Y].
      intros Z. inversion Z as [| | | | |s' b N L| | | | | | | | | | | | | | | | | | | | | | | | |]; subst; try reflexivity. exfalso.
      apply (b58_decode_ok_iff s b P) in N. unfold base58check_decode in X. rewrite N in X. cbn [bind] in X.
      destruct (Nat.ltb_spec (length b) 4); [discriminate|lia].
    + destruct K as [[L X]|[[L X]|[L X]]].
      * apply listed_always with POverflow; [cbn [ending_of]; rewrite X; reflexivity|]. intros p. split; [|intros ->; eapply st_b58check_few; eassumption].
        intros Z. inversion Z as [| | | |s' Y'|s' b' N' L'|s' b' N' L'| | | | | | | | | | | | | | | | | | | | | | | |]; subst; [contradiction|reflexivity|].
        rewrite (numeral58_fun _ _ _ N' N P) in L'. lia.
      * apply listed_always with PIndex; [cbn [ending_of]; rewrite X; reflexivity|]. intros p. split; [|intros ->; eapply st_b58check_four; eassumption].
        intros Z. inversion Z as [| | | |s' Y'|s' b' N' L'|s' b' N' L'| | | | | | | | | | | | | | | | | | | | | | | |]; subst; [contradiction| |reflexivity].
        rewrite (numeral58_fun _ _ _ N' N P) in L'. lia.
      * apply listed_never; [apply end_settled, X|]. intros p Z.
        inversion Z as [| | | |s' Y'|s' b' N' L'|s' b' N' L'| | | | | | | | | | | | | | | | | | | | | | | |]; subst; [contradiction| |];
          rewrite (numeral58_fun _ _ _ N' N P) in L'; lia.
    + apply listed_never; [apply end_settled, X|]. intros p Z. inversion Z; subst; [contradiction| |]; eapply K; eassumption.
  - destruct (@hash_p2sh_cases unit sigs keys) as [[F X]|[F X]].
    + apply listed_never; [cbn [ending_of]; rewrite X; reflexivity|]. intros p Z. inversion Z; contradiction.
    + apply listed_always with POverflow; [cbn [ending_of]; rewrite X; reflexivity|]. intros p. split; [intros Z; inversion Z; reflexivity|].
      intros ->. constructor. exact F.
  - destruct (@hash_p2wsh_cases unit sigs keys) as [[F X]|[F X]].
    + apply listed_never; [cbn [ending_of]; rewrite X; reflexivity|]. intros p Z. inversion Z; contradiction.
    + apply listed_always with POverflow; [cbn [ending_of]; rewrite X; reflexivity|]. intros p. split; [intros Z; inversion Z; reflexivity|].
      intros ->. constructor. exact F.
  - destruct (Nat.eqb (length b) 20) eqn:L.
    + apply listed_never; [cbn [ending_of]; unfold hash160_new; rewrite L; reflexivity|]. intros p Z. inversion Z; subst.
      apply Nat.eqb_eq in L. contradiction.
    + apply listed_always with PCopyLen; [cbn [ending_of]; unfold hash160_new; rewrite L; reflexivity|].
      intros p. split; [intros Z; inversion Z; reflexivity|]. intros ->. constructor. apply Nat.eqb_neq, L.
  - destruct (Nat.eqb (length b) 65) eqn:L.
    + apply listed_never; [cbn [ending_of]; unfold msig_new; rewrite L; reflexivity|]. intros p Z. inversion Z; subst.
      apply Nat.eqb_eq in L. contradiction.
    + apply listed_always with PCopyLen; [cbn [ending_of]; unfold msig_new; rewrite L; reflexivity|].
      intros p. split; [intros Z; inversion Z; reflexivity|]. intros ->. constructor. apply Nat.eqb_neq, L.
  - apply listed_never; [|intros ? X; inversion X]. cbn [ending_of]. destruct (from_slice_cases b) as [[_ ->]|[_ ->]]; reflexivity.
  - never from_recov_settled.
  - apply listed_never; [apply end_settled, into_recov_total, P|intros ? X; inversion X].
  - never next_signature_settled.
  - apply listed_never; [apply end_settled, next_verify_total, P|intros ? X; inversion X].
  - never encode_settled.
  - apply listed_never; [apply end_settled; unfold codec_len; apply settled_bind; [apply encode_settled|auto]|intros ? X; inversion X].
  - apply listed_never; [|intros ? X; inversion X]. apply end_settled. unfold codec_is_empty, codec_len.
    apply settled_bind; [apply settled_bind; [apply encode_settled|auto]|auto].
  - apply listed_never; [apply end_settled; unfold codec_hex; apply settled_bind; [apply encode_settled|auto]|intros ? X; inversion X].
  - apply listed_never; [|intros ? X; inversion X]. apply end_settled. unfold codec_hex_prefixed, codec_hex.
    repeat (apply settled_bind; [apply encode_settled || (apply settled_bind; [apply encode_settled|auto])|auto]).
  - never cast_settled.
  - apply (listed_res E _ (decode_clarity_type b)); [reflexivity| |apply decode_nofuel]. intros p. rewrite cut_iff.
    split; [intros [-> C]; constructor; exact C|]. intros X. inversion X; subst. auto.
  - apply (listed_res E _ (decode_as t b)); [reflexivity| |apply decode_as_nofuel]. intros p. rewrite cut_as_iff.
    split; [intros [-> C]; constructor; exact C|]. intros X. inversion X; subst. auto.
  - never derive_settled.
  - never enc_payload_settled.
  - apply (listed_res E _ (dec_payload b)); [reflexivity| |apply payload_dec_nofuel]. intros p. rewrite cut_payload_iff.
    split; [intros [-> C]; constructor; exact C|]. intros X. inversion X; subst. auto.
  - apply (listed_res E _ (dec_transfer b)); [reflexivity| |apply transfer_nofuel]. intros p. rewrite transfer_panic.
    split; [intros (-> & T & C); constructor; assumption|]. intros X. inversion X; subst. auto.
  - apply (listed_res E _ (dec_call b)); [reflexivity| |apply call_nofuel]. intros p. rewrite call_panic.
    split; [intros (-> & T & C); constructor; assumption|]. intros X. inversion X; subst. auto.
  - never enc_condition_settled.
  - never enc_conditions_settled.
  - never enc_asset_settled.
  - never enc_scond_settled.
  - never enc_auth_settled.
  - never enc_tx_settled.
  - apply listed_always with PUnimplemented; [reflexivity|]. intros p. split; [intros X; inversion X; reflexivity|intros ->; constructor].
  - never tx_hash_settled.
  - destruct mode; try (apply listed_never; [reflexivity|]; intros p X; inversion X as [| | | | | | | | | | | | | | | | |k f n m [M|M]| | | | | | | | | | | | |]; discriminate);
      (apply listed_always with PExplicit; [reflexivity|]; intros p; split; [intros X; inversion X; reflexivity|intros ->; constructor; auto]).
  - destruct (@multi_new_cases unit pks fee nonce required mode) as [(F & M & m & X)|[[X M]|[X F]]].
    + apply listed_never; [cbn [ending_of]; rewrite X; reflexivity|]. intros p Z. inversion Z; subst; [|contradiction]. intuition congruence.
    + apply listed_always with PExplicit; [cbn [ending_of]; rewrite X; reflexivity|]. intros p. split; [|intros ->; constructor; exact M].
      intros Z. inversion Z; subst; [reflexivity|]. intuition congruence.
    + assert (M : mode = P2SH \/ mode = P2WSH) by (destruct mode; auto; discriminate).
      apply listed_always with POverflow; [cbn [ending_of]; rewrite X; reflexivity|]. intros p. split; [|intros ->; constructor; assumption].
      intros Z. inversion Z; subst; [|reflexivity]. intuition congruence.
  - apply (listed_res E _ (verify_scond E c h typ)); [reflexivity| |apply verify_nofuel, P]. intros p. rewrite verify_panic by exact P.
    split; [intros [-> C]; constructor; exact C|]. intros X. inversion X; subst. auto.
  - never modify_settled.
  - destruct (auth_verify_ends E a h P) as [(X & o & p & -> & Y)|[X Y]].
    + apply listed_always with POverflow; [cbn [ending_of]; rewrite X; reflexivity|]. intros q. split; [intros Z; inversion Z; reflexivity|].
      intros ->. destruct Y as [Y|(h' & S & Y)]; [apply st_auth_origin, Y|eapply st_auth_sponsor; eassumption].
    + apply listed_never; [apply end_settled, X|]. intros p Z. apply Y. inversion Z; subst; eauto 8.
  - assert (So : sound_cond (auth_origin a)) by (destruct a; cbn in *; tauto).
    apply (listed_res E _ (auth_verify_origin E a h)); [reflexivity| |apply verify_nofuel, So].
    intros p. unfold auth_verify_origin, auth_type_standard. rewrite verify_panic by exact So.
    split; [intros [-> C]; constructor; destruct a; exact C|]. intros X. inversion X; subst. split; [reflexivity|]. destruct a; assumption.
  - apply listed_never; [destruct a; reflexivity|intros ? X; inversion X].
  - never set_sponsor_settled.
  - destruct (tx_sign_ends E t sk P) as [(X & h & S & F)|[X Y]].
    + apply listed_always with POverflow; [cbn [ending_of]; rewrite X; reflexivity|]. intros q. split; [intros Z; inversion Z; reflexivity|].
      intros ->. eapply st_tx_sign; eassumption.
    + apply listed_never; [apply end_settled, X|]. intros p Z. apply Y. inversion Z; subst; eauto.
  - never signer_new_settled.
  - destruct P as [P Pc]. destruct (new_sponsor_ends E t c P Pc) as [(X & t' & h & S & I & V)|[X Y]].
    + apply listed_always with POverflow; [cbn [ending_of]; rewrite X; reflexivity|]. intros q. split; [intros Z; inversion Z; reflexivity|].
      intros ->. eapply st_new_sponsor; eassumption.
    + apply listed_never; [apply end_settled, X|]. intros p Z. apply Y. inversion Z; subst; eauto.
  - destruct (sign_origin_ends E s sk P) as [(X & F & O & L)|[X Y]].
    + apply listed_always with POverflow; [cbn [ending_of]; rewrite X; reflexivity|]. intros q. split; [intros Z; inversion Z; reflexivity|].
      intros ->. constructor; assumption.
    + apply listed_never; [apply end_settled, X|]. intros p Z. apply Y. inversion Z; subst; auto.
  - destruct (sign_sponsor_ends E s sk P) as [(X & c & F & O & L)|[X Y]].
    + apply listed_always with POverflow; [cbn [ending_of]; rewrite X; reflexivity|]. intros q. split; [intros Z; inversion Z; reflexivity|].
      intros ->. econstructor; eassumption.
    + apply listed_never; [apply end_settled, X|]. intros p Z. apply Y. inversion Z; subst; eauto.
  - never append_settled.
  - pose proof (@build_transfer_cases unit E b) as K. destruct (st_sponsored b) eqn:S.
    + apply listed_always with PUnimplemented; [cbn [ending_of]; rewrite K; reflexivity|]. intros p. split; [intros Z; inversion Z; reflexivity|].
      intros ->. constructor. exact S.
    + apply listed_never; [cbn [ending_of]; rewrite K; reflexivity|]. intros p Z. inversion Z; subst. congruence.
  - assert (U : forall h v h' v', address_spelling h v (cc_address b) -> address_spelling h' v' (cc_address b) -> h' = h).
    { intros h v h' v' A B. apply c32_address_decode_iff in A, B. congruence. }
    destruct (build_call_cases E b) as [(h & v & A & L & X)|[(h & v & A & L & X)|(A & e & _ & X)]].
    + destruct (cc_sponsored b) eqn:S.
      * apply listed_always with PUnimplemented; [cbn [ending_of]; rewrite X; reflexivity|]. intros p. split; [|intros ->; econstructor; eassumption].
        intros Z. inversion Z as [| | | | | | | | | | | | | | | | | | | | | | | | | | | | |b' h' v' A' L' S'|b' h' v' A' L']; subst; [reflexivity|].
        rewrite (U _ _ _ _ A A') in L'. contradiction.
      * apply listed_never; [cbn [ending_of]; rewrite X; reflexivity|]. intros p Z.
        inversion Z as [| | | | | | | | | | | | | | | | | | | | | | | | | | | | |b' h' v' A' L' S'|b' h' v' A' L']; subst; [congruence|].
        rewrite (U _ _ _ _ A A') in L'. contradiction.
    + apply listed_always with PCopyLen; [cbn [ending_of]; rewrite X; reflexivity|]. intros p. split; [|intros ->; eapply st_build_address; eassumption].
      intros Z. inversion Z as [| | | | | | | | | | | | | | | | | | | | | | | | | | | | |b' h' v' A' L' S'|b' h' v' A' L']; subst; [|reflexivity].
      rewrite (U _ _ _ _ A A') in L'. contradiction.
    + apply listed_never; [cbn [ending_of]; rewrite X; reflexivity|]. intros p Z. inversion Z; subst; eapply A; eassumption.
  - never (@mnemonic_settled H).
  - never (@get_account_settled H).
  - never (@get_address_settled H).
  - never (@secret_settled H).
  - never (@public_settled H).
  - never (@secret_settled H).
  - never (@public_settled H).
  - never (@call_settled node_info).
  - never (@call_settled address_info).
  - never estimate_settled.
  - never broadcast_settled.
  - never read_only_settled.
Qed.
