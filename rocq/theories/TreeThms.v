(** Proofs about the key tree (C84). *)

From Coq Require Import Strings.String ZArith List Lia Eqdep_dec Bool.
From Verif Require Import Base BaseFacts Sha2 Hash SpecText SpecWire WireFacts SpecSign Secp Hd Wallet EcNum EcField EcGroup EcMul EcOrder EcEcdsa EcSign SpecCurve EcRecover CurveThms SpecTree SpecPhrase Mnemonic PhraseThms.
Import ListNotations.
Local Open Scope list_scope.
Local Open Scope Z_scope.

(** ** HMAC *)
Lemma blocks_fuel blk f : forall bs st u v, (0 < blk)%nat -> (length bs <= u)%nat -> (length bs <= v)%nat ->
  blocks u blk f st bs = blocks v blk f st bs.
Proof.
  intros bs st u. revert bs st. induction u as [|u IH]; intros bs st v B U V.
  - destruct bs; [|cbn in U; lia]. destruct v; reflexivity.
  - destruct bs as [|x bs]; [destruct v; reflexivity|]. destruct v as [|v]; [cbn in V; lia|].
    cbn [blocks]. apply IH; [exact B|..]; rewrite skipn_length; cbn [length] in *; lia.
Qed.
Lemma pad_tail (b m : bytes) : length b = 128%nat -> sha_pad 128 16 (b ++ m) = b ++ pad_after m.
Proof.
  intros L. unfold pad_after, sha_pad.
  assert (E : lenN (b ++ m) = lenN (repeat x00 128 ++ m)) by (unfold lenN; rewrite !app_length, repeat_length, L; reflexivity).
  rewrite E. set (n := lenN (repeat x00 128 ++ m)). rewrite <- !app_assoc. f_equal.
Qed.
Lemma blocks_first blk f st (b r : bytes) u : length b = blk -> (0 < blk)%nat -> (length (b ++ r) <= u)%nat ->
  blocks u blk f st (b ++ r) = blocks (length r) blk f (f st b) r.
Proof.
  intros <- B U. destruct b as [|x b]; [cbn in B; lia|]. destruct u as [|u]; [cbn in U; lia|].
  cbn [blocks app]. change (x :: b ++ r) with ((x :: b) ++ r). rewrite firstn_app_exact, skipn_app_exact.
  apply blocks_fuel; [exact B| |apply Nat.le_refl]. cbn [app length] in U. rewrite app_length in U. lia.
Qed.
Lemma sha_resumed (b m : bytes) : length b = 128%nat -> sha512 (b ++ m) = sha512_from (compress512 iv512 b) (pad_after m).
Proof.
  intros L. unfold sha512. rewrite (pad_tail b m L). unfold sha512_from. f_equal.
  rewrite (blocks_first 128 compress512 iv512 b (pad_after m) _ L); [reflexivity|apply Nat.lt_0_succ|apply Nat.le_refl].
Qed.

Lemma combine_repeat {A B} (l : list A) (c : B) n : length l = n -> combine l (repeat c n) = map (fun b => (b, c)) l.
Proof. intros <-. induction l as [|x l IH]; [reflexivity|]. cbn [length repeat combine map]. now rewrite IH. Qed.
Lemma xored_const k c n : length k = n -> xored k (repeat c n) = map (fun b => n2b (N.lxor (b2n b) (b2n c))) k.
Proof. intros L. unfold xored. rewrite (combine_repeat k c n L), map_map. reflexivity. Qed.
Lemma sha512_length b : length (sha512 b) = 64%nat.
Proof.
  unfold sha512, sha512_from, state_bytes. destruct (blocks _ _ _ _ _) as [[[[[[[a b'] c] d] e] f] g] h].
  rewrite !app_length, !be_bytes_length. reflexivity.
Qed.
Lemma hmac_eq key msg : hmac512 (hkey key) msg = hmac key msg.
Proof.
  unfold hmac, hmac512, hkey. cbn [fst snd].
  assert (E : (if (128 <? lenN key)%N then sha512 key else key) = if Nat.leb (length key) 128 then key else sha512 key).
  { unfold lenN. destruct (Nat.leb_spec (length key) 128) as [H|H].
    - replace (128 <? N.of_nat (length key))%N with false by (symmetry; apply N.ltb_ge; lia). reflexivity.
    - replace (128 <? N.of_nat (length key))%N with true by (symmetry; apply N.ltb_lt; lia). reflexivity. }
  rewrite E. set (k0 := if Nat.leb (length key) 128 then key else sha512 key). set (k := k0 ++ repeat x00 (128 - length k0)).
  assert (L : length k = 128%nat).
  { unfold k. rewrite app_length, repeat_length. assert (length k0 <= 128)%nat; [|lia]. unfold k0.
    destruct (Nat.leb_spec (length key) 128) as [H|H]; [exact H|rewrite sha512_length; lia]. }
  rewrite !(xored_const k _ 128 L). rewrite !sha_resumed by (rewrite map_length; exact L). reflexivity.
Qed.

(** ** Seeds *)
Lemma iter_shift (f : bytes -> bytes) u n : Nat.iter n f (f u) = f (Nat.iter n f u).
Proof. induction n as [|n IH]; [reflexivity|]. simpl. now rewrite IH. Qed.
Lemma repeated_snoc key n : forall u, exists v, repeated key u (S n) = repeated key u n ++ [v]
  /\ v = Nat.iter n (hmac key) u.
Proof.
  induction n as [|n IH]; intros u; [exists u; split; reflexivity|]. destruct (IH (hmac key u)) as (v & E & V). exists v. split.
  - change (repeated key u (S (S n))) with (u :: repeated key (hmac key u) (S n)). rewrite E. reflexivity.
  - rewrite V. apply iter_shift.
Qed.
Lemma stretched_eq p s n : pbkdf2 p s n = stretched p s n.
Proof.
  unfold pbkdf2, stretched. rewrite hmac_eq. set (u := hmac p (s ++ _)).
  assert (G : forall m, N.iter (N.of_nat m) (fun st => (hmac512 (hkey p) (fst st), xor_bytes (snd st) (hmac512 (hkey p) (fst st)))) (u, u)
              = (Nat.iter m (hmac p) u, fold_left xored (repeated p (hmac p u) m) u)).
  { induction m as [|m IH]; [reflexivity|]. rewrite Nat2N.inj_succ, N.iter_succ, IH. cbn [fst snd]. rewrite hmac_eq.
    destruct (repeated_snoc p m (hmac p u)) as (v & E & V). rewrite E, fold_left_app. cbn [fold_left Nat.iter].
    assert (W : v = hmac p (Nat.iter m (hmac p) u)).
    { rewrite V. apply iter_shift. }
    rewrite W. reflexivity. }
  specialize (G (N.to_nat (n - 1))). rewrite N2Nat.id in G. cbn zeta. rewrite G. reflexivity.
Qed.

(** ** Children *)
Definition key_range (s : Z) : Prop := 0 < s < curve_order.
Lemma secret_range k : key_range (xk_secret k).
Proof. destruct k as [s c ok]. cbn [xk_secret]. unfold secret_ok in ok. apply andb_prop in ok. destruct ok as [A B].
  apply Z.ltb_lt in A, B. split; [exact A|]. rewrite order_gn. exact B. Qed.
Lemma xkey_ext k k' : xk_secret k = xk_secret k' -> xk_chain k = xk_chain k' -> k = k'.
Proof.
  destruct k as [s c ok], k' as [s' c' ok']. cbn [xk_secret xk_chain]. intros <- <-. f_equal. apply UIP_dec. apply Bool.bool_dec.
Qed.
Lemma secret_value k : scalar_z (secret_bytes k) = xk_secret k.
Proof.
  rewrite scalar_zval. unfold secret_bytes. apply zval_be. destruct (secret_range k) as [A B]. destruct gn_bounds as (_ & B2 & _).
  rewrite order_gn in B. clear - A B B2. lia.
Qed.
Lemma public_point k : point_bytes (secret_point (xk_secret k)) (public_bytes k).
Proof.
  unfold secret_point, public_bytes. rewrite <- (secret_value k) at 1. rewrite scalar_zval, base_gpt.
  pose proof (valid_key_range _ (secret_valid k)) as H. destruct (mulg_point _ H) as (x & y & E & _).
  rewrite E. rewrite (pubkey_eq (secret_bytes k) x y E) by apply H. apply point_bytes_compress.
Qed.

Lemma xkey_of_iff t p i c : xkey_of t p i = inr c
  <-> t < curve_order /\ xk_secret c = (t + p) mod curve_order /\ xk_secret c <> 0 /\ xk_chain c = skipn 32 i.
Proof.
  rewrite order_gn. unfold xkey_of. destruct (Z.ltb_spec t gn) as [L|L].
  - destruct (Sumbool.sumbool_of_bool _) as [ok|no].
    + split.
      * intros [= <-]. cbn [xk_secret xk_chain]. split; [exact L|]. split; [reflexivity|]. split; [|reflexivity].
        unfold secret_ok in ok. apply andb_prop in ok. destruct ok as [A _]. apply Z.ltb_lt in A. intros E. rewrite E in A. now apply Z.lt_irrefl in A.
      * intros (_ & E & _ & C). f_equal. apply xkey_ext; cbn [xk_secret xk_chain]; now symmetry.
    + split; [discriminate|]. intros (_ & E & N & _). exfalso. rewrite E in N. unfold secret_ok in no.
      destruct gn_bounds as (B & _). assert (G : 0 < gn) by (apply Z.lt_trans with (2 ^ 255); [reflexivity|exact B]).
      pose proof (Z.mod_pos_bound (t + p) gn G) as R. apply andb_false_iff in no. destruct no as [X|X]; apply Z.ltb_ge in X.
      * apply N. apply Z.le_antisymm; [exact X|apply R].
      * destruct R as [_ R]. apply Z.lt_nge in R. contradiction.
  - split; [discriminate|]. intros (X & _). apply Z.lt_nge in X. contradiction.
Qed.

Lemma data_iff k i d : child_data (xk_secret k) i d
  <-> d = (if (2 ^ 31 <=? i)%N then x00 :: secret_bytes k else public_bytes k) ++ be_bytes 4 i.
Proof.
  unfold child_data, hardened. destruct (N.leb_spec (2 ^ 31) i) as [L|L].
  - split.
    + intros [[_ ->]|[N _]]; [|contradiction]. unfold secret_bytes. now rewrite !big_endian_be.
    + intros ->. left. split; [exact L|]. unfold secret_bytes. now rewrite !big_endian_be.
  - apply N.lt_nge in L. split.
    + intros [[H _]|[_ (b & B & ->)]]; [contradiction|]. rewrite (point_bytes_det _ _ _ B (public_point k)). now rewrite big_endian_be.
    + intros ->. right. split; [exact L|]. exists (public_bytes k). split; [apply public_point|]. now rewrite big_endian_be.
Qed.
Lemma ckd_iff k i c : ckd_priv k i = inr c <-> child_private (xk_secret k) (xk_chain k) i (xk_secret c) (xk_chain c).
Proof.
  unfold ckd_priv, child_private. rewrite hmac_eq, xkey_of_iff, <- scalar_zval. split.
  - intros (L & E & N & C). eexists. split; [apply data_iff; reflexivity|]. auto.
  - intros (d & D & L & E & N & C). apply data_iff in D. subst d. auto.
Qed.
Lemma master_iff seed k : master seed = inr k <-> master_key seed (xk_secret k) (xk_chain k).
Proof.
  unfold master, master_key. rewrite hmac_eq, xkey_of_iff, <- scalar_zval, Z.add_0_r.
  set (t := scalar_z _). assert (T : 0 <= t) by (unfold t, scalar_z; apply N2Z.is_nonneg). split.
  - intros (L & E & N & C). rewrite Z.mod_small in E by (split; assumption). rewrite E in N.
    split; [split; [|exact L]|split; [exact E|exact C]]. apply Z.le_neq. split; [exact T|]. now intros <-.
  - intros ((P & L) & E & C). split; [exact L|]. rewrite Z.mod_small by (split; assumption). split; [exact E|]. split; [|exact C].
    rewrite E. intros Z. rewrite Z in P. now apply Z.lt_irrefl in P.
Qed.
(** Every key reached is one the code can hold. *)
Lemma mod_range x : 0 <= x mod curve_order < curve_order.
Proof.
  rewrite order_gn. apply Z.mod_pos_bound. destruct gn_bounds as (B & _). apply Z.lt_trans with (2 ^ 255); [reflexivity|exact B].
Qed.
Lemma held s ch : key_range s -> exists k, xk_secret k = s /\ xk_chain k = ch.
Proof.
  intros [A B]. assert (ok : secret_ok s = true).
  { unfold secret_ok. apply andb_true_intro. split; apply Z.ltb_lt; [exact A|rewrite <- order_gn; exact B]. }
  exists {| xk_secret := s; xk_chain := ch; xk_ok := ok |}. auto.
Qed.
Lemma child_range s ch i s' ch' : child_private s ch i s' ch' -> key_range s'.
Proof.
  intros (d & _ & _ & E & N & _). subst s'. set (x := _ + s) in *. pose proof (mod_range x) as [A B]. split; [|exact B].
  apply Z.le_neq. split; [exact A|]. now apply not_eq_sym.
Qed.
Lemma path_range path : forall s ch s' ch', key_range s -> descends s ch path s' ch' -> key_range s'.
Proof. intros s ch s' ch' R D. revert R. induction D as [|? ? ? ? ? ? ? ? C _ IH]; [auto|]. intros _. apply IH. exact (child_range _ _ _ _ _ C). Qed.
Lemma master_range seed s ch : master_key seed s ch -> key_range s.
Proof. intros (M & -> & _). exact M. Qed.
Lemma path_iff path : forall k c, derive_path k path = inr c <-> descends (xk_secret k) (xk_chain k) path (xk_secret c) (xk_chain c).
Proof.
  induction path as [|i path IH]; intros k c; cbn [derive_path]; split.
  - intros [= <-]. constructor.
  - intros H. inversion H; subst. f_equal. apply xkey_ext; congruence.
  - destruct (ckd_priv k i) as [e|k1] eqn:E; [discriminate|]. intros H. apply IH in H. apply ckd_iff in E. econstructor; eassumption.
  - intros H. inversion H as [|? ? ? s1 ch1 ? ? ? C D]; subst. destruct (held s1 ch1 (child_range _ _ _ _ _ C)) as (k1 & <- & <-).
    rewrite (proj2 (ckd_iff k i k1) C). apply IH, D.
Qed.
Lemma stx_iff text k : at_stx_path (master (bip39_seed text)) = inr k
  <-> exists s ch, master_key (seed_of text) s ch /\ descends s ch stacks_path (xk_secret k) (xk_chain k).
Proof.
  unfold at_stx_path, bip39_seed, seed_of. rewrite stretched_eq. split.
  - destruct (master _) as [e|m] eqn:E; [discriminate|]. intros H. apply path_iff in H. apply master_iff in E. eauto.
  - intros (s & ch & M & D). assert (R : key_range s) by (destruct M as (M & -> & _); exact M).
    destruct (held s ch R) as (m & <- & <-). rewrite (proj2 (master_iff _ m) M). now apply path_iff.
Qed.
(** Derivation itself never reports an unreadable phrase. *)
Lemma path_err path : forall k e, derive_path k path = inl e -> e = Bip32Bad.
Proof.
  assert (X : forall t p i e, xkey_of t p i = inl e -> e = Bip32Bad).
  { intros t p i e. unfold xkey_of. destruct (_ <? _); [|now intros [= <-]]. destruct (Sumbool.sumbool_of_bool _); [discriminate|now intros [= <-]]. }
  induction path as [|i path IH]; intros k e; cbn [derive_path]; [discriminate|]. destruct (ckd_priv k i) as [f|c] eqn:E; [|apply IH].
  intros [= <-]. exact (X _ _ _ _ E).
Qed.
Lemma stx_err text e : at_stx_path (master (bip39_seed text)) = inl e -> e = Bip32Bad.
Proof.
  unfold at_stx_path. destruct (master _) as [f|k] eqn:E; [|apply path_err]. intros [= <-]. revert E. unfold master, xkey_of.
  destruct (_ <? _); [|now intros [= <-]]. destruct (Sumbool.sumbool_of_bool _); [discriminate|now intros [= <-]].
Qed.
Lemma root_iff phrase k : from_mnemonic bip_hd phrase = inr k
  <-> exists ent ws, spells phrase ws /\ sentence ent ws
      /\ exists s ch, master_key (seed_of (joined ws)) s ch /\ descends s ch stacks_path (xk_secret k) (xk_chain k).
Proof.
  destruct (every_text phrase) as (ws & S). cbn [from_mnemonic bip_hd]. rewrite (parse_parsed phrase ws S). split.
  - destruct (parsed ws) as [e|ns] eqn:P; [discriminate|]. apply parsed_ok in P as (F & ent & E). rewrite (text_of_numbers ns ws F). intros H.
    exists ent, ws. split; [exact S|]. split; [exact E|]. now apply stx_iff.
  - intros (ent & ws' & S' & E & R). rewrite <- (spells_fun _ _ _ S S') in E, R. assert (N : exists ns, Forall2 numbered ns ws) by (destruct E as (_ & _ & ns & F & _); eauto).
    destruct N as (ns & F). rewrite (proj2 (parsed_ok ws ns) (conj F (ex_intro _ ent E))), (text_of_numbers ns ws F). now apply stx_iff.
Qed.
(** The refusals of [from_secret_key]. *)
Lemma root_fault phrase e : from_mnemonic bip_hd phrase = inl (Bip39Bad e) <-> exists ws f, spells phrase ws /\ faulty ws f /\ e = told f.
Proof.
  destruct (every_text phrase) as (ws & S). cbn [from_mnemonic bip_hd]. rewrite (parse_parsed phrase ws S). split.
  - destruct (parsed ws) as [f|ns] eqn:P.
    + intros [= <-]. apply parsed_err in P as (g & G & ->). eauto.
    + intros H. now apply stx_err in H.
  - intros (ws' & f & S' & G & ->). rewrite <- (spells_fun _ _ _ S S') in G. rewrite (proj2 (parsed_err ws (told f)) (ex_intro _ f (conj G eq_refl))). reflexivity.
Qed.
Lemma root_bad phrase : from_mnemonic bip_hd phrase = inl Bip32Bad
  <-> exists ent ws, spells phrase ws /\ sentence ent ws
      /\ forall s ch s' ch', master_key (seed_of (joined ws)) s ch -> ~ descends s ch stacks_path s' ch'.
Proof.
  destruct (every_text phrase) as (ws & S). cbn [from_mnemonic bip_hd]. rewrite (parse_parsed phrase ws S). split.
  - destruct (parsed ws) as [e|ns] eqn:P; [discriminate|]. apply parsed_ok in P as (F & ent & E). rewrite (text_of_numbers ns ws F). intros H.
    exists ent, ws. split; [exact S|]. split; [exact E|]. intros s ch s' ch' M D.
    assert (R : key_range s') by (exact (path_range _ _ _ _ _ (master_range _ _ _ M) D)). destruct (held s' ch' R) as (k & <- & <-).
    assert (X : at_stx_path (master (bip39_seed (joined ws))) = inr k) by (apply stx_iff; eauto). congruence.
  - intros (ent & ws' & S' & E & R). rewrite <- (spells_fun _ _ _ S S') in E, R. assert (N : exists ns, Forall2 numbered ns ws) by (destruct E as (_ & _ & ns & F & _); eauto).
    destruct N as (ns & F). rewrite (proj2 (parsed_ok ws ns) (conj F (ex_intro _ ent E))), (text_of_numbers ns ws F).
    destruct (at_stx_path (master (bip39_seed (joined ws)))) as [e|k] eqn:X; [apply stx_err in X; now rewrite X|].
    apply stx_iff in X as (s & ch & M & D). now apply R in D.
Qed.

(** ** Public derivation *)
Lemma secret_sum t s : add (zmul t base_point) (secret_point s) = secret_point ((t + s) mod curve_order).
Proof.
  unfold secret_point. rewrite base_gpt, order_gn, <- zmul_add by apply gpt_on_curve. apply mulg_cong, cong_sym, cong_mod.
  destruct gn_bounds as (B & _). intros E. rewrite E in B. now vm_compute in B.
Qed.
Lemma secret_point_zero s : 0 <= s < curve_order -> (secret_point s = Inf <-> s = 0).
Proof.
  intros R. split; [|now intros ->]. intros E. destruct (Z.eq_dec s 0) as [Z|N]; [exact Z|]. exfalso. rewrite order_gn in R.
  assert (P : 0 < s < gn) by (split; [apply Z.le_neq; split; [apply R|now apply not_eq_sym]|apply R]).
  destruct (mulg_point s P) as (x & y & X & _). unfold secret_point in E. rewrite base_gpt, X in E. discriminate.
Qed.
Lemma public_iff k i P' ch' : ~ hardened i ->
  (child_public (secret_point (xk_secret k)) (xk_chain k) i P' ch'
   <-> exists c, ckd_priv k i = inr c /\ P' = secret_point (xk_secret c) /\ ch' = xk_chain c).
Proof.
  intros NH. split.
  - intros (h & (b & B & ->) & L & E & N & C). rewrite secret_sum in E.
    set (s' := (scalar_z (firstn 32 (hmac (xk_chain k) (b ++ big_endian 4 i))) + xk_secret k) mod curve_order) in *.
    assert (NZ : s' <> 0). { intros Z. apply N. rewrite E. apply secret_point_zero; [apply mod_range|exact Z]. }
    assert (CP : child_private (xk_secret k) (xk_chain k) i s' ch').
    { exists (b ++ big_endian 4 i). split; [right; split; [exact NH|eauto]|]. auto. }
    destruct (held s' ch' (child_range _ _ _ _ _ CP)) as (c & S & H). exists c. rewrite S, H. split; [|auto].
    apply ckd_iff. now rewrite S, H.
  - intros (c & E & -> & ->). apply ckd_iff in E. destruct E as (d & [[H _]|[_ (b & B & ->)]] & L & S & N & C); [contradiction|].
    eexists. split; [exists b; split; [exact B|reflexivity]|]. split; [exact L|]. split; [rewrite secret_sum, <- S; reflexivity|]. split; [|exact C].
    intros X. apply secret_point_zero in X; [contradiction|]. pose proof (secret_range c) as [A D]. split; [apply Z.lt_le_incl, A|exact D].
Qed.

(** ** From a child back to its parent *)
Lemma parent_secret k i c h : ~ hardened i -> ckd_priv k i = inr c -> public_tweak (secret_point (xk_secret k)) (xk_chain k) i h ->
  xk_secret k = (xk_secret c - scalar_z (firstn 32 h)) mod curve_order.
Proof.
  intros NH E (b & B & ->). apply ckd_iff in E. destruct E as (d & [[H _]|[_ (b' & B' & ->)]] & L & S & N & C); [contradiction|].
  rewrite (point_bytes_det _ _ _ B' B) in S. rewrite S. set (t := scalar_z _). rewrite Zminus_mod_idemp_l.
  replace (t + xk_secret k - t) with (xk_secret k) by ring. symmetry. apply Z.mod_small. destruct (secret_range k) as [A D].
  split; [apply Z.lt_le_incl, A|exact D].
Qed.
