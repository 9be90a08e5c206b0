(** Lemmas about the Clarity codec of Clarity.v against SpecWire.v. *)

From Coq Require Import Lia ZifyBool ZifyNat ZifyN.
From Verif Require Import Base BaseFacts Utf8 Utf8Facts Utf8Thms C32 SpecText SpecAddr Clarity SpecWire AddrFacts WireFacts.
Local Open Scope N_scope.

Lemma from_utf8_ok s r : from_utf8 s = Ok r <-> r = s /\ utf8 s.
Proof.
  unfold from_utf8. rewrite <- utf8_valid_iff. destruct (utf8_valid s); split; try discriminate.
  - intros [= <-]. auto.
  - intros [-> _]. reflexivity.
  - intros [_ H]. discriminate H.
Qed.
Lemma from_utf8_yes s : utf8 s -> from_utf8 s = Ok s.
Proof. intros U. apply from_utf8_ok. auto. Qed.

Ltac splits := repeat match goal with |- _ /\ _ => split end.

Lemma ok_inj {E A} (a b : A) : @Ok E A a = Ok b -> a = b.
Proof. intros H. injection H. auto. Qed.
Ltac okinv H := apply ok_inj in H; subst.

(** ** Encoding *)

Fixpoint enc_list (l : list cval) : res cl_err bytes :=
  match l with
  | [] => Ok []
  | x :: r => let* e := encode x in let* t := enc_list r in Ok (e ++ t)
  end.
Fixpoint enc_entries (l : list (bytes * cval)) : res cl_err bytes :=
  match l with
  | [] => Ok []
  | (k, x) :: r =>
    let* ke := enc_lps k in
    let* e := encode x in
    let* t := enc_entries r in Ok (ke ++ e ++ t)
  end.

Lemma encode_list l :
  encode (CList l) = let* n := enc_len32 (lenN l) in let* e := enc_list l in Ok (x0b :: n ++ e).
Proof. reflexivity. Qed.
Lemma encode_fnargs l :
  encode (CFnArgs l) = let* n := enc_len32 (lenN l) in let* e := enc_list l in Ok (n ++ e).
Proof. reflexivity. Qed.
Lemma encode_tuple l :
  encode (CTuple l) = let* n := enc_len32 (lenN l) in let* e := enc_entries l in Ok (x0c :: n ++ e).
Proof. reflexivity. Qed.

Lemma count_lenN {A} (l : list A) : count l = lenN l.
Proof. reflexivity. Qed.

Lemma enc_len32_ok n e : enc_len32 n = Ok e <-> n < 2 ^ 32 /\ e = big_endian 4 n.
Proof.
  unfold enc_len32. rewrite big_endian_be. destruct (N.ltb_spec n (2 ^ 32)); split.
  - intros [= <-]. auto.
  - intros [_ ->]. reflexivity.
  - discriminate.
  - lia.
Qed.

Lemma enc_lps_ok s e : enc_lps s = Ok e <-> count s <= 128 /\ e = big_endian 1 (count s) ++ s.
Proof.
  unfold enc_lps. rewrite big_endian_1. change (count s) with (lenN s).
  destruct (N.ltb_spec 128 (lenN s)); [split; [discriminate | lia]|].
  destruct (N.ltb_spec (lenN s) 256); [|lia]. split.
  - intros [= <-]. auto.
  - intros [_ ->]. reflexivity.
Qed.

Lemma is_ascii_spec s : is_ascii s = true <-> ascii s.
Proof.
  unfold is_ascii, ascii. rewrite forallb_forall, Forall_forall.
  split; intros H x Hx; apply N.ltb_lt; exact (H x Hx).
Qed.

Lemma dec_addr_ok a h v : dec_addr a = Ok (h, v) <-> address_spelling h v a.
Proof. unfold dec_addr. rewrite map_err_ok. apply c32_address_decode_iff. Qed.

Lemma encode_complete c : forall w, means c w -> wall fits1 w -> encode c = Ok (wser w).
Proof.
  induction c using cval_induction; intros [] D [F W]; cbn in D; try contradiction; subst.
  - cbn [encode wser]. rewrite <- twos_complement_u. reflexivity.
  - cbn [encode wser]. rewrite big_endian_be. reflexivity.
  - cbn [encode wser]. change @lenN with @count. cbn in F. rewrite (proj2 (enc_len32_ok _ _) (conj F eq_refl)). reflexivity.
  - reflexivity.
  - reflexivity.
  - cbn [encode wser]. rewrite (proj2 (dec_addr_ok _ _ _) D). reflexivity.
  - destruct D as [D <-]. cbn in F. cbn [encode wser]. rewrite (proj2 (dec_addr_ok _ _ _) D). cbn [bind].
    rewrite (proj2 (enc_lps_ok _ _) (conj F eq_refl)). reflexivity.
  - cbn [encode wser]. rewrite (IHc _ D W). reflexivity.
  - cbn [encode wser]. rewrite (IHc _ D W). reflexivity.
  - reflexivity.
  - cbn [encode wser]. rewrite (IHc _ D W). reflexivity.
  - rewrite encode_list. cbn [wser]. cbn in F, W. rewrite every2_Forall2 in D. rewrite every_Forall in W.
    change @lenN with @count. replace (count l) with (count l0)
      by (unfold count; rewrite (Forall2_length _ _ _ D); reflexivity).
    rewrite (proj2 (enc_len32_ok _ _) (conj F eq_refl)). cbn [bind].
    replace (enc_list l) with (@Ok cl_err bytes (flat_map wser l0)); [reflexivity|].
    clear F. induction D as [|x y l m Hxy D IH]; [reflexivity|]. inv H. inv W.
    cbn [enc_list flat_map]. rewrite (H2 _ Hxy H1). cbn [bind]. rewrite <- (IH H3 H4). reflexivity.
  - rewrite encode_tuple. cbn [wser]. cbn in F, W. rewrite every2_Forall2 in D. destruct F as [F F'].
    rewrite every_Forall in W, F'.
    change @lenN with @count. replace (count l) with (count l0)
      by (unfold count; rewrite (Forall2_length _ _ _ D); reflexivity).
    rewrite (proj2 (enc_len32_ok _ _) (conj F eq_refl)). cbn [bind].
    replace (enc_entries l) with (@Ok cl_err bytes (flat_map wentry l0)); [reflexivity|].
    clear F. induction D as [|[k x] [k' y] l m [Hk Hxy] D IH]; [reflexivity|]. inv H. inv W. inv F'.
    cbn [fst snd] in *. subst k'. cbn [enc_entries flat_map].
    rewrite (proj2 (enc_lps_ok _ _) (conj H5 eq_refl)). cbn [bind].
    rewrite (H2 _ Hxy H1). cbn [bind]. rewrite <- (IH H3 H6 H4). cbn [bind]. unfold wentry at 1. cbn [fst snd].
    rewrite <- !app_assoc. reflexivity.
  - cbn [encode wser]. change @lenN with @count. cbn in F. destruct F as [F F']. apply is_ascii_spec in F. rewrite F.
    rewrite (proj2 (enc_len32_ok _ _) (conj F' eq_refl)). reflexivity.
  - cbn [encode wser]. change @lenN with @count. cbn in F. rewrite (proj2 (enc_len32_ok _ _) (conj F eq_refl)). reflexivity.
  - cbn [encode wser]. change @lenN with @count. cbn in F. apply enc_lps_ok. auto.
  - rewrite encode_fnargs. cbn [wser]. cbn in F, W. rewrite every2_Forall2 in D. rewrite every_Forall in W.
    change @lenN with @count. replace (count l) with (count l0)
      by (unfold count; rewrite (Forall2_length _ _ _ D); reflexivity).
    rewrite (proj2 (enc_len32_ok _ _) (conj F eq_refl)). cbn [bind].
    replace (enc_list l) with (@Ok cl_err bytes (flat_map wser l0)); [reflexivity|].
    clear F. induction D as [|x y l m Hxy D IH]; [reflexivity|]. inv H. inv W.
    cbn [enc_list flat_map]. rewrite (H2 _ Hxy H1). cbn [bind]. rewrite <- (IH H3 H4). reflexivity.
Qed.

Lemma enc_list_sound l :
  Forall (fun c => forall e, encode c = Ok e -> exists w, means c w /\ wall fits1 w /\ e = wser w) l ->
  forall e, enc_list l = Ok e -> exists ws, Forall2 means l ws /\ Forall (wall fits1) ws /\ e = flat_map wser ws.
Proof.
  induction 1 as [|x l Hx Hl IH]; intros e H; cbn [enc_list] in H.
  - injection H as <-. exists []. auto.
  - bind_inv. injection H as <-. destruct (Hx _ eq_refl) as (w & M & F & ->).
    destruct (IH _ eq_refl) as (ws & Ms & Fs & ->). exists (w :: ws). auto.
Qed.

Lemma enc_entries_sound l :
  Forall (fun kv => forall e, encode (snd kv) = Ok e ->
    exists w, means (snd kv) w /\ wall fits1 w /\ e = wser w) l ->
  forall e, enc_entries l = Ok e ->
  exists ws, Forall2 (fun a b => fst a = fst b /\ means (snd a) (snd b)) l ws
             /\ Forall (fun kv => wall fits1 (snd kv)) ws /\ Forall (fun kv => count (fst kv) <= 128) ws
             /\ e = flat_map wentry ws.
Proof.
  induction 1 as [|[k x] l Hx Hl IH]; intros e H; cbn [enc_entries] in H.
  - injection H as <-. exists []. auto.
  - bind_inv. injection H as <-. destruct (Hx _ Hr0) as (w & M & F & ->).
    destruct (IH _ eq_refl) as (ws & Ms & Fs & Ks & ->). apply enc_lps_ok in Hr. destruct Hr as [K ->].
    exists ((k, w) :: ws). splits; try (constructor; auto; fail).
    cbn [flat_map]. unfold wentry at 2. cbn [fst snd]. rewrite <- !app_assoc. reflexivity.
Qed.

Lemma encode_sound c : forall e, encode c = Ok e ->
  exists w, means c w /\ wall fits1 w /\ e = wser w.
Proof.
  induction c using cval_induction; intros e E.
  - cbn [encode] in E. okinv E. exists (WInt z). splits; cbn [wall fits1 wser]; auto; [reflexivity|].
    rewrite <- twos_complement_u. reflexivity.
  - cbn [encode] in E. okinv E. exists (WUInt n). splits; cbn [wall fits1 wser]; auto; [reflexivity|].
    rewrite big_endian_be. reflexivity.
  - cbn [encode] in E. bind_inv. okinv E. apply enc_len32_ok in Hr. destruct Hr as [L ->].
    exists (WBuf b). splits; cbn [wall fits1]; auto; reflexivity.
  - okinv E. exists WTrue. cbn. auto.
  - okinv E. exists WFalse. cbn. auto.
  - cbn [encode] in E. bind_inv. destruct a0 as [h v]. okinv E. apply dec_addr_ok in Hr.
    exists (WStd v h). cbn. auto.
  - cbn [encode] in E. bind_inv. destruct a0 as [h v]. bind_inv. okinv E. apply dec_addr_ok in Hr.
    apply enc_lps_ok in Hr0. destruct Hr0 as [L ->].
    exists (WCon v h n). cbn [means wall fits1 wser denotes]. auto.
  - cbn [encode] in E. bind_inv. okinv E. destruct (IHc _ eq_refl) as (w & M & F & ->).
    exists (WOk w). cbn. auto.
  - cbn [encode] in E. bind_inv. okinv E. destruct (IHc _ eq_refl) as (w & M & F & ->).
    exists (WErr w). cbn. auto.
  - okinv E. exists WNone. cbn. auto.
  - cbn [encode] in E. bind_inv. okinv E. destruct (IHc _ eq_refl) as (w & M & F & ->).
    exists (WSome w). cbn. auto.
  - rewrite encode_list in E. bind_inv. okinv E. apply enc_len32_ok in Hr. destruct Hr as [L ->].
    destruct (enc_list_sound _ H _ Hr0) as (ws & M & F & ->).
    assert (EL : lenN l = count ws) by (unfold lenN, count; rewrite (Forall2_length _ _ _ M); reflexivity).
    rewrite EL in *. exists (WList ws). cbn [denotes wall fits1 wser]. rewrite every2_Forall2, every_Forall. auto.
  - rewrite encode_tuple in E. bind_inv. okinv E. apply enc_len32_ok in Hr. destruct Hr as [L ->].
    destruct (enc_entries_sound _ H _ Hr0) as (ws & M & F & K & ->).
    assert (EL : lenN l = count ws) by (unfold lenN, count; rewrite (Forall2_length _ _ _ M); reflexivity).
    rewrite EL in *. exists (WTuple ws). cbn [denotes wall fits1 wser]. rewrite every2_Forall2, !every_Forall. auto.
  - cbn [encode] in E. destruct (is_ascii s) eqn:A; [|discriminate]. bind_inv. okinv E.
    apply enc_len32_ok in Hr. destruct Hr as [L ->]. apply is_ascii_spec in A.
    exists (WAscii s). cbn [denotes wall fits1 wser]. auto.
  - cbn [encode] in E. bind_inv. okinv E.
    apply enc_len32_ok in Hr. destruct Hr as [L ->].
    exists (WUtf8 s). cbn [denotes wall fits1 wser]. auto.
  - cbn [encode] in E. apply enc_lps_ok in E. destruct E as [L ->]. exists (WName s). cbn [denotes wall fits1 wser]. auto.
  - rewrite encode_fnargs in E. bind_inv. okinv E. apply enc_len32_ok in Hr. destruct Hr as [L ->].
    destruct (enc_list_sound _ H _ Hr0) as (ws & M & F & ->).
    assert (EL : lenN l = count ws) by (unfold lenN, count; rewrite (Forall2_length _ _ _ M); reflexivity).
    rewrite EL in *. exists (WArgs ws). cbn [denotes wall fits1 wser]. rewrite every2_Forall2, every_Forall. auto.
Qed.

Lemma encode_iff c e : encode c = Ok e <-> exists w, means c w /\ wall fits1 w /\ e = wser w.
Proof.
  split; [apply encode_sound|]. intros (w & M & F & ->). apply encode_complete; assumption.
Qed.

Lemma encode_of_means c w e : means c w -> encode c = Ok e -> wall fits1 w /\ e = wser w.
Proof.
  intros M E. destruct (encode_sound _ _ E) as (w' & M' & F & ->).
  rewrite (means_fun _ _ _ M M'). auto.
Qed.

(** ** Never a panic *)

Definition settled {E A} (r : res E A) : Prop := (exists a, r = Ok a) \/ (exists e, r = Err e).

Lemma settled_ok {E A} (a : A) : settled (@Ok E A a).
Proof. left. eauto. Qed.
Lemma settled_err {E A} (e : E) : settled (@Err E A e).
Proof. right. eauto. Qed.
Lemma settled_bind {E A B} (r : res E A) (k : A -> res E B) :
  settled r -> (forall a, r = Ok a -> settled (k a)) -> settled (bind r k).
Proof. intros [[a ->] | [e ->]] H; cbn; [auto | apply settled_err]. Qed.
#[export] Hint Resolve settled_ok settled_err : core.

Lemma enc_len32_settled n : settled (enc_len32 n).
Proof. unfold enc_len32. destruct (n <? 2 ^ 32); auto. Qed.
Lemma enc_lps_settled n : settled (enc_lps n).
Proof. unfold enc_lps. destruct (128 <? lenN n); auto. destruct (lenN n <? 256); auto. Qed.
Lemma dec_addr_settled a : settled (dec_addr a).
Proof.
  unfold dec_addr. destruct (c32_address_decode_no_panic a) as [[x ->] | [x ->]]; cbn; auto.
Qed.

Lemma encode_settled c : settled (encode c).
Proof.
  induction c using cval_induction; try (cbn [encode]; auto; fail).
  - cbn [encode]. apply settled_bind; [apply enc_len32_settled | auto].
  - cbn [encode]. apply settled_bind; [apply dec_addr_settled | intros [] _; auto].
  - cbn [encode]. apply settled_bind; [apply dec_addr_settled | intros [] _].
    apply settled_bind; [apply enc_lps_settled | auto].
  - cbn [encode]. apply settled_bind; auto.
  - cbn [encode]. apply settled_bind; auto.
  - cbn [encode]. apply settled_bind; auto.
  - rewrite encode_list. apply settled_bind; [apply enc_len32_settled | intros ? _].
    apply settled_bind; [|auto]. induction H; cbn [enc_list]; auto.
    apply settled_bind; [assumption | intros ? _]. apply settled_bind; auto.
  - rewrite encode_tuple. apply settled_bind; [apply enc_len32_settled | intros ? _].
    apply settled_bind; [|auto]. induction H as [|[k x] l Hx Hl IH]; cbn [enc_entries]; auto.
    apply settled_bind; [apply enc_lps_settled | intros ? _].
    apply settled_bind; [assumption | intros ? _]. apply settled_bind; auto.
  - cbn [encode]. destruct (is_ascii s); auto. apply settled_bind; [apply enc_len32_settled | auto].
  - cbn [encode]. apply settled_bind; [apply enc_len32_settled | auto].
  - cbn [encode]. apply enc_lps_settled.
  - rewrite encode_fnargs. apply settled_bind; [apply enc_len32_settled | intros ? _].
    apply settled_bind; [|auto]. induction H; cbn [enc_list]; auto.
    apply settled_bind; [assumption | intros ? _]. apply settled_bind; auto.
Qed.

(** ** Decoding what was serialized *)

Lemma read_len32_ok x n t : n < 2 ^ 32 -> read_len32 (x :: big_endian 4 n ++ t) = Ok n.
Proof.
  intros H. rewrite big_endian_be.
  pose proof (be_val_be_bytes_small 4 n H) as V. pose proof (be_bytes_length 4 n) as L.
  destruct (be_bytes 4 n) as [|a [|b [|c [|d [|]]]]]; try discriminate L.
  unfold read_len32. cbn. f_equal. exact V.
Qed.

Lemma read_len32_inv bs n : read_len32 bs = Ok n ->
  exists x t, bs = x :: big_endian 4 n ++ t /\ n < 2 ^ 32.
Proof.
  unfold read_len32, index. destruct bs as [|x [|a [|b [|c [|d t]]]]]; cbn [nth_error bind]; try discriminate.
  intros H. okinv H. exists x, t. rewrite big_endian_be.
  split; [|apply (be_val_bound [a; b; c; d])].
  rewrite (be_bytes_be_val [a; b; c; d] : be_bytes 4 _ = _). reflexivity.
Qed.

Lemma check_id_ok t r : check_id t (ty_id t :: r) = Ok tt.
Proof. unfold check_id, index. cbn [nth_error bind]. rewrite byte_eqb_refl. reflexivity. Qed.

Lemma check_id_inv t bs u : check_id t bs = Ok u -> exists r, bs = ty_id t :: r.
Proof.
  unfold check_id, index. destruct bs as [|b r]; cbn [nth_error bind]; [discriminate|].
  destruct (byte_eqb_spec b (ty_id t)); [|discriminate]. intros _. exists r. congruence.
Qed.

Lemma drop5 {E} x n t : @drop_slice E 5 (x :: big_endian 4 n ++ t) = Ok t.
Proof.
  pose proof (@drop_slice_app E (x :: big_endian 4 n) t) as D.
  cbn [length] in D. rewrite big_endian_length in D. exact D.
Qed.

Lemma drop1 {E} x t : @drop_slice E 1 (x :: t) = Ok t.
Proof. reflexivity. Qed.

Lemma c32_address_canonical h v a : stacks_version v -> address_text h v a -> c32_address h v = Ok a.
Proof.
  intros V T. destruct (c32_address_ok h v V) as (s & -> & T' & _).
  rewrite (address_text_unique _ _ _ _ T T'). reflexivity.
Qed.

Lemma wser_nonempty w : wall std1 w -> (1 <= length (wser w))%nat.
Proof. destruct w; cbn [wall]; intros [S _]; try destruct S; cbn [wser length]; lia. Qed.

Lemma decodable_std w : decodable w -> std1 w.
Proof. destruct w; cbn; auto. Qed.

Lemma decodable_nonempty w : decodable w -> (1 <= length (wser w))%nat.
Proof. intros D. apply decodable_std in D. destruct w; try destruct D; cbn [wser length]; lia. Qed.

Definition dec_hits (f : nat) (w : wval) : Prop :=
  forall c, decodable w -> canonically_means c w ->
  forall t, decode_fuel f (wser w ++ t) = Ok c.

Lemma dec_items_complete (dec : bytes -> res cl_err cval) ws :
  Forall (fun w => forall c t, canonically_means c w -> dec (wser w ++ t) = Ok c) ws ->
  forall cs g t, Forall (wall fits1) ws ->
  Forall2 canonically_means cs ws -> (length ws <= g)%nat ->
  dec_items dec g (count ws) (flat_map wser ws ++ t) = Ok cs.
Proof.
  induction 1 as [|w ws Hw Hws IH]; intros cs g t D M G; inv M.
  - destruct g; reflexivity.
  - apply Forall_cons_iff in D. destruct D as [F Ds].
    destruct g as [|g]; cbn in G; [lia|]. cbn [dec_items].
    destruct (N.eqb_spec (count (w :: ws)) 0); [unfold count in *; cbn in *; lia|].
    cbn [flat_map]. rewrite <- app_assoc. rewrite (Hw _ _ H2). cbn [bind].
    rewrite (encode_complete x w (canonical_means _ _ H2) F). cbn [bind].
    rewrite drop_slice_app. cbn [bind].
    replace (count (w :: ws) - 1) with (count ws) by (unfold count; cbn [length]; lia).
    rewrite (IH _ _ _ Ds H3) by lia. reflexivity.
Qed.

Lemma n2b_count (k : bytes) : count k < 256 -> b2n (n2b (count k)) = lenN k.
Proof. intros H. rewrite b2n_n2b_small by exact H. reflexivity. Qed.

Lemma dec_entries_complete (dec : bytes -> res cl_err cval) ws :
  Forall (fun kv => forall c t, canonically_means c (snd kv) -> dec (wser (snd kv) ++ t) = Ok c) ws ->
  forall cs g t,
  Forall (fun kv => count (fst kv) < 256 /\ utf8 (fst kv) /\ wall fits1 (snd kv)) ws ->
  Forall2 (fun a b => fst a = fst b /\ canonically_means (snd a) (snd b)) cs ws -> (length ws <= g)%nat ->
  dec_entries dec g (count ws) (flat_map wentry ws ++ t) = Ok cs.
Proof.
  induction 1 as [|[k w] ws Hw Hws IH]; intros cs g t D M G; inv M.
  - destruct g; reflexivity.
  - apply Forall_cons_iff in D. destruct D as [(K & U & F) Ds]. destruct x as [k' c].
    cbn [fst snd] in *. destruct H2 as [-> H2].
    destruct g as [|g]; cbn in G; [lia|]. cbn [dec_entries].
    destruct (N.eqb_spec (count ((k, w) :: ws)) 0); [unfold count in *; cbn in *; lia|].
    cbn [flat_map]. unfold wentry at 1 2 3. cbn [fst snd]. rewrite big_endian_1. cbn [app].
    unfold index at 1. cbn [nth_error bind].
    rewrite drop1. cbn [bind].
    rewrite n2b_count by exact K. rewrite <- !app_assoc. rewrite take_slice_app. cbn [bind].
    rewrite (from_utf8_yes _ U). cbn [bind]. rewrite drop_slice_app. cbn [bind].
    rewrite (Hw _ _ H2). cbn [bind].
    rewrite (encode_complete c w (canonical_means _ _ H2) F). cbn [bind].
    rewrite drop_slice_app. cbn [bind].
    replace (count ((k, w) :: ws) - 1) with (count ws) by (unfold count; cbn [length]; lia).
    rewrite (IH _ _ _ Ds H3) by lia. reflexivity.
Qed.

Lemma flat_len_ge {A} (f : A -> bytes) l : Forall (fun x => 1 <= length (f x))%nat l ->
  (length l <= length (flat_map f l))%nat.
Proof. induction 1; cbn [flat_map length]; rewrite ?app_length; lia. Qed.

Lemma flat_len_in {A} (f : A -> bytes) l x : In x l -> (length (f x) <= length (flat_map f l))%nat.
Proof.
  induction l as [|y l IH]; intros H; [destruct H|]. cbn [flat_map]. rewrite app_length.
  destruct H as [-> | H]; [lia | specialize (IH H); lia].
Qed.

Lemma wentry_len kv : (length (wser (snd kv)) <= length (wentry kv))%nat.
Proof. unfold wentry. rewrite !app_length. lia. Qed.
Lemma wentry_pos kv : (1 <= length (wentry kv))%nat.
Proof. unfold wentry. rewrite !app_length, big_endian_length. lia. Qed.

Lemma decode_complete w : decodable w -> forall c, canonically_means c w ->
  forall f t, (length (wser w) <= f)%nat -> decode_fuel f (wser w ++ t) = Ok c.
Proof.
  induction w using wval_induction; intros D c M f t L;
    (destruct f as [|f]; [pose proof (decodable_nonempty _ D); lia|]);
    destruct c; cbn [denotes] in M; try contradiction; try (destruct D; fail); subst.
  - change (dec_int (wser (WInt z) ++ t) = Ok (CInt z)). cbn [wser]. unfold dec_int.
    cbn [app]. rewrite (check_id_ok TInt). cbn [bind].
    rewrite (proj2 (sub_slice_ok 1 16 _ (twos_complement z))).
    + cbn [bind]. rewrite twos_complement_u, be_val_be_bytes_small by apply u128_of_i128_bound.
      rewrite i128_u128 by exact D. reflexivity.
    + exists [x00], t. repeat split.
  - change (dec_uint (wser (WUInt n) ++ t) = Ok (CUInt n)). cbn [wser]. unfold dec_uint.
    cbn [app]. rewrite (check_id_ok TUInt). cbn [bind].
    rewrite (proj2 (sub_slice_ok 1 16 _ (big_endian 16 n))).
    + cbn [bind]. rewrite big_endian_be, be_val_be_bytes_small by exact D. reflexivity.
    + exists [x01], t. repeat split.
  - change (dec_buffer (wser (WBuf b) ++ t) = Ok (CBuffer b)). cbn [wser app]. unfold dec_buffer.
    rewrite (check_id_ok TBuffer). cbn [bind]. rewrite <- app_assoc.
    rewrite read_len32_ok by exact D. cbn [bind]. rewrite drop5. cbn [bind].
    rewrite take_slice_app. reflexivity.
  - reflexivity.
  - reflexivity.
  - change (dec_prin_std (wser (WStd v h) ++ t) = Ok (CPrinStd addr)). cbn [wser app]. unfold dec_prin_std.
    destruct D as [V H]. rewrite (check_id_ok TPrinStd). cbn [bind].
    rewrite (proj2 (sub_slice_ok 2 20 _ h)) by (exists [x05; v], t; auto). cbn [bind].
    unfold index. cbn [nth_error bind]. rewrite (c32_address_canonical _ _ _ V M). reflexivity.
  - change (dec_prin_con (wser (WCon v h n) ++ t) = Ok (CPrinCon addr name)). cbn [wser app]. unfold dec_prin_con.
    destruct D as (V & H & C & U). destruct M as [M ->]. rewrite (check_id_ok TPrinCon). cbn [bind].
    rewrite <- !app_assoc. rewrite big_endian_1.
    rewrite (proj2 (sub_slice_ok 2 20 _ h)) by (exists [x06; v], ([n2b (count n)] ++ n ++ t); auto). cbn [bind].
    unfold index at 1. cbn [nth_error bind]. rewrite (c32_address_canonical _ _ _ V M). cbn [bind map_err].
    rewrite (proj2 (index_ok 22 _ (n2b (count n)))).
    2:{ change (nth_error (h ++ [n2b (count n)] ++ n ++ t) 20 = Some (n2b (count n))).
        rewrite nth_error_app2 by lia. rewrite H. reflexivity. }
    cbn [bind]. rewrite (proj2 (drop_slice_ok 23 _ (n ++ t))).
    2:{ exists (x06 :: v :: h ++ [n2b (count n)]). split.
        - cbn [app]. rewrite <- app_assoc. reflexivity.
        - cbn [length]. rewrite app_length, H. reflexivity. }
    cbn [bind]. rewrite n2b_count by exact C. rewrite take_slice_app. cbn [bind].
    rewrite (from_utf8_yes _ U). reflexivity.
  - change (dec_wrap (decode_fuel f) TRespOk CRespOk (wser (WOk w) ++ t) = Ok (CRespOk c)).
    cbn [wser app] in L |- *. unfold dec_wrap. rewrite (check_id_ok TRespOk). cbn [bind].
    rewrite drop1. cbn [bind]. cbn [length] in L.
    rewrite (IHw D _ M) by lia. reflexivity.
  - change (dec_wrap (decode_fuel f) TRespErr CRespErr (wser (WErr w) ++ t) = Ok (CRespErr c)).
    cbn [wser app] in L |- *. unfold dec_wrap. rewrite (check_id_ok TRespErr). cbn [bind].
    rewrite drop1. cbn [bind]. cbn [length] in L.
    rewrite (IHw D _ M) by lia. reflexivity.
  - reflexivity.
  - change (dec_wrap (decode_fuel f) TSome CSome (wser (WSome w) ++ t) = Ok (CSome c)).
    cbn [wser app] in L |- *. unfold dec_wrap. rewrite (check_id_ok TSome). cbn [bind].
    rewrite drop1. cbn [bind]. cbn [length] in L.
    rewrite (IHw D _ M) by lia. reflexivity.
  - change (dec_list (decode_fuel f) (wser (WList l) ++ t) = Ok (CList l0)).
    destruct D as [C D]. rewrite every_Forall in D. rewrite every2_Forall2 in M.
    cbn [wser app] in L |- *. unfold dec_list. rewrite (check_id_ok TList). cbn [bind]. rewrite <- app_assoc.
    rewrite read_len32_ok by exact C. cbn [bind]. rewrite drop5. cbn [bind].
    rewrite Forall_forall in H, D.
    rewrite dec_items_complete with (cs := l0); [reflexivity | | | exact M |].
    + apply Forall_forall. intros x Hx c0 t0 Mx. destruct (D x Hx) as [Dx _].
      apply (H x Hx Dx c0 Mx). pose proof (flat_len_in wser l x Hx).
      cbn [length] in L. rewrite app_length in L. lia.
    + apply Forall_forall. intros x Hx. apply (D x Hx).
    + rewrite app_length. pose proof (flat_len_ge wser l) as G.
      assert (Forall (fun x => 1 <= length (wser x))%nat l) as G'.
      { apply Forall_forall. intros x Hx. apply decodable_nonempty. apply (D x Hx). }
      specialize (G G'). lia.
  - change (dec_tuple (decode_fuel f) (wser (WTuple l) ++ t) = Ok (CTuple l0)).
    destruct D as [C D]. rewrite every_Forall in D. rewrite every2_Forall2 in M.
    cbn [wser app] in L |- *. unfold dec_tuple. rewrite (check_id_ok TTuple). cbn [bind]. rewrite <- app_assoc.
    rewrite read_len32_ok by exact C. cbn [bind]. rewrite drop5. cbn [bind].
    change (fun kv : bytes * wval => big_endian 1 (count (fst kv)) ++ fst kv ++ wser (snd kv)) with wentry in *.
    rewrite Forall_forall in H, D.
    rewrite dec_entries_complete with (cs := l0); [reflexivity | | | exact M |].
    + apply Forall_forall. intros x Hx c0 t0 Mx. destruct (D x Hx) as (_ & _ & Dx & _).
      apply (H x Hx Dx c0 Mx). pose proof (flat_len_in wentry l x Hx). pose proof (wentry_len x).
      cbn [length] in L. rewrite app_length in L. lia.
    + apply Forall_forall. intros x Hx. destruct (D x Hx) as (? & ? & ? & ?). auto.
    + rewrite app_length. pose proof (flat_len_ge wentry l) as G.
      assert (Forall (fun x => 1 <= length (wentry x))%nat l) as G'.
      { apply Forall_forall. intros x Hx. apply wentry_pos. }
      specialize (G G'). lia.
  - change (dec_ascii (wser (WAscii s) ++ t) = Ok (CAscii s)). cbn [wser app]. unfold dec_ascii.
    destruct D as [D U].
    rewrite (check_id_ok TAscii). cbn [bind]. rewrite <- app_assoc.
    rewrite read_len32_ok by exact D. cbn [bind]. rewrite drop5. cbn [bind].
    rewrite take_slice_app. cbn [bind]. rewrite (from_utf8_yes _ U). reflexivity.
  - change (dec_utf8 (wser (WUtf8 s) ++ t) = Ok (CUtf8 s)). cbn [wser app]. unfold dec_utf8.
    destruct D as [D U]. rewrite <- app_assoc.
    rewrite read_len32_ok by exact D. cbn [bind]. rewrite drop5. cbn [bind].
    rewrite take_slice_app. cbn [bind]. rewrite (from_utf8_yes _ U). reflexivity.
Qed.

(** ** What is decoded was serialized *)

Definition reads (bs : bytes) (c : cval) : Prop :=
  exists w t, bs = wser w ++ t /\ decodable w /\ canonically_means c w.

Lemma dec_int_sound bs c : dec_int bs = Ok c -> reads bs c.
Proof.
  unfold dec_int. intros H. bind_inv. okinv H. apply check_id_inv in Hr. destruct Hr as [r ->].
  apply sub_slice_ok in Hr0. destruct Hr0 as (p & t & E & P & A).
  destruct p as [|x [|? ?]]; try discriminate P. cbn [app] in E. apply cons_both in E. destruct E as [<- ->].
  pose proof (be_val_bound a0) as B. rewrite A in B. change (256 ^ N.of_nat 16) with (2 ^ 128) in B.
  exists (WInt (i128_of_u128 (be_val a0))), t. splits.
  - cbn [wser app]. rewrite twos_complement_u, (u128_i128 _ B). rewrite <- A, be_bytes_be_val. reflexivity.
  - cbn. apply i128_of_u128_range. exact B.
  - reflexivity.
Qed.

Lemma dec_uint_sound bs c : dec_uint bs = Ok c -> reads bs c.
Proof.
  unfold dec_uint. intros H. bind_inv. okinv H. apply check_id_inv in Hr. destruct Hr as [r ->].
  apply sub_slice_ok in Hr0. destruct Hr0 as (p & t & E & P & A).
  destruct p as [|x [|? ?]]; try discriminate P. cbn [app] in E. apply cons_both in E. destruct E as [<- ->].
  pose proof (be_val_bound a0) as B. rewrite A in B. change (256 ^ N.of_nat 16) with (2 ^ 128) in B.
  exists (WUInt (be_val a0)), t. splits.
  - cbn [wser app]. rewrite big_endian_be. rewrite <- A, be_bytes_be_val. reflexivity.
  - exact B.
  - reflexivity.
Qed.

(** Common shape of buffers and strings. *)
Lemma counted_inv bs n r s : read_len32 bs = Ok n -> @drop_slice cl_err 5 bs = Ok r -> @take_slice cl_err n r = Ok s ->
  exists x t, bs = x :: big_endian 4 (count s) ++ s ++ t /\ count s < 2 ^ 32.
Proof.
  intros L D T. apply read_len32_inv in L. destruct L as (x & t & -> & B).
  rewrite drop5 in D. okinv D. apply take_slice_ok in T. destruct T as (t' & -> & <-).
  exists x, t'. auto.
Qed.

Lemma dec_buffer_sound bs c : dec_buffer bs = Ok c -> reads bs c.
Proof.
  unfold dec_buffer. intros H. bind_inv. okinv H. apply check_id_inv in Hr. destruct Hr as [r ->].
  destruct (counted_inv _ _ _ _ Hr0 Hr1 Hr2) as (x & t & E & B).
  apply cons_both in E. destruct E as [<- ->].
  exists (WBuf a2), t. splits; [|exact B|reflexivity]. cbn [wser app]. rewrite <- app_assoc. reflexivity.
Qed.

Lemma dec_ascii_sound bs c : dec_ascii bs = Ok c -> reads bs c.
Proof.
  unfold dec_ascii. intros H. bind_inv. okinv H. apply check_id_inv in Hr. destruct Hr as [r ->].
  destruct (counted_inv _ _ _ _ Hr0 Hr1 Hr2) as (x & t & E & B).
  apply cons_both in E. destruct E as [<- ->]. apply from_utf8_ok in Hr3. destruct Hr3 as [-> U].
  exists (WAscii a2), t. splits; [|cbn; auto..]. cbn [wser app]. rewrite <- app_assoc. reflexivity.
Qed.

Lemma dec_utf8_sound r c : dec_utf8 (x0e :: r) = Ok c -> reads (x0e :: r) c.
Proof.
  unfold dec_utf8. intros H. bind_inv. okinv H.
  destruct (counted_inv _ _ _ _ Hr Hr0 Hr1) as (x & t & E & B).
  apply cons_both in E. destruct E as [<- ->]. apply from_utf8_ok in Hr2. destruct Hr2 as [-> U].
  exists (WUtf8 a1), t. splits; [|cbn; auto..]. cbn [wser app]. rewrite <- app_assoc. reflexivity.
Qed.

Lemma dec_prin_std_sound bs c : dec_prin_std bs = Ok c -> reads bs c.
Proof.
  unfold dec_prin_std. intros H. bind_inv. okinv H. apply check_id_inv in Hr. destruct Hr as [r ->].
  apply sub_slice_ok in Hr0. destruct Hr0 as (p & t & E & P & A).
  destruct p as [|x [|y [|]]]; try discriminate P. cbn [app] in E. apply cons_both in E. destruct E as [<- ->].
  unfold index in Hr1. cbn [nth_error] in Hr1. okinv Hr1. apply map_err_ok in Hr2.
  apply c32_address_text in Hr2. destruct Hr2 as [V T].
  exists (WStd a1 a0), t. splits; [reflexivity | cbn; auto | exact T].
Qed.

Lemma dec_prin_con_sound bs c : dec_prin_con bs = Ok c -> reads bs c.
Proof.
  unfold dec_prin_con. intros H. bind_inv. okinv H. apply check_id_inv in Hr. destruct Hr as [r ->].
  apply sub_slice_ok in Hr0. destruct Hr0 as (p & t & E & P & A).
  destruct p as [|x [|y [|]]]; try discriminate P. cbn [app] in E. apply cons_both in E. destruct E as [<- ->].
  unfold index in Hr1. cbn [nth_error] in Hr1. okinv Hr1. apply map_err_ok in Hr2.
  apply c32_address_text in Hr2. destruct Hr2 as [V T].
  apply drop_slice_ok in Hr4. destruct Hr4 as (q & E & Q).
  apply index_ok in Hr3. change (ty_id TPrinCon :: a1 :: a0 ++ t) with ((ty_id TPrinCon :: a1 :: a0) ++ t) in E, Hr3.
  rewrite nth_error_app2 in Hr3 by (cbn [length]; lia). cbn [length] in Hr3. rewrite A in Hr3.
  destruct t as [|k t]; cbn in Hr3; [discriminate|]. injection Hr3 as <-.
  change ((ty_id TPrinCon :: a1 :: a0) ++ k :: t) with ((ty_id TPrinCon :: a1 :: a0) ++ [k] ++ t) in E.
  rewrite app_assoc in E. apply app_inj_len in E; [|rewrite app_length; cbn [length]; lia].
  destruct E as [<- ->]. apply take_slice_ok in Hr5. destruct Hr5 as (t' & -> & L).
  apply from_utf8_ok in Hr6. destruct Hr6 as [-> U].
  exists (WCon a1 a0 a5), t'. splits.
  - cbn [wser app ty_id]. rewrite big_endian_1. rewrite <- !app_assoc. cbn [app].
    change (count a5) with (lenN a5). rewrite L, n2b_b2n. reflexivity.
  - cbn. splits; auto. change (count a5) with (lenN a5). rewrite L. apply b2n_lt.
  - cbn. auto.
Qed.

Lemma items_step v e bs (r : bytes) : reads bs v -> encode v = Ok e -> @drop_slice cl_err (length e) bs = Ok r ->
  exists w, bs = wser w ++ r /\ decodable w /\ wall fits1 w /\ canonically_means v w.
Proof.
  intros (w & t & -> & D & M) E S. destruct (encode_of_means _ _ _ (canonical_means _ _ M) E) as [F ->].
  rewrite drop_slice_app in S. okinv S. exists w. auto.
Qed.

Lemma dec_items_sound (dec : bytes -> res cl_err cval) :
  (forall bs c, dec bs = Ok c -> reads bs c) ->
  forall g n bs vs, dec_items dec g n bs = Ok vs ->
  exists ws t, bs = flat_map wser ws ++ t /\ count ws = n /\ Forall2 canonically_means vs ws
               /\ Forall (fun w => decodable w /\ wall fits1 w) ws.
Proof.
  intros HD. induction g as [|g IH]; intros n bs vs H; cbn [dec_items] in H;
    (destruct (N.eqb_spec n 0); [okinv H; exists [], bs; splits; constructor|]); [discriminate|].
  bind_inv. okinv H. apply HD in Hr.
  destruct (items_step _ _ _ _ Hr Hr0 Hr1) as (w & -> & D & F & M).
  destruct (IH _ _ _ Hr2) as (ws & t & -> & C & Ms & Ds).
  exists (w :: ws), t. cbn [flat_map]. rewrite <- app_assoc. splits; auto.
  unfold count in *. cbn [length]. lia.
Qed.

Lemma dec_entries_sound (dec : bytes -> res cl_err cval) :
  (forall bs c, dec bs = Ok c -> reads bs c) ->
  forall g n bs vs, dec_entries dec g n bs = Ok vs ->
  exists ws t, bs = flat_map wentry ws ++ t /\ count ws = n
    /\ Forall2 (fun a b => fst a = fst b /\ canonically_means (snd a) (snd b)) vs ws
    /\ Forall (fun kv => count (fst kv) < 256 /\ utf8 (fst kv)
                         /\ decodable (snd kv) /\ wall fits1 (snd kv)) ws.
Proof.
  intros HD. induction g as [|g IH]; intros n bs vs H; cbn [dec_entries] in H;
    (destruct (N.eqb_spec n 0); [okinv H; exists [], bs; splits; constructor|]); [discriminate|].
  bind_inv. okinv H. destruct bs as [|k bs]; [discriminate Hr|]. unfold index in Hr. cbn in Hr. okinv Hr.
  rewrite drop1 in Hr0. okinv Hr0. apply take_slice_ok in Hr1. destruct Hr1 as (t0 & -> & L).
  apply from_utf8_ok in Hr2. destruct Hr2 as [-> U]. rewrite drop_slice_app in Hr3. okinv Hr3.
  apply HD in Hr4. destruct (items_step _ _ _ _ Hr4 Hr5 Hr6) as (w & -> & D & F & M).
  destruct (IH _ _ _ Hr7) as (ws & t & -> & C & Ms & Ds).
  exists ((a1, w) :: ws), t. cbn [flat_map]. splits.
  - unfold wentry at 2. cbn [fst snd]. rewrite big_endian_1. rewrite <- !app_assoc. cbn [app].
    change (count a1) with (lenN a1). rewrite L, n2b_b2n. reflexivity.
  - unfold count in *. cbn [length]. lia.
  - constructor; auto.
  - constructor; [|exact Ds]. cbn [fst snd]. splits; auto.
    change (count a1) with (lenN a1). rewrite L. apply b2n_lt.
Qed.

Lemma dec_list_sound dec : (forall bs c, dec bs = Ok c -> reads bs c) ->
  forall bs c, dec_list dec bs = Ok c -> reads bs c.
Proof.
  intros HD bs c H. unfold dec_list in H. bind_inv. okinv H. apply check_id_inv in Hr. destruct Hr as [r ->].
  apply read_len32_inv in Hr0. destruct Hr0 as (x & t & E & B). apply cons_both in E. destruct E as [<- ->].
  rewrite drop5 in Hr1. okinv Hr1.
  destruct (dec_items_sound _ HD _ _ _ _ Hr2) as (ws & t & -> & <- & Ms & Ds).
  exists (WList ws), t. splits.
  - cbn [wser app ty_id]. rewrite <- app_assoc. reflexivity.
  - cbn [decodable]. rewrite every_Forall. auto.
  - cbn [denotes]. rewrite every2_Forall2. exact Ms.
Qed.

Lemma dec_tuple_sound dec : (forall bs c, dec bs = Ok c -> reads bs c) ->
  forall bs c, dec_tuple dec bs = Ok c -> reads bs c.
Proof.
  intros HD bs c H. unfold dec_tuple in H. bind_inv. okinv H. apply check_id_inv in Hr. destruct Hr as [r ->].
  apply read_len32_inv in Hr0. destruct Hr0 as (x & t & E & B). apply cons_both in E. destruct E as [<- ->].
  rewrite drop5 in Hr1. okinv Hr1.
  destruct (dec_entries_sound _ HD _ _ _ _ Hr2) as (ws & t & -> & <- & Ms & Ds).
  exists (WTuple ws), t. splits.
  - cbn [wser app ty_id]. rewrite <- app_assoc. reflexivity.
  - cbn [decodable]. rewrite every_Forall. auto.
  - cbn [denotes]. rewrite every2_Forall2. exact Ms.
Qed.

Lemma dec_wrap_sound dec t mk wmk :
  (forall w, wser (wmk w) = ty_id t :: wser w) ->
  (forall w, decodable w -> decodable (wmk w)) ->
  (forall c w, canonically_means c w -> canonically_means (mk c) (wmk w)) ->
  (forall bs c, dec bs = Ok c -> reads bs c) ->
  forall bs c, dec_wrap dec t mk bs = Ok c -> reads bs c.
Proof.
  intros HS HDec HM HD bs c H. unfold dec_wrap in H. bind_inv. okinv H. apply check_id_inv in Hr.
  destruct Hr as [r ->]. rewrite drop1 in Hr0. okinv Hr0.
  apply HD in Hr1. destruct Hr1 as (w & t0 & -> & D & M).
  exists (wmk w), t0. splits; auto. rewrite HS. reflexivity.
Qed.

(** The tag dispatch. *)
Inductive tag_view : byte -> Prop :=
| tag_known b : b2n b < 15 -> tag_view b
| tag_unknown b : 15 <= b2n b -> (forall f r, decode_fuel (S f) (b :: r) = Err (ClUnexpectedType b)) -> tag_view b.

Lemma tag_cases b : tag_view b.
Proof.
  destruct (N.ltb_spec (b2n b) 15); [apply tag_known; assumption|].
  apply tag_unknown; [assumption|].
  destruct b; try (exfalso; vm_compute in H; apply H; reflexivity); reflexivity.
Qed.

Lemma known_tag b : b2n b < 15 ->
  In b [x00; x01; x02; x03; x04; x05; x06; x07; x08; x09; x0a; x0b; x0c; x0d; x0e].
Proof.
  intros H. rewrite <- (n2b_b2n b).
  assert (In (b2n b) [0; 1; 2; 3; 4; 5; 6; 7; 8; 9; 10; 11; 12; 13; 14]) as I by (cbn; lia).
  apply (in_map n2b) in I. exact I.
Qed.

Lemma decode_sound f : forall bs c, decode_fuel f bs = Ok c -> reads bs c.
Proof.
  induction f as [|f IH]; intros bs c H; [discriminate|].
  destruct bs as [|b r]; [discriminate|].
  destruct (tag_cases b) as [b B | b B U]; [|rewrite U in H; discriminate].
  apply known_tag in B. cbn [In] in B.
  repeat match type of B with _ \/ _ => destruct B as [<- | B] end; [..|destruct B].
  - apply dec_int_sound; exact H.
  - apply dec_uint_sound; exact H.
  - apply dec_buffer_sound; exact H.
  - change (dec_true (x03 :: r) = Ok c) in H. unfold dec_true in H. rewrite (check_id_ok TTrue) in H.
    injection H as <-. exists WTrue, r. splits; reflexivity || exact I.
  - change (dec_false (x04 :: r) = Ok c) in H. unfold dec_false in H. rewrite (check_id_ok TFalse) in H.
    injection H as <-. exists WFalse, r. splits; reflexivity || exact I.
  - apply dec_prin_std_sound; exact H.
  - apply dec_prin_con_sound; exact H.
  - apply (dec_wrap_sound (decode_fuel f) TRespOk CRespOk WOk); auto.
  - apply (dec_wrap_sound (decode_fuel f) TRespErr CRespErr WErr); auto.
  - change (dec_none (x09 :: r) = Ok c) in H. unfold dec_none in H. rewrite (check_id_ok TNone) in H.
    injection H as <-. exists WNone, r. splits; reflexivity || exact I.
  - apply (dec_wrap_sound (decode_fuel f) TSome CSome WSome); auto.
  - apply (dec_list_sound (decode_fuel f)); auto.
  - apply (dec_tuple_sound (decode_fuel f)); auto.
  - apply dec_ascii_sound; exact H.
  - apply dec_utf8_sound; exact H.
Qed.

(** Exact success condition. *)
Lemma decode_iff bs c : decode_clarity_type bs = Ok c <-> reads bs c.
Proof.
  split; [apply decode_sound|]. intros (w & t & -> & D & M). unfold decode_clarity_type.
  apply decode_complete; auto. rewrite app_length. lia.
Qed.

(** ** Trailing bytes, fuel *)

(** Answers never depend on trailing bytes or extra fuel. *)
Definition stable (d : bytes -> res cl_err cval) (d' : bytes -> res cl_err cval) : Prop :=
  forall bs t, settled (d bs) -> d' (bs ++ t) = d bs.

Lemma settled_bind_inv {E A B} (r : res E A) (k : A -> res E B) : settled (bind r k) ->
  (exists a, r = Ok a /\ settled (k a)) \/ (exists e, r = Err e).
Proof.
  destruct r; cbn; intros H; [left; eauto | right; eauto | |];
    destruct H as [[x H] | [x H]]; discriminate H.
Qed.

Lemma settled_panic {E A} p : ~ settled (@Panic E A p).
Proof. intros [[x H] | [x H]]; discriminate H. Qed.
Lemma settled_nofuel {E A} : ~ settled (@NoFuel E A).
Proof. intros [[x H] | [x H]]; discriminate H. Qed.

Lemma index_stable {E} i bs t : settled (@index E i bs) -> index i (bs ++ t) = @index E i bs.
Proof.
  unfold index. destruct (nth_error bs i) eqn:N; intros H; [|destruct (settled_panic _ H)].
  rewrite nth_error_app1; [rewrite N; reflexivity|]. apply nth_error_Some. congruence.
Qed.

Lemma sub_stable {E} i n bs t : settled (@sub_slice E i n bs) -> sub_slice i n (bs ++ t) = @sub_slice E i n bs.
Proof.
  unfold sub_slice. destruct (Nat.leb_spec (i + n) (length bs)); intros H'; [|destruct (settled_panic _ H')].
  rewrite app_length. destruct (Nat.leb_spec (i + n) (length bs + length t)); [|lia].
  f_equal. rewrite skipn_app. rewrite firstn_app, skipn_length.
  replace (n - (length bs - i))%nat with 0%nat by lia. cbn [firstn]. apply app_nil_r.
Qed.

Lemma take_stable {E} n bs t : settled (@take_slice E n bs) -> take_slice n (bs ++ t) = @take_slice E n bs.
Proof.
  intros [[a H] | [e H]].
  - rewrite H. apply take_slice_ok in H. destruct H as (r & -> & <-). rewrite <- app_assoc. apply take_slice_app.
  - rewrite take_slice_spec in H. destruct (n <=? lenN bs); discriminate H.
Qed.

Lemma drop_stable {E} n bs t : settled (@drop_slice E n bs) ->
  exists r, @drop_slice E n bs = Ok r /\ @drop_slice E n (bs ++ t) = Ok (r ++ t).
Proof.
  intros [[r H] | [e H]].
  - exists r. split; [exact H|]. apply drop_slice_ok in H. destruct H as (a & -> & <-).
    rewrite <- app_assoc. apply drop_slice_app.
  - unfold drop_slice in H. destruct (Nat.leb n (length bs)); discriminate H.
Qed.
