(** Lemmas about the wire specification SpecWire.v. *)

From Coq Require Import Lia ZifyBool ZifyNat ZifyN.
From Verif Require Import Base BaseFacts Utf8 SpecText SpecAddr Clarity SpecWire AddrFacts.
Local Open Scope N_scope.

Lemma octet_n2b n : octet n = n2b n.
Proof. reflexivity. Qed.

Lemma big_endian_be k n : big_endian k n = be_bytes k n.
Proof.
  revert n. induction k as [|k IH]; intros n; [reflexivity|].
  cbn [be_bytes]. rewrite <- IH. unfold big_endian.
  cbn [seq]. rewrite <- seq_shift. cbn [rev]. rewrite map_app, <- map_rev, map_map.
  f_equal.
  - apply map_ext. intros i. f_equal.
    replace (N.of_nat (S i)) with (1 + N.of_nat i) by lia.
    rewrite N.pow_add_r, N.pow_1_r. rewrite N.div_div; [reflexivity | lia |].
    apply N.pow_nonzero. lia.
  - cbn [map]. change (N.of_nat 0) with 0. rewrite N.pow_0_r, N.div_1_r. reflexivity.
Qed.

Lemma big_endian_length k n : length (big_endian k n) = k.
Proof. rewrite big_endian_be. apply be_bytes_length. Qed.

Lemma big_endian_inj k a b : a < 256 ^ N.of_nat k -> b < 256 ^ N.of_nat k ->
  big_endian k a = big_endian k b -> a = b.
Proof. rewrite !big_endian_be. apply be_bytes_inj. Qed.

Lemma big_endian_1 n : big_endian 1 n = [n2b n].
Proof. rewrite big_endian_be. reflexivity. Qed.

Lemma twos_complement_u z : twos_complement z = be_bytes 16 (u128_of_i128 z).
Proof. unfold twos_complement. rewrite big_endian_be. reflexivity. Qed.

(** ** Traversals *)

Lemma every_Forall {A} (P : A -> Prop) l : every P l <-> Forall P l.
Proof.
  induction l as [|x l IH]; cbn; [split; auto|].
  rewrite IH. split; [intros []; auto | intros H; inversion H; auto].
Qed.

Lemma every2_Forall2 {A B} (R : A -> B -> Prop) l m : every2 R l m <-> Forall2 R l m.
Proof.
  revert m. induction l as [|x l IH]; intros [|y m]; cbn; try (split; [contradiction | intros H; inversion H]).
  - split; auto.
  - rewrite IH. split; [intros []; auto | intros H; inversion H; auto].
Qed.

Lemma Forall2_length {A B} (R : A -> B -> Prop) l m : Forall2 R l m -> length l = length m.
Proof. induction 1; cbn; congruence. Qed.

Section Ind.
  Variable P : wval -> Prop.
  Hypothesis HInt : forall z, P (WInt z).
  Hypothesis HUInt : forall n, P (WUInt n).
  Hypothesis HBuf : forall b, P (WBuf b).
  Hypothesis HTrue : P WTrue.
  Hypothesis HFalse : P WFalse.
  Hypothesis HStd : forall v h, P (WStd v h).
  Hypothesis HCon : forall v h n, P (WCon v h n).
  Hypothesis HOk : forall x, P x -> P (WOk x).
  Hypothesis HErr : forall x, P x -> P (WErr x).
  Hypothesis HNone : P WNone.
  Hypothesis HSome : forall x, P x -> P (WSome x).
  Hypothesis HList : forall l, Forall P l -> P (WList l).
  Hypothesis HTuple : forall l, Forall (fun kv => P (snd kv)) l -> P (WTuple l).
  Hypothesis HAscii : forall s, P (WAscii s).
  Hypothesis HUtf8 : forall s, P (WUtf8 s).
  Hypothesis HName : forall s, P (WName s).
  Hypothesis HArgs : forall l, Forall P l -> P (WArgs l).

  Fixpoint wval_induction (w : wval) : P w :=
    match w with
    | WInt z => HInt z
    | WUInt n => HUInt n
    | WBuf b => HBuf b
    | WTrue => HTrue
    | WFalse => HFalse
    | WStd v h => HStd v h
    | WCon v h n => HCon v h n
    | WOk x => HOk x (wval_induction x)
    | WErr x => HErr x (wval_induction x)
    | WNone => HNone
    | WSome x => HSome x (wval_induction x)
    | WList l =>
      HList l ((fix go l : Forall P l :=
                  match l with [] => Forall_nil _ | x :: r => Forall_cons _ (wval_induction x) (go r) end) l)
    | WTuple l =>
      HTuple l ((fix go l : Forall (fun kv => P (snd kv)) l :=
                   match l with
                   | [] => Forall_nil _
                   | x :: r => Forall_cons _ (wval_induction (snd x)) (go r)
                   end) l)
    | WAscii s => HAscii s
    | WUtf8 s => HUtf8 s
    | WName s => HName s
    | WArgs l =>
      HArgs l ((fix go l : Forall P l :=
                  match l with [] => Forall_nil _ | x :: r => Forall_cons _ (wval_induction x) (go r) end) l)
    end.
End Ind.

Section CInd.
  Variable P : cval -> Prop.
  Hypothesis HInt : forall z, P (CInt z).
  Hypothesis HUInt : forall n, P (CUInt n).
  Hypothesis HBuf : forall b, P (CBuffer b).
  Hypothesis HTrue : P CTrue.
  Hypothesis HFalse : P CFalse.
  Hypothesis HStd : forall a, P (CPrinStd a).
  Hypothesis HCon : forall a n, P (CPrinCon a n).
  Hypothesis HOk : forall x, P x -> P (CRespOk x).
  Hypothesis HErr : forall x, P x -> P (CRespErr x).
  Hypothesis HNone : P CNone.
  Hypothesis HSome : forall x, P x -> P (CSome x).
  Hypothesis HList : forall l, Forall P l -> P (CList l).
  Hypothesis HTuple : forall l, Forall (fun kv => P (snd kv)) l -> P (CTuple l).
  Hypothesis HAscii : forall s, P (CAscii s).
  Hypothesis HUtf8 : forall s, P (CUtf8 s).
  Hypothesis HName : forall s, P (CLps s).
  Hypothesis HArgs : forall l, Forall P l -> P (CFnArgs l).

  Fixpoint cval_induction (w : cval) : P w :=
    match w with
    | CInt z => HInt z
    | CUInt n => HUInt n
    | CBuffer b => HBuf b
    | CTrue => HTrue
    | CFalse => HFalse
    | CPrinStd h => HStd h
    | CPrinCon h n => HCon h n
    | CRespOk x => HOk x (cval_induction x)
    | CRespErr x => HErr x (cval_induction x)
    | CNone => HNone
    | CSome x => HSome x (cval_induction x)
    | CList l =>
      HList l ((fix go l : Forall P l :=
                  match l with [] => Forall_nil _ | x :: r => Forall_cons _ (cval_induction x) (go r) end) l)
    | CTuple l =>
      HTuple l ((fix go l : Forall (fun kv => P (snd kv)) l :=
                   match l with
                   | [] => Forall_nil _
                   | x :: r => Forall_cons _ (cval_induction (snd x)) (go r)
                   end) l)
    | CAscii s => HAscii s
    | CUtf8 s => HUtf8 s
    | CLps s => HName s
    | CFnArgs l =>
      HArgs l ((fix go l : Forall P l :=
                  match l with [] => Forall_nil _ | x :: r => Forall_cons _ (cval_induction x) (go r) end) l)
    end.
End CInd.

(** Node predicates combine pointwise. *)
Lemma wall_mono (P Q : wval -> Prop) w : (forall w, P w -> Q w) -> wall P w -> wall Q w.
Proof.
  intros M. induction w using wval_induction; cbn; intros [H1 H2]; split; auto.
  all: rewrite every_Forall in *; rewrite Forall_forall in *; auto.
Qed.

Lemma wall_and (P Q : wval -> Prop) w : wall P w -> wall Q w -> wall (fun w => P w /\ Q w) w.
Proof.
  induction w using wval_induction; cbn; intros [H1 H2] [H3 H4]; split; auto.
  all: rewrite every_Forall in *; rewrite Forall_forall in *; auto.
Qed.

(** ** Self-delimitation *)

Definition delim1 (w : wval) : Prop :=
  match w with
  | WInt _ | WUInt _ => range1 w
  | WBuf b => count b < 2 ^ 32
  | WStd _ h => length h = 20%nat
  | WCon _ h n => length h = 20%nat /\ count n < 256
  | WList l => count l < 2 ^ 32
  | WTuple l => count l < 2 ^ 32 /\ every (fun kv => count (fst kv) < 256) l
  | WAscii s | WUtf8 s => count s < 2 ^ 32
  | WName _ | WArgs _ => False
  | _ => True
  end.
Definition delim := wall delim1.

Lemma len_prefix_inj k (a b : bytes) t1 t2 :
  count a < 256 ^ N.of_nat k -> count b < 256 ^ N.of_nat k ->
  big_endian k (count a) ++ a ++ t1 = big_endian k (count b) ++ b ++ t2 -> a = b /\ t1 = t2.
Proof.
  intros Ha Hb H. apply app_inj_len in H; [|rewrite !big_endian_length; reflexivity].
  destruct H as [Hn H]. apply big_endian_inj in Hn; [|assumption..].
  apply app_inj_len in H; [exact H | unfold count in Hn; lia].
Qed.

Lemma u128_inj a b : (- 2 ^ 127 <= a < 2 ^ 127)%Z -> (- 2 ^ 127 <= b < 2 ^ 127)%Z ->
  twos_complement a = twos_complement b -> a = b.
Proof.
  intros Ha Hb H. rewrite !twos_complement_u in H.
  apply be_bytes_inj in H; [|pose proof (u128_of_i128_bound a); exact H0
                            |pose proof (u128_of_i128_bound b); exact H0].
  rewrite <- (i128_u128 a Ha), <- (i128_u128 b Hb), H. reflexivity.
Qed.

Lemma flat_wser_inj l : Forall (fun w1 => forall w2 t1 t2, delim w1 -> delim w2 ->
    wser w1 ++ t1 = wser w2 ++ t2 -> w1 = w2 /\ t1 = t2) l ->
  forall m t1 t2, Forall delim l -> Forall delim m -> length l = length m ->
  flat_map wser l ++ t1 = flat_map wser m ++ t2 -> l = m /\ t1 = t2.
Proof.
  induction 1 as [|x l Hx Hl IH]; intros [|y m] t1 t2 D1 D2 L H; cbn in L; try discriminate.
  - auto.
  - cbn [flat_map] in H. rewrite <- !app_assoc in H.
    apply Forall_cons_iff in D1, D2. destruct D1 as [D1 D1'], D2 as [D2 D2'].
    destruct (Hx _ _ _ D1 D2 H) as [-> H'].
    destruct (IH m t1 t2 D1' D2' ltac:(lia) H') as [-> ->]. auto.
Qed.

Definition wentry (kv : bytes * wval) : bytes :=
  big_endian 1 (count (fst kv)) ++ fst kv ++ wser (snd kv).

Lemma flat_wentry_inj l : Forall (fun kv => forall w2 t1 t2, delim (snd kv) -> delim w2 ->
    wser (snd kv) ++ t1 = wser w2 ++ t2 -> snd kv = w2 /\ t1 = t2) l ->
  forall m t1 t2,
  Forall (fun kv => delim (snd kv) /\ count (fst kv) < 256) l ->
  Forall (fun kv => delim (snd kv) /\ count (fst kv) < 256) m -> length l = length m ->
  flat_map wentry l ++ t1 = flat_map wentry m ++ t2 -> l = m /\ t1 = t2.
Proof.
  induction 1 as [|[k x] l Hx Hl IH]; intros [|[k' y] m] t1 t2 D1 D2 L H; cbn in L; try discriminate.
  - auto.
  - cbn [flat_map] in H. unfold wentry at 1 3 in H. cbn [fst snd] in *. rewrite <- !app_assoc in H.
    apply Forall_cons_iff in D1, D2. destruct D1 as [[D1 K1] D1'], D2 as [[D2 K2] D2']. cbn [fst snd] in *.
    apply len_prefix_inj in H; [|assumption..]. destruct H as [-> H].
    destruct (Hx _ _ _ D1 D2 H) as [-> H'].
    destruct (IH m t1 t2 D1' D2' ltac:(lia) H') as [-> ->]. auto.
Qed.

Lemma delim_list l : delim (WList l) -> count l < 2 ^ 32 /\ Forall delim l.
Proof. intros [H1 H2]. rewrite every_Forall in H2. auto. Qed.
Lemma delim_tuple l : delim (WTuple l) ->
  count l < 2 ^ 32 /\ Forall (fun kv => delim (snd kv) /\ count (fst kv) < 256) l.
Proof.
  intros [[H0 H1] H2]. rewrite every_Forall in H1, H2. split; [exact H0|].
  rewrite Forall_forall in *. intros kv K. split; [apply (H2 kv K) | apply (H1 kv K)].
Qed.

Lemma cons_both {A} (x y : A) a b : x :: a = y :: b -> x = y /\ a = b.
Proof. intros H. injection H as -> ->. auto. Qed.
Lemma cons_tl {A} (x y : A) a b : x :: a = y :: b -> a = b.
Proof. intros H. injection H as _ ->. reflexivity. Qed.

Lemma wser_prefix w1 : forall w2 t1 t2, delim w1 -> delim w2 ->
  wser w1 ++ t1 = wser w2 ++ t2 -> w1 = w2 /\ t1 = t2.
Proof.
  assert (B16 : forall z, length (twos_complement z) = 16%nat)
    by (intros; unfold twos_complement; apply big_endian_length).
  induction w1 using wval_induction; intros w2 t1 t2 D1 D2 H0;
    try (destruct (proj1 D1); fail);
    destruct w2; try (destruct (proj1 D2); fail); cbn [wser app] in H0; try discriminate H0;
    apply cons_tl in H0; rewrite <- ?app_assoc in H0.
  - apply app_inj_len in H0; [|rewrite !B16; reflexivity]. destruct H0 as [H0 ->].
    destruct D1 as [D1 _], D2 as [D2 _]. cbn in D1, D2.
    apply u128_inj in H0; [subst; auto | lia | lia].
  - apply app_inj_len in H0; [|rewrite !big_endian_length; reflexivity]. destruct H0 as [H0 ->].
    destruct D1 as [D1 _], D2 as [D2 _]. apply big_endian_inj in H0; [subst; auto | exact D1 | exact D2].
  - apply len_prefix_inj in H0; [|apply D1 | apply D2]. destruct H0 as [-> ->]. auto.
  - auto.
  - auto.
  - cbn [app] in H0. apply cons_both in H0. destruct H0 as [-> H]. apply app_inj_len in H.
    + destruct H as [-> ->]. auto.
    + destruct D1 as [D1 _], D2 as [D2 _]. cbn in D1, D2. congruence.
  - destruct D1 as [[D1 D1'] _], D2 as [[D2 D2'] _]. cbn [app] in H0. apply cons_both in H0.
    destruct H0 as [-> H]. rewrite <- ?app_assoc in H. apply app_inj_len in H; [|congruence].
    destruct H as [-> H]. rewrite <- ?app_assoc in H.
    apply len_prefix_inj in H; [|assumption..]. destruct H as [-> ->]. auto.
  - destruct (IHw1 w2 t1 t2 (proj2 D1) (proj2 D2) H0) as [-> ->]. auto.
  - destruct (IHw1 w2 t1 t2 (proj2 D1) (proj2 D2) H0) as [-> ->]. auto.
  - auto.
  - destruct (IHw1 w2 t1 t2 (proj2 D1) (proj2 D2) H0) as [-> ->]. auto.
  - apply delim_list in D1, D2. destruct D1 as [D1 D1'], D2 as [D2 D2'].
    apply app_inj_len in H0; [|rewrite !big_endian_length; reflexivity]. destruct H0 as [Hn H0].
    apply big_endian_inj in Hn; [|assumption..].
    destruct (flat_wser_inj _ H _ _ _ D1' D2' ltac:(unfold count in Hn; lia) H0) as [-> ->]. auto.
  - apply delim_tuple in D1, D2. destruct D1 as [D1 D1'], D2 as [D2 D2'].
    apply app_inj_len in H0; [|rewrite !big_endian_length; reflexivity]. destruct H0 as [Hn H0].
    apply big_endian_inj in Hn; [|assumption..].
    destruct (flat_wentry_inj _ H _ _ _ D1' D2' ltac:(unfold count in Hn; lia) H0) as [-> ->]. auto.
  - apply len_prefix_inj in H0; [|apply D1 | apply D2]. destruct H0 as [-> ->]. auto.
  - apply len_prefix_inj in H0; [|apply D1 | apply D2]. destruct H0 as [-> ->]. auto.
Qed.

Lemma proper_delim w : proper w -> delim w.
Proof.
  intros (F & R & S & H & _). unfold delim.
  pose proof (wall_and _ _ _ F (wall_and _ _ _ R (wall_and _ _ _ S H))) as W.
  revert W. apply wall_mono. clear. intros w (F & R & S & H).
  destruct w; cbn in *; auto; try tauto; try lia.
  destruct F as [F F']. split; [exact F|]. rewrite every_Forall in *. rewrite Forall_forall in *.
  intros kv K. specialize (F' kv K). cbn in F'. lia.
Qed.

Lemma decodable_delim w : decodable w -> delim w.
Proof.
  unfold delim.
  induction w using wval_induction; cbn [decodable wall]; intros D; cbn in D |- *; try tauto.
  all: try (split; [tauto | auto]; fail).
  - destruct D as [D D']. split; [exact D|]. rewrite every_Forall in *. rewrite Forall_forall in *.
    intros x Hx. destruct (D' x Hx). auto.
  - destruct D as [D D']. rewrite !every_Forall in *. rewrite Forall_forall in *. rewrite Forall_forall.
    repeat split; [exact D| |]; intros x Hx; destruct (D' x Hx) as (? & ? & ? & ?); auto.
Qed.

Lemma proper_decodable w : proper w -> decodable w.
Proof.
  intros (F & R & S & H & V & T).
  induction w using wval_induction; cbn in *; repeat match goal with H : _ /\ _ |- _ => destruct H end;
    auto; try tauto.
  - split; [assumption|]. repeat split; auto; lia.
  - split; [assumption|]. rewrite !every_Forall in *. rewrite Forall_forall in *. intros x Hx. auto.
  - split; [assumption|]. rewrite !every_Forall in *. rewrite Forall_forall in *. intros x Hx.
    repeat match goal with H : forall x, In x l -> _ |- _ => specialize (H x Hx) end.
    cbn in *. repeat split; auto; lia.
Qed.

(** ** Meanings *)

Lemma address_spelling_fun h v h' v' s : address_spelling h v s -> address_spelling h' v' s -> h = h' /\ v = v'.
Proof.
  rewrite <- !c32_address_decode_iff. intros -> [= -> ->]. auto.
Qed.

Lemma means_fun c : forall w w', means c w -> means c w' -> w = w'.
Proof.
  induction c using cval_induction; intros [] [] D1 D2; cbn in D1, D2; try contradiction; subst; auto.
  - destruct (address_spelling_fun _ _ _ _ _ D1 D2) as [-> ->]. reflexivity.
  - destruct D1 as [D1 <-], D2 as [D2 <-].
    destruct (address_spelling_fun _ _ _ _ _ D1 D2) as [-> ->]. reflexivity.
  - f_equal. auto.
  - f_equal. auto.
  - f_equal. auto.
  - f_equal. rewrite every2_Forall2 in *. revert l1 D2. induction D1 as [|x y l m Hxy Hl IH]; intros n D2; inv D2; auto.
    inv H. f_equal; auto.
  - f_equal. rewrite every2_Forall2 in *. revert l1 D2. induction D1 as [|x y l m Hxy Hl IH]; intros n D2; inv D2; auto.
    inv H. destruct x, y, y0; cbn in *. destruct Hxy as [<- ?], H2 as [<- ?]. f_equal; [f_equal|]; auto.
  - f_equal. rewrite every2_Forall2 in *. revert l1 D2. induction D1 as [|x y l m Hxy Hl IH]; intros n D2; inv D2; auto.
    inv H. f_equal; auto.
Qed.

Lemma denotes_mono (A B : bytes -> byte -> bytes -> Prop) :
  (forall h v a, A h v a -> B h v a) -> forall c w, denotes A c w -> denotes B c w.
Proof.
  intros M. induction c using cval_induction; intros [] D; cbn in D |- *; try contradiction; auto.
  - destruct D; auto.
  - rewrite every2_Forall2 in *. induction D as [|x y l m Hxy Hl IH]; inv H; constructor; auto.
  - rewrite every2_Forall2 in *. induction D as [|x y l m [? ?] Hl IH]; inv H; constructor; auto.
  - rewrite every2_Forall2 in *. induction D as [|x y l m Hxy Hl IH]; inv H; constructor; auto.
Qed.

Lemma canonical_means c w : canonically_means c w -> means c w.
Proof. apply denotes_mono. apply address_text_spelling. Qed.

Lemma canonical_unique w : forall c c', canonically_means c w -> canonically_means c' w -> c = c'.
Proof.
  induction w using wval_induction; intros [] [] D1 D2; cbn in D1, D2; try contradiction; subst; auto.
  - f_equal. eapply address_text_unique; eassumption.
  - destruct D1 as [D1 <-], D2 as [D2 <-]. f_equal. eapply address_text_unique; eassumption.
  - f_equal. auto.
  - f_equal. auto.
  - f_equal. auto.
  - f_equal. rewrite every2_Forall2 in *. revert l1 D2. induction D1 as [|x y l0 m Hxy Hl IH]; intros n D2; inv D2; auto.
    inv H. f_equal; auto.
  - f_equal. rewrite every2_Forall2 in *. revert l1 D2. induction D1 as [|x y l0 m Hxy Hl IH]; intros n D2; inv D2; auto.
    inv H. destruct x, y, x0; cbn in *. destruct Hxy as [-> ?], H3 as [-> ?]. f_equal; [f_equal|]; auto.
  - f_equal. rewrite every2_Forall2 in *. revert l1 D2. induction D1 as [|x y l0 m Hxy Hl IH]; intros n D2; inv D2; auto.
    inv H. f_equal; auto.
Qed.

(** Every wire value with Stacks versions has a canonical value of the library. *)
Lemma canonical_exists w : wall ver1 w -> exists c, canonically_means c w.
Proof.
  induction w using wval_induction; cbn [wall]; intros [V W]; cbn in V, W.
  - exists (CInt z); reflexivity.
  - exists (CUInt n); reflexivity.
  - exists (CBuffer b); reflexivity.
  - exists CTrue; exact I.
  - exists CFalse; exact I.
  - destruct (c32_address_ok h v V) as (a & _ & T & _). exists (CPrinStd a). exact T.
  - destruct (c32_address_ok h v V) as (a & _ & T & _). exists (CPrinCon a n). split; [exact T | reflexivity].
  - destruct (IHw W) as [c C]. exists (CRespOk c). exact C.
  - destruct (IHw W) as [c C]. exists (CRespErr c). exact C.
  - exists CNone; exact I.
  - destruct (IHw W) as [c C]. exists (CSome c). exact C.
  - assert (exists cs, Forall2 canonically_means cs l) as [cs C].
    { clear V. rewrite every_Forall in W. induction W as [|x r Hx Hr IH]; [exists []; constructor|].
      inv H. destruct (IH H3) as [cs C]. destruct (H2 Hx) as [c Cc]. exists (c :: cs). constructor; auto. }
    exists (CList cs). cbn. rewrite every2_Forall2. exact C.
  - assert (exists cs, Forall2 (fun a b => fst a = fst b /\ canonically_means (snd a) (snd b)) cs l) as [cs C].
    { clear V. rewrite every_Forall in W. induction W as [|x r Hx Hr IH]; [exists []; constructor|].
      inv H. destruct (IH H3) as [cs C]. destruct (H2 Hx) as [c Cc]. exists ((fst x, c) :: cs). constructor; auto. }
    exists (CTuple cs). cbn. rewrite every2_Forall2. exact C.
  - exists (CAscii s); reflexivity.
  - exists (CUtf8 s); reflexivity.
  - exists (CLps s); reflexivity.
  - assert (exists cs, Forall2 canonically_means cs l) as [cs C].
    { clear V. rewrite every_Forall in W. induction W as [|x r Hx Hr IH]; [exists []; constructor|].
      inv H. destruct (IH H3) as [cs C]. destruct (H2 Hx) as [c Cc]. exists (c :: cs). constructor; auto. }
    exists (CFnArgs cs). cbn. rewrite every2_Forall2. exact C.
Qed.

Lemma decodable_ver w : decodable w -> wall ver1 w.
Proof.
  induction w using wval_induction; cbn; intros D; try tauto.
  - destruct D as [_ D]. split; [exact I|]. rewrite every_Forall in *. rewrite Forall_forall in *.
    intros x Hx. destruct (D x Hx). auto.
  - destruct D as [_ D]. split; [exact I|]. rewrite every_Forall in *. rewrite Forall_forall in *.
    intros x Hx. destruct (D x Hx) as (_ & _ & ? & _). auto.
Qed.
