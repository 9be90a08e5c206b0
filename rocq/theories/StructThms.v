(** Proofs about structs filled from a contract's answer. *)

From Coq Require Import Sorting.Permutation.
From Verif Require Import Base SpecAddr Clarity SpecWire WireFacts SpecShow Derive SpecClient ClientThms SpecStruct.

Section Corresponding.
  Variables (t : entries) (l : list (bytes * wval)).
  Hypothesis C : canonically_means (CTuple t) (WTuple l).
  Hypothesis D : NoDup (map fst l).

  Lemma paired : Forall2 (fun a b => fst a = fst b /\ canonically_means (snd a) (snd b)) t l.
  Proof. apply every2_Forall2. exact C. Qed.

  Lemma under_on k v : under k t v -> exists w, In (k, w) l /\ canonically_means v w.
  Proof.
    clear D. intros (a & b & E & _). pose proof paired as P. rewrite E in P. apply Forall2_app_inv_l in P. destruct P as (l1 & l2 & _ & P & L).
    inversion P as [|x [k' w] m n [K M] R]; subst. cbn in K, M. subst k'. exists w. split; [|exact M].
    apply in_or_app. right. left. reflexivity.
  Qed.

  Lemma in_off k w : In (k, w) l -> exists v, under k t v /\ canonically_means v w.
  Proof.
    intros I. apply in_split in I. destruct I as (l1 & l2 & L). pose proof paired as P. rewrite L in P.
    apply Forall2_app_inv_r in P. destruct P as (t1 & t2 & P1 & P2 & T).
    inversion P2 as [|[k' v] y m n [K M] R]; subst. cbn in K, M. subst k'. exists v. split; [|exact M].
    exists t1, m. split; [reflexivity|]. intros I.
    assert (map fst t1 = map fst l1) as Q by (clear - P1; induction P1 as [|x y m n [E _] _ IH]; cbn; congruence).
    rewrite Q in I. rewrite map_app in D. cbn [map fst] in D. apply NoDup_remove_2 in D. apply D. apply in_or_app. auto.
  Qed.

  Lemma in_fun k w w' : In (k, w) l -> In (k, w') l -> w = w'.
  Proof.
    clear C. intros A B. induction l as [|[j u] m IH]; [destruct A|]. cbn [map fst] in D. inversion D as [|x y N D']; subst.
    destruct A as [A|A], B as [B|B]; auto.
    - congruence.
    - injection A as -> ->. exfalso. apply N. apply (in_map fst) in B. exact B.
    - injection B as -> ->. exfalso. apply N. apply (in_map fst) in A. exact A.
  Qed.

  (** One entry at a time, when the value and its wire form determine each other. *)
  Lemma entry k v w : canonically_means v w -> (forall w', canonically_means v w' -> w' = w) -> (under k t v <-> In (k, w) l).
  Proof.
    intros M U. split.
    - intros V. destruct (under_on _ _ V) as (w' & I & M'). rewrite <- (U _ M'). exact I.
    - intros I. destruct (in_off _ _ I) as (v' & V & M'). rewrite (canonical_unique _ _ _ M M'). exact V.
  Qed.

  Lemma some_entry k : (exists v, under k t (CSome v)) <-> exists w, In (k, WSome w) l.
  Proof.
    split.
    - intros [v V]. destruct (under_on _ _ V) as (w & I & M). destruct w; try contradiction. eauto.
    - intros [w I]. destruct (in_off _ _ I) as (v & V & M). destruct v; try contradiction. eauto.
  Qed.
End Corresponding.

Ltac wired := let w := fresh in let M := fresh in intros w M; destruct w; cbn in M; try contradiction; subst; try reflexivity.

Lemma someI v w : canonically_means v w -> ((forall z, v <> CSome (CInt z)) <-> (forall z, w <> WSome (WInt z))).
Proof.
  intros M. split; intros N z ->; cbn in M.
  - destruct v as [| | | | | | | | | |v| | | | | |]; try contradiction. cbn in M. destruct v; try contradiction. exact (N z0 eq_refl).
  - destruct w as [| | | | | | | | | |w| | | | | |]; try contradiction. cbn in M. destruct w; try contradiction. exact (N z0 eq_refl).
Qed.
Lemma someU v w : canonically_means v w -> ((forall n, v <> CSome (CUInt n)) <-> (forall n, w <> WSome (WUInt n))).
Proof.
  intros M. split; intros N z ->; cbn in M.
  - destruct v as [| | | | | | | | | |v| | | | | |]; try contradiction. cbn in M. destruct v; try contradiction. exact (N n eq_refl).
  - destruct w as [| | | | | | | | | |w| | | | | |]; try contradiction. cbn in M. destruct w; try contradiction. exact (N n eq_refl).
Qed.

Lemma texts_on vs ws ss : every2 (denotes address_text) vs ws -> (every2 shows vs ss <-> every2 text_of ws ss).
Proof.
  rewrite !every2_Forall2. intros M. revert ss. induction M as [|v w vs ws M _ IH]; intros ss.
  - split; intros F; inversion F; constructor.
  - split; intros F; inversion F; subst; constructor; try (apply IH; assumption).
    + exists v. auto.
    + destruct H1 as (c & A & B). rewrite (canonical_unique _ _ _ M A). exact B.
Qed.

Lemma keyed_tuple l : keyed (WTuple l) -> NoDup (map fst l) /\ forall k w, In (k, w) l -> keyed w.
Proof.
  intros K. unfold keyed in *. cbn in K. destruct K as [A B]. split; [exact A|]. intros k w I.
  revert B I. induction l as [|[j u] m IH]; cbn; [tauto|]. intros [X Y] [E|I]; [congruence|].
  inversion A; subst. apply IH; assumption.
Qed.

Lemma fills_holds ft : forall t l k x, canonically_means (CTuple t) (WTuple l) -> keyed (WTuple l) -> (fills t k ft x <-> holds l k ft x).
Proof.
  induction ft as [ft L|name fields IH] using fty_induction; intros t l k x C K; destruct (keyed_tuple _ K) as [D K'].
  - assert (forall v w, canonically_means v w -> (forall w', canonically_means v w' -> w' = w) -> (under k t v <-> In (k, w) l)) as E
      by (intros; eapply entry; eassumption).
    destruct ft; try (exfalso; eapply L; reflexivity); destruct x; cbn [fills holds]; try tauto.
    + apply E; [reflexivity | wired].
    + apply E; [reflexivity|]. wired. cbn in H0. destruct H; try contradiction. congruence.
    + apply E; [reflexivity | wired].
    + apply E; [reflexivity|]. wired. destruct H; try contradiction. congruence.
    + destruct b; (apply E; [exact I | wired]).
    + split.
      * intros (v & V & S). destruct (under_on t l C _ _ V) as (w & I & M). exists w. split; [exact I|]. exists v. auto.
      * intros (w & I & c & M & S). destruct (in_off t l C D _ _ I) as (v & V & M'). rewrite (canonical_unique _ _ _ M M') in S. eauto.
    + apply E; [reflexivity | wired].
    + split.
      * intros (vs & V & S). destruct (under_on t l C _ _ V) as (w & I & M). destruct w; try contradiction. cbn in M.
        eexists. split; [exact I|]. apply (texts_on _ _ _ M). exact S.
      * intros (ws & I & S). destruct (in_off t l C D _ _ I) as (v & V & M). destruct v; try contradiction. cbn in M.
        eexists. split; [exact V|]. apply (texts_on _ _ _ M). exact S.
    + destruct o as [z|].
      * apply E; [reflexivity|]. wired. destruct H; try contradiction. congruence.
      * split; intros (v & V & N).
        -- destruct (under_on t l C _ _ V) as (w & I & M). exists w. split; [exact I|]. apply (someI _ _ M). exact N.
        -- destruct (in_off t l C D _ _ V) as (w & I & M). exists w. split; [exact I|]. apply (someI _ _ M). exact N.
    + destruct o as [n|].
      * apply E; [reflexivity|]. wired. destruct H; try contradiction. congruence.
      * split; intros (v & V & N).
        -- destruct (under_on t l C _ _ V) as (w & I & M). exists w. split; [exact I|]. apply (someU _ _ M). exact N.
        -- destruct (in_off t l C D _ _ V) as (w & I & M). exists w. split; [exact I|]. apply (someU _ _ M). exact N.
    + destruct o as [s|].
      * split.
        -- intros (v & V & S). destruct (under_on t l C _ _ V) as (w & I & M). destruct w; try contradiction. cbn in M.
           exists w. split; [exact I|]. exists v. auto.
        -- intros (w & I & c & M & S). destruct (in_off t l C D _ _ I) as (v & V & M'). destruct v; try contradiction. cbn in M'.
           rewrite (canonical_unique _ _ _ M M') in S. eauto.
      * pose proof (some_entry t l C D k) as P. split; intros N w I.
        -- destruct (proj2 P) as [v V]; [eauto|]. exact (N v V).
        -- destruct (proj1 P) as [v V]; [eauto|]. exact (N v V).
  - destruct x as [| | | | | | | | |xs]; cbn [fills holds]; try tauto.
    assert (forall t' l', canonically_means (CTuple t') (WTuple l') -> keyed (WTuple l') ->
      (every2 (fun f y => fills t' (fst f) (snd f) y) fields xs <-> every2 (fun f y => holds l' (fst f) (snd f) y) fields xs)) as Q.
    { intros t' l' C' Q'. rewrite !every2_Forall2. revert xs. induction IH as [|f fs Hf _ IHfs]; intros xs.
      - split; intros F; inversion F; constructor.
      - split; intros F; inversion F; subst; constructor; try (apply IHfs; assumption); apply (Hf t' l' (fst f) _ C' Q'); assumption. }
    split.
    + intros (t' & V & S). destruct (under_on t l C _ _ V) as (w & I & M). destruct w; try contradiction.
      eexists. split; [exact I|]. apply (Q t' _ M); [exact (K' _ _ I) | exact S].
    + intros (l' & I & S). destruct (in_off t l C D _ _ I) as (v & V & M). destruct v; try contradiction.
      eexists. split; [exact V|]. apply (Q _ l' M); [exact (K' _ _ I) | exact S].
Qed.

Lemma fills_all_holds t l fields xs : canonically_means (CTuple t) (WTuple l) -> keyed (WTuple l) ->
  (fills_all t fields xs <-> holds_all l fields xs).
Proof.
  intros C K. unfold fills_all, holds_all. rewrite !every2_Forall2. revert xs. induction fields as [|f fs IH]; intros xs.
  - split; intros F; inversion F; constructor.
  - split; intros F; inversion F; subst; constructor; try (apply IH; assumption); apply (fills_holds (snd f) t l (fst f) _ C K); assumption.
Qed.

Lemma every2_iff {A B} (P Q : A -> B -> Prop) : (forall a b, P a b <-> Q a b) -> forall l m, every2 P l m <-> every2 Q l m.
Proof.
  intros E l m. rewrite !every2_Forall2. split; intros F; induction F; constructor; auto; apply E; assumption.
Qed.

Lemma holds_perm l l' ft k x : Permutation l l' -> holds l k ft x -> holds l' k ft x.
Proof.
  intros P. assert (forall y, In y l <-> In y l') as Q by (intros y; split; apply Permutation_in; [|symmetry]; exact P).
  destruct ft, x; cbn [holds]; try tauto; repeat (match goal with |- context [match ?o with Some _ => _ | None => _ end] => destruct o end);
    try apply Q; try (intros (w & I & S); exists w; split; [apply Q|]; assumption).
  intros N w I. apply Q in I. exact (N w I).
Qed.

Lemma holds_other l ft j k w x : j <> k -> (holds ((k, w) :: l) j ft x <-> holds l j ft x).
Proof.
  intros N. assert (forall u, In (j, u) ((k, w) :: l) <-> In (j, u) l) as Q
    by (intros u; cbn; split; [intros [E|I]; [congruence | exact I] | auto]).
  destruct ft, x; cbn [holds]; try tauto; repeat (match goal with |- context [match ?o with Some _ => _ | None => _ end] => destruct o end);
    try apply Q; try (split; intros (u & I & S); exists u; (split; [apply Q|]; assumption)).
  split; intros H u I; exact (H u (proj1 (Q _) I)) || exact (H u (proj2 (Q _) I)).
Qed.
