(** Proofs about setters. *)

From Coq Require Import Strings.String Lists.List Sorting.Permutation.
From Verif Require Import Base Hash C32 Clarity Tx Builder Setters SpecSetters.
Import ListNotations.
Local Open Scope N_scope.

Lemma set_all_app : forall {B C} (f : B -> C -> option B) l l' b,
  set_all f (l ++ l') b = match set_all f l b with Some b' => set_all f l' b' | None => None end.
Proof. intros B C f l; induction l as [|c l IH]; intros l' b; cbn; [reflexivity|]. destruct (f b c); auto. Qed.
Lemma option_ext : forall {A} (o o' : option A), (forall x, o = Some x <-> o' = Some x) -> o = o'.
Proof.
  intros A [a|] [a'|] H; try reflexivity.
  - symmetry. now apply H.
  - symmetry. now apply H.
  - now apply H.
Qed.
Lemma set_or : forall {A C} (set : A -> C) l d (o : option A) v, (forall x, o = Some x <-> In (set x) l) ->
  (given_or set d l v <-> or_else o d = v).
Proof.
  intros A C set l d o v H. unfold given_or. split.
  - intros [I|[-> N]].
    + apply H in I. now subst.
    + destruct o as [x|]; [|reflexivity]. exfalso. apply (N x). now apply H.
  - destruct o as [x|]; cbn; intros <-.
    + left. now apply H.
    + right. split; [reflexivity|]. intros y I. apply H in I. discriminate.
Qed.
Lemma nodup_same : forall {A B} (f : A -> B) l x y, NoDup (map f l) -> In x l -> In y l -> f x = f y -> x = y.
Proof.
  intros A B f l x y; induction l as [|a l IH]; [contradiction|]. cbn. intros ND. inversion_clear ND as [|? ? N ND'].
  intros [<-|Ix] [<-|Iy] E; [reflexivity| | |now apply IH].
  - exfalso. apply N. rewrite E. now apply in_map.
  - exfalso. apply N. rewrite <- E. now apply in_map.
Qed.
Lemma nodup_snoc : forall {A} (l : list A) x, NoDup (l ++ [x]) <-> NoDup l /\ ~ In x l.
Proof.
  intros A l x. split.
  - intros H. apply NoDup_remove in H. rewrite app_nil_r in H. tauto.
  - intros [H I]. apply (Permutation_NoDup (l := x :: l)); [apply Permutation_cons_append|]. now constructor.
Qed.

(** ** STXTokenTransfer *)

Definition transfer_state (l : list transfer_setter) (b : transfer_builder) : Prop :=
  (forall x, tb_recipient b = Some x <-> In (SetTRecipient x) l) /\
  (forall x, tb_amount b = Some x <-> In (SetTAmount x) l) /\
  (forall x, tb_sender b = Some x <-> In (SetTSender x) l) /\
  (forall x, tb_network b = Some x <-> In (SetTNetwork x) l) /\
  (forall x, tb_fee b = Some x <-> In (SetTFee x) l) /\
  (forall x, tb_nonce b = Some x <-> In (SetTNonce x) l) /\
  (forall x, tb_anchor_mode b = Some x <-> In (SetTAnchor x) l) /\
  (forall x, tb_memo b = Some x <-> In (SetTMemo x) l) /\
  (forall x, tb_post_condition_mode b = Some x <-> In (SetTMode x) l) /\
  (forall x, tb_post_conditions b = Some x <-> In (SetTConds x) l) /\
  (forall x, tb_sponsored b = Some x <-> In (SetTSponsored x) l).
Lemma transfer_state_ext : forall l b b', transfer_state l b -> transfer_state l b' -> b = b'.
Proof.
  intros l b b' H H'. unfold transfer_state in *. destruct b, b'; cbn in *.
  f_equal; apply option_ext; intros x;
    repeat match goal with H : _ /\ _ |- _ => destruct H end;
    match goal with |- ?a = Some x <-> ?a' = Some x =>
      match goal with Q : forall x, a = Some x <-> _, Q' : forall x, a' = Some x <-> _ |- _ => now rewrite Q, Q' end end.
Qed.
Lemma transfer_has_in : forall l b c, transfer_state l b -> transfer_has b c = true <-> In (transfer_name c) (map transfer_name l).
Proof.
  intros l b c H. rewrite in_map_iff. unfold transfer_state in H. repeat match goal with H : _ /\ _ |- _ => destruct H end.
  assert (Q : forall A (o : option A) (set : A -> transfer_setter), (forall x, o = Some x <-> In (set x) l) ->
              (is_set o = true <-> exists x, In (set x) l)).
  { intros A o set E. destruct o as [x|]; cbn; split.
    - intros _. exists x. now apply E.
    - reflexivity.
    - discriminate.
    - intros [x I]. apply E in I. discriminate. }
  destruct c; cbn [transfer_has];
    match goal with |- is_set ?o = true <-> _ =>
      match goal with E : forall x, o = Some x <-> In (?set x) l |- _ => rewrite (Q _ o set E) end end; clear Q;
    (split; [intros [y I]; eexists; split; [|exact I]; reflexivity|]); intros (c & N & I); destruct c; try discriminate N; eauto.
Qed.
Lemma transfer_sound : forall l b, set_all transfer_set l transfer_new = Some b -> NoDup (map transfer_name l) /\ transfer_state l b.
Proof.
  intros l; induction l as [|c l IH] using rev_ind; intros b.
  - cbn. intros E. injection E as <-. split; [constructor|]. unfold transfer_state; cbn. repeat split; try discriminate; contradiction.
  - rewrite set_all_app. destruct (set_all transfer_set l transfer_new) as [b0|]; [|discriminate]. cbn.
    destruct (IH b0 eq_refl) as [ND St]. unfold transfer_set. destruct (transfer_has b0 c) eqn:Hc; [discriminate|]. intros E. injection E as <-.
    rewrite map_app. cbn [map]. split.
    + apply nodup_snoc. split; [exact ND|]. rewrite <- (transfer_has_in l b0 c St), Hc. discriminate.
    + unfold transfer_state in *. repeat match goal with H : _ /\ _ |- _ => destruct H end.
      repeat (apply conj); intros x; rewrite in_app_iff; cbn;
        destruct c; cbn in *;
        match goal with |- Some ?a = _ <-> _ => idtac | E : forall x, ?o = Some x <-> _ |- ?o = _ <-> _ => rewrite E end;
        try (split; [tauto|intros [I|[I|[]]]; [exact I|discriminate I]]);
        (split; [intros E; injection E as <-; auto|intros [I|[I|[]]]; [|injection I as <-; reflexivity]]);
        match goal with E : forall x, ?o = Some x <-> In (?set x) l, I : In (?set _) l |- _ => apply E in I; rewrite I in Hc; discriminate end.
Qed.
Lemma transfer_complete : forall l, NoDup (map transfer_name l) -> exists b, set_all transfer_set l transfer_new = Some b /\ transfer_state l b.
Proof.
  intros l ND. destruct (set_all transfer_set l transfer_new) as [b|] eqn:E.
  - exists b. split; [reflexivity|]. now apply transfer_sound.
  - exfalso. revert ND E. induction l as [|c l IH] using rev_ind; [discriminate|].
    rewrite map_app; cbn [map]. rewrite nodup_snoc. intros [ND N]. rewrite set_all_app.
    destruct (set_all transfer_set l transfer_new) as [b|] eqn:E; [|auto]. cbn. unfold transfer_set.
    destruct (transfer_has b c) eqn:Hc; [|discriminate]. intros _. apply N. rewrite <- (transfer_has_in l b c); [exact Hc|]. now apply transfer_sound.
Qed.
Lemma transfer_build_of : forall l s b, transfer_state l s -> (transfer_build s = Some b <-> transfer_of l b).
Proof.
  intros l s b H. unfold transfer_state in H. repeat match goal with H : _ /\ _ |- _ => destruct H end.
  unfold transfer_of, given.
  repeat match goal with |- context [given_or ?set ?d l ?v] =>
    match goal with E : forall x, _ = Some x <-> In (set x) l |- _ => rewrite (set_or set l d _ v E); clear E end end.
  repeat match goal with |- context [In (?set ?v) l] =>
    match goal with E : forall x, _ = Some x <-> In (set x) l |- _ => rewrite <- (E v); clear E end end.
  unfold transfer_build. destruct b; cbn. split.
  - repeat match goal with |- context [match ?o with Some _ => _ | None => _ end = Some _] => destruct o; [|discriminate] end.
    intros E. injection E. intros. subst. repeat split; reflexivity.
  - intros E. repeat match goal with H : _ /\ _ |- _ => destruct H end.
    repeat match goal with H : ?o = Some _ |- _ => rewrite H; clear H end. repeat f_equal; assumption.
Qed.
Lemma transfer_with_iff : forall l b, transfer_with l = Some b <-> NoDup (map transfer_name l) /\ transfer_of l b.
Proof.
  intros l b. unfold transfer_with. split.
  - destruct (set_all transfer_set l transfer_new) as [s|] eqn:E; [|discriminate]. apply transfer_sound in E. destruct E as [ND St].
    intros E. split; [exact ND|]. now apply (transfer_build_of l s).
  - intros [ND O]. destruct (transfer_complete l ND) as (s & -> & St). now apply (transfer_build_of l s).
Qed.
Lemma transfer_compiles : forall l, (exists b, transfer_with l = Some b) <-> NoDup (map transfer_name l) /\ incl transfer_required (map transfer_name l).
Proof.
  intros l. split.
  - intros [b E]. apply transfer_with_iff in E. destruct E as [ND O]. split; [exact ND|]. unfold transfer_of, given in O.
    repeat match goal with H : _ /\ _ |- _ => destruct H end.
    intros k I. apply in_map_iff. cbn in I.
    repeat match type of I with _ \/ _ => destruct I as [<-|I]; [match goal with J : In ?c l |- _ => exists c; split; [reflexivity|exact J] end|] end.
    contradiction.
  - intros [ND I]. destruct (transfer_complete l ND) as (s & R & St). unfold transfer_with. rewrite R.
    assert (Q : forall k, In k transfer_required -> exists c, transfer_name c = k /\ In c l) by (intros k Ik; now apply in_map_iff, I).
    clear I R. unfold transfer_required in Q. unfold transfer_state in St. repeat match goal with H : _ /\ _ |- _ => destruct H end. unfold transfer_build.
    repeat match goal with H : forall k, In k (?k0 :: ?r) -> _ |- _ =>
      let c := fresh "c" in let N := fresh "N" in let Ic := fresh "Ic" in
      destruct (H k0 (or_introl eq_refl)) as (c & N & Ic); destruct c; try discriminate N; clear N;
      match goal with E : forall x, _ = Some x <-> In (?set x) l, I : In (?set _) l |- _ => apply E in I; rewrite I; clear I end;
      assert (forall k, In k r -> exists c, transfer_name c = k /\ In c l) by (intros k Ik; apply H; now right); clear H end.
    eauto.
Qed.
Lemma transfer_order : forall l l', Permutation l l' -> transfer_with l = transfer_with l'.
Proof.
  intros l l' P. apply option_ext. intros b. rewrite !transfer_with_iff.
  assert (M : forall c, In c l <-> In c l') by (intros c; split; apply Permutation_in; [|symmetry]; exact P).
  assert (D : NoDup (map transfer_name l) <-> NoDup (map transfer_name l'))
    by (split; apply Permutation_NoDup; apply Permutation_map; [|symmetry]; exact P).
  rewrite D. unfold transfer_of, given, given_or. setoid_rewrite M. reflexivity.
Qed.

(** ** STXContractCall *)

Definition call_state (l : list call_setter) (b : call_builder) : Prop :=
  (forall x, cb_address b = Some x <-> In (SetCAddress x) l) /\
  (forall x, cb_contract b = Some x <-> In (SetCContract x) l) /\
  (forall x, cb_fn_name b = Some x <-> In (SetCFnName x) l) /\
  (forall x, cb_fn_args b = Some x <-> In (SetCFnArgs x) l) /\
  (forall x, cb_sender b = Some x <-> In (SetCSender x) l) /\
  (forall x, cb_network b = Some x <-> In (SetCNetwork x) l) /\
  (forall x, cb_fee b = Some x <-> In (SetCFee x) l) /\
  (forall x, cb_nonce b = Some x <-> In (SetCNonce x) l) /\
  (forall x, cb_anchor_mode b = Some x <-> In (SetCAnchor x) l) /\
  (forall x, cb_post_condition_mode b = Some x <-> In (SetCMode x) l) /\
  (forall x, cb_post_conditions b = Some x <-> In (SetCConds x) l) /\
  (forall x, cb_sponsored b = Some x <-> In (SetCSponsored x) l).
Lemma call_state_ext : forall l b b', call_state l b -> call_state l b' -> b = b'.
Proof.
  intros l b b' H H'. unfold call_state in *. destruct b, b'; cbn in *.
  f_equal; apply option_ext; intros x;
    repeat match goal with H : _ /\ _ |- _ => destruct H end;
    match goal with |- ?a = Some x <-> ?a' = Some x =>
      match goal with Q : forall x, a = Some x <-> _, Q' : forall x, a' = Some x <-> _ |- _ => now rewrite Q, Q' end end.
Qed.
Lemma call_has_in : forall l b c, call_state l b -> call_has b c = true <-> In (call_name c) (map call_name l).
Proof.
  intros l b c H. rewrite in_map_iff. unfold call_state in H. repeat match goal with H : _ /\ _ |- _ => destruct H end.
  assert (Q : forall A (o : option A) (set : A -> call_setter), (forall x, o = Some x <-> In (set x) l) ->
              (is_set o = true <-> exists x, In (set x) l)).
  { intros A o set E. destruct o as [x|]; cbn; split.
    - intros _. exists x. now apply E.
    - reflexivity.
    - discriminate.
    - intros [x I]. apply E in I. discriminate. }
  destruct c; cbn [call_has];
    match goal with |- is_set ?o = true <-> _ =>
      match goal with E : forall x, o = Some x <-> In (?set x) l |- _ => rewrite (Q _ o set E) end end; clear Q;
    (split; [intros [y I]; eexists; split; [|exact I]; reflexivity|]); intros (c & N & I); destruct c; try discriminate N; eauto.
Qed.
Lemma call_sound : forall l b, set_all call_set l call_new = Some b -> NoDup (map call_name l) /\ call_state l b.
Proof.
  intros l; induction l as [|c l IH] using rev_ind; intros b.
  - cbn. intros E. injection E as <-. split; [constructor|]. unfold call_state; cbn. repeat split; try discriminate; contradiction.
  - rewrite set_all_app. destruct (set_all call_set l call_new) as [b0|]; [|discriminate]. cbn.
    destruct (IH b0 eq_refl) as [ND St]. unfold call_set. destruct (call_has b0 c) eqn:Hc; [discriminate|]. intros E. injection E as <-.
    rewrite map_app. cbn [map]. split.
    + apply nodup_snoc. split; [exact ND|]. rewrite <- (call_has_in l b0 c St), Hc. discriminate.
    + unfold call_state in *. repeat match goal with H : _ /\ _ |- _ => destruct H end.
      repeat (apply conj); intros x; rewrite in_app_iff; cbn;
        destruct c; cbn in *;
        match goal with |- Some ?a = _ <-> _ => idtac | E : forall x, ?o = Some x <-> _ |- ?o = _ <-> _ => rewrite E end;
        try (split; [tauto|intros [I|[I|[]]]; [exact I|discriminate I]]);
        (split; [intros E; injection E as <-; auto|intros [I|[I|[]]]; [|injection I as <-; reflexivity]]);
        match goal with E : forall x, ?o = Some x <-> In (?set x) l, I : In (?set _) l |- _ => apply E in I; rewrite I in Hc; discriminate end.
Qed.
Lemma call_complete : forall l, NoDup (map call_name l) -> exists b, set_all call_set l call_new = Some b /\ call_state l b.
Proof.
  intros l ND. destruct (set_all call_set l call_new) as [b|] eqn:E.
  - exists b. split; [reflexivity|]. now apply call_sound.
  - exfalso. revert ND E. induction l as [|c l IH] using rev_ind; [discriminate|].
    rewrite map_app; cbn [map]. rewrite nodup_snoc. intros [ND N]. rewrite set_all_app.
    destruct (set_all call_set l call_new) as [b|] eqn:E; [|auto]. cbn. unfold call_set.
    destruct (call_has b c) eqn:Hc; [|discriminate]. intros _. apply N. rewrite <- (call_has_in l b c); [exact Hc|]. now apply call_sound.
Qed.
Lemma call_build_of : forall l s b, call_state l s -> (call_build s = Some b <-> call_of l b).
Proof.
  intros l s b H. unfold call_state in H. repeat match goal with H : _ /\ _ |- _ => destruct H end.
  unfold call_of, given.
  repeat match goal with |- context [given_or ?set ?d l ?v] =>
    match goal with E : forall x, _ = Some x <-> In (set x) l |- _ => rewrite (set_or set l d _ v E); clear E end end.
  repeat match goal with |- context [In (?set ?v) l] =>
    match goal with E : forall x, _ = Some x <-> In (set x) l |- _ => rewrite <- (E v); clear E end end.
  unfold call_build. destruct b; cbn. split.
  - repeat match goal with |- context [match ?o with Some _ => _ | None => _ end = Some _] => destruct o; [|discriminate] end.
    intros E. injection E. intros. subst. repeat split; reflexivity.
  - intros E. repeat match goal with H : _ /\ _ |- _ => destruct H end.
    repeat match goal with H : ?o = Some _ |- _ => rewrite H; clear H end. repeat f_equal; assumption.
Qed.
Lemma call_with_iff : forall l b, call_with l = Some b <-> NoDup (map call_name l) /\ call_of l b.
Proof.
  intros l b. unfold call_with. split.
  - destruct (set_all call_set l call_new) as [s|] eqn:E; [|discriminate]. apply call_sound in E. destruct E as [ND St].
    intros E. split; [exact ND|]. now apply (call_build_of l s).
  - intros [ND O]. destruct (call_complete l ND) as (s & -> & St). now apply (call_build_of l s).
Qed.
Lemma call_compiles : forall l, (exists b, call_with l = Some b) <-> NoDup (map call_name l) /\ incl call_required (map call_name l).
Proof.
  intros l. split.
  - intros [b E]. apply call_with_iff in E. destruct E as [ND O]. split; [exact ND|]. unfold call_of, given in O.
    repeat match goal with H : _ /\ _ |- _ => destruct H end.
    intros k I. apply in_map_iff. cbn in I.
    repeat match type of I with _ \/ _ => destruct I as [<-|I]; [match goal with J : In ?c l |- _ => exists c; split; [reflexivity|exact J] end|] end.
    contradiction.
  - intros [ND I]. destruct (call_complete l ND) as (s & R & St). unfold call_with. rewrite R.
    assert (Q : forall k, In k call_required -> exists c, call_name c = k /\ In c l) by (intros k Ik; now apply in_map_iff, I).
    clear I R. unfold call_required in Q. unfold call_state in St. repeat match goal with H : _ /\ _ |- _ => destruct H end. unfold call_build.
    repeat match goal with H : forall k, In k (?k0 :: ?r) -> _ |- _ =>
      let c := fresh "c" in let N := fresh "N" in let Ic := fresh "Ic" in
      destruct (H k0 (or_introl eq_refl)) as (c & N & Ic); destruct c; try discriminate N; clear N;
      match goal with E : forall x, _ = Some x <-> In (?set x) l, I : In (?set _) l |- _ => apply E in I; rewrite I; clear I end;
      assert (forall k, In k r -> exists c, call_name c = k /\ In c l) by (intros k Ik; apply H; now right); clear H end.
    eauto.
Qed.
Lemma call_order : forall l l', Permutation l l' -> call_with l = call_with l'.
Proof.
  intros l l' P. apply option_ext. intros b. rewrite !call_with_iff.
  assert (M : forall c, In c l <-> In c l') by (intros c; split; apply Permutation_in; [|symmetry]; exact P).
  assert (D : NoDup (map call_name l) <-> NoDup (map call_name l'))
    by (split; apply Permutation_NoDup; apply Permutation_map; [|symmetry]; exact P).
  rewrite D. unfold call_of, given, given_or. setoid_rewrite M. reflexivity.
Qed.
