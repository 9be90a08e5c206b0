(** Proofs about the expansion of [#[derive(FromTuple)]]. *)

From Coq Require Import Strings.String.
From Verif Require Import Base BaseFacts Clarity Derive Expand SpecExpand SpecClient ClientThms.

Lemma is_ident_iff lead segs n : is_ident lead segs n = true <-> lead = false /\ segs = [(n, ANone)].
Proof.
  unfold is_ident. destruct lead.
  - split; [discriminate | intros [X _]; discriminate].
  - destruct segs as [|[i a] [|? ?]]; try (split; [discriminate | intros [_ X]; discriminate]).
    + destruct a; [|split; [discriminate | intros [_ X]; discriminate]..].
      rewrite bytes_eqb_eq. split; [intros -> | intros [_ X]; injection X]; auto.
    + destruct a; split; try discriminate; intros [_ X]; discriminate.
Qed.

Lemma is_ident_not lead segs n : is_ident lead segs n = false -> ~ (lead = false /\ segs = [(n, ANone)]).
Proof. intros H X. apply is_ident_iff in X. congruence. Qed.

Lemma parse_path_iff segs i o :
  parse_type_path segs = Some (i, o) <->
  exists before, segs = before ++ [(i, match o with Some a => AAngle a | None => ANone end)].
Proof.
  unfold parse_type_path. split.
  - destruct (rev segs) as [|[j a] r] eqn:R; [discriminate|].
    assert (segs = rev r ++ [(j, a)]) as -> by (rewrite <- (rev_involutive segs), R; reflexivity).
    destruct a; intros X; try discriminate; injection X as <- <-; eauto.
  - intros [before ->]. rewrite rev_app_distr. cbn. destruct o; reflexivity.
Qed.

(** The kind a written type has, in the order the macro tests it. *)
Lemma select_declared r t k : select r t = Ok k -> declared r t k.
Proof.
  destruct t as [lead segs|]; cbn [select]; [|discriminate].
  destruct (is_ident lead segs (str "i128")) eqn:E1.
  { apply is_ident_iff in E1. destruct E1 as [-> ->]. intros X. injection X as <-.
    destruct r as [[|]|]; cbn; constructor; discriminate. }
  destruct (is_ident lead segs (str "u128")) eqn:E2.
  { apply is_ident_iff in E2. destruct E2 as [-> ->]. intros X. injection X as <-.
    destruct r as [[|]|]; cbn; constructor; discriminate. }
  destruct (is_ident lead segs (str "bool")) eqn:E3.
  { apply is_ident_iff in E3. destruct E3 as [-> ->]. intros X. injection X as <-. constructor. }
  destruct (is_ident lead segs (str "String")) eqn:E4.
  { apply is_ident_iff in E4. destruct E4 as [-> ->]. intros X. injection X as <-. constructor. }
  apply is_ident_not in E1, E2, E3, E4.
  destruct (parse_type_path segs) as [[i [a|]]|] eqn:P; [| |discriminate];
    apply parse_path_iff in P; destruct P as [before ->].
  - repeat match goal with
    | |- context [bytes_eqb ?x ?y] => destruct (bytes_eqb_spec x y); [subst|]; cbn [andb]
    end; intros X; try discriminate; injection X as <-; constructor.
  - intros X. injection X as <-. constructor. intros -> -> B.
    cbn [app] in *. unfold builtin in B. cbn [map In] in B.
    destruct B as [<-|[<-|[<-|[<-|[]]]]]; [apply E1 | apply E2 | apply E3 | apply E4]; split; reflexivity.
Qed.

Lemma is_ident_generic lead before n x y : is_ident lead (before ++ [(x, AAngle y)]) n = false.
Proof.
  destruct (is_ident _ _ _) eqn:E; [|reflexivity]. apply is_ident_iff in E. destruct E as [_ E].
  destruct before as [|? [|? ?]]; discriminate.
Qed.

Lemma parse_generic before x y : parse_type_path (before ++ [(x, AAngle y)]) = Some (x, Some y).
Proof. apply parse_path_iff. exists before. reflexivity. Qed.

Lemma declared_select r t k : declared r t k -> select r t = Ok k.
Proof.
  destruct 1; unfold word, generic; cbn [select]; rewrite ?is_ident_generic, ?parse_generic; try reflexivity.
  - destruct r as [[|]|]; [contradiction | reflexivity..].
  - destruct r as [[|]|]; [contradiction | reflexivity..].
  - assert (B : forall m, builtin m -> is_ident lead (before ++ [(n, ANone)]) m = false).
    { intros m M. destruct (is_ident _ _ _) eqn:E; [|reflexivity]. apply is_ident_iff in E. destruct E as [-> E].
      destruct before as [|? [|? ?]]; try discriminate. injection E as ->. destruct (H eq_refl eq_refl M). }
    rewrite !B by (unfold builtin; cbn [map In]; tauto).
    assert (parse_type_path (before ++ [(n, ANone)]) = Some (n, None)) as -> by
      (apply parse_path_iff; exists before; reflexivity).
    reflexivity.
Qed.

Lemma select_iff r t k : select r t = Ok k <-> declared r t k.
Proof. split; [apply select_declared | apply declared_select]. Qed.

Lemma select_settled r t : (exists k, select r t = Ok k) \/ select r t = Err (type_error t).
Proof.
  destruct t as [lead segs|]; cbn [select type_error]; [|right; reflexivity].
  repeat (match goal with |- context [if ?b then _ else _] => destruct b end; eauto).
  destruct (parse_type_path segs) as [[i [a|]]|]; eauto.
  repeat (match goal with |- context [if ?b then _ else _] => destruct b end; eauto).
Qed.

Lemma select_refused r t e : select r t = Err e <-> (forall k, ~ declared r t k) /\ e = type_error t.
Proof.
  split.
  - intros S. split.
    + intros k K. apply select_iff in K. congruence.
    + destruct (select_settled r t) as [[k K]|K]; congruence.
  - intros [N ->]. destruct (select_settled r t) as [[k K]|K]; [|exact K].
    apply select_iff in K. destruct (N k K).
Qed.

Lemma unnamed_iff f : unnamed f = true <-> nameless f.
Proof. unfold unnamed, nameless. destruct (fr_ident f), (fr_key f); intuition congruence. Qed.

Lemma expand_fields_ok fs l : expand_fields fs = Ok l <-> Forall2 field_of fs l.
Proof.
  revert l. induction fs as [|f fs IH]; intros l; cbn [expand_fields].
  - split; [intros X; injection X as <-; constructor | inversion 1; reflexivity].
  - split.
    + destruct (select (fr_response f) (fr_ty f)) as [k| | |] eqn:S; cbn [bind]; try discriminate.
      destruct (expand_fields fs) as [ks| | |] eqn:F; cbn [bind]; try discriminate.
      destruct (fr_ident f) as [i|] eqn:I; [|discriminate]. destruct (fr_key f) as [key|] eqn:K; [|discriminate].
      intros X. injection X as <-. constructor; [|apply IH; reflexivity].
      repeat split; cbn; auto. apply select_iff. exact S.
    + intros H. inversion H as [|? x ? ks [HI [HK HD]] HF]; subst. apply select_iff in HD. rewrite HD. cbn [bind].
      apply IH in HF. rewrite HF. cbn [bind]. rewrite HI, HK. destruct x as [[? ?] ?]. reflexivity.
Qed.

Lemma expand_fields_err fs e : Forall (fun f => ~ nameless f) fs ->
  (expand_fields fs = Err e <->
   exists before f after l, fs = before ++ f :: after /\ Forall2 field_of before l
     /\ (forall k, ~ declared (fr_response f) (fr_ty f) k) /\ e = type_error (fr_ty f)).
Proof.
  intros N. induction fs as [|f fs IH]; cbn [expand_fields].
  - split; [discriminate|]. intros [before [f [after [l [X _]]]]]. destruct before; discriminate.
  - inversion N as [|? ? NF NR]; subst. specialize (IH NR).
    destruct (select_settled (fr_response f) (fr_ty f)) as [[k S]|S]; rewrite S; cbn [bind].
    + assert (D := proj1 (select_iff _ _ _) S).
      assert (exists i key, fr_ident f = Some i /\ fr_key f = Some key) as [i [key [HI HK]]].
      { unfold nameless in NF. destruct (fr_ident f), (fr_key f); eauto; destruct NF; auto. }
      split.
      * destruct (expand_fields fs) as [ks|e'| |] eqn:F; cbn [bind]; rewrite ?HI, ?HK; try discriminate.
        intros X. injection X as ->. destruct (proj1 IH eq_refl) as [before [g [after [l [-> [HB [HD HE]]]]]]].
        exists (f :: before), g, after, ((i, key, k) :: l). repeat split; auto.
        constructor; [|exact HB]. repeat split; auto.
      * intros [before [g [after [l [X [HB [HD HE]]]]]]]. destruct before as [|b before].
        { injection X as <- <-. destruct (HD k D). }
        injection X as <- ->. inversion HB; subst.
        rewrite (proj2 IH); [reflexivity|]. do 4 eexists. eauto.
    + assert (ND := proj1 (proj1 (select_refused _ _ _) S)). split.
      * intros X. injection X as <-. exists [], f, fs, []. repeat split; auto.
      * intros [before [g [after [l [X [HB [HD HE]]]]]]]. destruct before as [|b before].
        { injection X as <- <-. rewrite HE. reflexivity. }
        injection X as <- ->. inversion HB as [|? x ? ? [_ [_ DD]] _]; subst. destruct (ND _ DD).
Qed.

Lemma some_unnamed fs : existsb unnamed fs = true <-> Exists nameless fs.
Proof.
  rewrite existsb_exists, Exists_exists. split; intros [f [I U]]; exists f; (split; [exact I|]); apply unnamed_iff; exact U.
Qed.

Lemma none_unnamed fs : existsb unnamed fs = false <-> Forall (fun f => ~ nameless f) fs.
Proof.
  rewrite Forall_Exists_neg. rewrite <- some_unnamed. destruct (existsb unnamed fs); split; congruence.
Qed.

Lemma field_of_named fs l : Forall2 field_of fs l -> Forall (fun f => ~ nameless f) fs.
Proof.
  induction 1 as [|f x ? ? [HI [HK _]] _ IH]; constructor; auto. intros [X|X]; congruence.
Qed.

Lemma expand_ok inp l : expand inp = Ok l <-> exists fs, in_fields inp = Some fs /\ fs <> [] /\ Forall2 field_of fs l.
Proof.
  unfold expand. destruct (in_fields inp) as [fs|].
  2:{ split; [discriminate | intros [? [X _]]; discriminate]. }
  destruct fs as [|f fs].
  { split; [discriminate | intros [? [X [Y _]]]; injection X as <-; contradiction]. }
  destruct (existsb unnamed (f :: fs)) eqn:U.
  - split; [discriminate|]. intros [? [X [_ F]]]. injection X as <-.
    apply field_of_named, none_unnamed in F. congruence.
  - rewrite expand_fields_ok. split; [|intros [? [X [_ F]]]; injection X as <-; exact F].
    intros F. exists (f :: fs). repeat split; auto. discriminate.
Qed.

Lemma expand_err inp e : expand inp = Err e <->
  exists fs, in_fields inp = Some fs
    /\ ((fs = [] /\ e = XUnit)
        \/ (Exists nameless fs /\ e = XUnnamed)
        \/ (Forall (fun f => ~ nameless f) fs /\ exists before f after l, fs = before ++ f :: after
              /\ Forall2 field_of before l /\ (forall k, ~ declared (fr_response f) (fr_ty f) k) /\ e = type_error (fr_ty f))).
Proof.
  unfold expand. destruct (in_fields inp) as [fs|].
  2:{ split; [discriminate | intros [? [X _]]; discriminate]. }
  destruct fs as [|f fs].
  { split.
    - intros X. injection X as <-. eauto.
    - intros [? [X H]]. injection X as <-. destruct H as [[_ ->]|[[H _]|[_ [b [? [? [? [H _]]]]]]]]; [reflexivity | inversion H |].
      destruct b; discriminate. }
  destruct (existsb unnamed (f :: fs)) eqn:U.
  - assert (UE := proj1 (some_unnamed _) U). split.
    + intros X. injection X as <-. exists (f :: fs). split; [reflexivity|]. right. left. split; [exact UE | reflexivity].
    + intros [? [X H]]. injection X as <-. destruct H as [[H _]|[[_ ->]|[H _]]]; [discriminate | reflexivity |].
      apply none_unnamed in H. congruence.
  - assert (UF := proj1 (none_unnamed _) U). rewrite (expand_fields_err _ _ UF). split.
    + intros H. exists (f :: fs). split; [reflexivity|]. right. right. split; [exact UF | exact H].
    + intros [? [X H]]. injection X as <-. destruct H as [[H _]|[[H _]|[_ H]]]; [discriminate | | exact H].
      apply some_unnamed in H. congruence.
Qed.

Lemma expand_settled inp : match expand inp with
  | Ok _ | Err _ => in_fields inp <> None | Panic p => in_fields inp = None /\ p = PExplicit | NoFuel => False end.
Proof.
  unfold expand. destruct (in_fields inp) as [fs|]; [|now split].
  destruct fs as [|f fs]; [discriminate|]. destruct (existsb unnamed (f :: fs)) eqn:U; [discriminate|].
  revert U. generalize (f :: fs). intros l. induction l as [|g l IH]; [discriminate|].
  cbn [existsb]. intros U. apply Bool.orb_false_iff in U. destruct U as [UG UL]. cbn [expand_fields].
  destruct (select_settled (fr_response g) (fr_ty g)) as [[k ->]| ->]; [|discriminate]. cbn [bind].
  specialize (IH UL). destruct (expand_fields l); cbn [bind]; try discriminate; try contradiction; try (now destruct IH).
  unfold unnamed in UG. destruct (fr_ident g), (fr_key g); discriminate.
Qed.

Lemma fty_of_iff sc k f : fty_of sc k = Some f <-> resolves sc k f.
Proof.
  split.
  - destruct k; cbn; intros X; try (injection X as <-; constructor).
    destruct (sc name) eqn:S; [|discriminate]. injection X as <-. constructor. exact S.
  - destruct 1; cbn; try reflexivity. rewrite H. reflexivity.
Qed.

Lemma ftys_of_ok sc fs l tys : Forall2 field_of fs l -> ftys_of sc l = Some tys -> Forall2 (reads sc) fs tys.
Proof.
  intros F. revert tys. induction F as [|f [[i key] k] fs l [HI [HK HD]] F IH]; cbn [ftys_of]; intros tys T.
  - injection T as <-. constructor.
  - destruct (fty_of sc k) as [ft|] eqn:K; [|discriminate]. destruct (ftys_of sc l) as [r|]; [|discriminate].
    injection T as <-. constructor; [|auto]. cbn in *. repeat split.
    + congruence.
    + exact HK.
    + exists k. split; [exact HD | apply fty_of_iff; exact K].
Qed.

Lemma reads_ftys sc fs tys : Forall2 (reads sc) fs tys -> exists l, Forall2 field_of fs l /\ ftys_of sc l = Some tys.
Proof.
  induction 1 as [|f [key ft] fs tys [HI [HK [k [HD HR]]]] F [l [IF IT]]].
  - exists []. split; [constructor | reflexivity].
  - destruct (fr_ident f) as [i|] eqn:I; [|congruence]. exists ((i, key, k) :: l). split.
    + constructor; [|exact IF]. cbn in *. repeat split; auto.
    + cbn [ftys_of]. apply fty_of_iff in HR. cbn [snd] in HR. rewrite HR, IT. reflexivity.
Qed.

(** The generated conversion exists exactly for structs of readable fields, and fills or refuses them as C50 says. *)
Lemma derived_iff sc inp g : derived_try_from sc inp = Some g <->
  exists fs tys, in_fields inp = Some fs /\ fs <> [] /\ Forall2 (reads sc) fs tys /\ g = derive_fields (in_ident inp) tys.
Proof.
  unfold derived_try_from. split.
  - destruct (expand inp) as [l| | |] eqn:X; try discriminate. apply expand_ok in X.
    destruct X as [fs [HI [HN HF]]]. destruct (ftys_of sc l) as [tys|] eqn:T; [|discriminate].
    intros Y. injection Y as <-. exists fs, tys. repeat split; auto. eapply ftys_of_ok; eauto.
  - intros [fs [tys [HI [HN [HF ->]]]]]. destruct (reads_ftys _ _ _ HF) as [l [IF IT]].
    rewrite (proj2 (expand_ok inp l)); [|eauto]. rewrite IT. reflexivity.
Qed.

Lemma declared_fun r t k k' : declared r t k -> declared r t k' -> k = k'.
Proof. rewrite <- !select_iff. congruence. Qed.
