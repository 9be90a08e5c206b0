(** Proofs about the macros (C76). *)

From Coq Require Import Strings.String Lia.
From Verif Require Import Base BaseFacts Clarity SpecWire SpecShow ShowFacts WireFacts ClarityFacts Tx Macro SpecMacro.
Local Open Scope string_scope.
Local Open Scope list_scope.

Lemma to_text_iff e s : to_text e = Some s <-> stands_for e s.
Proof.
  split.
  - destruct e; cbn [to_text]; try discriminate; intros [= <-]; constructor.
    + apply show_Z_signed.
    + apply show_N_decimal.
    + apply shows_display. reflexivity.
  - intros []; cbn [to_text]; try reflexivity; f_equal.
    + apply signed_show. assumption.
    + apply decimal_show. assumption.
    + apply shows_display. assumption.
Qed.

(** ** Arms on a call *)

Lemma flat_nil args : flat_map (fun e => [Comma; Ex e]) args = [] -> args = [].
Proof. destruct args; [reflexivity | discriminate]. Qed.

Lemma arm0 a out n args :
  match_arm (plain [PId a] out) (call n args) = if bytes_eqb a n then match args with [] => Some [] | _ => None end else None.
Proof. unfold match_arm, call. cbn [plain arm_pre arm_rep match_pats]. destruct (bytes_eqb a n); [|reflexivity]. destruct args; reflexivity. Qed.

Lemma arm1 a out n args :
  match_arm (plain [PId a; PComma; PExpr] out) (call n args) = if bytes_eqb a n then match args with [e] => Some [BEx e] | _ => None end else None.
Proof.
  unfold match_arm, call. cbn [plain arm_pre arm_rep match_pats]. destruct (bytes_eqb a n); [|reflexivity]. destruct args as [|e [|f r]]; reflexivity.
Qed.

Lemma arm2 a out n args :
  match_arm (plain [PId a; PComma; PExpr; PComma; PExpr] out) (call n args)
  = if bytes_eqb a n then match args with [e; f] => Some [BEx e; BEx f] | _ => None end else None.
Proof.
  unfold match_arm, call. cbn [plain arm_pre arm_rep match_pats]. destruct (bytes_eqb a n); [|reflexivity]. destruct args as [|e [|f [|g r]]]; reflexivity.
Qed.

Lemma rep_exprs args : forall n, (List.length (flat_map (fun e => [Comma; Ex e]) args) <= n)%nat ->
  match_rep n [PComma; PExpr] (flat_map (fun e => [Comma; Ex e]) args) = Some (map BEx args).
Proof.
  induction args as [|e r IH]; intros n L; [destruct n; reflexivity|]. cbn [flat_map app List.length] in *. destruct n as [|n]; [lia|].
  cbn [match_rep match_pats app]. rewrite IH by lia. reflexivity.
Qed.

Definition is_pair (e : rexpr) : bool := match e with RPair _ _ => true | _ => false end.

Lemma rep_pairs args : forall n, (List.length (flat_map (fun e => [Comma; Ex e]) args) <= n)%nat ->
  match_rep n [PComma; PPair] (flat_map (fun e => [Comma; Ex e]) args) = if forallb is_pair args then Some (map BEx args) else None.
Proof.
  induction args as [|e r IH]; intros n L; [destruct n; reflexivity|]. cbn [flat_map app List.length] in *. destruct n as [|n]; [lia|].
  cbn [match_rep match_pats forallb]. destruct e; cbn [is_pair andb]; try reflexivity. cbn [app]. rewrite IH by lia.
  destruct (forallb is_pair r); reflexivity.
Qed.

Lemma arm_exprs a out n args :
  match_arm {| arm_pre := [PId a]; arm_rep := Some [PComma; PExpr]; arm_out := out |} (call n args)
  = if bytes_eqb a n then Some (map BEx args) else None.
Proof.
  unfold match_arm, call. cbn [arm_pre arm_rep match_pats]. destruct (bytes_eqb a n); [|reflexivity]. rewrite rep_exprs by lia. reflexivity.
Qed.

Lemma arm_pairs a out n args :
  match_arm {| arm_pre := [PId a]; arm_rep := Some [PComma; PPair]; arm_out := out |} (call n args)
  = if bytes_eqb a n then if forallb is_pair args then Some (map BEx args) else None else None.
Proof.
  unfold match_arm, call. cbn [arm_pre arm_rep match_pats]. destruct (bytes_eqb a n); [|reflexivity]. rewrite rep_pairs by lia.
  destruct (forallb is_pair args); reflexivity.
Qed.

Lemma all_ex args : all ex (map BEx args) = Some args.
Proof. induction args as [|e r IH]; [reflexivity|]. cbn [map all ex]. rewrite IH. reflexivity. Qed.

Lemma all_boxed args vs : all boxed args = Some vs <-> args = map RVal vs.
Proof.
  revert vs. induction args as [|e r IH]; intros vs; cbn [all].
  - split; [intros [= <-]; reflexivity | destruct vs; [reflexivity | discriminate]].
  - split.
    + destruct e; try discriminate. cbn [boxed]. destruct (all boxed r) as [ys|] eqn:Y; [|discriminate].
      intros [= <-]. cbn [map]. f_equal. apply IH. reflexivity.
    + destruct vs as [|v vs]; [discriminate|]. cbn [map]. intros [= -> ->]. cbn [boxed]. rewrite (proj2 (IH vs) eq_refl). reflexivity.
Qed.

Lemma all_pairs args kvs : all pair_of args = Some kvs <->
  exists ks, Forall2 stands_for ks (map fst kvs) /\ args = map (fun p => RPair (fst p) (RVal (snd (snd p)))) (combine ks kvs).
Proof.
  revert kvs. induction args as [|e r IH]; intros kvs; cbn [all].
  - split.
    + intros [= <-]. exists []. split; [constructor | reflexivity].
    + intros (ks & F & E). destruct kvs as [|kv kvs]; [reflexivity|]. inversion F; subst. discriminate.
  - split.
    + destruct e as [| | | | |k v]; try discriminate. cbn [pair_of]. destruct (to_text k) as [s|] eqn:T; [|discriminate].
      destruct (boxed v) as [x|] eqn:B; [|discriminate]. destruct (all pair_of r) as [ys|] eqn:Y; [|discriminate]. intros [= <-].
      destruct (proj1 (IH ys) eq_refl) as (ks & F & ->). exists (k :: ks). cbn [map fst snd combine]. split.
      * constructor; [apply to_text_iff, T | exact F].
      * destruct v; try discriminate. injection B as ->. reflexivity.
    + intros (ks & F & E). destruct kvs as [|[s x] kvs]; cbn [map fst] in F; [inversion F; subst; discriminate|].
      inversion F as [|k s' ks' t SF F' X Y]; subst. cbn [combine map fst snd] in E. injection E as -> ->.
      cbn [pair_of boxed]. rewrite (proj2 (to_text_iff _ _) SF). rewrite (proj2 (IH kvs)); [reflexivity|]. exists ks'. auto.
Qed.

Lemma pairs_are ks kvs : forallb is_pair (map (fun p : rexpr * (bytes * cval) => RPair (fst p) (RVal (snd (snd p)))) (combine ks kvs)) = true.
Proof. apply forallb_forall. intros e I. apply in_map_iff in I. destruct I as (p & <- & _). reflexivity. Qed.

Lemma not_pair_none args : forallb is_pair args = false -> all pair_of args = None.
Proof.
  induction args as [|e r IH]; [discriminate|]. cbn [forallb all]. destruct e; cbn [is_pair andb]; try reflexivity.
  intros H. rewrite (IH H). cbn [pair_of]. destruct (to_text e1), (boxed e2); reflexivity.
Qed.

Ltac arms := unfold clarity_macro, clarity_arms; cbn [expand];
  rewrite ?arm0, ?arm1, ?arm2, ?arm_exprs, ?arm_pairs.
Ltac on_name := match goal with
  | |- context [bytes_eqb ?a ?n] => is_var n; destruct (bytes_eqb_spec a n) as [<- | ?]
  end.
Ltac concretely := repeat match goal with |- context [bytes_eqb ?a ?b] => let v := eval vm_compute in (bytes_eqb a b) in change (bytes_eqb a b) with v end.

Lemma at_arm out n args : match_arm (plain [PAt; PId (str "empty"); PComma; PIdent] out) (call n args) = None.
Proof. reflexivity. Qed.

Lemma macro_exact n args v : clarity_macro (call n args) = Some v <-> builds n args v.
Proof.
  arms. rewrite at_arm. split.
  - repeat (on_name; [concretely; cbn [arm_out plain one]|]); try discriminate.
    all: try (destruct args as [|e [|f [|g r]]]; cbn [one arm_out plain]; try discriminate;
      try (intros [= <-]; constructor; fail);
      try (destruct e; try discriminate; intros [= <-]; constructor; fail);
      try (unfold texted; destruct (to_text e) eqn:T; [|discriminate]; intros [= <-]; constructor; apply to_text_iff; assumption);
      try (destruct (to_text e) eqn:T, (to_text f) eqn:U; try discriminate; intros [= <-]; constructor; apply to_text_iff; assumption); fail).
    + destruct args as [|e r]; [intros [= <-]; apply (b_list [])|]. unfold values. rewrite all_ex.
      destruct (all boxed (e :: r)) as [vs|] eqn:B; [|discriminate]. intros [= <-]. apply all_boxed in B. rewrite B. constructor.
    + destruct args as [|e r]; [intros [= <-]; apply (b_tuple [] []); constructor|].
      destruct (forallb is_pair (e :: r)); [|discriminate]. rewrite all_ex.
      destruct (all pair_of (e :: r)) as [kvs|] eqn:B; [|discriminate]. intros [= <-].
      apply all_pairs in B. destruct B as (ks & F & ->). constructor. exact F.
    + destruct args as [|e r]; [intros [= <-]; apply (b_args [])|]. unfold values. rewrite all_ex.
      destruct (all boxed (e :: r)) as [vs|] eqn:B; [|discriminate]. intros [= <-]. apply all_boxed in B. rewrite B. constructor.
  - intros [].
    all: concretely; cbn [arm_out plain one]; try reflexivity.
    all: unfold texted; repeat match goal with H : stands_for ?e ?s |- _ => apply to_text_iff in H; try rewrite H end; try reflexivity.
    + assert (V : values (map BEx (map RVal vs)) = Some vs) by (unfold values; rewrite all_ex; apply all_boxed; reflexivity).
      rewrite V. destruct vs; reflexivity.
    + destruct (combine ks kvs) as [|p r] eqn:C.
      { destruct kvs as [|kv kvs]; [reflexivity|]. match goal with H : Forall2 _ _ _ |- _ => inversion H; subst end. discriminate. }
      rewrite <- C. clear p r C.
      assert (P : all pair_of (map (fun p => RPair (fst p) (RVal (snd (snd p)))) (combine ks kvs)) = Some kvs) by (apply all_pairs; eauto).
      rewrite pairs_are, all_ex, P. destruct (map _ (combine ks kvs)); [injection P as <-; reflexivity | reflexivity].
    + assert (V : values (map BEx (map RVal vs)) = Some vs) by (unfold values; rewrite all_ex; apply all_boxed; reflexivity).
      rewrite V. destruct vs; reflexivity.
Qed.

(** ** Every value can be written *)

Lemma written_by n args v : builds n args v -> Forall wexpr args -> written v.
Proof. intros B F. apply (w_call n args); [apply macro_exact, B | exact F]. Qed.

Lemma every_written v : written v.
Proof.
  induction v using cval_induction; (eapply written_by; [econstructor; try apply sf_text | ]);
    try (repeat constructor; assumption).
  - match goal with H : Forall _ _ |- _ => induction H; cbn [map]; constructor; auto; constructor; assumption end.
  - instantiate (1 := map (fun kv => RText (fst kv)) l). induction l as [|kv r IH]; constructor; [constructor|].
    match goal with H : Forall _ _ |- _ => inversion H; subst end. auto.
  - match goal with H : Forall _ _ |- _ => induction H; cbn [map combine fst snd]; constructor; auto; constructor; [constructor|] end.
    constructor. assumption.
  - match goal with H : Forall _ _ |- _ => induction H; cbn [map]; constructor; auto; constructor; assumption end.
Qed.

Lemma push_conditions_iff groups : forall tmp l, push_conditions tmp groups = Some l <-> exists cs, Forall2 condition_of groups cs /\ l = tmp ++ cs.
Proof.
  assert (G : forall g c, gen_condition (fst g) (snd g) = Some c <-> condition_of g c).
  { intros [ty args] c. cbn [fst snd]. unfold gen_condition. split.
    - repeat match goal with |- context [bytes_eqb ty ?a] => destruct (bytes_eqb_spec ty a) as [-> | ?] end; try discriminate;
        (destruct args as [|[] [|[] [|[] [|[] [|? ?]]]]]; try discriminate; intros [= <-]; constructor).
    - intros X. inversion X; subst; reflexivity. }
  induction groups as [|[ty args] r IH]; intros tmp l; cbn [push_conditions].
  - split; [intros [= <-]; exists []; rewrite app_nil_r; auto|]. intros (cs & F & ->). inversion F; subst. rewrite app_nil_r. reflexivity.
  - pose proof (G (ty, args)) as Gc. cbn [fst snd] in Gc. destruct (gen_condition ty args) as [c|].
    + rewrite IH. split.
      * intros (cs & F & ->). exists (c :: cs). rewrite <- app_assoc. split; [constructor; [apply Gc; reflexivity | exact F] | reflexivity].
      * intros (cs & F & ->). inversion F as [|g c' gs cs' X Y]; subst. apply Gc in X. injection X as <-. exists cs'. rewrite <- app_assoc. auto.
    + split; [discriminate|]. intros (cs & F & ->). inversion F as [|g c' gs cs' X Y]; subst. apply Gc in X. discriminate.
Qed.
