(** Property theorems C61: which structs [#[derive(FromTuple)]] accepts, and how each field is read. *)

From Coq Require Import Strings.String.
From Verif Require Import Base Clarity Derive Expand SpecExpand SpecClient ClientThms ExpandThms.
Local Open Scope N_scope.

(** ** C61 *)
Theorem C61_field_types : forall r t k, select r t = Ok k <-> declared r t k.
Proof. exact select_iff. Qed.
Print Assumptions C61_field_types.

Theorem C61_field_types_refused : forall r t e, select r t = Err e <-> (forall k, ~ declared r t k) /\ e = type_error t.
Proof. exact select_refused. Qed.
Print Assumptions C61_field_types_refused.

Theorem C61_one_reading : forall r t k k', declared r t k -> declared r t k' -> k = k'.
Proof. exact declared_fun. Qed.
Print Assumptions C61_one_reading.

(** One generated field per declared field, in order, under the key given. *)
Theorem C61_accepted : forall inp l,
  expand inp = Ok l <-> exists fs, in_fields inp = Some fs /\ fs <> [] /\ Forall2 field_of fs l.
Proof. exact expand_ok. Qed.
Print Assumptions C61_accepted.

(** No fields; a field without name or key; else the first field whose type is not supported. *)
Theorem C61_refused : forall inp e, expand inp = Err e <->
  exists fs, in_fields inp = Some fs
    /\ ((fs = [] /\ e = XUnit)
        \/ (Exists nameless fs /\ e = XUnnamed)
        \/ (Forall (fun f => ~ nameless f) fs /\ exists before f after l, fs = before ++ f :: after
              /\ Forall2 field_of before l /\ (forall k, ~ declared (fr_response f) (fr_ty f) k) /\ e = type_error (fr_ty f))).
Proof. exact expand_err. Qed.
Print Assumptions C61_refused.

(** The macro itself panics on enums and on nothing else. *)
Theorem C61_panics_iff_enum : forall inp, match expand inp with
  | Ok _ | Err _ => in_fields inp <> None | Panic p => in_fields inp = None /\ p = PExplicit | NoFuel => False end.
Proof. exact expand_settled. Qed.
Print Assumptions C61_panics_iff_enum.

(** From the written struct to the values: the conversion exists exactly when every field is readable in scope, and
    then fills every field from its own key, or returns the error of the first field that cannot be filled. *)
Theorem C61_conversion : forall sc inp,
  (forall g, derived_try_from sc inp = Some g ->
     exists fs tys, in_fields inp = Some fs /\ Forall2 (reads sc) fs tys
       /\ forall t, (forall xs, g t = Ok xs <-> fills_all t tys xs)
                    /\ (forall e, g t = Err e <-> fails_all (in_ident inp) t tys e)
                    /\ ((exists xs, g t = Ok xs) \/ exists e, g t = Err e))
  /\ (forall fs tys, in_fields inp = Some fs -> fs <> [] -> Forall2 (reads sc) fs tys ->
        derived_try_from sc inp <> None).
Proof.
  intros sc inp. split.
  - intros g G. apply derived_iff in G. destruct G as [fs [tys [HI [_ [HF ->]]]]]. exists fs, tys.
    split; [exact HI|]. split; [exact HF|]. intros t. split; [|split].
    + intros xs. apply derive_ok.
    + intros e. apply derive_err.
    + apply derive_settled.
  - intros fs tys HI HN HF X.
    assert (derived_try_from sc inp = Some (derive_fields (in_ident inp) tys)) by (apply derived_iff; eauto 10).
    congruence.
Qed.
Print Assumptions C61_conversion.

(** Finding: the [response] attribute is silently ignored on everything but the words i128 and u128. *)
Theorem C61_response_ignored : forall r r' t, t <> word "i128" -> t <> word "u128" -> select r t = select r' t.
Proof.
  intros r r' t NI NU. destruct t as [lead segs|]; [|reflexivity]. cbn [select].
  destruct (is_ident lead segs (str "i128")) eqn:EI.
  { apply is_ident_iff in EI. destruct EI as [-> ->]. destruct (NI eq_refl). }
  destruct (is_ident lead segs (str "u128")) eqn:EU.
  { apply is_ident_iff in EU. destruct EU as [-> ->]. destruct (NU eq_refl). }
  reflexivity.
Qed.
Print Assumptions C61_response_ignored.

Theorem C61_response_refuted : exists t, select (Some true) t = Ok KBool /\ select None t = Ok KBool.
Proof. exists (word "bool"). split; reflexivity. Qed.
Print Assumptions C61_response_refuted.

(** Finding: a built-in type written with its path is taken for a struct of that name, and a qualified struct loses
    its path. *)
Theorem C61_qualified : forall r lead before n, lead = true \/ before <> [] ->
  select r (RPath lead (before ++ [(n, ANone)])) = Ok (KNested n).
Proof.
  intros r lead before n H. apply select_iff. constructor. intros -> ->. destruct H; [discriminate | contradiction].
Qed.
Print Assumptions C61_qualified.

(** Finding: no other generic type is supported, so neither lists nor options of structs. *)
Theorem C61_generic_refused : forall r lead before n a,
  ~ In (n, a) [("Vec", "u8"); ("Vec", "String"); ("Option", "i128"); ("Option", "u128"); ("Option", "String")]%string ->
  select r (generic lead before n a) = Err XPath.
Proof.
  intros r lead before n a N. apply select_refused. split; [|reflexivity]. intros k D.
  unfold generic in D. remember (RPath lead (before ++ [(str n, AAngle (str a))])) as t eqn:E.
  assert (SI : forall x y, str x = str y -> x = y).
  { intros x y X. rewrite <- (string_of_list_byte_of_string x), <- (string_of_list_byte_of_string y).
    unfold str in X. rewrite X. reflexivity. }
  destruct D; unfold word, generic in E; injection E as EL EB;
    try (destruct before as [|? [|? ?]]; discriminate);
    try (apply app_inj_tail in EB; destruct EB as [_ EB]; injection EB as E1 E2; apply SI in E1, E2; subst;
         apply N; cbn; tauto).
  apply app_inj_tail in EB. destruct EB as [_ EB]. discriminate.
Qed.
Print Assumptions C61_generic_refused.

Definition ex_field (name key : string) (r : option bool) (t : rust_ty) : field_recv :=
  {| fr_ident := Some (str name); fr_key := Some (str key); fr_response := r; fr_ty := t |}.
Definition ex_scope : scope := fun n => if bytes_eqb n (str "Inner") then Some [(str "on", FBool)] else None.
Definition ex_input : input_recv :=
  {| in_ident := str "Outer";
     in_fields := Some [ex_field "id" "id" None (word "u128"); ex_field "bal" "balance" (Some true) (word "i128");
                        ex_field "raw" "raw" None (generic true [(str "std", ANone); (str "vec", ANone)] "Vec" "u8");
                        ex_field "inner" "data" None (word "Inner")] |}.
Definition ex_entries : entries :=
  [(str "balance", CRespOk (CInt (-4))); (str "data", CTuple [(str "on", CTrue)]); (str "id", CUInt 7); (str "raw", CBuffer [x01])].
Example C61_ex :
  (exists g, derived_try_from ex_scope ex_input = Some g
     /\ g ex_entries = Ok [VU128 7; VI128 (-4); VBytes [x01]; VStruct [VBool true]]
     /\ g [] = Err (DeExtract (str "id") (str "Outer")))
  /\ select None (RPath false [(str "std", ANone); (str "string", ANone); (str "String", ANone)]) = Ok (KNested (str "String"))
  /\ select None (generic false [] "Vec" "i128") = Err XPath
  /\ expand {| in_ident := str "S"; in_fields := Some [] |} = Err XUnit.
Proof. split; [eexists; split; [reflexivity | split; reflexivity] | repeat split]. Qed.
