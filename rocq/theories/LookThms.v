(** Proofs about reading no more of a JSON text than is needed (C91). *)

From Coq Require Import Strings.String Lia ZifyBool ZifyNat ZifyN.
From Verif Require Import Base BaseFacts SpecUtf8 Utf8 Utf8Facts Utf8Thms SpecText SpecShow Clarity SpecWire ShowFacts Tx SpecTx F64 Rpc SpecClient ClientThms Json SpecJson SpecF64 F64Thms JsonThms JsonRead SpecBody JsonReadThms.
Local Open Scope list_scope.
Local Open Scope N_scope.

(** What is left of a value of which only [s] is looked at, if it is not nested too deeply and no number is too
    large. *)
Definition cons_opt {A} (x : option A) (l : option (list A)) : option (list A) :=
  match x, l with Some x, Some l => Some (x :: l) | _, _ => None end.
Definition pair_opt (k : bytes) (x : option json) : option (bytes * json) := match x with Some x => Some (k, x) | None => None end.
Definition erased (s : shape) (x : bytes) : bytes := match s with Skipped => [] | _ => x end.
Fixpoint look (s : shape) (j : json) {struct j} : option json :=
  match j with
  | JFloat t => if in_range s t then Some j else None
  | JStr x => Some (JStr (erased s x))
  | JArr l =>
    if may_open s then
      option_map JArr ((fix go (s : shape) (l : list json) : option (list json) :=
        match l with [] => Some [] | x :: r => cons_opt (look (head_shape s) x) (go (tail_shape s) r) end) s l)
    else None
  | JObj l =>
    if may_open s then
      option_map JObj ((fix go (l : list (bytes * json)) : option (list (bytes * json)) :=
        match l with
        | [] => Some []
        | (k, x) :: r => cons_opt (pair_opt (erased s k) (look (member_shape s (erased s k)) x)) (go r)
        end) l)
    else None
  | _ => Some j
  end.
Fixpoint look_items (s : shape) (l : list json) : option (list json) :=
  match l with [] => Some [] | x :: r => cons_opt (look (head_shape s) x) (look_items (tail_shape s) r) end.
Fixpoint look_members (s : shape) (l : list (bytes * json)) : option (list (bytes * json)) :=
  match l with
  | [] => Some []
  | (k, x) :: r => cons_opt (pair_opt (erased s k) (look (member_shape s (erased s k)) x)) (look_members s r)
  end.
Lemma look_arr s l : look s (JArr l) = if may_open s then option_map JArr (look_items s l) else None.
Proof. reflexivity. Qed.
Lemma look_obj s l : look s (JObj l) = if may_open s then option_map JObj (look_members s l) else None.
Proof. cbn [look]. destruct (may_open s); [|reflexivity]. f_equal. induction l as [|[k x] l IH]; [reflexivity|]. cbn [look_members]. now rewrite <- IH. Qed.

Lemma look_float s t j : look s (JFloat t) = Some j -> j = JFloat t.
Proof. cbn [look]. destruct (in_range s t); congruence. Qed.

(** ** Strings *)
Lemma chars_loose t s : chars t s -> loose t.
Proof.
  induction 1 as [|c t s L N1 N2 H IH|e c t s I H IH|u n t s U V H IH|u v n m t s U V Bn Bm H IH].
  - constructor.
  - now constructor.
  - constructor; [|exact IH]. exact (in_map fst _ _ I).
  - now apply (loose_unit u n).
  - apply (loose_unit u n); [exact U|]. now apply (loose_unit v m).
Qed.
Lemma string_text_at s t x : string_text t x -> text_at s t (erased s x).
Proof. intros H. destruct s; try exact H. destruct H as (_ & c & C & ->). split; [reflexivity|]. exists c. split; [now apply chars_loose in C|reflexivity]. Qed.
Lemma string_at_erased s b x r : string b = Some (x, r) -> string_at s b = Some (erased s x, r).
Proof.
  intros H. destruct (string_sound b x r H) as (t & T & E). apply (string_text_at s) in T.
  destruct (string_at_complete s t _ r T) as (q & -> & Q). injection E as ->. exact Q.
Qed.

(** ** The two readings go together *)
Definition with_rest {A} (o : option A) (r : bytes) : option (A * bytes) := match o with Some a => Some (a, r) | None => None end.
Lemma with_rest_map {A B} (g : A -> B) o r :
  with_rest (option_map g o) r = match with_rest o r with Some (l, p) => Some (g l, p) | None => None end.
Proof. now destruct o. Qed.

Lemma number_look s t j : number_text t j -> look s j = match j with JFloat x => if in_range s x then Some j else None | _ => Some j end.
Proof. intros N. destruct (number_chars t j N) as (_ & _ & _ & [[z ->]|[x ->]]); reflexivity. Qed.

(** Any JSON can be skipped. *)
Lemma skippable : (forall t j, value_text t j -> exists j', value_at Skipped t j')
  /\ (forall t l, items_text t l -> forall n, exists l', items_at Skipped n t l')
  /\ (forall t l, members_text t l -> exists l', members_at Skipped t l').
Proof.
  apply text_mut.
  - exists JNull. constructor.
  - exists (JBool true). constructor.
  - exists (JBool false). constructor.
  - intros t j N. exists j. now constructor.
  - intros t s S. exists (JStr []). apply at_string. exact (string_text_at Skipped t s S).
  - intros w W. exists (JArr []). now constructor.
  - intros t l I IH. destruct (IH 0%nat) as (l' & H). exists (JArr l'). now constructor.
  - intros w W. exists (JObj []). now constructor.
  - intros t l I (l' & H). exists (JObj l'). now constructor.
  - intros a t b j A B V (j' & H) n. exists [j']. apply (items_at_one _ _ Skipped); try assumption. constructor.
  - intros a t b j u l A B V (j' & H) I IHu n. destruct (IHu (S n)) as (l' & Hu). exists (j' :: l'). apply (items_at_more _ _ Skipped); try assumption. constructor.
  - intros a k b c t d s j A B C D S V (j' & H). exists [([], j')]. apply (members_at_one _ Skipped); try assumption; [exact (string_text_at Skipped k s S)|constructor].
  - intros a k b c t d s j u l A B C D S V (j' & H) M (l' & Hu). exists (([], j') :: l').
    apply (members_at_more _ Skipped); try assumption; [exact (string_text_at Skipped k s S)|constructor].
Qed.
Lemma value_text_not_blank t j r : value_text t j -> halts blank (t ++ r).
Proof. intros V. destruct (proj1 skippable t j V) as (j' & H). exact (value_at_not_blank _ t j' r H). Qed.

Lemma readers_look :
  (forall t j, value_text t j -> forall s f r, (2 * length t <= f)%nat -> ends r -> value s f (t ++ r) = with_rest (look s j) r)
  /\ (forall t l, items_text t l -> forall s f r, (2 * length t + 1 <= f)%nat -> items s f (skip (t ++ x5d :: r)) = with_rest (look_items s l) r)
  /\ (forall t l, members_text t l -> forall s f r, (2 * length t + 1 <= f)%nat -> members s f (skip (t ++ x7d :: r)) = with_rest (look_members s l) r).
Proof.
  apply text_mut.
  - intros s [|f] r L R; [cbn in L; lia|]. reflexivity.
  - intros s [|f] r L R; [cbn in L; lia|]. reflexivity.
  - intros s [|f] r L R; [cbn in L; lia|]. reflexivity.
  - intros t j N s f r L R. rewrite (number_value s f t j r N R L), (number_look s t j N). destruct j as [| | |x| | |]; try reflexivity. now destruct (in_range s x).
  - intros t x S s [|f] r L R; apply (string_text_at s) in S; destruct (string_at_complete s t _ r S) as (q & -> & E); [cbn [length] in L; lia|].
    cbn [app value]. change (byte_eqb x22 x6e) with false. change (byte_eqb x22 x74) with false. change (byte_eqb x22 x66) with false.
    change (byte_eqb x22 x22) with true. cbv iota. now rewrite E.
  - intros w W s [|f] r L R; [cbn [length] in L; lia|]. cbn [app value].
    change (byte_eqb x5b x6e) with false. change (byte_eqb x5b x74) with false. change (byte_eqb x5b x66) with false.
    change (byte_eqb x5b x22) with false. change (byte_eqb x5b x5b) with true. cbv iota. rewrite look_arr. destruct (may_open s); [|reflexivity].
    rewrite app_bracket, skip_ws; [|exact W|apply not_blank; cbn; auto]. reflexivity.
  - intros t l I IH s [|f] r L R; [cbn [length] in L; lia|]. cbn [app value].
    change (byte_eqb x5b x6e) with false. change (byte_eqb x5b x74) with false. change (byte_eqb x5b x66) with false.
    change (byte_eqb x5b x22) with false. change (byte_eqb x5b x5b) with true. cbv iota. rewrite look_arr. destruct (may_open s); [|reflexivity]. rewrite app_bracket.
    assert (E : items s f (skip (t ++ x5d :: r)) = with_rest (look_items s l) r) by (apply IH; cbn [length] in L; rewrite app_length in L; cbn [length] in L; lia).
    destruct (proj1 (proj2 skippable) t l I 0%nat) as (l' & I'). destruct (items_nonclose Skipped 0 t l' r I') as (d & q & Eq & D). rewrite Eq in *.
    apply beq_false in D. now rewrite D, E, with_rest_map.
  - intros w W s [|f] r L R; [cbn [length] in L; lia|]. cbn [app value].
    change (byte_eqb x7b x6e) with false. change (byte_eqb x7b x74) with false. change (byte_eqb x7b x66) with false.
    change (byte_eqb x7b x22) with false. change (byte_eqb x7b x5b) with false. change (byte_eqb x7b x7b) with true. cbv iota. rewrite look_obj. destruct (may_open s); [|reflexivity].
    rewrite app_bracket, skip_ws; [|exact W|apply not_blank; cbn; auto]. reflexivity.
  - intros t l I IH s [|f] r L R; [cbn [length] in L; lia|]. cbn [app value].
    change (byte_eqb x7b x6e) with false. change (byte_eqb x7b x74) with false. change (byte_eqb x7b x66) with false.
    change (byte_eqb x7b x22) with false. change (byte_eqb x7b x5b) with false. change (byte_eqb x7b x7b) with true. cbv iota. rewrite look_obj. destruct (may_open s); [|reflexivity]. rewrite app_bracket.
    assert (E : members s f (skip (t ++ x7d :: r)) = with_rest (look_members s l) r) by (apply IH; cbn [length] in L; rewrite app_length in L; cbn [length] in L; lia).
    destruct (proj2 (proj2 skippable) t l I) as (l' & I'). destruct (members_nonclose Skipped t l' r I') as (d & q & Eq & D). rewrite Eq in *.
    apply beq_false in D. now rewrite D, E, with_rest_map.
  - intros a t b j A B V IH s [|f] r L; [lia|]. rewrite !app_length in L. rewrite <- !app_assoc.
    rewrite skip_ws; [|exact A|exact (value_text_not_blank t j _ V)]. cbn [items look_items].
    rewrite IH; [|lia|apply ws_ends; [exact B|right; cbn; auto]]. destruct (look (head_shape s) j); [|reflexivity]. cbn [with_rest].
    rewrite skip_ws; [|exact B|apply not_blank; cbn; auto]. reflexivity.
  - intros a t b j u l A B V IH I IHu s [|f] r L; [lia|]. rewrite !app_length in L. cbn [length] in L. rewrite <- !app_assoc. cbn [app].
    rewrite skip_ws; [|exact A|exact (value_text_not_blank t j _ V)]. cbn [items look_items].
    rewrite IH; [|lia|apply ws_ends; [exact B|right; cbn; auto]]. destruct (look (head_shape s) j); [|reflexivity]. cbn [with_rest].
    rewrite skip_ws; [|exact B|apply not_blank; cbn; auto].
    change (byte_eqb x2c x5d) with false. change (byte_eqb x2c x2c) with true. cbv iota. rewrite IHu; [|lia]. now destruct (look_items (tail_shape s) l).
  - intros a k b c t d x j A B C D S V IH s [|f] r L; [lia|]. apply (string_text_at s) in S. rewrite !app_length in L. cbn [length] in L. rewrite !app_length in L.
    rewrite <- !app_assoc. cbn [app]. rewrite <- !app_assoc. rewrite skip_ws; [|exact A|now apply (text_not_blank s k (erased s x))].
    destruct (string_at_complete s k _ (b ++ x3a :: c ++ t ++ d ++ x7d :: r) S) as (q & -> & E). cbn [app members look_members].
    change (byte_eqb x22 x22) with true. cbn [negb]. cbv iota. rewrite E.
    rewrite skip_ws; [|exact B|apply not_blank; cbn; auto]. change (byte_eqb x3a x3a) with true. cbn [negb]. cbv iota.
    rewrite skip_ws; [|exact C|exact (value_text_not_blank t j _ V)]. cbn [length] in L.
    rewrite IH; [|lia|apply ws_ends; [exact D|right; cbn; auto]]. destruct (look (member_shape s (erased s x)) j); [|reflexivity]. cbn [with_rest].
    rewrite skip_ws; [|exact D|apply not_blank; cbn; auto]. reflexivity.
  - intros a k b c t d x j u l A B C D S V IH M IHu s [|f] r L; [lia|]. apply (string_text_at s) in S.
    rewrite !app_length in L. cbn [length] in L. rewrite !app_length in L. cbn [length] in L.
    repeat (rewrite <- !app_assoc; cbn [app]). rewrite skip_ws; [|exact A|now apply (text_not_blank s k (erased s x))].
    destruct (string_at_complete s k _ (b ++ x3a :: c ++ t ++ d ++ x2c :: u ++ x7d :: r) S) as (q & -> & E). cbn [app members look_members].
    change (byte_eqb x22 x22) with true. cbn [negb]. cbv iota. rewrite E.
    rewrite skip_ws; [|exact B|apply not_blank; cbn; auto]. change (byte_eqb x3a x3a) with true. cbn [negb]. cbv iota.
    rewrite skip_ws; [|exact C|exact (value_text_not_blank t j _ V)]. cbn [length] in L.
    rewrite IH; [|lia|apply ws_ends; [exact D|right; cbn; auto]]. destruct (look (member_shape s (erased s x)) j); [|reflexivity]. cbn [with_rest].
    rewrite skip_ws; [|exact D|apply not_blank; cbn; auto].
    change (byte_eqb x2c x7d) with false. change (byte_eqb x2c x2c) with true. cbv iota. rewrite IHu; [|lia]. now destruct (look_members s l).
Qed.

(** What a reader makes of a JSON text. *)
Theorem read_look s b j : document b j -> read_json s b = look s j.
Proof.
  intros (u & t & v & U & V & T & ->). unfold read_json. rewrite skip_ws; [|exact U|exact (value_text_not_blank t j v T)].
  rewrite (proj1 readers_look t j T s); [|rewrite !app_length; lia|].
  2:{ destruct v as [|x v]; [exact I|]. inversion V; subst. now left. }
  destruct (look s j) as [j'|]; [|reflexivity]. cbn [with_rest]. rewrite <- (app_nil_r v), skip_ws; [reflexivity|exact V|exact I].
Qed.

(** ** Any value, not too deep, no number too large *)
Fixpoint ranged (j : json) : bool :=
  match j with
  | JFloat t => match float_of_text t with Some _ => true | None => false end
  | JArr l => forallb ranged l
  | JObj l => forallb (fun kv => ranged (snd kv)) l
  | _ => true
  end.
Lemma ranged_iff j : ranged j = true <-> all_finite j.
Proof.
  assert (G : forall n j, (nesting j <= n)%nat -> ranged j = true <-> all_finite j).
  { clear j. induction n as [|n IH]; intros j L.
    - destruct j as [| | |t| | |]; cbn [nesting] in L; try lia; cbn [ranged all_finite]; try (split; auto; fail).
      exact (in_range_iff (Any 0) t).
    - destruct j as [| | | t| |l|l]; cbn [ranged all_finite]; try (split; auto; fail).
      + exact (in_range_iff (Any 0) t).
      + cbn [nesting] in L. apply le_S_n in L. induction l as [|x l IHl]; [cbn; split; auto|]. cbn [map] in L. change (list_max (nesting x :: map nesting l)) with (Nat.max (nesting x) (list_max (map nesting l))) in L.
        cbn [forallb fold_right]. rewrite andb_true_iff, IH, IHl by lia. reflexivity.
      + cbn [nesting] in L. apply le_S_n in L. induction l as [|[k x] l IHl]; [cbn; split; auto|]. cbn [map snd] in L.
        change (list_max (nesting x :: map (fun kv => nesting (snd kv)) l)) with (Nat.max (nesting x) (list_max (map (fun kv => nesting (snd kv)) l))) in L.
        cbn [forallb fold_right snd]. rewrite andb_true_iff, IH, IHl by lia. reflexivity. }
  exact (G (nesting j) j (Nat.le_refl _)).
Qed.
Lemma list_max_cons x l : list_max (x :: l) = Nat.max x (list_max l).
Proof. reflexivity. Qed.

Definition finite_items (l : list json) : Prop := fold_right (fun x P => all_finite x /\ P) True l.
Definition finite_members (l : list (bytes * json)) : Prop := fold_right (fun kv P => all_finite (snd kv) /\ P) True l.

Lemma number_bearable s t j : number_text t j -> all_finite j -> bearable s j.
Proof. intros N. destruct (number_chars t j N) as (_ & _ & _ & [[z ->]|[x ->]]); intros H; destruct s; exact I || exact H. Qed.
Lemma deep_enough : (forall t j, value_text t j -> forall d, (nesting j <= d)%nat -> all_finite j -> value_at (Any d) t j)
  /\ (forall t l, items_text t l -> forall d n, (list_max (map nesting l) <= d)%nat -> finite_items l -> items_at (Any (S d)) n t l)
  /\ (forall t l, members_text t l -> forall d, (list_max (map (fun kv => nesting (snd kv)) l) <= d)%nat -> finite_members l -> members_at (Any (S d)) t l).
Proof.
  apply text_mut.
  - intros. constructor.
  - intros. constructor.
  - intros. constructor.
  - intros t j N d _ Fj. constructor; [exact N|exact (number_bearable _ t j N Fj)].
  - intros t s S d _ _. now constructor.
  - intros w W [|d] L _; [cbn in L; lia|]. constructor; [discriminate|exact W].
  - intros t l I IH [|d] L Fj; cbn [nesting] in L; [lia|]. constructor; [discriminate|]. apply IH; [lia|exact Fj].
  - intros w W [|d] L _; [cbn in L; lia|]. constructor; [discriminate|exact W].
  - intros t l I IH [|d] L Fj; cbn [nesting] in L; [lia|]. constructor; [discriminate|]. apply IH; [lia|exact Fj].
  - intros a t b j A B V IH d n L [Fj _]. cbn [map] in L. rewrite list_max_cons in L. apply (items_at_one _ _ (Any d)); try assumption; [constructor|]. apply IH; [lia|exact Fj].
  - intros a t b j u l A B V IH I IHu d n L [Fj Fl]. cbn [map] in L. rewrite list_max_cons in L.
    apply (items_at_more _ _ (Any d)); try assumption; [constructor|apply IH; [lia|exact Fj]|apply IHu; [lia|exact Fl]].
  - intros a k b c t d0 s j A B C D S V IH d L [Fj _]. cbn [map snd] in L. rewrite list_max_cons in L.
    apply (members_at_one _ (Any d)); try assumption; [constructor|]. apply IH; [lia|exact Fj].
  - intros a k b c t d0 s j u l A B C D S V IH M IHu d L [Fj Fl]. cbn [map snd] in L. rewrite list_max_cons in L.
    apply (members_at_more _ (Any d)); try assumption; [constructor|apply IH; [lia|exact Fj]|apply IHu; [lia|exact Fl]].
Qed.

Lemma number_nesting t j : number_text t j -> nesting j = 0%nat.
Proof. intros N. destruct (number_chars t j N) as (_ & _ & _ & [[z ->]|[x ->]]); reflexivity. Qed.

Lemma not_deeper : (forall s t j, value_at s t j -> forall d, s = Any d -> value_text t j /\ (nesting j <= d)%nat /\ all_finite j)
  /\ (forall s n t l, items_at s n t l -> forall d, s = Any (S d) -> items_text t l /\ (list_max (map nesting l) <= d)%nat /\ finite_items l)
  /\ (forall s t l, members_at s t l -> forall d, s = Any (S d) -> members_text t l /\ (list_max (map (fun kv => nesting (snd kv)) l) <= d)%nat /\ finite_members l).
Proof.
  apply at_mut.
  - intros s d _. split; [constructor|]. split; [cbn; lia|exact I].
  - intros s d _. split; [constructor|]. split; [cbn; lia|exact I].
  - intros s d _. split; [constructor|]. split; [cbn; lia|exact I].
  - intros s t j N Bj d ->. split; [now constructor|]. rewrite (number_nesting t j N). split; [lia|].
    destruct (number_chars t j N) as (_ & _ & _ & [[z ->]|[x ->]]); exact Bj.
  - intros s t x T d ->. split; [now constructor|]. split; [cbn; lia|exact I].
  - intros s w O W [|d] ->; [now destruct O|]. split; [now constructor|]. split; [cbn; lia|exact I].
  - intros s t l O I IH [|d] ->; [now destruct O|]. destruct (IH d eq_refl) as (H & L & Fl). split; [now constructor|]. split; [cbn [nesting]; lia|exact Fl].
  - intros s w O W [|d] ->; [now destruct O|]. split; [now constructor|]. split; [cbn; lia|exact I].
  - intros s t l O I IH [|d] ->; [now destruct O|]. destruct (IH d eq_refl) as (H & L & Fl). split; [now constructor|]. split; [cbn [nesting]; lia|exact Fl].
  - intros s n s' a t b j Is A B V IH d ->. inversion Is; subst. destruct (IH d eq_refl) as (H & L & Fj). split; [now constructor|].
    split; [cbn [map]; rewrite list_max_cons; cbn; lia|split; [exact Fj|exact I]].
  - intros s n s' a t b j u l Is A B V IH Iu IHu d ->. inversion Is; subst. destruct (IH d eq_refl) as (H & L & Fj), (IHu d eq_refl) as (Hu & Lu & Fl).
    split; [now constructor|]. split; [cbn [map]; rewrite list_max_cons; lia|split; assumption].
  - intros s s' a k b c t d0 x j A B C D S Ms V IH d ->. inversion Ms; subst. destruct (IH d eq_refl) as (H & L & Fj). split; [now constructor|].
    split; [cbn [map snd]; rewrite list_max_cons; cbn; lia|split; [exact Fj|exact I]].
  - intros s s' a k b c t d0 x j u l A B C D S Ms V IH M IHu d ->. inversion Ms; subst. destruct (IH d eq_refl) as (H & L & Fj), (IHu d eq_refl) as (Hu & Lu & Fl).
    split; [now constructor|]. split; [cbn [map snd]; rewrite list_max_cons; lia|split; assumption].
Qed.

Theorem any_iff d b j : document_at (Any d) b j <-> document b j /\ (nesting j <= d)%nat /\ all_finite j.
Proof.
  split.
  - intros (u & t & v & U & V & T & ->). destruct (proj1 not_deeper _ _ _ T d eq_refl) as (T' & L & Fj). split; [|now split]. exists u, t, v. auto.
  - intros [(u & t & v & U & V & T & ->) [L Fj]]. exists u, t, v. repeat split; auto. now apply (proj1 deep_enough).
Qed.

(** ** How deep a text can be *)
Lemma nesting_length : (forall t j, value_text t j -> (nesting j <= length t)%nat)
  /\ (forall t l, items_text t l -> (list_max (map nesting l) <= length t)%nat)
  /\ (forall t l, members_text t l -> (list_max (map (fun kv => nesting (snd kv)) l) <= length t)%nat).
Proof.
  apply text_mut.
  - cbn. lia.
  - cbn. lia.
  - cbn. lia.
  - intros t j N. rewrite (number_nesting t j N). lia.
  - intros t s S. cbn. lia.
  - intros w W. cbn. lia.
  - intros t l I IH. cbn [nesting length]. rewrite app_length. lia.
  - intros w W. cbn. lia.
  - intros t l I IH. cbn [nesting length]. rewrite app_length. lia.
  - intros a t b j A B V IH. cbn [map]. rewrite list_max_cons, !app_length. cbn. lia.
  - intros a t b j u l A B V IH I IHu. cbn [map]. rewrite list_max_cons, !app_length. cbn [length]. lia.
  - intros a k b c t d s j A B C D S V IH. cbn [map snd]. rewrite list_max_cons, !app_length. cbn [length]. rewrite !app_length. cbn. lia.
  - intros a k b c t d s j u l A B C D S V IH M IHu. cbn [map snd]. rewrite list_max_cons. repeat (rewrite !app_length; cbn [length]). lia.
Qed.
(** ** Looking at everything, and at nothing *)
Definition fits (d : nat) (j : json) : bool := (nesting j <=? d)%nat && ranged j.
Lemma look_any d : forall j, look (Any d) j = if fits d j then Some j else None.
Proof.
  unfold fits. induction d as [d IHd] using lt_wf_ind. intros [| | | t| |l|l]; try reflexivity.
  - rewrite look_arr. destruct d as [|d]; [reflexivity|]. cbn [may_open nesting ranged].
    assert (E : look_items (Any (S d)) l = if (list_max (map nesting l) <=? d)%nat && forallb ranged l then Some l else None).
    { induction l as [|x l IH]; [reflexivity|]. cbn [look_items head_shape tail_shape pred map forallb]. rewrite IHd, IH, list_max_cons by lia.
      destruct (nesting x <=? d)%nat eqn:A, (list_max (map nesting l) <=? d)%nat eqn:B;
        destruct (Nat.max (nesting x) (list_max (map nesting l)) <=? d)%nat eqn:C; try (exfalso; lia); cbn [andb cons_opt]; try reflexivity;
        destruct (ranged x), (forallb ranged l); reflexivity. }
    rewrite E. change (S (list_max (map nesting l)) <=? S d)%nat with (list_max (map nesting l) <=? d)%nat. now destruct ((list_max (map nesting l) <=? d)%nat && forallb ranged l).
  - rewrite look_obj. destruct d as [|d]; [reflexivity|]. cbn [may_open nesting ranged].
    assert (E : look_members (Any (S d)) l = if (list_max (map (fun kv => nesting (snd kv)) l) <=? d)%nat && forallb (fun kv => ranged (snd kv)) l then Some l else None).
    { induction l as [|[k x] l IH]; [reflexivity|]. cbn [look_members member_shape erased pred map snd forallb]. rewrite IHd, IH, list_max_cons by lia.
      destruct (nesting x <=? d)%nat eqn:A, (list_max (map (fun kv => nesting (snd kv)) l) <=? d)%nat eqn:B;
        destruct (Nat.max (nesting x) (list_max (map (fun kv => nesting (snd kv)) l)) <=? d)%nat eqn:C; try (exfalso; lia); cbn [andb cons_opt pair_opt]; try reflexivity;
        destruct (ranged x), (forallb (fun kv => ranged (snd kv)) l); reflexivity. }
    rewrite E. change (S (list_max (map (fun kv => nesting (snd kv)) l)) <=? S d)%nat with (list_max (map (fun kv => nesting (snd kv)) l) <=? d)%nat.
    now destruct ((list_max (map (fun kv => nesting (snd kv)) l) <=? d)%nat && forallb (fun kv => ranged (snd kv)) l).
Qed.
Lemma fits_iff d j : fits d j = true <-> (nesting j <= d)%nat /\ all_finite j.
Proof. unfold fits. rewrite andb_true_iff, Nat.leb_le, ranged_iff. reflexivity. Qed.
Lemma look_any_same d j j' : look (Any d) j = Some j' -> j' = j.
Proof. rewrite look_any. destruct (fits d j); [|discriminate]. congruence. Qed.

Lemma look_skipped : forall j, exists j', look Skipped j = Some j' /\ ranged j' = ranged j.
Proof.
  assert (G : forall n j, (nesting j <= n)%nat -> exists j', look Skipped j = Some j' /\ ranged j' = ranged j).
  { induction n as [|n IH]; intros [| | | t| |l|l] L; try (eexists; split; reflexivity); cbn [nesting] in L; try lia; apply le_S_n in L.
    - rewrite look_arr. cbn [may_open]. enough (H : exists l', look_items Skipped l = Some l' /\ forallb ranged l' = forallb ranged l) by (destruct H as (l' & -> & H); exists (JArr l'); auto).
      induction l as [|x l IHl]; [exists []; auto|]. cbn [map] in L. rewrite list_max_cons in L. cbn [look_items head_shape tail_shape].
      destruct (IH x) as (x' & -> & Ex); [lia|]. destruct IHl as (l' & -> & El); [lia|]. exists (x' :: l'). cbn [cons_opt forallb]. now rewrite Ex, El.
    - rewrite look_obj. cbn [may_open].
      enough (H : exists l', look_members Skipped l = Some l' /\ forallb (fun kv => ranged (snd kv)) l' = forallb (fun kv => ranged (snd kv)) l) by (destruct H as (l' & -> & H); exists (JObj l'); auto).
      induction l as [|[k x] l IHl]; [exists []; auto|]. cbn [map snd] in L. rewrite list_max_cons in L. cbn [look_members member_shape].
      destruct (IH x) as (x' & -> & Ex); [lia|]. destruct IHl as (l' & -> & El); [lia|]. exists ((erased Skipped k, x') :: l'). cbn [cons_opt pair_opt forallb snd]. now rewrite Ex, El. }
  intros j. exact (G (nesting j) j (Nat.le_refl _)).
Qed.

(** A text without numbers too large is not JSON if nothing is read from it. *)
Lemma not_json b j0 : read_json Skipped b = Some j0 -> ranged j0 = true -> read_json (Any (length b)) b = None -> forall j, ~ document b j.
Proof.
  intros H0 R H j D. assert (L : (nesting j <= length b)%nat).
  { destruct D as (u & t & v & _ & _ & T & ->). pose proof (proj1 nesting_length t j T). rewrite !app_length. lia. }
  rewrite (read_look _ _ _ D) in H0. rewrite (read_look _ _ _ D) in H. destruct (look_skipped j) as (j' & E & Er). rewrite look_any in H. unfold fits in H.
  apply Nat.leb_le in L. rewrite L in H. assert (j' = j0) by congruence. subst j'. rewrite <- Er, R in H. discriminate.
Qed.

(** ** Records *)
(** Members are looked at one by one. *)
Lemma look_members_forall f l l' : look_members (Struct f) l = Some l' <->
  Forall2 (fun m m' => fst m' = fst m /\ look (field_shape (fst m) f) (snd m) = Some (snd m')) l l'.
Proof.
  revert l'. induction l as [|[k x] l IH]; intros l'; cbn [look_members erased member_shape].
  - split; [intros H; injection H as <-; constructor|intros H; inversion H; reflexivity].
  - split.
    + destruct (look (field_shape k f) x) as [x'|] eqn:E; [|discriminate]. cbn [pair_opt cons_opt]. destruct (look_members (Struct f) l) as [r|]; [|discriminate].
      intros H. injection H as <-. constructor; [cbn; auto|]. now apply IH.
    + intros H. inversion H as [|? [k' x'] ? r [Hk Hx] Hr]; subst. cbn [fst snd] in Hk, Hx. subst k'. rewrite Hx. apply IH in Hr. rewrite Hr. reflexivity.
Qed.
Lemma forall2_keys f l l' : Forall2 (fun m m' : bytes * json => fst m' = fst m /\ look (field_shape (fst m) f) (snd m) = Some (snd m')) l l' -> map fst l' = map fst l.
Proof. induction 1 as [|m m' l l' [K _] _ IH]; [reflexivity|]. cbn [map]. now rewrite K, IH. Qed.
Lemma member_look f l l' k v : look_members (Struct f) l = Some l' -> member l k v -> exists v', member l' k v' /\ look (field_shape k f) v = Some v'.
Proof.
  rewrite look_members_forall. intros F (a & b & -> & Na & Nb). apply Forall2_app_inv_l in F. destruct F as (a' & c' & Fa & Fc & ->).
  inversion Fc as [|? [k' v'] ? b' [K V] Fb]; subst. cbn [fst snd] in *. subst k'. exists v'. split; [|exact V].
  exists a', b'. split; [reflexivity|]. rewrite (forall2_keys f _ _ Fa), (forall2_keys f _ _ Fb). auto.
Qed.
Lemma member_unlook f l l' k v' : look_members (Struct f) l = Some l' -> member l' k v' -> exists v, member l k v /\ look (field_shape k f) v = Some v'.
Proof.
  rewrite look_members_forall. intros F (a & b & -> & Na & Nb). apply Forall2_app_inv_r in F. destruct F as (a' & c' & Fa & Fc & ->).
  inversion Fc as [|[k' v] ? b' ? [K V] Fb]; subst. cbn [fst snd] in *. subst k'. exists v. split; [|exact V].
  exists a', b'. split; [reflexivity|]. now rewrite <- (forall2_keys f _ _ Fa), <- (forall2_keys f _ _ Fb).
Qed.

Definition looked (f : list (bytes * shape)) (vs vs' : list json) : Prop :=
  length vs = length f /\ length vs' = length f /\ forall n k s v v', nth_error f n = Some (k, s) -> nth_error vs n = Some v -> nth_error vs' n = Some v' -> look s v = Some v'.

Lemma field_shape_nth f n k s : NoDup (map fst f) -> nth_error f n = Some (k, s) -> field_shape k f = s.
Proof.
  revert n. induction f as [|[k' s'] f IH]; intros [|n] N E; try discriminate; cbn [field_shape map fst] in *; inversion N as [|? ? Nk Nf]; subst.
  - injection E as <- <-. now rewrite bytes_eqb_refl.
  - destruct (bytes_eqb k' k) eqn:Q; [|now apply (IH n)]. apply bytes_eqb_eq in Q. subst k'. exfalso. apply Nk. cbn in E. apply nth_error_In in E. exact (in_map fst _ _ E).
Qed.

Lemma looked_nil : looked [] [] [].
Proof. repeat split. intros [|n]; discriminate. Qed.
Lemma looked_cons k s f v v' vs vs' : look s v = Some v' -> looked f vs vs' -> looked ((k, s) :: f) (v :: vs) (v' :: vs').
Proof.
  intros V (L & L' & H). split; [cbn; lia|]. split; [cbn; lia|]. intros [|n] k0 s0 w w' E W W'; cbn in *; [congruence|]. now apply (H n k0).
Qed.
Lemma looked_inv k s f v v' vs vs' : looked ((k, s) :: f) (v :: vs) (v' :: vs') -> look s v = Some v' /\ looked f vs vs'.
Proof.
  intros (L & L' & H). split; [now apply (H 0%nat k s v v')|]. cbn in L, L'. split; [lia|]. split; [lia|]. intros n. apply (H (S n)).
Qed.

(** A record, looked at through its fields. *)
Lemma members_look f g l l' : look_members (Struct g) l = Some l' -> (forall k s, In (k, s) f -> field_shape k g = s) -> forall vs,
  Forall2 (member l) (map fst f) vs -> exists vs', Forall2 (member l') (map fst f) vs' /\ looked f vs vs'.
Proof.
  intros E. induction f as [|[k s] f IH]; intros F vs H; cbn [map fst] in H; inversion H as [|? v ? ws M Hr]; subst.
  - exists []. split; [constructor|apply looked_nil].
  - destruct (IH (fun k s I => F k s (or_intror I)) ws Hr) as (ws' & Hr' & L). destruct (member_look g l l' k v E M) as (v' & M' & V).
    rewrite (F k s) in V by now left. exists (v' :: ws'). split; [now constructor|now apply looked_cons].
Qed.
Lemma members_unlook f g l l' : look_members (Struct g) l = Some l' -> (forall k s, In (k, s) f -> field_shape k g = s) -> forall vs',
  Forall2 (member l') (map fst f) vs' -> exists vs, Forall2 (member l) (map fst f) vs /\ looked f vs vs'.
Proof.
  intros E. induction f as [|[k s] f IH]; intros F vs H; cbn [map fst] in H; inversion H as [|? v ? ws M Hr]; subst.
  - exists []. split; [constructor|apply looked_nil].
  - destruct (IH (fun k s I => F k s (or_intror I)) ws Hr) as (ws' & Hr' & L). destruct (member_unlook g l l' k v E M) as (v' & M' & V).
    rewrite (F k s) in V by now left. exists (v' :: ws'). split; [now constructor|now apply looked_cons].
Qed.
Lemma in_field f : NoDup (map fst f) -> forall k s, In (k, s) f -> field_shape k f = s.
Proof. intros N k s I. apply In_nth_error in I. destruct I as [n I]. exact (field_shape_nth f n k s N I). Qed.

Lemma items_looked f l l' : length l = length f -> look_items (Struct f) l = Some l' <-> looked f l l'.
Proof.
  revert l l'. induction f as [|[k s] f IH]; intros [|x l] l' L; try discriminate; cbn [look_items head_shape tail_shape].
  - split; [intros H; injection H as <-; apply looked_nil|]. intros (_ & L' & _). now destruct l'.
  - injection L as L. split.
    + destruct (look s x) as [x'|] eqn:E; [|discriminate]. destruct (look_items (Struct f) l) as [r|] eqn:R; [|discriminate]. cbn [cons_opt]. intros H. injection H as <-.
      apply looked_cons; [exact E|]. now apply IH.
    + destruct l' as [|x' l']; [intros (_ & L' & _); discriminate|]. intros H. apply looked_inv in H. destruct H as [-> H]. apply (IH l l' L) in H. now rewrite H.
Qed.
Lemma look_items_length s l l' : look_items s l = Some l' -> length l' = length l.
Proof.
  revert s l'. induction l as [|x l IH]; intros s l' H; cbn [look_items] in H; [injection H as <-; reflexivity|].
  destruct (look (head_shape s) x); [|discriminate]. destruct (look_items (tail_shape s) l) as [r|] eqn:E; [|discriminate]. injection H as <-. cbn. now rewrite (IH _ _ E).
Qed.

Theorem record_look f j j' vs : NoDup (map fst f) -> look (Struct f) j = Some j' -> record_of (map fst f) j vs ->
  exists vs', record_of (map fst f) j' vs' /\ looked f vs vs'.
Proof.
  intros N E [(l & -> & M)|[-> L]].
  - rewrite look_obj in E. cbn [may_open] in E. destruct (look_members (Struct f) l) as [l'|] eqn:El; [|discriminate]. injection E as <-.
    destruct (members_look f f l l' El (in_field f N) vs M) as (vs' & M' & K). exists vs'. split; [left; eauto|exact K].
  - rewrite look_arr in E. cbn [may_open] in E. destruct (look_items (Struct f) vs) as [l'|] eqn:El; [|discriminate]. injection E as <-.
    rewrite map_length in L. exists l'. split; [right; split; [reflexivity|now rewrite map_length, (look_items_length _ _ _ El)]|]. now apply items_looked.
Qed.
Theorem record_unlook f j j' vs' : NoDup (map fst f) -> look (Struct f) j = Some j' -> record_of (map fst f) j' vs' ->
  exists vs, record_of (map fst f) j vs /\ looked f vs vs'.
Proof.
  intros N E [(l' & -> & M)|[-> L]].
  - destruct j as [| | |t| |l|l]; try discriminate E; [apply look_float in E; discriminate E|rewrite look_arr in E; cbn [may_open] in E; destruct (look_items _ l); discriminate E|].
    rewrite look_obj in E. cbn [may_open] in E. destruct (look_members (Struct f) l) as [l0|] eqn:El; [|discriminate]. injection E as ->.
    destruct (members_unlook f f l l' El (in_field f N) vs' M) as (vs & M' & K). exists vs. split; [left; eauto|exact K].
  - destruct j as [| | |t| |l|l]; try discriminate E; [apply look_float in E; discriminate E| |rewrite look_obj in E; cbn [may_open] in E; destruct (look_members _ l); discriminate E].
    rewrite look_arr in E. cbn [may_open] in E. destruct (look_items (Struct f) l) as [l0|] eqn:El; [|discriminate]. injection E as ->.
    rewrite map_length in L. pose proof (look_items_length _ _ _ El) as Ll. exists l. split; [right; split; [reflexivity|rewrite map_length; congruence]|].
    apply items_looked; [congruence|exact El].
Qed.

Lemma forall2_len {A B} (R : A -> B -> Prop) l l' : Forall2 R l l' -> length l = length l'.
Proof. induction 1; cbn; congruence. Qed.

(** A record is not too deep if its fields are not. *)
Lemma record_looks f j vs : NoDup (map fst f) -> record_of (map fst f) j vs ->
  (forall n k s v, nth_error f n = Some (k, s) -> nth_error vs n = Some v -> look s v <> None) -> look (Struct f) j <> None.
Proof.
  intros N R H. destruct R as [(l & -> & M)|[-> L]].
  - rewrite look_obj. cbn [may_open]. assert (E : exists l', look_members (Struct f) l = Some l').
    { assert (K : forall k v, In (k, v) l -> look (field_shape k f) v <> None).
      { intros k v I. destruct (in_dec (list_eq_dec Byte.byte_eq_dec) k (map fst f)) as [In|Nn].
        - apply In_nth_error in In. destruct In as [n In]. rewrite nth_error_map in In. destruct (nth_error f n) as [[k' s]|] eqn:En; [|discriminate].
          cbn in In. injection In as ->. rewrite (field_shape_nth f n k s N En).
          assert (Lv : length vs = length f) by (apply forall2_len in M; now rewrite map_length in M).
          destruct (nth_error vs n) as [w|] eqn:Ew.
          2:{ apply nth_error_None in Ew. assert (n < length f)%nat by (apply nth_error_Some; congruence). lia. }
          assert (Mw : member l k w).
          { clear - M En Ew. revert n vs M En Ew. induction f as [|[k0 s0] f IH]; intros [|n] vs M En Ew; try discriminate; cbn [map fst] in M;
              inversion M as [|? v0 ? vs0 M0 Mr]; subst; cbn in *; [congruence|]. now apply (IH n vs0). }
          destruct Mw as (a & b & -> & Na & Nb). apply in_app_or in I. destruct I as [I|[I|I]].
          + exfalso. apply Na. exact (in_map fst _ _ I).
          + injection I as ->. now apply (H n k s v).
          + exfalso. apply Nb. exact (in_map fst _ _ I).
        - assert (Es : field_shape k f = Skipped).
          { clear - Nn. induction f as [|[k' s] f IH]; [reflexivity|]. cbn [field_shape]. destruct (bytes_eqb k' k) eqn:E; [exfalso; apply Nn; left; now apply bytes_eqb_eq|].
            apply IH. intros I. apply Nn. now right. }
          rewrite Es. destruct (look_skipped v) as (v' & -> & _). discriminate. }
      clear - K. induction l as [|[k v] l IH]; [exists []; reflexivity|]. cbn [look_members erased member_shape].
      pose proof (K k v (or_introl eq_refl)) as Kv. destruct (look (field_shape k f) v) as [v'|]; [|congruence].
      destruct IH as (l' & ->); [intros k' w I; apply K; now right|]. cbn [pair_opt cons_opt]. eauto. }
    destruct E as (l' & ->). discriminate.
  - rewrite look_arr. cbn [may_open]. rewrite map_length in L. clear N.
    assert (E : exists l', look_items (Struct f) vs = Some l').
    { revert vs L H. induction f as [|[k s] f IH]; intros [|v vs] L H; try discriminate; [exists []; reflexivity|]. cbn [look_items head_shape tail_shape].
      pose proof (H 0%nat k s v eq_refl eq_refl) as Hv. destruct (look s v) as [v'|]; [|congruence]. injection L as L.
      destruct (IH vs L) as (l' & ->); [intros n; apply (H (S n))|]. cbn [cons_opt]. eauto. }
    destruct E as (l' & ->). discriminate.
Qed.
