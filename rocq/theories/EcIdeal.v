(** Ideals of the coordinate ring and their classes. *)

From Coq Require Import ZArith List Lia Setoid Morphisms Ring.
From Verif Require Import EcField EcPoly EcRing.
Import ListNotations.

Definition ideal := cr -> Prop.
Record is_ideal (I : ideal) : Prop := {
  id_eq : forall f g, req f g -> I f -> I g;
  id_0 : I r0;
  id_add : forall f g, I f -> I g -> I (radd f g);
  id_mul : forall c f, I f -> I (rmul c f)
}.

Definition top : ideal := fun _ => True.
Definition gen1 (f : cr) : ideal := fun x => exists u, req x (rmul u f).
Definition gen2 (f g : cr) : ideal := fun x => exists u v, req x (radd (rmul u f) (rmul v g)).
(** Product of ideals: sums of products. *)
Inductive ip (I J : ideal) : ideal :=
| ip_mul : forall a b x, I a -> J b -> req x (rmul a b) -> ip I J x
| ip_add : forall x y z, ip I J x -> ip I J y -> req z (radd x y) -> ip I J z.
Definition scale (a : cr) (I : ideal) : ideal := fun x => exists i, I i /\ req x (rmul a i).

Definition isub (I J : ideal) : Prop := forall x, I x -> J x.
Definition ieq (I J : ideal) : Prop := forall x, I x <-> J x.
(** Same class: equal up to non-zero factors. *)
Definition sim (I J : ideal) : Prop :=
  exists a b, ~ req a r0 /\ ~ req b r0 /\ ieq (scale a I) (scale b J).

Lemma ieq_refl I : ieq I I.
Proof. intros x. tauto. Qed.
Lemma ieq_sym I J : ieq I J -> ieq J I.
Proof. intros H x. specialize (H x). tauto. Qed.
Lemma ieq_trans I J K : ieq I J -> ieq J K -> ieq I K.
Proof. intros H H' x. specialize (H x). specialize (H' x). tauto. Qed.
Lemma isub_eq I J : isub I J -> isub J I -> ieq I J.
Proof. intros H K x. split; [apply H|apply K]. Qed.

Lemma top_ideal : is_ideal top.
Proof. constructor; intros; exact I. Qed.
Lemma gen1_ideal f : is_ideal (gen1 f).
Proof.
  constructor.
  - intros g h E [u H]. exists u. now rewrite <- E.
  - exists r0. ring.
  - intros g h [u Hu] [v Hv]. exists (radd u v). rewrite Hu, Hv. ring.
  - intros c g [u Hu]. exists (rmul c u). rewrite Hu. ring.
Qed.
Lemma gen2_ideal f g : is_ideal (gen2 f g).
Proof.
  constructor.
  - intros x y E (u & v & H). exists u, v. now rewrite <- E.
  - exists r0, r0. ring.
  - intros x y (u & v & H) (u' & v' & H'). exists (radd u u'), (radd v v'). rewrite H, H'. ring.
  - intros c x (u & v & H). exists (rmul c u), (rmul c v). rewrite H. ring.
Qed.
Lemma ip_ideal I J : is_ideal I -> is_ideal J -> is_ideal (ip I J).
Proof.
  intros HI HJ. constructor.
  - intros f g E H. destruct H as [a b x A B X|x y z A B X].
    + apply ip_mul with a b; try assumption. now rewrite <- E.
    + apply ip_add with x y; try assumption. now rewrite <- E.
  - apply ip_mul with r0 r0; [apply HI|apply HJ|ring].
  - intros f g H K. apply ip_add with f g; [assumption..|reflexivity].
  - intros c f H. induction H as [a b x A B X|x y z A IHA B IHB X].
    + apply ip_mul with (rmul c a) b; [now apply HI|exact B|]. rewrite X. ring.
    + apply ip_add with (rmul c x) (rmul c y); [assumption..|]. rewrite X. ring.
Qed.
Lemma scale_ideal a I : is_ideal I -> is_ideal (scale a I).
Proof.
  intros HI. constructor.
  - intros f g E (i & A & B). exists i. split; [exact A|]. now rewrite <- E.
  - exists r0. split; [apply HI|]. ring.
  - intros f g (i & A & B) (j & C & D). exists (radd i j). split; [now apply HI|]. rewrite B, D. ring.
  - intros c f (i & A & B). exists (rmul c i). split; [now apply HI|]. rewrite B. ring.
Qed.

(** To bound a product it is enough to bound the products. *)
Lemma ip_sub (I J K : ideal) : is_ideal K -> (forall a b, I a -> J b -> K (rmul a b)) -> isub (ip I J) K.
Proof.
  intros HK H x Hx. induction Hx as [a b x A B X|x y z A IHA B IHB X].
  - apply (id_eq K HK (rmul a b)); [now rewrite X|]. now apply H.
  - apply (id_eq K HK (radd x y)); [now rewrite X|]. now apply (id_add K HK).
Qed.
Lemma ip_in (I J : ideal) a b x : I a -> J b -> req x (rmul a b) -> ip I J x.
Proof. apply ip_mul. Qed.
Lemma ip_proper I I' J J' : ieq I I' -> ieq J J' -> ieq (ip I J) (ip I' J').
Proof.
  intros H K x. split; intros G; induction G as [a b x A B X|x y z A IHA B IHB X].
  - apply ip_mul with a b; [now apply H|now apply K|exact X].
  - now apply ip_add with x y.
  - apply ip_mul with a b; [now apply H|now apply K|exact X].
  - now apply ip_add with x y.
Qed.
Lemma ip_comm I J : ieq (ip I J) (ip J I).
Proof.
  assert (G : forall I J, isub (ip I J) (ip J I)).
  { intros I' J' x H. induction H as [a b x A B X|x y z A IHA B IHB X].
    - apply ip_mul with b a; [assumption..|]. rewrite X. ring.
    - now apply ip_add with x y. }
  apply isub_eq; apply G.
Qed.
Lemma ip_assoc I J K : is_ideal I -> is_ideal J -> is_ideal K -> ieq (ip (ip I J) K) (ip I (ip J K)).
Proof.
  intros HI HJ HK. apply isub_eq.
  - apply ip_sub; [now repeat apply ip_ideal|]. intros a b Ha Hb.
    induction Ha as [c d x C D X|x y z A IHA B IHB X].
    + apply ip_mul with c (rmul d b); [exact C| |rewrite X; ring]. now apply ip_mul with d b.
    + apply ip_add with (rmul x b) (rmul y b); [assumption..|]. rewrite X. ring.
  - apply ip_sub; [now repeat apply ip_ideal|]. intros a b Ha Hb.
    induction Hb as [c d x C D X|x y z A IHA B IHB X].
    + apply ip_mul with (rmul a c) d; [now apply ip_mul with a c|exact D|]. rewrite X. ring.
    + apply ip_add with (rmul a x) (rmul a y); [assumption..|]. rewrite X. ring.
Qed.
Lemma ip_top I : is_ideal I -> ieq (ip I top) I.
Proof.
  intros HI. apply isub_eq.
  - apply ip_sub; [exact HI|]. intros a b Ha _. apply (id_eq I HI (rmul b a)); [ring|]. now apply HI.
  - intros x Hx. apply ip_mul with x r1; [exact Hx|exact Logic.I|]. ring.
Qed.
Lemma ip_scale a I J : ieq (ip (scale a I) J) (scale a (ip I J)).
Proof.
  apply isub_eq.
  - intros x H. induction H as [c d x (i & C & E) D X|x y z A (i & IA & EA) B (j & IB & EB) X].
    + exists (rmul i d). split; [now apply ip_mul with i d|]. rewrite X, E. ring.
    + exists (radd i j). split; [now apply ip_add with i j|]. rewrite X, EA, EB. ring.
  - intros x (i & H & E). revert x E. induction H as [c d z C D X|y z w A IHA B IHB X]; intros x E.
    + apply ip_mul with (rmul a c) d; [now exists c|exact D|]. rewrite E, X. ring.
    + apply ip_add with (rmul a y) (rmul a z).
      * now apply IHA.
      * now apply IHB.
      * rewrite E, X. ring.
Qed.
Lemma scale_proper a I J : ieq I J -> ieq (scale a I) (scale a J).
Proof. intros H x. split; intros (i & A & B); exists i; (split; [now apply H|exact B]). Qed.
Lemma scale_scale a b I : ieq (scale a (scale b I)) (scale (rmul a b) I).
Proof.
  apply isub_eq.
  - intros x (i & (j & J & E) & F). exists j. split; [exact J|]. rewrite F, E. ring.
  - intros x (j & J & E). exists (rmul b j). split; [now exists j|]. rewrite E. ring.
Qed.
Lemma scale_eq a b I : req a b -> ieq (scale a I) (scale b I).
Proof. intros H x. split; intros (i & A & B); exists i; (split; [exact A|]); rewrite B; [now rewrite H|now rewrite <- H]. Qed.

Lemma r1_neq_r0 : ~ req r1 r0.
Proof. intros [[H] _]. specialize (H O). cbn in H. exact (f1_neq_f0 H). Qed.

Lemma sim_ieq I J : ieq I J -> sim I J.
Proof. intros H. exists r1, r1. split; [apply r1_neq_r0|]. split; [apply r1_neq_r0|]. now apply scale_proper. Qed.
Lemma sim_sym I J : sim I J -> sim J I.
Proof. intros (a & b & A & B & H). exists b, a. split; [exact B|]. split; [exact A|]. now apply ieq_sym. Qed.
Lemma sim_trans I J K : sim I J -> sim J K -> sim I K.
Proof.
  intros (a & b & A & B & H) (c & d & C & D & G).
  exists (rmul c a), (rmul b d). split; [now apply cr_domain|]. split; [now apply cr_domain|].
  apply ieq_trans with (scale c (scale a I)); [apply ieq_sym, scale_scale|].
  apply ieq_trans with (scale c (scale b J)); [now apply scale_proper|].
  apply ieq_trans with (scale (rmul c b) J); [apply scale_scale|].
  apply ieq_trans with (scale (rmul b c) J); [apply scale_eq; ring|].
  apply ieq_trans with (scale b (scale c J)); [apply ieq_sym, scale_scale|].
  apply ieq_trans with (scale b (scale d K)); [now apply scale_proper|]. apply scale_scale.
Qed.
Lemma sim_ip_l I I' J : sim I I' -> sim (ip I J) (ip I' J).
Proof.
  intros (a & b & A & B & H). exists a, b. split; [exact A|]. split; [exact B|].
  apply ieq_trans with (ip (scale a I) J); [apply ieq_sym, ip_scale|].
  apply ieq_trans with (ip (scale b I') J); [|apply ip_scale]. apply ip_proper; [exact H|apply ieq_refl].
Qed.
Lemma sim_ip_r I J J' : sim J J' -> sim (ip I J) (ip I J').
Proof.
  intros H. apply sim_trans with (ip J I); [apply sim_ieq, ip_comm|].
  apply sim_trans with (ip J' I); [now apply sim_ip_l|apply sim_ieq, ip_comm].
Qed.
Lemma sim_gen1 f : ~ req f r0 -> sim (gen1 f) top.
Proof.
  intros H. exists r1, f. split; [apply r1_neq_r0|]. split; [exact H|]. intros x. split.
  - intros (i & (u & E) & F). exists u. split; [exact Logic.I|]. rewrite F, E. ring.
  - intros (i & _ & E). exists x. split; [|ring]. exists i. rewrite E. ring.
Qed.

Lemma gen2_l f g : gen2 f g f.
Proof. exists r1, r0. ring. Qed.
Lemma gen2_r f g : gen2 f g g.
Proof. exists r0, r1. ring. Qed.
Lemma gen2_sub f g (I : ideal) : is_ideal I -> I f -> I g -> isub (gen2 f g) I.
Proof.
  intros HI F G x (u & v & E). apply (id_eq I HI (radd (rmul u f) (rmul v g))); [now rewrite E|].
  apply HI; now apply HI.
Qed.
