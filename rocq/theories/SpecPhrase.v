(** Secret phrases as published in BIP-39, over the word list alone.  No reference to the model of the parser. *)

From Coq Require Import NArith List.
From Verif Require Import Base SpecText Sha2 Words.
Import ListNotations.
Local Open Scope N_scope.

(** ** The words of a text *)
Definition blank (b : byte) : Prop := In b [x09; x0a; x0b; x0c; x0d; x20].
Definition gap (g : bytes) : Prop := Forall blank g.
Definition word (w : bytes) : Prop := w <> [] /\ Forall (fun b => ~ blank b) w.
Inductive spells : bytes -> list bytes -> Prop :=
| spells_nothing g : gap g -> spells g []
| spells_last g w : gap g -> word w -> spells (g ++ w) [w]
| spells_more g w b t ws : gap g -> word w -> blank b -> spells t ws -> spells (g ++ w ++ b :: t) (w :: ws).

(** The words with one space between them. *)
Definition joined (ws : list bytes) : bytes :=
  match ws with
  | [] => []
  | w :: r => w ++ concat (map (fun x => x20 :: x) r)
  end.

(** ** The sentence of an entropy: its number, followed by one checksum bit for every four bytes, written in base 2048. *)
Definition known (w : bytes) : Prop := In w english.
Definition number (bs : bytes) : N := value 256 (map Byte.to_N bs).
Definition checksum_bits (ent : bytes) : N := N.of_nat (length ent) / 4.
Definition with_checksum (ent : bytes) : N :=
  number ent * 2 ^ checksum_bits ent + number (sha256 ent) / 2 ^ (256 - checksum_bits ent).
Definition sentence (ent : bytes) (ws : list bytes) : Prop :=
  In (length ent) [16; 20; 24; 28; 32]%nat
  /\ (length ws * 4 = length ent * 3)%nat
  /\ exists ns, Forall2 (fun n w => nth_error english (N.to_nat n) = Some w) ns ws /\ value 2048 ns = with_checksum ent.

(** ** The faults of a text that is no sentence, in the order in which they are reported. *)
Definition fair_count (n : nat) : Prop := In n [12; 15; 18; 21; 24]%nat.
Inductive fault := NotThatMany (n : nat) | NoSuchWord (i : nat) | WrongChecksum.
Inductive faulty : list bytes -> fault -> Prop :=
| faulty_none : faulty [] (NotThatMany 0)
| faulty_first w ws : ~ known w -> faulty (w :: ws) (NoSuchWord 0)
| faulty_count w ws : known w -> ~ fair_count (S (length ws)) -> faulty (w :: ws) (NotThatMany (S (length ws)))
| faulty_word a w ws : Forall known a -> ~ known w -> fair_count (length (a ++ w :: ws)) -> faulty (a ++ w :: ws) (NoSuchWord (length a))
| faulty_sum ws : Forall known ws -> fair_count (length ws) -> (forall ent, ~ sentence ent ws) -> faulty ws WrongChecksum.
