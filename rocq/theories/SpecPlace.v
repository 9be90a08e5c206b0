(** Specification of the places of a transaction where signatures stand, and of what each of them is made for.
    Over SpecSign.v and SpecBind.v; nothing of the model's signing or verification code. *)

From Verif Require Import Base Sha2 SpecText SpecWire Hash Tx SpecTx Signer SpecSign SpecBind.
Local Open Scope N_scope.

(** A signature with the terms it is given under. *)
Record stamp := { sp_role : byte; sp_fee : N; sp_nonce : N; sp_sig : bytes }.

(** The signatures of a transaction in the order in which they are made: the origin's (0x04), then the sponsor's (0x05). *)
Definition stamps (role : byte) (c : scond) : list stamp :=
  map (fun s => {| sp_role := role; sp_fee := fee_of c; sp_nonce := nonce_of c; sp_sig := s |}) (signatures c).
Definition all_stamps (t : tx) : list stamp :=
  stamps x04 (origin_of t) ++ match sponsor_of t with Some p => stamps x05 p | None => [] end.

(** [s] stands in [t] after [before]. *)
Definition stands (t : tx) (before : list stamp) (s : stamp) : Prop := exists after, all_stamps t = before ++ s :: after.

(** The hash after the signatures so far, and the digest the next one is made for. *)
Definition run (h : bytes) (l : list stamp) : bytes :=
  fold_left (fun h s => link (digest h (sp_role s) (sp_fee s) (sp_nonce s)) (sp_sig s)) l h.
Definition digest_at (h : bytes) (before : list stamp) (s : stamp) : bytes :=
  digest (run h before) (sp_role s) (sp_fee s) (sp_nonce s).

(** The signature at that place is one by the key [pk]. *)
Definition counts (E : ecdsa) (h : bytes) (before : list stamp) (s : stamp) (pk : bytes) : Prop :=
  recovers E (digest_at h before s) (sp_sig s) pk.

(** The strings hashed on the way to the digest at a place: the cleared transaction, and one message and one link each time. *)
Inductive hashed (w : wtx) (h : bytes) (l : list stamp) : bytes -> Prop :=
| hashed_tx : hashed w h l (ser_tx (clear_tx w))
| hashed_message b s a : l = b ++ s :: a -> hashed w h l (message_text (run h b) (sp_role s) (sp_fee s) (sp_nonce s))
| hashed_link b s a : l = b ++ s :: a -> hashed w h l (link_text (digest_at h b s) (sp_sig s)).

(** Two of the strings hashed on the two ways collide. *)
Definition hash_collision (w : wtx) (h : bytes) (l : list stamp) (v : wtx) (k : bytes) (l' : list stamp) : Prop :=
  exists a b, hashed w h l a /\ hashed v k l' b /\ collision a b.

(** A digest on the way, with the signature made for it, reads as a whole cleared transaction. *)
Definition lookalike (h : bytes) (l : list stamp) (v : wtx) : Prop :=
  exists b s a, l = b ++ s :: a /\ link_text (digest_at h b s) (sp_sig s) = ser_tx (clear_tx v).

(** What it takes for two places to share a hash. *)
Definition coincidence (w : wtx) (h : bytes) (l : list stamp) (v : wtx) (k : bytes) (l' : list stamp) : Prop :=
  hash_collision w h l v k l' \/ lookalike h l v \/ lookalike k l' w.
