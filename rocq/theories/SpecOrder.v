(** What comparisons should mean: orders, dictionaries, numbers. *)

From Coq Require Import ZArith.
From Verif Require Import Base Hash C32 Tx Wallet F64 Rpc SpecText SpecF64 SpecClient.
Local Open Scope N_scope.

(** A comparison that puts all values in one line, and calls equal only what is the same. *)
Record ranks {A} (c : A -> A -> comparison) : Prop := {
  ranks_same : forall a b, c a b = Eq <-> a = b;
  ranks_swap : forall a b, c b a = CompOpp (c a b);
  ranks_next : forall a b d, c a b = Lt -> c b d = Lt -> c a d = Lt }.

(** The order of a dictionary over the bytes 0 to 255. *)
Definition precedes (a b : bytes) : Prop :=
  (exists c r, b = a ++ c :: r)
  \/ exists p x y u v, a = p ++ x :: u /\ b = p ++ y :: v /\ Byte.to_N x < Byte.to_N y.

(** The number written with the bytes as digits. *)
Definition as_digits (b : bytes) : N := value 256 (map Byte.to_N b).

(** A standard condition comes before another: first by mode, then fee, nonce, signer, signature. *)
Definition mode_rank (m : hmode) : N := match m with P2PKH => 0 | P2SH => 1 | P2WPKH => 2 | P2WSH => 3 end.
Definition std_precedes (a b : sc_std) : Prop :=
  mode_rank (std_mode a) < mode_rank (std_mode b)
  \/ std_mode a = std_mode b /\ (std_fee a < std_fee b
  \/ std_fee a = std_fee b /\ (std_nonce a < std_nonce b
  \/ std_nonce a = std_nonce b /\ (precedes (std_signer a) (std_signer b)
  \/ std_signer a = std_signer b /\ precedes (std_sig a) (std_sig b)))).
(** Multi-signature conditions: mode, fee, nonce, signer, fields, required number; of two fields a key comes before a signature. *)
Definition field_precedes (a b : auth_field) : Prop :=
  match a, b with
  | FPk p, FPk q => precedes p q
  | FSig p, FSig q => precedes p q
  | FPk _, FSig _ => True
  | FSig _, FPk _ => False
  end.
Definition fields_precede (a b : list auth_field) : Prop :=
  (exists c r, b = a ++ c :: r)
  \/ exists p x y u v, a = p ++ x :: u /\ b = p ++ y :: v /\ field_precedes x y.
Definition multi_precedes (a b : sc_multi) : Prop :=
  mode_rank (ms_mode a) < mode_rank (ms_mode b)
  \/ ms_mode a = ms_mode b /\ (ms_fee a < ms_fee b
  \/ ms_fee a = ms_fee b /\ (ms_nonce a < ms_nonce b
  \/ ms_nonce a = ms_nonce b /\ (precedes (ms_signer a) (ms_signer b)
  \/ ms_signer a = ms_signer b /\ (fields_precede (ms_fields a) (ms_fields b)
  \/ ms_fields a = ms_fields b /\ Byte.to_N (ms_required a) < Byte.to_N (ms_required b))))).

(** Modifications: of single-signature conditions before those of multi-signature ones, keys before signatures. *)
Definition mod_precedes (a b : modification) : Prop :=
  match a, b with
  | MSetPublicKey p, MSetPublicKey q | MSetSignature p, MSetSignature q
  | MAddPublicKey p, MAddPublicKey q | MAddSignature p, MAddSignature q => precedes p q
  | MSetPublicKey _, _ => True
  | MSetSignature _, (MAddPublicKey _ | MAddSignature _) => True
  | MAddPublicKey _, MAddSignature _ => True
  | _, _ => False
  end.

(** The first of several criteria that does not find the same decides; each is given by what comes before and what is the same. *)
Fixpoint decides (l : list (Prop * Prop)) : Prop :=
  match l with [] => False | (before, same) :: r => before \/ same /\ decides r end.
Definition by_number {A} (f : A -> N) (a b : A) : Prop * Prop := (f a < f b, f a = f b).
Definition by_text {A} (f : A -> bytes) (a b : A) : Prop * Prop := (precedes (f a) (f b), f a = f b).
Definition by_flag {A} (f : A -> bool) (a b : A) : Prop * Prop := (f a = false /\ f b = true, f a = f b).
(** rpc.rs:34-178, the fields in the order of the declarations. *)
Definition info_precedes (a b : node_info) : Prop :=
  decides [by_number ni_peer_version a b; by_text ni_pox_consensus a b; by_number ni_burn_height a b; by_text ni_stable_pox a b;
           by_number ni_stable_burn_height a b; by_text ni_server_version a b; by_number ni_network a b; by_number ni_parent_network a b;
           by_number ni_tip_height a b; by_text ni_tip a b; by_text ni_tip_consensus a b; by_text ni_genesis a b].
Definition address_info_precedes (a b : address_info) : Prop :=
  decides [by_text ad_balance a b; by_text ad_locked a b; by_number ad_unlock a b; by_number ad_nonce a b;
           by_text ad_balance_proof a b; by_text ad_nonce_proof a b].
(** Successes come before failures. *)
Definition broadcast_precedes (a b : broadcast_resp) : Prop :=
  match a, b with
  | BcOk s, BcOk t => precedes s t
  | BcOk _, BcErr _ => True
  | BcErr _, BcOk _ => False
  | BcErr x, BcErr y => decides [by_text be_error x y; by_text be_reason x y; by_text be_txid x y]
  end.
Definition read_only_precedes (a b : read_only_resp) : Prop :=
  match a, b with
  | ROk o s, ROk p t | RErr o s, RErr p t => decides [by_flag fst (o, s) (p, t); by_text snd (o, s) (p, t)]
  | ROk _ _, RErr _ _ => True
  | RErr _ _, ROk _ _ => False
  end.

(** The values the types of the fields allow. *)
Definition sized_std (s : sc_std) : Prop :=
  std_fee s < 2 ^ 64 /\ std_nonce s < 2 ^ 64 /\ length (std_signer s) = 20%nat /\ length (std_sig s) = 65%nat.
Definition sized_field (f : auth_field) : Prop :=
  match f with FPk p => length p = 33%nat | FSig s => length s = 65%nat end.
Definition sized_multi (m : sc_multi) : Prop :=
  ms_fee m < 2 ^ 64 /\ ms_nonce m < 2 ^ 64 /\ length (ms_signer m) = 20%nat /\ Forall sized_field (ms_fields m).

(** The number a rate stands for, in units of 2^-1074, the infinite ones beyond all others. *)
Definition rate_number (r : f64) : option Z :=
  match r with
  | Fin neg v => Some (if neg then - Z.of_N v else Z.of_N v)%Z
  | Inf neg => Some (if neg then - Z.of_N infinite else Z.of_N infinite)%Z
  | NaN => None
  end.
(** The same fee and the same number. *)
Definition same_estimate (a b : fee_estimate) : Prop :=
  fe_fee a = fe_fee b /\ exists z, rate_number (fe_rate a) = Some z /\ rate_number (fe_rate b) = Some z.
Definition same_fees (a b : estimate_resp) : Prop :=
  match a, b with
  | EsOk l, EsOk m => Forall2 same_estimate l m
  | EsErr s, EsErr t => s = t
  | _, _ => False
  end.
(** Estimates: by fee, then rate; lists like the words of a dictionary; estimates before errors. *)
Definition estimate_precedes (a b : fee_estimate) : Prop :=
  fe_fee a < fe_fee b
  \/ fe_fee a = fe_fee b /\ exists x y, rate_number (fe_rate a) = Some x /\ rate_number (fe_rate b) = Some y /\ (x < y)%Z.
Definition fees_precede (a b : estimate_resp) : Prop :=
  match a, b with
  | EsOk l, EsOk m => exists p q r s, l = p ++ r /\ m = q ++ s /\ Forall2 same_estimate p q
    /\ match r, s with [], _ :: _ => True | x :: _, y :: _ => estimate_precedes x y | _, _ => False end
  | EsErr s, EsErr t => precedes s t
  | EsOk _, EsErr _ => True
  | EsErr _, EsOk _ => False
  end.
(** Rates as [f64] has them; rates that are numbers. *)
Definition all_rates (P : f64 -> Prop) (a : estimate_resp) : Prop :=
  match a with EsOk l => Forall (fun e => P (fe_rate e)) l | EsErr _ => True end.
Definition is_number (r : f64) : Prop := r <> NaN.

(** ** Wallets *)

(** The account a wallet holds under [i] after a history of calls: the one stored last, or the child of the root if that was ever
    looked up and exists. *)
Definition looks_at {H} (i : N) (o : wop H) : Prop := match o with Look j => j = i | Store _ _ => False end.
Definition holds {H} (root : xprv H) (l : list (wop H)) (i : N) (a : account H) : Prop :=
  stored l i = Some a
  \/ stored l i = None /\ Exists (looks_at i) l /\ exists x, derive_child H root i = inr x /\ a = {| acc_ext := x; acc_index := i |}.
(** [key_eq] tells the keys apart. *)
Definition tells {A} (eq : A -> A -> bool) : Prop := forall a b, eq a b = true <-> a = b.
