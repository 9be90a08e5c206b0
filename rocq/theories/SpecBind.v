(** Specification for moved signatures: what it takes for the signatures of one transaction to verify on another.
    Over SpecSign.v; nothing of the model's verification code. *)

From Verif Require Import Base SpecText SpecWire Hash Tx SpecTx Signer SpecSign.
Local Open Scope N_scope.

(** ECDSA recovery depends on the digest: Q = (sR - eG)/r, so that one signature yields one key for two digests only
    if they agree modulo the group order. *)
Definition binds_digest (E : ecdsa) : Prop :=
  forall d d' r pk, length d = 32%nat -> length d' = 32%nat -> compact_form r ->
    recover E d r = Some pk -> recover E d' r = Some pk -> scalar d mod group_order = scalar d' mod group_order.

(** A toy scheme with that dependence: s = k + e, Q = s - e. *)
Definition shift : ecdsa :=
  {| pubkey_of := fun sk => x02 :: sk;
     sign_rec := fun m sk =>
       {| rs_id := 1; rs_bytes := big_endian 32 1 ++ big_endian 32 ((scalar sk + scalar m) mod group_order) |};
     recover := fun m r =>
       if Nat.eqb (length (rs_bytes r)) 64
       then Some (x02 :: big_endian 32 ((scalar (skipn 32 (rs_bytes r)) + (group_order - scalar m mod group_order)) mod group_order))
       else None |}.

(** Same signatures and listed keys by the same account; fee and nonce are free. *)
Definition same_signatures (c d : scond) : Prop :=
  same_identity c d
  /\ match c, d with
     | SStd s, SStd s' => std_sig s = std_sig s'
     | SMulti m, SMulti m' => ms_fields m = ms_fields m'
     | _, _ => False
     end.

Definition has_signature (c : scond) : Prop := match c with SStd _ => True | SMulti m => 0 < held (SMulti m) end.

(** Different digests that ECDSA cannot tell apart. *)
Definition digest_clash (d d' : bytes) : Prop := d <> d' /\ scalar d mod group_order = scalar d' mod group_order.

(** Different keys, recovered from the same signatures for two hashes, with the same address. *)
Definition key_swap (E : ecdsa) (typ : byte) (h : bytes) (c : scond) (k : bytes) (d : scond) : Prop :=
  match c, d with
  | SStd s, SStd s' =>
    exists pk pk', recovers E (digest h typ (std_fee s) (std_nonce s)) (std_sig s) pk
      /\ recovers E (digest k typ (std_fee s') (std_nonce s')) (std_sig s') pk' /\ key_clash (std_mode s) pk pk'
  | SMulti m, SMulti m' =>
    exists ks n g ks' n' g', chain E typ (ms_fee m) (ms_nonce m) h (ms_fields m) ks n g
      /\ chain E typ (ms_fee m') (ms_nonce m') k (ms_fields m') ks' n' g'
      /\ script_clash (ms_mode m) (script (Byte.to_N (ms_required m)) ks) (script (Byte.to_N (ms_required m)) ks')
  | _, _ => False
  end.

(** Digest that the first signature of a condition is made for. *)
Definition first_digest (h : bytes) (typ : byte) (c : scond) : bytes := digest h typ (fee_of c) (nonce_of c).
Definition first_message (h : bytes) (typ : byte) (c : scond) : bytes := message_text h typ (fee_of c) (nonce_of c).

(** Same kind of authorization. *)
Definition same_kind (a b : auth) : Prop :=
  match a, b with AStandard _, AStandard _ | ASponsored _ _, ASponsored _ _ => True | _, _ => False end.

(** The signatures of a condition, in order. *)
Definition signatures (c : scond) : list bytes :=
  match c with
  | SStd s => [std_sig s]
  | SMulti m => flat_map (fun f => match f with FSig sig => [sig] | FPk _ => [] end) (ms_fields m)
  end.

(** The hash after a sequence of signatures. *)
Definition hash_after (typ : byte) (fee nonce : N) (h : bytes) (sigs : list bytes) : bytes :=
  fold_left (fun h s => link (digest h typ fee nonce) s) sigs h.

(** A SHA-512/256 collision between the strings hashed at corresponding places of two signature sequences. *)
Definition chain_collision (typ : byte) (f n : N) (h : bytes) (sigs : list bytes) (g m : N) (k : bytes) (sigs' : list bytes) : Prop :=
  exists a s b a' s' b', sigs = a ++ s :: b /\ sigs' = a' ++ s' :: b' /\ length a = length a'
    /\ (collision (message_text (hash_after typ f n h a) typ f n) (message_text (hash_after typ g m k a') typ g m)
        \/ collision (link_text (digest (hash_after typ f n h a) typ f n) s) (link_text (digest (hash_after typ g m k a') typ g m) s')).

(** ** Lengths *)

(** What the signatures and listed keys of a condition add to the length of an encoding. *)
Definition weight (c : scond) : N :=
  match c with
  | SStd _ => 0
  | SMulti m => 66 * count (filter is_sig (ms_fields m)) + 34 * count (filter (fun f => negb (is_sig f)) (ms_fields m))
  end.
Definition auth_weight (t : tx) : N :=
  weight (origin_of t) + match sponsor_of t with Some p => weight p | None => 0 end.

Definition typed_tx (t : tx) : Prop := typed (origin_of t) /\ forall p, sponsor_of t = Some p -> typed p.
Definition typed_op (o : op) : Prop := match o with AppendOrigin pk => length pk = 33%nat | _ => True end.

(** Fewer than 2^32 fields per condition. *)
Definition few_fields (t : tx) : Prop :=
  fits_spend (spend_wire (origin_of t)) /\ forall p, sponsor_of t = Some p -> fits_spend (spend_wire p).
