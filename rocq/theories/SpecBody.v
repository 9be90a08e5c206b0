(** What a method of the client makes of the bytes a node sends: JSON as published (SpecJson.v), read no closer than needed, and
    text as Unicode decodes it.  Nothing of the model's readers. *)

From Coq Require Import Strings.String.
From Verif Require Import Base SpecUtf8 SpecText SpecShow SpecWire F64 Rpc SpecClient SpecJson SpecF64 JsonRead.
Local Open Scope string_scope.
Local Open Scope list_scope.
Local Open Scope N_scope.

(** ** Text of a body (Unicode 15, section 3.9: substitution of maximal subparts) *)

(** [p] begins a character. *)
Definition starts (p : bytes) : Prop := exists n q, scalar_value n /\ utf8_text n = p ++ q.
(** [t] is the text of [b]: characters are kept; where none starts, the longest beginning of one, or a single byte, becomes
    U+FFFD. *)
Inductive mended : bytes -> bytes -> Prop :=
| mended_end : mended [] []
| mended_char n r t : scalar_value n -> mended r t -> mended (utf8_text n ++ r) (utf8_text n ++ t)
| mended_bad p r t : p <> [] -> (forall n q, scalar_value n -> p ++ r <> utf8_text n ++ q) ->
    (starts p \/ exists c, p = [c]) -> (forall p' q, p ++ r = p' ++ q -> starts p' -> (length p' <= length p)%nat) ->
    mended r t -> mended (p ++ r) (utf8_text 0xFFFD ++ t).

(** ** JSON of which parts are not looked at *)

(** Strings nobody looks at: any bytes but control characters, and escapes that are complete. *)
Inductive loose : bytes -> Prop :=
| loose_nil : loose []
| loose_plain c t : 32 <= Byte.to_N c -> c <> x22 -> c <> x5c -> loose t -> loose (c :: t)
| loose_short e t : In e (map fst short_escapes) -> loose t -> loose (x5c :: e :: t)
| loose_unit u n t : code_unit u n -> loose t -> loose (x5c :: x75 :: u ++ t).
Definition text_at (s : shape) (t x : bytes) : Prop :=
  match s with
  | Skipped => x = [] /\ exists c, loose c /\ t = x22 :: c ++ [x22]
  | _ => string_text t x
  end.

(** How parts of a value are looked at if the value is looked at as [s]: its [n]th item, its member [k]. *)
Inductive item_at : shape -> nat -> shape -> Prop :=
| item_any d n : item_at (Any (S d)) n (Any d)
| item_skipped n : item_at Skipped n Skipped
| item_field f n k s : nth_error f n = Some (k, s) -> item_at (Struct f) n s
| item_extra f n : (length f <= n)%nat -> item_at (Struct f) n Skipped
| item_elem s n : item_at (Seq s) n s.
Inductive member_at : shape -> bytes -> shape -> Prop :=
| member_any d k : member_at (Any (S d)) k (Any d)
| member_skipped k : member_at Skipped k Skipped
| member_field f g k s : ~ In k (map fst f) -> member_at (Struct (f ++ (k, s) :: g)) k s
| member_other f k : ~ In k (map fst f) -> member_at (Struct f) k Skipped
| member_elem s k : member_at (Seq s) k Skipped.

(** Numbers that are not too large to be read as floating-point numbers, where they are looked at. *)
Definition bearable (s : shape) (j : json) : Prop :=
  match s, j with
  | Skipped, _ => True
  | _, JFloat t => exists r, double_of t r
  | _, _ => True
  end.

(** RFC 8259 except in what is skipped, and with nesting and numbers limited in what is not. *)
Inductive value_at : shape -> bytes -> json -> Prop :=
| at_null s : value_at s (str "null") JNull
| at_true s : value_at s (str "true") (JBool true)
| at_false s : value_at s (str "false") (JBool false)
| at_number s t j : number_text t j -> bearable s j -> value_at s t j
| at_string s t x : text_at s t x -> value_at s t (JStr x)
| at_no_items s w : s <> Any 0 -> ws w -> value_at s (x5b :: w ++ [x5d]) (JArr [])
| at_array s t l : s <> Any 0 -> items_at s 0 t l -> value_at s (x5b :: t ++ [x5d]) (JArr l)
| at_no_members s w : s <> Any 0 -> ws w -> value_at s (x7b :: w ++ [x7d]) (JObj [])
| at_object s t l : s <> Any 0 -> members_at s t l -> value_at s (x7b :: t ++ [x7d]) (JObj l)
with items_at : shape -> nat -> bytes -> list json -> Prop :=
| items_at_one s n s' a t b j : item_at s n s' -> ws a -> ws b -> value_at s' t j -> items_at s n (a ++ t ++ b) [j]
| items_at_more s n s' a t b j u l : item_at s n s' -> ws a -> ws b -> value_at s' t j -> items_at s (S n) u l ->
    items_at s n (a ++ t ++ b ++ x2c :: u) (j :: l)
with members_at : shape -> bytes -> list (bytes * json) -> Prop :=
| members_at_one s s' a k b c t d x j : ws a -> ws b -> ws c -> ws d -> text_at s k x -> member_at s x s' -> value_at s' t j ->
    members_at s (a ++ k ++ b ++ x3a :: c ++ t ++ d) [(x, j)]
| members_at_more s s' a k b c t d x j u l : ws a -> ws b -> ws c -> ws d -> text_at s k x -> member_at s x s' ->
    value_at s' t j -> members_at s u l -> members_at s (a ++ k ++ b ++ x3a :: c ++ t ++ d ++ x2c :: u) ((x, j) :: l).
Definition document_at (s : shape) (b : bytes) (j : json) : Prop :=
  exists u t v, ws u /\ ws v /\ value_at s t j /\ b = u ++ t ++ v.

(** What each response is looked at for.  The deepest nesting is 127, counted from the whole body. *)
Definition struct_of_names (names : list String.string) : shape := Struct (map (fun k => (str k, Any 126)) names).
Definition info_members : list String.string :=
  ["peer_version"; "pox_consensus"; "burn_block_height"; "stable_pox_consensus"; "stable_burn_block_height"; "server_version";
   "network_id"; "parent_network_id"; "stacks_tip_height"; "stacks_tip"; "stacks_tip_consensus_hash"; "genesis_chainstate_hash"].
Definition address_members : list String.string := ["balance"; "locked"; "unlock_height"; "nonce"; "balance_proof"; "nonce_proof"].
Definition rejection_members : list String.string := ["error"; "reason"; "txid"].
Definition looks_info : shape := struct_of_names info_members.
Definition looks_address : shape := struct_of_names address_members.
Definition looks_rejection : shape := struct_of_names rejection_members.
Definition looks_fees : shape := Struct [(str "estimations", Seq (Struct [(str "fee", Any 124); (str "fee_rate", Any 124)]))].
Definition looks_read_only : shape := Any 127.

(** How deeply arrays and objects are nested. *)
Fixpoint nesting (j : json) : nat :=
  match j with
  | JArr l => S (list_max (map nesting l))
  | JObj l => S (list_max (map (fun kv => nesting (snd kv)) l))
  | _ => 0
  end.

(** No number is too large. *)
Fixpoint all_finite (j : json) : Prop :=
  match j with
  | JFloat t => exists r, double_of t r
  | JArr l => fold_right (fun x P => all_finite x /\ P) True l
  | JObj l => fold_right (fun kv P => all_finite (snd kv) /\ P) True l
  | _ => True
  end.

(** ** Results *)

(** The value of a body that is the text of a [P]; an I/O error for any other body. *)
Definition body_as {A B} (s : shape) (P : json -> A -> Prop) (k : A -> B) (b : bytes) (out : res rpc_err B) : Prop :=
  (exists j a, document_at s b j /\ P j a /\ out = Ok (k a)) \/ ((forall j a, document_at s b j -> ~ P j a) /\ out = Err RIo).
(** The same for a body whose JSON is [j]. *)
Definition json_as {A B} (P : json -> A -> Prop) (k : A -> B) (j : json) (out : res rpc_err B) : Prop :=
  (exists a, P j a /\ out = Ok (k a)) \/ ((forall a, ~ P j a) /\ out = Err RIo).
(** The text of a body of at most ten mebibytes. *)
Definition body_text {B} (k : bytes -> B) (b : bytes) (out : res rpc_err B) : Prop :=
  (count b <= 10485760 /\ exists t, mended b t /\ out = Ok (k t)) \/ (10485760 < count b /\ out = Err RIo).

Definition raw_plain {A} (s : shape) (P : json -> A -> Prop) (r : raw) (out : res rpc_err A) : Prop :=
  match r with
  | Body b => body_as s P (fun a => a) b out
  | Status c _ => out = Err (RUreq (Some c))
  | Lost => out = Err (RUreq None)
  end.
Definition raw_broadcast (r : raw) (out : res rpc_err broadcast_resp) : Prop :=
  match r with
  | Body b => body_text BcOk b out
  | Status _ b => body_as looks_rejection rejection_json BcErr b out
  | Lost => out = Err (RUreq None)
  end.
Definition raw_estimate (r : raw) (out : res rpc_err estimate_resp) : Prop :=
  match r with
  | Body b => body_as looks_fees fees_json EsOk b out
  | Status _ b => body_text EsErr b out
  | Lost => out = Err (RUreq None)
  end.

(** ** Members *)

(** The members whose keys are among [ks]. *)
Definition known (ks : list bytes) (l : list (bytes * json)) : list (bytes * json) :=
  filter (fun m => existsb (bytes_eqb (fst m)) ks) l.
