(** JSON text as published (RFC 8259): which text stands for which value.  Values are those of Rpc.v; nothing of the model's
    formatter. *)

From Coq Require Import Strings.String.
From Verif Require Import Base SpecUtf8 SpecText SpecShow Rpc.
Local Open Scope string_scope.
Local Open Scope list_scope.
Local Open Scope N_scope.

(** ws = *( %x20 / %x09 / %x0A / %x0D ) *)
Definition blank (c : byte) : Prop := In c [x20; x09; x0a; x0d].
Definition ws (s : bytes) : Prop := Forall blank s.

(** Hexadecimal digits of either case. *)
Definition hex_value (c : byte) (n : N) : Prop :=
  (48 <= Byte.to_N c <= 57 /\ n = Byte.to_N c - 48)
  \/ (65 <= Byte.to_N c <= 70 /\ n = Byte.to_N c - 55)
  \/ (97 <= Byte.to_N c <= 102 /\ n = Byte.to_N c - 87).
Definition code_unit (t : bytes) (n : N) : Prop :=
  exists a b c d i j k l, t = [a; b; c; d] /\ hex_value a i /\ hex_value b j /\ hex_value c k /\ hex_value d l
    /\ n = ((i * 16 + j) * 16 + k) * 16 + l.

(** Characters of a string: unescaped, escaped by a letter, by one code unit, by a surrogate pair. *)
Definition short_escapes : list (byte * byte) :=
  [(x22, x22); (x5c, x5c); (x2f, x2f); (x62, x08); (x66, x0c); (x6e, x0a); (x72, x0d); (x74, x09)].
Inductive chars : bytes -> bytes -> Prop :=
| chars_nil : chars [] []
| chars_plain c t s : 32 <= Byte.to_N c -> c <> x22 -> c <> x5c -> chars t s -> chars (c :: t) (c :: s)
| chars_short e c t s : In (e, c) short_escapes -> chars t s -> chars (x5c :: e :: t) (c :: s)
| chars_unit u n t s : code_unit u n -> scalar_value n -> chars t s -> chars (x5c :: x75 :: u ++ t) (utf8_text n ++ s)
| chars_pair u v n m t s : code_unit u n -> code_unit v m -> 0xD800 <= n <= 0xDBFF -> 0xDC00 <= m <= 0xDFFF -> chars t s ->
    chars (x5c :: x75 :: u ++ x5c :: x75 :: v ++ t) (utf8_text (0x10000 + (n - 0xD800) * 0x400 + (m - 0xDC00)) ++ s).
(** A string, with its quotes. *)
Definition string_text (t s : bytes) : Prop := utf8 s /\ exists c, chars c s /\ t = x22 :: c ++ [x22].

(** number = [ minus ] int [ frac ] [ exp ] *)
Definition digits1 (t : bytes) : Prop := t <> [] /\ Forall digit t.
Definition int_text (t : bytes) : Prop := t = [x30] \/ (digits1 t /\ hd x30 t <> x30).
Definition frac_text (t : bytes) : Prop := t = [] \/ exists d, digits1 d /\ t = x2e :: d.
Definition exp_text (t : bytes) : Prop :=
  t = [] \/ exists e s d, (e = x65 \/ e = x45) /\ (s = [] \/ s = [x2b] \/ s = [x2d]) /\ digits1 d /\ t = e :: s ++ d.
(** Integers of 64 bits, signed or not, are read as such; other numbers, and -0, as floating-point numbers. *)
Definition small_int (z : Z) : Prop := (- 2 ^ 63 <= z < 2 ^ 64)%Z.
Definition number_text (t : bytes) (j : json) : Prop :=
  (exists z, small_int z /\ signed_decimal z t /\ j = JInt z)
  \/ ((forall z, small_int z -> ~ signed_decimal z t)
      /\ exists m i f e, (m = [] \/ m = [x2d]) /\ int_text i /\ frac_text f /\ exp_text e /\ t = m ++ i ++ f ++ e /\ j = JFloat t).

Inductive value_text : bytes -> json -> Prop :=
| text_null : value_text (str "null") JNull
| text_true : value_text (str "true") (JBool true)
| text_false : value_text (str "false") (JBool false)
| text_number t j : number_text t j -> value_text t j
| text_string t s : string_text t s -> value_text t (JStr s)
| text_no_items w : ws w -> value_text (x5b :: w ++ [x5d]) (JArr [])
| text_array t l : items_text t l -> value_text (x5b :: t ++ [x5d]) (JArr l)
| text_no_members w : ws w -> value_text (x7b :: w ++ [x7d]) (JObj [])
| text_object t l : members_text t l -> value_text (x7b :: t ++ [x7d]) (JObj l)
with items_text : bytes -> list json -> Prop :=
| items_one a t b j : ws a -> ws b -> value_text t j -> items_text (a ++ t ++ b) [j]
| items_more a t b j u l : ws a -> ws b -> value_text t j -> items_text u l -> items_text (a ++ t ++ b ++ x2c :: u) (j :: l)
with members_text : bytes -> list (bytes * json) -> Prop :=
| members_one a k b c t d s j : ws a -> ws b -> ws c -> ws d -> string_text k s -> value_text t j ->
    members_text (a ++ k ++ b ++ x3a :: c ++ t ++ d) [(s, j)]
| members_more a k b c t d s j u l : ws a -> ws b -> ws c -> ws d -> string_text k s -> value_text t j -> members_text u l ->
    members_text (a ++ k ++ b ++ x3a :: c ++ t ++ d ++ x2c :: u) ((s, j) :: l).

(** A whole text. *)
Definition document (b : bytes) (j : json) : Prop := exists u t v, ws u /\ ws v /\ value_text t j /\ b = u ++ t ++ v.

(** What a program can hold: strings of characters, integers of 64 bits, floating-point numbers written as such. *)
Inductive sound : json -> Prop :=
| sound_null : sound JNull
| sound_bool b : sound (JBool b)
| sound_int z : small_int z -> sound (JInt z)
| sound_float t : number_text t (JFloat t) -> sound (JFloat t)
| sound_str s : utf8 s -> sound (JStr s)
| sound_arr l : Forall sound l -> sound (JArr l)
| sound_obj l : Forall (fun kv => utf8 (fst kv) /\ sound (snd kv)) l -> sound (JObj l).

(** ** What a response can hold *)
Definition texts (l : list bytes) : Prop := Forall utf8 l.
Definition storable_info (i : node_info) : Prop :=
  texts [ni_pox_consensus i; ni_stable_pox i; ni_server_version i; ni_tip i; ni_tip_consensus i; ni_genesis i]
  /\ Forall (fun n => n < 2 ^ 64) [ni_peer_version i; ni_burn_height i; ni_stable_burn_height i; ni_tip_height i]
  /\ ni_network i < 2 ^ 32 /\ ni_parent_network i < 2 ^ 32.
Definition storable_address (a : address_info) : Prop :=
  texts [ad_balance a; ad_locked a; ad_balance_proof a; ad_nonce_proof a] /\ ad_unlock a < 2 ^ 64 /\ ad_nonce a < 2 ^ 64.
Definition storable_broadcast (r : broadcast_resp) : Prop :=
  match r with BcOk s => utf8 s | BcErr e => texts [be_error e; be_reason e; be_txid e] end.
Definition storable_read_only (r : read_only_resp) : Prop := match r with ROk _ s | RErr _ s => utf8 s end.

(** Texts kept by the program are what the reader makes of them, and there is such a reading. *)
Definition reads_back {A} (read : json -> option A) (text : bytes) (a : A) : Prop :=
  (exists j, document text j) /\ forall j, document text j -> read j = Some a.

(** ** Keys of an object *)

(** Byte order. *)
Inductive before : bytes -> bytes -> Prop :=
| before_end b t : before [] (b :: t)
| before_here x y s t : Byte.to_N x < Byte.to_N y -> before (x :: s) (y :: t)
| before_next x s t : before s t -> before (x :: s) (x :: t).
(** The value a key has in the end. *)
Definition last_value (l : list (bytes * json)) (k : bytes) (v : json) : Prop :=
  exists p r, l = p ++ (k, v) :: r /\ ~ In k (map fst r).
