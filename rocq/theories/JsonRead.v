(** Model of how a client makes a response out of the bytes of a body (rpc.rs:198, 207, 216, 219, 234, 237, 273).

    [into_json] of the crate [ureq] (2.9.6) is [serde_json::from_reader]: blanks, one value, blanks, end of input.
    [into_string] is at most 10 MiB, decoded with [String::from_utf8_lossy] (the feature [charset] is off: Cargo.toml:41-44).
    The crate fills the structs as it goes; here the reader makes a syntax tree, told by a [shape] what the struct being filled
    looks at, and Rpc.v fills the struct from the tree.  (A value of the wrong type stops the crate at once; here the rest is still read, but the result is the same error.) *)

From Coq Require Import Strings.String.
From Verif Require Import Base Utf8 F64 Rpc.
Local Open Scope string_scope.
Local Open Scope list_scope.
Local Open Scope N_scope.

(** ** Blanks *)
Definition is_space (c : byte) : bool := byte_eqb c x20 || byte_eqb c x09 || byte_eqb c x0a || byte_eqb c x0d.
(** [parse_whitespace]. *)
Fixpoint skip (b : bytes) : bytes :=
  match b with
  | [] => []
  | c :: r => if is_space c then skip r else b
  end.

(** ** Strings *)

(** [decode_hex_val], [decode_hex_escape]. *)
Definition hex_of (c : byte) : option N :=
  let n := b2n c in
  if (48 <=? n) && (n <=? 57) then Some (n - 48)
  else if (65 <=? n) && (n <=? 70) then Some (n - 55)
  else if (97 <=? n) && (n <=? 102) then Some (n - 87)
  else None.
Definition unit_of (a b c d : byte) : option N :=
  match hex_of a, hex_of b, hex_of c, hex_of d with
  | Some i, Some j, Some k, Some l => Some (((i * 16 + j) * 16 + k) * 16 + l)
  | _, _, _, _ => None
  end.

(** [char::encode_utf8]. *)
Definition put_char (n : N) : bytes :=
  if n <? 128 then [n2b n]
  else if n <? 2048 then [n2b (192 + n / 64); n2b (128 + n mod 64)]
  else if n <? 65536 then [n2b (224 + n / 4096); n2b (128 + n / 64 mod 64); n2b (128 + n mod 64)]
  else [n2b (240 + n / 262144); n2b (128 + n / 4096 mod 64); n2b (128 + n / 64 mod 64); n2b (128 + n mod 64)].

(** The letters of [parse_escape]. *)
Definition letter (e : byte) : option byte :=
  match e with
  | x22 => Some x22 | x5c => Some x5c | x2f => Some x2f | x62 => Some x08
  | x66 => Some x0c | x6e => Some x0a | x72 => Some x0d | x74 => Some x09
  | _ => None
  end.

Definition put (s : bytes) (o : option (bytes * bytes)) : option (bytes * bytes) :=
  match o with Some (t, r) => Some (s ++ t, r) | None => None end.

(** [parse_str_bytes], after the opening quote: the content and what follows the closing quote. *)
Fixpoint string_body (b : bytes) : option (bytes * bytes) :=
  match b with
  | [] => None
  | c :: r =>
    if byte_eqb c x22 then Some ([], r)
    else if byte_eqb c x5c then
      match r with
      | [] => None
      | e :: r1 =>
        if byte_eqb e x75 then
          match r1 with
          | h1 :: h2 :: h3 :: h4 :: r2 =>
            match unit_of h1 h2 h3 h4 with
            | None => None
            | Some n =>
              if (56320 <=? n) && (n <=? 57343) then None
              else if (55296 <=? n) && (n <=? 56319) then
                match r2 with
                | k1 :: k2 :: g1 :: g2 :: g3 :: g4 :: r3 =>
                  if byte_eqb k1 x5c && byte_eqb k2 x75 then
                    match unit_of g1 g2 g3 g4 with
                    | Some m =>
                      if (56320 <=? m) && (m <=? 57343)
                      then put (put_char (65536 + (n - 55296) * 1024 + (m - 56320))) (string_body r3)
                      else None
                    | None => None
                    end
                  else None
                | _ => None
                end
              else put (put_char n) (string_body r2)
            end
          | _ => None
          end
        else match letter e with Some x => put [x] (string_body r1) | None => None end
      end
    else if b2n c <? 32 then None
    else put [c] (string_body r)
  end.
(** [parse_str]: the content must be UTF-8. *)
Definition string (b : bytes) : option (bytes * bytes) :=
  match string_body b with
  | Some (s, r) => if utf8_valid s then Some (s, r) else None
  | None => None
  end.

(** [ignore_str], after the opening quote: what follows the closing one.  Escapes are read but not interpreted, and the bytes
    need not be UTF-8. *)
Fixpoint ignore_str (b : bytes) : option bytes :=
  match b with
  | [] => None
  | c :: r =>
    if byte_eqb c x22 then Some r
    else if byte_eqb c x5c then
      match r with
      | [] => None
      | e :: r1 =>
        if byte_eqb e x75 then
          match r1 with
          | h1 :: h2 :: h3 :: h4 :: r2 => match unit_of h1 h2 h3 h4 with Some _ => ignore_str r2 | None => None end
          | _ => None
          end
        else match letter e with Some _ => ignore_str r1 | None => None end
      end
    else if b2n c <? 32 then None
    else ignore_str r
  end.

(** ** What is looked at *)

(** [Any n]: a value of any type, in which arrays and objects may be nested [n] deep ([deserialize_any], [remaining_depth]);
    [Skipped]: a value nobody looks at ([deserialize_ignored_any], [ignore_value]); [Struct]: a struct of these fields in this
    order, as an object or as an array ([deserialize_struct]); [Seq]: a vector. *)
Inductive shape := Any (n : nat) | Skipped | Struct (fields : list (bytes * shape)) | Seq (elem : shape).

(** [check_recursion]. *)
Definition may_open (s : shape) : bool := match s with Any O => false | _ => true end.
(** The first item of an array, and the others. *)
Definition head_shape (s : shape) : shape :=
  match s with
  | Any n => Any (pred n)
  | Skipped => Skipped
  | Struct ((_, x) :: _) => x
  | Struct [] => Skipped
  | Seq x => x
  end.
Definition tail_shape (s : shape) : shape := match s with Struct (_ :: f) => Struct f | _ => s end.
(** The member of key [k]. *)
Fixpoint field_shape (k : bytes) (f : list (bytes * shape)) : shape :=
  match f with
  | [] => Skipped
  | (k', x) :: g => if bytes_eqb k' k then x else field_shape k g
  end.
Definition member_shape (s : shape) (k : bytes) : shape :=
  match s with
  | Any n => Any (pred n)
  | Struct f => field_shape k f
  | _ => Skipped
  end.
(** A string where [s] is looked at. *)
Definition string_at (s : shape) (b : bytes) : option (bytes * bytes) :=
  match s with
  | Skipped => match ignore_str b with Some r => Some ([], r) | None => None end
  | _ => string b
  end.

(** ** Numbers *)
(** [parse_integer], [parse_number]: integers that fit 64 bits are kept, anything else and -0 becomes a floating-point number. *)
Definition parse_number (b : bytes) : option (json * bytes) :=
  let '(m, b1) := match b with
                  | c :: r => if byte_eqb c x2d then ([x2d], r) else ([], b)
                  | [] => ([], [])
                  end in
  let '(i, b2) := digits b1 in
  match i with
  | [] => None
  | d :: ds =>
    if byte_eqb d x30 && negb (is_nil ds) then None
    else
      match fraction b2 with
      | None => None
      | Some (f, b3) =>
        match exponent b3 with
        | None => None
        | Some (e, b4) =>
          let v := dec_value i in
          if is_nil f && is_nil e && (if is_nil m then v <? 2 ^ 64 else (0 <? v) && (v <=? 2 ^ 63))
          then Some (JInt (if is_nil m then Z.of_N v else - Z.of_N v), b4)
          else Some (JFloat (m ++ i ++ f ++ e), b4)
        end
      end
  end.
(** A floating-point number where [s] is looked at must not be too large ([f64_from_parts]); [ignore_number] does not mind. *)
Definition in_range (s : shape) (t : bytes) : bool :=
  match s with
  | Skipped => true
  | _ => match float_of_text t with Some _ => true | None => false end
  end.
Definition number_at (s : shape) (b : bytes) : option (json * bytes) :=
  match parse_number b with
  | Some (JFloat t, r) => if in_range s t then Some (JFloat t, r) else None
  | o => o
  end.

(** ** Values *)

(** [parse_ident]. *)
Fixpoint ident (w b : bytes) : option bytes :=
  match w, b with
  | [], _ => Some b
  | x :: w', c :: r => if byte_eqb x c then ident w' r else None
  | _, _ => None
  end.
Definition named (w : bytes) (j : json) (b : bytes) : option (json * bytes) :=
  match ident w b with Some r => Some (j, r) | None => None end.

(** [deserialize_any] and the other entrances; items and members are read from where the blanks in front of them end.  The fuel
    is the depth of calls; [read_json] gives enough. *)
Fixpoint value (s : shape) (fuel : nat) (b : bytes) : option (json * bytes) :=
  match fuel with
  | O => None
  | S f =>
    match b with
    | [] => None
    | c :: r =>
      if byte_eqb c x6e then named (str "ull") JNull r
      else if byte_eqb c x74 then named (str "rue") (JBool true) r
      else if byte_eqb c x66 then named (str "alse") (JBool false) r
      else if byte_eqb c x22 then match string_at s r with Some (t, q) => Some (JStr t, q) | None => None end
      else if byte_eqb c x5b then
        if may_open s then
          match skip r with
          | [] => None
          | d :: q => if byte_eqb d x5d then Some (JArr [], q)
                      else match items s f (d :: q) with Some (l, p) => Some (JArr l, p) | None => None end
          end
        else None
      else if byte_eqb c x7b then
        if may_open s then
          match skip r with
          | [] => None
          | d :: q => if byte_eqb d x7d then Some (JObj [], q)
                      else match members s f (d :: q) with Some (l, p) => Some (JObj l, p) | None => None end
          end
        else None
      else number_at s b
    end
  end
with items (s : shape) (fuel : nat) (b : bytes) : option (list json * bytes) :=
  match fuel with
  | O => None
  | S f =>
    match value (head_shape s) f b with
    | None => None
    | Some (j, r) =>
      match skip r with
      | [] => None
      | c :: q =>
        if byte_eqb c x5d then Some ([j], q)
        else if byte_eqb c x2c then
          match items (tail_shape s) f (skip q) with Some (l, p) => Some (j :: l, p) | None => None end
        else None
      end
    end
  end
with members (s : shape) (fuel : nat) (b : bytes) : option (list (bytes * json) * bytes) :=
  match fuel with
  | O => None
  | S f =>
    match b with
    | [] => None
    | c :: r =>
      if negb (byte_eqb c x22) then None
      else
        match string_at s r with
        | None => None
        | Some (k, r1) =>
          match skip r1 with
          | [] => None
          | d :: r2 =>
            if negb (byte_eqb d x3a) then None
            else
              match value (member_shape s k) f (skip r2) with
              | None => None
              | Some (j, r3) =>
                match skip r3 with
                | [] => None
                | e :: q =>
                  if byte_eqb e x7d then Some ([(k, j)], q)
                  else if byte_eqb e x2c then
                    match members s f (skip q) with Some (l, p) => Some ((k, j) :: l, p) | None => None end
                  else None
                end
              end
          end
        end
    end
  end.

(** [from_reader]: [Deserializer::end] after the value. *)
Definition read_json (s : shape) (b : bytes) : option json :=
  match value s (2 * length b + 2)%nat (skip b) with
  | Some (j, r) => match skip r with [] => Some j | _ => None end
  | None => None
  end.

(** The structs of the responses (rpc.rs:33-175); [remaining_depth] is 128 to begin with and must stay above zero.  A
    [ReadOnlyResponse] is read whole before it is known which of its variants it is (untagged, rpc.rs:150). *)
Definition plain_fields (l : list String.string) : shape := Struct (map (fun k => (str k, Any 126)) l).
Definition info_shape : shape :=
  plain_fields ["peer_version"; "pox_consensus"; "burn_block_height"; "stable_pox_consensus"; "stable_burn_block_height";
    "server_version"; "network_id"; "parent_network_id"; "stacks_tip_height"; "stacks_tip"; "stacks_tip_consensus_hash";
    "genesis_chainstate_hash"].
Definition address_shape : shape :=
  plain_fields ["balance"; "locked"; "unlock_height"; "nonce"; "balance_proof"; "nonce_proof"].
Definition fee_shape : shape := Struct [(str "estimations", Seq (Struct [(str "fee", Any 124); (str "fee_rate", Any 124)]))].
Definition rejection_shape : shape := plain_fields ["error"; "reason"; "txid"].
Definition read_only_shape : shape := Any 127.

(** ** Text *)

(** How many bytes [from_utf8_lossy] replaces at once where no character starts: the longest beginning of one, at least one. *)
Definition broken (b : bytes) : nat :=
  match b with
  | b0 :: b1 :: r =>
    let a := b2n b0 in
    let second := (if a =? 224 then 160 else if a =? 240 then 144 else 128) <=? b2n b1 in
    let second := second && (b2n b1 <=? (if a =? 237 then 159 else if a =? 244 then 143 else 191)) in
    if (224 <=? a) && (a <=? 239) && second then 2%nat
    else if (240 <=? a) && (a <=? 244) && second then
      match r with b2 :: _ => if is_cont (b2n b2) then 3%nat else 2%nat | [] => 2%nat end
    else 1%nat
  | _ => 1%nat
  end.
Fixpoint lossy_fuel (fuel : nat) (b : bytes) : bytes :=
  match fuel with
  | O => []
  | S f =>
    match b with
    | [] => []
    | _ =>
      match utf8_next b with
      | Some (n, r) => put_char n ++ lossy_fuel f r
      | None => put_char 65533 ++ lossy_fuel f (skipn (broken b) b)
      end
    end
  end.
Definition lossy (b : bytes) : bytes := lossy_fuel (length b) b.
(** [Response::into_string], INTO_STRING_LIMIT. *)
Definition text_limit : N := 10 * 1024 * 1024.
Definition read_text_of (b : bytes) : option bytes := if text_limit <? lenN b then None else Some (lossy b).

(** The response with body [b], to be read as a struct of shape [s]. *)
Definition reply (s : shape) (b : bytes) : response := {| rs_text := read_text_of b; rs_json := read_json s b |}.

(** What the network did: a success or another status with a body, or no response. *)
Inductive raw := Body (b : bytes) | Status (code : N) (b : bytes) | Lost.
Definition outcome_of (s : shape) (r : raw) : outcome :=
  match r with Body b => OOk (reply s b) | Status c b => OStatus c (reply s b) | Lost => OTransport end.
