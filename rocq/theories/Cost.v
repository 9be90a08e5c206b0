(** What encoding and decoding cost: the codecs of Clarity.v again, with a count of the work done.

    [encode_w] counts the bytes written to the buffers that [encode] builds; [decode_w] counts the calls
    of [decode_clarity_type] and the bytes written by the encodings that the decoders make to find where
    an element ends.  Copying of texts and address arithmetic is not counted. *)

From Coq Require Import Strings.String.
From Verif Require Import Base Hash C32 Clarity Tx.
Local Open Scope N_scope.

Definition counted (A : Type) : Type := (N * res cl_err A)%type.
Definition free {A} (r : res cl_err A) : counted A := (0, r).
Definition tick (n : N) : counted unit := (n, Ok tt).
Definition seq {A B} (m : counted A) (k : A -> counted B) : counted B :=
  match snd m with
  | Ok a => (fst m + fst (k a), snd (k a))
  | Err e => (fst m, Err e)
  | Panic p => (fst m, Panic p)
  | NoFuel => (fst m, NoFuel)
  end.
Notation "'let!' x := m 'in' k" := (seq m (fun x => k)) (at level 200, x pattern, m at level 100, k at level 200).

(** A text with a length of four bytes, or the items of a list: [vec![Self::id()]] and [extend_from_slice]s. *)
Definition text_w (id : byte) (s : bytes) : counted bytes :=
  let! _ := tick 1 in
  let! n := free (enc_len32 (lenN s)) in
  let! _ := tick (4 + lenN s) in
  free (Ok (id :: n ++ s)).

(** impl.rs:851-862. *)
Definition lps_w (s : bytes) : counted bytes :=
  let! e := free (enc_lps s) in
  let! _ := tick (lenN e) in
  free (Ok e).

(** [Codec::encode]; impl.rs lines of each case are cited in place. *)
Fixpoint encode_w (v : cval) : counted bytes :=
  match v with
  | CInt z => let! _ := tick 17 in free (encode (CInt z))                       (* 39-43 *)
  | CUInt n => let! _ := tick 17 in free (encode (CUInt n))                     (* 92-96 *)
  | CBuffer b => text_w x02 b                                                   (* 145-150 *)
  | CTrue => let! _ := tick 1 in free (Ok [x03])                                (* 220-222 *)
  | CFalse => let! _ := tick 1 in free (Ok [x04])                               (* 257-259 *)
  | CPrinStd addr =>                                                            (* 294-299 *)
    let! r := free (dec_addr addr) in
    let! _ := tick (2 + lenN (fst r)) in
    free (Ok (x05 :: snd r :: fst r))
  | CPrinCon addr name =>                                                       (* 351-358 *)
    let! r := free (dec_addr addr) in
    let! _ := tick (2 + lenN (fst r)) in
    let! n := lps_w name in
    let! _ := tick (lenN n) in
    free (Ok (x06 :: snd r :: fst r ++ n))
  | CRespOk x => let! _ := tick 1 in let! e := encode_w x in let! _ := tick (lenN e) in free (Ok (x07 :: e))   (* 405-409 *)
  | CRespErr x => let! _ := tick 1 in let! e := encode_w x in let! _ := tick (lenN e) in free (Ok (x08 :: e))  (* 443-447 *)
  | CNone => let! _ := tick 1 in free (Ok [x09])                                (* 519-521 *)
  | CSome x => let! _ := tick 1 in let! e := encode_w x in let! _ := tick (lenN e) in free (Ok (x0a :: e))     (* 481-485 *)
  | CList l =>                                                                  (* 556-565 *)
    let! _ := tick 1 in
    let! n := free (enc_len32 (lenN l)) in
    let! _ := tick 4 in
    let! e := (fix enc_all (l : list cval) : counted bytes :=
                 match l with
                 | [] => free (Ok [])
                 | x :: r => let! e := encode_w x in let! _ := tick (lenN e) in let! t := enc_all r in free (Ok (e ++ t))
                 end) l in
    free (Ok (x0b :: n ++ e))
  | CTuple l =>                                                                 (* 688-698 *)
    let! _ := tick 1 in
    let! n := free (enc_len32 (lenN l)) in
    let! _ := tick 4 in
    let! e := (fix enc_all (l : list (bytes * cval)) : counted bytes :=
                 match l with
                 | [] => free (Ok [])
                 | (k, x) :: r =>
                   let! ke := lps_w k in
                   let! _ := tick (lenN ke) in
                   let! e := encode_w x in
                   let! _ := tick (lenN e) in
                   let! t := enc_all r in free (Ok (ke ++ e ++ t))
                 end) l in
    free (Ok (x0c :: n ++ e))
  | CAscii s =>                                                                 (* 768-779 *)
    if is_ascii s then text_w x0d s
    else let! _ := tick 1 in free (Err (ClBadStringType (str "Ascii"%string)))
  | CUtf8 s => text_w x0e s                                                     (* 814-820 *)
  | CLps s => lps_w s                                                           (* 851-862 *)
  | CFnArgs l =>                                                                (* 905-914 *)
    let! n := free (enc_len32 (lenN l)) in
    let! _ := tick 4 in
    let! e := (fix enc_all (l : list cval) : counted bytes :=
                 match l with
                 | [] => free (Ok [])
                 | x :: r => let! e := encode_w x in let! _ := tick (lenN e) in let! t := enc_all r in free (Ok (e ++ t))
                 end) l in
    free (Ok (n ++ e))
  end.

Section Recursive.
  Variable dec : bytes -> counted cval.

  (** impl.rs:412-421, 450-459, 487-497. *)
  Definition wrap_w (t : cty) (mk : cval -> cval) (bs : bytes) : counted cval :=
    let! _ := free (check_id t bs) in
    let! r := free (drop_slice 1 bs) in
    let! v := dec r in
    free (Ok (mk v)).

  (** impl.rs:580-584 and 925-930. *)
  Fixpoint items_w (fuel : nat) (n : N) (bs : bytes) : counted (list cval) :=
    if n =? 0 then free (Ok [])
    else match fuel with
         | O => free NoFuel
         | S f =>
           let! v := dec bs in
           let! e := encode_w v in
           let! r := free (drop_slice (length e) bs) in
           let! vs := items_w f (n - 1) r in
           free (Ok (v :: vs))
         end.

  (** impl.rs:713-720. *)
  Fixpoint entries_w (fuel : nat) (n : N) (bs : bytes) : counted (list (bytes * cval)) :=
    if n =? 0 then free (Ok [])
    else match fuel with
         | O => free NoFuel
         | S f =>
           let! kl := free (index 0 bs) in
           let! r := free (drop_slice 1 bs) in
           let! k := free (take_slice (b2n kl) r) in
           let! k := free (from_utf8 k) in
           let! r1 := free (drop_slice (length k) r) in
           let! v := dec r1 in
           let! e := encode_w v in
           let! r2 := free (drop_slice (length e) r1) in
           let! vs := entries_w f (n - 1) r2 in
           free (Ok ((k, v) :: vs))
         end.

  (** impl.rs:567-587. *)
  Definition list_w (bs : bytes) : counted cval :=
    let! _ := free (check_id TList bs) in
    let! n := free (read_len32 bs) in
    let! r := free (drop_slice 5 bs) in
    let! vs := items_w (S (length r)) n r in
    free (Ok (CList vs)).

  (** impl.rs:700-723. *)
  Definition tuple_w (bs : bytes) : counted cval :=
    let! _ := free (check_id TTuple bs) in
    let! n := free (read_len32 bs) in
    let! r := free (drop_slice 5 bs) in
    let! vs := entries_w (S (length r)) n r in
    free (Ok (CTuple vs)).
End Recursive.

(** mod.rs:174-195 [decode_clarity_type], with [depth] nested calls available. *)
Fixpoint decode_w (depth : nat) (bs : bytes) : counted cval :=
  match depth with
  | O => free NoFuel
  | S f =>
    let! _ := tick 1 in
    let! tag := free (index 0 bs) in
    match tag with
    | x00 => free (dec_int bs)
    | x01 => free (dec_uint bs)
    | x02 => free (dec_buffer bs)
    | x03 => free (dec_true bs)
    | x04 => free (dec_false bs)
    | x05 => free (dec_prin_std bs)
    | x06 => free (dec_prin_con bs)
    | x07 => wrap_w (decode_w f) TRespOk CRespOk bs
    | x08 => wrap_w (decode_w f) TRespErr CRespErr bs
    | x09 => free (dec_none bs)
    | x0a => wrap_w (decode_w f) TSome CSome bs
    | x0b => list_w (decode_w f) bs
    | x0c => tuple_w (decode_w f) bs
    | x0d => free (dec_ascii bs)
    | x0e => free (dec_utf8 bs)
    | _ => free (Err (ClUnexpectedType tag))
    end
  end.

Definition encode_work (v : cval) : N := fst (encode_w v).
Definition decode_work (bs : bytes) : N := fst (decode_w (S (length bs)) bs).

(** impl.rs:920-923: the number of elements for which [FnArguments::decode] reserves memory before it reads any,
    [Vec::with_capacity(num)]. *)
Definition fnargs_reserved (bs : bytes) : res cl_err N :=
  let* l := sub_slice 0 4 bs in Ok (be_val l).

(** payload.rs:174-206 up to the call of [FnArguments::decode]: what is reserved for the arguments of a contract call. *)
Definition call_reserved (bs : bytes) : res cl_err N :=
  let* b0 := index 0 bs in
  if negb (byte_eqb b0 x02) then Err (ClUnexpectedType b0)
  else
    let* _ := index 1 bs in
    let* h := sub_slice 2 20 bs in
    let* _ := hash160_new h in
    let* r := drop_slice 22 bs in
    let* cv := dec_lps r in
    let* ce := encode cv in
    let* r1 := drop_slice (length ce) r in
    let* nv := dec_lps r1 in
    let* ne := encode nv in
    let* r2 := drop_slice (length ne) r1 in
    fnargs_reserved r2.
