(** Property theorems C80: what encoding and decoding cost. *)

From Coq Require Import Strings.String.
From Coq Require Import Lia ZifyBool ZifyNat ZifyN.
From Verif Require Import Base BaseFacts Hash C32 Clarity SpecText SpecAddr SpecWire WireFacts ClarityFacts ClarityShort ClarityTotal Tx Cost CostThms.
Local Open Scope N_scope.

(** The counts belong to the codecs of the other claims: same results. *)
Theorem C80_same : (forall v, snd (encode_w v) = encode v) /\ (forall f bs, snd (decode_w f bs) = decode_fuel f bs)
  /\ forall bs, snd (decode_w (S (length bs)) bs) = decode_clarity_type bs.
Proof. split; [exact encode_same|]. split; [exact decode_same|]. intros bs. unfold decode_clarity_type. apply decode_same. Qed.
Print Assumptions C80_same.

(** Encoding writes at most the square of the length of the result. *)
Theorem C80_encode : forall v e, encode v = Ok e -> encode_work v <= count e * count e.
Proof. intros v e E. apply encode_iff in E. destruct E as (w & M & _ & ->). exact (encode_bound v w M). Qed.
Print Assumptions C80_encode.

(** Decoding, whatever the outcome, works at most the cube of the length of the input. *)
Theorem C80_decode : forall bs, decode_work bs <= (count bs + 1) * (count bs + 1) * (count bs + 1).
Proof. exact decode_bound. Qed.
Print Assumptions C80_decode.

(** Finding: no better than that.  For every factor there is a value whose decoding works more than the factor times the square
    of its length, and whose encoding works more than the factor times its length. *)
Theorem C80_linear_refuted : forall c, exists v bs, encode v = Ok bs /\ decode_clarity_type bs = Ok v
  /\ c * count bs < encode_work v /\ c * count bs * count bs < decode_work bs.
Proof.
  intros c. set (k := N.to_nat (50 * c + 1)). exists (nested k), (nested_bytes k).
  destruct (nested_encode k) as [E W]. destruct (nested_decode k (S (length (nested_bytes k)))) as [D X].
  { pose proof (nested_length k) as L. unfold lenN in L. lia. }
  rewrite encode_same in E. rewrite decode_same in D. split; [exact E|]. split; [exact D|].
  change (count (nested_bytes k)) with (lenN (nested_bytes k)). rewrite nested_length. unfold encode_work, decode_work.
  assert (K : N.of_nat k = 50 * c + 1) by (unfold k; lia). rewrite K in *.
  remember (fst (encode_w (nested k))) as a. remember (fst (decode_w (S (length (nested_bytes k))) (nested_bytes k))) as b.
  clear - W X. split; nia.
Qed.
Print Assumptions C80_linear_refuted.

(** Nested calls: as many as bytes suffice for any input.  Finding: they may all be needed, so that whatever the size of the
    stack there is a well-formed input, one byte longer than the number of calls that fit, which exhausts it. *)
Theorem C80_depth : (forall depth bs, count bs < N.of_nat depth -> decode_fuel depth bs = decode_clarity_type bs)
  /\ forall depth, exists bs v, count bs = N.of_nat depth + 1 /\ decode_clarity_type bs = Ok v /\ decode_fuel depth bs = NoFuel.
Proof.
  split.
  - intros depth bs L. apply decode_fuel_enough. unfold count in L. lia.
  - intros depth. exists (repeat x0a depth ++ [x09]), (Nat.iter depth CSome CNone). split; [unfold count; rewrite app_length, repeat_length; cbn; lia|].
    split; [|induction depth as [|d IH]; [reflexivity|]; cbn [repeat app decode_fuel]; cbn [index nth_error bind];
             unfold dec_wrap; rewrite (check_id_ok TSome); cbn [bind]; rewrite drop1; cbn [bind]; rewrite IH; reflexivity].
    apply decode_iff. exists (Nat.iter depth WSome WNone), []. induction depth as [|d (E & D & M)]; [split; [reflexivity|split; exact I]|].
    cbn [repeat app Nat.iter nat_rect wser decodable denotes]. split; [f_equal; exact E|]. split; [exact D | exact M].
Qed.
Print Assumptions C80_depth.

(** Memory for the arguments of a call is reserved by the number declared, before any is read.  It is the right number if decoding
    succeeds.  Finding: otherwise it is up to the sender; four bytes, or a payload of 28, reserve for any number below 2^32. *)
Theorem C80_reserved :
  (forall bs l, dec_fnargs decode_clarity_type bs = Ok (CFnArgs l) -> fnargs_reserved bs = Ok (count l) /\ count l <= count bs)
  /\ forall n, n < 2 ^ 32 -> exists bs payload, count bs = 4 /\ fnargs_reserved bs = Ok n /\ count payload = 28 /\ call_reserved payload = Ok n.
Proof.
  split.
  - intros bs l H. unfold dec_fnargs in H. unfold fnargs_reserved. destruct (sub_slice 0 4 bs) as [x| | |] eqn:X; try discriminate H. cbn [bind] in *.
    destruct (drop_slice 4 bs) as [r| | |] eqn:R; try discriminate H. cbn [bind] in *.
    destruct (dec_items decode_clarity_type (S (length r)) (be_val x) r) as [vs| | |] eqn:V; try discriminate H. cbn [bind] in H. injection H as <-.
    destruct (dec_items_sound _ (fun b c Hd => proj1 (decode_iff b c) Hd) _ _ _ _ V) as (ws & t & -> & C & Ms & Ds).
    assert (L : count vs = count ws) by (unfold count; f_equal; eapply Forall2_length; exact Ms). rewrite L, C. split; [reflexivity|].
    rewrite <- C. destruct (drop_len _ _ _ R) as [E1 E2]. rewrite app_length in E1.
    enough (length ws <= length (flat_map wser ws))%nat by (unfold count; lia).
    clear - Ds. induction Ds as [|w ws [D _] _ IH]; [auto|]. cbn [flat_map length]. rewrite app_length. pose proof (decodable_nonempty _ D). lia.
  - intros n N. exists (big_endian 4 n), ([x02; x16] ++ repeat x00 20 ++ [x00; x00] ++ big_endian 4 n).
    assert (Q : fnargs_reserved (big_endian 4 n) = Ok n).
    { unfold fnargs_reserved, sub_slice. rewrite big_endian_length. cbn [Nat.leb Nat.add].
      rewrite <- (app_nil_r (big_endian 4 n)). change (firstn 4 (skipn 0 (big_endian 4 n ++ []))) with (firstn 4 (big_endian 4 n ++ [])).
      rewrite <- (big_endian_length 4 n) at 1. rewrite firstn_app, Nat.sub_diag, firstn_all, app_nil_r. cbn [bind].
      f_equal. rewrite big_endian_be. apply be_val_be_bytes_small. exact N. }
    split; [unfold count; rewrite big_endian_length; reflexivity|]. split; [exact Q|].
    split; [unfold count; rewrite !app_length, big_endian_length; reflexivity|].
    assert (L : length (big_endian 4 n) = 4%nat) by apply big_endian_length. revert L Q. generalize (big_endian 4 n). intros b L Q.
    destruct b as [|b1 [|b2 [|b3 [|b4 [|]]]]]; try discriminate L. rewrite <- Q. reflexivity.
Qed.
Print Assumptions C80_reserved.

Example C80_ex : encode (nested 3) = Ok (nested_bytes 3) /\ count (nested_bytes 3) = 16 /\ encode_work (nested 3) = 34 /\ decode_work (nested_bytes 3) = 30
  /\ decode_fuel 3 (nested_bytes 3) = NoFuel /\ decode_fuel 4 (nested_bytes 3) = Ok (nested 3)
  /\ dec_fnargs decode_clarity_type [x00; x00; x00; x02; x03; x09] = Ok (CFnArgs [CTrue; CNone])
  /\ fnargs_reserved [xff; xff; xff; xff] = Ok 4294967295.
Proof. repeat split; vm_compute; reflexivity. Qed.
