(* C42: the width a printed integer announces is the number of its characters. *)
From Verif Require Import Base GroupSpec GroupProofs DigitsSpec IntSpec IntModel IntProofs CharsetModel.
Local Open Scope Z_scope.

(* the characters of the text: one code point for each fill character and separator *)
Definition in_chars (r : int_request) (fc : Z) (sc : list Z) : int_request :=
  mk_request (rq_signed r) (rq_bits r) (rq_value r) (rq_base r) (rq_precision r) (rq_pad0 r) (rq_sign r) (rq_showbase r) (rq_case r)
    sc (rq_boundary r) [fc] (rq_width r) (rq_align r).

Lemma digit_ascii low base d : base <= 16 -> 0 <= d < base -> 0 <= digit_char low d < 128.
Proof. intros HB Hd. unfold digit_char. destruct low; repeat match goal with |- context [if ?b then _ else _] => destruct b eqn:? end; lia. Qed.
Lemma digits_ascii r : 2 <= rq_base r <= 16 -> 0 <= magnitude r -> Forall (fun d => 0 <= d < 128) (map (digit_char (low_digits (rq_case r))) (mag_digits r)).
Proof.
  intros HB HM. destruct (repr_digits (rq_base r) (magnitude r) ltac:(lia) HM) as (H & _). fold (mag_digits r) in H. induction H as [|d l Hd HF IH]; constructor; [|exact IH].
  apply digit_ascii with (rq_base r); lia.
Qed.

Section Chars.
  Variable enc : Z -> list Z.
  Hypothesis Hasc : forall c, 0 <= c < 128 -> enc c = [c].

  Lemma enc_repeat k c : flat_map enc (repeat c k) = concat (repeat (enc c) k).
  Proof. induction k as [|k IH]; [reflexivity|]. cbn [repeat flat_map concat]. rewrite IH. reflexivity. Qed.
  Lemma concat_one (c : Z) k : concat (repeat [c] k) = repeat c k.
  Proof. induction k as [|k IH]; [reflexivity|]. cbn [repeat concat app]. rewrite IH. reflexivity. Qed.
  Lemma enc_fill c n : flat_map enc (fill_text [c] n) = fill_text (enc c) n.
  Proof. unfold fill_text. rewrite concat_one. apply enc_repeat. Qed.
  Lemma enc_zeros k : flat_map enc (repeat 48 k) = repeat 48 k.
  Proof. rewrite enc_repeat, Hasc by lia. apply concat_one. Qed.
  Lemma enc_grouped B sc ds : Forall (fun d => 0 <= d < 128) ds -> flat_map enc (grouped B sc ds) = grouped B (flat_map enc sc) ds.
  Proof.
    induction 1 as [|d ds Hd HF IH]; [reflexivity|]. cbn [grouped flat_map]. rewrite (Hasc d Hd). cbn [app]. f_equal.
    rewrite flat_map_app, IH. f_equal. destruct (_ && _); reflexivity.
  Qed.
  Lemma text_chars r fc sc : 2 <= rq_base r <= 16 -> 0 <= magnitude r -> rq_fill r = enc fc -> rq_sep r = flat_map enc sc ->
    int_text r = flat_map enc (int_text (in_chars r fc sc)).
  Proof.
    intros HB HM HF HS. unfold int_text, padded. rewrite !flat_map_app. change (rq_fill (in_chars r fc sc)) with [fc]. rewrite !enc_fill, <- HF.
    assert (EW : int_missing (in_chars r fc sc) = int_missing r).
    { unfold int_missing, int_content_width. assert (int_prefix_width (in_chars r fc sc) = int_prefix_width r) as EP.
      { unfold int_prefix_width. cbn [in_chars rq_base rq_value rq_signed rq_sign]. destruct (rq_base r =? 10) eqn:E; [reflexivity|]. unfold int_prefix. cbn [in_chars rq_base]. rewrite E. reflexivity. }
      unfold int_zeros. rewrite EP. reflexivity. }
    rewrite EW. cbn [in_chars rq_align]. f_equal. f_equal.
    unfold int_content. rewrite !flat_map_app. f_equal; [|f_equal].
    - unfold int_prefix. cbn [in_chars rq_base rq_value rq_signed rq_sign rq_fill rq_showbase rq_case]. unfold magnitude. cbn [in_chars rq_base rq_value rq_bits].
      rewrite HF. destruct (rq_base r =? 10).
      + destruct (rq_value r <? 0); [cbn; rewrite Hasc by lia; reflexivity|]. destruct (rq_signed r); [|reflexivity].
        destruct (rq_sign r); cbn; [reflexivity|rewrite Hasc by lia; reflexivity|rewrite app_nil_r; reflexivity].
      + destruct (rq_showbase r); [|reflexivity]. cbn [negb]. destruct (rq_base r =? 8); [destruct (_ =? 0); [reflexivity|cbn; rewrite Hasc by lia; reflexivity]|].
        destruct (rq_base r =? 16), (low_prefix (rq_case r)); cbn; rewrite !Hasc by lia; reflexivity.
    - rewrite enc_zeros. f_equal. f_equal. unfold int_zeros. assert (int_prefix_width (in_chars r fc sc) = int_prefix_width r) as ->; [|reflexivity].
      unfold int_prefix_width. cbn [in_chars rq_base rq_value rq_signed rq_sign]. destruct (rq_base r =? 10) eqn:E; [reflexivity|]. unfold int_prefix. cbn [in_chars rq_base]. rewrite E. reflexivity.
    - change (mag_digits (in_chars r fc sc)) with (mag_digits r). cbn [in_chars rq_boundary rq_sep rq_case]. rewrite enc_grouped by (apply digits_ascii; assumption). rewrite HS. reflexivity.
  Qed.
End Chars.

Lemma chars_len r fc sc : 2 <= rq_base r <= 16 -> zlen (int_text (in_chars r fc sc)) = int_text_width r - n_seps r * (1 - zlen sc).
Proof.
  intros HB. unfold int_text. rewrite padded_len by (unfold int_missing; lia). cbn [in_chars rq_fill]. change (zlen [fc]) with 1.
  assert (EP : int_prefix_width (in_chars r fc sc) = int_prefix_width r).
  { unfold int_prefix_width. cbn [in_chars rq_base rq_value rq_signed rq_sign]. destruct (rq_base r =? 10) eqn:E; [reflexivity|]. unfold int_prefix. cbn [in_chars rq_base]. rewrite E. reflexivity. }
  assert (EL : zlen (int_prefix (in_chars r fc sc)) = int_prefix_width r).
  { rewrite <- EP. unfold int_prefix_width. destruct (rq_base (in_chars r fc sc) =? 10) eqn:E; [|reflexivity]. unfold int_prefix. rewrite E. cbn [in_chars rq_value rq_signed rq_sign rq_fill].
    destruct (rq_value r <? 0); [reflexivity|]. destruct (rq_signed r); [|reflexivity]. destruct (rq_sign r); reflexivity. }
  assert (EZ : int_zeros (in_chars r fc sc) = int_zeros r) by (unfold int_zeros; rewrite EP; reflexivity).
  assert (EM : int_missing (in_chars r fc sc) = int_missing r) by (unfold int_missing, int_content_width; rewrite EP, EZ; reflexivity).
  assert (HZ : 0 <= int_zeros r) by (unfold int_zeros; lia).
  assert (ER : zlen (repeat 48 (Z.to_nat (int_zeros r))) = int_zeros r) by (unfold zlen; rewrite repeat_length; lia).
  assert (ED : zlen (map (digit_char (low_digits (rq_case r))) (mag_digits r)) = n_digits r) by (unfold n_digits, zlen; rewrite map_length; reflexivity).
  rewrite EM. unfold int_content. rewrite !zlen_app, EL, EZ, ER, grouped_len.
  change (mag_digits (in_chars r fc sc)) with (mag_digits r). cbn [in_chars rq_boundary rq_sep rq_case]. rewrite ED, map_length. fold (n_seps r).
  unfold int_text_width, int_content_width. lia.
Qed.
