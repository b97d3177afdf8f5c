(* Every printed number is made of ASCII characters, encoded fill characters, points and separators: what
   holds of these and of concatenations holds of the text. *)
From Verif Require Import Base WidthModel WidthProofs GroupSpec GroupProofs DigitsSpec IntSpec IntChars DestModel DestProofs GroupModel IntModel IntProofs CharsetModel
  FloatSpec FloatChars FloatModel FloatArith FloatText FloatNum FloatInit FloatInit2 FloatHex FloatProofs.
Local Open Scope Z_scope.

Section Closed.
  Variable P : list Z -> Prop.
  Hypothesis Pnil : P [].
  Hypothesis Papp : forall a b, P a -> P b -> P (a ++ b).
  Hypothesis Pasc : forall c, 0 <= c < 128 -> P [c].

  Lemma closed_ascii l : ascii l -> P l.
  Proof. induction 1 as [|c l Hc HF IH]; [exact Pnil|]. change (c :: l) with ([c] ++ l). apply Papp; auto. Qed.
  Lemma closed_fill c n : P c -> P (fill_text c n).
  Proof. intros H. unfold fill_text. induction (Z.to_nat n) as [|k IH]; [exact Pnil|]. cbn [repeat concat]. apply Papp; assumption. Qed.
  Lemma closed_padded al fill k t : P fill -> P t -> P (padded al fill k t).
  Proof. intros HF HT. unfold padded. apply Papp; [|apply Papp]; auto using closed_fill. Qed.
  Lemma ascii_zeros k : ascii (repeat 48 k).
  Proof. induction k; constructor; [lia|assumption]. Qed.
  Lemma closed_grouped B sep ds : ascii ds -> P sep -> P (grouped B sep ds).
  Proof.
    intros H HS. induction H as [|d ds Hd HF IH]; [exact Pnil|]. cbn [grouped]. change (P ([d] ++ (if (0 <? zlen ds) && B (zlen ds) then sep else []) ++ grouped B sep ds)).
    apply Papp; [auto|]. apply Papp; [|exact IH]. destruct (_ && _); assumption.
  Qed.
  (* where there are no separators, they may be anything *)
  Lemma closed_grouped_none B sep ds : ascii ds -> boundaries_below B (length ds) = 0 -> P (grouped B sep ds).
  Proof. intros H HB. rewrite grouped_none_below by exact HB. apply closed_ascii, H. Qed.

  Lemma closed_int r : 2 <= rq_base r <= 16 -> 0 <= magnitude r -> P (rq_fill r) -> P (rq_sep r) \/ IntSpec.n_seps r = 0 -> P (int_text r).
  Proof.
    intros HB HM HF HS. unfold int_text. apply closed_padded; [exact HF|]. unfold int_content. apply Papp; [|apply Papp].
    - unfold int_prefix. destruct (_ =? 10).
      + destruct (_ <? 0); [apply Pasc; lia|]. destruct (rq_signed r); [|exact Pnil]. destruct (rq_sign r); [exact Pnil|apply Pasc; lia|exact HF].
      + destruct (negb _); [exact Pnil|]. destruct (_ =? 8); [destruct (_ =? 0); [exact Pnil|apply Pasc; lia]|].
        destruct (_ =? 16), (low_prefix _); apply closed_ascii; repeat constructor; lia.
    - apply closed_ascii, ascii_zeros.
    - destruct HS as [HS|HS]; [apply closed_grouped; [apply digits_ascii; assumption|exact HS]|].
      apply closed_grouped_none; [apply digits_ascii; assumption|]. rewrite map_length. exact HS.
  Qed.

  Lemma closed_fixed B sep pt sp N p : 0 <= N -> P sep \/ boundaries_below B (length (digits 10 (N / 10 ^ p))) = 0 -> P pt -> P (fixed_text B sep pt sp N p).
  Proof.
    intros HN HS HP. unfold fixed_text, decimal. apply Papp; [|apply Papp].
    - assert (ascii (map (digit_char false) (digits 10 (N / 10 ^ p)))) as HA by (apply ascii_digits; [lia|apply div_nonneg; [exact HN|apply Z.pow_nonneg; lia]]).
      destruct HS as [HS|HS]; [apply closed_grouped|apply closed_grouped_none; [|rewrite map_length]]; assumption.
    - destruct (_ || _); assumption.
    - apply closed_ascii, ascii_last. lia.
  Qed.
  Lemma closed_sci lc pt sp N p E : 0 <= N -> P pt -> P (sci_text lc pt sp N p E).
  Proof.
    intros HN HP. unfold sci_text, decimal. apply Papp; [|apply Papp; [|apply Papp]].
    - apply closed_ascii, ascii_digits; [lia|apply div_nonneg; [exact HN|apply Z.pow_nonneg; lia]].
    - destruct (_ || _); assumption.
    - apply closed_ascii, ascii_last. lia.
    - apply closed_ascii, (ascii_exponent (fun c => [c])); reflexivity.
  Qed.
  Lemma closed_num B sep pt lc n : num_wf n -> P sep \/ boundaries_below B (int_len n) = 0 -> P pt -> P (num_text B sep pt lc n).
  Proof.
    intros W HS HP. destruct W as [W1 W2 W3 W4 W5]. unfold num_text. destruct (n_form n); try exact Pnil.
    - apply closed_fixed; [|exact HS|exact HP]. unfold fixed_scaled. destruct (0 <=? n_e n); apply Z.mul_nonneg_nonneg; try lia; apply Z.pow_nonneg; lia.
    - apply closed_sci; [|exact HP]. apply Z.mul_nonneg_nonneg; [lia|apply Z.pow_nonneg; lia].
  Qed.
  (* "nan", "inf" and hexadecimal requests *)
  Lemma closed_other r : match fr_value r with FDec _ _ => False | FBin lead mantissa _ => 0 <= lead /\ 0 <= mantissa | _ => True end ->
    P (fr_fill r) -> P (st_point (fr_style r)) -> P (float_text r).
  Proof.
    intros HV HF HP. unfold float_text. apply closed_padded; [exact HF|]. unfold float_content. apply Papp; [|apply Papp; [|apply Papp]].
    - unfold float_sign. destruct (fr_negative r); [apply Pasc; lia|]. destruct (fr_sign r); [exact Pnil|apply Pasc; lia|exact HF].
    - apply closed_ascii. unfold float_prefix. destruct (fr_value r); repeat constructor; try lia; destruct (low_prefix _); lia.
    - apply closed_ascii, ascii_zeros.
    - destruct (fr_value r) as [| |m e|lead mantissa E]; cbn [float_body]; [| |contradiction|].
      + apply closed_ascii. unfold nan_text. destruct (st_case _); repeat constructor; lia.
      + apply closed_ascii. unfold inf_text. destruct (st_case _); repeat constructor; lia.
      + destruct HV as [Hl Hm]. unfold hex_body. pose proof (hex_nonneg lead mantissa (st_precision (fr_style r)) Hl Hm) as HN.
        destruct (hex_rounded lead mantissa (st_precision (fr_style r))) as [N p]. cbn [fst] in HN. unfold hex_digits, decimal. apply Papp; [|apply Papp; [|apply Papp]].
        * apply closed_ascii, ascii_digits; [lia|apply div_nonneg; [exact HN|apply Z.pow_nonneg; lia]].
        * destruct (_ || _); assumption.
        * apply closed_ascii, ascii_last. lia.
        * apply closed_ascii. constructor; [destruct (low_prefix _); lia|]. constructor; [destruct (E <? 0); lia|]. apply ascii_digits; lia.
  Qed.
End Closed.
