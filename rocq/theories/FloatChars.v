(* C55: the width announced for a floating-point value is the number of its characters. *)
From Verif Require Import Base GroupSpec GroupProofs DigitsSpec IntSpec IntModel IntProofs FloatSpec IntChars.
Local Open Scope Z_scope.

Definition ascii (l : list Z) : Prop := Forall (fun c => 0 <= c < 128) l.
Lemma ascii_digits low base v : 2 <= base <= 16 -> 0 <= v -> ascii (map (digit_char low) (digits base v)).
Proof.
  intros HB Hv. destruct (repr_digits base v ltac:(lia) Hv) as (H & _). unfold ascii. induction H as [|d l Hd HF IH]; constructor; [|exact IH].
  apply digit_ascii with base; lia.
Qed.
Lemma ascii_last low base k : 2 <= base <= 16 -> forall v, ascii (map (digit_char low) (last_digits base k v)).
Proof.
  intros HB. unfold ascii. induction k as [|k IH]; intros v; [constructor|]. cbn [last_digits]. rewrite map_app. apply Forall_app. split; [apply IH|].
  constructor; [|constructor]. apply digit_ascii with base; [lia|]. apply Z.mod_pos_bound. lia.
Qed.
Lemma div_nonneg a b : 0 <= a -> 0 <= b -> 0 <= a / b.
Proof. intros Ha Hb. destruct (Z.eq_dec b 0) as [->|]; [rewrite Zdiv_0_r; lia|]. apply Z.div_pos; lia. Qed.
Lemma nearest_nonneg n d : 0 <= n -> 0 <= d -> 0 <= nearest n d.
Proof. intros Hn Hd. unfold nearest. pose proof (div_nonneg n d Hn Hd). destruct (_ || _); lia. Qed.
Lemma rounded_nonneg m e p : 0 <= m -> 0 <= rounded m e p.
Proof.
  intros Hm. unfold rounded. destruct (Z.leb_spec 0 (e + p)); [apply Z.mul_nonneg_nonneg; [exact Hm|apply Z.pow_nonneg; lia]|].
  apply nearest_nonneg; [exact Hm|apply Z.pow_nonneg; lia].
Qed.
Lemma sci_nonneg m e p : 0 <= m -> 0 <= fst (sci_rounded m e p).
Proof. intros Hm. unfold sci_rounded. destruct (sci_carries m p); cbn [fst]; [apply Z.pow_nonneg; lia|apply rounded_nonneg, Hm]. Qed.
Lemma stripped_nonneg p : forall N, 0 <= N -> 0 <= fst (stripped p N).
Proof. induction p as [|p IH]; intros N HN; [exact HN|]. cbn [stripped]. destruct (N mod 10 =? 0); [apply IH, Z.div_pos; lia|exact HN]. Qed.
Lemma hex_nonneg lead mantissa prec : 0 <= lead -> 0 <= mantissa -> 0 <= fst (hex_rounded lead mantissa prec).
Proof.
  intros Hl Hm. unfold hex_rounded. assert (HV : 0 <= lead * 2 ^ 52 + mantissa) by lia. destruct prec as [p|]; cbn [fst].
  - destruct (p <? 13); cbn [fst]; [apply nearest_nonneg; [exact HV|apply Z.pow_nonneg; lia]|apply Z.mul_nonneg_nonneg; [exact HV|apply Z.pow_nonneg; lia]].
  - apply div_nonneg; [exact HV|apply Z.pow_nonneg; lia].
Qed.

(* the same style with a point and separators of one element each *)
Definition chars_style (s : float_style) (pc sc : Z) : float_style :=
  mk_style (st_notation s) (st_precision s) (st_showpoint s) (st_case s) [pc] [sc] (st_boundary s).
Definition nonneg_value (v : float_value) : Prop :=
  match v with FDec m _ => 0 <= m | FBin lead mantissa _ => 0 <= lead /\ 0 <= mantissa | _ => True end.

Section Chars.
  Variable enc : Z -> list Z.
  Hypothesis Hasc : forall c, 0 <= c < 128 -> enc c = [c].
  Lemma enc_ascii l : ascii l -> flat_map enc l = l.
  Proof. induction 1 as [|c l Hc HF IH]; [reflexivity|]. cbn [flat_map]. rewrite (Hasc c Hc), IH. reflexivity. Qed.
  Lemma enc_one c : flat_map enc [c] = enc c.
  Proof. cbn [flat_map]. apply app_nil_r. Qed.
  Lemma ascii_exponent lc E : ascii (exponent_text lc E).
  Proof.
    unfold exponent_text. constructor; [destruct (low_prefix lc); lia|]. constructor; [destruct (E <? 0); lia|]. apply Forall_app. split; [destruct (_ <? 10); repeat constructor; lia|].
    apply ascii_digits; lia.
  Qed.
  Lemma fixed_chars B pc sc sp N p : 0 <= N -> fixed_text B (enc sc) (enc pc) sp N p = flat_map enc (fixed_text B [sc] [pc] sp N p).
  Proof.
    intros HN. unfold fixed_text, decimal. rewrite !flat_map_app. rewrite (enc_grouped enc Hasc) by (apply ascii_digits; [lia|apply div_nonneg; [exact HN|apply Z.pow_nonneg; lia]]).
    rewrite enc_one, (enc_ascii (map _ (last_digits _ _ _))) by (apply ascii_last; lia). f_equal. f_equal. destruct (_ || _); [symmetry; apply enc_one|reflexivity].
  Qed.
  Lemma sci_chars lc pc sp N p E : 0 <= N -> sci_text lc (enc pc) sp N p E = flat_map enc (sci_text lc [pc] sp N p E).
  Proof.
    intros HN. unfold sci_text, decimal. rewrite !flat_map_app. rewrite (enc_ascii (map _ (digits _ _))) by (apply ascii_digits; [lia|apply div_nonneg; [exact HN|apply Z.pow_nonneg; lia]]).
    rewrite (enc_ascii (map _ (last_digits _ _ _))) by (apply ascii_last; lia). rewrite (enc_ascii (exponent_text _ _)) by apply ascii_exponent.
    f_equal. f_equal. destruct (_ || _); [symmetry; apply enc_one|reflexivity].
  Qed.
  Lemma body_chars s pc sc v : nonneg_value v -> st_point s = enc pc -> st_sep s = enc sc -> float_body s v = flat_map enc (float_body (chars_style s pc sc) v).
  Proof.
    intros HV HP HS. destruct v as [| |m e|lead mantissa E]; cbn [float_body nonneg_value] in *.
    - symmetry. apply enc_ascii. cbn [chars_style st_case]. destruct (st_case s); repeat constructor; lia.
    - symmetry. apply enc_ascii. cbn [chars_style st_case]. destruct (st_case s); repeat constructor; lia.
    - assert (FX : exact_fixed s m e = flat_map enc (exact_fixed (chars_style s pc sc) m e)).
      { unfold exact_fixed. rewrite HP, HS. cbn [chars_style st_boundary st_sep st_point st_showpoint]. apply fixed_chars. apply Z.mul_nonneg_nonneg; [exact HV|apply Z.pow_nonneg; lia]. }
      assert (SX : exact_sci s m e = flat_map enc (exact_sci (chars_style s pc sc) m e)).
      { unfold exact_sci. rewrite HP. cbn [chars_style st_case st_point st_showpoint]. apply sci_chars, HV. }
      assert (GX : forall p, general_text s m e p = flat_map enc (general_text (chars_style s pc sc) m e p)).
      { intros p. unfold general_text. cbv zeta. pose proof (sci_nonneg m e (general_digits p - 1) HV) as HN. destruct (sci_rounded m e (general_digits p - 1)) as [N E]. cbn [fst] in HN.
        rewrite HP, HS. cbn [chars_style st_case st_boundary st_sep st_point st_showpoint]. set (pp := if general_is_fixed m e p then _ else _).
        destruct (st_showpoint s); [destruct (general_is_fixed m e p); [apply fixed_chars|apply sci_chars]; exact HN|].
        pose proof (stripped_nonneg (Z.to_nat pp) N HN) as HN'. destruct (stripped (Z.to_nat pp) N) as [N' p']. cbn [fst] in HN'. destruct (general_is_fixed m e p); [apply fixed_chars|apply sci_chars]; exact HN'. }
      assert (MX : (if zlen (exact_sci (one_column s) m e) <? zlen (exact_fixed (one_column s) m e) then exact_sci s m e else exact_fixed s m e) =
        flat_map enc (if zlen (exact_sci (one_column s) m e) <? zlen (exact_fixed (one_column s) m e) then exact_sci (chars_style s pc sc) m e else exact_fixed (chars_style s pc sc) m e)).
      { destruct (_ <? _); assumption. }
      unfold decimal_body. cbn [chars_style st_notation st_precision st_boundary st_sep st_point st_showpoint st_case]. change (one_column (chars_style s pc sc)) with (one_column s).
      destruct (st_notation s), (st_precision s) as [p|]; try assumption; try apply GX.
      + rewrite HP, HS. apply fixed_chars, rounded_nonneg, HV.
      + pose proof (sci_nonneg m e p HV) as HN. destruct (sci_rounded m e p) as [N E]. cbn [fst] in HN. rewrite HP. apply sci_chars, HN.
    - destruct HV as [Hl Hm]. unfold hex_body. cbn [chars_style st_precision st_case st_point st_showpoint].
      pose proof (hex_nonneg lead mantissa (st_precision s) Hl Hm) as HN. destruct (hex_rounded lead mantissa (st_precision s)) as [N p]. cbn [fst] in HN.
      unfold hex_digits, decimal. rewrite !flat_map_app. rewrite (enc_ascii (map _ (digits 16 _))) by (apply ascii_digits; [lia|apply div_nonneg; [exact HN|apply Z.pow_nonneg; lia]]).
      rewrite (enc_ascii (map _ (last_digits _ _ _))) by (apply ascii_last; lia).
      rewrite (enc_ascii (_ :: _)). 2:{ constructor; [destruct (low_prefix _); lia|]. constructor; [destruct (E <? 0); lia|]. apply ascii_digits; lia. }
      f_equal. f_equal. destruct (_ || _); [rewrite HP; symmetry; apply enc_one|reflexivity].
  Qed.

  (* the request for characters *)
  Definition fchars (r : float_request) (fc pc sc : Z) : float_request :=
    mk_frequest (fr_negative r) (fr_value r) (chars_style (fr_style r) pc sc) (fr_sign r) (fr_pad0 r) [fc] (fr_width r) (fr_align r).
  Lemma ftext_chars r fc pc sc : nonneg_value (fr_value r) -> fr_fill r = enc fc -> st_point (fr_style r) = enc pc -> st_sep (fr_style r) = enc sc ->
    float_text r = flat_map enc (float_text (fchars r fc pc sc)).
  Proof.
    intros HV HF HP HS. unfold float_text, padded. rewrite !flat_map_app. change (fr_fill (fchars r fc pc sc)) with [fc]. rewrite !enc_fill, <- HF.
    change (float_missing (fchars r fc pc sc)) with (float_missing r). change (fr_align (fchars r fc pc sc)) with (fr_align r). f_equal. f_equal.
    unfold float_content. rewrite !flat_map_app. change (float_zeros (fchars r fc pc sc)) with (float_zeros r). rewrite (enc_zeros enc Hasc).
    change (fr_value (fchars r fc pc sc)) with (fr_value r). change (fr_style (fchars r fc pc sc)) with (chars_style (fr_style r) pc sc). rewrite <- (body_chars _ pc sc _ HV HP HS). f_equal; [|f_equal].
    - unfold float_sign. cbn [fchars fr_negative fr_sign fr_fill]. destruct (fr_negative r); [rewrite enc_one, Hasc by lia; reflexivity|].
      destruct (fr_sign r); [reflexivity|rewrite enc_one, Hasc by lia; reflexivity|rewrite enc_one; exact HF].
    - symmetry. apply enc_ascii. unfold float_prefix. cbn [fchars fr_value fr_style chars_style st_case]. destruct (fr_value r); repeat constructor; try lia; destruct (low_prefix _); lia.
  Qed.
End Chars.

Lemma fixed_len B sep sep' point point' sp N p : zlen sep = zlen sep' -> zlen point = zlen point' -> zlen (fixed_text B sep point sp N p) = zlen (fixed_text B sep' point' sp N p).
Proof. intros H1 H2. unfold fixed_text. rewrite !zlen_app, !grouped_len, H1. destruct (_ || _); lia. Qed.
Lemma sci_len lc point point' sp N p E : zlen point = zlen point' -> zlen (sci_text lc point sp N p E) = zlen (sci_text lc point' sp N p E).
Proof. intros H. unfold sci_text. rewrite !zlen_app. destruct (_ || _); lia. Qed.
Lemma body_len s pc sc v : zlen (float_body (chars_style s pc sc) v) = zlen (float_body (one_column s) v).
Proof.
  destruct v as [| |m e|lead mantissa E]; cbn [float_body]; [reflexivity..| |].
  - assert (FX : zlen (exact_fixed (chars_style s pc sc) m e) = zlen (exact_fixed (one_column s) m e)) by (apply fixed_len; reflexivity).
    assert (SX : zlen (exact_sci (chars_style s pc sc) m e) = zlen (exact_sci (one_column s) m e)) by (apply sci_len; reflexivity).
    assert (GX : forall p, zlen (general_text (chars_style s pc sc) m e p) = zlen (general_text (one_column s) m e p)).
    { intros p. unfold general_text. cbv zeta. destruct (sci_rounded m e (general_digits p - 1)) as [N E]. cbn [chars_style one_column st_case st_boundary st_sep st_point st_showpoint].
      destruct (st_showpoint s); [destruct (general_is_fixed m e p); [apply fixed_len|apply sci_len]; reflexivity|].
      destruct (stripped _ N) as [N' p']. destruct (general_is_fixed m e p); [apply fixed_len|apply sci_len]; reflexivity. }
    unfold decimal_body. change (one_column (chars_style s pc sc)) with (one_column s). change (one_column (one_column s)) with (one_column s).
    change (st_notation (chars_style s pc sc)) with (st_notation s). change (st_precision (chars_style s pc sc)) with (st_precision s).
    change (st_notation (one_column s)) with (st_notation s). change (st_precision (one_column s)) with (st_precision s).
    destruct (st_notation s), (st_precision s) as [p|]; try assumption; try apply GX; try (destruct (_ <? _); assumption).
    + apply fixed_len; reflexivity.
    + destruct (sci_rounded m e p) as [N E]. apply sci_len; reflexivity.
  - unfold hex_body. cbn [chars_style one_column st_precision st_case st_point st_showpoint]. destruct (hex_rounded _ _ _) as [N p]. rewrite !zlen_app. destruct (_ || _); reflexivity.
Qed.
Lemma fchars_len r fc pc sc : zlen (float_text (fchars r fc pc sc)) = float_text_width r.
Proof.
  unfold float_text. rewrite padded_len by (unfold float_missing; lia). change (fr_fill (fchars r fc pc sc)) with [fc]. change (zlen [fc]) with 1.
  change (float_missing (fchars r fc pc sc)) with (float_missing r). unfold float_content. rewrite !zlen_app. change (float_zeros (fchars r fc pc sc)) with (float_zeros r).
  assert (HZ : 0 <= float_zeros r) by (unfold float_zeros; destruct (finite _); lia).
  assert (ER : zlen (repeat 48 (Z.to_nat (float_zeros r))) = float_zeros r) by (unfold zlen; rewrite repeat_length; lia).
  assert (ES : zlen (float_sign (fchars r fc pc sc)) = float_sign_width r).
  { unfold float_sign, float_sign_width. cbn [fchars fr_negative fr_sign fr_fill]. destruct (fr_negative r); [reflexivity|]. destruct (fr_sign r); reflexivity. }
  rewrite ER, ES. change (fr_value (fchars r fc pc sc)) with (fr_value r). change (fr_style (fchars r fc pc sc)) with (chars_style (fr_style r) pc sc). rewrite body_len.
  change (float_prefix (fchars r fc pc sc)) with (float_prefix r). unfold float_text_width, float_content_width, float_bare_width. lia.
Qed.
