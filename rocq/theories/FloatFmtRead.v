(* Doubles and floats printed in the decimal notations, without precision, read back. *)
From Verif Require Import Base GroupSpec DigitsSpec IntSpec IntModel IntProofs WidthModel WidthProofs DestModel DestProofs UtfForms CharsetModel PrintModel
  DigitsProofs FloatSpec FloatModel FloatArith FloatNum FloatInit FloatInit2 FloatHex FloatProofs FloatRead FloatFast FloatArgs FloatAlways.
From Verif Require Import ShortestSpec DragonModel DragonFormats FloatBits.
Local Open Scope Z_scope.

Lemma fixed_short s m e : decimal_ok m e -> zlen (exact_fixed (one_column s) m e) <= 3000.
Proof.
  intros Hd. pose proof Hd as (Hm & He & Hz). unfold exact_fixed, fixed_text. cbn [one_column st_boundary st_sep st_point st_showpoint].
  rewrite !zlen_app, decimal_grouped_len, decimal_len, last_digits_zlen by lia. change (zlen [44]) with 1.
  set (p := Z.max 0 (- e)). assert (EI : m * 10 ^ (e + p) / 10 ^ p = int_part m e).
  { unfold int_part, p. destruct (Z.leb_spec 0 e).
    - rewrite Z.max_l by lia. rewrite Z.add_0_r. change (10 ^ 0) with 1. apply Z.div_1_r.
    - rewrite Z.max_r by lia. replace (e + - e) with 0 by lia. change (10 ^ 0) with 1. rewrite Z.mul_1_r. reflexivity. }
  rewrite EI. pose proof (int_part_len m e Hd) as L. pose proof (dc_range m Hm) as (D1 & _). pose proof (below_le (st_boundary s) (length (digits 10 (int_part m e)))).
  unfold zlen at 1. assert (p <= 900) by (unfold p; lia).
  assert (zlen (if st_showpoint s || (0 <? p) then [46] else []) <= 1) by (destruct (_ || _); cbn; lia). lia.
Qed.
Lemma sci_short s m e : decimal_ok m e -> zlen (exact_sci (one_column s) m e) <= 3000.
Proof.
  intros (Hm & He & Hz). pose proof (dc_range m Hm) as (D1 & D2 & _). unfold exact_sci, sci_text. cbn [one_column st_case st_point st_showpoint].
  rewrite !zlen_app, !decimal_len, last_digits_zlen by lia. set (n := zlen (digits 10 m)) in *. unfold exponent_text. rewrite !zlen_cons, zlen_app, decimal_len.
  assert (B1 : 0 <= m / 10 ^ (n - 1) < 10000).
  { pose proof (pow10_pos (n - 1) ltac:(lia)). split; [apply Z.div_pos; lia|]. apply Z.div_lt_upper_bound; [lia|].
    assert (10 ^ n = 10 * 10 ^ (n - 1)) by (rewrite <- Z.pow_succ_r by lia; f_equal; lia). lia. }
  pose proof (digits_short _ B1). pose proof (digits_short (Z.abs (sci_exponent m e)) ltac:(unfold sci_exponent; lia)).
  assert (zlen (if st_showpoint s || (0 <? n - 1) then [46] else []) <= 1) by (destruct (_ || _); cbn; lia).
  assert (zlen (if Z.abs (sci_exponent m e) <? 10 then [48] else []) <= 1) by (destruct (Z.abs (sci_exponent m e) <? 10); unfold zlen; cbn [length]; lia). lia.
Qed.
Lemma decimal_short s m e : decimal_ok m e -> st_notation s <> NHex -> st_precision s = None -> zlen (decimal_body (one_column s) m e) <= 3000.
Proof.
  intros Hd Hn Hp. unfold decimal_body. cbn [one_column st_notation st_precision]. rewrite Hp. pose proof (fixed_short s m e Hd) as A. pose proof (sci_short s m e Hd) as B.
  destruct (st_notation s); [exact A|exact B| |congruence]. destruct (_ <? _); assumption.
Qed.

(* leading zeros *)
Lemma read_float_zeros k u : read_float (repeat 48 k ++ u) = read_float u.
Proof.
  induction k as [|k IH]; [reflexivity|]. rewrite <- IH. cbn [repeat app]. unfold read_float. cbn [read_num]. cbn [Z.leb Z.compare Pos.compare Pos.compare_cont andb]. reflexivity.
Qed.

Section READ.
Variables (F : float_facets) (gs : list Z) (rep : bool) (f : float_fmt) (al : align_fmt) (x : decoded_float) (fm : format) (n : Z).
Hypothesis (HF : ffacets_ok F gs rep) (HA : align_ok al) (Hn : ff_notation f <> NHex) (Hp : ff_precision f = -1) (Hpad : ff_pad0 f <= 2 ^ 30).
Hypothesis (HP : cs_encode (fk_charset F) (float_point F f) = [46]) (HS : cs_encode (fk_charset F) (fk_thousands F) = [44]) (HT : (fk_thousands F = 44 /\ 8 <= fk_bits F) \/ float_groups F gs f = []).
Hypothesis (HG : ff_sign f <> FillInsteadOfPositive).

Let r := frequest_of F gs rep f al x.
Let st := style_of F gs rep f.
Lemma formatted_value m e : shown fm x n m e -> fr_value r = FDec m e.
Proof using Hn.
  intros ((sn & mm & ex & Eb) & _). assert (Eh : is_hex (ff_notation f) = false) by (destruct (ff_notation f); (reflexivity || congruence)).
  unfold r, frequest_of; cbn [fr_value]; rewrite Eh, Eb; reflexivity.
Qed.
Lemma formatted_body m e : shown fm x n m e -> zlen (float_body (one_column (fr_style r)) (fr_value r)) <= 3000.
Proof using Hn Hp.
  intros HX. pose proof HX as (_ & Hd & _). rewrite (formatted_value m e HX). cbn [float_body]. change (fr_style r) with st.
  apply decimal_short; [exact Hd|exact Hn|]. unfold prec_of; cbn [st style_of st_precision]. unfold st, style_of. cbn [st_precision]. unfold prec_of. rewrite Hp. reflexivity.
Qed.
Lemma formatted_prints m e : shown fm x n m e -> exists p, punct_double F f al x = Some p /\ fprints p r.
Proof using HF HA Hn Hp Hpad HS HT.
  intros HX. pose proof HX as ((sn & mm & ex & Eb) & Hd & Hc & _).
  assert (Hfit : float_text_width r < 2 ^ 31).
  { apply width_bound; [exact (round_small al HA)|exact Hpad|]. pose proof (formatted_body m e HX). lia. }
  assert (Hsep : separator_fine F gs f).
  { intros G _. destruct HT as [[E E8]|E]; [|contradiction]. rewrite HS, E. f_equal. symmetry. unfold to_u. apply Z.mod_small. split; [lia|].
    apply Z.lt_le_trans with (2 ^ 8); [reflexivity|apply Z.pow_le_mono_r; lia]. }
  destruct (ff_notation f) eqn:En; [| | |congruence].
  - refine (fixed_ok F gs rep f al x HF HA Hfit sn mm ex m e Eb Hd _ En Hsep _); lia.
  - refine (scientific_ok F gs rep f al x HF HA Hfit sn mm ex m e Eb Hd _ En); lia.
  - refine (general_ok F gs rep f al x HF HA Hfit sn mm ex m e Eb Hd _ En Hsep _); lia.
Qed.
Lemma formatted_text m e : shown fm x n m e ->
  exists k u N q E, float_text r = padded (al_align al) (cs_encode (fk_charset F) (al_fill al)) k
      ((if fl_negative x then [45] else match ff_sign f with PositiveAlso => [43] | _ => [] end) ++ u) /\ 0 <= k /\ (al_width al = 0 -> k = 0) /\
    read_float u = Some (N, q, E) /\ rounds_to fm (dec_value N (E - q)) n.
Proof using Hn Hp HP HS HG.
  intros HX. pose proof (formatted_value m e HX) as EV. assert (EP : prec_of (ff_precision f) = None) by (unfold prec_of; rewrite Hp; reflexivity).
  destruct (style_reads fm st x n m e HX ltac:(split; assumption) EP Hn) as (N & q & E & R & V).
  exists (float_missing r), (repeat 48 (Z.to_nat (float_zeros r)) ++ decimal_body st m e), N, q, E.
  split.
  { unfold float_text. change (fr_align r) with (al_align al). change (fr_fill r) with (cs_encode (fk_charset F) (al_fill al)). f_equal.
    unfold float_content, float_sign, float_prefix. rewrite EV. change (fr_negative r) with (fl_negative x). change (fr_sign r) with (ff_sign f). change (fr_style r) with st. cbn [app float_body].
    destruct (fl_negative x); [reflexivity|]. destruct (ff_sign f); [reflexivity|reflexivity|congruence]. }
  split; [unfold float_missing; lia|]. split.
  { intros W0. unfold float_missing, float_width. rewrite EV. cbn [finite]. change (fr_width r) with (w_round (al_width al)). rewrite W0. change (w_round 0) with 0.
    unfold float_content_width, float_bare_width, float_zeros.
    assert (0 <= float_sign_width r) by (unfold float_sign_width; destruct (fr_negative r); [lia|destruct (fr_sign r); lia]).
    pose proof (zlen_nonneg (float_prefix r)). pose proof (zlen_nonneg (float_body (one_column (fr_style r)) (fr_value r))). destruct (finite (fr_value r)); lia. }
  rewrite read_float_zeros. split; assumption.
Qed.
Lemma formatted_width m e : shown fm x n m e -> w_round (al_width al) <= 32767 -> ff_pad0 f <= 32767 -> 0 <= float_text_width r <= 32767.
Proof using Hn Hp.
  intros HX H1 H2. pose proof (formatted_body m e HX) as H3. change (ff_pad0 f) with (fr_pad0 r) in H2. change (w_round (al_width al)) with (fr_width r) in H1.
  unfold float_text_width, float_missing, float_width, float_content_width, float_zeros, float_bare_width.
  assert (0 <= float_sign_width r <= 1) by (unfold float_sign_width; destruct (fr_negative r); [lia|destruct (fr_sign r); lia]).
  assert (0 <= zlen (float_prefix r) <= 2) by (unfold float_prefix; destruct (fr_value r); cbn; lia).
  pose proof (zlen_nonneg (float_body (one_column (fr_style r)) (fr_value r))). destruct (finite (fr_value r)); lia.
Qed.
Lemma formatted_reads m e : shown fm x n m e ->
  exists p k u N q E, punct_double F f al x = Some p /\
    ops_text (pr_ops p) = padded (al_align al) (cs_encode (fk_charset F) (al_fill al)) k
      ((if fl_negative x then [45] else match ff_sign f with PositiveAlso => [43] | _ => [] end) ++ u) /\ 0 <= k /\ (al_width al = 0 -> k = 0) /\
    read_float u = Some (N, q, E) /\ rounds_to fm (dec_value N (E - q)) n.
Proof using HF HA Hn Hp Hpad HP HS HT HG.
  intros HX. destruct (formatted_prints m e HX) as (p & E1 & T & _). destruct (formatted_text m e HX) as (k & u & N & q & E & H).
  exists p, k, u, N, q, E. rewrite T. split; [exact E1|exact H].
Qed.
End READ.
