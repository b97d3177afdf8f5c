(* C55: the width announced by a printed float or double is the number of characters printed, and is at least the width asked. *)
From Verif Require Import Base GroupSpec DigitsSpec IntSpec IntModel IntProofs WidthModel WidthProofs DestModel DestProofs UtfForms CharsetModel PrintModel
  DigitsProofs FloatSpec FloatModel FloatArith FloatNum FloatInit FloatInit2 FloatHex FloatProofs FloatRead FloatFast FloatArgs FloatAlways Properties_Float IntChars FloatChars.
From Verif Require Import ShortestSpec DragonModel DragonFormats FloatBits FloatFmtRead.
Local Open Scope Z_scope.

Lemma ok_nonneg h x : value_ok x -> nonneg_value (value_of h (fl_bits x)).
Proof.
  unfold value_ok, value_of. destruct (fl_bits x) as [| |sn mm ex m e]; try (intros; exact I). intros ((Hm & _) & _ & Hmm & _).
  destruct h; cbn [nonneg_value]; [|lia]. split; [unfold lead_of; destruct sn; lia|lia].
Qed.

(* whenever the text is the one asked for (C55_...), it is the encoding of exactly as many characters as its width *)
Theorem C55_characters : forall F gs rep f al x, ffacets_ok F gs rep -> value_ok x -> prints_float F gs rep f al x ->
  exists p chars, punct_double F f al x = Some p /\
    ops_text (pr_ops p) = flat_map (cs_encode (fk_charset F)) chars /\ pr_size p = zlen (ops_text (pr_ops p)) /\
    pr_width p = zlen chars /\ w_round (al_width al) <= zlen chars.
Proof.
  intros F gs rep f al x HF HV (p & E & T & S & W & _). set (r := frequest_of F gs rep f al x) in *.
  exists p, (float_text (fchars r (al_fill al) (float_point F f) (fk_thousands F))). split; [exact E|]. rewrite fchars_len.
  split; [|rewrite T; split; [exact S|]; split; [exact W|]].
  - rewrite T. apply ftext_chars; [exact (ok_ascii _ (fo_charset _ _ _ HF))|apply ok_nonneg, HV|reflexivity..].
  - unfold float_text_width, float_missing, float_width. change (fr_width r) with (w_round (al_width al)). destruct (finite (fr_value r)); lia.
Qed.

(* without precision the text is always the one asked for *)
Lemma digs_fuel base : forall k v, (length (digs k base v) <= k)%nat.
Proof. induction k as [|k IH]; intros v; [cbn; lia|]. cbn [digs]. destruct (v <? base); [cbn; lia|]. rewrite app_length. cbn [length]. specialize (IH (v / base)). lia. Qed.
Lemma digits_at_most base v k : 0 <= v < 2 ^ k -> 0 <= k -> zlen (digits base v) <= 1 + k.
Proof.
  intros Hv Hk. unfold digits, zlen. pose proof (digs_fuel base (S (Z.to_nat (Z.log2 v))) v) as H. assert (Z.log2 v <= k).
  { destruct (Z.eq_dec v 0) as [->|]; [cbn; lia|]. assert (Z.log2 v < k) by (apply Z.log2_lt_pow2; lia). lia. }
  pose proof (Z.log2_nonneg v). lia.
Qed.
Lemma tz_nonneg : forall k v, 0 <= tz16 k v.
Proof. induction k as [|k IH]; intros v; [cbn; lia|]. cbn [tz16]. destruct (v mod 16 =? 0); [specialize (IH (v / 16)); lia|lia]. Qed.
Lemma div_le_self a b : 0 <= a -> 0 < b -> 0 <= a / b <= a.
Proof. intros Ha Hb. split; [apply Z.div_pos; lia|]. apply Z.div_le_upper_bound; [lia|]. nia. Qed.
Lemma hex_short s lead mantissa E : 0 <= mantissa < 2 ^ 52 -> 0 <= lead <= 1 -> -10000 < E < 10000 -> st_precision s = None -> zlen (hex_body (one_column s) lead mantissa E) <= 3000.
Proof.
  intros Hm Hl HE HP. unfold hex_body, hex_rounded. cbn [one_column st_precision st_case st_point st_showpoint]. rewrite HP.
  set (v := lead * 2 ^ 52 + mantissa). set (k := hex_places mantissa). assert (Hv : 0 <= v < 2 ^ 53) by (unfold v; change (2 ^ 53) with (2 * 2 ^ 52); nia).
  assert (Hk : k <= 13). { unfold k. rewrite hex_places_tz. pose proof (tz_nonneg 13 mantissa). destruct (mantissa =? 0); lia. }
  assert (Hk0 : 0 < 16 ^ (13 - k)) by (apply Z.pow_pos_nonneg; lia).
  assert (HN : 0 <= v / 16 ^ (13 - k) < 2 ^ 53) by (pose proof (div_le_self v _ (proj1 Hv) Hk0); lia).
  assert (HI : 0 <= v / 16 ^ (13 - k) / 16 ^ k < 2 ^ 53).
  { destruct (Z.eq_dec (16 ^ k) 0) as [->|]; [rewrite Zdiv_0_r; lia|]. pose proof (Z.pow_nonneg 16 k ltac:(lia)). pose proof (div_le_self _ (16 ^ k) (proj1 HN) ltac:(lia)). lia. }
  rewrite !zlen_app, !zlen_cons. unfold hex_digits, decimal.
  assert (ML : forall low (l : list Z), zlen (map (digit_char low) l) = zlen l) by (intros; unfold zlen; rewrite map_length; reflexivity). rewrite !ML.
  pose proof (digits_at_most 16 _ 53 HI ltac:(lia)) as L1. pose proof (digits_at_most 10 (Z.abs E) 14 ltac:(change (2 ^ 14) with 16384; lia) ltac:(lia)) as L2.
  assert (L3 : zlen (last_digits 16 (Z.to_nat k) (v / 16 ^ (13 - k))) <= 13).
  { assert (LL : forall j w, length (last_digits 16 j w) = j) by (induction j as [|j IH]; intros w; [reflexivity|]; cbn [last_digits]; rewrite app_length, IH; cbn; lia). unfold zlen. rewrite LL. lia. }
  assert (zlen (if st_showpoint s || (0 <? k) then [46] else []) <= 1) by (destruct (_ || _); cbn; lia). lia.
Qed.
Lemma unrounded_prints F gs rep f al x : ffacets_ok F gs rep -> align_ok al -> separator_fine F gs f -> ff_precision f = -1 -> ff_pad0 f <= 2 ^ 30 -> value_ok x ->
  prints_float F gs rep f al x.
Proof.
  intros HF HA HS Hp Hpad HV. set (r := frequest_of F gs rep f al x). assert (EP : st_precision (fr_style r) = None) by (cbn; unfold prec_of; rewrite Hp; reflexivity).
  assert (HB : zlen (float_body (one_column (fr_style r)) (fr_value r)) <= 3000).
  { unfold value_ok in HV. unfold r, frequest_of at 2. cbn [fr_value]. unfold value_of. destruct (fl_bits x) as [| |sn mm ex m e].
    - cbn [float_body]. destruct (st_case _); cbn; lia.
    - cbn [float_body]. destruct (st_case _); cbn; lia.
    - destruct HV as (Hd & _ & Hm & He). destruct (is_hex (ff_notation f)) eqn:EH; cbn [float_body].
      + apply hex_short; [exact Hm|destruct sn; cbn; lia|destruct (_ && _); lia|exact EP].
      + apply decimal_short; [exact Hd|change (ff_notation f <> NHex); destruct (ff_notation f); cbn in EH; congruence|exact EP]. }
  assert (HW : fits F gs rep f al x) by (apply width_bound; [apply round_small, HA|exact Hpad|unfold r in HB; lia]).
  unfold value_ok in HV. destruct (fl_bits x) as [| |sn mm ex m e] eqn:Eb.
  - apply C55_special; auto.
  - apply C55_special; auto.
  - destruct HV as (Hd & _ & Hm & He). assert (HX : finite_float x m e) by (exists sn, mm, ex; exact Eb).
    destruct (ff_notation f) eqn:En.
    + apply C55_fixed_exact with m e; assumption.
    + apply C55_scientific with m e; try assumption. lia.
    + apply C55_general_shortest with m e; assumption.
    + apply C55_hex_exact with sn mm ex m e; try assumption. lia.
Qed.

(* every double, in every notation without precision *)
Theorem C55_double_characters : forall F gs rep f al b, ffacets_ok F gs rep -> align_ok al -> separator_fine F gs f ->
  ff_precision f = -1 -> ff_pad0 f <= 2 ^ 30 -> 0 <= b < 2 ^ 64 ->
  exists p chars, punct_double F f al (double_of_bits b) = Some p /\
    ops_text (pr_ops p) = flat_map (cs_encode (fk_charset F)) chars /\ pr_size p = zlen (ops_text (pr_ops p)) /\
    pr_width p = zlen chars /\ w_round (al_width al) <= zlen chars.
Proof.
  intros F gs rep f al b HF HA HS Hp Hpad Hb. pose proof (double_value_ok b Hb) as HV.
  apply (C55_characters F gs rep f al _ HF HV). apply unrounded_prints; assumption.
Qed.
Theorem C55_float_characters : forall F gs rep f al b, ffacets_ok F gs rep -> align_ok al -> separator_fine F gs f ->
  ff_precision f = -1 -> ff_pad0 f <= 2 ^ 30 -> 0 <= b < 2 ^ 32 ->
  exists p chars, punct_double F f al (float_of_bits b) = Some p /\
    ops_text (pr_ops p) = flat_map (cs_encode (fk_charset F)) chars /\ pr_size p = zlen (ops_text (pr_ops p)) /\
    pr_width p = zlen chars /\ w_round (al_width al) <= zlen chars.
Proof.
  intros F gs rep f al b HF HA HS Hp Hpad Hb. pose proof (float_value_ok b Hb) as HV.
  apply (C55_characters F gs rep f al _ HF HV). apply unrounded_prints; assumption.
Qed.

(* -1234567.5 with separators, 15 columns, filled with U+1F600 *)
Definition grouped_fmt' : float_fmt := mk_ffmt (-1) 0 NFixed NegativeOnly false true.
Definition smile_align : align_fmt := mk_align 0x1F600 (15 * 65536) ARight.
Example C55_characters_ex : ffacets_ok FL8 [3] true /\ separator_fine FL8 [3] grouped_fmt' /\ align_ok smile_align /\
  option_map (fun p => (pr_width p, ops_text (pr_ops p))) (punct_double FL8 grouped_fmt' smile_align (double_of_bits 0xC132D68780000000)) =
    Some (15, flat_map (cs_encode (fk_charset FL8)) [0x1F600; 0x1F600; 0x1F600; 45; 49; 44; 50; 51; 52; 44; 53; 54; 55; 46; 53]).
Proof.
  split; [exact FL8_ok|]. split; [intros _ _; vm_compute; reflexivity|]. split; [split; [cbn; lia|vm_compute; split; congruence]|]. vm_compute. reflexivity.
Qed.

Print Assumptions C55_characters.
Print Assumptions C55_double_characters.
Print Assumptions C55_float_characters.
