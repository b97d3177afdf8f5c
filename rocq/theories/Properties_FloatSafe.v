(* Theorems about printing floating-point values in every format: C69, and what C55 leaves out (what is
   printed where it is not what is asked for). *)
From Verif Require Import Base GroupSpec DigitsSpec IntSpec IntModel IntProofs WidthModel WidthProofs DestModel DestProofs UtfForms CharsetModel GroupModel GroupProofs PrintModel
  FloatSpec FloatModel FloatInit FloatInit2 FloatHex FloatProofs FloatSafe FloatHexCarry FloatAlways Properties_Float.
From Verif Require Import ShortestSpec DragonModel DragonFormats FloatBits.
Local Open Scope Z_scope.

(* ---- C69: every double and float, in every format, to every destination ---- *)
(* the printer's result is not undefined ([None]: an int out of its range, an index outside of the table of
   powers of ten, more units written than there is room for), and its writes append its text *)
Definition printable (F : float_facets) (f : float_fmt) (al : align_fmt) (x : decoded_float) : Prop :=
  exists p, punct_double F f al x = Some p /\
  forall S (D : dest_ops S) R, full_laws D R -> forall s t, R s t ->
    exists s', run D s (pr_ops p) = Some s' /\ R s' (t ++ ops_text (pr_ops p)).
Definition reasonable (f : float_fmt) : Prop := -1 <= ff_precision f <= 2 ^ 30 /\ ff_pad0 f <= 2 ^ 30.

Theorem C69_double : forall F gs rep f al b, ffacets_ok F gs rep -> align_ok al -> reasonable f -> 0 <= b < 2 ^ 64 ->
  printable F f al (double_of_bits b).
Proof.
  intros F gs rep f al b HF HA [H1 H2] Hb. destruct (always F gs rep f al _ HF HA (double_value_ok b Hb) H1 H2) as (p & E & W).
  exists p. split; [exact E|]. intros S D R L s t HR. exact (run_ok D R L _ s t HR W).
Qed.
Theorem C69_float : forall F gs rep f al b, ffacets_ok F gs rep -> align_ok al -> reasonable f -> 0 <= b < 2 ^ 32 ->
  printable F f al (float_of_bits b).
Proof.
  intros F gs rep f al b HF HA [H1 H2] Hb. destruct (always F gs rep f al _ HF HA (float_value_ok b Hb) H1 H2) as (p & E & W).
  exists p. split; [exact E|]. intros S D R L s t HR. exact (run_ok D R L _ s t HR W).
Qed.
(* the destination need not have the announced room: see C55_fixed_coded_partial *)
(* -0x1.fffffffffffffp+1023 in fixed notation with 100 decimals and separators *)
Example C69_ex : reasonable (mk_ffmt 100 400 NFixed PositiveAlso true true) /\
  option_map (fun p => (zlen (ops_text (pr_ops p)), pr_size p)) (punct_double FL8 (mk_ffmt 100 400 NFixed PositiveAlso true true) default_align (double_of_bits 0xFFEFFFFFFFFFFFFF)) =
    Some (1 + 309 + 102 + 1 + 100, 513).
Proof. split; [split; cbn; lia|vm_compute; reflexivity]. Qed.

(* ---- fixed notation with a precision: all cases ---- *)
(* [before]: the separators of the number not yet rounded, [after]: of the number printed.  If [before] is 0
   no separator is printed; otherwise they all are, but after - before of them are neither in the announced
   size nor in the announced width, nor is the width to fill reduced by them. *)
Theorem C55_fixed_coded_partial : forall F gs rep f al x m e, ffacets_ok F gs rep -> align_ok al -> finite_float x m e -> decimal_ok m e ->
  ff_notation f = NFixed -> 0 <= ff_precision f -> separator_fine F gs f ->
  let B gs := boundary (float_groups F gs f) rep in
  let before := boundaries_below (B gs) (length (digits 10 (int_part m e))) in
  let printed_groups := if before =? 0 then [] else gs in
  let after := boundaries_below (B printed_groups) (length (digits 10 (rounded m e (ff_precision f) / 10 ^ ff_precision f))) in
  let r := widened (frequest_of F printed_groups rep f al x) (after - before) in
  float_text_width r - (after - before) < 2 ^ 31 ->
  exists p, punct_double F f al x = Some p /\ ops_text (pr_ops p) = float_text r /\
    pr_size p = zlen (float_text r) - (after - before) * zlen (cs_encode (fk_charset F) (fk_thousands F)) /\
    pr_width p = float_text_width r - (after - before) /\ Forall op_wf (pr_ops p).
Proof.
  intros F gs rep f al x m e HF HA (sn & mm & ex & Eb) Hd En Hp Hs B before pg.
  assert (Epg : pg = groups_if (negb (before =? 0)) gs) by (unfold pg, groups_if; destruct (before =? 0); reflexivity). rewrite Epg.
  exact (fixed_coded F gs rep f al x sn mm ex m e HF HA Eb Hd En Hp Hs).
Qed.
(* 999.96: "1000.0"; 999999.96: "1,000,000.0", announced as 10; with a width of 13, 3 columns of fill *)
Example C55_fixed_coded_ex :
  text_of FL8 (mk_ffmt 1 0 NFixed NegativeOnly false true) default_align (dec false 99996 (-2)) = Some ([49; 48; 48; 48; 46; 48], 6, 6) /\
  text_of FL8 (mk_ffmt 1 0 NFixed NegativeOnly false true) (mk_align 42 (13 * 65536) ARight) (dec false 99999996 (-2)) =
    Some ([42; 42; 42; 49; 44; 48; 48; 48; 44; 48; 48; 48; 46; 48], 13, 13).
Proof. split; reflexivity. Qed.

(* ---- general notation with a precision: all cases ---- *)
(* [carries]: dropping digits gives a power of ten.  Then in fixed notation the sign is not counted, and in
   scientific notation the separators that fixed notation would have had are counted as if they were
   printed, one unit for one column.  If digits are dropped without a carry the zeros that "showpoint" asks
   for are not printed: it is what a lower precision gives. *)
Theorem C55_general_coded_partial : forall F gs rep f al x m e, ffacets_ok F gs rep -> align_ok al -> finite_float x m e -> decimal_ok m e -> canonical m ->
  ff_notation f = NGeneral -> 0 <= ff_precision f -> separator_fine F gs f ->
  let prec := ff_precision f in
  let dc := zlen (digits 10 m) in
  let carries := prec_carries m prec in
  let fixed := general_is_fixed m e prec in
  let uncounted := if carries && fixed && shows_sign f x then 1 else 0 in
  let stale := if carries && negb fixed && (dc + e <=? Z.max 1 prec)
               then boundaries_below (boundary (float_groups F gs f) rep) (length (digits 10 (int_part m e))) else 0 in
  let r0 := frequest_of F gs rep f al x in
  let r := widened (if ff_showpoint f && (Z.max 1 prec <? dc) && negb carries then with_precision r0 (kept_digits m e prec) else r0) uncounted in
  float_text_width r - uncounted < 2 ^ 31 ->
  exists p, punct_double F f al x = Some p /\ ops_text (pr_ops p) = float_text r /\
    pr_size p = zlen (float_text r) - uncounted + stale * (zlen (cs_encode (fk_charset F) (fk_thousands F)) - 1) /\
    pr_width p = float_text_width r - uncounted /\ Forall op_wf (pr_ops p).
Proof.
  intros F gs rep f al x m e HF HA (sn & mm & ex & Eb) Hd Hc En Hp Hs.
  exact (general_coded F gs rep f al x sn mm ex m e HF HA Eb Hd Hc En Hp Hs).
Qed.
(* -0.096 with 1 digit in 6 columns: "***-0.1", announced as 6; 1.0004 with 3 digits and a point: "1.", not "1.00";
   999999.6 with 6 digits, separator U+20AC: "1e+06", announced as 7 units *)
Definition FLE : float_facets := mk_ffacets true 8 (utf_charset U8) LLower (pack [3] true) 0x20AC 46 46.
Example C55_general_coded_ex :
  text_of FL8 (mk_ffmt 1 0 NGeneral NegativeOnly false false) (mk_align 42 (6 * 65536) ARight) (dec true 96 (-3)) = Some ([42; 42; 42; 45; 48; 46; 49], 6, 6) /\
  text_of FL8 (mk_ffmt 3 0 NGeneral NegativeOnly true false) default_align (dec false 10004 (-4)) = Some ([49; 46], 2, 2) /\
  text_of FLE (mk_ffmt 6 0 NGeneral NegativeOnly false true) default_align (dec false 9999996 (-1)) = Some ([49; 101; 43; 48; 54], 7, 5).
Proof. split; [|split]; reflexivity. Qed.

(* ---- hexadecimal notation with a precision, when rounding carries into the first digit ---- *)
(* the first digit stays: 0x1.f with no digits prints as "0x1p+0", with 0x1.fff8 and 2 digits as "0x1.00p+0" *)
Theorem C55_hex_carry_partial : forall F gs rep f al x subnormal mantissa exponent m10 e10, ffacets_ok F gs rep -> align_ok al ->
  fl_bits x = BFinite subnormal mantissa exponent m10 e10 -> 0 <= mantissa < 2 ^ 52 -> -10000 < exponent < 10000 ->
  ff_notation f = NHex -> 0 <= ff_precision f ->
  let lead := lead_of subnormal in
  fst (hex_rounded lead mantissa (Some (ff_precision f))) / 16 ^ ff_precision f <> lead ->
  let r := with_value (frequest_of F gs rep f al x) (FBin lead 0 exponent) in
  float_text_width r < 2 ^ 31 ->
  exists p, punct_double F f al x = Some p /\ ops_text (pr_ops p) = float_text r /\
    pr_size p = zlen (float_text r) /\ pr_width p = float_text_width r /\ Forall op_wf (pr_ops p).
Proof.
  intros F gs rep f al x sn mm ex m10 e10 HF HA Eb Hm He En Hp lead Hn r Hfit. apply (hex_coded F gs rep f al x sn mm ex m10 e10 HF HA En Eb Hm He); [|exact Hfit].
  unfold prec_of. rewrite (proj2 (Z.leb_le _ _) Hp). exact Hn.
Qed.
Example C55_hex_carry_ex :
  text_of FL8 (mk_ffmt 0 0 NHex NegativeOnly false false) default_align (mk_decoded false (BFinite false 0xF000000000000 0 0 0)) = Some ([48; 120; 49; 112; 43; 48], 6, 6) /\
  text_of FL8 (mk_ffmt 2 0 NHex NegativeOnly false false) default_align (mk_decoded false (BFinite false 0xFFF8000000000 0 0 0)) =
    Some ([48; 120; 49; 46; 48; 48; 112; 43; 48], 9, 9) /\
  fst (hex_rounded (lead_of false) 0xFFF8000000000 (Some 2)) / 16 ^ 2 = 2.
Proof. split; [|split]; reflexivity. Qed.

Print Assumptions C69_double.
Print Assumptions C69_float.
Print Assumptions C55_fixed_coded_partial.
Print Assumptions C55_general_coded_partial.
Print Assumptions C55_hex_carry_partial.
