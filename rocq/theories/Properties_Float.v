(* Theorems about floating-point values: C55.

   A finite value is given by its sign, its bits (for the hexadecimal notation) and the
   decimal m * 10^e that dragonbox::to_decimal returns; [decimal_ok m e] bounds m by 10^19 and
   |e| by 900, and e = 0 for 0.  [frequest_of F gs rep f al x] is what is asked for with the
   facets F (grouping gs, rep), format f and alignment al; [float_text] (FloatSpec) is the text
   expected, [float_text_width] its width. *)
From Verif Require Import Base WidthModel WidthProofs DestModel DestProofs GroupSpec GroupModel GroupProofs GroupDist
  DigitsSpec DigitsModel DigitsCount DigitsProofs UtfSpec UtfForms CharsetModel IntSpec IntModel IntProofs PrintModel PrintSpec PrintProofs SbcsTables SbcsModel CsetModel StringModel StringProofs CharProofs
  FloatSpec FloatModel FloatArith FloatText FloatNum FloatInit FloatInit2 FloatHex FloatProofs FloatFast FloatRead FloatArgs RoomFloat.

(* the text, its size and its width are as expected *)
Definition prints_float (F : float_facets) (gs : list Z) (rep : bool) (f : float_fmt) (al : align_fmt) (x : decoded_float) : Prop :=
  let r := frequest_of F gs rep f al x in
  exists p, punct_double F f al x = Some p /\ ops_text (pr_ops p) = float_text r /\
    pr_size p = zlen (float_text r) /\ pr_width p = float_text_width r /\ Forall op_wf (pr_ops p).
Definition finite_float (x : decoded_float) (m e : Z) : Prop :=
  exists subnormal mantissa exponent, fl_bits x = BFinite subnormal mantissa exponent m e.
(* the width is representable *)
Definition fits (F : float_facets) (gs : list Z) (rep : bool) (f : float_fmt) (al : align_fmt) (x : decoded_float) : Prop :=
  float_text_width (frequest_of F gs rep f al x) < 2 ^ 31.

(* nan and infinity *)
Theorem C55_special : forall F gs rep f al x, ffacets_ok F gs rep -> align_ok al -> fits F gs rep f al x ->
  fl_bits x = BNan \/ fl_bits x = BInf -> prints_float F gs rep f al x.
Proof.
  intros F gs rep f al x HF HA HW HB. apply special_print; try assumption. unfold frequest_of. cbn [fr_value]. destruct HB as [-> | ->]; reflexivity.
Qed.

(* scientific notation, with or without precision *)
Theorem C55_scientific : forall F gs rep f al x m e, ffacets_ok F gs rep -> align_ok al -> fits F gs rep f al x ->
  finite_float x m e -> decimal_ok m e -> ff_notation f = NScientific -> -1 <= ff_precision f -> prints_float F gs rep f al x.
Proof. intros F gs rep f al x m e HF HA HW (sn & mm & ex & Eb) Hd En Hp. exact (scientific_ok F gs rep f al x HF HA HW sn mm ex m e Eb Hd Hp En). Qed.

(* fixed notation without precision *)
Theorem C55_fixed_exact : forall F gs rep f al x m e, ffacets_ok F gs rep -> align_ok al -> fits F gs rep f al x ->
  finite_float x m e -> decimal_ok m e -> ff_notation f = NFixed -> ff_precision f = -1 -> separator_fine F gs f -> prints_float F gs rep f al x.
Proof.
  intros F gs rep f al x m e HF HA HW (sn & mm & ex & Eb) Hd En Hp Hs.
  refine (fixed_ok F gs rep f al x HF HA HW sn mm ex m e Eb Hd _ En Hs _); lia.
Qed.
(* fixed notation with a precision and no thousands separators *)
Theorem C55_fixed_precision : forall F gs rep f al x m e, ffacets_ok F gs rep -> align_ok al -> fits F gs rep f al x ->
  finite_float x m e -> decimal_ok m e -> ff_notation f = NFixed -> 0 <= ff_precision f -> float_groups F gs f = [] -> prints_float F gs rep f al x.
Proof.
  intros F gs rep f al x m e HF HA HW (sn & mm & ex & Eb) Hd En Hp Hg.
  refine (fixed_ok F gs rep f al x HF HA HW sn mm ex m e Eb Hd _ En _ _); [lia|intros C; contradiction|].
  intros _. unfold same_separators. rewrite !below_none by (intros; rewrite Hg; reflexivity). reflexivity.
Qed.
(* with thousands separators: unless the rounding changes how many there are *)
Theorem C55_fixed_partial : forall F gs rep f al x m e, ffacets_ok F gs rep -> align_ok al -> fits F gs rep f al x ->
  finite_float x m e -> decimal_ok m e -> ff_notation f = NFixed -> 0 <= ff_precision f -> separator_fine F gs f ->
  same_separators (float_groups F gs f) rep m e (ff_precision f) -> prints_float F gs rep f al x.
Proof.
  intros F gs rep f al x m e HF HA HW (sn & mm & ex & Eb) Hd En Hp Hs Hss.
  refine (fixed_ok F gs rep f al x HF HA HW sn mm ex m e Eb Hd _ En Hs (fun _ => Hss)). lia.
Qed.

(* general notation without precision: the shorter one *)
Theorem C55_general_shortest : forall F gs rep f al x m e, ffacets_ok F gs rep -> align_ok al -> fits F gs rep f al x ->
  finite_float x m e -> decimal_ok m e -> ff_notation f = NGeneral -> ff_precision f = -1 -> separator_fine F gs f -> prints_float F gs rep f al x.
Proof.
  intros F gs rep f al x m e HF HA HW (sn & mm & ex & Eb) Hd En Hp Hs.
  refine (general_ok F gs rep f al x HF HA HW sn mm ex m e Eb Hd _ En Hs _); lia.
Qed.
(* general notation with a precision: printf's %g for values without sign, forced point or separators *)
Theorem C55_general_precision : forall F gs rep f al x m e, ffacets_ok F gs rep -> align_ok al -> fits F gs rep f al x ->
  finite_float x m e -> decimal_ok m e -> canonical m -> ff_notation f = NGeneral -> 0 <= ff_precision f ->
  shows_sign f x = false -> ff_showpoint f = false -> float_groups F gs f = [] -> prints_float F gs rep f al x.
Proof.
  intros F gs rep f al x m e HF HA HW (sn & mm & ex & Eb) Hd Hc En Hp H1 H2 H3.
  refine (general_ok F gs rep f al x HF HA HW sn mm ex m e Eb Hd _ En _ (fun _ => conj Hc _)); [lia|intros C; contradiction|].
  constructor; [intros; exact H1|intros; left; apply below_none; intros; rewrite H3; reflexivity|rewrite H2; discriminate].
Qed.
(* in general: except where general_fine fails, see the refutations below *)
Theorem C55_general_partial : forall F gs rep f al x m e, ffacets_ok F gs rep -> align_ok al -> fits F gs rep f al x ->
  finite_float x m e -> decimal_ok m e -> canonical m -> ff_notation f = NGeneral -> 0 <= ff_precision f -> separator_fine F gs f ->
  general_fine (float_groups F gs f) rep (shows_sign f x) m e (ff_showpoint f) (~ wide_separator F f) (ff_precision f) -> prints_float F gs rep f al x.
Proof.
  intros F gs rep f al x m e HF HA HW (sn & mm & ex & Eb) Hd Hc En Hp Hs Hg.
  refine (general_ok F gs rep f al x HF HA HW sn mm ex m e Eb Hd _ En Hs (fun _ => conj Hc Hg)). lia.
Qed.

(* hexadecimal notation: the value is lead.mantissa * 2^exponent, the mantissa in units of 2^-52 *)
Theorem C55_hex_exact : forall F gs rep f al x subnormal mantissa exponent m10 e10, ffacets_ok F gs rep -> align_ok al -> fits F gs rep f al x ->
  fl_bits x = BFinite subnormal mantissa exponent m10 e10 -> 0 <= mantissa < 2 ^ 52 -> -10000 < exponent < 10000 ->
  ff_notation f = NHex -> ff_precision f < 0 -> prints_float F gs rep f al x.
Proof.
  intros F gs rep f al x sn mm ex m10 e10 HF HA HW Eb Hm He En Hp.
  refine (hex_print F gs rep f al x HF HA HW sn mm ex m10 e10 _ Eb Hm He _); [rewrite En; reflexivity|].
  unfold prec_of. replace (0 <=? ff_precision f) with false by lia. exact I.
Qed.
(* with a precision: when the digit before the point is not changed by rounding *)
Theorem C55_hex_partial : forall F gs rep f al x subnormal mantissa exponent m10 e10, ffacets_ok F gs rep -> align_ok al -> fits F gs rep f al x ->
  fl_bits x = BFinite subnormal mantissa exponent m10 e10 -> 0 <= mantissa < 2 ^ 52 -> -10000 < exponent < 10000 ->
  ff_notation f = NHex -> hex_fine (lead_of subnormal) mantissa (prec_of (ff_precision f)) -> prints_float F gs rep f al x.
Proof.
  intros F gs rep f al x sn mm ex m10 e10 HF HA HW Eb Hm He En Hp.
  refine (hex_print F gs rep f al x HF HA HW sn mm ex m10 e10 _ Eb Hm He Hp). rewrite En; reflexivity.
Qed.

(* a value without any format *)
Theorem C55_default : forall lc x, match fl_bits x with BFinite _ _ _ m e => decimal_ok m e | _ => True end ->
  exists p, fast_print lc x = Some p /\
    ops_text (pr_ops p) = (if fl_negative x then [45] else []) ++ float_body (default_style lc) (value_of false (fl_bits x)) /\
    pr_size p = zlen (ops_text (pr_ops p)) /\ pr_width p = zlen (ops_text (pr_ops p)) /\ Forall op_wf (pr_ops p).
Proof. exact fast_default_ok. Qed.

(* as arguments of the library's functions: text, preprinted size and width *)
Theorem C55_argument : forall M F gs rep f al x, ffacets_ok F gs rep -> align_ok al ->
  match fl_bits x with BFinite _ mantissa _ _ _ => 0 <= mantissa | _ => True end -> prints_float F gs rep f al x ->
  0 <= float_text_width (frequest_of F gs rep f al x) <= 32767 ->
  arg_ok M (fmt_float_arg F f al x) (whole (float_text (frequest_of F gs rep f al x)) (65536 * float_text_width (frequest_of F gs rep f al x))).
Proof.
  intros M F gs rep f al x [K _ H1 H2 H3] [HA _] HX (p & E & T & Z & W & HWf) HW.
  exact (printed_arg_ok M _ p _ _ E T Z W HWf (frugal_punct F f al x p K H1 H2 H3 HA HX E) HW).
Qed.
Theorem C55_default_argument : forall M lc x, match fl_bits x with BFinite _ _ _ m e => decimal_ok m e | _ => True end ->
  let t := (if fl_negative x then [45] else []) ++ float_body (default_style lc) (value_of false (fl_bits x)) in
  arg_ok M (fast_float_arg lc x) (whole t (65536 * zlen t)).
Proof. exact fast_default_arg_ok. Qed.

(* ---- what the texts denote ---- *)
(* with '.' as the point and ',' as the separator the text is read back as N * 10^(E - p): *)
Definition usual (s : float_style) : Prop := st_point s = [46] /\ st_sep s = [44].
(* without precision, in any decimal notation: the value itself *)
Theorem C55_denotes_exact : forall s m e, usual s -> 0 <= m -> st_precision s = None -> st_notation s <> NHex ->
  exists N p E, read_float (decimal_body s m e) = Some (N, p, E) /\ same_value N (E - p) m e.
Proof. exact denotes_exact. Qed.
(* fixed notation with precision p: p decimals, nearest, ties to even *)
Theorem C55_denotes_fixed : forall s m e p, usual s -> 0 <= m -> 0 <= p -> st_precision s = Some p -> st_notation s = NFixed ->
  exists N, read_float (decimal_body s m e) = Some (N, p, 0) /\ nearest_decimal N (- p) m e.
Proof. exact denotes_fixed. Qed.
(* scientific notation with precision p: p decimals, one digit that is not 0 before the point *)
Theorem C55_denotes_scientific : forall s m e p, usual s -> 0 <= m -> 0 <= p -> st_precision s = Some p -> st_notation s = NScientific ->
  exists N E, read_float (decimal_body s m e) = Some (N, p, E) /\ nearest_decimal N (E - p) m e /\ (0 < m -> 10 ^ p <= N < 10 ^ (p + 1)).
Proof. exact denotes_sci. Qed.
(* general notation with precision: the value rounded to max 1 prec significant digits; without
   showpoint there is no trailing decimal 0 *)
Theorem C55_denotes_general : forall s m e prec, usual s -> 0 <= m -> 0 <= prec -> st_precision s = Some prec -> st_notation s = NGeneral ->
  exists N p E N0 a, read_float (decimal_body s m e) = Some (N, p, E) /\ same_value N (E - p) N0 a /\ nearest_decimal N0 a m e /\
    (0 < m -> 10 ^ (Z.max 1 prec - 1) <= N0 < 10 ^ Z.max 1 prec) /\ (st_showpoint s = false -> p = 0 \/ N mod 10 <> 0).
Proof. exact denotes_general. Qed.

(* ---- the bits ---- *)
(* IEEE 754 binary64 and binary32: sign, 11 or 8 bits of exponent, 52 or 23 bits of mantissa *)
Theorem C55_decode64 : forall td b, 0 <= b < 2 ^ 64 ->
  let s := b / 2 ^ 63 in let E := (b / 2 ^ 52) mod 2 ^ 11 in let M := b mod 2 ^ 52 in
  let x := decode64 td b in
  fl_negative x = (s =? 1) /\
  (E = 2047 -> fl_bits x = if M =? 0 then BInf else BNan) /\
  (E < 2047 -> exists m10 e10, fl_bits x = BFinite (E =? 0) M (if E =? 0 then -1022 else E - 1023) m10 e10 /\
     (m10, e10) = if (E =? 0) && (M =? 0) then (0, 0) else td E M).
Proof. exact decode64_ok. Qed.
Theorem C55_decode32 : forall td b, 0 <= b < 2 ^ 32 ->
  let s := b / 2 ^ 31 in let E := (b / 2 ^ 23) mod 2 ^ 8 in let M := b mod 2 ^ 23 in
  let x := decode32 td b in
  fl_negative x = (s =? 1) /\
  (E = 255 -> fl_bits x = if M =? 0 then BInf else BNan) /\
  (E < 255 -> exists m10 e10, fl_bits x = BFinite (E =? 0) (M * 2 ^ 29) (if E =? 0 then -126 else E - 127) m10 e10 /\
     (m10, e10) = if (E =? 0) && (M =? 0) then (0, 0) else td E M).
Proof. exact decode32_ok. Qed.

(* ---- examples: UTF-8, '.' and ',' in groups of three ---- *)
Definition FL8 : float_facets := mk_ffacets true 8 (utf_charset U8) LLower (pack [3] true) 44 46 46.
Example FL8_ok : ffacets_ok FL8 [3] true.
Proof. split; [apply utf_charset_ok|split; [split; [repeat constructor; lia|cbn; lia]|]; split; [discriminate|reflexivity]| | |]; cbn; lia. Qed.
Definition dec (negative : bool) (m e : Z) : decoded_float := mk_decoded negative (BFinite false 0 0 m e).
Example dec_finite negative m e : finite_float (dec negative m e) m e.
Proof. exists false, 0, 0. reflexivity. Qed.
Definition text_of (F : float_facets) (f : float_fmt) (al : align_fmt) (x : decoded_float) : option (list Z * Z * Z) :=
  option_map (fun p => (ops_text (pr_ops p), pr_size p, pr_width p)) (punct_double F f al x).
Ltac check_fits := unfold fits; vm_compute; reflexivity.
Example C55_special_ex : fits FL8 [3] true (mk_ffmt (-1) 0 NGeneral PositiveAlso false false) (mk_align 42 (6 * 65536) ACenter) (mk_decoded false BInf) /\
  text_of FL8 (mk_ffmt (-1) 0 NGeneral PositiveAlso false false) (mk_align 42 (6 * 65536) ACenter) (mk_decoded false BInf) = Some ([42; 43; 105; 110; 102; 42], 6, 6).
Proof. split; [check_fits|reflexivity]. Qed.
(* -1.234e+30 with two decimals, to the right of 12 columns: "  -1.23e+30" *)
Example C55_scientific_ex : decimal_ok 1234 27 /\ fits FL8 [3] true (mk_ffmt 2 0 NScientific NegativeOnly false false) (mk_align 32 (11 * 65536) ARight) (dec true 1234 27) /\
  text_of FL8 (mk_ffmt 2 0 NScientific NegativeOnly false false) (mk_align 32 (11 * 65536) ARight) (dec true 1234 27) =
    Some ([32; 32; 45; 49; 46; 50; 51; 101; 43; 51; 48], 11, 11).
Proof. split; [vm_compute; intuition congruence|]. split; [check_fits|reflexivity]. Qed.
(* 1,234,500 and 0.0012 *)
Example C55_fixed_ex : decimal_ok 12345 2 /\ separator_fine FL8 [3] (mk_ffmt (-1) 0 NFixed NegativeOnly false true) /\
  fits FL8 [3] true (mk_ffmt (-1) 0 NFixed NegativeOnly false true) default_align (dec false 12345 2) /\
  text_of FL8 (mk_ffmt (-1) 0 NFixed NegativeOnly false true) default_align (dec false 12345 2) = Some ([49; 44; 50; 51; 52; 44; 53; 48; 48], 9, 9) /\
  text_of FL8 (mk_ffmt (-1) 0 NFixed NegativeOnly false true) default_align (dec false 12 (-4)) = Some ([48; 46; 48; 48; 49; 50], 6, 6).
Proof.
  split; [vm_compute; intuition congruence|]. split; [exact (utf_separator_fine FL8 [3] _ U8 eq_refl eq_refl ltac:(cbn; lia))|]. split; [check_fits|]. split; reflexivity.
Qed.
(* 2.5 with no decimals is 2; 12,345.68: no separator comes from rounding *)
Example C55_fixed_precision_ex : fits FL8 [3] true (mk_ffmt 0 0 NFixed NegativeOnly false false) default_align (dec false 25 (-1)) /\
  float_groups FL8 [3] (mk_ffmt 0 0 NFixed NegativeOnly false false) = [] /\
  text_of FL8 (mk_ffmt 0 0 NFixed NegativeOnly false false) default_align (dec false 25 (-1)) = Some ([50], 1, 1).
Proof. split; [check_fits|]. split; reflexivity. Qed.
Example C55_fixed_partial_ex : same_separators (float_groups FL8 [3] (mk_ffmt 2 0 NFixed NegativeOnly false true)) true 12345678 (-3) 2 /\
  text_of FL8 (mk_ffmt 2 0 NFixed NegativeOnly false true) default_align (dec false 12345678 (-3)) = Some ([49; 50; 44; 51; 52; 53; 46; 54; 56], 9, 9).
Proof. split; reflexivity. Qed.
Example C55_general_ex : text_of FL8 (mk_ffmt (-1) 0 NGeneral NegativeOnly false false) default_align (dec false 1 6) = Some ([49; 101; 43; 48; 54], 5, 5) /\
  text_of FL8 (mk_ffmt (-1) 0 NGeneral NegativeOnly false false) default_align (dec false 1 4) = Some ([49; 48; 48; 48; 48], 5, 5) /\
  canonical 123456 /\ text_of FL8 (mk_ffmt 4 0 NGeneral NegativeOnly false false) default_align (dec false 123456 (-3)) = Some ([49; 50; 51; 46; 53], 5, 5).
Proof. split; [reflexivity|]. split; [reflexivity|]. split; [right; discriminate|reflexivity]. Qed.
(* -123.46 with a point, 4 digits: general_fine holds *)
Example C55_general_partial_ex : general_fine (float_groups FL8 [3] (mk_ffmt 4 0 NGeneral NegativeOnly true true)) true true 12346 (-2) true
  (~ wide_separator FL8 (mk_ffmt 4 0 NGeneral NegativeOnly true true)) 4 /\
  text_of FL8 (mk_ffmt 4 0 NGeneral NegativeOnly true true) default_align (dec true 12346 (-2)) = Some ([45; 49; 50; 51; 46; 53], 6, 6).
Proof.
  split; [|reflexivity]. assert (HC : prec_carries 12346 4 = false) by reflexivity.
  constructor; [rewrite HC; discriminate|rewrite HC; discriminate|]. intros _ _ _. change (sci_rounded 12346 (-2) (Z.max 1 4 - 1)) with (1235, 2). left. discriminate.
Qed.
(* 0x1.8p+1 = 3; 0x1.9p-3 with one digit *)
Example C55_hex_ex : text_of FL8 (mk_ffmt (-1) 0 NHex NegativeOnly false false) default_align (mk_decoded false (BFinite false 0x8000000000000 1 3 0)) =
    Some ([48; 120; 49; 46; 56; 112; 43; 49], 8, 8) /\
  hex_fine (lead_of false) 0x91FFFFFFFFFFF (Some 1) /\
  text_of FL8 (mk_ffmt 1 0 NHex NegativeOnly false false) default_align (mk_decoded false (BFinite false 0x91FFFFFFFFFFF (-3) 0 0)) = Some ([48; 120; 49; 46; 57; 112; 45; 51], 8, 8).
Proof. split; [reflexivity|]. split; reflexivity. Qed.
Example C55_default_ex : option_map (fun p => (ops_text (pr_ops p), pr_size p)) (fast_print LLower (dec true 12345 (-2))) = Some ([45; 49; 50; 51; 46; 52; 53], 7) /\
  option_map (fun p => (ops_text (pr_ops p), pr_size p)) (fast_print LUpper (dec false 5 (-320))) = Some ([53; 69; 45; 51; 50; 48], 6).
Proof. split; reflexivity. Qed.
Example C55_denotes_ex : usual (mk_style NGeneral (Some 3) false LLower [46] [44] (boundary [3] true)) /\
  read_float [49; 44; 50; 51; 52; 46; 53; 101; 45; 48; 55] = Some (12345, 1, -7) /\ nearest_decimal 2 0 25 (-1).
Proof. split; [split; reflexivity|]. split; [reflexivity|]. vm_compute. split; [discriminate|reflexivity]. Qed.
Example C55_decode_ex : decode64 (fun _ _ => (15, -1)) 0xBFF8000000000000 = mk_decoded true (BFinite false 0x8000000000000 0 15 (-1)) /\
  decode32 (fun _ _ => (15, -1)) 0x3FC00000 = mk_decoded false (BFinite false 0x8000000000000 0 15 (-1)).
Proof. split; reflexivity. Qed.

(* ---- where the code does not print what is asked for ---- *)
(* fixed notation with a precision: 999.96 with one decimal, in groups of three, is printed as
   "1000.0"; the same happens whenever the rounding adds a digit that needs a separator *)
Theorem C55_fixed_refuted : ~ (forall F gs rep f al x m e, ffacets_ok F gs rep -> align_ok al -> fits F gs rep f al x ->
  finite_float x m e -> decimal_ok m e -> ff_notation f = NFixed -> 0 <= ff_precision f -> separator_fine F gs f -> prints_float F gs rep f al x).
Proof.
  intros H. specialize (H FL8 [3] true (mk_ffmt 1 0 NFixed NegativeOnly false true) default_align (dec false 99996 (-2)) 99996 (-2) FL8_ok default_align_ok).
  destruct H as (p & E & T & _); [check_fits|apply dec_finite|vm_compute; intuition congruence|reflexivity|cbn; lia|
    exact (utf_separator_fine FL8 [3] _ U8 eq_refl eq_refl ltac:(cbn; lia))|].
  vm_compute in E. injection E as <-. vm_compute in T. discriminate.
Qed.
(* general notation with a precision: the size (and the width) of "-0.1", from -0.096 with one digit, is
   said to be 3 *)
Theorem C55_general_refuted : ~ (forall F gs rep f al x m e, ffacets_ok F gs rep -> align_ok al -> fits F gs rep f al x ->
  finite_float x m e -> decimal_ok m e -> canonical m -> ff_notation f = NGeneral -> 0 <= ff_precision f -> ff_showpoint f = false ->
  float_groups F gs f = [] -> prints_float F gs rep f al x).
Proof.
  intros H. specialize (H FL8 [3] true (mk_ffmt 1 0 NGeneral NegativeOnly false false) default_align (dec true 96 (-3)) 96 (-3) FL8_ok default_align_ok).
  destruct H as (p & E & _ & S & _); [check_fits|apply dec_finite|vm_compute; intuition congruence|right; discriminate|reflexivity|cbn; lia|reflexivity|reflexivity|].
  vm_compute in E. injection E as <-. vm_compute in S. discriminate.
Qed.
(* ... with the point always shown the trailing zeros should be kept: 1.0004 with 3 digits is
   printed as "1." and not as "1.00" *)
Theorem C55_general_point_refuted : ~ (forall F gs rep f al x m e, ffacets_ok F gs rep -> align_ok al -> fits F gs rep f al x ->
  finite_float x m e -> decimal_ok m e -> canonical m -> ff_notation f = NGeneral -> 0 <= ff_precision f -> shows_sign f x = false ->
  float_groups F gs f = [] -> prints_float F gs rep f al x).
Proof.
  intros H. specialize (H FL8 [3] true (mk_ffmt 3 0 NGeneral NegativeOnly true false) default_align (dec false 10004 (-4)) 10004 (-4) FL8_ok default_align_ok).
  destruct H as (p & E & T & _); [check_fits|apply dec_finite|vm_compute; intuition congruence|right; discriminate|reflexivity|cbn; lia|reflexivity|reflexivity|].
  vm_compute in E. injection E as <-. vm_compute in T. discriminate.
Qed.
(* ... and with a separator of more than one unit the size of "1e+06", from 999999.6 with 6 digits,
   is said to be 7 *)
Theorem C55_general_separator_refuted : ~ (forall F gs rep f al x m e, ffacets_ok F gs rep -> align_ok al -> fits F gs rep f al x ->
  finite_float x m e -> decimal_ok m e -> canonical m -> ff_notation f = NGeneral -> 0 <= ff_precision f -> shows_sign f x = false ->
  ff_showpoint f = false -> separator_fine F gs f -> prints_float F gs rep f al x).
Proof.
  set (FU := mk_ffacets true 8 (utf_charset U8) LLower (pack [3] true) 0x20AC 46 46).
  assert (HF : ffacets_ok FU [3] true).
  { split; [apply utf_charset_ok|split; [split; [repeat constructor; lia|cbn; lia]|]; split; [discriminate|reflexivity]| | |]; cbn; lia. }
  intros H. specialize (H FU [3] true (mk_ffmt 6 0 NGeneral NegativeOnly false true) default_align (dec false 9999996 (-1)) 9999996 (-1) HF default_align_ok).
  destruct H as (p & E & _ & S & _); [check_fits|apply dec_finite|vm_compute; intuition congruence|right; discriminate|reflexivity|cbn; lia|reflexivity|reflexivity|
    exact (utf_separator_fine FU [3] _ U8 eq_refl eq_refl ltac:(cbn; lia))|].
  vm_compute in E. injection E as <-. vm_compute in S. discriminate.
Qed.
(* separators: in windows-1252, where U+20AC is 0x80, 12000 is printed with 0xAC *)
Theorem C55_separator_refuted : ~ (forall F gs rep f al x m e, ffacets_ok F gs rep -> align_ok al -> fits F gs rep f al x ->
  finite_float x m e -> decimal_ok m e -> ff_notation f = NFixed -> ff_precision f = -1 -> prints_float F gs rep f al x).
Proof.
  set (FW := mk_ffacets true 8 (sb_charset windows_1252) LLower (pack [3] true) 0x20AC 46 46).
  assert (HF : ffacets_ok FW [3] true).
  { split; [exact (charset_of_ok (Sb 18 windows_1252) eq_refl)|split; [split; [repeat constructor; lia|cbn; lia]|]; split; [discriminate|reflexivity]| | |]; cbn; lia. }
  intros H. specialize (H FW [3] true (mk_ffmt (-1) 0 NFixed NegativeOnly false true) default_align (dec false 12 3) 12 3 HF default_align_ok).
  destruct H as (p & E & T & _); [check_fits|apply dec_finite|vm_compute; intuition congruence|reflexivity|reflexivity|].
  vm_compute in E. injection E as <-. vm_compute in T. discriminate.
Qed.
(* hexadecimal notation with a precision: 0x1.f (1.9375) with no decimals is printed as "0x1p+0" *)
Theorem C55_hex_refuted : ~ (forall F gs rep f al x subnormal mantissa exponent m10 e10, ffacets_ok F gs rep -> align_ok al -> fits F gs rep f al x ->
  fl_bits x = BFinite subnormal mantissa exponent m10 e10 -> 0 <= mantissa < 2 ^ 52 -> -10000 < exponent < 10000 ->
  ff_notation f = NHex -> 0 <= ff_precision f -> prints_float F gs rep f al x).
Proof.
  intros H. specialize (H FL8 [3] true (mk_ffmt 0 0 NHex NegativeOnly false false) default_align (mk_decoded false (BFinite false 0xF000000000000 0 0 0)) false 0xF000000000000 0 0 0 FL8_ok default_align_ok).
  destruct H as (p & E & T & _); [check_fits|reflexivity|lia|lia|reflexivity|cbn; lia|].
  vm_compute in E. injection E as <-. vm_compute in T. discriminate.
Qed.
Print Assumptions C55_special.
Print Assumptions C55_scientific.
Print Assumptions C55_fixed_exact.
Print Assumptions C55_fixed_precision.
Print Assumptions C55_fixed_partial.
Print Assumptions C55_general_shortest.
Print Assumptions C55_general_precision.
Print Assumptions C55_general_partial.
Print Assumptions C55_hex_exact.
Print Assumptions C55_hex_partial.
Print Assumptions C55_default.
Print Assumptions C55_argument.
Print Assumptions C55_default_argument.
Print Assumptions C55_denotes_exact.
Print Assumptions C55_denotes_fixed.
Print Assumptions C55_denotes_scientific.
Print Assumptions C55_denotes_general.
Print Assumptions C55_decode64.
Print Assumptions C55_decode32.
Print Assumptions C55_fixed_refuted.
Print Assumptions C55_general_refuted.
Print Assumptions C55_general_point_refuted.
Print Assumptions C55_general_separator_refuted.
Print Assumptions C55_separator_refuted.
Print Assumptions C55_hex_refuted.
