(* Theorems about hexadecimal floating-point text: C71.

   HexSpec says how such a text is read; ShortestSpec.float_at is the value of a magnitude (the bits of the
   double or float without the sign). *)
From Verif Require Import Base GroupSpec DigitsSpec IntSpec IntModel IntProofs WidthModel WidthProofs DestModel DestProofs UtfForms CharsetModel PrintModel
  FloatSpec FloatModel FloatInit FloatHex FloatProofs FloatHexCarry FloatRead FloatFast FloatArgs FloatAlways HexSpec Properties_Float.
From Verif Require Import ShortestSpec DragonModel DragonFloats DragonFormats FloatBits FloatHexRead.
Local Open Scope Z_scope.

(* the format: hexadecimal, the point of the facet (if it is used) printed as '.'; a positive value is not to be
   marked by the fill character *)
Record hex_format (F : float_facets) (gs : list Z) (rep : bool) (f : float_fmt) (al : align_fmt) : Prop := mk_hex_format {
  hf_facets : ffacets_ok F gs rep;
  hf_align : align_ok al;
  hf_hex : ff_notation f = NHex;
  hf_sign : ff_sign f <> FillInsteadOfPositive;
  hf_point : cs_encode (fk_charset F) (float_point F f) = [46];
  hf_pad0 : ff_pad0 f <= 2 ^ 30 }.
(* the text is made of a text u and fill characters (none, if no width is given), and u is read as Q says *)
Definition read_back (F : float_facets) (f : float_fmt) (al : align_fmt) (x : decoded_float) (Q : bool -> Z -> Z -> Z -> Prop) : Prop :=
  exists p k u negative N places E, punct_double F f al x = Some p /\
    ops_text (pr_ops p) = padded (al_align al) (cs_encode (fk_charset F) (al_fill al)) k u /\ 0 <= k /\ (al_width al = 0 -> k = 0) /\
    read_hex u = Some (negative, N, places, E) /\ Q negative N places E.

(* ---- without precision: the value, with no digit 0 at the end of the fraction ---- *)
Theorem C71_double : forall F gs rep f al b, hex_format F gs rep f al -> ff_precision f < 0 ->
  0 <= b < 2 ^ 64 -> b mod 2 ^ 63 < infinity_bits binary64 ->
  read_back F f al (double_of_bits b) (fun negative N places E =>
    negative = (2 ^ 63 <=? b) /\ (hex_number N places E == float_at binary64 (b mod 2 ^ 63))%Q /\ (places = 0 \/ N mod 16 <> 0)).
Proof.
  intros F gs rep f al b [HF HA Hn HS HP Hpad] Hp Hb Hf. destruct (double_hex b Hb Hf) as (S & ex & HX).
  rewrite (sign_bit b 63 ltac:(lia) Hb) in S. rewrite <- S. exact (hex_denotes F gs rep f al _ _ _ _ ex HF HA Hn (or_intror HS) HP Hpad HX Hp).
Qed.
Theorem C71_float : forall F gs rep f al b, hex_format F gs rep f al -> ff_precision f < 0 ->
  0 <= b < 2 ^ 32 -> b mod 2 ^ 31 < infinity_bits binary32 ->
  read_back F f al (float_of_bits b) (fun negative N places E =>
    negative = (2 ^ 31 <=? b) /\ (hex_number N places E == float_at binary32 (b mod 2 ^ 31))%Q /\ (places = 0 \/ N mod 16 <> 0)).
Proof.
  intros F gs rep f al b [HF HA Hn HS HP Hpad] Hp Hb Hf. destruct (float_hex b Hb Hf) as (S & ex & HX).
  rewrite (sign_bit b 31 ltac:(lia) Hb) in S. rewrite <- S. exact (hex_denotes F gs rep f al _ _ _ _ ex HF HA Hn (or_intror HS) HP Hpad HX Hp).
Qed.
(* so different values have different texts *)
Theorem C71_double_injective : forall F gs rep f al b b', hex_format F gs rep f al -> ff_precision f < 0 -> al_width al = 0 ->
  0 <= b < 2 ^ 64 -> b mod 2 ^ 63 < infinity_bits binary64 -> 0 <= b' < 2 ^ 64 -> b' mod 2 ^ 63 < infinity_bits binary64 ->
  option_map (fun p => ops_text (pr_ops p)) (punct_double F f al (double_of_bits b)) = option_map (fun p => ops_text (pr_ops p)) (punct_double F f al (double_of_bits b')) ->
  b = b'.
Proof.
  intros F gs rep f al b b' HX Hp HW B1 B2 B3 B4 HE.
  exact (same_text binary64 F f al 63 b b' _ _ HW ltac:(cbn; lia) ltac:(lia) B1 B3 (C71_double F gs rep f al b HX Hp B1 B2) (C71_double F gs rep f al b' HX Hp B3 B4) HE).
Qed.
Theorem C71_float_injective : forall F gs rep f al b b', hex_format F gs rep f al -> ff_precision f < 0 -> al_width al = 0 ->
  0 <= b < 2 ^ 32 -> b mod 2 ^ 31 < infinity_bits binary32 -> 0 <= b' < 2 ^ 32 -> b' mod 2 ^ 31 < infinity_bits binary32 ->
  option_map (fun p => ops_text (pr_ops p)) (punct_double F f al (float_of_bits b)) = option_map (fun p => ops_text (pr_ops p)) (punct_double F f al (float_of_bits b')) ->
  b = b'.
Proof.
  intros F gs rep f al b b' HX Hp HW B1 B2 B3 B4 HE.
  exact (same_text binary32 F f al 31 b b' _ _ HW ltac:(cbn; lia) ltac:(lia) B1 B3 (C71_float F gs rep f al b HX Hp B1 B2) (C71_float F gs rep f al b' HX Hp B3 B4) HE).
Qed.

(* ---- with a precision: so many digits, and the nearest such number ---- *)
(* ... when the fraction mantissa / 2^52 is more than half a unit (16^-precision) below 1 *)
Theorem C71_double_precision_partial : forall F gs rep f al b, hex_format F gs rep f al -> 0 <= ff_precision f <= 2 ^ 30 ->
  0 <= b < 2 ^ 64 -> b mod 2 ^ 63 < infinity_bits binary64 ->
  2 ^ 52 < 2 * (2 ^ 52 - b mod 2 ^ 52) * 16 ^ ff_precision f ->
  read_back F f al (double_of_bits b) (fun negative N places E =>
    negative = (2 ^ 63 <=? b) /\ places = ff_precision f /\ nearest_hex N places E (float_at binary64 (b mod 2 ^ 63))).
Proof.
  intros F gs rep f al b [HF HA Hn HS HP Hpad] Hp Hb Hf Hc. destruct (double_hex b Hb Hf) as (S & ex & HX).
  rewrite (sign_bit b 63 ltac:(lia) Hb) in S. rewrite <- S. pose proof HX as (_ & Hm & _).
  exact (hex_denotes_given F gs rep f al _ _ _ _ ex HF HA Hn (or_intror HS) HP Hpad HX Hp (no_carry _ _ _ (lead_01 _) Hm (proj1 Hp) Hc)).
Qed.
Theorem C71_float_precision_partial : forall F gs rep f al b, hex_format F gs rep f al -> 0 <= ff_precision f <= 2 ^ 30 ->
  0 <= b < 2 ^ 32 -> b mod 2 ^ 31 < infinity_bits binary32 ->
  2 ^ 23 < 2 * (2 ^ 23 - b mod 2 ^ 23) * 16 ^ ff_precision f ->
  read_back F f al (float_of_bits b) (fun negative N places E =>
    negative = (2 ^ 31 <=? b) /\ places = ff_precision f /\ nearest_hex N places E (float_at binary32 (b mod 2 ^ 31))).
Proof.
  intros F gs rep f al b [HF HA Hn HS HP Hpad] Hp Hb Hf Hc. destruct (float_hex b Hb Hf) as (S & ex & HX).
  rewrite (sign_bit b 31 ltac:(lia) Hb) in S. rewrite <- S. pose proof HX as (_ & Hm & _).
  refine (hex_denotes_given F gs rep f al _ _ _ _ ex HF HA Hn (or_intror HS) HP Hpad HX Hp (no_carry _ _ _ (lead_01 _) Hm (proj1 Hp) _)).
  change (2 ^ 52) with (2 ^ 23 * 2 ^ 29). clear - Hc. nia.
Qed.
(* otherwise the digit before the point is not changed and the fraction is 0: the text can be wrong by
   half of the value.  0x1.f with no digits is printed as 0x1p+0 *)
Theorem C71_precision_refuted : ~ (forall F gs rep f al b, hex_format F gs rep f al -> 0 <= ff_precision f <= 2 ^ 30 ->
  0 <= b < 2 ^ 64 -> b mod 2 ^ 63 < infinity_bits binary64 ->
  read_back F f al (double_of_bits b) (fun negative N places E => nearest_hex N places E (float_at binary64 (b mod 2 ^ 63)))).
Proof.
  intros H. specialize (H FL8 [3] true (mk_ffmt 0 0 NHex NegativeOnly false false) default_align 0x3FFF000000000000).
  destruct H as (p & k & u & negative & N & places & E & EQ & T & _ & K & R & (Q & _)).
  - split; [exact FL8_ok|exact default_align_ok|reflexivity|discriminate|reflexivity|cbn; lia].
  - cbn; lia.
  - lia.
  - vm_compute. reflexivity.
  - rewrite (K eq_refl), padded_none in T. vm_compute in EQ. apply some_inj in EQ. subst p. vm_compute in T. subst u. vm_compute in R. injection R as <- <- <- <-. vm_compute in Q. apply Q. reflexivity.
Qed.
Theorem C71_double_carry_partial : forall F gs rep f al b, hex_format F gs rep f al -> 0 <= ff_precision f <= 2 ^ 30 ->
  0 <= b < 2 ^ 64 -> b mod 2 ^ 63 < infinity_bits binary64 ->
  2 * (2 ^ 52 - b mod 2 ^ 52) * 16 ^ ff_precision f < 2 ^ 52 ->
  read_back F f al (double_of_bits b) (fun negative N places E =>
    negative = (2 ^ 63 <=? b) /\ places = ff_precision f /\ N = (if b mod 2 ^ 63 <? 2 ^ 52 then 0 else 1) * 16 ^ places).
Proof.
  intros F gs rep f al b [HF HA Hn HS HP Hpad] Hp Hb Hf Hc. destruct (double_hex b Hb Hf) as (S & ex & HX).
  rewrite (sign_bit b 63 ltac:(lia) Hb) in S. rewrite <- S. pose proof HX as (_ & Hm & _).
  destruct (hex_denotes_carry F gs rep f al _ _ _ _ ex HF HA Hn (or_intror HS) HP Hpad HX Hp (carries _ _ _ (lead_01 _) Hm (proj1 Hp) Hc))
    as (p & k & u & neg & N & pl & E & A1 & A2 & A3 & A4 & A5 & A6 & A7 & A8 & _).
  exists p, k, u, neg, N, pl, E. do 5 (split; [assumption|]). split; [exact A6|]. split; [exact A7|]. rewrite A8. f_equal. rewrite (subnormal_bits b Hb). reflexivity.
Qed.

(* ---- examples ---- *)
Definition hex_fmt (precision : Z) : float_fmt := mk_ffmt precision 0 NHex NegativeOnly false false.
Example C71_ex : hex_format FL8 [3] true (hex_fmt (-1)) default_align /\
  (* -0x1.8p+3 is -12 *)
  text_of FL8 (hex_fmt (-1)) default_align (double_of_bits 0xC028000000000000) = Some ([45; 48; 120; 49; 46; 56; 112; 43; 51], 9, 9) /\
  read_hex [45; 48; 120; 49; 46; 56; 112; 43; 51] = Some (true, 0x18, 1, 3) /\
  (hex_number 0x18 1 3 == inject_Z 12)%Q /\ (float_at binary64 (0xC028000000000000 mod 2 ^ 63) == inject_Z 12)%Q /\
  (* the smallest float: 2^-149 *)
  text_of FL8 (hex_fmt (-1)) default_align (float_of_bits 1) = Some ([48; 120; 48; 46; 48; 48; 48; 48; 48; 50; 112; 45; 49; 50; 54], 15, 15).
Proof. split; [split; [exact FL8_ok|exact default_align_ok|reflexivity|discriminate|reflexivity|cbn; lia]|]. repeat split; vm_compute; reflexivity. Qed.
Example C71_precision_ex : hex_format FL8 [3] true (hex_fmt 2) default_align /\
  (* 0x1.234p+0 with two digits *)
  2 ^ 52 < 2 * (2 ^ 52 - 0x3FF2340000000000 mod 2 ^ 52) * 16 ^ 2 /\
  text_of FL8 (hex_fmt 2) default_align (double_of_bits 0x3FF2340000000000) = Some ([48; 120; 49; 46; 50; 51; 112; 43; 48], 9, 9) /\
  2 * (2 ^ 52 - 0x3FFFFC0000000000 mod 2 ^ 52) * 16 ^ 2 < 2 ^ 52 /\
  text_of FL8 (hex_fmt 2) default_align (double_of_bits 0x3FFFFC0000000000) = Some ([48; 120; 49; 46; 48; 48; 112; 43; 48], 9, 9).
Proof. split; [split; [exact FL8_ok|exact default_align_ok|reflexivity|discriminate|reflexivity|cbn; lia]|]. repeat split; vm_compute; reflexivity. Qed.

Print Assumptions C71_double.
Print Assumptions C71_float.
Print Assumptions C71_double_injective.
Print Assumptions C71_float_injective.
Print Assumptions C71_double_precision_partial.
Print Assumptions C71_float_precision_partial.
Print Assumptions C71_precision_refuted.
Print Assumptions C71_double_carry_partial.
