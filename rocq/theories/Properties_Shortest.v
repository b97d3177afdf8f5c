(* Theorems about the decimals printed for doubles and floats: C57, C58.

   A double is a number b of 64 bits, a float one of 32; b mod 2^63 (2^31) is its magnitude, finite below
   [infinity_bits].  ShortestSpec says what it means that a rational rounds to a magnitude and that a
   decimal s * 10^E is its shortest one. *)
From Verif Require Import Base GroupSpec DigitsSpec IntSpec IntModel WidthModel WidthProofs DestModel DestProofs UtfForms CharsetModel PrintModel
  FloatSpec FloatModel FloatInit FloatProofs FloatFast FloatRead FloatArgs Properties_Float.
From Verif Require Import ShortestSpec PrecisionSpec DragonModel DragonArith DragonFormats FloatBits PrecisionProofs.
Local Open Scope Z_scope.

(* ---- dragonbox::to_decimal, given the exponent and mantissa fields ---- *)
Theorem C57_shortest_double : forall exponent mantissa, 0 <= exponent < 2047 -> 0 <= mantissa < 2 ^ 52 -> exponent <> 0 \/ mantissa <> 0 ->
  exists s E, to_decimal64 exponent mantissa = Some (s, E) /\ shortest_decimal binary64 (exponent * 2 ^ 52 + mantissa) s E.
Proof. intros be mb H1 H2 H3. destruct (shortest64 be mb H1 H2 H3) as (s & E & R & S & _). exists s, E. split; assumption. Qed.
Theorem C57_shortest_float : forall exponent mantissa, 0 <= exponent < 255 -> 0 <= mantissa < 2 ^ 23 -> exponent <> 0 \/ mantissa <> 0 ->
  exists s E, to_decimal32 exponent mantissa = Some (s, E) /\ shortest_decimal binary32 (exponent * 2 ^ 23 + mantissa) s E.
Proof. intros be mb H1 H2 H3. destruct (shortest32 be mb H1 H2 H3) as (s & E & R & S & _). exists s, E. split; assumption. Qed.
(* the portable multiplications give what those with 128-bit integers give *)
Theorem C57_portable : forall x y, 0 <= x < 2 ^ 64 -> 0 <= y < 2 ^ 64 ->
  umul128_upper64_portable x y = x * y / 2 ^ 64 /\
  fst (umul128_portable x y) * 2 ^ 64 + snd (umul128_portable x y) = x * y /\
  (x < 2 ^ 32 -> umul96_upper32_portable x y = x * y / 2 ^ 64).
Proof.
  intros x y Hx Hy. destruct (umul128_portable_ok x y Hx Hy) as (A & B). split; [|split; [exact B|]].
  - rewrite A. unfold umul128_upper64. apply Z.shiftr_div_pow2. lia.
  - intros H. rewrite (umul96_portable_ok x y) by lia. apply umul96_upper32_ok; lia.
Qed.

(* ---- what is printed ---- *)
(* the decimal printed for a finite value: the shortest one, without trailing zeros; for 0 it is 0 *)
Theorem C57_double_decimal : forall b, 0 <= b < 2 ^ 64 -> b mod 2 ^ 63 < infinity_bits binary64 ->
  exists m e, finite_float (double_of_bits b) m e /\ decimal_ok m e /\ canonical m /\ (b mod 2 ^ 63 = 0 -> m = 0) /\
    (0 < b mod 2 ^ 63 -> shortest_decimal binary64 (b mod 2 ^ 63) m e).
Proof. intros b H1 H2. destruct (double_shown b H1 H2) as (m & e & _ & A & B & C & D & E & _). exists m, e. auto. Qed.
Theorem C57_float_decimal : forall b, 0 <= b < 2 ^ 32 -> b mod 2 ^ 31 < infinity_bits binary32 ->
  exists m e, finite_float (float_of_bits b) m e /\ decimal_ok m e /\ canonical m /\ (b mod 2 ^ 31 = 0 -> m = 0) /\
    (0 < b mod 2 ^ 31 -> shortest_decimal binary32 (b mod 2 ^ 31) m e).
Proof. intros b H1 H2. destruct (float_shown b H1 H2) as (m & e & _ & A & B & C & D & E & _). exists m, e. auto. Qed.

(* without any format: the text is a sign and a number that rounds to the value's magnitude *)
Theorem C57_double_roundtrip : forall lc b, 0 <= b < 2 ^ 64 -> b mod 2 ^ 63 < infinity_bits binary64 ->
  exists p u N q E, fast_print lc (double_of_bits b) = Some p /\
    ops_text (pr_ops p) = (if b / 2 ^ 63 =? 1 then [45] else []) ++ u /\
    read_float u = Some (N, q, E) /\ rounds_to binary64 (dec_value N (E - q)) (b mod 2 ^ 63).
Proof. intros lc b H1 H2. destruct (double_shown b H1 H2) as (m & e & S & H). rewrite <- S. exact (default_reads binary64 lc _ _ m e H). Qed.
Theorem C57_float_roundtrip : forall lc b, 0 <= b < 2 ^ 32 -> b mod 2 ^ 31 < infinity_bits binary32 ->
  exists p u N q E, fast_print lc (float_of_bits b) = Some p /\
    ops_text (pr_ops p) = (if b / 2 ^ 31 =? 1 then [45] else []) ++ u /\
    read_float u = Some (N, q, E) /\ rounds_to binary32 (dec_value N (E - q)) (b mod 2 ^ 31).
Proof. intros lc b H1 H2. destruct (float_shown b H1 H2) as (m & e & S & H). rewrite <- S. exact (default_reads binary32 lc _ _ m e H). Qed.
(* in any decimal notation, if no precision is given ([decimal_body] is what C55 says is printed) *)
Theorem C57_double_notations : forall s b, usual s -> st_precision s = None -> st_notation s <> NHex ->
  0 <= b < 2 ^ 64 -> b mod 2 ^ 63 < infinity_bits binary64 ->
  exists m e N q E, finite_float (double_of_bits b) m e /\ read_float (decimal_body s m e) = Some (N, q, E) /\
    rounds_to binary64 (dec_value N (E - q)) (b mod 2 ^ 63).
Proof.
  intros s b U P Nt H1 H2. destruct (double_shown b H1 H2) as (m & e & _ & H). destruct (style_reads binary64 s _ _ m e H U P Nt) as (N & q & E & R & V).
  exists m, e, N, q, E. split; [exact (proj1 H)|]. split; assumption.
Qed.
Theorem C57_float_notations : forall s b, usual s -> st_precision s = None -> st_notation s <> NHex ->
  0 <= b < 2 ^ 32 -> b mod 2 ^ 31 < infinity_bits binary32 ->
  exists m e N q E, finite_float (float_of_bits b) m e /\ read_float (decimal_body s m e) = Some (N, q, E) /\
    rounds_to binary32 (dec_value N (E - q)) (b mod 2 ^ 31).
Proof.
  intros s b U P Nt H1 H2. destruct (float_shown b H1 H2) as (m & e & _ & H). destruct (style_reads binary32 s _ _ m e H U P Nt) as (N & q & E & R & V).
  exists m, e, N, q, E. split; [exact (proj1 H)|]. split; assumption.
Qed.

(* a number rounds to one magnitude only: reading gives the bits back *)
Theorem C57_rounds_unique : forall F v n n', F = binary64 \/ F = binary32 -> rounds_to F v n -> rounds_to F v n' -> n = n'.
Proof. intros F v n n' [-> | ->]; apply rounds_unique; cbn; lia. Qed.
(* different values have different texts *)
Theorem C57_double_injective : forall lc b b', 0 <= b < 2 ^ 64 -> b mod 2 ^ 63 < infinity_bits binary64 ->
  0 <= b' < 2 ^ 64 -> b' mod 2 ^ 63 < infinity_bits binary64 ->
  option_map (fun p => ops_text (pr_ops p)) (fast_print lc (double_of_bits b)) = option_map (fun p => ops_text (pr_ops p)) (fast_print lc (double_of_bits b')) ->
  b = b'.
Proof.
  intros lc b b' H1 H2 H3 H4 E. destruct (double_shown b H1 H2) as (m & e & S & H). destruct (double_shown b' H3 H4) as (m' & e' & S' & H').
  destruct (default_injective binary64 lc _ _ _ _ m e m' e' ltac:(cbn; lia) ltac:(cbn; lia) H H' E) as (A & B). rewrite S, S' in A. lia.
Qed.
Theorem C57_float_injective : forall lc b b', 0 <= b < 2 ^ 32 -> b mod 2 ^ 31 < infinity_bits binary32 ->
  0 <= b' < 2 ^ 32 -> b' mod 2 ^ 31 < infinity_bits binary32 ->
  option_map (fun p => ops_text (pr_ops p)) (fast_print lc (float_of_bits b)) = option_map (fun p => ops_text (pr_ops p)) (fast_print lc (float_of_bits b')) ->
  b = b'.
Proof.
  intros lc b b' H1 H2 H3 H4 E. destruct (float_shown b H1 H2) as (m & e & S & H). destruct (float_shown b' H3 H4) as (m' & e' & S' & H').
  destruct (default_injective binary32 lc _ _ _ _ m e m' e' ltac:(cbn; lia) ltac:(cbn; lia) H H' E) as (A & B). rewrite S, S' in A. lia.
Qed.

(* ---- with a precision the shortest decimal is rounded, not the value ---- *)
(* the decimal printed is nearest to m * 10^e (C55), but not to the double: 0.15 is below 15/100 and
   prints with one decimal as 0.2 *)
Theorem C58_precision_partial : forall b p, 0 <= b < 2 ^ 63 -> b < infinity_bits binary64 -> 0 <= p ->
  exists N m e, finite_float (double_of_bits b) m e /\ (0 < b -> shortest_decimal binary64 b m e) /\
    read_float (decimal_body (mk_style NFixed (Some p) false LLower [46] [44] (fun _ => false)) m e) = Some (N, p, 0) /\ nearest_decimal N (- p) m e.
Proof.
  intros b p H1 H2 Hp. assert (Em : b mod 2 ^ 63 = b) by (apply Z.mod_small; exact H1).
  destruct (C57_double_decimal b ltac:(lia) ltac:(rewrite Em; exact H2)) as (m & e & A & B & _ & _ & D). rewrite Em in D.
  destruct (C55_denotes_fixed (mk_style NFixed (Some p) false LLower [46] [44] (fun _ => false)) m e p) as (N & R & V); [split; reflexivity|apply B|exact Hp|reflexivity|reflexivity|].
  exists N, m, e. auto.
Qed.
Theorem C58_precision_refuted : ~ (forall b p, 0 <= b < 2 ^ 63 -> b < infinity_bits binary64 -> 0 <= p ->
  exists N m e, finite_float (double_of_bits b) m e /\
    read_float (decimal_body (mk_style NFixed (Some p) false LLower [46] [44] (fun _ => false)) m e) = Some (N, p, 0) /\
    forall N', (Qabs (dec_value N (- p) - float_at binary64 b) <= Qabs (dec_value N' (- p) - float_at binary64 b))%Q).
Proof.
  intros H. destruct (H 0x3FC3333333333333 1 ltac:(lia) ltac:(vm_compute; reflexivity) ltac:(lia)) as (N & m & e & (sn & mm & ex & Eb) & R & Nr).
  assert (Eb' : fl_bits (double_of_bits 0x3FC3333333333333) = BFinite false 0x3333333333333 (-3) 15 (-2)) by (vm_compute; reflexivity).
  rewrite Eb' in Eb. injection Eb as <- <- <- <- <-. assert (EN : N = 2).
  { assert (T : read_float (decimal_body (mk_style NFixed (Some 1) false LLower [46] [44] (fun _ => false)) 15 (-2)) = Some (2, 1, 0)) by (vm_compute; reflexivity).
    rewrite T in R. injection R as <-. reflexivity. }
  specialize (Nr 1). rewrite EN in Nr. vm_compute in Nr. apply Nr. reflexivity.
Qed.

(* exactly when it is nearest to the value ([rounded_from], PrecisionSpec): the digit dropped must not be a
   lone 5, or the tie broken to the side of the value *)
Theorem C58_double_fixed_exact_partial : forall s b p, usual s -> 0 <= p -> st_precision s = Some p -> st_notation s = NFixed ->
  0 <= b < 2 ^ 64 -> 0 < b mod 2 ^ 63 < infinity_bits binary64 ->
  exists m e, finite_float (double_of_bits b) m e /\ shortest_decimal binary64 (b mod 2 ^ 63) m e /\ exists N,
    read_float (decimal_body s m e) = Some (N, p, 0) /\ rounded_from binary64 (b mod 2 ^ 63) e (dec_value m e) N (- p).
Proof.
  intros s b p U Hp Ep En Hb Hf. destruct (double_shown b Hb ltac:(lia)) as (m & e & _ & H). exists m, e. split; [exact (proj1 H)|].
  split; [destruct H as (_ & _ & _ & _ & S & _); apply S; lia|]. exact (fixed_from binary64 _ (b mod 2 ^ 63) s m e p ltac:(cbn; lia) ltac:(lia) H U Hp Ep En).
Qed.
Theorem C58_double_scientific_exact_partial : forall s b p, usual s -> 0 <= p -> st_precision s = Some p -> st_notation s = NScientific ->
  0 <= b < 2 ^ 64 -> 0 < b mod 2 ^ 63 < infinity_bits binary64 ->
  exists m e, finite_float (double_of_bits b) m e /\ shortest_decimal binary64 (b mod 2 ^ 63) m e /\ exists N E,
    read_float (decimal_body s m e) = Some (N, p, E) /\ 10 ^ p <= N < 10 ^ (p + 1) /\ rounded_from binary64 (b mod 2 ^ 63) e (dec_value m e) N (E - p).
Proof.
  intros s b p U Hp Ep En Hb Hf. destruct (double_shown b Hb ltac:(lia)) as (m & e & _ & H). exists m, e. split; [exact (proj1 H)|].
  split; [destruct H as (_ & _ & _ & _ & S & _); apply S; lia|]. exact (sci_from binary64 _ (b mod 2 ^ 63) s m e p ltac:(cbn; lia) ltac:(lia) H U Hp Ep En).
Qed.
Theorem C58_double_general_exact_partial : forall s b p, usual s -> 0 <= p -> st_precision s = Some p -> st_notation s = NGeneral ->
  0 <= b < 2 ^ 64 -> 0 < b mod 2 ^ 63 < infinity_bits binary64 ->
  exists m e, finite_float (double_of_bits b) m e /\ shortest_decimal binary64 (b mod 2 ^ 63) m e /\ exists N q E N0 a,
    read_float (decimal_body s m e) = Some (N, q, E) /\ (dec_value N (E - q) == dec_value N0 a)%Q /\
    10 ^ (Z.max 1 p - 1) <= N0 < 10 ^ Z.max 1 p /\ rounded_from binary64 (b mod 2 ^ 63) e (dec_value m e) N0 a.
Proof.
  intros s b p U Hp Ep En Hb Hf. destruct (double_shown b Hb ltac:(lia)) as (m & e & _ & H). exists m, e. split; [exact (proj1 H)|].
  split; [destruct H as (_ & _ & _ & _ & S & _); apply S; lia|]. exact (general_from binary64 _ (b mod 2 ^ 63) s m e p ltac:(cbn; lia) ltac:(lia) H U Hp Ep En).
Qed.
Theorem C58_float_fixed_exact_partial : forall s b p, usual s -> 0 <= p -> st_precision s = Some p -> st_notation s = NFixed ->
  0 <= b < 2 ^ 32 -> 0 < b mod 2 ^ 31 < infinity_bits binary32 ->
  exists m e, finite_float (float_of_bits b) m e /\ shortest_decimal binary32 (b mod 2 ^ 31) m e /\ exists N,
    read_float (decimal_body s m e) = Some (N, p, 0) /\ rounded_from binary32 (b mod 2 ^ 31) e (dec_value m e) N (- p).
Proof.
  intros s b p U Hp Ep En Hb Hf. destruct (float_shown b Hb ltac:(lia)) as (m & e & _ & H). exists m, e. split; [exact (proj1 H)|].
  split; [destruct H as (_ & _ & _ & _ & S & _); apply S; lia|]. exact (fixed_from binary32 _ (b mod 2 ^ 31) s m e p ltac:(cbn; lia) ltac:(lia) H U Hp Ep En).
Qed.
Theorem C58_float_scientific_exact_partial : forall s b p, usual s -> 0 <= p -> st_precision s = Some p -> st_notation s = NScientific ->
  0 <= b < 2 ^ 32 -> 0 < b mod 2 ^ 31 < infinity_bits binary32 ->
  exists m e, finite_float (float_of_bits b) m e /\ shortest_decimal binary32 (b mod 2 ^ 31) m e /\ exists N E,
    read_float (decimal_body s m e) = Some (N, p, E) /\ 10 ^ p <= N < 10 ^ (p + 1) /\ rounded_from binary32 (b mod 2 ^ 31) e (dec_value m e) N (E - p).
Proof.
  intros s b p U Hp Ep En Hb Hf. destruct (float_shown b Hb ltac:(lia)) as (m & e & _ & H). exists m, e. split; [exact (proj1 H)|].
  split; [destruct H as (_ & _ & _ & _ & S & _); apply S; lia|]. exact (sci_from binary32 _ (b mod 2 ^ 31) s m e p ltac:(cbn; lia) ltac:(lia) H U Hp Ep En).
Qed.
Theorem C58_float_general_exact_partial : forall s b p, usual s -> 0 <= p -> st_precision s = Some p -> st_notation s = NGeneral ->
  0 <= b < 2 ^ 32 -> 0 < b mod 2 ^ 31 < infinity_bits binary32 ->
  exists m e, finite_float (float_of_bits b) m e /\ shortest_decimal binary32 (b mod 2 ^ 31) m e /\ exists N q E N0 a,
    read_float (decimal_body s m e) = Some (N, q, E) /\ (dec_value N (E - q) == dec_value N0 a)%Q /\
    10 ^ (Z.max 1 p - 1) <= N0 < 10 ^ Z.max 1 p /\ rounded_from binary32 (b mod 2 ^ 31) e (dec_value m e) N0 a.
Proof.
  intros s b p U Hp Ep En Hb Hf. destruct (float_shown b Hb ltac:(lia)) as (m & e & _ & H). exists m, e. split; [exact (proj1 H)|].
  split; [destruct H as (_ & _ & _ & _ & S & _); apply S; lia|]. exact (general_from binary32 _ (b mod 2 ^ 31) s m e p ltac:(cbn; lia) ltac:(lia) H U Hp Ep En).
Qed.
(* without a precision: less than one unit of the last digit printed from the value *)
Theorem C57_within_unit : forall F n m e, F = binary64 \/ F = binary32 -> 1 <= n < infinity_bits F -> shortest_decimal F n m e ->
  (Qabs (dec_value m e - float_at F n) < dec_value 1 e)%Q.
Proof. intros F n m e [-> | ->] Hn S; apply within_unit; try assumption; cbn; lia. Qed.

(* ---- examples ---- *)
Definition plain_text (x : decoded_float) : option (list Z) := option_map (fun p => ops_text (pr_ops p)) (fast_print LLower x).
(* 0.1, -1.5, 5e-324 (the smallest), 1.7976931348623157e+308 (the largest), 2^-1022 *)
Example C57_double_ex : 0x3FB999999999999A mod 2 ^ 63 < infinity_bits binary64 /\
  plain_text (double_of_bits 0x3FB999999999999A) = Some [48; 46; 49] /\
  plain_text (double_of_bits 0xBFF8000000000000) = Some [45; 49; 46; 53] /\
  plain_text (double_of_bits 1) = Some [53; 101; 45; 51; 50; 52] /\
  plain_text (double_of_bits 0x7FEFFFFFFFFFFFFF) = Some [49; 46; 55; 57; 55; 54; 57; 51; 49; 51; 52; 56; 54; 50; 51; 49; 53; 55; 101; 43; 51; 48; 56] /\
  to_decimal64 1 0 = Some (22250738585072014, -324) /\ to_decimal64 0x433 0 = Some (9007199254740992 / 2, 0).
Proof. repeat split; vm_compute; reflexivity. Qed.
(* 0.1f, 16777216f, 1e-45f, 3.4028235e+38f *)
Example C57_float_ex : 0x3DCCCCCD mod 2 ^ 31 < infinity_bits binary32 /\
  plain_text (float_of_bits 0x3DCCCCCD) = Some [48; 46; 49] /\
  plain_text (float_of_bits 0x4B800000) = Some [49; 54; 55; 55; 55; 50; 49; 54] /\
  plain_text (float_of_bits 1) = Some [49; 101; 45; 52; 53] /\
  to_decimal32 254 0x7FFFFF = Some (34028235, 31) /\ to_decimal32 0 1 = Some (1, -45).
Proof. repeat split; vm_compute; reflexivity. Qed.
Example C57_notations_ex : usual (mk_style NFixed None true LLower [46] [44] (boundary [3] true)) /\
  shortest_decimal binary32 0x3F800000 1 0.
Proof.
  split; [split; reflexivity|]. destruct (C57_shortest_float 127 0 ltac:(lia) ltac:(lia) ltac:(lia)) as (s & E & R & S).
  assert (T : to_decimal32 127 0 = Some (1, 0)) by (vm_compute; reflexivity). rewrite T in R. injection R as <- <-. exact S.
Qed.
(* 0.15 with one decimal: 15 * 10^-2 is half-way and the double is below it, 2 * 10^-1 above: not nearest.
   0.25: half-way and equal to the double: nearest.  0.125 with one decimal: not half-way *)
Example C58_exact_ex :
  (half_way 2 (-1) (dec_value 15 (-2)) /\ ~ same_side 2 (-1) (dec_value 15 (-2)) (float_at binary64 0x3FC3333333333333)) /\
  (half_way 2 (-1) (dec_value 25 (-2)) /\ same_side 2 (-1) (dec_value 25 (-2)) (float_at binary64 0x3FD0000000000000)) /\
  ~ half_way 1 (-1) (dec_value 125 (-3)) /\ 0 < 0x3FC3333333333333 mod 2 ^ 63 < infinity_bits binary64.
Proof.
  split; [split|split; [split|split]].
  - vm_compute. reflexivity.
  - intros (_ & H). specialize (H ltac:(vm_compute; reflexivity)). vm_compute in H. apply H. reflexivity.
  - vm_compute. reflexivity.
  - split; intros _; vm_compute; discriminate.
  - intros H. vm_compute in H. discriminate H.
  - split; vm_compute; reflexivity.
Qed.

Print Assumptions C57_shortest_double.
Print Assumptions C57_shortest_float.
Print Assumptions C57_portable.
Print Assumptions C57_double_decimal.
Print Assumptions C57_float_decimal.
Print Assumptions C57_double_roundtrip.
Print Assumptions C57_float_roundtrip.
Print Assumptions C57_double_notations.
Print Assumptions C57_float_notations.
Print Assumptions C57_rounds_unique.
Print Assumptions C57_double_injective.
Print Assumptions C57_float_injective.
Print Assumptions C58_precision_refuted.
Print Assumptions C58_precision_partial.
Print Assumptions C58_double_fixed_exact_partial.
Print Assumptions C58_double_scientific_exact_partial.
Print Assumptions C58_double_general_exact_partial.
Print Assumptions C58_float_fixed_exact_partial.
Print Assumptions C58_float_scientific_exact_partial.
Print Assumptions C58_float_general_exact_partial.
Print Assumptions C57_within_unit.
