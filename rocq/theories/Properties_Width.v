(* Property theorems C01-C07 about width_t (include/strf/width_t.hpp).
   A width is an underlying value v in [u_min,u_max] denoting v/65536;
   [scaled n] is the integer n in that unit; [clamp] is the nearest representable
   value.  [None] is C++ undefined behaviour. *)
From Verif Require Import Base WidthModel WidthProofs.

(* C01 *)
Theorem C01_width_from_int16 : forall x, -32768 <= x <= 32767 -> w_of_i16 x = clamp (scaled x).
Proof. exact of_i16. Qed.
Theorem C01_width_from_signed : forall x, w_of_signed x = clamp (scaled x).
Proof. exact of_signed. Qed.
Theorem C01_width_from_unsigned : forall x, 0 <= x -> w_of_unsigned x = clamp (scaled x).
Proof. exact of_unsigned. Qed.
Theorem C01_sat_cast_unsigned : forall x, 0 <= x -> w_sat_cast_unsigned x = clamp (scaled x).
Proof. exact sat_cast_unsigned. Qed.
Theorem C01_sat_cast_signed : forall x, w_sat_cast_signed x = clamp (scaled x).
Proof. exact sat_cast_signed. Qed.
Example C01_ex : w_of_signed 9000000000 = u_max /\ w_of_signed (-5) = scaled (-5).
Proof. vm_compute; split; reflexivity. Qed.
Print Assumptions C01_width_from_int16.
Print Assumptions C01_width_from_signed.
Print Assumptions C01_width_from_unsigned.
Print Assumptions C01_sat_cast_unsigned.
Print Assumptions C01_sat_cast_signed.

(* C02.  The full claim for the 64-bit subtraction is
     forall w x, is_width w -> in_i 64 x = true -> w_sat_sub_i64 w x = Some (clamp (w - scaled x))
   which is false of the code: refuted below. *)
Theorem C02_sat_add : forall a b, is_width a -> is_width b -> w_sat_add a b = Some (clamp (a + b)).
Proof. exact sat_add_ok. Qed.
Theorem C02_sat_sub : forall a b, is_width a -> is_width b -> w_sat_sub a b = Some (clamp (a - b)).
Proof. exact sat_sub_ok. Qed.
Theorem C02_sat_add_i32 : forall w x, is_width w -> -2147483648 <= x <= 2147483647 ->
  w_sat_add_i32 w x = Some (clamp (w + scaled x)).
Proof. exact sat_add_i32_ok. Qed.
Theorem C02_sat_sub_i32 : forall w x, is_width w -> -2147483648 <= x <= 2147483647 ->
  w_sat_sub_i32 w x = Some (clamp (w - scaled x)).
Proof. exact sat_sub_i32_ok. Qed.
Theorem C02_sat_add_i64 : forall w x, is_width w -> w_sat_add_i64 w x = Some (clamp (w + scaled x)).
Proof. exact sat_add_i64_ok. Qed.
(* int64: the result is right exactly when x << 16 and the difference fit 64 bits, or x is
   beyond the thresholds the code tests (2^17 times the extreme widths) *)
Theorem C02_sat_sub_i64_partial : forall w x, is_width w -> - 2 ^ 63 <= x < 2 ^ 63 ->
  (w_sat_sub_i64 w x = Some (clamp (w - scaled x)) <->
   281474976579584 <= x \/ x <= -281474976710656 \/
   (- 2 ^ 47 <= x < 2 ^ 47 /\ - 2 ^ 63 <= w - 65536 * x < 2 ^ 63)).
Proof. exact sat_sub_i64_iff. Qed.
Theorem C02_sat_sub_i64_refuted :
  w_sat_sub_i64 0 140737488355329 = Some u_max /\ clamp (0 - scaled 140737488355329) = u_min
  /\ w_sat_sub_i64 0 140737488355328 = None.
Proof. exact sat_sub_i64_bad. Qed.
(* 16 bits: as 32 bits *)
Theorem C02_sat_add_i16 : forall w x, is_width w -> -32768 <= x <= 32767 -> w_sat_add_i16 w x = Some (clamp (w + scaled x)).
Proof. exact (fun w x Hw Hx => sat_add_i32_ok w x Hw ltac:(lia)). Qed.
Theorem C02_sat_sub_i16 : forall w x, is_width w -> -32768 <= x <= 32767 -> w_sat_sub_i16 w x = Some (clamp (w - scaled x)).
Proof. exact (fun w x Hw Hx => sat_sub_i32_ok w x Hw ltac:(lia)). Qed.
(* the operators that do not saturate, width and width or width and int16: exact, and defined, whenever the
   result is representable *)
Theorem C02_plain_operators : forall a b x, is_width a -> is_width b -> -32768 <= x <= 32767 ->
  (is_width (a + b) -> w_add a b = Some (a + b)) /\ (is_width (a - b) -> w_sub a b = Some (a - b)) /\
  (is_width (- a) -> w_neg a = Some (- a)) /\
  (is_width (a + scaled x) -> w_add_i16 a x = Some (a + scaled x) /\ i16_add_w x a = Some (a + scaled x)) /\
  (is_width (a - scaled x) -> w_sub_i16 a x = Some (a - scaled x)) /\
  (is_width (scaled x - a) -> i16_sub_w x a = Some (scaled x - a)).
Proof.
  intros a b x _ _ Hx. assert (w_of_i16 x = scaled x) as E by (apply i16_shift; exact Hx).
  unfold w_add_i16, i16_add_w, w_sub_i16, i16_sub_w. rewrite E.
  split; [apply add_iff|]. split; [apply sub_iff|]. split; [apply neg_iff|]. split; [intros H; split; apply add_iff; exact H|]. split; apply sub_iff.
Qed.
Example C02_ex : is_width 2147400000 /\ w_sat_add 2147400000 2147400000 = Some u_max.
Proof. split; [unfold is_width, u_min, u_max; lia | reflexivity]. Qed.
Print Assumptions C02_sat_add.
Print Assumptions C02_sat_sub.
Print Assumptions C02_sat_add_i32.
Print Assumptions C02_sat_add_i16.
Print Assumptions C02_sat_sub_i16.
Print Assumptions C02_plain_operators.
Print Assumptions C02_sat_sub_i32.
Print Assumptions C02_sat_add_i64.
Print Assumptions C02_sat_sub_i64_partial.
Print Assumptions C02_sat_sub_i64_refuted.

(* C03 *)
Theorem C03_sat_mul_i16 : forall w x, is_width w -> -32768 <= x <= 32767 ->
  w_sat_mul_i16 w x = Some (clamp (w * x)).
Proof. exact sat_mul_i16_ok. Qed.
Theorem C03_sat_mul_i32 : forall w x, is_width w -> -2147483648 <= x <= 2147483647 ->
  w_sat_mul_i32 w x = Some (clamp (w * x)).
Proof. exact sat_mul_i32_ok. Qed.
Theorem C03_sat_mul_u32 : forall w x, is_width w -> 0 <= x < 4294967296 ->
  w_sat_mul_u32 w x = Some (clamp (w * x)).
Proof. exact sat_mul_u32_ok. Qed.
Theorem C03_sat_mul_i64 : forall w x, is_width w -> w_sat_mul_i64 w x = Some (clamp (w * x)).
Proof. exact sat_mul_i64_ok. Qed.
Theorem C03_sat_mul_u64 : forall w x, is_width w -> 0 <= x -> w_sat_mul_u64 w x = Some (clamp (w * x)).
Proof. exact sat_mul_u64_ok. Qed.
Example C03_ex : w_sat_mul_i64 (-98304) 3 = Some (-294912) /\ w_sat_mul_i64 (-98304) 9223372036854775807 = Some u_min.
Proof. vm_compute; split; reflexivity. Qed.
Print Assumptions C03_sat_mul_i16.
Print Assumptions C03_sat_mul_i32.
Print Assumptions C03_sat_mul_u32.
Print Assumptions C03_sat_mul_i64.
Print Assumptions C03_sat_mul_u64.

(* C04.  [cmp_ok w x r]: r is a defined value whose sign is that of w - x.
   Full claim for int16/uint16 would have no hypothesis on the difference. *)
Theorem C04_compare_i32 : forall w x, is_width w -> -2147483648 <= x <= 2147483647 -> cmp_ok w x (w_cmp_i32 w x).
Proof. exact cmp_i32_ok. Qed.
Theorem C04_compare_u32 : forall w x, is_width w -> 0 <= x < 4294967296 -> cmp_ok w x (w_cmp_u32 w x).
Proof. exact cmp_u32_ok. Qed.
Theorem C04_compare_i64 : forall w x, is_width w -> cmp_ok w x (w_cmp_i64 w x).
Proof. exact cmp_i64_ok. Qed.
Theorem C04_compare_u64 : forall w x, is_width w -> 0 <= x -> cmp_ok w x (w_cmp_u64 w x).
Proof. exact cmp_u64_ok. Qed.
(* 16 bits: right exactly when the difference fits 32 bits *)
Theorem C04_compare_i16_partial : forall w x, is_width w -> -32768 <= x <= 32767 ->
  (cmp_ok w x (w_cmp_i16 w x) <-> is_width (w - scaled x)).
Proof. exact cmp_i16_iff. Qed.
Theorem C04_compare_u16_partial : forall w x, is_width w -> 0 <= x <= 65535 ->
  (cmp_ok w x (w_cmp_u16 w x) <-> 32768 <= x \/ is_width (w - scaled x)).
Proof. exact cmp_u16_iff. Qed.
(* the other way round: the sign of compare(x, w) tells the order of x and w *)
Theorem C04_compare_reversed : forall w x, is_width w ->
  (-2147483648 <= x <= 2147483647 -> cmp_rev_ok x w (w_cmp_rev 64 (w_cmp_i32 w x))) /\
  (0 <= x < 4294967296 -> cmp_rev_ok x w (w_cmp_rev 64 (w_cmp_u32 w x))) /\
  cmp_rev_ok x w (w_cmp_rev 64 (w_cmp_i64 w x)) /\
  (0 <= x -> cmp_rev_ok x w (w_cmp_rev 64 (w_cmp_u64 w x))).
Proof. exact (fun w x H => conj (rev_i32 w x H) (conj (rev_u32 w x H) (conj (rev_i64 w x H) (rev_u64 w x H)))). Qed.
Theorem C04_compare_reversed_i16_partial : forall w x, is_width w -> -32768 <= x <= 32767 ->
  (cmp_rev_ok x w (w_cmp_rev 32 (w_cmp_i16 w x)) <-> is_width (w - scaled x) /\ is_width (scaled x - w)).
Proof. exact rev_i16_iff. Qed.
(* == and != with an int16 are always right *)
Theorem C04_equality_i16 : forall w x, -32768 <= x <= 32767 ->
  w_eq_i16 w x = (w =? scaled x) /\ w_ne_i16 w x = negb (w =? scaled x) /\ i16_eq_w x w = (w =? scaled x) /\ i16_ne_w x w = negb (w =? scaled x).
Proof. exact eq_i16_ok. Qed.
(* <, <=, >, >= with an int16 on either side are right where the difference fits 32 bits,
   and undefined everywhere else *)
Theorem C04_operators_i16_partial : forall w x, is_width w -> -32768 <= x <= 32767 -> is_width (w - scaled x) ->
  w_lt_i16 w x = Some (w <? scaled x) /\ w_le_i16 w x = Some (w <=? scaled x) /\
  w_gt_i16 w x = Some (scaled x <? w) /\ w_ge_i16 w x = Some (scaled x <=? w) /\
  i16_lt_w x w = Some (scaled x <? w) /\ i16_le_w x w = Some (scaled x <=? w) /\
  i16_gt_w x w = Some (w <? scaled x) /\ i16_ge_w x w = Some (w <=? scaled x).
Proof. exact order_i16_ok. Qed.
Theorem C04_operators_i16_refuted : forall w x, -32768 <= x <= 32767 -> ~ is_width (w - scaled x) ->
  w_lt_i16 w x = None /\ w_le_i16 w x = None /\ w_gt_i16 w x = None /\ w_ge_i16 w x = None /\
  i16_lt_w x w = None /\ i16_le_w x w = None /\ i16_gt_w x w = None /\ i16_ge_w x w = None.
Proof. exact order_i16_bad. Qed.
(* width 32767 compared with the int16 -1: int overflow *)
Theorem C04_compare_i16_refuted : is_width (scaled 32767) /\ w_lt_i16 (scaled 32767) (-1) = None.
Proof. vm_compute; repeat split; congruence. Qed.
Example C04_ex : cmp_ok (scaled 3) 4 (w_cmp_i16 (scaled 3) 4) /\ is_width (scaled 3 - scaled 4).
Proof. split; [apply cmp_i16_ok|]; vm_compute; repeat split; congruence. Qed.
Print Assumptions C04_compare_i32.
Print Assumptions C04_compare_u32.
Print Assumptions C04_compare_i64.
Print Assumptions C04_compare_u64.
Print Assumptions C04_compare_i16_partial.
Print Assumptions C04_compare_u16_partial.
Print Assumptions C04_compare_i16_refuted.
Print Assumptions C04_compare_reversed.
Print Assumptions C04_compare_reversed_i16_partial.
Print Assumptions C04_equality_i16.
Print Assumptions C04_operators_i16_partial.
Print Assumptions C04_operators_i16_refuted.

(* C05 *)
Theorem C05_floor : forall w, is_width w -> scaled (w_floor w) <= w < scaled (w_floor w + 1).
Proof. exact floor_ok. Qed.
Theorem C05_ceil : forall w, is_width w -> scaled (w_ceil w - 1) < w <= scaled (w_ceil w).
Proof. exact ceil_ok. Qed.
Theorem C05_non_negative_floor : forall w, is_width w ->
  (0 <= w -> scaled (w_nn_floor w) <= w < scaled (w_nn_floor w + 1)) /\ (w < 0 -> w_nn_floor w = 0).
Proof. exact nn_floor_ok. Qed.
Theorem C05_non_negative_ceil : forall w, is_width w ->
  (0 <= w -> scaled (w_nn_ceil w - 1) < w <= scaled (w_nn_ceil w)) /\ (w < 0 -> w_nn_ceil w = 0).
Proof. exact nn_ceil_ok. Qed.
(* nearest integer, ties toward zero *)
Theorem C05_round : forall w, is_width w ->
  2 * Z.abs (scaled (w_round w) - w) <= 65536 /\
  (2 * Z.abs (scaled (w_round w) - w) = 65536 -> Z.abs (scaled (w_round w)) < Z.abs w).
Proof. exact round_ok. Qed.
Example C05_ex : w_floor (-1) = -1 /\ w_ceil (-1) = 0 /\ w_round (-98304) = -1 /\ w_round 98305 = 2.
Proof. vm_compute; repeat split; reflexivity. Qed.
Print Assumptions C05_floor.
Print Assumptions C05_ceil.
Print Assumptions C05_non_negative_floor.
Print Assumptions C05_non_negative_ceil.
Print Assumptions C05_round.

(* C06.  The product of v/65536 and v'/65536 is (v*v'/65536)/65536; Z.quot truncates. *)
Theorem C06_product : forall a b, is_width a -> is_width b ->
  w_mul a b = Some (clamp (Z.quot (a * b) 65536)).
Proof. exact sat_mul_ok. Qed.
(* with an int16 on one side: the same operators on the converted integer, so the product is the exact multiple, clamped *)
Theorem C06_product_int16 : forall w x, is_width w -> -32768 <= x <= 32767 ->
  w_mul_i16 w x = Some (clamp (w * x)) /\ i16_mul_w x w = Some (clamp (x * w)).
Proof.
  intros w x Hw Hx. assert (w_of_i16 x = scaled x) as E by (apply i16_shift; exact Hx). unfold w_mul_i16, i16_mul_w. rewrite E.
  assert (is_width (scaled x)) as HS by (unfold is_width, scaled, u_min, u_max; lia).
  change w_mul with w_sat_mul. rewrite !sat_mul_ok by assumption. unfold scaled.
  replace (w * (65536 * x)) with (w * x * 65536) by lia. replace (65536 * x * w) with (x * w * 65536) by lia.
  rewrite !Z.quot_mul by lia. split; reflexivity.
Qed.
Theorem C06_quotient_int16_partial : forall w x, is_width w -> -32768 <= x <= 32767 ->
  (x <> 0 -> 0 <= w -> w_div_i16 w x = Some (Z.quot w x)) /\
  (w <> 0 -> 0 <= x -> is_width (Z.quot (scaled x * 65536) w) -> i16_div_w x w = Some (Z.quot (scaled x * 65536) w)).
Proof.
  intros w x Hw Hx. assert (w_of_i16 x = scaled x) as E by (apply i16_shift; exact Hx). unfold w_div_i16, i16_div_w. rewrite E.
  assert (is_width (scaled x)) as HS by (unfold is_width, scaled, u_min, u_max; lia). split.
  - intros H0 H1. assert (Z.quot (w * 65536) (scaled x) = Z.quot w x) as EQ.
    { unfold scaled. replace (65536 * x) with (x * 65536) by lia. apply Z.quot_mul_cancel_r; lia. }
    rewrite <- EQ. apply div_iff; auto; [unfold scaled; lia|]. rewrite EQ. unfold is_width, u_min, u_max in *.
    pose proof (Z.quot_abs w x H0) as HA. pose proof (Z.quot_le_upper_bound (Z.abs w) (Z.abs x) (Z.abs w) ltac:(lia) ltac:(nia)) as HB. lia.
  - intros H0 H1 H2. apply div_iff; auto. left. unfold scaled. lia.
Qed.
(* full claim: without the condition on the right; exactly the quotients with a non-negative
   dividend, or a divisor v/65536 whose v divides 65536, are right *)
Theorem C06_quotient_partial : forall a b, is_width a -> is_width b -> b <> 0 ->
  is_width (Z.quot (a * 65536) b) ->
  (w_div a b = Some (Z.quot (a * 65536) b) <-> 0 <= a \/ 65536 mod b = 0).
Proof. exact div_iff. Qed.
Theorem C06_quotient_refuted : w_div (scaled (-1)) (scaled 2) = Some 2147450880 /\
   is_width (Z.quot (scaled (-1) * 65536) (scaled 2)) /\ Z.quot (scaled (-1) * 65536) (scaled 2) = -32768.
Proof. exact div_bad. Qed.
Example C06_ex_negative : w_div (scaled (-3)) 32768 = Some (scaled (-6)) /\ 65536 mod 32768 = 0 /\ is_width (scaled (-6)).
Proof. vm_compute; repeat split; congruence. Qed.
Example C06_ex : w_div (scaled 7) (scaled (-2)) = Some (-229376) /\ w_mul (scaled 3) 98304 = Some 294912.
Proof. vm_compute; split; reflexivity. Qed.
Print Assumptions C06_product.
Print Assumptions C06_product_int16.
Print Assumptions C06_quotient_int16_partial.
Print Assumptions C06_quotient_partial.
Print Assumptions C06_quotient_refuted.

(* C07.  [digits_value 0 ds] is the number written ds.  The literal I.F denotes
   I + F/10^|F|; the width v/65536 is within half a unit of it.  Full claim: any number of
   digits, with values above the maximum rejected or saturated. *)
Theorem C07_literal_partial : forall ids fds,
  Forall is_digit ids -> Forall is_digit fds ->
  (length ids <= 19)%nat -> (length fds <= 14)%nat -> digits_value 0 ids <= 32766 ->
  exists v, w_literal ids fds = Some v /\ is_width v /\
   2 * Z.abs (v * 10 ^ zlen fds
              - 65536 * (digits_value 0 ids * 10 ^ zlen fds + digits_value 0 fds)) <= 10 ^ zlen fds.
Proof. exact literal_ok. Qed.
(* any number of fractional digits: the digits after the 16th are rounded (nearest, ties to
   even), then the value is rounded to a multiple of 1/65536 the same way, provided the
   fraction digits so kept are below 2^48 (i.e. up to 14 digits, or enough leading zeros) *)
Theorem C07_literal_exact_partial : forall ids fds q,
  Forall is_digit ids -> Forall is_digit fds -> (length ids <= 19)%nat -> digits_value 0 ids <= 32766 ->
  let k := Z.min 16 (zlen fds) in
  nearest_even q (digits_value 0 fds) (10 ^ (zlen fds - k)) -> q < 2 ^ 48 ->
  exists v, w_literal ids fds = Some v /\ is_width v /\
   nearest_even (v - 65536 * digits_value 0 ids) (65536 * q) (10 ^ k).
Proof. exact literal_long. Qed.
Example C07_ex_exact : let ds := [0;1;5;6;2;4;9;9;9;9;9;9;9;9;9;9;5] in
  w_literal [1] ds = Some 66560 /\ nearest_even 156250000000000 (digits_value 0 ds) 10 /\ 156250000000000 < 2 ^ 48.
Proof. vm_compute. repeat split; try discriminate; reflexivity. Qed.
Print Assumptions C07_literal_exact_partial.
(* every literal, of any length, is right exactly when the kept fraction digits are below 2^48 and
   the value fits a width_t *)
Theorem C07_literal_iff_partial : forall ids fds q f,
  Forall is_digit ids -> Forall is_digit fds ->
  let k := Z.min 16 (zlen fds) in
  nearest_even q (digits_value 0 fds) (10 ^ (zlen fds - k)) -> nearest_even f (65536 * q) (10 ^ k) ->
  (w_literal ids fds = Some (65536 * digits_value 0 ids + f) <->
   q < 2 ^ 48 /\ 65536 * digits_value 0 ids + f < 2 ^ 31).
Proof. exact literal_iff. Qed.
(* and what every literal, right or wrong, denotes: the computation is done modulo 2^64 and
   rejected from 2^32 on *)
Theorem C07_literal_value : forall ids fds q f,
  Forall is_digit ids -> Forall is_digit fds ->
  let k := Z.min 16 (zlen fds) in
  nearest_even q (digits_value 0 fds) (10 ^ (zlen fds - k)) -> nearest_even f (65536 * (q mod 2 ^ 48)) (10 ^ k) ->
  w_literal ids fds = let a := (65536 * digits_value 0 ids + f) mod 2 ^ 64 in
     if a <? 2 ^ 32 then Some (if a <? 2 ^ 31 then a else a - 2 ^ 32) else None.
Proof. intros ids fds q f H1 H2 k H3 H4. exact (proj2 (literal_formula ids fds q f H1 H2 H3 H4)). Qed.
Example C07_ex_value : (* 281474976710656.5_w, i.e. 2^48 + 0.5, is 0.5 *)
  w_literal [2;8;1;4;7;4;9;7;6;7;1;0;6;5;6] [5] = Some 32768 /\ w_literal [7;0;0;0;0] [] = None /\
  nearest_even 5 (digits_value 0 [5]) 1 /\ nearest_even 32768 (65536 * (5 mod 2 ^ 48)) 10.
Proof. vm_compute. repeat split; try discriminate; reflexivity. Qed.
Print Assumptions C07_literal_iff_partial.
Print Assumptions C07_literal_value.
(* 40000_w is accepted and denotes -25536; 0.999999999999999_w is not 1 or anything near *)
Theorem C07_literal_refuted :
  w_literal [4;0;0;0;0] [] = Some (scaled (-25536)) /\
  w_literal [0] [9;9;9;9;9;9;9;9;9;9;9;9;9;9;9] = Some 10196.
Proof. vm_compute; split; reflexivity. Qed.
Example C07_ex : w_literal [2;5] [5] = Some 1671168 /\ digits_value 0 [2;5] = 25 /\ Forall is_digit [2;5].
Proof. repeat split; try reflexivity; repeat constructor; unfold is_digit; lia. Qed.
Print Assumptions C07_literal_partial.
Print Assumptions C07_literal_refuted.
