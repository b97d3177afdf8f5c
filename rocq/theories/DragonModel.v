(* Shortest decimal of a float or double: include/strf/detail/dragonbox.hpp, as instantiated by
   to_decimal<float>, to_decimal<double> (3263-3340): rounding to nearest, ties to even in both
   directions, trailing zeros removed, full tables.  STRF_ASSERT, out-of-range shifts and table
   indexes, and signed overflow are the outcome None. *)
From Verif Require Import Base.
From Verif Require Export DragonTables.

(* x >> n, x << n on an unsigned type of b bits *)
Definition ushr (b x n : Z) : option Z := if (0 <=? n) && (n <? b) then Some (Z.shiftr x n) else None.
(* x << n on an unsigned type of b bits (dragonbox.hpp:2535-2551, 2620-2647, 2850) *)
Definition ushl (b x n : Z) : option Z := if (0 <=? n) && (n <? b) then Some (to_u b (Z.shiftl x n)) else None.
(* reading the i-th entry of a constant table (dragonbox.hpp:835, 2345): None outside it *)
Definition entry (t : list Z) (i : Z) : option Z := if 0 <=? i then nth_error t (Z.to_nat i) else None.

(* ---- wuint ---- *)
(* uint128 (467-523): high and low words *)
Definition high (c : Z) : Z := Z.shiftr c 64.
(* uint128::low() (467-523) *)
Definition low (c : Z) : Z := to_u 64 c.
(* umul128 (534-559) and umul128_upper64 (561-582): with unsigned __int128 *)
Definition umul128 (x y : Z) : Z := x * y.
(* dragonbox.hpp:561-567 *)
Definition umul128_upper64 (x y : Z) : Z := Z.shiftr (x * y) 64.
(* ... and without it *)
Definition umul64 (x y : Z) : Z := to_u 64 (x * y).
(* dragonbox.hpp:571-581 *)
Definition umul128_upper64_portable (x y : Z) : Z :=
  let a := to_u 32 (Z.shiftr x 32) in let b := to_u 32 x in
  let c := to_u 32 (Z.shiftr y 32) in let d := to_u 32 y in
  let ac := umul64 a c in let bc := umul64 b c in let ad := umul64 a d in let bd := umul64 b d in
  let intermediate := to_u 64 (to_u 64 (Z.shiftr bd 32 + to_u 32 ad) + to_u 32 bc) in
  to_u 64 (to_u 64 (to_u 64 (ac + Z.shiftr intermediate 32) + Z.shiftr ad 32) + Z.shiftr bc 32).
(* dragonbox.hpp:545-558 *)
Definition umul128_portable (x y : Z) : Z * Z :=
  let a := to_u 32 (Z.shiftr x 32) in let b := to_u 32 x in
  let c := to_u 32 (Z.shiftr y 32) in let d := to_u 32 y in
  let ad := umul64 a d in let bc := umul64 b c in let bd := umul64 b d in
  let intermediate := to_u 64 (to_u 64 (Z.shiftr bd 32 + to_u 32 ad) + to_u 32 bc) in
  (umul128_upper64_portable x y, to_u 64 (to_u 64 (Z.shiftl intermediate 32) + to_u 32 bd)).
(* umul192_upper64 (585-589) *)
Definition umul192_upper64 (x c : Z) : Z := high (to_u 128 (umul128 x (high c) + umul128_upper64 x (low c))).
(* umul192_middle64 (612-616) *)
Definition umul192_middle64 (x c : Z) : Z := to_u 64 (to_u 64 (x * high c) + umul128_upper64 x (low c)).
(* umul96_upper32 (592-609): with unsigned __int128, and without *)
Definition umul96_upper32 (x c : Z) : Z := to_u 32 (umul128_upper64 x c).
(* dragonbox.hpp:597-608 *)
Definition umul96_upper32_portable (x y : Z) : Z :=
  let c := to_u 32 (Z.shiftr y 32) in let d := to_u 32 y in
  let bc := umul64 x c in let bd := umul64 x d in
  to_u 32 (Z.shiftr (to_u 64 (Z.shiftr bd 32 + bc)) 32).
(* umul96_lower64 (619-621) *)
Definition umul96_lower64 (x c : Z) : Z := to_u 64 (x * c).

(* ---- log (662-766) ---- *)
(* floor_shift (666-679) *)
Definition floor_shift (integer_part fractional_digits shift : Z) : Z :=
  Z.lor (Z.shiftl integer_part shift) (Z.shiftr fractional_digits (64 - shift)).
(* dragonbox.hpp:696, 699: floor_log10_pow2_shift_amount is 22 *)
Definition log10_2 : Z := floor_shift 0 0x4d104d427de7fbcc 22.
(* dragonbox.hpp:697 *)
Definition log10_4_over_3 : Z := floor_shift 0 0x1ffbfc2bbc780375 22.
(* dragonbox.hpp:702-704 *)
Definition log2_10 : Z := floor_shift 3 0x5269e12f346e2bf9 19.
(* dragonbox.hpp:706, 708 *)
Definition log5_2 : Z := floor_shift 0 0x6e40d1a4143dcb94 20.
(* dragonbox.hpp:707 *)
Definition log5_3 : Z := floor_shift 0 0xaebf47915d443b24 20.
(* compute (682-695): at compile time, and at run time *)
Definition log_value (c s shift e : Z) : Z := Z.shiftr (e * c - s) shift.
(* dragonbox.hpp:682-693, run-time use: the input limit is asserted and int overflow is undefined *)
Definition log_compute (limit c s shift e : Z) : option Z :=
  if (e <=? limit) && (- limit <=? e) then
    do m <- chk_i 32 (e * c) ; do d <- chk_i 32 (m - s) ; Some (Z.shiftr d shift)
  else None.
(* floor_log10_pow2 (728-734), floor_log2_pow10 (736-742), floor_log5_pow2 (744-750),
   floor_log5_pow2_minus_log5_3 (752-759), floor_log10_pow2_minus_log10_4_over_3 (761-768) *)
Definition floor_log10_pow2 : Z -> option Z := log_compute 1700 log10_2 0 22.
(* dragonbox.hpp:733-739 *)
Definition floor_log2_pow10 : Z -> option Z := log_compute 1233 log2_10 0 19.
(* dragonbox.hpp:758-765 *)
Definition floor_log10_pow2_minus_log10_4_over_3 : Z -> option Z := log_compute 1700 log10_2 log10_4_over_3 22.
(* dragonbox.hpp:733-739 in a constant expression *)
Definition c_floor_log2_pow10 (e : Z) : Z := log_value log2_10 0 19 e.
(* dragonbox.hpp:741-747 in a constant expression *)
Definition c_floor_log5_pow2 (e : Z) : Z := log_value log5_2 0 20 e.
(* dragonbox.hpp:749-756 in a constant expression *)
Definition c_floor_log5_pow2_minus_log5_3 (e : Z) : Z := log_value log5_2 log5_3 20 e.

(* ---- div (773-947) ---- *)
(* divisible_by_power_of_5 (832-839) *)
Definition divisible_by_power_of_5 (bits : Z) (inv maxq : list Z) (x exp : Z) : option bool :=
  do i <- entry inv exp ; do q <- entry maxq exp ; Some (to_u bits (x * i) <=? q).
(* divisible_by_power_of_2 (841-854): with a mask *)
Definition divisible_by_power_of_2 (bits x exp : Z) : option bool :=
  if (1 <=? exp) && negb (x =? 0) then
    Some (if bits <=? exp then false else Z.land x (to_u bits (Z.shiftl 1 exp - 1)) =? 0)
  else None.
(* check_divisibility_and_divide_by_pow10 (880-901): quotient, and whether the remainder is 0 *)
Definition check_divisibility (N magic cmp_bits threshold shift n : Z) : option (Z * bool) :=
  if n <=? 10 ^ (N + 1) then
    let n1 := to_u 32 (n * magic) in
    let c := Z.land (Z.lor (Z.shiftr n1 N) (to_u 32 (Z.shiftl n1 (cmp_bits - N)))) (2 ^ cmp_bits - 1) in
    Some (Z.shiftr n1 shift, c <=? threshold)
  else None.
(* divide_by_pow10 (926-947): specialised for 64 bits and 1000 *)
Definition divide_by_1000_64 (n : Z) : Z := Z.shiftr (umul128_upper64 n 0x83126e978d4fdf3c) 9.

(* ---- the two formats: impl_base (2497-2750), impl (2752-2819) ---- *)
Record impl := mk_impl {
  im_bits : Z;             (* carrier_bits *)
  im_p : Z;                (* significand_bits *)
  im_min_exponent : Z; im_bias : Z;
  im_kappa : Z;
  im_min_k : Z; im_max_k : Z; im_cache : list Z;
  im_inv : list Z; im_maxq : list Z;    (* division_by_5<carrier_uint> *)
  im_mul : Z -> Z -> Z;                 (* compute_mul *)
  im_delta : Z -> Z -> option Z;        (* compute_delta *)
  im_parity : Z -> Z -> Z -> option bool;  (* compute_mul_parity *)
  im_left : Z -> Z -> option Z;         (* compute_left_endpoint_for_shorter_interval_case *)
  im_right : Z -> Z -> option Z;
  im_round_up : Z -> Z -> option Z;
  im_check_div : Z -> option (Z * bool);   (* check_divisibility_and_divide_by_pow10<kappa> *)
  im_div_big : Z -> Z;                  (* divide_by_pow10<kappa + 1, ...> *)
  im_strip : Z -> option (Z * Z) }.     (* remove_trailing_zeros: the new n, how many *)

(* one step "Is n divisible by 10^j?" of remove_trailing_zeros: the quotient if it is *)
Definition try_pow10 (j n : Z) : option (option Z) :=
  if Z.land n (2 ^ j - 1) =? 0 then
    do i <- entry mod_inv32 j ; do q <- entry max_quotients32 j ;
    let quotient := to_u 32 (Z.shiftr n j * i) in
    Some (if quotient <=? q then Some quotient else None)
  else Some None.
(* one test of dragonbox.hpp:2560-2589 or 2680-2700, and the bit it sets in the exponent *)
Definition try_step (j bit : Z) (ns : Z * Z) : option (Z * Z) :=
  do t <- try_pow10 j (fst ns) ;
  Some (match t with Some q => (q, Z.lor (snd ns) bit) | None => ns end).
(* 2553-2591 *)
Definition remove_trailing_zeros32 (n : Z) : option (Z * Z) :=
  do a <- try_step 4 4 (n, 0) ; do b <- try_step 2 2 a ; try_step 1 1 b.
(* 2649-2748 *)
Definition remove_trailing_zeros64 (n : Z) : option (Z * Z) :=
  let quotient_by_pow10_8 := to_u 32 (n / 10 ^ 8) in
  let remainder := to_u 32 (n - to_u 32 (100000000 * quotient_by_pow10_8)) in
  if remainder =? 0 then
    do t8 <- try_pow10 8 quotient_by_pow10_8 ;
    match t8 with
    | Some q => Some (q, 16)
    | None => do a <- try_step 4 4 (quotient_by_pow10_8, 8) ; do b <- try_step 2 2 a ; try_step 1 1 b
    end
  else
    do t4 <- try_pow10 4 remainder ;
    let r4 := match t4 with Some q => q | None => remainder end in
    let m4 := match t4 with Some _ => 10000 | None => 100000000 end in
    let s4 := match t4 with Some _ => 4 | None => 0 end in
    do t2 <- try_pow10 2 r4 ;
    let r2 := match t2 with Some q => q | None => r4 end in
    let m2 := match t2 with Some _ => if s4 =? 4 then 100 else 1000000 | None => m4 end in
    let s2 := match t2 with Some _ => Z.lor s4 2 | None => s4 end in
    do t1 <- try_pow10 1 r2 ;
    do i1 <- entry mod_inv32 1 ;
    let r1 := match t1 with Some q => q | None => r2 end in
    let m1 := match t1 with Some _ => to_u 32 (Z.shiftr m2 1 * i1) | None => m2 end in
    let s1 := match t1 with Some _ => Z.lor s2 1 | None => s2 end in
    Some (to_u 64 (r1 + to_u 64 (quotient_by_pow10_8 * m1)), s1).

(* float: 2497-2592, tables 1013-1102 *)
Definition impl32 : impl := {|
  im_bits := 32; im_p := 23; im_min_exponent := -126; im_bias := -127; im_kappa := 1;
  im_min_k := -31; im_max_k := 46; im_cache := cache32; im_inv := mod_inv32; im_maxq := max_quotients32;
  im_mul := umul96_upper32;
  im_delta := fun c beta => do d <- ushr 64 c (64 - 1 - beta) ; Some (to_u 32 d);
  im_parity := fun two_f c beta =>
    if (1 <=? beta) && (beta <? 64) then do b <- ushr 64 (umul96_lower64 two_f c) (64 - beta) ; Some (negb (Z.land b 1 =? 0)) else None;
  im_left := fun c beta => do a <- ushr 64 (to_u 64 (c - Z.shiftr c (23 + 2))) (64 - 23 - 1 - beta) ; Some (to_u 32 a);
  im_right := fun c beta => do a <- ushr 64 (to_u 64 (c + Z.shiftr c (23 + 1))) (64 - 23 - 1 - beta) ; Some (to_u 32 a);
  im_round_up := fun c beta => do a <- ushr 64 c (64 - 23 - 2 - beta) ; Some (to_u 32 (to_u 32 a + 1) / 2);
  im_check_div := check_divisibility 1 0xcccd 16 0x3333 19;
  im_div_big := fun n => n / 100;
  im_strip := remove_trailing_zeros32 |}.
(* double: 2595-2749, tables 1104-1733 *)
Definition impl64 : impl := {|
  im_bits := 64; im_p := 52; im_min_exponent := -1022; im_bias := -1023; im_kappa := 2;
  im_min_k := -292; im_max_k := 326; im_cache := cache64; im_inv := mod_inv64; im_maxq := max_quotients64;
  im_mul := umul192_upper64;
  im_delta := fun c beta => do d <- ushr 64 (high c) (64 - 1 - beta) ; Some (to_u 32 d);
  im_parity := fun two_f c beta =>
    if (1 <=? beta) && (beta <? 64) then do b <- ushr 64 (umul192_middle64 two_f c) (64 - beta) ; Some (negb (Z.land b 1 =? 0)) else None;
  im_left := fun c beta => ushr 64 (to_u 64 (high c - Z.shiftr (high c) (52 + 2))) (64 - 52 - 1 - beta);
  im_right := fun c beta => ushr 64 (to_u 64 (high c + Z.shiftr (high c) (52 + 1))) (64 - 52 - 1 - beta);
  im_round_up := fun c beta => do a <- ushr 64 (high c) (64 - 52 - 2 - beta) ; Some (to_u 64 (a + 1) / 2);
  im_check_div := check_divisibility 2 0x147c29 12 0xa3 27;
  im_div_big := divide_by_1000_64;
  im_strip := remove_trailing_zeros64 |}.

Section Impl.
Variable I : impl.
Let bits := im_bits I.
Let kappa := im_kappa I.

(* cache::full::get_cache (2336-2345) *)
Definition get_cache (k : Z) : option Z :=
  if (im_min_k I <=? k) && (k <=? im_max_k I) then entry (im_cache I) (k - im_min_k I) else None.

(* the compile-time thresholds (2793-2819) *)
Definition max_power_of_factor_of_5 : Z := c_floor_log5_pow2 (im_p I + 2).
(* dragonbox.hpp:2794-2795 *)
Definition divisibility_check_by_5_threshold : Z := c_floor_log2_pow10 (max_power_of_factor_of_5 + kappa + 1).
(* dragonbox.hpp:2797 *)
Definition case_fc_pm_half_lower_threshold : Z := - kappa - c_floor_log5_pow2 kappa.
(* dragonbox.hpp:2798 *)
Definition case_fc_pm_half_upper_threshold : Z := c_floor_log2_pow10 (kappa + 1).
(* dragonbox.hpp:2800 *)
Definition case_fc_lower_threshold : Z := - kappa - 1 - c_floor_log5_pow2 (kappa + 1).
(* dragonbox.hpp:2801 *)
Definition case_fc_upper_threshold : Z := c_floor_log2_pow10 (kappa + 1).
(* count_factors<5> (649-657), floor_log2 (717-726) *)
Fixpoint count_factors5 (fuel : nat) (n : Z) : Z :=
  match fuel with O => 0 | S fuel' => if n mod 5 =? 0 then 1 + count_factors5 fuel' (n / 5) else 0 end.
(* dragonbox.hpp:715-723 *)
Definition c_floor_log2 (n : Z) : Z := if n =? 0 then -1 else Z.log2 n.
(* dragonbox.hpp:2803 *)
Definition left_endpoint_lower_threshold : Z := 2.
(* dragonbox.hpp:2804-2809 *)
Definition left_endpoint_upper_threshold : Z :=
  2 + c_floor_log2 (10 ^ (count_factors5 64 (2 ^ (im_p I + 2) - 1) + 1) / 3).
(* dragonbox.hpp:2819-2820 *)
Definition tie_lower_threshold : Z := - c_floor_log5_pow2_minus_log5_3 (im_p I + 4) - 2 - im_p I.
(* dragonbox.hpp:2821-2822 *)
Definition tie_upper_threshold : Z := - c_floor_log5_pow2 (im_p I + 2) - 2 - im_p I.

(* is_product_integer, fc_pm_half (3208-3224) *)
Definition is_product_integer_pm_half (two_f exponent minus_k : Z) : option bool :=
  if exponent <? case_fc_pm_half_lower_threshold then Some false
  else if exponent <=? case_fc_pm_half_upper_threshold then Some true
  else if divisibility_check_by_5_threshold <? exponent then Some false
  else if 0 <=? minus_k then divisible_by_power_of_5 bits (im_inv I) (im_maxq I) two_f minus_k else None.
(* is_product_integer, fc (3225-3244) *)
Definition is_product_integer_fc (two_f exponent minus_k : Z) : option bool :=
  if divisibility_check_by_5_threshold <? exponent then Some false
  else if case_fc_upper_threshold <? exponent then
    (if 0 <=? minus_k then divisible_by_power_of_5 bits (im_inv I) (im_maxq I) two_f minus_k else None)
  else if case_fc_lower_threshold <=? exponent then Some true
  else divisible_by_power_of_2 bits two_f (minus_k - exponent + 1).

(* to_even::break_rounding_tie (2291-2295) *)
Definition break_rounding_tie (s : Z) : Z := if s mod 2 =? 0 then s else s - 1.

(* trailing_zero::remove::on_trailing_zeros (1866-1868) *)
Definition on_trailing_zeros (s e : Z) : option (Z * Z) := do r <- im_strip I s ; Some (fst r, e + snd r).

(* compute_nearest_normal (2823-2975), step 3: label small_divisor_case_label *)
Definition small_divisor_case (two_fc exponent minus_k cache beta deltai s r : Z) : option (Z * Z) :=
  let small := 10 ^ kappa in
  let s10 := to_u bits (s * 10) in
  let dist := to_u 32 (r - deltai / 2 + small / 2) in
  let approx_y_parity := negb (Z.land (Z.lxor dist (small / 2)) 1 =? 0) in
  do dd <- im_check_div I dist ;
  let s1 := to_u bits (s10 + fst dd) in
  if snd dd then
    do par <- im_parity I two_fc cache beta ;
    if negb (Bool.eqb par approx_y_parity) then Some (to_u bits (s1 - 1), minus_k + kappa)
    else do i <- is_product_integer_fc two_fc exponent minus_k ;
         Some (if i then break_rounding_tie s1 else s1, minus_k + kappa)
  else Some (s1, minus_k + kappa).
(* steps 1 and 2; [closed]: include_left_endpoint() and include_right_endpoint() *)
Definition compute_nearest_normal (two_fc exponent : Z) (closed : bool) : option (Z * Z) :=
  do l <- floor_log10_pow2 exponent ;
  let minus_k := l - kappa in
  do cache <- get_cache (- minus_k) ;
  do lb <- floor_log2_pow10 (- minus_k) ;
  let beta := exponent + lb in
  do deltai <- im_delta I cache beta ;
  let two_fr := Z.lor two_fc 1 in
  do u <- ushl bits two_fr beta ;
  let zi := im_mul I u cache in
  let big := 10 ^ (kappa + 1) in
  let s := im_div_big I zi in
  let r := to_u 32 (zi - to_u bits (big * s)) in
  let larger := on_trailing_zeros s (minus_k + kappa + 1) in
  let smaller s r := small_divisor_case two_fc exponent minus_k cache beta deltai s r in
  if deltai <? r then smaller s r
  else if r <? deltai then
    if (r =? 0) && negb closed then
      do i <- is_product_integer_pm_half two_fr exponent minus_k ;
      if i then smaller (to_u bits (s - 1)) big else larger
    else larger
  else
    let two_fl := two_fc - 1 in
    do left_out <- (if closed then do i <- is_product_integer_pm_half two_fl exponent minus_k ; Some (negb i) else Some true) ;
    if left_out then
      do par <- im_parity I two_fl cache beta ;
      if negb par then smaller s r else larger
    else larger.

(* compute_nearest_shorter (2977-3047): the interval is closed *)
Definition compute_nearest_shorter (exponent : Z) : option (Z * Z) :=
  do minus_k <- floor_log10_pow2_minus_log10_4_over_3 exponent ;
  do lb <- floor_log2_pow10 (- minus_k) ;
  let beta := exponent + lb in
  do cache <- get_cache (- minus_k) ;
  do xi0 <- im_left I cache beta ;
  do zi <- im_right I cache beta ;
  let xi := if negb ((left_endpoint_lower_threshold <=? exponent) && (exponent <=? left_endpoint_upper_threshold))
            then to_u bits (xi0 + 1) else xi0 in
  let s := zi / 10 in
  if xi <=? to_u bits (s * 10) then on_trailing_zeros s (minus_k + 1)
  else
    do s1 <- im_round_up I cache beta ;
    Some (if (tie_lower_threshold <=? exponent) && (exponent <=? tie_upper_threshold) then break_rounding_tie s1
          else if s1 <? xi then to_u bits (s1 + 1) else s1, minus_k).

(* to_decimal (3263-3340) *)
Definition to_decimal (exponent mantissa : Z) : option (Z * Z) :=
  let two_fc := to_u bits (Z.shiftl (to_u bits mantissa) 1) in
  let even := Z.rem mantissa 2 =? 0 in
  if negb (exponent =? 0) then
    let exponent' := exponent + (im_bias I - im_p I) in
    if two_fc =? 0 then compute_nearest_shorter exponent'
    else compute_nearest_normal (Z.lor two_fc (Z.shiftl 1 (im_p I + 1))) exponent' even
  else compute_nearest_normal two_fc (im_min_exponent I - im_p I) even.
End Impl.

(* to_decimal<float> (3260-), as called by input_types.hpp *)
Definition to_decimal32 : Z -> Z -> option (Z * Z) := to_decimal impl32.
(* to_decimal<double> *)
Definition to_decimal64 : Z -> Z -> option (Z * Z) := to_decimal impl64.
