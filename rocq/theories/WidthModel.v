(* Model of include/strf/width_t.hpp.  A width_t is represented by its
   underlying int32 [value_] (width = value_/65536).  Operations that can hit
   undefined behaviour return an option. *)
From Verif Require Import Base.

(* width_t.hpp:452-453 *)
Definition u_max : Z := 2147483647.
(* width_t.hpp:452-453 *)
Definition u_min : Z := -2147483648.
(* an underlying value that exists *)
Definition is_width (w : Z) : Prop := u_min <= w <= u_max.

(* width_t.hpp:50-53  width_t(int16_t) *)
Definition w_of_i16 (x : Z) : Z := to_i 32 (to_u 32 (to_u 32 (to_u 16 x) * 65536)).

(* width_t.hpp:55-69  width_t(IntT), signed, sizeof > 2 *)
Definition w_of_signed (x : Z) : Z :=
  if x <? -32768 then u_min
  else if 32767 <? x then u_max
  else to_i 32 (to_u 32 (to_u 32 (to_u 16 x) * 65536)).

(* width_t.hpp:71-81  width_t(UIntT), unsigned, sizeof >= 2; the shift result is
   at most 0x7FFF0000 so it cannot overflow whatever the promoted type *)
Definition w_of_unsigned (x : Z) : Z :=
  if x <=? 32767 then to_i 32 (x * 65536) else u_max.

(* width_t.hpp:92-101  sat_cast(UIntT) *)
Definition w_sat_cast_unsigned (x : Z) : Z :=
  if x <? 32768 then to_i 32 (x * 65536) else u_max.
(* width_t.hpp:102-115  sat_cast(IntT) *)
Definition w_sat_cast_signed (x : Z) : Z :=
  if 32768 <=? x then u_max
  else if x <=? -32768 then u_min
  else to_i 32 (to_u 32 (to_u 32 (to_i 32 x) * 65536)).

(* width_t.hpp:183-190  floor: arithmetic shift spelled with bit-or *)
Definition w_floor (w : Z) : Z :=
  let leftbits := if w <? 0 then 4294901760 else 0 in
  let result := Z.lor leftbits (Z.shiftr (to_u 32 w) 16) in
  to_i 16 (to_i 32 result).
(* width_t.hpp:191-195 *)
Definition w_nn_floor (w : Z) : Z :=
  to_u 16 (if 0 <=? w then Z.shiftr w 16 else 0).
(* width_t.hpp:196-200 *)
Definition w_nn_ceil (w : Z) : Z :=
  let nn := to_u 32 (if 0 <=? w then w else 0) in
  Z.shiftr (to_u 32 (nn + 65535)) 16.
(* width_t.hpp:201-207 *)
Definition w_ceil (w : Z) : Z :=
  if 0 <=? w then to_i 32 (Z.shiftr (to_u 32 (to_u 32 w + 65535)) 16)
  else if w =? u_min then -32768
  else - Z.shiftr (- w) 16.
(* width_t.hpp:208-217 *)
Definition w_round (w : Z) : Z :=
  let q := Z.land w 65535 in
  if 0 <=? w then
    let f := Z.shiftr w 16 in if q <=? 32768 then f else f + 1
  else
    let f := w_floor w in if 32768 <=? q then f + 1 else f.

(* width_t.hpp:222-225 unary minus; 227-236 += and -= : int32 arithmetic *)
Definition w_neg (w : Z) : option Z := chk_i 32 (- w).
(* width_t.hpp:227-231 *)
Definition w_add (a b : Z) : option Z := chk_i 32 (a + b).
(* width_t.hpp:232-236 *)
Definition w_sub (a b : Z) : option Z := chk_i 32 (a - b).

(* the clamping tail shared by sat_add / sat_sub: width_t.hpp:242-245 etc. *)
Definition sat_tail (r : Z) : Z :=
  if u_max <=? r then u_max else if r <=? u_min then u_min else to_i 32 r.

(* width_t.hpp:238-246 *)
Definition w_sat_add (a b : Z) : option Z := do r <- chk_i 64 (a + b) ; Some (sat_tail r).
(* width_t.hpp:251-260 (tag_i32); 247-250 (tag_i16) calls it *)
Definition w_sat_add_i32 (w x : Z) : option Z :=
  do r <- chk_i 64 (w + to_i 64 (to_u 64 (to_u 64 x * 65536))) ; Some (sat_tail r).
(* width_t.hpp:247-250 *)
Definition w_sat_add_i16 (w x : Z) : option Z := w_sat_add_i32 w x.
(* width_t.hpp:261-274 (tag_i64) *)
Definition w_sat_add_i64 (w x : Z) : option Z :=
  if 65536 <=? x then Some u_max
  else if x <=? -65536 then Some u_min
  else do r <- chk_i 64 (w + to_i 64 (to_u 64 (to_u 64 x * 65536))) ; Some (sat_tail r).
(* width_t.hpp:276-284 *)
Definition w_sat_sub (a b : Z) : option Z := do r <- chk_i 64 (a - b) ; Some (sat_tail r).
(* width_t.hpp:289-297; 285-288 *)
Definition w_sat_sub_i32 (w x : Z) : option Z :=
  do r <- chk_i 64 (w - to_i 64 (to_u 64 (to_u 64 x * 65536))) ; Some (sat_tail r).
(* width_t.hpp:285-288 *)
Definition w_sat_sub_i16 (w x : Z) : option Z := w_sat_sub_i32 w x.
(* width_t.hpp:298-312 : the thresholds are max<<17 and min<<17 *)
Definition w_sat_sub_i64 (w x : Z) : option Z :=
  if u_max * 131072 <=? x then Some u_min
  else if x <=? to_i 64 (to_u 64 (to_u 64 u_min * 131072)) then Some u_max
  else do r <- chk_i 64 (w - to_i 64 (to_u 64 (to_u 64 x * 65536))) ; Some (sat_tail r).

(* width_t.hpp:384-399  sat_mul(width_t); C++ division truncates: Z.quot *)
Definition w_sat_mul (a b : Z) : option Z :=
  do tmp <- chk_i 64 (a * b) ;
  Some (if 140737488355328 <=? tmp then u_max
        else if tmp <? to_i 64 (to_u 64 (to_u 64 u_min * 65536)) then u_min
        else to_i 32 (Z.quot tmp 65536)).
(* width_t.hpp:313-316 *)
Definition w_sat_mul_i16 (w x : Z) : option Z := w_sat_mul w (w_of_i16 x).
(* width_t.hpp:318-337 *)
Definition w_sat_mul_i64 (w x : Z) : option Z :=
  if w =? 0 then Some w
  else
    let sat := Some (if xorb (w <? 0) (x <? 0) then u_min else u_max) in
    if (u_min <=? x) && (x <=? u_max) then
      do r <- chk_i 64 (x * w) ;
      if (u_min <=? r) && (r <=? u_max) then Some (to_i 32 r) else sat
    else sat.
(* width_t.hpp:338-356 *)
Definition w_sat_mul_u64 (w x : Z) : option Z :=
  if w =? 0 then Some w
  else
    let sat := Some (if 0 <=? w then u_max else u_min) in
    if x <=? u_max then
      do r <- chk_i 64 (to_i 64 x * w) ;
      if (u_min <=? r) && (r <=? u_max) then Some (to_i 32 r) else sat
    else sat.
(* width_t.hpp:357-369 *)
Definition w_sat_mul_i32 (w x : Z) : option Z :=
  do r <- chk_i 64 (x * w) ;
  Some (if (u_min <=? r) && (r <=? u_max) then to_i 32 r
        else if xorb (w <? 0) (x <? 0) then u_min else u_max).
(* width_t.hpp:371-382 *)
Definition w_sat_mul_u32 (w x : Z) : option Z :=
  do r <- chk_i 64 (to_i 64 x * to_i 64 (to_u 64 w)) ;
  Some (if (u_min <=? r) && (r <=? u_max) then to_i 32 r
        else if 0 <=? w then u_max else u_min).

(* width_t.hpp:401-404 *)
Definition w_mul := w_sat_mul.
(* width_t.hpp:406-414  operator/= ; None: division by zero *)
Definition w_div (a b : Z) : option Z :=
  let vu64 := to_u 32 a in
  if b =? 0 then None
  else Some (to_i 32 (Z.quot (to_i 64 (to_u 64 (vu64 * 65536))) b)).

(* width_t.hpp:416-448  compare(...) : the sign of the result is the answer *)
Definition w_cmp_i16 (w x : Z) : option Z :=
  chk_i 32 (w - to_i 32 (to_u 32 (to_u 32 (to_u 16 x) * 65536))).
(* width_t.hpp:421-426 *)
Definition w_cmp_u16 (w x : Z) : option Z :=
  if 32768 <=? x then Some (-1)
  else chk_i 32 (w - to_i 32 (to_u 32 (to_u 32 x * 65536))).
(* width_t.hpp:427-431 *)
Definition w_cmp_i32 (w x : Z) : option Z :=
  chk_i 64 (w - to_i 64 (to_u 64 (to_u 64 x * 65536))).
(* width_t.hpp:432-436 *)
Definition w_cmp_u32 (w x : Z) : option Z :=
  chk_i 64 (w - to_i 64 (to_u 64 (to_u 64 x * 65536))).
(* width_t.hpp:437-443 *)
Definition w_cmp_i64 (w x : Z) : option Z :=
  if 32768 <=? x then Some (-1)
  else if x <? -32768 then Some 1
  else chk_i 64 (w - to_i 64 (to_u 64 (to_u 64 x * 65536))).
(* width_t.hpp:444-449 *)
Definition w_cmp_u64 (w x : Z) : option Z :=
  if 32768 <=? x then Some (-1)
  else chk_i 64 (w - to_i 64 (to_u 64 (x * 65536))).
(* width_t.hpp:508-511  compare(IntT, width_t): the negated result *)
Definition w_cmp_rev (n : Z) (c : option Z) : option Z := do r <- c ; chk_i n (- r).

(* width_t.hpp:533-565  operator< etc. with an int16_t right operand *)
Definition w_lt_i16 (w x : Z) : option bool := do r <- w_cmp_i16 w x ; Some (r <? 0).
(* width_t.hpp:541-544 *)
Definition w_le_i16 (w x : Z) : option bool := do r <- w_cmp_i16 w x ; Some (r <=? 0).
(* width_t.hpp:550-553 *)
Definition w_gt_i16 (w x : Z) : option bool := do r <- w_cmp_i16 w x ; Some (0 <? r).
(* width_t.hpp:558-561 *)
Definition w_ge_i16 (w x : Z) : option bool := do r <- w_cmp_i16 w x ; Some (0 <=? r).
(* width_t.hpp:515-518 *)
Definition w_eq_i16 (w x : Z) : bool := w =? w_of_i16 x.
(* width_t.hpp:524-527 *)
Definition w_ne_i16 (w x : Z) : bool := negb (w =? w_of_i16 x).
(* with an int16_t left operand: width_t.hpp:519-522, 528-531 *)
Definition i16_eq_w (x w : Z) : bool := w_of_i16 x =? w.
(* width_t.hpp:528-531 *)
Definition i16_ne_w (x w : Z) : bool := negb (w_of_i16 x =? w).
(* width_t.hpp:537-540 *)
Definition i16_lt_w (x w : Z) : option bool := do r <- w_cmp_i16 w x ; Some (0 <? r).
(* width_t.hpp:545-548 *)
Definition i16_le_w (x w : Z) : option bool := do r <- w_cmp_i16 w x ; Some (0 <=? r).
(* width_t.hpp:554-557 *)
Definition i16_gt_w (x w : Z) : option bool := do r <- w_cmp_i16 w x ; Some (r <? 0).
(* width_t.hpp:562-565 *)
Definition i16_ge_w (x w : Z) : option bool := do r <- w_cmp_i16 w x ; Some (r <=? 0).
(* the operators + - * / with an int16_t on one side, width_t.hpp:573-655: the int16_t becomes a width_t *)
Definition i16_add_w (x w : Z) : option Z := w_add w (w_of_i16 x).
(* width_t.hpp:580-583 *)
Definition w_add_i16 (w x : Z) : option Z := w_add w (w_of_i16 x).
(* width_t.hpp:591-595 *)
Definition i16_sub_w (x w : Z) : option Z := w_sub (w_of_i16 x) w.
(* width_t.hpp:596-600 *)
Definition w_sub_i16 (w x : Z) : option Z := w_sub w (w_of_i16 x).
(* width_t.hpp:611-618 *)
Definition i16_mul_w (x w : Z) : option Z := w_mul (w_of_i16 x) w.
(* width_t.hpp:620-627 *)
Definition w_mul_i16 (w x : Z) : option Z := w_mul w (w_of_i16 x).
(* width_t.hpp:638-645 *)
Definition i16_div_w (x w : Z) : option Z := w_div (w_of_i16 x) w.
(* width_t.hpp:647-654 *)
Definition w_div_i16 (w x : Z) : option Z := w_div w (w_of_i16 x).

(* ---- operator""_w : width_t.hpp:655-853.  A literal is a list of integer
   digits and a list of fractional digits (each 0..9).  All the template
   constants are uint64 so every operation is reduced mod 2^64. *)

(* width_t.hpp:659-674 mp_pow10 *)
Fixpoint mp_pow10 (n : nat) : Z :=
  match n with O => 1 | S m => to_u 64 (10 * mp_pow10 m) end.

(* width_t.hpp:676-721 mp_round_up *)
Definition mp_round_up (prefer_up : bool) (ds : list Z) : bool :=
  match ds with
  | [] => false
  | d0 :: ds' => (5 <? d0) || ((d0 =? 5) && (prefer_up || existsb (fun d => negb (d =? 0)) ds'))
  end.

(* width_t.hpp:723-760 dec_frac_digits<N, D...> : (fvalue, fdigcount) *)
Fixpoint dec_frac_digits (n : nat) (ds : list Z) : Z * nat :=
  match n, ds with
  | _, [] => (0, O)
  | O, _ => (0, O)
  | S O, d0 :: ds' => (d0 + (if mp_round_up (Z.odd d0) ds' then 1 else 0), 1%nat)
  | S m, d0 :: ds' =>
      let r := dec_frac_digits m ds' in
      let cnt := S (snd r) in
      (to_u 64 (d0 * mp_pow10 (cnt - 1) + fst r), cnt)
  end.

(* width_t.hpp:804-813 mp_fp_parser_2<P, C0, Ch...> : (ivalue, idigcount) *)
Fixpoint mp_int_digits (ds : list Z) : Z * nat :=
  match ds with
  | [] => (0, O)
  | d :: ds' =>
      let r := mp_int_digits ds' in
      let cnt := S (snd r) in
      (to_u 64 (d * mp_pow10 (cnt - 1) + fst r), cnt)
  end.

(* width_t.hpp:815-831 mp_fixed_point_parser<16, C...>::abs_value *)
Definition mp_abs_value (ids fds : list Z) : Z :=
  let fv := fst (dec_frac_digits 16 fds) in
  let divisor := mp_pow10 (snd (dec_frac_digits 16 fds)) in
  let frac_ := to_u 64 (fv * 65536) / divisor in
  let rem_ := to_u 64 (fv * 65536) mod divisor in
  let round_up := (divisor / 2 <? rem_) || ((rem_ =? divisor / 2) && (Z.land frac_ 1 =? 1)) in
  let frac := to_u 64 (frac_ + (if round_up then 1 else 0)) in
  to_u 64 (to_u 64 (fst (mp_int_digits ids) * 65536) + frac).

(* width_t.hpp:836-853 mp_width_parser: None when the static_assert rejects it.
   A literal never contains a sign, so [negative] is false. *)
Definition w_literal (ids fds : list Z) : option Z :=
  let a := mp_abs_value ids fds in
  if a <? 4294967296 then Some (to_i 32 a) else None.
