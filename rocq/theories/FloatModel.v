(* Floating-point values: include/strf/detail/printable_types/float.hpp.

   dragonbox::to_decimal, which gives the decimal significand m10 (a std::uint64_t) and exponent
   e10 of a finite value, is an input of this model: it is modelled in DragonModel and put in
   place in FloatBits.
   chars_count_t is int.  The sums of character counts are of non-negative terms, so that
   instead of checking every addition the model checks that the greatest one, the content
   width (and each fill count), is representable: [None] otherwise. *)
From Verif Require Import Base WidthModel DestModel GroupModel DigitsModel CharsetModel IntSpec IntModel FloatSpec
  PrintModel.

(* pow10, int_digits.hpp:30-50 *)
Definition pow10 (n : Z) : option Z := if (0 <=? n) && (n <=? 19) then Some (10 ^ n) else None.

(* ---- writing ---- *)
(* write_int_with_leading_zeros<10>, 730-747 *)
Definition write_leading_zeros (v digcount : Z) : option (list op) :=
  do u <- write_back B10 true v ;
  if zlen u <=? digcount then
    Some [OReserve (Z.to_nat digcount) (repeat 48 (Z.to_nat (digcount - zlen u)) ++ u)]
  else None.                                                     (* STRF_ASSERT(p2 >= p) *)

(* n characters '0', as stored with str_fill_n or write_fill (e.g. 776, 898) *)
Definition zeros (n : Z) : list Z := repeat 48 (Z.to_nat n).
(* a separator and a group of n zeros *)
Definition zero_group (encsep : list Z) (sep_size n : Z) : op :=
  OReserve (Z.to_nat (sep_size + n)) (encsep ++ zeros n).
(* while ( ! dist.low_groups.empty()): 777-786, 889-898, 949-956, 1058-1066 *)
Fixpoint zero_low (fuel : nat) (encsep : list Z) (sep_size low : Z) : option (list op) :=
  if rdg_empty low then Some [] else
  match fuel with
  | O => None
  | S fuel' => do q <- zero_low fuel' encsep sep_size (rdg_pop_high low) ;
               Some (zero_group encsep sep_size (rdg_highest low) :: q)
  end.
(* print_amplified_integer_small_separator_1, 749-787 (encsep: one unit), and
   print_amplified_integer_big_separator_1, 921-957; the assertion (757, 931: num_digits <= highest
   group) is the caller's test *)
Definition amplified_1 (encsep : list Z) (sep_size v num_digits : Z) (d : distribution) : option (list op) :=
  do u <- write_back B10 true v ; do o1 <- reserve_back num_digits num_digits u ;
  let o2 := OFill (dist_highest d - num_digits) 48 in
  if dist_middle d =? 0 then
    do o4 <- zero_low 8 encsep sep_size (dist_low d) ; Some (o1 ++ o2 :: o4)
  else
    let o3 := repeat (zero_group encsep sep_size (rdg_highest (dist_low d))) (Z.to_nat (dist_middle d)) in
    do o4 <- zero_low 8 encsep sep_size (rdg_pop_high (dist_low d)) ; Some (o1 ++ o2 :: o3 ++ o4).

(* a separator, digits and zeros: the partial group.  big separators: one piece, 1001-1013; small
   ones: the zeros are written afterwards with write_fill, 833-843 *)
Definition partial_group (small : bool) (encsep : list Z) (sep_size grp : Z) (digits : list Z) : list op :=
  if small then [OReserve (Z.to_nat (1 + zlen digits)) (encsep ++ digits); OFill (grp - zlen digits) 48]
  else [OReserve (Z.to_nat (sep_size + grp)) (encsep ++ digits ++ zeros (grp - zlen digits))].
(* a middle group of zeros: 845-849 (put and write_fill), 1014-1020 *)
Definition zero_middle (small : bool) (encsep : list Z) (sep_size grp : Z) : list op :=
  if small then map OPut encsep ++ [OFill grp 48] else [zero_group encsep sep_size grp].
(* the middle groups: 818-852, 987-1022.  [inl digits]: goto lower_groups with these digits
   left; [inr tt]: goto lower_groups_in_trailing_zeros *)
Fixpoint middle_groups (n : nat) (small : bool) (encsep : list Z) (sep_size grp : Z) (digits : list Z)
    : list op * option (list Z) :=
  match n with
  | O => ([], Some digits)
  | S n' =>
      if grp <=? zlen digits then
        let o := OReserve (Z.to_nat (sep_size + grp)) (encsep ++ firstn (Z.to_nat grp) digits) in
        let '(os, r) := middle_groups n' small encsep sep_size grp (skipn (Z.to_nat grp) digits) in (o :: os, r)
      else
        let o1 := if 0 <? zlen digits then partial_group small encsep sep_size grp digits else [] in
        let k := if 0 <? zlen digits then n' else n in
        (o1 ++ concat (repeat (zero_middle small encsep sep_size grp) k), None)
  end.
(* lower_groups: 853-887, 1025-1056; [low] has not been popped.  The low groups must not run out
   (STRF_ASSERT) *)
Fixpoint lower_groups (fuel : nat) (encsep : list Z) (sep_size low : Z) (digits : list Z) : option (list op * Z) :=
  match fuel with
  | O => None
  | S fuel' =>
      if rdg_empty low then None
      else
        let grp := rdg_highest low in
        let low' := rdg_pop_high low in
        if grp <? zlen digits then
          let o := OReserve (Z.to_nat (sep_size + grp)) (encsep ++ firstn (Z.to_nat grp) digits) in
          do r <- lower_groups fuel' encsep sep_size low' (skipn (Z.to_nat grp) digits) ; Some (o :: fst r, snd r)
        else
          let o1 := OReserve (Z.to_nat (sep_size + zlen digits)) (encsep ++ digits) in
          let o2 := if zlen digits <? grp then [OReserve (Z.to_nat (grp - zlen digits)) (zeros (grp - zlen digits))] else [] in
          Some (o1 :: o2, low')
  end.
(* print_amplified_integer_small_separator_2, 789-899, and big_separator_2, 959-1067.  [None] also
   when num_digits is not the number of digits of the value (digits that were not written would be
   copied).  The assertions that bound what is reserved (861, 873, 881, 892, 1033, 1043, 1050, 1061) are
   those of ensure(), in OReserve; those on middle_groups_count and num_digits (817, 831, 832, 844, 850,
   855, 857, 872, 1001, 1002, 1013, 1021, 1027) restate the tests just made *)
Definition amplified_2 (small : bool) (encsep : list Z) (sep_size v num_digits : Z) (d : distribution) : option (list op) :=
  do digits <- write_back B10 true v ;
  if (max_num_digits B10 S8 <? zlen digits) || negb (zlen digits =? num_digits) then None
  else
  let h := dist_highest d in
  if (0 <? h) && (h <? zlen digits) then
    let o1 := OReserve (Z.to_nat h) (firstn (Z.to_nat h) digits) in
    let digits := skipn (Z.to_nat h) digits in
    let '(o2, rest, low) :=
      if dist_middle d =? 0 then ([], Some digits, dist_low d)
      else let '(o, l) := middle_groups (Z.to_nat (dist_middle d)) small encsep sep_size (rdg_highest (dist_low d)) digits in
           (o, l, rdg_pop_high (dist_low d)) in
    do r <- match rest with
            | Some ds => if 0 <? zlen ds then lower_groups 8 encsep sep_size low ds else Some ([], low)
            | None => Some ([], low)
            end ;
    do o4 <- zero_low 8 encsep sep_size (snd r) ;
    Some (o1 :: o2 ++ fst r ++ o4)
  else None.
(* print_amplified_integer_small_separator, 901-919, and big_separator, 1069-1088 *)
Definition amplified (small : bool) (g : Z) (encsep : list Z) (sep_size v num_digits trailing : Z) : option (list op) :=
  do d <- distribute g (num_digits + trailing) ;
  if num_digits <=? dist_highest d then amplified_1 encsep sep_size v num_digits d
  else amplified_2 small encsep sep_size v num_digits d.

(* it[0] ...: letter, sign and two or three digits, 1136-1164 and 1357-1377 *)
Definition exponent_units (lc : lettercase) (e : Z) : option (list Z) :=
  let a := Z.abs e in
  let c := Z.lor 69 (Z.shiftl (b2i (low_prefix lc)) 5) in
  let s := 43 + Z.shiftl (b2i (e <? 0)) 1 in
  if 1000 <=? a then None                                        (* STRF_ASSERT(abs_e10 < 1000) *)
  else if 100 <=? a then Some [c; s; 48 + a / 10 / 10; 48 + (a / 10) mod 10; 48 + a mod 10]
  else if 10 <=? a then Some [c; s; 48 + a / 10; 48 + a mod 10]
  else Some [c; s; 48; 48 + a].
(* print_scientific_notation, 1090-1163; [point]: what is stored for the decimal point *)
Definition print_sci (m digcount : Z) (point : list Z) (point_size e : Z) (showpoint : bool) (extra : Z) (lc : lettercase)
    : option (list op) :=
  do o1 <- (if digcount =? 1 then
              Some (OReserve (Z.to_nat (1 + b2i showpoint * point_size)) ((48 + m) :: if showpoint then point else []))
            else
              do u <- write_back B10 true m ;
              if (zlen u =? digcount) && (zlen point =? point_size) then
                Some (OReserve (Z.to_nat (digcount + point_size)) (hd 0 u :: point ++ tl u))
              else None) ;
  do x <- exponent_units lc e ;
  Some [o1; OFill extra 48; OReserve (Z.to_nat (zlen x)) x].

(* print_nan: 1165-1188 (and 1189-1215 with a sign) *)
Definition print_nan (lc : lettercase) : op :=
  OReserve 3 (match lc with LMixed => [78; 97; 78] | LUpper => [78; 65; 78] | LLower => [110; 97; 110] end).
(* print_inf, 1217-1239 (and 1241-1268 with a sign) *)
Definition print_inf (lc : lettercase) : op :=
  OReserve 3 (match lc with LMixed => [73; 110; 102] | LUpper => [73; 78; 70] | LLower => [105; 110; 102] end).

(* ---- double_printer_data, 1480-1523 ---- *)
Inductive form := FormNan | FormInf | FormFixed | FormSci | FormHex.
(* the part that describes the digits: m10 / mantissa, e10 / exponent, m10_digcount /
   mantissa_digcount, sep_count / exponent_digcount, extra_zeros, showpoint, sub_chars_count *)
Record num := mk_num {
  n_form : form; n_m : Z; n_e : Z; n_digcount : Z; n_seps : Z; n_extra : Z; n_point : bool; n_sub : Z }.

(* the conversion bool to int *)
Definition b2z (b : bool) : Z := if b then 1 else 0.
(* 1321, 1642, 1705, 1818, 2000: a third digit of the exponent *)
Definition far (e : Z) : Z := b2z ((99 <? e) || (e <? -99)).

(* count_digits<10>(m10) *)
Definition digcount10 (m : Z) : Z := count_digits false B10 S8 m.

(* m10 without its last k digits, rounded: e.g. 1760-1770 *)
Definition drop_digits (k m : Z) : option Z :=
  do p10 <- pow10 k ;
  let remainer := m mod p10 in
  let q := m / p10 in
  let middle := Z.shiftr p10 1 in
  Some (if (middle <? remainer) || ((remainer =? middle) && (Z.land q 1 =? 1)) then q + 1 else q).

(* init_double_data_with_precision_general_1digit, 1629-1675; m10 = 1, m10_digcount = 1;
   [seps], [extra]: what the members hold *)
Definition general_1digit (g : Z) (showsign : bool) (e10 seps extra prec : Z) (alt : bool) : option num :=
  let prec := if prec =? 0 then 1 else prec in
  if (e10 <? -4) || (prec <=? e10) then
    let sub := b2z showsign + 5 + far e10 in
    Some (if alt then mk_num FormSci 1 e10 1 seps (prec - 1) true (sub + (prec - 1) + 1)
          else mk_num FormSci 1 e10 1 seps extra false sub)
  else if e10 <? 0 then
    let sub := 2 - e10 in                                         (* the sign is not counted *)
    Some (if alt then mk_num FormFixed 1 e10 1 seps (prec - 1) true (sub + (prec - 1))
          else mk_num FormFixed 1 e10 1 seps extra true sub)
  else
    let int_digcount := 1 + e10 in
    do sc <- separators_count g int_digcount ;
    let sub := 1 + e10 + sc + b2z alt in
    Some (if alt && (int_digcount <? prec) then
            mk_num FormFixed 1 e10 1 sc (prec - int_digcount) alt (sub + (prec - int_digcount))
          else mk_num FormFixed 1 e10 1 sc extra alt sub).

(* the loop that removes trailing fractional zeros, 1778-1792: m10, m10_digcount,
   sub_chars_count, e10, has_fractional_digits *)
Fixpoint strip_loop (fuel : nat) (m digcount sub e int_digcount : Z) : option (Z * Z * Z * Z * bool) :=
  match fuel with
  | O => None
  | S fuel' =>
      if digcount <=? int_digcount then Some (m, digcount, sub, e, false)
      else if negb (m mod 10 =? 0) then Some (m, digcount, sub, e, true)
      else strip_loop fuel' (m / 10) (digcount - 1) (sub - 1) (e + 1) int_digcount
  end.
(* remove_fractional_trailing_digits, 1757-1793 *)
Definition remove_digits (g : Z) (showsign : bool) (f : form) (m10 digcount e10 sub xz int_digcount seps prec : Z) (showpoint : bool)
    : option num :=
  let digcount := digcount + xz in
  let e10 := e10 - xz in
  do m <- drop_digits (- xz) m10 ;
  do p <- pow10 digcount ;
  if m =? p then general_1digit g showsign (e10 + digcount) seps 0 prec showpoint
  else
    do r <- strip_loop 32 m digcount sub e10 int_digcount ;
    let '(m, digcount, sub, e10, frac) := r in
    let point := showpoint || frac in
    Some (mk_num f m e10 digcount seps 0 point (sub + b2z point)).
(* init_double_data_with_precision_general, 1677-1799; sub: sub_chars_count, the sign.  The assertions
   1712, 1724 and 1758 restate the tests just made *)
Definition prec_general (g : Z) (showsign : bool) (m10 e10 prec : Z) (showpoint : bool) : option num :=
  let digcount := digcount10 m10 in
  let sub := b2z showsign in
  let p := if prec =? 0 then 1 else prec in
  let int_digcount := digcount + e10 in
  if (int_digcount <? -3) || (p <? int_digcount) then
    let sub := sub + 4 + far (digcount + e10 - 1) in
    let xz := p - digcount in
    if xz <? 0 then remove_digits g showsign FormSci m10 digcount e10 (sub + p) xz 1 0 prec showpoint
    else
      let '(extra, sub, point) := if showpoint then (xz, sub + p, true) else (0, sub + digcount, 1 <? digcount) in
      Some (mk_num FormSci m10 e10 digcount 0 extra point (sub + b2z point))
  else
    do seps <- (if any_separator g int_digcount then separators_count g int_digcount else Some 0) ;
    let sub := sub + seps in
    if 0 <=? e10 then
      let sub := sub + int_digcount in
      let '(extra, sub) := if showpoint && (int_digcount <? p) then (p - int_digcount, sub + (p - int_digcount)) else (0, sub) in
      Some (mk_num FormFixed m10 e10 digcount seps extra showpoint (sub + b2z showpoint))
    else
      let sub := sub + (if e10 <=? - digcount then 1 - e10 else digcount) in
      let xz := p - digcount in
      if xz <? 0 then remove_digits g showsign FormFixed m10 digcount e10 (sub + xz) xz int_digcount seps prec showpoint
      else
        let '(extra, sub) := if showpoint then (xz, sub + xz) else (0, sub) in
        Some (mk_num FormFixed m10 e10 digcount seps extra true (sub + 1)).

(* init_double_data_with_precision_scientific, 1801-1855 *)
Definition prec_sci (showsign : bool) (m10 e10 prec : Z) (showpoint : bool) : option num :=
  let digcount := digcount10 m10 in
  let point := showpoint || negb (prec =? 0) in
  let sub := b2z showsign + b2z point + 5 + prec + far (digcount + e10 - 1) in
  let xz := prec - (digcount - 1) in
  if 0 <=? xz then Some (mk_num FormSci m10 e10 digcount 0 xz point sub)
  else
    let digcount := digcount + xz in
    let e10 := e10 - xz in
    do m <- drop_digits (- xz) m10 ;
    do p <- pow10 digcount ;
    if m =? p then
      let e10 := e10 + digcount in
      let sub := if e10 =? 100 then sub + 1 else if e10 =? -99 then sub - 1 else sub in
      Some (mk_num FormSci 1 e10 1 0 prec point sub)
    else Some (mk_num FormSci m e10 digcount 0 0 point sub).

(* init_double_data_with_precision_fixed, 1857-1934 *)
Definition prec_fixed (g : Z) (showsign : bool) (m10 e10 prec : Z) (showpoint : bool) : option num :=
  let digcount := digcount10 m10 in
  let point := showpoint || negb (prec =? 0) in
  let sub := b2z showsign + b2z point in
  let frac_digits := if e10 <? 0 then - e10 else 0 in
  let xz := prec - frac_digits in
  if xz <=? - digcount then
    let sub := sub + 1 + prec in
    if - (prec + digcount) <? e10 then None else                 (* STRF_ASSERT, 1875 *)
    do p <- pow10 digcount ;
    if (xz =? - digcount) && (Z.shiftr p 1 <? m10) then Some (mk_num FormFixed 1 (e10 + digcount) 1 0 0 point sub)
    else Some (mk_num FormFixed 0 0 1 0 prec point sub)
  else
    let int_digcount := if - e10 <? digcount then digcount + e10 else 1 in
    do seps <- (if any_separator g int_digcount then separators_count g int_digcount else Some 0) ;
    let sub := sub + seps + (int_digcount + prec) in
    if 0 <=? xz then Some (mk_num FormFixed m10 e10 digcount seps xz point sub)
    else
      let digcount := digcount + xz in
      let e10 := e10 - xz in
      do m <- drop_digits (- xz) m10 ;
      do p <- pow10 digcount ;
      if m =? p then
        let e10 := e10 + digcount in
        if e10 <=? 0 then
          if prec <? - e10 then None else                        (* STRF_ASSERT(precision >= -e10), 1919 *)
          Some (mk_num FormFixed 1 e10 1 seps (prec + e10) point sub)
        else Some (mk_num FormFixed 1 e10 1 seps prec point (sub + 1))
      else Some (mk_num FormFixed m e10 digcount seps 0 point sub).

(* init_double_data_without_precision_general, 1936-1984 *)
Definition noprec_general (g : Z) (showsign : bool) (m10 e10 : Z) (showpoint : bool) : option num :=
  let digcount := digcount10 m10 in
  let sci_point := showpoint || negb (digcount =? 1) in
  let sci_sub_width := 4 + b2z sci_point in
  let digcount_plus_e10 := digcount + e10 in
  let fixed_sub_width := if 0 <=? e10 then e10 + b2z showpoint
                         else if digcount_plus_e10 <=? 0 then 2 - digcount_plus_e10 else 1 in
  let scientific :=
    mk_num FormSci m10 e10 digcount 0 0 sci_point
      (b2z showsign + digcount + sci_sub_width + far (digcount + e10 - 1)) in
  if sci_sub_width <? fixed_sub_width then Some scientific
  else
    do seps <- (if any_separator g digcount_plus_e10 then separators_count g digcount_plus_e10 else Some 0) ;
    if any_separator g digcount_plus_e10 && (sci_sub_width <? fixed_sub_width + seps) then Some scientific
    else Some (mk_num FormFixed m10 e10 digcount seps 0 (showpoint || (e10 <? 0))
                 (b2z showsign + (fixed_sub_width + seps) + digcount)).

(* init_double_data_without_precision_scientific, 1986-2007 *)
Definition noprec_sci (showsign : bool) (m10 e10 : Z) (showpoint : bool) : num :=
  let digcount := digcount10 m10 in
  let point := showpoint || negb (digcount =? 1) in
  mk_num FormSci m10 e10 digcount 0 0 point
    (b2z showsign + 4 + b2z point + far (digcount + e10 - 1) + digcount).

(* init_double_data_without_precision_fixed, 2009-2037 *)
Definition noprec_fixed (g : Z) (showsign : bool) (m10 e10 : Z) (showpoint : bool) : option num :=
  let digcount := digcount10 m10 in
  let point := showpoint || (e10 <? 0) in
  let int_digcount := digcount + e10 in
  do seps <- (if any_separator g int_digcount then separators_count g int_digcount else Some 0) ;
  Some (mk_num FormFixed m10 e10 digcount seps 0 point
          (b2z showsign + seps + (if 0 <=? e10 then int_digcount + b2z showpoint
                                  else if e10 <=? - digcount then 2 - e10 else 1 + digcount))).

(* exponent_hex_digcount, 1440-1446 *)
Definition exponent_digcount (e : Z) : Z :=
  let e := Z.abs e in 1 + b2z (1000 <=? e) + b2z (100 <=? e) + b2z (10 <=? e).
(* mantissa_hex_digcount, 1448-1478: with countr_zero or by comparisons *)
Fixpoint countr_zero (k : nat) (v : Z) : Z :=
  match k with O => 0 | S k' => if Z.odd v then 0 else 1 + countr_zero k' (v / 2) end.
(* 1448-1478 *)
Definition mantissa_digcount (clz : bool) (m : Z) : Z :=
  if clz then 13 - Z.shiftr (countr_zero 64 m) 2
  else
  if Z.land m 0xFFFFFFFF =? 0 then
    if Z.land m 0xFFFFFFFFFF =? 0 then
      if Z.land m 0xFFFFFFFFFFFF =? 0 then 1
      else if Z.land m 0xFFFFFFFFFFF =? 0 then 2 else 3
    else if Z.land m 0xFFFFFFFFF =? 0 then 4 else 5
  else if Z.land m 0xFFFF =? 0 then
    if Z.land m 0xFFFFFF =? 0 then (if Z.land m 0xFFFFFFF =? 0 then 6 else 7)
    else if Z.land m 0xFFFFF =? 0 then 8 else 9
  else if Z.land m 0xFF =? 0 then (if Z.land m 0xFFF =? 0 then 10 else 11)
  else if Z.land m 0xF =? 0 then 12 else 13.
(* init_hex_double_printer_data, 1573-1627, without the last part; the precision is -1 (or any
   negative number) when it is not set *)
Definition init_hex (clz : bool) (showsign subnormal : bool) (mantissa exponent prec : Z) (showpoint : bool) : num :=
  let sub := b2z showsign + 5 in
  let set := 0 <=? prec in
  if subnormal && (mantissa =? 0) then
    let extra := if set then prec else 0 in
    let point := negb (extra =? 0) || showpoint in
    mk_num FormHex mantissa 0 0 1 extra point (sub + 1 + b2z point)
  else
    let ed := exponent_digcount exponent in
    let sub := sub + ed in
    if mantissa =? 0 then
      let extra := if set then prec else 0 in
      let point := negb (extra =? 0) || showpoint in
      mk_num FormHex mantissa exponent 0 ed extra point (sub + b2z point)
    else
      let dc := mantissa_digcount clz mantissa in
      if negb set then mk_num FormHex mantissa exponent dc ed 0 true (sub + 1 + dc)
      else if dc <=? prec then mk_num FormHex mantissa exponent dc ed (prec - dc) true (sub + 1 + dc)
      else
        let s := Z.shiftl (13 - prec) 2 in
        let d := Z.shiftl 1 s in
        let low := Z.land mantissa (d - 1) in
        let m := if (Z.shiftr d 1 <? low) || ((low =? Z.shiftr d 1) && negb (Z.land mantissa d =? 0))
                 then mantissa + d else mantissa in
        let point := negb (prec =? 0) || showpoint in
        mk_num FormHex m exponent prec ed 0 point (sub + b2z point + prec).

(* ---- init_float_printer_data, 2041-2120 and 2123-2203 (double, float) ---- *)
Record float_fmt := mk_ffmt { ff_precision : Z; ff_pad0 : Z; ff_notation : notation; ff_sign : showsign; ff_showpoint : bool; ff_punct : bool }.
(* what the bits say; for a finite value, is the exponent field zero, mantissa (in units of
   2^-52: shifted by 29 for float), binary exponent, and to_decimal's result *)
Inductive bits := BNan | BInf | BFinite (subnormal : bool) (mantissa exponent m10 e10 : Z).
(* detail::double_dec, 27-34: sign, and the rest *)
Record decoded_float := mk_decoded { fl_negative : bool; fl_bits : bits }.

(* init_float_printer_data, 2041-2120 (double) and 2123-2203 (float): everything but the fill *)
Definition init_num (clz : bool) (g : Z) (f : float_fmt) (x : decoded_float) : option num :=
  let showsign := fl_negative x || negb (sign_char (ff_sign f) =? 0) in
  match fl_bits x with
  | BNan => Some (mk_num FormNan 0 0 0 0 0 false (b2z showsign + 3))
  | BInf => Some (mk_num FormInf 0 0 0 0 0 false (b2z showsign + 3))
  | BFinite subnormal mantissa exponent m10 e10 =>
      match ff_notation f with
      | NHex =>
          (* mantissa_hex_digcount, 1450-1451: called for a mantissa that is not zero *)
          if negb (mantissa =? Z.land mantissa 0xFFFFFFFFFFFFF) then None else
          Some (init_hex clz showsign subnormal mantissa exponent (ff_precision f) (ff_showpoint f))
      | NGeneral => if ff_precision f =? -1 then noprec_general g showsign m10 e10 (ff_showpoint f)
                    else prec_general g showsign m10 e10 (ff_precision f) (ff_showpoint f)
      | NScientific => if ff_precision f =? -1 then Some (noprec_sci showsign m10 e10 (ff_showpoint f))
                       else prec_sci showsign m10 e10 (ff_precision f) (ff_showpoint f)
      | NFixed => if ff_precision f =? -1 then noprec_fixed g showsign m10 e10 (ff_showpoint f)
                  else prec_fixed g showsign m10 e10 (ff_precision f) (ff_showpoint f)
      end
  end.

(* init_double_printer_data_fill, 1527-1571: showsign, left_fillcount, right_fillcount, pad0width,
   and the decrease of sub_chars_count; content_width and fillcount *)
Record fill_data := mk_fill { fd_showsign : bool; fd_left : Z; fd_right : Z; fd_pad0 : Z; fd_dec : Z; fd_content : Z; fd_count : Z }.
(* 1527-1571 *)
Definition init_fill (showsign : bool) (sign fillchar pad0 width content : Z) (al : text_align) : fill_data :=
  let space := sign =? 32 in
  if width <=? content then
    if space && negb (fillchar =? 32)
    then mk_fill false 1 0 (if 0 <? pad0 then pad0 - 1 else pad0) 1 (content - 1) 1
    else mk_fill showsign 0 0 pad0 0 content 0
  else
    let fillcount := width - content in
    let '(l, r) := match al with
                   | ALeft => (0, fillcount)
                   | ARight => (fillcount, 0)
                   | ACenter => let half := Z.shiftr fillcount 1 in (half, half + Z.land fillcount 1)
                   end in
    if space then mk_fill false (l + 1) r (if 0 <? pad0 then pad0 - 1 else pad0) 1 (content - 1) (fillcount + 1)
    else mk_fill showsign l r pad0 0 content fillcount.

(* ---- punct_double_printer, 2225-2333 ---- *)
(* encode_char_ or the cast, e.g. 2384-2391 *)
Definition point_units (cs : charset) (point : Z) : list Z := if point <? 0x80 then [point] else cs_encode cs point.
(* "if (data_.showsign) put(dst, sign)": 2364-2366, 2462-2464, 2544-2546 *)
Definition p_sign (show : bool) (sign : Z) : list op := if show then [OPut sign] else [].

(* print_fixed_, 2361-2456; sub: sub_chars_count; ubits: the size of CharT *)
Definition print_fixed (cs : charset) (ubits : Z) (n : num) (fd : fill_data) (sign sub g sep sep_size point point_size : Z) : option (list op) :=
  let encsep := cs_encode cs sep in
  let pt := point_units cs point in
  let head := p_sign (fd_showsign fd) sign ++ (if sub <? fd_pad0 fd then [OFill (fd_pad0 fd - sub) 48] else []) in
  if 0 <=? n_e n then
    do o <- (if n_seps n =? 0 then do o <- dig_write B10 true (n_m n) (n_digcount n) ; Some (o ++ [OFill (n_e n) 48])
             else if sep_size =? 1 then amplified true g [to_u ubits sep] 1 (n_m n) (n_digcount n) (n_e n)   (* static_cast<CharT>(thousands_sep_) *)
             else amplified false g encsep sep_size (n_m n) (n_digcount n) (n_e n)) ;
    Some (head ++ o ++ (if n_point n then [OReserve (Z.to_nat point_size) pt] else []) ++ [OFill (n_extra n) 48])
  else
    let abs_e10 := - n_e n in
    if (0x80 <=? point) && (point_size =? 0) then None else      (* STRF_ASSERT, 2406 and 2446 *)
    if n_digcount n <=? abs_e10 then
      do o <- dig_write B10 true (n_m n) (n_digcount n) ;
      Some (head ++ [OReserve (Z.to_nat (1 + point_size)) (48 :: pt); OFill (abs_e10 - n_digcount n) 48] ++ o ++ [OFill (n_extra n) 48])
    else
      do p10 <- pow10 abs_e10 ;
      let integral := n_m n / p10 in
      let fractional := n_m n mod p10 in
      let idigcount := n_digcount n - abs_e10 in
      if negb (idigcount =? digcount10 integral) then None else   (* STRF_ASSERT, 2422 *)
      do o <- (if n_seps n =? 0 then dig_write B10 true integral idigcount
               else if sep_size =? 1 then
                 dig_write_little B10 true integral g idigcount (n_seps n) (if sep <? 0x80 then sep else hd 0 encsep)
               else dig_write_big B10 true integral g encsep sep_size idigcount) ;
      do o2 <- write_leading_zeros fractional abs_e10 ;
      Some (head ++ o ++ [OReserve (Z.to_nat point_size) pt] ++ o2 ++ [OFill (n_extra n) 48]).
(* print_scientific_, 2458-2472 *)
Definition print_scientific (cs : charset) (lc : lettercase) (n : num) (fd : fill_data) (sign sub point point_size : Z) : option (list op) :=
  do o <- print_sci (n_m n) (n_digcount n) (point_units cs point) point_size (n_e n + n_digcount n - 1) (n_point n) (n_extra n) lc ;
  Some (p_sign (fd_showsign fd) sign ++ [OFill (fd_pad0 fd - sub) 48] ++ o).
(* print_hexadecimal_, 2474-2538 *)
Definition hex_nibble (m : Z) (i : nat) : Z :=
  let k := 48 - 4 * Z.of_nat i in Z.shiftr (Z.land m (Z.shiftl 15 k)) k.
(* print_hexadecimal_, 2474-2538 *)
Definition print_hex (cs : charset) (lc : lettercase) (subnormal : bool) (n : num) (fd : fill_data) (sign sub point point_size : Z) : option (list op) :=
  if negb (Bool.eqb (n_point n) (negb (point_size =? 0))) then None else    (* STRF_ASSERT, 2479 *)
  let sub_size := sub + point_size - b2z (n_point n) in
  let head := (if fd_showsign fd then [sign] else []) ++ [48; Z.lor 88 (Z.shiftl (b2i (low_prefix lc)) 5)] in
  let content_width := sub + n_extra n in
  let offset := Z.lor 65 (Z.shiftl (b2i (low_digits lc)) 5) - 10 in
  let digit i := let d := hex_nibble (n_m n) i in if d <? 10 then 48 + d else offset + d in
  let body := Z.lor 0x30 (b2i (negb subnormal)) :: (if n_point n then point_units cs point else []) ++
              (if n_m n =? 0 then [] else map digit (seq 0 (Z.to_nat (n_digcount n)))) in
  do u <- write_back B10 true (Z.abs (n_e n)) ;
  if (negb (zlen u =? n_seps n)) || ((13 <? n_digcount n) && negb (n_m n =? 0)) then None else
  let tail := Z.lor 80 (Z.shiftl (b2i (low_prefix lc)) 5) :: (43 + Z.shiftl (b2i (n_e n <? 0)) 1) :: u in
  (* the pieces between two flushes: (head, pad0), (body), (extra zeros), (tail) *)
  let pad0 := content_width <? fd_pad0 fd in
  let reserve2 := Z.to_nat (sub_size - 2 - b2z (fd_showsign fd)) in
  let first := if n_extra n =? 0 then body ++ tail else body in
  let last := if n_extra n =? 0 then [] else [OFill (n_extra n) 48; OReserve (Z.to_nat (2 + n_seps n)) tail] in
  Some ((if pad0 then [OReserve (Z.to_nat sub_size) head; OFill (fd_pad0 fd - content_width) 48; OReserve reserve2 first]
         else [OReserve (Z.to_nat sub_size) (head ++ first)]) ++ last).
(* print_inf_or_nan_, 2540-2552 *)
Definition print_inf_or_nan (lc : lettercase) (n : num) (fd : fill_data) (sign : Z) : list op :=
  p_sign (fd_showsign fd) sign ++ [match n_form n with FormNan => print_nan lc | _ => print_inf lc end].

(* the library's countr_zero is used; bits of a character; charset, case, punctuation *)
Record float_facets := mk_ffacets {
  fk_clz : bool; fk_bits : Z; fk_charset : charset; fk_case : lettercase;
  fk_group : Z; fk_thousands : Z; fk_point10 : Z; fk_point16 : Z }.
(* float_notation::hex (104-110) *)
Definition is_hex (n : notation) : bool := match n with NHex => true | _ => false end.

(* the constructors, 2231-2306, and operator(), 2335-2358.  For formats without punct
   (float_format_specifier_no_punct and the default one) the grouping is empty and the point
   is '.', whose size is taken to be 1 *)
Definition punct_double (F : float_facets) (f : float_fmt) (al : align_fmt) (x : decoded_float) : option printed :=
  let cs := fk_charset F in
  let lc := fk_case F in
  let hex := is_hex (ff_notation f) in
  let point := if ff_punct f then (if hex then fk_point16 F else fk_point10 F) else 46 in
  let sep := if ff_punct f then fk_thousands F else 44 in
  let ps := cs_validate cs sep in
  let '(g, sep_size) := if ff_punct f then (if ps =? -1 then (grouping_empty, 1) else (fk_group F, ps)) else (grouping_empty, 1) in
  do n <- init_num (fk_clz F) g f x ;
  let sign := if fl_negative x then 45 else sign_char (ff_sign f) in
  let showsign := fl_negative x || negb (sign_char (ff_sign f) =? 0) in
  let width := w_round (al_width al) in
  let special := match n_form n with FormNan | FormInf => true | _ => false end in
  let width := if special && (width <? ff_pad0 f) then ff_pad0 f else width in
  do content <- chk_i 32 (if special then 3 + b2z showsign
                          else Z.max (if hex then n_sub n + n_extra n else n_sub n) (ff_pad0 f)) ;
  let fd := init_fill showsign sign (al_fill al) (ff_pad0 f) width content (al_align al) in
  do total <- chk_i 32 (fd_count fd + fd_content fd) ;
  let sub := n_sub n - fd_dec fd in
  let point_size := if n_point n then cs_size cs point else 0 in
  do o <- match n_form n with
          | FormFixed => print_fixed cs (fk_bits F) n fd sign sub g sep sep_size point point_size
          | FormSci => print_scientific cs lc n fd sign sub point point_size
          | FormHex => print_hex cs lc (match fl_bits x with BFinite s _ _ _ _ => s | _ => false end) n fd sign sub point point_size
          | _ => Some (print_inf_or_nan lc n fd sign)
          end ;
  Some (mk_printed
          ((if 0 <? fd_left fd then [cs_fill cs (fd_left fd) (al_fill al)] else []) ++ o ++
           (if 0 <? fd_right fd then [cs_fill cs (fd_right fd) (al_fill al)] else []))
          (fd_content fd + (if 0 <? fd_count fd then cs_size cs (al_fill al) * fd_count fd else 0) +
           (if negb hex && negb (n_seps n =? 0) then n_seps n * (sep_size - 1) else 0) +
           (if n_point n then point_size - 1 else 0))
          total).

(* ---- fast_double_printer, 1270-1438 ---- *)
Definition fast_is_sci (e10 digcount : Z) : bool :=
  (4 + b2z (negb (digcount =? 1)) <? e10) || (digcount + 2 + b2z (negb (digcount =? 1)) <? - e10).
(* while(m > 99) and what follows, 1420-1434; [acc]: what is stored after *)
Fixpoint fast_int (fuel : nat) (m : Z) (acc : list Z) : option (list Z) :=
  match fuel with
  | O => None
  | S fuel' =>
      if 99 <? m then
        let i := Z.shiftl (m mod 100) 1 in fast_int fuel' (m / 100) (arr i :: arr (i + 1) :: acc)
      else if 9 <? m then let i := Z.shiftl m 1 in Some (arr i :: arr (i + 1) :: acc)
      else Some (48 + m :: acc)
  end.
(* while(abs_e10 >= 2) and what follows, 1407-1419 *)
Fixpoint fast_frac (fuel : nat) (m a : Z) (acc : list Z) : option (Z * list Z) :=
  match fuel with
  | O => None
  | S fuel' =>
      if 2 <=? a then
        let i := Z.shiftl (m mod 100) 1 in fast_frac fuel' (m / 100) (a - 2) (arr i :: arr (i + 1) :: acc)
      else if negb (a =? 0) then Some (m / 10, 48 + m mod 10 :: acc)
      else Some (m, acc)
  end.
(* size(), 1309-1327 *)
Definition fast_size (negative : bool) (b : bits) : Z :=
  match b with
  | BNan | BInf => 3 + b2z negative
  | BFinite _ _ _ m10 e10 =>
      let dc := digcount10 m10 in
      let sci_e10 := e10 - 1 + dc in
      b2z negative +
      (if fast_is_sci e10 dc then 4 + b2z (negb (dc =? 1)) + dc + far sci_e10
       else dc + b2z (0 <? e10) * e10 + b2z (e10 <=? - dc) * (2 - e10 - dc) + b2z ((- dc <? e10) && (e10 <? 0)))
  end.
(* operator(), 1329-1438 *)
Definition fast_ops (lc : lettercase) (negative : bool) (b : bits) : option (list op) :=
  let minus := if negative then [45] else [] in
  match b with
  | BNan => Some [OReserve (Z.to_nat (3 + b2z negative)) (minus ++ match lc with LMixed => [78; 97; 78] | LUpper => [78; 65; 78] | LLower => [110; 97; 110] end)]
  | BInf => Some [OReserve (Z.to_nat (3 + b2z negative)) (minus ++ match lc with LMixed => [73; 110; 102] | LUpper => [73; 78; 70] | LLower => [105; 110; 102] end)]
  | BFinite _ _ _ m10 e10 =>
      let dc := digcount10 m10 in
      if fast_is_sci e10 dc then
        let e := e10 - 1 + dc in
        do ds <- (if dc =? 1 then Some [48 + m10]
                  else do u <- write_back B10 true m10 ; if zlen u =? dc then Some (hd 0 u :: 46 :: tl u) else None) ;
        do x <- exponent_units lc e ;
        Some [OReserve (Z.to_nat (b2z negative + dc + b2z (negb (dc =? 1)) + 4 + far e)) (minus ++ ds ++ x)]
      else
        let n := b2z negative + dc * b2z (- dc <? e10) + b2z (e10 <=? - dc) + b2z (e10 <? 0) in
        if 0 <=? e10 then
          do u <- write_back B10 true m10 ;
          if zlen u =? dc then Some [OReserve (Z.to_nat n) (minus ++ u); OFill e10 48] else None
        else
          let a := - e10 in
          if dc <=? a then
            do u <- write_back B10 true m10 ;
            do o <- reserve_back dc dc u ;
            Some ([OReserve (Z.to_nat n) (minus ++ [48; 46]); OFill (a - dc) 48] ++ o)
          else
            do r <- fast_frac 32 m10 a [] ;
            do u <- fast_int 32 (fst r) (46 :: snd r) ;
            if zlen u =? dc + 1 then Some [OReserve (Z.to_nat n) (minus ++ u)] else None
  end.
(* fast_double_printer, 1270-1438, as a printer *)
Definition fast_print (lc : lettercase) (x : decoded_float) : option printed :=
  do o <- fast_ops lc (fl_negative x) (fl_bits x) ;
  let s := fast_size (fl_negative x) (fl_bits x) in Some (mk_printed o s s).

(* make_printer, 2580-2628: without any format fast_double_printer, else punct_double_printer *)
Definition fast_float_arg (lc : lettercase) (x : decoded_float) : arg := fun p =>
  let s := fast_size (fl_negative x) (fl_bits x) in
  do p1 <- (if has_remaining_width p || match p_size p with Some _ => true | None => false end
            then do p1 <- add_width (w_of_i16 (to_i 16 s)) p ; add_size s p1 else Some p) ;
  do o <- fast_ops lc (fl_negative x) (fl_bits x) ;
  Some (p1, p_ops o).
(* make_printer with formats, 2603-2628 *)
Definition fmt_float_arg (F : float_facets) (f : float_fmt) (al : align_fmt) (x : decoded_float) : arg :=
  of_printed (punct_double F f al x).

(* ---- what the bits say: decode(double), 65-89; decode(float), 39-63; 2046-2074, 2128-2156 ---- *)
(* [to_decimal]: dragonbox, given the exponent and mantissa fields *)
Definition decode64 (to_decimal : Z -> Z -> Z * Z) (b : Z) : decoded_float :=
  let exponent := Z.shiftr (Z.land b 0x7FF0000000000000) 52 in
  let mantissa := Z.land b 0xFFFFFFFFFFFFF in
  let negative := negb (Z.shiftr b 63 =? 0) in
  mk_decoded negative
    (if exponent =? 0x7FF then (if mantissa =? 0 then BInf else BNan)
     else let d := if (exponent =? 0) && (mantissa =? 0) then (0, 0) else to_decimal exponent mantissa in
          BFinite (exponent =? 0) mantissa (exponent - 1023 + b2z (exponent =? 0)) (fst d) (snd d)).
(* decode(float), 39-63 *)
Definition decode32 (to_decimal : Z -> Z -> Z * Z) (b : Z) : decoded_float :=
  let exponent := Z.shiftr (Z.land b 0x7F800000) 23 in
  let mantissa := Z.land b 0x7FFFFF in
  let negative := negb (Z.shiftr b 31 =? 0) in
  mk_decoded negative
    (if exponent =? 0xFF then (if mantissa =? 0 then BInf else BNan)
     else let d := if (exponent =? 0) && (mantissa =? 0) then (0, 0) else to_decimal exponent mantissa in
          BFinite (exponent =? 0) (Z.shiftl mantissa 29) (exponent - 127 + b2z (exponent =? 0)) (fst d) (snd d)).
