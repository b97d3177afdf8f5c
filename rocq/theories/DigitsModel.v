(* Model of include/strf/detail/int_digits.hpp: counting and writing digits. *)
From Coq Require Import String Ascii.
From Verif Require Import Base DestModel GroupModel.

(* ---- counting, 136-590 ------------------------------------------------- *)

(* countl_zero_l / countl_zero_ll (strf_def.hpp; the compiler builtin) on 64 bits *)
Definition clz64 (v : Z) : Z := if v =? 0 then 64 else 63 - Z.log2 v.

(* 140-199, STRF_HAS_COUNTL_ZERO; unsigned long and unsigned long long are 64 bits *)
Definition count2_clz (v : Z) : Z := 64 - clz64 (Z.lor v 1).
(* int_digits.hpp:158-177 digits_counter<8, IntSize> with countl_zero *)
Definition count8_clz (v : Z) : Z := (64 + 2 - clz64 (Z.lor v 1)) / 3.
(* int_digits.hpp:179-198 digits_counter<16, IntSize> with countl_zero *)
Definition count16_clz (v : Z) : Z := Z.shiftr (64 + 3 - clz64 (Z.lor v 1)) 2.

(* 203-292: digits_counter<2, 1|2|4|8> without countl_zero *)
Definition count2_tail (v n : Z) : Z :=
  let '(v, n) := if 0xf <? v then (Z.shiftr v 4, n + 4) else (v, n) in
  let '(v, n) := if 3 <? v then (Z.shiftr v 2, n + 2) else (v, n) in
  if 1 <? v then n + 1 else n.
(* int_digits.hpp:203-223 *)
Definition count2_1 (v : Z) : Z := count2_tail v 1.
(* int_digits.hpp:225-248 *)
Definition count2_2 (v : Z) : Z :=
  let '(v, n) := if 0xff <? v then (Z.shiftr v 8, 1 + 8) else (v, 1) in count2_tail v n.
(* int_digits.hpp:250-277 *)
Definition count2_4 (v : Z) : Z :=
  let '(v, n) := if 0xffff <? v then (Z.shiftr v 16, 1 + 16) else (v, 1) in
  let '(v, n) := if 0xff <? v then (Z.shiftr v 8, n + 8) else (v, n) in count2_tail v n.
(* int_digits.hpp:279-310 *)
Definition count2_8 (v : Z) : Z :=
  let '(v, n) := if 0xffffffff <? v then (Z.shiftr v 32, 1 + 32) else (v, 1) in
  let '(v, n) := if 0xffff <? v then (Z.shiftr v 16, n + 16) else (v, n) in
  let '(v, n) := if 0xff <? v then (Z.shiftr v 8, n + 8) else (v, n) in count2_tail v n.

(* 294-397: digits_counter<8, 1|2|4|8>; the octal literals in hexadecimal *)
Definition count8_1 (v : Z) : Z := if 0x3f <? v then 3 else if 7 <? v then 2 else 1.
(* the last three tests of 328-397, common to the sizes 2, 4 and 8 *)
Definition count8_tail (v n : Z) : Z :=
  let '(v, n) := if 0xfff <? v then (Z.shiftr v 12, n + 4) else (v, n) in
  let '(v, n) := if 0x3f <? v then (Z.shiftr v 6, n + 2) else (v, n) in
  if 7 <? v then n + 1 else n.
(* int_digits.hpp:328-347 *)
Definition count8_2 (v : Z) : Z := count8_tail v 1.
(* int_digits.hpp:349-372 *)
Definition count8_4 (v : Z) : Z :=
  let '(v, n) := if 0xffffff <? v then (Z.shiftr v 24, 1 + 8) else (v, 1) in count8_tail v n.
(* int_digits.hpp:374-401 *)
Definition count8_8 (v : Z) : Z :=
  let '(v, n) := if 0xffffffffffff <? v then (Z.shiftr v 48, 1 + 16) else (v, 1) in
  let '(v, n) := if 0xffffff <? v then (Z.shiftr v 24, n + 8) else (v, n) in count8_tail v n.

(* 399-471: digits_counter<16, 1|2|4|8> *)
Definition count16_1 (v : Z) : Z := if v <? 0x10 then 1 else 2.
(* int_digits.hpp:412-422 *)
Definition count16_2 (v : Z) : Z :=
  if v <? 0x100 then (if v <? 0x10 then 1 else 2) else (if v <? 0x1000 then 3 else 4).
(* int_digits.hpp:424-440 *)
Definition count16_4 (v : Z) : Z :=
  if v <? 0x10000 then
    if v <? 0x100 then (if v <? 0x10 then 1 else 2) else (if v <? 0x1000 then 3 else 4)
  else if v <? 0x1000000 then (if v <? 0x100000 then 5 else 6)
  else (if v <? 0x10000000 then 7 else 8).
(* int_digits.hpp:442-471 *)
Definition count16_8 (v : Z) : Z :=
  if v <? 0x100000000 then
    if v <? 0x10000 then
      if v <? 0x100 then (if v <? 0x10 then 1 else 2) else (if v <? 0x1000 then 3 else 4)
    else if v <? 0x1000000 then (if v <? 0x100000 then 5 else 6)
    else (if v <? 0x10000000 then 7 else 8)
  else if v <? 0x1000000000000 then
    if v <? 0x10000000000 then (if v <? 0x1000000000 then 9 else 10)
    else (if v <? 0x100000000000 then 11 else 12)
  else if v <? 0x100000000000000 then (if v <? 0x10000000000000 then 13 else 14)
  else (if v <? 0x1000000000000000 then 15 else 16).

(* 475-580: digits_counter<10, 1|2|4|8>::count_digits_unsigned *)
Definition count10_1 (v : Z) : Z := if v <=? 99 then (if v <=? 9 then 1 else 2) else 3.
(* int_digits.hpp:492-512 *)
Definition count10_2 (v : Z) : Z :=
  if v <=? 99 then (if v <=? 9 then 1 else 2)
  else if v <=? 9999 then (if v <=? 999 then 3 else 4)
  else 5.
(* int_digits.hpp:514-539 *)
Definition count10_4 (v : Z) : Z :=
  if v <=? 9999 then
    if v <=? 99 then (if v <=? 9 then 1 else 2) else (if v <=? 999 then 3 else 4)
  else if v <=? 99999999 then
    if v <=? 999999 then (if v <=? 99999 then 5 else 6) else (if v <=? 9999999 then 7 else 8)
  else (if v <=? 999999999 then 9 else 10).
(* int_digits.hpp:541-581 *)
Definition count10_8 (v : Z) : Z :=
  if v <=? 99999999 then
    if v <=? 9999 then
      if v <=? 99 then (if v <=? 9 then 1 else 2) else (if v <=? 999 then 3 else 4)
    else if v <=? 999999 then (if v <=? 99999 then 5 else 6)
    else (if v <=? 9999999 then 7 else 8)
  else if v <=? 9999999999999999 then
    if v <=? 999999999999 then
      if v <=? 9999999999 then (if v <=? 999999999 then 9 else 10)
      else (if v <=? 99999999999 then 11 else 12)
    else if v <=? 99999999999999 then (if v <=? 9999999999999 then 13 else 14)
    else (if v <=? 999999999999999 then 15 else 16)
  else if v <=? 999999999999999999 then (if v <=? 99999999999999999 then 17 else 18)
  else (if v <=? 9999999999999999999 then 19 else 20).

(* the template argument Base of the classes of int_digits.hpp: 2, 8, 10 or 16 *)
Inductive ibase := B2 | B8 | B10 | B16.
(* the value of the template argument Base (int_digits.hpp:52-68, 134-135) *)
Definition bval (b : ibase) : Z := match b with B2 => 2 | B8 => 8 | B10 => 10 | B16 => 16 end.
(* sizeof(IntT), the template argument IntSize of int_digits.hpp:134-135 *)
Inductive isize := S1 | S2 | S4 | S8.
(* bits of an integer type with sizeof(IntT) bytes (int_digits.hpp:134-135) *)
Definition sbits (s : isize) : Z := match s with S1 => 8 | S2 => 16 | S4 => 32 | S8 => 64 end.

(* 582-588 count_digits<Base>; [clz]: is STRF_HAS_COUNTL_ZERO defined *)
Definition count_digits (clz : bool) (b : ibase) (s : isize) (v : Z) : Z :=
  match b with
  | B10 => match s with S1 => count10_1 v | S2 => count10_2 v | S4 => count10_4 v | S8 => count10_8 v end
  | B2 => if clz then count2_clz v
          else match s with S1 => count2_1 v | S2 => count2_2 v | S4 => count2_4 v | S8 => count2_8 v end
  | B8 => if clz then count8_clz v
          else match s with S1 => count8_1 v | S2 => count8_2 v | S4 => count8_4 v | S8 => count8_8 v end
  | B16 => if clz then count16_clz v
          else match s with S1 => count16_1 v | S2 => count16_2 v | S4 => count16_4 v | S8 => count16_8 v end
  end.

(* 51-74 max_num_digits<IntT, Base> *)
Definition max_num_digits (b : ibase) (s : isize) : Z :=
  let sz := sbits s / 8 in
  match b with
  | B10 => (240824 * sz + 99999) / 100000
  | B16 => sz * 2
  | B8 => (sz * 8 + 2) / 3
  | B2 => sz * 8
  end.

(* 80-101 unsigned_abs, for an integer type of [bits] bits *)
Definition unsigned_abs (sgn : bool) (bits v : Z) : Z :=
  if sgn then if 0 <=? v then v else to_u bits (1 + to_u bits (- (v + 1))) else v.

(* ---- writing backwards ------------------------------------------------- *)

(* 590-606 chars_00_to_99 *)
Definition chars_str : string :=
  "00010203040506070809101112131415161718192021222324252627282930313233343536373839404142434445464748495051525354555657585960616263646566676869707172737475767778798081828384858687888990919293949596979899"%string.
(* 592-606: the characters of the table as numbers *)
Definition chars_00_to_99 : list Z :=
  Eval vm_compute in map (fun a => Z.of_nat (nat_of_ascii a)) (list_ascii_of_string chars_str).
(* 621: arr[i], arr = chars_00_to_99() *)
Definition arr (i : Z) : Z := nth (Z.to_nat i) chars_00_to_99 0.

(* The writers store downwards from [it]; the model returns the units stored, in
   increasing address order, in front of [acc] (what is already stored at and
   after [it]).  [None]: out of fuel. *)

(* 617-641 intdigits_backwards_writer<10>::write_txtdigits_backwards *)
Fixpoint back10 (fuel : nat) (v : Z) (acc : list Z) : option (list Z) :=
  match fuel with
  | O => None
  | S fuel' =>
      if 99 <? v then
        let index := Z.shiftl (v mod 100) 1 in
        back10 fuel' (v / 100) (arr index :: arr (index + 1) :: acc)
      else if v <? 10 then Some (48 + v :: acc)
      else let index := Z.shiftl v 1 in Some (arr index :: arr (index + 1) :: acc)
  end.

(* 743-753: the final loop of the base-10 little_sep writer; its assertion (uvalue != 0) was just
   tested by every caller *)
Fixpoint sep10_rest (fuel : nat) (v : Z) (acc : list Z) : option (list Z) :=
  match fuel with
  | O => None
  | S fuel' =>
      if 9 <? v then
        let i := Z.shiftl (v mod 100) 1 in
        sep10_rest fuel' (v / 100) (arr i :: arr (i + 1) :: acc)
      else if v =? 0 then Some acc else Some (48 + v :: acc)
  end.
(* 642-742 write_txtdigits_backwards_little_sep: the while(1) loop; [dbs] is
   digits_before_sep.  A final iterator is not an ended one: git_next has the only assertions
   on the iterator that can fail *)
Fixpoint sep10 (fuel : nat) (v git dbs sep : Z) (acc : list Z) : option (list Z) :=
  match fuel with
  | O => None
  | S fuel' =>
      if v <? 10 then if v =? 0 then None else Some (48 + v :: acc)      (* STRF_ASSERT(uvalue != 0), 690 *)
      else
        let i := Z.shiftl (v mod 100) 1 in
        let v := v / 100 in
        if 2 <=? dbs then
          let acc := arr i :: arr (i + 1) :: acc in
          if v =? 0 then Some acc
          else if negb (dbs =? 2) then sep10 fuel' v git (dbs - 2) sep acc
          else
            let acc := sep :: acc in
            if git_is_final git then sep10_rest 32 v acc
            else
              do git <- git_next git ;
              sep10 fuel' v git (git_current git) sep acc
        else
          let acc := arr i :: sep :: arr (i + 1) :: acc in
          if v =? 0 then Some acc
          else if git_is_final git then sep10_rest 32 v acc
          else
            do git <- git_next git ;
            let dbs := git_current git - 1 in
            if dbs =? 0 then
              let acc := sep :: acc in
              if git_is_final git then sep10_rest 32 v acc
              else
                do git <- git_next git ;
                sep10 fuel' v git (git_current git) sep acc
            else sep10 fuel' v git dbs sep acc
  end.

(* 771, 798: offset_digit_a, and the digit character; lower: lc == lowercase *)
Definition hexchar (lower : bool) (digit : Z) : Z :=
  if digit <? 10 then 48 + digit
  else (Z.lor 65 (Z.shiftl (if lower then 1 else 0) 5) - 10) + digit.

(* 762-785 intdigits_backwards_writer<16>::write_txtdigits_backwards *)
Fixpoint back16 (fuel : nat) (lower : bool) (v : Z) (acc : list Z) : option (list Z) :=
  match fuel with
  | O => None
  | S fuel' =>
      if 0xF <? v then back16 fuel' lower (Z.shiftr v 4) (hexchar lower (Z.land v 0xF) :: acc)
      else Some (hexchar lower (Z.land v 0xF) :: acc)
  end.
(* 819-826: STRF_ASSERT(uvalue), which says the same of every further iteration, and
   do { ... } while(uvalue) *)
Fixpoint sep16_rest (fuel : nat) (lower : bool) (v : Z) (acc : list Z) : option (list Z) :=
  match fuel with
  | O => None
  | S fuel' =>
      if v =? 0 then None else
      let acc := hexchar lower (Z.land v 0xF) :: acc in
      let v := Z.shiftr v 4 in
      if v =? 0 then Some acc else sep16_rest fuel' lower v acc
  end.
(* 786-818: do { ... } while(uvalue > 0xF) *)
Fixpoint sep16 (fuel : nat) (lower : bool) (v git dbs sep : Z) (acc : list Z) : option (list Z) :=
  match fuel with
  | O => None
  | S fuel' =>
      let acc := hexchar lower (Z.land v 0xF) :: acc in
      let v := Z.shiftr v 4 in
      if negb (dbs =? 1) then
        if 0xF <? v then sep16 fuel' lower v git (dbs - 1) sep acc else sep16_rest 32 lower v acc
      else
        let acc := sep :: acc in
        if git_is_final git then sep16_rest 32 lower v acc
        else
          do git <- git_next git ;
          if 0xF <? v then sep16 fuel' lower v git (git_current git) sep acc
          else sep16_rest 32 lower v acc
  end.

(* 835-849 intdigits_backwards_writer<8>::write_txtdigits_backwards *)
Fixpoint back8 (fuel : nat) (v : Z) (acc : list Z) : option (list Z) :=
  match fuel with
  | O => None
  | S fuel' =>
      if 7 <? v then back8 fuel' (Z.shiftr v 3) (48 + Z.land v 7 :: acc) else Some (48 + v :: acc)
  end.
(* 883-887: STRF_ASSERT(uvalue), as above, and do { ... } while(uvalue) *)
Fixpoint sep8_rest (fuel : nat) (v : Z) (acc : list Z) : option (list Z) :=
  match fuel with
  | O => None
  | S fuel' =>
      if v =? 0 then None else
      let acc := 48 + Z.land v 7 :: acc in
      let v := Z.shiftr v 3 in
      if v =? 0 then Some acc else sep8_rest fuel' v acc
  end.
(* 850-882: the while(1) loop *)
Fixpoint sep8 (fuel : nat) (v git dbs sep : Z) (acc : list Z) : option (list Z) :=
  match fuel with
  | O => None
  | S fuel' =>
      if dbs <=? 0 then None else                              (* STRF_ASSERT(digits_before_sep > 0), 864 *)
      let acc := 48 + Z.land v 7 :: acc in
      let v := Z.shiftr v 3 in
      if v =? 0 then Some acc
      else if negb (dbs =? 1) then sep8 fuel' v git (dbs - 1) sep acc
      else
        let acc := sep :: acc in
        if git_is_final git then sep8_rest 32 v acc
        else
          do git <- git_next git ;
          sep8 fuel' v git (git_current git) sep acc
  end.

(* 892-918 write_int_txtdigits_backwards<Base> *)
Definition write_back (b : ibase) (lower : bool) (v : Z) : option (list Z) :=
  match b with
  | B10 => back10 64 v []
  | B16 => if v <? 0 then None else back16 64 lower v []       (* STRF_ASSERT(ge_zero(value)), 768 *)
  | B8 => back8 64 v []
  | B2 => None      (* there is no backwards writer for base 2 *)
  end.
(* [None] also when an assertion of the function (uvalue != 0, 650; uvalue > 0xF and
   ! git.ended(), 795-796; uvalue != 0, ! git.ended(), 859-860) or of git.current() fails *)
Definition write_back_sep (b : ibase) (lower : bool) (v g sep : Z) : option (list Z) :=
  match b with
  | B10 => if (v =? 0) || git_ended g then None else sep10 64 v g (git_current g) sep []
  | B16 => if (0xF <? v) && negb (git_ended g) then sep16 64 lower v g (git_current g) sep [] else None
  | B8 => if (0 <? v) && negb (git_ended g) then sep8 64 v g (git_current g) sep [] else None
  | B2 => None
  end.

(* ---- writing to a destination ------------------------------------------ *)

(* Storing [u] backwards from buffer_ptr() + n after dst.ensure(m), and advancing
   the destination by n.  Storing fewer than n units leaves uninitialised units in
   the output, storing more overwrites preceding memory: both are [None]. *)
Definition reserve_back (m n : Z) (u : list Z) : option (list op) :=
  if zlen u =? n then Some [OReserve (Z.to_nat m) u] else None.

(* 978-991 intdigits_writer<Base>::write, Base != 2 *)
Definition write_digits (b : ibase) (lower : bool) (v digcount : Z) : option (list op) :=
  do u <- write_back b lower v ; reserve_back digcount digcount u.
(* 993-1010 write_little_sep, Base != 2 *)
Definition write_little (b : ibase) (lower : bool) (v g digcount seps_count sep : Z) : option (list op) :=
  do u <- write_back_sep b lower v g sep ;
  let size := digcount + seps_count in reserve_back size size u.

(* copy of grp digits after a separator: "if (oit + sep_size + grp > end) flush" (1043-1048,
   1058-1063) is ensure(sep_size + grp); digits beyond the digit buffer are [None] *)
Definition big_group (encsep : list Z) (sep_size grp : Z) (digits : list Z) : option (list op * list Z) :=
  if grp <=? zlen digits then
    Some ([OReserve (Z.to_nat (sep_size + grp)) (encsep ++ firstn (Z.to_nat grp) digits)],
          skipn (Z.to_nat grp) digits)
  else None.
(* 1042-1053: do { ... } while (--dist.middle_groups_count) *)
Fixpoint big_middle (n : nat) (encsep : list Z) (sep_size grp : Z) (digits : list Z)
    : option (list op * list Z) :=
  match n with
  | O => Some ([], digits)
  | S n' => do p <- big_group encsep sep_size grp digits ;
            do q <- big_middle n' encsep sep_size grp (snd p) ; Some (fst p ++ fst q, snd q)
  end.
(* 1056-1070: while ( ! dist.low_groups.empty()) *)
Fixpoint big_low (fuel : nat) (encsep : list Z) (sep_size low : Z) (digits : list Z) : option (list op) :=
  if rdg_empty low then Some [] else
  match fuel with
  | O => None
  | S fuel' => do p <- big_group encsep sep_size (rdg_highest low) digits ;
               do q <- big_low fuel' encsep sep_size (rdg_pop_high low) (snd p) ; Some (fst p ++ q)
  end.
(* 1012-1072 write_big_sep, Base != 2; encsep is what encode_char(oit, sep) writes;
   UIntT is std::uint64_t.  The assertions on the sizes of middle and low groups (1041, 1058:
   not negative) are about masked values *)
Definition write_big (b : ibase) (lower : bool) (v g : Z) (encsep : list Z) (sep_size digcount : Z)
    : option (list op) :=
  do digits <- write_back b lower v ;
  if max_num_digits b S8 <? zlen digits then None     (* before the start of digits_buff *)
  else
  do dist <- distribute g digcount ;
  let h := dist_highest dist in
  if (h <? 0) || (zlen digits <? h) then None                  (* STRF_ASSERT(highest_group >= 0), 1034 *)
  else
  let o1 := OReserve (Z.to_nat h) (firstn (Z.to_nat h) digits) in
  let digits := skipn (Z.to_nat h) digits in
  if dist_middle dist =? 0 then
    do o2 <- big_low 8 encsep sep_size (dist_low dist) digits ; Some (o1 :: o2)
  else
    do p <- big_middle (Z.to_nat (dist_middle dist)) encsep sep_size (rdg_highest (dist_low dist)) digits ;
    do o2 <- big_low 8 encsep sep_size (rdg_pop_high (dist_low dist)) (snd p) ;
    Some (o1 :: fst p ++ o2).

(* base 2.  "if (it == end) flush; *it++ = c", with the final advance_to, is OPut c
   (the units between two flushes are stored before the pointer is advanced; the
   destination cannot observe the difference). *)
Definition bitchar (v mask : Z) : Z := 48 + (if Z.land v mask =? 0 then 0 else 1).
(* 1097-1108: do { ... } while (mask != 0) *)
Fixpoint bin_loop (fuel : nat) (v mask : Z) : option (list op) :=
  match fuel with
  | O => None
  | S fuel' =>
      let o := OPut (bitchar v mask) in
      let mask := Z.shiftr mask 1 in
      if mask =? 0 then Some [o] else do os <- bin_loop fuel' v mask ; Some (o :: os)
  end.
(* 1081-1111 intdigits_writer<2>::write *)
Definition write_bin (v digcount : Z) : option (list op) :=
  if v <=? 1 then Some [OPut (48 + v)]
  else bin_loop 70 v (to_u 64 (Z.shiftl 1 (digcount - 1))).
(* n digits, from the one selected by mask *)
Fixpoint bits_run (n : nat) (v mask : Z) : list Z * Z :=
  match n with
  | O => ([], mask)
  | S n' => let '(u, m) := bits_run n' v (Z.shiftr mask 1) in (bitchar v mask :: u, m)
  end.
(* a separator and grp digits; before the separator, ensure(m) *)
Definition bin_group (m : Z) (encsep : list Z) (v mask grp : Z) : list op * Z :=
  let '(u, mask') := bits_run (Z.to_nat grp) v mask in
  (OReserve (Z.to_nat m) encsep :: map OPut u, mask').
(* 1134-1155 and 1207-1227: the do-while loop over the middle groups *)
Fixpoint bin_middle (n : nat) (m : Z) (encsep : list Z) (v mask grp : Z) : list op * Z :=
  match n with
  | O => ([], mask)
  | S n' => let '(o1, m1) := bin_group m encsep v mask grp in
            let '(o2, m2) := bin_middle n' m encsep v m1 grp in (o1 ++ o2, m2)
  end.
(* 1158-1177 and 1229-1247: while ( ! dist.low_groups.empty()) *)
Fixpoint bin_low (fuel : nat) (m : Z) (encsep : list Z) (v mask low : Z) : option (list op) :=
  if rdg_empty low then Some [] else
  match fuel with
  | O => None
  | S fuel' => let '(o1, m1) := bin_group m encsep v mask (rdg_highest low) in
               do o2 <- bin_low fuel' m encsep v m1 (rdg_pop_high low) ; Some (o1 ++ o2)
  end.
(* the common part of 1113-1179 (write_little_sep: first group stored with no ensure
   at all, i.e. ensure(0); separators with ensure(1)) and 1182-1249 (write_big_sep:
   first group after ensure(highest_group), separators after ensure(sep_size)) *)
Definition bin_groups (first_ensure : Z) (sep_ensure : Z) (dist : distribution) (encsep : list Z)
    (v digcount : Z) : option (list op) :=
  let mask := to_u 64 (Z.shiftl 1 (digcount - 1)) in
  let '(u, mask) := bits_run (Z.to_nat (dist_highest dist)) v mask in
  let o1 := OReserve (Z.to_nat first_ensure) u in
  if dist_middle dist =? 0 then
    do o3 <- bin_low 8 sep_ensure encsep v mask (dist_low dist) ; Some (o1 :: o3)
  else
    let '(o2, mask) := bin_middle (Z.to_nat (dist_middle dist)) sep_ensure encsep v mask (rdg_highest (dist_low dist)) in
    do o3 <- bin_low 8 sep_ensure encsep v mask (rdg_pop_high (dist_low dist)) ; Some (o1 :: o2 ++ o3).
(* 1113-1179 intdigits_writer<2>::write_little_sep *)
Definition write_little_bin (v g digcount sep : Z) : option (list op) :=
  if v <=? 1 then None else                                    (* STRF_ASSERT(value > 1), 1123 *)
  do dist <- distribute g digcount ; bin_groups 0 1 dist [sep] v digcount.
(* 1182-1249 intdigits_writer<2>::write_big_sep *)
Definition write_big_bin (v g : Z) (encsep : list Z) (sep_size digcount : Z) : option (list op) :=
  if v <=? 1 then None else                                    (* STRF_ASSERT(value > 1), 1193 *)
  do dist <- distribute g digcount ; bin_groups (dist_highest dist) sep_size dist encsep v digcount.

(* intdigits_writer<Base>, all bases *)
Definition dig_write (b : ibase) (lower : bool) (v digcount : Z) : option (list op) :=
  match b with B2 => write_bin v digcount | _ => write_digits b lower v digcount end.
(* 1263-1275 write_int_little_sep<Base> *)
Definition dig_write_little (b : ibase) (lower : bool) (v g digcount seps_count sep : Z) : option (list op) :=
  match b with B2 => write_little_bin v g digcount sep | _ => write_little b lower v g digcount seps_count sep end.
(* 1277-1290 write_int_big_sep<Base> *)
Definition dig_write_big (b : ibase) (lower : bool) (v g : Z) (encsep : list Z) (sep_size digcount : Z) : option (list op) :=
  match b with B2 => write_big_bin v g encsep sep_size digcount | _ => write_big b lower v g encsep sep_size digcount end.
