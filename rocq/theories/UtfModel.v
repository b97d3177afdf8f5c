(* Model of include/strf/detail/utf.hpp: the nine UTF transcoders (transcode,
   transcode_size, unsafe_transcode, unsafe_transcode_size), and the per code
   point and counting functions of the three UTF charsets.

   Conventions.  A code unit is an unsigned number (the code converts with
   cast_u8 / cast_u16 / cast_u32 before looking at it); a source range is a
   list; a pointer into the source is the list from there on.  The destination
   range is its number of free units [space]; what is written is the list of
   units.  [lax] is with_lax_surrogate_policy(flags) (its negation is
   with_strict_surrogate_policy), [stop] is with_stop_on_invalid_sequence(flags).
   Reading the source out of range in the unsafe functions is [None].
   ptrdiff_t / size_t arithmetic is unbounded: the numbers are bounded by twice
   or four times the length of an object in memory. *)
From Verif Require Import Base UtfSpec.

(* static_cast to the destination code-unit type. *)
Definition c8 (x : Z) := to_u 8 x.
(* the conversion to char16_t *)
Definition c16 (x : Z) := to_u 16 x.
(* the conversion to char32_t *)
Definition c32 (x : Z) := to_u 32 x.

(* utf.hpp:124-147 *)
Definition is_surrogate (c : Z) : bool := Z.shiftr c 11 =? 0x1B.
(* utf.hpp:131-134 *)
Definition is_high_surrogate (c : Z) : bool := Z.shiftr c 10 =? 0x36.
(* utf.hpp:135-138 *)
Definition is_low_surrogate (c : Z) : bool := Z.shiftr c 10 =? 0x37.

(* utf.hpp:148-165 *)
Definition utf8_decode2 (ch0 ch1 : Z) : Z :=
  Z.lor (Z.shiftl (Z.land ch0 0x1F) 6) (Z.land ch1 0x3F).
(* utf.hpp:157-162 *)
Definition utf8_decode3 (ch0 ch1 ch2 : Z) : Z :=
  Z.lor (Z.lor (Z.shiftl (Z.land ch0 0x0F) 12) (Z.shiftl (Z.land ch1 0x3F) 6)) (Z.land ch2 0x3F).
(* utf.hpp:163-169 *)
Definition utf8_decode4 (ch0 ch1 ch2 ch3 : Z) : Z :=
  Z.lor (Z.lor (Z.lor (Z.shiftl (Z.land ch0 0x07) 18) (Z.shiftl (Z.land ch1 0x3F) 12))
               (Z.shiftl (Z.land ch2 0x3F) 6)) (Z.land ch3 0x3F).

(* utf.hpp:167-190 *)
Definition is_cont (c : Z) : bool := Z.land c 0xC0 =? 0x80.

(* utf.hpp:192-229 *)
Definition first_2_of_3 (ch0 ch1 : Z) : Z := Z.lor (Z.shiftl (Z.land ch0 0x0F) 6) (Z.land ch1 0x3F).
(* utf.hpp:200-210 *)
Definition first_2_of_3_valid (x : Z) (lax : bool) : bool := lax || negb (Z.shiftr x 5 =? 0x1B).
(* utf.hpp:212-216 *)
Definition first_2_of_4 (ch0 ch1 : Z) : Z := Z.lor (Z.shiftl (Z.lxor ch0 0xF0) 6) (Z.land ch1 0x3F).
(* utf.hpp:217-221 *)
Definition last_2_of_4 (x ch2 ch3 : Z) : Z :=
  Z.lor (Z.lor (Z.shiftl x 12) (Z.shiftl (Z.land ch2 0x3F) 6)) (Z.land ch3 0x3F).
(* utf.hpp:222-230 *)
Definition first_2_of_4_valid (x : Z) : bool := (0xF <? x) && (x <? 0x110).

(* Outcome of one iteration of a transcode loop, before the checks of the
   destination space: a valid sequence with the units to write, or an invalid
   one.  [k] is how many units src_it was advanced after the first one. *)
Inductive sres := SGood (out : list Z) (k : nat) | SBad (k : nat).

(* One iteration of utf8 -> utf32 transcode: utf.hpp:1396-1443. *)
Definition step_8_32 (lax : bool) (ch0 : Z) (rest : list Z) : sres :=
  if ch0 <? 0x80 then SGood [c32 ch0] 0
  else if 0xC0 =? Z.land ch0 0xE0 then
    match rest with
    | ch1 :: _ => if (0xC1 <? ch0) && is_cont ch1
                  then SGood [c32 (utf8_decode2 ch0 ch1)] 1 else SBad 0
    | [] => SBad 0
    end
  else if 0xE0 =? ch0 then
    match rest with
    | ch1 :: r1 =>
        if Z.land ch1 0xE0 =? 0xA0 then
          match r1 with
          | ch2 :: _ => if is_cont ch2
              then SGood [c32 (Z.lor (Z.shiftl (Z.land ch1 0x3F) 6) (Z.land ch2 0x3F))] 2
              else SBad 1
          | [] => SBad 1
          end
        else SBad 0
    | [] => SBad 0
    end
  else if 0xE0 =? Z.land ch0 0xF0 then
    match rest with
    | ch1 :: r1 =>
        let x := first_2_of_3 ch0 ch1 in
        if is_cont ch1 && first_2_of_3_valid x lax then
          match r1 with
          | ch2 :: _ => if is_cont ch2
              then SGood [c32 (Z.lor (Z.shiftl x 6) (Z.land ch2 0x3F))] 2
              else SBad 1
          | [] => SBad 1
          end
        else SBad 0
    | [] => SBad 0
    end
  else
    match rest with
    | ch1 :: r1 =>
        let x := first_2_of_4 ch0 ch1 in
        if is_cont ch1 && first_2_of_4_valid x then
          match r1 with
          | ch2 :: r2 =>
              if is_cont ch2 then
                match r2 with
                | ch3 :: _ => if is_cont ch3 then SGood [c32 (last_2_of_4 x ch2 ch3)] 3 else SBad 2
                | [] => SBad 2
                end
              else SBad 1
          | [] => SBad 1
          end
        else SBad 0
    | [] => SBad 0
    end.

(* One iteration of utf8 -> utf8 transcode (sanitizer): utf.hpp:1703-1763. *)
Definition step_8_8 (lax : bool) (ch0 : Z) (rest : list Z) : sres :=
  if ch0 <? 0x80 then SGood [c8 ch0] 0
  else if 0xC0 =? Z.land ch0 0xE0 then
    match rest with
    | ch1 :: _ => if (0xC1 <? ch0) && is_cont ch1 then SGood [c8 ch0; c8 ch1] 1 else SBad 0
    | [] => SBad 0
    end
  else if 0xE0 =? ch0 then
    match rest with
    | ch1 :: r1 =>
        if 0xA0 =? Z.land ch1 0xE0 then
          match r1 with
          | ch2 :: _ => if is_cont ch2 then SGood [c8 ch0; c8 ch1; c8 ch2] 2 else SBad 1
          | [] => SBad 1
          end
        else SBad 0
    | [] => SBad 0
    end
  else if 0xE0 =? Z.land ch0 0xF0 then
    match rest with
    | ch1 :: r1 =>
        if is_cont ch1 && first_2_of_3_valid (first_2_of_3 ch0 ch1) lax then
          match r1 with
          | ch2 :: _ => if is_cont ch2 then SGood [c8 ch0; c8 ch1; c8 ch2] 2 else SBad 1
          | [] => SBad 1
          end
        else SBad 0
    | [] => SBad 0
    end
  else
    match rest with
    | ch1 :: r1 =>
        if is_cont ch1 && first_2_of_4_valid (first_2_of_4 ch0 ch1) then
          match r1 with
          | ch2 :: r2 =>
              if is_cont ch2 then
                match r2 with
                | ch3 :: _ => if is_cont ch3
                              then SGood [c8 ch0; c8 ch1; c8 ch2; c8 ch3] 3 else SBad 2
                | [] => SBad 2
                end
              else SBad 1
          | [] => SBad 1
          end
        else SBad 0
    | [] => SBad 0
    end.

(* One iteration of utf8 -> utf16 transcode: utf.hpp:3090-3153.
   static_cast<unsigned>(x) - 0x10000 does not wrap: x >= 0x10000 there. *)
Definition step_8_16 (lax : bool) (ch0 : Z) (rest : list Z) : sres :=
  if ch0 <? 0x80 then SGood [c16 ch0] 0
  else if 0xC0 =? Z.land ch0 0xE0 then
    match rest with
    | ch1 :: _ => if (0xC1 <? ch0) && is_cont ch1
                  then SGood [c16 (utf8_decode2 ch0 ch1)] 1 else SBad 0
    | [] => SBad 0
    end
  else if 0xE0 =? ch0 then
    match rest with
    | ch1 :: r1 =>
        if Z.land ch1 0xE0 =? 0xA0 then
          match r1 with
          | ch2 :: _ => if is_cont ch2
              then SGood [c16 (Z.lor (Z.shiftl (Z.land ch1 0x3F) 6) (Z.land ch2 0x3F))] 2
              else SBad 1
          | [] => SBad 1
          end
        else SBad 0
    | [] => SBad 0
    end
  else if 0xE0 =? Z.land ch0 0xF0 then
    match rest with
    | ch1 :: r1 =>
        let x := first_2_of_3 ch0 ch1 in
        if is_cont ch1 && first_2_of_3_valid x lax then
          match r1 with
          | ch2 :: _ => if is_cont ch2
              then SGood [c16 (Z.lor (Z.shiftl x 6) (Z.land ch2 0x3F))] 2
              else SBad 1
          | [] => SBad 1
          end
        else SBad 0
    | [] => SBad 0
    end
  else
    match rest with
    | ch1 :: r1 =>
        let x := first_2_of_4 ch0 ch1 in
        if is_cont ch1 && first_2_of_4_valid x then
          match r1 with
          | ch2 :: r2 =>
              if is_cont ch2 then
                match r2 with
                | ch3 :: _ =>
                    if is_cont ch3 then
                      let y := to_u 32 (last_2_of_4 x ch2 ch3 - 0x10000) in
                      SGood [c16 (0xD800 + Z.shiftr y 10); c16 (0xDC00 + Z.land y 0x3FF)] 3
                    else SBad 2
                | [] => SBad 2
                end
              else SBad 1
          | [] => SBad 1
          end
        else SBad 0
    | [] => SBad 0
    end.

(* 0x10000 + (((ch & 0x3FF) << 10) | (ch2 & 0x3FF)): utf.hpp:2345, 3423 etc. *)
Definition join_surrogates (ch ch2 : Z) : Z :=
  0x10000 + Z.lor (Z.shiftl (Z.land ch 0x3FF) 10) (Z.land ch2 0x3FF).

(* One iteration of utf16 -> utf32 transcode: utf.hpp:2335-2359. *)
Definition step_16_32 (lax : bool) (ch : Z) (rest : list Z) : sres :=
  if is_surrogate ch then
    match rest with
    | ch2 :: _ =>
        if is_high_surrogate ch && is_low_surrogate ch2
        then SGood [c32 (join_surrogates ch ch2)] 1
        else if negb lax then SBad 0 else SGood [c32 ch] 0
    | [] => if negb lax then SBad 0 else SGood [c32 ch] 0
    end
  else SGood [c32 ch] 0.

(* One iteration of utf16 -> utf16 transcode: utf.hpp:2534-2563. *)
Definition step_16_16 (lax : bool) (ch : Z) (rest : list Z) : sres :=
  if is_surrogate ch then
    match rest with
    | ch2 :: _ =>
        if is_high_surrogate ch && is_low_surrogate ch2
        then SGood [c16 ch; c16 ch2] 1
        else if negb lax then SBad 0 else SGood [c16 ch] 0
    | [] => if negb lax then SBad 0 else SGood [c16 ch] 0
    end
  else SGood [c16 ch] 0.

(* The byte sequences written from a code point by utf32 -> utf8 and
   utf16 -> utf8: utf.hpp:2110-2133, 3402-3429. *)
Definition bytes2 (ch : Z) : list Z :=
  [c8 (Z.lor 0xC0 (Z.land 0x1F (Z.shiftr ch 6))); c8 (Z.lor 0x80 (Z.land 0xBF ch))].
(* the three bytes stored for a code point, e.g. utf.hpp:2125-2131 *)
Definition bytes3 (ch : Z) : list Z :=
  [c8 (Z.lor 0xE0 (Z.land 0x0F (Z.shiftr ch 12))); c8 (Z.lor 0x80 (Z.land 0xBF (Z.shiftr ch 6)));
   c8 (Z.lor 0x80 (Z.land 0xBF ch))].
(* the four bytes stored for a code point, e.g. utf.hpp:2133-2140 *)
Definition bytes4 (ch : Z) : list Z :=
  [c8 (Z.lor 0xF0 (Z.land 0x07 (Z.shiftr ch 18))); c8 (Z.lor 0x80 (Z.land 0xBF (Z.shiftr ch 12)));
   c8 (Z.lor 0x80 (Z.land 0xBF (Z.shiftr ch 6))); c8 (Z.lor 0x80 (Z.land 0xBF ch))].

(* One iteration of utf16 -> utf8 transcode: utf.hpp:3397-3446. *)
Definition step_16_8 (lax : bool) (ch : Z) (rest : list Z) : sres :=
  if ch <? 0x80 then SGood [c8 ch] 0
  else if ch <? 0x800 then SGood (bytes2 ch) 0
  else if negb (is_surrogate ch) then SGood (bytes3 ch) 0
  else
    match rest with
    | ch2 :: _ =>
        if is_high_surrogate ch && is_low_surrogate ch2
        then SGood (bytes4 (join_surrogates ch ch2)) 1
        else if lax then SGood (bytes3 ch) 0 else SBad 0
    | [] => if lax then SGood (bytes3 ch) 0 else SBad 0
    end.

(* One iteration of utf32 -> utf8 transcode: utf.hpp:2105-2147. *)
Definition step_32_8 (lax : bool) (ch : Z) (_ : list Z) : sres :=
  if ch <? 0x80 then SGood [c8 ch] 0
  else if ch <? 0x800 then SGood (bytes2 ch) 0
  else if ch <? 0x10000 then
    (if lax || negb (is_surrogate ch) then SGood (bytes3 ch) 0 else SBad 0)
  else if ch <? 0x110000 then SGood (bytes4 ch) 0
  else SBad 0.

(* One iteration of utf32 -> utf16 transcode: utf.hpp:2770-2797. *)
Definition step_32_16 (lax : bool) (ch : Z) (_ : list Z) : sres :=
  if ch <? 0x10000 then
    (if lax || negb (is_surrogate ch) then SGood [c16 ch] 0 else SBad 0)
  else if ch <? 0x110000 then
    let s := ch - 0x10000 in
    SGood [c16 (Z.lor 0xD800 (Z.shiftr s 10)); c16 (Z.lor 0xDC00 (Z.land s 0x3FF))] 0
  else SBad 0.

(* One iteration of utf32 -> utf32 transcode: utf.hpp:2955-2988 (the two loops
   differ in the surrogate test only). *)
Definition step_32_32 (lax : bool) (ch : Z) (_ : list Z) : sres :=
  if lax then (if 0x110000 <=? ch then SBad 0 else SGood [c32 ch] 0)
  else if (0x110000 <=? ch) || is_surrogate ch then SBad 0 else SGood [c32 ch] 0.

(* What is written for an invalid sequence: utf.hpp:1770-1776 and alike
   ("\xEF\xBF\xBD") for UTF-8, 0xFFFD (e.g. 3149, 1442) for UTF-16/32. *)
Definition repl8 : list Z := [c8 0xEF; c8 0xBF; c8 0xBD].
(* U+FFFD in UTF-16 *)
Definition repl16 : list Z := [c16 0xFFFD].
(* U+FFFD in UTF-32 *)
Definition repl32 : list Z := [c32 0xFFFD].

(* The loop common to the nine transcode functions (e.g. utf.hpp:1396-1456).
   Order of the effects in an iteration: parse; when invalid: notify, then stop
   if requested; then check the space (STRF_UTF_CHECK_DST[_SIZE],
   utf.hpp:14-22), returning seq_begin; then write.
   [fuel] bounds the iterations; it starts above the number of source units and
   every iteration consumes at least one. *)
Fixpoint tc_loop (step : Z -> list Z -> sres) (repl : list Z) (stop : bool)
    (fuel : nat) (src : list Z) (space : Z) : option tc_result :=
  match fuel with
  | O => None
  | S fuel =>
      match src with
      | [] => Some (mk_tc [] [] Completed [])
      | ch0 :: rest =>
          match step ch0 rest with
          | SGood out k =>
              if space <? zlen out then Some (mk_tc src [] Insufficient [])
              else
                do r <- tc_loop step repl stop fuel (skipn k rest) (space - zlen out) ;
                Some (mk_tc (t_rest r) (out ++ t_out r) (t_reason r) (t_notes r))
          | SBad k =>
              let note := (src, Z.of_nat (S k)) in
              if stop then Some (mk_tc src [] InvalidSequence [note])
              else if space <? zlen repl then Some (mk_tc src [] Insufficient [note])
              else
                do r <- tc_loop step repl stop fuel (skipn k rest) (space - zlen repl) ;
                Some (mk_tc (t_rest r) (repl ++ t_out r) (t_reason r) (note :: t_notes r))
          end
      end
  end.

(* the common frame of the nine transcode functions: the loop over the source *)
Definition transcode (step : bool -> Z -> list Z -> sres) (repl : list Z)
    (lax stop : bool) (src : list Z) (space : Z) : option tc_result :=
  tc_loop (step lax) repl stop (S (length src)) src space.

(* utf.hpp:1375, 1684, 3067, 3383, 2522, 2322, 2092, 2756, 2943 *)
Definition transcode_8_32 := transcode step_8_32 repl32.
(* utf.hpp:1684-1780 *)
Definition transcode_8_8 := transcode step_8_8 repl8.
(* utf.hpp:3067-3157 *)
Definition transcode_8_16 := transcode step_8_16 repl16.
(* utf.hpp:3383-3449 *)
Definition transcode_16_8 := transcode step_16_8 repl8.
(* utf.hpp:2522-2567 *)
Definition transcode_16_16 := transcode step_16_16 repl16.
(* utf.hpp:2322-2362 *)
Definition transcode_16_32 := transcode step_16_32 repl32.
(* utf.hpp:2092-2150 *)
Definition transcode_32_8 := transcode step_32_8 repl8.
(* utf.hpp:2756-2800 *)
Definition transcode_32_16 := transcode step_32_16 repl16.
(* utf.hpp:2943-2991 *)
Definition transcode_32_32 := transcode step_32_32 repl32.
