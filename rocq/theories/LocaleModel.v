(* include/strf/locale.hpp: from the C (or Windows) locale to a numpunct<10> facet.
   A C string is modelled by the units before its terminating NUL. *)
From Verif Require Import Base TransSpec UtfSpec UtfModel UtfForms SbcsTables SbcsModel GroupModel.

(* str[i] of a NUL-terminated string: the NUL after the last unit *)
Definition first_unit (s : list Z) : Z := match s with [] => 0 | c :: _ => c end.

(* detail::is_digit / not_digit, int_digits.hpp:18-28 *)
Definition is_digit (c : Z) : bool := (0x30 <=? c) && (c <=? 0x39).
(* int_digits.hpp:24-28 *)
Definition not_digit (c : Z) : bool := (c <? 0x30) || (0x39 <? c).

(* parse_win_grouping, locale.hpp:51-85: after a group has been read (67-83) *)
Definition win_after (loop : list Z -> creator -> option Z) (grp : Z) (s : list Z) (c : creator) : option Z :=
  if grp =? 0 then
    if negb (first_unit s =? 0) then Some grouping_empty else finish c
  else
    let c' := push_high c grp in
    match s with
    | [] => finish_no_more_sep c'
    | x :: s' => if negb (x =? 0x3B) then Some grouping_empty else loop s' c'
    end.
(* the loop, 58-84 *)
Fixpoint win_loop (s : list Z) (c : creator) : option Z :=
  match s with
  | [] => Some grouping_empty
  | d :: s1 =>
      if not_digit d then Some grouping_empty
      else
        match s1 with
        | d2 :: s2 =>
            if is_digit d2 then win_after win_loop ((d - 0x30) * 10 + (d2 - 0x30)) s2 c
            else win_after win_loop (d - 0x30) s1 c
        | [] => win_after win_loop (d - 0x30) s1 c
        end
  end.
(* locale.hpp:51-85 *)
Definition parse_win_grouping (s : list Z) : option Z :=
  if first_unit s =? 0 then Some grouping_empty else win_loop s creator_init.

(* decode_first_char_from_utf16, 88-104 (wchar_t of 16 bits) *)
Definition decode_first_char_from_utf16 (src : list Z) : Z :=
  let ch0 := first_unit src in
  if negb (ch0 =? 0) then
    if negb (is_surrogate ch0) then ch0
    else if is_high_surrogate ch0 then
      let ch1 := first_unit (tl src) in
      if is_low_surrogate ch1
      then 0x10000 + Z.lor (Z.shiftl (Z.land ch0 0x3FF) 10) (Z.land ch1 0x3FF)
      else 0xFFFD
    else 0xFFFD
  else 0xFFFD.

(* numpunct<10>, numpunct.hpp:421-516: grouping_, decimal_point_, thousands_sep_ *)
Record numpunct := mk_np { np_grouping : Z; np_point : Z; np_sep : Z }.
(* numpunct<10>::decimal_point(char32_t), numpunct.hpp:421-516 *)
Definition set_point (p : numpunct) (c : Z) := mk_np (np_grouping p) c (np_sep p).
(* numpunct<10>::thousands_sep(char32_t), numpunct.hpp:421-516 *)
Definition set_sep (p : numpunct) (c : Z) := mk_np (np_grouping p) (np_point p) c.
(* numpunct<10>::grouping(digits_grouping), numpunct.hpp:421-516 *)
Definition set_grouping (p : numpunct) (g : Z) := mk_np g (np_point p) (np_sep p).
(* numpunct(const digits_grouping&), 434-437, with the default members 514-515 *)
Definition np_of_grouping (g : Z) : numpunct := mk_np g 0x2E 0x2C.

(* get_decoder, 117-137.  transcode_f<char, char32_t> of the four known encodings: what
   the call leaves in the destination [first..first+space) *)
Definition decoder := list Z -> Z -> option (list Z).
(* locale.hpp:114-135, the name "UTF-8" *)
Definition utf8_decoder : decoder := fun src space =>
  do r <- transcode_of U8 U32 false false src space ; Some (t_out r).
(* locale.hpp:114-135, the single-byte charsets *)
Definition sb_decoder (cs : sbcs) : decoder := fun src space =>
  do r <- sb_to_u32 cs (mk_flags false false false) src space ; Some (r_out r).
(* strcmp(a, b) == 0 (locale.hpp:114-135) *)
Fixpoint same_str (a b : list Z) : bool :=
  match a, b with
  | [], [] => true
  | x :: a', y :: b' => (x =? y) && same_str a' b'
  | _, _ => false
  end.
(* the text "UTF-8" (locale.hpp:114-135) *)
Definition n_utf8 : list Z := [0x55; 0x54; 0x46; 0x2D; 0x38].
(* the text "ISO-8859-" (locale.hpp:114-135) *)
Definition n_iso : list Z := [0x49; 0x53; 0x4F; 0x2D; 0x38; 0x38; 0x35; 0x39; 0x2D].
(* locale.hpp:114-135 *)
Definition get_decoder (name : list Z) : option decoder :=
  if same_str name n_utf8 then Some utf8_decoder
  else if same_str name (n_iso ++ [0x31]) then Some (sb_decoder iso_8859_1)
  else if same_str name (n_iso ++ [0x33]) then Some (sb_decoder iso_8859_3)
  else if same_str name (n_iso ++ [0x31; 0x35]) then Some (sb_decoder iso_8859_15)
  else None.
(* decode_first_char, 109-114: one code point of room, preset to U+FFFD *)
Definition decode_first_char (decode : decoder) (str : list Z) : option Z :=
  do out <- decode str 1 ; Some (match out with [] => 0xFFFD | c :: _ => c end).

(* make_numpunct, 140-184.  get_decoder has no effect, so the laziness of the search
   (decoder_func_searched) only shows in decoder_func being nullptr when not searched *)
Definition make_numpunct (encoding point sep : list Z) (grouping : Z) : option numpunct :=
  let punct := np_of_grouping grouping in
  do st <-
    (if first_unit point =? 0 then Some (set_point punct 0xFFFD, false, None)
     else if Z.land (first_unit point) 0x80 =? 0 then Some (set_point punct (first_unit point), false, None)
     else match get_decoder encoding with
          | Some f => do c <- decode_first_char f point ; Some (set_point punct c, true, Some f)
          | None => Some (set_point punct 0xFFFD, true, None)
          end) ;
  let '(punct, searched, func) := st in
  if grouping =? grouping_empty then Some punct
  else if first_unit sep =? 0 then Some (set_grouping punct grouping_empty)
  else if Z.land (first_unit sep) 0x80 =? 0 then Some (set_sep punct (first_unit sep))
  else
    let func := if negb searched then get_decoder encoding else func in
    match func with
    | None => Some (set_sep punct 0xA0)
    | Some f =>
        do ch <- decode_first_char f sep ;
        Some (if ch =? 0xFFFD then set_grouping punct grouping_empty else set_sep punct ch)
    end.

(* locale_numpunct(), 191-227: Windows, given the three strings of the locale; and the
   others, given nl_langinfo(CODESET) and localeconv() *)
Definition locale_numpunct_win (point sep grouping : list Z) : option numpunct :=
  do g <- parse_win_grouping grouping ;
  let ts := decode_first_char_from_utf16 sep in
  let g := if ts =? 0xFFFD then grouping_empty else g in
  Some (mk_np g (decode_first_char_from_utf16 point) ts).
(* locale.hpp:190-222, not Windows *)
Definition locale_numpunct (codeset point sep grouping : list Z) : option numpunct :=
  do g <- grouping_of_str grouping ; make_numpunct codeset point sep g.
