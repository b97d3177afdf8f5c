(* What a locale's numeric strings mean, independently of the library.

   Windows (LOCALE_SGROUPING): group sizes, lowest first, each of one or two digits,
   separated by ';'; a final 0 means that the size before it repeats.
   ISO C (localeconv, 7.11.2.1): each char of the grouping string is a group size, lowest
   first; the last one repeats, unless the list is ended by CHAR_MAX. *)
From Verif Require Import Base UtfSpec SbcsSpec.

Inductive win_number : list Z -> Z -> Prop :=
| wn_one d : 0 <= d <= 9 -> win_number [0x30 + d] d
| wn_two d e : 0 <= d <= 9 -> 0 <= e <= 9 -> win_number [0x30 + d; 0x30 + e] (10 * d + e).
(* [win_string s gs rep]: s lists the sizes gs; rep: the last one repeats *)
Inductive win_string : list Z -> list Z -> bool -> Prop :=
| ws_zero t : win_number t 0 -> win_string t [] true
| ws_last t g : win_number t g -> 0 < g -> win_string t [g] false
| ws_more t g s gs rep : win_number t g -> 0 < g -> win_string s gs rep ->
    win_string (t ++ 0x3B :: s) (g :: gs) rep.

(* ISO C; char_max is 127 where char is signed, 255 where it is not *)
Inductive c_grouping (char_max : Z) : list Z -> list Z -> bool -> Prop :=
| cg_repeat gs : Forall (fun c => 1 <= c < char_max) gs -> c_grouping char_max gs gs true
| cg_end gs rest : Forall (fun c => 1 <= c < char_max) gs ->
    c_grouping char_max (gs ++ char_max :: rest) gs false.

(* The first character of a string in the locale's codeset; None: there is none, or it is
   ill-formed (or a byte without a character) *)
Definition first_utf8 (s : list Z) (r : option Z) : Prop :=
  exists its, items enc8 false s its /\
    r = match its with Good c :: _ => Some c | _ => None end.
Definition first_utf16 (s : list Z) (r : option Z) : Prop :=
  exists its, items enc16 false s its /\
    r = match its with Good c :: _ => Some c | _ => None end.
Definition first_byte (table : list Z) (s : list Z) : option Z :=
  match s with [] => None | b :: _ => std_decode table b end.
(* the codesets the library knows, by the name nl_langinfo(CODESET) gives: "UTF-8",
   "ISO-8859-1", "ISO-8859-3", "ISO-8859-15" *)
Inductive codeset_first : list Z -> list Z -> option Z -> Prop :=
| cf_utf8 s r : first_utf8 s r -> codeset_first [85; 84; 70; 45; 56] s r
| cf_iso1 s : codeset_first [73; 83; 79; 45; 56; 56; 53; 57; 45; 49] s (first_byte std_iso_8859_1 s)
| cf_iso3 s : codeset_first [73; 83; 79; 45; 56; 56; 53; 57; 45; 51] s (first_byte std_iso_8859_3 s)
| cf_iso15 s : codeset_first [73; 83; 79; 45; 56; 56; 53; 57; 45; 49; 53] s (first_byte std_iso_8859_15 s).
