(* Specification of the grapheme cluster boundaries of UAX #29 (revision 37, table 2,
   rules GB1-GB13, GB999; extended grapheme clusters), on the sequence of the values of
   the Grapheme_Cluster_Break property.  Nothing here refers to the model of the code. *)
From Verif Require Import Base.

(* Grapheme_Cluster_Break values; XPic stands for Extended_Pictographic=Yes (such code
   points have Grapheme_Cluster_Break=Other) *)
Inductive gcb := CR | LF | Control | Extend | ZWJ | SpacingMark | Prepend | RI | XPic
  | HangulL | HangulV | HangulT | HangulLV | HangulLVT | Other.

Definition is_gcb (a b : gcb) : bool :=
  match a, b with
  | CR, CR | LF, LF | Control, Control | Extend, Extend | ZWJ, ZWJ | SpacingMark, SpacingMark
  | Prepend, Prepend | RI, RI | XPic, XPic | HangulL, HangulL | HangulV, HangulV
  | HangulT, HangulT | HangulLV, HangulLV | HangulLVT, HangulLVT | Other, Other => true
  | _, _ => false
  end.
Definition one_of (l : list gcb) (a : gcb) : bool := existsb (is_gcb a) l.

(* The text before a position is given backwards: its last element first. *)

(* ... Extended_Pictographic Extend* *)
Fixpoint xpic_extends (before : list gcb) : bool :=
  match before with XPic :: _ => true | Extend :: r => xpic_extends r | _ => false end.
(* number of RI just before *)
Fixpoint ri_run (before : list gcb) : nat :=
  match before with RI :: r => S (ri_run r) | _ => O end.

(* Is there a boundary between [before] and the next element [c] ?  The first rule that
   applies decides. *)
Definition boundary (before : list gcb) (c : gcb) : bool :=
  match before with
  | [] => true                                                          (* GB1 *)
  | b :: before' =>
      if is_gcb b CR && is_gcb c LF then false                          (* GB3 *)
      else if one_of [Control; CR; LF] b then true                      (* GB4 *)
      else if one_of [Control; CR; LF] c then true                      (* GB5 *)
      else if is_gcb b HangulL && one_of [HangulL; HangulV; HangulLV; HangulLVT] c then false (* GB6 *)
      else if one_of [HangulLV; HangulV] b && one_of [HangulV; HangulT] c then false          (* GB7 *)
      else if one_of [HangulLVT; HangulT] b && is_gcb c HangulT then false                    (* GB8 *)
      else if one_of [Extend; ZWJ] c then false                         (* GB9 *)
      else if is_gcb c SpacingMark then false                           (* GB9a *)
      else if is_gcb b Prepend then false                               (* GB9b *)
      else if is_gcb b ZWJ && xpic_extends before' && is_gcb c XPic then false                (* GB11 *)
      else if is_gcb c RI && Nat.odd (ri_run before) then false         (* GB12, GB13 *)
      else true                                                         (* GB999 *)
  end.

(* The width of a text: the sum over its clusters of the width of their first code
   point.  A text is a list of (property value, width). *)
Fixpoint clusters_width (before : list gcb) (l : list (gcb * Z)) : Z :=
  match l with
  | [] => 0
  | (c, w) :: r => (if boundary before c then w else 0) + clusters_width (c :: before) r
  end.

(* the code points of width 2: [format.string.std] paragraph 11 (C++20 N4868), and
   docs/ref_width.adoc, char_width *)
Definition wide_ranges : list (Z * Z) :=
  [(0x1100, 0x115F); (0x2329, 0x232A); (0x2E80, 0x303E); (0x3040, 0xA4CF); (0xAC00, 0xD7A3);
   (0xF900, 0xFAFF); (0xFE10, 0xFE19); (0xFE30, 0xFE6F); (0xFF00, 0xFF60); (0xFFE0, 0xFFE6);
   (0x1F300, 0x1F64F); (0x1F900, 0x1F9FF); (0x20000, 0x2FFFD); (0x30000, 0x3FFFD)].
Definition in_ranges (l : list (Z * Z)) (ch : Z) : bool :=
  existsb (fun r => (fst r <=? ch) && (ch <=? snd r)) l.
Definition cp_width (ch : Z) : Z := if in_ranges wide_ranges ch then 2 else 1.

(* Property values fixed by the standard's rules rather than by data files: UAX #29
   table 2 (CR, LF, ZWJ, Regional_Indicator), and the Hangul syllable types of The
   Unicode Standard, section 3.12 / HangulSyllableType.txt *)
Definition hangul_L := [(0x1100, 0x115F); (0xA960, 0xA97C)].
Definition hangul_V := [(0x1160, 0x11A7); (0xD7B0, 0xD7C6)].
Definition hangul_T := [(0x11A8, 0x11FF); (0xD7CB, 0xD7FB)].
Definition hangul_syllables := [(0xAC00, 0xD7A3)].
Definition regional_indicators := [(0x1F1E6, 0x1F1FF)].
Definition fixed_property (ch : Z) : option gcb :=
  if ch =? 0x0D then Some CR else if ch =? 0x0A then Some LF
  else if in_ranges [(0x00, 0x1F); (0x7F, 0x9F)] ch then Some Control
  else if in_ranges [(0x20, 0x7E)] ch then Some Other
  else if ch =? 0x200D then Some ZWJ
  else if in_ranges regional_indicators ch then Some RI
  else if in_ranges hangul_L ch then Some HangulL
  else if in_ranges hangul_V ch then Some HangulV
  else if in_ranges hangul_T ch then Some HangulT
  else if in_ranges hangul_syllables ch then Some (if (ch - 0xAC00) mod 28 =? 0 then HangulLV else HangulLVT)
  else None.
