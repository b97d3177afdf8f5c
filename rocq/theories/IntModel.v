(* Model of include/strf/detail/printable_types/int.hpp: integer formats and printers. *)
From Verif Require Import Base WidthModel DestModel GroupModel DigitsModel CharsetModel IntSpec.

(* ---- formats: the state held by the format-specifier classes ---- *)
Inductive int_fmt :=
| FDefault                                                            (* default_int_format, 107-130 *)
| FNoPad (b : ibase) (sign : showsign) (showbase : bool)              (* int_format_no_pad0_nor_punct, 79-97 *)
| FStatic (b : ibase) (punct : bool) (precision pad0 : Z) (sign : showsign) (showbase : bool)
                                                                      (* int_format_static_base_and_punct, 49-76 *)
| FDyn (base precision pad0 : Z) (sign : showsign) (showbase punct : bool). (* int_format, 19-47 *)

(* the format functions a user may call; base(n) takes any int *)
Inductive fmt_call :=
| CHex | CDec | COct | CBin | CPrec (n : Z) | CPad0 (n : Z) | CPlus | CFillSign | CShowBase | CPunct
| CBase (n : Z).

(* hex/dec/oct/bin of: default_int_format_specifier_fn 205-238, no_pad0 414-470, static
   643-709, full dynamic 884-923 *)
Definition set_base (b : ibase) (f : int_fmt) : int_fmt :=
  match f with
  | FDefault => match b with B10 => FDefault | _ => FNoPad b NegativeOnly false end
  | FNoPad _ s sb => FNoPad b s sb                     (* change_base, 99-104 *)
  | FStatic _ p pr pd s sb => FStatic b p pr pd s sb   (* change_static_params, 132-137 *)
  | FDyn _ pr pd s sb p => FDyn (bval b) pr pd s sb p
  end.
(* [None]: the call does not compile (deleted function or static_assert) *)
Definition call (f : int_fmt) (c : fmt_call) : option int_fmt :=
  match c with
  | CHex => Some (set_base B16 f) | CDec => Some (set_base B10 f)
  | COct => Some (set_base B8 f) | CBin => Some (set_base B2 f)
  | CPrec n =>                                          (* 239-247, 471-479, 710-714, 924-933 *)
      Some match f with
      | FDefault => FStatic B10 false n 0 NegativeOnly false
      | FNoPad b s sb => FStatic b false n 0 s sb
      | FStatic b p _ pd s sb => FStatic b p n pd s sb
      | FDyn b _ pd s sb p => FDyn b n pd s sb p
      end
  | CPad0 n =>                                          (* 248-255, 480-488, 715-719, 934-943 *)
      Some match f with
      | FDefault => FStatic B10 false 0 n NegativeOnly false
      | FNoPad b s sb => FStatic b false 0 n s sb
      | FStatic b p pr _ s sb => FStatic b p pr n s sb
      | FDyn b pr _ s sb p => FDyn b pr n s sb p
      end
  | CPlus | CFillSign =>                                (* 256-279, 489-509, 720-740, 944-973 *)
      let s := match c with CPlus => PositiveAlso | _ => FillInsteadOfPositive end in
      match f with
      | FDefault => Some (FNoPad B10 s false)
      | FNoPad b _ sb => match b with B10 => Some (FNoPad b s sb) | _ => None end
      | FStatic b p pr pd _ sb => match b with B10 => Some (FStatic b p pr pd s sb) | _ => None end
      | FDyn b pr pd _ sb p => Some (FDyn b pr pd s sb p)
      end
  | CShowBase =>                                        (* operator*, 280, 510-516, 741-747, 974-983 *)
      match f with
      | FDefault => None
      | FNoPad b s _ => match b with B10 => None | _ => Some (FNoPad b s true) end
      | FStatic b p pr pd s _ => match b with B10 => None | _ => Some (FStatic b p pr pd s true) end
      | FDyn b pr pd s _ p => Some (FDyn b pr pd s true p)
      end
  | CPunct =>                                           (* punct / operator!, 281-292, 517-529, 748-776, 984-1003 *)
      Some match f with
      | FDefault => FStatic B10 true 0 0 NegativeOnly false
      | FNoPad b s sb => FStatic b true 0 0 s sb
      | FStatic b _ pr pd s sb => FStatic b true pr pd s sb
      | FDyn b pr pd s sb _ => FDyn b pr pd s sb true
      end
  | CBase n =>                                          (* 293-302, 530-537, 777-790, 1004-1013 *)
      Some match f with
      | FDefault => FDyn n 0 0 NegativeOnly false false
      | FNoPad b s sb => FDyn n 0 0 s sb false
      | FStatic b p pr pd s sb => FDyn n 0 0 NegativeOnly false p    (* only punctuate is kept *)
      | FDyn _ pr pd s sb p => FDyn n pr pd s sb p
      end
  end.
(* a chain of calls of format functions *)
Fixpoint calls (f : int_fmt) (cs : list fmt_call) : option int_fmt :=
  match cs with [] => Some f | c :: cs' => do f' <- call f c ; calls f' cs' end.

(* the base a dynamic format prints in: int_printer_full_dynamic 1993-2050 (default: 10) *)
Definition dyn_base (n : Z) : ibase :=
  if n =? 16 then B16 else if n =? 8 then B8 else if n =? 2 then B2 else B10.

(* the options a format object stands for *)
Definition opts_of (f : int_fmt) : int_opts :=
  match f with
  | FDefault => mk_opts 10 0 0 NegativeOnly false false
  | FNoPad b s sb => mk_opts (bval b) 0 0 s sb false
  | FStatic b p pr pd s sb => mk_opts (bval b) pr pd s sb p
  | FDyn n pr pd s sb p => mk_opts (bval (dyn_base n)) pr pd s sb p
  end.

(* ---- printers ---- *)
(* alignment_format: fill, width (a width_t), alignment; format_functions.hpp:21-41 *)
Record align_fmt := mk_align { al_fill : Z; al_width : Z; al_align : text_align }.
Definition default_align : align_fmt := mk_align 32 0 ARight.   (* 43-53 *)

(* what a printer object does: the operations on the destination, and the
   premeasured size (units) and width (columns) *)
Record printed := mk_printed { pr_ops : list op; pr_size : Z; pr_width : Z }.

(* the facets get_facet returns to an integer printer (int.hpp:2250-2375) *)
Record int_facets := mk_facets {
  if_clz : bool;                     (* is STRF_HAS_COUNTL_ZERO defined *)
  if_cs : charset;
  if_case : lettercase;
  if_grouping : ibase -> Z;          (* numpunct_c<Base>: grouping() (packed), thousands_sep() *)
  if_sep : ibase -> Z }.

(* the conversion bool to int *)
Definition b2i (b : bool) : Z := if b then 1 else 0.

(* default_int_printer, 1101-1164 *)
Definition default_print (clz : bool) (sgn : bool) (s : isize) (v : Z) : option printed :=
  let negative := sgn && (v <? 0) in
  let uvalue := unsigned_abs sgn (sbits s) v in
  let digcount := count_digits clz B10 s uvalue in
  do u <- write_back B10 false uvalue ;
  if zlen u =? digcount then
    let n := digcount + b2i negative in
    Some (mk_printed [OReserve (Z.to_nat n) ((if negative then [45] else []) ++ u)] n n)
  else None.

(* aligned_default_int_printer, 1166-1270 *)
Definition aligned_default_print (clz : bool) (cs : charset) (al : align_fmt) (sgn : bool) (s : isize) (v : Z)
    : option printed :=
  let negative := sgn && (v <? 0) in
  let uvalue := unsigned_abs sgn (sbits s) v in
  let digcount := count_digits clz B10 s uvalue in
  let sub_width := digcount + b2i negative in
  let width := w_round (al_width al) in
  let fillcount := if sub_width <? width then width - sub_width else 0 in
  do u <- write_back B10 false uvalue ;
  if zlen u =? digcount then
    let number := OReserve (Z.to_nat sub_width) ((if negative then [45] else []) ++ u) in
    let left := if 0 <? fillcount then
        match al_align al with ALeft => 0 | ARight => fillcount | ACenter => Z.shiftr fillcount 1 end else 0 in
    let right := if 0 <? fillcount then
        match al_align al with ALeft => fillcount | ARight => 0 | ACenter => fillcount - Z.shiftr fillcount 1 end else 0 in
    let left_ops := if 0 <? fillcount then
        match al_align al with ALeft => [] | _ => [cs_fill cs left (al_fill al)] end else [] in
    let right_ops := if 0 <? right then [cs_fill cs right (al_fill al)] else [] in
    Some (mk_printed (left_ops ++ [number] ++ right_ops)
            (fillcount * cs_size cs (al_fill al) + digcount + b2i negative) (fillcount + digcount + b2i negative))
  else None.

(* static_cast<int>(showsign), format_functions.hpp:14 *)
Definition sign_char (s : showsign) : Z :=
  match s with NegativeOnly => 0 | PositiveAlso => 43 | FillInsteadOfPositive => 32 end.
(* 'X' | ((lettercase_ != uppercase) << 5) *)
Definition prefix_char (b : ibase) (lc : lettercase) : Z :=
  Z.lor (match b with B16 => 88 | _ => 66 end) (Z.shiftl (b2i (low_prefix lc)) 5).

(* int_printer_no_pad0_nor_punct<Base>: init 1279-1331, printers 1333-1480 *)
Definition nopad_print (clz : bool) (lc : lettercase) (b : ibase) (sign : showsign) (showbase : bool)
    (sgn : bool) (s : isize) (v : Z) : option printed :=
  match b with
  | B10 =>
      let prefix := if sgn then (if 0 <=? v then sign_char sign else 45) else 0 in
      let uvalue := unsigned_abs sgn (sbits s) v in
      let digcount := count_digits clz B10 s uvalue in
      do u <- write_back B10 false uvalue ;
      if zlen u =? digcount then
        (* dst.ensure(data_.digcount + data_.prefix != 0): the argument is a bool *)
        let ensured := b2i (negb (digcount + prefix =? 0)) in
        let w := digcount + b2i (negb (prefix =? 0)) in
        Some (mk_printed [OReserve (Z.to_nat ensured) ((if prefix =? 0 then [] else [prefix]) ++ u)] w w)
      else None
  | _ =>
      let uvalue := to_u (sbits s) v in
      let prefix := match b with B8 => b2i (showbase && negb (v =? 0)) | _ => Z.shiftl (b2i showbase) 1 end in
      let digcount := count_digits clz b s uvalue in
      let w := digcount + prefix in
      match b with
      | B2 =>
          do o <- dig_write B2 false uvalue digcount ;
          Some (mk_printed ((if prefix =? 0 then [] else [OReserve 2 [48; prefix_char B2 lc]]) ++ o) w w)
      | _ =>
          do u <- write_back b (low_digits lc) uvalue ;
          if zlen u =? digcount then
            let pt := if prefix =? 0 then [] else match b with B8 => [48] | _ => [48; prefix_char B16 lc] end in
            Some (mk_printed [OReserve (Z.to_nat w) (pt ++ u)] w w)
          else None
      end
  end.

(* fmt_int_printer_data after init_1, 1500-1590: uvalue, has_prefix, sign.
   -wide_value for a narrow negative value is to_u 64 (- v), as is 1 + (-(v+1)). *)
Definition init_1 (b : ibase) (sign : showsign) (sgn : bool) (s : isize) (v : Z) : Z * bool * Z :=
  match b with
  | B10 =>
      if sgn then
        if 0 <=? v then (v, negb (sign_char sign =? 0), sign_char sign)
        else (to_u 64 (- v), true, 45)
      else (v, false, 0)
  | _ => (to_u (sbits s) v, false, 0)
  end.

(* the computation of has_prefix, prefix_size and precision common to 1604-1622, 1649-1667
   and 1783-1801 *)
Definition prefix_of (b : ibase) (showbase : bool) (uvalue : Z) (has_prefix : bool) (precision : Z) : bool * Z * Z :=
  match b with
  | B10 => (has_prefix, b2i has_prefix, precision)
  | B8 => if showbase && negb (uvalue =? 0)
          then (true, 1, if 0 <? precision then precision - 1 else precision)
          else (false, 0, precision)
  | _ => (showbase, Z.shiftl (b2i showbase) 1, precision)
  end.

(* int_printer_data and the like, int.hpp:1560-1640: sizes of the parts of the text *)
Record int_layout := mk_layout {
  ly_has_prefix : bool; ly_zeros : Z; ly_left : Z; ly_right : Z; ly_sub_width : Z; ly_fillcount : Z }.

(* init_fmt_int_printer_data with an alignment_format, 1636-1693, and the same code in
   init_punct_fmt_int_printer_data, 1802-1840 (there sepcount may be positive). [None]:
   int overflow. *)
Definition layout_aligned (b : ibase) (sign : Z) (has_prefix : bool) (prefix_size precision pad0 digcount sepcount : Z)
    (al : align_fmt) : option int_layout :=
  do content_width0 <- chk_i 32 (digcount + sepcount + prefix_size) ;
  let zeros_a := if digcount <? precision then precision - digcount else 0 in
  let zeros_b := if content_width0 <? pad0 then pad0 - content_width0 else 0 in
  let zeros := Z.max zeros_a zeros_b in
  do content_width <- chk_i 32 (content_width0 + zeros) ;
  let fmt_width := w_round (al_width al) in
  let fill_sign_space := (bval b =? 10) && (sign =? 32) in
  if fmt_width <=? content_width then
    let x := fill_sign_space && negb (al_fill al =? 32) in
    Some (mk_layout (has_prefix && negb x) zeros (b2i x) 0 (content_width - sepcount - b2i x) (b2i x))
  else
    let fillcount := fmt_width - content_width in
    let fss := b2i fill_sign_space in
    let '(l, r) := match al_align al with
      | ALeft => (fss, fillcount)
      | ARight => (fillcount + fss, 0)
      | ACenter => let half := Z.shiftr fillcount 1 in (half + fss, half + Z.land fillcount 1)
      end in
    Some (mk_layout (has_prefix && negb fill_sign_space) zeros l r (content_width - sepcount - fss) (fillcount + fss)).
(* init_fmt_int_printer_data with default_alignment_format, 1597-1634 *)
Definition layout_default (has_prefix : bool) (prefix_size precision pad0 digcount : Z) : option int_layout :=
  do content_width0 <- chk_i 32 (digcount + prefix_size) ;
  let zeros_a := if digcount <? precision then precision - digcount else 0 in
  let zeros_b := if content_width0 <? pad0 then pad0 - content_width0 else 0 in
  let zeros := Z.max zeros_a zeros_b in
  do content_width <- chk_i 32 (content_width0 + zeros) ;
  Some (mk_layout has_prefix zeros 0 0 content_width 0).

(* the first part of both operator(), 1744-1766 and 1922-1944 *)
Definition print_head (cs : charset) (lc : lettercase) (b : ibase) (sign : Z) (fillchar : Z) (ly : int_layout) : list op :=
  (if 0 <? ly_left ly then [cs_fill cs (ly_left ly) fillchar] else []) ++
  (if ly_has_prefix ly then
     match b with
     | B10 => [OReserve 1 [sign]]
     | B8 => [OReserve 1 [48]]
     | _ => [OReserve 2 [48; prefix_char b lc]]
     end else []) ++
  [OFill (ly_zeros ly) 48].
(* int.hpp: "if (right_fillcount > 0) encode_fill(...)", the end of each operator() *)
Definition print_tail (cs : charset) (fillchar : Z) (ly : int_layout) : list op :=
  if 0 <? ly_right ly then [cs_fill cs (ly_right ly) fillchar] else [].

(* int_printer_static_base_and_punct<CharT, Base, false>, 1697-1771 *)
Definition static_print (F : int_facets) (b : ibase) (precision pad0 : Z) (sign : showsign) (showbase : bool)
    (al : option align_fmt) (sgn : bool) (s : isize) (v : Z) : option printed :=
  let cs := if_cs F in
  let '(uvalue, has_prefix, sg) := init_1 b sign sgn s v in
  let digcount := count_digits (if_clz F) b S8 uvalue in
  let '(has_prefix, prefix_size, precision) := prefix_of b showbase uvalue has_prefix precision in
  do ly <- match al with
           | Some a => layout_aligned b sg has_prefix prefix_size precision pad0 digcount 0 a
           | None => layout_default has_prefix prefix_size precision pad0 digcount
           end ;
  let fillchar := match al with Some a => al_fill a | None => 32 end in
  do o <- dig_write b (low_digits (if_case F)) uvalue digcount ;
  Some (mk_printed (print_head cs (if_case F) b sg fillchar ly ++ o ++ print_tail cs fillchar ly)
          (ly_sub_width ly + (if 0 <? ly_fillcount ly then ly_fillcount ly * cs_size cs fillchar else 0))
          (ly_sub_width ly + ly_fillcount ly)).

(* int_printer_static_base_and_punct<CharT, Base, true>: init_punct_fmt_int_printer_data
   1773-1842, constructor 1880-1906, operator() 1918-1969 *)
Definition punct_print (F : int_facets) (b : ibase) (precision pad0 : Z) (sign : showsign) (showbase : bool)
    (al : align_fmt) (grouping sepchar : Z) (sgn : bool) (s : isize) (v : Z) : option printed :=
  let cs := if_cs F in
  let '(uvalue, has_prefix, sg) := init_1 b sign sgn s v in
  let digcount := count_digits (if_clz F) b S8 uvalue in
  do sepcount <- separators_count grouping digcount ;
  let '(grouping, sepsize) :=
    if (0x80 <=? sepchar) && negb (sepcount =? 0) then
      let size := cs_validate cs sepchar in
      if size =? -1 then (grouping_empty, 0) else (grouping, size)
    else (grouping, 1) in
  let '(has_prefix, prefix_size, precision) := prefix_of b showbase uvalue has_prefix precision in
  do ly <- layout_aligned b sg has_prefix prefix_size precision pad0 digcount sepcount al ;
  let low := low_digits (if_case F) in
  do o <- (if sepcount =? 0 then dig_write b low uvalue digcount
           else if sepsize =? 1 then
             let sep := if 0x80 <=? sepchar then hd 0 (cs_encode cs sepchar) else sepchar in
             dig_write_little b low uvalue grouping digcount sepcount sep
           else dig_write_big b low uvalue grouping (cs_encode cs sepchar) sepsize digcount) ;
  Some (mk_printed (print_head cs (if_case F) b sg (al_fill al) ly ++ o ++ print_tail cs (al_fill al) ly)
          (ly_sub_width ly + (if ly_fillcount ly =? 0 then 0 else ly_fillcount ly * cs_size cs (al_fill al))
            + sepcount * sepsize)
          (ly_sub_width ly + ly_fillcount ly + sepcount)).

(* int_printing::make_printer, 2252-2320, and int_printer_full_dynamic, 1972-2052 *)
Definition int_print (F : int_facets) (f : int_fmt) (al : option align_fmt) (sgn : bool) (s : isize) (v : Z)
    : option printed :=
  match f with
  | FDefault =>
      match al with
      | None => default_print (if_clz F) sgn s v
      | Some a => aligned_default_print (if_clz F) (if_cs F) a sgn s v
      end
  | FNoPad b sign sb =>
      match al with
      | None => nopad_print (if_clz F) (if_case F) b sign sb sgn s v
      | Some _ => static_print F b 0 0 sign sb al sgn s v
      end
  | FStatic b false pr pd sign sb => static_print F b pr pd sign sb al sgn s v
  | FStatic b true pr pd sign sb =>
      punct_print F b pr pd sign sb (match al with Some a => a | None => default_align end)
        (if_grouping F b) (if_sep F b) sgn s v
  | FDyn n pr pd sign sb punct =>
      let b := dyn_base n in
      punct_print F b pr pd sign sb (match al with Some a => a | None => default_align end)
        (if punct then if_grouping F b else grouping_empty) (if punct then if_sep F b else 44) sgn s v
  end.

(* voidptr_printing, 2390-2440: a pointer prints as the hexadecimal of its address, with
   the base prefix *)
Definition voidptr_print (F : int_facets) (al : option align_fmt) (address : Z) : option printed :=
  int_print F (FNoPad B16 NegativeOnly true) al false S8 address.
