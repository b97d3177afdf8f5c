(* Strings, characters, booleans and joins:
   include/strf/detail/printable_types/string.hpp, char.hpp, bool.hpp, join.hpp. *)
From Verif Require Import Base WidthModel DestModel UtfSpec UtfModel UtfSizeModel UtfForms CharsetModel TransSpec SbcsTables SbcsModel
  PivotModel CsetModel GcbTable WCalcModel IntSpec IntModel PrintModel.

(* ---- the width calculator facet, applied to a charset: width_calculator.hpp ---- *)
Inductive wcalc := FastWidth | FastU32len | U32len | StdWidth.
(* charset.to_u32().transcode(..., nullptr, none) as std_width_calc_t uses it: only the
   output, the source left and "insufficient output space" matter; a single-byte charset
   never stops with unsupported_codepoint here *)
Definition unlift_reason (r : reason) : stop_reason :=
  match r with RCompleted => Completed | RInsufficient => Insufficient | _ => InvalidSequence end.
(* charset.to_u32().transcode, as width_calculator.hpp:478-500 calls it *)
Definition decode_u32 (a : cset) (src : list Z) (n : Z) : option tc_result :=
  match a with
  | Utf f => transcode_of f U32 false false src n
  | Sb _ cs => do r <- sb_to_u32 cs flags_none src n ;
               Some (mk_tc (r_rest r) (r_out r) (unlift_reason (r_reason r)) [])
  end.
(* charset.to_u32().transcode_size, as width_calculator.hpp:520-530 calls it *)
Definition decode_u32_size (a : cset) (src : list Z) (n : Z) : option sz_result :=
  match a with
  | Utf f => transcode_size_of f U32 false false false src n
  | Sb _ cs => do r <- sb_to_u32_size cs flags_none src n ;
               Some (mk_sz (z_size r) (z_rest r) (unlift_reason (z_reason r)))
  end.
(* charset.count_codepoints_fast and count_codepoints, as width_calculator.hpp:85-160 calls them *)
Definition count_cps (fast : bool) (a : cset) (src : list Z) (max : Z) : option (Z * list Z) :=
  match a with
  | Utf f => if fast then count_fast_of f src max else count_of f src max
  | Sb _ _ => sb_count src max
  end.
(* char_width: 27-32, 76-81, 120-125, 449-469.  [c] is a code unit of a *)
Definition wc_char_width (w : wcalc) (a : cset) (c : Z) : option Z :=
  match w with
  | StdWidth =>
      match a with
      | Utf U32 => Some (65536 * char32_width c)
      | Utf U16 => Some (65536 * char32_width (decode_unit16 c))
      | Utf U8 => Some (65536 * char32_width (decode_unit8 false c))
      | Sb _ cs => do d <- sb_decode_unit cs c ; Some (65536 * char32_width d)
      end
  | _ => Some 65536
  end.
(* the member str_width of the four calculators: width_calculator.hpp:34-50, 85-100, 130-145, 470-500 *)
Definition wc_str_width (w : wcalc) (a : cset) (limit : Z) (src : list Z) : option Z :=
  match w with
  | FastWidth => Some (fast_str_width limit src)
  | FastU32len => u32len_str_width (count_cps true a) limit src
  | U32len => u32len_str_width (count_cps false a) limit src
  | StdWidth => std_str_width (decode_u32 a) limit src
  end.
(* width and the rest of the source *)
Definition wc_width_and_pos (w : wcalc) (a : cset) (limit : Z) (src : list Z) : option (Z * list Z) :=
  match w with
  | FastWidth => let r := fast_str_width_and_pos limit src in Some (fst r, skipn (Z.to_nat (snd r)) src)
  | FastU32len => u32len_str_width_and_pos (count_cps true a) limit src
  | U32len => u32len_str_width_and_pos (count_cps false a) limit src
  | StdWidth => std_width_and_pos (decode_u32 a) (decode_u32_size a) limit src
  end.

(* the charset record (fill, sizes) of a charset *)
Definition charset_of (b : cset) : charset := match b with Utf f => utf_charset f | Sb _ cs => sb_charset cs end.

(* precision: the units kept, [str, res.ptr) *)
Definition kept (src rest : list Z) : list Z := firstn (length src - length rest) src.

(* ---- strcpy_printer, string.hpp:516-614 ---- *)
Definition strcpy_arg (w : wcalc) (a : cset) (same : bool) (prec : option Z) (src : list Z) : arg := fun p =>
  match prec with
  | None =>                                                        (* 524-541, 545-571 *)
      do p1 <- match p_width p with
               | None => Some p
               | Some _ => do r <- remaining_width p ; do sw <- wc_str_width w a r src ; add_width sw p
               end ;
      do p2 <- add_size (zlen src) p1 ;
      Some (p2, p_copy same src)
  | Some prec =>                                                   (* 573-593 *)
      do res <- wc_width_and_pos w a prec src ;
      let str := kept src (snd res) in
      do p1 <- add_width (fst res) p ;
      do p2 <- add_size (zlen str) p1 ;
      Some (p2, p_copy same str)
  end.

(* ---- aligned printers: the width part.  aligned_strcpy_printer 625-677 + init_ 708-742,
   aligned_transcode_printer 918-968 + init_ 1018-1055, aligned_unsafe likewise.
   Returns the measured width and the string kept *)
Definition aligned_measure (w : wcalc) (a : cset) (al : align_fmt) (prec : option Z) (src : list Z) (p : pre)
    : option (Z * list Z) :=
  match prec with
  | None =>
      do gt <- remaining_width_greater_than (al_width al) p ;
      do limit <- (if gt then remaining_width p else Some (al_width al)) ;
      do sw <- wc_str_width w a limit src ; Some (sw, src)
  | Some prec => do res <- wc_width_and_pos w a prec src ; Some (fst res, kept src (snd res))
  end.
(* 708-742: the fill counts and the accumulated width *)
Definition aligned_init (al : align_fmt) (strw : Z) (p : pre) : option (pre * Z * (Z * Z)) :=
  if strw <? al_width al then
    do d <- w_sub (al_width al) strw ;
    let fillcount := w_round d in
    do p1 <- add_width strw p ;
    do p2 <- add_width (w_of_signed fillcount) p1 ;
    Some (p2, fillcount, split_fill (al_align al) fillcount)
  else do p1 <- add_width strw p ; Some (p1, 0, (0, 0)).

(* ---- aligned_strcpy_printer, 616-763; [b] is the destination charset (fill) ---- *)
Definition aligned_strcpy_arg (w : wcalc) (a b : cset) (same : bool) (al : align_fmt) (prec : option Z) (src : list Z)
    : arg := fun p =>
  do m <- aligned_measure w a al prec src p ;
  do i <- aligned_init al (fst m) p ;
  let '(p1, fillcount, (lf, rf)) := i in
  do p2 <- add_size (zlen (snd m)) p1 ;                                        (* precalc_size_, 691-705 *)
  do p3 <- (if 0 <? fillcount then add_size (fillcount * cs_size (charset_of b) (al_fill al)) p2 else Some p2) ;
  Some (p3, p_seq (p_fill (charset_of b) lf (al_fill al))                    (* 744-757 *)
              (p_seq (p_copy same (snd m)) (p_fill (charset_of b) rf (al_fill al)))).

(* ---- the size of a transcoding, as transcode_printer::init_ computes it, 862-884 ---- *)
(* find_transcoder(a, b).transcode_size_func(); non-null exactly when transcode_func is *)
Definition direct_size (a b : cset) : option (list Z -> Z -> option sz_res) :=
  match a, b with
  | Utf f, Utf g => Some (fun src limit => option_map lift_size (transcode_size_of f g false false false src limit))
  | Sb _ cs, Utf U32 => Some (sb_to_u32_size cs flags_none)
  | Utf U32, Sb _ cs => Some (sb_from_u32_size cs flags_none)
  | Sb i cs, Sb j _ => if (i =? j)%nat then Some (sb_to_u32_size cs flags_none) else None
  | _, _ => None
  end.
(* strf::ssize_max, strf_def.hpp *)
Definition ssize_max : Z := 2 ^ 63 - 1.
(* strf::transcode_size or decode_encode_size with no limit (charset.hpp:1637-1660), as string.hpp uses it *)
Definition transcoded_size (a b : cset) (src : list Z) : option Z :=
  match direct_size a b with
  | Some f => do z <- f src ssize_max ; Some (z_size z)
  | None => do z <- pivot_size_of a b flags_none src ssize_max ; Some (ds_size z)
  end.
(* STRF_IF_CONSTEXPR (PreMeasurements::size_demanded) *)
Definition add_size_if (s : option Z) (p : pre) : option pre :=
  match p_size p with None => Some p | Some _ => do n <- s ; add_size n p end.

(* the size as unsafe_transcode_printer::init_ computes it, 1149-1179; the direct size
   function comes from the same transcoder as the transcoding function *)
Definition unsafe_transcoded_size (a b : cset) (src : list Z) : option Z :=
  match direct_unsafe_size a b with
  | Some f => do z <- f flags_none src ssize_max ; Some (z_size z)
  | None => do z <- pivot_unsafe_size a b flags_none src ssize_max ; Some (ds_size z)
  end.

(* ---- make_printer, 1795-1834 with string_printer_type, 417-520: which printer ---- *)
(* transcoding_policy; [Unsafe dynamic]: transcoding_policy::unsafe when the charsets are
   compared at run time (true) or at compile time (false) *)
Inductive policy := NoTranscode | SaniIfDifferent | SaniAlways | Unsafe (dynamic : bool).
(* transcoding_policy::unsafe, string.hpp:417-520 *)
Definition is_unsafe (pol : policy) : bool := match pol with Unsafe _ => true | _ => false end.
(* what the transcoding printers measure and print *)
Definition trans_size (unsafe : bool) (a b : cset) (src : list Z) : option Z :=
  if unsafe then unsafe_transcoded_size a b src else transcoded_size a b src.
(* the transcoding done by the printer, string.hpp *)
Definition p_trans (unsafe : bool) (a b : cset) (src : list Z) : printer :=
  if unsafe then p_unsafe a b src else p_transcode a b src.

(* ---- transcode_printer, 793-917, and unsafe_transcode_printer, 1095-1219; the error
   notifier is not modelled here ---- *)
Definition transcode_arg (unsafe : bool) (w : wcalc) (a b : cset) (prec : option Z) (src : list Z) : arg := fun p =>
  do m <- match prec with
          | None =>
              if has_remaining_width p then
                do r <- remaining_width p ; do sw <- wc_str_width w a r src ;
                do p1 <- add_width sw p ; Some (p1, src)
              else Some (p, src)
          | Some prec =>
              do res <- wc_width_and_pos w a prec src ;
              do p1 <- add_width (fst res) p ; Some (p1, kept src (snd res))
          end ;
  do p2 <- add_size_if (trans_size unsafe a b (snd m)) (fst m) ;
  Some (p2, p_trans unsafe a b (snd m)).

(* ---- aligned_transcode_printer, 919-1090, and aligned_unsafe_transcode_printer, 1222-1397 ---- *)
Definition aligned_transcode_arg (unsafe : bool) (w : wcalc) (a b : cset) (al : align_fmt) (prec : option Z) (src : list Z) : arg := fun p =>
  do m <- aligned_measure w a al prec src p ;
  do i <- aligned_init al (fst m) p ;
  let '(p1, fillcount, (lf, rf)) := i in
  do p2 <- add_size_if (do s <- trans_size unsafe a b (snd m) ;
                        if 0 <? fillcount then chk_i 64 (s + cs_size (charset_of b) (al_fill al) * fillcount) else Some s) p1 ;
  Some (p2, p_seq (p_fill (charset_of b) lf (al_fill al))
              (p_seq (p_trans unsafe a b (snd m)) (p_fill (charset_of b) rf (al_fill al)))).

(* comparison of the ids of two charsets (charset.hpp:131-158) *)
Definition cset_same (a b : cset) : bool :=
  match a, b with
  | Utf U8, Utf U8 | Utf U16, Utf U16 | Utf U32, Utf U32 => true
  | Sb i _, Sb j _ => (i =? j)%nat
  | _, _ => false
  end.
(* Comparing the charsets statically or dynamically (the two _variant classes, 1543-1765)
   makes the same choice, but for the unsafe policy: the variants copy when the charsets are
   the same, the static choice (484-497) never does. *)
Definition string_arg (w : wcalc) (pol : policy) (a b : cset) (same : bool) (al : option align_fmt) (prec : option Z)
    (src : list Z) : arg :=
  let copy := match pol with NoTranscode => true | SaniIfDifferent => cset_same a b | SaniAlways => false
              | Unsafe dynamic => dynamic && cset_same a b end in
  match al with
  | None => if copy then strcpy_arg w a same prec src else transcode_arg (is_unsafe pol) w a b prec src
  | Some al => if copy then aligned_strcpy_arg w a b same al prec src else aligned_transcode_arg (is_unsafe pol) w a b al prec src
  end.

(* ---- char.hpp ---- *)
(* char_printing::make_printer, 281-298, and char_printer, 15-25 *)
Definition char_arg (w : wcalc) (b : cset) (c : Z) : arg := fun p =>
  do p1 <- add_size 1 p ;
  do p2 <- (if has_remaining_width p1 then do cw <- wc_char_width w b c ; add_width cw p1 else Some p1) ;
  Some (p2, p_op (OReserve 1 [c])).
(* fmt_char_printer::operator(), 113-137, between the fills: the loop is DestModel.fill_all_loop *)
Definition p_char (count c : Z) : printer := fun S ops s =>
  if count =? 1 then do s1 <- ensure ops 1 s ; d_emit ops s1 [c] else fill_all ops 64 s count c.
(* fmt_char_printer::init_, 69-109, shared with fmt_conv_char32_printer::init_, 186-211:
   content width, fill count, accumulated width.  count is a ptrdiff_t *)
Definition char_widths (al : align_fmt) (cw count : Z) (p : pre) : option (pre * Z) :=
  do content <- w_sat_mul_i64 cw count ;
  if content <? al_width al then
    do d <- w_sub (al_width al) content ;
    let fillcount := w_round d in
    do x <- w_add content (w_of_signed fillcount) ;
    do p1 <- add_width x p ; Some (p1, fillcount)
  else do p1 <- add_width content p ; Some (p1, 0).
(* char.hpp:29-135 fmt_char_printer *)
Definition fmt_char_arg (w : wcalc) (b : cset) (al : align_fmt) (count c : Z) : arg := fun p =>
  do cw <- wc_char_width w b c ;
  do r <- char_widths al cw count p ;
  let '(p1, fillcount) := r in
  let '(lf, rf) := split_fill (al_align al) fillcount in
  do p2 <- add_size_if (if 0 <? fillcount then chk_i 64 (count + fillcount * cs_size (charset_of b) (al_fill al))
                        else Some count) p1 ;
  Some (p2, p_seq (p_fill (charset_of b) lf (al_fill al))
              (p_seq (p_char count c) (p_fill (charset_of b) rf (al_fill al)))).
(* printable_def<char32_t>::make_printer for another character type, 337-357, and
   conv_char32_printer, 144-160 *)
Definition char32_arg (w : wcalc) (b : cset) (c : Z) : arg := fun p =>
  let n := cs_size (charset_of b) c in
  do p1 <- add_size n p ;
  do p2 <- (if has_remaining_width p1 then do cw <- wc_char_width w (Utf U32) c ; add_width cw p1 else Some p1) ;
  Some (p2, p_op (OReserve (Z.to_nat n) (cs_encode (charset_of b) c))).
(* fmt_conv_char32_printer, 162-236 *)
Definition fmt_char32_arg (w : wcalc) (b : cset) (al : align_fmt) (count c : Z) : arg := fun p =>
  let cs := charset_of b in
  do cw <- wc_char_width w (Utf U32) c ;
  do r <- char_widths al cw count p ;
  let '(p1, fillcount) := r in
  do p2 <- add_size_if (chk_i 64 (count * cs_size cs c)) p1 ;
  do p3 <- (if 0 <? fillcount then add_size_if (Some (fillcount * cs_size cs (al_fill al))) p2 else Some p2) ;
  Some (p3,
    if fillcount <=? 0 then p_op (cs_fill cs count c)
    else match al_align al with
         | ALeft => p_seq (p_op (cs_fill cs count c)) (p_op (cs_fill cs fillcount (al_fill al)))
         | ACenter =>
             let lf := Z.shiftr fillcount 1 in
             p_seq (p_op (cs_fill cs lf (al_fill al)))
               (p_seq (p_op (cs_fill cs count c)) (p_op (cs_fill cs (fillcount - lf) (al_fill al))))
         | ARight => p_seq (p_op (cs_fill cs fillcount (al_fill al))) (p_op (cs_fill cs count c))
         end).

(* ---- bool.hpp ---- *)
(* lettercase as an enum, facets/lettercase.hpp:12-17 *)
Definition lettercase_value (lc : lettercase) : Z := match lc with LLower => 0x2020 | LMixed => 0x0020 | LUpper => 0 end.
(* bool_printer::operator(), 25-48 *)
Definition bool_units (lc : lettercase) (x : bool) : list Z :=
  let first := Z.shiftr (lettercase_value lc) 8 in
  let others := Z.land (lettercase_value lc) 0x20 in
  if x then [Z.lor 84 first; Z.lor 82 others; Z.lor 85 others; Z.lor 69 others]
  else [Z.lor 70 first; Z.lor 65 others; Z.lor 76 others; Z.lor 83 others; Z.lor 69 others].
(* bool.hpp:139-146: 5 - (int)value *)
Definition bool_size (x : bool) : Z := if x then 4 else 5.
(* make_printer, 139-150 *)
Definition bool_arg (lc : lettercase) (x : bool) : arg := fun p =>
  do p1 <- add_width (w_of_i16 (bool_size x)) p ;
  do p2 <- add_size (bool_size x) p1 ;
  Some (p2, p_op (OReserve (Z.to_nat (bool_size x)) (bool_units lc x))).
(* make_printer, 152-178, and fmt_bool_printer, 62-104 *)
Definition fmt_bool_arg (lc : lettercase) (b : cset) (al : align_fmt) (x : bool) : arg := fun p =>
  let cs := charset_of b in
  let w := bool_size x in
  let fmt_width := w_round (al_width al) in
  let value := p_op (OReserve (Z.to_nat w) (bool_units lc x)) in
  if w <? fmt_width then
    let fillcount := fmt_width - w in
    do p1 <- add_width (w_of_signed fmt_width) p ;
    do p2 <- add_size (w + fillcount * cs_size cs (al_fill al)) p1 ;
    let '(lf, rf) := split_fill (al_align al) fillcount in
    Some (p2, p_seq (match al_align al with ALeft => p_nothing | _ => p_op (cs_fill cs lf (al_fill al)) end)
                (p_seq value (p_fill cs rf (al_fill al))))
  else
    do p1 <- add_width (w_of_signed w) p ;
    do p2 <- add_size w p1 ;
    Some (p2, value).

(* ---- join.hpp ---- *)
(* unaligned: join_printer, 119-184.  With no_premeasurements the arguments are kept and
   print_printables makes and runs each printer in turn, 121-158; otherwise a printers_tuple *)
Definition join_arg (args : list arg) : arg := fun p =>
  do r <- make_printers args p ; Some (fst r, call_printers (snd r)).
(* aligned_join_printer::operator(), 76-104 *)
Definition p_aligned_join (cs : charset) (al : align_fmt) (fillcount : Z) (ps : list printer) : printer :=
  if fillcount <=? 0 then call_printers ps
  else match al_align al with
       | ALeft => p_seq (call_printers ps) (p_op (cs_fill cs fillcount (al_fill al)))
       | ARight => p_seq (p_op (cs_fill cs fillcount (al_fill al))) (call_printers ps)
       | ACenter =>
           let half := Z.shiftr fillcount 1 in
           p_seq (p_op (cs_fill cs half (al_fill al)))
             (p_seq (call_printers ps) (p_op (cs_fill cs (fillcount - half) (al_fill al))))
       end.
(* join.hpp:205-231: the premeasurements of the parts demand a size if the outer ones do *)
Definition sub_size (p : pre) : option Z := match p_size p with None => None | Some _ => Some 0 end.
(* the size part of make_printer, 218-226, 258-264 *)
Definition join_add_size (cs : charset) (al : align_fmt) (fillcount : Z) (sub : pre) (p : pre) : option pre :=
  match p_size p with
  | None => Some p
  | Some _ =>
      do p1 <- add_size (accumulated_ssize sub) p ;
      if 0 <? fillcount then add_size (fillcount * cs_size cs (al_fill al)) p1 else Some p1
  end.
(* make_printer with alignment, 199-228 (no width demanded) and 230-266 *)
Definition aligned_join_arg (b : cset) (al : align_fmt) (args : list arg) : arg := fun p =>
  let cs := charset_of b in
  match p_width p with
  | None =>
      do r <- make_printers args (mk_pre (sub_size p) (Some (al_width al, 0))) ;
      do rem <- remaining_width (fst r) ;
      let fillcount := w_round rem in
      do p1 <- join_add_size cs al fillcount (fst r) p ;
      Some (p1, p_aligned_join cs al fillcount (snd r))
  | Some _ =>
      do gt <- remaining_width_greater_than (al_width al) p ;
      do wmax <- (if gt then remaining_width p else Some (al_width al)) ;
      do wdiff <- (if gt then w_sub wmax (al_width al) else Some 0) ;
      do r <- make_printers args (mk_pre (sub_size p) (Some (wmax, 0))) ;
      do more <- remaining_width_greater_than wdiff (fst r) ;
      do rem <- remaining_width (fst r) ;
      do fillcount <- (if more then do d <- w_sub rem wdiff ; Some (w_round d) else Some 0) ;
      do total <- w_sat_add_i32 wmax fillcount ;
      do total <- w_sat_sub total rem ;
      do p1 <- add_width total p ;
      do p2 <- join_add_size cs al fillcount (fst r) p1 ;
      Some (p2, p_aligned_join cs al fillcount (snd r))
  end.
