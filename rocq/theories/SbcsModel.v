(* The single-byte charsets: include/strf/detail/single_byte_charsets.hpp, the code shared
   by the 25 charsets of SbcsTables.  The 32-bit character type is char32_t (unsigned). *)
From Verif Require Import Base DestModel TransSpec SbcsTables CharsetModel.

(* transcode_flags *)
Record flags := mk_flags { f_lax : bool; f_stop_invalid : bool; f_stop_unsupported : bool }.
(* strict surrogates: the flag lax_surrogate_policy is not set (charset.hpp:36-52) *)
Definition f_strict (fl : flags) : bool := negb (f_lax fl).

(* the result of one more iteration of a transcoding loop, before that of the rest *)
Definition cons_result (out : list Z) (notes : list note) (r : tr_result) : tr_result :=
  mk_tr (r_rest r) (out ++ r_out r) (r_reason r) (notes ++ r_notes r).

(* single_byte_charset_to_utf32::transcode, 2513-2543; space = dst_end - dst_it *)
Fixpoint sb_to_u32 (cs : sbcs) (fl : flags) (src : list Z) (space : Z) : option tr_result :=
  match src with
  | [] => Some (mk_tr [] [] RCompleted [])
  | c :: rest =>
      do ch32 <- sb_decode cs c ;
      let notes := if ch32 =? 0xFFFD then [NoteInvalid src 1] else [] in
      if (ch32 =? 0xFFFD) && f_stop_invalid fl then Some (mk_tr src [] RInvalid notes)
      else if space =? 0 then Some (mk_tr src [] RInsufficient notes)
      else do r <- sb_to_u32 cs fl rest (space - 1) ; Some (cons_result [ch32] notes r)
  end.
(* single_byte_charset_to_utf32::unsafe_transcode, 2545-2565 *)
Fixpoint sb_to_u32_unsafe (cs : sbcs) (src : list Z) (space : Z) : option tr_result :=
  match src with
  | [] => Some (mk_tr [] [] RCompleted [])
  | c :: rest =>
      if space =? 0 then Some (mk_tr src [] RInsufficient [])
      else do ch32 <- sb_decode cs c ;
           do r <- sb_to_u32_unsafe cs rest (space - 1) ; Some (cons_result [ch32] [] r)
  end.

(* utf32_to_single_byte_charset::transcode, 2649-2693: is_invalid *)
Definition from_invalid (fl : flags) (ch : Z) : bool :=
  (0x110000 <=? ch) || f_strict fl && (0xD800 <=? ch) && (ch <=? 0xFFFF).
(* utf32_to_single_byte_charset::transcode, 2649-2693 *)
Fixpoint sb_from_u32 (cs : sbcs) (fl : flags) (src : list Z) (space : Z) : option tr_result :=
  match src with
  | [] => Some (mk_tr [] [] RCompleted [])
  | c :: rest =>
      do ch <- sb_encode cs c ;
      let bad := 0x100 <=? ch in
      let invalid := bad && from_invalid fl c in
      let unsupported := bad && negb (from_invalid fl c) in
      let notes := if unsupported then [NoteUnsupported c] else if invalid then [NoteInvalid src 1] else [] in
      if unsupported && f_stop_unsupported fl then Some (mk_tr src [] RUnsupported notes)
      else if invalid && f_stop_invalid fl then Some (mk_tr src [] RInvalid notes)
      else if space =? 0 then Some (mk_tr src [] RInsufficient notes)
      else do r <- sb_from_u32 cs fl rest (space - 1) ;
           Some (cons_result [to_u 8 (if bad then 0x3F else ch)] notes r)
  end.
(* utf32_to_single_byte_charset::unsafe_transcode, 2695-2728 *)
Fixpoint sb_from_u32_unsafe (cs : sbcs) (fl : flags) (src : list Z) (space : Z) : option tr_result :=
  match src with
  | [] => Some (mk_tr [] [] RCompleted [])
  | c :: rest =>
      do ch <- sb_encode cs c ;
      let bad := 0x100 <=? ch in
      let notes := if bad then [NoteUnsupported c] else [] in
      if bad && f_stop_unsupported fl then Some (mk_tr src [] RUnsupported notes)
      else if space =? 0 then Some (mk_tr src [] RInsufficient notes)
      else do r <- sb_from_u32_unsafe cs fl rest (space - 1) ;
           Some (cons_result [to_u 8 (if bad then 0x3F else ch)] notes r)
  end.
(* single_byte_charset_to_itself::transcode, 2802-2833 *)
Fixpoint sb_sanitize (cs : sbcs) (fl : flags) (src : list Z) (space : Z) : option tr_result :=
  match src with
  | [] => Some (mk_tr [] [] RCompleted [])
  | c :: rest =>
      let bad := negb (sb_valid cs c) in
      let notes := if bad then [NoteInvalid src 1] else [] in
      if bad && f_stop_invalid fl then Some (mk_tr src [] RInvalid notes)
      else if space =? 0 then Some (mk_tr src [] RInsufficient notes)
      else do r <- sb_sanitize cs fl rest (space - 1) ; Some (cons_result [if bad then 0x3F else c] notes r)
  end.
(* single_byte_charset_to_itself::unsafe_transcode, 2761-2769: bypass_unsafe_transcode,
   include/strf/detail/facets/charset.hpp:718-741 *)
Definition sb_copy (src : list Z) (space : Z) : option tr_result :=
  if zlen src <=? space then Some (mk_tr [] src RCompleted [])
  else Some (mk_tr (skipn (Z.to_nat space) src) (firstn (Z.to_nat space) src) RInsufficient []).

(* --- sizes --- *)
(* "if (src_end - src <= limit) ... ; return {limit, src + limit, insufficient}";
   a negative limit makes an out-of-range pointer *)
Definition plain_size (src : list Z) (limit : Z) : option sz_res :=
  if zlen src <=? limit then Some (mk_szr (zlen src) [] RCompleted)
  else if limit <? 0 then None
  else Some (mk_szr limit (skipn (Z.to_nat limit) src) RInsufficient).
(* the loop "for (it = src; it < src_end; ++it)" of the find_ functions *)
Fixpoint scan_all (bad : Z -> option (option reason)) (src : list Z) (n : Z) : option sz_res :=
  match src with
  | [] => Some (mk_szr n [] RCompleted)
  | c :: rest => do b <- bad c ;
      match b with Some why => Some (mk_szr n src why) | None => scan_all bad rest (n + 1) end
  end.
(* the loop "for (it = src; ; ++it) { ... if (it == src_limit) }"; None: read past the end *)
Fixpoint scan_limit (bad : Z -> option (option reason)) (src : list Z) (n limit : Z) : option sz_res :=
  match src with
  | [] => None
  | c :: rest => do b <- bad c ;
      match b with
      | Some why => Some (mk_szr n src why)
      | None => if n =? limit then Some (mk_szr n src RInsufficient) else scan_limit bad rest (n + 1) limit
      end
  end.
(* single_byte_charsets.hpp:131-180, 236-290: the loop, and what it returns if the limit is reached *)
Definition scan (bad : Z -> option (option reason)) (src : list Z) (limit : Z) : option sz_res :=
  if zlen src <=? limit then scan_all bad src 0 else scan_limit bad src 0 limit.

(* find_invalid_sequence: 86-111 (sbcs_find_invalid_seq_crtp), 113-126 (sbcs_never_has_...) *)
Definition find_invalid_sequence (cs : sbcs) (src : list Z) (limit : Z) : option sz_res :=
  if sb_never cs then plain_size src limit
  else scan (fun c => Some (if sb_valid cs c then None else Some RInvalid)) src limit.
(* single_byte_charsets.hpp:131-174: the test *)
Definition size_invalid (strict : bool) (c : Z) : bool :=
  (0x110000 <=? c) || strict && (0xD800 <=? c) && (c <=? 0xFFFF).
(* find_first_invalid_codepoint, 131-174 *)
Definition find_first_invalid_codepoint (strict : bool) (src : list Z) (limit : Z) : option sz_res :=
  scan (fun c => Some (if size_invalid strict c then Some RInvalid else None)) src limit.
(* find_first_unsupported_or_invalid_codepoint, 176-234 *)
Definition find_first_unsupported_or_invalid_codepoint (cs : sbcs) (strict : bool) (src : list Z) (limit : Z) : option sz_res :=
  scan (fun c => if size_invalid strict c then Some (Some RInvalid)
                 else do ch <- sb_encode cs c ; Some (if 0x100 <=? ch then Some RUnsupported else None)) src limit.
(* find_first_valid_but_unsupported_codepoint, 236-287 *)
Definition size_valid (strict : bool) (c : Z) : bool :=
  if strict then (c <=? 0xD800) || (0xFFFF <=? c) && (c <=? 0x10FFFF) else c <=? 0x110000.
(* single_byte_charsets.hpp:236-290 *)
Definition find_first_valid_but_unsupported_codepoint (cs : sbcs) (strict : bool) (src : list Z) (limit : Z) : option sz_res :=
  scan (fun c => if size_valid strict c
                 then do ch <- sb_encode cs c ; Some (if 0x100 <=? ch then Some RUnsupported else None)
                 else Some None) src limit.
(* find_first_unsupported_codepoint, 290-314 *)
Definition find_first_unsupported_codepoint (cs : sbcs) (src : list Z) (limit : Z) : option sz_res :=
  scan (fun c => do ch <- sb_encode cs c ; Some (if 0x100 <=? ch then Some RUnsupported else None)) src limit.

(* single_byte_charset_to_utf32::transcode_size, 2456-2471; the sanitizer's one
   (2744-2759) has the same body *)
Definition sb_to_u32_size (cs : sbcs) (fl : flags) (src : list Z) (limit : Z) : option sz_res :=
  if f_stop_invalid fl then find_invalid_sequence cs src limit else plain_size src limit.
(* single_byte_charset_to_utf32::unsafe_transcode_size, 2481-2493; the sanitizer's, 2771-2783 *)
Definition sb_unsafe_size (src : list Z) (limit : Z) : option sz_res := plain_size src limit.
(* utf32_to_single_byte_charset::transcode_size, 2581-2609 *)
Definition sb_from_u32_size (cs : sbcs) (fl : flags) (src : list Z) (limit : Z) : option sz_res :=
  if f_stop_unsupported fl && f_stop_invalid fl then
    find_first_unsupported_or_invalid_codepoint cs (f_strict fl) src limit
  else if f_stop_invalid fl then find_first_invalid_codepoint (f_strict fl) src limit
  else if f_stop_unsupported fl then find_first_valid_but_unsupported_codepoint cs (f_strict fl) src limit
  else plain_size src limit.
(* utf32_to_single_byte_charset::unsafe_transcode_size, 2619-2634 *)
Definition sb_from_u32_unsafe_size (cs : sbcs) (fl : flags) (src : list Z) (limit : Z) : option sz_res :=
  if f_stop_unsupported fl then find_first_unsupported_codepoint cs src limit else plain_size src limit.

(* --- per code point functions of class single_byte_charset --- *)
(* validate, 2931-2934 *)
Definition sb_validate (cs : sbcs) (ch : Z) : option Z :=
  do e <- sb_encode cs ch ; Some (if e <? 0x100 then 1 else -1).
(* encode_char, 3114-3123: valid * ch2 + (!valid) * '?', converted to CharT *)
Definition sb_encode_char (cs : sbcs) (ch : Z) : option (list Z) :=
  do ch2 <- sb_encode cs ch ;
  let valid := ch2 <? 0x100 in
  Some [to_u 8 (to_u 32 ((if valid then 1 else 0) * ch2 + (if negb valid then 1 else 0) * 0x3F))].
(* encode_fill, 3125-3147 *)
Definition sb_encode_fill (cs : sbcs) (count ch : Z) : option op :=
  do ch2 <- sb_encode cs ch ; Some (OFillAll count (to_u 8 (if 0x100 <=? ch2 then 0x3F else ch2))).
(* count_codepoints and count_codepoints_fast, 2942-2966 (same body) *)
Definition sb_count (src : list Z) (max_count : Z) : option (Z * list Z) :=
  if max_count <? zlen src then
    if max_count <? 0 then None else Some (max_count, skipn (Z.to_nat max_count) src)
  else Some (zlen src, []).
(* decode_unit, 2967-2970; replacement_char, 2918-2921; write_replacement_char, 2926-2930;
   encoded_char_size, 2935-2938 *)
Definition sb_decode_unit (cs : sbcs) (c : Z) : option Z := sb_decode cs c.
(* single_byte_charsets.hpp:2919-2922 *)
Definition sb_replacement_char : Z := 0x3F.
(* single_byte_charsets.hpp:2927-2934 *)
Definition sb_write_replacement : op := OPut 0x3F.
(* single_byte_charsets.hpp:2935-2938 *)
Definition sb_char_size (ch : Z) : Z := 1.

(* as the charset record the printers use; the None cases cannot occur (sb_charset_ok) *)
Definition sb_charset (cs : sbcs) : charset := mk_charset
  (fun ch => match sb_encode_char cs ch with Some u => u | None => [] end)
  (fun n ch => match sb_encode_fill cs n ch with Some o => o | None => OFlush end)
  sb_char_size
  (fun ch => match sb_validate cs ch with Some v => v | None => 0 end).
