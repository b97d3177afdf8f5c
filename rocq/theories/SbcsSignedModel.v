(* The transcoder from UTF-32 to a single-byte charset when the source character type is a signed
   32-bit type, as wchar_t on Linux: include/strf/detail/single_byte_charsets.hpp.  The comparisons of
   *src and *it with int literals are then signed; cast_u32 and cast_unsigned are not affected.  A unit is
   given, as everywhere in the model, by its unsigned value. *)
From Verif Require Import Base DestModel TransSpec SbcsTables CharsetModel SbcsModel.

(* utf32_to_single_byte_charset::transcode, 2666-2670: is_invalid, with *src a negative number from 2^31 on *)
Definition from_invalid_w (fl : flags) (c : Z) : bool :=
  let v := to_i 32 c in
  (0x110000 <=? v) || f_strict fl && (0xD800 <=? v) && (v <=? 0xFFFF).
(* utf32_to_single_byte_charset::transcode, 2651-2693 *)
Fixpoint sb_from_u32_w (cs : sbcs) (fl : flags) (src : list Z) (space : Z) : option tr_result :=
  match src with
  | [] => Some (mk_tr [] [] RCompleted [])
  | c :: rest =>
      do ch <- sb_encode cs c ;
      let bad := 0x100 <=? ch in
      let invalid := bad && from_invalid_w fl c in
      let unsupported := bad && negb (from_invalid_w fl c) in
      let notes := if unsupported then [NoteUnsupported c] else if invalid then [NoteInvalid src 1] else [] in
      if unsupported && f_stop_unsupported fl then Some (mk_tr src [] RUnsupported notes)
      else if invalid && f_stop_invalid fl then Some (mk_tr src [] RInvalid notes)
      else if space =? 0 then Some (mk_tr src [] RInsufficient notes)
      else do r <- sb_from_u32_w cs fl rest (space - 1) ;
           Some (cons_result [to_u 8 (if bad then 0x3F else ch)] notes r)
  end.
(* single_byte_charsets.hpp:146, 153, 162, 171, 191, 201, 213, 225: the test *)
Definition size_invalid_w (strict : bool) (c : Z) : bool :=
  let v := to_i 32 c in (0x110000 <=? v) || strict && (0xD800 <=? v) && (v <=? 0xFFFF).
(* 249, 258, 268, 279: the test *)
Definition size_valid_w (strict : bool) (c : Z) : bool :=
  let v := to_i 32 c in
  if strict then (v <=? 0xD800) || (0xFFFF <=? v) && (v <=? 0x10FFFF) else v <=? 0x110000.
(* utf32_to_single_byte_charset::transcode_size, 2581-2609, with the find_ functions of 131-290 *)
Definition sb_from_u32_size_w (cs : sbcs) (fl : flags) (src : list Z) (limit : Z) : option sz_res :=
  let unsupported c := do ch <- sb_encode cs c ; Some (if 0x100 <=? ch then Some RUnsupported else None) in
  if f_stop_unsupported fl && f_stop_invalid fl then
    scan (fun c => if size_invalid_w (f_strict fl) c then Some (Some RInvalid) else unsupported c) src limit
  else if f_stop_invalid fl then
    scan (fun c => Some (if size_invalid_w (f_strict fl) c then Some RInvalid else None)) src limit
  else if f_stop_unsupported fl then
    scan (fun c => if size_valid_w (f_strict fl) c then unsupported c else Some None) src limit
  else plain_size src limit.
