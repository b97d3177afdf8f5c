(* The nine pairs of UTF encodings, gathered; encode_fill on a destination. *)
From Verif Require Import Base DestModel UtfSpec UtfModel UtfSizeModel.

Inductive form := U8 | U16 | U32.
Definition enc_of (f : form) : Z -> list Z := match f with U8 => enc8 | U16 => enc16 | U32 => enc32 end.
Definition bits_of (f : form) : Z := match f with U8 => 8 | U16 => 16 | U32 => 32 end.

(* static_transcoder<Src,Dst,...>::transcode, utf.hpp:1375-3732 (nine specializations). *)
Definition transcode_of (f g : form) : bool -> bool -> list Z -> Z -> option tc_result :=
  match f, g with
  | U8, U8 => transcode_8_8 | U8, U16 => transcode_8_16 | U8, U32 => transcode_8_32
  | U16, U8 => transcode_16_8 | U16, U16 => transcode_16_16 | U16, U32 => transcode_16_32
  | U32, U8 => transcode_32_8 | U32, U16 => transcode_32_16 | U32, U32 => transcode_32_32
  end.
(* ...::transcode_size; [sgn]: the 32-bit source character type is signed. *)
Definition transcode_size_of (f g : form) (sgn : bool)
    : bool -> bool -> list Z -> Z -> option sz_result :=
  match f, g with
  | U8, U8 => size_8_8 | U8, U16 => size_8_16 | U8, U32 => size_8_32
  | U16, U8 => size_16_8 | U16, U16 => size_16_16 | U16, U32 => size_16_32
  | U32, U8 => size_32_8 | U32, U16 => size_32_16 | U32, U32 => size_32_32 sgn
  end.
(* ...::unsafe_transcode *)
Definition unsafe_transcode_of (f g : form) : bool -> list Z -> Z -> option tc_result :=
  match f, g with
  | U8, U8 => unsafe_8_8 | U8, U16 => unsafe_8_16 | U8, U32 => unsafe_8_32
  | U16, U8 => unsafe_16_8 | U16, U16 => unsafe_16_16 | U16, U32 => unsafe_16_32
  | U32, U8 => unsafe_32_8 | U32, U16 => unsafe_32_16 | U32, U32 => unsafe_32_32
  end.
(* ...::unsafe_transcode_size *)
Definition unsafe_size_of (f g : form) : bool -> list Z -> Z -> option sz_result :=
  match f, g with
  | U8, U8 => unsafe_size_8_8 | U8, U16 => unsafe_size_8_16 | U8, U32 => unsafe_size_8_32
  | U16, U8 => unsafe_size_16_8 | U16, U16 => unsafe_size_16_16 | U16, U32 => unsafe_size_16_32
  | U32, U8 => unsafe_size_32_8 | U32, U16 => unsafe_size_32_16 | U32, U32 => unsafe_size_32_32
  end.

(* static_charset<CharT, id>::validate, encoded_char_size, encode_char. *)
Definition validate_of (f : form) : Z -> Z := match f with U8 => validate8 | U16 => validate16 | U32 => validate32 end.
Definition char_size_of (f : form) : Z -> Z := match f with U8 => char_size8 | U16 => char_size16 | U32 => char_size32 end.
Definition encode_char_of (f : form) : Z -> list Z :=
  match f with U8 => encode_char8 | U16 => encode_char16 | U32 => encode_char32 end.

(* encode_fill: utf.hpp:2028-2055 (utf8), 2739-2754 (utf16), 3049-3054 (utf32), as
   the operation performed on the destination. *)
Definition encode_fill8 (count ch : Z) : op :=
  if ch <? 0x80 then OFill count (c8 ch)
  else if ch <? 0x800 then
    OSeqFill count [c8 (Z.lor 0xC0 (Z.shiftr (Z.land ch 0x7C0) 6)); c8 (Z.lor 0x80 (Z.land ch 0x3F))]
  else if ch <? 0x10000 then
    OSeqFill count [c8 (Z.lor 0xE0 (Z.shiftr (Z.land ch 0xF000) 12));
     c8 (Z.lor 0x80 (Z.shiftr (Z.land ch 0xFC0) 6)); c8 (Z.lor 0x80 (Z.land ch 0x3F))]
  else if ch <? 0x110000 then
    OSeqFill count [c8 (Z.lor 0xF0 (Z.shiftr (Z.land ch 0x1C0000) 18));
     c8 (Z.lor 0x80 (Z.shiftr (Z.land ch 0x3F000) 12));
     c8 (Z.lor 0x80 (Z.shiftr (Z.land ch 0xFC0) 6)); c8 (Z.lor 0x80 (Z.land ch 0x3F))]
  else OSeqFill count [c8 0xEF; c8 0xBF; c8 0xBD].
Definition encode_fill16 (count ch : Z) : op :=
  if ch <? 0x10000 then OFill count (c16 ch)
  else if ch <? 0x110000 then
    let s := ch - 0x10000 in
    OSeqFill count [c16 (0xD800 + Z.shiftr s 10); c16 (0xDC00 + Z.land s 0x3FF)]
  else OFill count 0xFFFD.
Definition encode_fill32 (count ch : Z) : op := OFill count (c32 ch).
Definition encode_fill_of (f : form) : Z -> Z -> op :=
  match f with U8 => encode_fill8 | U16 => encode_fill16 | U32 => encode_fill32 end.
(* write_replacement_char: utf.hpp:2308-2320, 2933-2941, 3056-3063 *)
Definition write_replacement_of (f : form) : op :=
  match f with
  | U8 => OReserve 3 [0xEF; 0xBF; 0xBD] | U16 => OReserve 1 [0xFFFD] | U32 => OReserve 1 [0xFFFD]
  end.

(* count_codepoints, count_codepoints_fast *)
Definition count_of (f : form) (src : list Z) (max : Z) : option (Z * list Z) :=
  match f with U8 => count8 src max | U16 => count16 src max | U32 => Some (count32 src max) end.
Definition count_fast_of (f : form) (src : list Z) (max : Z) : option (Z * list Z) :=
  match f with U8 => Some (count_fast8 src max) | U16 => count_fast16 src max | U32 => Some (count32 src max) end.
