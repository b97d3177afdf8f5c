(* The part of a charset facet the printers use: include/strf/detail/facets/charset.hpp:
   encode_char_func, encode_fill_func, encoded_char_size, validate_func, and
   write_replacement_char_func (dynamic_charset_data, 424-518); instances: utf.hpp and
   single_byte_charsets.hpp. *)
From Verif Require Import Base DestModel DestProofs UtfSpec UtfModel UtfSizeModel UtfForms UtfTheorems UtfDecode.

(* the members a printer calls: charset.hpp:424-518 (dynamic_charset_data); utf.hpp:907-1362, single_byte_charsets.hpp:2918-3060 (static_charset) *)
Record charset := mk_charset {
  cs_encode : Z -> list Z;        (* what encode_char(dst, ch) stores *)
  cs_fill : Z -> Z -> op;         (* encode_fill(dst, count, ch) *)
  cs_size : Z -> Z;               (* encoded_char_size(ch) *)
  cs_validate : Z -> Z            (* validate(ch): -1 = invalid_char_len *)
}.

(* what the printers need to know about it; ch is any char32_t value *)
Record charset_ok (cs : charset) : Prop := mk_charset_ok {
  ok_fill : forall n ch, 0 <= n -> 0 <= ch < 2 ^ 32 -> op_wf (cs_fill cs n ch) /\
      op_text (cs_fill cs n ch) = concat (repeat (cs_encode cs ch) (Z.to_nat n));
  ok_fill_only : forall n ch, 0 <= ch < 2 ^ 32 -> match cs_fill cs n ch with OFill _ _ | OFillAll _ _ => True | OSeqFill _ seq => (1 <= length seq)%nat | _ => False end;
  ok_size : forall ch, 0 <= ch < 2 ^ 32 -> cs_size cs ch = zlen (cs_encode cs ch);
  ok_small : forall ch, 0 <= ch < 2 ^ 32 -> 1 <= zlen (cs_encode cs ch) <= 4;
  ok_ascii : forall ch, 0 <= ch < 0x80 -> cs_encode cs ch = [ch];
  ok_validate : forall ch, 0 <= ch < 2 ^ 32 ->
      cs_validate cs ch = -1 \/ cs_validate cs ch = zlen (cs_encode cs ch) }.

(* utf_t<CharT>: utf.hpp *)
Definition utf_charset (f : form) : charset :=
  mk_charset (encode_char_of f) (encode_fill_of f) (char_size_of f) (validate_of f).

Lemma utf_charset_ok f : charset_ok (utf_charset f).
Proof.
  split; cbn [utf_charset cs_encode cs_fill cs_size cs_validate].
  - intros; apply encode_fill_of_ok; assumption.
  - intros n ch H. destruct f; cbn [encode_fill_of]; unfold encode_fill8, encode_fill16, encode_fill32; bdestr; first [exact I | cbn [length]; lia].
  - intros; apply char_size_of_ok; lia.
  - intros ch H. destruct f; cbn [encode_char_of]; unfold encode_char8, encode_char16, encode_char32;
      bdestr; unfold zlen; cbn [length]; lia.
  - intros ch H. destruct f; cbn [encode_char_of]; unfold encode_char8, encode_char16, encode_char32;
      bdestr; try lia; f_equal; unfold c8, c16, c32; apply to_u_id; change (2 ^ 8) with 256; change (2 ^ 16) with 65536; change (2 ^ 32) with 4294967296; lia.
  - intros ch H. destruct (validate_of_ok f ch H) as [A B].
    assert (D : valid_cp false ch \/ ~ valid_cp false ch).
    { unfold valid_cp. destruct (is_surr ch); [right|]; [intros [_ [|]]; congruence|].
      destruct (Z_le_gt_dec ch 0x10FFFF); [left|right]; [split; [lia|right; reflexivity]|lia]. }
    destruct D as [D|D]; [right|left; auto]. rewrite A by assumption. destruct D as [D _].
    destruct f; cbn [encode_char_of enc_of]; rewrite ?encode_char8_ok, ?encode_char16_ok by lia; unfold clamp;
      try (destruct (Z.ltb_spec ch 0x110000); [reflexivity|lia]); reflexivity.
Qed.
