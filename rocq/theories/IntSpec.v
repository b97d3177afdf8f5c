(* Specification of the text of a formatted integer, independent of the printers. *)
From Verif Require Import Base GroupSpec DigitsSpec.

(* alignment, sign policy, letter case: format_functions.hpp, facets/lettercase.hpp *)
Inductive text_align := ALeft | ARight | ACenter.
Inductive showsign := NegativeOnly | PositiveAlso | FillInsteadOfPositive.
Inductive lettercase := LLower | LMixed | LUpper.

(* n copies of the encoded character c *)
Definition fill_text (c : list Z) (n : Z) : list Z := concat (repeat c (Z.to_nat n)).
(* fill characters before / after a text when k are missing *)
Definition left_fill (a : text_align) (k : Z) : Z :=
  match a with ALeft => 0 | ARight => k | ACenter => k / 2 end.
Definition right_fill (a : text_align) (k : Z) : Z := k - left_fill a k.
Definition padded (a : text_align) (fill : list Z) (k : Z) (t : list Z) : list Z :=
  fill_text fill (left_fill a k) ++ t ++ fill_text fill (right_fill a k).

(* A request to print v, a value of an integer type (signed or not, of [bits] bits), in
   [base].  [fill] and [sep] are encoded characters; B says where separators stand. *)
Record int_request := mk_request {
  rq_signed : bool; rq_bits : Z; rq_value : Z;
  rq_base : Z; rq_precision : Z; rq_pad0 : Z; rq_sign : showsign; rq_showbase : bool;
  rq_case : lettercase;
  rq_sep : list Z; rq_boundary : Z -> bool;
  rq_fill : list Z; rq_width : Z; rq_align : text_align }.

(* decimal shows the absolute value; the other bases show the two's complement bits *)
Definition magnitude (r : int_request) : Z :=
  if rq_base r =? 10 then Z.abs (rq_value r) else rq_value r mod 2 ^ rq_bits r.
Definition low_digits (lc : lettercase) : bool := match lc with LLower => true | _ => false end.
Definition low_prefix (lc : lettercase) : bool := match lc with LUpper => false | _ => true end.
Definition mag_digits (r : int_request) : list Z := digits (rq_base r) (magnitude r).
Definition n_digits (r : int_request) : Z := zlen (mag_digits r).
Definition n_seps (r : int_request) : Z := boundaries_below (rq_boundary r) (length (mag_digits r)).
(* '-' = 45, '+' = 43, '0' = 48, 'x'/'X' = 120/88, 'b'/'B' = 98/66 *)
Definition int_prefix (r : int_request) : list Z :=
  if rq_base r =? 10 then
    if rq_value r <? 0 then [45]
    else if rq_signed r then
      match rq_sign r with NegativeOnly => [] | PositiveAlso => [43] | FillInsteadOfPositive => rq_fill r end
    else []
  else if negb (rq_showbase r) then []
  else if rq_base r =? 8 then (if magnitude r =? 0 then [] else [48])
  else if rq_base r =? 16 then [48; if low_prefix (rq_case r) then 120 else 88]
  else [48; if low_prefix (rq_case r) then 98 else 66].
(* width of the prefix in characters *)
Definition int_prefix_width (r : int_request) : Z :=
  if rq_base r =? 10 then
    if (rq_value r <? 0) || (rq_signed r && match rq_sign r with NegativeOnly => false | _ => true end) then 1 else 0
  else zlen (int_prefix r).
(* zeros between the prefix and the digits: at least [precision] digits (in octal the
   prefix is one of them), and at least [pad0] characters in all *)
Definition int_zeros (r : int_request) : Z :=
  Z.max 0 (Z.max (rq_precision r - n_digits r - (if rq_base r =? 8 then int_prefix_width r else 0))
                 (rq_pad0 r - (int_prefix_width r + n_digits r + n_seps r))).
Definition int_content (r : int_request) : list Z :=
  int_prefix r ++ repeat 48 (Z.to_nat (int_zeros r)) ++
  grouped (rq_boundary r) (rq_sep r) (map (digit_char (low_digits (rq_case r))) (mag_digits r)).
(* its width: one per character *)
Definition int_content_width (r : int_request) : Z :=
  int_prefix_width r + int_zeros r + n_digits r + n_seps r.
Definition int_missing (r : int_request) : Z := Z.max 0 (rq_width r - int_content_width r).
Definition int_text (r : int_request) : list Z := padded (rq_align r) (rq_fill r) (int_missing r) (int_content r).
Definition int_text_width (r : int_request) : Z := int_content_width r + int_missing r.

(* The options of an integer format. *)
Record int_opts := mk_opts {
  o_base : Z; o_prec : Z; o_pad0 : Z; o_sign : showsign; o_showbase : bool; o_punct : bool }.
(* the values of an integer type *)
Definition in_int (sgn : bool) (bits v : Z) : Prop :=
  if sgn then - 2 ^ (bits - 1) <= v < 2 ^ (bits - 1) else 0 <= v < 2 ^ bits.
(* the request made by printing v with options o; [w] is the requested width in columns *)
Definition request (lc : lettercase) (sgn : bool) (bits v : Z) (o : int_opts) (sep : list Z) (B : Z -> bool)
    (fill : list Z) (w : Z) (a : text_align) : int_request :=
  mk_request sgn bits v (o_base o) (o_prec o) (o_pad0 o) (o_sign o) (o_showbase o) lc
    sep (if o_punct o then B else fun _ => false) fill w a.
