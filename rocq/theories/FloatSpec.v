(* Specification of the text of a floating-point value, independent of the printers. *)
From Verif Require Import Base GroupSpec DigitsSpec IntSpec.

(* the integer nearest to n / d, ties to even (FloatProofs.nearest_ok) *)
Definition nearest (n d : Z) : Z :=
  let q := n / d in let r := n mod d in
  if (d <? 2 * r) || ((2 * r =? d) && Z.odd q) then q + 1 else q.

(* m * 10^e rounded to p decimal places, in units of 10^-p *)
Definition rounded (m e p : Z) : Z :=
  if 0 <=? e + p then m * 10 ^ (e + p) else nearest m (10 ^ (- (e + p))).

(* the last k digits of v in base [base], most significant first *)
Fixpoint last_digits (base : Z) (k : nat) (v : Z) : list Z :=
  match k with O => [] | S k' => last_digits base k' (v / base) ++ [v mod base] end.
Definition decimal (ds : list Z) : list Z := map (digit_char false) ds.

(* N * 10^-p in fixed notation with p decimal places: the integer part (with separators
   where B says), the point when there are decimals or it is asked for, the decimals *)
Definition fixed_text (B : Z -> bool) (sep point : list Z) (showpoint : bool) (N p : Z) : list Z :=
  grouped B sep (decimal (digits 10 (N / 10 ^ p))) ++
  (if showpoint || (0 <? p) then point else []) ++
  decimal (last_digits 10 (Z.to_nat p) N).

(* e+05, e-123: a letter, a sign and at least two digits *)
Definition exponent_text (lc : lettercase) (E : Z) : list Z :=
  (if low_prefix lc then 101 else 69) :: (if E <? 0 then 45 else 43) ::
  (if Z.abs E <? 10 then [48] else []) ++ decimal (digits 10 (Z.abs E)).
(* (N * 10^-p) * 10^E with one digit before the point *)
Definition sci_text (lc : lettercase) (point : list Z) (showpoint : bool) (N p E : Z) : list Z :=
  decimal (digits 10 (N / 10 ^ p)) ++
  (if showpoint || (0 <? p) then point else []) ++
  decimal (last_digits 10 (Z.to_nat p) N) ++ exponent_text lc E.

(* m * 10^e rounded to p + 1 significant digits, as (N * 10^-p) * 10^E with N < 10^(p+1) *)
Definition sci_exponent (m e : Z) : Z := e + zlen (digits 10 m) - 1.
Definition sci_carries (m p : Z) : bool := rounded m (1 - zlen (digits 10 m)) p =? 10 ^ (p + 1).
Definition sci_rounded (m e p : Z) : Z * Z :=
  if sci_carries m p then (10 ^ p, sci_exponent m e + 1)
  else (rounded m (1 - zlen (digits 10 m)) p, sci_exponent m e).

(* N * 10^-p without its trailing decimal zeros *)
Fixpoint stripped (p : nat) (N : Z) : Z * Z :=
  match p with
  | O => (N, 0)
  | S p' => if N mod 10 =? 0 then stripped p' (N / 10) else (N, Z.of_nat p)
  end.

Inductive notation := NFixed | NScientific | NGeneral | NHex.

(* How to print: precision ([None]: not given), letter case, point, separators *)
Record float_style := mk_style {
  st_notation : notation; st_precision : option Z; st_showpoint : bool; st_case : lettercase;
  st_point : list Z; st_sep : list Z; st_boundary : Z -> bool }.

Definition exact_fixed (s : float_style) (m e : Z) : list Z :=
  let p := Z.max 0 (- e) in
  fixed_text (st_boundary s) (st_sep s) (st_point s) (st_showpoint s) (m * 10 ^ (e + p)) p.
Definition exact_sci (s : float_style) (m e : Z) : list Z :=
  sci_text (st_case s) (st_point s) (st_showpoint s) m (zlen (digits 10 m) - 1) (sci_exponent m e).

(* printf's %g: P significant digits *)
Definition general_digits (prec : Z) : Z := Z.max 1 prec.
Definition general_is_fixed (m e prec : Z) : bool :=
  let P := general_digits prec in
  let E := snd (sci_rounded m e (P - 1)) in (-4 <=? E) && (E <? P).
Definition general_text (s : float_style) (m e prec : Z) : list Z :=
  let P := general_digits prec in
  let '(N, E) := sci_rounded m e (P - 1) in
  let fixed := general_is_fixed m e prec in
  let p := if fixed then P - 1 - E else P - 1 in
  let '(N', p') := if st_showpoint s then (N, p) else stripped (Z.to_nat p) N in
  if fixed then fixed_text (st_boundary s) (st_sep s) (st_point s) (st_showpoint s) N' p'
  else sci_text (st_case s) (st_point s) (st_showpoint s) N' p' E.

(* with separators and point taken as one column each *)
Definition one_column (s : float_style) : float_style :=
  mk_style (st_notation s) (st_precision s) (st_showpoint s) (st_case s) [46] [44] (st_boundary s).

(* the digits printed for the finite value m * 10^e *)
Definition decimal_body (s : float_style) (m e : Z) : list Z :=
  match st_notation s, st_precision s with
  | NFixed, None => exact_fixed s m e
  | NFixed, Some p => fixed_text (st_boundary s) (st_sep s) (st_point s) (st_showpoint s) (rounded m e p) p
  | NScientific, None => exact_sci s m e
  | NScientific, Some p =>
      let '(N, E) := sci_rounded m e p in sci_text (st_case s) (st_point s) (st_showpoint s) N p E
  | _, None => (* the shorter one *)
      if zlen (exact_sci (one_column s) m e) <? zlen (exact_fixed (one_column s) m e)
      then exact_sci s m e else exact_fixed s m e
  | _, Some p => general_text s m e p
  end.

(* hexadecimal: lead.mantissa * 2^E, lead 0 or 1, mantissa in units of 2^-52 *)
Definition hex_places (mantissa : Z) : Z :=      (* the digits needed *)
  13 - (if mantissa =? 0 then 13
        else (fix tz (k : nat) (v : Z) : Z :=
                match k with O => 0 | S k' => if v mod 16 =? 0 then 1 + tz k' (v / 16) else 0 end) 13%nat mantissa).
Definition hex_rounded (lead mantissa : Z) (prec : option Z) : Z * Z :=
  let v := lead * 2 ^ 52 + mantissa in
  match prec with
  | None => let k := hex_places mantissa in (v / 16 ^ (13 - k), k)
  | Some p => if p <? 13 then (nearest v (16 ^ (13 - p)), p) else (v * 16 ^ (p - 13), p)
  end.
Definition hex_digits (lc : lettercase) (ds : list Z) : list Z := map (digit_char (low_digits lc)) ds.
Definition hex_body (s : float_style) (lead mantissa E : Z) : list Z :=
  let '(N, p) := hex_rounded lead mantissa (st_precision s) in
  hex_digits (st_case s) (digits 16 (N / 16 ^ p)) ++
  (if st_showpoint s || (0 <? p) then st_point s else []) ++
  hex_digits (st_case s) (last_digits 16 (Z.to_nat p) N) ++
  (if low_prefix (st_case s) then 112 else 80) :: (if E <? 0 then 45 else 43) :: decimal (digits 10 (Z.abs E)).

(* A value: not a number, infinity, the decimal m * 10^e or the binary lead.mantissa * 2^E *)
Inductive float_value := FNan | FInf | FDec (m e : Z) | FBin (lead mantissa E : Z).
Definition nan_text (lc : lettercase) : list Z :=
  match lc with LLower => [110; 97; 110] | LMixed => [78; 97; 78] | LUpper => [78; 65; 78] end.
Definition inf_text (lc : lettercase) : list Z :=
  match lc with LLower => [105; 110; 102] | LMixed => [73; 110; 102] | LUpper => [73; 78; 70] end.
Definition float_body (s : float_style) (v : float_value) : list Z :=
  match v with
  | FNan => nan_text (st_case s)
  | FInf => inf_text (st_case s)
  | FDec m e => decimal_body s m e
  | FBin lead mantissa E => hex_body s lead mantissa E
  end.

(* A request to print a value *)
Record float_request := mk_frequest {
  fr_negative : bool; fr_value : float_value; fr_style : float_style; fr_sign : showsign; fr_pad0 : Z;
  fr_fill : list Z; fr_width : Z; fr_align : text_align }.

Definition float_sign (r : float_request) : list Z :=
  if fr_negative r then [45]
  else match fr_sign r with NegativeOnly => [] | PositiveAlso => [43] | FillInsteadOfPositive => fr_fill r end.
Definition float_sign_width (r : float_request) : Z :=
  if fr_negative r then 1 else match fr_sign r with NegativeOnly => 0 | _ => 1 end.
Definition float_prefix (r : float_request) : list Z :=
  match fr_value r with
  | FBin _ _ _ => [48; if low_prefix (st_case (fr_style r)) then 120 else 88]
  | _ => []
  end.
Definition finite (v : float_value) : bool := match v with FDec _ _ | FBin _ _ _ => true | _ => false end.
(* columns of sign, prefix and digits *)
Definition float_bare_width (r : float_request) : Z :=
  float_sign_width r + zlen (float_prefix r) + zlen (float_body (one_column (fr_style r)) (fr_value r)).
Definition float_zeros (r : float_request) : Z :=
  if finite (fr_value r) then Z.max 0 (fr_pad0 r - float_bare_width r) else 0.
Definition float_content (r : float_request) : list Z :=
  float_sign r ++ float_prefix r ++ repeat 48 (Z.to_nat (float_zeros r)) ++ float_body (fr_style r) (fr_value r).
Definition float_content_width (r : float_request) : Z := float_bare_width r + float_zeros r.
(* zero padding of "inf" or "nan" is done with fill characters *)
Definition float_width (r : float_request) : Z :=
  if finite (fr_value r) then fr_width r else Z.max (fr_width r) (fr_pad0 r).
Definition float_missing (r : float_request) : Z := Z.max 0 (float_width r - float_content_width r).
Definition float_text (r : float_request) : list Z :=
  padded (fr_align r) (fr_fill r) (float_missing r) (float_content r).
Definition float_text_width (r : float_request) : Z := float_content_width r + float_missing r.
