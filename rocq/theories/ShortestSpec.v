(* What "the shortest decimal of a float" means.  Rational numbers; nothing of the model is used.
   A binary format has p stored significand bits and w exponent bits; a non-negative float is a
   number n: its bits, the exponent field n / 2^p and the significand field n mod 2^p. *)
From Coq Require Export QArith Qabs.
From Verif Require Import Base DigitsSpec.
Local Open Scope Z_scope.

Record format := mk_format { prec : Z; width : Z }.
Definition binary32 : format := mk_format 23 8.
Definition binary64 : format := mk_format 52 11.

(* the value of the float with these two fields *)
Definition float_exponent (F : format) (exponent : Z) : Z := Z.max 1 exponent - (2 ^ (width F - 1) - 1) - prec F.
Definition float_significand (F : format) (exponent mantissa : Z) : Z := (if exponent =? 0 then 0 else 2 ^ prec F) + mantissa.
Definition binary_value (F : format) (exponent mantissa : Z) : Q :=
  inject_Z (float_significand F exponent mantissa) * Qpower (inject_Z 2) (float_exponent F exponent).
Definition float_at (F : format) (n : Z) : Q := binary_value F (n / 2 ^ prec F) (n mod 2 ^ prec F).
(* the bits of infinity; as a number, the power of two that would follow the largest float *)
Definition infinity_bits (F : format) : Z := (2 ^ width F - 1) * 2 ^ prec F.

Definition dec_value (s E : Z) : Q := inject_Z s * Qpower (inject_Z 10) E.

(* rounding to nearest, ties to even, sends v to the float n (to infinity from half-way after the largest) *)
Definition rounds_to (F : format) (v : Q) (n : Z) : Prop :=
  0 <= n < infinity_bits F /\
  forall n', 0 <= n' <= infinity_bits F ->
    (Qabs (v - float_at F n) <= Qabs (v - float_at F n'))%Q /\
    (Qabs (v - float_at F n) == Qabs (v - float_at F n') -> n' = n \/ Z.even n = true)%Q.

Definition decimal_length (s : Z) : Z := zlen (digits 10 s).

(* s * 10^E: rounds to n; no decimal that does is shorter; of those as short none is nearer; and when one is
   as near, it is the same number or s is even.  No trailing zeros. *)
Definition shortest_decimal (F : format) (n s E : Z) : Prop :=
  0 < s /\ s mod 10 <> 0 /\ rounds_to F (dec_value s E) n /\
  forall s' E', 0 < s' -> rounds_to F (dec_value s' E') n ->
    decimal_length s <= decimal_length s' /\
    (decimal_length s = decimal_length s' ->
      (Qabs (dec_value s E - float_at F n) <= Qabs (dec_value s' E' - float_at F n))%Q /\
      (Qabs (dec_value s E - float_at F n) == Qabs (dec_value s' E' - float_at F n) ->
         dec_value s' E' == dec_value s E \/ Z.even s = true)%Q).
