(* Rounding a rational to a multiple of a power of ten.  Nothing of the model is used. *)
From Verif Require Import Base ShortestSpec.
Local Open Scope Z_scope.

(* N * 10^a is a multiple of 10^a nearest to v *)
Definition nearest_to (N a : Z) (v : Q) : Prop := forall N', (Qabs (dec_value N a - v) <= Qabs (dec_value N' a - v))%Q.
(* d is half-way between the multiple N of 10^a and the one before or after it *)
Definition half_way (N a : Z) (d : Q) : Prop := ((2 # 1) * Qabs (dec_value N a - d) == dec_value 1 a)%Q.
(* v is not beyond d, seen from N * 10^a *)
Definition same_side (N a : Z) (d v : Q) : Prop := (dec_value N a < d -> v <= d)%Q /\ (d < dec_value N a -> d <= v)%Q.
(* how N * 10^a, got by rounding d, the shortest decimal of the float n and a multiple of 10^e but not of
   10^(e+1), stands to the value of n: if digits were dropped it is nearest to the value unless d was
   half-way and the value lies beyond; if none were it is d, which reads back as n *)
Definition rounded_from (F : format) (n d_exponent : Z) (d : Q) (N a : Z) : Prop :=
  (d_exponent < a -> (nearest_to N a (float_at F n) <-> (half_way N a d -> same_side N a d (float_at F n)))) /\
  (a <= d_exponent -> (dec_value N a == d)%Q /\ rounds_to F (dec_value N a) n).
