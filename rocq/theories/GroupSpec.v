(* Specification of digit grouping, independent of the packed representation.

   A grouping is a list of group sizes, least significant group first, and a flag
   telling whether the last size repeats for ever.  [boundary gs rep i]: a
   separator stands between the i-th and the (i+1)-th digit counted from the
   right (i digits are to its right). *)
From Verif Require Import Base.

Fixpoint boundary (gs : list Z) (rep : bool) (i : Z) : bool :=
  match gs with
  | [] => false
  | [g] => if rep then (0 <? i) && (i mod g =? 0) else i =? g
  | g :: gs' => (i =? g) || ((g <? i) && boundary gs' rep (i - g))
  end.

(* digits (most significant first) with [sep] inserted at the boundaries *)
Fixpoint grouped (B : Z -> bool) (sep : list Z) (ds : list Z) : list Z :=
  match ds with
  | [] => []
  | d :: rest => d :: (if (0 <? zlen rest) && B (zlen rest) then sep else []) ++ grouped B sep rest
  end.

(* number of separators needed for n digits *)
Fixpoint boundaries_below (B : Z -> bool) (n : nat) : Z :=
  match n with
  | O => 0
  | S k => (if (0 <? Z.of_nat k) && B (Z.of_nat k) then 1 else 0) + boundaries_below B k
  end.

Definition valid_groups (gs : list Z) : Prop := Forall (fun g => 1 <= g <= 31) gs /\ (length gs <= 6)%nat.

(* "the packed value g stands for the grouping gs, rep": no groups at all is the
   empty grouping, written 3 *)
Fixpoint pack (gs : list Z) (rep : bool) : Z :=
  match gs with
  | [] => if rep then 2 else 3
  | g :: gs' => g + 32 * pack gs' rep
  end.
Definition represents (g : Z) (gs : list Z) (rep : bool) : Prop :=
  valid_groups gs /\ (gs = [] -> rep = false) /\ g = pack gs rep.
