(* How a hexadecimal floating-point text is read (C's strtod).  Nothing of the model is used. *)
From Coq Require Import QArith Qabs.
From Verif Require Import Base.
Local Open Scope Z_scope.

Definition hex_value_of (c : Z) : option Z :=
  if (48 <=? c) && (c <=? 57) then Some (c - 48)
  else if (97 <=? c) && (c <=? 102) then Some (c - 87)
  else if (65 <=? c) && (c <=? 70) then Some (c - 55) else None.
(* digits; the '.' starts the fraction.  N: all the digits, p: how many of them are in the fraction *)
Fixpoint read_hex_digits (N p : Z) (seen : bool) (u : list Z) : Z * Z * list Z :=
  match u with
  | [] => (N, p, [])
  | c :: u' =>
      match hex_value_of c with
      | Some d => read_hex_digits (N * 16 + d) (if seen then p + 1 else p) seen u'
      | None => if (c =? 46) && negb seen then read_hex_digits N p true u' else (N, p, u)
      end
  end.
Fixpoint read_decimal (A : Z) (u : list Z) : option Z :=
  match u with
  | [] => Some A
  | c :: u' => if (48 <=? c) && (c <=? 57) then read_decimal (A * 10 + (c - 48)) u' else None
  end.
(* 1.8p+3 : digits, 'p', the sign of the exponent, the exponent in decimal *)
Definition read_hex_number (u : list Z) : option (Z * Z * Z) :=
  match read_hex_digits 0 0 false u with
  | (N, p, c :: s :: ds) =>
      if (c =? 112) || (c =? 80) then
        match read_decimal 0 ds with
        | Some A => if s =? 43 then Some (N, p, A) else if s =? 45 then Some (N, p, - A) else None
        | None => None
        end
      else None
  | _ => None
  end.
(* an optional sign, "0x", the number.  (negative, N, p, E): the number N * 16^-p * 2^E *)
Definition read_hex (u : list Z) : option (bool * Z * Z * Z) :=
  let negative := match u with c :: _ => c =? 45 | [] => false end in
  let v := match u with c :: v => if (c =? 45) || (c =? 43) then v else u | [] => [] end in
  match v with
  | z :: x :: w =>
      if (z =? 48) && ((x =? 120) || (x =? 88)) then
        match read_hex_number w with Some (N, p, E) => Some (negative, N, p, E) | None => None end
      else None
  | _ => None
  end.
Definition hex_number (N p E : Z) : Q := (inject_Z N * Qpower (inject_Z 2) (E - 4 * p))%Q.
(* N * 16^-p * 2^E is nearest to x among the multiples of 16^-p * 2^E, ties to even *)
Definition nearest_hex (N p E : Z) (x : Q) : Prop :=
  (inject_Z 2 * Qabs (x - hex_number N p E) <= hex_number 1 p E)%Q /\
  ((inject_Z 2 * Qabs (x - hex_number N p E) == hex_number 1 p E)%Q -> Z.even N = true).
