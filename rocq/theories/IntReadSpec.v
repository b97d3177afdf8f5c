(* How a printed integer is read back.  Nothing of the model is used. *)
From Verif Require Import Base.

(* letters and digits of ASCII *)
Definition digit_of (c : Z) : option Z :=
  if (48 <=? c) && (c <=? 57) then Some (c - 48)
  else if (97 <=? c) && (c <=? 122) then Some (c - 87)
  else if (65 <=? c) && (c <=? 90) then Some (c - 55) else None.
Definition digit_in (base c : Z) : option Z :=
  match digit_of c with Some d => if d <? base then Some d else None | None => None end.
(* what follows the text p, if u starts with it *)
Fixpoint after (p u : list Z) : option (list Z) :=
  match p, u with
  | [], _ => Some u
  | a :: p', b :: u' => if a =? b then after p' u' else None
  | _, [] => None
  end.
(* u without the copies of p it starts with *)
Fixpoint without (fuel : nat) (p u : list Z) : list Z :=
  match fuel with
  | O => u
  | S k => match after p u with Some u' => without k p u' | None => u end
  end.
(* digits with separators between them: the value, and the rest of the text *)
Fixpoint read_digits_sep (fuel : nat) (base : Z) (sep : list Z) (v : Z) (u : list Z) : Z * list Z :=
  match fuel with
  | O => (v, u)
  | S k =>
      match u with
      | c :: u' =>
          match digit_in base c with
          | Some d => read_digits_sep k base sep (v * base + d) u'
          | None =>
              match after sep u with
              | Some (c' :: u'') => match digit_in base c' with Some d => read_digits_sep k base sep (v * base + d) u'' | None => (v, u) end
              | _ => (v, u)
              end
          end
      | [] => (v, u)
      end
  end.
(* fill characters, a sign, the prefix of the base, digits, fill characters *)
Definition read_integer (base : Z) (sep fill u : list Z) : option Z :=
  let u1 := without (length u) fill u in
  let negative := match u1 with c :: _ => c =? 45 | [] => false end in
  let u2 := match u1 with c :: w => if (c =? 45) || (c =? 43) then w else u1 | [] => [] end in
  let u3 := match u2 with
            | z :: x :: w => if (z =? 48) && (if base =? 16 then (x =? 120) || (x =? 88) else if base =? 2 then (x =? 98) || (x =? 66) else false) then w else u2
            | _ => u2
            end in
  match u3 with
  | c :: w =>
      match digit_in base c with
      | Some d =>
          let '(v, rest) := read_digits_sep (length w) base sep d w in
          match without (length rest) fill rest with
          | [] => Some (if negative then - v else v)
          | _ => None
          end
      | None => None
      end
  | [] => None
  end.
(* neither letter, digit nor sign *)
Definition neutral (c : Z) : Prop := digit_of c = None /\ c <> 45 /\ c <> 43.
