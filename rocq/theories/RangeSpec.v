(* Specification of printed ranges. *)
From Verif Require Import Base PrintSpec StringModel StringSpec.

(* the texts with sep between consecutive ones *)
Fixpoint separated (sep : list Z) (ts : list (list Z)) : list Z :=
  match ts with
  | [] => []
  | t :: ts' => match ts' with [] => t | _ :: _ => t ++ sep ++ separated sep ts' end
  end.
(* a separated range: n elements, n - 1 separators of width sw *)
Definition sep_desc (sep : list Z) (sw : Z) (ds : list desc) : desc :=
  let seps := sw * Z.max 0 (zlen ds - 1) in
  mk_desc (separated sep (map d_text ds)) (sumZ (map d_width ds) + seps) (sumZ (map d_peak ds) + seps) (sumZ (map d_need ds)).
