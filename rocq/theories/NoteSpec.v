(* Each element of a list, in order, once, or twice in a row. *)
From Verif Require Import Base UtfSpec UtfForms TransSpec SbcsTables SbcsModel CsetModel.

Inductive once_or_twice {A} : list A -> list A -> Prop :=
| oot_nil : once_or_twice [] []
| oot_once x l l' : once_or_twice l l' -> once_or_twice (x :: l) (x :: l')
| oot_twice x l l' : once_or_twice l l' -> once_or_twice (x :: l) (x :: x :: l').

(* How a text in charset a is read: cut in pieces, each with the code point it stands for or, when it is invalid, none. *)
Definition reads (a : cset) (lax : bool) (src : list Z) (rs : list (list Z * option Z)) : Prop :=
  match a with
  | Utf f => exists its, items (enc_of f) lax src its /\
      rs = map (fun it => (src_of (enc_of f) it, match it with Good c => Some c | Bad _ => None end)) its
  | Sb _ cs => rs = map (fun c => ([c], match sb_decode cs c with Some 0xFFFD => None | x => x end)) src
  end.
Definition can_encode (b : cset) (cp : Z) : bool :=
  match b with Utf _ => true | Sb _ cs => match sb_encode cs cp with Some e => e <? 0x100 | None => false end end.
(* From UTF-32 straight to a single-byte charset, with surrogates not allowed, a code point of 0xE000..0xFFFF that the
   charset lacks counts as an invalid piece, like a surrogate (C33_private_use_refuted). *)
Definition misread (a b : cset) (lax : bool) (r : list Z * option Z) : list Z * option Z :=
  match a, b, lax, snd r with
  | Utf U32, Sb _ _, false, Some cp => if (0xE000 <=? cp) && (cp <=? 0xFFFF) && negb (can_encode b cp) then (fst r, None) else r
  | _, _, _, _ => r
  end.
(* What the notifier should be told, in order: of each invalid piece, given with all that follows it in the source and its
   number of units; and of each code point that the destination's charset lacks. *)
Fixpoint reports (can : Z -> bool) (rs : list (list Z * option Z)) : list note :=
  match rs with
  | [] => []
  | (u, None) :: more => NoteInvalid (u ++ concat (map fst more)) (zlen u) :: reports can more
  | (u, Some cp) :: more => (if can cp then [] else [NoteUnsupported cp]) ++ reports can more
  end.
Definition invalid_only (l : list note) : list note := filter (fun n => match n with NoteInvalid _ _ => true | _ => false end) l.
Definition unsupported_only (l : list note) : list note := filter (fun n => match n with NoteUnsupported _ => true | _ => false end) l.
