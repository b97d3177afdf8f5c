(* Tr-string syntax: docs/ref_printable_types.adoc, "Tr-string Syntax".
   A '{' followed by           until                     means
   '-'                         the next '}' or the end   a comment
   a digit                     the next '}' or the end   a positional argument reference
   another '{'                 the second '{'            an escaped '{'
   any other character         the next '}' or the end   a non positional argument reference *)
From Verif Require Import Base UtfSpec UtfForms CsetModel PrintSpec StringModel StringSpec.

Definition open_brace : Z := 123.
Definition close_brace : Z := 125.
Definition dash : Z := 45.
Definition is_digit (c : Z) : Prop := 48 <= c <= 57.
Definition value (ds : list Z) : Z := fold_left (fun v d => 10 * v + (d - 48)) ds 0.

(* A piece of a tr-string; at: position of the '{' of the reference.  Text chunks end before
   each '{' (an escaped '{' begins a new chunk). *)
Inductive piece := Text (s : list Z) | Next (at_ : Z) | Index (at_ : Z) (n : Z).
(* [parses pos s ps]: s, at position pos of the tr-string, reads as ps;
   [field pos s ps]: the same just after a '{' *)
Inductive parses : Z -> list Z -> list piece -> Prop :=
| parses_nil pos : parses pos [] []
| parses_last pos s : s <> [] -> ~ In open_brace s -> parses pos s [Text s]
| parses_field pos s r ps : ~ In open_brace s -> field (pos + zlen s + 1) r ps ->
    parses pos (s ++ open_brace :: r) (Text s :: ps)
with field : Z -> list Z -> list piece -> Prop :=
| field_end pos : field pos [] [Next (pos - 1)]
| field_next pos r ps : parses (pos + 1) r ps -> field pos (close_brace :: r) (Next (pos - 1) :: ps)
| field_comment pos c r ps : ~ In close_brace c -> parses (pos + 1 + zlen c + 1) r ps ->
    field pos (dash :: c ++ close_brace :: r) ps
| field_comment_end pos c : ~ In close_brace c -> field pos (dash :: c) []
| field_index pos ds c r ps : ds <> [] -> Forall is_digit ds -> ~ In close_brace c ->
    match c with [] => True | x :: _ => ~ is_digit x end -> parses (pos + zlen ds + zlen c + 1) r ps ->
    field pos (ds ++ c ++ close_brace :: r) (Index (pos - 1) (value ds) :: ps)
| field_index_end pos ds c : ds <> [] -> Forall is_digit ds -> ~ In close_brace c ->
    match c with [] => True | x :: _ => ~ is_digit x end ->
    field pos (ds ++ c) [Index (pos - 1) (value ds)]
| field_escape_last pos s : ~ In open_brace s -> field pos (open_brace :: s) [Text (open_brace :: s)]
| field_escape pos s r ps : ~ In open_brace s -> field (pos + 1 + zlen s + 1) r ps ->
    field pos (open_brace :: s ++ open_brace :: r) (Text (open_brace :: s) :: ps)
| field_other pos x c r ps : x <> dash -> x <> open_brace -> x <> close_brace -> ~ is_digit x -> ~ In close_brace c ->
    parses (pos + 1 + zlen c + 1) r ps -> field pos (x :: c ++ close_brace :: r) (Next (pos - 1) :: ps)
| field_other_end pos x c : x <> dash -> x <> open_brace -> x <> close_brace -> ~ is_digit x -> ~ In close_brace c ->
    field pos (x :: c) [Next (pos - 1)].

(* Non positional references take the arguments in order.  With n arguments: *)
Inductive item := Lit (s : list Z) | Ref (k : nat) | Invalid (at_ : Z).
Definition refer (n k at_ : Z) : item := if k <? n then Ref (Z.to_nat k) else Invalid at_.
Fixpoint resolve (n next : Z) (ps : list piece) : list item :=
  match ps with
  | [] => []
  | Text s :: ps' => Lit s :: resolve n next ps'
  | Next a :: ps' => refer n next a :: resolve n (next + 1) ps'
  | Index a k :: ps' => refer n k a :: resolve n next ps'
  end.
(* what is printed: an invalid reference gives the replacement character *)
Definition replacement_text (b : cset) : list Z := match b with Utf f => enc_of f 0xFFFD | Sb _ _ => [63] end.
Definition item_text (b : cset) (ts : list (list Z)) (i : item) : list Z :=
  match i with Lit s => s | Ref k => nth k ts [] | Invalid _ => replacement_text b end.
Definition items_text (b : cset) (ts : list (list Z)) (is_ : list item) : list Z := concat (map (item_text b ts) is_).
(* what is reported to the tr_error_notifier: the positions, in order *)
Definition errors (is_ : list item) : list Z := concat (map (fun i => match i with Invalid a => [a] | _ => [] end) is_).
(* width: each chunk on its own; an invalid reference counts for one column *)
Definition item_width (w : wcalc) (b : cset) (ws : list Z) (i : item) (x : Z) : Prop :=
  match i with
  | Lit s => exists l, segmented b s l /\ x = seg_width w l
  | Ref k => x = nth k ws 0
  | Invalid _ => x = 65536
  end.
