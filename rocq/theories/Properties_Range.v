(* C54: ranges.  arg_ok, desc: see Properties_Print. *)
From Verif Require Import Base WidthModel WidthProofs DestModel DestProofs UtfSpec UtfForms UtfTheorems
  CharsetModel SbcsModel CsetModel CsetProofs Properties_Pivot WCalcModel WCalcProofs IntSpec IntModel
  PrintModel StringModel ToModel RangeModel PrintSpec StringSpec RangeSpec PrintProofs SegProofs StringProofs CharProofs ToProofs RangeProofs Properties_Print Properties_Join.

(* range, fmt_range, range with a function: the elements' texts one after the other, and
   their sizes and widths added up *)
Theorem C54_range : forall M args ds, Forall2 (arg_ok M) args ds -> zlen args < 2 ^ 64 -> arg_ok M (range_arg args) (join_desc ds).
Proof. exact range_arg_ok. Qed.
(* separated_range, fmt_separated_range, separated_range with a function *)
Theorem C54_separated_range : forall M formatted w b sep l args ds,
  is_cset b -> unit_text b sep -> segmented b sep l -> countable w b sep ->
  Forall2 (arg_ok M) args ds -> zlen args < 2 ^ 64 ->
  arg_ok M (sep_range_arg formatted w b sep args) (sep_desc sep (seg_width w l) ds).
Proof. exact sep_range_arg_ok. Qed.
(* what [separated] is: nothing for an empty range, else the first text, then each other one
   preceded by the separator *)
Theorem C54_separated : forall sep, separated sep [] = [] /\
  (forall t ts, separated sep (t :: ts) = t ++ concat (map (fun t => sep ++ t) ts)) /\
  (forall ts, zlen (separated sep ts) = zlen (concat ts) + zlen sep * Z.max 0 (zlen ts - 1)).
Proof. intros sep. split; [reflexivity|]. split; [apply separated_cons|apply zlen_separated]. Qed.
(* as to_string prints it, and the size it is measured to have *)
Theorem C54_to_string : forall formatted w b sep args ds, is_cset b -> unit_text b sep -> countable w b sep ->
  Forall2 (arg_ok None) args ds -> zlen args < 2 ^ 64 ->
  let text := separated sep (map d_text ds) in
  to_string false [sep_range_arg formatted w b sep args] = Some text /\
  (zlen text < 2 ^ 64 -> exists pr, sep_range_arg formatted w b sep args (mk_pre (Some 0) None) = Some (mk_pre (Some (zlen text)) None, pr)).
Proof.
  intros fm w b sep args ds HB HU HC HF HZ text. destruct (segmented_exists b sep HB HU) as [l HL].
  pose proof (sep_range_arg_ok None fm w b sep l args ds HB HU HL HC HF HZ) as HA. split.
  - destruct (C56_to_string None false [sep_range_arg fm w b sep args] _ (Forall2_cons _ _ HA (Forall2_nil _))) as [H _]. rewrite H. cbn [map concat sep_desc d_text].
    rewrite !app_nil_r. reflexivity.
  - intros HT. destruct HA as (_ & _ & HA). destruct (HA (mk_pre (Some 0) None)) as (p' & pr & E & _ & A); [split; [cbn; lia|exact I]|].
    exists pr. rewrite E. destruct A as [A1 A2]. destruct p' as [z wd]. cbn [p_size p_width option_map sep_desc d_text] in *. fold text in A1.
    rewrite Z.add_0_l, Z.mod_small in A1 by (pose proof (zlen_nonneg text); lia). subst z. destruct wd as [[? ?]|]; [contradiction|reflexivity].
Qed.
Example C54_ex : let args := [ascii [97; 98]; bool_arg LLower true; ascii []] in
  segmented (Utf U8) [44; 32] [(44, [44]); (32, [32])] /\
  Forall2 (arg_ok (Some u_max)) args [string_desc FastWidth None 131072 [97; 98]; whole (bool_text LLower true) (65536 * 4); string_desc FastWidth None 0 []] /\
  to_string false [sep_range_arg false StdWidth (Utf U8) [44; 32] args] = Some [97; 98; 44; 32; 116; 114; 117; 101; 44; 32] /\
  option_map fst (sep_range_arg true StdWidth (Utf U8) [44; 32] args (mk_pre (Some 5) (Some (9 * 65536, 65536)))) =
    Some (mk_pre (Some 15) (Some (9 * 65536, 9 * 65536))) /\
  option_map fst (sep_range_arg false StdWidth (Utf U8) [44; 32] args (mk_pre (Some 5) (Some (20 * 65536, 65536)))) =
    Some (mk_pre (Some 15) (Some (20 * 65536, 11 * 65536))).
Proof.
  cbv zeta. split; [|split].
  - exists [Good 44; Good 32]. split; [|reflexivity]. apply (items_encode U8 false [44; 32]); [discriminate|]. repeat (constructor; [split; [lia|right; reflexivity]|]). constructor.
  - repeat (apply Forall2_cons; [apply bool_arg_ok || (apply ascii_ok; repeat constructor; lia)|]). apply Forall2_nil.
  - repeat split; vm_compute; reflexivity.
Qed.
Print Assumptions C54_range.
Print Assumptions C54_separated_range.
Print Assumptions C54_separated.
Print Assumptions C54_to_string.
