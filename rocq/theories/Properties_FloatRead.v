(* Theorems about formatted doubles and floats in decimal: C57.

   FloatRead.read_float reads a text as N * 10^(E - p) (skipping ',' before the point); ShortestSpec.rounds_to says which
   magnitude (the bits of the double or float without the sign) a number rounds to. *)
From Verif Require Import Base GroupSpec DigitsSpec IntSpec IntModel IntProofs WidthModel WidthProofs DestModel DestProofs UtfForms CharsetModel PrintModel
  FloatSpec FloatModel FloatInit FloatHex FloatProofs FloatRead FloatFast FloatArgs FloatAlways Properties_Float.
From Verif Require Import ShortestSpec DragonModel DragonFormats FloatBits FloatHexRead FloatFmtRead.
From Verif Require Import PrintSpec PrintProofs CharProofs ToModel ToProofs PackSpec PackModel PackProofs SyntaxModel SyntaxSpec SyntaxProofs Properties_Args.
From Coq Require Import Permutation.
Local Open Scope Z_scope.

(* the format: fixed, scientific or general, no precision; any width, alignment, fill character, pad0, showpoint and
   digit groups.  The facet's point is printed as '.' and its separator as ',' (if they are used), and a positive value
   is not to be marked by the fill character *)
Record decimal_format (F : float_facets) (gs : list Z) (rep : bool) (f : float_fmt) (al : align_fmt) : Prop := mk_decimal_format {
  df_facets : ffacets_ok F gs rep;
  df_align : align_ok al;
  df_decimal : ff_notation f <> NHex;
  df_precision : ff_precision f = -1;
  df_sign : ff_sign f <> FillInsteadOfPositive;
  df_point : cs_encode (fk_charset F) (float_point F f) = [46];
  df_separator : cs_encode (fk_charset F) (fk_thousands F) = [44];
  df_thousands : (fk_thousands F = 44 /\ 8 <= fk_bits F) \/ float_groups F gs f = [];
  df_pad0 : ff_pad0 f <= 2 ^ 30 }.
(* the text is made of fill characters (none, if no width is given), a sign and a text that is read as a number that
   rounds to n *)
Definition reads_back (F : float_facets) (f : float_fmt) (al : align_fmt) (fm : format) (negative : bool) (n : Z) (x : decoded_float) : Prop :=
  exists p k u N places E, punct_double F f al x = Some p /\
    ops_text (pr_ops p) = padded (al_align al) (cs_encode (fk_charset F) (al_fill al)) k
      ((if negative then [45] else match ff_sign f with PositiveAlso => [43] | _ => [] end) ++ u) /\ 0 <= k /\ (al_width al = 0 -> k = 0) /\
    read_float u = Some (N, places, E) /\ rounds_to fm (dec_value N (E - places)) n.

Theorem C57_double_formatted : forall F gs rep f al b, decimal_format F gs rep f al ->
  0 <= b < 2 ^ 64 -> b mod 2 ^ 63 < infinity_bits binary64 ->
  reads_back F f al binary64 (2 ^ 63 <=? b) (b mod 2 ^ 63) (double_of_bits b).
Proof.
  intros F gs rep f al b [HF HA Hn Hp HG HP HS HT Hpad] Hb Hf. destruct (double_shown b Hb Hf) as (m & e & S & HX).
  rewrite (sign_bit b 63 ltac:(lia) Hb) in S. rewrite <- S. exact (formatted_reads F gs rep f al _ binary64 _ HF HA Hn Hp Hpad HP HS HT HG m e HX).
Qed.
Theorem C57_float_formatted : forall F gs rep f al b, decimal_format F gs rep f al ->
  0 <= b < 2 ^ 32 -> b mod 2 ^ 31 < infinity_bits binary32 ->
  reads_back F f al binary32 (2 ^ 31 <=? b) (b mod 2 ^ 31) (float_of_bits b).
Proof.
  intros F gs rep f al b [HF HA Hn Hp HG HP HS HT Hpad] Hb Hf. destruct (float_shown b Hb Hf) as (m & e & S & HX).
  rewrite (sign_bit b 31 ltac:(lia) Hb) in S. rewrite <- S. exact (formatted_reads F gs rep f al _ binary32 _ HF HA Hn Hp Hpad HP HS HT HG m e HX).
Qed.
Lemma same_reads F f al fm k b b' x x' : al_width al = 0 -> 1 <= prec fm -> 2 <= width fm -> 0 <= k -> 0 <= b < 2 ^ (k + 1) -> 0 <= b' < 2 ^ (k + 1) ->
  reads_back F f al fm (2 ^ k <=? b) (b mod 2 ^ k) x -> reads_back F f al fm (2 ^ k <=? b') (b' mod 2 ^ k) x' ->
  option_map (fun p => ops_text (pr_ops p)) (punct_double F f al x) = option_map (fun p => ops_text (pr_ops p)) (punct_double F f al x') -> b = b'.
Proof.
  intros W P1 P2 Hk B B' (p & q & u & N & pl & E & A1 & A2 & _ & A4 & A5 & A6) (p' & q' & u' & N' & pl' & E' & C1 & C2 & _ & C4 & C5 & C6) HE.
  rewrite A1, C1 in HE. cbn [option_map] in HE. apply some_inj in HE. rewrite A2, C2, (A4 W), (C4 W), !padded_none in HE.
  pose proof (read_minus u). pose proof (read_minus u').
  assert (U : (2 ^ k <=? b) = (2 ^ k <=? b') /\ u = u').
  { destruct (2 ^ k <=? b), (2 ^ k <=? b'), (ff_sign f); cbn [app] in HE;
      try (split; [reflexivity|]; first [exact HE|exact (f_equal (@tl Z) HE)]); try discriminate (f_equal (@hd Z 0) HE); exfalso; subst; congruence. }
  destruct U as (U1 & <-). assert (EN : Some (N, pl, E) = Some (N', pl', E')) by congruence. injection EN as <- <- <-.
  pose proof (rounds_unique fm _ _ _ P1 P2 A6 C6) as M. rewrite Z.pow_add_r in B, B' by lia. change (2 ^ 1) with 2 in B, B'.
  assert (Q : forall c, 0 <= c < 2 ^ k * 2 -> c = (if 2 ^ k <=? c then 2 ^ k else 0) + c mod 2 ^ k).
  { intros c Hc. destruct (Z.leb_spec (2 ^ k) c).
    - rewrite <- (Z_mod_plus_full c (-1)). rewrite Z.mod_small by lia. lia.
    - rewrite Z.mod_small by lia. lia. }
  rewrite (Q b B), (Q b' B'), U1, M. reflexivity.
Qed.
(* different values, different texts *)
Theorem C57_double_formatted_injective : forall F gs rep f al b b', decimal_format F gs rep f al -> al_width al = 0 ->
  0 <= b < 2 ^ 64 -> b mod 2 ^ 63 < infinity_bits binary64 -> 0 <= b' < 2 ^ 64 -> b' mod 2 ^ 63 < infinity_bits binary64 ->
  option_map (fun p => ops_text (pr_ops p)) (punct_double F f al (double_of_bits b)) = option_map (fun p => ops_text (pr_ops p)) (punct_double F f al (double_of_bits b')) ->
  b = b'.
Proof.
  intros F gs rep f al b b' HX HW B1 B2 B3 B4 HE.
  exact (same_reads F f al binary64 63 b b' _ _ HW ltac:(cbn; lia) ltac:(cbn; lia) ltac:(lia) B1 B3 (C57_double_formatted F gs rep f al b HX B1 B2) (C57_double_formatted F gs rep f al b' HX B3 B4) HE).
Qed.
Theorem C57_float_formatted_injective : forall F gs rep f al b b', decimal_format F gs rep f al -> al_width al = 0 ->
  0 <= b < 2 ^ 32 -> b mod 2 ^ 31 < infinity_bits binary32 -> 0 <= b' < 2 ^ 32 -> b' mod 2 ^ 31 < infinity_bits binary32 ->
  option_map (fun p => ops_text (pr_ops p)) (punct_double F f al (float_of_bits b)) = option_map (fun p => ops_text (pr_ops p)) (punct_double F f al (float_of_bits b')) ->
  b = b'.
Proof.
  intros F gs rep f al b b' HX HW B1 B2 B3 B4 HE.
  exact (same_reads F f al binary32 31 b b' _ _ HW ltac:(cbn; lia) ltac:(cbn; lia) ltac:(lia) B1 B3 (C57_float_formatted F gs rep f al b HX B1 B2) (C57_float_formatted F gs rep f al b' HX B3 B4) HE).
Qed.

(* ---- from a printing expression ---- *)
(* a double or float with a format; [F_of] reads the charset, lettercase and numpunct facets off the look-up of a facet by category *)
Definition formatted_float (get_default : Z -> Z) (F_of : (Z -> Z) -> float_facets) (tag cat : Z) (ov : bool) (f : float_fmt) (al : align_fmt) (x : decoded_float) : printable :=
  reading get_default tag cat ov (fun look => fmt_float_arg (F_of look) f al x).
Theorem C64_formatted_float : forall get_default constrainable M ls tag cat ov F_of gs_of rep_of f al x,
  (forall look look', (forall c, look c = look' c) -> F_of look = F_of look') ->
  (forall look, ffacets_ok (F_of look) (gs_of look) (rep_of look)) -> align_ok al ->
  match fl_bits x with BFinite _ mantissa _ _ _ => 0 <= mantissa | _ => True end ->
  (forall look, prints_float (F_of look) (gs_of look) (rep_of look) f al x /\
     0 <= float_text_width (frequest_of (F_of look) (gs_of look) (rep_of look) f al x) <= 32767) ->
  own_printer get_default ls tag cat ov ->
  let look := fun c => facet_for get_default ls c tag in
  let r := frequest_of (F_of look) (gs_of look) (rep_of look) f al x in
  shows get_default constrainable M ls (formatted_float get_default F_of tag cat ov f al x) (whole (float_text r) (65536 * float_text_width r)).
Proof.
  intros df cn M ls tag cat ov F_of gs_of rep_of f al x HE HF HA HX HP HO. cbv zeta.
  apply (C64_any df cn M ls tag cat ov _ (fun look => let r := frequest_of (F_of look) (gs_of look) (rep_of look) f al x in whole (float_text r) (65536 * float_text_width r))); [| |exact HO].
  - intros k k' E. rewrite (HE k k' E). reflexivity.
  - intros look. destruct (HP look) as (H1 & H2). exact (C55_argument M _ _ _ f al x (HF look) HA HX H1 H2).
Qed.
(* [signed_number F f al fm negative n t]: t is fill characters, a sign and a number that rounds to n *)
Definition signed_number (F : float_facets) (f : float_fmt) (al : align_fmt) (fm : format) (negative : bool) (n : Z) (t : list Z) : Prop :=
  exists k u N places E, t = padded (al_align al) (cs_encode (fk_charset F) (al_fill al)) k
      ((if negative then [45] else match ff_sign f with PositiveAlso => [43] | _ => [] end) ++ u) /\ 0 <= k /\ (al_width al = 0 -> k = 0) /\
    read_float u = Some (N, places, E) /\ rounds_to fm (dec_value N (E - places)) n.
Lemma formatted_printed get_default constrainable qs cat' o order fs tag cat ov F_of gs_of rep_of f al x fm n m e :
  chain Rvalue (to_creator c_to_string) qs = Some (cat', o) -> (forall l, Permutation l (order l)) ->
  let ls := flat_map leaves (flat_map with_facets qs ++ fs) in
  (forall look look', (forall c, look c = look' c) -> F_of look = F_of look') ->
  (forall look, decimal_format (F_of look) (gs_of look) (rep_of look) f al) -> w_round (al_width al) <= 32767 -> ff_pad0 f <= 32767 ->
  own_printer get_default ls tag cat ov -> match fl_bits x with BFinite _ mantissa _ _ _ => 0 <= mantissa | _ => True end -> shown fm x n m e ->
  exists t, sy_print get_default constrainable o false order (map (AFpe false) fs ++ [APrintable (formatted_float get_default F_of tag cat ov f al x)]) = Some t /\
    signed_number (F_of (fun c => facet_for get_default ls c tag)) f al fm (fl_negative x) n t.
Proof.
  intros HC Hord ls HE HD HW HPad HO HX HSh. set (look := fun c => facet_for get_default ls c tag) in *. set (y := formatted_float get_default F_of tag cat ov f al x).
  set (r := frequest_of (F_of look) (gs_of look) (rep_of look) f al x).
  assert (HS : shows get_default constrainable None ls y (whole (float_text r) (65536 * float_text_width r))).
  { apply (C64_formatted_float get_default constrainable None ls tag cat ov F_of gs_of rep_of f al x HE); [intros k; apply (HD k)|apply (HD look)|exact HX| |exact HO].
    intros k. destruct (HD k) as [HF HA Hn Hp HG HP HS HT Hpad]. split.
    - exact (formatted_prints (F_of k) (gs_of k) (rep_of k) f al x fm n HF HA Hn Hp Hpad HS HT m e HSh).
    - exact (formatted_width (F_of k) (gs_of k) (rep_of k) f al x fm n Hn Hp m e HSh HW HPad). }
  exists (float_text r). split.
  - destruct (sy_print_ok get_default constrainable None c_to_string _ Rvalue qs cat' o false order (map (AFpe false) fs ++ map APrintable [y]) fs [y] [whole (float_text r) (65536 * float_text_width r)] to_string_keeps HC) as (w & Hw & ->).
    + apply separate_ok. exists (repeat false (length fs)). split; [apply repeat_length|]. f_equal. clear. induction fs as [|q fs IH]; [reflexivity|]. cbn. rewrite <- IH. reflexivity.
    + exact Hord.
    + constructor; [exact HS|constructor].
    + cbn [map] in Hw. rewrite Hw. cbn [map concat d_text whole]. rewrite !app_nil_r. reflexivity.
  - destruct (HD look) as [HF HA Hn Hp HG HP HS' HT Hpad].
    exact (formatted_text (F_of look) (gs_of look) (rep_of look) f al x fm n Hn Hp HP HS' HG m e HSh).
Qed.
(* to_string(fixed(x) > 20) and the like, with any facets, reservations and order of evaluation: from the string, the value *)
Theorem C57_double_formatted_to_string : forall get_default constrainable qs cat' o order fs ls tag cat ov F_of gs_of rep_of f al b,
  chain Rvalue (to_creator c_to_string) qs = Some (cat', o) -> (forall l, Permutation l (order l)) ->
  ls = flat_map leaves (flat_map with_facets qs ++ fs) ->
  (forall look look', (forall c, look c = look' c) -> F_of look = F_of look') ->
  (forall look, decimal_format (F_of look) (gs_of look) (rep_of look) f al) -> w_round (al_width al) <= 32767 -> ff_pad0 f <= 32767 ->
  own_printer get_default ls tag cat ov -> 0 <= b < 2 ^ 64 -> b mod 2 ^ 63 < infinity_bits binary64 ->
  exists t, sy_print get_default constrainable o false order (map (AFpe false) fs ++ [APrintable (formatted_float get_default F_of tag cat ov f al (double_of_bits b))]) = Some t /\
    signed_number (F_of (fun c => facet_for get_default ls c tag)) f al binary64 (2 ^ 63 <=? b) (b mod 2 ^ 63) t.
Proof.
  intros df cn qs cat' o order fs ls tag cat ov F_of gs_of rep_of f al b HC Hord -> HE HD HW HPad HO Hb Hf.
  destruct (double_shown b Hb Hf) as (m & e & S & HX). rewrite (sign_bit b 63 ltac:(lia) Hb) in S. rewrite <- S.
  refine (formatted_printed df cn qs cat' o order fs tag cat ov F_of gs_of rep_of f al _ binary64 _ m e HC Hord HE HD HW HPad HO _ HX).
  pose proof (double_value_ok b Hb) as V. unfold value_ok in V. destruct (fl_bits (double_of_bits b)); [exact I|exact I|]. clear - V. lia.
Qed.
Theorem C57_float_formatted_to_string : forall get_default constrainable qs cat' o order fs ls tag cat ov F_of gs_of rep_of f al b,
  chain Rvalue (to_creator c_to_string) qs = Some (cat', o) -> (forall l, Permutation l (order l)) ->
  ls = flat_map leaves (flat_map with_facets qs ++ fs) ->
  (forall look look', (forall c, look c = look' c) -> F_of look = F_of look') ->
  (forall look, decimal_format (F_of look) (gs_of look) (rep_of look) f al) -> w_round (al_width al) <= 32767 -> ff_pad0 f <= 32767 ->
  own_printer get_default ls tag cat ov -> 0 <= b < 2 ^ 32 -> b mod 2 ^ 31 < infinity_bits binary32 ->
  exists t, sy_print get_default constrainable o false order (map (AFpe false) fs ++ [APrintable (formatted_float get_default F_of tag cat ov f al (float_of_bits b))]) = Some t /\
    signed_number (F_of (fun c => facet_for get_default ls c tag)) f al binary32 (2 ^ 31 <=? b) (b mod 2 ^ 31) t.
Proof.
  intros df cn qs cat' o order fs ls tag cat ov F_of gs_of rep_of f al b HC Hord -> HE HD HW HPad HO Hb Hf.
  destruct (float_shown b Hb Hf) as (m & e & S & HX). rewrite (sign_bit b 31 ltac:(lia) Hb) in S. rewrite <- S.
  refine (formatted_printed df cn qs cat' o order fs tag cat ov F_of gs_of rep_of f al _ binary32 _ m e HC Hord HE HD HW HPad HO _ HX).
  pose proof (float_value_ok b Hb) as V. unfold value_ok in V. destruct (fl_bits (float_of_bits b)); [exact I|exact I|]. clear - V. lia.
Qed.

(* !fixed(-1234567.5) > 14, filled with '_' : ___-1,234,567.5 *)
Definition grouped_fmt : float_fmt := mk_ffmt (-1) 0 NFixed NegativeOnly false true.
Definition wide_align : align_fmt := mk_align 95 (15 * 65536) ARight.
Example C57_formatted_ex : decimal_format FL8 [3] true grouped_fmt wide_align /\
  text_of FL8 grouped_fmt wide_align (double_of_bits 0xC132D68780000000) = Some ([95; 95; 95; 45; 49; 44; 50; 51; 52; 44; 53; 54; 55; 46; 53], 15, 15) /\
  read_float [49; 44; 50; 51; 52; 44; 53; 54; 55; 46; 53] = Some (12345675, 1, 0).
Proof.
  split; [|split; vm_compute; reflexivity]. split; try reflexivity; try discriminate; [exact FL8_ok|split; [cbn; lia|vm_compute; split; congruence]|left; split; [reflexivity|cbn; lia]].
Qed.

Example C57_formatted_to_string_ex : exists cat o, chain Rvalue (to_creator c_to_string) [] = Some (cat, o) /\ w_round (al_width wide_align) = 15 /\
  own_printer (fun _ => 0) [] 7 9 false /\
  sy_print (fun _ => 0) (fun _ => true) o false (fun l => l) [APrintable (formatted_float (fun _ => 0) (fun _ => FL8) 7 9 false grouped_fmt wide_align (double_of_bits 0xC132D68780000000))] =
    Some [95; 95; 95; 45; 49; 44; 50; 51; 52; 44; 53; 54; 55; 46; 53].
Proof. eexists _, _. split; [reflexivity|]. split; [reflexivity|]. split; [left; reflexivity|]. vm_compute. reflexivity. Qed.

Print Assumptions C57_double_formatted.
Print Assumptions C57_float_formatted.
Print Assumptions C57_double_formatted_injective.
Print Assumptions C57_float_formatted_injective.
Print Assumptions C64_formatted_float.
Print Assumptions C57_double_formatted_to_string.
Print Assumptions C57_float_formatted_to_string.
