(* Theorems about integers: C34-C41 and the integer part of C42. *)
From Verif Require Import Base WidthModel WidthProofs DestModel DestProofs GroupSpec GroupModel GroupProofs GroupDist
  DigitsSpec DigitsModel DigitsCount DigitsProofs UtfSpec UtfForms CharsetModel IntSpec IntModel IntProofs.

(* C34: the digit count is the length of the canonical representation.  clz: the version
   using countl_zero; s: the size of the integer type. *)
Theorem C34_count_digits : forall clz b s v ds, 0 <= v < 2 ^ sbits s -> repr (bval b) ds v ->
  count_digits clz b s v = zlen ds.
Proof. intros clz b s v ds Hv Hr. rewrite (repr_unique (bval b) ds v (bval_ge b) Hr). apply count_digits_ok; exact Hv. Qed.
Theorem C34_max_num_digits : forall b s v ds, 0 <= v < 2 ^ sbits s -> repr (bval b) ds v ->
  zlen ds <= max_num_digits b s.
Proof. intros b s v ds Hv Hr. rewrite (repr_unique (bval b) ds v (bval_ge b) Hr). apply max_num_digits_ok; exact Hv. Qed.
Example C34_ex : repr 10 [1;8;4;4;6;7;4;4;0;7;3;7;0;9;5;5;1;6;1;5] (2 ^ 64 - 1) /\
  count_digits true B10 S8 (2 ^ 64 - 1) = 20 /\ count_digits false B8 S2 (8 ^ 5) = 6 /\ count_digits true B16 S4 255 = 2.
Proof.
  split; [|vm_compute; auto]. split; [repeat constructor; lia|]. split; [vm_compute; reflexivity|]. split; [discriminate|].
  cbn; lia.
Qed.
Print Assumptions C34_count_digits.
Print Assumptions C34_max_num_digits.

(* C35: v printed with no options, or just a base: '-' when negative and decimal, then the
   digits of the canonical representation of |v| (decimal) or of the two's complement bits. *)
Theorem C35_printed_digits : forall F gs rep f sgn s v, facets_ok F gs rep -> in_int sgn (sbits s) v ->
  f = FDefault \/ (exists b, f = FNoPad b NegativeOnly false) ->
  exists p ds, int_print F f None sgn s v = Some p /\
    repr (bval (fmt_base f)) ds (if bval (fmt_base f) =? 10 then Z.abs v else v mod 2 ^ sbits s) /\
    ops_text (pr_ops p) = (if (bval (fmt_base f) =? 10) && (v <? 0) then [45] else []) ++
                          map (digit_char (low_digits (if_case F))) ds.
Proof.
  intros F gs rep f sgn s v HF Hv Hf. set (b := fmt_base f).
  destruct (int_print_ok F gs rep f None sgn s v HF Hv default_align_ok) as (p & E & (T & _) & _).
  { destruct Hf as [->|[b' ->]]; split; cbn; lia. }
  { right; right. unfold n_seps. apply below_none. intros i _. destruct Hf as [->|[b' ->]]; reflexivity. }
  exists p, (digits (bval b) (if bval b =? 10 then Z.abs v else v mod 2 ^ sbits s)). split; [exact E|].
  assert (Hp : 0 < 2 ^ sbits s) by (apply Z.pow_pos_nonneg; destruct s; cbn; lia).
  split; [apply repr_digits; [apply bval_ge|]; destruct (bval b =? 10); [lia|apply Z.mod_pos_bound; exact Hp]|].
  rewrite T. assert (Ef : opts_of f = mk_opts (bval b) 0 0 NegativeOnly false false) by (destruct Hf as [->|[b' ->]]; reflexivity).
  unfold request_of. rewrite Ef.
  destruct (plain_text (if_case F) sgn s v b NegativeOnly false (cs_encode (if_cs F) (if_sep F b)) (boundary (gs b) (rep b))
    (cs_encode (if_cs F) 32) 0 ARight Hv) as (T' & _ & P' & D').
  cbn [align_of default_align al_fill al_width al_align]. rewrite round_zero. fold b. rewrite T'.
  rewrite Z.max_l by lia. rewrite padded_zero. f_equal.
  unfold int_prefix, request; cbn [rq_base rq_value rq_signed rq_sign rq_showbase o_base o_sign o_showbase].
  destruct (bval b =? 10); cbn [andb negb]; [|reflexivity]. destruct (v <? 0), sgn; reflexivity.
Qed.
Theorem C35_repr_unique : forall base ds ds' v, 2 <= base -> repr base ds v -> repr base ds' v -> ds = ds'.
Proof. intros base ds ds' v Hb H H'. rewrite (repr_unique base ds v Hb H). symmetry. exact (repr_unique base ds' v Hb H'). Qed.

(* the standard facets, with UTF-8 and English-style grouping in decimal *)
Definition F8 : int_facets :=
  mk_facets true (utf_charset U8) LLower (fun b => match b with B10 => pack [3] true | B2 => pack [4] true | _ => 3 end) (fun _ => 44).
Definition gs8 (b : ibase) : list Z := match b with B10 => [3] | B2 => [4] | _ => [] end.
Definition rep8 (b : ibase) : bool := match b with B10 | B2 => true | _ => false end.
Example F8_ok : facets_ok F8 gs8 rep8.
Proof.
  split; [apply utf_charset_ok| |intros b; cbn; lia].
  intros b; destruct b; (split; [split; [repeat constructor; lia|cbn; lia]|]); split; try reflexivity; discriminate.
Qed.
Example C35_ex : in_int true (sbits S4) (-2147483648) /\
  option_map (fun p => ops_text (pr_ops p)) (int_print F8 FDefault None true S4 (-2147483648))
    = Some [45;50;49;52;55;52;56;51;54;52;56] /\
  option_map (fun p => ops_text (pr_ops p)) (int_print F8 (FNoPad B16 NegativeOnly false) None true S1 (-1)) = Some [102;102].
Proof. split; [cbn; lia|]. split; vm_compute; reflexivity. Qed.
Print Assumptions C35_printed_digits.
Print Assumptions C35_repr_unique.

(* C36: punctuated integers: the sign, then the digits with the separator at the boundaries
   of the grouping (gs, rep) and nowhere else.  [sep_valid]: the separator is a character
   the charset can encode (see C39_invalid_separator_refuted). *)
Theorem C36_grouped_digits : forall F gs rep b sgn s v, facets_ok F gs rep -> in_int sgn (sbits s) v ->
  (if_sep F b < 0x80 \/ cs_validate (if_cs F) (if_sep F b) <> -1) ->
  exists p, int_print F (FStatic b true 0 0 NegativeOnly false) None sgn s v = Some p /\
    forall ds, repr (bval b) ds (if bval b =? 10 then Z.abs v else v mod 2 ^ sbits s) ->
    ops_text (pr_ops p) = (if (bval b =? 10) && (v <? 0) then [45] else []) ++
       grouped (boundary (gs b) (rep b)) (cs_encode (if_cs F) (if_sep F b)) (map (digit_char (low_digits (if_case F))) ds).
Proof.
  intros F gs rep b sgn s v HF Hv Hsep.
  destruct (int_print_ok F gs rep (FStatic b true 0 0 NegativeOnly false) None sgn s v HF Hv default_align_ok) as (p & E & (T & _) & _).
  { split; cbn; lia. }
  { destruct Hsep as [H|H]; [left; exact H|right; left; exact H]. }
  exists p. split; [exact E|]. intros ds Hr. rewrite T. set (r := request_of _ _ _ _ _ _ _ _).
  assert (Ed : mag_digits r = ds). { symmetry; apply repr_unique; [apply bval_ge|exact Hr]. }
  assert (Hnn : 0 <= int_prefix_width r).
  { unfold int_prefix_width. destruct (rq_base r =? 10); [destruct (_ || _); lia|apply zlen_nonneg]. }
  pose proof (zlen_nonneg (mag_digits r)). pose proof (below_le (rq_boundary r) (length (mag_digits r))).
  assert (Hz : int_zeros r = 0).
  { unfold int_zeros, n_digits, n_seps. change (rq_precision r) with 0. change (rq_pad0 r) with 0. destruct (rq_base r =? 8); lia. }
  assert (Hm : int_missing r = 0).
  { unfold int_missing, int_content_width, n_digits, n_seps. rewrite Hz. change (rq_width r) with (w_round 0). rewrite round_zero. lia. }
  unfold int_text. rewrite Hm, padded_zero. unfold int_content. rewrite Hz. cbn [Z.to_nat repeat app]. rewrite Ed. f_equal.
  unfold int_prefix, r, request_of, request; cbn [rq_base rq_value rq_signed rq_sign rq_showbase opts_of o_base o_sign o_showbase fmt_base].
  destruct (bval b =? 10); cbn [andb negb]; [|reflexivity]. destruct (v <? 0), sgn; reflexivity.
Qed.
(* what [grouped] means: removing the separators gives the digits back, and after the first
   k digits stands a separator exactly when there is a boundary with the rest to its right *)
Theorem C36_grouped_remove : forall B sep ds, ~ In sep ds ->
  filter (fun c => negb (c =? sep)) (grouped B [sep] ds) = ds.
Proof.
  intros B sep. induction ds as [|d ds IH]; intros Hn; [reflexivity|].
  cbn [grouped filter]. assert (d <> sep) by (intros ->; apply Hn; left; reflexivity).
  replace (d =? sep) with false by lia. cbn [negb]. f_equal. rewrite filter_app.
  rewrite IH by (intros X; apply Hn; right; exact X).
  destruct (_ && _); [|reflexivity]. cbn. rewrite Z.eqb_refl. reflexivity.
Qed.
Theorem C36_grouped_split : forall B sep a b, a <> [] -> b <> [] ->
  grouped B sep (a ++ b) = grouped (fun i => B (zlen b + i)) sep a ++ (if B (zlen b) then sep else []) ++ grouped B sep b.
Proof.
  intros B sep a b Ha Hb. rewrite (grouped_app B (fun i => B (zlen b + i))) by (assumption || reflexivity).
  assert (0 < zlen b) by (destruct b; [congruence|unfold zlen; cbn [length]; lia]).
  replace (0 <? zlen b) with true by lia. reflexivity.
Qed.
Example C36_ex : option_map (fun p => ops_text (pr_ops p)) (int_print F8 (FStatic B10 true 0 0 NegativeOnly false) None true S4 (-1234567))
  = Some [45;49;44;50;51;52;44;53;54;55].
Proof. vm_compute; reflexivity. Qed.
Print Assumptions C36_grouped_digits.
Print Assumptions C36_grouped_remove.
Print Assumptions C36_grouped_split.

(* C37: for every grouping that stands for (gs, rep) *)
Theorem C37_separators_count : forall g gs rep n, represents g gs rep -> 0 <= n ->
  separators_count g n = Some (boundaries_below (boundary gs rep) (Z.to_nat n)).
Proof. exact separators_count_ok. Qed.
Theorem C37_any_separator : forall g gs rep n, represents g gs rep -> 0 <= n ->
  any_separator g n = (0 <? boundaries_below (boundary gs rep) (Z.to_nat n)).
Proof. exact any_separator_ok. Qed.
(* boundaries_below counts the separators of a number of n digits *)
Theorem C37_count_is_number_of_separators : forall B sep ds,
  zlen (grouped B sep ds) = zlen ds + boundaries_below B (length ds) * zlen sep.
Proof. exact grouped_len. Qed.
(* distribute: the sizes of the groups, from the highest: highest_group, then (if
   middle_groups_count is not zero) that many groups of the size of the highest of
   low_groups, then the rest of low_groups.  [low] lists low_groups, highest first. *)
Theorem C37_distribute : forall g gs rep n, represents g gs rep -> 1 <= n ->
  exists d low, distribute g n = Some d /\ dist_low d = rpk low /\ groups_ok low /\
    let sizes := dist_sizes d low in
    zsum sizes = n /\ Forall (fun k => 1 <= k) sizes /\
    forall sep ds, zlen ds = n -> grouped (boundary gs rep) sep ds = chunks sep sizes ds.
Proof.
  intros g gs rep n Hr Hn. destruct (distribute_ok g gs rep n Hr Hn) as (d & low & E & D1 & D2 & _ & _ & _ & Z1 & (_ & P & C)).
  exists d, low. split; [exact E|]. split; [exact D1|]. split; [exact D2|]. split; [exact Z1|]. split; [exact P|].
  intros sep ds Hd. apply C. lia.
Qed.
Example C37_ex : represents (pack [3; 2; 4] true) [3; 2; 4] true /\
  separators_count (pack [3; 2; 4] true) 20 = Some 5 /\
  distribute (pack [3; 2; 4] true) 20 = Some (mk_dist (rpk [4; 2; 3]) 3 3).
Proof. split; [split; [split; [repeat constructor; lia|cbn; lia]|split; [discriminate|reflexivity]]|split; vm_compute; reflexivity]. Qed.
Print Assumptions C37_separators_count.
Print Assumptions C37_any_separator.
Print Assumptions C37_count_is_number_of_separators.
Print Assumptions C37_distribute.

(* C38: the constructors.  Integer arguments; -1 as the last one: no more separators. *)
Theorem C38_args_repeat : forall gs, valid_groups gs -> gs <> [] ->
  exists g, grouping_of_args gs = Some g /\ represents g gs true.
Proof. exact grouping_of_args_repeat. Qed.
Theorem C38_args_norepeat : forall gs, valid_groups gs ->
  exists g, grouping_of_args (gs ++ [-1]) = Some g /\ represents g gs false.
Proof. exact grouping_of_args_norepeat. Qed.
(* a string of sizes (chars 1..127) ended by NUL: the last size repeats.  Same
   boundaries, or the empty grouping when the sizes are not valid. *)
Theorem C38_string_repeat : forall gs, Forall (fun c => 1 <= c < 128) gs ->
  (valid_groups gs -> gs <> [] -> exists g gs', grouping_of_str gs = Some g /\ represents g gs' true /\
      forall i, 0 < i -> boundary gs' true i = boundary gs true i) /\
  (~ valid_groups gs \/ gs = [] -> grouping_of_str gs = Some grouping_empty).
Proof. intros gs H. unfold grouping_of_str. rewrite of_str_repeat by exact H. apply finish_ok. Qed.
(* ended by a char with the top bit set (CHAR_MAX or negative): no more separators *)
Theorem C38_string_norepeat : forall gs m rest, Forall (fun c => 1 <= c < 128) gs -> 128 <= m < 256 ->
  (valid_groups gs -> exists g, grouping_of_str (gs ++ m :: rest) = Some g /\ represents g gs false) /\
  (~ valid_groups gs -> grouping_of_str (gs ++ m :: rest) = Some grouping_empty).
Proof. intros gs m rest H Hm. unfold grouping_of_str. rewrite of_str_norepeat by assumption. apply finish_no_more_ok. Qed.
(* digits_grouping_creator: push_high of each size from the lowest, then finish *)
Theorem C38_creator : forall gs,
  (valid_groups gs -> gs <> [] -> exists g gs', finish (pushes gs creator_init) = Some g /\ represents g gs' true /\
      forall i, 0 < i -> boundary gs' true i = boundary gs true i) /\
  (~ valid_groups gs \/ gs = [] -> finish (pushes gs creator_init) = Some grouping_empty) /\
  (valid_groups gs -> exists g, finish_no_more_sep (pushes gs creator_init) = Some g /\ represents g gs false) /\
  (~ valid_groups gs -> finish_no_more_sep (pushes gs creator_init) = Some grouping_empty).
Proof. intros gs. destruct (finish_ok gs) as [A B]. destruct (finish_no_more_ok gs) as [C D]. auto. Qed.
Example C38_ex : grouping_of_args [3; 2; 4] = Some (pack [3; 2; 4] true) /\ grouping_of_str [3; 2; 2] = Some (pack [3; 2] true) /\
  grouping_of_str [3; 255] = Some (pack [3] false) /\ grouping_of_str [3; 40] = Some grouping_empty /\
  grouping_of_str [1;2;3;4;5;6;7] = Some grouping_empty.
Proof. vm_compute; auto. Qed.
Print Assumptions C38_args_repeat.
Print Assumptions C38_args_norepeat.
Print Assumptions C38_string_repeat.
Print Assumptions C38_string_norepeat.
Print Assumptions C38_creator.

(* C39: for every integer type and value, format, alignment and facets: the operations on
   the destination exist (no undefined behaviour) and their text is int_text. *)
Theorem C39_integer_text : forall F gs rep f al sgn s v,
  facets_ok F gs rep -> in_int sgn (sbits s) v -> align_ok (align_of al) -> opts_ok (opts_of f) ->
  sep_ok F f (request_of F gs rep f al sgn s v) ->
  exists p, int_print F f al sgn s v = Some p /\ ops_text (pr_ops p) = int_text (request_of F gs rep f al sgn s v).
Proof.
  intros F gs rep f al sgn s v H1 H2 H3 H4 H5.
  destruct (int_print_ok F gs rep f al sgn s v H1 H2 H3 H4 H5) as (p & E & (T & _) & _). exists p; auto.
Qed.
(* sep_ok is needed: a separator the charset cannot encode is not printed, but its column
   is still subtracted from the fill, so the text is not the one without separators, nor
   as wide as requested (int.hpp:1806-1842, 1880-1906) *)
Definition F8bad : int_facets := mk_facets true (utf_charset U8) LLower (fun _ => pack [3] true) (fun _ => 0xD800).
Theorem C39_invalid_separator_refuted : exists F gs rep al v p,
  facets_ok F gs rep /\ align_ok al /\
  int_print F (FStatic B10 true 0 0 NegativeOnly false) (Some al) true S4 v = Some p /\
  ops_text (pr_ops p) <> int_text (request_of F gs rep (FStatic B10 true 0 0 NegativeOnly false) (Some al) true S4 v) /\
  ops_text (pr_ops p) <> int_text (request_of F gs rep (FStatic B10 false 0 0 NegativeOnly false) (Some al) true S4 v) /\
  zlen (ops_text (pr_ops p)) < w_round (al_width al).
Proof.
  exists F8bad, (fun _ => [3]), (fun _ => true), (mk_align 42 (10 * 65536) ARight), 1234567. eexists.
  split; [split; [apply utf_charset_ok|intros b; split; [split; [repeat constructor; lia|cbn; lia]|split; [discriminate|reflexivity]]|intros; cbn; lia]|].
  split; [split; [cbn; lia|vm_compute; split; discriminate]|].
  split; [vm_compute; reflexivity|]. split; [vm_compute; discriminate|]. split; [vm_compute; discriminate|vm_compute; reflexivity].
Qed.
(* exactly what is printed then: the text of the same request with an empty separator, that is no separators
   but as much padding and as few zeros as if each took a column; written inside the reserved space *)
Theorem C39_invalid_separator_exact_partial : forall F gs rep f al sgn s v,
  facets_ok F gs rep -> in_int sgn (sbits s) v -> align_ok (align_of al) -> opts_ok (opts_of f) ->
  let r := request_of F gs rep f al sgn s v in
  ~ sep_ok F f r ->
  exists p, int_print F f al sgn s v = Some p /\ ops_text (pr_ops p) = int_text (silent_sep r) /\ Forall op_wf (pr_ops p).
Proof.
  intros F gs rep f al sgn s v H1 H2 H3 H4 r H5.
  destruct (int_print_bad_sep F gs rep f al sgn s v H1 H2 H3 H4 H5) as (p & E & (T & _) & W). exists p; auto.
Qed.
Example C39_invalid_separator_ex :
  let r := request_of F8bad (fun _ => [3]) (fun _ => true) (FStatic B10 true 0 0 NegativeOnly false) (Some (mk_align 42 (10 * 65536) ARight)) true S4 1234567 in
  ~ sep_ok F8bad (FStatic B10 true 0 0 NegativeOnly false) r /\ int_text (silent_sep r) = [42; 49; 50; 51; 52; 53; 54; 55].
Proof. split; [|vm_compute; reflexivity]. intros [H|[H|H]]; vm_compute in H; try discriminate; apply H; reflexivity. Qed.
Example C39_ex :
  let f := FStatic B16 false 6 0 NegativeOnly true in let al := Some (mk_align 42 (12 * 65536) ACenter) in
  align_ok (align_of al) /\ opts_ok (opts_of f) /\ sep_ok F8 f (request_of F8 gs8 rep8 f al false S4 48879) /\
  int_text (request_of F8 gs8 rep8 f al false S4 48879) = [42;42;48;120;48;48;98;101;101;102;42;42].
Proof.
  cbv zeta. split; [split; [cbn; lia|vm_compute; split; discriminate]|]. split; [split; cbn; lia|].
  split; [left; reflexivity|vm_compute; reflexivity].
Qed.
(* fill_sign: the fill character stands for the positive sign *)
Example C39_ex_fill_sign :
  let f := FStatic B10 true 0 8 FillInsteadOfPositive false in let al := Some (mk_align 46 (12 * 65536) ARight) in
  option_map (fun p => ops_text (pr_ops p)) (int_print F8 f al true S4 12345) = Some [46;46;46;46;46;48;49;50;44;51;52;53].
Proof. vm_compute; reflexivity. Qed.
Print Assumptions C39_integer_text.
Print Assumptions C39_invalid_separator_refuted.

(* a pointer prints as "0x" and the hexadecimal digits of its address *)
Theorem C39_pointer : forall F gs rep address, facets_ok F gs rep -> 0 <= address < 2 ^ 64 ->
  exists p ds, voidptr_print F None address = Some p /\ repr 16 ds address /\
    ops_text (pr_ops p) = [48; if low_prefix (if_case F) then 120 else 88] ++ map (digit_char (low_digits (if_case F))) ds.
Proof.
  intros F gs rep a HF Ha.
  destruct (int_print_ok F gs rep (FNoPad B16 NegativeOnly true) None false S8 a HF Ha default_align_ok) as (p & E & (T & _) & _).
  { split; cbn; lia. }
  { right; right. unfold n_seps. apply below_none. reflexivity. }
  exists p, (digits 16 a). split; [exact E|]. split; [apply repr_digits; lia|]. rewrite T.
  destruct (plain_text (if_case F) false S8 a B16 NegativeOnly true (cs_encode (if_cs F) (if_sep F B16)) (boundary (gs B16) (rep B16))
    (cs_encode (if_cs F) 32) 0 ARight Ha) as (T' & _ & P' & D').
  unfold request_of. cbn [align_of default_align al_fill al_width al_align fmt_base opts_of]. rewrite round_zero. rewrite T'.
  rewrite Z.max_l by lia. rewrite padded_zero. f_equal. unfold dtext. do 2 f_equal.
  unfold magnitude, request; cbn [rq_base rq_value rq_bits o_base bval sbits]. change (16 =? 10) with false.
  apply Z.mod_small. exact Ha.
Qed.
Example C39_pointer_ex : option_map (fun p => ops_text (pr_ops p)) (voidptr_print F8 None 0xABC) = Some [48;120;97;98;99].
Proof. vm_compute; reflexivity. Qed.
Print Assumptions C39_pointer.

(* C40.  Full claim: for every destination with the contract, in every state, printing
   succeeds ([Some]: no access outside the buffer).  Proved for all formats but the two
   excluded by [reserves], for which it is false: (1) an unaligned decimal format with
   only a sign option, (2) base 2 with separators of one unit. *)
Theorem C40_no_overflow_partial : forall F gs rep f al sgn s v,
  facets_ok F gs rep -> in_int sgn (sbits s) v -> align_ok (align_of al) -> opts_ok (opts_of f) ->
  let r := request_of F gs rep f al sgn s v in
  sep_ok F f r -> reserves F f al r ->
  exists p, int_print F f al sgn s v = Some p /\ Forall op_wf (pr_ops p) /\
    forall S (ops : dest_ops S) R, full_laws ops R -> forall st t, R st t ->
    exists st', run ops st (pr_ops p) = Some st' /\ R st' (t ++ int_text r).
Proof.
  intros F gs rep f al sgn s v H1 H2 H3 H4 r H5 H6.
  destruct (int_print_ok F gs rep f al sgn s v H1 H2 H3 H4 H5) as (p & E & (T & _) & W). specialize (W H6).
  exists p. split; [exact E|]. split; [exact W|]. intros S ops R L st t HR.
  destruct (run_ok ops R L (pr_ops p) st t HR W) as (st' & E' & R'). rewrite T in R'. exists st'. auto.
Qed.
Example C40_ex : let f := FStatic B10 true 0 8 PositiveAlso false in let al := Some (mk_align 0x1F600 (12 * 65536) ARight) in
  let r := request_of F8 gs8 rep8 f al true S4 12345 in
  sep_ok F8 f r /\ reserves F8 f al r.
Proof. cbv zeta. split; [left; reflexivity|]. split; [intros; discriminate|intros; discriminate]. Qed.
(* (1) to_string( multi('-', 60), +dec(1000000) ): only one unit is reserved *)
Theorem C40_sign_only_refuted : exists v p,
  int_print F8 (FNoPad B10 PositiveAlso false) None true S4 v = Some p /\
  run smak_ops smak_init (OFill 60 45 :: pr_ops p) = None.
Proof. exists 1000000. eexists. split; vm_compute; reflexivity. Qed.
(* (2) to_string.with(numpunct<2>{4}.thousands_sep(','))( multi('-', 63), !bin(1000000) ) *)
Theorem C40_binary_grouped_refuted : exists v p,
  int_print F8 (FStatic B2 true 0 0 NegativeOnly false) None true S4 v = Some p /\
  run smak_ops smak_init (OFill 63 45 :: pr_ops p) = None.
Proof. exists 7340032. eexists. split; vm_compute; reflexivity. Qed.
(* and these are the only two: no other format fails to reserve *)
Theorem C40_only_two : forall F f al r, ~ reserves F f al r ->
  (al = None /\ exists sg sb, f = FNoPad B10 sg sb) \/ (fmt_base f = B2 /\ zlen (rq_sep r) = 1 /\ n_seps r <> 0).
Proof.
  intros F f al r H.
  destruct (ibase_eq_B2 (fmt_base f)) as [E|E].
  - destruct (Z.eq_dec (zlen (rq_sep r)) 1) as [E1|E1], (Z.eq_dec (n_seps r) 0) as [E2|E2];
      try (right; auto; fail); exfalso; apply H; (split; [|intros _; auto]);
      intros _ sg sb ->; discriminate.
  - left. destruct al as [a|]; [exfalso; apply H; split; [discriminate|contradiction]|]. split; [reflexivity|].
    destruct f as [|b sg sb|b p' pr pd sg sb|n pr pd sg sb p']; try (exfalso; apply H; split; [discriminate|contradiction]).
    destruct (ibase_cases b) as [->|Hb]; [eauto|]. exfalso. apply H. split; [|contradiction]. intros _ sg' sb' X. injection X. intros; congruence.
Qed.
Print Assumptions C40_no_overflow_partial.
Print Assumptions C40_sign_only_refuted.
Print Assumptions C40_binary_grouped_refuted.
Print Assumptions C40_only_two.

(* C42 for integers: premeasured size and width *)
Theorem C42_integer : forall F gs rep f al sgn s v,
  facets_ok F gs rep -> in_int sgn (sbits s) v -> align_ok (align_of al) -> opts_ok (opts_of f) ->
  sep_ok F f (request_of F gs rep f al sgn s v) ->
  exists p, int_print F f al sgn s v = Some p /\ pr_size p = zlen (ops_text (pr_ops p)) /\
    pr_width p = int_text_width (request_of F gs rep f al sgn s v).
Proof.
  intros F gs rep f al sgn s v H1 H2 H3 H4 H5.
  destruct (int_print_ok F gs rep f al sgn s v H1 H2 H3 H4 H5) as (p & E & (T & S & W) & _). exists p. rewrite T. auto.
Qed.
(* the size is right with any separator; the width counts one column for each separator that is due, even
   if it cannot be encoded *)
Theorem C42_integer_size : forall F gs rep f al sgn s v,
  facets_ok F gs rep -> in_int sgn (sbits s) v -> align_ok (align_of al) -> opts_ok (opts_of f) ->
  exists p, int_print F f al sgn s v = Some p /\ pr_size p = zlen (ops_text (pr_ops p)) /\
    pr_width p = int_text_width (request_of F gs rep f al sgn s v).
Proof.
  intros F gs rep f al sgn s v H1 H2 H3 H4. set (r := request_of F gs rep f al sgn s v).
  assert (D : sep_ok F f r \/ ~ sep_ok F f r) by (unfold sep_ok; lia). destruct D as [D|D].
  - exact (C42_integer F gs rep f al sgn s v H1 H2 H3 H4 D).
  - destruct (int_print_bad_sep F gs rep f al sgn s v H1 H2 H3 H4 D) as (p & E & (T & S & W) & _). exists p. rewrite T. auto.
Qed.
(* so the width announced is not always that of the text: here all the characters printed are ASCII *)
Theorem C42_width_refuted : exists F gs rep al v p,
  facets_ok F gs rep /\ align_ok al /\
  int_print F (FStatic B10 true 0 0 NegativeOnly false) (Some al) true S4 v = Some p /\
  Forall (fun c => 0 <= c < 128) (ops_text (pr_ops p)) /\ pr_width p <> zlen (ops_text (pr_ops p)).
Proof.
  exists F8bad, (fun _ => [3]), (fun _ => true), (mk_align 42 (10 * 65536) ARight), 1234567. eexists.
  split; [split; [apply utf_charset_ok|intros b; split; [split; [repeat constructor; lia|cbn; lia]|split; [discriminate|reflexivity]]|intros; cbn; lia]|].
  split; [split; [cbn; lia|vm_compute; split; discriminate]|].
  split; [vm_compute; reflexivity|]. split; [vm_compute; repeat constructor; discriminate|vm_compute; discriminate].
Qed.
Example C42_integer_ex : option_map (fun p => (pr_size p, pr_width p, zlen (ops_text (pr_ops p))))
  (int_print F8 (FStatic B10 true 0 8 PositiveAlso false) (Some (mk_align 0x1F600 (12 * 65536) ARight)) true S4 12345) = Some (24, 12, 24).
Proof. vm_compute; reflexivity. Qed.
Print Assumptions C42_integer.
Print Assumptions C42_integer_size.
Print Assumptions C42_width_refuted.
Print Assumptions C39_invalid_separator_exact_partial.

(* C41.  What each call should do to the options. *)
Definition opt_call (o : int_opts) (c : fmt_call) : int_opts :=
  match c with
  | CHex => mk_opts 16 (o_prec o) (o_pad0 o) (o_sign o) (o_showbase o) (o_punct o)
  | CDec => mk_opts 10 (o_prec o) (o_pad0 o) (o_sign o) (o_showbase o) (o_punct o)
  | COct => mk_opts 8 (o_prec o) (o_pad0 o) (o_sign o) (o_showbase o) (o_punct o)
  | CBin => mk_opts 2 (o_prec o) (o_pad0 o) (o_sign o) (o_showbase o) (o_punct o)
  | CBase n => mk_opts (if n =? 16 then 16 else if n =? 8 then 8 else if n =? 2 then 2 else 10)
                 (o_prec o) (o_pad0 o) (o_sign o) (o_showbase o) (o_punct o)
  | CPrec n => mk_opts (o_base o) n (o_pad0 o) (o_sign o) (o_showbase o) (o_punct o)
  | CPad0 n => mk_opts (o_base o) (o_prec o) n (o_sign o) (o_showbase o) (o_punct o)
  | CPlus => mk_opts (o_base o) (o_prec o) (o_pad0 o) PositiveAlso (o_showbase o) (o_punct o)
  | CFillSign => mk_opts (o_base o) (o_prec o) (o_pad0 o) FillInsteadOfPositive (o_showbase o) (o_punct o)
  | CShowBase => mk_opts (o_base o) (o_prec o) (o_pad0 o) (o_sign o) true (o_punct o)
  | CPunct => mk_opts (o_base o) (o_prec o) (o_pad0 o) (o_sign o) (o_showbase o) true
  end.
(* base(n) is used only before precision(), pad0() and punct() *)
Fixpoint base_first (f : int_fmt) (cs : list fmt_call) : Prop :=
  match cs with
  | [] => True
  | c :: cs' => (match c, f with CBase _, FStatic _ _ _ _ _ _ => False | _, _ => True end) /\
                forall f', call f c = Some f' -> base_first f' cs'
  end.
Theorem C41_options_partial : forall cs f f', base_first f cs -> calls f cs = Some f' ->
  opts_of f' = fold_left opt_call cs (opts_of f).
Proof.
  assert (One : forall c f f', (match c, f with CBase _, FStatic _ _ _ _ _ _ => False | _, _ => True end) ->
     call f c = Some f' -> opts_of f' = opt_call (opts_of f) c).
  { intros c f f' Hb H.
    destruct c, f as [|b sg sb|b p pr pd sg sb|n' pr pd sg sb p]; cbn [call set_base] in H; try contradiction;
      repeat match type of H with context [match ?b with B2 => _ | B8 => _ | B10 => _ | B16 => _ end] => destruct b end;
      try discriminate; injection H as <-; cbn [opts_of opt_call o_base o_prec o_pad0 o_sign o_showbase o_punct bval]; try reflexivity;
      rewrite dyn_bval; reflexivity. }
  induction cs as [|c cs IH]; intros f f' Hb H; cbn [calls] in H.
  - injection H as <-. reflexivity.
  - destruct (call f c) as [f1|] eqn:E; [|discriminate]. cbn [obind] in H. destruct Hb as [H1 H2].
    cbn [fold_left]. rewrite <- (One c f f1 H1 E). apply IH; [apply H2; exact E|exact H].
Qed.
Theorem C41_static_bases : forall cs f f', Forall (fun c => match c with CBase _ => False | _ => True end) cs ->
  calls f cs = Some f' -> opts_of f' = fold_left opt_call cs (opts_of f).
Proof.
  intros cs f f' H. apply C41_options_partial. revert f. induction H as [|c cs Hc H IH]; intros f; [exact I|].
  split; [destruct c; try contradiction; exact I|intros; apply IH].
Qed.
(* base(n) after precision: precision, pad0, sign and showbase are lost (int.hpp:777-790) *)
Theorem C41_base_refuted : exists cs f, calls FDefault cs = Some f /\ opts_of f <> fold_left opt_call cs (opts_of FDefault).
Proof. exists [CPrec 5; CBase 16]. eexists. split; [reflexivity|]. cbn. discriminate. Qed.
(* exactly what base(n) does: on a format that has gone through precision(), pad0() or
   punct() the four options are reset, on any other it sets the base only; so
   the sequence misbehaves only there, and only if one of the four was set *)
Theorem C41_base_exact : forall f n f', call f (CBase n) = Some f' ->
  opts_of f' = (let o := match f with
                         | FStatic _ p _ _ _ _ => mk_opts (o_base (opts_of f)) 0 0 NegativeOnly false p
                         | _ => opts_of f end in opt_call o (CBase n)) /\
  (opts_of f' = opt_call (opts_of f) (CBase n) <->
   (forall b p pr pd s sb, f = FStatic b p pr pd s sb -> pr = 0 /\ pd = 0 /\ s = NegativeOnly /\ sb = false)).
Proof.
  intros f n f' H. assert (D : bval (dyn_base n) = (if n =? 16 then 16 else if n =? 8 then 8 else if n =? 2 then 2 else 10)).
  { unfold dyn_base. destruct (n =? 16), (n =? 8), (n =? 2); reflexivity. }
  destruct f as [|b sg sb|b p pr pd sg sb|n' pr pd sg sb p]; cbn [call] in H; injection H as <-; cbn [opts_of opt_call o_base o_prec o_pad0 o_sign o_showbase o_punct];
    rewrite D; (split; [reflexivity|]).
  1,2,4: split; [discriminate|reflexivity].
  split; [intros H b' p' pr' pd' s' sb' X; injection X as <- <- <- <- <- <-; injection H as <- <- <- <-; auto|].
  intros H. destruct (H _ _ _ _ _ _ eq_refl) as (-> & -> & -> & ->). reflexivity.
Qed.
Print Assumptions C41_base_exact.
Example C41_ex : calls FDefault [CHex; CPrec 5; CShowBase; CPunct; COct] = Some (FStatic B8 true 5 0 NegativeOnly true).
Proof. reflexivity. Qed.
Print Assumptions C41_options_partial.
Print Assumptions C41_static_bases.
Print Assumptions C41_base_refuted.
