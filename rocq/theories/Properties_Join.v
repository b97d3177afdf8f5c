(* C45, C46, C47, C56: joins, premeasurements, characters and booleans, to_string.
   See Properties_Print for the vocabulary. *)
From Coq Require Import Permutation.
From Verif Require Import Base WidthModel WidthProofs DestModel DestProofs UtfSpec UtfForms UtfTheorems
  CharsetModel SbcsModel CsetModel CsetProofs Properties_Pivot WCalcModel
  GroupSpec GroupModel GroupProofs DigitsModel DigitsProofs IntSpec IntModel IntProofs
  PrintModel StringModel ToModel PrintSpec StringSpec PrintProofs SegProofs StringProofs CharProofs JoinProofs ToProofs Properties_Print.

(* ------------------------------------------------------------------ *)
(* C45: joins *)
Theorem C45_join : forall M args ds, Forall2 (arg_ok M) args ds -> arg_ok M (join_arg args) (join_desc ds).
Proof. exact join_arg_ok. Qed.
(* An aligned join, printed directly: the arguments must be measurable up to its width. *)
Theorem C45_aligned_join_prints : forall b al args ds, is_cset b -> align_ok al ->
  Forall2 (arg_ok (Some (al_width al))) args ds ->
  let W := sumZ (map d_width ds) in
  let text := padded (al_align al) (cs_encode (charset_of b) (al_fill al)) (missing (al_width al) W) (concat (map d_text ds)) in
  sumZ (map d_peak ds) <= u_max \/ Z.max (al_width al) 0 + sumZ (map d_need ds) <= u_max ->
  exists pr, aligned_join_arg b al args no_pre = Some (no_pre, pr) /\ prints_text pr text.
Proof. exact aligned_join_direct. Qed.
(* Measured with limits up to M: join_room bounds the widths so that nothing overflows.
   Missing: negative widths (not when printed directly, above), and limits or widths near width_max. *)
Theorem C45_aligned_join_partial : forall M b al args ds, is_cset b -> align_ok al -> 0 <= al_width al ->
  Forall2 (arg_ok (join_limit M (al_width al))) args ds -> join_room M (al_width al) ds ->
  zlen (d_text (aligned_join_desc b al ds)) < ssize_max ->
  arg_ok M (aligned_join_arg b al args) (aligned_join_desc b al ds).
Proof. exact aligned_join_ok. Qed.
(* for instance when everything is below 8000 columns *)
Theorem C45_join_room : forall M aw ds, 0 <= aw <= 8000 * 65536 -> M <= 8000 * 65536 ->
  Forall (fun d => 0 <= d_width d <= d_peak d /\ 0 <= d_need d) ds ->
  sumZ (map d_peak ds) <= 8000 * 65536 -> join_room (Some M) aw ds /\ join_room None aw ds.
Proof.
  intros M aw ds Ha HM HN HP. destruct (join_nonneg ds HN) as [N1 N2]. pose proof (missing_bounds aw (d_width (join_desc ds))) as HB.
  assert (d_peak (join_desc ds) = sumZ (map d_peak ds)) as EP by reflexivity. rewrite <- EP in HP. unfold join_room, u_max. cbv zeta. lia.
Qed.
Definition ascii (s : list Z) : arg := string_arg FastWidth NoTranscode (Utf U8) (Utf U8) true None None s.
Lemma ascii_ok M s : Forall (fun c => 0 <= c < 128) s -> arg_ok M (ascii s) (string_desc FastWidth None (65536 * zlen s) s).
Proof.
  intros HS. assert (unit_text (Utf U8) s) as HU by (eapply Forall_impl; [|exact HS]; cbv beta; intros c Hc; cbn; lia).
  destruct (segmented_exists (Utf U8) s I HU) as [l HL].
  assert (seg_width FastWidth l = 65536 * zlen s) as <- by (unfold seg_width; rewrite (segmented_units _ _ _ HL); reflexivity).
  apply string_plain_ok with (l := l) (k := s).
  - split; [exact I|]. split; [exact I|]. split; [exact HU|]. split; exact I.
  - exact HL.
  - left. auto.
  - reflexivity.
Qed.
(* the width limit of a default premeasurements object is width_max: an aligned join is
   then measured wrong, or its measuring overflows *)
Theorem C45_measured_refuted :
  let al10 := mk_align 32 (10 * 65536) ARight in let al2 := mk_align 32 (2 * 65536) ARight in
  (* join_right(10)("a") is 10 columns wide, 1 is added *)
  (option_map fst (aligned_join_arg (Utf U8) al10 [ascii [97]] (mk_pre None (Some (u_max, 0)))) = Some (mk_pre None (Some (u_max, 65536))) /\
   d_width (aligned_join_desc (Utf U8) al10 [string_desc FastWidth None 65536 [97]]) = 10 * 65536 /\
   arg_ok (Some u_max) (ascii [97]) (string_desc FastWidth None 65536 [97])) /\
  (* join_right(2)("abc") overflows *)
  aligned_join_arg (Utf U8) al2 [ascii [97; 98; 99]] (mk_pre None (Some (u_max, 0))) = None.
Proof.
  split; [|vm_compute; reflexivity]. split; [vm_compute; reflexivity|]. split; [vm_compute; reflexivity|].
  apply (ascii_ok (Some u_max) [97]). repeat constructor; lia.
Qed.
Example C45_ex : let al := mk_align 42 (12 * 65536) ACenter in let ds := map (fun s => string_desc FastWidth None (65536 * zlen s) s) [[97; 98]; [99]; []] in
  Forall2 (arg_ok (Some (100 * 65536))) (map ascii [[97; 98]; [99]; []]) ds /\ join_room (Some (100 * 65536)) (al_width al) ds /\
  zlen (d_text (aligned_join_desc (Utf U8) al ds)) < ssize_max /\
  to_string true [aligned_join_arg (Utf U8) al (map ascii [[97; 98]; [99]; []]); ascii [100]] =
    Some [42; 42; 42; 42; 97; 98; 99; 42; 42; 42; 42; 42; 100; 10].
Proof.
  cbv zeta. split; [|split; [|split; vm_compute; reflexivity]].
  - cbn [map]. repeat (apply Forall2_cons; [apply ascii_ok; repeat constructor; lia|]). apply Forall2_nil.
  - apply C45_join_room; [cbn; lia|lia| |cbn; lia]. cbn [map]. repeat constructor; cbn; lia.
Qed.
Print Assumptions C45_join.
Print Assumptions C45_aligned_join_prints.
Print Assumptions C45_aligned_join_partial.
Print Assumptions C45_join_room.
Print Assumptions C45_measured_refuted.

(* ------------------------------------------------------------------ *)
(* C46: measure(pre, args...), the arguments being measured in any order *)
Theorem C46_measured : forall M args ds order, Forall2 (arg_ok M) args ds -> Permutation args order ->
  forall p, pre_ok M p (join_desc ds) ->
  exists p', measure order p = Some p' /\
    accumulated_size p' = match p_size p with None => 0 | Some n => (n + zlen (concat (map d_text ds))) mod 2 ^ 64 end /\
    match p_width p with
    | None => p_width p' = None
    | Some (limit, x) =>
        accumulated_width p' = Z.min limit (x + sumZ (map d_width ds)) /\
        (forall limit' x', p_width p' = Some (limit', x') -> x' <= u_max ->
           remaining_width p' = Some (Z.max 0 (limit - (x + sumZ (map d_width ds))))) /\
        has_remaining_width p' = (x + sumZ (map d_width ds) <? limit)
    end.
Proof.
  intros M args ds order HA HP p Hp. destruct (measure_perm M args ds order HA HP p Hp) as (p' & E & HAd). exists p'. split; [exact E|].
  destruct (join_nonneg ds (args_nonneg _ _ _ HA)) as [N1 _]. split.
  - destruct HAd as [HS _]. unfold accumulated_size. rewrite HS. destruct (p_size p); reflexivity.
  - destruct Hp as [_ Hw]. destruct (p_width p) as [[limit x]|] eqn:EW.
    + destruct Hw as (L1 & _ & Hx & _). destruct (added_accumulated p (join_desc ds) p' limit x EW L1 Hx ltac:(lia) HAd ltac:(unfold is_width in L1; lia)) as (A1 & A2 & A3).
      split; [exact A1|]. split; [|exact A3]. intros l' x' E' Hx'. apply A2. rewrite E'. exact Hx'.
    + destruct HAd as [_ HAd]. rewrite EW in HAd. destruct (p_width p'); [contradiction|reflexivity].
Qed.
(* the premeasurements of an object just made, as the printing functions use them *)
Theorem C46_size_exact : forall M args ds order, Forall2 (arg_ok M) args ds -> Permutation args order ->
  zlen (concat (map d_text ds)) < 2 ^ 64 ->
  option_map accumulated_size (measure order (mk_pre (Some 0) None)) = Some (zlen (concat (map d_text ds))) /\
  (* what is printed has that size *)
  prints_text (print_printables args) (concat (map d_text ds)).
Proof.
  intros M args ds order HA HP HZ. split; [|apply (print_printables_ok M); exact HA].
  destruct (C46_measured M args ds order HA HP (mk_pre (Some 0) None)) as (p' & E & HS & _); [split; [cbn; lia|exact I]|]. rewrite E. cbn [option_map]. rewrite HS. cbn [p_size].
  rewrite Z.add_0_l, Z.mod_small; [reflexivity|]. split; [apply zlen_nonneg|exact HZ].
Qed.
Theorem C46_width_exact : forall limit args ds order, is_width limit -> Forall2 (arg_ok (Some limit)) args ds -> Permutation args order ->
  sumZ (map d_peak ds) <= u_max \/ Z.max limit 0 + sumZ (map d_need ds) <= u_max ->
  exists p', measure order (mk_pre None (Some (limit, 0))) = Some p' /\
    accumulated_width p' = Z.min limit (sumZ (map d_width ds)) /\
    remaining_width p' = Some (Z.max 0 (limit - sumZ (map d_width ds))).
Proof.
  intros limit args ds order HL HA HP HR.
  assert (pre_ok (Some limit) (mk_pre None (Some (limit, 0))) (join_desc ds)) as Hp.
  { split; [exact I|]. cbn [p_width within]. split; [exact HL|]. split; [lia|]. split; [unfold u_max; lia|exact HR]. }
  destruct (measure_perm (Some limit) args ds order HA HP _ Hp) as (p' & E & HAd). exists p'. split; [exact E|].
  destruct (join_nonneg ds (args_nonneg _ _ _ HA)) as [N1 N2].
  destruct (added_accumulated (mk_pre None (Some (limit, 0))) (join_desc ds) p' limit 0 eq_refl HL ltac:(unfold u_max; lia) ltac:(lia) HAd ltac:(unfold is_width in HL; lia)) as (A1 & A2 & _).
  rewrite Z.add_0_l in A1, A2. split; [exact A1|]. apply A2. destruct HAd as [_ HAd]. cbn [p_width] in HAd. destruct (p_width p') as [[l' x']|]; [|exact I]. unfold join_desc in *. cbn [d_width d_peak d_need] in *. lia.
Qed.
(* the accumulator is an int32 that is only compared with the limit afterwards: two
   arguments may overflow it *)
Theorem C46_overflow_refuted : exists args ds, Forall2 (arg_ok (Some (10 * 65536))) args ds /\
  make_printers args (mk_pre None (Some (10 * 65536, 0))) = None.
Proof.
  set (al := mk_align 32 (30000 * 65536) ARight). set (d := aligned_desc FastWidth (Utf U8) al None 65536 [97]).
  set (a := string_arg FastWidth NoTranscode (Utf U8) (Utf U8) true (Some al) None [97]).
  exists [a; a], [d; d]. split.
  - assert (arg_ok (Some (10 * 65536)) a d) as H.
    { destruct (segmented_exists (Utf U8) [97] I ltac:(repeat constructor; cbn; lia)) as [l HL].
      apply (string_aligned_ok (Some (10 * 65536)) FastWidth NoTranscode (Utf U8) (Utf U8) true al None [97] l [97] 65536 [97]).
      - split; [exact I|]. split; [exact I|]. split; [repeat constructor; cbn; lia|]. split; exact I.
      - exact HL.
      - split; [cbn; lia|unfold is_width, u_min, u_max; cbn; lia].
      - left. split; [reflexivity|]. split; [reflexivity|]. unfold seg_width. rewrite (segmented_units _ _ _ HL). reflexivity.
      - reflexivity.
      - vm_compute. reflexivity. }
    constructor; [exact H|constructor; [exact H|constructor]].
  - vm_compute. reflexivity.
Qed.
Example C46_ex : let args := [ascii [97; 98]; ascii [99]; bool_arg LLower true] in
  let ds := [string_desc FastWidth None 131072 [97; 98]; string_desc FastWidth None 65536 [99]; whole (bool_text LLower true) (65536 * 4)] in
  Forall2 (arg_ok (Some (100 * 65536))) args ds /\
  (sumZ (map d_peak ds) <= u_max) /\
  measure args (mk_pre (Some 5) (Some (100 * 65536, 0))) = Some (mk_pre (Some 12) (Some (100 * 65536, 7 * 65536))).
Proof.
  cbv zeta. split; [|split; [vm_compute; discriminate|vm_compute; reflexivity]].
  repeat (apply Forall2_cons; [apply bool_arg_ok || (apply ascii_ok; repeat constructor; lia)|]). apply Forall2_nil.
Qed.
Print Assumptions C46_measured.
Print Assumptions C46_size_exact.
Print Assumptions C46_width_exact.
Print Assumptions C46_overflow_refuted.

(* ------------------------------------------------------------------ *)
(* C47: characters and booleans *)
(* [c]: a code unit of the destination charset; its width is that of the one-unit text *)
Theorem C47_char : forall M w b c l, is_cset b -> unit_text b [c] -> segmented b [c] l ->
  arg_ok M (char_arg w b c) (whole [c] (seg_width w l)).
Proof. exact char_arg_ok. Qed.
(* multi(c, count) with a width and a fill character *)
Theorem C47_formatted_char : forall M w b al count c l, is_cset b -> unit_text b [c] -> segmented b [c] l ->
  align_ok al -> al_width al <= 32767 * 65536 -> 0 <= count ->
  let W := seg_width w l * count in let m := missing (al_width al) W in
  let text := padded (al_align al) (cs_encode (charset_of b) (al_fill al)) m (repeat c (Z.to_nat count)) in
  zlen text < ssize_max -> arg_ok M (fmt_char_arg w b al count c) (whole text (W + 65536 * m)).
Proof. exact fmt_char_arg_ok. Qed.
(* a char32_t printed in another character type: its encoding in the destination charset *)
Theorem C47_char32 : forall M w b c l, is_cset b -> 0 <= c < 2 ^ 32 -> segmented (Utf U32) [c] l ->
  arg_ok M (char32_arg w b c) (whole (cs_encode (charset_of b) c) (seg_width w l)).
Proof. exact char32_arg_ok. Qed.
Theorem C47_formatted_char32 : forall M w b al count c l, is_cset b -> 0 <= c < 2 ^ 32 -> segmented (Utf U32) [c] l ->
  align_ok al -> al_width al <= 32767 * 65536 -> 0 <= count ->
  let W := seg_width w l * count in let m := missing (al_width al) W in
  let text := padded (al_align al) (cs_encode (charset_of b) (al_fill al)) m (concat (repeat (cs_encode (charset_of b) c) (Z.to_nat count))) in
  zlen text < ssize_max -> arg_ok M (fmt_char32_arg w b al count c) (whole text (W + 65536 * m)).
Proof. exact fmt_char32_arg_ok. Qed.
Theorem C47_bool : forall M lc x, arg_ok M (bool_arg lc x) (whole (bool_text lc x) (65536 * zlen (bool_text lc x))).
Proof. intros M lc x. rewrite (proj1 (bool_size_text lc x)). apply bool_arg_ok. Qed.
Theorem C47_formatted_bool : forall M lc b al x, is_cset b -> align_ok al -> al_width al <= 32767 * 65536 ->
  let W := 65536 * zlen (bool_text lc x) in let m := missing (al_width al) W in
  arg_ok M (fmt_bool_arg lc b al x)
    (whole (padded (al_align al) (cs_encode (charset_of b) (al_fill al)) m (bool_text lc x)) (W + 65536 * m)).
Proof. intros M lc b al x HB HA HC. rewrite (proj1 (bool_size_text lc x)). apply fmt_bool_arg_ok; assumption. Qed.
(* integers (C35-C42) as arguments *)
Theorem C47_integer : forall M F gs rep f al sgn s v,
  facets_ok F gs rep -> in_int sgn (sbits s) v -> align_ok (align_of al) -> opts_ok (opts_of f) ->
  let r := request_of F gs rep f al sgn s v in sep_ok F f r -> reserves F f al r -> 0 <= int_text_width r <= 32767 ->
  arg_ok M (of_printed (int_print F f al sgn s v)) (whole (int_text r) (65536 * int_text_width r)).
Proof. exact int_arg_ok. Qed.
(* a negative count is undefined behaviour *)
Theorem C47_negative_count_refuted : exists count, to_string false [fmt_char_arg FastWidth (Utf U8) (mk_align 32 0 ARight) count 97] = None.
Proof. exists (-1). vm_compute. reflexivity. Qed.
(* and so is every other: whatever the character, the format and the destination *)
Theorem C47_negative_count_exact_partial : forall w b al count c p p' pr, count < 0 -> fmt_char_arg w b al count c p = Some (p', pr) -> forall S (ops : dest_ops S) s, pr S ops s = None.
Proof.
  intros w b al count c p p' pr HC E S ops s. unfold fmt_char_arg in E. destruct (wc_char_width w b c) as [cw|]; [|discriminate]. cbn [obind] in E.
  destruct (char_widths al cw count p) as [[p1 fc]|]; [|discriminate]. cbn [obind] in E. destruct (split_fill (al_align al) fc) as [lf rf].
  destruct (add_size_if _ p1) as [p2|]; [|discriminate]. cbn [obind] in E. injection E as _ <-. unfold p_seq.
  destruct (p_fill (charset_of b) lf (al_fill al) S ops s) as [s1|]; [|reflexivity]. cbn [obind]. unfold p_char.
  replace (count =? 1) with false by lia. unfold fill_all. replace (count <? 0) with true by lia. reflexivity.
Qed.
Print Assumptions C47_negative_count_exact_partial.
(* a char32_t printed in another character type: undefined too when the destination's charset is a single-byte one;
   with UTF only the fill characters are printed, and they make up for the negative width *)
Theorem C47_negative_char32_exact_partial : forall w b al count c l p p' pr, is_cset b -> 0 <= c < 2 ^ 32 -> segmented (Utf U32) [c] l -> align_ok al ->
  count < 0 -> fmt_char32_arg w b al count c p = Some (p', pr) ->
  match b with
  | Sb _ _ => forall S (ops : dest_ops S) s, pr S ops s = None
  | Utf _ => prints_text pr (concat (repeat (cs_encode (charset_of b) (al_fill al)) (Z.to_nat (missing (al_width al) (Z.max u_min (seg_width w l * count))))))
  end.
Proof. exact fmt_char32_negative. Qed.
Print Assumptions C47_negative_char32_exact_partial.
(* right(2) of -3 times 'x': five spaces; and undefined towards Windows-1252 *)
Example C47_negative_char32_ex :
  to_string false [fmt_char32_arg FastWidth (Utf U8) (mk_align 32 (2 * 65536) ARight) (-3) 120] = Some [32; 32; 32; 32; 32] /\
  to_string false [fmt_char32_arg FastWidth (Sb 18 SbcsTables.windows_1252) (mk_align 32 (2 * 65536) ARight) (-3) 120] = None.
Proof. vm_compute. split; reflexivity. Qed.
Example C47_ex : segmented (Utf U8) [97] [(97, [97])] /\
  to_string false [fmt_char_arg FastWidth (Utf U8) (mk_align 0x20AC (5 * 65536) ARight) 2 97; bool_arg LMixed false;
                   fmt_bool_arg LUpper (Utf U8) (mk_align 46 (6 * 65536) ACenter) true; char32_arg StdWidth (Utf U8) 0x65E5] =
  Some ([0xE2; 0x82; 0xAC; 0xE2; 0x82; 0xAC; 0xE2; 0x82; 0xAC; 97; 97] ++ [70; 97; 108; 115; 101] ++ [46; 84; 82; 85; 69; 46] ++ [0xE6; 0x97; 0xA5]).
Proof.
  split; [|vm_compute; reflexivity]. exists [Good 97]. split; [|reflexivity]. apply (items_encode U8 false [97]); [discriminate|]. constructor; [|constructor]. split; [lia|right; reflexivity].
Qed.
Print Assumptions C47_char.
Print Assumptions C47_formatted_char.
Print Assumptions C47_char32.
Print Assumptions C47_formatted_char32.
Print Assumptions C47_bool.
Print Assumptions C47_formatted_bool.
Print Assumptions C47_integer.
Print Assumptions C47_negative_count_refuted.

(* ------------------------------------------------------------------ *)
(* C56: what is returned does not depend on the reserve policy, nor on the order in which
   the printers are made *)
Theorem C56_to_string : forall M (eol : bool) args ds, Forall2 (arg_ok M) args ds ->
  let text := concat (map d_text ds) ++ (if eol then [10] else []) in
  to_string eol args = Some text /\
  (forall n, to_string_reserve n eol args = Some text) /\
  (forall todo, Permutation (combine (seq 0 (length args)) args) todo -> to_string_calc eol args todo = Some text).
Proof.
  intros M eol args ds HA text. split; [|split].
  - unfold to_string. destruct (proj1 (print_args_ok M eol args ds HA) smak smak_ops smak_R smak_laws smak_init []) as (s & E & HR); [repeat split; cbn; lia|].
    rewrite E. cbn [obind]. f_equal. apply (smak_finish_ok _ _ HR).
  - intros n. unfold to_string_reserve. destruct (proj1 (print_args_ok M eol args ds HA) szmk szmk_ops szmk_R szmk_laws (szmk_init n) [] (szmk_init_R n)) as (s & E & HR).
    rewrite E. cbn [obind]. f_equal. exact (proj2 HR).
  - intros todo HP. unfold to_string_calc. destruct (calc_ok M eol args ds todo HA HP) as (pr & E & HPr). rewrite E. cbn [obind fst snd].
    destruct (proj1 HPr szmk szmk_ops szmk_R szmk_laws (szmk_init (Z.to_nat (zlen (concat (map d_text ds) ++ eol_text eol) mod 2 ^ 64))) [] (szmk_init_R _)) as (s & E2 & HR).
    rewrite E2. cbn [obind]. f_equal. exact (proj2 HR).
Qed.
Theorem C56_append : forall M str (eol : bool) args ds, Forall2 (arg_ok M) args ds ->
  let text := concat (map d_text ds) ++ (if eol then [10] else []) in
  append_to str eol args = Some (str ++ text) /\
  (forall todo, Permutation (combine (seq 0 (length args)) args) todo -> append_calc str eol args todo = Some (str ++ text)).
Proof.
  intros M str eol args ds HA text. split.
  - unfold append_to. destruct (proj1 (print_args_ok M eol args ds HA) sapp sapp_ops (sapp_R str) (sapp_laws str) (sapp_init str) []) as (s & E & HR); [repeat split; cbn; lia|].
    rewrite E. cbn [obind]. f_equal. exact (sapp_finish_ok _ _ _ HR).
  - intros todo HP. unfold append_calc. destruct (calc_ok M eol args ds todo HA HP) as (pr & E & HPr). rewrite E. cbn [obind fst snd].
    destruct (proj1 HPr sapp sapp_ops (sapp_R str) (sapp_laws str) (sapp_init str) []) as (s & E2 & HR); [repeat split; cbn; lia|].
    rewrite E2. cbn [obind]. f_equal. exact (sapp_finish_ok _ _ _ HR).
Qed.
(* the size given to create() with reserve_calc *)
Theorem C56_reserved_size : forall M (eol : bool) args ds todo, Forall2 (arg_ok M) args ds -> Permutation (combine (seq 0 (length args)) args) todo ->
  let text := concat (map d_text ds) ++ (if eol then [10] else []) in zlen text < 2 ^ 64 ->
  option_map fst (calc_and_print eol args todo) = Some (zlen text).
Proof.
  intros M eol args ds todo HA HP text HZ. destruct (calc_ok M eol args ds todo HA HP) as (pr & E & _). rewrite E. cbn [option_map fst]. f_equal.
  apply Z.mod_small. split; [apply zlen_nonneg|exact HZ].
Qed.
Example C56_ex : let args := [ascii [97; 98]; bool_arg LLower false; ascii [99]] in
  Forall2 (arg_ok None) args [string_desc FastWidth None 131072 [97; 98]; whole (bool_text LLower false) (65536 * 5); string_desc FastWidth None 65536 [99]] /\
  to_string_calc true args [(2%nat, ascii [99]); (0%nat, ascii [97; 98]); (1%nat, bool_arg LLower false)] = Some [97; 98; 102; 97; 108; 115; 101; 99; 10].
Proof.
  cbv zeta. split; [|vm_compute; reflexivity]. repeat (apply Forall2_cons; [apply bool_arg_ok || (apply ascii_ok; repeat constructor; lia)|]). apply Forall2_nil.
Qed.
Print Assumptions C56_to_string.
Print Assumptions C56_append.
Print Assumptions C56_reserved_size.
