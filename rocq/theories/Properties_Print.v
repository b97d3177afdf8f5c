(* C43-C47, C56: strings, characters, booleans, joins, premeasurements, to_string.
   Vocabulary (PrintSpec, StringSpec): [arg_ok M a d]: whatever is premeasured (width limits
   up to M) making the printer of argument a succeeds, the printer prints exactly d_text d
   on any destination, and the size and width added are those of d. *)
From Coq Require Import Permutation.
From Verif Require Import Base WidthModel WidthProofs DestModel DestProofs UtfSpec UtfForms UtfLoop UtfTheorems Properties_Utf
  CharsetModel SbcsTables SbcsModel SbcsProofs CsetModel CsetProofs Properties_Pivot
  DigitsModel DigitsProofs IntSpec IntModel IntProofs GcbTable GcbSpec WCalcModel GcbCheck WCalcProofs Properties_WCalc
  PrintModel StringModel ToModel PrintSpec StringSpec PrintProofs SegProofs StringProofs CharProofs JoinProofs ToProofs.

(* ------------------------------------------------------------------ *)
(* C43: aligned strings.  Every text has a segmentation and a rendering. *)
Theorem C43_segmented_exists : forall a src, is_cset a -> unit_text a src -> exists l, segmented a src l /\ seg_units l = src.
Proof. intros a src HA HU. destruct (segmented_exists a src HA HU) as [l HL]. exists l. split; [exact HL|]. eapply segmented_units, HL. Qed.
Lemma encoded_exists b cp : is_cset b -> 0 <= cp -> exists out, encoded_in b cp out.
Proof.
  destruct b as [g|j cs]; intros HB Hc; cbn [encoded_in]; [eauto|].
  pose proof (encode_some cs _ (all_ok j cs HB) cp Hc) as E. eauto.
Qed.
Lemma text_in_nonneg a lax src cps : is_cset a -> unit_text a src -> text_in a lax src cps -> Forall (fun c => 0 <= c) cps.
Proof.
  destruct a as [f|i cs]; intros HA HU; cbn [text_in].
  - intros (its & HI & ->). clear HU HA. induction HI as [|cp rest its HV HL HR IH|bad rest its H1 H2 HR IH]; cbn [map cp_of]; constructor; auto; [|lia].
    destruct HV as [HV _]; lia.
  - revert cps. induction HU as [|c src Hc HF IH]; intros [|cp cps] E; try discriminate; constructor.
    + cbn [map] in E. injection E as E1 E2. rewrite (decode_some cs _ (all_ok i cs HA) c Hc) in E1. injection E1 as <-.
      pose proof (decoded_range cs _ (all_ok i cs HA) c Hc). lia.
    + cbn [map] in E. injection E as E1 E2. apply IH, E2.
Qed.
(* a string is copied as it is when no transcoding is asked for, or only if the charsets differ
   and they are the same *)
Theorem C43_when_copied : forall pol a b, is_cset a -> is_cset b ->
  (copied pol a b = true <-> pol = NoTranscode \/ ((pol = SaniIfDifferent \/ pol = Unsafe true) /\ a = b)).
Proof.
  intros pol a b HA HB. assert (cset_same a b = true <-> a = b) as HS.
  { destruct a as [f|i cs], b as [g|j cs']; cbn [cset_same]; [destruct f, g; split; (reflexivity || discriminate || congruence)|destruct f; split; discriminate|split; discriminate|].
    cbn [is_cset] in HA, HB. rewrite Nat.eqb_eq. split; [intros ->; congruence|congruence]. }
  destruct pol as [| | |d]; cbn [copied]; [tauto| | |destruct d; cbn [andb]]; rewrite ?HS; (split; [intros H; try discriminate H; right; auto|intros [C|[[C|C] E]]; (discriminate C || exact E)]).
Qed.
Print Assumptions C43_when_copied.
Theorem C43_rendered_exists : forall pol a b k, is_cset a -> is_cset b -> unit_text a k ->
  (is_unsafe pol = true -> well_formed_in a false k) -> exists t, rendered pol a b k t.
Proof.
  intros pol a b k HA HB HU HW. unfold rendered. destruct (copied pol a b); [eauto|].
  destruct (C28_text_exists a false k HA HU) as [cps HT]. pose proof (text_in_nonneg _ _ _ _ HA HU HT) as HN.
  assert (exists out, Forall2 (encoded_in b) cps out) as [out HO].
  { clear HT. induction HN as [|c cps Hc HF [out IH]]; [exists []; constructor|]. destruct (encoded_exists b c HB Hc) as [o Ho]. exists (o :: out). constructor; assumption. }
  exists (concat out). split; [exact HW|]. exists cps, out. auto.
Qed.
(* the fill character appears as its encoding in the destination charset *)
Theorem C43_fill_units : forall b c, is_cset b -> valid_cp false c -> encoded_in b c (cs_encode (charset_of b) c).
Proof.
  intros [f|j cs] c HB [Hc _]; cbn [encoded_in charset_of].
  - cbn [utf_charset cs_encode]. apply (proj1 (proj2 (C19_encode_char f c ltac:(lia)))). lia.
  - cbn [sb_charset cs_encode]. unfold sb_encode_char. rewrite (encode_some cs _ (all_ok j cs HB) c ltac:(lia)). exists (encoded cs c). split; [reflexivity|]. cbn [obind].
    pose proof (encoded_nonneg cs _ (all_ok j cs HB) c ltac:(lia)). destruct (Z.ltb_spec (encoded cs c) 0x100); cbn [negb]; [|reflexivity].
    f_equal. rewrite Z.mul_1_l, Z.mul_0_l, Z.add_0_r. rewrite (to_u_id 32) by (change (2 ^ 32) with 4294967296; lia). apply to_u8_id. lia.
Qed.

(* how the string of StringProofs is cut *)
Lemma cut_content w a b prec src l : string_pre w a b prec src -> segmented a src l ->
  exists k W, content w prec l k W /\ is_prefix k src /\
   (prec = None /\ k = src /\ W = seg_width w l \/
    exists p rest, prec = Some p /\ wc_width_and_pos w a p src = Some (W, rest) /\ k = kept src rest /\ 0 <= W).
Proof.
  intros (HA & HB & HU & HC & HPr) HS. destruct prec as [p|].
  - destruct HPr as [HP1 HP2]. destruct (wc_width_and_pos_ok w a p src l HA HU HS HC HP1 HP2) as (W & rest & E & E2 & HK & HW & _).
    exists (kept src rest), W. cbn [content]. split; [exact HK|]. split; [exists rest; exact E2|]. right. exists p, rest. repeat split; auto; lia.
  - exists src, (seg_width w l). cbn [content]. rewrite (segmented_units _ _ _ HS). split; [auto|]. split; [exists []; rewrite app_nil_r; reflexivity|]. left. auto.
Qed.
Theorem C43_aligned_string : forall w pol a b same al prec src l,
  string_pre w a b prec src -> align_ok al -> segmented a src l ->
  exists k W, content w prec l k W /\ is_prefix k src /\ forall t, rendered pol a b k t ->
    let m := missing (al_width al) W in
    let text := padded (al_align al) (cs_encode (charset_of b) (al_fill al)) m t in
    zlen text < ssize_max ->
    (* printed without premeasurements, by to(dest), to_string ... *)
    (exists pr, string_arg w pol a b same (Some al) prec src no_pre = Some (no_pre, pr) /\ prints_text pr text) /\
    (* and with any premeasurements *)
    (forall M, arg_ok M (string_arg w pol a b same (Some al) prec src) (aligned_desc w b al prec W t)).
Proof.
  intros w pol a b same al prec src l HP HA HS. destruct (cut_content w a b prec src l HP HS) as (k & W & HC & HPf & HK).
  exists k, W. split; [exact HC|]. split; [exact HPf|]. intros t HR m text HT.
  assert (forall M, arg_ok M (string_arg w pol a b same (Some al) prec src) (aligned_desc w b al prec W t)) as HArg.
  { intros M. destruct HP as (Ha & Hb & HU & HP'). apply string_aligned_ok with (l := l) (k := k); try assumption; [repeat split; try assumption; apply HP'|].
    apply rendered_middle; try assumption; [eapply unit_text_prefix; eassumption|].
    pose proof (missing_bounds (al_width al) W) as HM. unfold text in HT. rewrite padded_len in HT by (unfold m; lia). fold m in HM.
    pose proof (zlen_nonneg (cs_encode (charset_of b) (al_fill al))). nia. }
  split; [|exact HArg]. destruct (HArg None) as (_ & _ & H). destruct (H no_pre (no_pre_ok _ _)) as (p' & pr & E & HPr & HAdd). apply added_no_pre in HAdd. subst p'. eauto.
Qed.
(* [missing]: the nearest whole number of columns (half down), and none if already as wide *)
Theorem C43_missing : forall want have,
  (have < want -> -32768 <= 65536 * missing want have - (want - have) < 32768) /\
  (want <= have -> missing want have = 0) /\
  (forall n, 0 <= n -> missing (have + 65536 * n) have = n).
Proof.
  intros want have. unfold missing. split; [|split].
  - intros H. Z.to_euclidean_division_equations. lia.
  - intros H. Z.to_euclidean_division_equations. lia.
  - intros n Hn. replace (have + 65536 * n - have + 32767) with (32767 + n * 65536) by lia. rewrite Z.div_add by lia. cbn. lia.
Qed.
Theorem C43_fill_split : forall al m, 0 <= m -> left_fill al m + right_fill al m = m /\
  match al with ALeft => left_fill al m = 0 | ARight => right_fill al m = 0 | ACenter => 0 <= right_fill al m - left_fill al m <= 1 end.
Proof. intros al m H. unfold right_fill. destruct al; cbn [left_fill]; Z.to_euclidean_division_equations; lia. Qed.
(* a width that is not reached because of the precision: the standard calculator returns
   the precision, not the width of what is kept; '*' is printed twice, not three times *)
Theorem C43_precision_refuted : exists src al prec k t, string_pre StdWidth (Utf U32) (Utf U8) (Some prec) src /\ align_ok al /\
  k = [] /\ rendered SaniIfDifferent (Utf U32) (Utf U8) k t /\
  to_string false [string_arg StdWidth SaniIfDifferent (Utf U32) (Utf U8) false (Some al) (Some prec) src] = Some [42; 42] /\
  padded (al_align al) (cs_encode (charset_of (Utf U8)) (al_fill al)) (missing (al_width al) 0) t = [42; 42; 42].
Proof.
  exists [0x65E5], (mk_align 42 (3 * 65536) ARight), 65536, [], [].
  split; [split; [exact I|]; split; [exact I|]; split; [repeat constructor; cbn; lia|]; split; [exact I|]; split; [unfold is_width, u_min, u_max; lia|lia]|].
  split; [split; [cbn; lia|unfold is_width, u_min, u_max; cbn; lia]|]. split; [reflexivity|]. split; [|split; vm_compute; reflexivity].
  cbn [rendered copied cset_same]. split; [discriminate|]. exists [], []. split; [exists []; split; constructor|]. split; [constructor|reflexivity].
Qed.
Example C43_ex : (* "été" in UTF-8, centred in 8 columns of '*' *)
  string_pre StdWidth (Utf U8) (Utf U8) None [0xC3; 0xA9; 0x74; 0xC3; 0xA9] /\ align_ok (mk_align 42 (8 * 65536) ACenter) /\
  to_string false [string_arg StdWidth SaniAlways (Utf U8) (Utf U8) true (Some (mk_align 42 (8 * 65536) ACenter)) None [0xC3; 0xA9; 0x74; 0xC3; 0xA9]] =
  Some [42; 42; 0xC3; 0xA9; 0x74; 0xC3; 0xA9; 42; 42; 42].
Proof.
  split; [split; [exact I|]; split; [exact I|]; split; [repeat constructor; cbn; lia|]; split; exact I|].
  split; [split; [cbn; lia|unfold is_width, u_min, u_max; cbn; lia]|]. vm_compute. reflexivity.
Qed.
Print Assumptions C43_segmented_exists.
Print Assumptions C43_rendered_exists.
Print Assumptions C43_fill_units.
Print Assumptions C43_aligned_string.
Print Assumptions C43_missing.
Print Assumptions C43_fill_split.
Print Assumptions C43_precision_refuted.

(* ------------------------------------------------------------------ *)
(* C44: precision.  The calculators that count units or code points keep the longest
   prefix that fits. *)
Theorem C44_precision_simple : forall w pol a b same prec src l, w <> StdWidth ->
  string_pre w a b (Some prec) src -> segmented a src l ->
  exists k W, is_prefix k src /\ W <= Z.max 0 prec /\
    match w with
    | FastWidth => W = 65536 * zlen k /\
        (forall k', is_prefix k' src -> 65536 * zlen k' <= Z.max 0 prec -> zlen k' <= zlen k)
    | _ => exists n, k = seg_units (firstn n l) /\ W = seg_width w (firstn n l) /\ longest w l (Z.max 0 prec) n
    end /\
    forall t, rendered pol a b k t -> zlen t < ssize_max ->
    (exists pr, string_arg w pol a b same None (Some prec) src no_pre = Some (no_pre, pr) /\ prints_text pr t) /\
    (forall M, arg_ok M (string_arg w pol a b same None (Some prec) src) (string_desc w (Some prec) W t)).
Proof.
  intros w pol a b same prec src l Hw HP HS. destruct (cut_content w a b (Some prec) src l HP HS) as (k & W & HC & HPf & HK). pose proof (segmented_units _ _ _ HS) as EU.
  exists k, W. split; [exact HPf|]. split; [|split].
  - destruct w; cbn [content kept_by] in HC; [lia| | |congruence]; destruct HC as (n & _ & -> & _ & HL & _); exact HL.
  - destruct w; cbn [content kept_by] in HC; [rewrite EU in HC; tauto|exact HC|exact HC|congruence].
  - intros t HR HT.
    assert (forall M, arg_ok M (string_arg w pol a b same None (Some prec) src) (string_desc w (Some prec) W t)) as HArg.
    { intros M. destruct HP as (Ha & Hb & HU & HP'). apply string_plain_ok with (l := l) (k := k); try assumption; [repeat split; try assumption; apply HP'|].
      apply rendered_middle; try assumption. eapply unit_text_prefix; eassumption. }
    split; [|exact HArg]. destruct (HArg None) as (_ & _ & H). destruct (H no_pre (no_pre_ok _ _)) as (p' & pr & E & HPr & HAdd). apply added_no_pre in HAdd. subst p'. eauto.
Qed.
(* The standard calculator: whole code points, within the precision; the longest such
   prefix exactly when no internal chunk of 32 code points, short of the end, ends exactly at
   the limit, and the first such chunk end otherwise.  Missing: that exception, and negative
   precisions. *)
Theorem C44_precision_std_partial : forall pol a b same prec src l,
  string_pre StdWidth a b (Some prec) src -> segmented a src l ->
  exists n, (n <= length l)%nat /\ let k := seg_units (firstn n l) in is_prefix k src /\
    seg_width StdWidth (firstn n l) <= prec /\
    ((longest StdWidth l prec n /\ forall k, ~ chunk_stop l prec k) \/
     (exists k, n = (32 * k)%nat /\ chunk_stop l prec k /\ forall j, (j < k)%nat -> ~ chunk_stop l prec j)) /\
    forall t, rendered pol a b k t -> zlen t < ssize_max ->
    (exists pr, string_arg StdWidth pol a b same None (Some prec) src no_pre = Some (no_pre, pr) /\ prints_text pr t) /\
    (forall M, arg_ok M (string_arg StdWidth pol a b same None (Some prec) src)
                 (string_desc StdWidth (Some prec) (Z.min prec (seg_width StdWidth l)) t)).
Proof.
  intros pol a b same prec src l HP HS. destruct (cut_content StdWidth a b (Some prec) src l HP HS) as (k & W & HC & HPf & HK).
  cbn [content kept_by] in HC. destruct HC as (n & -> & -> & Hn & HL & HX). exists n. split; [exact Hn|]. cbv zeta. split; [exact HPf|]. split; [exact HL|]. split; [exact HX|].
  intros t HR HT.
  assert (forall M, arg_ok M (string_arg StdWidth pol a b same None (Some prec) src) (string_desc StdWidth (Some prec) (Z.min prec (seg_width StdWidth l)) t)) as HArg.
  { intros M. destruct HP as (Ha & Hb & HU & HP'). eapply string_plain_ok; try eassumption; [repeat split; try assumption; apply HP'|].
    apply rendered_middle; try assumption. eapply unit_text_prefix; eassumption. }
  split; [|exact HArg]. destruct (HArg None) as (_ & _ & H). destruct (H no_pre (no_pre_ok _ _)) as (p' & pr & E & HPr & HAdd). apply added_no_pre in HAdd. subst p'. eauto.
Qed.
(* in the first case no grapheme cluster is split *)
Theorem C44_whole_clusters : forall l limit n s, longest StdWidth l limit n -> nth_error l n = Some s ->
  GcbSpec.boundary (rev (map gcb_of (seg_points (firstn n l)))) (gcb_of (fst s)) = true.
Proof.
  intros l limit n s (Hn & Hw & HM) HE. destruct (GcbSpec.boundary _ _) eqn:EB; [reflexivity|]. exfalso.
  assert (n < length l)%nat as HL by (apply nth_error_Some; congruence).
  assert (firstn (S n) l = firstn n l ++ [s]) as EF.
  { clear -HE. revert l HE. induction n as [|n IH]; intros [|x l] HE; try discriminate; cbn in *; [congruence|]. f_equal. apply IH. exact HE. }
  assert (seg_width StdWidth (firstn (S n) l) = seg_width StdWidth (firstn n l)) as HW.
  { unfold seg_width. rewrite EF. unfold seg_points in *. f_equal. rewrite map_app, map_app. cbn [map].
    assert (G : forall q before, GcbSpec.boundary (rev (map gcb_of q) ++ before) (gcb_of (fst s)) = false ->
       clusters_width before (map (fun c => (gcb_of c, cp_width c)) q ++ [(gcb_of (fst s), cp_width (fst s))]) = clusters_width before (map (fun c => (gcb_of c, cp_width c)) q)).
    { induction q as [|x q IH]; intros before HB; cbn [app map clusters_width].
      - cbn in HB. rewrite HB. reflexivity.
      - rewrite IH; [reflexivity|]. cbn [map rev] in HB. rewrite <- app_assoc in HB. exact HB. }
    rewrite (G _ []); [reflexivity|]. rewrite app_nil_r. exact EB. }
  specialize (HM (S n) HL). lia.
Qed.
(* the exception is real: the accent of the 32nd letter is lost *)
Theorem C44_chunk_refuted : exists src l, string_pre StdWidth (Utf U32) (Utf U32) (Some (32 * 65536)) src /\ segmented (Utf U32) src l /\
  seg_width StdWidth l <= 32 * 65536 /\
  to_string false [string_arg StdWidth NoTranscode (Utf U32) (Utf U32) true None (Some (32 * 65536)) src] = Some (repeat 101 32) /\
  src = repeat 101 32 ++ [0x301].
Proof.
  set (src := repeat 101 32 ++ [0x301]). exists src, (map (fun c => (c, [c])) src).
  split; [split; [exact I|]; split; [exact I|]; split; [repeat constructor; cbn; lia|]; split; [exact I|]; split; [unfold is_width, u_min, u_max; lia|lia]|].
  split.
  { exists (map Good src). split; [|reflexivity]. assert (valid_text false src) as HV by (apply valid_text_b; reflexivity).
    replace src with (encode (enc_of U32) src) at 1 by (vm_compute; reflexivity). apply (items_encode U32 false src); auto. }
  split; [vm_compute; discriminate|]. split; [vm_compute; reflexivity|reflexivity].
Qed.
Example C44_ex : (* "aé日b", precision 2 *)
  to_string false [string_arg StdWidth SaniAlways (Utf U8) (Utf U8) true None (Some 131072) [97; 0xC3; 0xA9; 0xE6; 0x97; 0xA5; 98]] = Some [97; 0xC3; 0xA9] /\
  to_string false [string_arg U32len SaniIfDifferent (Utf U8) (Utf U16) false None (Some 196608) [97; 0xC3; 0xA9; 0xE6; 0x97; 0xA5; 98]] = Some [97; 0xE9; 0x65E5].
Proof. split; vm_compute; reflexivity. Qed.
Print Assumptions C44_precision_simple.
Print Assumptions C44_precision_std_partial.
Print Assumptions C44_whole_clusters.
Print Assumptions C44_chunk_refuted.
