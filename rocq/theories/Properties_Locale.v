(* Property theorem C59: strf::locale_numpunct() gives the punctuation of the locale.
   LocaleSpec.v: what the locale's strings mean. *)
From Verif Require Import Base UtfBits UtfSpec UtfForms SbcsSpec GroupModel GroupSpec GroupProofs GroupDist LocaleModel LocaleSpec LocaleProofs.

(* the code point given by a string without a (well-formed) first character is U+FFFD *)
Definition char_or_FFFD (r : option Z) : Z := match r with Some c => c | None => 0xFFFD end.
(* p separates the digits as the groups gs do *)
Definition groups_as (p : numpunct) (gs : list Z) (rep : bool) : Prop :=
  exists gs', represents (np_grouping p) gs' rep /\ forall i, 0 < i -> boundary gs' rep i = boundary gs rep i.

Lemma ended_ok gs rep : valid_groups gs -> gs <> [] ->
  exists g gs', ended rep (pushes gs creator_init) = Some g /\ g <> grouping_empty /\ represents g gs' rep /\
    forall i, 0 < i -> boundary gs' rep i = boundary gs rep i.
Proof.
  assert (Hne : forall g gs', represents g gs' rep -> (gs' = [] -> boundary gs' rep 1 = boundary gs rep 1) -> gs' <> [] -> g <> grouping_empty).
  { intros g gs' (HV & _ & ->) _ Hn. destruct gs' as [|x gs']; [congruence|]. destruct HV as [HV _].
    inversion HV; subst. unfold grouping_empty, dont_repeat_last. cbn [pack].
    assert (2 <= pack gs' rep).
    { clear - H2. induction H2 as [|y l Hy H IH]; cbn [pack]; [destruct rep; lia|lia]. }
    lia. }
  intros HV HN. unfold ended. destruct rep.
  - destruct (proj1 (finish_ok gs) HV HN) as (g & gs' & E & R & B). exists g, gs'. split; [exact E|].
    split; [|auto]. apply (Hne g gs' R (fun _ => B 1 ltac:(lia))). intros ->. destruct R as (_ & R & _).
    discriminate (R eq_refl).
  - destruct (proj1 (finish_no_more_ok gs) HV) as (g & E & R). exists g, gs. split; [exact E|].
    split; [|auto]. apply (Hne g gs R (fun _ => eq_refl) HN).
Qed.

(* Windows: any grouping string.  [valid_groups]: at most six groups of at most 31 digits *)
Theorem C59_windows_grouping : forall s, Forall (fun c => c <> 0) s ->
  (forall gs rep, win_string s gs rep -> valid_groups gs -> gs <> [] ->
     exists g gs', parse_win_grouping s = Some g /\ represents g gs' rep /\
       forall i, 0 < i -> boundary gs' rep i = boundary gs rep i) /\
  (forall gs rep, win_string s gs rep -> ~ valid_groups gs \/ gs = [] -> parse_win_grouping s = Some grouping_empty) /\
  ((forall gs rep, ~ win_string s gs rep) -> parse_win_grouping s = Some grouping_empty).
Proof.
  intros s HF. split; [|split].
  - intros gs rep HW HV HN. rewrite (parse_win_ok _ _ _ HW).
    destruct (ended_ok gs rep HV HN) as (g & gs' & E & _ & R). exists g, gs'. auto.
  - intros gs rep HW HB. rewrite (parse_win_ok _ _ _ HW). destruct rep; cbn [ended].
    + apply (finish_ok gs). exact HB.
    + destruct HB as [HB|HB]; [apply (finish_no_more_ok gs); exact HB|]. inversion HW; subst; discriminate.
  - apply parse_win_bad; exact HF.
Qed.
(* Windows: the facet.  The characters are those of the (UTF-16) strings; without a
   separator there is no grouping. *)
Theorem C59_windows : forall point sep grouping gs rep rp rs,
  units 16 point -> units 16 sep -> Forall (fun c => c <> 0) point -> Forall (fun c => c <> 0) sep ->
  first_utf16 point rp -> first_utf16 sep rs -> win_string grouping gs rep -> valid_groups gs -> gs <> [] ->
  exists p, locale_numpunct_win point sep grouping = Some p /\
    np_point p = char_or_FFFD rp /\
    match rs with
    | Some c => c <> 0xFFFD -> np_sep p = c /\ groups_as p gs rep
    | None => np_grouping p = grouping_empty
    end.
Proof.
  intros point sep grouping gs rep rp rs HUp HUs HNp HNs Fp Fs HW HV HN. unfold locale_numpunct_win.
  rewrite (parse_win_ok _ _ _ HW). destruct (ended_ok gs rep HV HN) as (g & gs' & E & Hg & R & B).
  rewrite E. cbn [obind]. rewrite (decode_utf16_ok point rp), (decode_utf16_ok sep rs) by assumption.
  eexists. split; [reflexivity|]. cbn [np_point np_sep np_grouping]. split; [destruct rp; reflexivity|].
  destruct rs as [c|]; cbn [code_or].
  - intros Hc. replace (c =? 0xFFFD) with false by lia. split; [reflexivity|]. exists gs'. auto.
  - reflexivity.
Qed.
(* elsewhere, in the codesets known.  Missing: where char is signed and the list of groups
   is ended by CHAR_MAX (127), see below. *)
Theorem C59_posix_partial : forall char_max codeset point sep grouping gs rep rp rs,
  units 8 point -> units 8 sep -> Forall (fun c => c <> 0) point -> Forall (fun c => c <> 0) sep ->
  codeset_first codeset point rp -> codeset_first codeset sep rs ->
  c_grouping char_max grouping gs rep -> char_max = 255 \/ (char_max = 127 /\ rep = true) ->
  valid_groups gs -> gs <> [] ->
  exists p, locale_numpunct codeset point sep grouping = Some p /\
    np_point p = char_or_FFFD rp /\
    match rs with
    | Some c => c <> 0xFFFD -> np_sep p = c /\ groups_as p gs rep
    | None => np_grouping p = grouping_empty
    end.
Proof.
  intros char_max codeset point sep grouping gs rep rp rs HUp HUs HNp HNs Fp Fs HC Hm HV HN.
  unfold locale_numpunct.
  assert (HF : Forall (fun c => 1 <= c < 128) gs) by (destruct HV as [HV _]; eapply Forall_impl; [|exact HV]; cbn; lia).
  assert (E : grouping_of_str grouping = ended rep (pushes gs creator_init)).
  { unfold grouping_of_str. inversion HC as [gs0 H0|gs0 rest H0]; subst.
    - apply of_str_repeat; exact HF.
    - destruct Hm as [->|[_ Hm]]; [|discriminate]. apply of_str_norepeat; [exact HF|lia]. }
  destruct (ended_ok gs rep HV HN) as (g & gs' & Eg & Hg & R & B). rewrite E, Eg. cbn [obind].
  destruct (make_numpunct_ok codeset point sep g rp rs HUp HUs HNp HNs Fp Fs) as [M _].
  rewrite (M Hg). eexists. split; [reflexivity|]. cbn [np_point np_sep np_grouping].
  split; [destruct rp; reflexivity|]. destruct rs as [c|].
  - intros Hc. replace (c =? 0xFFFD) with false by lia. split; [reflexivity|]. exists gs'. auto.
  - reflexivity.
Qed.
(* no grouping in the locale: only the decimal point matters *)
Theorem C59_posix_no_grouping : forall codeset point sep rp rs,
  units 8 point -> units 8 sep -> Forall (fun c => c <> 0) point -> Forall (fun c => c <> 0) sep ->
  codeset_first codeset point rp -> codeset_first codeset sep rs ->
  exists p, locale_numpunct codeset point sep [] = Some p /\ np_point p = char_or_FFFD rp /\
    np_grouping p = grouping_empty.
Proof.
  intros codeset point sep rp rs HUp HUs HNp HNs Fp Fs.
  destruct (make_numpunct_ok codeset point sep 0 rp rs HUp HUs HNp HNs Fp Fs) as [_ M].
  exists (mk_np grouping_empty (code_or rp) 0x2C). split; [exact M|]. cbn. split; [destruct rp; reflexivity|reflexivity].
Qed.
(* any other codeset: the ASCII characters, else U+FFFD and U+00A0 *)
Theorem C59_other_codeset : forall codeset b point c sep grouping gs g,
  ~ In codeset [n_utf8; n_iso ++ [0x31]; n_iso ++ [0x33]; n_iso ++ [0x31; 0x35]] ->
  0 < b < 256 -> 0 < c < 256 -> c_grouping 127 grouping gs true -> valid_groups gs -> gs <> [] ->
  grouping_of_str grouping = Some g ->
  locale_numpunct codeset (b :: point) (c :: sep) grouping =
    Some (mk_np g (if b <? 128 then b else 0xFFFD) (if c <? 128 then c else 0xA0)).
Proof.
  intros codeset b point c sep grouping gs g HI Hb Hc HC HV HN HG. unfold locale_numpunct. rewrite HG. cbn [obind].
  apply make_numpunct_other; [apply get_decoder_none; exact HI|assumption|assumption|].
  assert (HF : Forall (fun c => 1 <= c < 128) gs) by (destruct HV as [HV _]; eapply Forall_impl; [|exact HV]; cbn; lia).
  inversion HC; subst. unfold grouping_of_str in HG. rewrite of_str_repeat in HG by exact HF.
  destruct (ended_ok gs true HV HN) as (g' & gs' & Eg & Hg & _). cbn [ended] in Eg. congruence.
Qed.
(* CHAR_MAX as 127, the value it has where char is signed, is taken for an (oversized)
   group: "3, then no more" gives no grouping at all *)
Theorem C59_char_max_refuted : exists grouping gs p,
  c_grouping 127 grouping gs false /\ valid_groups gs /\
  locale_numpunct n_utf8 [0x2E] [0x2C] grouping = Some p /\ np_grouping p = grouping_empty /\
  boundary gs false 3 = true.
Proof.
  exists [3; 127], [3]. eexists. split; [exact (cg_end 127 [3] [] ltac:(repeat constructor; lia))|].
  split; [split; [repeat constructor; lia|cbn; lia]|]. split; [vm_compute; reflexivity|]. split; reflexivity.
Qed.

(* and that is what happens with every list ended so: no grouping (which is right only for the empty list) *)
Lemma failed_empty str : forall c, cr_failed c = true -> of_str_loop str c = Some grouping_empty.
Proof.
  induction str as [|ch str IH]; intros c H; cbn [of_str_loop]; [unfold finish; rewrite H; reflexivity|].
  destruct (ch =? 0); [unfold finish; rewrite H; reflexivity|]. destruct (negb _); [unfold finish_no_more_sep; rewrite H; reflexivity|].
  apply IH. unfold push_high. rewrite H. reflexivity.
Qed.
Lemma of_str_char_max gs rest : Forall (fun c => 1 <= c < 127) gs -> grouping_of_str (gs ++ 127 :: rest) = Some grouping_empty.
Proof.
  intros H. unfold grouping_of_str. generalize creator_init. induction H as [|x gs Hx H IH]; intros c; cbn [app of_str_loop].
  - cbn [Z.eqb]. change (Z.land 127 0x80 =? 0) with true. cbn [negb]. apply failed_empty. unfold push_high. change (grp_max <? 127) with true. rewrite !orb_true_r. reflexivity.
  - replace (x =? 0) with false by lia.
    assert (Hl : (Z.land x 0x80 =? 0) = true).
    { assert (Hs := sweep (fun x => (128 <=? x) || (Z.land x 0x80 =? 0)) 256 eq_refl x ltac:(cbn; lia)). cbn beta in Hs. lia. }
    rewrite Hl. cbn [negb]. apply IH.
Qed.
Theorem C59_char_max_exact_partial : forall codeset point sep grouping gs rp rs,
  units 8 point -> units 8 sep -> Forall (fun c => c <> 0) point -> Forall (fun c => c <> 0) sep ->
  codeset_first codeset point rp -> codeset_first codeset sep rs -> c_grouping 127 grouping gs false ->
  exists p, locale_numpunct codeset point sep grouping = Some p /\ np_point p = char_or_FFFD rp /\
    np_grouping p = grouping_empty /\
    ((forall i, 0 < i -> boundary gs false i = false) <-> gs = []).
Proof.
  intros codeset point sep grouping gs rp rs HUp HUs HNp HNs Fp Fs HC.
  destruct (make_numpunct_ok codeset point sep 0 rp rs HUp HUs HNp HNs Fp Fs) as [_ M].
  inversion HC as [|gs0 rest H0]; subst. unfold locale_numpunct. rewrite of_str_char_max by exact H0. cbn [obind].
  exists (mk_np grouping_empty (code_or rp) 0x2C). split; [exact M|]. cbn. split; [destruct rp; reflexivity|]. split; [reflexivity|]. split.
  - intros B. destruct gs as [|g gs]; [reflexivity|exfalso]. pose proof (Forall_inv H0) as Hg. cbn beta in Hg. specialize (B g ltac:(lia)). unfold boundary in B. cbn in B. rewrite Z.eqb_refl in B. destruct gs; cbn in B; discriminate B.
  - intros ->. reflexivity.
Qed.
(* groups the library cannot hold (more than six, or of more than 31 digits): no grouping *)
Theorem C59_posix_too_large : forall codeset point sep gs rp rs,
  units 8 point -> units 8 sep -> Forall (fun c => c <> 0) point -> Forall (fun c => c <> 0) sep ->
  codeset_first codeset point rp -> codeset_first codeset sep rs ->
  c_grouping 127 gs gs true -> ~ valid_groups gs ->
  exists p, locale_numpunct codeset point sep gs = Some p /\ np_point p = char_or_FFFD rp /\ np_grouping p = grouping_empty.
Proof.
  intros codeset point sep gs rp rs HUp HUs HNp HNs Fp Fs HC HV.
  destruct (make_numpunct_ok codeset point sep 0 rp rs HUp HUs HNp HNs Fp Fs) as [_ M].
  assert (HF : Forall (fun c => 1 <= c < 128) gs) by (inversion HC; subst; eapply Forall_impl; [|eassumption]; cbn; lia).
  unfold locale_numpunct, grouping_of_str. rewrite of_str_repeat by exact HF. rewrite (proj2 (finish_ok gs)) by (left; exact HV). cbn [obind].
  exists (mk_np grouping_empty (code_or rp) 0x2C). split; [exact M|]. cbn. split; [destruct rp; reflexivity|reflexivity].
Qed.
Example C59_char_max_ex : c_grouping 127 [3; 2; 127] [3; 2] false /\ grouping_of_str [3; 2; 127] = Some grouping_empty /\ ~ valid_groups [40].
Proof. split; [exact (cg_end 127 [3; 2] [] ltac:(repeat constructor; lia))|]. split; [vm_compute; reflexivity|]. intros [H _]. inversion H. cbn in *. lia. Qed.

(* "3;2;0" (hi-IN), "3;0", a malformed string; de_DE.UTF-8; pl_PL.UTF-8 (U+00A0); ISO-8859-15 *)
Example C59_windows_ex : win_string [0x33; 0x3B; 0x32; 0x3B; 0x30] [3; 2] true /\
  parse_win_grouping [0x33; 0x3B; 0x32; 0x3B; 0x30] = Some (pack [3; 2] true) /\
  parse_win_grouping [0x33] = Some (pack [3] false) /\
  parse_win_grouping [0x33; 0x3B; 0x3B] = Some grouping_empty /\
  locale_numpunct_win [0x2C] [0x2E] [0x33; 0x3B; 0x30] = Some (mk_np (pack [3] true) 0x2C 0x2E).
Proof.
  split; [|repeat split; vm_compute; reflexivity].
  apply (ws_more [0x33] 3 [0x32; 0x3B; 0x30]); [apply (wn_one 3); lia|lia|].
  apply (ws_more [0x32] 2 [0x30]); [apply (wn_one 2); lia|lia|]. constructor. apply (wn_one 0); lia.
Qed.
Example C59_posix_ex : c_grouping 127 [3; 3] [3; 3] true /\
  codeset_first [85; 84; 70; 45; 56] [0xC2; 0xA0] (Some 0xA0) /\
  locale_numpunct n_utf8 [0x2C] [0xC2; 0xA0] [3; 3] = Some (mk_np (pack [3] true) 0x2C 0xA0) /\
  locale_numpunct (n_iso ++ [0x31; 0x35]) [0xA4] [0xA0] [3; 255] = Some (mk_np (pack [3] false) 0x20AC 0xA0).
Proof.
  split; [constructor; repeat constructor; lia|]. split.
  - constructor. exists [Good 0xA0]. split; [|reflexivity].
    apply (items_good enc8 false 0xA0 [] []); [split; [lia|right; reflexivity]| |constructor].
    intros cp' V' HP. apply (longest_scalar_8 0xA0 []); [split; [lia|right; reflexivity]|exact V'|exact HP].
  - split; vm_compute; reflexivity.
Qed.
Print Assumptions C59_windows_grouping.
Print Assumptions C59_windows.
Print Assumptions C59_posix_partial.
Print Assumptions C59_posix_no_grouping.
Print Assumptions C59_other_codeset.
Print Assumptions C59_char_max_refuted.
Print Assumptions C59_char_max_exact_partial.
Print Assumptions C59_posix_too_large.
