(* C63: printing with unsafe_transcode (transcoding_policy::unsafe).  On a well-formed
   source it prints the same text as the checked transcoding, and measures the same size and
   width; on an ill-formed one its behaviour is undefined. *)
From Verif Require Import Base WidthModel WidthProofs DestModel DestProofs UtfSpec UtfForms UtfLoop UtfTheorems Properties_Utf
  CharsetModel SbcsTables SbcsModel SbcsProofs PivotModel TransSpec CsetModel CsetProofs Properties_Pivot
  IntSpec IntModel IntProofs GcbTable GcbSpec WCalcModel GcbCheck WCalcProofs Properties_WCalc
  PrintModel StringModel ToModel PrintSpec StringSpec PrintProofs SegProofs UnsafeProofs StringProofs ToProofs Properties_Print.

(* the code points kept of a well-formed text are a well-formed text *)
Lemma firstn_well_formed a src l n : unit_text a src -> segmented a src l -> well_formed_in a false src -> well_formed_in a false (seg_units (firstn n l)).
Proof.
  destruct a as [f|i cs]; cbn [segmented well_formed_in]; intros HU HS HW.
  - destruct HS as (its & HI & ->), HW as (its' & HI' & HB). assert (its' = its) as -> by (eapply (items_det_of f); eassumption).
    assert (forall its0, map (src_of (enc_of f)) its0 = map snd (map (fun it => (cp_of it, src_of (enc_of f) it)) its0)) as EM by (intros; rewrite map_map; reflexivity).
    rewrite firstn_map. unfold seg_units. rewrite <- EM.
    assert (existsb is_bad (firstn n its) = false) as HB'.
    { rewrite <- (firstn_skipn n its), existsb_app in HB. apply orb_false_iff in HB. apply HB. }
    exists (firstn n its). split; [|exact HB'].
    assert (exists cps, firstn n its = map Good cps /\ valid_text false cps) as (cps & -> & HV).
    { clear - HI HB. revert n. induction HI as [|cp rest its0 HV HL HI0 IH|bad rest its0 HUn HMx HI0 IH]; intros n.
      - exists []. rewrite firstn_nil. split; [reflexivity|constructor].
      - cbn [existsb is_bad orb] in HB. destruct n as [|n]; [exists []; split; [reflexivity|constructor]|].
        destruct (IH HB n) as (cps & E & F). exists (cp :: cps). cbn [firstn map]. rewrite E. split; [reflexivity|constructor; assumption].
      - discriminate. }
    rewrite map_map. cbn [src_of]. rewrite <- flat_map_concat_map. apply (items_encode f false cps); auto.
  - assert (exists m, seg_units (firstn n l) = firstn m src) as [m ->].
    { clear - HS. revert src n HS. induction l as [|[c u] l IH]; intros [|b src] n HS; try discriminate; [exists O; rewrite firstn_nil; reflexivity|].
      cbn [map] in HS. destruct n as [|n]; [exists O; reflexivity|]. cbn [fst snd] in HS.
      assert (u = [b] /\ map (fun b => (sb_decode cs b, [b])) src = map (fun s => (Some (fst s), snd s)) l) as [-> HS'] by (split; [congruence|injection HS; auto]).
      destruct (IH src n HS') as [m E]. exists (S m). cbn [firstn]. unfold seg_units in *. cbn [map concat snd app]. rewrite E. reflexivity. }
    rewrite <- (firstn_skipn m src) in HW. apply Forall_app in HW. apply HW.
Qed.
(* whatever the precision, when the width calculator cuts at code points *)
Theorem C63_kept_well_formed : forall w a b prec src l k W, w <> FastWidth \/ prec = None -> string_pre w a b prec src -> segmented a src l ->
  well_formed_in a false src -> content w prec l k W -> well_formed_in a false k.
Proof.
  intros w a b prec src l k W Hw (HA & HB & HU & _) HS HWf HC. destruct prec as [p|]; cbn [content] in HC.
  - destruct Hw as [Hw|]; [|discriminate]. destruct w; cbn [kept_by] in HC; [congruence| | |]; destruct HC as (n & -> & _); eapply firstn_well_formed; eassumption.
  - destruct HC as [-> _]. rewrite (segmented_units _ _ _ HS). exact HWf.
Qed.

(* The same text, size and width, with or without alignment and precision, whatever is
   measured, whether the charsets are compared at compile time or at run time *)
Theorem C63_unsafe_same : forall w dynamic a b same al prec src l,
  string_pre w a b prec src -> match al with Some al => align_ok al | None => True end -> segmented a src l ->
  exists k W, content w prec l k W /\ is_prefix k src /\
    (well_formed_in a false k -> forall t, rendered SaniAlways a b k t ->
     let d := match al with Some al => aligned_desc w b al prec W t | None => string_desc w prec W t end in
     zlen (d_text d) < ssize_max ->
     forall M, arg_ok M (string_arg w (Unsafe dynamic) a b same al prec src) d /\
               arg_ok M (string_arg w SaniAlways a b same al prec src) d).
Proof.
  intros w dyn a b same al prec src l HP HAl HS. destruct (cut_content w a b prec src l HP HS) as (k & W & HC & HPf & HK).
  exists k, W. split; [exact HC|]. split; [exact HPf|]. intros HW t HR d HT M.
  pose proof HP as (Ha & Hb & HU & _). pose proof (unit_text_prefix _ _ _ HU HPf) as HUk.
  assert (zlen t < ssize_max) as Ht.
  { destruct al as [al|]; [|exact HT]. unfold d, aligned_desc, pad_desc in HT. cbn [d_text] in HT. pose proof (missing_bounds (al_width al) W).
    rewrite padded_len in HT by lia. pose proof (zlen_nonneg (cs_encode (charset_of b) (al_fill al))). nia. }
  assert (rendered (Unsafe dyn) a b k t) as HR'.
  { cbn [rendered copied] in HR. destruct HR as (_ & cps & out & HT1 & HE & ->). unfold rendered.
    destruct (copied (Unsafe dyn) a b) eqn:EC; [|split; [auto|]; exists cps, out; auto].
    apply C43_when_copied in EC as [EC|[_ <-]]; [discriminate| |exact Ha|exact Hb].
    clear - Ha HUk HW HT1 HE. destruct a as [f|i cs]; cbn [text_in well_formed_in] in *.
    - destruct HT1 as (its & HI & ->), HW as (its' & HI' & HB). assert (its' = its) as -> by (eapply (items_det_of f); eassumption).
      clear HI' HUk. revert out HE. induction HI as [|cp rest its0 HV HL HI0 IH|bad rest its0 HUn HMx HI0 IH]; intros out HE.
      + inversion HE; subst. reflexivity.
      + cbn [existsb is_bad orb] in HB. inversion HE; subst. cbn [concat]. rewrite (IH HB l') by assumption. f_equal.
        match goal with H : encoded_in _ _ _ |- _ => exact H end.
      + discriminate.
    - pose proof (all_ok i cs Ha) as OK. change (Forall (fun c => 0 <= c < 256) k) in HUk.
      revert out HE k HUk HW HT1. induction cps as [|cp cps IH]; intros out HE k HUk HW HT; inversion HE; subst; destruct k as [|c k]; try discriminate; [reflexivity|].
      cbn [map] in HT. injection HT as E HT. inversion HUk; subst. pose proof (Forall_inv HW) as Hv. apply Forall_inv_tail in HW. cbv beta in Hv.
      cbn [concat]. rewrite (IH l' ltac:(assumption) k ltac:(assumption) HW HT).
      match goal with H : encoded_in _ _ _ |- _ => destruct H as (e & Ee & ->) end.
      assert (decoded cs c = cp) as Dc by (unfold decoded; rewrite E; reflexivity).
      rewrite (valid_decoded cs _ OK c ltac:(assumption)) in Hv. apply negb_true_iff, Z.eqb_neq in Hv.
      pose proof (encoded_decoded cs _ OK c ltac:(assumption) Hv) as X. unfold encoded in X. rewrite Dc, Ee in X. subst e.
      replace (c <? 0x100) with true by lia. reflexivity. }
  destruct al as [al|].
  - split; (apply string_aligned_ok with (l := l) (k := k); try assumption; apply rendered_middle; assumption).
  - split; (apply string_plain_ok with (l := l) (k := k); try assumption; apply rendered_middle; assumption).
Qed.
(* the function under it, into any destination *)
Theorem C63_unsafe_into : forall S (ops : dest_ops S) R pre, dest_laws ops R pre ->
  forall a b fl src cps out s t, is_cset a -> is_cset b -> unit_text a src -> no_stop fl ->
  well_formed_in a (f_lax fl) src -> text_in a (f_lax fl) src cps -> Forall2 (encoded_in b) cps out -> R s t ->
  exists s' r, unsafe_into ops a b fl s src = Some (s', r) /\ R s' (t ++ concat out) /\
    (ds_reason r = RInsufficient /\ d_good ops s' = false \/
     r = mk_des (zlen (concat out)) [] 0 RCompleted).
Proof. exact @unsafe_into_ok. Qed.

(* fast_width_t counts code units: a precision may then cut a code point of a well-formed
   text in two, and the unsafe transcoder reads past the end of what is left *)
Theorem C63_fast_width_refuted : exists prec src, string_pre FastWidth (Utf U8) (Utf U16) (Some prec) src /\
  well_formed_in (Utf U8) false src /\
  to_string false [string_arg FastWidth (Unsafe false) (Utf U8) (Utf U16) false None (Some prec) src] = None /\
  to_string false [string_arg FastWidth SaniAlways (Utf U8) (Utf U16) false None (Some prec) src] = Some [0xFFFD].
Proof.
  exists 65536, [0xC3; 0xA9].
  split; [split; [exact I|]; split; [exact I|]; split; [repeat constructor; cbn; lia|]; split; [exact I|]; split; [unfold is_width, u_min, u_max; lia|discriminate]|].
  split.
  { exists [Good 0xE9]. split; [|reflexivity].
    apply (items_encode U8 false [0xE9]); [intros _|]; repeat constructor; try lia; right; reflexivity. }
  split; vm_compute; reflexivity.
Qed.
Example C63_ex : (* "éa" from UTF-8 to UTF-16, ISO 8859-1 text to itself, Cyrillic through the pivot *)
  to_string false [string_arg StdWidth (Unsafe false) (Utf U8) (Utf U16) false (Some (mk_align 42 (4 * 65536) ARight)) None [0xC3; 0xA9; 97]] = Some [42; 42; 0xE9; 97] /\
  to_string false [string_arg StdWidth (Unsafe false) (Sb 5 iso_8859_5) (Sb 5 iso_8859_5) true None None [0xB6; 97]] = Some [0xB6; 97] /\
  to_string false [string_arg StdWidth (Unsafe true) (Utf U8) (Sb 5 iso_8859_5) false None None [0xD0; 0x96; 97]] = Some [0xB6; 97].
Proof. split; [|split]; vm_compute; reflexivity. Qed.
Print Assumptions C63_kept_well_formed.
Print Assumptions C63_unsafe_same.
Print Assumptions C63_unsafe_into.
Print Assumptions C63_fast_width_refuted.
