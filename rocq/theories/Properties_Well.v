(* C76: whatever is printed to a UTF destination is well-formed text.  well_formed: UtfSpec, an encoding of valid code points;
   printable: WellSpec; arg_ok, d_text (the text an argument prints): PrintSpec. *)
From Verif Require Import Base UtfSpec UtfForms UtfTheorems GroupSpec GroupProofs DigitsSpec IntSpec IntChars WidthModel WidthProofs DestModel DestProofs GroupModel
  DigitsModel DigitsProofs IntModel IntProofs CharsetModel SbcsTables SbcsModel SbcsProofs CsetModel CsetProofs Properties_Pivot WCalcModel WCalcProofs
  PrintModel StringModel ToModel RangeModel TrModel PrintSpec StringSpec TrSpec PrintProofs SegProofs StringProofs CharProofs ToProofs TrProofs JoinProofs
  Properties_Print Properties_Join Properties_Tr TextRead FloatSpec FloatModel FloatInit FloatProofs FloatFast FloatRead FloatArgs FloatAlways.
From Verif Require Import Properties_Args Properties_Int Properties_Sbcs RangeSpec RangeProofs Properties_Range WellSpec TextClosed WellProofs.
From Verif Require Import ShortestSpec DragonModel DragonFormats FloatBits.
Local Open Scope Z_scope.

(* integers of every type, in every base and format, with any separators *)
Theorem C76_integer : forall g F gs rep f al sgn s v, facets_ok F gs rep -> if_cs F = utf_charset g -> IntSpec.in_int sgn (sbits s) v ->
  align_ok (align_of al) -> opts_ok (opts_of f) -> printable g (al_fill (align_of al)) ->
  exists p, int_print F f al sgn s v = Some p /\ well_formed (enc_of g) false (ops_text (pr_ops p)).
Proof. exact int_well. Qed.
(* pointers *)
Theorem C76_pointer : forall g F gs rep al address, facets_ok F gs rep -> if_cs F = utf_charset g -> 0 <= address < 2 ^ 64 ->
  align_ok (align_of al) -> printable g (al_fill (align_of al)) ->
  exists p, voidptr_print F al address = Some p /\ well_formed (enc_of g) false (ops_text (pr_ops p)).
Proof. intros g F gs rep al a HF EC Ha Hal Hp. apply (int_well g F gs rep); auto. split; cbn; lia. Qed.


(* floating-point numbers: every bit pattern, in every notation and precision *)
Theorem C76_double : forall g F gs rep f al b, ffacets_ok F gs rep -> fk_charset F = utf_charset g -> fk_bits F = bits_of g -> align_ok al ->
  -1 <= ff_precision f <= 2 ^ 30 -> ff_pad0 f <= 2 ^ 30 -> printable g (al_fill al) -> printable g (float_point F f) -> 0 <= b < 2 ^ 64 ->
  exists p, punct_double F f al (double_of_bits b) = Some p /\ well_formed (enc_of g) false (ops_text (pr_ops p)).
Proof. intros g F gs rep f al b HF EC EB HA H1 H2 P1 P2 Hb. apply (float_well g F gs rep); auto. apply double_value_ok, Hb. Qed.
Theorem C76_float : forall g F gs rep f al b, ffacets_ok F gs rep -> fk_charset F = utf_charset g -> fk_bits F = bits_of g -> align_ok al ->
  -1 <= ff_precision f <= 2 ^ 30 -> ff_pad0 f <= 2 ^ 30 -> printable g (al_fill al) -> printable g (float_point F f) -> 0 <= b < 2 ^ 32 ->
  exists p, punct_double F f al (float_of_bits b) = Some p /\ well_formed (enc_of g) false (ops_text (pr_ops p)).
Proof. intros g F gs rep f al b HF EC EB HA H1 H2 P1 P2 Hb. apply (float_well g F gs rep); auto. apply float_value_ok, Hb. Qed.

(* an argument that prints well-formed text *)
Definition well_arg (g : UtfForms.form) (M : option Z) (a : arg) (d : desc) : Prop := arg_ok M a d /\ well_formed (enc_of g) false (d_text d).
Lemma split_well g M args ds : Forall2 (well_arg g M) args ds -> Forall2 (arg_ok M) args ds /\ Forall (well_formed (enc_of g) false) (map d_text ds).
Proof. induction 1 as [|a d args ds [H1 H2] HF [IH1 IH2]]; split; constructor; assumption. Qed.
Lemma eol_well g eol : well_formed (enc_of g) false (if eol : bool then [10] else []).
Proof. destruct eol; [apply well_ascii; lia|apply well_nil]. Qed.
(* strings in any charset, with a policy that sanitizes *)
Theorem C76_rendered : forall g pol a k t, is_cset a -> unit_text a k -> copied pol a (Utf g) = false -> rendered pol a (Utf g) k t ->
  well_formed (enc_of g) false t.
Proof.
  intros g pol a k t HA HU HC HR. unfold rendered in HR. rewrite HC in HR. destruct HR as (_ & cps & out & HT & HE & ->).
  destruct (text_valid a k cps HA HU HT) as [HV _]. exists cps. split; [exact HV|].
  clear - HE. induction HE as [|c o cps out H HE IH]; [reflexivity|]. cbn [concat encode flat_map]. rewrite IH. f_equal. exact H.
Qed.
Theorem C76_string : forall g w pol a same src, is_cset a -> unit_text a src -> countable w a src ->
  copied pol a (Utf g) = false -> is_unsafe pol = false -> 4 * zlen src < ssize_max ->
  exists d, forall M, well_arg g M (string_arg w pol a (Utf g) same None None src) d.
Proof.
  intros g w pol a same src HA HU HC HP HN HL. destruct (segmented_exists a src HA HU) as [l HS].
  destruct (C28_text_exists a false src HA HU) as [cps HT]. destruct (text_valid a src cps HA HU HT) as [HV HZ]. pose proof (encode_len g cps) as HE.
  assert (HR : rendered pol a (Utf g) src (encode (enc_of g) cps)).
  { unfold rendered. rewrite HP. split; [congruence|]. exists cps, (map (enc_of g) cps). split; [exact HT|]. split; [apply encoded_utf|symmetry; apply concat_encode]. }
  eexists. intros M. split.
  - exact (proj2 (C43_plain_string w pol a (Utf g) same src l _ (conj HA (conj I (conj HU (conj HC I)))) HS HR ltac:(lia)) M).
  - exact (C76_rendered g pol a src _ HA HU HP HR).
Qed.
(* and formatted, with a width and a fill character, cut or not by a precision *)
Theorem C76_formatted_string : forall g w pol a same al prec src, string_pre w a (Utf g) prec src -> align_ok al -> printable g (al_fill al) ->
  copied pol a (Utf g) = false -> is_unsafe pol = false -> 4 * zlen src + 200000 < ssize_max ->
  exists d, forall M, well_arg g M (string_arg w pol a (Utf g) same (Some al) prec src) d.
Proof.
  intros g w pol a same al prec src HP HA Hf HC HN HL. destruct HP as (HA1 & HB & HU & HP). destruct (segmented_exists a src HA1 HU) as [l HS].
  destruct (C43_aligned_string w pol a (Utf g) same al prec src l (conj HA1 (conj HB (conj HU HP))) HA HS) as (k & W & HK & HPf & H).
  assert (HUk : unit_text a k) by (eapply unit_text_prefix; eassumption).
  destruct (C28_text_exists a false k HA1 HUk) as [cps HT]. destruct (text_valid a k cps HA1 HUk HT) as [HV HZ]. pose proof (encode_len g cps) as HE.
  assert (HR : rendered pol a (Utf g) k (encode (enc_of g) cps)).
  { unfold rendered. rewrite HC. split; [congruence|]. exists cps, (map (enc_of g) cps). split; [exact HT|]. split; [apply encoded_utf|symmetry; apply concat_encode]. }
  specialize (H _ HR). cbv zeta in H. eexists. intros M. split; [apply H|].
  - pose proof (missing_bounds (al_width al) W) as [HM1 HM2]. rewrite padded_len by exact HM1.
    pose proof (ok_small _ (charset_of_ok (Utf g) I) _ (proj1 HA)) as HF. cbn [charset_of] in HF |- *.
    assert (HW : 0 <= W).
    { unfold content in HK. destruct HP as (_ & HP). destruct prec as [q|]; [|destruct HK as [_ ->]; apply seg_width_nonneg]. destruct HP as [_ HP2].
      destruct w; cbn [kept_by] in HK; [pose proof (zlen_nonneg k); lia|destruct HK as (n & _ & -> & _); apply seg_width_nonneg..|].
      destruct HK as (n & _ & -> & _). pose proof (seg_width_nonneg StdWidth l). specialize (HP2 eq_refl). lia. }
    destruct HA as [_ HA]. unfold is_width, u_min, u_max in HA. destruct HPf as [z ->]. rewrite zlen_app in HL. pose proof (zlen_nonneg z).
    assert (missing (al_width al) W * zlen (cs_encode (utf_charset g) (al_fill al)) <= 40000 * 4) by nia. lia.
  - unfold aligned_desc, pad_desc. cbn [d_text]. apply well_padded; [cbn [charset_of]; apply well_char, Hf|]. exact (C76_rendered g pol a k _ HA1 HUk HC HR).
Qed.
(* integers, characters, booleans, floating-point numbers without format *)
Theorem C76_char32 : forall g M w c l, printable g c -> segmented (Utf U32) [c] l -> exists d, well_arg g M (char32_arg w (Utf g) c) d.
Proof. intros g M w c l Hc HS. eexists. split; [apply (C47_char32 M w (Utf g) c l I (proj1 Hc) HS)|]. apply well_char, Hc. Qed.
Theorem C76_bool : forall g M lc x, exists d, well_arg g M (bool_arg lc x) d.
Proof. intros g M lc x. eexists. split; [apply C47_bool|]. apply (closed_ascii _ (well_nil g) (well_app g) (well_ascii g)). destruct lc, x; repeat constructor; lia. Qed.
Theorem C76_default_float : forall g M lc x, match fl_bits x with BFinite _ _ _ m e => decimal_ok m e | _ => True end ->
  exists d, well_arg g M (fast_float_arg lc x) d.
Proof.
  intros g M lc x H. eexists. split; [exact (fast_default_arg_ok M lc x H)|]. cbn [whole d_text].
  pose proof (well_nil g) as PN. pose proof (well_app g) as PA. pose proof (well_ascii g) as PC.
  assert (P0 : well_formed (enc_of g) false [46]) by (apply PC; lia).
  apply PA; [destruct (fl_negative x); [apply PC; lia|exact PN]|].
  destruct (fl_bits x) as [| |sn mm ex m e]; cbn [value_of float_body].
  - apply (closed_ascii _ PN PA PC). unfold nan_text. destruct (st_case _); repeat constructor; lia.
  - apply (closed_ascii _ PN PA PC). unfold inf_text. destruct (st_case _); repeat constructor; lia.
  - destruct H as [Hm _]. unfold decimal_body, default_style. cbn [st_notation st_precision]. destruct (_ <? _).
    + unfold exact_sci. cbn [st_case st_point st_showpoint]. apply (closed_sci _ PN PA PC); [lia|exact P0].
    + unfold exact_fixed. cbn [st_boundary st_sep st_point st_showpoint].
      apply (closed_fixed _ PN PA PC); [apply Z.mul_nonneg_nonneg; [lia|apply Z.pow_nonneg; lia]|left; exact PN|exact P0].
Qed.
Lemma wf_items g src : well_formed_in (Utf g) false src -> well_formed (enc_of g) false src.
Proof.
  intros (its & HI & HG). pose proof (UtfLoop.items_src _ _ _ _ HI) as E. destruct (UtfUnsafeProofs.all_good its HG) as [cps ->]. rewrite UtfUnsafeProofs.srcs_of_good in E.
  exists cps. split; [|exact E]. apply UtfLoop.items_valid in HI. rewrite Forall_map in HI. exact HI.
Qed.
(* with any policy, unsafe ones and plain copies in the same encoding, when the source is well-formed *)
Theorem C76_well_formed_source : forall g w pol a same src, is_cset a -> unit_text a src -> countable w a src -> well_formed_in a false src ->
  (copied pol a (Utf g) = true -> a = Utf g) -> 4 * zlen src < ssize_max ->
  exists d, forall M, well_arg g M (string_arg w pol a (Utf g) same None None src) d.
Proof.
  intros g w pol a same src HA HU HC HW HP HL. destruct (segmented_exists a src HA HU) as [l HS].
  assert (HR : exists t, rendered pol a (Utf g) src t /\ zlen t < ssize_max /\ well_formed (enc_of g) false t).
  { pose proof (zlen_nonneg src). destruct (copied pol a (Utf g)) eqn:EC.
    - exists src. unfold rendered. rewrite EC. split; [reflexivity|]. split; [lia|]. rewrite (HP eq_refl) in HW. apply wf_items, HW.
    - destruct (C28_text_exists a false src HA HU) as [cps HT]. destruct (text_valid a src cps HA HU HT) as [HV HZ]. pose proof (encode_len g cps) as HE.
      assert (HR : rendered pol a (Utf g) src (encode (enc_of g) cps)).
      { unfold rendered. rewrite EC. split; [intros _; exact HW|]. exists cps, (map (enc_of g) cps). split; [exact HT|]. split; [apply encoded_utf|symmetry; apply concat_encode]. }
      eexists. split; [exact HR|]. split; [lia|exact (C76_rendered g pol a src _ HA HU EC HR)]. }
  destruct HR as (t & HR & HZ & HWt). eexists. intros M. split.
  - exact (proj2 (C43_plain_string w pol a (Utf g) same src l t (conj HA (conj I (conj HU (conj HC I)))) HS HR HZ) M).
  - exact HWt.
Qed.
(* characters of the destination that are a whole character; formatted characters, booleans and integers *)
Lemma repeat_well g c n : well_formed (enc_of g) false c -> well_formed (enc_of g) false (concat (repeat c n)).
Proof. intros H. apply well_concat. induction n; constructor; assumption. Qed.
Theorem C76_char : forall g M w c l, unit_text (Utf g) [c] -> well_formed (enc_of g) false [c] -> segmented (Utf g) [c] l ->
  exists d, well_arg g M (char_arg w (Utf g) c) d.
Proof. intros g M w c l HU HW HS. eexists. split; [apply (C47_char M w (Utf g) c l I HU HS)|exact HW]. Qed.
Theorem C76_formatted_char32 : forall g M w al count c l, printable g c -> printable g (al_fill al) -> segmented (Utf U32) [c] l -> align_ok al -> al_width al <= 32767 * 65536 -> 0 <= count ->
  let m := missing (al_width al) (seg_width w l * count) in
  zlen (padded (al_align al) (cs_encode (charset_of (Utf g)) (al_fill al)) m (concat (repeat (cs_encode (charset_of (Utf g)) c) (Z.to_nat count)))) < ssize_max ->
  exists d, well_arg g M (fmt_char32_arg w (Utf g) al count c) d.
Proof.
  intros g M w al count c l Hc Hf HS HA HW HN m HZ. eexists. split; [apply (C47_formatted_char32 M w (Utf g) al count c l I (proj1 Hc) HS HA HW HN HZ)|].
  apply well_padded; [apply well_char, Hf|]. apply repeat_well, well_char, Hc.
Qed.
Theorem C76_formatted_bool : forall g M lc al x, align_ok al -> al_width al <= 32767 * 65536 -> printable g (al_fill al) -> exists d, well_arg g M (fmt_bool_arg lc (Utf g) al x) d.
Proof.
  intros g M lc al x HA HW Hf. eexists. split; [apply (C47_formatted_bool M lc (Utf g) al x I HA HW)|].
  apply well_padded; [apply well_char, Hf|]. apply (closed_ascii _ (well_nil g) (well_app g) (well_ascii g)). destruct lc, x; repeat constructor; lia.
Qed.
Theorem C76_integer_argument : forall g M F gs rep f al sgn s v, facets_ok F gs rep -> if_cs F = utf_charset g -> IntSpec.in_int sgn (sbits s) v ->
  align_ok (align_of al) -> opts_ok (opts_of f) -> printable g (al_fill (align_of al)) ->
  let r := request_of F gs rep f al sgn s v in sep_ok F f r -> reserves F f al r -> 0 <= int_text_width r <= 32767 ->
  exists d, well_arg g M (of_printed (int_print F f al sgn s v)) d.
Proof.
  intros g M F gs rep f al sgn s v HF EC Hv HA HO Hf r HS HR HW. eexists. split; [exact (C47_integer M F gs rep f al sgn s v HF Hv HA HO HS HR HW)|].
  cbn [whole d_text]. destruct (C39_integer_text F gs rep f al sgn s v HF Hv HA HO HS) as (p & E & T). rewrite <- T.
  destruct (C76_integer g F gs rep f al sgn s v HF EC Hv HA HO Hf) as (p' & E' & W). rewrite E in E'. injection E' as <-. exact W.
Qed.
(* joins, aligned or not *)
Theorem C76_join : forall g M args ds, Forall2 (well_arg g M) args ds -> well_arg g M (join_arg args) (join_desc ds).
Proof. intros g M args ds H. destruct (split_well _ _ _ _ H) as [H1 H2]. split; [apply C45_join, H1|apply well_concat, H2]. Qed.
Theorem C76_aligned_join : forall g M al args ds, align_ok al -> 0 <= al_width al -> printable g (al_fill al) ->
  Forall2 (well_arg g (join_limit M (al_width al))) args ds -> join_room M (al_width al) ds -> zlen (d_text (aligned_join_desc (Utf g) al ds)) < ssize_max ->
  well_arg g M (aligned_join_arg (Utf g) al args) (aligned_join_desc (Utf g) al ds).
Proof.
  intros g M al args ds HA HW Hf H HJ HZ. destruct (split_well _ _ _ _ H) as [H1 H2]. split; [apply C45_aligned_join_partial; auto; exact I|].
  unfold aligned_join_desc. cbn [d_text]. apply well_padded; [cbn [charset_of]; apply well_char, Hf|apply well_concat, H2].
Qed.
(* ranges, separated or not *)
Theorem C76_range : forall g M args ds, Forall2 (well_arg g M) args ds -> zlen args < 2 ^ 64 -> well_arg g M (range_arg args) (join_desc ds).
Proof. intros g M args ds H HZ. destruct (split_well _ _ _ _ H) as [H1 H2]. split; [apply C54_range; assumption|apply well_concat, H2]. Qed.
Theorem C76_separated_range : forall g M formatted w sep l args ds, unit_text (Utf g) sep -> well_formed (enc_of g) false sep -> segmented (Utf g) sep l ->
  countable w (Utf g) sep -> Forall2 (well_arg g M) args ds -> zlen args < 2 ^ 64 ->
  well_arg g M (sep_range_arg formatted w (Utf g) sep args) (sep_desc sep (seg_width w l) ds).
Proof.
  intros g M fm w sep l args ds HU HW HS HC H HZ. destruct (split_well _ _ _ _ H) as [H1 H2]. split; [apply C54_separated_range; auto; exact I|].
  cbn [sep_desc d_text]. destruct (C54_separated sep) as (E0 & E1 & _). destruct H2 as [|t ts Ht H2]; [rewrite E0; apply well_nil|]. rewrite E1.
  apply well_app; [exact Ht|]. apply well_concat. rewrite Forall_map. eapply Forall_impl; [|exact H2]. intros x Hx. apply well_app; assumption.
Qed.
(* to_string, and to_string.tr of a well-formed tr-string *)
Theorem C76_to_string : forall g M eol args ds, Forall2 (well_arg g M) args ds ->
  exists text, to_string eol args = Some text /\ well_formed (enc_of g) false text.
Proof.
  intros g M eol args ds H. destruct (split_well _ _ _ _ H) as [H1 H2]. eexists. split; [exact (proj1 (C56_to_string M eol args ds H1))|].
  apply well_app; [apply well_concat, H2|apply eol_well].
Qed.
(* to any destination, and appended to a well-formed string *)
Theorem C76_every_destination : forall g M eol args ds, Forall2 (well_arg g M) args ds ->
  exists text, prints_text (print_args eol args) text /\ well_formed (enc_of g) false text.
Proof.
  intros g M eol args ds H. destruct (split_well _ _ _ _ H) as [H1 H2]. eexists. split; [exact (print_args_ok M eol args ds H1)|].
  apply well_app; [apply well_concat, H2|apply eol_well].
Qed.
Theorem C76_append : forall g M str eol args ds, well_formed (enc_of g) false str -> Forall2 (well_arg g M) args ds ->
  exists text, append_to str eol args = Some text /\ well_formed (enc_of g) false text.
Proof.
  intros g M str eol args ds HS H. destruct (split_well _ _ _ _ H) as [H1 H2]. eexists. split; [exact (proj1 (C56_append M str eol args ds H1))|].
  apply well_app; [exact HS|]. apply well_app; [apply well_concat, H2|apply eol_well].
Qed.
Theorem C76_tr : forall g M eol str args ds, well_formed (enc_of g) false str -> Forall2 (well_arg g M) args ds -> zlen args < 2 ^ 59 ->
  exists text, to_string_tr eol (Utf g) str args = Some text /\ well_formed (enc_of g) false text.
Proof.
  intros g M eol str args ds HS H HN. destruct (split_well _ _ _ _ H) as [H1 H2]. destruct (C51_every_string str) as (ps & HP & _). eexists.
  split; [exact (proj1 (C51_to_string M eol (Utf g) str ps args ds HP H1 HN))|].
  apply well_app; [|apply eol_well]. apply items_well; [exact H2|]. exact (proj1 (pieces_well g) 0 str ps HP HS).
Qed.

(* single-byte charsets: what numbers print is made of bytes the charset assigns a character to, whatever the fill character, separator and point *)
Definition assigned (cs : sbcs) (s : list Z) : Prop := Forall (fun b => 0 <= b < 256 /\ sb_valid cs b = true) s.
Lemma assigned_ascii cs c : is_sbcs cs -> 0 <= c < 128 -> assigned cs [c].
Proof. intros HI Hc. constructor; [|constructor]. split; [lia|]. apply (proj1 (proj2 (proj2 (C31_ascii cs c HI Hc)))). Qed.
Lemma enc_fffd : forallb (fun cs => match sb_encode cs 0xFFFD with Some e => e =? 63 | None => false end) all_sbcs = true.
Proof. vm_compute. reflexivity. Qed.
Definition exceptional : list (nat * Z) := map (pair 20%nat) [0xD0; 0xDD; 0xDE; 0xF0; 0xFD; 0xFE] ++ [(24%nat, 0x9F)].
Lemma exceptional_valid : forallb (fun ic => match nth_error all_sbcs (fst ic) with
  | Some cs => match sb_encode cs (snd ic) with Some e => (0x100 <=? e) || sb_valid cs e | None => false end | None => false end) exceptional = true.
Proof. vm_compute. reflexivity. Qed.
Definition pair_dec (a b : nat * Z) : {a = b} + {a <> b}.
Proof. decide equality; [apply Z.eq_dec|apply Nat.eq_dec]. Defined.
Lemma assigned_char cs c : is_sbcs cs -> 0 <= c < 2 ^ 32 -> assigned cs (cs_encode (sb_charset cs) c).
Proof.
  intros HI Hc. destruct (C30_encode_char cs c HI Hc) as (e & E & E1 & _ & _). cbn [sb_charset cs_encode]. rewrite E1.
  destruct (Z.ltb_spec e 0x100) as [Hlt|Hge]; [|apply assigned_ascii; [exact HI|lia]].
  destruct (In_nth_error _ _ HI) as [i Hi]. destruct (C30_decode_encode_partial i cs c Hi Hc) as (e' & E' & H0 & HD). rewrite E in E'. injection E' as <-.
  constructor; [|constructor]. split; [lia|]. destruct (C30_encode_decode cs e HI ltac:(lia)) as (c' & D & _ & V & _).
  destruct (Z.eq_dec c 0xFFFD) as [->|Hne].
  { pose proof enc_fffd as HN. rewrite forallb_forall in HN. specialize (HN cs HI). rewrite E in HN. apply Z.eqb_eq in HN. subst e.
    apply (proj1 (proj2 (proj2 (C31_ascii cs 63 HI ltac:(lia))))). }
  assert (HX : In (i, c) exceptional \/ ~ In (i, c) exceptional) by (destruct (in_dec pair_dec (i, c) exceptional); auto).
  destruct HX as [HX|HX].
  - pose proof exceptional_valid as HV. rewrite forallb_forall in HV. specialize (HV _ HX). cbn [fst snd] in HV. rewrite Hi, E in HV. apply orb_prop in HV. destruct HV as [HV|HV]; [lia|exact HV].
  - rewrite HD in D; [injection D as <-; rewrite V; apply negb_true_iff, Z.eqb_neq, Hne|exact Hlt|exact Hne| |].
    + intros -> HIn. apply HX. unfold exceptional. apply in_or_app. left. apply in_map, HIn.
    + intros -> ->. apply HX. unfold exceptional. apply in_or_app. right. left. reflexivity.
Qed.
Lemma assigned_app cs a b : assigned cs a -> assigned cs b -> assigned cs (a ++ b).
Proof. intros H1 H2. apply Forall_app. auto. Qed.
Theorem C76_integer_bytes : forall cs F gs rep f al sgn s v, is_sbcs cs -> facets_ok F gs rep -> if_cs F = sb_charset cs -> IntSpec.in_int sgn (sbits s) v ->
  align_ok (align_of al) -> opts_ok (opts_of f) ->
  exists p, int_print F f al sgn s v = Some p /\ assigned cs (ops_text (pr_ops p)).
Proof.
  intros cs F gs rep f al sgn s v HI HF EC Hv Hal Ho. apply (int_closed (assigned cs) F gs rep); auto using assigned_app, assigned_ascii.
  - constructor.
  - rewrite EC. apply assigned_char; [exact HI|apply Hal].
  - intros b _. rewrite EC. apply assigned_char; [exact HI|apply (fk_sep _ _ _ HF)].
Qed.
Theorem C76_double_bytes : forall cs F gs rep f al b, is_sbcs cs -> ffacets_ok F gs rep -> fk_charset F = sb_charset cs -> separator_fine F gs f -> align_ok al ->
  -1 <= ff_precision f <= 2 ^ 30 -> ff_pad0 f <= 2 ^ 30 -> 0 <= b < 2 ^ 64 ->
  exists p, punct_double F f al (double_of_bits b) = Some p /\ assigned cs (ops_text (pr_ops p)).
Proof.
  intros cs F gs rep f al b HI HF EC HS HA H1 H2 Hb.
  assert (H0 : 0 <= float_point F f < 2 ^ 32) by (destruct HF; unfold float_point; destruct (ff_punct f), (is_hex (ff_notation f)); lia).
  assert (Ps : assigned cs (cs_encode (fk_charset F) (fk_thousands F))) by (rewrite EC; apply assigned_char; [exact HI|apply HF]).
  destruct (always_closed (assigned cs) (Forall_nil _) (assigned_app cs) (fun c => assigned_ascii cs c HI) F gs rep f al _ HF HA (double_value_ok b Hb) H1 H2) as (p & E & _ & T).
  - rewrite EC. apply assigned_char; [exact HI|apply HA].
  - rewrite EC. apply assigned_char; assumption.
  - intros _. exact Ps.
  - intros Hg Hl. rewrite <- (HS Hg Hl). exact Ps.
  - eauto.
Qed.
Theorem C76_float_bytes : forall cs F gs rep f al b, is_sbcs cs -> ffacets_ok F gs rep -> fk_charset F = sb_charset cs -> separator_fine F gs f -> align_ok al ->
  -1 <= ff_precision f <= 2 ^ 30 -> ff_pad0 f <= 2 ^ 30 -> 0 <= b < 2 ^ 32 ->
  exists p, punct_double F f al (float_of_bits b) = Some p /\ assigned cs (ops_text (pr_ops p)).
Proof.
  intros cs F gs rep f al b HI HF EC HS HA H1 H2 Hb.
  assert (H0 : 0 <= float_point F f < 2 ^ 32) by (destruct HF; unfold float_point; destruct (ff_punct f), (is_hex (ff_notation f)); lia).
  assert (Ps : assigned cs (cs_encode (fk_charset F) (fk_thousands F))) by (rewrite EC; apply assigned_char; [exact HI|apply HF]).
  destruct (always_closed (assigned cs) (Forall_nil _) (assigned_app cs) (fun c => assigned_ascii cs c HI) F gs rep f al _ HF HA (float_value_ok b Hb) H1 H2) as (p & E & _ & T).
  - rewrite EC. apply assigned_char; [exact HI|apply HA].
  - rewrite EC. apply assigned_char; assumption.
  - intros _. exact Ps.
  - intros Hg Hl. rewrite <- (HS Hg Hl). exact Ps.
  - eauto.
Qed.

(* windows-1252: 1234567 with a middle dot as separator, filled with U+1F600, which the charset lacks, and with U+20AC, which it has *)
Definition Fw : int_facets := mk_facets true (sb_charset windows_1252) LLower (fun _ => pack [3] true) (fun _ => 0xB7).
Lemma in_1252 : is_sbcs windows_1252.
Proof. apply nth_error_In with (n := 18%nat). reflexivity. Qed.
Lemma Fw_ok : facets_ok Fw (fun _ => [3]) (fun _ => true).
Proof. split; [apply sb_charset_ok, in_1252|intros b; split; [split; [repeat constructor; lia|cbn; lia]|split; [discriminate|reflexivity]]|intros; cbn; lia]. Qed.
Example C76_integer_bytes_ex : let f := FStatic B10 true 0 0 PositiveAlso false in
  (forall fill, 0 <= fill < 2 ^ 32 -> align_ok (mk_align fill (11 * 65536) ARight)) /\ opts_ok (opts_of f) /\
  option_map (fun p => ops_text (pr_ops p)) (int_print Fw f (Some (mk_align 0x1F600 (11 * 65536) ARight)) true S4 1234567) = Some [63; 43; 49; 0xB7; 50; 51; 52; 0xB7; 53; 54; 55] /\
  option_map (fun p => ops_text (pr_ops p)) (int_print Fw f (Some (mk_align 0x20AC (11 * 65536) ARight)) true S4 1234567) = Some [0x80; 43; 49; 0xB7; 50; 51; 52; 0xB7; 53; 54; 55] /\
  ~ assigned iso_8859_3 [0xA5].
Proof.
  cbv zeta. split; [intros fill Hf; split; [cbn; lia|vm_compute; split; discriminate]|]. split; [split; cbn; lia|]. split; [vm_compute; reflexivity|]. split; [vm_compute; reflexivity|].
  intros H. inversion H as [|b l [_ E] _]; subst. vm_compute in E. discriminate.
Qed.
(* the point, U+066B, is not in windows-1252 *)
Definition FLw : float_facets := mk_ffacets true 8 (sb_charset windows_1252) LLower (pack [3] true) 0xB7 0x66B 0x2C.
Example C76_double_bytes_ex : let f := mk_ffmt (-1) 0 NFixed NegativeOnly false true in
  ffacets_ok FLw [3] true /\ separator_fine FLw [3] f /\
  option_map (fun p => ops_text (pr_ops p)) (punct_double FLw f (mk_align 0x20AC (13 * 65536) ARight) (double_of_bits 0xC132D68780000000)) =
    Some [0x80; 45; 49; 0xB7; 50; 51; 52; 0xB7; 53; 54; 55; 63; 53].
Proof.
  cbv zeta. split; [split; [apply sb_charset_ok, in_1252|split; [split; [repeat constructor; lia|cbn; lia]|split; [discriminate|reflexivity]]|cbn; lia..]|].
  split; [intros _ _; vm_compute; reflexivity|vm_compute; reflexivity].
Qed.

(* the hypothesis on the fill character is needed: a surrogate is encoded as such *)
Definition F8w : int_facets := mk_facets true (utf_charset UtfForms.U8) LLower (fun _ => pack [3] true) (fun _ => 0x1F600).
Lemma F8w_ok : facets_ok F8w (fun _ => [3]) (fun _ => true).
Proof. split; [apply utf_charset_ok|intros b; split; [split; [repeat constructor; lia|cbn; lia]|split; [discriminate|reflexivity]]|intros; cbn; lia]. Qed.
Example C76_fill_needed : let al := mk_align 0xD800 (3 * 65536) ARight in align_ok al /\ ~ printable UtfForms.U8 (al_fill al) /\
  exists p, int_print F8w FDefault (Some al) true S4 42 = Some p /\ ~ well_formed (enc_of UtfForms.U8) false (ops_text (pr_ops p)).
Proof.
  cbv zeta. split; [split; [cbn; lia|vm_compute; split; discriminate]|]. split; [intros (_ & H & _); apply H; cbn; lia|].
  eexists. split; [vm_compute; reflexivity|]. intros (cps & HV & E). vm_compute (ops_text _) in E.
  inversion HV as [|cp cs ((H1 & H2) & H3) HV']; subst; [discriminate|]. destruct H3 as [H3|H3]; [discriminate|]. unfold is_surr in H3.
  cbn [encode flat_map enc_of] in E. unfold enc8 in E.
  assert (M : forall k, 0 <= k mod 64 < 64) by (intros k; apply Z.mod_pos_bound; lia). pose proof (M (cp / 64)) as M1. pose proof (M cp) as M2. clear M HV HV'.
  destruct (Z.ltb_spec cp 0x80); [|destruct (Z.ltb_spec cp 0x800); [|destruct (Z.ltb_spec cp 0x10000)]]; cbn [app] in E;
    pose proof (f_equal (fun l => nth 0 l 0) E) as E0; pose proof (f_equal (fun l => nth 1 l 0) E) as E1; pose proof (f_equal (fun l => nth 2 l 0) E) as E2; clear E; cbv beta in E0, E1, E2; cbn [nth] in E0, E1, E2.
  - lia.
  - clear E1 E2. assert (cp / 64 < 32) by (apply Z.div_lt_upper_bound; lia). lia.
  - pose proof (Z.div_mod cp 64 ltac:(lia)). pose proof (Z.div_mod (cp / 64) 64 ltac:(lia)) as D. rewrite Zdiv_Zdiv in D by lia. change (64 * 64) with 4096 in D. lia.
  - clear E1 E2. assert (0 <= cp / 262144) by (apply Z.div_pos; lia). lia.
Qed.
(* a destination that runs out of room keeps what fits (C08, C09): it may cut a character *)
Example C76_cut_ex : exists s, print_args false [string_arg FastWidth NoTranscode (Utf UtfForms.U8) (Utf UtfForms.U8) true None None [97; 0xC3; 0xA9]] cstr cstr_ops (cstr_init [0; 0; 0]) = Some s /\
  cstr_finish s = Some ([97; 0xC3; 0], (true, 2%nat), true).
Proof. eexists. split; vm_compute; reflexivity. Qed.
(* 1234567 with U+1F600 as separator, filled with U+20AC *)
Example C76_integer_ex : let al := mk_align 0x20AC (11 * 65536) ARight in let f := FStatic B10 true 0 0 PositiveAlso false in
  align_ok al /\ opts_ok (opts_of f) /\ printable UtfForms.U8 (al_fill al) /\
  option_map (fun p => ops_text (pr_ops p)) (int_print F8w f (Some al) true S4 1234567) =
    Some (encode (enc_of UtfForms.U8) [0x20AC; 43; 49; 0x1F600; 50; 51; 52; 0x1F600; 53; 54; 55]).
Proof.
  cbv zeta. split; [split; [cbn; lia|vm_compute; split; discriminate]|]. split; [split; cbn; lia|]. split; [split; [cbn; lia|split; [cbn; lia|discriminate]]|].
  vm_compute. reflexivity.
Qed.
(* -1234567.5 with U+1F600 as separator and U+066B as point, 15 columns filled with U+20AC *)
Definition FL8w : float_facets := mk_ffacets true 8 (utf_charset UtfForms.U8) LLower (pack [3] true) 0x1F600 0x66B 0x66B.
Example C76_double_ex : let al := mk_align 0x20AC (15 * 65536) ARight in let f := mk_ffmt (-1) 0 NFixed NegativeOnly false true in
  ffacets_ok FL8w [3] true /\ align_ok al /\ printable UtfForms.U8 (al_fill al) /\ printable UtfForms.U8 (float_point FL8w f) /\
  option_map (fun p => ops_text (pr_ops p)) (punct_double FL8w f al (double_of_bits 0xC132D68780000000)) =
    Some (encode (enc_of UtfForms.U8) [0x20AC; 0x20AC; 0x20AC; 45; 49; 0x1F600; 50; 51; 52; 0x1F600; 53; 54; 55; 0x66B; 53]).
Proof.
  cbv zeta. split; [split; [apply utf_charset_ok|split; [split; [repeat constructor; lia|cbn; lia]|split; [discriminate|reflexivity]]|cbn; lia..]|].
  split; [split; [cbn; lia|vm_compute; split; discriminate]|]. split; [split; [cbn; lia|split; [cbn; lia|discriminate]]|]. split; [split; [cbn; lia|split; [cbn; lia|discriminate]]|].
  vm_compute. reflexivity.
Qed.
(* a malformed string, a boolean and a number in a tr-string *)
Example C76_tr_ex : exists text,
  to_string_tr false (Utf UtfForms.U8) [0xC3; 0xA9; 123; 125; 61; 123; 125] [string_arg FastWidth SaniAlways (Utf UtfForms.U16) (Utf UtfForms.U8) false None None [0x41; 0xD800]; bool_arg LLower true] = Some text /\
  text = encode (enc_of UtfForms.U8) [0xE9; 0x41; 0xFFFD; 61; 116; 114; 117; 101].
Proof. eexists. split; vm_compute; reflexivity. Qed.

Print Assumptions C76_integer.
Print Assumptions C76_pointer.
Print Assumptions C76_double.
Print Assumptions C76_float.
Print Assumptions C76_rendered.
Print Assumptions C76_string.
Print Assumptions C76_formatted_string.
Print Assumptions C76_char32.
Print Assumptions C76_bool.
Print Assumptions C76_default_float.
Print Assumptions C76_join.
Print Assumptions C76_aligned_join.
Print Assumptions C76_to_string.
Print Assumptions C76_tr.
Print Assumptions C76_well_formed_source.
Print Assumptions C76_char.
Print Assumptions C76_formatted_char32.
Print Assumptions C76_formatted_bool.
Print Assumptions C76_integer_argument.
Print Assumptions C76_every_destination.
Print Assumptions C76_append.
Print Assumptions C76_range.
Print Assumptions C76_separated_range.
Print Assumptions C76_integer_bytes.
Print Assumptions C76_double_bytes.
Print Assumptions C76_float_bytes.
