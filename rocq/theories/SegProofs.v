(* Segmented texts: decoding, counting and measuring them. *)
From Verif Require Import Base WidthModel WidthProofs DestModel UtfSpec UtfModel UtfSizeModel UtfForms UtfDecode UtfLoop UtfTheorems Properties_Utf
  CharsetModel TransSpec SbcsTables SbcsModel SbcsSpec SbcsProofs Properties_Sbcs PivotModel PivotProofs CsetModel CsetProofs Properties_Pivot
  GcbTable GcbSpec WCalcModel GcbCheck WCalcProofs Properties_WCalc IntSpec IntModel PrintModel StringModel PrintSpec StringSpec.

Lemma code_cp_of it : code it = cp_of it.
Proof. destruct it; reflexivity. Qed.
Lemma segs_of_eq f its : segs_of f its = map (fun it => (cp_of it, src_of (enc_of f) it)) its.
Proof. unfold segs_of. apply map_ext. intros it. rewrite code_cp_of. reflexivity. Qed.
Lemma sb_segs cs src l : map (fun b => (sb_decode cs b, [b])) src = map (fun s => (Some (fst s), snd s)) l ->
  l = map (fun b => (decoded cs b, [b])) src.
Proof.
  revert l. induction src as [|b src IH]; intros [|[c u] l] H; try discriminate; [reflexivity|]. cbn [map fst snd] in *.
  injection H as E <- H. rewrite (IH l H). unfold decoded. rewrite E. reflexivity.
Qed.
Lemma segmented_exists a src : is_cset a -> unit_text a src -> exists l, segmented a src l.
Proof.
  intros HA HU. destruct a as [f|i cs]; cbn [segmented].
  - destruct (items_exist_of f false src HU) as [its HI]. eauto.
  - exists (map (fun b => (decoded cs b, [b])) src). rewrite map_map. cbn [fst snd]. apply map_ext_in. intros b Hb.
    rewrite (decode_some cs _ (all_ok i cs HA) b); [reflexivity|]. unfold unit_text in HU. rewrite Forall_forall in HU. apply (HU b Hb).
Qed.
Lemma singles (src : list Z) : concat (map (fun b => [b]) src) = src.
Proof. induction src as [|b src IH]; [reflexivity|]. cbn [map concat app]. rewrite IH. reflexivity. Qed.
Lemma segmented_units a src l : segmented a src l -> seg_units l = src.
Proof.
  destruct a as [f|i cs]; cbn [segmented].
  - intros (its & HI & ->). unfold seg_units. rewrite map_map. cbn [snd]. rewrite (items_src _ _ _ _ HI). symmetry. apply flat_map_concat_map.
  - intros H. rewrite (sb_segs _ _ _ H). unfold seg_units. rewrite map_map. cbn [snd]. apply singles.
Qed.
Lemma segmented_text a src l : segmented a src l -> text_in a false src (seg_points l).
Proof.
  destruct a as [f|i cs]; cbn [segmented text_in].
  - intros (its & HI & ->). exists its. split; [exact HI|]. unfold seg_points. rewrite map_map. reflexivity.
  - intros H. unfold seg_points. apply (f_equal (map fst)) in H. rewrite !map_map in H. cbn [fst] in H. rewrite map_map. exact H.
Qed.
Lemma items_prefix enc lax done : forall todo src, items enc lax src (done ++ todo) -> items enc lax (srcs_of enc done) done.
Proof.
  induction done as [|it done IH]; intros todo src H; [constructor|]. cbn [app] in H. inversion H as [|cp rest its HV HL HI E1 E2|bad rest its HUn HM HI E1 E2]; subst.
  - cbn [srcs_of flat_map src_of]. constructor; [exact HV| |eapply IH; exact HI]. intros cp' V' P. apply HL; [exact V'|].
    destruct P as [w P]. pose proof (items_src enc lax _ _ HI) as E. exists (w ++ srcs_of enc todo). rewrite app_assoc, <- P, <- app_assoc.
    f_equal. rewrite E. unfold srcs_of. symmetry. rewrite flat_map_app. reflexivity.
  - pose proof (items_src enc lax _ _ HI) as E. unfold srcs_of in E. rewrite flat_map_app in E.
    assert (forall w, is_prefix w (bad ++ flat_map (src_of enc) done) -> is_prefix w (bad ++ rest)) as HP.
    { intros w [v P]. exists (v ++ flat_map (src_of enc) todo). rewrite app_assoc, <- P, <- app_assoc. f_equal. exact E. }
    cbn [srcs_of flat_map src_of]. constructor.
    + intros cp V P. apply (HUn cp V). apply HP, P.
    + destruct HM as (M1 & M2 & M3). split; [eexists; reflexivity|]. split; [exact M2|]. intros w P I. apply (M3 w); [apply HP, P|exact I].
    + eapply IH; exact HI.
Qed.
Lemma segmented_app a src l m : segmented a src (l ++ m) -> segmented a (seg_units l) l /\ segmented a (seg_units m) m.
Proof.
  destruct a as [f|i cs]; cbn [segmented].
  - intros (its & HI & E). symmetry in E. apply map_eq_app in E as (i1 & i2 & -> & <- & <-).
    assert (forall its, seg_units (map (fun it => (cp_of it, src_of (enc_of f) it)) its) = srcs_of (enc_of f) its) as EU.
    { intros its. unfold seg_units. rewrite map_map. cbn [snd]. symmetry. apply flat_map_concat_map. }
    rewrite !EU. split; [exists i1; split; [eapply items_prefix; exact HI|reflexivity]|exists i2; split; [eapply items_suffix; exact HI|reflexivity]].
  - intros H. rewrite map_app in H. apply map_eq_app in H as (s1 & s2 & -> & E1 & E2).
    assert (forall s l, map (fun b => (sb_decode cs b, [b])) s = map (fun x => (Some (fst x), snd x)) l -> seg_units l = s) as EU.
    { intros s l0 H. rewrite (sb_segs _ _ _ H). unfold seg_units. rewrite map_map. cbn [snd]. apply singles. }
    rewrite (EU _ _ E1), (EU _ _ E2). auto.
Qed.
Lemma seg_units_app l m : seg_units (l ++ m) = seg_units l ++ seg_units m.
Proof. unfold seg_units. rewrite map_app, concat_app. reflexivity. Qed.

(* ---- decoding ---- *)
Lemma run_steps_units {A} (f : A -> step) (l : list A) : (forall x, length (st_out (f x)) = 1%nat) -> (forall x, st_stop (f x) = None) ->
  forall n : nat, r_out (run_steps (map f l) (Z.of_nat n)) = outs (map f (firstn n l)) /\
    r_rest (run_steps (map f l) (Z.of_nat n)) = srcs (map f (skipn n l)) /\
    r_reason (run_steps (map f l) (Z.of_nat n)) = if (n <? length l)%nat then RInsufficient else RCompleted.
Proof.
  intros HO HS. induction l as [|x l IH]; intros n; [rewrite firstn_nil, skipn_nil; destruct n; auto|]. cbn [map run_steps]. rewrite HS.
  unfold zlen. rewrite HO. destruct n as [|n].
  - cbn [Z.of_nat Z.leb Z.compare firstn skipn map r_out r_rest r_reason]. auto.
  - replace (Z.of_nat 1 <=? Z.of_nat (S n)) with true by lia. cbv zeta. cbn [r_out r_rest r_reason firstn skipn map length].
    replace (Z.of_nat (S n) - Z.of_nat 1) with (Z.of_nat n) by lia. destruct (IH n) as (-> & -> & ->). split; [reflexivity|]. split; reflexivity.
Qed.
Lemma cset_decodes a src l : is_cset a -> unit_text a src -> segmented a src l -> decodes (decode_u32 a) (decode_u32_size a) l.
Proof.
  intros HA HU HS. destruct a as [f|i cs]; cbn [segmented] in HS.
  - destruct HS as (its & HI & ->). rewrite <- segs_of_eq. exact (utf_decodes f false src its HU HI).
  - rewrite (sb_segs _ _ _ HS). clear HS l. pose proof (all_ok i cs HA) as OK. change (Forall (fun c => 0 <= c < 256) src) in HU.
    split; [|split].
    + unfold in_code_space, seg_cps. rewrite map_map. cbn [fst]. apply Forall_map. eapply Forall_impl; [|exact HU]. cbv beta. intros b Hb.
      pose proof (decoded_range cs _ OK b Hb). lia.
    + apply Forall_map. apply Forall_forall. intros b _. cbn. discriminate.
    + intros p q E n. apply map_eq_app in E as (s1 & s2 & -> & <- & <-). apply Forall_app in HU as [_ HU].
      assert (seg_src (map (fun b => (decoded cs b, [b])) s2) = s2) as EU by (unfold seg_src; rewrite map_map; cbn [snd]; apply singles).
      assert (forall s, srcs (map (to_step cs flags_none) s) = s) as ES by (intros s; apply srcs_units; reflexivity).
      destruct (run_steps_units (to_step cs flags_none) s2) with (n := n) as (R1 & R2 & R3); [reflexivity|intros x; cbn; rewrite andb_false_r; reflexivity|].
      rewrite EU. split.
      * cbn [decode_u32]. rewrite (to_u32_steps cs _ OK) by (first [assumption|lia]). cbn [obind]. eexists. split; [reflexivity|]. cbn [t_out t_rest t_reason].
        rewrite R1, R2, R3, ES. split; [|split].
        -- unfold seg_cps. rewrite firstn_map, map_map. cbn [fst]. clear. induction (firstn n s2) as [|b s IH]; [reflexivity|]. cbn [map]. rewrite PivotProofs.outs_cons, IH. reflexivity.
        -- unfold seg_src. rewrite skipn_map, map_map. cbn [snd]. symmetry. apply singles.
        -- rewrite map_length. destruct (n <? length s2)%nat; reflexivity.
      * cbn [decode_u32_size]. rewrite (to_u32_size_steps cs _ flags_none s2 _ OK) by (first [assumption|lia]). cbn [obind]. eexists. split; [reflexivity|].
        cbn [s_rest size_of_result z_rest]. rewrite R2, ES. unfold seg_src. rewrite skipn_map, map_map. cbn [snd]. symmetry. apply singles.
Qed.

(* ---- counting ---- *)
Lemma good_items its : existsb is_bad its = false -> its = map Good (map cp_of its).
Proof. induction its as [|[c|b] its IH]; cbn; intros H; [reflexivity|f_equal; apply IH, H|discriminate]. Qed.
Lemma cset_count a fast src l max : is_cset a -> unit_text a src -> segmented a src l -> 0 <= max -> (fast = true -> well_formed_in a false src) ->
  count_cps fast a src max = Some (Z.min (zlen l) max, seg_units (skipn (Z.to_nat max) l)).
Proof.
  intros HA HU HS HM HW. destruct a as [f|i cs]; cbn [segmented count_cps] in *.
  - destruct HS as (its & HI & ->).
    assert (count_of f src max = Some (Z.min (zlen (map (fun it => (cp_of it, src_of (enc_of f) it)) its)) max,
      seg_units (skipn (Z.to_nat max) (map (fun it => (cp_of it, src_of (enc_of f) it)) its)))) as HC.
    { rewrite (C29_count_codepoints f src its max HU HM HI). unfold zlen. rewrite map_length. f_equal. f_equal. unfold seg_units. rewrite skipn_map, map_map. cbn [snd].
      apply flat_map_concat_map. }
    destruct fast; [|exact HC]. destruct (HW eq_refl) as (its' & HI' & HB). rewrite (items_det_of _ _ _ _ _ HI' HI) in HB.
    assert (valid_text false (map cp_of its)) as HV.
    { apply Forall_map. pose proof (items_valid _ _ _ _ HI) as X. clear - X HB. induction X as [|[c|b] its H X IH]; [constructor| |discriminate].
      constructor; [exact H|]. apply IH. exact HB. }
    assert (src = encode (enc_of f) (map cp_of its)) as ->.
    { rewrite (items_src _ _ _ _ HI). rewrite (good_items its HB) at 1. unfold srcs_of, encode. clear. induction (map cp_of its) as [|c l IH]; [reflexivity|].
      cbn [map flat_map src_of]. rewrite IH. reflexivity. }
    destruct (C29_count_codepoints_fast f _ max HV HM) as [_ E]. rewrite <- E. exact HC.
  - rewrite (sb_segs _ _ _ HS). rewrite C32_count by assumption. unfold zlen. rewrite map_length. rewrite Z.min_comm. f_equal. f_equal.
    unfold seg_units. rewrite skipn_map, map_map. cbn [snd]. rewrite singles.
    destruct (Z.le_gt_cases (Z.of_nat (length src)) max).
    + rewrite Z.min_l by lia. rewrite Nat2Z.id, skipn_all. rewrite skipn_all2; [reflexivity|lia].
    + rewrite Z.min_r by lia. reflexivity.
Qed.

(* ---- str_width ---- *)
Lemma seg_width_nonneg w l : 0 <= seg_width w l.
Proof.
  unfold seg_width. destruct w; [pose proof (zlen_nonneg (seg_units l))|pose proof (zlen_nonneg l)|pose proof (zlen_nonneg l)|]; try lia.
  pose proof (tw_nonneg (seg_points l) []) as H. unfold tw, props in H. exact H.
Qed.
Lemma wc_str_width_ok w a limit src l : is_cset a -> unit_text a src -> segmented a src l -> countable w a src -> is_width limit ->
  exists sw, wc_str_width w a limit src = Some sw /\ 0 <= sw <= seg_width w l /\ (sw = seg_width w l \/ limit <= sw) /\
    sw <= Z.max 0 limit + slack w /\ sw <= u_max.
Proof.
  intros HA HU HS HC HL. pose proof (seg_width_nonneg w l) as HN.
  assert (HU32 : forall fast, (fast = true -> well_formed_in a false src) -> exists sw,
     u32len_str_width (count_cps fast a) limit src = Some sw /\ 0 <= sw <= 65536 * zlen l /\ (sw = 65536 * zlen l \/ limit <= sw) /\
    sw <= Z.max 0 limit + 65535 /\ sw <= u_max).
  { intros fast HW. unfold u32len_str_width. rewrite nn_ceil_ok by assumption.
    assert (0 <= (Z.max 0 limit + 65535) / 65536) as Hp by (apply Z.div_pos; lia).
    rewrite (cset_count a fast src l) by assumption. cbn [obind fst]. eexists. split; [reflexivity|]. rewrite sat_cast_signed.
    pose proof (zlen_nonneg l). unfold is_width in HL. unfold WidthProofs.clamp, scaled, u_min, u_max in *.
    pose proof (Z.div_mod (Z.max 0 limit + 65535) 65536 ltac:(lia)). pose proof (Z.mod_pos_bound (Z.max 0 limit + 65535) 65536 ltac:(lia)).
    set (q := (Z.max 0 limit + 65535) / 65536) in *. lia. }
  destruct w; cbn [wc_str_width slack countable] in *.
  - rewrite C48_fast_str_width by assumption. eexists. split; [reflexivity|]. unfold seg_width. rewrite (segmented_units _ _ _ HS).
    pose proof (zlen_nonneg src). unfold is_width, u_max in *. lia.
  - destruct (HU32 true (fun _ => HC)) as (sw & E & H). exists sw. split; [exact E|]. unfold seg_width. exact H.
  - destruct (HU32 false ltac:(discriminate)) as (sw & E & H). exists sw. split; [exact E|]. unfold seg_width. exact H.
  - pose proof (std_str_width_ok _ _ _ (cset_decodes a src l HA HU HS) limit HL) as E.
    change (seg_src l) with (seg_units l) in E. rewrite (segmented_units _ _ _ HS) in E. rewrite E. eexists. split; [reflexivity|].
    change (tw [] (seg_cps l)) with (65536 * clusters_width [] (props (seg_points l))). unfold seg_width in *. unfold props.
    unfold is_width, u_max in *. lia.
Qed.

(* ---- str_width_and_pos ---- *)
Lemma kept_split (p q : list Z) : kept (p ++ q) q = p.
Proof. unfold kept. rewrite app_length. replace (length p + length q - length q)%nat with (length p) by lia. rewrite firstn_app, Nat.sub_diag, firstn_all. cbn. apply app_nil_r. Qed.
Lemma kept_seg n l : kept (seg_units l) (seg_units (skipn n l)) = seg_units (firstn n l).
Proof. rewrite <- (firstn_skipn n l) at 1. rewrite seg_units_app. apply kept_split. Qed.
Lemma wc_width_and_pos_ok w a prec src l : is_cset a -> unit_text a src -> segmented a src l -> countable w a src -> is_width prec ->
  (w = StdWidth -> 0 <= prec) ->
  exists W rest, wc_width_and_pos w a prec src = Some (W, rest) /\ src = kept src rest ++ rest /\ kept_by w prec l (kept src rest) W /\
    0 <= W <= seg_width w l /\ W <= Z.max 0 prec.
Proof.
  intros HA HU HS HC HL HP. pose proof (seg_width_nonneg w l) as HN. pose proof (segmented_units _ _ _ HS) as EU.
  assert (HU32 : forall fast, (fast = true -> well_formed_in a false src) -> exists n,
     u32len_str_width_and_pos (count_cps fast a) prec src = Some (65536 * Z.of_nat n, seg_units (skipn n l)) /\
     (n <= length l)%nat /\ 65536 * Z.of_nat n <= Z.max 0 prec /\ (forall m, (m <= length l)%nat -> 65536 * Z.of_nat m <= Z.max 0 prec -> (m <= n)%nat)).
  { intros fast HW. unfold u32len_str_width_and_pos. rewrite nn_floor_ok by assumption.
    assert (0 <= Z.max 0 prec / 65536) by (apply Z.div_pos; lia).
    rewrite (cset_count a fast src l) by assumption. cbn [obind fst snd].
    pose proof (zlen_nonneg l). unfold is_width, u_min, u_max in HL.
    pose proof (Z.div_mod (Z.max 0 prec) 65536 ltac:(lia)). pose proof (Z.mod_pos_bound (Z.max 0 prec) 65536 ltac:(lia)).
    set (q := Z.max 0 prec / 65536) in *. exists (Z.to_nat (Z.min (zlen l) q)). unfold zlen in *.
    rewrite Z2Nat.id by lia. split; [|split; [|split]].
    - f_equal. f_equal; [rewrite of_signed; unfold WidthProofs.clamp, scaled, u_max, u_min; lia|].
      f_equal. destruct (Z.le_gt_cases (Z.of_nat (length l)) q).
      + rewrite Z.min_l by lia. rewrite Nat2Z.id, skipn_all. apply skipn_all2. lia.
      + rewrite Z.min_r by lia. reflexivity.
    - lia.
    - lia.
    - intros m Hm Hw. apply Nat2Z.inj_le. rewrite Z2Nat.id by lia. lia. }
  assert (HSplit : forall n, src = kept src (seg_units (skipn n l)) ++ seg_units (skipn n l)).
  { intros n. rewrite <- EU at 1 2. rewrite kept_seg, <- seg_units_app, firstn_skipn. reflexivity. }
  assert (HK : forall n, kept src (seg_units (skipn n l)) = seg_units (firstn n l)) by (intros n; rewrite <- EU; apply kept_seg).
  assert (HU32' : forall fast w', w' = FastU32len \/ w' = U32len -> (fast = true -> well_formed_in a false src) -> exists W rest, u32len_str_width_and_pos (count_cps fast a) prec src = Some (W, rest) /\
     src = kept src rest ++ rest /\ kept_by w' prec l (kept src rest) W /\ 0 <= W <= 65536 * zlen l /\ W <= Z.max 0 prec).
  { intros fast w' Hw' HW. destruct (HU32 fast HW) as (n & E & H1 & H2 & H3). exists (65536 * Z.of_nat n), (seg_units (skipn n l)). split; [exact E|]. split; [apply HSplit|].
    assert (forall m, (m <= length l)%nat -> 65536 * zlen (firstn m l) = 65536 * Z.of_nat m) as HF by (intros m Hm; unfold zlen; rewrite firstn_length; lia).
    split; [|unfold zlen; lia]. rewrite HK. assert (longest U32len l (Z.max 0 prec) n) as HLg.
    { split; [exact H1|]. split; [unfold seg_width; rewrite HF by exact H1; exact H2|]. intros m Hm Hw. apply H3; [exact Hm|]. unfold seg_width in Hw. rewrite HF in Hw by exact Hm. exact Hw. }
    destruct Hw' as [-> | ->]; exists n; (split; [reflexivity|]); (split; [unfold seg_width; rewrite HF by exact H1; reflexivity|exact HLg]). }
  destruct w; cbn [wc_width_and_pos countable] in *.
  - destruct (C48_fast_str_width_and_pos prec src HL) as (n & E & H1 & H2 & H3). rewrite E. cbv zeta. cbn [fst snd]. exists (65536 * n), (skipn (Z.to_nat n) src).
    split; [reflexivity|]. assert (kept src (skipn (Z.to_nat n) src) = firstn (Z.to_nat n) src) as EK.
    { rewrite <- (firstn_skipn (Z.to_nat n) src) at 1. apply kept_split. }
    assert (zlen (firstn (Z.to_nat n) src) = n) as EL by (unfold zlen in *; rewrite firstn_length; lia).
    rewrite EK. split; [symmetry; apply firstn_skipn|]. split; [|unfold seg_width; rewrite EU; lia].
    cbn [kept_by]. rewrite EU. split; [exists (skipn (Z.to_nat n) src); symmetry; apply firstn_skipn|]. rewrite EL. split; [reflexivity|]. split; [exact H2|].
    intros k' [v Hv] Hk. apply H3; [|exact Hk]. rewrite Hv, zlen_app. pose proof (zlen_nonneg k'). pose proof (zlen_nonneg v). lia.
  - exact (HU32' true FastU32len (or_introl eq_refl) (fun _ => HC)).
  - exact (HU32' false U32len (or_intror eq_refl) ltac:(discriminate)).
  - specialize (HP eq_refl). destruct (std_width_and_pos_exact _ _ _ (cset_decodes a src l HA HU HS) prec HL HP) as (n & E & HPos).
    change (seg_src l) with (seg_units l) in E. rewrite EU in E. rewrite E. change (seg_src (skipn n l)) with (seg_units (skipn n l)).
    eexists _, _. split; [reflexivity|]. split; [apply HSplit|].
    assert (forall m, tw [] (seg_cps m) = seg_width StdWidth m) as HT by reflexivity. rewrite HT. split; [|lia].
    rewrite HK. destruct HPos as [Hn HPos]. exists n. split; [reflexivity|]. split; [reflexivity|]. split; [exact Hn|].
    pose proof (fit_ok (seg_cps l) [] prec HP) as HF. pose proof (fun m H => fit_longest (seg_cps l) [] prec m HP H) as HLg.
    assert (forall m, firstn m (seg_cps l) = seg_cps (firstn m l)) as HFc by (intros m; unfold seg_cps; apply firstn_map).
    destruct HPos as [[Hf Hno] | (Hw & k & Hk1 & Hk2 & Hk3 & Hk4)].
    + rewrite HFc, <- Hf in HF. rewrite HT in HF. split; [exact HF|]. left. split.
      * split; [exact Hn|]. split; [exact HF|].
        intros m Hm Hwm. specialize (HLg m). rewrite HFc, HT in HLg. rewrite seg_cps_len, <- Hf in HLg. apply HLg; assumption.
      * intros k (A1 & A2 & A3). apply (Hno k A1 A2). rewrite HT. exact A3.
    + rewrite HT in Hw. split; [lia|]. right. exists k. split; [exact Hk1|]. rewrite Hk1 in Hw. split.
      * split; [exact Hk2|]. split; [lia|]. exact Hw.
      * intros j Hj (A1 & A2 & A3). apply (Hk4 j ltac:(lia)). rewrite HT. exact A3.
Qed.
