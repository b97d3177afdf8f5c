(* C48, C49, C50: the width calculators. *)
From Verif Require Import Base WidthModel WidthProofs UtfSpec UtfModel UtfSizeModel UtfForms UtfDecode UtfLoop UtfTheorems Properties_Utf
  GcbTable GcbSpec WCalcModel GcbCheck WCalcProofs.

(* ---------- C48 ---------- *)
Theorem C48_fast_str_width : forall limit str, is_width limit ->
  fast_str_width limit str = Z.min (Z.max 0 limit) (65536 * zlen str).
Proof.
  intros limit str HL. unfold fast_str_width, is_width, u_min, u_max in *. pose proof (zlen_nonneg str).
  set (nn := if 0 <=? limit then limit else 0). assert (nn = Z.max 0 limit) as -> by (unfold nn; destruct (Z.leb_spec 0 limit); lia).
  rewrite Z.shiftr_div_pow2 by lia. change (2 ^ 16) with 65536.
  pose proof (Z.div_mod (Z.max 0 limit) 65536 ltac:(lia)). pose proof (Z.mod_pos_bound (Z.max 0 limit) 65536 ltac:(lia)).
  destruct (Z.leb_spec (zlen str) (Z.max 0 limit / 65536)); [|lia].
  unfold w_of_unsigned. destruct (Z.leb_spec (zlen str) 32767); [|lia]. rewrite to_i_id by (cbn; lia). lia.
Qed.
(* the longest prefix whose width is not above the limit, and its width *)
Theorem C48_fast_str_width_and_pos : forall limit str, is_width limit ->
  exists n, fast_str_width_and_pos limit str = (65536 * n, n) /\
    0 <= n <= zlen str /\ 65536 * n <= Z.max 0 limit /\
    (forall m, 0 <= m <= zlen str -> 65536 * m <= Z.max 0 limit -> m <= n).
Proof.
  intros limit str HL. unfold fast_str_width_and_pos. pose proof (zlen_nonneg str).
  assert (E : w_nn_floor limit = Z.max 0 limit / 65536).
  { unfold w_nn_floor, is_width, u_min, u_max in *. rewrite Z.shiftr_div_pow2 by lia. change (2 ^ 16) with 65536.
    destruct (Z.leb_spec 0 limit).
    - rewrite Z.max_r by lia. apply to_u_id. change (2 ^ 16) with 65536. split; [apply Z.div_pos; lia|]. apply Z.div_lt_upper_bound; lia.
    - rewrite Z.max_l by lia. reflexivity. }
  rewrite E. unfold is_width, u_min, u_max in *.
  pose proof (Z.div_mod (Z.max 0 limit) 65536 ltac:(lia)). pose proof (Z.mod_pos_bound (Z.max 0 limit) 65536 ltac:(lia)).
  assert (forall x, 0 <= x <= 32767 -> w_of_unsigned x = 65536 * x) as HW.
  { intros x Hx. unfold w_of_unsigned. destruct (Z.leb_spec x 32767); [|lia]. rewrite to_i_id by (cbn; lia). lia. }
  destruct (Z.leb_spec (zlen str) (Z.max 0 limit / 65536)).
  - exists (zlen str). rewrite HW by lia. split; [reflexivity|]. split; [lia|]. split; [lia|]. lia.
  - exists (Z.max 0 limit / 65536). rewrite HW by lia. split; [reflexivity|]. split; [lia|]. split; [lia|]. lia.
Qed.

Lemma nn_ceil_ok limit : is_width limit -> w_nn_ceil limit = (Z.max 0 limit + 65535) / 65536.
Proof.
  intros HL. unfold w_nn_ceil, is_width, u_min, u_max in *.
  assert (to_u 32 (if 0 <=? limit then limit else 0) = Z.max 0 limit) as ->.
  { destruct (Z.leb_spec 0 limit); rewrite to_u_id; change (2 ^ 32) with 4294967296; lia. }
  rewrite Z.shiftr_div_pow2 by lia. rewrite to_u_id by (change (2 ^ 32) with 4294967296; lia). reflexivity.
Qed.
Lemma nn_floor_ok limit : is_width limit -> w_nn_floor limit = Z.max 0 limit / 65536.
Proof.
  unfold w_nn_floor, is_width, u_min, u_max in *. intros. rewrite Z.shiftr_div_pow2 by lia. change (2 ^ 16) with 65536.
  destruct (Z.leb_spec 0 limit).
  - rewrite Z.max_r by lia. apply to_u_id. change (2 ^ 16) with 65536. split; [apply Z.div_pos; lia|]. apply Z.div_lt_upper_bound; lia.
  - rewrite Z.max_l by lia. reflexivity.
Qed.

(* width_as_u32len: for any source, ill-formed or not; its items are the code points and
   the maximal ill-formed subparts *)
Theorem C48_u32len_str_width : forall f limit src its, is_width limit -> units (bits_of f) src ->
  items (enc_of f) false src its ->
  u32len_str_width (count_of f) limit src =
    Some (Z.min u_max (65536 * Z.min (zlen its) ((Z.max 0 limit + 65535) / 65536))).
Proof.
  intros f limit src its HL HU HI. unfold u32len_str_width. rewrite nn_ceil_ok by assumption.
  assert (0 <= (Z.max 0 limit + 65535) / 65536) by (apply Z.div_pos; lia).
  rewrite (C29_count_codepoints f src its) by assumption. cbn [obind fst]. f_equal.
  pose proof (zlen_nonneg its). set (n := Z.min _ _).
  unfold w_sat_cast_signed, u_max. destruct (Z.leb_spec 32768 n); [lia|]. destruct (Z.leb_spec n (-32768)); [lia|].
  rewrite (to_i_id 32 n) by (cbn; lia). rewrite (to_u_id 32 n) by (cbn; lia). rewrite (to_u_id 32 (n * 65536)) by (cbn; lia). rewrite to_i_id by (cbn; lia). lia.
Qed.
Theorem C48_u32len_str_width_and_pos : forall f limit src its, is_width limit -> units (bits_of f) src ->
  items (enc_of f) false src its ->
  exists n, u32len_str_width_and_pos (count_of f) limit src = Some (65536 * n, srcs_of (enc_of f) (skipn (Z.to_nat n) its)) /\
    0 <= n <= zlen its /\ 65536 * n <= Z.max 0 limit /\
    (forall m, 0 <= m <= zlen its -> 65536 * m <= Z.max 0 limit -> m <= n).
Proof.
  intros f limit src its HL HU HI. unfold u32len_str_width_and_pos. rewrite nn_floor_ok by assumption.
  assert (0 <= Z.max 0 limit / 65536) by (apply Z.div_pos; lia).
  rewrite (C29_count_codepoints f src its) by assumption. cbn [obind fst snd].
  pose proof (zlen_nonneg its). unfold is_width, u_min, u_max in HL.
  pose proof (Z.div_mod (Z.max 0 limit) 65536 ltac:(lia)). pose proof (Z.mod_pos_bound (Z.max 0 limit) 65536 ltac:(lia)).
  exists (Z.min (zlen its) (Z.max 0 limit / 65536)). set (q := Z.max 0 limit / 65536) in *. set (n := Z.min _ _) in *.
  split; [|split; [unfold n; lia|split; [unfold n; lia|intros; unfold n; lia]]]. f_equal. f_equal.
  - unfold w_of_signed. destruct (Z.ltb_spec n (-32768)); [lia|]. destruct (Z.ltb_spec 32767 n); [lia|].
    rewrite (to_u_id 16) by (cbn; lia). rewrite (to_u_id 32 n) by (cbn; lia). rewrite (to_u_id 32) by (cbn; lia). rewrite to_i_id by (cbn; lia). lia.
  - f_equal. unfold n. destruct (Z.le_gt_cases q (zlen its)); [rewrite Z.min_r by lia; reflexivity|].
    rewrite Z.min_l by lia. unfold zlen in *. rewrite !skipn_all2 by lia. reflexivity.
Qed.
(* width_as_fast_u32len agrees with width_as_u32len on valid text *)
Theorem C48_fast_u32len_agrees : forall f limit cps, is_width limit -> valid_text false cps ->
  u32len_str_width (count_fast_of f) limit (encode (enc_of f) cps) = u32len_str_width (count_of f) limit (encode (enc_of f) cps) /\
  u32len_str_width_and_pos (count_fast_of f) limit (encode (enc_of f) cps) =
  u32len_str_width_and_pos (count_of f) limit (encode (enc_of f) cps).
Proof.
  intros f limit cps HL HV. unfold u32len_str_width, u32len_str_width_and_pos.
  rewrite nn_ceil_ok, nn_floor_ok by assumption.
  destruct (C29_count_codepoints_fast f cps ((Z.max 0 limit + 65535) / 65536) HV) as [_ ->]; [apply Z.div_pos; lia|].
  destruct (C29_count_codepoints_fast f cps (Z.max 0 limit / 65536) HV) as [_ ->]; [apply Z.div_pos; lia|]. split; reflexivity.
Qed.
(* the width of a concatenation is the sum of the widths, up to the limit *)
Theorem C48_concat : forall f limit cps1 cps2, is_width limit -> valid_text false cps1 -> valid_text false cps2 ->
  65536 * (zlen cps1 + zlen cps2) <= limit ->
  exists w1 w2, u32len_str_width (count_of f) limit (encode (enc_of f) cps1) = Some w1 /\
    u32len_str_width (count_of f) limit (encode (enc_of f) cps2) = Some w2 /\
    u32len_str_width (count_of f) limit (encode (enc_of f) cps1 ++ encode (enc_of f) cps2) = Some (w1 + w2).
Proof.
  intros f limit a b HL HA HB HS. pose proof (zlen_nonneg a). pose proof (zlen_nonneg b).
  assert (W : forall c, valid_text false c -> 65536 * zlen c <= limit -> u32len_str_width (count_of f) limit (encode (enc_of f) c) = Some (65536 * zlen c)).
  { intros c HC HZ. rewrite (C48_u32len_str_width f limit _ (map Good c)); auto.
    - unfold zlen in *. rewrite map_length. f_equal. unfold is_width, u_max in *.
      assert (Z.of_nat (length c) <= (Z.max 0 limit + 65535) / 65536) by (apply Z.div_le_lower_bound; lia). lia.
    - apply (encode_units f false c HC).
    - apply items_encode; auto. }
  exists (65536 * zlen a), (65536 * zlen b). split; [apply W; auto; lia|]. split; [apply W; auto; lia|].
  unfold encode at 1 2. rewrite <- flat_map_app. change (flat_map (enc_of f) (a ++ b)) with (encode (enc_of f) (a ++ b)). rewrite W.
  - rewrite zlen_app. f_equal. lia.
  - apply Forall_app. split; assumption.
  - rewrite zlen_app. lia.
Qed.
Example C48_ex : fast_str_width (3 * 65536) [97; 98] = 131072 /\ fast_str_width_and_pos (65536 + 1) [97; 98] = (65536, 1) /\
  u32len_str_width (count_of U8) (98304) [0xC3; 0xA9; 97; 97] = Some 131072 /\
  u32len_str_width_and_pos (count_of U8) (98304) [0xC3; 0xA9; 97; 97] = Some (65536, [97; 97]).
Proof. split; [|split; [|split]]; reflexivity. Qed.
Print Assumptions C48_fast_str_width.
Print Assumptions C48_fast_str_width_and_pos.
Print Assumptions C48_u32len_str_width.
Print Assumptions C48_u32len_str_width_and_pos.
Print Assumptions C48_fast_u32len_agrees.
Print Assumptions C48_concat.

(* ---------- the standard calculator on UTF text ---------- *)
Definition segs_of (f : form) (its : list item) : list (Z * list Z) := map (fun it => (code it, src_of (enc_of f) it)) its.
Lemma segs_src f its : seg_src (segs_of f its) = srcs_of (enc_of f) its.
Proof. unfold seg_src, segs_of, srcs_of. rewrite map_map. cbn [snd]. symmetry. apply flat_map_concat_map. Qed.
Lemma segs_cps f its : seg_cps (segs_of f its) = map code its.
Proof. unfold seg_cps, segs_of. rewrite map_map. reflexivity. Qed.
Lemma items_segs f src its : items (enc_of f) false src its ->
  in_code_space (map code its) /\ Forall (fun s => snd s <> []) (segs_of f its).
Proof.
  unfold segs_of. induction 1 as [|cp rest its HV HL HI [IH1 IH2]|bad rest its HUn HM HI [IH1 IH2]]; cbn [map code src_of].
  - split; constructor.
  - split; constructor; auto; [destruct HV as [HV _]; lia|]. cbn [snd].
    destruct f; cbn [enc_of]; unfold enc8, enc16, enc32; repeat destruct (_ <? _); discriminate.
  - split; constructor; auto; [lia|]. cbn [snd]. destruct HM as (_ & [HB|[HB _]] & _); [destruct bad; discriminate|exact HB].
Qed.
Lemma utf_decodes f sgn src its : units (bits_of f) src -> items (enc_of f) false src its ->
  decodes (transcode_of f U32 false false) (transcode_size_of f U32 sgn false false) (segs_of f its).
Proof.
  intros HU HI. destruct (items_segs f src its HI) as [HC HN]. split; [rewrite segs_cps; exact HC|]. split; [exact HN|].
  intros a b E n. unfold segs_of in E. apply map_eq_app in E as (ia & ib & -> & <- & <-).
  change (map _ ib) with (segs_of f ib).
  assert (HUb : units (bits_of f) (srcs_of (enc_of f) ib)) by (eapply units_srcs; eauto).
  assert (HIb : items (enc_of f) false (srcs_of (enc_of f) ib) ib) by (eapply items_suffix; eauto).
  assert (T : exists r, transcode_of f U32 false false (srcs_of (enc_of f) ib) (Z.of_nat n) = Some r /\
    t_out r = map code (firstn n ib) /\ t_rest r = srcs_of (enc_of f) (skipn n ib) /\ insufficient (t_reason r) = (n <? length ib)%nat).
  { destruct (transcode_items f U32 false false _ (Z.of_nat n) ib HUb ltac:(lia) HIb) as (r & Hr & done & todo & E & Hrest & Ho & Hl & _ & Hre).
    exists r. split; [exact Hr|]. cbn [enc_of] in *. rewrite outs32 in Ho. rewrite Ho, Hrest. rewrite Ho in Hl. unfold zlen in Hl. rewrite map_length in Hl.
    destruct (t_reason r); cbn [insufficient].
    - destruct Hre as [-> _]. rewrite app_nil_r in E. subst done. rewrite firstn_all2, skipn_all2 by lia.
      split; [reflexivity|]. split; [reflexivity|]. symmetry. apply Nat.ltb_ge. lia.
    - destruct Hre as (it & more & -> & Hgt & _). assert (zlen (out_of enc32 it) = 1) as HO by (destruct it; reflexivity).
      rewrite HO in Hgt. rewrite Ho in Hgt. unfold zlen in Hgt. rewrite map_length in Hgt. assert (n = length done) as -> by lia. subst ib.
      rewrite firstn_app, Nat.sub_diag, firstn_all, skipn_app, Nat.sub_diag, skipn_all. cbn [firstn skipn app]. rewrite app_nil_r.
      split; [reflexivity|]. split; [reflexivity|]. symmetry. apply Nat.ltb_lt. rewrite app_length. cbn. lia.
    - destruct Hre as [He _]. discriminate. }
  rewrite segs_src. unfold seg_cps. split.
  - destruct T as (r & Hr & Ho & Ht & Hi). exists r. split; [exact Hr|].
    replace (firstn n (segs_of f ib)) with (segs_of f (firstn n ib)) by (unfold segs_of; symmetry; apply firstn_map).
    replace (skipn n (segs_of f ib)) with (segs_of f (skipn n ib)) by (unfold segs_of; symmetry; apply skipn_map).
    rewrite segs_src. change (map fst (segs_of f (firstn n ib))) with (seg_cps (segs_of f (firstn n ib))). rewrite segs_cps.
    split; [exact Ho|]. split; [exact Ht|]. rewrite Hi. unfold segs_of. rewrite map_length. reflexivity.
  - destruct T as (r & Hr & Ho & Ht & Hi).
    destruct (C22_size_predicts_partial f U32 sgn false false (srcs_of (enc_of f) ib) (Z.of_nat n) HUb ltac:(lia)) as (r' & Hr' & Hz);
      [intros (_ & H & _); discriminate|discriminate|].
    rewrite Hr in Hr'. injection Hr' as <-. exists (mk_sz (zlen (t_out r)) (t_rest r) (t_reason r)). split; [exact Hz|].
    cbn [s_rest]. replace (skipn n (segs_of f ib)) with (segs_of f (skipn n ib)) by (unfold segs_of; symmetry; apply skipn_map).
    rewrite segs_src. exact Ht.
Qed.

(* The code points a source stands for (with U+FFFD for ill-formed subparts), with their
   property values and widths. *)
Definition text_of (its : list item) : list (gcb * Z) := map (fun it => (gcb_of (code it), cp_width (code it))) its.
Lemma text_tw f its : tw [] (seg_cps (segs_of f its)) = 65536 * clusters_width [] (text_of its).
Proof. unfold tw. rewrite segs_cps. unfold props, text_of. rewrite map_map. reflexivity. Qed.

Lemma valid_text_b cps : forallb (fun c => (0 <=? c) && (c <=? 0x10FFFF) && negb (is_surr c)) cps = true -> valid_text false cps.
Proof.
  intros H. apply Forall_forall. intros c Hc. apply (proj1 (forallb_forall _ _) H) in Hc.
  apply andb_prop in Hc as [H1 H2]. apply andb_prop in H1 as [H0 H1]. split; [lia|]. right. destruct (is_surr c); [discriminate|reflexivity].
Qed.

(* ---------- C49 ---------- *)
Theorem C49_str_width : forall f limit src its, is_width limit -> units (bits_of f) src ->
  items (enc_of f) false src its ->
  std_str_width (transcode_of f U32 false false) limit src =
    Some (Z.min (Z.max 0 limit) (65536 * clusters_width [] (text_of its))).
Proof.
  intros f limit src its HL HU HI.
  pose proof (std_str_width_ok _ _ _ (utf_decodes f false src its HU HI) limit HL) as E.
  rewrite segs_src, <- (items_src _ _ _ _ HI), text_tw in E. exact E.
Qed.

Definition prefix_width (its : list item) (n : nat) : Z := 65536 * clusters_width [] (text_of (firstn n its)).
(* the first n items are the longest prefix within the limit *)
Definition longest_within (its : list item) (limit : Z) (n : nat) : Prop :=
  (n <= length its)%nat /\ prefix_width its n <= limit /\
  (forall m, (m <= length its)%nat -> prefix_width its m <= limit -> (m <= n)%nat).

(* The position is the end of the longest prefix, except when the limit is reached exactly
   at the end of an internal chunk of 32 code points. *)
Theorem C49_str_width_and_pos_partial : forall f sgn limit src its, is_width limit -> 0 <= limit ->
  units (bits_of f) src -> items (enc_of f) false src its ->
  exists n, std_width_and_pos (transcode_of f U32 false false) (transcode_size_of f U32 sgn false false) limit src =
      Some (Z.min limit (65536 * clusters_width [] (text_of its)), srcs_of (enc_of f) (skipn n its)) /\
    (n <= length its)%nat /\ prefix_width its n <= limit /\
    (longest_within its limit n \/
     (prefix_width its n = limit /\ exists k, n = (32 * k)%nat /\ (1 <= k)%nat /\ (n < length its)%nat)).
Proof.
  intros f sgn limit src its HL H0 HU HI.
  destruct (std_width_and_pos_ok _ _ _ (utf_decodes f sgn src its HU HI) limit HL H0) as (n & E & HP1 & HP2).
  assert (forall m, tw [] (seg_cps (firstn m (segs_of f its))) = prefix_width its m) as HW.
  { intros m. unfold segs_of. rewrite firstn_map. change (map _ (firstn m its)) with (segs_of f (firstn m its)). apply text_tw. }
  assert (length (segs_of f its) = length its) as HLn by (unfold segs_of; apply map_length).
  rewrite HLn in *.
  exists n. rewrite segs_src, <- (items_src _ _ _ _ HI), text_tw in E.
  replace (skipn n (segs_of f its)) with (segs_of f (skipn n its)) in E by (unfold segs_of; symmetry; apply skipn_map).
  rewrite segs_src in E. split; [exact E|]. split; [exact HP1|].
  destruct HP2 as [HP2|[HP2 HP3]].
  - assert (prefix_width its n <= limit) as HF.
    { rewrite <- HW, HP2, seg_cps_firstn. apply fit_ok. exact H0. }
    split; [exact HF|]. left. split; [exact HP1|]. split; [exact HF|]. intros m Hm Hw. rewrite HP2. apply fit_longest; auto.
    + rewrite seg_cps_len, HLn. exact Hm.
    + rewrite <- seg_cps_firstn, HW. exact Hw.
  - rewrite HW in HP2. split; [lia|]. right. split; [exact HP2|exact HP3].
Qed.
(* Exactly when: the position is the first multiple of 32 code points, short of the end, whose
   prefix is exactly as wide as the limit, if there is one; and the end of the longest prefix
   within the limit otherwise. *)
Definition chunk_hit (its : list item) (limit : Z) (k : nat) : Prop :=
  (1 <= k)%nat /\ (32 * k < length its)%nat /\ prefix_width its (32 * k) = limit.
Theorem C49_position_exact_partial : forall f sgn limit src its, is_width limit -> 0 <= limit ->
  units (bits_of f) src -> items (enc_of f) false src its ->
  exists n, std_width_and_pos (transcode_of f U32 false false) (transcode_size_of f U32 sgn false false) limit src =
      Some (Z.min limit (65536 * clusters_width [] (text_of its)), srcs_of (enc_of f) (skipn n its)) /\
    ((exists k, n = (32 * k)%nat /\ chunk_hit its limit k /\ (forall j, (j < k)%nat -> ~ chunk_hit its limit j)) \/
     (longest_within its limit n /\ (forall k, ~ chunk_hit its limit k))).
Proof.
  intros f sgn limit src its HL H0 HU HI.
  destruct (std_width_and_pos_exact _ _ _ (utf_decodes f sgn src its HU HI) limit HL H0) as (n & E & HP1 & HP2).
  assert (forall m, tw [] (seg_cps (firstn m (segs_of f its))) = prefix_width its m) as HW.
  { intros m. unfold segs_of. rewrite firstn_map. change (map _ (firstn m its)) with (segs_of f (firstn m its)). apply text_tw. }
  assert (length (segs_of f its) = length its) as HLn by (unfold segs_of; apply map_length).
  rewrite HLn in *.
  exists n. rewrite segs_src, <- (items_src _ _ _ _ HI), text_tw in E.
  replace (skipn n (segs_of f its)) with (segs_of f (skipn n its)) in E by (unfold segs_of; symmetry; apply skipn_map).
  rewrite segs_src in E. split; [exact E|].
  destruct HP2 as [[HP2 HP3]|(HP2 & k & Hn & Hk1 & Hk2 & Hk3)].
  - right. assert (prefix_width its n <= limit) as HF.
    { rewrite <- HW, HP2, seg_cps_firstn. apply fit_ok. exact H0. }
    split.
    + split; [exact HP1|]. split; [exact HF|]. intros m Hm Hw. rewrite HP2. apply fit_longest; auto.
      * rewrite seg_cps_len, HLn. exact Hm.
      * rewrite <- seg_cps_firstn, HW. exact Hw.
    + intros k (A1 & A2 & A3). apply (HP3 k A1 A2). rewrite HW. exact A3.
  - left. exists k. split; [exact Hn|]. rewrite HW, Hn in HP2. split.
    + split; [exact Hk1|]. split; [lia|]. exact HP2.
    + intros j Hj (A1 & A2 & A3). apply (Hk3 j ltac:(lia)). rewrite HW. exact A3.
Qed.
(* in the first case no grapheme cluster is split: a cluster starts at the position *)
Theorem C49_longest_ends_at_boundary : forall its limit n it, longest_within its limit n -> nth_error its n = Some it ->
  boundary (rev (map fst (text_of (firstn n its)))) (gcb_of (code it)) = true.
Proof.
  intros its limit n it (Hn & Hw & HM) HE.
  destruct (boundary _ _) eqn:EB; [reflexivity|]. exfalso.
  assert (n < length its)%nat as HL by (apply nth_error_Some; congruence).
  assert (prefix_width its (S n) = prefix_width its n) as HW.
  { unfold prefix_width. replace (firstn (S n) its) with (firstn n its ++ [it]).
    - change (text_of (firstn n its ++ [it])) with (map (fun it => (gcb_of (code it), cp_width (code it))) (firstn n its ++ [it])).
      unfold text_of in *. assert (G : forall l before, boundary (rev (map fst (map (fun it => (gcb_of (code it), cp_width (code it))) l)) ++ before) (gcb_of (code it)) = false ->
        clusters_width before (map (fun it => (gcb_of (code it), cp_width (code it))) (l ++ [it])) =
        clusters_width before (map (fun it => (gcb_of (code it), cp_width (code it))) l)).
      { induction l as [|x l IH]; intros before HB; cbn [app map clusters_width].
        - cbn in HB. rewrite HB. reflexivity.
        - rewrite IH; [reflexivity|]. cbn [map rev fst] in HB. rewrite <- app_assoc in HB. exact HB. }
      rewrite (G _ []); [reflexivity|]. rewrite app_nil_r. exact EB.
    - clear -HE. revert its HE. induction n as [|n IH]; intros [|x its] HE; try discriminate; cbn in *; [congruence|]. f_equal. apply IH. exact HE. }
  specialize (HM (S n) HL). lia.
Qed.
(* the exception: 'e' and a combining accent separated, because the cluster's two code
   points are the 32nd and the 33rd *)
Theorem C49_chunk_refuted : exists src its limit n, units 32 src /\ items enc32 false src its /\
  std_width_and_pos (transcode_of U32 U32 false false) (transcode_size_of U32 U32 false false false) limit src =
    Some (limit, srcs_of enc32 (skipn n its)) /\ (n < length its)%nat /\
  longest_within its limit (length its) /\ ~ longest_within its limit n.
Proof.
  set (src := repeat 101 32 ++ [0x301]). exists src, (map Good src), (32 * 65536), 32%nat.
  split; [repeat constructor; cbn; lia|]. split.
  { assert (valid_text false src) as HV by (apply valid_text_b; reflexivity).
    replace src with (encode (enc_of U32) src) at 1 by (vm_compute; reflexivity). apply (items_encode U32 false src); auto. }
  split; [vm_compute; reflexivity|]. split; [cbn; lia|].
  assert (longest_within (map Good src) (32 * 65536) 33) as HLong.
  { split; [cbn; lia|]. split; [vm_compute; discriminate|]. intros m Hm _. exact Hm. }
  split; [exact HLong|]. intros (_ & _ & H). specialize (H 33%nat). destruct HLong as (H1 & H2 & _). specialize (H H1 H2). lia.
Qed.
(* with a negative limit the returned width is negative *)
Theorem C49_negative_limit_refuted : exists src limit, units 32 src /\ is_width limit /\
  std_width_and_pos (transcode_of U32 U32 false false) (transcode_size_of U32 U32 false false false) limit src = Some (-65536, src).
Proof. exists [97], (-65536). split; [repeat constructor; cbn; lia|]. split; [unfold is_width, u_min, u_max; lia|reflexivity]. Qed.
(* exactly: nothing is taken, and the negative limit itself is returned *)
Theorem C49_negative_limit_exact_partial : forall f sgn limit src, is_width limit -> limit < 0 -> units (bits_of f) src ->
  std_width_and_pos (transcode_of f U32 false false) (transcode_size_of f U32 sgn false false) limit src = Some (match src with [] => 0 | _ => limit end, src).
Proof.
  intros f sgn limit src HW HL HU. unfold std_width_and_pos. destruct src as [|u src'].
  { cbn [length std_width_and_pos_loop]. destruct (transcode_of_ok f U32 false false [] buff_size HU) as (its & HI & r & E & done & todo & E1 & E2 & E3 & _ & _ & _); [unfold buff_size; lia|].
    assert (its = []) as -> by (eapply (items_det_of f false []); [exact HI|constructor]). symmetry in E1. apply app_eq_nil in E1 as [-> ->]. rewrite E. cbn [obind]. rewrite E3, E2.
    cbn [outs_of flat_map std_width_calc length srcs_of]. replace (limit <=? 0) with true by lia. cbn [orb Nat.eqb]. unfold w_sub, chk_i. rewrite Z.sub_diag. reflexivity. }
  remember (u :: src') as src eqn:Es. assert (HN : src <> []) by (subst; discriminate). assert (LN : length src = S (length src')) by (subst; reflexivity).
  replace (match src with [] => 0 | _ => limit end) with limit by (subst; reflexivity). clear Es u.
  rewrite LN. cbn [std_width_and_pos_loop].
  destruct (transcode_of_ok f U32 false false src buff_size HU) as (its & HI & r & E & done & todo & E1 & E2 & E3 & _ & _ & H); [unfold buff_size; lia|]. rewrite E. cbn [obind].
  assert (HD : exists it more, done = it :: more).
  { destruct done as [|it more]; [|eauto]. exfalso. cbn [app] in E1. subst its. rewrite E3 in H. unfold buff_size in H.
    destruct (t_reason r).
    - destruct H as [-> _]. apply HN. rewrite (items_src _ _ _ _ HI). reflexivity.
    - destruct H as (it & more & _ & H & _). destruct it; cbn in H; lia.
    - destruct H as [H _]. discriminate. }
  destruct HD as (it & more & ->). rewrite E3. cbn [outs_of flat_map out_of]. fold (outs_of enc32 more).
  assert (HC : exists ch, 0 <= ch <= 0x10FFFF /\ out_of (enc_of U32) it = [ch]).
  { destruct it as [cp|b]; cbn [out_of enc_of enc32]; [exists cp|exists 0xFFFD]; (split; [|reflexivity]); [|lia]. rewrite E1 in HI. cbn [app] in HI. inversion HI; subst. match goal with H : valid_cp false cp |- _ => destruct H; lia end. }
  destruct HC as (ch & Hch & ->). cbn [app std_width_calc]. destruct (jump_of ch) as [j cols] eqn:EJ.
  assert (0 <= cols). { destruct (table_facts ch Hch) as [T _]. rewrite EJ in T. cbn [snd] in T. rewrite T. unfold cp_width. destruct (in_ranges wide_ranges ch); lia. }
  assert (DT : snd (std_step 0 j ch) = true) by (destruct j as [| |l]; [| |destruct l]; reflexivity). destruct (std_step 0 j ch) as [st dc]. cbn [snd] in DT. subst dc.
  replace (limit <=? cols * 65536) with true by lia. cbn [negb]. replace (limit <? cols * 65536) with true by lia. cbn [Z.leb Z.compare orb].
  unfold w_sub, chk_i. rewrite Z.sub_0_r. unfold is_width, u_min, u_max in HW. replace (in_i 32 limit) with true by (unfold in_i; cbn; lia). cbn [obind length Nat.eqb Z.of_nat].
  destruct (C22_size_predicts_partial f U32 sgn false false src 0 HU) as (r0 & R0 & ->); [lia|intros [_ [C _]]; discriminate|intros _ _ C; discriminate|]. cbn [obind s_rest]. do 2 f_equal.
  destruct (transcode_of_ok f U32 false false src 0 HU) as (its0 & HI0 & r0' & R0' & d0 & t0 & F1 & F2 & F3 & F4 & _); [lia|]. rewrite R0 in R0'. injection R0' as <-.
  assert (d0 = []) as ->. { destruct d0 as [|i0 d0]; [reflexivity|]. exfalso. rewrite F3 in F4. cbn [outs_of flat_map] in F4. rewrite zlen_app in F4. fold (outs_of (enc_of U32) d0) in F4. pose proof (zlen_nonneg (outs_of (enc_of U32) d0)) as N0. assert (O1 : zlen (out_of (enc_of U32) i0) = 1) by (destruct i0; reflexivity). lia. }
  cbn [app] in F1. subst t0. rewrite F2. symmetry. exact (items_src _ _ _ _ HI0).
Qed.
Print Assumptions C49_negative_limit_exact_partial.
(* the width returned is not the width of the returned prefix when a wide character does not fit *)
Theorem C49_pos_width_refuted : exists src limit w rest its done, units 32 src /\ items enc32 false src (done ++ its) /\
  std_width_and_pos (transcode_of U32 U32 false false) (transcode_size_of U32 U32 false false false) limit src = Some (w, rest) /\
  rest = srcs_of enc32 its /\ w <> 65536 * clusters_width [] (text_of done).
Proof.
  exists [97; 0x65E5], (98304 + 32768 - 1), (98304 + 32768 - 1), [0x65E5], [Good 0x65E5], [Good 97].
  split; [repeat constructor; cbn; lia|]. split.
  { assert (valid_text false [97; 0x65E5]) as HV by (apply valid_text_b; reflexivity).
    change (items enc32 false (encode (enc_of U32) [97; 0x65E5]) (map Good [97; 0x65E5])). apply (items_encode U32 false); auto. }
  split; [vm_compute; reflexivity|]. split; [reflexivity|]. vm_compute. discriminate.
Qed.
Example C49_ex : std_str_width (transcode_of U8 U32 false false) (100 * 65536)
    (encode enc8 [101; 0x301; 0x65E5; 0x1F469; 0x200D; 0x1F469; 0x1F1E7; 0x1F1F7]) = Some (6 * 65536).
Proof. vm_compute. reflexivity. Qed.
Print Assumptions C49_str_width.
Print Assumptions C49_str_width_and_pos_partial.
Print Assumptions C49_position_exact_partial.
Print Assumptions C49_longest_ends_at_boundary.
Print Assumptions C49_chunk_refuted.
Print Assumptions C49_negative_limit_refuted.
Print Assumptions C49_pos_width_refuted.

(* ---------- C50 ---------- *)
(* the clusters of a text: cut at the boundaries *)
Fixpoint clusters (before : list gcb) (cur : list (gcb * Z)) (l : list (gcb * Z)) : list (list (gcb * Z)) :=
  match l with
  | [] => match cur with [] => [] | _ => [cur] end
  | x :: r =>
      if boundary before (fst x)
      then match cur with [] => [] | _ => [cur] end ++ clusters (fst x :: before) [x] r
      else clusters (fst x :: before) (cur ++ [x]) r
  end.
Definition sum_first_widths (cs : list (list (gcb * Z))) : Z :=
  fold_right (fun c acc => match c with [] => 0 | (_, w) :: _ => w end + acc) 0 cs.
Lemma clusters_sum l : forall before c w cur, sum_first_widths (clusters before ((c, w) :: cur) l) = w + clusters_width before l.
Proof.
  induction l as [|[c' w'] r IH]; intros before c w cur; cbn [clusters clusters_width fst]; [cbn; lia|].
  destruct (boundary before c').
  - cbn [app sum_first_widths fold_right]. fold (sum_first_widths (clusters (c' :: before) [(c', w')] r)). rewrite IH. lia.
  - cbn [app]. rewrite IH. lia.
Qed.
Lemma clusters_concat l : forall before cur, concat (clusters before cur l) = cur ++ l.
Proof.
  induction l as [|x r IH]; intros before cur; cbn [clusters].
  - destruct cur; [reflexivity|]. cbn [concat]. reflexivity.
  - destruct (boundary _ _); rewrite ?concat_app, IH.
    + destruct cur; cbn [concat app]; rewrite ?app_nil_r; reflexivity.
    + rewrite <- app_assoc. reflexivity.
Qed.
Theorem C50_sum_over_clusters : forall f limit src its, is_width limit -> units (bits_of f) src ->
  items (enc_of f) false src its ->
  concat (clusters [] [] (text_of its)) = text_of its /\
  std_str_width (transcode_of f U32 false false) limit src =
    Some (Z.min (Z.max 0 limit) (65536 * sum_first_widths (clusters [] [] (text_of its)))).
Proof.
  intros f limit src its HL HU HI. split; [rewrite clusters_concat; reflexivity|].
  rewrite (C49_str_width f limit src its HL HU HI). do 3 f_equal.
  destruct (text_of its) as [|[c w] r]; [reflexivity|]. cbn [clusters boundary fst app clusters_width]. rewrite clusters_sum. reflexivity.
Qed.
(* char_width and the table used by str_width: the documented ranges, for every code point *)
Theorem C50_char_width : forall ch, 0 <= ch -> char32_width ch = cp_width ch.
Proof. exact char32_width_ranges. Qed.
Theorem C50_table_width : forall ch, 0 <= ch <= 0x10FFFF -> snd (jump_of ch) = cp_width ch.
Proof. intros ch H. apply table_facts. exact H. Qed.
(* the property values: CR, LF, ZWJ, regional indicators and the Hangul syllable types are
   exactly where the Unicode Standard puts them (the other values are data) *)
Theorem C50_table_properties : forall ch, 0 <= ch <= 0x10FFFF ->
  match fixed_property ch with
  | Some c => gcb_of ch = c
  | None => one_of [CR; LF; ZWJ; RI; HangulL; HangulV; HangulT; HangulLV; HangulLVT] (gcb_of ch) = false
  end.
Proof. intros ch H. apply table_facts. exact H. Qed.
Example C50_ex : clusters [] [] (text_of (map Good [101; 0x301; 0x1F1E7; 0x1F1F7; 0x1F1E7])) =
  [[(Other, 1); (Extend, 1)]; [(RI, 1); (RI, 1)]; [(RI, 1)]].
Proof. vm_compute. reflexivity. Qed.
Print Assumptions C50_sum_over_clusters.
Print Assumptions C50_char_width.
Print Assumptions C50_table_width.
Print Assumptions C50_table_properties.
