(* Proofs about StringModel: strings. *)
From Verif Require Import Base WidthModel WidthProofs DestModel DestProofs UtfSpec UtfModel UtfSizeModel UtfForms UtfDecode UtfLoop UtfTheorems Properties_Utf
  CharsetModel TransSpec SbcsTables SbcsModel SbcsSpec SbcsProofs Properties_Sbcs PivotModel PivotProofs CsetModel CsetProofs Properties_Pivot
  GcbTable GcbSpec WCalcModel GcbCheck WCalcProofs Properties_WCalc IntSpec IntModel IntProofs PrintModel StringModel PrintSpec StringSpec PrintProofs SegProofs UnsafeProofs RoomProofs RoomCset.

Lemma charset_of_ok b : is_cset b -> charset_ok (charset_of b).
Proof. destruct b as [g|j cs]; intros HB; cbn [charset_of]; [apply utf_charset_ok|]. apply C31_charset_ok. eapply nth_error_In. exact HB. Qed.

(* ---- the size of a transcoding ---- *)
Lemma transcoded_size_ok a b k cps out : is_cset a -> is_cset b -> unit_text a k -> text_in a false k cps -> Forall2 (encoded_in b) cps out ->
  zlen (concat out) < ssize_max -> transcoded_size a b k = Some (zlen (concat out)).
Proof.
  intros HA HB HU HT HE HZ. unfold transcoded_size.
  assert (NS : no_stop flags_none) by (split; reflexivity).
  assert (0 < ssize_max) by reflexivity.
  destruct (C28_transcode_text a b flags_none k cps out ssize_max HA HB HU NS HT HE ltac:(lia)) as (r & Er & Ho & _).
  destruct (C28_transcode_text a b flags_none k cps out (ssize_max - 1) HA HB HU NS HT HE ltac:(lia)) as (r1 & Er1 & Ho1 & _).
  unfold transcode_between in Er, Er1. destruct a as [f|i cs], b as [g|j cs'].
  - assert (exists r, transcode_of f g false false k ssize_max = Some r /\ t_out r = concat out) as (r' & Et & Eo).
    { destruct f; cbn [direct flags_none f_lax f_stop_invalid] in Er; (destruct (transcode_of _ g false false k ssize_max) as [r'|] eqn:Et; [|discriminate]);
        exists r'; (split; [reflexivity|]); injection Er as <-; exact Ho. }
    assert (exists r, transcode_of f g false false k (ssize_max - 1) = Some r /\ t_out r = concat out) as (r'1 & Et1 & Eo1).
    { destruct f; cbn [direct flags_none f_lax f_stop_invalid] in Er1; (destruct (transcode_of _ g false false k (ssize_max - 1)) as [r'1|] eqn:Et1; [|discriminate]);
        exists r'1; (split; [reflexivity|]); injection Er1 as <-; exact Ho1. }
    assert (direct_size (Utf f) (Utf g) = Some (fun src limit => option_map lift_size (transcode_size_of f g false false false src limit))) as -> by (destruct f; reflexivity).
    assert ((f = U8 /\ g = U8) \/ ~ (f = U8 /\ g = U8 /\ false = false)) as [[-> ->]|HN].
    { destruct f, g; try (left; split; reflexivity); right; intros (X & Y & _); discriminate. }
    + destruct (C22_size_8_8_continue false k ssize_max HU ltac:(lia)) as (r'' & E1 & E2). rewrite E2. rewrite Et1 in E1. injection E1 as <-.
      cbn [option_map obind lift_size s_size z_size]. rewrite Eo1. reflexivity.
    + destruct (C22_size_predicts_partial f g false false false k ssize_max HU ltac:(lia) HN ltac:(discriminate)) as (r'' & E1 & E2). rewrite E2. rewrite Et in E1. injection E1 as <-.
      cbn [option_map obind lift_size s_size z_size]. rewrite Eo. reflexivity.
  - destruct f; cbn [direct direct_size] in *.
    + destruct (C28_pivot_size (Utf U8) (Sb j cs') flags_none k ssize_max HA HB HU ltac:(lia)) as (r2 & z & E1 & E2 & E3 & _). rewrite E2. cbn [obind]. rewrite Er in E1. injection E1 as <-. rewrite E3, Ho. reflexivity.
    + destruct (C28_pivot_size (Utf U16) (Sb j cs') flags_none k ssize_max HA HB HU ltac:(lia)) as (r2 & z & E1 & E2 & E3 & _). rewrite E2. cbn [obind]. rewrite Er in E1. injection E1 as <-. rewrite E3, Ho. reflexivity.
    + destruct (C32_from_u32_size_partial cs' flags_none k ssize_max (nth_error_In _ _ HB) HU ltac:(lia) ltac:(left; split; reflexivity)) as (r2 & E1 & E2).
      rewrite E2. cbn [obind z_size]. rewrite E1 in Er. injection Er as <-. cbn [de_out] in Ho. rewrite Ho. reflexivity.
  - destruct g; cbn [direct direct_size] in *.
    + destruct (C28_pivot_size (Sb i cs) (Utf U8) flags_none k ssize_max HA HB HU ltac:(lia)) as (r2 & z & E1 & E2 & E3 & _). rewrite E2. cbn [obind]. rewrite Er in E1. injection E1 as <-. rewrite E3, Ho. reflexivity.
    + destruct (C28_pivot_size (Sb i cs) (Utf U16) flags_none k ssize_max HA HB HU ltac:(lia)) as (r2 & z & E1 & E2 & E3 & _). rewrite E2. cbn [obind]. rewrite Er in E1. injection E1 as <-. rewrite E3, Ho. reflexivity.
    + destruct (C32_to_u32 cs flags_none k ssize_max (nth_error_In _ _ HA) HU ltac:(lia)) as (r2 & E1 & _ & E2).
      rewrite E2. cbn [obind z_size]. rewrite E1 in Er. injection Er as <-. cbn [de_out] in Ho. rewrite Ho. reflexivity.
  - cbn [direct direct_size] in *. destruct (i =? j)%nat.
    + destruct (C32_sanitize cs flags_none k ssize_max (nth_error_In _ _ HA) HU ltac:(lia)) as (r2 & E1 & _ & E2).
      rewrite E2. cbn [obind z_size]. rewrite E1 in Er. injection Er as <-. cbn [de_out] in Ho. rewrite Ho. reflexivity.
    + destruct (C28_pivot_size (Sb i cs) (Sb j cs') flags_none k ssize_max HA HB HU ltac:(lia)) as (r2 & z & E1 & E2 & E3 & _). rewrite E2. cbn [obind]. rewrite Er in E1. injection E1 as <-. rewrite E3, Ho. reflexivity.
Qed.

Lemma unit_text_prefix a k src : unit_text a src -> is_prefix k src -> unit_text a k.
Proof. intros H [v ->]. apply Forall_app in H. apply H. Qed.

(* what the padded text looks like, printed in three parts *)
Lemma split_fill_padded al k : 0 <= k -> split_fill al k = (left_fill al k, right_fill al k).
Proof. intros H. destruct al; unfold right_fill; cbn [split_fill left_fill]; try (f_equal; lia). cbv zeta. rewrite Z.shiftr_div_pow2 by lia. reflexivity. Qed.
Lemma prints_padded b al k p t : is_cset b -> 0 <= al_fill al < 2 ^ 32 -> 0 <= k -> prints_text p t ->
  prints_text (p_seq (p_fill (charset_of b) (left_fill (al_align al) k) (al_fill al)) (p_seq p (p_fill (charset_of b) (right_fill (al_align al) k) (al_fill al))))
    (padded (al_align al) (cs_encode (charset_of b) (al_fill al)) k t).
Proof. intros HB HF Hk HP. pose proof (charset_of_ok b HB). unfold padded. apply prints_seq; [apply prints_fill; assumption|]. apply prints_seq; [exact HP|apply prints_fill; assumption]. Qed.

(* ---- measuring an aligned string ---- *)
Lemma aligned_measure_ok w a al prec src l M b t p d k W : is_cset a -> unit_text a src -> segmented a src l -> countable w a src -> is_width (al_width al) ->
  prec = None -> k = src -> W = seg_width w l -> d = aligned_desc w b al prec W t -> pre_ok M p d ->
  exists sw, aligned_measure w a al prec src p = Some (sw, k) /\ 0 <= sw <= W /\ (sw = W \/ al_width al <= sw) /\
    match p_width p with None => True | Some (limit, x) => (sw = W \/ limit <= x + sw) /\ x + sw <= Z.max limit (x + Z.max 0 (al_width al)) + slack w /\ x + al_width al <= u_max end.
Proof.
  intros HA HU HS HC HL -> -> -> -> HP. unfold aligned_measure, remaining_width_greater_than, remaining_width.
  destruct HP as [_ HP]. pose proof (seg_width_nonneg w l) as HN. pose proof (missing_bounds (al_width al) (seg_width w l)) as HM.
  destruct (p_width p) as [[limit x]|].
  - destruct HP as (L1 & _ & Hx & HR). assert (x + al_width al <= u_max) as Hxa.
    { unfold room, aligned_desc, pad_desc in HR. cbn [d_peak d_need] in HR. assert (0 <= slack w) by (destruct w; cbn; lia). lia. }
    unfold is_width in HL, L1. rewrite w_add_ok by (unfold u_min, u_max in *; lia). cbn [obind].
    set (gt := x + al_width al <? limit).
    assert (exists lim, (if gt then if x <=? limit then w_sub limit x else Some 0 else Some (al_width al)) = Some lim /\ is_width lim /\ al_width al <= lim /\
       x + Z.max 0 lim <= Z.max limit (x + Z.max 0 (al_width al)) /\ limit <= x + Z.max 0 lim) as (lim & -> & K1 & K2 & K3 & K4).
    { unfold gt. destruct (Z.ltb_spec (x + al_width al) limit).
      - destruct (Z.leb_spec x limit).
        + rewrite w_sub_ok by (unfold u_min, u_max in *; lia). eexists. split; [reflexivity|]. unfold is_width, u_min, u_max in *. lia.
        + eexists. split; [reflexivity|]. unfold is_width, u_min, u_max in *. lia.
      - eexists. split; [reflexivity|]. unfold is_width, u_min, u_max in *. lia. }
    cbn [obind]. destruct (wc_str_width_ok w a lim src l HA HU HS HC K1) as (sw & -> & S1 & S2 & S3 & S4). cbn [obind]. exists sw.
    split; [reflexivity|]. split; [exact S1|]. split; [lia|]. split; [lia|]. split; lia.
  - cbn [obind]. destruct (wc_str_width_ok w a (al_width al) src l HA HU HS HC HL) as (sw & -> & S1 & S2 & S3 & S4). cbn [obind]. exists sw.
    split; [reflexivity|]. split; [exact S1|]. split; [lia|exact I].
Qed.
(* with the string's width, or what str_width made of it *)
Lemma aligned_init_ok al sw W p : is_width (al_width al) -> 0 <= sw <= W -> (sw = W \/ al_width al <= sw) ->
  match p_width p with None => True | Some (_, x) => 0 <= x /\ x + sw + 65536 * missing (al_width al) W <= u_max end ->
  let m := missing (al_width al) W in
  exists p', aligned_init al sw p = Some (p', m, split_fill (al_align al) m) /\ p_size p' = p_size p /\
    p_width p' = match p_width p with None => None | Some (l, x) => Some (l, x + sw + 65536 * m) end.
Proof.
  intros HL H1 H2 HP m. unfold aligned_init. pose proof (missing_bounds (al_width al) W) as HM. fold m in HM, HP.
  destruct (Z.ltb_spec sw (al_width al)).
  - assert (sw = W) as -> by lia. unfold is_width in HL. rewrite w_sub_ok by (unfold u_min, u_max in *; lia). cbn [obind].
    rewrite missing_ok by (unfold is_width; lia). fold m.
    destruct (p_width p) as [[l x]|] eqn:EW.
    + unfold u_max in HP. destruct (add_width_ok W p) as (p1 & E1 & A1 & A2); [rewrite EW; unfold u_min, u_max; lia|]. rewrite E1. cbn [obind]. rewrite EW in A2.
      rewrite w_of_signed_small by lia. destruct (add_width_ok (65536 * m) p1) as (p2 & E2 & B1 & B2); [rewrite A2; unfold u_min, u_max; lia|]. rewrite E2. cbn [obind].
      exists p2. split; [reflexivity|]. split; [congruence|]. rewrite B2, A2. reflexivity.
    + destruct (add_width_ok W p) as (p1 & E1 & A1 & A2); [rewrite EW; exact I|]. rewrite E1. cbn [obind]. rewrite EW in A2.
      destruct (add_width_ok (w_of_signed m) p1) as (p2 & E2 & B1 & B2); [rewrite A2; exact I|]. rewrite E2. cbn [obind].
      exists p2. split; [reflexivity|]. split; [congruence|]. rewrite B2, A2. reflexivity.
  - assert (m = 0) as Hm0 by (apply missing_none; lia). rewrite Hm0 in *. clearbody m. subst m.
    destruct (add_width_ok sw p) as (p1 & E1 & A1 & A2).
    { destruct (p_width p) as [[l x]|]; [|exact I]. unfold u_min, u_max in *. lia. }
    rewrite E1. cbn [obind]. exists p1. split.
    + destruct (al_align al); reflexivity.
    + split; [exact A1|]. rewrite A2. destruct (p_width p) as [[l x]|]; [|reflexivity]. do 2 f_equal. lia.
Qed.

(* ---- plain strings ---- *)
Definition string_pre (w : wcalc) (a b : cset) (prec : option Z) (src : list Z) : Prop :=
  is_cset a /\ is_cset b /\ unit_text a src /\ countable w a src /\
  match prec with None => True | Some p => is_width p /\ (w = StdWidth -> 0 <= p) end.

Lemma size_step p1 p n d : p_size p1 = p_size p -> zlen (d_text d) = n -> 0 <= n ->
  match p_size p with None => True | Some z => 0 <= z < 2 ^ 64 end ->
  exists p2, add_size n p1 = Some p2 /\ p_size p2 = option_map (fun z => (z + zlen (d_text d)) mod 2 ^ 64) (p_size p) /\ p_width p2 = p_width p1.
Proof.
  intros E1 E2 Hn HZ. destruct (add_size_ok n p1 Hn) as (p2 & A & B & C & _); [rewrite E1; exact HZ|]. exists p2. split; [exact A|]. split; [|exact C].
  rewrite B, E1, E2. reflexivity.
Qed.
Lemma size_if_step p1 p s n : p_size p1 = p_size p -> s = Some n -> 0 <= n ->
  match p_size p with None => True | Some z => 0 <= z < 2 ^ 64 end ->
  exists p2, add_size_if s p1 = Some p2 /\ p_size p2 = option_map (fun z => (z + n) mod 2 ^ 64) (p_size p) /\ p_width p2 = p_width p1.
Proof.
  intros E1 -> Hn HZ. unfold add_size_if. destruct (add_size_ok n p1 Hn) as (p2 & A & B & C & _); [rewrite E1; exact HZ|].
  destruct (p_size p1) eqn:ES.
  - cbn [obind]. exists p2. split; [exact A|]. split; [|exact C]. rewrite B, <- E1. reflexivity.
  - exists p1. split; [reflexivity|]. split; [|reflexivity]. rewrite <- E1, ES. reflexivity.
Qed.

Lemma prints_unsafe a b src cps out : is_cset a -> is_cset b -> unit_text a src -> well_formed_in a false src -> text_in a false src cps ->
  Forall2 (encoded_in b) cps out -> prints_text (p_unsafe a b src) (concat out).
Proof.
  intros HA HB HU HW HT HE. apply prints_by. intros S ops R ok [[L _]|L] s u H K; unfold p_unsafe.
  - destruct (unsafe_into_ok ops R _ L a b flags_none src cps out s u HA HB HU ltac:(split; reflexivity) HW HT HE H) as (s' & r & E & H' & _).
    exists s'. rewrite E. split; [reflexivity|exact H'].
  - destruct (unsafe_into_room ops R ok L a b flags_none src cps out s u HA HB HU ltac:(split; reflexivity) HW HT HE H K) as (s' & r & E & H').
    exists s'. rewrite E. split; [reflexivity|exact H'].
Qed.
(* how the middle part is printed and how large it is *)
Definition middle_ok (pol : policy) (a b : cset) (same : bool) (k t : list Z) : Prop :=
  if copied pol a b then t = k else prints_text (p_trans (is_unsafe pol) a b k) t /\ trans_size (is_unsafe pol) a b k = Some (zlen t).
Lemma rendered_middle pol a b same k t : is_cset a -> is_cset b -> unit_text a k -> rendered pol a b k t -> zlen t < ssize_max -> middle_ok pol a b same k t.
Proof.
  intros HA HB HU. unfold rendered, middle_ok. destruct (copied pol a b); [auto|]. intros (HW & cps & out & HT & HE & ->) HZ. unfold p_trans, trans_size. destruct (is_unsafe pol).
  - split; [eapply prints_unsafe; eauto|eapply unsafe_transcoded_size_ok; eauto].
  - split; [eapply prints_transcode; eassumption|eapply transcoded_size_ok; eassumption].
Qed.

Lemma string_plain_ok M w pol a b same prec src l k W t : string_pre w a b prec src -> segmented a src l ->
  (prec = None /\ k = src /\ W = seg_width w l \/
   exists p rest, prec = Some p /\ wc_width_and_pos w a p src = Some (W, rest) /\ k = kept src rest /\ 0 <= W) ->
  middle_ok pol a b same k t -> arg_ok M (string_arg w pol a b same None prec src) (string_desc w prec W t).
Proof.
  intros (HA & HB & HU & HC & HPr) HS HK HM. unfold string_arg. change (match pol with NoTranscode => true | SaniIfDifferent => cset_same a b | SaniAlways => false | Unsafe dynamic => dynamic && cset_same a b end) with (copied pol a b).
  pose proof (seg_width_nonneg w l) as HN. assert (0 <= slack w) as HSl by (destruct w; cbn; lia).
  unfold string_desc. split; [|split]; cbn [d_width d_peak d_need d_text].
  { destruct HK as [(-> & -> & ->)|(p & rest & -> & _ & _ & HW)]; lia. }
  { destruct HK as [(-> & -> & ->)|(p & rest & -> & _ & _ & HW)]; lia. }
  intros p [HZ HW]. set (d := mk_desc t W W _) in *.
  (* the width part *)
  assert (forall p1 limit x x', p_width p = Some (limit, x) -> p_width p1 = Some (limit, x') -> p_size p1 = option_map (fun z => (z + zlen t) mod 2 ^ 64) (p_size p) ->
     x <= x' <= x + W -> (x' = x + W \/ limit <= x') -> x' <= Z.max limit x + d_need d -> added p d p1) as HAdd.
  { intros p1 limit x x' E1 E2 E3 H1 H2 H3. split; [exact E3|]. rewrite E1, E2. cbn [d d_width d_need] in *. auto. }
  destruct HK as [(-> & -> & ->)|(pr & rest & -> & EP & -> & HW0)].
  - (* no precision *)
    assert (forall limit x, p_width p = Some (limit, x) -> exists sw, wc_str_width w a (Z.max 0 (limit - x)) src = Some sw /\
       0 <= sw <= seg_width w l /\ (sw = seg_width w l \/ limit <= x + sw) /\ x + sw <= Z.max limit x + slack w /\ x + sw <= u_max) as HSW.
    { intros limit x EW. rewrite EW in HW. destruct HW as (L1 & _ & Hx & HR). unfold is_width, room in *. cbn [d d_peak d_need] in HR.
      destruct (wc_str_width_ok w a (Z.max 0 (limit - x)) src l HA HU HS HC) as (sw & E & S1 & S2 & S3 & S4); [unfold is_width, u_min, u_max in *; lia|].
      exists sw. split; [exact E|]. split; [exact S1|]. lia. }
    assert (forall limit x, p_width p = Some (limit, x) -> remaining_width p = Some (Z.max 0 (limit - x))) as HRem.
    { intros limit x EW. unfold remaining_width. rewrite EW in *. destruct HW as (L1 & _ & Hx & _). unfold is_width, u_min, u_max in *.
      destruct (Z.leb_spec x limit); [rewrite w_sub_ok by (unfold u_min, u_max; lia)|]; f_equal; lia. }
    destruct (copied pol a b) eqn:EC.
    + unfold middle_ok in HM. rewrite EC in HM. subst t. unfold strcpy_arg.
      assert (exists p1, match p_width p with None => Some p | Some _ => do r <- remaining_width p ; do sw <- wc_str_width w a r src ; add_width sw p end = Some p1 /\
        p_size p1 = p_size p /\ match p_width p with None => p_width p1 = None | Some (limit, x) => exists sw, p_width p1 = Some (limit, x + sw) /\
         0 <= sw <= seg_width w l /\ (sw = seg_width w l \/ limit <= x + sw) /\ x + sw <= Z.max limit x + slack w end) as (p1 & E1 & Z1 & W1).
      { destruct (p_width p) as [[limit x]|] eqn:EW.
        - rewrite (HRem limit x eq_refl). cbn [obind]. destruct (HSW limit x eq_refl) as (sw & E & S1 & S2 & S3 & S4). rewrite E. cbn [obind].
          destruct HW as (L1 & _ & Hx & _).
          destruct (add_width_ok sw p) as (p1 & A1 & A2 & A3); [rewrite EW; unfold u_min; lia|]. exists p1. split; [exact A1|]. split; [exact A2|].
          exists sw. rewrite A3, EW. auto.
        - exists p. auto. }
      rewrite E1. cbn [obind]. destruct (size_step p1 p (zlen src) d Z1 eq_refl (zlen_nonneg _) HZ) as (p2 & E2 & Z2 & W2). rewrite E2. cbn [obind].
      exists p2, (p_copy same src). split; [reflexivity|]. split; [apply prints_copy|].
      destruct (p_width p) as [[limit x]|] eqn:EW.
      * destruct W1 as (sw & W1 & S1 & S2 & S3). apply (HAdd p2 limit x (x + sw)); auto; try lia. rewrite W2. exact W1.
      * split; [exact Z2|]. rewrite EW, W2, W1. exact I.
    + unfold middle_ok in HM. rewrite EC in HM. destruct HM as [HM1 HM2]. unfold transcode_arg.
      assert (exists p1, (if has_remaining_width p then do r <- remaining_width p ; do sw <- wc_str_width w a r src ; do p1 <- add_width sw p ; Some (p1, src) else Some (p, src)) = Some (p1, src) /\
        p_size p1 = p_size p /\ match p_width p with None => p_width p1 = None | Some (limit, x) => exists sw, p_width p1 = Some (limit, x + sw) /\
         0 <= sw <= seg_width w l /\ (sw = seg_width w l \/ limit <= x + sw) /\ x + sw <= Z.max limit x + slack w end) as (p1 & E1 & Z1 & W1).
      { unfold has_remaining_width. destruct (p_width p) as [[limit x]|] eqn:EW.
        - destruct (Z.ltb_spec x limit).
          + rewrite (HRem limit x eq_refl). cbn [obind]. destruct (HSW limit x eq_refl) as (sw & E & S1 & S2 & S3 & S4). rewrite E. cbn [obind].
            destruct HW as (L1 & _ & Hx & _).
            destruct (add_width_ok sw p) as (p1 & A1 & A2 & A3); [rewrite EW; unfold u_min; lia|]. rewrite A1. cbn [obind]. exists p1. split; [reflexivity|]. split; [exact A2|].
            exists sw. rewrite A3, EW. auto.
          + exists p. split; [reflexivity|]. split; [reflexivity|]. exists 0. rewrite EW, Z.add_0_r. split; [reflexivity|]. lia.
        - exists p. auto. }
      rewrite E1. cbn [obind fst snd]. destruct (size_if_step p1 p (trans_size (is_unsafe pol) a b src) (zlen t) Z1 HM2 (zlen_nonneg _) HZ) as (p2 & E2 & Z2 & W2). rewrite E2. cbn [obind].
      exists p2, (p_trans (is_unsafe pol) a b src). split; [reflexivity|]. split; [exact HM1|].
      destruct (p_width p) as [[limit x]|] eqn:EW.
      * destruct W1 as (sw & W1 & S1 & S2 & S3). apply (HAdd p2 limit x (x + sw)); auto; try lia. rewrite W2. exact W1.
      * split; [exact Z2|]. rewrite EW, W2, W1. exact I.
  - (* with precision *)
    assert (exists p1, add_width W p = Some p1 /\ p_size p1 = p_size p /\ p_width p1 = match p_width p with None => None | Some (l, x) => Some (l, x + W) end) as (p1 & E1 & Z1 & W1).
    { apply add_width_ok. destruct (p_width p) as [[limit x]|]; [|exact I]. destruct HW as (L1 & _ & Hx & HR). unfold room in HR. cbn [d d_peak d_need] in HR. unfold u_min. lia. }
    assert (forall p2, p_size p2 = option_map (fun z => (z + zlen t) mod 2 ^ 64) (p_size p) -> p_width p2 = p_width p1 -> added p d p2) as HFin.
    { intros p2 Z2 W2. split; [exact Z2|]. rewrite W2, W1. destruct (p_width p) as [[limit x]|]; [|exact I]. cbn [d d_width d_need]. lia. }
    destruct (copied pol a b) eqn:EC.
    + unfold middle_ok in HM. rewrite EC in HM. unfold strcpy_arg. rewrite EP. cbn [obind fst snd]. rewrite E1. cbn [obind]. rewrite <- HM.
      destruct (size_step p1 p (zlen t) d Z1 eq_refl (zlen_nonneg _) HZ) as (p2 & E2 & Z2 & W2). rewrite E2. cbn [obind].
      exists p2, (p_copy same t). split; [reflexivity|]. split; [apply prints_copy|]. apply HFin; assumption.
    + unfold middle_ok in HM. rewrite EC in HM. destruct HM as [HM1 HM2]. unfold transcode_arg. rewrite EP. cbn [obind fst snd]. rewrite E1. cbn [obind fst snd].
      destruct (size_if_step p1 p (trans_size (is_unsafe pol) a b (kept src rest)) (zlen t) Z1 HM2 (zlen_nonneg _) HZ) as (p2 & E2 & Z2 & W2). rewrite E2. cbn [obind].
      exists p2, (p_trans (is_unsafe pol) a b (kept src rest)). split; [reflexivity|]. split; [exact HM1|]. apply HFin; assumption.
Qed.

(* ---- aligned strings ---- *)
Lemma chk_ssize x y : 0 <= x -> x = y -> y < ssize_max -> chk_i 64 x = Some y.
Proof.
  intros H1 <- H2. unfold ssize_max in H2. change (2 ^ 63) with 9223372036854775808 in H2. unfold chk_i, in_i. change (2 ^ (64 - 1)) with 9223372036854775808.
  destruct (Z.leb_spec (- (9223372036854775808)) x), (Z.ltb_spec x 9223372036854775808); cbn [andb]; try lia; reflexivity.
Qed.
Lemma string_aligned_ok M w pol a b same al prec src l k W t : string_pre w a b prec src -> segmented a src l -> align_ok al ->
  (prec = None /\ k = src /\ W = seg_width w l \/
   exists p rest, prec = Some p /\ wc_width_and_pos w a p src = Some (W, rest) /\ k = kept src rest /\ 0 <= W) ->
  middle_ok pol a b same k t -> zlen (d_text (aligned_desc w b al prec W t)) < ssize_max ->
  arg_ok M (string_arg w pol a b same (Some al) prec src) (aligned_desc w b al prec W t).
Proof.
  intros (HA & HB & HU & HC & HPr) HS [HF HL] HK HM HT. unfold string_arg. change (match pol with NoTranscode => true | SaniIfDifferent => cset_same a b | SaniAlways => false | Unsafe dynamic => dynamic && cset_same a b end) with (copied pol a b).
  pose proof (seg_width_nonneg w l) as HN. assert (0 <= slack w) as HSl by (destruct w; cbn; lia).
  set (d := aligned_desc w b al prec W t) in *. pose proof (missing_bounds (al_width al) W) as HMb. set (m := missing (al_width al) W) in *.
  assert (0 <= W) as HW0 by (destruct HK as [(_ & _ & ->)|(p & rest & _ & _ & _ & HW)]; lia).
  pose proof (charset_of_ok b HB) as KB. pose proof (ok_size _ KB _ HF) as KS. pose proof (ok_small _ KB _ HF) as KM.
  assert (zlen (d_text d) = m * cs_size (charset_of b) (al_fill al) + zlen t) as EL.
  { unfold d, aligned_desc, pad_desc. cbn [d_text]. fold m. rewrite padded_len by lia. rewrite KS. reflexivity. }
  pose proof (zlen_nonneg t) as Ht0.
  split; [|split].
  { unfold d, aligned_desc, pad_desc. cbn [d_width d_peak]. fold m. lia. }
  { unfold d, aligned_desc, pad_desc. cbn [d_need]. fold m. destruct prec; lia. }
  intros p HPre. pose proof HPre as [HZ HW].
  assert (exists sw, aligned_measure w a al prec src p = Some (sw, k) /\ 0 <= sw <= W /\ (sw = W \/ al_width al <= sw) /\
    match p_width p with None => True | Some (limit, x) => (sw = W \/ limit <= x + sw) /\ x + sw + 65536 * m <= Z.max limit x + d_need d end) as (sw & EM & S1 & S2 & S3).
  { destruct HK as [(EN & Ek & EW)|(pr & rest & -> & EP & -> & _)].
    - destruct (aligned_measure_ok w a al prec src l M b t p d k W HA HU HS HC HL EN Ek EW eq_refl HPre) as (sw & E & S1 & S2 & S3).
      exists sw. split; [exact E|]. split; [exact S1|]. split; [exact S2|]. destruct (p_width p) as [[limit x]|]; [|exact I].
      destruct S3 as (S3 & S4 & S5). split; [exact S3|]. unfold d, aligned_desc, pad_desc. rewrite EN. cbn [d_need].
      destruct HW as (_ & _ & Hx & _).
      destruct (Z.le_gt_cases (al_width al) W).
      + assert (m = 0) as -> by (apply missing_none; lia). lia.
      + assert (sw = W) as -> by lia. assert (0 <= al_width al) by lia. destruct (Z.le_gt_cases limit x).
        * lia.
        * assert (x + W <= limit \/ limit < x + W) as [|] by lia; lia.
    - unfold aligned_measure. rewrite EP. cbn [obind fst snd]. exists W. split; [reflexivity|]. split; [lia|]. split; [lia|].
      destruct (p_width p) as [[limit x]|]; [|exact I]. split; [lia|]. unfold d, aligned_desc, pad_desc. cbn [d_need]. fold m. lia. }
  assert (exists p1, aligned_init al sw p = Some (p1, m, split_fill (al_align al) m) /\ p_size p1 = p_size p /\
    p_width p1 = match p_width p with None => None | Some (l, x) => Some (l, x + sw + 65536 * m) end) as (p1 & EI & Z1 & W1).
  { apply aligned_init_ok; try assumption. destruct (p_width p) as [[limit x]|]; [|exact I]. destruct HW as (L1 & _ & Hx & HR). split; [lia|].
    fold m. unfold room in HR. unfold d, aligned_desc, pad_desc in HR, S3. cbn [d_peak d_need] in *. fold m in HR, S3. destruct prec; lia. }
  assert (forall p2, p_size p2 = option_map (fun z => (z + zlen (d_text d)) mod 2 ^ 64) (p_size p) -> p_width p2 = p_width p1 -> added p d p2) as HFin.
  { intros p2 Z2 W2. split; [exact Z2|]. rewrite W2, W1. destruct (p_width p) as [[limit x]|]; [|exact I]. destruct HW as (L1 & _ & Hx & HR).
    unfold d at 1 2, aligned_desc, pad_desc. cbn [d_width]. fold m. lia. }
  assert (forall q, prints_text q t -> prints_text (p_seq (p_fill (charset_of b) (left_fill (al_align al) m) (al_fill al)) (p_seq q (p_fill (charset_of b) (right_fill (al_align al) m) (al_fill al)))) (d_text d)) as HPr'.
  { intros q Hq. unfold d, aligned_desc, pad_desc. cbn [d_text]. fold m. apply prints_padded; auto; lia. }
  destruct (copied pol a b) eqn:EC.
  - unfold middle_ok in HM. rewrite EC in HM. subst t. unfold aligned_strcpy_arg. rewrite EM. cbn [obind fst snd]. rewrite EI. cbn [obind]. rewrite split_fill_padded by lia.
    destruct (add_size_ok (zlen k) p1 Ht0) as (p2 & E2 & Z2 & W2 & R2); [rewrite Z1; exact HZ|]. rewrite E2. cbn [obind].
    assert (exists p3, (if 0 <? m then add_size (m * cs_size (charset_of b) (al_fill al)) p2 else Some p2) = Some p3 /\
      p_size p3 = option_map (fun z => (z + zlen (d_text d)) mod 2 ^ 64) (p_size p) /\ p_width p3 = p_width p2) as (p3 & E3 & Z3 & W3).
    { destruct (Z.ltb_spec 0 m).
      - destruct (add_size_ok (m * cs_size (charset_of b) (al_fill al)) p2) as (p3 & E3 & Z3 & W3 & _); [nia|exact R2|]. exists p3. split; [exact E3|]. split; [|exact W3].
        rewrite Z3, Z2, Z1, EL. destruct (p_size p) as [z|]; [|reflexivity]. cbn [option_map]. f_equal. rewrite Zplus_mod_idemp_l. f_equal. lia.
      - exists p2. split; [reflexivity|]. split; [|reflexivity]. rewrite Z2, Z1, EL. replace m with 0 by lia. reflexivity. }
    rewrite E3. cbn [obind]. eexists p3, _. split; [reflexivity|]. split; [apply HPr', prints_copy|]. apply HFin; [exact Z3|congruence].
  - unfold middle_ok in HM. rewrite EC in HM. destruct HM as [HM1 HM2]. unfold aligned_transcode_arg. rewrite EM. cbn [obind fst snd]. rewrite EI. cbn [obind]. rewrite split_fill_padded by lia.
    destruct (size_if_step p1 p (do s <- trans_size (is_unsafe pol) a b k ; if 0 <? m then chk_i 64 (s + cs_size (charset_of b) (al_fill al) * m) else Some s) (zlen (d_text d)) Z1) as (p2 & E2 & Z2 & W2).
    { rewrite HM2. cbn [obind]. destruct (Z.ltb_spec 0 m).
      - rewrite EL in HT |- *. set (c := cs_size (charset_of b) (al_fill al)) in *. assert (0 <= c * m) by nia. rewrite (Z.mul_comm m c) in *.
        apply chk_ssize; lia.
      - f_equal. rewrite EL. replace m with 0 by lia. lia. }
    { apply zlen_nonneg. }
    { exact HZ. }
    rewrite E2. cbn [obind]. eexists p2, _. split; [reflexivity|]. split; [apply HPr', HM1|]. apply HFin; assumption.
Qed.
