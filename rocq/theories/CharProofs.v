(* Proofs about StringModel: characters and booleans; integers as arguments. *)
From Verif Require Import Base WidthModel WidthProofs DestModel DestProofs UtfSpec UtfModel UtfSizeModel UtfForms UtfDecode UtfLoop UtfTheorems Properties_Utf
  CharsetModel TransSpec SbcsTables SbcsModel SbcsSpec SbcsProofs Properties_Sbcs PivotModel PivotProofs CsetModel CsetProofs Properties_Pivot
  GcbTable GcbSpec WCalcModel GcbCheck WCalcProofs Properties_WCalc DigitsCount DigitsModel DigitsProofs DigitsSpec GroupDist GroupModel GroupProofs GroupSpec  IntSpec IntModel IntProofs PrintModel StringModel PrintSpec StringSpec PrintProofs SegProofs StringProofs RoomProofs RoomInt.

(* ---- the width of one character ---- *)
Lemma boundary_first c : GcbSpec.boundary [] c = true.
Proof. destruct c; reflexivity. Qed.
Lemma seg_width_one w cp c : seg_width w [(cp, [c])] = match w with StdWidth => 65536 * cp_width cp | _ => 65536 end.
Proof. unfold seg_width, seg_points, seg_units. cbn [map clusters_width concat snd fst app]. rewrite boundary_first. unfold zlen. cbn [length]. destruct w; lia. Qed.

Lemma enc_nonempty f cp : enc_of f cp <> [].
Proof. destruct f; cbn [enc_of]; unfold enc8, enc16, enc32; repeat destruct (_ <? _); discriminate. Qed.
Lemma items_one f c its : items (enc_of f) false [c] its ->
  exists it, its = [it] /\ src_of (enc_of f) it = [c] /\ match it with Good cp => valid_cp false cp | Bad _ => ~ (exists cp, valid_cp false cp /\ enc_of f cp = [c]) end.
Proof.
  intros H. remember [c] as src eqn:ES. destruct H as [|cp rest its Hv Hl Hr|bad rest its Hu Hm Hr]; [discriminate| |].
  - pose proof (enc_nonempty f cp) as HN. destruct (enc_of f cp) as [|e es] eqn:EE; [congruence|]. cbn [app] in ES. injection ES as -> ES.
    apply app_eq_nil in ES as [-> ->]. exists (Good cp). split; [|split; [exact EE|exact Hv]]. f_equal. eapply items_det_of; [exact Hr|constructor].
  - destruct Hm as (_ & HB & _). assert (bad <> []) as HN by (destruct HB as [HB|[HB _]]; [destruct bad; [discriminate|congruence]|exact HB]).
    destruct bad as [|e es]; [congruence|]. cbn [app] in ES. injection ES as -> ES. apply app_eq_nil in ES as [-> ->].
    exists (Bad [c]). split; [f_equal; eapply items_det_of; [exact Hr|constructor]|]. split; [reflexivity|].
    intros (cp & Hv & He). apply (Hu cp Hv). rewrite He. exists []. reflexivity.
Qed.
Lemma cp_width_odd c : is_surr c = true \/ 0x10FFFF < c -> cp_width c = 1.
Proof.
  intros H. assert (0xD800 <= c <= 0xDFFF \/ 0x10FFFF < c) as H'.
  { unfold is_surr in H. destruct H as [H|H]; [left|right; exact H]. lia. }
  unfold cp_width, in_ranges, wide_ranges. cbn [existsb fst snd].
  repeat match goal with |- context [(?x <=? c) && (c <=? ?y)] => replace ((x <=? c) && (c <=? y)) with false by lia end. reflexivity.
Qed.
Lemma wc_char_width_ok w b c l : is_cset b -> unit_text b [c] -> segmented b [c] l ->
  wc_char_width w b c = Some (seg_width w l) /\ 65536 <= seg_width w l <= 131072.
Proof.
  intros HB HU HS. assert (exists cp, l = [(cp, [c])] /\ wc_char_width StdWidth b c = Some (65536 * cp_width cp)) as (cp & -> & E).
  { destruct b as [f|i cs]; cbn [segmented] in HS.
    - destruct HS as (its & HI & ->). destruct (items_one f c its HI) as (it & -> & ES & HV). cbn [map]. rewrite ES. exists (cp_of it). split; [reflexivity|].
      inversion_clear HU as [|? ? Hc _].
      assert (forall ch, 0 <= ch -> char32_width ch = cp_width ch) as HC by exact C50_char_width.
      cbn [wc_char_width]. destruct it as [g|bad]; cbn [cp_of src_of] in *.
      + destruct f; cbn [enc_of] in ES.
        * unfold enc8 in ES. destruct (Z.ltb_spec g 128); [|repeat destruct (_ <? _) in ES; discriminate]. injection ES as ->.
          unfold decode_unit8. destruct (Z.ltb_spec c 128); [|lia]. unfold to_u. cbn [bits_of unit_bits] in Hc. rewrite Z.mod_small by lia. rewrite HC by lia. reflexivity.
        * unfold enc16 in ES. destruct (Z.ltb_spec g 65536); [|discriminate]. injection ES as ->. unfold decode_unit16. rewrite HC by lia. reflexivity.
        * injection ES as ->. rewrite HC by lia. reflexivity.
      + assert (cp_width 0xFFFD = 1) as EF by reflexivity. rewrite EF.
        assert (f <> U8 -> 0 <= c < (if match f with U16 => true | _ => false end then 65536 else 4294967296) -> cp_width c = 1) as HO.
        { intros Hf Hr. apply cp_width_odd. destruct (is_surr c) eqn:Hs; [left; reflexivity|]. right. destruct (Z.lt_ge_cases 0x10FFFF c); [assumption|]. exfalso. apply HV. exists c. split; [unfold valid_cp; rewrite Hs; split; [|right; reflexivity]; lia|].
          destruct f; cbn [enc_of]; [congruence|unfold enc16|reflexivity]. destruct (Z.ltb_spec c 65536); [reflexivity|lia]. }
        destruct f.
        * unfold decode_unit8. destruct (Z.ltb_spec c 128); [|reflexivity]. exfalso. apply HV. exists c. cbn [bits_of unit_bits] in Hc. split.
          -- unfold valid_cp. assert (is_surr c = false) as -> by (unfold is_surr; lia). split; [|right; reflexivity]; lia.
          -- cbn [enc_of]. unfold enc8. destruct (Z.ltb_spec c 128); [reflexivity|lia].
        * unfold decode_unit16. cbn [bits_of unit_bits] in Hc. rewrite HC by lia. rewrite HO; [reflexivity|discriminate|lia].
        * cbn [bits_of unit_bits] in Hc. rewrite HC by lia. rewrite HO; [reflexivity|discriminate|lia].
    - destruct l as [|[cp u] [|? l]]; cbn [map fst snd] in HS; try discriminate. injection HS as E ->. exists cp. split; [reflexivity|].
      cbn [wc_char_width]. unfold sb_decode_unit. rewrite E. cbn [obind]. rewrite C50_char_width; [reflexivity|].
      inversion_clear HU as [|? ? Hc _].
      pose proof (decode_some cs _ (all_ok i cs HB) c Hc) as D. rewrite D in E. injection E as <-.
      pose proof (decoded_range cs _ (all_ok i cs HB) c Hc). lia. }
  rewrite seg_width_one. pose proof (cp_width_12 cp). destruct w; (split; [|lia]); try reflexivity. exact E.
Qed.

(* ---- printing count copies of a unit ---- *)
Lemma repeat_add (c : Z) n m : repeat c (n + m) = repeat c n ++ repeat c m.
Proof. apply repeat_app. Qed.
Lemma prints_char count c : 0 <= count -> prints_text (p_char count c) (repeat c (Z.to_nat count)).
Proof.
  intros Hc. apply prints_by. intros S ops R ok [[L _]|L] s u H K; unfold p_char; (destruct (Z.eqb_spec count 1) as [->|]).
  3: { apply (laws_op ops R ok s u (OReserve 1 [c]) (or_intror L)); auto; cbn; lia. }
  3: { pose proof (room_space ops R ok L s u _ H K) as HS. rewrite repeat_length in HS. unfold fill_all. destruct (Z.ltb_spec count 0); [lia|]. cbn [fill_all_loop].
       destruct (Z.leb_spec count (Z.of_nat (d_space ops s))); [|lia]. exact (room_emit ops R ok L s u _ H K). }
  - destruct (ensure_ok ops R _ L 1 s u H) as (s1 & E1 & H1 & H2); [lia|]. rewrite E1. cbn [obind].
    destruct (law_emit _ _ _ L _ u [c] H1) as (s' & E & H' & _); [cbn [length]; lia|]. eauto.
  - apply (fill_all_ok ops R _ L 64 s u count c H); lia.
Qed.

(* encode_fill with a negative count: undefined with a single-byte charset, nothing with UTF *)
Lemma sb_fill_negative i cs n c S (ops : dest_ops S) s : is_cset (Sb i cs) -> n < 0 -> 0 <= c < 2 ^ 32 ->
  p_op (cs_fill (charset_of (Sb i cs)) n c) S ops s = None.
Proof.
  intros HB Hn Hc. cbn [charset_of sb_charset cs_fill]. cbn in HB. destruct (is_sbcs_ok cs (nth_error_In _ _ HB)) as (exc & OK).
  unfold sb_encode_fill. rewrite (encode_some cs exc OK c) by lia. cbn [obind]. unfold p_op. cbn [run_op]. unfold fill_all.
  destruct (Z.ltb_spec n 0); [reflexivity|lia].
Qed.
Lemma utf_fill_negative f n c : n < 0 -> 0 <= c < 2 ^ 32 -> prints_text (p_op (cs_fill (charset_of (Utf f)) n c)) [].
Proof.
  intros Hn Hc. cbn [charset_of]. pose proof (fill_tight (utf_charset f) n c (utf_charset_ok f) Hc) as T.
  cbn [utf_charset cs_fill] in *. destruct (encode_fill_of_ok f n c Hc) as [A B].
  replace (@nil Z) with (op_text (encode_fill_of f n c)) by (rewrite B; replace (Z.to_nat n) with O by lia; reflexivity).
  apply prints_op; assumption.
Qed.

(* ---- arguments whose width is always added whole ---- *)
Definition whole (t : list Z) (W : Z) : desc := mk_desc t W W W.
Lemma whole_arg M a t W : 0 <= W ->
  (forall p, match p_size p with None => True | Some z => 0 <= z < 2 ^ 64 end ->
     match p_width p with None => True | Some (limit, x) => is_width limit /\ 0 <= x /\ x + W <= u_max end ->
     exists p' pr, a p = Some (p', pr) /\ prints_text pr t /\ p_size p' = option_map (fun n => (n + zlen t) mod 2 ^ 64) (p_size p) /\
       match p_width p, p_width p' with None, None => True | Some (limit, x), Some (limit', x') => limit' = limit /\ (x' = x + W \/ limit <= x /\ x' = x) | _, _ => False end) ->
  arg_ok M a (whole t W).
Proof.
  intros HW H. split; [cbn; lia|]. split; [exact HW|]. intros p [HZ HP].
  destruct (H p HZ) as (p' & pr & E & HT & HS & HW').
  { destruct (p_width p) as [[limit x]|]; [|exact I]. destruct HP as (L & _ & Hx & HR). unfold room in HR. cbn [whole d_peak d_need] in HR. split; [exact L|]. lia. }
  exists p', pr. split; [exact E|]. split; [exact HT|]. split; [exact HS|]. cbn [whole d_width d_need].
  destruct (p_width p) as [[limit x]|], (p_width p') as [[limit' x']|]; try exact HW'. destruct HW' as [-> [->|[H1 ->]]]; lia.
Qed.
Lemma add_both p n W (t : list Z) : 0 <= n -> zlen t = n -> match p_size p with None => True | Some z => 0 <= z < 2 ^ 64 end ->
  match p_width p with None => True | Some (limit, x) => is_width limit /\ 0 <= x /\ x + W <= u_max end -> 0 <= W ->
  exists p1, add_width W p = Some p1 /\ exists p2, add_size n p1 = Some p2 /\
    p_size p2 = option_map (fun z => (z + zlen t) mod 2 ^ 64) (p_size p) /\
    match p_width p, p_width p2 with None, None => True | Some (limit, x), Some (limit', x') => limit' = limit /\ (x' = x + W \/ limit <= x /\ x' = x) | _, _ => False end.
Proof.
  intros Hn Ht HZ HP HW.
  destruct (add_width_ok W p) as (p1 & E1 & Z1 & W1). { destruct (p_width p) as [[l x]|]; [unfold u_min in *; lia|exact I]. }
  exists p1. split; [exact E1|]. destruct (add_size_ok n p1 Hn) as (p2 & E2 & Z2 & W2 & _); [rewrite Z1; exact HZ|].
  exists p2. split; [exact E2|]. split; [rewrite Z2, Z1, Ht; reflexivity|]. rewrite W2, W1. destruct (p_width p) as [[l x]|]; [|exact I]. auto.
Qed.

(* the width added only while there is some left, after the size *)
Lemma add_if_remaining p n W (t : list Z) cw : 0 <= n -> zlen t = n -> cw = Some W -> match p_size p with None => True | Some z => 0 <= z < 2 ^ 64 end ->
  match p_width p with None => True | Some (limit, x) => is_width limit /\ 0 <= x /\ x + W <= u_max end -> 0 <= W ->
  exists p1, add_size n p = Some p1 /\ exists p2, (if has_remaining_width p1 then do w <- cw ; add_width w p1 else Some p1) = Some p2 /\
    p_size p2 = option_map (fun z => (z + zlen t) mod 2 ^ 64) (p_size p) /\
    match p_width p, p_width p2 with None, None => True | Some (limit, x), Some (limit', x') => limit' = limit /\ (x' = x + W \/ limit <= x /\ x' = x) | _, _ => False end.
Proof.
  intros Hn Ht -> HZ HP HW. destruct (add_size_ok n p Hn HZ) as (p1 & E1 & Z1 & W1 & _). exists p1. split; [exact E1|].
  unfold has_remaining_width. destruct (p_width p) as [[limit x]|] eqn:EW; rewrite W1.
  - destruct HP as (HL & Hx & Hs). destruct (Z.ltb_spec x limit).
    + cbn [obind]. destruct (add_width_ok W p1) as (p2 & E2 & Z2 & W2); [rewrite W1; unfold u_min; lia|]. exists p2. split; [exact E2|]. split; [rewrite Z2, Z1, Ht; reflexivity|].
      rewrite W2, W1. auto.
    + exists p1. split; [reflexivity|]. split; [rewrite Z1, Ht; reflexivity|]. rewrite W1. auto.
  - exists p1. split; [reflexivity|]. split; [rewrite Z1, Ht; reflexivity|]. rewrite W1. exact I.
Qed.

Lemma char_arg_ok M w b c l : is_cset b -> unit_text b [c] -> segmented b [c] l -> arg_ok M (char_arg w b c) (whole [c] (seg_width w l)).
Proof.
  intros HB HU HS. destruct (wc_char_width_ok w b c l HB HU HS) as [E HW]. apply whole_arg; [lia|]. intros p HZ HP. unfold char_arg.
  destruct (add_if_remaining p 1 (seg_width w l) [c] (wc_char_width w b c)) as (p1 & E1 & p2 & E2 & H1 & H2); try assumption; try reflexivity; try lia.
  rewrite E1. cbn [obind]. rewrite E2. cbn [obind]. eexists _, _. split; [reflexivity|]. split; [|split; assumption].
  change [c] with (op_text (OReserve 1 [c])) at 2. apply prints_op; cbn; lia.
Qed.
Lemma char32_arg_ok M w b c l : is_cset b -> 0 <= c < 2 ^ 32 -> segmented (Utf U32) [c] l ->
  arg_ok M (char32_arg w b c) (whole (cs_encode (charset_of b) c) (seg_width w l)).
Proof.
  intros HB Hc HS. pose proof (charset_of_ok b HB) as KB. destruct (wc_char_width_ok w (Utf U32) c l) as [E HW]; [exact I|repeat constructor; exact Hc || (cbn; lia)|exact HS|].
  pose proof (ok_size _ KB _ Hc) as KS. pose proof (ok_small _ KB _ Hc) as KM. pose proof (zlen_nonneg (cs_encode (charset_of b) c)) as KN.
  apply whole_arg; [lia|]. intros p HZ HP. unfold char32_arg. cbv zeta.
  destruct (add_if_remaining p (cs_size (charset_of b) c) (seg_width w l) (cs_encode (charset_of b) c) (wc_char_width w (Utf U32) c)) as (p1 & E1 & p2 & E2 & H1 & H2); try assumption; try lia.
  rewrite E1. cbn [obind]. rewrite E2. cbn [obind]. eexists _, _. split; [reflexivity|]. split; [|split; assumption].
  apply (prints_op (OReserve (Z.to_nat (cs_size (charset_of b) c)) (cs_encode (charset_of b) c))); cbn [op_wf tight]; unfold zlen in *; lia.
Qed.

(* ---- formatted characters ---- *)
Definition columns (al : align_fmt) : Prop := al_width al <= 32767 * 65536.
Definition chars_desc (b : cset) (al : align_fmt) (W : Z) (t : list Z) : desc :=
  let m := missing (al_width al) W in
  whole (padded (al_align al) (cs_encode (charset_of b) (al_fill al)) m t) (W + 65536 * m).

Lemma char_widths_ok al cw count p : align_ok al -> columns al -> 65536 <= cw <= 131072 -> 0 <= count ->
  let W := cw * count in let m := missing (al_width al) W in
  match p_width p with None => True | Some (limit, x) => is_width limit /\ 0 <= x /\ x + (W + 65536 * m) <= u_max end ->
  exists p1, char_widths al cw count p = Some (p1, m) /\ p_size p1 = p_size p /\
    p_width p1 = match p_width p with None => None | Some (l, x) => Some (l, x + (W + 65536 * m)) end.
Proof.
  intros [HF HL] HC Hcw Hn W m HP. unfold char_widths. rewrite sat_mul_i64_ok by (unfold is_width, u_min, u_max; lia). fold W. cbn [obind].
  assert (0 <= W) as HW0 by (unfold W; nia). pose proof (missing_bounds (al_width al) W) as HM. fold m in HM. unfold columns in HC.
  assert (WidthProofs.clamp W = Z.min u_max W) as EC by (unfold WidthProofs.clamp, u_min, u_max; lia). rewrite EC. unfold is_width in HL.
  destruct (Z.ltb_spec (Z.min u_max W) (al_width al)).
  - assert (Z.min u_max W = W) as -> by lia. rewrite w_sub_ok by (unfold u_min, u_max in *; lia). cbn [obind].
    rewrite missing_ok by (unfold is_width; lia). fold m. rewrite w_of_signed_small by lia. rewrite w_add_ok by (unfold u_min, u_max in *; lia). cbn [obind].
    destruct (add_width_ok (W + 65536 * m) p) as (p1 & E1 & Z1 & W1). { destruct (p_width p) as [[l x]|]; [unfold u_min in *; lia|exact I]. }
    rewrite E1. cbn [obind]. eauto.
  - assert (m = 0) as Em by (apply missing_none; lia). rewrite Em in *. clearbody m. subst m.
    destruct (p_width p) as [[l x]|] eqn:EW.
    + assert (Z.min u_max W = W) as -> by lia. destruct (add_width_ok W p) as (p1 & E1 & Z1 & W1); [rewrite EW; unfold u_min in *; lia|].
      rewrite E1. cbn [obind]. exists p1. split; [reflexivity|]. split; [exact Z1|]. rewrite W1, EW. do 2 f_equal. lia.
    + destruct (add_width_ok (Z.min u_max W) p) as (p1 & E1 & Z1 & W1); [rewrite EW; exact I|].
      rewrite E1. cbn [obind]. exists p1. split; [reflexivity|]. split; [exact Z1|]. rewrite W1, EW. reflexivity.
Qed.
Lemma padded_size b al m t : is_cset b -> 0 <= al_fill al < 2 ^ 32 -> 0 <= m ->
  zlen (padded (al_align al) (cs_encode (charset_of b) (al_fill al)) m t) = zlen t + m * cs_size (charset_of b) (al_fill al) /\ 0 <= cs_size (charset_of b) (al_fill al).
Proof.
  intros HB HF Hm. pose proof (charset_of_ok b HB) as KB. rewrite padded_len by lia. rewrite (ok_size _ KB _ HF). split; [lia|apply zlen_nonneg].
Qed.

Lemma fmt_char_arg_ok M w b al count c l : is_cset b -> unit_text b [c] -> segmented b [c] l -> align_ok al -> columns al -> 0 <= count ->
  zlen (d_text (chars_desc b al (seg_width w l * count) (repeat c (Z.to_nat count)))) < ssize_max ->
  arg_ok M (fmt_char_arg w b al count c) (chars_desc b al (seg_width w l * count) (repeat c (Z.to_nat count))).
Proof.
  intros HB HU HS HA HC Hn HT. pose proof HA as [HF HL]. destruct (wc_char_width_ok w b c l HB HU HS) as [E HW]. unfold chars_desc in *. set (W := seg_width w l * count) in *.
  set (m := missing (al_width al) W) in *. pose proof (missing_bounds (al_width al) W) as HM. fold m in HM. cbv zeta in *. cbn [whole d_text] in HT.
  set (t := repeat c (Z.to_nat count)) in *. assert (zlen t = count) as ET by (unfold t, zlen; rewrite repeat_length; lia).
  destruct (padded_size b al m t HB HF ltac:(lia)) as [EL ES].
  apply whole_arg; [unfold W; nia|]. intros p HZ HP. unfold fmt_char_arg. rewrite E. cbn [obind].
  destruct (char_widths_ok al (seg_width w l) count p HA HC HW Hn HP) as (p1 & E1 & Z1 & W1). fold W in E1, W1. fold m in E1, W1. rewrite E1. cbn [obind].
  rewrite split_fill_padded by lia.
  destruct (size_if_step p1 p (if 0 <? m then chk_i 64 (count + m * cs_size (charset_of b) (al_fill al)) else Some count) (zlen t + m * cs_size (charset_of b) (al_fill al)) Z1) as (p2 & E2 & Z2 & W2).
  { rewrite ET. destruct (Z.ltb_spec 0 m); [apply chk_ssize; nia|]. f_equal. replace m with 0 by lia. lia. }
  { nia. } { exact HZ. }
  rewrite E2. cbn [obind]. eexists _, _. split; [reflexivity|]. split; [apply prints_padded; [exact HB|exact HF|lia|apply prints_char, Hn]|].
  split; [rewrite Z2, EL; reflexivity|]. rewrite W2, W1. destruct (p_width p) as [[limit x]|]; auto.
Qed.
Lemma fill_text_nil c n : n <= 0 -> fill_text c n = [].
Proof. intros H. unfold fill_text. replace (Z.to_nat n) with O by lia. reflexivity. Qed.
Lemma zlen_fill c n : 0 <= n -> zlen (fill_text c n) = n * zlen c.
Proof. intros H. unfold fill_text. rewrite <- (Z2Nat.id n) at 2 by lia. induction (Z.to_nat n) as [|k IH]; [reflexivity|]. cbn [repeat concat]. rewrite zlen_app, IH. nia. Qed.

Lemma fmt_char32_arg_ok M w b al count c l : is_cset b -> 0 <= c < 2 ^ 32 -> segmented (Utf U32) [c] l -> align_ok al -> columns al -> 0 <= count ->
  zlen (d_text (chars_desc b al (seg_width w l * count) (fill_text (cs_encode (charset_of b) c) count))) < ssize_max ->
  arg_ok M (fmt_char32_arg w b al count c) (chars_desc b al (seg_width w l * count) (fill_text (cs_encode (charset_of b) c) count)).
Proof.
  intros HB Hc HS HA HC Hn HT. pose proof HA as [HF HL]. destruct (wc_char_width_ok w (Utf U32) c l) as [E HW]; [exact I|repeat constructor; exact Hc || (cbn; lia)|exact HS|].
  unfold chars_desc in *. set (W := seg_width w l * count) in *.
  set (m := missing (al_width al) W) in *. pose proof (missing_bounds (al_width al) W) as HM. fold m in HM. cbv zeta in *. cbn [whole d_text] in HT.
  pose proof (charset_of_ok b HB) as KB. pose proof (ok_size _ KB _ Hc) as KS. pose proof (zlen_nonneg (cs_encode (charset_of b) c)) as KN.
  set (t := fill_text (cs_encode (charset_of b) c) count) in *. assert (zlen t = count * cs_size (charset_of b) c) as ET by (unfold t; rewrite zlen_fill by lia; rewrite KS; reflexivity).
  destruct (padded_size b al m t HB HF ltac:(lia)) as [EL ES].
  apply whole_arg; [unfold W; nia|]. intros p HZ HP. unfold fmt_char32_arg. rewrite E. cbn [obind].
  destruct (char_widths_ok al (seg_width w l) count p HA HC HW Hn HP) as (p1 & E1 & Z1 & W1). fold W in E1, W1. fold m in E1, W1. rewrite E1. cbn [obind].
  destruct (size_if_step p1 p (chk_i 64 (count * cs_size (charset_of b) c)) (zlen t) Z1) as (p2 & E2 & Z2 & W2).
  { apply chk_ssize; nia. } { apply zlen_nonneg. } { exact HZ. }
  rewrite E2. cbn [obind].
  assert (exists p3, (if 0 <? m then add_size_if (Some (m * cs_size (charset_of b) (al_fill al))) p2 else Some p2) = Some p3 /\
     p_size p3 = option_map (fun z => (z + zlen (padded (al_align al) (cs_encode (charset_of b) (al_fill al)) m t)) mod 2 ^ 64) (p_size p) /\ p_width p3 = p_width p2) as (p3 & E3 & Z3 & W3).
  { rewrite EL. destruct (Z.ltb_spec 0 m).
    - destruct (size_if_step p2 p2 (Some (m * cs_size (charset_of b) (al_fill al))) _ eq_refl eq_refl) as (p3 & E3 & Z3 & W3).
      { nia. }
      { rewrite Z2. destruct (p_size p); [|exact I]. cbn [option_map]. apply Z.mod_pos_bound. lia. }
      exists p3. split; [exact E3|]. split; [|exact W3]. rewrite Z3, Z2. destruct (p_size p); [|reflexivity]. cbn [option_map]. f_equal. rewrite Zplus_mod_idemp_l. f_equal. lia.
    - exists p2. split; [reflexivity|]. split; [|reflexivity]. rewrite Z2. replace m with 0 by lia. rewrite Z.mul_0_l, Z.add_0_r. reflexivity. }
  rewrite E3. cbn [obind]. eexists _, _. split; [reflexivity|]. split.
  { assert (prints_text (p_op (cs_fill (charset_of b) count c)) t) as PC by (apply prints_fill_op; assumption).
    assert (forall n, 0 <= n -> prints_text (p_op (cs_fill (charset_of b) n (al_fill al))) (fill_text (cs_encode (charset_of b) (al_fill al)) n)) as PF by (intros; apply prints_fill_op; assumption).
    unfold padded. destruct (Z.leb_spec m 0).
    - rewrite !fill_text_nil; [rewrite app_nil_r; exact PC| |]; destruct (al_align al); unfold right_fill; cbn [left_fill]; try lia; replace m with 0 by lia; reflexivity.
    - destruct (al_align al); unfold right_fill; cbn [left_fill].
      + rewrite (fill_text_nil _ 0) by lia. rewrite Z.sub_0_r. cbn [app]. apply prints_seq; auto with zarith.
      + rewrite Z.sub_diag, (fill_text_nil _ 0) by lia. rewrite app_nil_r. apply prints_seq; auto with zarith.
      + rewrite Z.shiftr_div_pow2 by lia. change (2 ^ 1) with 2. assert (0 <= m / 2 <= m) by (Z.to_euclidean_division_equations; lia). apply prints_seq; [apply PF; lia|]. apply prints_seq; [exact PC|apply PF; lia]. }
  split; [exact Z3|]. rewrite W3, W2, W1. destruct (p_width p) as [[limit x]|]; auto.
Qed.
Lemma fmt_char32_negative w b al count c l p p' pr : is_cset b -> 0 <= c < 2 ^ 32 -> segmented (Utf U32) [c] l -> align_ok al -> count < 0 ->
  fmt_char32_arg w b al count c p = Some (p', pr) ->
  match b with
  | Sb _ _ => forall S (ops : dest_ops S) s, pr S ops s = None
  | Utf _ => prints_text pr (fill_text (cs_encode (charset_of b) (al_fill al)) (missing (al_width al) (Z.max u_min (seg_width w l * count))))
  end.
Proof.
  intros HB Hc HS [HF HL] Hn E. destruct (wc_char_width_ok w (Utf U32) c l) as [Ew HW]; [exact I|repeat constructor; exact Hc || (cbn; lia)|exact HS|].
  unfold fmt_char32_arg in E. rewrite Ew in E. cbn [obind] in E. destruct (char_widths al (seg_width w l) count p) as [[p1 m]|] eqn:EC; [|discriminate]. cbn [obind] in E.
  destruct (add_size_if _ p1) as [p2|]; [|discriminate]. cbn [obind] in E.
  destruct (if 0 <? m then _ else Some p2) as [p3|]; [|discriminate]. cbn [obind] in E. injection E as _ <-.
  assert (Em : m = missing (al_width al) (Z.max u_min (seg_width w l * count)) /\ 0 <= m).
  { unfold char_widths in EC. rewrite sat_mul_i64_ok in EC by (unfold is_width, u_min, u_max; lia). cbn [obind] in EC.
    assert (WidthProofs.clamp (seg_width w l * count) = Z.max u_min (seg_width w l * count)) as EK by (unfold WidthProofs.clamp, u_min, u_max; nia). rewrite EK in EC.
    set (W := Z.max u_min (seg_width w l * count)) in *. destruct (Z.ltb_spec W (al_width al)).
    - unfold w_sub, chk_i, in_i in EC. change (32 - 1) with 31 in EC. destruct (Z.leb_spec (- 2 ^ 31) (al_width al - W)), (Z.ltb_spec (al_width al - W) (2 ^ 31)); cbn [andb obind] in EC; try discriminate.
      rewrite w_round_ok in EC by (unfold u_max; lia). destruct (w_add _ _) as [x|]; [|discriminate]. cbn [obind] in EC.
      destruct (add_width x p); [|discriminate]. cbn [obind] in EC. injection EC as _ <-. unfold missing. assert (0 <= (al_width al - W + 32767) / 65536) by (apply Z.div_pos; lia). lia.
    - destruct (add_width W p); [|discriminate]. cbn [obind] in EC. injection EC as _ <-. unfold missing.
      assert ((al_width al - W + 32767) / 65536 <= 0) by (pose proof (Z.div_lt_upper_bound (al_width al - W + 32767) 65536 1); lia). lia. }
  destruct Em as [<- Hm]. destruct b as [f|i cs].
  - pose proof (utf_fill_negative f count c Hn Hc) as PC.
    assert (forall n, 0 <= n -> prints_text (p_op (cs_fill (charset_of (Utf f)) n (al_fill al))) (fill_text (cs_encode (charset_of (Utf f)) (al_fill al)) n)) as PF by (intros; apply prints_fill_op; [apply charset_of_ok, HB|assumption..]).
    destruct (Z.leb_spec m 0); [rewrite fill_text_nil by lia; exact PC|]. destruct (al_align al).
    + apply (prints_eq _ ([] ++ fill_text (cs_encode (charset_of (Utf f)) (al_fill al)) m)); [apply prints_seq; auto with zarith|reflexivity].
    + apply (prints_eq _ (fill_text (cs_encode (charset_of (Utf f)) (al_fill al)) m ++ [])); [apply prints_seq; auto with zarith|apply app_nil_r].
    + rewrite Z.shiftr_div_pow2 by lia. change (2 ^ 1) with 2. assert (0 <= m / 2 <= m) by (Z.to_euclidean_division_equations; lia).
      eapply prints_eq; [apply prints_seq; [apply PF; lia|apply prints_seq; [exact PC|apply PF; lia]]|]. cbn [app]. unfold fill_text. rewrite <- concat_app, <- repeat_app. do 2 f_equal. lia.
  - intros S ops s. pose proof (fun s => sb_fill_negative i cs count c S ops s HB Hn Hc) as N. cbv zeta. destruct (m <=? 0); [apply N|].
    destruct (al_align al); unfold p_seq; [rewrite N; reflexivity| |];
      (match goal with |- obind ?x _ = None => destruct x; [cbn [obind]; rewrite N; reflexivity|reflexivity] end).
Qed.

(* ---- booleans ---- *)
(* "true"/"True"/"TRUE" and "false"/"False"/"FALSE" *)
Definition bool_text (lc : lettercase) (x : bool) : list Z :=
  match lc, x with
  | LLower, true => [116; 114; 117; 101] | LMixed, true => [84; 114; 117; 101] | LUpper, true => [84; 82; 85; 69]
  | LLower, false => [102; 97; 108; 115; 101] | LMixed, false => [70; 97; 108; 115; 101] | LUpper, false => [70; 65; 76; 83; 69]
  end.
Lemma bool_units_text lc x : bool_units lc x = bool_text lc x.
Proof. destruct lc, x; reflexivity. Qed.
Lemma bool_size_text lc x : zlen (bool_text lc x) = bool_size x /\ 4 <= bool_size x <= 5.
Proof. destruct lc, x; cbn; lia. Qed.
Lemma prints_bool lc x : prints_text (p_op (OReserve (Z.to_nat (bool_size x)) (bool_units lc x))) (bool_text lc x).
Proof. rewrite <- bool_units_text. apply (prints_op (OReserve (Z.to_nat (bool_size x)) (bool_units lc x))); destruct lc, x; cbn; lia. Qed.
Lemma bool_arg_ok M lc x : arg_ok M (bool_arg lc x) (whole (bool_text lc x) (65536 * bool_size x)).
Proof.
  destruct (bool_size_text lc x) as [EL ES]. apply whole_arg; [lia|]. intros p HZ HP. unfold bool_arg.
  assert (w_of_i16 (bool_size x) = 65536 * bool_size x) as -> by (destruct x; reflexivity).
  destruct (add_both p (bool_size x) (65536 * bool_size x) (bool_text lc x) ltac:(lia) EL HZ HP ltac:(lia)) as (p1 & E1 & p2 & E2 & H1 & H2).
  rewrite E1. cbn [obind]. rewrite E2. cbn [obind]. eexists _, _. split; [reflexivity|]. split; [apply prints_bool|]. split; assumption.
Qed.
Lemma w_round_missing aw n : is_width aw -> 0 <= n -> Z.max 0 (w_round aw - n) = missing aw (65536 * n).
Proof.
  intros HL Hn. unfold missing. destruct (Z.lt_ge_cases aw 0).
  - destruct (round_ok aw HL) as [A _]. unfold scaled in A. assert (w_round aw <= 0) by lia.
    assert ((aw - 65536 * n + 32767) / 65536 <= 0) by (pose proof (Z.div_lt_upper_bound (aw - 65536 * n + 32767) 65536 1); lia). lia.
  - rewrite w_round_ok by (unfold is_width, u_max in *; lia). f_equal. replace (aw - 65536 * n + 32767) with (aw + 32767 + (- n) * 65536) by lia. rewrite Z.div_add by lia. lia.
Qed.
Lemma fmt_bool_arg_ok M lc b al x : is_cset b -> align_ok al -> columns al ->
  arg_ok M (fmt_bool_arg lc b al x) (chars_desc b al (65536 * bool_size x) (bool_text lc x)).
Proof.
  intros HB HA HC. pose proof HA as [HF HL]. destruct (bool_size_text lc x) as [EB SB]. unfold chars_desc. cbv zeta.
  rewrite <- (w_round_missing (al_width al) (bool_size x) HL) by lia. set (fw := w_round (al_width al)). set (m := Z.max 0 (fw - bool_size x)).
  assert (fw <= 32767) as Hfw. { destruct (round_ok (al_width al) HL) as [A A']. fold fw in A, A'. unfold columns in HC. unfold scaled in *. lia. }
  destruct (padded_size b al m (bool_text lc x) HB HF ltac:(lia)) as [EL ES].
  apply whole_arg; [lia|]. intros p HZ HP. unfold fmt_bool_arg. fold fw. cbv zeta. destruct (Z.ltb_spec (bool_size x) fw).
  - assert (m = fw - bool_size x) as Em by lia. rewrite w_of_signed_small by lia.
    destruct (add_both p (bool_size x + (fw - bool_size x) * cs_size (charset_of b) (al_fill al)) (65536 * fw)
                (padded (al_align al) (cs_encode (charset_of b) (al_fill al)) m (bool_text lc x))) as (p1 & E1 & p2 & E2 & H1 & H2).
    { nia. } { rewrite EL, EB, Em. reflexivity. } { exact HZ. } { replace (65536 * fw) with (65536 * bool_size x + 65536 * m) by lia. exact HP. } { lia. }
    rewrite E1. cbn [obind]. rewrite E2. cbn [obind]. rewrite <- Em, split_fill_padded by lia. eexists _, _. split; [reflexivity|]. split.
    + unfold padded. apply prints_seq; [|apply prints_seq; [apply prints_bool|apply prints_fill; [apply charset_of_ok, HB|exact HF]]].
      destruct (al_align al); [apply prints_nothing|apply prints_fill_op; [apply charset_of_ok, HB|cbn [left_fill]; try apply Z.div_pos; lia|exact HF]..].
    + split; [exact H1|]. replace (65536 * bool_size x + 65536 * m) with (65536 * fw) by lia. exact H2.
  - assert (m = 0) as Em by lia. rewrite Em in *. rewrite w_of_signed_small by lia.
    assert (padded (al_align al) (cs_encode (charset_of b) (al_fill al)) 0 (bool_text lc x) = bool_text lc x) as EP.
    { unfold padded, right_fill. destruct (al_align al); cbn [left_fill]; (rewrite !fill_text_nil by (cbn; lia)); rewrite app_nil_r; reflexivity. }
    rewrite EP. rewrite Z.mul_0_r, Z.add_0_r in *.
    destruct (add_both p (bool_size x) (65536 * bool_size x) (bool_text lc x) ltac:(lia) EB HZ HP ltac:(lia)) as (p1 & E1 & p2 & E2 & H1 & H2).
    rewrite E1. cbn [obind]. rewrite E2. cbn [obind]. eexists _, _. split; [reflexivity|]. split; [apply prints_bool|]. split; assumption.
Qed.

(* ---- integers ---- *)
Lemma int_arg_ok M F gs rep f al sgn s v : facets_ok F gs rep -> in_int sgn (sbits s) v -> align_ok (align_of al) -> opts_ok (opts_of f) ->
  let r := request_of F gs rep f al sgn s v in sep_ok F f r -> reserves F f al r -> 0 <= int_text_width r <= 32767 ->
  arg_ok M (of_printed (int_print F f al sgn s v)) (whole (int_text r) (65536 * int_text_width r)).
Proof.
  intros HF Hv HA HO r HS HR HW. destruct (int_print_ok F gs rep f al sgn s v HF Hv HA HO HS) as (q & E & (T & Z & W) & HWf). fold r in T, Z, W, HWf.
  apply whole_arg; [lia|]. intros p HZ HP. unfold of_printed. rewrite E. cbn [obind]. rewrite W, Z. rewrite w_of_signed_small by lia.
  destruct (add_both p (zlen (int_text r)) (65536 * int_text_width r) (int_text r) (zlen_nonneg _) eq_refl HZ HP ltac:(lia)) as (p1 & E1 & p2 & E2 & H1 & H2).
  rewrite E1. cbn [obind]. rewrite E2. cbn [obind]. eexists _, _. split; [reflexivity|]. split; [rewrite <- T; apply prints_ops; [apply HWf, HR|apply tight_frugal]; refine (tight_int F f al sgn s v q (fk_cs _ _ _ HF) _ (fk_sep _ _ _ HF) E); destruct al; [exact (proj1 HA)|exact I]|]. split; assumption.
Qed.
