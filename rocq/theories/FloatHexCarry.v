(* Hexadecimal notation with a precision when rounding carries into the leading digit:
   the digits after the point are printed as zeros and the leading digit is not changed. *)
From Verif Require Import Base WidthModel WidthProofs GroupSpec DigitsSpec IntSpec DestModel DestProofs GroupModel GroupProofs GroupDist
  DigitsModel DigitsProofs DigitsCount IntModel IntProofs CharsetModel FloatSpec FloatModel FloatArith FloatText FloatNum FloatInit FloatInit2 FloatHex FloatProofs.

Lemma hex_fine_exact lead mantissa p : 0 <= lead <= 1 -> 0 <= mantissa < 2 ^ 52 -> 0 <= p ->
  (p < 13 -> mantissa mod 16 ^ (13 - p) = 0) -> hex_fine lead mantissa (Some p).
Proof.
  intros Hl Hm Hp Hx. unfold hex_fine, hex_rounded. change (2 ^ 52) with (16 ^ 13) in *. pose proof (pow16_pos p Hp) as Pp.
  destruct (Z.ltb_spec p 13) as [H|H]; cbn [fst].
  - specialize (Hx H). set (d := 16 ^ (13 - p)) in *. assert (Hd : 0 < d) by (apply pow16_pos; lia).
    assert (E13 : 16 ^ 13 = 16 ^ p * d) by (unfold d; rewrite <- pow16_split by lia; f_equal; lia).
    pose proof (Z.div_mod mantissa d ltac:(lia)) as DM. rewrite Hx in DM.
    replace (lead * 16 ^ 13 + mantissa) with ((lead * 16 ^ p + mantissa / d) * d) by (rewrite E13; lia).
    rewrite nearest_mul by exact Hd. rewrite Z.div_add_l by lia. rewrite Z.div_small; [lia|]. split; [apply Z.div_pos; lia|apply Z.div_lt_upper_bound; lia].
  - replace (16 ^ p) with (16 ^ 13 * 16 ^ (p - 13)) by (rewrite <- pow16_split by lia; f_equal; lia).
    pose proof (pow16_pos (p - 13) ltac:(lia)). rewrite Z.div_mul_cancel_r by lia. rewrite Z.div_add_l by lia. rewrite Z.div_small; lia.
Qed.

Lemma hex_fine_dec lead mantissa p : hex_fine lead mantissa p \/ ~ hex_fine lead mantissa p.
Proof. unfold hex_fine. destruct p; [|left; exact I]. destruct (Z.eq_dec (fst (hex_rounded lead mantissa (Some z)) / 16 ^ z) lead); auto. Qed.

Lemma init_hex_carry clz showsign (subnormal : bool) mantissa exponent prec sp :
  0 <= mantissa < 2 ^ 52 -> -10000 < exponent < 10000 ->
  let lead := if subnormal then 0 else 1 in
  ~ hex_fine lead mantissa (prec_of prec) ->
  let n := init_hex clz showsign subnormal mantissa exponent prec sp in
  hex_good showsign n /\
  forall s, st_showpoint s = sp -> st_precision s = prec_of prec ->
    hex_num_text (st_point s) (st_case s) lead n = hex_body s lead 0 exponent.
Proof.
  intros Hm He lead Hnot n.
  assert (HN : n = init_hex clz showsign subnormal mantissa exponent prec sp) by reflexivity. clearbody n.
  assert (Hlead : 0 <= lead <= 1) by (unfold lead; destruct subnormal; lia).
  assert (H2 : 2 ^ 52 = 16 ^ 13) by reflexivity.
  assert (Hp : 0 <= prec) by (destruct (Z.leb_spec 0 prec) as [|H]; [assumption|exfalso; apply Hnot; unfold prec_of; replace (0 <=? prec) with false by lia; exact I]).
  assert (Epo : prec_of prec = Some prec) by (unfold prec_of; replace (0 <=? prec) with true by lia; reflexivity). rewrite Epo in Hnot.
  assert (Hx : prec < 13 /\ mantissa mod 16 ^ (13 - prec) <> 0).
  { destruct (Z.ltb_spec prec 13) as [H|H]; [|exfalso; apply Hnot; apply hex_fine_exact; try assumption; lia]. split; [exact H|].
    intros C. apply Hnot. apply hex_fine_exact; try assumption. intros _. exact C. }
  destruct Hx as [Hp13 Hmod].
  assert (Em : mantissa <> 0) by (intros ->; apply Hmod; apply Z.mod_0_l; pose proof (pow16_pos (13 - prec) ltac:(lia)); lia).
  unfold init_hex in HN. cbv zeta in HN. replace (mantissa =? 0) with false in HN by lia. rewrite andb_false_r in HN.
  rewrite exponent_digcount_ok in HN by exact He. set (ed := zlen (digits 10 (Z.abs exponent))) in *.
  rewrite mantissa_digcount_ok in HN by lia. destruct (places_spec mantissa ltac:(lia)) as (a & A1 & A2 & A3 & A4). rewrite A4 in HN.
  replace (0 <=? prec) with true in HN by lia. cbn [negb] in HN.
  destruct (Z.leb_spec (13 - a) prec) as [C|_]; [exfalso; apply Hmod; apply (mod16_le mantissa (13 - prec) a); [lia|exact A2]|].
  assert (Hfine := Hnot). unfold hex_fine in Hfine. 
  unfold hex_rounded in Hfine. replace (prec <? 13) with true in Hfine by lia. cbn [fst] in Hfine.
  set (d := 16 ^ (13 - prec)) in *. assert (Hd : 0 < d) by (apply pow16_pos; lia).
  assert (Esd : Z.shiftl 1 (Z.shiftl (13 - prec) 2) = d).
  { rewrite !Z.shiftl_mul_pow2 by (try lia; apply Z.shiftl_nonneg; lia). unfold d. rewrite pow16_2 by lia. rewrite Z.mul_1_l. f_equal.
    change (2 ^ 2) with 4. lia. }
  rewrite Esd in HN. clear Esd.
  assert (Elow : Z.land mantissa (d - 1) = mantissa mod d).
  { unfold d. rewrite pow16_2 by lia. replace (2 ^ (4 * (13 - prec)) - 1) with (Z.ones (4 * (13 - prec))) by (rewrite Z.ones_equiv; lia).
    apply Z.land_ones. lia. }
  rewrite Elow in HN. clear Elow.
  assert (Eh : Z.shiftr d 1 = d / 2) by (rewrite shr_div by lia; reflexivity). rewrite Eh in HN. clear Eh.
  assert (Edh : d = 2 * (d / 2)).
  { unfold d. replace (13 - prec) with (1 + (12 - prec)) by lia. rewrite pow16_split by lia. change (16 ^ 1) with (2 * 8).
    rewrite <- (Z.mul_assoc 2 8), (Z.mul_comm 2 (8 * _)), Z.div_mul by lia. lia. }
  assert (Eodd : negb (Z.land mantissa d =? 0) = Z.odd (mantissa / d)).
  { unfold d. rewrite pow16_2 by lia. set (b := 4 * (13 - prec)). assert (0 <= b) by (unfold b; lia).
    replace (Z.odd (mantissa / 2 ^ b)) with (Z.testbit mantissa b).
    2: { rewrite <- Z.shiftr_div_pow2, <- Z.bit0_odd, Z.shiftr_spec by lia. reflexivity. }
    destruct (Z.testbit mantissa b) eqn:Et.
    - destruct (Z.eqb_spec (Z.land mantissa (2 ^ b)) 0) as [C|]; [|reflexivity]. exfalso.
      assert (C2 : Z.testbit (Z.land mantissa (2 ^ b)) b = false) by (rewrite C; apply Z.bits_0).
      rewrite Z.land_spec, Et, Z.pow2_bits_true in C2 by lia. discriminate.
    - destruct (Z.eqb_spec (Z.land mantissa (2 ^ b)) 0) as [|C]; [reflexivity|]. exfalso. apply C. apply Z.bits_inj'. intros i Hi.
      rewrite Z.land_spec, Z.bits_0, Z.pow2_bits_eqb by lia. destruct (Z.eqb_spec b i) as [<-|]; [rewrite Et; reflexivity|apply andb_false_r]. }
  rewrite Eodd in HN. clear Eodd.
  set (q0 := mantissa / d) in *. set (r := mantissa mod d) in *. assert (Hr : 0 <= r < d) by (apply Z.mod_pos_bound; exact Hd).
  assert (Emd : mantissa = d * q0 + r) by (apply Z.div_mod; lia).
  assert (E13' : 16 ^ 13 = 16 ^ prec * d) by (unfold d; rewrite <- pow16_split by lia; f_equal; lia).
  pose proof (pow16_pos prec Hp) as Pp.
  assert (Hq0 : 0 <= q0 < 16 ^ prec) by (split; [apply Z.div_pos; lia|apply Z.div_lt_upper_bound; lia]).
  assert (Eqv : (lead * 2 ^ 52 + mantissa) / d = lead * 16 ^ prec + q0).
  { rewrite H2, E13'. symmetry. apply Z.div_unique with r; [lia|]. rewrite Emd at 1. lia. }
  assert (Erv : (lead * 2 ^ 52 + mantissa) mod d = r).
  { rewrite H2, E13'. symmetry. apply Z.mod_unique with (lead * 16 ^ prec + q0); [lia|]. rewrite Emd at 1. lia. }
  set (up := (d / 2 <? r) || ((r =? d / 2) && Z.odd q0)) in *.
  assert (Enear : nearest (lead * 2 ^ 52 + mantissa) d = lead * 16 ^ prec + q0 + (if (d / 2 <? r) || ((r =? d / 2) && Z.odd (lead * 16 ^ prec + q0)) then 1 else 0)).
  { unfold nearest. cbv zeta. rewrite Eqv, Erv. replace (d <? 2 * r) with (d / 2 <? r) by lia. replace (2 * r =? d) with (r =? d / 2) by lia.
    destruct ((d / 2 <? r) || ((r =? d / 2) && Z.odd (lead * 16 ^ prec + q0))); lia. }
  rewrite Enear in Hfine. clear Enear.
  set (up' := (d / 2 <? r) || ((r =? d / 2) && Z.odd (lead * 16 ^ prec + q0))) in *.
  assert (Hall : q0 = 16 ^ prec - 1 /\ up' = true).
  { destruct up' eqn:Eu.
    - split; [|reflexivity]. destruct (Z.eq_dec q0 (16 ^ prec - 1)) as [|C]; [assumption|]. exfalso. apply Hfine.
      replace (lead * 16 ^ prec + q0 + 1) with (lead * 16 ^ prec + (q0 + 1)) by lia. rewrite Z.div_add_l by lia. rewrite Z.div_small; lia.
    - exfalso. apply Hfine. rewrite Z.add_0_r, Z.div_add_l by lia. rewrite Z.div_small; lia. }
  destruct Hall as [Hq Hup].
  assert (Eup : prec <> 0 -> up = true).
  { intros Hnz. rewrite <- Hup. unfold up, up'. f_equal. f_equal. rewrite Z.odd_add. replace (Z.odd (lead * 16 ^ prec)) with false; [symmetry; apply xorb_false_l|].
    replace prec with (1 + (prec - 1)) by lia. rewrite pow16_split by lia. change (16 ^ 1) with (8 * 2). symmetry.
    replace (lead * (8 * 2 * 16 ^ (prec - 1))) with (2 * (lead * 8 * 16 ^ (prec - 1))) by lia. apply Z.odd_mul. }
  assert (Hdig : last_digits 16 (Z.to_nat prec) ((if up then mantissa + d else mantissa) / d) = repeat 0 (Z.to_nat prec)).
  { destruct (Z.eq_dec prec 0) as [Ez|Hnz]; [rewrite Ez; reflexivity|]. rewrite (Eup Hnz).
    replace (mantissa + d) with (mantissa + 1 * d) by lia. rewrite Z.div_add by lia. fold q0. rewrite Hq.
    replace (16 ^ prec - 1 + 1) with (1 * 16 ^ Z.of_nat (Z.to_nat prec)) by (rewrite Z2Nat.id by lia; lia). apply last_digits_mul; lia. }
  set (m' := if up then mantissa + d else mantissa) in *. assert (Hm' : 0 < m') by (unfold m'; destruct up; lia).
  set (point := negb (prec =? 0) || sp) in *. subst n. split.
  - constructor; cbn [n_form n_sub n_point n_digcount n_seps]; try reflexivity; try lia.
    constructor; cbn [n_m n_digcount n_extra n_e n_seps]; try reflexivity; lia.
  - intros s Es Ep. unfold hex_body. rewrite Ep, Epo. unfold hex_rounded. replace (prec <? 13) with true by lia.
    rewrite Z.add_0_r. rewrite H2, E13'. fold d. rewrite Z.mul_assoc. rewrite nearest_mul by exact Hd.
    pose proof (hex_join (st_case s) lead 0 prec prec (st_point s) (st_showpoint s || (0 <? prec)) exponent Hlead ltac:(lia) ltac:(lia)) as HJ. cbv zeta in HJ.
    rewrite Z.mul_0_l, Z.add_0_r in HJ. unfold hex_tail in HJ. rewrite HJ. unfold hex_num_text, hex_tail. cbn [n_m n_digcount n_extra n_e n_point].
    fold d. rewrite Hdig. rewrite Z.sub_diag.
    replace (last_digits 16 (Z.to_nat prec) 0) with (repeat 0 (Z.to_nat prec)) by (symmetry; apply (last_digits_mul 16 (Z.to_nat prec) ltac:(lia) 0 ltac:(lia))).
    rewrite Es. unfold point. f_equal. f_equal. destruct sp; [rewrite orb_true_r; reflexivity|]. rewrite orb_false_r. cbn [orb].
    replace (0 <? prec) with (negb (prec =? 0)) by lia. reflexivity.
Qed.

(* a request with another value *)
Definition with_value (r : float_request) (v : float_value) : float_request :=
  mk_frequest (fr_negative r) v (fr_style r) (fr_sign r) (fr_pad0 r) (fr_fill r) (fr_width r) (fr_align r).

Lemma hex_coded F gs rep f al x (subnormal : bool) mantissa exponent m10 e10 : ffacets_ok F gs rep -> align_ok al ->
  ff_notation f = NHex -> fl_bits x = BFinite subnormal mantissa exponent m10 e10 ->
  0 <= mantissa < 2 ^ 52 -> -10000 < exponent < 10000 ->
  ~ hex_fine (lead_of subnormal) mantissa (prec_of (ff_precision f)) ->
  let r := with_value (frequest_of F gs rep f al x) (FBin (lead_of subnormal) 0 exponent) in
  float_text_width r < 2 ^ 31 ->
  exists p, punct_double F f al x = Some p /\ fprints p r.
Proof.
  intros HF HA En Eb Hm He Hfine r Hfit. pose proof HF as [K _ Hs Hp10 Hp16].
  set (cs := fk_charset F) in *. set (point := float_point F f).
  assert (Hpt : 0 <= point < 2 ^ 32) by (unfold point, float_point; destruct (ff_punct f), (is_hex (ff_notation f)); lia).
  pose proof (init_hex_carry (fk_clz F) (shows_sign f x) subnormal mantissa exponent (ff_precision f) (ff_showpoint f) Hm He Hfine) as HH. cbv zeta in HH.
  set (n := init_hex (fk_clz F) (shows_sign f x) subnormal mantissa exponent (ff_precision f) (ff_showpoint f)) in *. destruct HH as [[W Hf Hsub] Htext].
  assert (Ein : forall g, init_num (fk_clz F) g f x = Some n) by (intros g; unfold init_num; rewrite Eb, En, mantissa_masked by exact Hm; reflexivity).
  set (st := style_of F gs rep f).
  assert (HT1 : float_body (one_column st) (fr_value r) = hex_num_text [46] (fk_case F) (lead_of subnormal) n).
  { unfold r. cbn [with_value fr_value float_body]. symmetry. apply (Htext (one_column st)); reflexivity. }
  assert (HT : float_body st (fr_value r) = hex_num_text (cs_encode cs point) (fk_case F) (lead_of subnormal) n).
  { unfold r. cbn [with_value fr_value float_body]. symmetry. apply (Htext st); reflexivity. }
  assert (Hpre : float_prefix r = [48; if low_prefix (fk_case F) then 120 else 88]) by reflexivity.
  assert (Eh : is_hex (ff_notation f) = true) by (rewrite En; reflexivity).
  eapply (finish_any F gs rep f al x HF HA (FBin (lead_of subnormal) 0 exponent) n _ _ Hfit (Ein _)); 
    [reflexivity|exact HT1|exact HT|rewrite Hf; split; discriminate| |destruct W; assumption| |].
  - rewrite Eh. fold r. change (zlen (float_prefix _)) with (zlen (float_prefix r)). rewrite Hpre, hex_num_len by exact W. change (zlen [46]) with 1. rewrite Hsub. unfold zlen. cbn [length]. destruct (n_point n); cbn [b2z]; lia.
  - rewrite Eh. cbn [negb andb]. rewrite !hex_num_len by exact W. change (zlen [46]) with 1. fold cs. fold point. rewrite (ok_size cs K) by exact Hpt. destruct (n_point n); lia.
  - intros fd Hd. cbv zeta. rewrite Eh, Hf, Eb. change (float_prefix _) with (float_prefix r). rewrite Hpre. apply print_hex_ok; try assumption.
    + destruct (n_point n); [apply (ok_size cs K); exact Hpt|reflexivity].
    + rewrite Hsub, Hd. lia.
Qed.
