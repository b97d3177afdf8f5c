(* fast_double_printer: a value without any format. *)
From Verif Require Import Base WidthModel WidthProofs GroupSpec DigitsSpec IntSpec DestModel DestProofs GroupModel GroupProofs GroupDist
  DigitsModel DigitsProofs DigitsCount IntModel IntProofs CharsetModel FloatSpec FloatModel FloatArith FloatText FloatNum FloatInit FloatInit2 FloatHex FloatProofs.

Lemma fast_int_ok : forall fuel m acc, 0 <= m < 100 ^ Z.of_nat fuel -> (0 < fuel)%nat ->
  fast_int fuel m acc = Some (decimal (digits 10 m) ++ acc).
Proof.
  induction fuel as [|fuel IH]; intros m acc Hm Hf; [lia|]. cbn [fast_int]. rewrite <- (decimal_dtext true) by lia.
  destruct (Z.ltb_spec 99 m).
  - assert (H1 : 0 <= m / 100 < 100 ^ Z.of_nat fuel).
    { rewrite Nat2Z.inj_succ, Z.pow_succ_r in Hm by lia. split; [apply Z.div_pos; lia|]. apply Z.div_lt_upper_bound; lia. }
    assert ((0 < fuel)%nat). { destruct fuel; [|lia]. change (100 ^ Z.of_nat 0) with 1 in H1. lia. }
    rewrite IH by assumption. rewrite <- (decimal_dtext true) by lia. rewrite (dtext_two true m) by lia. rewrite <- app_assoc. reflexivity.
  - destruct (Z.ltb_spec 9 m).
    + rewrite (dtext_two_last true m) by lia. rewrite Z.mod_small by lia. reflexivity.
    + rewrite dtext_small by lia. rewrite dchar10 by lia. reflexivity.
Qed.
Lemma fast_frac_ok : forall fuel m a acc, 0 <= m -> 0 <= a < 2 * Z.of_nat fuel ->
  fast_frac fuel m a acc = Some (m / 10 ^ a, decimal (last_digits 10 (Z.to_nat a) m) ++ acc).
Proof.
  induction fuel as [|fuel IH]; intros m a acc Hm Ha; [lia|]. cbn [fast_frac].
  destruct (Z.leb_spec 2 a).
  - rewrite IH by (try apply Z.div_pos; lia). pose proof (pow10_pos (a - 2) ltac:(lia)).
    replace (10 ^ a) with (100 * 10 ^ (a - 2)) by (replace a with (2 + (a - 2)) at 2 by lia; rewrite pow10_split by lia; reflexivity).
    rewrite <- Z.div_div by lia. do 2 f_equal. replace (Z.to_nat a) with (Z.to_nat (a - 2) + 2)%nat by lia.
    rewrite last_digits_app by lia. change (10 ^ Z.of_nat 2) with 100. rewrite decimal_app, <- app_assoc. f_equal.
    destruct (two_digits false m Hm) as [-> ->]. reflexivity.
  - destruct (Z.eqb_spec a 0) as [->|]; cbn [negb].
    + change (10 ^ 0) with 1. rewrite Z.div_1_r. reflexivity.
    + assert (a = 1) by lia. subst a. change (10 ^ 1) with 10. change (decimal (last_digits 10 (Z.to_nat 1) m)) with [digit_char false (m mod 10)]. rewrite dchar10 by (apply Z.mod_pos_bound; lia). reflexivity.
Qed.

(* how a value is printed without any format: shortest of fixed and scientific notation, '.' *)
Definition default_style (lc : lettercase) : float_style := mk_style NGeneral None false lc [46] [] (fun _ => false).
Definition default_frequest (lc : lettercase) (x : decoded_float) : float_request :=
  mk_frequest (fl_negative x) (value_of false (fl_bits x)) (default_style lc) NegativeOnly 0 [32] 0 ARight.

Section Fast.
Variables (lc : lettercase) (m e : Z).
Hypothesis Hd : decimal_ok m e.
Let dc := zlen (digits 10 m).
Let st := default_style lc.

Definition fast_num : num :=
  if fast_is_sci e dc then mk_num FormSci m e dc 0 0 (negb (dc =? 1)) 0 else mk_num FormFixed m e dc 0 0 (e <? 0) 0.
Lemma fast_num_wf : num_wf fast_num.
Proof using Hd.
  clear st. destruct (dc_facts m e Hd) as (Hm & D1 & D2 & D3 & D4 & D5 & D6 & He). fold dc in D1, D2, D3, D4, D5, D6 |- *. unfold fast_num.
  destruct (fast_is_sci e dc); constructor; cbn [n_form n_m n_digcount n_extra n_e n_point]; try reflexivity; lia.
Qed.
Lemma fast_num_text : num_text (fun _ => false) [] [46] lc fast_num = decimal_body st m e.
Proof using Hd.
  destruct (dc_facts m e Hd) as (Hm & D1 & D2 & D3 & D4 & D5 & D6 & He). fold dc in D1, D2, D3, D4, D5, D6 |- *.
  assert (Hr : represents grouping_empty [] false) by (split; [split; [constructor|cbn; lia]|]; split; reflexivity).
  destruct (noprec_general_ok grouping_empty [] false false m e false True Hr Hd) as (n & En & _ & HT).
  rewrite <- (HT st) by reflexivity.
  unfold noprec_general in En. rewrite D4 in En. cbv zeta in En. cbn [orb b2z] in En. rewrite Z.add_0_r in En.
  assert (Eany : any_separator grouping_empty (dc + e) = false).
  { destruct (Z.le_gt_cases (dc + e) 0).
    - unfold any_separator. change (Z.land grouping_empty 31) with 3. change grouping_empty with 3. vm_compute. destruct (dc + e); reflexivity.
    - rewrite (any_separator_ok grouping_empty [] false _ Hr) by lia. rewrite below_none by reflexivity. reflexivity. }
  rewrite Eany in En. cbn [obind andb] in En. unfold fast_num, fast_is_sci.
  set (fsw := if 0 <=? e then e else if dc + e <=? 0 then 2 - (dc + e) else 1) in En.
  assert (Ec : (4 + b2z (negb (dc =? 1)) <? fsw) = (4 + b2z (negb (dc =? 1)) <? e) || (dc + 2 + b2z (negb (dc =? 1)) <? - e)).
  { assert (0 <= b2z (negb (dc =? 1)) <= 1) by (destruct (negb (dc =? 1)); cbn; lia). unfold fsw.
    destruct (Z.leb_spec 0 e); [|destruct (Z.leb_spec (dc + e) 0)]; lia. }
  rewrite Ec in En. destruct ((4 + b2z (negb (dc =? 1)) <? e) || (dc + 2 + b2z (negb (dc =? 1)) <? - e)); apply some_inj in En; subst n; reflexivity.
Qed.

Lemma fast_finite negative sn mm ex :
  wrote (fast_ops lc negative (BFinite sn mm ex m e)) ((if negative then [45] else []) ++ decimal_body st m e) /\
  fast_size negative (BFinite sn mm ex m e) = zlen ((if negative then [45] else []) ++ decimal_body st m e).
Proof using Hd.
  destruct (dc_facts m e Hd) as (Hm & D1 & D2 & D3 & D4 & D5 & D6 & He). fold dc in D1, D2, D3, D4, D5, D6 |- *. pose proof pow19.
  pose proof fast_num_wf as W. rewrite <- fast_num_text.
  set (minus := if negative then [45] else []). assert (Hmi : zlen minus = b2z negative) by (unfold minus; destruct negative; reflexivity).
  assert (Hn1 : 0 <= b2z negative <= 1) by (destruct negative; cbn; lia).
  split.
  - unfold fast_ops. rewrite D4. cbv zeta. fold minus. unfold fast_num in *. destruct (fast_is_sci e dc) eqn:Es.
    + destruct (print_sci_ok lc (mk_num FormSci m e dc 0 0 (negb (dc =? 1)) 0) [46] 1 W eq_refl ltac:(cbn; lia) ltac:(reflexivity)) as (os & EO & WO & TO).
      cbn [n_m n_digcount n_e n_point n_extra] in EO. unfold print_sci in EO. rewrite exponent_units_ok in EO by lia.
      replace (e - 1 + dc) with (e + dc - 1) by lia. rewrite exponent_units_ok by lia.
      assert (Hxl : zlen (exponent_text lc (e + dc - 1)) = 4 + far (e + dc - 1)) by (apply exponent_text_len; lia).
      assert (Hfar : 0 <= far (e + dc - 1) <= 1) by (unfold far; destruct ((99 <? e + dc - 1) || (e + dc - 1 <? -99)); cbn; lia).
      destruct (Z.eqb_spec dc 1) as [E1|E1]; cbn [negb b2z b2i obind] in *.
      * apply some_inj in EO. subst os. unfold ops_text in TO. cbn [map concat op_text Z.to_nat repeat app] in TO. rewrite app_nil_r in TO.
        apply wrote_some.
        -- constructor; [|constructor]. cbn [op_wf]. rewrite !app_length. unfold zlen in *. cbn [length]. lia.
        -- unfold ops_text. cbn [map concat op_text]. rewrite app_nil_r. f_equal. rewrite <- TO. reflexivity.
      * rewrite write_back_ok in EO |- * by (congruence || lia). cbn [obind bval] in *. rewrite dtext_len in EO |- *. fold dc in EO |- *. rewrite Z.eqb_refl in EO |- *.
        change (zlen [46] =? 1) with true in EO. cbn [andb obind] in EO |- *. apply some_inj in EO. subst os.
        unfold ops_text in TO. cbn [map concat op_text Z.to_nat repeat app] in TO. rewrite app_nil_r in TO.
        assert (Hlen : zlen (dtext true 10 m) = dc) by (rewrite dtext_len; reflexivity).
        destruct (dtext true 10 m) as [|u0 us] eqn:Eu; [unfold zlen in Hlen; cbn in Hlen; lia|]. cbn [hd tl] in *. rewrite zlen_cons in Hlen.
        apply wrote_some.
        -- constructor; [|constructor]. cbn [op_wf]. rewrite !app_length. unfold zlen in *. cbn [length]. lia.
        -- unfold ops_text. cbn [map concat op_text]. rewrite app_nil_r. f_equal. rewrite <- TO. reflexivity.
    + unfold num_text. cbn [n_form n_point]. unfold fixed_text, fixed_scaled, fixed_places. cbn [n_m n_e n_extra]. rewrite Z.add_0_r, grouped_none by reflexivity.
      assert (Hsci : -19 - 3 <= e <= 5) by (unfold fast_is_sci in Es; destruct (negb (dc =? 1)); cbn [b2z] in Es; lia).
      destruct (Z.leb_spec 0 e) as [He0|He0].
      * replace (Z.max 0 (- e)) with 0 by lia. rewrite Z.add_0_r. change (10 ^ 0) with 1. rewrite Z.div_1_r. cbn [Z.to_nat last_digits decimal map].
        replace (e <? 0) with false by lia. cbn [orb]. rewrite !app_nil_r. rewrite digits_times by (try lia; destruct Hd as (_ & _ & Hz); exact Hz).
        rewrite decimal_app, decimal_zeros. rewrite write_back_ok by (congruence || lia). cbn [obind bval]. rewrite dtext_len. fold dc. rewrite Z.eqb_refl.
        rewrite (decimal_dtext true) by lia.
        replace (- dc <? e) with true by lia. replace (e <=? - dc) with false by lia. replace (e <? 0) with false by lia. cbn [b2z].
        assert (Hdl : zlen (decimal (digits 10 m)) = dc) by (rewrite decimal_len; reflexivity).
        apply wrote_some.
        -- constructor; [|constructor; [exact I|constructor]]. cbn [op_wf]. rewrite app_length. unfold zlen in *. lia.
        -- unfold ops_text. cbn [map concat op_text]. rewrite app_nil_r, <- app_assoc. reflexivity.
      * replace (Z.max 0 (- e)) with (- e) by lia. replace (e + - e) with 0 by lia. change (10 ^ 0) with 1. rewrite Z.mul_1_r.
        replace (e <? 0) with true by lia. cbn [orb b2z]. pose proof (pow10_pos (- e) ltac:(lia)).
        destruct (Z.leb_spec dc (- e)) as [Hle|Hgt].
        -- replace (e <=? - dc) with true by lia. replace (- dc <? e) with false by lia. cbn [b2z].
           assert (Hlt : m < 10 ^ (- e)) by (assert (10 ^ dc <= 10 ^ (- e)) by (apply Z.pow_le_mono_r; lia); lia).
           rewrite Z.div_small by lia. change (digits 10 0) with [0]. 
           destruct (last_digits_small 10 (Z.to_nat (- e)) ltac:(lia) m) as [El Hl]; [rewrite Z2Nat.id by lia; lia|lia|]. rewrite El, decimal_app, decimal_zeros.
           rewrite write_back_ok by (congruence || lia). cbn [obind bval].
           destruct (reserve_back_ok dc (dtext true 10 m)) as (os & EO & WO & TO); [rewrite dtext_len; reflexivity|lia|]. rewrite EO. cbn [obind].
           apply wrote_some.
           ++ constructor; [|constructor; [exact I|exact WO]]. cbn [op_wf]. rewrite app_length. unfold zlen in *. cbn [length]. lia.
           ++ cbn [app]. rewrite !ops_text_cons. cbn [op_text]. rewrite TO, (decimal_dtext true) by lia. rewrite <- !app_assoc. f_equal.
              change (decimal [0]) with [48]. cbn [app]. do 3 f_equal. unfold dc, zlen. f_equal. lia.
        -- replace (e <=? - dc) with false by lia. replace (- dc <? e) with true by lia. cbn [b2z].
           rewrite fast_frac_ok by lia. cbn [obind fst snd]. rewrite app_nil_r.
           assert (Hq : 0 <= m / 10 ^ (- e) < 100 ^ Z.of_nat 32).
           { split; [apply Z.div_pos; lia|]. apply Z.le_lt_trans with m; [apply Z.div_le_upper_bound; nia|]. apply Z.lt_le_trans with (10 ^ 19); [lia|]. vm_compute. discriminate. }
           rewrite fast_int_ok by (try exact Hq; lia). cbn [obind].
           assert (Hlen : zlen (decimal (digits 10 (m / 10 ^ (- e))) ++ 46 :: decimal (last_digits 10 (Z.to_nat (- e)) m)) = dc + 1).
           { rewrite zlen_app, zlen_cons, !decimal_len, last_digits_zlen by lia.
             assert (10 ^ (- e) <= 10 ^ (dc - 1)) by (apply Z.pow_le_mono_r; lia).
             pose proof (digits_shift 10 m (- e) ltac:(lia) ltac:(lia) ltac:(lia)). unfold dc, zlen in *. lia. }
           rewrite Hlen, Z.eqb_refl. apply wrote_some.
           ++ constructor; [|constructor]. cbn [op_wf]. rewrite app_length. unfold zlen in *. lia.
           ++ unfold ops_text. cbn [map concat op_text]. rewrite app_nil_r. reflexivity.
  - rewrite zlen_app, Hmi, num_text_len by exact W. unfold fast_size. rewrite D4. unfold fast_num.
    assert (Hsci : fast_is_sci e dc = false -> -19 - 3 <= e <= 5) by (intros Es; unfold fast_is_sci in Es; destruct (negb (dc =? 1)); cbn [b2z] in Es; lia).
    destruct (fast_is_sci e dc) eqn:Es; cbn [n_form n_digcount n_e n_extra n_point]; change (zlen [46]) with 1.
    + replace (e - 1 + dc) with (e + dc - 1) by lia. destruct (negb (dc =? 1)); cbn [b2z]; lia.
    + rewrite below_none by reflexivity.
      destruct (Z.ltb_spec 0 e), (Z.leb_spec e (- dc)), (Z.ltb_spec e 0), (Z.ltb_spec (- dc) e); cbn [b2z andb]; lia.
Qed.
End Fast.

Lemma fast_default_text lc x : let t := (if fl_negative x then [45] else []) ++ float_body (default_style lc) (value_of false (fl_bits x)) in
  float_text (default_frequest lc x) = t /\ float_text_width (default_frequest lc x) = zlen t.
Proof.
  intros t. set (r := default_frequest lc x).
  assert (Hmiss : float_missing r = 0).
  { unfold float_missing, float_width, float_content_width, float_bare_width, float_sign_width, float_zeros, float_bare_width. unfold r, default_frequest.
    cbn [fr_value fr_width fr_pad0 fr_negative fr_sign fr_style].
    set (k := zlen (float_body _ _)). pose proof (zlen_nonneg (float_body (one_column (default_style lc)) (value_of false (fl_bits x)))) as Hk. fold k in Hk.
    pose proof (zlen_nonneg (float_prefix (mk_frequest (fl_negative x) (value_of false (fl_bits x)) (default_style lc) NegativeOnly 0 [32] 0 ARight))).
    destruct (finite (value_of false (fl_bits x))), (fl_negative x); lia. }
  assert (Hpre : float_prefix r = []) by (unfold float_prefix, r, default_frequest; cbn [fr_value]; destruct (fl_bits x); reflexivity).
  set (T := float_body (default_style lc) (value_of false (fl_bits x))).
  set (minus := if fl_negative x then [45] else []). assert (Hmi : zlen minus = b2z (fl_negative x)) by (unfold minus; destruct (fl_negative x); reflexivity).
  assert (Hz : float_zeros r = 0).
  { unfold float_zeros, float_bare_width. rewrite Hpre. change (zlen []) with 0. unfold r, default_frequest.
    cbn [fr_value fr_pad0 fr_style]. pose proof (zlen_nonneg (float_body (one_column (default_style lc)) (value_of false (fl_bits x)))).
    unfold float_sign_width. cbn [fr_negative fr_sign]. destruct (finite _), (fl_negative x); lia. }
  assert (Htext : float_text r = minus ++ T).
  { unfold float_text. rewrite Hmiss. rewrite padded_zero. unfold float_content. rewrite Hpre, Hz. reflexivity. }
  assert (Hone : zlen (float_body (one_column (default_style lc)) (value_of false (fl_bits x))) = zlen T).
  { unfold T. destruct (fl_bits x) as [| |sn mm ex m e]; cbn [value_of float_body]; try reflexivity.
    assert (Hb : forall s, st_boundary s = (fun _ => false) -> exact_fixed s m e = fixed_text (fun _ => false) [] (st_point s) (st_showpoint s) (m * 10 ^ (e + Z.max 0 (- e))) (Z.max 0 (- e))).
    { intros s Eb. unfold exact_fixed. rewrite Eb. unfold fixed_text. rewrite !grouped_none by reflexivity. reflexivity. }
    unfold decimal_body. cbn [st_notation st_precision one_column default_style].
    change (one_column (one_column (default_style lc))) with (one_column (default_style lc)).
    rewrite (Hb (one_column (default_style lc))), (Hb (default_style lc)) by reflexivity.
    change (st_point (one_column (default_style lc))) with (st_point (default_style lc)). reflexivity. }
  assert (Hwid : float_text_width r = zlen (minus ++ T)).
  { unfold float_text_width, float_content_width, float_bare_width. rewrite Hmiss, Hz, Hpre. change (fr_style r) with (default_style lc). change (fr_value r) with (value_of false (fl_bits x)).
    rewrite Hone, zlen_app, Hmi. change (zlen []) with 0. unfold float_sign_width, r, default_frequest. cbn [fr_negative fr_sign]. destruct (fl_negative x); cbn [b2z]; lia. }
  split; [exact Htext|exact Hwid].
Qed.
Lemma fast_print_ok lc x :
  match fl_bits x with BFinite _ _ _ m e => decimal_ok m e | _ => True end ->
  exists p, fast_print lc x = Some p /\ fprints p (default_frequest lc x).
Proof.
  intros Hx. set (r := default_frequest lc x). destruct (fast_default_text lc x) as [Htext Hwid]. fold r in Htext, Hwid.
  set (T := float_body (default_style lc) (value_of false (fl_bits x))) in *. set (minus := if fl_negative x then [45] else []) in *.
  assert (HW : wrote (fast_ops lc (fl_negative x) (fl_bits x)) (minus ++ T) /\ fast_size (fl_negative x) (fl_bits x) = zlen (minus ++ T)).
  { unfold T, minus. destruct (fl_bits x) as [| |sn mm ex m e]; cbn [value_of float_body fast_ops fast_size].
    - split; [|destruct (fl_negative x), lc; reflexivity]. apply wrote_some; [|destruct (fl_negative x), lc; reflexivity].
      constructor; [|constructor]. destruct (fl_negative x), lc; cbn; lia.
    - split; [|destruct (fl_negative x), lc; reflexivity]. apply wrote_some; [|destruct (fl_negative x), lc; reflexivity].
      constructor; [|constructor]. destruct (fl_negative x), lc; cbn; lia.
    - exact (fast_finite lc m e Hx (fl_negative x) sn mm ex). }
  destruct HW as ((os & EO & WO & TO) & HS). unfold fast_print. rewrite EO. cbn [obind]. eexists; split; [reflexivity|].
  unfold fprints. cbn [pr_ops pr_size pr_width]. rewrite Htext, Hwid, HS. auto.
Qed.

Lemma fast_default_ok lc x : match fl_bits x with BFinite _ _ _ m e => decimal_ok m e | _ => True end ->
  exists p, fast_print lc x = Some p /\
    ops_text (pr_ops p) = (if fl_negative x then [45] else []) ++ float_body (default_style lc) (value_of false (fl_bits x)) /\
    pr_size p = zlen (ops_text (pr_ops p)) /\ pr_width p = zlen (ops_text (pr_ops p)) /\ Forall op_wf (pr_ops p).
Proof.
  intros Hx. destruct (fast_print_ok lc x Hx) as (p & E & T & Z & W & HWf). destruct (fast_default_text lc x) as [ET EW].
  exists p. split; [exact E|]. split; [rewrite T; exact ET|]. rewrite T. split; [exact Z|]. split; [rewrite W, EW, ET; reflexivity|exact HWf].
Qed.
