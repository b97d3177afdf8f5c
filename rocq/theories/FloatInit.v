(* The functions that choose the digits, the notation and the number of characters. *)
From Verif Require Import Base GroupSpec DigitsSpec IntSpec DestModel DestProofs GroupModel GroupProofs GroupDist
  DigitsModel DigitsProofs DigitsCount IntModel IntProofs CharsetModel FloatSpec FloatModel FloatArith FloatText FloatNum.

Lemma int_len_ok n : num_wf n -> Z.of_nat (int_len n) = Z.max 1 (n_digcount n + n_e n).
Proof.
  intros [Wm Wdc Wx Wz Wf]. unfold int_len. rewrite fixed_div by assumption.
  destruct (dc_range (n_m n) Wm) as (D1 & D2 & D3). rewrite <- Wdc in D1, D2, D3. fold (zlen (digits 10 (if 0 <=? n_e n then n_m n * 10 ^ n_e n else n_m n / 10 ^ (- n_e n)))).
  destruct (Z.leb_spec 0 (n_e n)).
  - rewrite digits_times by (try lia; auto). rewrite zlen_app, zlen_repeat, <- Wdc by lia. lia.
  - assert (0 < n_m n) by (destruct (Z.eq_dec (n_m n) 0) as [E|]; [specialize (Wz E); lia|lia]). specialize (D3 ltac:(lia)).
    pose proof (pow10_pos (- n_e n) ltac:(lia)).
    destruct (Z.le_gt_cases (n_digcount n) (- n_e n)).
    + assert (10 ^ n_digcount n <= 10 ^ (- n_e n)) by (apply Z.pow_le_mono_r; lia).
      rewrite Z.div_small, digits_small by lia. cbn. lia.
    + assert (10 ^ (- n_e n) <= 10 ^ (n_digcount n - 1)) by (apply Z.pow_le_mono_r; lia).
      pose proof (digits_shift 10 (n_m n) (- n_e n) ltac:(lia) ltac:(lia) ltac:(lia)). lia.
Qed.

(* the columns of fixed and scientific text *)
Lemma num_text_len B sep pt lc n : num_wf n ->
  zlen (num_text B sep pt lc n) =
  match n_form n with
  | FormFixed => Z.max 1 (n_digcount n + n_e n) + zlen sep * boundaries_below B (int_len n)
                 + (if n_point n then zlen pt else 0) + Z.max 0 (- n_e n) + n_extra n
  | _ => n_digcount n + (if n_point n then zlen pt else 0) + n_extra n + 4 + far (n_e n + n_digcount n - 1)
  end.
Proof.
  intros W. pose proof (int_len_ok n W) as EI. destruct W as [Wm Wdc Wx Wz Wf]. unfold num_text.
  destruct (dc_range (n_m n) Wm) as (D1 & D2 & D3). rewrite <- Wdc in D1, D2, D3.
  destruct (n_form n) eqn:Ef; try contradiction.
  - unfold fixed_text. rewrite !zlen_app, decimal_grouped_len, decimal_len. fold (int_len n). unfold zlen at 1. fold (int_len n). rewrite EI.
    rewrite last_digits_zlen by (unfold fixed_places; lia).
    replace (n_point n || (0 <? fixed_places n)) with (n_point n).
    + unfold fixed_places. destruct (n_point n); rewrite ?zlen_nil; lia.
    + destruct (n_point n) eqn:Ep; [reflexivity|]. cbn [orb]. unfold fixed_places.
      destruct (Z.ltb_spec 0 (Z.max 0 (- n_e n) + n_extra n)); [|reflexivity]. apply Wf. lia.
  - unfold sci_text. destruct Wf as [We Wp]. rewrite !zlen_app, !decimal_len, exponent_text_len by lia.
    rewrite last_digits_zlen by lia. pose proof (pow10_pos (n_extra n) Wx). pose proof (pow10_pos (n_digcount n - 1) ltac:(lia)).
    rewrite pow10_split by lia. rewrite Z.div_mul_cancel_r by lia.
    assert (Hq : 0 <= n_m n / 10 ^ (n_digcount n - 1) < 10).
    { split; [apply Z.div_pos; lia|]. apply Z.div_lt_upper_bound; [lia|]. replace (n_digcount n) with ((n_digcount n - 1) + 1) in D2 by lia.
      rewrite pow10_split in D2 by lia. change (10 ^ 1) with 10 in D2. lia. }
    rewrite digits_small by lia. change (zlen [n_m n / 10 ^ (n_digcount n - 1)]) with 1.
    replace (n_point n || (0 <? n_digcount n - 1 + n_extra n)) with (n_point n).
    + destruct (n_point n); rewrite ?zlen_nil; lia.
    + destruct (n_point n) eqn:Ep; [reflexivity|]. cbn [orb].
      destruct (Z.ltb_spec 0 (n_digcount n - 1 + n_extra n)); [|reflexivity]. apply Wp. lia.
Qed.

Lemma some_inj {A} (x y : A) : Some x = Some y -> x = y.
Proof. congruence. Qed.

Record num_good (B : Z -> bool) (one_unit : Prop) (showsign : bool) (n : num) : Prop := mk_num_good {
  ng_wf : num_wf n;
  ng_seps : n_form n = FormFixed -> n_seps n = boundaries_below B (int_len n);
  ng_sci : n_form n = FormSci -> n_seps n = 0 \/ one_unit;
  ng_sub : n_sub n = b2z showsign + zlen (num_text B [44] [46] LLower n) }.

Lemma digcount10_ok m : 0 <= m < 10 ^ 19 -> digcount10 m = zlen (digits 10 m).
Proof. intros. unfold digcount10. pose proof pow19. apply count_digits_ok. cbn [sbits]. lia. Qed.

Lemma seps_ok g gs rep k : represents g gs rep ->
  (if any_separator g k then separators_count g k else Some 0) = Some (boundaries_below (boundary gs rep) (Z.to_nat (Z.max 1 k))).
Proof.
  intros Hr. destruct (Z.le_gt_cases k 0).
  - replace (Z.max 1 k) with 1 by lia.
    assert (E0 : boundaries_below (boundary gs rep) (Z.to_nat 1) = 0) by reflexivity. rewrite E0.
    destruct (any_separator g k) eqn:E; [|reflexivity].
    destruct Hr as ([Hg Hl] & Hn & ->). unfold any_separator in E. rewrite land31 in E.
    + apply andb_prop in E as [_ E]. pose proof (Z.mod_pos_bound (pack gs rep) 32). lia.
    + pose proof (proj1 (pack_ge gs rep Hg)). lia.
  - replace (Z.max 1 k) with k by lia. rewrite (any_separator_ok g gs rep) by (assumption || lia).
    rewrite (separators_count_ok g gs rep) by (assumption || lia).
    pose proof (below_le (boundary gs rep) (Z.to_nat k)). destruct (Z.ltb_spec 0 (boundaries_below (boundary gs rep) (Z.to_nat k))); [reflexivity|].
    f_equal; lia.
Qed.

Lemma fixed_text_eq B sep pt sp sp' N p : (sp || (0 <? p)) = (sp' || (0 <? p)) -> fixed_text B sep pt sp N p = fixed_text B sep pt sp' N p.
Proof. intros E. unfold fixed_text. rewrite E. reflexivity. Qed.
Lemma sci_text_eq lc pt sp sp' N p E : (sp || (0 <? p)) = (sp' || (0 <? p)) -> sci_text lc pt sp N p E = sci_text lc pt sp' N p E.
Proof. intros H. unfold sci_text. rewrite H. reflexivity. Qed.

(* what a printable number requires of to_decimal's result *)
Definition decimal_ok (m e : Z) : Prop := 0 <= m < 10 ^ 19 /\ -900 <= e <= 900 /\ (m = 0 -> e = 0).
Definition canonical (m : Z) : Prop := m = 0 \/ m mod 10 <> 0.
Definition int_part (m e : Z) : Z := if 0 <=? e then m * 10 ^ e else m / 10 ^ (- e).

Section Init.
Variables (g : Z) (gs : list Z) (rep : bool) (showsign : bool) (m e : Z) (sp : bool) (one_unit : Prop).
Hypothesis Hr : represents g gs rep.
Hypothesis Hd : decimal_ok m e.
Let B := boundary gs rep.
Let dc := zlen (digits 10 m).

Lemma dc_facts : 0 <= m < 10 ^ 19 /\ 1 <= dc <= 19 /\ m < 10 ^ dc /\ (0 < m -> 10 ^ (dc - 1) <= m) /\ digcount10 m = dc /\
  (1 < dc -> 0 < m) /\ (e <> 0 -> 0 < m) /\ -900 <= e <= 900.
Proof using Hd.
  clear B.
  destruct Hd as (Hm & He & Hz). destruct (dc_range m Hm) as (D1 & D2 & D3). unfold dc. rewrite digcount10_ok by assumption.
  split; [exact Hm|]. split; [exact D1|]. split; [exact D2|]. split; [exact D3|]. split; [reflexivity|].
  split; [|split; [|exact He]].
  - intros H1. destruct (Z.eq_dec m 0) as [E|]; [|lia]. rewrite E, digits_small in H1 by lia. cbn in H1. lia.
  - intros H1. destruct (Z.eq_dec m 0) as [E|]; [specialize (Hz E)|]; lia.
Qed.

Lemma noprec_sci_ok :
  num_good B one_unit showsign (noprec_sci showsign m e sp) /\
  forall sep pt lc s, st_case s = lc -> st_point s = pt -> st_showpoint s = sp ->
    num_text B sep pt lc (noprec_sci showsign m e sp) = exact_sci s m e.
Proof using Hd.
  destruct dc_facts as (Hm & D1 & D2 & D3 & D4 & D5 & D6 & He). unfold noprec_sci. rewrite D4.
  assert (W : num_wf (mk_num FormSci m e dc 0 0 (sp || negb (dc =? 1)) (b2z showsign + 4 + b2z (sp || negb (dc =? 1)) + far (dc + e - 1) + dc))).
  { constructor; cbn [n_m n_digcount n_extra n_e n_form n_point]; lia. }
  split.
  - constructor; [exact W|intros; discriminate|left; reflexivity|].
    rewrite num_text_len by exact W. cbn [n_form n_m n_digcount n_extra n_e n_point n_sub].
    replace (e + dc - 1) with (dc + e - 1) by lia. destruct (sp || negb (dc =? 1)); cbn [b2z]; change (zlen [46]) with 1; lia.
  - intros sep pt lc s <- <- <-. unfold num_text; cbn [n_form n_m n_digcount n_extra n_e n_point]. unfold exact_sci, sci_exponent.
    fold dc. rewrite Z.mul_1_r, Z.add_0_r. apply sci_text_eq.
    destruct (st_showpoint s); [reflexivity|]. cbn [orb]. destruct (Z.ltb_spec 0 (dc - 1)), (Z.eqb_spec dc 1); cbn; lia || reflexivity.
Qed.

Lemma noprec_fixed_ok : exists n, noprec_fixed g showsign m e sp = Some n /\
  num_good B one_unit showsign n /\ n_form n = FormFixed /\
  forall sep pt lc s, st_sep s = sep -> st_point s = pt -> st_showpoint s = sp -> st_boundary s = B ->
    num_text B sep pt lc n = exact_fixed s m e.
Proof using Hd Hr.
  destruct dc_facts as (Hm & D1 & D2 & D3 & D4 & D5 & D6 & He). unfold noprec_fixed. rewrite D4.
  rewrite (seps_ok g gs rep) by exact Hr. cbn [obind]. fold B. set (sc := boundaries_below B _).
  eexists; split; [reflexivity|]. set (n := mk_num _ _ _ _ _ _ _ _).
  assert (W : num_wf n).
  { unfold n. constructor; cbn [n_m n_digcount n_extra n_e n_form n_point]; lia. }
  assert (Esc : sc = boundaries_below B (int_len n)).
  { unfold sc. f_equal. pose proof (int_len_ok n W). unfold n in *; cbn [n_digcount n_e] in *. lia. }
  split; [|split; [reflexivity|]].
  - constructor; [exact W|intros _; exact Esc|intros; discriminate|].
    rewrite num_text_len by exact W. rewrite <- Esc. unfold n; cbn [n_form n_m n_digcount n_extra n_e n_point n_sub].
    change (zlen [46]) with 1. change (zlen [44]) with 1.
    destruct (Z.leb_spec 0 e); [replace (e <? 0) with false by lia; rewrite orb_false_r; destruct sp; cbn [b2z]; lia|].
    replace (e <? 0) with true by lia. rewrite orb_true_r. destruct (Z.leb_spec e (- dc)); lia.
  - intros sep pt lc s <- <- <- EB. unfold num_text, exact_fixed, fixed_scaled, fixed_places, n; cbn [n_form n_m n_digcount n_extra n_e n_point].
    rewrite EB. rewrite Z.add_0_r. apply fixed_text_eq.
    destruct (st_showpoint s); [reflexivity|]. cbn [orb]. destruct (Z.ltb_spec e 0), (Z.ltb_spec 0 (Z.max 0 (- e))); cbn; lia || reflexivity.
Qed.

Lemma noprec_general_ok : exists n, noprec_general g showsign m e sp = Some n /\
  num_good B one_unit showsign n /\
  forall s, st_boundary s = B -> st_showpoint s = sp -> st_notation s = NGeneral -> st_precision s = None ->
    num_text B (st_sep s) (st_point s) (st_case s) n = decimal_body s m e.
Proof using Hd Hr.
  destruct dc_facts as (Hm & D1 & D2 & D3 & D4 & D5 & D6 & He).
  destruct noprec_sci_ok as [GS TS]. destruct noprec_fixed_ok as (nf & EF & GF & FF & TF).
  assert (LS : forall s, st_showpoint s = sp -> zlen (exact_sci (one_column s) m e) = 4 + b2z (sp || negb (dc =? 1)) + dc + far (dc + e - 1)).
  { intros s Es. rewrite <- (TS [44] [46] (st_case s) (one_column s)) by (try reflexivity; exact Es).
    rewrite num_text_len by (apply GS). unfold noprec_sci; rewrite D4; cbn [n_form n_m n_digcount n_extra n_e n_point].
    replace (e + dc - 1) with (dc + e - 1) by lia. change (zlen [46]) with 1. destruct (sp || negb (dc =? 1)); cbn [b2z]; lia. }
  set (sc := boundaries_below B (Z.to_nat (Z.max 1 (dc + e)))).
  assert (Hsc0 : 0 <= sc) by apply below_le.
  set (fsw := if 0 <=? e then e + b2z sp else if dc + e <=? 0 then 2 - (dc + e) else 1).
  unfold noprec_fixed in EF. rewrite D4, (seps_ok g gs rep) in EF by exact Hr. cbn [obind] in EF. fold B in EF. fold sc in EF.
  apply some_inj in EF.
  assert (LF : forall s, st_boundary s = B -> st_showpoint s = sp -> zlen (exact_fixed (one_column s) m e) = fsw + sc + dc).
  { intros s EB Es. rewrite <- (TF [44] [46] LLower (one_column s)) by (try reflexivity; assumption).
    assert (Esub := ng_sub _ _ _ _ GF). rewrite <- EF in Esub at 1. cbn [n_sub] in Esub. unfold fsw.
    destruct (Z.leb_spec 0 e); [lia|]. destruct (Z.leb_spec e (- dc)), (Z.leb_spec (dc + e) 0); lia. }
  assert (Hsep : (if any_separator g (dc + e) then separators_count g (dc + e) else Some 0) = Some sc) by (apply (seps_ok g gs rep); exact Hr).
  assert (Hany : any_separator g (dc + e) = (0 <? sc)).
  { destruct (Z.le_gt_cases 0 (dc + e)).
    - rewrite (any_separator_ok g gs rep) by assumption. unfold sc. fold B. destruct (Z.eq_dec (dc + e) 0) as [->|]; [reflexivity|].
      replace (Z.max 1 (dc + e)) with (dc + e) by lia. reflexivity.
    - unfold sc. replace (Z.max 1 (dc + e)) with 1 by lia. change (0 <? boundaries_below B (Z.to_nat 1)) with false.
      destruct Hr as ([Hg _] & _ & ->). unfold any_separator. rewrite land31 by (pose proof (proj1 (pack_ge gs rep Hg)); lia).
      pose proof (Z.mod_pos_bound (pack gs rep) 32). replace (pack gs rep mod 32 <? dc + e) with false by lia. apply andb_false_r. }
  unfold noprec_general. rewrite D4. fold fsw. cbv zeta.
  set (scn := mk_num FormSci m e dc 0 0 _ _).
  assert (Escn : scn = noprec_sci showsign m e sp).
  { unfold scn, noprec_sci. rewrite D4. f_equal. lia. }
  set (ssw := 4 + b2z (sp || negb (dc =? 1))).
  assert (Hfar : 0 <= far (dc + e - 1) /\ (far (dc + e - 1) = 1 -> ssw + 1 < fsw)).
  { unfold far, ssw, fsw. destruct (Z.ltb_spec 99 (dc + e - 1)), (Z.ltb_spec (dc + e - 1) (-99)); cbn [orb b2z]; (split; [lia|]); intros; try lia;
    destruct (sp || negb (dc =? 1)); cbn [b2z]; destruct (Z.leb_spec 0 e); try lia; destruct sp; cbn [b2z]; try lia; destruct (Z.leb_spec (dc + e) 0); lia. }
  assert (Hfar2 : far (dc + e - 1) <= 1) by (unfold far; destruct ((99 <? dc + e - 1) || (dc + e - 1 <? -99)); cbn; lia).
  assert (Hsciok : forall s, st_boundary s = B -> st_showpoint s = sp -> st_notation s = NGeneral -> st_precision s = None -> ssw < fsw + sc ->
     num_text B (st_sep s) (st_point s) (st_case s) scn = decimal_body s m e).
  { intros s EB Es En Ep Hlt. unfold decimal_body. rewrite En, Ep, LS, LF by assumption. fold ssw.
    replace (ssw + dc + far (dc + e - 1) <? fsw + sc + dc) with true by lia.
    rewrite Escn. apply (TS _ _ _ s); reflexivity || assumption. }
  destruct (Z.ltb_spec ssw fsw) as [Hlt|Hge].
  - exists scn. split; [reflexivity|]. rewrite Escn at 1. split; [exact GS|].
    intros; apply Hsciok; try assumption. lia.
  - rewrite Hsep. cbn [obind]. rewrite Hany.
    destruct (Z.ltb_spec 0 sc); cbn [andb]; [destruct (Z.ltb_spec ssw (fsw + sc)) as [Hlt|Hge2]|].
    + exists scn. split; [reflexivity|]. rewrite Escn at 1. split; [exact GS|]. intros; apply Hsciok; assumption.
    + exists nf. split.
      { f_equal. rewrite <- EF. f_equal. unfold fsw. destruct (Z.leb_spec 0 e); [lia|]. destruct (Z.leb_spec e (- dc)), (Z.leb_spec (dc + e) 0); lia. }
      split; [exact GF|]. intros s EB Es En Ep. unfold decimal_body. rewrite En, Ep, LS, LF by assumption. fold ssw.
      replace (ssw + dc + far (dc + e - 1) <? fsw + sc + dc) with false by lia. apply TF; reflexivity || assumption.
    + exists nf. split.
      { f_equal. rewrite <- EF. f_equal. unfold fsw. destruct (Z.leb_spec 0 e); [lia|]. destruct (Z.leb_spec e (- dc)), (Z.leb_spec (dc + e) 0); lia. }
      split; [exact GF|]. intros s EB Es En Ep. unfold decimal_body. rewrite En, Ep, LS, LF by assumption. fold ssw.
      replace (ssw + dc + far (dc + e - 1) <? fsw + sc + dc) with false by lia. apply TF; reflexivity || assumption.
Qed.

(* rounding: dropping k < dc digits *)
Lemma nearest_range k : 1 <= k < dc -> 10 ^ (dc - k - 1) <= nearest m (10 ^ k) <= 10 ^ (dc - k).
Proof using Hd.
  clear B.
  intros Hk. destruct dc_facts as (Hm & D1 & D2 & D3 & _ & D5 & _). specialize (D3 (D5 ltac:(lia))).
  pose proof (pow10_pos k ltac:(lia)). split.
  - apply nearest_ge; [lia|]. rewrite <- pow10_split by lia. replace (dc - k - 1 + k) with (dc - 1) by lia. exact D3.
  - apply nearest_le; [lia|]. rewrite <- pow10_split by lia. replace (dc - k + k) with dc by lia. lia.
Qed.
Lemma nearest_dc k : 1 <= k < dc -> nearest m (10 ^ k) <> 10 ^ (dc - k) ->
  zlen (digits 10 (nearest m (10 ^ k))) = dc - k /\ 0 < nearest m (10 ^ k) < 10 ^ 19.
Proof using Hd.
  clear B.
  intros Hk Hn. destruct (nearest_range k Hk) as [A C]. destruct dc_facts as (_ & D1 & _).
  pose proof (pow10_pos (dc - k - 1) ltac:(lia)).
  assert (10 ^ (dc - k) <= 10 ^ 19) by (apply Z.pow_le_mono_r; lia).
  split; [apply dc_of; lia|lia].
Qed.

Lemma sci_rounded_exact p : dc - 1 <= p -> sci_rounded m e p = (m * 10 ^ (p - (dc - 1)), e + dc - 1).
Proof using Hd.
  clear B.
  intros Hp. destruct dc_facts as (Hm & D1 & D2 & _). unfold sci_rounded, sci_carries, rounded, sci_exponent. fold dc.
  replace (0 <=? 1 - dc + p) with true by lia. replace (1 - dc + p) with (p - (dc - 1)) by lia.
  assert (m * 10 ^ (p - (dc - 1)) < 10 ^ (p + 1)).
  { replace (p + 1) with (dc + (p - (dc - 1))) by lia. rewrite pow10_split by lia.
    pose proof (pow10_pos (p - (dc - 1)) ltac:(lia)). nia. }
  replace (m * 10 ^ (p - (dc - 1)) =? 10 ^ (p + 1)) with false by lia. reflexivity.
Qed.
Lemma sci_rounded_drop p : 0 <= p < dc - 1 ->
  sci_carries m p = (nearest m (10 ^ (dc - 1 - p)) =? 10 ^ (p + 1)) /\
  sci_rounded m e p = if nearest m (10 ^ (dc - 1 - p)) =? 10 ^ (p + 1) then (10 ^ p, e + dc) else (nearest m (10 ^ (dc - 1 - p)), e + dc - 1).
Proof using Hd.
  clear B.
  intros Hp. unfold sci_rounded, sci_carries, rounded, sci_exponent. fold dc.
  replace (0 <=? 1 - dc + p) with false by lia. replace (- (1 - dc + p)) with (dc - 1 - p) by lia.
  split; [reflexivity|]. destruct (nearest m (10 ^ (dc - 1 - p)) =? 10 ^ (p + 1)); [f_equal; lia|reflexivity].
Qed.

Lemma prec_sci_ok prec : 0 <= prec -> exists n, prec_sci showsign m e prec sp = Some n /\
  num_good B one_unit showsign n /\ n_form n = FormSci /\
  forall s sep, st_showpoint s = sp -> st_notation s = NScientific -> st_precision s = Some prec ->
    num_text B sep (st_point s) (st_case s) n = decimal_body s m e.
Proof using Hd.
  intros Hp. destruct dc_facts as (Hm & D1 & D2 & D3 & D4 & D5 & D6 & He). unfold prec_sci. rewrite D4. cbv zeta.
  set (point := sp || negb (prec =? 0)).
  assert (Hpt : forall k, k = prec -> (point || (0 <? k)) = (sp || (0 <? k))).
  { intros k ->. unfold point. destruct sp; [reflexivity|]. cbn [orb]. destruct (Z.eqb_spec prec 0), (Z.ltb_spec 0 prec); cbn; lia || reflexivity. }
  assert (Hpt2 : 0 < prec -> point = true) by (intros; unfold point; replace (prec =? 0) with false by lia; apply orb_true_r).
  destruct (Z.leb_spec 0 (prec - (dc - 1))) as [Hx|Hx].
  - eexists; split; [reflexivity|]. set (n := mk_num _ _ _ _ _ _ _ _).
    assert (W : num_wf n).
    { unfold n. constructor; cbn [n_m n_digcount n_extra n_e n_form n_point]; first [reflexivity | lia | split; [lia|intros; apply Hpt2; lia]]. }
    split; [|split; [reflexivity|]].
    + constructor; [exact W|intros; discriminate|left; reflexivity|]. rewrite num_text_len by exact W.
      unfold n; cbn [n_form n_m n_digcount n_extra n_e n_point n_sub]. replace (e + dc - 1) with (dc + e - 1) by lia.
      change (zlen [46]) with 1. destruct point; cbn [b2z]; lia.
    + intros s sep Es En Ep. unfold decimal_body. rewrite En, Ep, sci_rounded_exact by lia. unfold num_text, n; cbn [n_form n_m n_digcount n_extra n_e n_point].
      replace (dc - 1 + (prec - (dc - 1))) with prec by lia. rewrite Es. apply sci_text_eq, Hpt; reflexivity.
  - replace (- (prec - (dc - 1))) with (dc - 1 - prec) by lia. replace (dc + (prec - (dc - 1))) with (prec + 1) by lia.
    rewrite drop_digits_ok by lia. cbn [obind]. rewrite pow10_some by lia. cbn [obind].
    destruct (sci_rounded_drop prec ltac:(lia)) as [_ SR].
    destruct (Z.eqb_spec (nearest m (10 ^ (dc - 1 - prec))) (10 ^ (prec + 1))) as [Ec|Ec].
    + eexists; split; [reflexivity|]. set (n := mk_num _ _ _ _ _ _ _ _).
      assert (W : num_wf n).
      { unfold n. constructor; cbn [n_m n_digcount n_extra n_e n_form n_point]; first [reflexivity | lia | split; [lia|intros; apply Hpt2; lia]]. }
      split; [|split; [reflexivity|]].
      * constructor; [exact W|intros; discriminate|left; reflexivity|]. rewrite num_text_len by exact W.
        unfold n; cbn [n_form n_m n_digcount n_extra n_e n_point n_sub].
        replace (e - (prec - (dc - 1)) + (prec + 1)) with (e + dc) by lia. replace (e + dc + 1 - 1) with (e + dc) by lia.
        change (zlen [46]) with 1. unfold far.
        destruct (Z.eqb_spec (e + dc) 100); [|destruct (Z.eqb_spec (e + dc) (-99))].
        -- replace (99 <? dc + e - 1) with false by lia. replace (dc + e - 1 <? -99) with false by lia. replace (99 <? e + dc) with true by lia.
           cbn [orb]. destruct point; cbn [b2z]; lia.
        -- replace (99 <? dc + e - 1) with false by lia. replace (dc + e - 1 <? -99) with true by lia. replace (99 <? e + dc) with false by lia.
           replace (e + dc <? -99) with false by lia. cbn [orb]. destruct point; cbn [b2z]; lia.
        -- replace (99 <? dc + e - 1) with (99 <? e + dc) by lia. replace (dc + e - 1 <? -99) with (e + dc <? -99) by lia.
           destruct point; cbn [b2z]; lia.
      * intros s sep Es En Ep. unfold decimal_body. rewrite En, Ep, SR.
        unfold num_text, n; cbn [n_form n_m n_digcount n_extra n_e n_point].
        replace (1 - 1 + prec) with prec by lia. rewrite Z.mul_1_l. replace (e - (prec - (dc - 1)) + (prec + 1) + 1 - 1) with (e + dc) by lia.
        rewrite Es. apply sci_text_eq, Hpt; reflexivity.
    + eexists; split; [reflexivity|]. set (n := mk_num _ _ _ _ _ _ _ _).
      destruct (nearest_dc (dc - 1 - prec) ltac:(lia)) as [N1 N2]; [replace (dc - (dc - 1 - prec)) with (prec + 1) by lia; exact Ec|].
      assert (W : num_wf n).
      { unfold n. constructor; cbn [n_m n_digcount n_extra n_e n_form n_point]; first [reflexivity | lia | split; [lia|intros; apply Hpt2; lia]]. }
      split; [|split; [reflexivity|]].
      * constructor; [exact W|intros; discriminate|left; reflexivity|]. rewrite num_text_len by exact W.
        unfold n; cbn [n_form n_m n_digcount n_extra n_e n_point n_sub].
        replace (e - (prec - (dc - 1)) + (prec + 1) - 1) with (dc + e - 1) by lia. change (zlen [46]) with 1. destruct point; cbn [b2z]; lia.
      * intros s sep Es En Ep. unfold decimal_body. rewrite En, Ep, SR.
        unfold num_text, n; cbn [n_form n_m n_digcount n_extra n_e n_point].
        replace (prec + 1 - 1 + 0) with prec by lia. rewrite Z.mul_1_r. replace (e - (prec - (dc - 1)) + (prec + 1) - 1) with (e + dc - 1) by lia.
        rewrite Es. apply sci_text_eq, Hpt; reflexivity.
Qed.
End Init.
