(* The digits printed for a described number (fixed and scientific notation). *)
From Verif Require Import Base GroupSpec DigitsSpec IntSpec DestModel DestProofs GroupModel GroupProofs GroupDist
  DigitsModel DigitsProofs IntModel IntProofs CharsetModel FloatSpec FloatModel FloatArith FloatText.

Definition fixed_places (n : num) : Z := Z.max 0 (- n_e n) + n_extra n.
Definition fixed_scaled (n : num) : Z := n_m n * 10 ^ (n_e n + fixed_places n).
Definition num_text (B : Z -> bool) (sep pt : list Z) (lc : lettercase) (n : num) : list Z :=
  match n_form n with
  | FormFixed => fixed_text B sep pt (n_point n) (fixed_scaled n) (fixed_places n)
  | FormSci => sci_text lc pt (n_point n) (n_m n * 10 ^ n_extra n) (n_digcount n - 1 + n_extra n) (n_e n + n_digcount n - 1)
  | _ => []
  end.
Definition int_len (n : num) : nat := length (digits 10 (fixed_scaled n / 10 ^ fixed_places n)).

Record num_wf (n : num) : Prop := mk_num_wf {
  nw_m : 0 <= n_m n < 10 ^ 19;
  nw_dc : n_digcount n = zlen (digits 10 (n_m n));
  nw_extra : 0 <= n_extra n;
  nw_zero : n_m n = 0 -> n_e n = 0;
  nw_form : match n_form n with
            | FormFixed => (n_e n < 0 \/ 0 < n_extra n -> n_point n = true)
            | FormSci => -1000 < n_e n + n_digcount n - 1 < 1000 /\ (1 < n_digcount n \/ 0 < n_extra n -> n_point n = true)
            | _ => False
            end }.

Lemma wrote_some os t : Forall op_wf os -> ops_text os = t -> wrote (Some os) t.
Proof. intros; exists os; auto. Qed.

Lemma grouped_none_below B sep ds : boundaries_below B (length ds) = 0 -> grouped B sep ds = ds.
Proof.
  induction ds as [|d ds IH]; intros H; [reflexivity|]. cbn [grouped length boundaries_below] in *.
  pose proof (below_le B (length ds)). change (Z.of_nat (length ds)) with (zlen ds) in *.
  destruct ((0 <? zlen ds) && B (zlen ds)); [lia|]. rewrite IH by lia. reflexivity.
Qed.
Lemma grouped_one B sep d : grouped B sep [d] = [d].
Proof. reflexivity. Qed.
Lemma decimal_grouped_len B sep ds : zlen (grouped B sep (decimal ds)) = zlen ds + zlen sep * boundaries_below B (length ds).
Proof.
  rewrite grouped_len. rewrite decimal_len. unfold decimal. rewrite map_length. lia.
Qed.

Lemma digits_times m k : 0 <= m -> 0 <= k -> (m = 0 -> k = 0) ->
  digits 10 (m * 10 ^ k) = digits 10 m ++ repeat 0 (Z.to_nat k).
Proof.
  intros Hm Hk H0. destruct (Z.eq_dec m 0) as [->|].
  - rewrite H0 by reflexivity. cbn. reflexivity.
  - rewrite <- (Z2Nat.id k) at 1 by lia. apply digits_mul; lia.
Qed.
Lemma last_digits_mulz m a k : 0 <= m -> 0 <= a -> 0 <= k ->
  last_digits 10 (Z.to_nat (a + k)) (m * 10 ^ k) = last_digits 10 (Z.to_nat a) m ++ repeat 0 (Z.to_nat k).
Proof.
  intros Hm Ha Hk. rewrite Z2Nat.inj_add by lia. pose proof (pow10_pos k Hk).
  rewrite last_digits_app by nia. rewrite Z2Nat.id by lia. rewrite Z.div_mul by lia. f_equal.
  rewrite <- (Z2Nat.id k) at 2 by lia. apply last_digits_mul; lia.
Qed.
Lemma last_digits_mod a m : 0 <= m -> 0 <= a -> last_digits 10 (Z.to_nat a) (m mod 10 ^ a) = last_digits 10 (Z.to_nat a) m.
Proof.
  intros Hm Ha. rewrite <- (Z2Nat.id a) at 2 by lia. revert m Hm. generalize (Z.to_nat a). clear a Ha.
  induction n as [|n IH]; intros m Hm; [reflexivity|]. cbn [last_digits].
  rewrite Nat2Z.inj_succ, Z.pow_succ_r by lia. pose proof (pow10_pos (Z.of_nat n) ltac:(lia)).
  assert (E1 : m mod (10 * 10 ^ Z.of_nat n) = m mod 10 + 10 * ((m / 10) mod 10 ^ Z.of_nat n)) by (apply Z.rem_mul_r; lia).
  f_equal.
  - rewrite E1. replace ((m mod 10 + 10 * ((m / 10) mod 10 ^ Z.of_nat n)) / 10) with ((m / 10) mod 10 ^ Z.of_nat n) by lia.
    apply IH. lia.
  - f_equal. rewrite E1. lia.
Qed.

Lemma lor_e lc : Z.lor 69 (Z.shiftl (b2i (low_prefix lc)) 5) = if low_prefix lc then 101 else 69.
Proof. destruct lc; reflexivity. Qed.
Lemma exponent_units_ok lc E : -1000 < E < 1000 -> exponent_units lc E = Some (exponent_text lc E).
Proof.
  intros HE. unfold exponent_units, exponent_text. rewrite lor_e. cbv zeta.
  assert (Es : 43 + Z.shiftl (b2i (E <? 0)) 1 = if E <? 0 then 45 else 43) by (destruct (E <? 0); reflexivity). rewrite Es.
  set (a := Z.abs E). set (c := if low_prefix lc then 101 else 69). set (s := if E <? 0 then 45 else 43).
  replace (1000 <=? a) with false by lia. destruct (Z.leb_spec 100 a); [|destruct (Z.leb_spec 10 a)].
  - replace (a <? 10) with false by lia. rewrite digits_step by lia. rewrite digits_step by lia. rewrite digits_small by lia.
    unfold decimal. cbn [app map]. rewrite !dchar10 by lia. reflexivity.
  - replace (a <? 10) with false by lia. rewrite digits_step by lia. rewrite digits_small by lia.
    unfold decimal. cbn [app map]. rewrite !dchar10 by lia. reflexivity.
  - replace (a <? 10) with true by lia. rewrite digits_small by lia.
    unfold decimal. cbn [app map]. rewrite !dchar10 by lia. reflexivity.
Qed.
Lemma exponent_text_len lc E : -1000 < E < 1000 -> zlen (exponent_text lc E) = 4 + far E.
Proof.
  intros HE. unfold exponent_text, far. set (a := Z.abs E).
  rewrite !zlen_cons, zlen_app, decimal_len.
  destruct (Z.ltb_spec a 10); [|destruct (Z.ltb_spec a 100)].
  - rewrite (digits_small 10 a) by lia. replace ((99 <? E) || (E <? -99)) with false by lia. reflexivity.
  - rewrite (digits_len 10 a 2) by lia. replace ((99 <? E) || (E <? -99)) with false by lia. reflexivity.
  - rewrite (digits_len 10 a 3) by lia. replace ((99 <? E) || (E <? -99)) with true by lia. reflexivity.
Qed.

Lemma write_leading_zeros_ok v a : 1 <= a <= 19 -> 0 <= v < 10 ^ a ->
  wrote (write_leading_zeros v a) (decimal (last_digits 10 (Z.to_nat a) v)).
Proof.
  intros Ha Hv. unfold write_leading_zeros.
  assert (10 ^ a <= 10 ^ 19) by (apply Z.pow_le_mono_r; lia). assert (10 ^ 19 < 2 ^ 64) by reflexivity.
  rewrite write_back_ok by (congruence || lia). cbn [obind bval].
  rewrite dtext_len. destruct (last_digits_small 10 (Z.to_nat a) ltac:(lia) v) as [E L]; [rewrite Z2Nat.id by lia; exact Hv|lia|].
  change (length (digits 10 v)) with (length (digits 10 v)) in L.
  replace (zlen (digits 10 v) <=? a) with true by (unfold zlen; lia).
  apply wrote_some.
  - constructor; [|constructor]. cbn [op_wf]. rewrite app_length, repeat_length. unfold dtext. rewrite map_length. unfold zlen; lia.
  - unfold ops_text; cbn [map concat op_text]. rewrite app_nil_r. rewrite E, decimal_app, decimal_zeros.
    rewrite decimal_dtext by lia. f_equal. f_equal. unfold zlen. lia.
Qed.

Lemma pow19 : 10 ^ 19 < 2 ^ 64.
Proof. reflexivity. Qed.

(* ---- scientific notation ---- *)
Lemma print_sci_ok lc n pt pt_size : num_wf n -> n_form n = FormSci ->
  zlen pt <= 4 -> (n_point n = true -> pt_size = zlen pt) ->
  wrote (print_sci (n_m n) (n_digcount n) pt pt_size (n_e n + n_digcount n - 1) (n_point n) (n_extra n) lc)
        (num_text (fun _ => false) [] pt lc n).
Proof.
  intros [Wm Wdc Wx Wz Wf] Ef Hpl Hps. rewrite Ef in Wf. destruct Wf as [We Wp].
  pose proof (zlen_nonneg pt) as Hp0. pose proof pow19.
  unfold num_text. rewrite Ef. unfold print_sci, sci_text.
  set (m := n_m n) in *. set (x := n_extra n) in *. set (dc := n_digcount n) in *.
  destruct (dc_range m Wm) as (D1 & D2 & D3). rewrite <- Wdc in D1, D2, D3.
  pose proof (pow10_pos x Wx) as Px. pose proof (pow10_pos (dc - 1) ltac:(lia)) as Pd.
  rewrite exponent_units_ok by lia.
  assert (Hxl : zlen (exponent_text lc (n_e n + dc - 1)) <= 5).
  { rewrite exponent_text_len by lia. unfold far. destruct ((99 <? n_e n + dc - 1) || (n_e n + dc - 1 <? -99)); cbn; lia. }
  assert (Eq : m * 10 ^ x / 10 ^ (dc - 1 + x) = m / 10 ^ (dc - 1)).
  { rewrite pow10_split by lia. rewrite Z.div_mul_cancel_r by lia. reflexivity. }
  assert (Wx' : op_wf (OReserve (Z.to_nat (zlen (exponent_text lc (n_e n + dc - 1)))) (exponent_text lc (n_e n + dc - 1)))).
  { cbn [op_wf]. unfold zlen in *. lia. }
  rewrite Eq, last_digits_mulz by lia. rewrite decimal_app, decimal_zeros.
  destruct (Z.eqb_spec dc 1) as [E1|E1].
  - cbn [obind]. assert (m < 10) by (rewrite E1 in D2; cbn in D2; lia). apply wrote_some.
    + constructor; [|constructor; [exact I|constructor; [exact Wx'|constructor]]].
      cbn [op_wf length]. destruct (n_point n); cbn [b2i]; [rewrite Hps by reflexivity|]; unfold zlen in *; cbn [length]; lia.
    + rewrite !ops_text_cons. cbn [op_text]. unfold ops_text; cbn [map concat]. rewrite app_nil_r.
      replace (dc - 1) with 0 by lia. rewrite Z.add_0_l. replace (n_e n + dc - 1) with (n_e n + 0) by lia. change (10 ^ 0) with 1. rewrite Z.div_1_r. cbn [Z.to_nat last_digits].
      rewrite digits_small by lia. unfold decimal at 1 2. cbn [map app]. rewrite dchar10 by lia.
      assert (Ep : (n_point n || (0 <? x)) = n_point n).
      { destruct (n_point n); [reflexivity|]. cbn [orb]. destruct (Z.ltb_spec 0 x); [|reflexivity]. symmetry; apply Wp; right; lia. }
      rewrite Ep. reflexivity.
  - rewrite write_back_ok by (congruence || lia). cbn [obind bval].
    rewrite dtext_len. rewrite <- Wdc, Z.eqb_refl. cbn [andb].
    assert (Ept : n_point n = true) by (apply Wp; left; lia). rewrite (Hps Ept), Z.eqb_refl. cbn [obind].
    assert (Hm0 : 0 < m). { destruct (Z.eq_dec m 0) as [E0|]; [|lia]. rewrite E0, digits_small in Wdc by lia. cbn in Wdc. lia. }
    specialize (D3 Hm0). assert (Eds : digits 10 m = digits 10 (m / 10 ^ (dc - 1)) ++ last_digits 10 (Z.to_nat (dc - 1)) m)
      by (apply digits_splitz; lia).
    assert (Hq : 0 <= m / 10 ^ (dc - 1) < 10).
    { split; [apply Z.div_pos; lia|]. apply Z.div_lt_upper_bound; [lia|]. replace dc with ((dc - 1) + 1) in D2 by lia.
      rewrite pow10_split in D2 by lia. change (10 ^ 1) with 10 in D2. lia. }
    rewrite (decimal_dtext true m) by lia. rewrite Eds, decimal_app. rewrite (digits_small 10 (m / _)) by lia.
    cbn [decimal map app hd tl]. fold (decimal (last_digits 10 (Z.to_nat (dc - 1)) m)).
    assert (Hll : length (decimal (last_digits 10 (Z.to_nat (dc - 1)) m)) = Z.to_nat (dc - 1)).
    { unfold decimal. rewrite map_length, last_digits_len. reflexivity. }
    apply wrote_some.
    + constructor; [|constructor; [exact I|constructor; [exact Wx'|constructor]]].
      cbn [op_wf length]. rewrite app_length, Hll. unfold zlen in *. lia.
    + rewrite !ops_text_cons. cbn [op_text]. unfold ops_text; cbn [map concat]. rewrite app_nil_r.
      rewrite Ept. cbn [orb app]. rewrite <- !app_assoc. reflexivity.
Qed.

(* ---- fixed notation ---- *)
Lemma single_hd (l : list Z) : zlen l = 1 -> [List.hd 0 l] = l.
Proof. unfold zlen. destruct l as [|x [|]]; cbn [length List.hd]; intros; [lia|reflexivity|lia]. Qed.
Lemma fixed_div n : 0 <= n_extra n -> 
  fixed_scaled n / 10 ^ fixed_places n = if 0 <=? n_e n then n_m n * 10 ^ n_e n else n_m n / 10 ^ (- n_e n).
Proof.
  intros Hx. unfold fixed_scaled, fixed_places. pose proof (pow10_pos (n_extra n) Hx). destruct (Z.leb_spec 0 (n_e n)).
  - replace (Z.max 0 (- n_e n) + n_extra n) with (n_extra n) by lia. rewrite pow10_split by lia.
    rewrite Z.mul_assoc, Z.div_mul by lia. reflexivity.
  - replace (n_e n + (Z.max 0 (- n_e n) + n_extra n)) with (n_extra n) by lia.
    replace (Z.max 0 (- n_e n) + n_extra n) with (- n_e n + n_extra n) by lia. rewrite pow10_split by lia.
    pose proof (pow10_pos (- n_e n) ltac:(lia)).
    rewrite Z.div_mul_cancel_r by lia. reflexivity.
Qed.

Lemma point_units_ok cs c : charset_ok cs -> 0 <= c < 2 ^ 32 -> point_units cs c = cs_encode cs c.
Proof.
  intros K Hc. unfold point_units. destruct (Z.ltb_spec c 0x80); [|reflexivity]. symmetry. apply (ok_ascii cs K). lia.
Qed.

Lemma p_sign_ok show sign : Forall op_wf (p_sign show sign) /\ ops_text (p_sign show sign) = if show then [sign] else [].
Proof. destruct show; (split; [|reflexivity]); [constructor; [exact I|constructor]|constructor]. Qed.
Lemma wrote_app os t1 r t2 : Forall op_wf os -> ops_text os = t1 -> wrote r t2 ->
  wrote (do o <- r ; Some (os ++ o)) (t1 ++ t2).
Proof.
  intros W T (o & E & W2 & T2). rewrite E. cbn [obind]. apply wrote_some; [apply Forall_app; split; assumption|].
  rewrite ops_text_app, T, T2. reflexivity.
Qed.

Definition fixed_head (fd : fill_data) (sign sub : Z) : list Z :=
  (if fd_showsign fd then [sign] else []) ++ zeros (fd_pad0 fd - sub).

(* the separators printed: 2376-2381 cast the separator when its size is 1 *)
Definition sep_used (cs : charset) (ub : Z) (n : num) (sep_size sep : Z) : list Z :=
  if (0 <=? n_e n) && (sep_size =? 1) then [to_u ub sep] else cs_encode cs sep.
Lemma print_fixed_gen cs ub n fd sign sub g gs rep sep sep_size point pt_size :
  num_wf n -> n_form n = FormFixed -> charset_ok cs -> 0 <= point < 2 ^ 32 -> 0 <= sep < 2 ^ 32 ->
  (n_point n = true -> pt_size = zlen (cs_encode cs point)) ->
  represents g gs rep -> n_seps n = boundaries_below (boundary gs rep) (int_len n) ->
  (n_seps n <> 0 -> sep_size = zlen (cs_encode cs sep)) ->
  wrote (print_fixed cs ub n fd sign sub g sep sep_size point pt_size)
        (fixed_head fd sign sub ++ num_text (boundary gs rep) (sep_used cs ub n sep_size sep) (cs_encode cs point) LLower n).
Proof.
  intros [Wm Wdc Wx Wz Wf] Ef K Hpt Hsep Hps Hr Hseps Hss. rewrite Ef in Wf. pose proof pow19.
  pose proof (fixed_div n Wx) as Ediv. unfold int_len in Hseps. rewrite Ediv in Hseps.
  unfold num_text. rewrite Ef. unfold fixed_text. rewrite Ediv.
  unfold print_fixed. rewrite point_units_ok by assumption. unfold fixed_scaled, fixed_places, fixed_head in *.
  destruct (p_sign_ok (fd_showsign fd) sign) as [PW PT].
  pose proof (ok_small cs K point Hpt) as Kp. pose proof (ok_small cs K sep Hsep) as Ks.
  unfold sep_used. set (enc := cs_encode cs sep) in *. set (pt := cs_encode cs point) in *.
  set (m := n_m n) in *. set (x := n_extra n) in *. set (e := n_e n) in *. set (B := boundary gs rep) in *.
  destruct (dc_range m Wm) as (D1 & D2 & D3). rewrite <- Wdc in D1, D2, D3.
  set (hd_ops := p_sign (fd_showsign fd) sign ++ (if sub <? fd_pad0 fd then [OFill (fd_pad0 fd - sub) 48] else [])).
  assert (HW : Forall op_wf hd_ops).
  { unfold hd_ops. apply Forall_app; split; [exact PW|]. destruct (sub <? fd_pad0 fd); [constructor; [exact I|constructor]|constructor]. }
  assert (HT : ops_text hd_ops = (if fd_showsign fd then [sign] else []) ++ zeros (fd_pad0 fd - sub)).
  { unfold hd_ops. rewrite ops_text_app, PT. f_equal. destruct (Z.ltb_spec sub (fd_pad0 fd)).
    - unfold ops_text; cbn. apply app_nil_r.
    - rewrite zeros_nil by lia. reflexivity. }
  destruct (Z.leb_spec 0 e) as [He|He].
  - assert (Edg : digits 10 (m * 10 ^ e) = digits 10 m ++ repeat 0 (Z.to_nat e)) by (apply digits_times; try lia; auto).
    assert (Hdig : exists o, (if n_seps n =? 0 then do o <- dig_write B10 true m (n_digcount n) ; Some (o ++ [OFill e 48])
       else if sep_size =? 1 then amplified true g [to_u ub sep] 1 m (n_digcount n) e
       else amplified false g enc sep_size m (n_digcount n) e) = Some o /\ Forall op_wf o /\
       ops_text o = grouped B (if true && (sep_size =? 1) then [to_u ub sep] else enc) (decimal (digits 10 (m * 10 ^ e)))).
    { rewrite Edg, decimal_app, decimal_zeros, <- (decimal_dtext true m) by lia. change (repeat 48 (Z.to_nat e)) with (zeros e).
      destruct (Z.eqb_spec (n_seps n) 0) as [E0|E0].
      - destruct (dig_write_ok B10 true m ltac:(lia)) as (o & E & W & T). cbn [bval] in E, T. rewrite Wdc, E. cbn [obind].
        eexists; split; [reflexivity|]. split; [apply Forall_app; split; [exact W|constructor; [exact I|constructor]]|].
        rewrite ops_text_app, T. rewrite grouped_none_below.
        + f_equal. unfold ops_text; cbn. apply app_nil_r.
        + rewrite <- E0, Hseps, Edg, !app_length. unfold dtext, zeros. rewrite map_length, !repeat_length. reflexivity.
      - pose proof (Hss E0) as Es. rewrite Wdc. cbn [andb]. destruct (Z.eqb_spec sep_size 1) as [E1|E1].
        + exact (amplified_ok true [to_u ub sep] 1 eq_refl ltac:(lia) ltac:(lia) g gs rep m e Hr ltac:(lia) He).
        + exact (amplified_ok false enc sep_size ltac:(lia) ltac:(lia) ltac:(congruence) g gs rep m e Hr ltac:(lia) He). }
    destruct Hdig as (o & Eo & Wo & To). rewrite Eo. cbn [obind]. apply wrote_some.
    + apply Forall_app; split; [exact HW|]. apply Forall_app; split; [exact Wo|]. apply Forall_app; split; [|constructor; [exact I|constructor]].
      destruct (n_point n) eqn:Ep; [|constructor]. rewrite Hps by reflexivity. constructor; [|constructor].
      cbn [op_wf]. unfold zlen in *. lia.
    + rewrite !ops_text_app, HT, To. replace (Z.max 0 (- e) + x) with x by lia.
      assert (El : last_digits 10 (Z.to_nat x) (m * 10 ^ (e + x)) = repeat 0 (Z.to_nat x)).
      { rewrite pow10_split, Z.mul_assoc by lia. rewrite <- (Z2Nat.id x) at 2 by lia. apply last_digits_mul; [lia|].
        pose proof (pow10_pos e He). nia. }
      rewrite El, decimal_zeros. rewrite <- !app_assoc. do 2 f_equal. f_equal. 
      assert (Ep : (n_point n || (0 <? x)) = n_point n).
      { destruct (n_point n) eqn:E; [reflexivity|]. cbn [orb]. destruct (Z.ltb_spec 0 x); [|reflexivity]. rewrite <- Wf by (right; lia). reflexivity. }
      rewrite Ep. f_equal; [destruct (n_point n); [unfold ops_text; cbn; apply app_nil_r|reflexivity]|].
      unfold ops_text; cbn. apply app_nil_r.
  - assert (Ept : n_point n = true) by (apply Wf; left; lia). rewrite Ept. cbn [orb].
    specialize (Hps Ept). set (a := - e) in *.
    replace (Z.max 0 a + x) with (a + x) by lia. replace (e + (a + x)) with x by lia.
    rewrite last_digits_mulz by lia. rewrite decimal_app, decimal_zeros.
    assert (Hm0 : 0 < m) by (destruct (Z.eq_dec m 0) as [E0|]; [specialize (Wz E0); lia|lia]). specialize (D3 Hm0).
    assert (Hz0 : (0x80 <=? point) && (pt_size =? 0) = false) by lia. rewrite Hz0.
    destruct (Z.leb_spec (n_digcount n) a) as [Hd|Hd].
    + assert (Hma : m < 10 ^ a) by (assert (10 ^ n_digcount n <= 10 ^ a) by (apply Z.pow_le_mono_r; lia); lia).
      rewrite Z.div_small, (digits_small 10 0) by lia. unfold decimal at 1. cbn [map]. rewrite grouped_one.
      destruct (dig_write_ok B10 true m ltac:(lia)) as (o & E & W & T). cbn [bval] in E, T. rewrite Wdc, E. cbn [obind]. rewrite <- Wdc.
      destruct (last_digits_small 10 (Z.to_nat a) ltac:(lia) m ltac:(rewrite Z2Nat.id by lia; lia) ltac:(lia)) as [El Ll].
      rewrite El, decimal_app, decimal_zeros, <- (decimal_dtext true) by lia.
      apply wrote_some.
      * apply Forall_app; split; [exact HW|]. repeat apply Forall_cons; [|exact I|].
        { cbn [op_wf length]. rewrite Hps. unfold zlen in *. lia. }
        apply Forall_app; split; [exact W|]. constructor; [exact I|constructor].
      * rewrite !ops_text_app, HT, T. unfold ops_text at 1 2. cbn [map concat op_text]. rewrite !app_nil_r. rewrite <- !app_assoc. do 2 f_equal. cbn [app]. do 2 f_equal.
        f_equal. f_equal. rewrite Wdc. unfold zlen. lia.
    + assert (Ha : 1 <= a <= 18) by lia. rewrite pow10_some by lia. cbn [obind].
      pose proof (pow10_pos a ltac:(lia)) as Pa.
      assert (Hqa : 10 ^ a <= m) by (assert (10 ^ a <= 10 ^ (n_digcount n - 1)) by (apply Z.pow_le_mono_r; lia); lia).
      assert (Eid : n_digcount n - a = zlen (digits 10 (m / 10 ^ a))).
      { rewrite Wdc. rewrite (digits_shift 10 m a) by lia. lia. }
      assert (Hq : 0 <= m / 10 ^ a < 2 ^ 64) by (split; [apply Z.div_pos; lia|]; apply Z.div_lt_upper_bound; nia).
      assert (Hz1 : (n_digcount n - a =? digcount10 (m / 10 ^ a)) = true).
      { unfold digcount10. rewrite (DigitsCount.count_digits_ok false B10 S8 (m / 10 ^ a) Hq). cbn [bval]. rewrite Eid. apply Z.eqb_refl. }
      rewrite Hz1. cbn [negb].
      assert (Hdig : exists o, (if n_seps n =? 0 then dig_write B10 true (m / 10 ^ a) (n_digcount n - a)
               else if sep_size =? 1 then
                 dig_write_little B10 true (m / 10 ^ a) g (n_digcount n - a) (n_seps n) (if sep <? 0x80 then sep else List.hd 0 enc)
               else dig_write_big B10 true (m / 10 ^ a) g enc sep_size (n_digcount n - a)) = Some o /\ Forall op_wf o /\
         ops_text o = grouped B enc (decimal (digits 10 (m / 10 ^ a)))).
      { rewrite <- (decimal_dtext true) by lia. rewrite Eid.
        destruct (Z.eqb_spec (n_seps n) 0) as [E0|E0].
        - destruct (dig_write_ok B10 true (m / 10 ^ a) Hq) as (o & E & W & T). cbn [bval] in E, T. rewrite E.
          eexists; split; [reflexivity|]. split; [exact W|]. rewrite T. symmetry. apply grouped_none_below.
          unfold dtext. rewrite map_length. lia.
        - pose proof (Hss E0) as Es. destruct (Z.eqb_spec sep_size 1) as [E1|E1].
          + assert (Esep : [if sep <? 0x80 then sep else List.hd 0 enc] = enc).
            { destruct (Z.ltb_spec sep 0x80); [unfold enc; symmetry; apply (ok_ascii cs K); lia|].
              apply single_hd. lia. }
            set (sc := if sep <? 0x80 then sep else List.hd 0 enc) in *. clearbody sc. rewrite <- Esep. rewrite Hseps.
            pose proof (below_le B (length (digits 10 (m / 10 ^ a)))).
            apply (dig_write_little_ok B10 true (m / 10 ^ a) g gs rep); [congruence|exact Hq|exact Hr|cbn [bval]; fold B; lia].
          + apply (dig_write_big_ok B10 true (m / 10 ^ a) g gs rep); [exact Hq|exact Hr|lia|lia|discriminate]. }
      destruct Hdig as (o & Eo & Wo & To). rewrite Eo. cbn [obind].
      destruct (write_leading_zeros_ok (m mod 10 ^ a) a ltac:(lia) ltac:(apply Z.mod_pos_bound; lia)) as (o2 & E2 & W2 & T2).
      rewrite E2. cbn [obind]. rewrite last_digits_mod in T2 by lia.
      apply wrote_some.
      * apply Forall_app; split; [exact HW|]. apply Forall_app; split; [exact Wo|]. apply Forall_cons.
        { cbn [op_wf]. rewrite Hps. unfold zlen in *. lia. }
        apply Forall_app; split; [exact W2|constructor; [exact I|constructor]].
      * rewrite !ops_text_app, HT, To, T2. unfold ops_text. cbn [map concat op_text]. rewrite !app_nil_r. rewrite <- !app_assoc. reflexivity.
Qed.
Lemma print_fixed_ok cs ub n fd sign sub g gs rep sep sep_size point pt_size :
  num_wf n -> n_form n = FormFixed -> charset_ok cs -> 0 <= point < 2 ^ 32 -> 0 <= sep < 2 ^ 32 ->
  (n_point n = true -> pt_size = zlen (cs_encode cs point)) ->
  represents g gs rep -> n_seps n = boundaries_below (boundary gs rep) (int_len n) ->
  (n_seps n <> 0 -> sep_size = zlen (cs_encode cs sep) /\ (0 <= n_e n -> sep_size = 1 -> cs_encode cs sep = [to_u ub sep])) ->
  wrote (print_fixed cs ub n fd sign sub g sep sep_size point pt_size)
        (fixed_head fd sign sub ++ num_text (boundary gs rep) (cs_encode cs sep) (cs_encode cs point) LLower n).
Proof.
  intros W Ef K Hpt Hsep Hps Hr Hseps Hss.
  pose proof (print_fixed_gen cs ub n fd sign sub g gs rep sep sep_size point pt_size W Ef K Hpt Hsep Hps Hr Hseps (fun E => proj1 (Hss E))) as H.
  replace (num_text (boundary gs rep) (cs_encode cs sep) (cs_encode cs point) LLower n)
    with (num_text (boundary gs rep) (sep_used cs ub n sep_size sep) (cs_encode cs point) LLower n); [exact H|].
  destruct (Z.eq_dec (n_seps n) 0) as [E|E].
  - unfold num_text, fixed_text. rewrite Ef. f_equal. rewrite !grouped_none_below; [reflexivity| |];
      unfold decimal; rewrite map_length; unfold int_len in Hseps; lia.
  - destruct (Hss E) as [_ E1]. unfold sep_used. destruct (Z.leb_spec 0 (n_e n)); [|reflexivity]. destruct (Z.eqb_spec sep_size 1); [|reflexivity].
    cbn [andb]. rewrite E1 by assumption. reflexivity.
Qed.
