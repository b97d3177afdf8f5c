(* punct_double_printer gives a sequence of writes to any destination for every value and
   format: the counts never exceed what int holds. *)
From Verif Require Import Base WidthModel WidthProofs GroupSpec DigitsSpec IntSpec DestModel DestProofs GroupModel GroupProofs GroupDist
  DigitsModel DigitsProofs DigitsCount IntModel IntProofs CharsetModel FloatSpec FloatModel FloatArith FloatText FloatNum FloatInit FloatInit2 FloatHex FloatProofs FloatSafe FloatHexCarry TextClosed FloatChars.

Lemma below_le B : forall k, boundaries_below B k <= Z.of_nat k.
Proof. induction k as [|k IH]; [cbn; lia|]. cbn [boundaries_below]. destruct ((0 <? Z.of_nat k) && B (Z.of_nat k)); lia. Qed.
Lemma b2z_le b : 0 <= b2z b <= 1.
Proof. destruct b; cbn; lia. Qed.
Lemma strip_sub : forall fuel m dc sub e i m' dc' sub' e' fr, strip_loop fuel m dc sub e i = Some (m', dc', sub', e', fr) -> sub' <= sub.
Proof.
  induction fuel as [|fuel IH]; intros m dc sub e i m' dc' sub' e' fr H; [discriminate|]. cbn [strip_loop] in H.
  destruct (dc <=? i); [injection H; lia|]. destruct (negb (m mod 10 =? 0)); [injection H; lia|]. apply IH in H. lia.
Qed.

Lemma num_inj (a b : num) : Some a = Some b -> a = b.
Proof. congruence. Qed.

Section Sub.
Variables (g : Z) (gs : list Z) (rep : bool).
Hypothesis Hr : represents g gs rep.
Lemma digit_sub sg E seps extra prec alt n : -2000 < E < 2000 -> 0 <= prec -> general_1digit g sg E seps extra prec alt = Some n ->
  n_sub n <= 6000 + prec.
Proof using Hr.
  intros HE Hp. unfold general_1digit. cbv zeta. pose proof (b2z_le sg). pose proof (b2z_le alt). pose proof (b2z_le ((99 <? E) || (E <? -99))) as Hf.
  fold (far E) in Hf. set (p := if prec =? 0 then 1 else prec). assert (Hpp : 1 <= p <= prec + 1) by (unfold p; destruct (Z.eqb_spec prec 0); lia).
  destruct ((E <? -4) || (p <=? E)).
  - intros H1. apply num_inj in H1; subst n. destruct alt; cbn [n_sub]; lia.
  - destruct (E <? 0) eqn:E0.
    + intros H1. apply num_inj in H1; subst n. destruct alt; cbn [n_sub]; lia.
    + rewrite (separators_count_ok g gs rep) by (assumption || lia). cbn [obind]. pose proof (below_le (boundary gs rep) (Z.to_nat (1 + E))).
      intros H2. apply num_inj in H2; subst n. destruct (alt && (1 + E <? p)); cbn [n_sub]; lia.
Qed.
Lemma sep_bound k : k <= 1000 -> exists sc, (if any_separator g k then separators_count g k else Some 0) = Some sc /\ 0 <= sc <= 1000.
Proof using Hr.
  intros Hk. rewrite (seps_ok g gs rep k Hr). eexists. split; [reflexivity|]. pose proof (below_le (boundary gs rep) (Z.to_nat (Z.max 1 k))).
  pose proof (below_nonneg (boundary gs rep) (Z.to_nat (Z.max 1 k))). lia.
Qed.
Lemma remove_sub sg fo m dc e sub xz i seps prec sp n : -1000 <= e + dc <= 1000 -> 0 <= prec -> sub <= 5000 + prec ->
  remove_digits g sg fo m dc e sub xz i seps prec sp = Some n -> n_sub n <= 6000 + prec.
Proof using Hr.
  intros He Hp Hsub. unfold remove_digits. destruct (drop_digits (- xz) m) as [m'|]; [|discriminate]. cbn [obind].
  destruct (pow10 (dc + xz)) as [q|]; [|discriminate]. cbn [obind]. destruct (m' =? q).
  - apply digit_sub; lia.
  - destruct (strip_loop 32 m' (dc + xz) sub (e - xz) i) as [[[[[m2 d2] s2] e2] fr]|] eqn:ES; [|discriminate]. cbn [obind].
    apply strip_sub in ES. intros H. apply num_inj in H; subst n. cbn [n_sub]. pose proof (b2z_le (sp || fr)). lia.
Qed.
Lemma sub_bound clz f x sn mm ex m e n : fl_bits x = BFinite sn mm ex m e -> decimal_ok m e -> -1 <= ff_precision f -> ff_notation f <> NHex ->
  init_num clz g f x = Some n -> n_sub n <= 6000 + Z.max 0 (ff_precision f).
Proof using Hr.
  intros Eb Hd Hprec Hn. unfold init_num. rewrite Eb. set (sg := fl_negative x || negb (sign_char (ff_sign f) =? 0)). set (sp := ff_showpoint f).
  destruct (dc_facts m e Hd) as (Hm & D1 & D2 & D3 & D4 & D5 & D6 & He). set (dc := zlen (digits 10 m)) in *.
  pose proof (b2z_le sg) as Bs. pose proof (b2z_le ((99 <? dc + e - 1) || (dc + e - 1 <? -99))) as Bf. fold (far (dc + e - 1)) in Bf.
  assert (Bp : forall b, 0 <= b2z b <= 1) by apply b2z_le.
  set (prec := ff_precision f) in *.
  destruct (ff_notation f); [| | |contradiction]; (destruct (Z.eqb_spec prec (-1)) as [E|E]; [clear E|assert (Hp : 0 <= prec) by lia]).
  all: try (unfold noprec_fixed, noprec_sci, noprec_general, prec_fixed, prec_sci; rewrite D4; cbv zeta).
  - destruct (sep_bound (dc + e) ltac:(lia)) as (sc & Esc & Hsc). rewrite Esc. cbn [obind]. intros H. apply num_inj in H; subst n. cbn [n_sub]. specialize (Bp sp).
    destruct (0 <=? e), (e <=? - dc); lia.
  - set (point := sp || negb (prec =? 0)). specialize (Bp point). destruct (_ <=? - dc).
    + destruct (_ <? e); [discriminate|]. destruct (pow10 dc); [|discriminate]. cbn [obind]. destruct (_ && _); intros H; apply num_inj in H; subst n; cbn [n_sub]; lia.
    + set (i := if - e <? dc then dc + e else 1). assert (Hi : i <= 1000) by (unfold i; destruct (- e <? dc); lia).
      destruct (sep_bound i Hi) as (sc & Esc & Hsc). rewrite Esc. cbn [obind]. destruct (0 <=? _); [intros H; apply num_inj in H; subst n; cbn [n_sub]; lia|].
      destruct (drop_digits _ m); [|discriminate]. cbn [obind]. destruct (pow10 _); [|discriminate]. cbn [obind]. destruct (z =? z0).
      * destruct (_ <=? 0); [destruct (prec <? _); [discriminate|]|]; intros H; apply num_inj in H; subst n; cbn [n_sub]; lia.
      * intros H; apply num_inj in H; subst n; cbn [n_sub]; lia.
  - intros H; apply num_inj in H; subst n; cbn [n_sub]. specialize (Bp (sp || negb (dc =? 1))). lia.
  - specialize (Bp (sp || negb (prec =? 0))). destruct (0 <=? _); [intros H; apply num_inj in H; subst n; cbn [n_sub]; lia|].
    destruct (drop_digits _ m); [|discriminate]. cbn [obind]. destruct (pow10 _); [|discriminate]. cbn [obind]. destruct (z =? z0).
    + intros H; apply num_inj in H; subst n; cbn [n_sub]. destruct (_ =? 100); [lia|destruct (_ =? -99); lia].
    + intros H; apply num_inj in H; subst n; cbn [n_sub]; lia.
  - pose proof (Bp (sp || negb (dc =? 1))) as B1. specialize (Bp sp).
    set (fw := if 0 <=? e then e + b2z sp else if dc + e <=? 0 then 2 - (dc + e) else 1). assert (fw <= 2000) by (unfold fw; destruct (0 <=? e), (dc + e <=? 0); lia).
    destruct (_ <? fw); [intros H1; apply num_inj in H1; subst n; cbn [n_sub]; lia|].
    destruct (sep_bound (dc + e) ltac:(lia)) as (sc & Esc & Hsc). rewrite Esc. cbn [obind].
    destruct (_ && _); intros H1; apply num_inj in H1; subst n; cbn [n_sub]; lia.
  - unfold prec_general. rewrite D4. cbv zeta. set (p := if prec =? 0 then 1 else prec). assert (Hpp : 1 <= p <= prec + 1) by (unfold p; destruct (Z.eqb_spec prec 0); lia).
    replace (Z.max 0 prec) with prec by lia.
    destruct ((dc + e <? -3) || (p <? dc + e)).
    + destruct (p - dc <? 0) eqn:Ex.
      * intros H. apply remove_sub in H; lia.
      * destruct sp; intros H; apply num_inj in H; subst n; cbn [n_sub b2z]; [lia|]. specialize (Bp (1 <? dc)). lia.
    + destruct (sep_bound (dc + e) ltac:(lia)) as (sc & Esc & Hsc). rewrite Esc. cbn [obind]. destruct (0 <=? e).
      * destruct (sp && (dc + e <? p)); intros H; apply num_inj in H; subst n; cbn [n_sub]; specialize (Bp sp); lia.
      * destruct (p - dc <? 0) eqn:Ex.
        -- intros H. apply remove_sub in H; try lia. destruct (e <=? - dc); lia.
        -- destruct sp; intros H; apply num_inj in H; subst n; cbn [n_sub]; destruct (e <=? - dc); lia.
Qed.
End Sub.

Definition value_ok (x : decoded_float) : Prop :=
  match fl_bits x with
  | BFinite _ mantissa exponent m e => decimal_ok m e /\ canonical m /\ 0 <= mantissa < 2 ^ 52 /\ -10000 < exponent < 10000
  | _ => True
  end.

Lemma round_small al : align_ok al -> w_round (al_width al) <= 2 ^ 30.
Proof. intros [_ Hw]. destruct (round_ok (al_width al) Hw) as [A _]. unfold scaled in A. unfold is_width, u_max in Hw. lia. Qed.
Lemma digits_short v : 0 <= v < 10000 -> zlen (digits 10 v) <= 4.
Proof. intros H. rewrite <- (Z.abs_eq v) by lia. rewrite <- exponent_digcount_ok by lia. unfold exponent_digcount.
  pose proof (b2z_le (1000 <=? Z.abs v)). pose proof (b2z_le (100 <=? Z.abs v)). pose proof (b2z_le (10 <=? Z.abs v)). lia. Qed.
Lemma hex_sub clz sg sn mm ex prec sp : 0 <= mm < 2 ^ 52 -> -10000 < ex < 10000 -> n_extra (init_hex clz sg sn mm ex prec sp) <= Z.max 0 prec.
Proof.
  intros Hm He. unfold init_hex. cbv zeta. destruct (sn && (mm =? 0)); [cbn [n_extra]; destruct (Z.leb_spec 0 prec); lia|].
  destruct (Z.eqb_spec mm 0); [cbn [n_extra]; destruct (Z.leb_spec 0 prec); lia|].
  destruct (negb (0 <=? prec)); [cbn [n_extra]; lia|]. rewrite mantissa_digcount_ok by lia. destruct (places_spec mm ltac:(lia)) as (a & A1 & _ & _ & A4). rewrite A4.
  destruct (13 - a <=? prec); cbn [n_extra]; lia.
Qed.
Lemma width_bound r : fr_width r <= 2 ^ 30 -> fr_pad0 r <= 2 ^ 30 -> zlen (float_body (one_column (fr_style r)) (fr_value r)) <= 2 ^ 30 + 100 ->
  float_text_width r < 2 ^ 31.
Proof.
  intros H1 H2 H3. unfold float_text_width, float_missing, float_width, float_content_width, float_zeros, float_bare_width.
  assert (0 <= float_sign_width r <= 1) by (unfold float_sign_width; destruct (fr_negative r); [lia|destruct (fr_sign r); lia]).
  assert (0 <= zlen (float_prefix r) <= 2) by (unfold float_prefix; destruct (fr_value r); cbn; lia).
  destruct (finite (fr_value r)); lia.
Qed.

(* and what they write is made of the encoded fill character, point and separator, and ASCII *)
Section AlwaysClosed.
Variable P : list Z -> Prop.
Hypothesis Pnil : P [].
Hypothesis Papp : forall a b, P a -> P b -> P (a ++ b).
Hypothesis Pasc : forall c, 0 <= c < 128 -> P [c].
Lemma always_closed F gs rep f al x : ffacets_ok F gs rep -> align_ok al -> value_ok x ->
  -1 <= ff_precision f <= 2 ^ 30 -> ff_pad0 f <= 2 ^ 30 ->
  P (cs_encode (fk_charset F) (al_fill al)) -> P (cs_encode (fk_charset F) (float_point F f)) ->
  (float_groups F gs f <> [] -> P (cs_encode (fk_charset F) (fk_thousands F))) ->
  (float_groups F gs f <> [] -> zlen (cs_encode (fk_charset F) (fk_thousands F)) = 1 -> P [to_u (fk_bits F) (fk_thousands F)]) ->
  exists p, punct_double F f al x = Some p /\ Forall op_wf (pr_ops p) /\ P (ops_text (pr_ops p)).
Proof using Pnil Papp Pasc.
  intros HF HA HV Hprec Hpad Pf Pp Ps Ps1. pose proof (round_small al HA) as Hw.
  assert (Hfin : forall p r, punct_double F f al x = Some p /\ fprints p r ->
    match fr_value r with FDec _ _ => False | FBin lead mantissa _ => 0 <= lead /\ 0 <= mantissa | _ => True end -> P (fr_fill r) -> P (st_point (fr_style r)) ->
    exists p, punct_double F f al x = Some p /\ Forall op_wf (pr_ops p) /\ P (ops_text (pr_ops p))).
  { intros p r [E (T & _ & _ & W)] H1 H2 H3. exists p. rewrite T. split; [exact E|]. split; [exact W|]. apply closed_other; assumption. }
  assert (Hlead : forall b, 0 <= lead_of b) by (intros []; cbn; lia).
  destruct (fl_bits x) as [| |sn mm ex m e] eqn:Eb.
  1, 2: destruct (special_print F gs rep f al x HF HA) as (p & HP); [|unfold frequest_of; cbn [fr_value]; rewrite Eb; reflexivity|apply (Hfin _ _ HP); [unfold frequest_of; cbn [fr_value]; rewrite Eb; exact I|exact Pf|exact Pp]];
    apply width_bound; [exact Hw|exact Hpad|]; unfold frequest_of; cbn [fr_value fr_style]; rewrite Eb; cbn [value_of float_body one_column style_of st_case];
    destruct (fk_case F); cbn; lia.
  unfold value_ok in HV. rewrite Eb in HV. destruct HV as (Hd & Hcan & Hmm & Hex).
  destruct (is_hex (ff_notation f)) eqn:Eh.
  - assert (En : ff_notation f = NHex) by (destruct (ff_notation f); (reflexivity || discriminate)).
    set (n := init_hex (fk_clz F) (shows_sign f x) sn mm ex (ff_precision f) (ff_showpoint f)).
    pose proof (hex_sub (fk_clz F) (shows_sign f x) sn mm ex (ff_precision f) (ff_showpoint f) Hmm Hex) as Hx. fold n in Hx.
    assert (Hlen : forall lead, hex_wf n -> zlen (hex_num_text [46] (fk_case F) lead n) <= 2 ^ 30 + 100).
    { intros lead W. rewrite hex_num_len by exact W. destruct W as [H1 H2 H3 H4 H5 H6]. rewrite H6. change (zlen [46]) with 1.
      pose proof (digits_short (Z.abs (n_e n)) ltac:(lia)). destruct (n_point n); lia. }
    destruct (hex_fine_dec (lead_of sn) mm (prec_of (ff_precision f))) as [Hf|Hf].
    + destruct (init_hex_ok (fk_clz F) (shows_sign f x) sn mm ex (ff_precision f) (ff_showpoint f) Hmm Hex Hf) as [[W _ _] HT]. fold n in W, HT.
      destruct (hex_print F gs rep f al x HF HA) with (subnormal := sn) (mantissa := mm) (exponent := ex) (m10 := m) (e10 := e) as (p & HP); try assumption.
      * apply width_bound; [exact Hw|exact Hpad|]. unfold frequest_of. cbn [fr_value fr_style]. rewrite Eh, Eb. cbn [value_of float_body].
        fold (lead_of sn) in HT. unfold lead_of in *. rewrite <- (HT (one_column (style_of F gs rep f))) by reflexivity. apply (Hlen _ W).
      * apply (Hfin _ _ HP); [unfold frequest_of; cbn [fr_value]; rewrite Eb, Eh; cbn [value_of]; auto with zarith|exact Pf|exact Pp].
    + destruct (init_hex_carry (fk_clz F) (shows_sign f x) sn mm ex (ff_precision f) (ff_showpoint f) Hmm Hex Hf) as [[W _ _] HT]. fold n in W, HT.
      destruct (hex_coded F gs rep f al x sn mm ex m e HF HA En Eb Hmm Hex Hf) as (p & HP).
      * apply width_bound; [exact Hw|exact Hpad|]. unfold frequest_of. cbn [with_value fr_value fr_style float_body]. unfold lead_of.
        rewrite <- (HT (one_column (style_of F gs rep f))) by reflexivity. apply (Hlen _ W).
      * apply (Hfin _ _ HP); [split; [apply Hlead|lia]|exact Pf|exact Pp].
  - destruct (group_ok F gs rep f HF) as [Hr HB].
    set (cs := fk_charset F) in *. set (sep := if ff_punct f then fk_thousands F else 44) in *.
    set (gp := if ff_punct f then (if cs_validate cs sep =? -1 then (grouping_empty, 1) else (fk_group F, cs_validate cs sep)) else (grouping_empty, 1)) in *.
    set (g := fst gp) in *. set (B := boundary (float_groups F gs f) rep) in *.
    assert (Hn : ff_notation f <> NHex) by (intros C; rewrite C in Eh; discriminate).
    assert (HN : exists n, init_num (fk_clz F) g f x = Some n /\ num_wf n /\
       (n_form n = FormFixed -> n_e n < 0 -> n_seps n = boundaries_below B (int_len n)) /\
       (n_form n = FormFixed -> n_seps n <> 0 -> boundaries_below B (int_len n) <> 0) /\ 1 <= n_sub n).
    { assert (Hgood : forall n, num_good B True (shows_sign f x) n -> num_wf n /\ (n_form n = FormFixed -> n_e n < 0 -> n_seps n = boundaries_below B (int_len n)) /\
         (n_form n = FormFixed -> n_seps n <> 0 -> boundaries_below B (int_len n) <> 0) /\ 1 <= n_sub n).
      { intros n [W G1 G2 G3]. split; [exact W|]. split; [intros E _; exact (G1 E)|]. split; [intros E H; rewrite <- (G1 E); exact H|].
        rewrite G3, num_text_len by exact W. pose proof (b2z_le (shows_sign f x)). pose proof (below_nonneg B (int_len n)). change (zlen [46]) with 1. change (zlen [44]) with 1.
        destruct W as [W1 W2 W3 W4 W5]. pose proof (zlen_nonneg (digits 10 (n_m n))). pose proof (b2z_le ((99 <? n_e n + n_digcount n - 1) || (n_e n + n_digcount n - 1 <? -99))).
        unfold far. destruct (n_form n), (n_point n); lia. }
      unfold init_num. rewrite Eb. fold (shows_sign f x).
      destruct (ff_notation f); [| | |contradiction]; destruct (Z.eqb_spec (ff_precision f) (-1)) as [E|E].
      - destruct (noprec_fixed_ok g (float_groups F gs f) (rep' F gs rep f) (shows_sign f x) m e (ff_showpoint f) True Hr Hd) as (n & E0 & G & _). rewrite HB in G. eauto.
      - destruct (prec_fixed_any g (float_groups F gs f) (rep' F gs rep f) (shows_sign f x) m e (ff_showpoint f) Hr Hd (ff_precision f) ltac:(lia)) as
          (n & E0 & W & Ef & Epl & Esc & Ept & Ese & Esu & Hneg & Hle).
        rewrite HB in Ese, Esu, Hneg. exists n. split; [exact E0|]. split; [exact W|]. split; [intros _; exact Hneg|].
        pose proof (below_nonneg B (length (digits 10 (int_part m e)))). split.
        + intros _ H1. rewrite Ese in H1. pose proof (below_mono B _ _ Hle). lia.
        + rewrite Esu. pose proof (b2z_le (shows_sign f x)). pose proof (b2z_le (ff_showpoint f || negb (ff_precision f =? 0))). pose proof (int_len_ok n W). lia.
      - eexists. split; [reflexivity|]. apply Hgood. rewrite <- HB. apply noprec_sci_ok. exact Hd.
      - destruct (prec_sci_ok (float_groups F gs f) (rep' F gs rep f) (shows_sign f x) m e (ff_showpoint f) True Hd (ff_precision f) ltac:(lia)) as (n & E0 & G & _). rewrite HB in G. eauto.
      - destruct (noprec_general_ok g (float_groups F gs f) (rep' F gs rep f) (shows_sign f x) m e (ff_showpoint f) True Hr Hd) as (n & E0 & G & _). rewrite HB in G. eauto.
      - destruct (prec_general_any g (float_groups F gs f) (rep' F gs rep f) (shows_sign f x) m e (ff_showpoint f) Hr Hd (ff_precision f) ltac:(lia) Hcan) as (n & E0 & [W Ns Nc Nf Nu] & _).
        rewrite HB in Ns, Nu. exists n. split; [exact E0|]. split; [exact W|]. split; [intros H _; exact (Ns H)|]. split; [intros H H1; rewrite <- (Ns H); exact H1|].
        rewrite Nu, num_text_len by exact W. pose proof (below_nonneg B (int_len n)). change (zlen [46]) with 1. change (zlen [44]) with 1.
        destruct W as [W1 W2 W3 W4 W5]. pose proof (zlen_nonneg (digits 10 (n_m n))). pose proof (b2z_le ((99 <? n_e n + n_digcount n - 1) || (n_e n + n_digcount n - 1 <? -99))).
        assert (0 <= b2z (shows_sign f x) - b2z (prec_carries m (ff_precision f) && general_is_fixed m e (ff_precision f) && shows_sign f x))
          by (destruct (shows_sign f x), (prec_carries m (ff_precision f)), (general_is_fixed m e (ff_precision f)); cbn; lia).
        unfold far. destruct (n_form n), (n_point n); lia. }
    destruct HN as (n & E0 & W & H1 & H2 & H3).
    pose proof (sub_bound g _ _ Hr (fk_clz F) f x sn mm ex m e n Eb Hd ltac:(lia) Hn E0) as Hs.
    destruct (print_any F gs rep f al x HF HA n Eh E0 W H1 H2 H3 ltac:(lia) ltac:(lia)) as (p & EP & ET & _ & _ & HWf).
    exists p. split; [exact EP|]. split; [exact HWf|]. rewrite ET.
    apply closed_padded; [exact Pnil|exact Papp|exact Pf|]. apply Papp; [|apply Papp; [apply closed_ascii; auto; apply ascii_zeros|]].
    { unfold sign_units. destruct (shows_sign f x); [|exact Pnil]. destruct (_ =? 32); [exact Pf|]. apply Pasc. destruct (fl_negative x); [lia|].
      unfold sign_char. destruct (ff_sign f); lia. }
    apply closed_num; [exact Pnil|exact Papp|exact Pasc|exact W| |exact Pp].
    destruct (n_seps n =? 0); [right; apply none_below|]. fold B.
    destruct (Z.eq_dec (boundaries_below B (int_len n)) 0) as [E|E]; [right; exact E|left].
    destruct (sep_size_ok F gs rep f HF _ E) as (Ep & Hne & Es). unfold sep_used. rewrite Es, Ep. specialize (Ps Hne). specialize (Ps1 Hne).
    destruct (0 <=? n_e n); [|exact Ps]. destruct (Z.eqb_spec (zlen (cs_encode (fk_charset F) (fk_thousands F))) 1); auto.
Qed.
End AlwaysClosed.
Lemma always F gs rep f al x : ffacets_ok F gs rep -> align_ok al -> value_ok x ->
  -1 <= ff_precision f <= 2 ^ 30 -> ff_pad0 f <= 2 ^ 30 ->
  exists p, punct_double F f al x = Some p /\ Forall op_wf (pr_ops p).
Proof.
  intros H1 H2 H3 H4 H5. destruct (always_closed (fun _ => True)) with (F := F) (gs := gs) (rep := rep) (f := f) (al := al) (x := x) as (p & E & W & _); auto. eauto.
Qed.

From Verif Require Import ShortestSpec DragonModel DragonFormats FloatRead FloatArgs FloatBits.
Local Open Scope Z_scope.
(* doubles and floats *)
Lemma double_value_ok b : 0 <= b < 2 ^ 64 -> value_ok (double_of_bits b).
Proof.
  intros Hb. assert (HM : 0 <= b mod 2 ^ 52 < 2 ^ 52) by (apply Z.mod_pos_bound; lia). assert (HE : 0 <= (b / 2 ^ 52) mod 2 ^ 11 < 2 ^ 11) by (apply Z.mod_pos_bound; lia).
  destruct (decode64_ok (fun e m => defined (to_decimal64 e m)) b Hb) as (_ & NF & FI). fold (double_of_bits b) in NF, FI.
  destruct (Z.eq_dec ((b / 2 ^ 52) mod 2 ^ 11) 2047) as [E|E]; [unfold value_ok; rewrite (NF E); destruct (_ =? 0); exact I|].
  destruct FI as (m & e & Eb & _); [lia|].
  destruct (double_shown b Hb) as (m' & e' & _ & (sn & mm & ex & Eb') & Hd & Hc & _).
  { change (infinity_bits binary64) with (2047 * 2 ^ 52). change (2 ^ 63) with (2 ^ 52 * 2 ^ 11). rewrite Z.rem_mul_r by lia. lia. }
  unfold value_ok. rewrite Eb. rewrite Eb in Eb'. injection Eb' as _ _ _ <- <-. split; [exact Hd|]. split; [exact Hc|]. split; [exact HM|].
  clear - HE. set (E := (b / 2 ^ 52) mod 2 ^ 11) in *. clearbody E. destruct (E =? 0); lia.
Qed.
Lemma float_value_ok b : 0 <= b < 2 ^ 32 -> value_ok (float_of_bits b).
Proof.
  intros Hb. assert (HM : 0 <= b mod 2 ^ 23 < 2 ^ 23) by (apply Z.mod_pos_bound; lia). assert (HE : 0 <= (b / 2 ^ 23) mod 2 ^ 8 < 2 ^ 8) by (apply Z.mod_pos_bound; lia).
  destruct (decode32_ok (fun e m => defined (to_decimal32 e m)) b Hb) as (_ & NF & FI). fold (float_of_bits b) in NF, FI.
  destruct (Z.eq_dec ((b / 2 ^ 23) mod 2 ^ 8) 255) as [E|E]; [unfold value_ok; rewrite (NF E); destruct (_ =? 0); exact I|].
  destruct FI as (m & e & Eb & _); [lia|].
  destruct (float_shown b Hb) as (m' & e' & _ & (sn & mm & ex & Eb') & Hd & Hc & _).
  { change (infinity_bits binary32) with (255 * 2 ^ 23). change (2 ^ 31) with (2 ^ 23 * 2 ^ 8). rewrite Z.rem_mul_r by lia. lia. }
  unfold value_ok. rewrite Eb. rewrite Eb in Eb'. injection Eb' as _ _ _ <- <-. split; [exact Hd|]. split; [exact Hc|]. split; [clear - HM; lia|].
  clear - HE. set (E := (b / 2 ^ 23) mod 2 ^ 8) in *. clearbody E. destruct (E =? 0); lia.
Qed.
