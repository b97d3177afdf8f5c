(* punct_double_printer for every format: what is printed and announced, in terms of the
   described number (also where that is not what is asked for). *)
From Verif Require Import Base WidthModel WidthProofs GroupSpec DigitsSpec IntSpec DestModel DestProofs GroupModel GroupProofs GroupDist
  DigitsModel DigitsProofs DigitsCount IntModel IntProofs CharsetModel FloatSpec FloatModel FloatArith FloatText FloatNum FloatInit FloatInit2 FloatHex FloatProofs.

Definition no_boundary : Z -> bool := boundary [] false.
Lemma none_represents : represents grouping_empty [] false.
Proof. split; [split; [constructor|cbn; lia]|]. split; reflexivity. Qed.
Lemma none_below k : boundaries_below no_boundary k = 0.
Proof. apply below_none. reflexivity. Qed.
Definition with_seps (n : num) (k : Z) : num :=
  mk_num (n_form n) (n_m n) (n_e n) (n_digcount n) k (n_extra n) (n_point n) (n_sub n).

Section Any.
Variables (F : float_facets) (gs : list Z) (rep : bool) (f : float_fmt) (al : align_fmt) (x : decoded_float).
Hypothesis HF : ffacets_ok F gs rep.
Hypothesis HA : align_ok al.
Let cs := fk_charset F.
Let hex := is_hex (ff_notation f).
Let point := float_point F f.
Let sep := if ff_punct f then fk_thousands F else 44.
Let enc := cs_encode cs (al_fill al).
Let gp := if ff_punct f then (if cs_validate cs sep =? -1 then (grouping_empty, 1) else (fk_group F, cs_validate cs sep)) else (grouping_empty, 1).
Let g := fst gp.
Let sep_size := snd gp.
Let sign := if fl_negative x then 45 else sign_char (ff_sign f).
Let show := shows_sign f x.
Let B := boundary (float_groups F gs f) rep.
Let width := w_round (al_width al).

Lemma print_any_fixed n fd sub :
  num_wf n -> n_form n = FormFixed ->
  (n_e n < 0 -> n_seps n = boundaries_below B (int_len n)) ->
  (n_seps n <> 0 -> boundaries_below B (int_len n) <> 0) ->
  wrote (print_fixed cs (fk_bits F) n fd sign sub g sep sep_size point (if n_point n then zlen (cs_encode cs point) else 0))
    (fixed_head fd sign sub ++ num_text (if n_seps n =? 0 then no_boundary else B) (sep_used cs (fk_bits F) n sep_size sep) (cs_encode cs point) LLower n).
Proof using HF.
  clear width enc hex. intros W Ef H1 H2. pose proof HF as [K _ Hs Hp10 Hp16].
  assert (Hpt : 0 <= point < 2 ^ 32) by (unfold point, float_point; destruct (ff_punct f), (is_hex (ff_notation f)); lia).
  assert (Hsp : 0 <= sep < 2 ^ 32) by (unfold sep; destruct (ff_punct f); lia).
  assert (Hps : n_point n = true -> (if n_point n then zlen (cs_encode cs point) else 0) = zlen (cs_encode cs point)) by (intros ->; reflexivity).
  destruct (Z.eqb_spec (n_seps n) 0) as [E|E].
  - replace (print_fixed cs (fk_bits F) n fd sign sub g sep sep_size point (if n_point n then zlen (cs_encode cs point) else 0))
      with (print_fixed cs (fk_bits F) n fd sign sub grouping_empty sep sep_size point (if n_point n then zlen (cs_encode cs point) else 0)).
    2: { unfold print_fixed. rewrite E. reflexivity. }
    apply print_fixed_gen; try assumption; [exact none_represents|rewrite E; symmetry; apply none_below|intros C; contradiction].
  - specialize (H2 E). destruct (group_ok F gs rep f HF) as [Hr HB]. fold cs sep gp g in Hr. fold B in HB.
    destruct (sep_size_ok F gs rep f HF _ H2) as (_ & _ & Es). fold cs sep gp sep_size in Es. fold B in H2, Es.
    set (k := boundaries_below B (int_len n)) in *.
    assert (Ep : print_fixed cs (fk_bits F) n fd sign sub g sep sep_size point (if n_point n then zlen (cs_encode cs point) else 0) =
      print_fixed cs (fk_bits F) (with_seps n k) fd sign sub g sep sep_size point (if n_point n then zlen (cs_encode cs point) else 0)).
    { unfold print_fixed, with_seps. cbn [n_e n_m n_digcount n_seps n_extra n_point]. replace (n_seps n =? 0) with false by lia. replace (k =? 0) with false by lia.
      destruct (Z.leb_spec 0 (n_e n)); [reflexivity|]. rewrite <- (H1 ltac:(lia)). reflexivity. }
    rewrite Ep.
    assert (W' : num_wf (with_seps n k)) by (destruct W; constructor; assumption).
    assert (Et : num_text B (sep_used cs (fk_bits F) n sep_size sep) (cs_encode cs point) LLower n =
      num_text (boundary (float_groups F gs f) (rep' F gs rep f)) (sep_used cs (fk_bits F) (with_seps n k) sep_size sep) (cs_encode cs point) LLower (with_seps n k))
      by (rewrite HB; reflexivity).
    rewrite Et. apply print_fixed_gen; try assumption.
    + rewrite HB. reflexivity.
    + intros _. rewrite Es. unfold sep. destruct (ff_punct f) eqn:Epu; [reflexivity|]. exfalso. apply H2. unfold k, B, float_groups. rewrite Epu. apply below_none. reflexivity.
Qed.

Lemma print_any n :
  hex = false -> init_num (fk_clz F) g f x = Some n -> num_wf n ->
  (n_form n = FormFixed -> n_e n < 0 -> n_seps n = boundaries_below B (int_len n)) ->
  (n_form n = FormFixed -> n_seps n <> 0 -> boundaries_below B (int_len n) <> 0) ->
  1 <= n_sub n -> n_sub n < 2 ^ 31 -> ff_pad0 f < 2 ^ 31 ->
  let content := Z.max (n_sub n) (ff_pad0 f) in
  let missing := Z.max 0 (width - content) in
  let T := num_text (if n_seps n =? 0 then no_boundary else B) (sep_used cs (fk_bits F) n sep_size sep) (cs_encode cs point) (fk_case F) n in
  exists p, punct_double F f al x = Some p /\
    ops_text (pr_ops p) = padded (al_align al) enc missing (sign_units enc show sign ++ zeros (ff_pad0 f - n_sub n) ++ T) /\
    pr_size p = content - b2z show + zlen (sign_units enc show sign) + missing * zlen enc +
      (if n_seps n =? 0 then 0 else n_seps n * (sep_size - 1)) + (if n_point n then zlen (cs_encode cs point) - 1 else 0) /\
    pr_width p = content + missing /\ Forall op_wf (pr_ops p).
Proof using HF HA.
  intros Eh En W H1 H2 Hsub Hsub2 Hpad content missing T. pose proof HF as [K _ Hs Hp10 Hp16]. destruct HA as [Hc Hwid].
  destruct (sign_ok F gs rep f al x) as (S1 & _ & _). fold show sign in S1.
  assert (Hpt : 0 <= point < 2 ^ 32) by (unfold point, float_point; destruct (ff_punct f), (is_hex (ff_notation f)); lia).
  assert (Hform : n_form n = FormFixed \/ n_form n = FormSci) by (destruct W as [_ _ _ _ Wf]; destruct (n_form n); try contradiction; auto).
  assert (Hb : 0 <= b2z show <= 1) by (destruct show; cbn; lia).
  assert (Hw16 : width < 2 ^ 31).
  { unfold width. destruct (round_ok _ Hwid) as [R _]. unfold scaled, is_width, u_min, u_max in *. clear - R Hwid. lia. }
  unfold punct_double. fold cs hex sep. fold gp. rewrite (surjective_pairing gp). fold g sep_size. change (if ff_punct f then if hex then fk_point16 F else fk_point10 F else 46) with point.
  rewrite En. cbn [obind]. fold sign. fold (shows_sign f x). fold show. fold width.
  assert (Esp : match n_form n with FormNan | FormInf => true | _ => false end = false) by (destruct Hform as [-> | ->]; reflexivity).
  rewrite Esp, Eh. cbn [andb negb]. fold content.
  rewrite chk_ok by (unfold content; lia). cbn [obind].
  pose proof (init_fill_ok cs show sign (al_fill al) (ff_pad0 f) width content (al_align al) K Hc S1) as [G1 G2 G3 G4 G5 G6]. fold enc in G1, G6.
  set (fd := init_fill show sign (al_fill al) (ff_pad0 f) width content (al_align al)) in *.
  rewrite G2, chk_ok by (unfold content in *; lia). cbn [obind]. rewrite (ok_size cs K) by exact Hpt.
  set (sub := n_sub n - fd_dec fd).
  assert (HO : wrote (match n_form n with
          | FormFixed => print_fixed cs (fk_bits F) n fd sign sub g sep sep_size point (if n_point n then zlen (cs_encode cs point) else 0)
          | FormSci => print_scientific cs (fk_case F) n fd sign sub point (if n_point n then zlen (cs_encode cs point) else 0)
          | FormHex => print_hex cs (fk_case F) (match fl_bits x with BFinite s _ _ _ _ => s | _ => false end) n fd sign sub point (if n_point n then zlen (cs_encode cs point) else 0)
          | _ => Some (print_inf_or_nan (fk_case F) n fd sign)
          end) ((if fd_showsign fd then [sign] else []) ++ zeros (fd_pad0 fd - sub) ++ T)).
  { destruct Hform as [Ef|Ef]; rewrite Ef.
    - rewrite app_assoc. replace T with (num_text (if n_seps n =? 0 then no_boundary else B) (sep_used cs (fk_bits F) n sep_size sep) (cs_encode cs point) LLower n)
        by (unfold T, num_text; rewrite Ef; reflexivity).
      apply print_any_fixed; auto.
    - unfold print_scientific.
      destruct (print_sci_ok (fk_case F) n (cs_encode cs point) (if n_point n then zlen (cs_encode cs point) else 0) W Ef) as (os & EO & WO & TO).
      { apply (ok_small cs K). exact Hpt. }
      { intros E; rewrite E; reflexivity. }
      rewrite point_units_ok by assumption. rewrite EO. cbn [obind]. destruct (p_sign_ok (fd_showsign fd) sign) as [PW PT].
      apply wrote_some.
      + apply Forall_app; split; [exact PW|]. apply Forall_app; split; [constructor; [exact I|constructor]|exact WO].
      + rewrite !ops_text_app, PT, TO. f_equal. f_equal; [unfold ops_text; cbn; apply app_nil_r|]. unfold T, num_text. rewrite Ef. reflexivity. }
  destruct HO as (os & EO & WO & TO). rewrite EO. cbn [obind].
  eexists; split; [reflexivity|].
  unfold sub in TO. rewrite G5 in TO by lia.
  destruct (fill_ops cs (fd_left fd) (al_fill al) K Hc) as [LW LT]. cbv zeta in LW, LT. destruct (fill_ops cs (fd_right fd) (al_fill al) K Hc) as [RW RT]. cbv zeta in RW, RT.
  split; [|split; [|split]]; cbn [pr_ops pr_size pr_width].
  - rewrite !ops_text_app, LT, RT, TO. fold enc. rewrite G1. reflexivity.
  - assert (Efc : (if 0 <? fd_count fd then cs_size cs (al_fill al) * fd_count fd else 0) = fd_count fd * zlen enc).
    { rewrite (ok_size cs K) by exact Hc. fold enc. destruct (Z.ltb_spec 0 (fd_count fd)); [lia|]. replace (fd_count fd) with 0 by lia. lia. }
    rewrite Efc. fold missing in G6. destruct (n_seps n =? 0), (n_point n); cbn [negb]; lia.
  - reflexivity.
  - apply Forall_app; split; [exact LW|]. apply Forall_app; split; assumption.
Qed.
(* the same, compared with the request r' of d more columns: sub_chars_count is d too small *)
Definition widened (r : float_request) (d : Z) : float_request :=
  mk_frequest (fr_negative r) (fr_value r) (fr_style r) (fr_sign r) (fr_pad0 r + d) (fr_fill r) (fr_width r + d) (fr_align r).
Lemma print_request n s m e d :
  hex = false -> init_num (fk_clz F) g f x = Some n -> num_wf n ->
  (n_form n = FormFixed -> n_e n < 0 -> n_seps n = boundaries_below B (int_len n)) ->
  (n_form n = FormFixed -> n_seps n <> 0 -> boundaries_below B (int_len n) <> 0) ->
  st_case s = fk_case F -> st_point s = cs_encode cs point ->
  num_text (if n_seps n =? 0 then no_boundary else B) (sep_used cs (fk_bits F) n sep_size sep) (cs_encode cs point) (fk_case F) n = decimal_body s m e ->
  n_sub n = b2z show + zlen (decimal_body (one_column s) m e) - d -> 1 <= n_sub n ->
  let r := mk_frequest (fl_negative x) (FDec m e) s (ff_sign f) (ff_pad0 f) enc width (al_align al) in
  float_text_width (widened r d) - d < 2 ^ 31 ->
  exists p, punct_double F f al x = Some p /\ ops_text (pr_ops p) = float_text (widened r d) /\
    pr_size p = zlen (float_text (widened r d)) + zlen (decimal_body (one_column s) m e) - d - zlen (decimal_body s m e) +
      (if n_seps n =? 0 then 0 else n_seps n * (sep_size - 1)) + (if n_point n then zlen (cs_encode cs point) - 1 else 0) /\
    pr_width p = float_text_width (widened r d) - d /\ Forall op_wf (pr_ops p).
Proof using HF HA.
  intros Eh En W H1 H2 Ec Ep ET Esub Hsub r Hfit.
  destruct (sign_ok F gs rep f al x) as (S1 & S2 & S3). fold cs enc sign show in S1, S2, S3.
  assert (S2' : float_sign (widened r d) = sign_units enc show sign) by exact S2.
  assert (S3' : float_sign_width (widened r d) = b2z show) by exact S3. clear S2 S3.
  set (T1 := zlen (decimal_body (one_column s) m e)) in *.
  set (content := Z.max (n_sub n) (ff_pad0 f)).
  assert (Hb : 0 <= b2z show <= 1) by (destruct show; cbn; lia).
  assert (Ez : float_zeros (widened r d) = Z.max 0 (ff_pad0 f - n_sub n)).
  { unfold float_zeros, float_bare_width. rewrite S3'. cbn [widened r fr_value finite fr_pad0 float_prefix fr_style float_body]. change (float_prefix (widened r d)) with (@nil Z).
    change (zlen []) with 0. fold T1. lia. }
  assert (Ecw : float_content_width (widened r d) = content + d).
  { unfold float_content_width. rewrite Ez. unfold float_bare_width. rewrite S3'. cbn [widened r fr_value fr_style float_body]. change (float_prefix (widened r d)) with (@nil Z).
    change (zlen []) with 0. fold T1. unfold content. lia. }
  assert (Emi : float_missing (widened r d) = Z.max 0 (width - content)).
  { unfold float_missing. rewrite Ecw. unfold float_width. cbn [widened r fr_value finite fr_width]. lia. }
  assert (Etw : float_text_width (widened r d) = content + d + Z.max 0 (width - content)) by (unfold float_text_width; rewrite Ecw, Emi; reflexivity).
  destruct (print_any n Eh En W H1 H2 Hsub ltac:(unfold content in *; lia) ltac:(unfold content in *; lia)) as (p & EP & TP & ZP & WP & HWf).
  fold content in TP, ZP, WP. exists p. split; [exact EP|].
  assert (Etext : float_text (widened r d) = padded (al_align al) enc (Z.max 0 (width - content)) (sign_units enc show sign ++ zeros (ff_pad0 f - n_sub n) ++ decimal_body s m e)).
  { unfold float_text. rewrite Emi. cbn [widened r fr_align fr_fill]. f_equal. unfold float_content. rewrite S2', Ez. change (float_prefix (widened r d)) with (@nil Z).
    cbn [app widened r fr_style fr_value float_body]. unfold zeros. do 3 f_equal. lia. }
  split; [|split; [|split]].
  - rewrite TP, ET, Etext. reflexivity.
  - rewrite ZP, Etext. rewrite padded_len by lia. rewrite !zlen_app.
    assert (Hzl : zlen (zeros (ff_pad0 f - n_sub n)) = Z.max 0 (ff_pad0 f - n_sub n)) by (unfold zeros, zlen; rewrite repeat_length; lia).
    rewrite Hzl. unfold content. lia.
  - rewrite WP, Etw. lia.
  - exact HWf.
Qed.
End Any.

Lemma below_mono B a b : (a <= b)%nat -> boundaries_below B a <= boundaries_below B b.
Proof.
  intros H. induction H as [|b H IH]; [lia|]. cbn [boundaries_below]. destruct (_ && _); lia.
Qed.
Lemma below_nonneg B a : 0 <= boundaries_below B a.
Proof. change 0 with (boundaries_below B 0). apply below_mono. lia. Qed.

Section AnyInit.
Variables (g : Z) (gs : list Z) (rep : bool) (showsign : bool) (m e : Z) (sp : bool).
Hypothesis Hr : represents g gs rep.
Hypothesis Hd : decimal_ok m e.
Let B := boundary gs rep.
Let dc := zlen (digits 10 m).

Ltac wf_tac := constructor; cbn [n_m n_digcount n_extra n_e n_form n_point]; try reflexivity; try lia; auto.
Ltac nproj := cbn [n_form n_m n_digcount n_extra n_e n_point n_sub n_seps].

(* fixed notation with a precision: the separators are counted before rounding *)
Lemma prec_fixed_any prec : 0 <= prec ->
  let before := boundaries_below B (length (digits 10 (int_part m e))) in
  let point := sp || negb (prec =? 0) in
  exists n, prec_fixed g showsign m e prec sp = Some n /\
  num_wf n /\ n_form n = FormFixed /\ fixed_places n = prec /\ fixed_scaled n = rounded m e prec /\ n_point n = point /\ n_seps n = before /\
  n_sub n = b2z showsign + b2z point + before + (Z.of_nat (int_len n) + prec) /\
  (n_e n < 0 -> n_seps n = boundaries_below B (int_len n)) /\ (length (digits 10 (int_part m e)) <= int_len n)%nat.
Proof using Hd Hr.
  intros Hp before point. destruct (dc_facts m e Hd) as (Hm & D1 & D2 & D3 & D4 & D5 & D6 & He). fold dc in D1, D2, D3, D4, D5.
  pose proof (int_part_len m e Hd) as EI. fold dc in EI.
  unfold prec_fixed. rewrite D4. cbv zeta. fold point.
  assert (Hpt2 : 0 < prec -> point = true) by (intros; unfold point; replace (prec =? 0) with false by lia; apply orb_true_r).
  set (fd := if e <? 0 then - e else 0).
  assert (Efd : fd = Z.max 0 (- e)) by (unfold fd; destruct (Z.ltb_spec e 0); lia).
  assert (Hgoal : forall n, num_wf n -> n_form n = FormFixed -> fixed_places n = prec -> fixed_scaled n = rounded m e prec -> n_point n = point ->
     n_seps n = before -> n_sub n = b2z showsign + b2z point + n_seps n + (Z.max 1 (n_digcount n + n_e n) + prec) ->
     Z.max 1 (dc + e) <= Z.max 1 (n_digcount n + n_e n) ->
     (n_e n < 0 -> Z.max 1 (n_digcount n + n_e n) = Z.max 1 (dc + e)) ->
     num_wf n /\ n_form n = FormFixed /\ fixed_places n = prec /\ fixed_scaled n = rounded m e prec /\ n_point n = point /\ n_seps n = before /\
     n_sub n = b2z showsign + b2z point + before + (Z.of_nat (int_len n) + prec) /\
     (n_e n < 0 -> n_seps n = boundaries_below B (int_len n)) /\ (length (digits 10 (int_part m e)) <= int_len n)%nat).
  { intros n W Ef Epl Esc Ept Ese Esu Hle Hneg. pose proof (int_len_ok n W) as EL.
    do 6 (split; [assumption|]). split; [rewrite Esu, Ese, EL; reflexivity|]. split; [|lia].
    intros Hn. rewrite Ese. unfold before. f_equal. specialize (Hneg Hn). lia. }
  destruct (Z.leb_spec (prec - fd) (- dc)) as [Hx|Hx].
  - assert (He0 : e < 0) by lia. replace (- (prec + dc) <? e) with false by lia. rewrite pow10_some by lia. cbn [obind].
    assert (Eb : before = 0). { unfold before. replace (length (digits 10 (int_part m e))) with 1%nat by lia. reflexivity. }
    assert (E10 : 10 ^ dc = 2 * (5 * 10 ^ (dc - 1))).
    { replace dc with (1 + (dc - 1)) at 1 by lia. rewrite pow10_split by lia. change (10 ^ 1) with 10. lia. }
    assert (Esh : Z.shiftr (10 ^ dc) 1 = 5 * 10 ^ (dc - 1)) by (rewrite shr_div by lia; change (2 ^ 1) with 2; lia).
    rewrite Esh. set (h := 5 * 10 ^ (dc - 1)) in *.
    assert (Hround : rounded m e prec = if (prec - fd =? - dc) && (h <? m) then 1 else 0).
    { unfold rounded. replace (0 <=? e + prec) with false by lia. destruct (Z.eqb_spec (prec - fd) (- dc)) as [Eq|Eq]; cbn [andb].
      - replace (- (e + prec)) with dc by lia. destruct (Z.ltb_spec h m).
        + symmetry. apply nearest_unique; [lia| |]; rewrite Z.mul_1_r; rewrite Z.abs_neq by lia; lia.
        + apply nearest_small; lia.
      - assert (10 ^ (dc + 1) <= 10 ^ (- (e + prec))) by (apply Z.pow_le_mono_r; lia).
        rewrite pow10_split in H by lia. change (10 ^ 1) with 10 in H. apply nearest_small; lia. }
    destruct ((prec - fd =? - dc) && (h <? m)) eqn:Eup.
    + apply andb_prop in Eup as [Eup _]. eexists; split; [reflexivity|]. apply Hgoal; nproj; try reflexivity; try lia.
      * wf_tac. intros; apply Hpt2; lia.
      * unfold fixed_places; nproj. lia.
      * unfold fixed_scaled, fixed_places; nproj. rewrite Hround. replace (e + dc + (Z.max 0 (- (e + dc)) + 0)) with 0 by lia. reflexivity.
    + eexists; split; [reflexivity|]. apply Hgoal; nproj; try reflexivity; try lia.
      * wf_tac. intros; apply Hpt2; lia.
      * unfold fixed_scaled; nproj. rewrite Hround. reflexivity.
  - set (ic := if - e <? dc then dc + e else 1).
    assert (Eic : ic = Z.max 1 (dc + e)) by (unfold ic; destruct (Z.ltb_spec (- e) dc); lia).
    rewrite Eic, (seps_ok g gs rep) by exact Hr. cbn [obind]. fold B. replace (Z.max 1 (Z.max 1 (dc + e))) with (Z.max 1 (dc + e)) by lia.
    assert (Eb : boundaries_below B (Z.to_nat (Z.max 1 (dc + e))) = before) by (unfold before; f_equal; lia). rewrite Eb.
    destruct (Z.leb_spec 0 (prec - fd)) as [Hx0|Hx0].
    + eexists; split; [reflexivity|]. apply Hgoal; nproj; try reflexivity; try lia.
      * wf_tac. intros; apply Hpt2; lia.
      * unfold fixed_places; nproj. lia.
      * unfold fixed_scaled, fixed_places, rounded; nproj. replace (0 <=? e + prec) with true by lia. f_equal. f_equal. lia.
    + assert (He0 : e < 0) by lia. assert (Ef : fd = - e) by lia. rewrite Ef in *. clear Efd Ef.
      replace (- (prec - - e)) with (- (prec + e)) by lia. set (k := - (prec + e)).
      assert (Hk : 1 <= k < dc) by lia. rewrite drop_digits_ok by lia. cbn [obind].
      replace (dc + (prec - - e)) with (dc - k) by lia. rewrite pow10_some by lia. cbn [obind].
      replace (e - (prec - - e)) with (- prec) by lia.
      assert (Hround : rounded m e prec = nearest m (10 ^ k)).
      { unfold rounded. replace (0 <=? e + prec) with false by lia. replace (- (e + prec)) with k by lia. reflexivity. }
      destruct (Z.eqb_spec (nearest m (10 ^ k)) (10 ^ (dc - k))) as [Ec|Ec].
      * replace (- prec + (dc - k)) with (dc + e) by lia.
        destruct (Z.leb_spec (dc + e) 0) as [H0|H0].
        -- replace (prec <? - (dc + e)) with false by lia. eexists; split; [reflexivity|]. apply Hgoal; nproj; try reflexivity; try lia.
           ++ wf_tac. intros; apply Hpt2; lia.
           ++ unfold fixed_places; nproj. lia.
           ++ unfold fixed_scaled, fixed_places; nproj. rewrite Hround, Ec. rewrite Z.mul_1_l. f_equal. lia.
        -- eexists; split; [reflexivity|]. apply Hgoal; nproj; try reflexivity; try lia.
           ++ wf_tac; intros; apply Hpt2; lia.
           ++ unfold fixed_places; nproj; lia.
           ++ unfold fixed_scaled, fixed_places; nproj. rewrite Hround, Ec. rewrite Z.mul_1_l. f_equal. lia.
      * destruct (nearest_dc m e Hd k Hk Ec) as [N1 N2]. fold dc in N1.
        eexists; split; [reflexivity|]. apply Hgoal; nproj; try reflexivity; try lia.
        -- wf_tac. intros; apply Hpt2; lia.
        -- unfold fixed_places; nproj. lia.
        -- unfold fixed_scaled, fixed_places; nproj. rewrite Hround. replace (- prec + (Z.max 0 (- - prec) + 0)) with 0 by lia. lia.
Qed.
End AnyInit.

Definition groups_if (b : bool) (gs : list Z) : list Z := if b then gs else [].
Lemma float_groups_nil F f : float_groups F [] f = [].
Proof. unfold float_groups. destruct (_ && _); reflexivity. Qed.

(* fixed notation with a precision *)
Lemma fixed_coded F gs rep f al x sn mm ex m e : ffacets_ok F gs rep -> align_ok al ->
  fl_bits x = BFinite sn mm ex m e -> decimal_ok m e -> ff_notation f = NFixed -> 0 <= ff_precision f -> separator_fine F gs f ->
  let before := boundaries_below (boundary (float_groups F gs f) rep) (length (digits 10 (int_part m e))) in
  let gs' := groups_if (negb (before =? 0)) gs in
  let after := boundaries_below (boundary (float_groups F gs' f) rep) (length (digits 10 (rounded m e (ff_precision f) / 10 ^ ff_precision f))) in
  let r := widened (frequest_of F gs' rep f al x) (after - before) in
  float_text_width r - (after - before) < 2 ^ 31 ->
  exists p, punct_double F f al x = Some p /\ ops_text (pr_ops p) = float_text r /\
    pr_size p = zlen (float_text r) - (after - before) * zlen (cs_encode (fk_charset F) (fk_thousands F)) /\
    pr_width p = float_text_width r - (after - before) /\ Forall op_wf (pr_ops p).
Proof.
  intros HF HA Eb Hd En Hp Hsf before gs' after r Hfit.
  destruct (group_ok F gs rep f HF) as [Hr HB].
  set (cs := fk_charset F) in *.
  set (sep := if ff_punct f then fk_thousands F else 44) in *.
  set (gp := if ff_punct f then (if cs_validate cs sep =? -1 then (grouping_empty, 1) else (fk_group F, cs_validate cs sep)) else (grouping_empty, 1)) in *.
  set (g := fst gp) in *. set (prec := ff_precision f) in *.
  destruct (prec_fixed_any g (float_groups F gs f) (rep' F gs rep f) (shows_sign f x) m e (ff_showpoint f) Hr Hd prec Hp) as
    (n & E0 & W & Ef & Epl & Esc & Ept & Ese & Esu & Hneg & Hle).
  rewrite HB in Ese, Esu, Hneg. fold before in Ese, Esu.
  assert (Hlen : length (digits 10 (rounded m e prec / 10 ^ prec)) = int_len n) by (unfold int_len; rewrite Epl, Esc; reflexivity).
  assert (Hmono : before <= boundaries_below (boundary (float_groups F gs f) rep) (int_len n)) by (apply below_mono; exact Hle).
  pose proof (below_nonneg (boundary (float_groups F gs f) rep) (length (digits 10 (int_part m e)))) as Hb0. fold before in Hb0.
  set (s := style_of F gs' rep f).
  assert (HBs : st_boundary s = if before =? 0 then no_boundary else boundary (float_groups F gs f) rep).
  { unfold s, style_of, gs'. cbn [st_boundary]. destruct (before =? 0); cbn [negb groups_if]; [rewrite float_groups_nil|]; reflexivity. }
  assert (Hafter : after = boundaries_below (st_boundary s) (int_len n)).
  { unfold after. rewrite Hlen. reflexivity. }
  assert (Hpt : (ff_showpoint f || negb (prec =? 0) || (0 <? prec)) = (ff_showpoint f || (0 <? prec))).
  { destruct (ff_showpoint f); [reflexivity|]. cbn [orb]. destruct (Z.eqb_spec prec 0), (Z.ltb_spec 0 prec); cbn; lia || reflexivity. }
  assert (Hbody : forall s', st_boundary s' = st_boundary s -> st_showpoint s' = ff_showpoint f -> st_notation s' = NFixed -> st_precision s' = Some prec ->
     forall lc, num_text (if n_seps n =? 0 then no_boundary else boundary (float_groups F gs f) rep) (st_sep s') (st_point s') lc n = decimal_body s' m e).
  { intros s' E1 E2 E3 E4 lc. unfold num_text, decimal_body. rewrite Ef, E3, E4, Epl, Esc, Ept, E1, HBs, E2, Ese. apply fixed_text_eq. exact Hpt. }
  assert (Epr : st_precision s = Some prec) by (unfold s, style_of, prec_of; cbn [st_precision]; fold prec; replace (0 <=? prec) with true by lia; reflexivity).
  assert (Hnot : st_notation s = NFixed) by exact En.
  assert (Hn0 : n_form n = FormFixed -> n_seps n <> 0 -> boundaries_below (boundary (float_groups F gs f) rep) (int_len n) <> 0) by (intros _ C; lia).
  assert (Hsize : before <> 0 -> ff_punct f = true /\ snd gp = zlen (cs_encode cs (fk_thousands F)) /\ float_groups F gs f <> []).
  { intros C. destruct (sep_size_ok F gs rep f HF _ C) as (A1 & A2 & A3). auto. }
  assert (Hsep : num_text (if n_seps n =? 0 then no_boundary else boundary (float_groups F gs f) rep) (sep_used cs (fk_bits F) n (snd gp) sep) (cs_encode cs (float_point F f)) (fk_case F) n =
    decimal_body s m e).
  { rewrite <- (Hbody s eq_refl eq_refl Hnot Epr (fk_case F)). unfold num_text. rewrite Ef. unfold fixed_text. f_equal.
    rewrite Ese. destruct (Z.eqb_spec before 0) as [C|C]; [rewrite !grouped_none by reflexivity; reflexivity|].
    f_equal. change (st_sep s) with (cs_encode cs (fk_thousands F)). unfold sep_used. destruct (Hsize C) as (A1 & A2 & A3). unfold sep. rewrite A1, A2.
    destruct (Z.eqb_spec (zlen (cs_encode cs (fk_thousands F))) 1) as [C1|]; [|rewrite andb_false_r; reflexivity].
    pose proof (Hsf A3 C1) as Q. fold cs in Q. rewrite Q. destruct (0 <=? n_e n); reflexivity. }
  assert (Hl : forall s', st_boundary s' = st_boundary s -> st_showpoint s' = ff_showpoint f -> st_notation s' = NFixed -> st_precision s' = Some prec ->
     zlen (decimal_body s' m e) = Z.of_nat (int_len n) + zlen (st_sep s') * after + (if n_point n then zlen (st_point s') else 0) + prec).
  { intros s' E1 E2 E3 E4. rewrite <- (Hbody s' E1 E2 E3 E4 LLower). rewrite num_text_len by exact W. rewrite Ef, Hafter, HBs, Ese. pose proof (int_len_ok n W).
    unfold fixed_places in Epl. lia. }
  assert (Hl1 : zlen (decimal_body (one_column s) m e) = Z.of_nat (int_len n) + after + b2z (n_point n) + prec).
  { rewrite (Hl (one_column s)) by (reflexivity || assumption). change (zlen (st_sep (one_column s))) with 1. change (zlen (st_point (one_column s))) with 1.
    destruct (n_point n); cbn [b2z]; lia. }
  assert (Hil : 1 <= Z.of_nat (int_len n)) by (pose proof (int_len_ok n W); lia).
  assert (Hv : frequest_of F gs' rep f al x = mk_frequest (fl_negative x) (FDec m e) s (ff_sign f) (ff_pad0 f) (cs_encode cs (al_fill al)) (w_round (al_width al)) (al_align al)).
  { unfold frequest_of. rewrite Eb, En. reflexivity. }
  unfold r in Hfit |- *. rewrite Hv in Hfit |- *.
  destruct (print_request F gs rep f al x HF HA n s m e (after - before)) as (p & EP & TP & ZP & WP & HWf); try assumption; try reflexivity.
  - rewrite En. reflexivity.
  - unfold init_num. rewrite Eb, En. fold prec. replace (prec =? -1) with false by lia. exact E0.
  - intros _. exact Hneg.
  - rewrite Esu, Hl1, Ept. lia.
  - rewrite Esu. destruct (shows_sign f x), (ff_showpoint f || negb (prec =? 0)); cbn [b2z]; lia.
  - exists p. split; [exact EP|]. split; [exact TP|]. split; [|split; assumption].
    rewrite ZP, Hl1, (Hl s) by (reflexivity || assumption). rewrite Ese. fold cs sep gp.
    change (st_sep s) with (cs_encode cs (fk_thousands F)). change (st_point s) with (cs_encode cs (float_point F f)).
    destruct (Z.eqb_spec before 0) as [C|C].
    + assert (after = 0) by (rewrite Hafter, HBs; apply none_below). destruct (n_point n); cbn [b2z]; nia.
    + destruct (Hsize C) as (_ & -> & _). destruct (n_point n); cbn [b2z]; nia.
Qed.

(* general notation with a precision; [strip]: without the trailing decimal zeros *)
Definition general_with (strip : bool) (s : float_style) (m e prec : Z) : list Z :=
  let P := general_digits prec in
  let '(N, E) := sci_rounded m e (P - 1) in
  let fixed := general_is_fixed m e prec in
  let p := if fixed then P - 1 - E else P - 1 in
  let '(N', p') := if strip then stripped (Z.to_nat p) N else (N, p) in
  if fixed then fixed_text (st_boundary s) (st_sep s) (st_point s) (st_showpoint s) N' p'
  else sci_text (st_case s) (st_point s) (st_showpoint s) N' p' E.
Lemma general_with_unfold strip s m e prec N E :
  let P := Z.max 1 prec in sci_rounded m e (P - 1) = (N, E) ->
  general_with strip s m e prec =
  let fixed := (-4 <=? E) && (E <? P) in
  let p := if fixed then P - 1 - E else P - 1 in
  let '(N', p') := if strip then stripped (Z.to_nat p) N else (N, p) in
  if fixed then fixed_text (st_boundary s) (st_sep s) (st_point s) (st_showpoint s) N' p'
  else sci_text (st_case s) (st_point s) (st_showpoint s) N' p' E.
Proof. intros P ES. unfold general_with, general_is_fixed, general_digits. fold P. rewrite ES. reflexivity. Qed.

Record num_coded (B : Z -> bool) (showsign : bool) (d stale : Z) (n : num) : Prop := mk_num_coded {
  nc_wf : num_wf n;
  nc_seps : n_form n = FormFixed -> n_seps n = boundaries_below B (int_len n);
  nc_sci : n_form n = FormSci -> n_seps n = stale;
  nc_fixed : n_form n = FormFixed -> stale = 0;
  nc_sub : n_sub n = b2z showsign + zlen (num_text B [44] [46] LLower n) - d }.

Section AnyGeneral.
Variables (g : Z) (gs : list Z) (rep : bool) (showsign : bool) (m e : Z) (sp : bool).
Hypothesis Hr : represents g gs rep.
Hypothesis Hd : decimal_ok m e.
Let B := boundary gs rep.
Let dc := zlen (digits 10 m).
Ltac wf_tac := constructor; cbn [n_m n_digcount n_extra n_e n_form n_point]; try reflexivity; try lia; auto.
Ltac nproj := cbn [n_form n_m n_digcount n_extra n_e n_point n_sub n_seps].

Lemma prec_general_any prec : 0 <= prec -> canonical m -> 
  let carries := prec_carries m prec in
  let fixed := general_is_fixed m e prec in
  let strip := negb sp || ((Z.max 1 prec <? dc) && negb carries) in
  exists n, prec_general g showsign m e prec sp = Some n /\
  num_coded B showsign (b2z (carries && fixed && showsign))
    (if carries && negb fixed && (dc + e <=? Z.max 1 prec) then boundaries_below B (length (digits 10 (int_part m e))) else 0) n /\
  forall s, st_boundary s = B -> st_showpoint s = sp -> num_text B (st_sep s) (st_point s) (st_case s) n = general_with strip s m e prec.
Proof using Hd Hr.
  intros Hp Hcan carries fixed strip. set (stale := if carries && negb fixed && (dc + e <=? Z.max 1 prec) then boundaries_below B (length (digits 10 (int_part m e))) else 0).
  destruct (dc_facts m e Hd) as (Hm & D1 & D2 & D3 & D4 & D5 & D6 & He). fold dc in D1, D2, D3, D4, D5.
  unfold prec_general. rewrite D4. cbv zeta. set (P := Z.max 1 prec) in *.
  assert (EP : (if prec =? 0 then 1 else prec) = P) by (unfold P; destruct (Z.eqb_spec prec 0); lia). rewrite EP.
  rewrite (seps_ok g gs rep (dc + e) Hr). cbn [obind]. fold B. set (sc := boundaries_below B (Z.to_nat (Z.max 1 (dc + e)))).
  assert (Hfix : forall n, num_wf n -> n_form n = FormFixed -> n_digcount n + n_e n = dc + e -> n_seps n = sc ->
     n_sub n = b2z showsign + n_seps n + Z.max 1 (dc + e) + b2z (n_point n) + fixed_places n -> carries = false -> num_coded B showsign (b2z (carries && fixed && showsign)) stale n).
  { intros n W Ef Ei Es Eu Hca. assert (stale = 0) as -> by (unfold stale; rewrite Hca; reflexivity). rewrite Hca. cbn [andb b2z]. assert (n_seps n = boundaries_below B (int_len n)).
    { rewrite Es. unfold sc. f_equal. pose proof (int_len_ok n W). lia. }
    constructor; [exact W|auto|congruence|reflexivity|]. rewrite num_text_len by exact W. rewrite Ef, <- H, Eu, Ei. unfold fixed_places.
    change (zlen [46]) with 1. change (zlen [44]) with 1. destruct (n_point n); cbn [b2z]; lia. }
  assert (Hsci : forall n, num_wf n -> n_form n = FormSci -> n_seps n = stale -> carries && fixed = false ->
     n_sub n = b2z showsign + n_digcount n + b2z (n_point n) + n_extra n + 4 + far (n_e n + n_digcount n - 1) -> num_coded B showsign (b2z (carries && fixed && showsign)) stale n).
  { intros n W Ef Es Hca Eu. rewrite Hca. cbn [andb b2z]. constructor; [exact W|congruence|intros _; exact Es|congruence|]. rewrite num_text_len by exact W. rewrite Ef, Eu.
    change (zlen [46]) with 1. destruct (n_point n); cbn [b2z]; lia. }
  assert (Hcz : e < 0 \/ 1 < dc -> m mod 10 <> 0). { intros H. destruct Hcan as [E|]; [|assumption]. exfalso. destruct H; [specialize (D6 ltac:(lia))|specialize (D5 ltac:(lia))]; lia. }
  destruct (Z.lt_ge_cases P dc) as [HPd|HPd].
  2: { (* nothing is rounded *)
    assert (SR : sci_rounded m e (P - 1) = (m * 10 ^ (P - dc), e + dc - 1)).
    { rewrite (sci_rounded_exact m e Hd) by (fold dc; lia). fold dc. do 3 f_equal. lia. }
    assert (Hca : carries = false) by (unfold carries, prec_carries; fold dc P; replace (P <? dc) with false by lia; reflexivity).
    assert (Est : strip = negb sp) by (unfold strip; replace (P <? dc) with false by lia; cbn [andb]; apply orb_false_r).
    assert (Hst : stale = 0) by (unfold stale; rewrite Hca; reflexivity).
    assert (GU := fun s => general_with_unfold strip s m e prec _ _ SR). cbv zeta in GU. fold P in GU. fold dc in HPd. rewrite Est in GU |- *. rewrite Hca, Hst in Hsci, Hfix |- *. clearbody strip. clear Est Hca Hst strip.
    replace (P - dc <? 0) with false by lia.
    destruct ((dc + e <? -3) || (P <? dc + e)) eqn:Eform.
    - (* scientific *)
      assert (Efx : (-4 <=? e + dc - 1) && (e + dc - 1 <? P) = false) by lia.
      destruct sp.
      + eexists; split; [reflexivity|]. split.
        * apply Hsci; nproj; try reflexivity; [wf_tac|]. cbn [b2z]. replace (e + dc - 1) with (dc + e - 1) by lia. lia.
        * intros s EB Es. rewrite GU, Efx, Es. cbn [negb]. apply sci_num_text; nproj; try reflexivity; try lia.
          all: rewrite ?Es; reflexivity.
      + eexists; split; [reflexivity|]. split.
        * apply Hsci; nproj; try reflexivity; [wf_tac|]. replace (e + dc - 1) with (dc + e - 1) by lia. lia.
        * intros s EB Es. rewrite GU, Efx, Es. cbn [negb].
          replace (P - 1) with ((P - dc) + (dc - 1)) by lia. rewrite stripped_mulz by lia.
          rewrite stripped_stop by (destruct (Z.eq_dec dc 1); [right; lia|left; apply Hcz; lia]). rewrite Z2Nat.id by lia.
          apply sci_num_text; nproj; try reflexivity; try lia.
    - (* fixed *)
      assert (Efx : (-4 <=? e + dc - 1) && (e + dc - 1 <? P) = true) by lia.
      destruct (Z.leb_spec 0 e) as [He0|He0].
      + destruct sp; cbn [andb].
        * set (xs := if dc + e <? P then (P - (dc + e), b2z showsign + sc + (dc + e) + (P - (dc + e))) else (0, b2z showsign + sc + (dc + e))).
          assert (Exs : xs = (P - (dc + e), b2z showsign + sc + P)). { unfold xs. destruct (Z.ltb_spec (dc + e) P); f_equal; lia. }
          rewrite Exs. eexists; split; [reflexivity|]. split.
          { apply Hfix; nproj; try reflexivity; [wf_tac|]. unfold fixed_places; nproj. cbn [b2z]. lia. }
          intros s EB Es. rewrite GU, Efx, Es. cbn [negb]. 
          apply fixed_num_text; nproj; try reflexivity; try assumption.
          { unfold fixed_scaled, fixed_places; nproj. f_equal. f_equal. lia. }
          { unfold fixed_places; nproj. lia. }
          all: rewrite ?Es; reflexivity.
        * eexists; split; [reflexivity|]. split.
          { apply Hfix; nproj; try reflexivity; [wf_tac|]. unfold fixed_places; nproj. cbn [b2z]. lia. }
          intros s EB Es. rewrite GU, Efx, Es. cbn [negb].
          replace (P - 1 - (e + dc - 1)) with ((P - (e + dc)) + 0) by lia.
          replace (m * 10 ^ (P - dc)) with (m * 10 ^ e * 10 ^ (P - (e + dc))).
          2: { rewrite <- Z.mul_assoc, <- pow10_split by lia. do 2 f_equal. lia. }
          rewrite stripped_mulz by (try lia; pose proof (pow10_pos e He0); nia). cbn [Z.to_nat stripped].
          apply fixed_num_text; nproj; try reflexivity; try assumption.
          { unfold fixed_scaled, fixed_places; nproj. f_equal. f_equal. lia. }
          { unfold fixed_places; nproj. lia. }
          all: rewrite ?Es; reflexivity.
      + assert (Ewid : (if e <=? - dc then 1 - e else dc) = Z.max 1 (dc + e) - e) by (destruct (Z.leb_spec e (- dc)); lia).
        rewrite Ewid. destruct sp.
        * eexists; split; [reflexivity|]. split.
          { apply Hfix; nproj; try reflexivity; [wf_tac|]. unfold fixed_places; nproj. cbn [b2z]. lia. }
          intros s EB Es. rewrite GU, Efx, Es. cbn [negb]. 
          apply fixed_num_text; nproj; try reflexivity; try assumption.
          { unfold fixed_scaled, fixed_places; nproj. f_equal. f_equal. lia. }
          { unfold fixed_places; nproj. lia. }
          all: rewrite ?Es; reflexivity.
        * eexists; split; [reflexivity|]. split.
          { apply Hfix; nproj; try reflexivity; [wf_tac|]. unfold fixed_places; nproj. cbn [b2z]. lia. }
          intros s EB Es. rewrite GU, Efx, Es. cbn [negb].
          replace (P - 1 - (e + dc - 1)) with ((P - dc) + (- e)) by lia. rewrite stripped_mulz by lia.
          rewrite stripped_stop by (left; apply Hcz; lia). rewrite Z2Nat.id by lia.
          apply fixed_num_text; nproj; try reflexivity; try assumption.
          { unfold fixed_scaled, fixed_places; nproj. replace (e + (Z.max 0 (- e) + 0)) with 0 by lia. cbn; lia. }
          { unfold fixed_places; nproj. lia. }
          replace (0 <? - e) with true by lia. reflexivity. }
  (* digits are removed *)
  assert (Hk : 1 <= dc - P < dc) by lia.
  destruct (sci_rounded_drop m e Hd (P - 1) ltac:(fold dc; lia)) as [SC SR]. fold dc in SC, SR.
  replace (dc - 1 - (P - 1)) with (dc - P) in SC, SR by lia. replace (P - 1 + 1) with P in SC, SR by lia.
  assert (Hpc : carries = (nearest m (10 ^ (dc - P)) =? 10 ^ P)).
  { unfold carries, prec_carries. fold dc P. rewrite SC. replace (P <? dc) with true by lia. reflexivity. }
  clear SC.
  replace (P - dc <? 0) with true by lia.
  set (isci := (dc + e <? -3) || (P <? dc + e)).
  (* one call *)
  assert (Hcall : exists f sub int seps, 
    (if isci then remove_digits g showsign FormSci m dc e (b2z showsign + 4 + far (dc + e - 1) + P) (P - dc) 1 0 prec sp
     else if 0 <=? e then Some (mk_num FormNan 0 0 0 0 0 false 0) 
     else remove_digits g showsign FormFixed m dc e (b2z showsign + sc + (if e <=? - dc then 1 - e else dc) + (P - dc)) (P - dc) (dc + e) sc prec sp)
    = remove_digits g showsign f m dc e sub (P - dc) int seps prec sp /\
    ((isci = true /\ f = FormSci /\ int = 1 /\ seps = 0 /\ sub = b2z showsign + 4 + far (dc + e - 1) + P) \/
     (isci = false /\ f = FormFixed /\ int = dc + e /\ seps = sc /\ e < 0 /\ -3 <= dc + e <= P /\ sub = b2z showsign + sc + Z.max 1 (dc + e) + (P - (dc + e))))).
  { destruct isci eqn:Ei.
    - exists FormSci, (b2z showsign + 4 + far (dc + e - 1) + P), 1, 0. split; [reflexivity|left; auto].
    - unfold isci in Ei. destruct (Z.leb_spec 0 e); [lia|].
      exists FormFixed, (b2z showsign + sc + (if e <=? - dc then 1 - e else dc) + (P - dc)), (dc + e), sc. split; [reflexivity|right].
      destruct (Z.leb_spec e (- dc)); repeat (split; [reflexivity||lia|]); lia. }
  destruct Hcall as (f & sub & int & seps & Ecall & Hcase).
  match goal with |- exists n, ?x = Some n /\ _ => assert (Ex : x = remove_digits g showsign f m dc e sub (P - dc) int seps prec sp) end.
  { rewrite <- Ecall. destruct isci eqn:Ei; [reflexivity|]. unfold isci in Ei. destruct (Z.leb_spec 0 e); [lia|]. reflexivity. }
  rewrite Ex. clear Ex Ecall. unfold remove_digits. cbv zeta.
  replace (- (P - dc)) with (dc - P) by lia. rewrite drop_digits_ok by lia. cbn [obind].
  replace (dc + (P - dc)) with P by lia. rewrite pow10_some by lia. cbn [obind].
  replace (e - (P - dc)) with (e + (dc - P)) by lia.
  assert (Egf : fixed = (-4 <=? snd (sci_rounded m e (P - 1))) && (snd (sci_rounded m e (P - 1)) <? P)) by reflexivity.
  destruct (Z.eqb_spec (nearest m (10 ^ (dc - P))) (10 ^ P)) as [Ec|Ec].
  - (* carry: one digit *)
    rewrite SR in Egf. cbn [snd] in Egf. 
    assert (Est : strip = negb sp) by (unfold strip; rewrite Hpc; cbn [negb]; rewrite andb_false_r; apply orb_false_r).
    assert (GU := fun s => general_with_unfold strip s m e prec _ _ SR). cbv zeta in GU. fold P in GU. rewrite Est in GU |- *. rewrite Hpc in Hsci |- *. cbn [andb negb] in Hsci |- *.
    clearbody strip carries. clear Est strip.
    replace (e + (dc - P) + P) with (e + dc) by lia. set (E := e + dc) in *.
    unfold general_1digit. rewrite EP.
    destruct ((E <? -4) || (P <=? E)) eqn:Eform.
    + assert (Efx : (-4 <=? E) && (E <? P) = false) by lia. rewrite Efx in Egf. rewrite Egf in Hsci |- *. cbn [b2z negb andb] in Hsci |- *.
      assert (Hseps : seps = stale).
      { unfold stale. rewrite Hpc, Egf. cbn [negb andb]. pose proof (int_part_len m e Hd) as EI. fold dc in EI.
        destruct Hcase as [(Hi & _ & _ & -> & _)|(_ & _ & _ & -> & He0 & Hrg & _)].
        - destruct (Z.leb_spec (dc + e) P); [|reflexivity]. unfold isci in Hi. replace (length (digits 10 (int_part m e))) with 1%nat by lia. reflexivity.
        - replace (dc + e <=? P) with true by lia. unfold sc. f_equal. lia. }
      destruct sp.
      * eexists; split; [reflexivity|]. split.
        { apply Hsci; nproj; try reflexivity; [wf_tac|exact Hseps|]. cbn [b2z]. replace (E + 1 - 1) with E by lia. lia. }
        intros s EB Es. rewrite GU, Efx, Es. cbn [negb]. 
        apply sci_num_text; nproj; try reflexivity; try lia. all: rewrite ?Es; reflexivity.
      * eexists; split; [reflexivity|]. split.
        { apply Hsci; nproj; try reflexivity; [wf_tac|exact Hseps|]. cbn [b2z]. replace (E + 1 - 1) with E by lia. lia. }
        intros s EB Es. rewrite GU, Efx, Es. cbn [negb].
        replace (P - 1) with ((P - 1) + 0) at 1 by lia. rewrite <- (Z.mul_1_l (10 ^ (P - 1))). rewrite stripped_mulz by lia. cbn [Z.to_nat stripped].
        apply sci_num_text; nproj; try reflexivity; try lia. all: rewrite ?Es; reflexivity.
    + assert (Efx : (-4 <=? E) && (E <? P) = true) by lia. rewrite Efx in Egf. rewrite Egf. cbn [b2z negb andb].
      assert (stale = 0) as -> by (unfold stale; rewrite Hpc, Egf; reflexivity).
      destruct (Z.ltb_spec E 0) as [HE|HE].
      * assert (Es0 : seps = 0).
        { destruct Hcase as [(_ & _ & _ & -> & _)|(_ & _ & _ & -> & He0 & Hrg & _)]; [reflexivity|].
          unfold sc. replace (Z.max 1 (dc + e)) with 1 by (unfold E in *; lia). reflexivity. }
        assert (Hfix1 : forall n, num_wf n -> n_form n = FormFixed -> n_digcount n = 1 -> n_e n = E -> n_seps n = seps ->
           n_sub n = 1 + b2z (n_point n) + fixed_places n -> num_coded B showsign (b2z showsign) 0 n).
        { intros n W Ef Edc Een Ese Eu. assert (n_seps n = boundaries_below B (int_len n)).
          { rewrite Ese, Es0. pose proof (int_len_ok n W). replace (int_len n) with 1%nat by lia. reflexivity. }
          constructor; [exact W|auto|congruence|reflexivity|]. rewrite num_text_len by exact W. rewrite Ef, <- H, Eu, Edc, Een, Ese, Es0. unfold fixed_places. rewrite Een.
          change (zlen [46]) with 1. change (zlen [44]) with 1. destruct (n_point n); cbn [b2z]; lia. }
        destruct sp.
        -- eexists; split; [reflexivity|]. split.
           { apply Hfix1; nproj; try reflexivity; [wf_tac|]. unfold fixed_places; nproj. cbn [b2z]. lia. }
           intros s EB Es. rewrite GU, Efx, Es. cbn [negb]. 
           apply fixed_num_text; nproj; try reflexivity; try assumption.
           { unfold fixed_scaled, fixed_places; nproj. rewrite Z.mul_1_l. f_equal. lia. }
           { unfold fixed_places; nproj. lia. }
           all: rewrite ?Es; reflexivity.
        -- eexists; split; [reflexivity|]. split.
           { apply Hfix1; nproj; try reflexivity; [wf_tac|]. unfold fixed_places; nproj. cbn [b2z]. lia. }
           intros s EB Es. rewrite GU, Efx, Es. cbn [negb].
           replace (P - 1 - E) with ((P - 1) + (- E)) by lia. rewrite <- (Z.mul_1_l (10 ^ (P - 1))). rewrite stripped_mulz by lia.
           rewrite stripped_stop by (left; discriminate). rewrite Z2Nat.id by lia.
           apply fixed_num_text; nproj; try reflexivity; try assumption.
           { unfold fixed_scaled, fixed_places; nproj. replace (E + (Z.max 0 (- E) + 0)) with 0 by lia. reflexivity. }
           { unfold fixed_places; nproj. lia. }
           replace (0 <? - E) with true by lia. reflexivity.
      * rewrite (separators_count_ok g gs rep) by (assumption || lia). cbn [obind]. fold B. set (sc1 := boundaries_below B (Z.to_nat (1 + E))).
        assert (Hfix1 : forall n, num_wf n -> n_form n = FormFixed -> n_digcount n = 1 -> n_e n = E -> n_seps n = sc1 ->
           n_sub n = 1 + E + sc1 + b2z (n_point n) + fixed_places n -> num_coded B showsign (b2z showsign) 0 n).
        { intros n W Ef Edc Een Ese Eu. assert (n_seps n = boundaries_below B (int_len n)).
          { rewrite Ese. unfold sc1. f_equal. pose proof (int_len_ok n W). lia. }
          constructor; [exact W|auto|congruence|reflexivity|]. rewrite num_text_len by exact W. rewrite Ef, <- H, Eu, Edc, Een, Ese. unfold fixed_places. rewrite Een.
          change (zlen [46]) with 1. change (zlen [44]) with 1. destruct (n_point n); cbn [b2z]; lia. }
        destruct sp; cbn [andb].
        -- set (X := if 1 + E <? P then _ else _).
           assert (EX : X = mk_num FormFixed 1 E 1 sc1 (P - (1 + E)) true (1 + E + sc1 + b2z true + (P - (1 + E)))).
           { unfold X. destruct (Z.ltb_spec (1 + E) P); [reflexivity|]. f_equal; lia. }
           rewrite EX. eexists; split; [reflexivity|]. split.
           { apply Hfix1; nproj; try reflexivity; [wf_tac|]. unfold fixed_places; nproj. cbn [b2z]. lia. }
           intros s EB Es. rewrite GU, Efx, Es. cbn [negb]. 
           apply fixed_num_text; nproj; try reflexivity; try assumption.
           { unfold fixed_scaled, fixed_places; nproj. rewrite Z.mul_1_l. f_equal. lia. }
           { unfold fixed_places; nproj. lia. }
           all: rewrite ?Es; reflexivity.
        -- eexists; split; [reflexivity|]. split.
           { apply Hfix1; nproj; try reflexivity; [wf_tac|]. unfold fixed_places; nproj. cbn [b2z]. lia. }
           intros s EB Es. rewrite GU, Efx, Es. cbn [negb].
           replace (10 ^ (P - 1)) with (10 ^ E * 10 ^ (P - 1 - E)) by (rewrite <- pow10_split by lia; f_equal; lia).
           replace (P - 1 - E) with ((P - 1 - E) + 0) at 1 by lia. rewrite stripped_mulz by (try lia; pose proof (pow10_pos E); lia). cbn [Z.to_nat stripped].
           apply fixed_num_text; nproj; try reflexivity; try assumption.
           { unfold fixed_scaled, fixed_places; nproj. rewrite Z.mul_1_l. f_equal. lia. }
           { unfold fixed_places; nproj. lia. }
           all: rewrite ?Es; reflexivity.
  - (* no carry *)
    rewrite SR in Egf. cbn [snd] in Egf. 
    assert (Est : strip = true) by (unfold strip; rewrite Hpc; replace (P <? dc) with true by lia; cbn [negb andb]; apply orb_true_r).
    assert (Hst : stale = 0) by (unfold stale; rewrite Hpc; reflexivity).
    assert (GU := fun s => general_with_unfold strip s m e prec _ _ SR). cbv zeta in GU. fold P in GU. rewrite Est in GU |- *. rewrite Hst, Hpc in Hsci, Hfix |- *.
    clearbody strip. clear Est strip.
    destruct (nearest_dc m e Hd (dc - P) ltac:(fold dc; lia)) as [N1 N2]; [fold dc; replace (dc - (dc - P)) with P by lia; exact Ec|].
    fold dc in N1. replace (dc - (dc - P)) with P in N1 by lia. set (M := nearest m (10 ^ (dc - P))) in *.
    assert (Efx : (-4 <=? e + dc - 1) && (e + dc - 1 <? P) = negb isci) by (unfold isci; lia). rewrite Efx in *.
    assert (Hint : 0 <= P - int <= 22) by (destruct Hcase as [(_ & _ & -> & _)|(_ & _ & -> & _ & _ & Hrg & _)]; lia).
    destruct (stripped (Z.to_nat (P - int)) M) as [N' p'] eqn:ES.
    rewrite (strip_loop_ok 32 (Z.to_nat (P - int)) M P sub (e + (dc - P)) int N' p') by (try lia; exact ES). cbn [obind].
    destruct (stripped_spec (Z.to_nat (P - int)) M N' p' ltac:(lia) ES) as (S1 & S2 & S3). rewrite Z2Nat.id in S1, S2 by lia.
    set (k := P - int - p') in *.
    assert (HN' : 0 < N') by (destruct (Z.eq_dec N' 0) as [E0|]; [rewrite E0 in S2; lia|lia]).
    assert (Hdc' : zlen (digits 10 N') = int + p').
    { pose proof (dc_mul N' k HN' ltac:(unfold k; lia)) as E. rewrite <- S2, N1 in E. unfold k in E. lia. }
    assert (HN'' : N' < 10 ^ 19) by (pose proof (pow10_pos k ltac:(unfold k; lia)); nia).
    eexists; split; [reflexivity|]. set (n := mk_num _ _ _ _ _ _ _ _).
    assert (Hq : forall q, (if negb isci then P - 1 - (e + dc - 1) else P - 1) = q -> q = P - int).
    { intros q <-. destruct Hcase as [(-> & _ & -> & _)|(-> & _ & -> & _)]; cbn [negb]; lia. }
    assert (Hlen1 : 1 <= int + p') by (rewrite <- Hdc'; apply digits_nonneg_len; lia).
    destruct Hcase as [(Ei & -> & -> & -> & Esub)|(Ei & -> & -> & -> & He0 & Hrg & Esub)].
    + assert (W : num_wf n).
      { unfold n; constructor; nproj; try lia. all: try (intros [H|H]; [|lia]; replace (0 <? p') with true by lia; apply orb_true_r). }
      split.
      * apply Hsci; [exact W|reflexivity|reflexivity|reflexivity|]. unfold n; nproj. rewrite Esub.
        replace (e + (dc - P) + k + (1 + p') - 1) with (dc + e - 1) by (unfold k; lia). unfold k. lia.
      * intros s EB Es. rewrite GU, Ei, Es. cbn [negb]. rewrite ES. apply sci_num_text; unfold n; nproj; try reflexivity; try (unfold k; lia).
        apply point_eq.
    + assert (Ee : e + (dc - P) + k = - p') by (unfold k; lia). assert (W : num_wf n).
      { unfold n; constructor; nproj; try lia. }
      assert (Efs : fixed_scaled n = N'). { unfold fixed_scaled, fixed_places, n; nproj. rewrite Ee. replace (- p' + (Z.max 0 (- - p') + 0)) with 0 by lia. lia. }
      assert (Efp : fixed_places n = p'). { unfold fixed_places, n; nproj. lia. }
      split.
      * apply Hfix; [exact W|reflexivity| |reflexivity| |reflexivity]; unfold n; nproj; [lia|]. unfold fixed_places; nproj. rewrite Esub, Ee.
        unfold k. destruct (sp || (0 <? p')); cbn [b2z]; lia.
      * intros s EB Es. rewrite GU, Ei, Es. cbn [negb].
        replace (P - 1 - (e + dc - 1)) with (P - (dc + e)) by lia. rewrite ES. apply fixed_num_text; try assumption; try reflexivity. unfold n; nproj. apply point_eq.
Qed.
End AnyGeneral.

Lemma general_text_with s m e prec : general_text s m e prec = general_with (negb (st_showpoint s)) s m e prec.
Proof. unfold general_text, general_with. destruct (st_showpoint s); reflexivity. Qed.

(* the significant digits that are left of max 1 prec ones when the trailing decimal zeros are removed *)
Definition kept_digits (m e prec : Z) : Z :=
  let P := Z.max 1 prec in
  let '(N, E) := sci_rounded m e (P - 1) in
  let p := if general_is_fixed m e prec then P - 1 - E else P - 1 in
  P - (p - snd (stripped (Z.to_nat p) N)).
Lemma general_lower s m e prec : decimal_ok m e -> 0 <= prec -> Z.max 1 prec < zlen (digits 10 m) -> prec_carries m prec = false ->
  general_with true s m e prec = general_with false s m e (kept_digits m e prec) /\ 1 <= kept_digits m e prec <= Z.max 1 prec.
Proof.
  intros Hd Hp HP Hc. destruct (dc_facts m e Hd) as (Hm & D1 & D2 & D3 & D4 & D5 & D6 & He).
  set (dc := zlen (digits 10 m)) in *. set (P := Z.max 1 prec) in *.
  destruct (sci_rounded_drop m e Hd (P - 1) ltac:(fold dc; lia)) as [SC SR]. fold dc in SC, SR.
  replace (dc - 1 - (P - 1)) with (dc - P) in SC, SR by lia. replace (P - 1 + 1) with P in SC, SR by lia.
  unfold prec_carries in Hc. fold dc P in Hc. rewrite SC in Hc. replace (P <? dc) with true in Hc by lia. cbn [andb] in Hc. rewrite Hc in SR.
  set (M := nearest m (10 ^ (dc - P))) in *. set (E := e + dc - 1) in *.
  destruct (nearest_range m e Hd (dc - P) ltac:(fold dc; lia)) as [R1 R2]. fold dc in R1, R2. fold M in R1, R2. replace (dc - (dc - P)) with P in R1, R2 by lia.
  rewrite (general_with_unfold true s m e prec M E SR). cbv zeta.
  assert (Hgf : general_is_fixed m e prec = (-4 <=? E) && (E <? P)) by (unfold general_is_fixed, general_digits; fold P; rewrite SR; reflexivity).
  unfold kept_digits. fold P. rewrite SR, Hgf. fold P.
  set (fixed := (-4 <=? E) && (E <? P)). set (p := if fixed then P - 1 - E else P - 1).
  assert (Hpp : 0 <= p) by (unfold p, fixed; destruct ((-4 <=? E) && (E <? P)) eqn:Q; lia).
  destruct (stripped (Z.to_nat p) M) as [N' p'] eqn:ES. cbn [snd].
  pose proof (pow10_pos (P - 1) ltac:(lia)) as PP.
  destruct (stripped_spec (Z.to_nat p) M N' p' ltac:(lia) ES) as (S1 & S2 & S3). rewrite Z2Nat.id in S1, S2 by lia.
  set (k := p - p') in *. set (P' := P - k).
  assert (HN' : 0 < N') by (destruct (Z.eq_dec N' 0) as [E0|]; [rewrite E0 in S2; lia|lia]).
  pose proof (pow10_pos k ltac:(unfold k; lia)) as PK.
  assert (HM : M < 10 ^ P) by lia.
  assert (HP1 : 1 <= P').
  { destruct (Z.le_gt_cases 1 P') as [|C]; [assumption|]. exfalso. assert (10 ^ P <= 10 ^ k) by (apply Z.pow_le_mono_r; lia). nia. }
  assert (HN2 : N' < 10 ^ P').
  { assert (E1 : 10 ^ P = 10 ^ P' * 10 ^ k) by (rewrite <- pow10_split by (unfold k in *; lia); f_equal; unfold P'; lia). nia. }
  assert (Hk0 : 0 <= k) by (unfold k; lia).
  assert (HNn : nearest m (10 ^ (dc - P')) = N').
  { symmetry. destruct (Z.eq_dec k 0) as [K0|K0].
    - unfold P'. rewrite K0, Z.sub_0_r. rewrite K0 in S2. change (10 ^ 0) with 1 in S2. unfold M in S2. lia.
    - destruct (nearest_ok m (10 ^ (dc - P)) ltac:(apply pow10_pos; lia)) as [A _]. fold M in A.
      assert (E1 : 10 ^ (dc - P') = 10 ^ (dc - P) * 10 ^ k) by (rewrite <- pow10_split by lia; f_equal; unfold P'; lia).
      assert (Hlt : 2 * Z.abs (m - 10 ^ (dc - P') * N') < 10 ^ (dc - P')).
      { rewrite E1. replace (10 ^ (dc - P) * 10 ^ k * N') with (10 ^ (dc - P) * M) by (rewrite S2; lia).
        pose proof (pow10_pos (dc - P) ltac:(lia)) as PD. assert (10 ^ 1 <= 10 ^ k) by (apply Z.pow_le_mono_r; lia). change (10 ^ 1) with 10 in H. nia. }
      apply nearest_unique; [apply pow10_pos; lia|lia|lia]. }
  destruct (sci_rounded_drop m e Hd (P' - 1) ltac:(fold dc; lia)) as [_ SR']. fold dc in SR'.
  replace (dc - 1 - (P' - 1)) with (dc - P') in SR' by lia. replace (P' - 1 + 1) with P' in SR' by lia. rewrite HNn in SR'.
  replace (N' =? 10 ^ P') with false in SR' by lia. fold E in SR'.
  assert (EP' : Z.max 1 P' = P') by lia.
  split; [|lia].
  assert (SR2 : sci_rounded m e (Z.max 1 P' - 1) = (N', E)) by (rewrite EP'; exact SR').
  rewrite (general_with_unfold false s m e P' N' E SR2). cbv zeta. rewrite EP'.
  assert (Hfx : (-4 <=? E) && (E <? P') = fixed).
  { clear - S1 Hpp. unfold P', k. unfold p in *. unfold fixed in *. destruct ((-4 <=? E) && (E <? P)) eqn:Q; lia. }
  rewrite Hfx. assert (Epp : (if fixed then P' - 1 - E else P' - 1) = p') by (unfold p in k; unfold P', k; destruct fixed; lia).
  rewrite Epp. reflexivity.
Qed.

Definition with_precision (r : float_request) (p : Z) : float_request :=
  let s := fr_style r in
  mk_frequest (fr_negative r) (fr_value r) (mk_style (st_notation s) (Some p) (st_showpoint s) (st_case s) (st_point s) (st_sep s) (st_boundary s))
    (fr_sign r) (fr_pad0 r) (fr_fill r) (fr_width r) (fr_align r).

(* general notation with a precision *)
Lemma general_coded F gs rep f al x sn mm ex m e : ffacets_ok F gs rep -> align_ok al ->
  fl_bits x = BFinite sn mm ex m e -> decimal_ok m e -> canonical m -> ff_notation f = NGeneral -> 0 <= ff_precision f -> separator_fine F gs f ->
  let prec := ff_precision f in
  let dc := zlen (digits 10 m) in
  let carries := prec_carries m prec in
  let fixed := general_is_fixed m e prec in
  let uncounted := b2z (carries && fixed && shows_sign f x) in
  let stale := if carries && negb fixed && (dc + e <=? Z.max 1 prec)
               then boundaries_below (boundary (float_groups F gs f) rep) (length (digits 10 (int_part m e))) else 0 in
  let r0 := frequest_of F gs rep f al x in
  let r := widened (if ff_showpoint f && (Z.max 1 prec <? dc) && negb carries then with_precision r0 (kept_digits m e prec) else r0) uncounted in
  float_text_width r - uncounted < 2 ^ 31 ->
  exists p, punct_double F f al x = Some p /\ ops_text (pr_ops p) = float_text r /\
    pr_size p = zlen (float_text r) - uncounted + stale * (zlen (cs_encode (fk_charset F) (fk_thousands F)) - 1) /\
    pr_width p = float_text_width r - uncounted /\ Forall op_wf (pr_ops p).
Proof.
  intros HF HA Eb Hd Hcan En Hp Hsf prec dc carries fixed uncounted stale r0 r Hfit.
  destruct (group_ok F gs rep f HF) as [Hr HB].
  set (cs := fk_charset F) in *.
  set (sep := if ff_punct f then fk_thousands F else 44) in *.
  set (gp := if ff_punct f then (if cs_validate cs sep =? -1 then (grouping_empty, 1) else (fk_group F, cs_validate cs sep)) else (grouping_empty, 1)) in *.
  set (g := fst gp) in *. set (B := boundary (float_groups F gs f) rep) in *.
  destruct (prec_general_any g (float_groups F gs f) (rep' F gs rep f) (shows_sign f x) m e (ff_showpoint f) Hr Hd prec Hp Hcan) as (n & E0 & [W Ns Nc Nf Nu] & Htext).
  rewrite HB in Ns, Nc, Nf, Nu, Htext. fold dc in Nc, Nf, Htext. fold carries in Nc, Nf, Nu, Htext. fold fixed in Nc, Nf, Nu, Htext. fold stale in Nc, Nf. fold uncounted in Nu.
  set (lower := ff_showpoint f && (Z.max 1 prec <? dc) && negb carries) in *.
  set (prec' := if lower then kept_digits m e prec else prec).
  set (s := mk_style NGeneral (Some prec') (ff_showpoint f) (fk_case F) (cs_encode cs (float_point F f)) (cs_encode cs (fk_thousands F)) B).
  assert (Hbody : forall s', st_boundary s' = B -> st_showpoint s' = ff_showpoint f -> st_notation s' = NGeneral -> st_precision s' = Some prec' ->
     num_text B (st_sep s') (st_point s') (st_case s') n = decimal_body s' m e).
  { intros s' E1 E2 E3 E4. rewrite (Htext s' E1 E2). unfold decimal_body. rewrite E3, E4. rewrite general_text_with, E2. unfold prec', lower in *. destruct (ff_showpoint f); cbn [negb orb andb]; [|reflexivity].
    destruct (Z.ltb_spec (Z.max 1 prec) dc) as [HP|HP]; cbn [andb]; [|reflexivity].
    destruct carries eqn:Hc; cbn [negb]; [reflexivity|]. apply general_lower; assumption. }
  assert (Hv : (if lower then with_precision r0 (kept_digits m e prec) else r0) =
    mk_frequest (fl_negative x) (FDec m e) s (ff_sign f) (ff_pad0 f) (cs_encode cs (al_fill al)) (w_round (al_width al)) (al_align al)).
  { unfold r0, frequest_of, with_precision, style_of, s, prec', prec_of. rewrite Eb, En. fold prec B. replace (0 <=? prec) with true by lia. destruct lower; reflexivity. }
  unfold r in Hfit |- *. rewrite Hv in Hfit |- *.
  assert (Hform : n_form n = FormFixed \/ n_form n = FormSci) by (destruct W as [_ _ _ _ Wf]; destruct (n_form n); try contradiction; auto).
  assert (Hsize : boundaries_below B (int_len n) <> 0 -> ff_punct f = true /\ snd gp = zlen (cs_encode cs (fk_thousands F)) /\ float_groups F gs f <> []).
  { intros C. destruct (sep_size_ok F gs rep f HF _ C) as (A1 & A2 & A3). auto. }
  assert (Hsep : num_text (if n_seps n =? 0 then no_boundary else B) (sep_used cs (fk_bits F) n (snd gp) sep) (cs_encode cs (float_point F f)) (fk_case F) n = decimal_body s m e).
  { rewrite <- (Hbody s eq_refl eq_refl eq_refl eq_refl). unfold num_text. destruct Hform as [Ef|Ef]; rewrite Ef; [|reflexivity]. unfold fixed_text. f_equal.
    rewrite (Ns Ef). destruct (Z.eqb_spec (boundaries_below B (int_len n)) 0) as [C|C].
    - rewrite grouped_none by reflexivity. symmetry. apply grouped_none_below. unfold decimal. rewrite map_length. exact C.
    - f_equal. change (st_sep s) with (cs_encode cs (fk_thousands F)). unfold sep_used. destruct (Hsize C) as (A1 & A2 & A3). unfold sep. rewrite A1, A2.
      destruct (Z.eqb_spec (zlen (cs_encode cs (fk_thousands F))) 1) as [C1|]; [|rewrite andb_false_r; reflexivity].
      pose proof (Hsf A3 C1) as Q. fold cs in Q. rewrite Q. destruct (0 <=? n_e n); reflexivity. }
  assert (Hl1 : zlen (num_text B [44] [46] LLower n) = zlen (decimal_body (one_column s) m e)).
  { rewrite <- (Hbody (one_column s) eq_refl eq_refl eq_refl eq_refl). rewrite !num_text_len by exact W. reflexivity. }
  assert (Hunc : 0 <= uncounted <= b2z (shows_sign f x)).
  { unfold uncounted. destruct (carries && fixed), (shows_sign f x); cbn; lia. }
  assert (Hl2 : 1 <= zlen (num_text B [44] [46] LLower n)).
  { rewrite num_text_len by exact W. pose proof (below_nonneg B (int_len n)). destruct W as [Wm Wdc Wx _ _]. destruct (dc_range (n_m n) Wm) as (D1 & _).
    rewrite <- Wdc in D1. assert (Hfar : forall k, 0 <= far k) by (clear; intros k; unfold far; destruct ((99 <? k) || (k <? -99)); cbn; lia).
    specialize (Hfar (n_e n + n_digcount n - 1)). change (zlen [44]) with 1. change (zlen [46]) with 1.
    destruct Hform as [-> | ->]; destruct (n_point n); clear - H D1 Wx Hfar; lia. }
  destruct (print_request F gs rep f al x HF HA n s m e uncounted) as (p & EP & TP & ZP & WP & HWf); try assumption; try reflexivity.
  - rewrite En. reflexivity.
  - unfold init_num. rewrite Eb, En. fold prec. replace (prec =? -1) with false by lia. exact E0.
  - intros Ef _. exact (Ns Ef).
  - intros Ef C. pose proof (Ns Ef) as Q. fold B. rewrite <- Q. exact C.
  - rewrite Nu, Hl1. reflexivity.
  - lia.
  - exists p. split; [exact EP|]. split; [exact TP|]. split; [|split; assumption].
    rewrite ZP, <- Hl1, <- (Hbody s eq_refl eq_refl eq_refl eq_refl). rewrite !num_text_len by exact W. fold cs sep gp.
    change (st_sep s) with (cs_encode cs (fk_thousands F)). change (st_point s) with (cs_encode cs (float_point F f)).
    change (zlen [46]) with 1. change (zlen [44]) with 1.
    destruct Hform as [Ef|Ef]; rewrite Ef.
    + rewrite (Nf Ef). rewrite (Ns Ef). destruct (Z.eqb_spec (boundaries_below B (int_len n)) 0) as [C|C].
      * rewrite C. destruct (n_point n); lia.
      * destruct (Hsize C) as (_ & -> & _). destruct (n_point n); lia.
    + rewrite (Nc Ef). destruct (Z.eqb_spec stale 0) as [C|C].
      * rewrite C. destruct (n_point n); lia.
      * assert (Hst : boundaries_below B (length (digits 10 (int_part m e))) <> 0) by (unfold stale in C; destruct (_ && _ && _) in C; [exact C|lia]).
        destruct (sep_size_ok F gs rep f HF _ Hst) as (_ & _ & A3). fold cs sep gp in A3. rewrite A3. destruct (n_point n); lia.
Qed.
