(* punct_double_printer against FloatSpec. *)
From Verif Require Import Base WidthModel WidthProofs GroupSpec DigitsSpec IntSpec DestModel DestProofs GroupModel GroupProofs GroupDist
  DigitsModel DigitsProofs DigitsCount IntModel IntProofs CharsetModel FloatSpec FloatModel FloatArith FloatText FloatNum FloatInit FloatInit2 FloatHex.

Lemma zeros_neg n : n <= 0 -> zeros n = [].
Proof. intros. unfold zeros. replace (Z.to_nat n) with O by lia. reflexivity. Qed.

(* ---- fill ---- *)
Definition sign_units (enc : list Z) (showsign : bool) (sign : Z) : list Z :=
  if showsign then (if sign =? 32 then enc else [sign]) else [].

Record fill_good (enc : list Z) (showsign : bool) (sign pad0 width content : Z) (al : text_align) (fd : fill_data) : Prop := mk_fill_good {
  fg_text : forall body, fill_text enc (fd_left fd) ++ ((if fd_showsign fd then [sign] else []) ++ body) ++ fill_text enc (fd_right fd) =
     padded al enc (Z.max 0 (width - content)) (sign_units enc showsign sign ++ body);
  fg_total : fd_count fd + fd_content fd = content + Z.max 0 (width - content);
  fg_count : 0 <= fd_count fd;
  fg_dec : fd_dec fd = b2z showsign - b2z (fd_showsign fd);
  fg_zeros : forall sub, b2z showsign <= sub -> zeros (fd_pad0 fd - (sub - fd_dec fd)) = zeros (pad0 - sub);
  fg_size : fd_content fd + fd_count fd * zlen enc =
     content - b2z showsign + zlen (sign_units enc showsign sign) + Z.max 0 (width - content) * zlen enc }.

Lemma init_fill_ok cs showsign sign c pad0 width content al : charset_ok cs -> 0 <= c < 2 ^ 32 ->
  showsign = negb (sign =? 0) ->
  fill_good (cs_encode cs c) showsign sign pad0 width content al (init_fill showsign sign c pad0 width content al).
Proof.
  intros K Hc Hs. set (enc := cs_encode cs c). unfold init_fill.
  assert (Hsl : zlen (sign_units enc showsign sign) = if showsign then (if sign =? 32 then zlen enc else 1) else 0).
  { unfold sign_units. destruct showsign; [|reflexivity]. destruct (sign =? 32); reflexivity. }
  destruct (Z.leb_spec width content) as [Hle|Hgt].
  - assert (Em : Z.max 0 (width - content) = 0) by lia.
    destruct (Z.eqb_spec sign 32) as [E32|E32]; cbn [andb].
    + rewrite E32 in *. change (negb (32 =? 0)) with true in Hs. subst showsign. destruct (Z.eqb_spec c 32) as [Ec|Ec]; cbn [negb andb].
      * assert (Ee : enc = [32]) by (unfold enc; rewrite Ec; apply (ok_ascii cs K); lia).
        constructor; cbn [fd_left fd_right fd_showsign fd_pad0 fd_dec fd_content fd_count]; cbn [b2z]; rewrite ?Em.
        -- intros body. rewrite padded_zero, !fill_text_zero, app_nil_r. unfold sign_units. cbn [Z.eqb Pos.eqb]. rewrite Ee. reflexivity.
        -- lia.
        -- lia.
        -- lia.
        -- intros sub Hsub. f_equal. lia.
        -- rewrite Hsl, Ee. reflexivity || (cbn; lia).
      * constructor; cbn [fd_left fd_right fd_showsign fd_pad0 fd_dec fd_content fd_count]; cbn [b2z]; rewrite ?Em.
        -- intros body. rewrite padded_zero, fill_text_zero, app_nil_r. change 1 with (0 + 1) at 1. rewrite fill_text_succ by lia. reflexivity.
        -- lia.
        -- lia.
        -- lia.
        -- intros sub Hsub. destruct (Z.ltb_spec 0 pad0); [f_equal; lia|]. rewrite !zeros_neg by lia. reflexivity.
        -- rewrite Hsl. cbn [Z.eqb Pos.eqb]. lia.
    + constructor; cbn [fd_left fd_right fd_showsign fd_pad0 fd_dec fd_content fd_count]; rewrite ?Em.
      * intros body. rewrite padded_zero, !fill_text_zero, app_nil_r. unfold sign_units. replace (sign =? 32) with false by lia. reflexivity.
      * lia.
      * lia.
      * lia.
      * intros sub Hsub. f_equal. lia.
      * rewrite Hsl. replace (sign =? 32) with false by lia. destruct showsign; cbn [b2z]; lia.
  - set (fc := width - content).
    set (lr := match al with ALeft => (0, fc) | ARight => (fc, 0) | ACenter => let half := Z.shiftr fc 1 in (half, half + Z.land fc 1) end).
    assert (Elr : lr = (left_fill al fc, right_fill al fc)).
    { unfold lr, right_fill, left_fill. destruct al; [apply f_equal2; lia|apply f_equal2; lia|]. cbv zeta.
      rewrite shr_div by lia. change (Z.land fc 1) with (Z.land fc (Z.ones 1)). rewrite land_mod by lia.
      change (2 ^ 1) with 2. apply f_equal2; lia. }
    rewrite Elr. assert (Em : Z.max 0 (width - content) = fc) by (unfold fc; lia).
    assert (Hl : 0 <= left_fill al fc <= fc) by (unfold fc; destruct al; cbn [left_fill]; lia).
    destruct (Z.eqb_spec sign 32) as [E32|E32].
    + rewrite E32 in *. change (negb (32 =? 0)) with true in Hs. subst showsign.
      constructor; cbn [fd_left fd_right fd_showsign fd_pad0 fd_dec fd_content fd_count]; cbn [b2z]; rewrite ?Em.
      * intros body. rewrite fill_text_succ by lia. unfold padded, sign_units. cbn [Z.eqb Pos.eqb app]. rewrite <- !app_assoc. reflexivity.
      * lia.
      * lia.
      * lia.
      * intros sub Hsub. destruct (Z.ltb_spec 0 pad0); [f_equal; lia|]. rewrite !zeros_neg by lia. reflexivity.
      * rewrite Hsl. cbn [Z.eqb Pos.eqb]. lia.
    + constructor; cbn [fd_left fd_right fd_showsign fd_pad0 fd_dec fd_content fd_count]; rewrite ?Em.
      * intros body. unfold padded, sign_units. replace (sign =? 32) with false by lia. rewrite <- !app_assoc. reflexivity.
      * lia.
      * lia.
      * lia.
      * intros sub Hsub. f_equal. lia.
      * rewrite Hsl. replace (sign =? 32) with false by lia. destruct showsign; cbn [b2z]; lia.
Qed.

(* ---- the request ---- *)
Definition lead_of (subnormal : bool) : Z := if subnormal then 0 else 1.
Definition value_of (hex : bool) (b : bits) : float_value :=
  match b with
  | BNan => FNan
  | BInf => FInf
  | BFinite subnormal mantissa exponent m10 e10 =>
      if hex then FBin (lead_of subnormal) mantissa (if subnormal && (mantissa =? 0) then 0 else exponent) else FDec m10 e10
  end.
Definition float_point (F : float_facets) (f : float_fmt) : Z :=
  if ff_punct f then (if is_hex (ff_notation f) then fk_point16 F else fk_point10 F) else 46.
Definition float_groups (F : float_facets) (gs : list Z) (f : float_fmt) : list Z :=
  if ff_punct f && negb (cs_validate (fk_charset F) (fk_thousands F) =? -1) then gs else [].
Definition style_of (F : float_facets) (gs : list Z) (rep : bool) (f : float_fmt) : float_style :=
  mk_style (ff_notation f) (prec_of (ff_precision f)) (ff_showpoint f) (fk_case F)
    (cs_encode (fk_charset F) (float_point F f)) (cs_encode (fk_charset F) (fk_thousands F)) (boundary (float_groups F gs f) rep).
Definition frequest_of (F : float_facets) (gs : list Z) (rep : bool) (f : float_fmt) (al : align_fmt) (x : decoded_float) : float_request :=
  mk_frequest (fl_negative x) (value_of (is_hex (ff_notation f)) (fl_bits x)) (style_of F gs rep f) (ff_sign f) (ff_pad0 f)
    (cs_encode (fk_charset F) (al_fill al)) (w_round (al_width al)) (al_align al).
Record ffacets_ok (F : float_facets) (gs : list Z) (rep : bool) : Prop := mk_ffacets_ok {
  fo_charset : charset_ok (fk_charset F);
  fo_group : represents (fk_group F) gs rep;
  fo_sep : 0 <= fk_thousands F < 2 ^ 32;
  fo_point10 : 0 <= fk_point10 F < 2 ^ 32;
  fo_point16 : 0 <= fk_point16 F < 2 ^ 32 }.
Definition fprints (p : printed) (r : float_request) : Prop :=
  ops_text (pr_ops p) = float_text r /\ pr_size p = zlen (float_text r) /\ pr_width p = float_text_width r /\ Forall op_wf (pr_ops p).

(* a thousands separator that the charset encodes in one unit is that unit *)
Definition separator_fine (F : float_facets) (gs : list Z) (f : float_fmt) : Prop :=
  float_groups F gs f <> [] -> zlen (cs_encode (fk_charset F) (fk_thousands F)) = 1 -> cs_encode (fk_charset F) (fk_thousands F) = [to_u (fk_bits F) (fk_thousands F)].
Definition wide_separator (F : float_facets) (f : float_fmt) : Prop :=
  ff_punct f = true /\ zlen (cs_encode (fk_charset F) (fk_thousands F)) <> 1.
Definition shows_sign (f : float_fmt) (x : decoded_float) : bool := fl_negative x || negb (sign_char (ff_sign f) =? 0).

Section Print.
Variables (F : float_facets) (gs : list Z) (rep : bool) (f : float_fmt) (al : align_fmt) (x : decoded_float).
Hypothesis HF : ffacets_ok F gs rep.
Hypothesis HA : align_ok al.
Let cs := fk_charset F.
Let r := frequest_of F gs rep f al x.
Let st := style_of F gs rep f.
Let hex := is_hex (ff_notation f).
Let point := float_point F f.
Let sep := if ff_punct f then fk_thousands F else 44.
Let enc := cs_encode cs (al_fill al).
Let gp := if ff_punct f then (if cs_validate cs sep =? -1 then (grouping_empty, 1) else (fk_group F, cs_validate cs sep)) else (grouping_empty, 1).
Let g := fst gp.
Let sep_size := snd gp.
Let sign := if fl_negative x then 45 else sign_char (ff_sign f).
Let show := shows_sign f x.
Let B := boundary (float_groups F gs f) rep.
Definition rep' : bool := match float_groups F gs f with [] => false | _ => rep end.
Lemma group_ok : represents g (float_groups F gs f) rep' /\ boundary (float_groups F gs f) rep' = B.
Proof using HF.
  clear r sign show hex point enc st.
  destruct HF as [K G _ _ _]. unfold g, gp, B, rep', float_groups, sep. destruct (ff_punct f); cbn [andb].
  - destruct (Z.eqb_spec (cs_validate cs (fk_thousands F)) (-1)) as [E|E]; fold cs; cbn [fst].
    + rewrite E. cbn [Z.eqb Pos.eqb negb]. split; [|reflexivity]. split; [split; [constructor|cbn; lia]|]. split; reflexivity.
    + replace (cs_validate cs (fk_thousands F) =? -1) with false by lia. cbn [negb fst].
      destruct gs as [|g1 gs1]; [|split; [exact G|reflexivity]]. destruct G as (G1 & G2 & G3). rewrite (G2 eq_refl) in *. split; [|reflexivity].
      split; [exact G1|split; [reflexivity|exact G3]].
  - split; [|reflexivity]. split; [split; [constructor|cbn; lia]|]. split; reflexivity.
Qed.
Lemma sep_size_ok n : boundaries_below B n <> 0 -> ff_punct f = true /\ float_groups F gs f <> [] /\ sep_size = zlen (cs_encode cs (fk_thousands F)).
Proof using HF.
  clear r sign show hex point enc st.
  destruct HF as [K _ Hs _ _]. intros H. assert (Hne : float_groups F gs f <> []) by (intros C; apply H; unfold B; rewrite C; apply below_none; reflexivity).
  unfold float_groups in Hne. fold cs in Hne. destruct (ff_punct f) eqn:Ep; cbn [andb] in Hne; [|congruence]. split; [reflexivity|]. split.
  - unfold float_groups. rewrite ?Ep. exact Hne.
  - unfold sep_size, gp, sep. cbn beta iota. destruct (Z.eqb_spec (cs_validate cs (fk_thousands F)) (-1)) as [E|E]; cbn [negb] in Hne; [congruence|]. cbn [snd].
    destruct (ok_validate cs K _ Hs) as [|Ev]; [contradiction|exact Ev].
Qed.
Lemma sign_ok : show = negb (sign =? 0) /\ float_sign r = sign_units enc show sign /\ float_sign_width r = b2z show.
Proof using.
  unfold show, shows_sign, sign, float_sign, float_sign_width, sign_units, r, frequest_of. cbn [fr_negative fr_sign fr_fill].
  destruct (fl_negative x); cbn [orb]; [split; [reflexivity|split; reflexivity]|].
  destruct (ff_sign f); cbn [sign_char]; (split; [reflexivity|split; reflexivity]).
Qed.

(* when the number is printed as in the specification *)
Lemma finish_any v n T1 T :
  let rq := mk_frequest (fl_negative x) v st (ff_sign f) (ff_pad0 f) enc (w_round (al_width al)) (al_align al) in
  float_text_width rq < 2 ^ 31 ->
  init_num (fk_clz F) g f x = Some n ->
  finite (fr_value rq) = true ->
  float_body (one_column st) (fr_value rq) = T1 -> float_body st (fr_value rq) = T ->
  (n_form n <> FormNan /\ n_form n <> FormInf) ->
  (if hex then n_sub n + n_extra n else n_sub n) = b2z show + zlen (float_prefix rq) + zlen T1 -> 0 <= n_extra n ->
  zlen T = zlen T1 + (if negb hex && negb (n_seps n =? 0) then n_seps n * (sep_size - 1) else 0) +
           (if n_point n then (if n_point n then cs_size cs point else 0) - 1 else 0) ->
  (forall fd, fd_dec fd = b2z show - b2z (fd_showsign fd) ->
    let sub := n_sub n - fd_dec fd in
    let point_size := if n_point n then cs_size cs point else 0 in
    wrote (match n_form n with
          | FormFixed => print_fixed cs (fk_bits F) n fd sign sub g sep sep_size point point_size
          | FormSci => print_scientific cs (fk_case F) n fd sign sub point point_size
          | FormHex => print_hex cs (fk_case F) (match fl_bits x with BFinite s _ _ _ _ => s | _ => false end) n fd sign sub point point_size
          | _ => Some (print_inf_or_nan (fk_case F) n fd sign)
          end)
      ((if fd_showsign fd then [sign] else []) ++ float_prefix rq ++ zeros (fd_pad0 fd - (if hex then sub + n_extra n else sub)) ++ T)) ->
  exists p, punct_double F f al x = Some p /\ fprints p rq.
Proof using HF HA.
  intros rq Hfit En Hfin E1 E2 [Hf1 Hf2] Hsub Hx HT Hw. destruct HF as [K _ Hs _ _]. destruct HA as [Hc Hwid].
  destruct sign_ok as (S1 & S2' & S3').
  assert (S2 : float_sign rq = sign_units enc show sign) by exact S2'. assert (S3 : float_sign_width rq = b2z show) by exact S3'. clear S2' S3'.
  assert (Hcw : float_content_width rq = Z.max (if hex then n_sub n + n_extra n else n_sub n) (ff_pad0 f)).
  { unfold float_content_width, float_zeros, float_bare_width. rewrite Hfin. change (fr_style rq) with st. change (fr_pad0 rq) with (ff_pad0 f).
    rewrite E1, S3, <- Hsub. lia. }
  set (content := Z.max (if hex then n_sub n + n_extra n else n_sub n) (ff_pad0 f)) in *.
  assert (Hb : 0 <= b2z show <= 1) by (destruct show; cbn; lia).
  assert (Hc0 : 0 <= content) by (pose proof (zlen_nonneg (float_prefix rq)); pose proof (zlen_nonneg T1); unfold content; lia).
  set (width := w_round (al_width al)).
  assert (Hmiss : float_missing rq = Z.max 0 (width - content)).
  { unfold float_missing, float_width. rewrite Hfin, Hcw. reflexivity. }
  unfold punct_double. fold cs hex sep. fold gp. rewrite (surjective_pairing gp). fold g sep_size. change (if ff_punct f then if hex then fk_point16 F else fk_point10 F else 46) with point.
  rewrite En. cbn [obind]. fold sign. fold (shows_sign f x). fold show. fold width.
  assert (Esp : match n_form n with FormNan | FormInf => true | _ => false end = false) by (destruct (n_form n); congruence).
  rewrite Esp. cbn [andb]. fold content.
  assert (Htw : float_text_width rq = content + Z.max 0 (width - content)) by (unfold float_text_width; rewrite Hcw, Hmiss; reflexivity).
  rewrite chk_ok by lia. cbn [obind].
  pose proof (init_fill_ok cs show sign (al_fill al) (ff_pad0 f) width content (al_align al) K Hc S1) as [G1 G2 G3 G4 G5 G6]. fold enc in G1, G6.
  set (fd := init_fill show sign (al_fill al) (ff_pad0 f) width content (al_align al)) in *.
  rewrite G2, chk_ok by lia. cbn [obind].
  specialize (Hw fd G4). cbv zeta in Hw. destruct Hw as (os & EO & WO & TO). rewrite EO. cbn [obind].
  eexists; split; [reflexivity|].
  assert (Ez : zeros (fd_pad0 fd - (if hex then n_sub n - fd_dec fd + n_extra n else n_sub n - fd_dec fd)) = zeros (float_zeros rq)).
  { replace (if hex then n_sub n - fd_dec fd + n_extra n else n_sub n - fd_dec fd) with ((if hex then n_sub n + n_extra n else n_sub n) - fd_dec fd) by (destruct hex; lia).
    rewrite G5 by (pose proof (zlen_nonneg (float_prefix rq)); pose proof (zlen_nonneg T1); lia).
    unfold float_zeros, float_bare_width. rewrite Hfin. change (fr_style rq) with st. rewrite E1, S3, <- Hsub. change (fr_pad0 rq) with (ff_pad0 f).
    unfold zeros. f_equal. lia. }
  rewrite Ez in TO.
  assert (ET : float_text rq = padded (al_align al) enc (Z.max 0 (width - content)) (sign_units enc show sign ++ float_prefix rq ++ zeros (float_zeros rq) ++ T)).
  { unfold float_text. rewrite Hmiss. unfold float_content. rewrite S2. change (fr_style rq) with st. rewrite E2. reflexivity. }
  destruct (fill_ops cs (fd_left fd) (al_fill al) K Hc) as [LW LT]. cbv zeta in LW, LT. destruct (fill_ops cs (fd_right fd) (al_fill al) K Hc) as [RW RT]. cbv zeta in RW, RT.
  split; [|split; [|split]]; cbn [pr_ops pr_size pr_width].
  - rewrite !ops_text_app, LT, RT, TO. fold enc. rewrite G1, ET. reflexivity.
  - rewrite ET, padded_len by lia. rewrite !zlen_app, HT.
    assert (Efc : (if 0 <? fd_count fd then cs_size cs (al_fill al) * fd_count fd else 0) = fd_count fd * zlen enc).
    { rewrite (ok_size cs K) by exact Hc. fold enc. destruct (Z.ltb_spec 0 (fd_count fd)); [lia|]. replace (fd_count fd) with 0 by lia. lia. }
    rewrite Efc. assert (Hzl : zlen (zeros (float_zeros rq)) = Z.of_nat (Z.to_nat (float_zeros rq))) by (unfold zeros, zlen; rewrite repeat_length; reflexivity). rewrite Hzl.
    assert (Hz : Z.of_nat (Z.to_nat (float_zeros rq)) = content - (b2z show + zlen (float_prefix rq) + zlen T1)).
    { unfold float_zeros, float_bare_width. rewrite Hfin. change (fr_style rq) with st. rewrite E1, S3, <- Hsub. change (fr_pad0 rq) with (ff_pad0 f). unfold content. lia. }
    rewrite Hz. lia.
  - rewrite Htw. reflexivity.
  - apply Forall_app; split; [exact LW|]. apply Forall_app; split; assumption.
Qed.

Hypothesis Hfit : float_text_width r < 2 ^ 31.

Lemma finish_ok n T1 T :
  init_num (fk_clz F) g f x = Some n ->
  finite (fr_value r) = true ->
  float_body (one_column st) (fr_value r) = T1 -> float_body st (fr_value r) = T ->
  (n_form n <> FormNan /\ n_form n <> FormInf) ->
  (if hex then n_sub n + n_extra n else n_sub n) = b2z show + zlen (float_prefix r) + zlen T1 -> 0 <= n_extra n ->
  zlen T = zlen T1 + (if negb hex && negb (n_seps n =? 0) then n_seps n * (sep_size - 1) else 0) +
           (if n_point n then (if n_point n then cs_size cs point else 0) - 1 else 0) ->
  (forall fd, fd_dec fd = b2z show - b2z (fd_showsign fd) ->
    let sub := n_sub n - fd_dec fd in
    let point_size := if n_point n then cs_size cs point else 0 in
    wrote (match n_form n with
          | FormFixed => print_fixed cs (fk_bits F) n fd sign sub g sep sep_size point point_size
          | FormSci => print_scientific cs (fk_case F) n fd sign sub point point_size
          | FormHex => print_hex cs (fk_case F) (match fl_bits x with BFinite s _ _ _ _ => s | _ => false end) n fd sign sub point point_size
          | _ => Some (print_inf_or_nan (fk_case F) n fd sign)
          end)
      ((if fd_showsign fd then [sign] else []) ++ float_prefix r ++ zeros (fd_pad0 fd - (if hex then sub + n_extra n else sub)) ++ T)) ->
  exists p, punct_double F f al x = Some p /\ fprints p r.
Proof using HF HA Hfit. exact (finish_any (value_of hex (fl_bits x)) n T1 T Hfit). Qed.

Lemma decimal_print n m e :
  hex = false -> fr_value r = FDec m e -> init_num (fk_clz F) g f x = Some n -> num_good B (sep_size = 1) show n ->
  (forall s, st_boundary s = B -> st_showpoint s = ff_showpoint f -> st_notation s = ff_notation f -> st_precision s = prec_of (ff_precision f) ->
     num_text B (st_sep s) (st_point s) (st_case s) n = decimal_body s m e) ->
  separator_fine F gs f \/ n_form n = FormSci ->
  exists p, punct_double F f al x = Some p /\ fprints p r.
Proof using HF HA Hfit.
  intros Eh Ev En [W Gs Gc Gu] Htext Hsf. pose proof HF as [K _ Hs Hp10 Hp16].
  destruct group_ok as [Hr HB].
  assert (Hpt : 0 <= point < 2 ^ 32) by (unfold point, float_point; destruct (ff_punct f), (is_hex (ff_notation f)); lia).
  assert (HT1 : float_body (one_column st) (fr_value r) = num_text B [44] [46] (fk_case F) n).
  { rewrite Ev. cbn [float_body]. symmetry. apply (Htext (one_column st)); reflexivity. }
  assert (HT : float_body st (fr_value r) = num_text B (cs_encode cs (fk_thousands F)) (cs_encode cs point) (fk_case F) n).
  { rewrite Ev. cbn [float_body]. symmetry. apply (Htext st); reflexivity. }
  assert (HL1 : zlen (num_text B [44] [46] LLower n) = zlen (num_text B [44] [46] (fk_case F) n)) by (rewrite !num_text_len by exact W; reflexivity).
  assert (Hform : n_form n = FormFixed \/ n_form n = FormSci) by (destruct W as [_ _ _ _ Wf]; destruct (n_form n); try contradiction; auto).
  eapply (finish_ok n _ _ En); [rewrite Ev; reflexivity|exact HT1|exact HT|destruct Hform as [-> | ->]; split; discriminate| |destruct W; assumption| |].
  - rewrite Eh. unfold float_prefix. rewrite Ev. change (zlen []) with 0. rewrite Gu, HL1. lia.
  - rewrite Eh. cbn [negb andb]. rewrite !num_text_len by exact W. rewrite (ok_size cs K) by exact Hpt. change (zlen [46]) with 1. change (zlen [44]) with 1.
    destruct Hform as [Ef|Ef]; rewrite Ef.
    + rewrite <- (Gs Ef). destruct (Z.eqb_spec (n_seps n) 0) as [E|E]; cbn [negb].
      * rewrite E. destruct (n_point n); lia.
      * rewrite (Gs Ef) in E. destruct (sep_size_ok _ E) as (_ & _ & ->). destruct (n_point n); lia.
    + destruct (Gc Ef) as [E|E]; rewrite E.
      * cbn [Z.eqb negb]. destruct (n_point n); lia.
      * destruct (negb (n_seps n =? 0)), (n_point n); lia.
  - intros fd Hd. cbv zeta. rewrite Eh. rewrite (ok_size cs K) by exact Hpt. unfold float_prefix. rewrite Ev. cbn [app].
    assert (Hlc : forall lc, n_form n = FormFixed -> num_text B (cs_encode cs (fk_thousands F)) (cs_encode cs point) lc n =
        num_text (boundary (float_groups F gs f) rep') (cs_encode cs sep) (cs_encode cs point) LLower n).
    { intros lc Ef. unfold num_text. rewrite Ef. unfold fixed_text. f_equal.
      rewrite HB.
      unfold sep. destruct (ff_punct f) eqn:Ep; [reflexivity|].
      unfold B, float_groups. rewrite Ep. cbn [andb]. rewrite !grouped_none by reflexivity. reflexivity. }
    destruct Hform as [Ef|Ef]; rewrite Ef.
    + rewrite (Hlc _ Ef). change ((if fd_showsign fd then [sign] else []) ++ zeros (fd_pad0 fd - (n_sub n - fd_dec fd)) ++ num_text (boundary (float_groups F gs f) rep') (cs_encode cs sep) (cs_encode cs point) LLower n)
        with ((if fd_showsign fd then [sign] else []) ++ (zeros (fd_pad0 fd - (n_sub n - fd_dec fd)) ++ num_text (boundary (float_groups F gs f) rep') (cs_encode cs sep) (cs_encode cs point) LLower n)).
      rewrite app_assoc. fold (fixed_head fd sign (n_sub n - fd_dec fd)).
      assert (HS : n_seps n = boundaries_below (boundary (float_groups F gs f) rep') (int_len n)).
      { rewrite HB. exact (Gs Ef). }
      apply print_fixed_ok; try assumption.
      * unfold sep. destruct (ff_punct f); lia.
      * intros E; rewrite E; reflexivity.
      * intros E. rewrite (Gs Ef) in E. destruct (sep_size_ok _ E) as (Ep & Evd & ->). unfold sep. rewrite Ep. split; [reflexivity|].
        intros _ E1. destruct Hsf as [Hsf|]; [|congruence]. apply Hsf; assumption.
    + unfold print_scientific.
      destruct (print_sci_ok (fk_case F) n (cs_encode cs point) (if n_point n then zlen (cs_encode cs point) else 0) W Ef) as (os & EO & WO & TO).
      { apply (ok_small cs K). exact Hpt. }
      { intros E; rewrite E; reflexivity. }
      rewrite point_units_ok by assumption. rewrite EO. cbn [obind]. destruct (p_sign_ok (fd_showsign fd) sign) as [PW PT].
      apply wrote_some.
      * apply Forall_app; split; [exact PW|]. apply Forall_app; split; [constructor; [exact I|constructor]|exact WO].
      * rewrite !ops_text_app, PT, TO. f_equal. f_equal; [unfold ops_text; cbn; apply app_nil_r|]. unfold num_text. rewrite Ef. reflexivity.
Qed.

Lemma hex_print subnormal mantissa exponent m10 e10 :
  hex = true -> fl_bits x = BFinite subnormal mantissa exponent m10 e10 ->
  0 <= mantissa < 2 ^ 52 -> -10000 < exponent < 10000 -> hex_fine (lead_of subnormal) mantissa (prec_of (ff_precision f)) ->
  exists p, punct_double F f al x = Some p /\ fprints p r.
Proof using HF HA Hfit.
  intros Eh Eb Hm He Hfine. pose proof HF as [K _ Hs Hp10 Hp16].
  assert (En : ff_notation f = NHex) by (unfold hex in Eh; destruct (ff_notation f); (reflexivity || discriminate)).
  assert (Hpt : 0 <= point < 2 ^ 32) by (unfold point, float_point; destruct (ff_punct f), (is_hex (ff_notation f)); lia).
  pose proof (init_hex_ok (fk_clz F) show subnormal mantissa exponent (ff_precision f) (ff_showpoint f) Hm He Hfine) as HH. cbv zeta in HH.
  set (n := init_hex (fk_clz F) show subnormal mantissa exponent (ff_precision f) (ff_showpoint f)) in *. destruct HH as [[W Hf Hsub] Htext].
  assert (Ein : init_num (fk_clz F) g f x = Some n) by (unfold init_num; rewrite Eb, En, mantissa_masked by exact Hm; reflexivity).
  set (E := if subnormal && (mantissa =? 0) then 0 else exponent) in *.
  assert (Ev : fr_value r = FBin (lead_of subnormal) mantissa E).
  { unfold r, frequest_of. cbn [fr_value]. fold hex. rewrite Eh, Eb. reflexivity. }
  assert (HT1 : float_body (one_column st) (fr_value r) = hex_num_text [46] (fk_case F) (lead_of subnormal) n).
  { rewrite Ev. cbn [float_body]. symmetry. apply (Htext (one_column st)); reflexivity. }
  assert (HT : float_body st (fr_value r) = hex_num_text (cs_encode cs point) (fk_case F) (lead_of subnormal) n).
  { rewrite Ev. cbn [float_body]. symmetry. apply (Htext st); reflexivity. }
  assert (Hpre : float_prefix r = [48; if low_prefix (fk_case F) then 120 else 88]) by (unfold float_prefix; rewrite Ev; reflexivity).
  eapply (finish_ok n _ _ Ein); [rewrite Ev; reflexivity|exact HT1|exact HT|rewrite Hf; split; discriminate| |destruct W; assumption| |].
  - rewrite Eh, Hpre, hex_num_len by exact W. change (zlen [46]) with 1. rewrite Hsub. unfold zlen. cbn [length]. destruct (n_point n); cbn [b2z]; lia.
  - rewrite Eh. cbn [negb andb]. rewrite !hex_num_len by exact W. change (zlen [46]) with 1. rewrite (ok_size cs K) by exact Hpt. destruct (n_point n); lia.
  - intros fd Hd. cbv zeta. rewrite Eh, Hf, Hpre, Eb. apply print_hex_ok; try assumption.
    + destruct (n_point n); [apply (ok_size cs K); exact Hpt|reflexivity].
    + rewrite Hsub, Hd. lia.
Qed.

Lemma special_print : finite (fr_value r) = false -> exists p, punct_double F f al x = Some p /\ fprints p r.
Proof using HF HA Hfit.
  intros Hfin. pose proof HF as [K _ Hs Hp10 Hp16]. destruct HA as [Hc Hwid]. destruct sign_ok as (S1 & S2 & S3).
  assert (Hb : 0 <= b2z show <= 1) by (destruct show; cbn; lia).
  assert (HX : exists n, init_num (fk_clz F) g f x = Some n /\ (n_form n = FormNan \/ n_form n = FormInf) /\ n_point n = false /\ n_seps n = 0 /\
    op_wf (match n_form n with FormNan => print_nan (fk_case F) | _ => print_inf (fk_case F) end) /\
    op_text (match n_form n with FormNan => print_nan (fk_case F) | _ => print_inf (fk_case F) end) = float_body st (fr_value r) /\
    zlen (float_body st (fr_value r)) = 3 /\ zlen (float_body (one_column st) (fr_value r)) = 3 /\ float_prefix r = []).
  { unfold r, frequest_of in Hfin |- *. unfold float_prefix. cbn [fr_value] in *. fold hex in Hfin |- *. unfold init_num.
    destruct (fl_bits x) as [| |sn mm ex m10 e10]; cbn [value_of] in *.
    - eexists; split; [reflexivity|]. cbn [n_form n_point n_seps float_body]. change (st_case st) with (fk_case F). change (st_case (one_column st)) with (fk_case F).
      split; [left; reflexivity|]. split; [reflexivity|]. split; [reflexivity|].
      destruct (fk_case F); (split; [cbn; lia|]; split; [reflexivity|]; split; [reflexivity|]; split; reflexivity).
    - eexists; split; [reflexivity|]. cbn [n_form n_point n_seps float_body]. change (st_case st) with (fk_case F). change (st_case (one_column st)) with (fk_case F).
      split; [right; reflexivity|]. split; [reflexivity|]. split; [reflexivity|].
      destruct (fk_case F); (split; [cbn; lia|]; split; [reflexivity|]; split; [reflexivity|]; split; reflexivity).
    - destruct hex; discriminate. }
  destruct HX as (n & En & Hform & Hp & Hse & Hw & Ht & Hl & Hl1 & Hpre).
  assert (Hcw : float_content_width r = 3 + b2z show).
  { unfold float_content_width, float_zeros, float_bare_width. rewrite Hfin. change (fr_style r) with st. rewrite Hl1, S3, Hpre. change (zlen []) with 0. lia. }
  set (content := 3 + b2z show) in *.
  set (width := if w_round (al_width al) <? ff_pad0 f then ff_pad0 f else w_round (al_width al)).
  assert (Hwd : float_width r = width). { unfold float_width. rewrite Hfin. change (fr_width r) with (w_round (al_width al)). change (fr_pad0 r) with (ff_pad0 f). unfold width. destruct (Z.ltb_spec (w_round (al_width al)) (ff_pad0 f)); lia. }
  assert (Hmiss : float_missing r = Z.max 0 (width - content)).
  { unfold float_missing. rewrite Hwd, Hcw. reflexivity. }
  unfold punct_double. fold cs hex sep. fold gp. rewrite (surjective_pairing gp). fold g sep_size. change (if ff_punct f then if hex then fk_point16 F else fk_point10 F else 46) with point.
  rewrite En. cbn [obind]. fold sign. fold (shows_sign f x). fold show.
  assert (Esp : match n_form n with FormNan | FormInf => true | _ => false end = true) by (destruct Hform as [-> | ->]; reflexivity).
  rewrite Esp. cbn [andb]. fold content. fold width.
  assert (Htw : float_text_width r = content + Z.max 0 (width - content)) by (unfold float_text_width; rewrite Hcw, Hmiss; reflexivity).
  rewrite chk_ok by (unfold content; lia). cbn [obind].
  pose proof (init_fill_ok cs show sign (al_fill al) (ff_pad0 f) width content (al_align al) K Hc S1) as [G1 G2 G3 G4 G5 G6]. fold enc in G1, G6.
  set (fd := init_fill show sign (al_fill al) (ff_pad0 f) width content (al_align al)) in *.
  rewrite G2, chk_ok by (unfold content in *; lia). cbn [obind].
  assert (EO : match n_form n with
          | FormFixed => print_fixed cs (fk_bits F) n fd sign (n_sub n - fd_dec fd) g sep sep_size point (if n_point n then cs_size cs point else 0)
          | FormSci => print_scientific cs (fk_case F) n fd sign (n_sub n - fd_dec fd) point (if n_point n then cs_size cs point else 0)
          | FormHex => print_hex cs (fk_case F) (match fl_bits x with BFinite s _ _ _ _ => s | _ => false end) n fd sign (n_sub n - fd_dec fd) point (if n_point n then cs_size cs point else 0)
          | _ => Some (print_inf_or_nan (fk_case F) n fd sign)
          end = Some (print_inf_or_nan (fk_case F) n fd sign)) by (destruct Hform as [-> | ->]; reflexivity).
  rewrite EO. cbn [obind]. eexists; split; [reflexivity|].
  assert (ET : float_text r = padded (al_align al) enc (Z.max 0 (width - content)) (sign_units enc show sign ++ float_body st (fr_value r))).
  { unfold float_text. rewrite Hmiss. unfold float_content. rewrite S2, Hpre. change (fr_style r) with st. unfold float_zeros. rewrite Hfin. reflexivity. }
  destruct (fill_ops cs (fd_left fd) (al_fill al) K Hc) as [LW LT]. cbv zeta in LW, LT. destruct (fill_ops cs (fd_right fd) (al_fill al) K Hc) as [RW RT]. cbv zeta in RW, RT.
  destruct (p_sign_ok (fd_showsign fd) sign) as [PW PT].
  split; [|split; [|split]]; cbn [pr_ops pr_size pr_width].
  - unfold print_inf_or_nan. rewrite !ops_text_app, LT, RT, PT. fold enc. unfold ops_text at 1. cbn [map concat]. rewrite app_nil_r, Ht.
    rewrite G1, ET. reflexivity.
  - rewrite ET, padded_len by lia. rewrite !zlen_app, Hl. rewrite Hp, Hse. cbn [Z.eqb negb]. rewrite andb_false_r.
    assert (Efc : (if 0 <? fd_count fd then cs_size cs (al_fill al) * fd_count fd else 0) = fd_count fd * zlen enc).
    { rewrite (ok_size cs K) by exact Hc. fold enc. destruct (Z.ltb_spec 0 (fd_count fd)); [lia|]. replace (fd_count fd) with 0 by lia. lia. }
    rewrite Efc. unfold content in *. lia.
  - rewrite Htw. reflexivity.
  - apply Forall_app; split; [exact LW|]. apply Forall_app; split; [|exact RW]. apply Forall_app; split; [exact PW|]. constructor; [exact Hw|constructor].
Qed.

(* ---- one notation after the other ---- *)
Section Finite.
Variables (subnormal : bool) (mantissa exponent m e : Z).
Hypothesis Eb : fl_bits x = BFinite subnormal mantissa exponent m e.
Hypothesis Hd : decimal_ok m e.
Hypothesis Hprec : -1 <= ff_precision f.

Lemma dec_value : hex = false -> fr_value r = FDec m e.
Proof using Eb. intros Eh. unfold r, frequest_of. cbn [fr_value]. fold hex. rewrite Eh, Eb. reflexivity. Qed.
Lemma scientific_ok : ff_notation f = NScientific -> exists p, punct_double F f al x = Some p /\ fprints p r.
Proof using HF HA Hfit Eb Hd Hprec.
  intros En. assert (Eh : hex = false) by (unfold hex; rewrite En; reflexivity).
  destruct group_ok as [Hr HB].
  destruct (Z.eqb_spec (ff_precision f) (-1)) as [Ep|Ep].
  - destruct (noprec_sci_ok (float_groups F gs f) rep' show m e (ff_showpoint f) (sep_size = 1) Hd) as [HG HT]. rewrite HB in HG, HT.
    apply (decimal_print (noprec_sci show m e (ff_showpoint f)) m e Eh (dec_value Eh)).
    + unfold init_num. rewrite Eb, En, Ep. reflexivity.
    + exact HG.
    + intros s E1 E2 E3 E4. rewrite (HT (st_sep s) (st_point s) (st_case s) s) by (reflexivity || assumption).
      unfold decimal_body. rewrite E3, En, E4. unfold prec_of. rewrite Ep. reflexivity.
    + right. reflexivity.
  - destruct (prec_sci_ok (float_groups F gs f) rep' show m e (ff_showpoint f) (sep_size = 1) Hd (ff_precision f) ltac:(lia)) as (n & E0 & HG & Hf & HT).
    rewrite HB in HG, HT.
    apply (decimal_print n m e Eh (dec_value Eh)).
    + unfold init_num. rewrite Eb, En. replace (ff_precision f =? -1) with false by lia. exact E0.
    + exact HG.
    + intros s E1 E2 E3 E4. apply HT; try congruence. rewrite E4. unfold prec_of. replace (0 <=? ff_precision f) with true by lia. reflexivity.
    + right. exact Hf.
Qed.
Lemma fixed_ok : ff_notation f = NFixed -> separator_fine F gs f ->
  (0 <= ff_precision f -> same_separators (float_groups F gs f) rep m e (ff_precision f)) ->
  exists p, punct_double F f al x = Some p /\ fprints p r.
Proof using HF HA Hfit Eb Hd Hprec.
  intros En Hsf Hss. assert (Eh : hex = false) by (unfold hex; rewrite En; reflexivity).
  destruct group_ok as [Hr HB].
  destruct (Z.eqb_spec (ff_precision f) (-1)) as [Ep|Ep].
  - destruct (noprec_fixed_ok g (float_groups F gs f) rep' show m e (ff_showpoint f) (sep_size = 1) Hr Hd) as (n & E0 & HG & Hf & HT).
    rewrite HB in HG, HT.
    apply (decimal_print n m e Eh (dec_value Eh)).
    + unfold init_num. rewrite Eb, En, Ep. exact E0.
    + exact HG.
    + intros s E1 E2 E3 E4. rewrite (HT (st_sep s) (st_point s) (st_case s) s) by (reflexivity || assumption).
      unfold decimal_body. rewrite E3, En, E4. unfold prec_of. rewrite Ep. reflexivity.
    + left. exact Hsf.
  - destruct (prec_fixed_ok g (float_groups F gs f) rep' show m e (ff_showpoint f) (sep_size = 1) Hr Hd (ff_precision f) ltac:(lia)) as (n & E0 & HG & Hf & HT).
    { unfold same_separators. rewrite HB. apply Hss. lia. }
    rewrite HB in HG, HT.
    apply (decimal_print n m e Eh (dec_value Eh)).
    + unfold init_num. rewrite Eb, En. replace (ff_precision f =? -1) with false by lia. exact E0.
    + exact HG.
    + intros s E1 E2 E3 E4. apply HT; try congruence. rewrite E4. unfold prec_of. replace (0 <=? ff_precision f) with true by lia. reflexivity.
    + left. exact Hsf.
Qed.
Lemma general_ok : ff_notation f = NGeneral -> separator_fine F gs f ->
  (0 <= ff_precision f -> canonical m /\ general_fine (float_groups F gs f) rep show m e (ff_showpoint f) (~ wide_separator F f) (ff_precision f)) ->
  exists p, punct_double F f al x = Some p /\ fprints p r.
Proof using HF HA Hfit Eb Hd Hprec.
  intros En Hsf Hgf. assert (Eh : hex = false) by (unfold hex; rewrite En; reflexivity).
  destruct group_ok as [Hr HB].
  assert (Hone : ~ wide_separator F f -> sep_size = 1).
  { intros Hw. unfold sep_size, gp, sep. unfold wide_separator in Hw. destruct (ff_punct f); [|reflexivity].
    destruct (Z.eqb_spec (cs_validate cs (fk_thousands F)) (-1)) as [|E]; [reflexivity|]. cbn [snd].
    destruct HF as [K _ Hs _ _]. destruct (ok_validate cs K _ Hs) as [|Ev]; [contradiction|]. rewrite Ev. fold cs in Hw. 
    destruct (Z.eq_dec (zlen (cs_encode cs (fk_thousands F))) 1) as [|C]; [assumption|]. exfalso. apply Hw. split; [reflexivity|exact C]. }
  destruct (Z.eqb_spec (ff_precision f) (-1)) as [Ep|Ep].
  - destruct (noprec_general_ok g (float_groups F gs f) rep' show m e (ff_showpoint f) (sep_size = 1) Hr Hd) as (n & E0 & HG & HT).
    rewrite HB in HG, HT.
    apply (decimal_print n m e Eh (dec_value Eh)).
    + unfold init_num. rewrite Eb, En, Ep. exact E0.
    + exact HG.
    + intros s E1 E2 E3 E4. apply HT; try congruence. rewrite E4. unfold prec_of. rewrite Ep. reflexivity.
    + left. exact Hsf.
  - destruct (Hgf ltac:(lia)) as [Hcan [F1 F2 F3]].
    destruct (prec_general_ok g (float_groups F gs f) rep' show m e (ff_showpoint f) (sep_size = 1) Hr Hd (ff_precision f) ltac:(lia) Hcan) as (n & E0 & HG & HT).
    { constructor; [exact F1| |exact F3]. intros C1 C2. rewrite HB. destruct (F2 C1 C2) as [A|[A|A]]; [left; exact A|right; left; exact A|right; right; exact (Hone A)]. }
    rewrite HB in HG, HT.
    apply (decimal_print n m e Eh (dec_value Eh)).
    + unfold init_num. rewrite Eb, En. replace (ff_precision f =? -1) with false by lia. exact E0.
    + exact HG.
    + intros s E1 E2 E3 E4. apply HT; try congruence. rewrite E4. unfold prec_of. replace (0 <=? ff_precision f) with true by lia. reflexivity.
    + left. exact Hsf.
Qed.
End Finite.
End Print.
