(* Floating-point values as arguments. *)
From Verif Require Import Base WidthModel WidthProofs DestModel DestProofs UtfSpec UtfModel UtfSizeModel UtfForms CharsetModel GroupSpec GroupProofs DigitsSpec DigitsProofs IntSpec IntModel IntProofs
  PrintModel PrintSpec PrintProofs StringModel CharProofs FloatSpec FloatModel FloatArith FloatNum FloatInit FloatInit2 FloatHex FloatProofs FloatFast RoomProofs RoomFloat.

Lemma printed_arg_ok M q p t W : q = Some p -> ops_text (pr_ops p) = t -> pr_size p = zlen t -> pr_width p = W -> Forall op_wf (pr_ops p) -> frugal (pr_ops p) -> 0 <= W <= 32767 ->
  arg_ok M (of_printed q) (whole t (65536 * W)).
Proof.
  intros -> T Z W' HWf HFr HW. apply whole_arg; [lia|]. intros p0 HZ HP. unfold of_printed. cbn [obind]. rewrite W', Z. rewrite w_of_signed_small by lia.
  destruct (add_both p0 (zlen t) (65536 * W) t (zlen_nonneg _) eq_refl HZ HP ltac:(lia)) as (p1 & E1 & p2 & E2 & H1 & H2).
  rewrite E1. cbn [obind]. rewrite E2. cbn [obind]. eexists _, _. split; [reflexivity|]. split; [rewrite <- T; apply prints_ops; assumption|]. split; assumption.
Qed.

Lemma fast_size_small negative b : match b with BFinite _ _ _ m e => decimal_ok m e | _ => True end -> 0 <= fast_size negative b <= 100.
Proof.
  intros Hb. assert (0 <= b2z negative <= 1) by (destruct negative; cbn; lia). unfold fast_size. destruct b as [| |sn mm ex m e]; [lia|lia|].
  destruct (dc_facts m e Hb) as (Hm & D1 & D2 & D3 & D4 & D5 & D6 & He). rewrite D4. set (dc := zlen (digits 10 m)) in *.
  destruct (fast_is_sci e dc) eqn:Es.
  - assert (0 <= far (e - 1 + dc) <= 1) by (unfold far; destruct ((99 <? e - 1 + dc) || (e - 1 + dc <? -99)); cbn; lia).
    destruct (negb (dc =? 1)); cbn [b2z]; lia.
  - assert (-19 - 3 <= e <= 5) by (unfold fast_is_sci in Es; destruct (negb (dc =? 1)); cbn [b2z] in Es; lia).
    destruct (Z.ltb_spec 0 e), (Z.leb_spec e (- dc)), ((- dc <? e) && (e <? 0)); cbn [b2z]; lia.
Qed.

Lemma fast_arg_ok M lc x : match fl_bits x with BFinite _ _ _ m e => decimal_ok m e | _ => True end ->
  arg_ok M (fast_float_arg lc x) (whole (float_text (default_frequest lc x)) (65536 * float_text_width (default_frequest lc x))).
Proof.
  intros Hx. destruct (fast_print_ok lc x Hx) as (q & E & (T & Z & W & HWf)).
  pose proof (fast_size_small (fl_negative x) (fl_bits x) Hx) as HS. unfold fast_print in E.
  set (r := default_frequest lc x) in *. destruct (fast_ops lc (fl_negative x) (fl_bits x)) as [os|] eqn:EO; [|discriminate]. cbn [obind] in E. apply some_inj in E. subst q. cbn [pr_ops pr_size pr_width] in *.
  set (s := fast_size (fl_negative x) (fl_bits x)) in *. rewrite <- W.
  apply whole_arg; [lia|]. intros p HZ HP. unfold fast_float_arg. fold s. cbv zeta.
  assert (Ew : w_of_i16 (to_i 16 s) = 65536 * s).
  { rewrite to_i_id by (unfold in_i; change (2 ^ (16 - 1)) with 32768; lia). rewrite of_i16 by lia. unfold clamp, scaled, u_min, u_max. lia. }
  destruct (add_both p s (65536 * s) (float_text r) ltac:(lia) (eq_sym Z) HZ HP ltac:(lia)) as (p1 & E1 & p2 & E2 & H1 & H2).
  rewrite EO. cbn [obind].
  assert (HPR : prints_text (p_ops os) (float_text r)) by (rewrite <- T; apply prints_ops; [exact HWf|exact (frugal_fast _ _ _ _ EO)]).
  destruct (has_remaining_width p || match p_size p with Some _ => true | None => false end) eqn:EC.
  - rewrite Ew, E1. cbn [obind]. rewrite E2. cbn [obind]. eexists _, _. split; [reflexivity|]. split; [exact HPR|]. split; assumption.
  - cbn [obind]. eexists _, _. split; [reflexivity|]. split; [exact HPR|]. apply orb_false_iff in EC as [C1 C2].
    destruct (p_size p); [discriminate|]. split; [reflexivity|]. unfold has_remaining_width in C1. destruct (p_width p) as [[l y]|]; [|exact I].
    split; [reflexivity|]. right. split; [lia|reflexivity].
Qed.

(* UTF encodings in one unit are the code point itself *)
Lemma utf_separator_fine F gs f u : fk_charset F = utf_charset u -> fk_bits F = bits_of u -> 0 <= fk_thousands F < 2 ^ 32 -> separator_fine F gs f.
Proof.
  intros EC EB Hs Hg Hl. assert (Hv : cs_validate (fk_charset F) (fk_thousands F) <> -1) by (intros C; apply Hg; unfold float_groups; rewrite C, andb_false_r; reflexivity). rewrite EC, EB in *. set (c := fk_thousands F) in *. cbn [utf_charset cs_validate cs_encode] in *.
  destruct u; cbn [encode_char_of validate_of] in *; unfold encode_char8, encode_char16, encode_char32 in *.
  - destruct (Z.ltb_spec c 128) as [H|H]; [reflexivity|].
    exfalso. revert Hl. destruct (c <? 2048), (c <? 65536), (c <? 1114112); unfold zlen; cbn [length]; lia.
  - destruct (Z.ltb_spec c 65536) as [H|H]; [reflexivity|].
    exfalso. destruct (Z.ltb_spec c 1114112).
    + revert Hl. unfold zlen; cbn [length]; lia.
    + apply Hv. unfold validate16. destruct (is_surrogate c); [reflexivity|]. replace (c <? 65536) with false by lia. replace (c <? 1114112) with false by lia. reflexivity.
  - reflexivity.
Qed.

Lemma fast_default_arg_ok M lc x : match fl_bits x with BFinite _ _ _ m e => decimal_ok m e | _ => True end ->
  let t := (if fl_negative x then [45] else []) ++ float_body (default_style lc) (value_of false (fl_bits x)) in
  arg_ok M (fast_float_arg lc x) (whole t (65536 * zlen t)).
Proof. intros Hx t. destruct (fast_default_text lc x) as [ET EW]. fold t in ET, EW. rewrite <- EW, <- ET. apply fast_arg_ok. exact Hx. Qed.

(* ---- decode ---- *)
Lemma field b k n mask : 0 <= k -> 0 <= n -> mask = Z.shiftl (Z.ones n) k -> Z.shiftr (Z.land b mask) k = (b / 2 ^ k) mod 2 ^ n.
Proof.
  intros Hk Hn ->. rewrite Z.shiftr_land, Z.shiftr_shiftl_l by lia. rewrite Z.sub_diag, Z.shiftl_0_r. rewrite land_mod, shr_div by lia. reflexivity.
Qed.
Lemma sign_bit b k : 0 <= k -> 0 <= b < 2 ^ (k + 1) -> negb (Z.shiftr b k =? 0) = (b / 2 ^ k =? 1).
Proof.
  intros Hk Hb. rewrite shr_div by lia. rewrite Z.pow_add_r in Hb by lia. change (2 ^ 1) with 2 in Hb. pose proof (Z.pow_pos_nonneg 2 k ltac:(lia) Hk).
  assert (0 <= b / 2 ^ k < 2) by (split; [apply Z.div_pos; lia|apply Z.div_lt_upper_bound; lia]).
  destruct (Z.eqb_spec (b / 2 ^ k) 0), (Z.eqb_spec (b / 2 ^ k) 1); cbn; lia.
Qed.
Lemma decode64_ok td b : 0 <= b < 2 ^ 64 ->
  let s := b / 2 ^ 63 in let E := (b / 2 ^ 52) mod 2 ^ 11 in let M := b mod 2 ^ 52 in
  let x := decode64 td b in
  fl_negative x = (s =? 1) /\
  (E = 2047 -> fl_bits x = if M =? 0 then BInf else BNan) /\
  (E < 2047 -> exists m10 e10, fl_bits x = BFinite (E =? 0) M (if E =? 0 then -1022 else E - 1023) m10 e10 /\
     (m10, e10) = if (E =? 0) && (M =? 0) then (0, 0) else td E M).
Proof.
  intros Hb s E M x. unfold x, decode64. rewrite (field b 52 11) by (reflexivity || lia).
  replace (Z.land b 0xFFFFFFFFFFFFF) with M by (unfold M; change 0xFFFFFFFFFFFFF with (Z.ones 52); rewrite land_mod by lia; reflexivity).
  fold E. cbv zeta. cbn [fl_negative fl_bits]. split; [apply sign_bit; [lia|exact Hb]|]. split.
  - intros ->. reflexivity.
  - intros HE. replace (E =? 2047) with false by lia. eexists _, _. split; [|symmetry; apply surjective_pairing].
    f_equal. destruct (Z.eqb_spec E 0) as [C|C]; cbn [FloatModel.b2z]; lia.
Qed.
Lemma decode32_ok td b : 0 <= b < 2 ^ 32 ->
  let s := b / 2 ^ 31 in let E := (b / 2 ^ 23) mod 2 ^ 8 in let M := b mod 2 ^ 23 in
  let x := decode32 td b in
  fl_negative x = (s =? 1) /\
  (E = 255 -> fl_bits x = if M =? 0 then BInf else BNan) /\
  (E < 255 -> exists m10 e10, fl_bits x = BFinite (E =? 0) (M * 2 ^ 29) (if E =? 0 then -126 else E - 127) m10 e10 /\
     (m10, e10) = if (E =? 0) && (M =? 0) then (0, 0) else td E M).
Proof.
  intros Hb s E M x. unfold x, decode32. rewrite (field b 23 8) by (reflexivity || lia).
  replace (Z.land b 0x7FFFFF) with M by (unfold M; change 0x7FFFFF with (Z.ones 23); rewrite land_mod by lia; reflexivity).
  fold E. cbv zeta. cbn [fl_negative fl_bits]. split; [apply sign_bit; [lia|exact Hb]|]. split.
  - intros ->. reflexivity.
  - intros HE. replace (E =? 255) with false by lia. eexists _, _. split; [|symmetry; apply surjective_pairing].
    rewrite Z.shiftl_mul_pow2 by lia. f_equal. destruct (Z.eqb_spec E 0) as [C|C]; cbn [FloatModel.b2z]; lia.
Qed.
