(* The locale functions mean what LocaleSpec says. *)
From Verif Require Import Base TransSpec UtfSpec UtfModel UtfBits UtfDecode UtfLoop UtfForms UtfTheorems
  SbcsTables SbcsModel SbcsSpec SbcsProofs GroupModel GroupSpec GroupProofs GroupDist LocaleModel LocaleSpec.

Definition ended (rep : bool) : creator -> option Z := if rep then finish else finish_no_more_sep.

(* ---------- Windows ---------- *)
Lemma win_number_loop t g : win_number t g -> forall s c,
  (s = [] \/ exists s', s = 0x3B :: s') -> win_loop (t ++ s) c = win_after win_loop g s c.
Proof.
  intros H s c Hs. destruct H as [d Hd|d e Hd He]; cbn [app win_loop]; unfold not_digit, is_digit.
  - replace ((0x30 + d <? 0x30) || (0x39 <? 0x30 + d)) with false by lia.
    replace (0x30 + d - 0x30) with d by lia.
    destruct Hs as [->|[s' ->]]; reflexivity.
  - replace ((0x30 + d <? 0x30) || (0x39 <? 0x30 + d)) with false by lia.
    replace ((0x30 <=? 0x30 + e) && (0x30 + e <=? 0x39)) with true by lia.
    f_equal; lia.
Qed.
Lemma win_loop_ok s gs rep : win_string s gs rep -> forall c, win_loop s c = ended rep (pushes gs c).
Proof.
  induction 1 as [t Ht|t g Ht Hg|t g s gs rep Ht Hg Hs IH]; intros c.
  - rewrite <- (app_nil_r t), (win_number_loop _ _ Ht) by auto. reflexivity.
  - rewrite <- (app_nil_r t), (win_number_loop _ _ Ht) by auto. unfold win_after.
    replace (g =? 0) with false by lia. reflexivity.
  - rewrite (win_number_loop _ _ Ht) by eauto. unfold win_after. replace (g =? 0) with false by lia.
    cbn [negb]. replace (negb (0x3B =? 0x3B)) with false by reflexivity. rewrite IH. reflexivity.
Qed.
Lemma win_loop_bad n : forall s c, (length s <= n)%nat -> Forall (fun x => x <> 0) s ->
  win_loop s c = Some grouping_empty \/ exists gs rep, win_string s gs rep.
Proof.
  induction n as [|n IH]; intros s c Hn HF; (destruct s as [|d s1]; [left; reflexivity|]);
    [cbn in Hn; lia|].
  cbn [win_loop]. unfold not_digit. destruct ((d <? 0x30) || (0x39 <? d)) eqn:Ed; [left; reflexivity|].
  assert (Hd : 0 <= d - 0x30 <= 9) by lia. inversion HF as [|? ? H0 HF1]; subst.
  (* what follows a number t that denotes g *)
  assert (Hafter : forall t g s2, win_number t g -> (length s2 <= n)%nat -> Forall (fun x => x <> 0) s2 ->
    win_after win_loop g s2 c = Some grouping_empty \/ exists gs rep, win_string (t ++ s2) gs rep).
  { intros t g s2 Ht L2 F2. unfold win_after. destruct (Z.eqb_spec g 0) as [->|Hg].
    - destruct s2 as [|x s2]; [right; exists [], true; rewrite app_nil_r; constructor; exact Ht|].
      inversion F2; subst. cbn [first_unit]. replace (negb (x =? 0)) with true by lia. left; reflexivity.
    - assert (Hg' : 0 < g) by (destruct Ht; lia).
      destruct s2 as [|x s2]; [right; exists [g], false; rewrite app_nil_r; constructor; assumption|].
      destruct (Z.eqb_spec x 0x3B) as [->|Hx]; cbn [negb]; [|left; reflexivity].
      inversion F2; subst. cbn [length] in L2.
      destruct (IH s2 (push_high c g) ltac:(lia) ltac:(assumption)) as [E|(gs & rep & E)]; [left; exact E|].
      right. exists (g :: gs), rep. constructor; assumption. }
  cbn [length] in Hn. destruct s1 as [|d2 s2].
  - destruct (Hafter [d] (d - 0x30) []) as [E|E]; [|cbn; lia|constructor|left; exact E|right; exact E].
    replace d with (0x30 + (d - 0x30)) at 1 by lia. constructor; lia.
  - unfold is_digit. destruct ((0x30 <=? d2) && (d2 <=? 0x39)) eqn:E2.
    + inversion HF1; subst. cbn [length] in Hn.
      destruct (Hafter [d; d2] ((d - 0x30) * 10 + (d2 - 0x30)) s2) as [E|E];
        [|lia|assumption|left; exact E|right; exact E].
      replace d with (0x30 + (d - 0x30)) at 1 by lia. replace d2 with (0x30 + (d2 - 0x30)) at 1 by lia.
      replace ((d - 0x30) * 10 + (d2 - 0x30)) with (10 * (d - 0x30) + (d2 - 0x30)) by lia. constructor; lia.
    + destruct (Hafter [d] (d - 0x30) (d2 :: s2)) as [E|E];
        [|cbn [length] in *; lia|assumption|left; exact E|right; exact E].
      replace d with (0x30 + (d - 0x30)) at 1 by lia. constructor; lia.
Qed.
Lemma win_string_nonempty s gs rep : win_string s gs rep -> first_unit s <> 0.
Proof.
  assert (H : forall t g s', win_number t g -> first_unit (t ++ s') <> 0) by (intros t g s' []; cbn [app first_unit]; lia).
  intros [t Ht|t g Ht Hg|t g s' gs' rep' Ht Hg Hs]; [rewrite <- (app_nil_r t)|rewrite <- (app_nil_r t)|]; eauto.
Qed.
Lemma parse_win_ok s gs rep : win_string s gs rep ->
  parse_win_grouping s = ended rep (pushes gs creator_init).
Proof.
  intros H. unfold parse_win_grouping. pose proof (win_string_nonempty _ _ _ H).
  replace (first_unit s =? 0) with false by lia. apply win_loop_ok; exact H.
Qed.
Lemma parse_win_bad s : Forall (fun x => x <> 0) s -> (forall gs rep, ~ win_string s gs rep) ->
  parse_win_grouping s = Some grouping_empty.
Proof.
  intros HF HN. unfold parse_win_grouping. destruct (first_unit s =? 0); [reflexivity|].
  destruct (win_loop_bad (length s) s creator_init (le_n _) HF) as [E|(gs & rep & E)]; [exact E|].
  exfalso; eapply HN; exact E.
Qed.

(* ---------- the first character ---------- *)
Definition code_or (r : option Z) : Z := match r with Some c => c | None => 0xFFFD end.
Definition first_of (its : list item) : option Z := match its with Good c :: _ => Some c | _ => None end.
Lemma first_item f src its : units (bits_of f) src -> items (enc_of f) false src its ->
  exists r, transcode_of f U32 false false src 1 = Some r /\ hd 0xFFFD (t_out r) = code_or (first_of its).
Proof.
  intros HU HI.
  destruct (transcode_items f U32 false false src 1 its HU ltac:(lia) HI) as (r & Hr & Ht).
  exists r. split; [exact Hr|].
  destruct Ht as (done & todo & E & _ & Ho & Hl & _ & Hreason).
  destruct its as [|it more].
  - destruct done; [|discriminate]. rewrite Ho. reflexivity.
  - assert (Hd : exists done', done = it :: done').
    { destruct done as [|x done]; [|cbn in E; injection E as <- _; eauto]. exfalso. cbn in E, Ho. rewrite Ho in *.
      destruct (t_reason r).
      - destruct Hreason as [H _]. subst todo. discriminate.
      - destruct Hreason as (it' & more' & E' & H & _).
        assert (zlen (out_of (enc_of U32) it') = 1) by (destruct it'; reflexivity). assert (zlen (@nil Z) = 0) by reflexivity. lia.
      - destruct Hreason as [H _]. discriminate. }
    destruct Hd as (done' & ->). rewrite Ho. destruct it; reflexivity.
Qed.
Lemma decode_utf16_ok s r : units 16 s -> Forall (fun x => x <> 0) s -> first_utf16 s r ->
  decode_first_char_from_utf16 s = code_or r.
Proof.
  intros HU HN (its & HI & ->). destruct (first_item U16 s its HU HI) as (r & Hr & Hh).
  transitivity (hd 0xFFFD (t_out r)); [|exact Hh]. clear Hh HI its.
  cbn [transcode_of] in Hr. unfold transcode_16_32, transcode in Hr.
  destruct s as [|c rest]; [cbn in Hr; injection Hr as <-; reflexivity|].
  assert (HC : 0 <= c < 2 ^ 16) by (inversion HU; assumption).
  assert (Hnz : c <> 0) by (inversion HN; assumption).
  unfold decode_first_char_from_utf16. cbn [first_unit tl].
  replace (negb (c =? 0)) with true by lia.
  cbn [tc_loop length] in Hr. unfold step_16_32 in Hr.
  assert (Hc32 : forall x, 0 <= x < 2 ^ 32 -> c32 x = x) by (intros x Hx; unfold c32; apply to_u_id; exact Hx).
  destruct (is_surrogate c) eqn:Es; cbn [negb].
  2: { cbn [negb andb] in Hr. rewrite Hc32 in Hr by lia. cbn [zlen length] in Hr. change (1 <? zlen [c]) with false in Hr.
       cbn iota in Hr.
       match type of Hr with obind ?e _ = _ => destruct e as [r2|] end; [|discriminate].
       cbn [obind] in Hr. injection Hr as <-. reflexivity. }
  destruct rest as [|c2 rest].
  - cbn [negb first_unit] in *. change (is_low_surrogate 0) with false.
    change (1 <? zlen repl32) with false in Hr. cbn iota in Hr.
    match type of Hr with obind ?e _ = _ => destruct e as [r2|] end; [|discriminate].
    cbn [obind] in Hr. injection Hr as <-. destruct (is_high_surrogate c); reflexivity.
  - cbn [first_unit]. destruct (is_high_surrogate c); [destruct (is_low_surrogate c2) eqn:E2|]; cbn [andb negb] in Hr.
    + change (1 <? zlen [c32 (join_surrogates c c2)]) with false in Hr. cbn iota in Hr.
      match type of Hr with obind ?e _ = _ => destruct e as [r2|] end; [|discriminate].
      cbn [obind] in Hr. injection Hr as <-. cbn [t_out app hd]. rewrite Hc32; [reflexivity|].
      rewrite join_spec. lia.
    + change (1 <? zlen repl32) with false in Hr. cbn iota in Hr.
      match type of Hr with obind ?e _ = _ => destruct e as [r2|] end; [|discriminate].
      cbn [obind] in Hr. injection Hr as <-. reflexivity.
    + change (1 <? zlen repl32) with false in Hr. cbn iota in Hr.
      match type of Hr with obind ?e _ = _ => destruct e as [r2|] end; [|discriminate].
      cbn [obind] in Hr. injection Hr as <-. reflexivity.
Qed.
(* ---------- the decoders ---------- *)
(* [decodes f first]: with one code point of room, f gives the first character as told by [first] *)
Lemma utf8_decoder_ok s r : units 8 s -> first_utf8 s r ->
  decode_first_char utf8_decoder s = Some (code_or r).
Proof.
  intros HU (its & HI & ->). destruct (first_item U8 s its HU HI) as (r & Hr & Hh).
  unfold decode_first_char, utf8_decoder. cbn [enc_of bits_of] in *. rewrite Hr. cbn [obind].
  change (match its with Good c :: _ => Some c | _ => None end) with (first_of its).
  rewrite <- Hh. destruct (t_out r); reflexivity.
Qed.
(* the three single-byte codesets known *)
Definition known (cs : sbcs) (table : list Z) : Prop :=
  (cs = iso_8859_1 /\ table = std_iso_8859_1) \/ (cs = iso_8859_3 /\ table = std_iso_8859_3) \/
  (cs = iso_8859_15 /\ table = std_iso_8859_15).
Lemma known_decode cs table b : known cs table -> 0 <= b < 256 -> sb_decode cs b = Some (code_or (std_decode table b)).
Proof.
  assert (H : forall cs t, (forall n, (n < 256)%nat ->
     match sb_decode cs (Z.of_nat n) with Some x => x =? code_or (std_decode t (Z.of_nat n)) | None => false end = true) ->
     forall b, 0 <= b < 256 -> sb_decode cs b = Some (code_or (std_decode t b))).
  { intros cs' t HS b' Hb. specialize (HS (Z.to_nat b') ltac:(lia)). rewrite Z2Nat.id in HS by lia.
    destruct (sb_decode cs' b'); [|discriminate]. f_equal. lia. }
  assert (Hall : forall cs t, forallb (fun n => match sb_decode cs (Z.of_nat n) with
       Some x => x =? code_or (std_decode t (Z.of_nat n)) | None => false end) (seq 0 256) = true ->
     forall b, 0 <= b < 256 -> sb_decode cs b = Some (code_or (std_decode t b))).
  { intros cs' t HS. apply H. intros n Hn. rewrite forallb_forall in HS. apply HS. apply in_seq. lia. }
  intros [[-> ->]|[[-> ->]|[-> ->]]]; revert b; apply Hall; vm_compute; reflexivity.
Qed.
Lemma sb_decoder_ok cs table s : known cs table -> units 8 s -> 
  decode_first_char (sb_decoder cs) s = Some (code_or (first_byte table s)).
Proof.
  intros HK HU. unfold decode_first_char, sb_decoder. destruct s as [|b s]; [reflexivity|].
  inversion HU as [|? ? Hb HU']; subst. cbn [first_byte sb_to_u32]. rewrite (known_decode cs table b HK Hb).
  cbn [obind f_stop_invalid]. rewrite andb_false_r. replace (1 =? 0) with false by reflexivity.
  assert (E : exists r, sb_to_u32 cs (mk_flags false false false) s (1 - 1) = Some r).
  { destruct s as [|b2 s]; [eexists; reflexivity|]. inversion HU' as [|? ? Hb2 _]; subst. cbn [sb_to_u32].
    rewrite (known_decode cs table b2 HK Hb2). cbn [obind f_stop_invalid]. rewrite andb_false_r. eexists; reflexivity. }
  destruct E as [r ->]. reflexivity.
Qed.

(* ---------- make_numpunct ---------- *)
Lemma land80 b : 0 <= b < 256 -> (Z.land b 0x80 =? 0) = (b <? 128).
Proof. intros Hb. apply eqb_prop. exact (sweep (fun x => eqb (Z.land x 0x80 =? 0) (x <? 128)) 256 eq_refl b ltac:(cbn; lia)). Qed.
(* [first s r] tells the first character, at least for ASCII as expected *)
Lemma make_numpunct_known enc f (first : list Z -> option Z -> Prop) point sep g rp rs :
  get_decoder enc = Some f ->
  (forall s r, units 8 s -> first s r -> decode_first_char f s = Some (code_or r)) ->
  (forall r, first [] r -> r = None) ->
  (forall b s r, 0 < b < 128 -> first (b :: s) r -> r = Some b) ->
  units 8 point -> units 8 sep -> Forall (fun x => x <> 0) point -> Forall (fun x => x <> 0) sep ->
  first point rp -> first sep rs -> g <> grouping_empty ->
  make_numpunct enc point sep g = Some
    (mk_np (if match rs with Some c => c =? 0xFFFD | None => true end then grouping_empty else g)
           (code_or rp)
           (match rs with Some c => if c =? 0xFFFD then 0x2C else c | None => 0x2C end)) /\
  make_numpunct enc point sep grouping_empty = Some (mk_np grouping_empty (code_or rp) 0x2C).
Proof.
  intros HE Hdec Hnil Hasc HUp HUs HNp HNs Fp Fs Hg. unfold make_numpunct.
  assert (Hpoint : exists sr fn, (if first_unit point =? 0 then Some (set_point (np_of_grouping g) 0xFFFD, false, None)
     else if Z.land (first_unit point) 0x80 =? 0 then Some (set_point (np_of_grouping g) (first_unit point), false, None)
     else match get_decoder enc with
          | Some f => do c <- decode_first_char f point ; Some (set_point (np_of_grouping g) c, true, Some f)
          | None => Some (set_point (np_of_grouping g) 0xFFFD, true, None)
          end) = Some (set_point (np_of_grouping g) (code_or rp), sr, fn) /\ (sr = true -> fn = Some f)).
  { destruct point as [|b point].
    - rewrite (Hnil rp Fp). exists false, None. split; [reflexivity|discriminate].
    - inversion HUp as [|? ? Hb _]; subst. inversion HNp as [|? ? Hb0 _]; subst. cbn [first_unit].
      replace (b =? 0) with false by lia. rewrite land80 by lia.
      destruct (Z.ltb_spec b 128).
      + rewrite (Hasc b point rp ltac:(lia) Fp). exists false, None. split; [reflexivity|discriminate].
      + rewrite HE, (Hdec _ _ HUp Fp). exists true, (Some f). split; [reflexivity|auto]. }
  split.
  - destruct Hpoint as (sr & fn & -> & Hfn). cbn [obind].
    replace (g =? grouping_empty) with false by lia.
    destruct sep as [|b sep].
    + rewrite (Hnil rs Fs). reflexivity.
    + inversion HUs as [|? ? Hb _]; subst. inversion HNs as [|? ? Hb0 _]; subst. cbn [first_unit].
      replace (b =? 0) with false by lia. rewrite land80 by lia.
      destruct (Z.ltb_spec b 128).
      * rewrite (Hasc b sep rs ltac:(lia) Fs). replace (b =? 0xFFFD) with false by lia. reflexivity.
      * assert (E : (if negb sr then get_decoder enc else fn) = Some f) by (destruct sr; cbn [negb]; auto).
        rewrite E, (Hdec _ _ HUs Fs). cbn [obind]. destruct rs as [c|]; cbn [code_or]; [|reflexivity].
        destruct (c =? 0xFFFD); reflexivity.
  - clear Hpoint. destruct point as [|b point].
    + rewrite (Hnil rp Fp). reflexivity.
    + inversion HUp as [|? ? Hb _]; subst. inversion HNp as [|? ? Hb0 _]; subst. cbn [first_unit].
      replace (b =? 0) with false by lia. rewrite land80 by lia.
      destruct (Z.ltb_spec b 128).
      * rewrite (Hasc b point rp ltac:(lia) Fp). reflexivity.
      * rewrite HE, (Hdec _ _ HUp Fp). reflexivity.
Qed.
Lemma first_utf8_nil r : first_utf8 [] r -> r = None.
Proof.
  intros (its & HI & ->). inversion HI as [| cp rest its' V L I' E|b rest its' U M I' E]; subst; [reflexivity| |].
  - exfalso. pose proof (enc_of_len U8 cp) as Hl. cbn [enc_of] in Hl. destruct (enc8 cp); [cbn in Hl; lia|discriminate].
  - destruct M as (_ & [M|[M _]] & _); destruct b; try discriminate; try congruence; cbn in M; lia.
Qed.
Lemma first_utf8_ascii b s r : 0 < b < 128 -> first_utf8 (b :: s) r -> r = Some b.
Proof.
  intros Hb (its & HI & ->). assert (V : valid_cp false b) by (split; [lia|right; unfold is_surr; lia]).
  assert (E8 : enc8 b = [b]) by (unfold enc8; replace (b <? 0x80) with true by lia; reflexivity).
  inversion HI as [|cp rest its' V' L I' E|bd rest its' U M I' E]; subst.
  - assert (H1 : is_prefix (enc8 b) (enc8 cp ++ rest)) by (rewrite E, E8; exists s; reflexivity).
    assert (H2 : is_prefix (enc8 cp) (enc8 cp ++ rest)) by (exists rest; reflexivity).
    rewrite (enc8_prefix_free false _ _ _ V' V H2 H1). reflexivity.
  - exfalso. apply (U b V). rewrite E8, E. exists s. reflexivity.
Qed.
Lemma first_byte_ascii t b s : 0 < b < 128 -> first_byte t (b :: s) = Some b.
Proof. intros Hb. cbn [first_byte]. unfold std_decode. replace (b <? 0x80) with true by lia. reflexivity. Qed.
(* the facet, for a codeset known *)
Lemma make_numpunct_ok enc point sep g rp rs :
  units 8 point -> units 8 sep -> Forall (fun x => x <> 0) point -> Forall (fun x => x <> 0) sep ->
  codeset_first enc point rp -> codeset_first enc sep rs ->
  (g <> grouping_empty -> make_numpunct enc point sep g = Some
    (mk_np (if match rs with Some c => c =? 0xFFFD | None => true end then grouping_empty else g)
           (code_or rp)
           (match rs with Some c => if c =? 0xFFFD then 0x2C else c | None => 0x2C end))) /\
  make_numpunct enc point sep grouping_empty = Some (mk_np grouping_empty (code_or rp) 0x2C).
Proof.
  intros HUp HUs HNp HNs Fp Fs.
  assert (Hgen : exists (f : decoder) (first : list Z -> option Z -> Prop), get_decoder enc = Some f /\
    (forall s r, units 8 s -> first s r -> decode_first_char f s = Some (code_or r)) /\
    (forall r, first [] r -> r = None) /\ (forall b s r, 0 < b < 128 -> first (b :: s) r -> r = Some b) /\
    first point rp /\ first sep rs).
  { inversion Fp; subst; inversion Fs; subst.
    - exists utf8_decoder, first_utf8. split; [reflexivity|]. split; [apply utf8_decoder_ok|].
      split; [apply first_utf8_nil|]. split; [apply first_utf8_ascii|auto].
    - exists (sb_decoder iso_8859_1), (fun s r => r = first_byte std_iso_8859_1 s). split; [reflexivity|].
      split; [intros s r HU ->; apply sb_decoder_ok; [unfold known; auto|exact HU]|].
      split; [auto|]. split; [intros b s r Hb ->; apply first_byte_ascii; exact Hb|auto].
    - exists (sb_decoder iso_8859_3), (fun s r => r = first_byte std_iso_8859_3 s). split; [reflexivity|].
      split; [intros s r HU ->; apply sb_decoder_ok; [unfold known; auto|exact HU]|].
      split; [auto|]. split; [intros b s r Hb ->; apply first_byte_ascii; exact Hb|auto].
    - exists (sb_decoder iso_8859_15), (fun s r => r = first_byte std_iso_8859_15 s). split; [reflexivity|].
      split; [intros s r HU ->; apply sb_decoder_ok; [unfold known; auto|exact HU]|].
      split; [auto|]. split; [intros b s r Hb ->; apply first_byte_ascii; exact Hb|auto]. }
  destruct Hgen as (f & first & H1 & H2 & H3 & H4 & H5 & H6). split.
  - intros Hg. apply (make_numpunct_known enc f first point sep g rp rs); assumption.
  - apply (make_numpunct_known enc f first point sep (grouping_empty + 1) rp rs); try assumption. lia.
Qed.
(* any other codeset: ASCII characters only *)
Lemma same_str_eq a : forall b, same_str a b = true -> a = b.
Proof.
  induction a as [|x a IH]; intros [|y b] H; cbn in H; try discriminate; [reflexivity|].
  apply andb_prop in H as [H1 H2]. f_equal; [lia|auto].
Qed.
Lemma get_decoder_none enc : ~ In enc [n_utf8; n_iso ++ [0x31]; n_iso ++ [0x33]; n_iso ++ [0x31; 0x35]] ->
  get_decoder enc = None.
Proof.
  intros H. unfold get_decoder.
  destruct (same_str enc n_utf8) eqn:E1; [exfalso; apply H; left; symmetry; apply same_str_eq; exact E1|].
  destruct (same_str enc (n_iso ++ [0x31])) eqn:E2; [exfalso; apply H; right; left; symmetry; apply same_str_eq; exact E2|].
  destruct (same_str enc (n_iso ++ [0x33])) eqn:E3; [exfalso; apply H; right; right; left; symmetry; apply same_str_eq; exact E3|].
  destruct (same_str enc (n_iso ++ [0x31; 0x35])) eqn:E4; [exfalso; apply H; right; right; right; left; symmetry; apply same_str_eq; exact E4|].
  reflexivity.
Qed.
Lemma make_numpunct_other enc b point c sep g : get_decoder enc = None -> 0 < b < 256 -> 0 < c < 256 ->
  g <> grouping_empty ->
  make_numpunct enc (b :: point) (c :: sep) g =
    Some (mk_np g (if b <? 128 then b else 0xFFFD) (if c <? 128 then c else 0xA0)).
Proof.
  intros HE Hb Hc Hg. unfold make_numpunct. cbn [first_unit].
  replace (b =? 0) with false by lia. replace (c =? 0) with false by lia. rewrite !land80 by lia.
  replace (g =? grouping_empty) with false by lia. rewrite HE.
  destruct (b <? 128); cbn [obind negb]; destruct (c <? 128); reflexivity.
Qed.
Lemma longest_scalar_8 cp rest : valid_cp false cp -> forall cp', valid_cp false cp' ->
  is_prefix (enc8 cp') (enc8 cp ++ rest) -> (length (enc8 cp') <= length (enc8 cp))%nat.
Proof. intros V. exact (longest_scalar U8 false cp rest V). Qed.
