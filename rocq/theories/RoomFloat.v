(* Floating-point values ask for no more room than they use. *)
From Verif Require Import Base DestModel DestProofs CharsetModel GroupModel DigitsModel IntSpec IntModel FloatSpec FloatModel RoomProofs RoomInt.

Lemma some_eq {A} (x y : A) : Some x = Some y -> x = y.
Proof. congruence. Qed.
Lemma zlen_nat {A} (l : list A) : Z.to_nat (zlen l) = length l.
Proof. unfold zlen. lia. Qed.
Lemma tight_leading v dc os : write_leading_zeros v dc = Some os -> Forall tight os.
Proof.
  unfold write_leading_zeros. intros H. dobind H. destruct (Z.leb_spec (zlen X) dc); [|discriminate]. injection H as <-. repeat constructor. cbn [tight].
  rewrite app_length, repeat_length. unfold zlen in *. lia.
Qed.
Section Groups.
Variables (encsep : list Z) (m : Z).
Hypothesis Hm : m <= zlen encsep.
Lemma tight_zero_group n : tight (zero_group encsep m n).
Proof. unfold zero_group, zeros. cbn [tight]. rewrite app_length, repeat_length. unfold zlen in *. lia. Qed.
Lemma tight_zero_low : forall fuel low os, zero_low fuel encsep m low = Some os -> Forall tight os.
Proof.
  induction fuel as [|fuel IH]; intros low os H; cbn [zero_low] in H; destruct (rdg_empty low); try discriminate; try (injection H as <-; constructor).
  dobind H. injection H as <-. constructor; [apply tight_zero_group|eapply IH; eassumption].
Qed.
Lemma tight_amplified_1 v nd d os : amplified_1 encsep m v nd d = Some os -> Forall tight os.
Proof.
  unfold amplified_1. intros H. dobind H. dobind H. pose proof (tight_back _ _ _ _ E0 ltac:(lia)) as T. destruct (dist_middle d =? 0).
  - dobind H. injection H as <-. apply Forall_app. split; [exact T|]. constructor; [exact I|eapply tight_zero_low; eassumption].
  - dobind H. injection H as <-. apply Forall_app. split; [exact T|]. constructor; [exact I|]. apply Forall_app. split; [|eapply tight_zero_low; eassumption].
    apply Forall_forall. intros x Hx. apply repeat_spec in Hx. subst x. apply tight_zero_group.
Qed.
Variable small : bool.
Hypothesis Hs : small = true -> (1 <= length encsep)%nat.
Lemma tight_partial grp ds : Forall tight (partial_group small encsep m grp ds).
Proof.
  unfold partial_group. destruct small eqn:E; repeat constructor; cbn [tight]; unfold zeros; rewrite !app_length, ?repeat_length; unfold zlen in *; [specialize (Hs eq_refl)|]; lia.
Qed.
Lemma tight_zero_middle grp : Forall tight (zero_middle small encsep m grp).
Proof.
  unfold zero_middle. destruct small; [|constructor; [apply tight_zero_group|constructor]]. apply Forall_app. split; [apply tight_puts|repeat constructor].
Qed.
Lemma tight_middles : forall n grp ds, Forall tight (fst (middle_groups n small encsep m grp ds)).
Proof.
  induction n as [|n IH]; intros grp ds; cbn [middle_groups]; [constructor|]. destruct (Z.leb_spec grp (zlen ds)).
  - specialize (IH grp (skipn (Z.to_nat grp) ds)). destruct (middle_groups _ _ _ _ _ _) as [os r]. cbn [fst] in *. constructor; [|exact IH].
    cbn [tight]. rewrite app_length, firstn_length. unfold zlen in *. lia.
  - cbn [fst]. apply Forall_app. split; [destruct (0 <? zlen ds); [apply tight_partial|constructor]|].
    set (k := if 0 <? zlen ds then n else S n). clearbody k. clear IH. induction k as [|k IHk]; [constructor|]. cbn [repeat concat]. apply Forall_app. split; [apply tight_zero_middle|exact IHk].
Qed.
Lemma tight_lower : forall fuel low ds r, lower_groups fuel encsep m low ds = Some r -> Forall tight (fst r).
Proof.
  induction fuel as [|fuel IH]; intros low ds r H; cbn [lower_groups] in H; [discriminate|]. destruct (rdg_empty low); [discriminate|]. cbv zeta in H.
  destruct (Z.ltb_spec (rdg_highest low) (zlen ds)).
  - dobind H. injection H as <-. cbn [fst]. constructor; [|eapply IH; eassumption]. cbn [tight]. rewrite app_length, firstn_length. unfold zlen in *. lia.
  - injection H as <-. cbn [fst]. constructor; [cbn [tight]; rewrite app_length; unfold zlen in *; lia|]. destruct (_ <? _); repeat constructor. cbn [tight]. unfold zeros. rewrite repeat_length. lia.
Qed.
Lemma tight_amplified_2 v nd d os : amplified_2 small encsep m v nd d = Some os -> Forall tight os.
Proof.
  unfold amplified_2. intros H. dobind H. destruct ((_ <? zlen X) || _); [discriminate|]. cbv zeta in H. destruct (Z.ltb_spec 0 (dist_highest d)); [|discriminate]. destruct (Z.ltb_spec (dist_highest d) (zlen X)); [|discriminate]. cbn [andb] in H.
  set (ds := skipn (Z.to_nat (dist_highest d)) X) in *. clearbody ds.
  assert (T : tight (OReserve (Z.to_nat (dist_highest d)) (firstn (Z.to_nat (dist_highest d)) X))) by (cbn [tight]; rewrite firstn_length; unfold zlen in *; lia).
  set (pr := if dist_middle d =? 0 then _ else _) in H. assert (T2 : Forall tight (fst (fst pr))).
  { unfold pr. destruct (dist_middle d =? 0); [constructor|]. pose proof (tight_middles (Z.to_nat (dist_middle d)) (rdg_highest (dist_low d)) ds) as T2. destruct (middle_groups _ _ _ _ _ _). exact T2. }
  clearbody pr. destruct pr as [[o2 rest] low].
  cbn [fst] in T2. dobind H. dobind H. injection H as <-. constructor; [exact T|]. apply Forall_app. split; [exact T2|]. apply Forall_app. split; [|eapply tight_zero_low; eassumption].
  destruct rest as [l|]; [|injection E0 as <-; constructor]. destruct (0 <? zlen l); [eapply tight_lower; eassumption|injection E0 as <-; constructor].
Qed.
Lemma tight_amplified g v nd tr os : amplified small g encsep m v nd tr = Some os -> Forall tight os.
Proof.
  unfold amplified. intros H. dobind H. destruct (_ <=? _); [eapply tight_amplified_1|eapply tight_amplified_2]; eassumption.
Qed.
End Groups.

Lemma tight_sci mm dc point m e sp x lc os : (sp = true -> m <= zlen point) -> print_sci mm dc point m e sp x lc = Some os -> Forall tight os.
Proof.
  unfold print_sci. intros Hm H. dobind H. dobind H. injection H as <-.
  assert (tight X).
  { destruct (dc =? 1).
    - apply some_eq in E. subst X. cbn [tight length]. destruct sp; [specialize (Hm eq_refl)|]; cbn [b2i length]; unfold zlen in *; lia.
    - dobind E. destruct (Z.eqb_spec (zlen X1) dc); [|discriminate]. destruct (Z.eqb_spec (zlen point) m); [|discriminate]. apply some_eq in E. subst X. cbn [tight length]. rewrite app_length. unfold zlen in *. destruct X1; cbn [length tl] in *; lia. }
  repeat constructor; [assumption|]. cbn [tight]. rewrite zlen_nat. lia.
Qed.
Lemma tight_sign s c : Forall tight (p_sign s c).
Proof. destruct s; repeat constructor. Qed.
Lemma tight_fixed cs ub n fd sign sub g sep ss point ps os : (ss <> 1 -> ss <= zlen (cs_encode cs sep)) -> ps <= zlen (point_units cs point) ->
  print_fixed cs ub n fd sign sub g sep ss point ps = Some os -> Forall tight os.
Proof.
  intros Hs Hp. unfold print_fixed. cbv zeta. set (pt := point_units cs point) in *. set (enc := cs_encode cs sep) in *.
  assert (TH : Forall tight (p_sign (fd_showsign fd) sign ++ (if sub <? fd_pad0 fd then [OFill (fd_pad0 fd - sub) 48] else []))).
  { apply Forall_app. split; [apply tight_sign|destruct (_ <? _); repeat constructor]. }
  assert (TP : tight (OReserve (Z.to_nat ps) pt)) by (cbn [tight]; unfold zlen in *; lia).
  set (hd0 := p_sign _ _ ++ _) in *. clearbody hd0 pt enc. destruct (0 <=? n_e n).
  - intros H. dobind H. apply some_eq in H; subst os. apply Forall_app. split; [exact TH|]. apply Forall_app. split; [|apply Forall_app; split; [destruct (n_point n)|]; repeat constructor; exact TP].
    destruct (n_seps n =? 0); [dobind E; injection E as <-; apply Forall_app; split; [eapply (tight_write B10); eassumption|repeat constructor]|].
    destruct (Z.eqb_spec ss 1); [eapply tight_amplified; [| |eassumption]; cbn; lia|]. eapply tight_amplified; [| |eassumption]; [auto|discriminate].
  - destruct (_ && _); [discriminate|]. destruct (n_digcount n <=? _).
    + intros H. dobind H. apply some_eq in H; subst os. apply Forall_app. split; [exact TH|]. apply Forall_app. split.
      * constructor; [|repeat constructor]. cbn [tight length]. unfold zlen in *. lia.
      * apply Forall_app. split; [eapply (tight_write B10); eassumption|repeat constructor].
    + intros H. dobind H. destruct (negb _) in H; [discriminate|]. dobind H. dobind H. apply some_eq in H; subst os. apply Forall_app. split; [exact TH|]. apply Forall_app. split.
      * destruct (n_seps n =? 0); [eapply (tight_write B10); eassumption|]. destruct (Z.eqb_spec ss 1); [eapply (tight_write_little B10); eassumption|eapply (tight_write_big B10); [|eassumption]; auto].
      * cbn [app]. constructor; [exact TP|]. apply Forall_app. split; [eapply tight_leading; eassumption|repeat constructor].
Qed.
Lemma frugal_hex cs lc sn n fd sign sub point ps os : sub <= b2z (fd_showsign fd) + 5 + b2z (n_point n) + n_digcount n + n_seps n -> (n_m n = 0 -> n_digcount n <= 0) ->
  ps <= (if n_point n then zlen (point_units cs point) else 0) -> print_hex cs lc sn n fd sign sub point ps = Some os -> frugal os.
Proof.
  intros Hsub Hm Hp. unfold print_hex. cbv zeta. destruct (negb (Bool.eqb _ _)); [discriminate|]. intros H. dobind H.
  destruct (Z.eqb_spec (zlen X) (n_seps n)) as [HX|]; [|discriminate]. cbn [negb orb] in H. destruct ((13 <? n_digcount n) && negb (n_m n =? 0)); [discriminate|].
  set (hd0 := (if fd_showsign fd then [sign] else []) ++ _) in *. assert (HL : zlen hd0 = b2z (fd_showsign fd) + 2) by (unfold hd0; rewrite zlen_app; destruct (fd_showsign fd); reflexivity).
  set (dg := if n_m n =? 0 then [] else _) in *. assert (HD : n_digcount n <= zlen dg).
  { unfold dg. destruct (Z.eqb_spec (n_m n) 0); [unfold zlen; cbn; auto|]. unfold zlen. rewrite map_length, seq_length. lia. }
  set (ld := Z.lor 48 (b2i (negb sn))) in *.
  set (pt := if n_point n then point_units cs point else []) in *. assert (HP : zlen pt = if n_point n then zlen (point_units cs point) else 0) by (unfold pt; destruct (n_point n); reflexivity).
  clearbody hd0 dg pt ld. set (t1 := Z.lor 80 _) in *. set (t2 := 43 + _) in *. clearbody t1 t2.
  assert (HB : zlen (ld :: pt ++ dg) = 1 + zlen pt + zlen dg) by (unfold zlen; cbn [length]; rewrite app_length; lia).
  assert (HT : zlen (t1 :: t2 :: X) = 2 + n_seps n) by (unfold zlen in *; cbn [length]; lia).
  set (bd := ld :: pt ++ dg) in *. set (tl0 := t1 :: t2 :: X) in *. clearbody bd tl0.
  set (A := (if sub + n_extra n <? fd_pad0 fd then _ else _)) in H. apply some_eq in H. subst os. unfold A; clear A.
  assert (0 <= b2z (fd_showsign fd) <= 1) by (destruct (fd_showsign fd); cbn; lia).
  assert (0 <= b2z (n_point n) <= 1) by (destruct (n_point n); cbn; lia).
  destruct (n_extra n =? 0), (sub + n_extra n <? fd_pad0 fd); cbn [app frugal need_of]; unfold ops_text; cbn [map op_text concat];
    repeat rewrite !app_length; cbn [length]; rewrite ?repeat_length; unfold zlen in *; repeat split; lia.
Qed.
Lemma tight_special lc n fd sign : Forall tight (print_inf_or_nan lc n fd sign).
Proof.
  unfold print_inf_or_nan. apply Forall_app. split; [apply tight_sign|]. repeat constructor. destruct (n_form n), lc; cbn; lia.
Qed.
Lemma init_hex_sub clz sh sn mantissa e prec sp : 0 <= mantissa -> let n := init_hex clz sh sn mantissa e prec sp in
  n_sub n = b2z sh + 5 + b2z (n_point n) + n_digcount n + n_seps n /\ (n_m n = 0 -> n_digcount n <= 0).
Proof.
  intros Hm n. unfold n, init_hex. destruct (sn && (mantissa =? 0)); [cbn [n_sub n_point n_digcount n_seps n_m]; lia|].
  destruct (Z.eqb_spec mantissa 0); [cbn [n_sub n_point n_digcount n_seps n_m]; lia|]. destruct (negb (0 <=? prec)); [cbn [n_sub n_point n_digcount n_seps n_m b2z]; lia|].
  destruct (_ <=? _); [cbn [n_sub n_point n_digcount n_seps n_m b2z]; lia|]. cbv zeta. cbn [n_sub n_point n_digcount n_seps n_m]. split; [lia|].
  assert (0 <= Z.shiftl 1 (Z.shiftl (13 - prec) 2)) by (apply Z.shiftl_nonneg; lia). destruct (_ || _); intros; lia.
Qed.
(* the decimal notations *)
Definition plain (q : option num) : Prop := forall n, q = Some n -> n_form n = FormFixed \/ n_form n = FormSci.
Ltac plain_tac := repeat match goal with
  | |- plain (Some _) => let n := fresh "n" in let H := fresh "H" in intros n H; apply some_eq in H; subst n; cbn [n_form]; auto
  | |- plain None => intros ? ?; discriminate
  | |- plain (obind ?e _) => destruct e; cbn [obind]
  | |- plain (match ?e with pair _ _ => _ end) => destruct e
  | |- plain (if ?b then _ else _) => destruct b
  | |- plain (Some (if ?b then _ else _)) => destruct b
  end.
Lemma plain_1digit g sh e s x p a : plain (general_1digit g sh e s x p a).
Proof.
  unfold general_1digit. cbv zeta. generalize (if p =? 0 then 1 else p). intros q.
  destruct ((e <? -4) || (q <=? e)); [destruct a; plain_tac|]. destruct (e <? 0); [destruct a; plain_tac|]. destruct (separators_count g (1 + e)); cbn [obind]; [|plain_tac].
  destruct (a && _); plain_tac.
Qed.
Lemma plain_remove g sh f m d e s x i se p a : f = FormFixed \/ f = FormSci -> plain (remove_digits g sh f m d e s x i se p a).
Proof.
  intros Hf. unfold remove_digits. cbv zeta. destruct (drop_digits _ _); cbn [obind]; [|plain_tac]. destruct (pow10 _); cbn [obind]; [|plain_tac].
  destruct (_ =? _); [apply plain_1digit|]. destruct (strip_loop _ _ _ _ _ _) as [[[[[m' d'] s'] e'] fr]|]; cbn [obind]; [|plain_tac].
  intros n H. apply some_eq in H. subst n. exact Hf.
Qed.
Lemma plain_num clz g f x n : ff_notation f <> NHex -> init_num clz g f x = Some n -> n_form n <> FormHex.
Proof.
  intros HN H. unfold init_num in H. destruct (fl_bits x) as [| |sn mm ex m e]; [injection H as <-; discriminate|injection H as <-; discriminate|].
  assert (P : plain (Some n)).
  { rewrite <- H. clear H. generalize (fl_negative x || negb (sign_char (ff_sign f) =? 0)). intros sh. destruct (ff_notation f); try (exfalso; apply HN; reflexivity); destruct (ff_precision f =? -1).
    all: first [apply plain_remove; auto|unfold noprec_general, prec_general, noprec_sci, prec_sci, noprec_fixed, prec_fixed; cbv zeta].
    all: repeat (try (apply plain_remove; auto; fail); match goal with
      | |- plain (Some _) => progress plain_tac
      | |- plain None => plain_tac
      | |- plain (obind ?e _) => destruct e; cbn [obind]
      | |- plain (match ?e with pair _ _ => _ end) => destruct e
      | |- plain (if ?b then _ else _) => destruct b
      end). }
  destruct (P n eq_refl) as [-> | ->]; discriminate.
Qed.

Lemma point_room cs c : charset_ok cs -> 0 <= c < 2 ^ 32 -> cs_size cs c <= zlen (point_units cs c).
Proof.
  intros K Hc. rewrite (ok_size cs K c Hc). unfold point_units. destruct (Z.ltb_spec c 128); [|lia]. rewrite (ok_ascii cs K c) by lia. cbn. lia.
Qed.
Lemma fill_sign sh sg c p0 w n al : (sg = 32 -> sh = true) -> b2z (fd_showsign (init_fill sh sg c p0 w n al)) = b2z sh - fd_dec (init_fill sh sg c p0 w n al).
Proof.
  intros H. unfold init_fill. destruct (w <=? n).
  - destruct (Z.eqb_spec sg 32) as [E|]; [rewrite (H E); destruct (c =? 32)|]; cbn; lia.
  - destruct al; (destruct (Z.eqb_spec sg 32) as [E|]; [rewrite (H E)|]; cbn; lia).
Qed.
Theorem frugal_punct F f al x p : charset_ok (fk_charset F) -> 0 <= fk_thousands F < 2 ^ 32 -> 0 <= fk_point10 F < 2 ^ 32 -> 0 <= fk_point16 F < 2 ^ 32 -> 0 <= al_fill al < 2 ^ 32 ->
  match fl_bits x with BFinite _ mantissa _ _ _ => 0 <= mantissa | _ => True end -> punct_double F f al x = Some p -> frugal (pr_ops p).
Proof.
  intros K Hs H10 H16 Hf Hx. unfold punct_double. cbv zeta.
  set (point := if ff_punct f then _ else 46). assert (Hp : 0 <= point < 2 ^ 32) by (unfold point; destruct (ff_punct f), (is_hex (ff_notation f)); auto; change (2 ^ 32) with 4294967296; lia).
  set (sep := if ff_punct f then fk_thousands F else 44). assert (Hsep : 0 <= sep < 2 ^ 32) by (unfold sep; destruct (ff_punct f); auto; change (2 ^ 32) with 4294967296; lia).
  clearbody point. set (gs := if ff_punct f then _ else _). assert (HG : snd gs <> 1 -> snd gs <= zlen (cs_encode (fk_charset F) sep)).
  { unfold gs. destruct (ff_punct f); [|cbn; lia]. destruct (Z.eqb_spec (cs_validate (fk_charset F) sep) (-1)); cbn [snd]; [lia|]. destruct (ok_validate _ K sep Hsep); lia. }
  clearbody gs sep. destruct gs as [g ss]. cbn [snd] in HG. intros H. dobind H. rename X into n. dobind H. dobind H. dobind H. apply some_eq in H. subst p. cbn [pr_ops].
  set (fd := init_fill _ _ _ _ _ _ _) in *.
  assert (TF : forall k : Z, frugal (if 0 <? k then [cs_fill (fk_charset F) k (al_fill al)] else [])).
  { intros k. destruct (0 <? k); [|exact I]. apply tight_frugal. repeat constructor. apply tight_fill; assumption. }
  apply frugal_app; [apply TF|]. apply frugal_app; [|apply TF].
  assert (HFD : b2z (fd_showsign fd) = b2z (fl_negative x || negb (sign_char (ff_sign f) =? 0)) - fd_dec fd).
  { apply fill_sign. destruct (fl_negative x); [reflexivity|]. intros ->. reflexivity. }
  pose proof (point_room _ _ K Hp) as HP. pose proof (ok_size _ K point Hp).
  destruct (n_form n) eqn:EF.
  - injection E2 as <-. apply tight_frugal, tight_special.
  - injection E2 as <-. apply tight_frugal, tight_special.
  - apply tight_frugal. eapply tight_fixed; [exact HG| |exact E2]. destruct (n_point n); [lia|apply zlen_nonneg].
  - unfold print_scientific in E2. dobind E2. apply some_eq in E2. subst X1. apply tight_frugal. apply Forall_app. split; [apply tight_sign|]. cbn [app]. constructor; [exact I|].
    eapply tight_sci; [|exact E3]. intros ->. lia.
  - destruct (ff_notation f) eqn:EN; try (exfalso; refine (plain_num _ _ f _ _ _ E EF); rewrite EN; discriminate). unfold init_num in E. rewrite EN in E. destruct (fl_bits x) as [| |sn mm ex m e]; [injection E as <-; discriminate|injection E as <-; discriminate|].
    destruct (negb (mm =? _)) in E; [discriminate|]. apply some_eq in E. destruct (init_hex_sub (fk_clz F) (fl_negative x || negb (sign_char (ff_sign f) =? 0)) sn mm ex (ff_precision f) (ff_showpoint f) Hx) as [S1 S2]. rewrite E in S1, S2.
    eapply frugal_hex; [| | |exact E2]; [lia|exact S2|destruct (n_point n); lia].
Qed.

Lemma back10_longer : forall fuel v acc u, back10 fuel v acc = Some u -> (length acc < length u)%nat.
Proof.
  induction fuel as [|fuel IH]; intros v acc u H; cbn [back10] in H; [discriminate|]. cbv zeta in H.
  repeat match type of H with (if ?b then _ else _) = _ => destruct b end; try discriminate; try (injection H as <-; cbn [length]; lia).
  apply IH in H. cbn [length] in H. lia.
Qed.
Lemma exponent_long lc e x : exponent_units lc e = Some x -> 4 + far e <= zlen x.
Proof.
  unfold exponent_units, far. cbv zeta. intros H. destruct (Z.leb_spec 1000 (Z.abs e)); [discriminate|].
  destruct (Z.leb_spec 100 (Z.abs e)); [apply some_eq in H; subst x; destruct (_ || _); cbn; lia|].
  replace ((99 <? e) || (e <? -99)) with false by lia. destruct (_ <=? _); apply some_eq in H; subst x; cbn; lia.
Qed.
Lemma frugal_fast lc neg b os : fast_ops lc neg b = Some os -> frugal os.
Proof.
  unfold fast_ops. set (mn := if neg then [45] else []). assert (HM : zlen mn = b2z neg) by (unfold mn; destruct neg; reflexivity). clearbody mn.
  assert (0 <= b2z neg <= 1) by (destruct neg; cbn; lia). set (bn := b2z neg) in *. clearbody bn. intros H1. destruct b as [| |sn mm ex m e].
  - apply some_eq in H1. subst os. apply tight_frugal. constructor; [|constructor]. cbn [tight]. rewrite app_length. unfold zlen in HM. destruct lc; cbn [length]; lia.
  - apply some_eq in H1. subst os. apply tight_frugal. constructor; [|constructor]. cbn [tight]. rewrite app_length. unfold zlen in HM. destruct lc; cbn [length]; lia.
  - cbv zeta in H1. set (dc := digcount10 m) in *. clearbody dc. destruct (fast_is_sci e dc) eqn:Es.
    + dobind H1. dobind H1. apply some_eq in H1. subst os. apply tight_frugal. constructor; [|constructor]. cbn [tight]. rewrite !app_length. unfold zlen in HM.
      assert (A1 : dc + b2z (negb (dc =? 1)) <= zlen X).
      { destruct (Z.eqb_spec dc 1); [injection E as <-; cbn; lia|]. dobind E. destruct (Z.eqb_spec (zlen X1) dc) as [C|]; [|discriminate]. apply some_eq in E. subst X. cbn [negb b2z].
        unfold zlen in *. destruct X1; cbn [length tl hd] in *; lia. }
      apply exponent_long in E0. unfold zlen in *. lia.
    + destruct (Z.leb_spec 0 e).
      * dobind H1. apply back10_longer in E. cbn [length] in E. destruct (Z.eqb_spec (zlen X) dc) as [C|]; [|discriminate]. apply some_eq in H1. subst os. apply tight_frugal.
        constructor; [|repeat constructor]. cbn [tight]. rewrite !app_length. unfold zlen in *. replace (- dc <? e) with true by lia. replace (e <=? - dc) with false by lia. replace (e <? 0) with false by lia. cbn [b2z]. lia.
      * destruct (Z.leb_spec dc (- e)).
        -- dobind H1. dobind H1. apply some_eq in H1. subst os. apply back10_longer in E. pose proof (tight_back _ _ _ _ E0 ltac:(lia)) as T. unfold reserve_back in E0. destruct (Z.eqb_spec (zlen X) dc) as [C|]; [|discriminate].
           apply some_eq in E0. cbn [app frugal need_of]. split; [|split; [exact I|apply tight_frugal, T]].
           subst X0. unfold ops_text. cbn [map op_text concat]. rewrite !app_length. cbn [length]. unfold zlen in *. replace (- dc <? e) with false by lia. replace (e <=? - dc) with true by lia. replace (e <? 0) with true by lia. cbn [b2z]. lia.
        -- dobind H1. dobind H1. destruct (Z.eqb_spec (zlen X0) (dc + 1)) as [C|]; [|discriminate]. apply some_eq in H1. subst os. apply tight_frugal.
           constructor; [|constructor]. cbn [tight]. rewrite !app_length. unfold zlen in *. replace (- dc <? e) with true by lia. replace (e <=? - dc) with false by lia. replace (e <? 0) with true by lia. cbn [b2z]. lia.
Qed.
