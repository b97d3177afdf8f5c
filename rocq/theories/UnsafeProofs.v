(* Transcoding with the unsafe functions, on well-formed sources: CsetModel.unsafe_into and
   StringModel.unsafe_transcoded_size. *)
From Verif Require Import Base WidthModel DestModel DestProofs UtfSpec UtfModel UtfSizeModel UtfForms UtfDecode UtfLoop UtfTheorems Properties_Utf
  CharsetModel TransSpec SbcsTables SbcsModel SbcsSpec SbcsProofs Properties_Sbcs PivotModel PivotProofs CsetModel CsetProofs Properties_Pivot
  GcbTable WCalcModel IntSpec IntModel PrintModel StringModel.

(* decoding a well-formed text, unsafely *)
Lemma unsafe_decoding_text a fl src cps : is_cset a -> unit_text a src -> no_stop fl -> well_formed_in a (f_lax fl) src -> text_in a (f_lax fl) src cps ->
  exists l, srcs l = src /\ (length l <= length src)%nat /\ decoding (valid_cp (f_lax fl)) (to_u32_unsafe_of a fl) l /\
    full l = mk_tr [] cps RCompleted (r_notes (full l)) /\ Forall (fun c => 0 <= c) cps.
Proof.
  intros HA HU HN HW HT. destruct (cset_decoding_unsafe a fl src HA HU HW) as (l & Hl & HL & HD & HDu & _).
  destruct (decoding_text a fl src cps HA HU HN HT) as (l' & Hl' & HL' & HD' & HNs & HO).
  exists l. split; [exact Hl|]. split; [exact HL|]. split; [exact HDu|].
  destruct (decoding_full _ _ l (zlen src) HD) as [E1 HP]; [unfold zlen; lia|apply zlen_nonneg|].
  destruct (decoding_full _ _ l' (zlen src) HD') as [E2 _]; [unfold zlen; lia|apply zlen_nonneg|].
  rewrite Hl in E1. rewrite Hl', E1 in E2. injection E2 as E2.
  destruct (run_nostop l' (zlen (outs l')) HNs ltac:(lia)) as (D1 & D2 & D3). change (run_steps l' (zlen (outs l'))) with (full l') in D1, D2, D3.
  rewrite <- E2, HO in *. split.
  - destruct (full l) as [r o y n]. cbn [r_rest r_out r_reason r_notes] in *. subst. reflexivity.
  - rewrite <- D2. eapply Forall_impl; [|exact HP]. intros c [Hc _]. lia.
Qed.

Definition copy_step (c : Z) : step := mk_step [c] [c] NoReport None.
Lemma copy_steps src : forall sp, 0 <= sp -> sb_copy src sp = Some (run_steps (map copy_step src) sp).
Proof.
  unfold sb_copy. induction src as [|c src IH]; intros sp Hs.
  - change (zlen (@nil Z)) with 0. replace (0 <=? sp) with true by lia. reflexivity.
  - rewrite zlen_cons. cbn [map run_steps]. unfold note_of. cbn [copy_step st_stop st_out st_src st_report].
    change (zlen [c]) with 1. pose proof (zlen_nonneg src).
    destruct (Z.leb_spec 1 sp).
    + specialize (IH (sp - 1) ltac:(lia)).
      destruct (Z.leb_spec (1 + zlen src) sp), (Z.leb_spec (zlen src) (sp - 1)); try lia; injection IH as <-; cbn [r_rest r_out r_reason r_notes app]; [reflexivity|].
      replace (Z.to_nat sp) with (S (Z.to_nat (sp - 1))) by lia. reflexivity.
    + replace sp with 0 by lia. replace (1 + zlen src <=? 0) with false by lia. cbn [Z.to_nat skipn firstn app].
      change (copy_step c :: map copy_step src) with (map copy_step (c :: src)). rewrite srcs_units by reflexivity. reflexivity.
Qed.

Lemma direct_unsafe_text a b func fl src cps out : is_cset a -> is_cset b -> direct_unsafe a b = Some func -> unit_text a src -> no_stop fl ->
  well_formed_in a (f_lax fl) src -> text_in a (f_lax fl) src cps -> Forall2 (encoded_in b) cps out ->
  exists l, srcs l = src /\ (length l <= length src)%nat /\ steps_of (func fl) l /\ Forall nostop l /\ outs l = concat out.
Proof.
  intros HA HB HD HU [HS1 HS2] HW HT HE.
  destruct a as [f|i cs], b as [g|j cs']; cbn [text_in well_formed_in] in HT, HW.
  - assert (func = fun fl src sp => option_map lift (unsafe_transcode_of f g (f_lax fl) src sp)) as -> by (destruct f; injection HD as <-; reflexivity).
    destruct (direct_text (Utf f) (Utf g) (fun fl src sp => option_map lift (transcode_of f g (f_lax fl) (f_stop_invalid fl) src sp)) fl src cps out HA HB
      ltac:(destruct f; reflexivity) HU (conj HS1 HS2) HT HE) as (l0 & _).
    clear l0. destruct HT as (its & HI & ->). destruct HW as (its' & HI' & HBad).
    assert (its' = its) as -> by (eapply (items_det_of f); eassumption).
    exists (item_steps f g (f_stop_invalid fl) its).
    split; [rewrite srcs_items; symmetry; apply (items_src _ _ _ _ HI)|]. split; [unfold item_steps; rewrite map_length; eapply items_length_of; exact HI|].
    split; [split|split].
    + intros p q sp E Hs. unfold item_steps in E. apply map_eq_app in E as (p' & s & -> & <- & <-).
      fold (item_steps f g (f_stop_invalid fl) s). rewrite srcs_items.
      rewrite (C25_unsafe_transcode f g (f_lax fl) (f_stop_invalid fl) _ s sp);
        [|eapply units_srcs; eassumption|exact Hs|eapply items_suffix; exact HI|rewrite existsb_app in HBad; apply orb_false_iff in HBad; apply HBad].
      apply transcode_run; [eapply units_srcs; eassumption|exact Hs|eapply items_suffix; exact HI].
    + apply Forall_map. apply Forall_forall. intros it _. split.
      * unfold real_stop. cbn [item_step st_stop]. destruct (is_bad it && f_stop_invalid fl); exact I.
      * cbn [item_step st_out]. destruct it; cbn [out_of]; [pose proof (enc_of_len g cp)|pose proof (enc_of_len g 0xFFFD)]; lia.
    + apply Forall_map. apply Forall_forall. intros it _. unfold nostop. cbn [item_step st_stop]. rewrite HS1, andb_false_r. reflexivity.
    + rewrite outs_items. clear - HE. remember (map cp_of its) as cps eqn:E. revert its E. induction HE as [|cp o cps out H HF IH]; intros [|it its] E; try discriminate; [reflexivity|].
      injection E as -> E. cbn [concat]. rewrite <- (IH its E). cbn [encoded_in] in H. rewrite H. destruct it; reflexivity.
  - destruct f; cbn [direct_unsafe] in HD; try discriminate. injection HD as <-.
    pose proof (cset_encoding (Sb j cs') fl HB) as [HEn HEs]. cbn [from_u32_unsafe_of] in HEn.
    destruct HT as (its & HI & ->). destruct HW as (its' & HI' & HBad). assert (its' = its) as -> by (eapply (items_det_of U32); eassumption).
    assert (src = map cp_of its /\ Forall (valid_cp (f_lax fl)) src) as [Es HV].
    { clear - HI HBad. cbn [enc_of] in HI. induction HI as [|cp rest its0 HV HL HI0 IH|bad rest its0 HUn HMx HI0 IH]; [split; [reflexivity|constructor]| |discriminate].
      cbn [existsb is_bad orb] in HBad. destruct (IH HBad) as [E F]. cbn [enc32 app map cp_of]. split; [congruence|constructor; assumption]. }
    exists (map (enc_step_of (Sb j cs') fl) src).
    split; [apply srcs_units; intros c; apply (HEs c)|]. split; [rewrite map_length; lia|]. split; [|split].
    + apply steps_of_map.
      * intros c. split; [apply (HEs c)|]. split; [|apply enc_step_len]. unfold real_stop. destruct (HEs c) as (_ & [-> | ->] & _); exact I.
      * intros s sp [p E] Hs. rewrite E in HV. apply Forall_app in HV. apply HEn; [apply HV|exact Hs].
    + apply enc_step_nostop. split; assumption.
    + rewrite <- Es in HE. apply outs_encoded; [exact HB| |exact HE]. eapply Forall_impl; [|exact HV]. intros c [Hc _]. lia.
  - destruct g; cbn [direct_unsafe] in HD; try discriminate. injection HD as <-. exists (map (to_step cs fl) src).
    split; [apply srcs_units; reflexivity|]. split; [rewrite map_length; lia|]. split; [|split].
    + apply steps_of_map.
      * intros c. split; [reflexivity|]. split; [|cbn; lia]. unfold real_stop. cbn [to_step st_stop].
        destruct (_ && f_stop_invalid fl); exact I.
      * intros s sp [p ->] Hs. apply Forall_app in HU. apply Forall_app in HW. apply (sb_unsafe_steps i); [exact HA|apply HU|apply HW|exact Hs].
    + apply Forall_map. apply Forall_forall. intros c _. unfold nostop. cbn [to_step st_stop]. rewrite HS1, !andb_false_r. reflexivity.
    + clear - HT HE. revert out HE src HT. induction cps as [|cp cps IH]; intros out HE src HT; inversion HE; subst; destruct src as [|c src]; try discriminate; [reflexivity|].
      cbn [map] in HT. injection HT as E HT. cbn [map concat]. rewrite outs_cons, (IH l' ltac:(assumption) src HT). f_equal.
      match goal with H : encoded_in _ _ _ |- _ => cbn [encoded_in] in H; rewrite H end. cbn [to_step st_out]. unfold decoded. rewrite E. reflexivity.
  - cbn [direct_unsafe] in HD. destruct (Nat.eqb_spec i j) as [Eij|]; [|discriminate]. injection HD as <-. exists (map copy_step src).
    assert (cs' = cs) as -> by (subst j; cbn [is_cset] in HA, HB; congruence).
    split; [apply srcs_units; reflexivity|]. split; [rewrite map_length; lia|]. split; [|split].
    + apply steps_of_map.
      * intros c. split; [reflexivity|]. split; [exact I|cbn; lia].
      * intros s sp _ Hs. apply copy_steps; exact Hs.
    + apply Forall_map. apply Forall_forall. intros c _. reflexivity.
    + pose proof (all_ok i cs HA) as OK. change (Forall (fun c => 0 <= c < 256) src) in HU. clear HB.
      revert out HE src HU HW HT. induction cps as [|cp cps IH]; intros out HE src HU HW HT; inversion HE; subst; destruct src as [|c src]; try discriminate; [reflexivity|].
      cbn [map] in HT. injection HT as E HT. inversion HU; subst. pose proof (Forall_inv HW) as Hv. apply Forall_inv_tail in HW. cbv beta in Hv.
      cbn [map concat]. rewrite outs_cons, (IH l' ltac:(assumption) src ltac:(assumption) HW HT). f_equal.
      match goal with H : encoded_in _ _ _ |- _ => destruct H as (e & Ee & ->) end. cbn [copy_step st_out].
      assert (decoded cs c = cp) as Dc by (unfold decoded; rewrite E; reflexivity).
      rewrite (valid_decoded cs _ OK c ltac:(assumption)) in Hv. apply negb_true_iff, Z.eqb_neq in Hv.
      pose proof (encoded_decoded cs _ OK c ltac:(assumption) Hv) as X. unfold encoded in X. rewrite Dc, Ee in X. subst e.
      replace (c <? 0x100) with true by lia. reflexivity.
Qed.

Lemma direct_unsafe_some a b : (direct_unsafe a b = None <-> direct a b = None) /\ (direct_unsafe_size a b = None <-> direct a b = None).
Proof. destruct a as [[]|i cs], b as [[]|j cs']; cbn [direct direct_unsafe direct_unsafe_size]; try (split; split; (reflexivity || discriminate)). destruct (i =? j)%nat; split; split; (reflexivity || discriminate). Qed.

Lemma unsafe_into_ok {S} (ops : dest_ops S) R pre : dest_laws ops R pre ->
  forall a b fl src cps out s t, is_cset a -> is_cset b -> unit_text a src -> no_stop fl ->
  well_formed_in a (f_lax fl) src -> text_in a (f_lax fl) src cps -> Forall2 (encoded_in b) cps out -> R s t ->
  exists s' r, unsafe_into ops a b fl s src = Some (s', r) /\ R s' (t ++ concat out) /\
    (ds_reason r = RInsufficient /\ d_good ops s' = false \/
     r = mk_des (zlen (concat out)) [] 0 RCompleted).
Proof.
  intros L a b fl src cps out s t HA HB HU HN HW HT HE HR. unfold unsafe_into.
  destruct (direct_unsafe a b) as [func|] eqn:ED.
  - destruct (direct_unsafe_text a b func fl src cps out HA HB ED HU HN HW HT HE) as (l & Hl & HL & HS & HNs & HO).
    destruct (transcode_to_dest_ok ops R pre L (func fl) (Datatypes.S (Datatypes.S (length src))) l s t HS HR ltac:(lia)) as (s' & z & E & H1 & H2).
    rewrite Hl in E. rewrite E. cbn [obind fst snd]. eexists _, _. split; [reflexivity|].
    destruct (run_nostop l (zlen (outs l)) HNs ltac:(lia)) as (D1 & D2 & D3). change (run_steps l (zlen (outs l))) with (full l) in D1, D2, D3.
    rewrite D1, D2, D3, HO in *. split; [exact H1|]. cbn [ds_reason]. destruct H2 as [(H2 & HG & _)|(E1 & E2 & E3)]; [left; auto|right].
    rewrite E1, E2, E3. reflexivity.
  - destruct (unsafe_decoding_text a fl src cps HA HU HN HW HT) as (l & Hl & HL & HD & HF & HP).
    destruct (decode_encode_dest_ok ops R pre L _ _ _ _ (Datatypes.S (length src)) l s t (cset_encoding b fl HB) (enc_step_len b fl) HD HR ltac:(lia))
      as (s' & r & E & H1 & H2).
    rewrite Hl in E. exists s', r. split; [exact E|].
    rewrite HF in H1, H2. cbn [r_out r_rest r_reason] in H1, H2. pose proof (outs_encoded b fl cps out HB HP HE) as EO.
    set (m := map (enc_step_of b fl) cps) in *.
    destruct (run_nostop m (zlen (outs m)) (enc_step_nostop b fl cps HN) ltac:(lia)) as (E1 & E2 & E3).
    change (run_steps m (zlen (outs m))) with (full m) in E1, E2, E3. rewrite E2, EO in *. split; [exact H1|].
    destruct H2 as [(H2 & HG & _)|(T0 & T1 & _)]; [left; auto|right]. destruct (T1 E3) as (U1 & U2 & U3).
    destruct r as [rs rt rd rr]. cbn [ds_size ds_reason ds_stale ds_dist] in *. subst. reflexivity.
Qed.

Lemma plain_size_ok src limit : zlen src <= limit -> plain_size src limit = Some (mk_szr (zlen src) [] RCompleted).
Proof. intros H. unfold plain_size. replace (zlen src <=? limit) with true by lia. reflexivity. Qed.
Lemma unsafe_transcoded_size_ok a b k cps out : is_cset a -> is_cset b -> unit_text a k -> well_formed_in a false k -> text_in a false k cps -> Forall2 (encoded_in b) cps out ->
  zlen (concat out) < ssize_max -> unsafe_transcoded_size a b k = Some (zlen (concat out)).
Proof.
  intros HA HB HU HW HT HE HZ. unfold unsafe_transcoded_size.
  assert (NS : no_stop flags_none) by (split; reflexivity).
  pose proof (zlen_nonneg (concat out)) as H0.
  destruct (direct_unsafe_size a b) as [func|] eqn:ED.
  - destruct a as [f|i cs], b as [g|j cs'].
    + assert (func = fun fl src limit => option_map lift_size (unsafe_size_of f g (f_lax fl) src limit)) as -> by (destruct f; injection ED as <-; reflexivity).
      cbn [flags_none f_lax]. destruct HW as (its & HI & HBad).
      assert (exists r, transcode_of f g false false k ssize_max = Some r /\ t_out r = concat out) as (r & Er & Eo).
      { destruct (C28_transcode_text (Utf f) (Utf g) flags_none k cps out ssize_max HA HB HU NS HT HE ltac:(lia)) as (r & Er & Ho & _).
        unfold transcode_between in Er. destruct f; cbn [direct flags_none f_lax f_stop_invalid] in Er; (destruct (transcode_of _ g false false k ssize_max) as [r'|] eqn:Et; [|discriminate]);
          exists r'; (split; [reflexivity|]); injection Er as <-; exact Ho. }
      assert (f = U8 /\ g = U32 \/ ~ (f = U8 /\ g = U32)) as [[-> ->]|HN].
      { destruct f, g; try (left; split; reflexivity); right; intros [X Y]; discriminate. }
      * destruct (C25_unsafe_size_8_32_partial false false k its ssize_max HU ltac:(lia) HI HBad) as (z & r' & E1 & E2 & E3 & _).
        rewrite E1. cbn [option_map obind lift_size z_size]. rewrite E3. rewrite Er in E2. injection E2 as <-. rewrite Eo. reflexivity.
      * destruct (C25_unsafe_size_partial f g false false k its ssize_max HU ltac:(lia) HI HBad HN) as (r' & E1 & E2).
        rewrite E2. cbn [option_map obind lift_size z_size s_size]. rewrite Er in E1. injection E1 as <-. rewrite Eo. reflexivity.
    + destruct f; cbn [direct_unsafe_size] in ED; try discriminate. injection ED as <-.
      unfold sb_from_u32_unsafe_size. cbn [flags_none f_stop_unsupported].
      assert (zlen k = zlen (concat out)) as EL.
      { destruct HT as (its & HI & ->). pose proof (items32_cps _ _ _ HU HI) as HC. clear HZ HW H0 HU HI. revert out HE.
        induction HC as [|c cp src cps Hc HF IH]; intros out HE; inversion HE; subst; [reflexivity|]. cbn [concat]. rewrite zlen_app, zlen_cons, (IH l') by assumption.
        match goal with H : encoded_in _ _ _ |- _ => destruct H as (e & Ee & ->) end. reflexivity. }
      rewrite plain_size_ok by lia. cbn [obind z_size]. rewrite EL. reflexivity.
    + destruct g; cbn [direct_unsafe_size] in ED; try discriminate. injection ED as <-.
      assert (zlen k = zlen (concat out)) as EL.
      { cbn [text_in] in HT. clear HZ HW H0 HU. revert out HE k HT. induction cps as [|cp cps IH]; intros out HE src HT; inversion HE; subst; destruct src as [|c src]; try discriminate; [reflexivity|].
        cbn [map] in HT. injection HT as E HT. cbn [concat]. rewrite zlen_app, zlen_cons, (IH l' ltac:(assumption) src HT).
        match goal with H : encoded_in _ _ _ |- _ => cbn [encoded_in] in H; rewrite H end. reflexivity. }
      unfold sb_unsafe_size. rewrite plain_size_ok by lia. cbn [obind z_size]. rewrite EL. reflexivity.
    + cbn [direct_unsafe_size] in ED. destruct (i =? j)%nat; [|discriminate]. injection ED as <-.
      assert (zlen k = zlen (concat out)) as EL.
      { cbn [text_in] in HT. clear HZ HW H0 HU. revert out HE k HT. induction cps as [|cp cps IH]; intros out HE src HT; inversion HE; subst; destruct src as [|c src]; try discriminate; [reflexivity|].
        cbn [map] in HT. injection HT as E HT. cbn [concat]. rewrite zlen_app, zlen_cons, (IH l' ltac:(assumption) src HT).
        match goal with H : encoded_in _ _ _ |- _ => destruct H as (e & Ee & ->) end. reflexivity. }
      unfold sb_unsafe_size. rewrite plain_size_ok by lia. cbn [obind z_size]. rewrite EL. reflexivity.
  - destruct (C28_pivot_unsafe a b flags_none k ssize_max HA HB HU ltac:(lia) HW) as (d & e & r & z & E1 & E2 & _ & E4 & _ & _ & E5 & _).
    rewrite E4. cbn [obind]. rewrite E5. do 2 f_equal.
    assert (HD0 : direct a b = None) by (apply direct_unsafe_some; exact ED).
    destruct (C28_transcode_text a b flags_none k cps out ssize_max HA HB HU NS HT HE ltac:(lia)) as (r0 & Er0 & Ho & _).
    unfold transcode_between in Er0. rewrite HD0 in Er0.
    destruct (C28_pivot_transcode a b flags_none k ssize_max HA HB HU ltac:(lia)) as (d' & e' & r' & F1 & F2 & F3 & F4 & _).
    rewrite E1 in F1. injection F1 as <-. rewrite E2 in F2. injection F2 as <-. rewrite Er0 in F3. injection F3 as <-. rewrite <- F4. exact Ho.
Qed.
