(* The charsets of the library meet the interfaces of PivotProofs. *)
From Verif Require Import Base DestModel DestProofs UtfSpec UtfModel UtfForms UtfLoop UtfTheorems UtfSizeModel UtfSizeProofs UtfUnsafeProofs UtfLax
  TransSpec SbcsTables SbcsModel SbcsProofs PivotModel PivotProofs CsetModel Properties_Utf.

(* ------ UTF ------ *)
Definition item_step (f g : form) (stop : bool) (it : item) : step :=
  mk_step (src_of (enc_of f) it) (out_of (enc_of g) it) (if is_bad it then ReportInvalid else NoReport)
    (if is_bad it && stop then Some RInvalid else None).
Definition item_steps f g stop its := map (item_step f g stop) its.

Lemma srcs_items f g stop its : srcs (item_steps f g stop its) = srcs_of (enc_of f) its.
Proof. unfold srcs, srcs_of, item_steps. induction its as [|it its IH]; [reflexivity|]. cbn [map flat_map]. rewrite IH. reflexivity. Qed.
Lemma outs_items f g stop its : outs (item_steps f g stop its) = outs_of (enc_of g) its.
Proof. unfold outs, outs_of, item_steps. induction its as [|it its IH]; [reflexivity|]. cbn [map flat_map]. rewrite IH. reflexivity. Qed.
Definition lift_note (n : list Z * Z) : note := NoteInvalid (fst n) (snd n).
Lemma note_item f g stop it its : note_of (item_step f g stop it) (item_steps f g stop its) =
  map lift_note (match it with Good _ => [] | Bad b => [(b ++ srcs_of (enc_of f) its, zlen b)] end).
Proof. unfold note_of. destruct it; cbn [item_step st_report is_bad st_src src_of map lift_note fst snd]; [reflexivity|]. rewrite srcs_items. reflexivity. Qed.
Lemma notes_cons f it its : notes_of (enc_of f) (it :: its) =
  (match it with Good _ => [] | Bad b => [(b ++ srcs_of (enc_of f) its, zlen b)] end) ++ notes_of (enc_of f) its.
Proof. destruct it; reflexivity. Qed.
Lemma notes_len f its : (length (notes_of (enc_of f) its) <= length its)%nat.
Proof. induction its as [|[] its IH]; cbn; lia. Qed.
Lemma notes_suffix_len f a b : (length (notes_of (enc_of f) b) <= length (notes_of (enc_of f) (a ++ b)))%nat.
Proof. induction a as [|[] a IH]; cbn; lia. Qed.

Lemma transcoded_run f g stop : forall its space r, 0 <= space -> transcoded (enc_of f) (enc_of g) stop its space r ->
  lift r = run_steps (item_steps f g stop its) space.
Proof.
  induction its as [|it its IH]; intros space [rest out why notes] Hs (done & todo & E & Hr & Ho & Hl & Hst & Hre);
    cbn [t_rest t_out t_reason t_notes] in *.
  { symmetry in E. apply app_eq_nil in E as [-> ->]. unfold lift. cbn [t_rest t_out t_reason t_notes]. rewrite Hr, Ho. cbn [srcs_of outs_of flat_map].
    destruct why.
    - destruct Hre as [_ ->]. reflexivity.
    - destruct Hre as (? & ? & X & _). discriminate.
    - destruct Hre as (_ & ? & ? & X & _). discriminate. }
  cbn [item_steps map]. fold (item_steps f g stop its). cbn [run_steps]. rewrite note_item. cbn [item_step st_stop st_out].
  destruct done as [|it' done]; cbn [app] in E.
  - subst todo. cbn [outs_of flat_map] in Ho. subst out. unfold lift. cbn [t_rest t_out t_reason t_notes].
    change (item_step f g stop it :: item_steps f g stop its) with (item_steps f g stop (it :: its)). rewrite srcs_items, <- Hr.
    change (zlen (@nil Z)) with 0 in *.
    destruct why.
    + destruct Hre as [X _]. discriminate.
    + destruct Hre as (it0 & more & X & G & Hb & HN). injection X as <- <-.
      replace (is_bad it && stop) with false by (destruct stop, (is_bad it); try reflexivity; specialize (Hb eq_refl); discriminate).
      replace (zlen (out_of (enc_of g) it) <=? space) with false by lia.
      rewrite notes_cons in HN. apply app_inv_tail in HN. rewrite HN. reflexivity.
    + destruct Hre as (-> & b & more & X & HN). injection X as -> <-. cbn [is_bad andb].
      rewrite notes_cons in HN. apply app_inv_tail in HN. rewrite <- HN. reflexivity.
  - injection E as <- E.
    assert (Hb : is_bad it && stop = false).
    { destruct stop; [|apply andb_false_r]. specialize (Hst eq_refl). cbn [existsb] in Hst. destruct (is_bad it); [discriminate|reflexivity]. }
    rewrite Hb. change (outs_of (enc_of g) (it :: done)) with (out_of (enc_of g) it ++ outs_of (enc_of g) done) in Ho.
    rewrite Ho, zlen_app in *. pose proof (zlen_nonneg (outs_of (enc_of g) done)).
    replace (zlen (out_of (enc_of g) it) <=? space) with true by lia. cbv zeta.
    set (n1 := match it with Good _ => [] | Bad b => [(b ++ srcs_of (enc_of f) its, zlen b)] end) in *.
    assert (HN : exists n2, notes = n1 ++ n2 /\
      transcoded (enc_of f) (enc_of g) stop its (space - zlen (out_of (enc_of g) it)) (mk_tc rest (outs_of (enc_of g) done) why n2)).
    { assert (Hst' : stop = true -> existsb is_bad done = false).
      { intros X. specialize (Hst X). cbn [existsb] in Hst. apply orb_false_iff in Hst. apply Hst. }
      assert (HK : forall more, (exists k, its = k ++ more) -> notes_of (enc_of f) (it :: its) = notes ++ notes_of (enc_of f) more ->
         exists n2, notes = n1 ++ n2 /\ notes_of (enc_of f) its = n2 ++ notes_of (enc_of f) more).
      { intros more [k ->] HH. rewrite notes_cons in HH. fold n1 in HH.
        destruct it as [cp|b]; cbn in n1; subst n1.
        - exists notes. split; [reflexivity|exact HH].
        - destruct notes as [|n notes].
          + exfalso. apply (f_equal (@length _)) in HH. rewrite !app_length in HH. cbn [length] in HH.
            pose proof (notes_suffix_len f k more). lia.
          + cbn [app] in HH. injection HH as H1 HH. exists notes. split; [cbn; rewrite H1; reflexivity|exact HH]. }
      destruct why.
      - destruct Hre as [-> HN]. exists (notes_of (enc_of f) its). split; [rewrite HN, notes_cons; reflexivity|].
        exists done, []. cbn [t_rest t_out t_reason t_notes]. do 5 (split; [first [assumption|reflexivity|lia]|]). auto.
      - destruct Hre as (x & more & -> & G & Hx & HN). destruct (HK more) as (n2 & -> & H2); [exists (done ++ [x]); rewrite E, <- app_assoc; reflexivity|exact HN|].
        exists n2. split; [reflexivity|]. exists done, (x :: more). cbn [t_rest t_out t_reason t_notes].
        do 5 (split; [first [assumption|reflexivity|lia]|]). exists x, more. split; [reflexivity|]. split; [lia|]. auto.
      - destruct Hre as (Hs1 & b & more & -> & HN). destruct (HK more) as (n2 & -> & H2); [exists (done ++ [Bad b]); rewrite E, <- app_assoc; reflexivity|exact HN|].
        exists n2. split; [reflexivity|]. exists done, (Bad b :: more). cbn [t_rest t_out t_reason t_notes].
        do 5 (split; [first [assumption|reflexivity|lia]|]). split; [exact Hs1|]. exists b, more. auto. }
    destruct HN as (n2 & -> & HT). rewrite <- (IH (space - zlen (out_of (enc_of g) it)) _ ltac:(lia) HT).
    unfold lift. cbn [t_rest t_out t_reason t_notes r_rest r_out r_reason r_notes]. rewrite map_app. reflexivity.
Qed.

Lemma transcode_run f g fl src its space : units (bits_of f) src -> 0 <= space -> items (enc_of f) (f_lax fl) src its ->
  option_map lift (transcode_of f g (f_lax fl) (f_stop_invalid fl) src space) = Some (run_steps (item_steps f g (f_stop_invalid fl) its) space).
Proof.
  intros HU HS HI. destruct (transcode_items f g (f_lax fl) (f_stop_invalid fl) src space its HU HS HI) as (r & -> & HT).
  cbn [option_map]. f_equal. apply transcoded_run; assumption.
Qed.

Lemma item_out_valid lax it : match it with Good cp => valid_cp lax cp | Bad _ => True end -> exists c, out_of (enc_of U32) it = [c] /\ valid_cp lax c.
Proof. destruct it as [cp|b]; intros H; [exists cp; auto|exists 0xFFFD; split; [reflexivity|apply valid_FFFD]]. Qed.

Lemma utf_decoding f fl src its : units (bits_of f) src -> items (enc_of f) (f_lax fl) src its ->
  srcs (item_steps f U32 (f_stop_invalid fl) its) = src /\
  decoding (valid_cp (f_lax fl)) (to_u32_of (Utf f) fl) (item_steps f U32 (f_stop_invalid fl) its).
Proof.
  intros HU HI. split; [rewrite srcs_items; symmetry; apply (items_src _ _ _ _ HI)|]. split.
  - intros pre suf sp E Hs. unfold item_steps in E. apply map_eq_app in E as (p & s & -> & <- & <-).
    fold (item_steps f U32 (f_stop_invalid fl) s). rewrite srcs_items. cbn [to_u32_of].
    apply transcode_run; [eapply units_srcs; eassumption|exact Hs|eapply items_suffix; exact HI].
  - apply Forall_map. apply items_valid in HI. eapply Forall_impl; [|exact HI]. intros it Hit. cbv beta.
    cbn [item_step st_stop st_out st_report]. split; [destruct (is_bad it && f_stop_invalid fl); auto|].
    split; [apply item_out_valid; destruct it; auto|]. intros c. destruct (is_bad it); discriminate.
Qed.

Definition enc_step (g : form) (c : Z) : step := mk_step [c] (enc_of g c) NoReport None.
Lemma enc_steps_items g us : map (enc_step g) us = item_steps U32 g false (map Good us).
Proof. unfold item_steps. rewrite map_map. reflexivity. Qed.
Lemma items32 lax us : valid_text lax us -> items enc32 lax us (map Good us).
Proof.
  intros HV. pose proof (items_encode U32 lax us ltac:(discriminate) HV) as H. cbn [enc_of] in H.
  assert (encode enc32 us = us) as E; [|rewrite E in H; exact H].
  unfold encode. clear. induction us as [|u us IH]; [reflexivity|]. cbn. rewrite IH. reflexivity.
Qed.
Lemma units32 lax us : valid_text lax us -> units 32 us.
Proof. intros H. eapply Forall_impl; [|exact H]. intros c [Hc _]. change (2 ^ 32) with 4294967296. lia. Qed.
Lemma utf_encoding g fl : encoding (valid_cp (f_lax fl)) (from_u32_unsafe_of (Utf g) fl) (enc_step g).
Proof.
  split.
  - intros us sp HP Hs. cbn [from_u32_unsafe_of]. rewrite enc_steps_items.
    rewrite (C25_unsafe_transcode U32 g (f_lax fl) false us (map Good us) sp (units32 _ _ HP) Hs (items32 _ _ HP) (no_bad_good us)).
    pose proof (transcode_run U32 g (mk_flags (f_lax fl) false false) us (map Good us) sp (units32 _ _ HP) Hs (items32 _ _ HP)) as H.
    cbn [f_lax f_stop_invalid] in H. exact H.
  - intros c. split; [reflexivity|]. split; [left; reflexivity|discriminate].
Qed.
Lemma utf_encoding_size g fl : encoding_size (valid_cp (f_lax fl)) (from_u32_unsafe_size_of (Utf g) fl) (enc_step g).
Proof.
  intros us sp HP Hs. cbn [from_u32_unsafe_size_of].
  destruct (C25_unsafe_size_partial U32 g (f_lax fl) false us (map Good us) sp (units32 _ _ HP) Hs (items32 _ _ HP) (no_bad_good us)) as (r & Er & Ez).
  { intros [X _]. discriminate. }
  rewrite Ez. cbn [option_map].
  pose proof (transcode_run U32 g (mk_flags (f_lax fl) false false) us (map Good us) sp (units32 _ _ HP) Hs (items32 _ _ HP)) as H.
  cbn [f_lax f_stop_invalid] in H. rewrite Er in H. cbn [option_map] in H. injection H as H. rewrite enc_steps_items, <- H. reflexivity.
Qed.

(* ------ single-byte ------ *)
Lemma sb_decoding i cs fl src : nth_error all_sbcs i = Some cs -> Forall (fun c => 0 <= c < 2 ^ 8) src ->
  srcs (map (to_step cs fl) src) = src /\
  decoding (valid_cp (f_lax fl)) (to_u32_of (Sb i cs) fl) (map (to_step cs fl) src).
Proof.
  intros Hi HB. pose proof (all_ok i cs Hi) as OK. change (2 ^ 8) with 256 in HB.
  assert (HS : forall l, srcs (map (to_step cs fl) l) = l) by (intros l; apply srcs_units; reflexivity).
  split; [apply HS|]. split.
  - intros pre suf sp E Hs. apply map_eq_app in E as (p & s & -> & <- & <-). rewrite HS. cbn [to_u32_of].
    apply (to_u32_steps cs _ OK); [|exact Hs]. apply Forall_app in HB. apply HB.
  - apply Forall_map. eapply Forall_impl; [|exact HB]. intros b Hb. cbv beta. cbn [to_step st_stop st_out st_report].
    split; [destruct (_ && f_stop_invalid fl); auto|]. split.
    + exists (decoded cs b). split; [reflexivity|]. pose proof (decoded_range cs _ OK b Hb) as Hr. split; [lia|]. right.
      unfold is_surr. lia.
    + intros c. destruct (decoded cs b =? 0xFFFD); discriminate.
Qed.
Lemma sb_encoding i cs fl : nth_error all_sbcs i = Some cs ->
  encoding (valid_cp (f_lax fl)) (from_u32_unsafe_of (Sb i cs) fl) (from_unsafe_step cs fl) /\
  encoding_size (valid_cp (f_lax fl)) (from_u32_unsafe_size_of (Sb i cs) fl) (from_unsafe_step cs fl).
Proof.
  intros Hi. pose proof (all_ok i cs Hi) as OK. split; [split|].
  - intros us sp HP Hs. cbn [from_u32_unsafe_of]. apply (from_u32_unsafe_steps cs _ OK); [|exact Hs].
    exact (units32 _ _ HP).
  - intros c. cbn [from_unsafe_step st_src st_stop st_report]. split; [reflexivity|].
    split; [destruct (_ && f_stop_unsupported fl); auto|]. destruct (negb (supports cs c)); discriminate.
  - intros us sp HP Hs. cbn [from_u32_unsafe_size_of]. apply (from_u32_unsafe_size_steps cs _ fl us sp OK); [|exact Hs].
    exact (units32 _ _ HP).
Qed.

(* ------ any charset ------ *)
Definition enc_step_of (b : cset) (fl : flags) : Z -> step :=
  match b with Utf g => enc_step g | Sb _ cs => from_unsafe_step cs fl end.
Lemma cset_encoding b fl : is_cset b -> encoding (valid_cp (f_lax fl)) (from_u32_unsafe_of b fl) (enc_step_of b fl).
Proof. destruct b; intros H; [apply utf_encoding|apply sb_encoding; exact H]. Qed.
Lemma cset_encoding_size b fl : is_cset b -> encoding_size (valid_cp (f_lax fl)) (from_u32_unsafe_size_of b fl) (enc_step_of b fl).
Proof. destruct b; intros H; [apply utf_encoding_size|apply sb_encoding; exact H]. Qed.
Lemma enc_step_len b fl c : zlen (st_out (enc_step_of b fl c)) <= 64.
Proof. destruct b as [g|i cs]; [cbn; pose proof (enc_of_len g c); lia|cbn; lia]. Qed.

Definition unit_text (a : cset) (src : list Z) : Prop := Forall (fun c => 0 <= c < 2 ^ unit_bits a) src.
Lemma cset_decoding a fl src : is_cset a -> unit_text a src -> exists l, srcs l = src /\ (length l <= length src)%nat /\
  decoding (valid_cp (f_lax fl)) (to_u32_of a fl) l.
Proof.
  destruct a as [f|i cs]; intros HC HU.
  - destruct (items_exist_of f (f_lax fl) src HU) as [its HI]. exists (item_steps f U32 (f_stop_invalid fl) its).
    destruct (utf_decoding f fl src its HU HI) as [H1 H2]. split; [exact H1|]. split; [|exact H2].
    unfold item_steps. rewrite map_length. eapply items_length_of; exact HI.
  - exists (map (to_step cs fl) src). destruct (sb_decoding i cs fl src HC HU) as [H1 H2]. split; [exact H1|].
    split; [rewrite map_length; lia|exact H2].
Qed.
Lemma decoding_full P f l big : decoding P f l -> (length l <= Z.to_nat big)%nat -> 0 <= big -> f (srcs l) big = Some (full l) /\ Forall P (r_out (full l)).
Proof.
  intros HD HL Hb. pose proof HD as [H1 H2]. destruct (decoding_outs P l H2) as [HO HZ].
  rewrite (H1 [] l big eq_refl Hb). rewrite full_big; [|apply (decoding_stop _ _ _ HD)|rewrite HZ; unfold zlen; lia].
  split; [reflexivity|]. destruct (run_cut l (decoding_stop _ _ _ HD) (zlen (outs l)) (zlen_nonneg _)) as (d & t & E & _ & _ & _ & Ho & _).
  unfold full. rewrite Ho. rewrite E, PivotProofs.outs_app in HO. apply Forall_app in HO. apply HO.
Qed.

(* ------ unsafe decoding of well-formed sources ------ *)
Definition well_formed_in (a : cset) (lax : bool) (src : list Z) : Prop :=
  match a with
  | Utf f => exists its, items (enc_of f) lax src its /\ existsb is_bad its = false
  | Sb _ cs => Forall (fun b => sb_valid cs b = true) src
  end.
Lemma sb_unsafe_steps i cs fl src : nth_error all_sbcs i = Some cs -> bytes src -> Forall (fun b => sb_valid cs b = true) src -> forall space, 0 <= space ->
  sb_to_u32_unsafe cs src space = Some (run_steps (map (to_step cs fl) src) space).
Proof.
  intros Hi HB. pose proof (all_ok i cs Hi) as OK. induction HB as [|b src Hb HF IH]; intros HV space Hs; [reflexivity|].
  pose proof (Forall_inv HV) as Hv. apply Forall_inv_tail in HV. cbv beta in Hv. rewrite (valid_decoded cs _ OK b Hb) in Hv. apply negb_true_iff in Hv.
  cbn [sb_to_u32_unsafe map run_steps]. unfold note_of. cbn [to_step st_stop st_out st_src st_report]. rewrite Hv. cbn [andb].
  change (zlen [decoded cs b]) with 1.
  destruct (Z.eqb_spec space 0) as [->|].
  - cbn [Z.leb Z.compare]. change (to_step cs fl b :: map (to_step cs fl) src) with (map (to_step cs fl) (b :: src)).
    rewrite srcs_units by reflexivity. reflexivity.
  - replace (1 <=? space) with true by lia. rewrite (decode_some cs _ OK b Hb). cbn [obind]. rewrite IH by (auto; lia). cbn [obind].
    unfold cons_result. reflexivity.
Qed.
Lemma cset_decoding_unsafe a fl src : is_cset a -> unit_text a src -> well_formed_in a (f_lax fl) src ->
  exists l, srcs l = src /\ (length l <= length src)%nat /\
  decoding (valid_cp (f_lax fl)) (to_u32_of a fl) l /\ decoding (valid_cp (f_lax fl)) (to_u32_unsafe_of a fl) l /\
  forall l', (exists p, l = p ++ l') -> (length l' <= length (srcs l'))%nat.
Proof.
  destruct a as [f|i cs]; intros HC HU HW.
  - destruct HW as (its & HI & HB). exists (item_steps f U32 (f_stop_invalid fl) its).
    destruct (utf_decoding f fl src its HU HI) as [H1 H2]. split; [exact H1|].
    split; [unfold item_steps; rewrite map_length; eapply items_length_of; exact HI|]. split; [exact H2|].
    split; cycle 1.
    { intros l' [p E]. unfold item_steps in E. apply map_eq_app in E as (p' & s & -> & _ & <-).
      fold (item_steps f U32 (f_stop_invalid fl) s). rewrite srcs_items. unfold item_steps. rewrite map_length.
      eapply items_length_of. eapply items_suffix. exact HI. }
    destruct H2 as [H2 H3]. split; [|exact H3]. intros pre suf sp E Hs. rewrite <- (H2 pre suf sp E Hs).
    unfold item_steps in E. apply map_eq_app in E as (p & s & -> & <- & <-). fold (item_steps f U32 (f_stop_invalid fl) s). rewrite srcs_items.
    cbn [to_u32_of to_u32_unsafe_of]. rewrite (C25_unsafe_transcode f U32 (f_lax fl) (f_stop_invalid fl) _ s sp); [reflexivity| |exact Hs| |].
    + eapply units_srcs; eassumption.
    + eapply items_suffix; exact HI.
    + rewrite existsb_app in HB. apply orb_false_iff in HB. apply HB.
  - exists (map (to_step cs fl) src). destruct (sb_decoding i cs fl src HC HU) as [H1 H2]. split; [exact H1|].
    split; [rewrite map_length; lia|]. split; [exact H2|]. split; cycle 1.
    { intros l' [p E]. apply map_eq_app in E as (p' & s & -> & _ & <-). rewrite srcs_units by reflexivity. rewrite map_length. lia. }
    destruct H2 as [_ H3]. split; [|exact H3].
    intros pre suf sp E Hs. apply map_eq_app in E as (p & s & -> & <- & <-). rewrite srcs_units by reflexivity.
    cbn [to_u32_unsafe_of]. apply Forall_app in HU. apply Forall_app in HW.
    apply (sb_unsafe_steps i); [exact HC|apply HU|apply HW|exact Hs].
Qed.

(* ------ the direct transcoders ------ *)
Lemma steps_of_map f (g : Z -> step) src : (forall c, st_src (g c) = [c] /\ real_stop (g c) /\ zlen (st_out (g c)) <= 64) ->
  (forall s sp, (exists p, src = p ++ s) -> 0 <= sp -> f s sp = Some (run_steps (map g s) sp)) -> steps_of f (map g src).
Proof.
  intros HG HR. split.
  - intros a b sp E Hs. apply map_eq_app in E as (p & s & -> & <- & <-). rewrite srcs_units by (intros c; apply HG). apply HR; eauto.
  - apply Forall_map. apply Forall_forall. intros c _. destruct (HG c) as (_ & H1 & H2). auto.
Qed.
Lemma direct_steps a b func fl src : is_cset a -> is_cset b -> direct a b = Some func -> unit_text a src ->
  exists l, srcs l = src /\ (length l <= length src)%nat /\ steps_of (func fl) l.
Proof.
  intros HA HB HD HU. destruct a as [f|i cs], b as [g|j cs']; cbn [direct] in HD.
  - assert (func = fun fl src sp => option_map lift (transcode_of f g (f_lax fl) (f_stop_invalid fl) src sp)) as -> by (destruct f; injection HD as <-; reflexivity).
    destruct (items_exist_of f (f_lax fl) src HU) as [its HI]. exists (item_steps f g (f_stop_invalid fl) its).
    split; [rewrite srcs_items; symmetry; apply (items_src _ _ _ _ HI)|]. split; [unfold item_steps; rewrite map_length; eapply items_length_of; exact HI|].
    split.
    + intros p q sp E Hs. unfold item_steps in E. apply map_eq_app in E as (p' & s & -> & <- & <-).
      fold (item_steps f g (f_stop_invalid fl) s). rewrite srcs_items.
      apply transcode_run; [eapply units_srcs; eassumption|exact Hs|eapply items_suffix; exact HI].
    + apply Forall_map. apply Forall_forall. intros it _. split.
      * unfold real_stop. cbn [item_step st_stop]. destruct (is_bad it && f_stop_invalid fl); exact I.
      * cbn [item_step st_out]. destruct it; cbn [out_of]; [pose proof (enc_of_len g cp)|pose proof (enc_of_len g 0xFFFD)]; lia.
  - destruct f; cbn [direct] in HD; try discriminate. injection HD as <-. exists (map (from_step cs' fl) src).
    split; [apply srcs_units; reflexivity|]. split; [rewrite map_length; lia|]. apply steps_of_map.
    + intros c. split; [reflexivity|]. split; [|cbn; lia]. unfold real_stop. cbn [from_step st_stop].
      destruct (_ && f_stop_unsupported fl); [exact I|]. destruct (_ && f_stop_invalid fl); exact I.
    + intros s sp [p ->] Hs. apply Forall_app in HU. apply (from_u32_steps cs' _ (all_ok j cs' HB)); [apply HU|exact Hs].
  - destruct g; cbn [direct] in HD; try discriminate. injection HD as <-. exists (map (to_step cs fl) src).
    split; [apply srcs_units; reflexivity|]. split; [rewrite map_length; lia|]. apply steps_of_map.
    + intros c. split; [reflexivity|]. split; [|cbn; lia]. unfold real_stop. cbn [to_step st_stop].
      destruct (_ && f_stop_invalid fl); exact I.
    + intros s sp [p ->] Hs. apply Forall_app in HU. apply (to_u32_steps cs _ (all_ok i cs HA)); [apply HU|exact Hs].
  - destruct (Nat.eqb_spec i j); [|discriminate]. injection HD as <-. exists (map (sanitize_step cs fl) src).
    split; [apply srcs_units; reflexivity|]. split; [rewrite map_length; lia|]. apply steps_of_map.
    + intros c. split; [reflexivity|]. split; [|cbn; lia]. unfold real_stop. cbn [sanitize_step st_stop].
      destruct (_ && f_stop_invalid fl); exact I.
    + intros s sp [p ->] Hs. apply Forall_app in HU. apply (sanitize_steps cs _ (all_ok i cs HA)); [apply HU|exact Hs].
Qed.
