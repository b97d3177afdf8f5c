(* Exactly when the size computation towards a single-byte charset is right. *)
From Verif Require Import Base DestModel DestProofs UtfSpec TransSpec SbcsTables SbcsModel SbcsProofs PivotModel PivotProofs.

Section Compare.
  Variables (f g : Z -> step) (W : Z -> Prop).
  Hypothesis Wdec : forall c, W c \/ ~ W c.
  Hypothesis Hf : unitwise f.
  Hypothesis Hg : unitwise g.
  Hypothesis Hsame : forall c, ~ W c -> st_stop (g c) = st_stop (f c).
  Hypothesis Hwrong : forall c, W c -> st_stop (f c) = None /\ (st_stop (g c) = Some RInvalid \/ st_stop (g c) = Some RUnsupported).

  Lemma unit_srcs src : srcs (map f src) = src.
  Proof. induction src as [|c src IH]; [reflexivity|]. cbn [map]. rewrite srcs_cons, IH. destruct (Hf c) as [-> _]. reflexivity. Qed.
  Lemma unit_srcs_g src : srcs (map g src) = src.
  Proof. induction src as [|c src IH]; [reflexivity|]. cbn [map]. rewrite srcs_cons, IH. destruct (Hg c) as [-> _]. reflexivity. Qed.
  Lemma rest_short : forall src limit, (length (r_rest (run_steps (map f src) limit)) <= length src)%nat.
  Proof.
    induction src as [|c src IH]; intros limit; [cbn; lia|]. cbn [map run_steps].
    destruct (Hf c) as [E1 _]. destruct (st_stop (f c)); [cbn [r_rest]; rewrite srcs_cons, E1; cbn [app length]; rewrite unit_srcs; lia|].
    destruct (zlen (st_out (f c)) <=? limit); [|cbn [r_rest]; rewrite srcs_cons, E1; cbn [app length]; rewrite unit_srcs; lia].
    cbv zeta. cbn [r_rest length]. specialize (IH (limit - zlen (st_out (f c)))). lia.
  Qed.
  Lemma compare_sizes : forall src limit, 0 <= limit ->
    size_of_result (run_steps (map g src) limit) = size_of_result (run_steps (map f src) limit) <->
    ~ exists pre c post, src = pre ++ c :: post /\ W c /\ zlen pre <= zlen (r_out (run_steps (map f src) limit)).
  Proof.
    induction src as [|c src IH]; intros limit HL.
    { cbn. split; [|reflexivity]. intros _ (pre & c & post & E & _). destruct pre; discriminate. }
    cbn [map run_steps]. pose proof (unit_src f c Hf) as Ef1. pose proof (unit_out f c Hf) as Ef2. pose proof (unit_src g c Hg) as Eg1. pose proof (unit_out g c Hg) as Eg2.
    assert (Hhead : forall x, zlen x = 0 -> ~ W c ->
      ~ exists pre c0 post, c :: src = pre ++ c0 :: post /\ W c0 /\ zlen pre <= zlen (x : list Z)).
    { intros x Hx HW (pre & c0 & post & E & HW0 & Hz). rewrite Hx in Hz. destruct pre as [|p pre].
      - injection E as <- _. contradiction.
      - rewrite zlen_cons in Hz. pose proof (zlen_nonneg pre). lia. }
    assert (Hnow : W c -> forall x : list Z, exists pre c0 post, c :: src = pre ++ c0 :: post /\ W c0 /\ zlen pre <= zlen x).
    { intros HW x. exists [], c, src. split; [reflexivity|]. split; [exact HW|]. rewrite zlen_nil. apply zlen_nonneg. }
    destruct (Wdec c) as [HW|HW].
    - destruct (Hwrong c HW) as [E1 E2]. rewrite E1. split; [|intros H; elim H; apply Hnow; exact HW].
      intros E. exfalso. unfold size_of_result in E.
      destruct (zlen (st_out (f c)) <=? limit).
      + destruct E2 as [E2|E2]; rewrite E2 in E; cbn [r_out r_rest r_reason] in E; apply (f_equal z_rest) in E; cbn [z_rest] in E; rename E into Er;
          apply (f_equal (@length Z)) in Er; rewrite srcs_cons, Eg1, unit_srcs_g in Er; cbn [app length] in Er;
          pose proof (rest_short src (limit - zlen (st_out (f c)))); lia.
      + destruct E2 as [E2|E2]; rewrite E2 in E; discriminate.
    - rewrite (Hsame c HW). destruct (st_stop (f c)) as [why|].
      + cbn [r_out]. split; [intros _; apply Hhead; auto|]. intros _. unfold size_of_result. cbn [r_out r_rest r_reason].
        rewrite !srcs_cons, unit_srcs, unit_srcs_g, Ef1, Eg1. reflexivity.
      + rewrite Ef2, Eg2. destruct (1 <=? limit) eqn:E1.
        * cbv zeta. cbn [r_out]. specialize (IH (limit - 1) ltac:(lia)).
          set (rf := run_steps (map f src) (limit - 1)) in *. set (rg := run_steps (map g src) (limit - 1)) in *.
          assert (EQ : size_of_result (mk_tr (r_rest rg) (st_out (g c) ++ r_out rg) (r_reason rg) (note_of (g c) (map g src) ++ r_notes rg)) =
                  size_of_result (mk_tr (r_rest rf) (st_out (f c) ++ r_out rf) (r_reason rf) (note_of (f c) (map f src) ++ r_notes rf)) <->
                  size_of_result rg = size_of_result rf).
          { unfold size_of_result. cbn [r_out r_rest r_reason]. rewrite !zlen_app, Ef2, Eg2.
            split; intros E; pose proof (f_equal z_size E) as X1; pose proof (f_equal z_rest E) as X2; pose proof (f_equal z_reason E) as X3;
              cbn [z_size z_rest z_reason] in X1, X2, X3; rewrite X2, X3; f_equal; clear - X1; lia. }
          rewrite EQ, IH. rewrite zlen_app, Ef2. split; intros H (pre & c0 & post & E & HW0 & Hz); apply H.
          -- destruct pre as [|p pre]; [injection E as <- _; contradiction|]. injection E as _ E.
             exists pre, c0, post. rewrite zlen_cons in Hz. split; [exact E|]. split; [exact HW0|lia].
          -- exists (c :: pre), c0, post. rewrite zlen_cons, E. split; [reflexivity|]. split; [exact HW0|lia].
        * cbn [r_out]. split; [intros _; apply Hhead; auto|]. intros _. unfold size_of_result. cbn [r_out r_rest r_reason].
          rewrite !srcs_cons, unit_srcs, unit_srcs_g, Ef1, Eg1. reflexivity.
  Qed.
End Compare.

(* the code points at which the computation of the size stops although transcode does not *)
Definition size_wrong (fl : flags) (c : Z) : Prop :=
  f_stop_invalid fl = true /\ f_lax fl = false /\ c = 0xFFFD \/
  f_stop_unsupported fl = true /\ f_stop_invalid fl = false /\
    (f_lax fl = false /\ (c = 0xD800 \/ c = 0xFFFF) \/ f_lax fl = true /\ c = 0x110000).
Lemma from_u32_size_exact i cs fl src limit : nth_error all_sbcs i = Some cs -> Forall (fun c => 0 <= c < 2 ^ 32) src -> 0 <= limit ->
  exists z r, sb_from_u32_size cs fl src limit = Some z /\ sb_from_u32 cs fl src limit = Some r /\
    (z = size_of_result r <-> ~ exists pre c post, src = pre ++ c :: post /\ size_wrong fl c /\ zlen pre <= zlen (r_out r)).
Proof.
  intros Hi HB HL. pose proof (all_ok i cs Hi) as OK.
  set (bad := fun c => if f_stop_unsupported fl && f_stop_invalid fl then
      (if size_invalid (f_strict fl) c then Some RInvalid else if 0x100 <=? encoded cs c then Some RUnsupported else None)
    else if f_stop_invalid fl then (if size_invalid (f_strict fl) c then Some RInvalid else None)
    else if f_stop_unsupported fl then (if size_valid (f_strict fl) c then (if 0x100 <=? encoded cs c then Some RUnsupported else None) else None)
    else None).
  set (g := fun c => mk_step [c] [c] NoReport (bad c)).
  assert (Hg : unitwise g) by (intros c; split; [reflexivity|eexists; reflexivity]).
  assert (sb_from_u32_size cs fl src limit = Some (size_of_result (run_steps (map g src) limit))) as Hz.
  { unfold sb_from_u32_size. unfold chars in *.
    assert (forall b, Forall (fun c => b c = Some (st_stop (g c))) src -> scan b src limit = Some (size_of_result (run_steps (map g src) limit))) as HS.
    { intros b Hb. apply scan_ok; assumption. }
    destruct (f_stop_unsupported fl) eqn:EU, (f_stop_invalid fl) eqn:EI; cbn [andb].
    - apply HS. eapply Forall_impl; [|exact HB]. cbv beta. intros c Hc. cbn [g st_stop]. unfold bad. cbn [andb].
      rewrite (encode_some cs _ OK c) by lia. cbn [obind]. destruct (size_invalid (f_strict fl) c); reflexivity.
    - apply HS. eapply Forall_impl; [|exact HB]. cbv beta. intros c Hc. cbn [g st_stop]. unfold bad. cbn [andb].
      rewrite (encode_some cs _ OK c) by lia. cbn [obind]. destruct (size_valid (f_strict fl) c); reflexivity.
    - apply HS. eapply Forall_impl; [|exact HB]. cbv beta. intros c Hc. cbn [g st_stop]. unfold bad. cbn [andb]. reflexivity.
    - apply plain_size_ok; [exact Hg| |exact HL]. apply Forall_forall. intros c _. reflexivity. }
  exists (size_of_result (run_steps (map g src) limit)), (run_steps (map (from_step cs fl) src) limit).
  split; [exact Hz|]. split; [apply (from_u32_steps cs _ OK); assumption|].
  (* restrict to 32-bit units: outside nothing is claimed *)
  set (W := fun c => 0 <= c < 2 ^ 32 /\ size_wrong fl c).
  set (g' := fun c => if (0 <=? c) && (c <? 2 ^ 32) then g c else mk_step [c] [c] NoReport (st_stop (from_step cs fl c))).
  assert (map g src = map g' src) as ->.
  { apply map_ext_in. intros c Hc. rewrite Forall_forall in HB. specialize (HB c Hc). unfold g'.
    replace ((0 <=? c) && (c <? 2 ^ 32)) with true by lia. reflexivity. }
  assert (Hx : forall c, 0 <= c < 2 ^ 32 -> supports cs c = true -> c < 0xD800 \/ c = 0xFFFD).
  { intros c Hc Hs. destruct (supports_small cs _ OK c ltac:(lia) Hs) as [|[|Hin]]; [auto|auto|].
    pose proof (exceptions_small i) as HX. rewrite Forall_forall in HX. specialize (HX c Hin). cbv beta in HX. auto. }
  assert (HFD : supports cs 0xFFFD = true) by (unfold supports, encoded; rewrite (so_fffd cs _ OK); reflexivity).
  rewrite (compare_sizes (from_step cs fl) g' W).
  - split; intros H (pre & c & post & E & HW & Hz'); apply H; exists pre, c, post; (split; [exact E|]); (split; [|exact Hz']).
    + split; [|exact HW]. rewrite E in HB. apply Forall_app in HB as [_ HB]. inversion HB; assumption.
    + apply HW.
  - intros c. unfold W, size_wrong. destruct (f_stop_invalid fl), (f_stop_unsupported fl), (f_lax fl); lia.
  - apply from_step_unit.
  - intros c. unfold g'. destruct ((0 <=? c) && (c <? 2 ^ 32)); split; try reflexivity; eexists; reflexivity.
  - intros c HW. unfold g'. destruct ((0 <=? c) && (c <? 2 ^ 32)) eqn:ER; [|reflexivity].
    assert (Hc : 0 <= c < 2 ^ 32) by lia. assert (~ size_wrong fl c) as HN by (intros X; apply HW; split; assumption).
    specialize (Hx c Hc). cbn [g from_step st_stop]. unfold bad. replace (0x100 <=? encoded cs c) with (negb (supports cs c)) by (unfold supports; lia).
    assert (HN1 : f_stop_invalid fl = true -> f_lax fl = false -> c <> 0xFFFD) by (intros A B C; apply HN; left; tauto).
    assert (HN2 : f_stop_unsupported fl = true -> f_stop_invalid fl = false -> f_lax fl = false -> c <> 0xD800 /\ c <> 0xFFFF).
    { intros A B C. split; intros D; apply HN; right; tauto. }
    assert (HN3 : f_stop_unsupported fl = true -> f_stop_invalid fl = false -> f_lax fl = true -> c <> 0x110000) by (intros A B C D; apply HN; right; tauto).
    clear HN HW. unfold size_invalid, size_valid, from_invalid, f_strict in *. clear - Hc Hx HN1 HN2 HN3.
    destruct (supports cs c) eqn:ES; cbn [negb andb].
    + specialize (Hx eq_refl). destruct (f_stop_invalid fl), (f_stop_unsupported fl), (f_lax fl); try specialize (HN1 eq_refl eq_refl); try specialize (HN2 eq_refl eq_refl eq_refl); try specialize (HN3 eq_refl eq_refl eq_refl); cbn [negb andb orb]; rewrite ?andb_false_r, ?andb_true_r; try reflexivity;
        repeat match goal with |- context [if ?b then _ else _] => destruct b eqn:?; try reflexivity end; exfalso; lia.
    + destruct (f_stop_invalid fl), (f_stop_unsupported fl), (f_lax fl); try specialize (HN1 eq_refl eq_refl); try specialize (HN2 eq_refl eq_refl eq_refl); try specialize (HN3 eq_refl eq_refl eq_refl); cbn [negb andb orb]; rewrite ?andb_false_r, ?andb_true_r; try reflexivity;
        repeat match goal with |- context [if ?b then _ else _] => destruct b eqn:?; try reflexivity end; exfalso; lia.
  - intros c [Hc HW]. unfold g'. replace ((0 <=? c) && (c <? 2 ^ 32)) with true by lia. cbn [g from_step st_stop]. unfold bad.
    replace (0x100 <=? encoded cs c) with (negb (supports cs c)) by (unfold supports; lia).
    destruct HW as [(E1 & E2 & ->)|(E1 & E2 & HW)].
    + rewrite HFD, E1. cbn [negb andb]. split; [reflexivity|]. left. unfold size_invalid, f_strict. rewrite E2. destruct (f_stop_unsupported fl); reflexivity.
    + assert (ES : supports cs c = false).
      { destruct (supports cs c) eqn:ES; [|reflexivity]. specialize (Hx c Hc ES). lia. }
      rewrite ES, E1, E2. cbn [negb andb]. unfold size_valid, from_invalid, f_strict.
      destruct HW as [[El [->| ->]]|[El ->]]; rewrite El; cbn; split; auto.
  - exact HL.
Qed.
