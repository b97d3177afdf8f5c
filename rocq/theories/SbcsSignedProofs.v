(* Proofs about SbcsSignedModel. *)
From Verif Require Import Base DestModel TransSpec SbcsTables CharsetModel SbcsModel SbcsProofs SbcsSignedModel.

Lemma to_i32_small c : 0 <= c < 2147483648 -> to_i 32 c = c.
Proof. intros H. apply to_i_id; [lia|]. change (2 ^ (32 - 1)) with 2147483648. lia. Qed.
Lemma to_i32_big c : 2147483648 <= c < 2 ^ 32 -> to_i 32 c < 0.
Proof. intros H. unfold to_i. change (2 ^ 32) with 4294967296 in *. change (2 ^ (32 - 1)) with 2147483648. lia. Qed.

Lemma same_transcode cs fl src : Forall (fun c => 0 <= c < 2147483648) src -> forall space,
  sb_from_u32_w cs fl src space = sb_from_u32 cs fl src space.
Proof.
  induction 1 as [|c src Hc HF IH]; intros space; [reflexivity|]. cbn [sb_from_u32_w sb_from_u32].
  assert (from_invalid_w fl c = from_invalid fl c) as -> by (unfold from_invalid_w, from_invalid; rewrite to_i32_small by exact Hc; reflexivity).
  rewrite IH. reflexivity.
Qed.
Lemma scan_ext f g src limit : Forall (fun c => f c = g c) src -> scan f src limit = scan g src limit.
Proof.
  intros H. unfold scan. destruct (_ <=? _); [generalize 0|generalize 0]; induction H as [|c src Hc HF IH]; intros n; cbn [scan_all scan_limit]; try reflexivity; rewrite Hc; destruct (g c) as [[|]|]; cbn [obind]; try reflexivity; rewrite IH; reflexivity.
Qed.
Lemma same_size cs fl src limit : Forall (fun c => 0 <= c < 2147483648) src ->
  sb_from_u32_size_w cs fl src limit = sb_from_u32_size cs fl src limit.
Proof.
  intros H. unfold sb_from_u32_size_w, sb_from_u32_size, find_first_unsupported_or_invalid_codepoint, find_first_invalid_codepoint, find_first_valid_but_unsupported_codepoint.
  destruct (f_stop_unsupported fl), (f_stop_invalid fl); cbn [andb]; try reflexivity; apply scan_ext; (eapply Forall_impl; [|exact H]); intros c Hc; cbv beta in Hc; cbv beta;
    unfold size_invalid_w, size_valid_w; rewrite to_i32_small by exact Hc; reflexivity.
Qed.

(* one unit: from 2^31 on, a code point the charset does not support *)
Definition from_step_w cs (fl : flags) (c : Z) : step :=
  if c <? 2147483648 then from_step cs fl c
  else mk_step [c] [0x3F] (ReportUnsupported c) (if f_stop_unsupported fl then Some RUnsupported else None).
Lemma from_step_w_unit cs fl : unitwise (from_step_w cs fl).
Proof. intros c. unfold from_step_w. destruct (_ <? _); (split; [reflexivity|eexists; reflexivity]). Qed.
Lemma from_w_alt cs fl c : 0 <= c < 2 ^ 32 -> (2147483648 <= c -> supports cs c = false) ->
  from_step_w cs fl c = (let bad := negb (supports cs c) in
  let invalid := bad && from_invalid_w fl c in
  let unsupported := bad && negb (from_invalid_w fl c) in
  mk_step [c] [if bad then 0x3F else encoded cs c]
    (if unsupported then ReportUnsupported c else if invalid then ReportInvalid else NoReport)
    (if unsupported && f_stop_unsupported fl then Some RUnsupported
     else if invalid && f_stop_invalid fl then Some RInvalid else None)).
Proof.
  intros Hc HS. unfold from_step_w. destruct (Z.ltb_spec c 2147483648).
  - unfold from_step, from_invalid_w, from_invalid. rewrite to_i32_small by lia. reflexivity.
  - rewrite HS by lia. pose proof (to_i32_big c ltac:(lia)). assert (from_invalid_w fl c = false) as ->.
    { unfold from_invalid_w. cbv zeta. replace (0xD800 <=? to_i 32 c) with false by lia. rewrite andb_false_r. lia. }
    cbn [negb andb]. destruct (f_stop_unsupported fl); reflexivity.
Qed.
Lemma big_unsupported cs exc c : sbcs_ok cs exc -> Forall (fun x => x < 0xD800) exc -> 2147483648 <= c -> supports cs c = false.
Proof.
  intros OK HX Hc. destruct (supports cs c) eqn:E; [|reflexivity]. destruct (supports_small cs exc OK c ltac:(lia) E) as [|[|Hi]]; [lia|lia|].
  rewrite Forall_forall in HX. specialize (HX _ Hi). lia.
Qed.
Lemma from_w_steps cs exc fl src : sbcs_ok cs exc -> Forall (fun x => x < 0xD800) exc -> chars src -> forall space, 0 <= space ->
  sb_from_u32_w cs fl src space = Some (run_steps (map (from_step_w cs fl) src) space).
Proof.
  intros OK HX. induction 1 as [|c src Hc HF IH]; intros space Hs; [reflexivity|]. cbn [sb_from_u32_w map run_steps].
  rewrite (encode_some cs exc OK c) by lia. cbn [obind].
  assert (HSr : srcs (map (from_step_w cs fl) src) = src) by (apply srcs_units; intros x; unfold from_step_w; destruct (_ <? _); reflexivity).
  rewrite (from_w_alt cs fl c Hc) by (apply (big_unsupported cs exc c OK HX)). cbv zeta. cbn [st_stop st_out st_src].
  unfold note_of, srcs. cbn [flat_map st_report st_src]. fold (srcs (map (from_step_w cs fl) src)). rewrite HSr. cbn [app].
  replace (0x100 <=? encoded cs c) with (negb (supports cs c)) by (unfold supports; lia).
  pose proof (encoded_nonneg cs exc OK c ltac:(lia)) as Hn.
  destruct (supports cs c) eqn:ES, (from_invalid_w fl c), (f_stop_unsupported fl), (f_stop_invalid fl); cbn [andb negb]; try reflexivity;
    (destruct (Z.eqb_spec space 0) as [->|]; [reflexivity|]);
    (match goal with |- context [zlen [?x] <=? space] => replace (zlen [x] <=? space) with true by (unfold zlen; cbn [length]; lia) end);
    rewrite IH by lia; cbn [obind]; unfold cons_result; rewrite ?to_u8_id by (unfold supports in ES; lia); reflexivity.
Qed.
Lemma from_w_size_steps cs exc fl src limit : sbcs_ok cs exc -> Forall (fun x => x < 0xD800) exc -> chars src -> 0 <= limit ->
  Forall (fun c => ~ size_exception c) src ->
  sb_from_u32_size_w cs fl src limit = Some (size_of_result (run_steps (map (from_step_w cs fl) src) limit)).
Proof.
  intros OK HX HB HL HE. unfold sb_from_u32_size_w.
  assert (HC : forall bad, (forall c, 0 <= c < 2 ^ 32 -> ~ size_exception c -> bad c = Some (st_stop (from_step_w cs fl c))) ->
    scan bad src limit = Some (size_of_result (run_steps (map (from_step_w cs fl) src) limit))).
  { intros bad HBad. apply scan_ok; [apply from_step_w_unit| |exact HL]. apply Forall_forall. intros c Hc.
    unfold chars in HB. rewrite Forall_forall in HB, HE. apply HBad; auto. }
  assert (HS : forall c, 0 <= c -> ~ size_exception c -> supports cs c = true -> c < 0xD800).
  { intros c Hc Hn Hs. unfold size_exception in Hn. destruct (supports_small cs exc OK c Hc Hs) as [|[|Hi]]; [lia|lia|].
    rewrite Forall_forall in HX. apply HX. exact Hi. }
  assert (HV : forall c, 0 <= c < 2 ^ 32 -> size_invalid_w (f_strict fl) c = from_invalid_w fl c) by reflexivity.
  assert (HI : forall c, 0 <= c < 2 ^ 32 -> ~ size_exception c -> supports cs c = true -> from_invalid_w fl c = false).
  { intros c Hc Hn Hs. specialize (HS c ltac:(lia) Hn Hs). unfold from_invalid_w. rewrite to_i32_small by lia. replace (0xD800 <=? c) with false by lia. rewrite andb_false_r. lia. }
  destruct (f_stop_unsupported fl) eqn:EU, (f_stop_invalid fl) eqn:EI; cbn [andb].
  - apply HC. intros c Hc Hn. rewrite (from_w_alt cs fl c Hc) by (apply (big_unsupported cs exc c OK HX)). cbv zeta. cbn [st_stop]. rewrite EU, EI, !andb_true_r.
    rewrite (encode_some cs exc OK c) by lia. cbn [obind].
    replace (0x100 <=? encoded cs c) with (negb (supports cs c)) by (unfold supports; lia). rewrite HV by exact Hc.
    specialize (HI c Hc Hn). destruct (supports cs c); cbn [negb andb]; [rewrite HI by reflexivity; reflexivity|destruct (from_invalid_w fl c); reflexivity].
  - apply HC. intros c Hc Hn. rewrite (from_w_alt cs fl c Hc) by (apply (big_unsupported cs exc c OK HX)). cbv zeta. cbn [st_stop]. rewrite EU, EI, !andb_true_r, !andb_false_r.
    rewrite (encode_some cs exc OK c) by lia. cbn [obind].
    replace (0x100 <=? encoded cs c) with (negb (supports cs c)) by (unfold supports; lia).
    assert (size_valid_w (f_strict fl) c = negb (from_invalid_w fl c)) as ->.
    { unfold size_valid_w, from_invalid_w. cbv zeta. assert (to_i 32 c <> 0xD800 /\ to_i 32 c <> 0xFFFF /\ to_i 32 c <> 0x110000).
      { destruct (Z.ltb_spec c 2147483648); [rewrite to_i32_small by lia; unfold size_exception in Hn; lia|]. pose proof (to_i32_big c ltac:(lia)). lia. }
      destruct (f_strict fl); cbn [andb]; lia. }
    destruct (supports cs c), (from_invalid_w fl c); reflexivity.
  - apply HC. intros c Hc Hn. rewrite (from_w_alt cs fl c Hc) by (apply (big_unsupported cs exc c OK HX)). cbv zeta. cbn [st_stop]. rewrite EU, EI, !andb_true_r, !andb_false_r.
    rewrite HV by exact Hc. specialize (HI c Hc Hn).
    destruct (supports cs c); cbn [negb andb]; [rewrite HI by reflexivity; reflexivity|destruct (from_invalid_w fl c); reflexivity].
  - apply plain_size_ok; [apply from_step_w_unit| |exact HL]. apply Forall_forall. intros c Hc.
    unfold chars in HB. rewrite Forall_forall in HB.
    rewrite (from_w_alt cs fl c (HB c Hc)) by (apply (big_unsupported cs exc c OK HX)). cbn [st_stop]. rewrite EU, EI, !andb_false_r. reflexivity.
Qed.
