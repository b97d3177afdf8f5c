(* What the floating-point printers write. *)
From Verif Require Import Base GroupSpec DigitsSpec IntSpec DestModel DestProofs GroupModel GroupProofs GroupDist
  DigitsModel DigitsProofs IntModel IntProofs CharsetModel FloatSpec FloatModel FloatArith.

Lemma zeros_len n : 0 <= n -> zlen (zeros n) = n.
Proof. apply zlen_repeat. Qed.
Lemma zeros_app a b : 0 <= a -> 0 <= b -> zeros (a + b) = zeros a ++ zeros b.
Proof. intros; unfold zeros. rewrite Z2Nat.inj_add, repeat_app by lia. reflexivity. Qed.
Lemma zeros_nil n : n <= 0 -> zeros n = [].
Proof. intros; unfold zeros. replace (Z.to_nat n) with O by lia. reflexivity. Qed.
Lemma zeros_firstn a b : 0 <= a <= b -> firstn (Z.to_nat a) (zeros b) = zeros a.
Proof.
  intros. replace b with (a + (b - a)) by lia. rewrite zeros_app by lia.
  rewrite firstn_app, firstn_all2 by (unfold zeros; rewrite repeat_length; lia).
  unfold zeros at 2. rewrite repeat_length. replace (Z.to_nat a - Z.to_nat a)%nat with O by lia. cbn. apply app_nil_r.
Qed.
Lemma zeros_skipn a b : 0 <= a <= b -> skipn (Z.to_nat a) (zeros b) = zeros (b - a).
Proof.
  intros. replace b with (a + (b - a)) at 1 by lia. rewrite zeros_app by lia.
  rewrite skipn_app, skipn_all2 by (unfold zeros; rewrite repeat_length; lia).
  unfold zeros at 1. rewrite repeat_length. replace (Z.to_nat a - Z.to_nat a)%nat with O by lia. reflexivity.
Qed.
Lemma fill_zeros n : op_text (OFill n 48) = zeros n.
Proof. reflexivity. Qed.
Lemma firstn_mid {A} k (a b : list A) : 0 <= k <= zlen a -> firstn (Z.to_nat k) (a ++ b) = firstn (Z.to_nat k) a.
Proof. unfold zlen. intros. rewrite firstn_app. replace (Z.to_nat k - length a)%nat with O by lia. cbn. apply app_nil_r. Qed.
Lemma skipn_mid {A} k (a b : list A) : 0 <= k <= zlen a -> skipn (Z.to_nat k) (a ++ b) = skipn (Z.to_nat k) a ++ b.
Proof. unfold zlen. intros. rewrite skipn_app. replace (Z.to_nat k - length a)%nat with O by lia. reflexivity. Qed.
Lemma firstn_over {A} k (a b : list A) : zlen a <= k -> firstn (Z.to_nat k) (a ++ b) = a ++ firstn (Z.to_nat (k - zlen a)) b.
Proof. unfold zlen. intros. rewrite firstn_app, firstn_all2 by lia. do 2 f_equal. lia. Qed.
Lemma skipn_over {A} k (a b : list A) : zlen a <= k -> skipn (Z.to_nat k) (a ++ b) = skipn (Z.to_nat (k - zlen a)) b.
Proof. unfold zlen. intros. rewrite skipn_app, skipn_all2 by lia. cbn [app]. f_equal. lia. Qed.

Section Amplified.
Variables (encsep : list Z) (m : Z).
Hypothesis He : zlen encsep = m.
Hypothesis Hm : m <= 4.

Lemma zero_group_ok n : 1 <= n <= 31 -> op_wf (zero_group encsep m n) /\ op_text (zero_group encsep m n) = encsep ++ zeros n.
Proof using He Hm.
  intros Hn. split; [|reflexivity]. unfold zero_group. cbn [op_wf]. rewrite app_length.
  unfold zeros. rewrite repeat_length. unfold zlen in He. lia.
Qed.
Lemma zero_low_ok : forall hs fuel, groups_ok hs -> (length hs <= fuel)%nat ->
  wrote (zero_low fuel encsep m (rpk hs)) (chunks_tail encsep hs (zeros (zsum hs))).
Proof using He Hm.
  induction hs as [|h hs IH]; intros fuel Hok Hf.
  - exists []. split; [destruct fuel; reflexivity|]. split; [constructor|reflexivity].
  - destruct fuel as [|fuel]; [cbn in Hf; lia|]. cbn [zero_low chunks_tail zsum].
    rewrite empty_rpk, highest_rpk, pop_rpk by assumption.
    pose proof (Forall_inv Hok) as Hh. pose proof (Forall_inv_tail Hok) as Hh2. cbn beta in Hh.
    pose proof (zsum_nonneg hs (groups_pos hs Hh2)).
    destruct (IH fuel Hh2 ltac:(cbn in Hf; lia)) as (os & E & W & T). rewrite E. cbn [obind].
    destruct (zero_group_ok h Hh) as [W1 T1].
    eexists; split; [reflexivity|]. split; [constructor; assumption|].
    rewrite ops_text_cons, T1, T. rewrite zeros_firstn, zeros_skipn by lia.
    replace (h + zsum hs - h) with (zsum hs) by lia. rewrite <- app_assoc. reflexivity.
Qed.
Lemma zero_repeat_ok g n z : 1 <= g <= 31 -> Z.of_nat n * g <= z ->
  Forall op_wf (repeat (zero_group encsep m g) n) /\
  ops_text (repeat (zero_group encsep m g) n) = chunks_tail encsep (repeat g n) (zeros z).
Proof using He Hm.
  intros Hg. revert z. induction n as [|n IH]; intros z Hz; [split; [constructor|reflexivity]|].
  rewrite Nat2Z.inj_succ in Hz. cbn [repeat chunks_tail]. assert (0 <= Z.of_nat n * g) by nia.
  rewrite zeros_firstn, zeros_skipn by lia. destruct (zero_group_ok g Hg) as [W1 T1].
  destruct (IH (z - g) ltac:(lia)) as [W T]. split; [constructor; assumption|].
  rewrite ops_text_cons, T1, T, <- app_assoc. reflexivity.
Qed.
End Amplified.

Lemma zsum_repeat g n : zsum (repeat g n) = Z.of_nat n * g.
Proof. induction n as [|n IH]; cbn [repeat zsum]; lia. Qed.

Section Amplified2.
Variables (small : bool) (encsep : list Z) (m : Z).
Hypothesis He : zlen encsep = m.
Hypothesis Hm : m <= 4.
Hypothesis Hsm : small = true -> m = 1.

Lemma partial_group_ok grp ds : 1 <= grp <= 31 -> zlen ds <= grp ->
  Forall op_wf (partial_group small encsep m grp ds) /\
  ops_text (partial_group small encsep m grp ds) = encsep ++ ds ++ zeros (grp - zlen ds).
Proof using He Hm Hsm.
  intros Hg Hd. pose proof (zlen_nonneg ds). unfold partial_group. destruct small.
  - specialize (Hsm eq_refl). split.
    + constructor; [|constructor; [exact I|constructor]]. cbn [op_wf]. rewrite app_length. unfold zlen in *. lia.
    + rewrite !ops_text_cons. cbn [op_text]. unfold ops_text; cbn. unfold zeros. rewrite app_nil_r, <- app_assoc. reflexivity.
  - split.
    + constructor; [|constructor]. cbn [op_wf]. rewrite !app_length. unfold zeros. rewrite repeat_length. unfold zlen in *. lia.
    + rewrite ops_text_cons. cbn [op_text]. unfold ops_text; cbn. apply app_nil_r.
Qed.
Lemma zero_middle_ok grp : 1 <= grp <= 31 ->
  Forall op_wf (zero_middle small encsep m grp) /\ ops_text (zero_middle small encsep m grp) = encsep ++ zeros grp.
Proof using He Hm Hsm.
  intros Hg. unfold zero_middle. destruct small.
  - split; [apply Forall_app; split; [apply puts_wf|constructor; [exact I|constructor]]|].
    rewrite ops_text_app, puts_text. f_equal. unfold ops_text; cbn. apply app_nil_r.
  - destruct (zero_group_ok encsep m He Hm grp Hg) as [W T]. split; [constructor; [exact W|constructor]|].
    rewrite ops_text_cons, T. unfold ops_text; cbn. apply app_nil_r.
Qed.
Lemma zero_middles_ok grp n z : 1 <= grp <= 31 -> Z.of_nat n * grp <= z ->
  Forall op_wf (concat (repeat (zero_middle small encsep m grp) n)) /\
  ops_text (concat (repeat (zero_middle small encsep m grp) n)) = chunks_tail encsep (repeat grp n) (zeros z).
Proof using He Hm Hsm.
  intros Hg. revert z. induction n as [|n IH]; intros z Hz; [split; [constructor|reflexivity]|].
  rewrite Nat2Z.inj_succ in Hz. cbn [repeat concat chunks_tail]. assert (0 <= Z.of_nat n * grp) by nia.
  rewrite zeros_firstn, zeros_skipn by lia. destruct (zero_middle_ok grp Hg) as [W1 T1].
  destruct (IH (z - grp) ltac:(lia)) as [W T]. split; [apply Forall_app; split; assumption|].
  rewrite ops_text_app, T1, T, <- app_assoc. reflexivity.
Qed.
Lemma middle_groups_ok grp : 1 <= grp <= 31 -> forall n ds z, 0 <= z -> Z.of_nat n * grp <= zlen ds + z ->
  exists os r, middle_groups n small encsep m grp ds = (os, r) /\ Forall op_wf os /\
    ops_text os = chunks_tail encsep (repeat grp n) (ds ++ zeros z) /\
    match r with
    | Some rest => Z.of_nat n * grp <= zlen ds /\ rest = skipn (Z.to_nat (Z.of_nat n * grp)) ds
    | None => zlen ds <= Z.of_nat n * grp
    end.
Proof using He Hm Hsm.
  intros Hg. induction n as [|n IH]; intros ds z Hz Hn; pose proof (zlen_nonneg ds).
  - exists [], (Some ds). cbn [middle_groups]. split; [reflexivity|]. split; [constructor|]. split; [reflexivity|].
    split; [lia|reflexivity].
  - rewrite Nat2Z.inj_succ in Hn. cbn [middle_groups repeat chunks_tail]. assert (0 <= Z.of_nat n * grp) by nia.
    destruct (Z.leb_spec grp (zlen ds)) as [Hle|Hgt].
    + destruct (IH (skipn (Z.to_nat grp) ds) z Hz) as (os & r & E & W & T & R); [rewrite zlen_skipn by lia; lia|].
      rewrite E. eexists _, r. split; [reflexivity|]. split; [|split].
      * constructor; [|exact W]. cbn [op_wf]. rewrite app_length, firstn_length. unfold zlen in *. lia.
      * rewrite ops_text_cons, T. cbn [op_text]. rewrite firstn_mid, skipn_mid by lia. rewrite <- app_assoc. reflexivity.
      * rewrite zlen_skipn in R by lia. destruct r as [rest|]; [|lia]. destruct R as [R1 ->]. split; [lia|].
        rewrite skipn_skipn. f_equal. lia.
    + rewrite firstn_over, skipn_over by lia. rewrite zeros_firstn, zeros_skipn by lia.
      destruct (zero_middles_ok grp n (z - (grp - zlen ds)) Hg ltac:(lia)) as [W2 T2].
      destruct (Z.ltb_spec 0 (zlen ds)) as [Hp|Hz0].
      * destruct (partial_group_ok grp ds Hg ltac:(lia)) as [W1 T1].
        eexists _, None. split; [reflexivity|]. split; [apply Forall_app; split; assumption|]. split; [|lia].
        rewrite ops_text_app, T1, T2, <- !app_assoc. reflexivity.
      * assert (ds = []) by (destruct ds; [reflexivity|rewrite zlen_cons in *; pose proof (zlen_nonneg ds); lia]). subst ds.
        change (zlen []) with 0 in *. rewrite !Z.sub_0_r in *. eexists _, None. split; [reflexivity|].
        cbn [repeat concat app]. destruct (zero_middle_ok grp Hg) as [W1 T1].
        split; [apply Forall_app; split; assumption|]. split; [|lia].
        rewrite ops_text_app, T1, T2, <- !app_assoc. reflexivity.
Qed.
Lemma lower_groups_ok : forall hs fuel ds z, groups_ok hs -> (length hs < fuel)%nat -> 0 < zlen ds -> 0 <= z ->
  zsum hs = zlen ds + z ->
  exists os hs', lower_groups fuel encsep m (rpk hs) ds = Some (os, rpk hs') /\ Forall op_wf os /\ groups_ok hs' /\
    (length hs' <= length hs)%nat /\
    ops_text os ++ chunks_tail encsep hs' (zeros (zsum hs')) = chunks_tail encsep hs (ds ++ zeros z).
Proof using He Hm Hsm.
  induction hs as [|h hs IH]; intros fuel ds z Hok Hf Hd Hz Hs; [cbn [zsum] in Hs; lia|].
  destruct fuel as [|fuel]; [lia|]. cbn [lower_groups zsum chunks_tail] in *.
  rewrite empty_rpk, highest_rpk, pop_rpk by assumption.
  pose proof (Forall_inv Hok) as Hh. pose proof (Forall_inv_tail Hok) as Hh2. cbn beta in Hh.
  pose proof (zsum_nonneg hs (groups_pos hs Hh2)).
  destruct (Z.ltb_spec h (zlen ds)) as [Hlt|Hge].
  - destruct (IH fuel (skipn (Z.to_nat h) ds) z Hh2) as (os & hs' & E & W & G & L & T); try (cbn [length] in Hf; lia);
      try (rewrite zlen_skipn by lia; lia).
    rewrite E. cbn [obind fst snd]. eexists _, hs'. split; [reflexivity|]. split; [|split; [exact G|split; [cbn; lia|]]].
    + constructor; [|exact W]. cbn [op_wf]. rewrite app_length, firstn_length. unfold zlen in *. lia.
    + rewrite firstn_mid, skipn_mid by lia. rewrite ops_text_cons. cbn [op_text]. rewrite <- !app_assoc, T. reflexivity.
  - eexists _, hs. split; [reflexivity|]. split; [|split; [exact Hh2|split; [cbn; lia|]]].
    + constructor; [cbn [op_wf]; rewrite app_length; unfold zlen in *; lia|].
      destruct (Z.ltb_spec (zlen ds) h); [|constructor]. constructor; [|constructor].
      cbn [op_wf]. unfold zeros. rewrite repeat_length. unfold zlen in *; lia.
    + rewrite firstn_over, skipn_over by lia. rewrite zeros_firstn, zeros_skipn by lia.
      replace (z - (h - zlen ds)) with (zsum hs) by lia. rewrite ops_text_cons. cbn [op_text].
      rewrite <- !app_assoc. do 3 f_equal.
      destruct (Z.ltb_spec (zlen ds) h); [rewrite ops_text_cons; unfold ops_text; cbn; apply app_nil_r|].
      rewrite zeros_nil by lia. reflexivity.
Qed.

(* the digits of v followed by zeros, grouped *)
Lemma amplified_ok g gs rep v tz : represents g gs rep -> 0 <= v < 2 ^ 64 -> 0 <= tz ->
  wrote (amplified small g encsep m v (zlen (digits 10 v)) tz)
        (grouped (boundary gs rep) encsep (dtext true 10 v ++ zeros tz)).
Proof using He Hm Hsm.
  intros Hr Hv Hz. unfold amplified. set (nd := zlen (digits 10 v)).
  destruct (digits64_len B10 v Hv) as [_ Hnd]. specialize (Hnd ltac:(congruence)). cbn [bval] in Hnd. fold nd in Hnd.
  assert (Hnd1 : 1 <= nd) by (apply digits_nonneg_len; lia).
  destruct (distribute_ok g gs rep (nd + tz) Hr ltac:(lia)) as (d & low & Ed & Elow & Glow & Llow & Hmid & Hmid0 & Hsum & Hcut).
  rewrite Ed. cbn [obind]. destruct Hcut as (Hne & Hpos & Hgr).
  rewrite Hgr by (rewrite zlen_app, dtext_len, zeros_len by lia; fold nd; lia).
  assert (Hwb := write_back_ok B10 true v ltac:(congruence) Hv). cbn [bval] in Hwb.
  set (ds := dtext true 10 v) in *. assert (Hds : zlen ds = nd) by apply dtext_len.
  set (h := dist_highest d) in *.
  assert (Hh : 1 <= h) by (unfold dist_sizes in Hpos; inversion Hpos; subst; assumption).
  assert (Hrest : zsum (if dist_middle d =? 0 then low else repeat (hd 0 low) (Z.to_nat (dist_middle d)) ++ tl low) = nd + tz - h).
  { unfold dist_sizes in Hsum. cbn [zsum] in Hsum. fold h in Hsum. lia. }
  assert (Hlowp := groups_pos low Glow). pose proof (zsum_nonneg low Hlowp) as Hln.
  unfold dist_sizes. fold h. cbn [chunks].
  destruct (Z.leb_spec nd h) as [Hle|Hgt].
  - (* all digits in the highest group *)
    unfold amplified_1. rewrite Hwb. cbn [obind]. fold ds.
    destruct (reserve_back_ok nd ds Hds ltac:(lia)) as (o1 & E1 & W1 & T1). rewrite E1. cbn [obind]. fold h.
    assert (Hzt : h - nd <= tz).
    { destruct (dist_middle d =? 0) eqn:E0; [lia|]. specialize (Hmid ltac:(lia)). destruct low as [|l0 low]; [congruence|].
      cbn [hd tl] in Hrest. inversion Hlowp; subst. rewrite zsum_app, zsum_repeat in Hrest. pose proof (zsum_nonneg low H2). nia. }
    rewrite firstn_over, skipn_over by lia. rewrite Hds, zeros_firstn, zeros_skipn by lia.
    replace (tz - (h - nd)) with (nd + tz - h) by lia.
    destruct (Z.eqb_spec (dist_middle d) 0) as [E0|E0].
    + rewrite Elow. destruct (zero_low_ok encsep m He Hm low 8 Glow ltac:(lia)) as (o4 & E4 & W4 & T4). rewrite E4. cbn [obind].
      eexists; split; [reflexivity|]. split; [apply Forall_app; split; [exact W1|constructor; [exact I|exact W4]]|].
      rewrite ops_text_app, ops_text_cons, T1, T4, fill_zeros, Hrest, <- app_assoc. reflexivity.
    + destruct low as [|l0 low]; [specialize (Hmid E0); congruence|]. cbn [hd tl] in *. rewrite Elow, highest_rpk, pop_rpk by assumption.
      pose proof (Forall_inv Glow) as Hl0. pose proof (Forall_inv_tail Glow) as Gl. cbn beta in Hl0.
      pose proof (zsum_nonneg low (groups_pos low Gl)). rewrite zsum_app, zsum_repeat in Hrest.
      destruct (zero_low_ok encsep m He Hm low 8 Gl ltac:(cbn in Llow; lia)) as (o4 & E4 & W4 & T4). rewrite E4. cbn [obind].
      destruct (zero_repeat_ok encsep m He Hm l0 (Z.to_nat (dist_middle d)) (nd + tz - h) Hl0 ltac:(lia)) as [W3 T3].
      eexists; split; [reflexivity|]. split.
      * apply Forall_app; split; [exact W1|constructor; [exact I|apply Forall_app; split; assumption]].
      * rewrite ops_text_app, ops_text_cons, ops_text_app, T1, T3, T4, fill_zeros, <- app_assoc. do 2 f_equal.
        rewrite chunks_tail_app by (apply Forall_forall; intros x Hx; apply repeat_spec in Hx; lia).
        f_equal. rewrite zsum_repeat, zeros_skipn by nia. do 2 f_equal. lia.
  - unfold amplified_2. rewrite Hwb. cbn [obind]. fold ds. rewrite Hds. rewrite Z.eqb_refl. unfold nd at 1.
    replace (max_num_digits B10 S8 <? zlen (digits 10 v)) with false by (pose proof (max_digits_ok B10 v Hv); cbn [bval] in *; lia). cbn [negb orb].
    fold h. replace ((0 <? h) && (h <? nd)) with true by lia.
    rewrite firstn_mid, skipn_mid by lia. set (R := skipn (Z.to_nat h) ds).
    assert (HR : zlen R = nd - h) by (unfold R; rewrite zlen_skipn; lia).
    assert (W1 : op_wf (OReserve (Z.to_nat h) (firstn (Z.to_nat h) ds))).
    { cbn [op_wf]. rewrite firstn_length. unfold zlen in Hds. lia. }
    assert (Hfin : forall hs ds', groups_ok hs -> (length hs <= 6)%nat -> forall z, 0 <= z -> zsum hs = zlen ds' + z ->
      exists os hs', (if 0 <? zlen ds' then lower_groups 8 encsep m (rpk hs) ds' else Some ([], rpk hs)) = Some (os, rpk hs') /\
        Forall op_wf os /\ exists o4, zero_low 8 encsep m (rpk hs') = Some o4 /\ Forall op_wf o4 /\
        ops_text os ++ ops_text o4 = chunks_tail encsep hs (ds' ++ zeros z)).
    { intros hs ds' G L z Hz' Hs'. pose proof (zlen_nonneg ds'). destruct (Z.ltb_spec 0 (zlen ds')).
      - destruct (lower_groups_ok hs 8 ds' z G ltac:(lia) ltac:(lia) Hz' Hs') as (os & hs' & E & W & G' & L' & T).
        exists os, hs'. split; [exact E|]. split; [exact W|].
        destruct (zero_low_ok encsep m He Hm hs' 8 G' ltac:(lia)) as (o4 & E4 & W4 & T4).
        exists o4. split; [exact E4|]. split; [exact W4|]. rewrite T4. exact T.
      - exists [], hs. split; [reflexivity|]. split; [constructor|].
        destruct (zero_low_ok encsep m He Hm hs 8 G ltac:(lia)) as (o4 & E4 & W4 & T4).
        exists o4. split; [exact E4|]. split; [exact W4|]. rewrite T4.
        assert (ds' = []) by (destruct ds'; [reflexivity|rewrite zlen_cons in *; pose proof (zlen_nonneg ds'); lia]). subst ds'.
        cbn [app]. change (zlen []) with 0 in *. rewrite Hs'. reflexivity. }
    destruct (Z.eqb_spec (dist_middle d) 0) as [E0|E0].
    + rewrite Elow. destruct (Hfin low R Glow Llow tz Hz ltac:(lia)) as (os & hs' & E & W & o4 & E4 & W4 & T).
      rewrite E. cbn [obind fst snd]. rewrite E4. cbn [obind]. eexists; split; [reflexivity|].
      cbn [app]. split; [constructor; [exact W1|apply Forall_app; split; assumption]|].
      cbn [app]. rewrite ops_text_cons, ops_text_app, T. reflexivity.
    + destruct low as [|l0 low]; [specialize (Hmid E0); congruence|]. cbn [hd tl] in *. rewrite Elow, highest_rpk, pop_rpk by assumption.
      pose proof (Forall_inv Glow) as Hl0. pose proof (Forall_inv_tail Glow) as Gl. cbn beta in Hl0.
      pose proof (zsum_nonneg low (groups_pos low Gl)). rewrite zsum_app, zsum_repeat, Z2Nat.id in Hrest by lia.
      destruct (middle_groups_ok l0 Hl0 (Z.to_nat (dist_middle d)) R tz Hz ltac:(rewrite Z2Nat.id by lia; lia)) as (o2 & r & E2 & W2 & T2 & HRr).
      rewrite E2. rewrite Z2Nat.id in HRr by lia.
      assert (Hrp : sizes_pos (repeat l0 (Z.to_nat (dist_middle d)))) by (apply Forall_forall; intros x Hx; apply repeat_spec in Hx; lia).
      rewrite chunks_tail_app by exact Hrp. rewrite zsum_repeat, Z2Nat.id by lia.
      set (M := dist_middle d * l0) in *. assert (0 <= M) by (unfold M; nia).
      assert (HX : exists ds' z', 0 <= z' /\ skipn (Z.to_nat M) (R ++ zeros tz) = ds' ++ zeros z' /\ zsum low = zlen ds' + z' /\
         match r with Some rest => rest = ds' | None => ds' = [] end).
      { destruct r as [rest|].
        - destruct HRr as [HR1 ->]. exists (skipn (Z.to_nat M) R), tz. split; [lia|]. rewrite skipn_mid by lia.
          split; [reflexivity|]. rewrite zlen_skipn by lia. split; [lia|reflexivity].
        - exists [], (tz - (M - zlen R)). split; [lia|]. rewrite skipn_over, zeros_skipn by lia. split; [reflexivity|].
          split; [change (zlen (@nil Z)) with 0; lia|reflexivity]. }
      destruct HX as (ds' & z' & Hz' & Esk & Esum & Er). rewrite Esk.
      destruct (Hfin low ds' Gl ltac:(cbn in Llow; lia) z' Hz' Esum) as (os & hs' & E & W & o4 & E4 & W4 & T).
      assert (Em : match r with Some ds0 => if 0 <? zlen ds0 then lower_groups 8 encsep m (rpk low) ds0 else Some ([], rpk low)
                   | None => Some ([], rpk low) end = Some (os, rpk hs')).
      { destruct r as [rest|]; subst; exact E. }
      rewrite Em. cbn [obind fst snd]. rewrite E4. cbn [obind]. eexists; split; [reflexivity|].
      split; [constructor; [exact W1|apply Forall_app; split; [exact W2|apply Forall_app; split; assumption]]|].
      rewrite ops_text_cons, !ops_text_app, T2, T. reflexivity.
Qed.
End Amplified2.
