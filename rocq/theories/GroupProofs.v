(* The packed grouping implements the abstract one. *)
From Verif Require Import Base GroupModel GroupSpec.

Definition groups_ok (gs : list Z) : Prop := Forall (fun g => 1 <= g <= 31) gs.

Lemma land31 x : 0 <= x -> Z.land x grp_mask = x mod 32.
Proof. intros; change grp_mask with (Z.ones 5). rewrite Z.land_ones by lia. reflexivity. Qed.
Lemma shr5 x : Z.shiftr x grp_bits = x / 32.
Proof. unfold grp_bits. rewrite Z.shiftr_div_pow2 by lia. reflexivity. Qed.

Lemma pack_ge gs rep : groups_ok gs -> 2 <= pack gs rep /\ (gs <> [] -> 65 <= pack gs rep).
Proof.
  induction 1 as [|g gs Hg H IH]; cbn [pack]; [destruct rep; split; congruence || lia|].
  destruct IH as [IH _]. lia.
Qed.

Section Ops.
Variables (g : Z) (R : list Z) (rep : bool).
Hypothesis Hok : groups_ok (g :: R).
Let Hg : 1 <= g <= 31. Proof. inversion Hok; assumption. Qed.
Let HR : groups_ok R. Proof. inversion Hok; assumption. Qed.

Lemma current_pack : git_current (pack (g :: R) rep) = g.
Proof.
  unfold git_current; cbn [pack]. pose proof (proj1 (pack_ge R rep HR)).
  rewrite land31 by lia. lia.
Qed.
Lemma advance_pack : git_advance (pack (g :: R) rep) = pack R rep.
Proof. unfold git_advance; cbn [pack]. rewrite shr5. lia. Qed.
Lemma shr5_pack : Z.shiftr (pack (g :: R) rep) grp_bits = pack R rep.
Proof. exact advance_pack. Qed.
Lemma is_last_pack : git_is_last (pack (g :: R) rep) = match R with [] => true | _ => false end.
Proof.
  unfold git_is_last, grp_bits. rewrite Z.shiftr_div_pow2 by lia. change (2 ^ (5 + 2)) with 128.
  destruct (pack_ge R rep HR) as [_ H]. destruct R as [|r R'].
  - cbn [pack]. destruct rep; lia.
  - specialize (H ltac:(discriminate)). change (pack (g :: r :: R') rep) with (g + 32 * pack (r :: R') rep). lia.
Qed.
Lemma repeat_pack : git_shall_repeat (pack (g :: R) rep) = match R with [] => rep | _ => false end.
Proof.
  unfold git_shall_repeat, repeat_last. rewrite shr5_pack. destruct (pack_ge R rep HR) as [_ H]. destruct R as [|r R'].
  - cbn [pack]; destruct rep; reflexivity.
  - specialize (H ltac:(discriminate)). lia.
Qed.
Lemma final_pack : git_is_final (pack (g :: R) rep) = match R with [] => negb rep | _ => false end.
Proof.
  unfold git_is_final, dont_repeat_last. rewrite shr5_pack. destruct (pack_ge R rep HR) as [_ H]. destruct R as [|r R'].
  - cbn [pack]; destruct rep; reflexivity.
  - specialize (H ltac:(discriminate)). lia.
Qed.
Lemma ended_pack : git_ended (pack (g :: R) rep) = false.
Proof.
  unfold git_ended. rewrite Z.shiftr_div_pow2 by lia. change (2 ^ 2) with 4. cbn [pack].
  pose proof (proj1 (pack_ge R rep HR)). lia.
Qed.
End Ops.

Lemma pack_nonzero gs rep : groups_ok gs -> (pack gs rep =? 0) = false.
Proof. intros H. pose proof (proj1 (pack_ge gs rep H)). lia. Qed.
Lemma ended_nil rep : git_ended (pack [] rep) = true.
Proof. destruct rep; reflexivity. Qed.

(* [after g R rep]: the groups that follow the current group g *)
Definition after (g : Z) (R : list Z) (rep : bool) : list Z :=
  match R with [] => if rep then [g] else [] | _ => R end.

Lemma mod_shift i g : 1 <= g -> (i - g) mod g = i mod g.
Proof. intros. replace (i - g) with (i + (-1) * g) by lia. apply Z.mod_add; lia. Qed.

Lemma boundary_cons g R rep i : R <> [] -> boundary (g :: R) rep i = (i =? g) || ((g <? i) && boundary R rep (i - g)).
Proof. destruct R; [congruence|reflexivity]. Qed.

Lemma boundary_norm g R rep i : 1 <= g -> 0 < i -> boundary (g :: after g R rep) rep i = boundary (g :: R) rep i.
Proof.
  intros Hg Hi. destruct R as [|r R]; [|reflexivity]. cbn [after]. destruct rep; [|reflexivity].
  cbn [boundary]. rewrite mod_shift by lia.
  destruct (Z.eqb_spec i g) as [->|].
  - rewrite Z.mod_same by lia. destruct (Z.ltb_spec 0 g); [reflexivity|lia].
  - destruct (Z.ltb_spec g i).
    + replace (0 <? i) with true by lia. replace (0 <? i - g) with true by lia. reflexivity.
    + rewrite Z.mod_small by lia. lia.
Qed.

(* walking one digit to the left *)
Lemma boundary_shift c L rep i : 2 <= c -> 0 < i -> (L <> [] \/ rep = false) ->
  boundary (c :: L) rep (1 + i) = boundary (c - 1 :: L) rep i.
Proof.
  intros Hc Hi HL. destruct L as [|r L].
  - destruct HL as [|HL]; [congruence|]; subst rep. cbn [boundary]. lia.
  - rewrite !boundary_cons by discriminate. replace (1 + i - c) with (i - (c - 1)) by lia.
    replace (1 + i =? c) with (i =? c - 1) by lia. replace (c <? 1 + i) with (c - 1 <? i) by lia. reflexivity.
Qed.
Lemma boundary_step L rep i : 0 < i -> (L <> [] \/ rep = false) ->
  boundary (1 :: L) rep (1 + i) = boundary L rep i.
Proof.
  intros Hi HL. destruct L as [|r L].
  - destruct HL as [|HL]; [congruence|]; subst rep. cbn [boundary]. lia.
  - rewrite boundary_cons by discriminate. replace (1 + i - 1) with i by lia.
    destruct (Z.eqb_spec (1 + i) 1); [lia|]. destruct (Z.ltb_spec 1 (1 + i)); [reflexivity|lia].
Qed.
Lemma boundary_first c L rep : 1 <= c -> (L <> [] \/ rep = false) ->
  (forall i, 0 < i < c -> boundary (c :: L) rep i = false) /\ boundary (c :: L) rep c = true /\
  (forall i, 0 < i -> boundary (c :: L) rep (c + i) = boundary L rep i).
Proof.
  intros Hc HL. destruct L as [|r L].
  - destruct HL as [|HL]; [congruence|]; subst rep. cbn [boundary]. repeat split; intros; lia.
  - split; [|split].
    + intros i Hi. rewrite boundary_cons by discriminate. destruct (Z.eqb_spec i c), (Z.ltb_spec c i); lia || reflexivity.
    + rewrite boundary_cons by discriminate. rewrite Z.eqb_refl. reflexivity.
    + intros i Hi. rewrite boundary_cons by discriminate. replace (c + i - c) with i by lia.
      destruct (Z.eqb_spec (c + i) c); [lia|]. destruct (Z.ltb_spec c (c + i)); [reflexivity|lia].
Qed.
Lemma after_wf g R rep : after g R rep <> [] \/ rep = false.
Proof. destruct R; [destruct rep; [left; discriminate|right; reflexivity]|left; discriminate]. Qed.

(* ---- grouped ---- *)
Lemma grouped_ext B B' sep ds : (forall i, 0 < i < zlen ds -> B i = B' i) -> grouped B sep ds = grouped B' sep ds.
Proof.
  induction ds as [|d ds IH]; intros H; [reflexivity|]. rewrite zlen_cons in H. cbn [grouped].
  f_equal. f_equal.
  - destruct (Z.ltb_spec 0 (zlen ds)); [|reflexivity]. rewrite H by lia. reflexivity.
  - apply IH. intros; apply H; lia.
Qed.
Lemma grouped_none B sep ds : (forall i, 0 < i < zlen ds -> B i = false) -> grouped B sep ds = ds.
Proof.
  intros H. rewrite (grouped_ext B (fun _ => false)) by assumption. clear.
  induction ds as [|d ds IH]; [reflexivity|]. cbn [grouped]. rewrite andb_false_r. cbn [app]. f_equal; assumption.
Qed.
Lemma grouped_app B B' sep a b : a <> [] -> (forall i, 0 < i < zlen a -> B (zlen b + i) = B' i) ->
  grouped B sep (a ++ b) = grouped B' sep a ++ (if (0 <? zlen b) && B (zlen b) then sep else []) ++ grouped B sep b.
Proof.
  induction a as [|d a IH]; intros Hne HB; [congruence|]. cbn [app grouped].
  destruct a as [|e a].
  - reflexivity.
  - rewrite IH; [|discriminate|intros i Hi; apply HB; rewrite (zlen_cons d); lia].
    set (a' := e :: a) in *. rewrite zlen_app.
    assert (0 < zlen a') by (unfold a'; rewrite zlen_cons; pose proof (zlen_nonneg a); lia).
    pose proof (zlen_nonneg b).
    replace (0 <? zlen a' + zlen b) with true by lia. replace (0 <? zlen a') with true by lia. cbn [andb].
    rewrite <- (HB (zlen a')) by (rewrite zlen_cons; lia).
    rewrite (Z.add_comm (zlen a')). rewrite <- app_assoc. reflexivity.
Qed.
(* taking off the lowest group *)
Lemma grouped_group B B' sep a b : a <> [] -> 0 < zlen b ->
  (forall i, 0 < i < zlen b -> B i = false) -> B (zlen b) = true ->
  (forall i, 0 < i -> B (zlen b + i) = B' i) ->
  grouped B sep (a ++ b) = grouped B' sep a ++ sep ++ b.
Proof.
  intros Ha Hb H0 H1 H2. rewrite (grouped_app B B') by (auto; intros; apply H2; lia).
  rewrite H1. replace (0 <? zlen b) with true by lia. cbn [andb].
  rewrite (grouped_none B sep b) by assumption. reflexivity.
Qed.

Lemma grouped_len B sep ds : zlen (grouped B sep ds) = zlen ds + boundaries_below B (length ds) * zlen sep.
Proof.
  induction ds as [|d ds IH]; [reflexivity|]. cbn [grouped length boundaries_below].
  rewrite !zlen_cons, zlen_app, IH. fold (zlen ds). change (Z.of_nat (length ds)) with (zlen ds).
  destruct ((0 <? zlen ds) && B (zlen ds)); rewrite ?zlen_nil; lia.
Qed.

(* ---- counting separators ---- *)
Lemma below_ext B B' n : (forall i, 0 < i < Z.of_nat n -> B i = B' i) -> boundaries_below B n = boundaries_below B' n.
Proof.
  induction n as [|n IH]; intros H; [reflexivity|]. cbn [boundaries_below]. f_equal.
  - destruct (Z.ltb_spec 0 (Z.of_nat n)); [|reflexivity]. rewrite H by lia. reflexivity.
  - apply IH; intros; apply H; lia.
Qed.
Lemma below_none B n : (forall i, 0 < i < Z.of_nat n -> B i = false) -> boundaries_below B n = 0.
Proof.
  intros H. rewrite (below_ext B (fun _ => false)) by assumption. clear.
  induction n as [|n IH]; [reflexivity|]. cbn [boundaries_below]. rewrite andb_false_r, IH. reflexivity.
Qed.
Lemma below_group B B' g k : 0 < g -> (0 < k)%nat ->
  (forall i, 0 < i < g -> B i = false) -> B g = true -> (forall i, 0 < i -> B (g + i) = B' i) ->
  boundaries_below B (Z.to_nat g + k) = 1 + boundaries_below B' k.
Proof.
  intros Hg Hk H0 H1 H2. induction k as [|k IH]; [lia|].
  rewrite Nat.add_succ_r. cbn [boundaries_below].
  replace (Z.of_nat (Z.to_nat g + k)) with (g + Z.of_nat k) by lia.
  destruct k as [|k].
  - replace (g + Z.of_nat 0) with g by lia. rewrite H1, Nat.add_0_r. rewrite (below_none B (Z.to_nat g)).
    + cbn [boundaries_below]. replace (0 <? g) with true by lia. reflexivity.
    + intros i Hi; apply H0; lia.
  - rewrite IH by lia. rewrite H2 by lia. replace (0 <? g + Z.of_nat (S k)) with true by lia.
    replace (0 <? Z.of_nat (S k)) with true by lia. cbn [andb]. cbn [boundaries_below]. lia.
Qed.

Lemma below_repeat g n : 1 <= g -> (1 <= n)%nat -> boundaries_below (boundary [g] true) n = (Z.of_nat n - 1) / g.
Proof.
  intros Hg. induction n as [n IH] using lt_wf_ind; intros Hn.
  destruct (Z.le_gt_cases (Z.of_nat n) g) as [Hle|Hgt].
  - rewrite Z.div_small by lia. apply below_none. intros i Hi. cbn [boundary].
    rewrite Z.mod_small by lia. lia.
  - replace n with (Z.to_nat g + (n - Z.to_nat g))%nat at 1 by lia.
    rewrite (below_group _ (boundary [g] true)); try lia.
    + rewrite IH by lia.
      replace (Z.of_nat n - 1) with ((Z.of_nat (n - Z.to_nat g) - 1) + 1 * g) by lia.
      rewrite Z.div_add by lia. lia.
    + intros i Hi. cbn [boundary]. rewrite Z.mod_small by lia. lia.
    + cbn [boundary]. rewrite Z.mod_same by lia. lia.
    + intros i Hi. cbn [boundary]. replace (g + i) with (i + 1 * g) by lia. rewrite Z.mod_add by lia.
      f_equal; lia.
Qed.

Lemma separators_loop_ok rep : forall R g fuel n count, groups_ok (g :: R) -> (length R < fuel)%nat -> 1 <= n ->
  separators_loop fuel (pack (g :: R) rep) n count
  = Some (count + boundaries_below (boundary (g :: R) rep) (Z.to_nat n)).
Proof.
  induction R as [|r R IH]; intros g fuel n count Hok Hf Hn; (destruct fuel as [|fuel]; [cbn in Hf; lia|]);
    cbn [separators_loop]; unfold git_live; rewrite ended_pack by assumption; rewrite current_pack, is_last_pack, ?repeat_pack by assumption;
    assert (Hg : 1 <= g <= 31) by (inversion Hok; assumption);
    (destruct (Z.leb_spec n g) as [Hle|Hgt];
     [rewrite below_none; [f_equal; lia|intros i Hi]|]).
  - destruct rep; cbn [boundary]; [rewrite Z.mod_small by lia; lia|lia].
  - destruct rep.
    + destruct (Z.eqb_spec g 0); [lia|]. rewrite below_repeat by lia. do 2 f_equal. f_equal. lia.
    + replace (g <? n) with true by lia. replace (Z.to_nat n) with (Z.to_nat g + (Z.to_nat n - Z.to_nat g))%nat by lia.
      rewrite (below_group _ (fun _ => false)); try lia; [rewrite below_none by reflexivity; f_equal; lia| | |];
        intros; cbn [boundary]; lia.
  - rewrite boundary_cons by discriminate. destruct (Z.eqb_spec i g), (Z.ltb_spec g i); lia || reflexivity.
  - rewrite advance_pack by assumption.
    rewrite IH by (try (inversion Hok; assumption); cbn in *; lia).
    replace (Z.to_nat n) with (Z.to_nat g + Z.to_nat (n - g))%nat by lia.
    destruct (boundary_first g (r :: R) rep ltac:(lia) ltac:(left; discriminate)) as (F0 & F1 & F2).
    rewrite (below_group _ (boundary (r :: R) rep)); auto; try lia. f_equal; lia.
Qed.

Lemma separators_count_ok g gs rep n : represents g gs rep -> 0 <= n ->
  separators_count g n = Some (boundaries_below (boundary gs rep) (Z.to_nat n)).
Proof.
  intros ([Hg Hl] & He & ->) Hn. unfold separators_count. rewrite pack_nonzero by exact Hg.
  destruct (Z.leb_spec n 1).
  { rewrite below_none by lia. reflexivity. }
  destruct gs as [|g gs].
  - rewrite He by reflexivity. cbn. rewrite below_none by reflexivity. reflexivity.
  - rewrite ended_pack by exact Hg. rewrite separators_loop_ok; [reflexivity|exact Hg|cbn in Hl; lia|lia].
Qed.

Lemma any_separator_ok g gs rep n : represents g gs rep -> 0 <= n ->
  any_separator g n = (0 <? boundaries_below (boundary gs rep) (Z.to_nat n)).
Proof.
  intros ([Hg Hl] & He & ->) Hn. unfold any_separator.
  destruct gs as [|g gs].
  - rewrite He by reflexivity. rewrite below_none by reflexivity. reflexivity.
  - assert (Hb : 1 <= g <= 31) by (inversion Hg; assumption).
    destruct (pack_ge (g :: gs) rep Hg) as [_ H3]. specialize (H3 ltac:(discriminate)).
    change (Z.land (pack (g :: gs) rep) grp_mask) with (git_current (pack (g :: gs) rep)).
    rewrite current_pack by exact Hg.
    replace (pack (g :: gs) rep =? dont_repeat_last) with false by (unfold dont_repeat_last; lia). cbn [negb andb].
    rewrite (below_ext _ (boundary (g :: after g gs rep) rep)) by (intros; symmetry; apply boundary_norm; lia).
    destruct (boundary_first g (after g gs rep) rep ltac:(lia) (after_wf g gs rep)) as (F0 & F1 & F2).
    destruct (Z.ltb_spec g n).
    + replace (Z.to_nat n) with (Z.to_nat g + Z.to_nat (n - g))%nat by lia.
      rewrite (below_group _ (boundary (after g gs rep) rep)); auto; try lia.
      assert (forall B k, 0 <= boundaries_below B k).
      { clear. induction k; cbn [boundaries_below]; [lia|]. destruct (_ && _); lia. }
      specialize (H0 (boundary (after g gs rep) rep) (Z.to_nat (n - g))). lia.
    + rewrite below_none; [reflexivity|]. intros i Hi; apply F0; lia.
Qed.
