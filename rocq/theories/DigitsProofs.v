(* The digit writers produce the digits, with separators where the grouping says. *)
From Verif Require Import Base DestModel DestProofs GroupModel GroupSpec GroupProofs GroupDist
  DigitsModel DigitsSpec DigitsCount UtfBits.

(* the text of v in base b, without separators *)
Definition dtext (lower : bool) (base v : Z) : list Z := map (digit_char lower) (digits base v).

Lemma dtext_small lower base v : 0 <= v < base -> dtext lower base v = [digit_char lower v].
Proof. intros H; unfold dtext; rewrite digits_small by assumption; reflexivity. Qed.
Lemma dtext_step lower base v : 2 <= base -> base <= v ->
  dtext lower base v = dtext lower base (v / base) ++ [digit_char lower (v mod base)].
Proof. intros; unfold dtext; rewrite digits_step by assumption; rewrite map_app; reflexivity. Qed.
Lemma dtext_nonempty lower base v : 2 <= base -> 0 <= v -> dtext lower base v <> [].
Proof.
  intros Hb Hv E. apply (digits_nonempty base v Hb Hv). unfold dtext in E.
  destruct (digits base v); [reflexivity|discriminate].
Qed.
Lemma dtext_len lower base v : zlen (dtext lower base v) = zlen (digits base v).
Proof. unfold dtext, zlen. rewrite map_length. reflexivity. Qed.
Lemma dchar10 lower d : 0 <= d < 10 -> digit_char lower d = 48 + d.
Proof. intros; unfold digit_char. replace (d <? 10) with true by lia. reflexivity. Qed.
Lemma hexchar_ok lower d : 0 <= d < 16 -> hexchar lower d = digit_char lower d.
Proof. intros H. unfold hexchar, digit_char. destruct (d <? 10); [reflexivity|].
  destruct lower; [change (Z.lor 65 (Z.shiftl 1 5)) with 97|change (Z.lor 65 (Z.shiftl 0 5)) with 65]; lia. Qed.

(* chars_00_to_99 *)
Lemma arr_ok k : 0 <= k < 100 ->
  arr (Z.shiftl k 1) = 48 + k / 10 /\ arr (Z.shiftl k 1 + 1) = 48 + k mod 10.
Proof.
  intros Hk. rewrite <- !Z.eqb_eq, <- andb_true_iff.
  exact (sweep (fun k => (arr (Z.shiftl k 1) =? 48 + k / 10) && (arr (Z.shiftl k 1 + 1) =? 48 + k mod 10)) 100
           ltac:(vm_compute; reflexivity) k ltac:(cbn; lia)).
Qed.
Lemma two_digits lower v : 0 <= v ->
  arr (Z.shiftl (v mod 100) 1) = digit_char lower ((v / 10) mod 10) /\
  arr (Z.shiftl (v mod 100) 1 + 1) = digit_char lower (v mod 10).
Proof.
  intros Hv. destruct (arr_ok (v mod 100)) as [A B]; [apply Z.mod_pos_bound; lia|].
  rewrite A, B, !dchar10 by (apply Z.mod_pos_bound; lia). split; f_equal; lia.
Qed.
Lemma dtext_two lower v : 100 <= v ->
  dtext lower 10 v = dtext lower 10 (v / 100) ++
    [arr (Z.shiftl (v mod 100) 1); arr (Z.shiftl (v mod 100) 1 + 1)].
Proof.
  intros Hv. destruct (two_digits lower v ltac:(lia)) as [-> ->].
  rewrite dtext_step by lia. rewrite (dtext_step lower 10 (v / 10)) by lia.
  rewrite <- app_assoc. cbn [app]. replace (v / 10 / 10) with (v / 100) by lia. reflexivity.
Qed.
Lemma dtext_two_last lower v : 10 <= v < 100 ->
  dtext lower 10 v = [arr (Z.shiftl (v mod 100) 1); arr (Z.shiftl (v mod 100) 1 + 1)].
Proof.
  intros Hv. destruct (two_digits lower v ltac:(lia)) as [-> ->].
  rewrite dtext_step by lia. rewrite dtext_small by lia. cbn [app]. do 2 f_equal. rewrite Z.mod_small; lia.
Qed.

(* ---- without separators ---- *)
Lemma back10_ok lower : forall fuel v acc, 0 <= v < 100 ^ Z.of_nat fuel -> (0 < fuel)%nat ->
  back10 fuel v acc = Some (dtext lower 10 v ++ acc).
Proof.
  induction fuel as [|fuel IH]; intros v acc Hv Hf; [lia|]. cbn [back10].
  rewrite Nat2Z.inj_succ, Z.pow_succ_r in Hv by lia.
  destruct (Z.ltb_spec 99 v).
  - rewrite (dtext_two lower v) by lia. rewrite IH.
    + rewrite <- app_assoc. reflexivity.
    + lia.
    + destruct fuel; [cbn in Hv; lia|lia].
  - destruct (Z.ltb_spec v 10).
    + rewrite dtext_small by lia. rewrite dchar10 by lia. reflexivity.
    + rewrite (dtext_two_last lower v) by lia. rewrite Z.mod_small by lia. reflexivity.
Qed.
Lemma shr_div v k : 0 <= k -> Z.shiftr v k = v / 2 ^ k.
Proof. intros; apply Z.shiftr_div_pow2; assumption. Qed.
Lemma land_mod v k : 0 <= k -> Z.land v (Z.ones k) = v mod 2 ^ k.
Proof. intros; apply Z.land_ones; assumption. Qed.
Lemma land15 v : Z.land v 0xF = v mod 16.
Proof. exact (land_mod v 4 ltac:(lia)). Qed.
Lemma land7 v : Z.land v 7 = v mod 8.
Proof. exact (land_mod v 3 ltac:(lia)). Qed.
Lemma shr4 v : Z.shiftr v 4 = v / 16.
Proof. exact (shr_div v 4 ltac:(lia)). Qed.
Lemma shr3 v : Z.shiftr v 3 = v / 8.
Proof. exact (shr_div v 3 ltac:(lia)). Qed.

Lemma back16_ok lower : forall fuel v acc, 0 <= v < 16 ^ Z.of_nat fuel -> (0 < fuel)%nat ->
  back16 fuel lower v acc = Some (dtext lower 16 v ++ acc).
Proof.
  induction fuel as [|fuel IH]; intros v acc Hv Hf; [lia|]. cbn [back16].
  rewrite Nat2Z.inj_succ, Z.pow_succ_r in Hv by lia. rewrite land15, shr4.
  rewrite hexchar_ok by (apply Z.mod_pos_bound; lia).
  destruct (Z.ltb_spec 0xF v).
  - rewrite (dtext_step lower 16 v) by lia. rewrite IH.
    + rewrite <- app_assoc. reflexivity.
    + lia.
    + destruct fuel; [cbn in Hv; lia|lia].
  - rewrite dtext_small by lia. rewrite Z.mod_small by lia. reflexivity.
Qed.
Lemma sep16_rest_ok lower : forall fuel v acc, 0 < v < 16 ^ Z.of_nat fuel -> (0 < fuel)%nat ->
  sep16_rest fuel lower v acc = Some (dtext lower 16 v ++ acc).
Proof.
  induction fuel as [|fuel IH]; intros v acc Hv Hf; [lia|]. cbn [sep16_rest]. replace (v =? 0) with false by lia.
  rewrite Nat2Z.inj_succ, Z.pow_succ_r in Hv by lia. rewrite land15, shr4.
  rewrite hexchar_ok by (apply Z.mod_pos_bound; lia).
  destruct (Z.eqb_spec (v / 16) 0).
  - rewrite dtext_small by lia. rewrite Z.mod_small by lia. reflexivity.
  - rewrite (dtext_step lower 16 v) by lia. rewrite IH.
    + rewrite <- app_assoc. reflexivity.
    + lia.
    + destruct fuel; [cbn in Hv; lia|lia].
Qed.
Lemma dchar8 lower d : 0 <= d < 8 -> digit_char lower d = 48 + d.
Proof. intros; apply dchar10; lia. Qed.
Lemma back8_ok lower : forall fuel v acc, 0 <= v < 8 ^ Z.of_nat fuel -> (0 < fuel)%nat ->
  back8 fuel v acc = Some (dtext lower 8 v ++ acc).
Proof.
  induction fuel as [|fuel IH]; intros v acc Hv Hf; [lia|]. cbn [back8].
  rewrite Nat2Z.inj_succ, Z.pow_succ_r in Hv by lia. rewrite land7, shr3.
  rewrite <- (dchar8 lower (v mod 8)) by (apply Z.mod_pos_bound; lia).
  destruct (Z.ltb_spec 7 v).
  - rewrite (dtext_step lower 8 v) by lia. rewrite IH.
    + rewrite <- app_assoc. reflexivity.
    + lia.
    + destruct fuel; [cbn in Hv; lia|lia].
  - rewrite dtext_small by lia. rewrite (dchar8 lower v) by lia. reflexivity.
Qed.
Lemma sep8_rest_ok lower : forall fuel v acc, 0 < v < 8 ^ Z.of_nat fuel -> (0 < fuel)%nat ->
  sep8_rest fuel v acc = Some (dtext lower 8 v ++ acc).
Proof.
  induction fuel as [|fuel IH]; intros v acc Hv Hf; [lia|]. cbn [sep8_rest]. replace (v =? 0) with false by lia.
  rewrite Nat2Z.inj_succ, Z.pow_succ_r in Hv by lia. rewrite land7, shr3.
  rewrite <- (dchar8 lower (v mod 8)) by (apply Z.mod_pos_bound; lia).
  destruct (Z.eqb_spec (v / 8) 0).
  - rewrite dtext_small by lia. rewrite Z.mod_small by lia. reflexivity.
  - rewrite (dtext_step lower 8 v) by lia. rewrite IH.
    + rewrite <- app_assoc. reflexivity.
    + lia.
    + destruct fuel; [cbn in Hv; lia|lia].
Qed.
Lemma sep10_rest_ok lower : forall fuel v acc, 0 <= v -> 10 * v < 100 ^ Z.of_nat fuel -> (0 < fuel)%nat ->
  sep10_rest fuel v acc = Some ((if v =? 0 then [] else dtext lower 10 v) ++ acc).
Proof.
  induction fuel as [|fuel IH]; intros v acc Hv Hm Hf; [lia|]. cbn [sep10_rest].
  rewrite Nat2Z.inj_succ, Z.pow_succ_r in Hm by lia.
  destruct (Z.ltb_spec 9 v).
  - replace (v =? 0) with false by lia. destruct fuel as [|fuel]; [change (100 ^ Z.of_nat 0) with 1 in Hm; lia|].
    rewrite IH by lia.
    destruct (Z.eqb_spec (v / 100) 0).
    + rewrite (dtext_two_last lower v) by lia. reflexivity.
    + rewrite (dtext_two lower v) by lia. rewrite <- app_assoc. reflexivity.
  - destruct (Z.eqb_spec v 0); [reflexivity|]. rewrite dtext_small, dchar10 by lia. reflexivity.
Qed.

(* ---- with separators ----
   The iterator stands on group g (R follows), c digits remain before the next separator. *)
Definition G (c g : Z) (R : list Z) (rep : bool) (sep : Z) (ds : list Z) : list Z :=
  grouped (boundary (c :: after g R rep) rep) [sep] ds.

Lemma G_one c g R rep sep d : G c g R rep sep [d] = [d].
Proof. reflexivity. Qed.
Lemma G_dec c g R rep sep A d : 2 <= c -> A <> [] -> G c g R rep sep (A ++ [d]) = G (c - 1) g R rep sep A ++ [d].
Proof.
  intros Hc HA. unfold G. rewrite (grouped_app _ (boundary (c - 1 :: after g R rep) rep)); [|assumption|].
  - change (zlen [d]) with 1. destruct (boundary_first c (after g R rep) rep ltac:(lia) (after_wf g R rep)) as (F0 & _).
    rewrite F0 by lia. reflexivity.
  - intros i Hi. change (zlen [d]) with 1. apply boundary_shift; [lia|lia|apply after_wf].
Qed.
Lemma G_sep g R rep sep A d : A <> [] ->
  G 1 g R rep sep (A ++ [d]) = grouped (boundary (after g R rep) rep) [sep] A ++ [sep; d].
Proof.
  intros HA. unfold G. rewrite (grouped_app _ (boundary (after g R rep) rep)); [|assumption|].
  - change (zlen [d]) with 1. destruct (boundary_first 1 (after g R rep) rep ltac:(lia) (after_wf g R rep)) as (_ & F1 & _).
    rewrite F1. reflexivity.
  - intros i Hi. change (zlen [d]) with 1. apply boundary_step; [lia|apply after_wf].
Qed.
Lemma final_none g R rep sep A : groups_ok (g :: R) -> git_is_final (pack (g :: R) rep) = true ->
  grouped (boundary (after g R rep) rep) [sep] A = A.
Proof.
  intros Hok Hf. rewrite final_pack in Hf by assumption. destruct R; [|discriminate].
  destruct rep; [discriminate|]. cbn [after]. apply grouped_none. reflexivity.
Qed.
Lemma next_group g R rep : groups_ok (g :: R) -> git_is_final (pack (g :: R) rep) = false ->
  exists g' R', groups_ok (g' :: R') /\
    git_next (pack (g :: R) rep) = Some (pack (g' :: R') rep) /\
    git_current (pack (g' :: R') rep) = g' /\ 1 <= g' /\
    forall sep A, grouped (boundary (after g R rep) rep) [sep] A = G g' g' R' rep sep A.
Proof.
  intros Hok Hf. rewrite final_pack in Hf by assumption. unfold git_next, git_live.
  rewrite ended_pack by assumption. rewrite is_last_pack, advance_pack by assumption.
  destruct R as [|r R].
  - destruct rep; [|discriminate]. exists g, []. split; [assumption|]. split; [rewrite ended_pack by assumption; reflexivity|].
    split; [apply current_pack; assumption|]. inversion Hok; subst. split; [lia|]. intros sep A. unfold G. cbn [after].
    apply grouped_ext. intros i Hi. symmetry. apply (boundary_norm g [] true); lia.
  - assert (Hok' : groups_ok (r :: R)) by (inversion Hok; assumption).
    exists r, R. split; [assumption|]. split; [rewrite ended_pack by assumption; reflexivity|]. split; [apply current_pack; assumption|].
    inversion Hok'; subst. split; [lia|]. intros sep A. unfold G. cbn [after].
    apply grouped_ext. intros i Hi. symmetry. apply boundary_norm; lia.
Qed.

Lemma sep8_ok lower sep rep : forall fuel v g R c acc, 0 <= v < 8 ^ Z.of_nat fuel -> v < 8 ^ 32 -> (0 < fuel)%nat ->
  groups_ok (g :: R) -> 1 <= c ->
  sep8 fuel v (pack (g :: R) rep) c sep acc = Some (G c g R rep sep (dtext lower 8 v) ++ acc).
Proof.
  induction fuel as [|fuel IH]; intros v g R c acc Hv Hv2 Hf Hok Hc; [lia|]. cbn [sep8]. replace (c <=? 0) with false by lia.
  rewrite Nat2Z.inj_succ, Z.pow_succ_r in Hv by lia. rewrite land7, shr3.
  rewrite <- (dchar8 lower (v mod 8)) by (apply Z.mod_pos_bound; lia).
  destruct (Z.eqb_spec (v / 8) 0) as [E|E].
  { rewrite dtext_small by lia. rewrite Z.mod_small by lia. reflexivity. }
  assert (Hf' : (0 < fuel)%nat) by (destruct fuel; [cbn in Hv; lia|lia]).
  assert (Hv' : v / 8 < 8 ^ 32) by lia.
  pose proof (dtext_nonempty lower 8 (v / 8) ltac:(lia) ltac:(lia)) as Hne.
  rewrite (dtext_step lower 8 v) by lia.
  destruct (Z.eqb_spec c 1) as [->|Hc1]; cbn [negb].
  - rewrite G_sep by assumption. rewrite <- app_assoc. cbn [app].
    destruct (git_is_final (pack (g :: R) rep)) eqn:Ef.
    + rewrite final_none by assumption. apply sep8_rest_ok; [split; [lia|]|lia]. exact Hv'.
    + destruct (next_group g R rep Hok Ef) as (g' & R' & H1 & H2 & H3 & H4 & H5).
      rewrite H2; cbn [obind]; rewrite H3, H5. apply IH; try assumption; lia.
  - rewrite G_dec by (try assumption; lia). rewrite <- app_assoc. apply IH; try assumption; lia.
Qed.

Lemma sep16_ok lower sep rep : forall fuel v g R c acc, 16 <= v < 16 ^ Z.of_nat fuel -> v < 16 ^ 32 -> (0 < fuel)%nat ->
  groups_ok (g :: R) -> 1 <= c ->
  sep16 fuel lower v (pack (g :: R) rep) c sep acc = Some (G c g R rep sep (dtext lower 16 v) ++ acc).
Proof.
  induction fuel as [|fuel IH]; intros v g R c acc Hv Hv2 Hf Hok Hc; [lia|]. cbn [sep16].
  rewrite Nat2Z.inj_succ, Z.pow_succ_r in Hv by lia. rewrite land15, shr4.
  rewrite hexchar_ok by (apply Z.mod_pos_bound; lia).
  assert (Hf' : (0 < fuel)%nat) by (destruct fuel; [cbn in Hv; lia|lia]).
  assert (Hv' : v / 16 < 16 ^ 32) by lia.
  pose proof (dtext_nonempty lower 16 (v / 16) ltac:(lia) ltac:(lia)) as Hne.
  rewrite (dtext_step lower 16 v) by lia.
  destruct (Z.eqb_spec c 1) as [->|Hc1]; cbn [negb].
  - rewrite G_sep by assumption. rewrite <- app_assoc. cbn [app].
    destruct (git_is_final (pack (g :: R) rep)) eqn:Ef.
    + rewrite final_none by assumption. apply sep16_rest_ok; [split; [lia|]|lia]. exact Hv'.
    + destruct (next_group g R rep Hok Ef) as (g' & R' & H1 & H2 & H3 & H4 & H5).
      rewrite H2; cbn [obind]; rewrite H3, H5. destruct (Z.ltb_spec 0xF (v / 16)).
      * apply IH; try assumption; lia.
      * rewrite (dtext_small lower 16 (v / 16)) by lia. rewrite G_one.
        rewrite sep16_rest_ok; [|split; [lia|exact Hv']|lia]. rewrite (dtext_small lower 16 (v / 16)) by lia. reflexivity.
  - rewrite G_dec by (try assumption; lia). rewrite <- app_assoc. cbn [app]. destruct (Z.ltb_spec 0xF (v / 16)).
    + apply IH; try assumption; lia.
    + rewrite (dtext_small lower 16 (v / 16)) by lia. rewrite G_one.
      rewrite sep16_rest_ok; [|split; [lia|exact Hv']|lia]. rewrite (dtext_small lower 16 (v / 16)) by lia. reflexivity.
Qed.

Lemma sep10_ok lower sep rep : forall fuel v g R c acc, 0 < v < 100 ^ Z.of_nat fuel -> v < 10 ^ 60 -> (0 < fuel)%nat ->
  groups_ok (g :: R) -> 1 <= c ->
  sep10 fuel v (pack (g :: R) rep) c sep acc = Some (G c g R rep sep (dtext lower 10 v) ++ acc).
Proof.
  induction fuel as [|fuel IH]; intros v g R c acc Hv Hv2 Hf Hok Hc; [lia|]. cbn [sep10].
  rewrite Nat2Z.inj_succ, Z.pow_succ_r in Hv by lia.
  destruct (Z.ltb_spec v 10).
  { replace (v =? 0) with false by lia. rewrite dtext_small, dchar10 by lia. reflexivity. }
  destruct (two_digits lower v ltac:(lia)) as [-> ->].
  set (d1 := digit_char lower ((v / 10) mod 10)). set (d0 := digit_char lower (v mod 10)).
  assert (Hrest : forall v' acc', 0 < v' < 10 ^ 60 -> sep10_rest 32 v' acc' = Some (dtext lower 10 v' ++ acc')).
  { intros v' acc' Hv'. rewrite (sep10_rest_ok lower) by (try lia; pows; lia).
    replace (v' =? 0) with false by lia. reflexivity. }
  destruct (Z.eqb_spec (v / 100) 0) as [E|E].
  - (* two digits left *)
    assert (Ed : dtext lower 10 v = [d1] ++ [d0]).
    { rewrite dtext_step by lia. rewrite dtext_small by lia. unfold d1. rewrite (Z.mod_small (v / 10)) by lia. reflexivity. }
    rewrite Ed. destruct (Z.leb_spec 2 c).
    + rewrite G_dec by (try lia; discriminate). reflexivity.
    + assert (c = 1) by lia; subst c. rewrite G_sep by discriminate. reflexivity.
  - assert (Hf' : (0 < fuel)%nat) by (destruct fuel; [cbn in Hv; lia|lia]).
    assert (Hv' : 0 < v / 100 < 10 ^ 60) by lia.
    pose proof (dtext_nonempty lower 10 (v / 100) ltac:(lia) ltac:(lia)) as Hne.
    assert (Ed : dtext lower 10 v = (dtext lower 10 (v / 100) ++ [d1]) ++ [d0]).
    { rewrite dtext_step by lia. rewrite (dtext_step lower 10 (v / 10)) by lia.
      replace (v / 10 / 10) with (v / 100) by lia. reflexivity. }
    rewrite Ed. set (A := dtext lower 10 (v / 100)) in *.
    assert (HA1 : A ++ [d1] <> []) by (destruct A; discriminate).
    destruct (Z.leb_spec 2 c).
    + rewrite G_dec by (try assumption; lia).
      destruct (Z.eqb_spec c 2) as [->|Hc2]; cbn [negb].
      * change (2 - 1) with 1. rewrite G_sep by assumption. rewrite <- !app_assoc. cbn [app].
        destruct (git_is_final (pack (g :: R) rep)) eqn:Ef.
        { rewrite final_none by assumption. apply Hrest; assumption. }
        destruct (next_group g R rep Hok Ef) as (g' & R' & H1 & H2 & H3 & H4 & H5).
        rewrite H2; cbn [obind]; rewrite H3, H5. apply IH; try assumption; lia.
      * rewrite G_dec by (try assumption; lia). rewrite <- !app_assoc. replace (c - 1 - 1) with (c - 2) by lia.
        apply IH; try assumption; lia.
    + assert (c = 1) by lia; subst c. rewrite G_sep by assumption. rewrite <- app_assoc. cbn [app].
      destruct (git_is_final (pack (g :: R) rep)) eqn:Ef.
      { rewrite final_none by assumption. rewrite <- app_assoc. apply Hrest; assumption. }
      destruct (next_group g R rep Hok Ef) as (g' & R' & H1 & H2 & H3 & H4 & H5).
      rewrite H2; cbn [obind]; rewrite H3, H5.
      destruct (Z.eqb_spec (g' - 1) 0) as [Eg|Eg].
      * assert (g' = 1) by lia; subst g'. rewrite G_sep by assumption. rewrite <- app_assoc. cbn [app].
        destruct (git_is_final (pack (1 :: R') rep)) eqn:Ef'.
        { rewrite final_none by assumption. apply Hrest; assumption. }
        destruct (next_group 1 R' rep H1 Ef') as (g2 & R2 & I1 & I2 & I3 & I4 & I5).
        rewrite I2; cbn [obind]; rewrite I3, I5. apply IH; try assumption; lia.
      * rewrite G_dec by (try assumption; lia). rewrite <- app_assoc. apply IH; try assumption; lia.
Qed.

(* ---- sizes ---- *)
Lemma digits64_len b v : 0 <= v < 2 ^ 64 ->
  1 <= zlen (digits (bval b) v) <= 64 /\ (b <> B2 -> zlen (digits (bval b) v) <= 22).
Proof.
  intros Hv. pose proof (bval_ge b). destruct (digits_bound (bval b) v ltac:(lia) ltac:(lia)) as (_ & H2 & H3).
  set (n := zlen (digits (bval b) v)) in *. split; [split; [lia|]|].
  - destruct (Z.le_gt_cases n 64); [assumption|]. specialize (H2 ltac:(lia)).
    assert (2 ^ 64 <= bval b ^ (n - 1)); [|lia].
    transitivity (2 ^ (n - 1)); [apply Z.pow_le_mono_r; lia|apply Z.pow_le_mono_l; lia].
  - intros Hb. destruct (Z.le_gt_cases n 22); [assumption|]. specialize (H2 ltac:(lia)).
    assert (8 ^ 22 <= bval b ^ (n - 1)).
    { transitivity (8 ^ (n - 1)); [apply Z.pow_le_mono_r; lia|apply Z.pow_le_mono_l; destruct b; cbn; congruence || lia]. }
    revert H1 H2. pows. lia.
Qed.
Lemma below_le B n : 0 <= boundaries_below B n <= Z.max 0 (Z.of_nat n - 1).
Proof.
  induction n as [|n IH]; cbn [boundaries_below]; [cbn; lia|].
  destruct (Z.ltb_spec 0 (Z.of_nat n)); cbn [andb]; [destruct (B (Z.of_nat n))|]; lia.
Qed.

Lemma write_back_ok b lower v : b <> B2 -> 0 <= v < 2 ^ 64 -> write_back b lower v = Some (dtext lower (bval b) v).
Proof.
  intros Hb Hv. rewrite <- (app_nil_r (dtext lower (bval b) v)). destruct b; [congruence| | |]; cbn [write_back bval].
  - apply back8_ok; [|lia]. revert Hv. pows. lia.
  - apply back10_ok; [|lia]. revert Hv. pows. lia.
  - replace (v <? 0) with false by lia. apply back16_ok; [|lia]. revert Hv. pows. lia.
Qed.

Definition wrote (r : option (list op)) (t : list Z) : Prop :=
  exists os, r = Some os /\ Forall op_wf os /\ ops_text os = t.

Lemma wrote_intro r t : (exists os, r = Some os /\ Forall op_wf os /\ ops_text os = t) -> wrote r t.
Proof. exact (fun H => H). Qed.

Lemma reserve_back_ok n u : zlen u = n -> n <= 64 -> wrote (reserve_back n n u) u.
Proof.
  intros Hn H64. unfold reserve_back. rewrite Hn, Z.eqb_refl.
  eexists; split; [reflexivity|]. unfold zlen in Hn. split.
  - constructor; [cbn [op_wf]; lia|constructor].
  - unfold ops_text; cbn. apply app_nil_r.
Qed.

Lemma write_digits_ok b lower v : b <> B2 -> 0 <= v < 2 ^ 64 ->
  wrote (write_digits b lower v (zlen (digits (bval b) v))) (dtext lower (bval b) v).
Proof.
  intros Hb Hv. unfold write_digits. rewrite write_back_ok by assumption. cbn [obind].
  apply reserve_back_ok; [apply dtext_len|apply digits64_len; assumption].
Qed.

Lemma write_back_sep_ok b lower v g gs rep sep : b <> B2 -> 0 <= v < 2 ^ 64 -> represents g gs rep -> gs <> [] ->
  bval b <= v ->
  write_back_sep b lower v g sep = Some (grouped (boundary gs rep) [sep] (dtext lower (bval b) v)).
Proof.
  intros Hb Hv ([Hg Hl] & He & ->) Hne Hge. destruct gs as [|g gs]; [congruence|].
  assert (H1 : 1 <= g) by (inversion Hg; lia).
  assert (EG : grouped (boundary (g :: gs) rep) [sep] (dtext lower (bval b) v) = G g g gs rep sep (dtext lower (bval b) v) ++ []).
  { rewrite app_nil_r. unfold G. apply grouped_ext. intros; symmetry; apply boundary_norm; lia. }
  rewrite EG. unfold write_back_sep. rewrite (ended_pack g gs rep Hg), (current_pack g gs rep Hg).
  destruct b; [congruence| | |]; cbn [bval] in *.
  - replace (0 <? v) with true by lia. cbn [negb andb].
    apply (sep8_ok lower); try assumption; try lia; revert Hv; pows; lia.
  - replace (v =? 0) with false by lia. cbn [orb]. apply (sep10_ok lower); try assumption; try lia; revert Hv; pows; lia.
  - replace (0xF <? v) with true by lia. cbn [negb andb].
    apply (sep16_ok lower); try assumption; try lia; revert Hv; pows; lia.
Qed.

Lemma two_digits_ge base v : 2 <= base -> 0 <= v -> 1 < zlen (digits base v) -> base <= v.
Proof.
  intros Hb Hv Hl. destruct (Z.le_gt_cases base v); [assumption|].
  rewrite digits_small in Hl by lia. cbn in Hl. lia.
Qed.

Lemma write_little_ok b lower v g gs rep sep : b <> B2 -> 0 <= v < 2 ^ 64 -> represents g gs rep ->
  0 < boundaries_below (boundary gs rep) (length (digits (bval b) v)) ->
  wrote (write_little b lower v g (zlen (digits (bval b) v)) (boundaries_below (boundary gs rep) (length (digits (bval b) v))) sep)
        (grouped (boundary gs rep) [sep] (dtext lower (bval b) v)).
Proof.
  intros Hb Hv Hr Hs. pose proof (bval_ge b).
  pose proof (below_le (boundary gs rep) (length (digits (bval b) v))) as Hle. fold (zlen (digits (bval b) v)) in Hle.
  assert (gs <> []). { intros ->. rewrite below_none in Hs by reflexivity. lia. }
  assert (bval b <= v) by (apply two_digits_ge; lia).
  unfold write_little. rewrite (write_back_sep_ok b lower v g gs rep) by assumption. cbn [obind].
  destruct (digits64_len b v Hv) as [H3 H4]. specialize (H4 Hb). apply reserve_back_ok.
  - rewrite grouped_len, dtext_len. change (zlen [sep]) with 1. unfold dtext. rewrite map_length. lia.
  - lia.
Qed.

(* ---- big separators ---- *)
Lemma skipn_skipn {A} (x y : nat) (l : list A) : skipn x (skipn y l) = skipn (x + y) l.
Proof.
  revert l. induction y as [|y IH]; intros l; [rewrite Nat.add_0_r; reflexivity|].
  rewrite Nat.add_succ_r. destruct l; [rewrite !skipn_nil; reflexivity|]. cbn [skipn]. apply IH.
Qed.
Lemma chunks_tail_app sep a : forall b ds, sizes_pos a ->
  chunks_tail sep (a ++ b) ds = chunks_tail sep a ds ++ chunks_tail sep b (skipn (Z.to_nat (zsum a)) ds).
Proof.
  induction a as [|s a IH]; intros b ds Hp; [reflexivity|]. inversion Hp; subst.
  cbn [app chunks_tail zsum]. rewrite IH by assumption.
  rewrite <- !app_assoc. do 4 f_equal. rewrite skipn_skipn. f_equal. pose proof (zsum_nonneg a H2). lia.
Qed.
Lemma zlen_skipn {A} k (l : list A) : 0 <= k <= zlen l -> zlen (skipn (Z.to_nat k) l) = zlen l - k.
Proof. unfold zlen; intros; rewrite skipn_length; lia. Qed.

Lemma ops_text_app a b : ops_text (a ++ b) = ops_text a ++ ops_text b.
Proof. unfold ops_text. rewrite map_app, concat_app. reflexivity. Qed.
Lemma ops_text_cons o b : ops_text (o :: b) = op_text o ++ ops_text b.
Proof. reflexivity. Qed.

Lemma big_group_ok encsep m grp ds : zlen encsep = m -> 1 <= grp <= 31 -> m <= 33 -> grp <= zlen ds ->
  exists os, big_group encsep m grp ds = Some (os, skipn (Z.to_nat grp) ds) /\ Forall op_wf os /\
    ops_text os = encsep ++ firstn (Z.to_nat grp) ds.
Proof.
  intros He Hg Hm Hd. unfold big_group. replace (grp <=? zlen ds) with true by lia.
  eexists; split; [reflexivity|]. split.
  - constructor; [|constructor]. cbn [op_wf]. rewrite app_length, firstn_length. unfold zlen in *. lia.
  - unfold ops_text; cbn. apply app_nil_r.
Qed.
Lemma big_middle_ok encsep m grp : zlen encsep = m -> 1 <= grp <= 31 -> m <= 33 ->
  forall n ds, Z.of_nat n * grp <= zlen ds ->
  exists os, big_middle n encsep m grp ds = Some (os, skipn (Z.to_nat (zsum (repeat grp n))) ds) /\ Forall op_wf os /\
    ops_text os = chunks_tail encsep (repeat grp n) ds.
Proof.
  intros He Hg Hm. induction n as [|n IH]; intros ds Hd; cbn [big_middle repeat zsum chunks_tail].
  - exists []. split; [reflexivity|]. split; [constructor|reflexivity].
  - assert (0 <= Z.of_nat n * grp) by lia.
    destruct (big_group_ok encsep m grp ds He Hg Hm ltac:(lia)) as (o1 & E1 & W1 & T1).
    rewrite E1. cbn [obind fst snd].
    destruct (IH (skipn (Z.to_nat grp) ds)) as (o2 & E2 & W2 & T2). { rewrite zlen_skipn; lia. }
    rewrite E2. cbn [obind fst snd]. eexists. split.
    { rewrite skipn_skipn. do 3 f_equal.
      assert (0 <= zsum (repeat grp n)) by (apply zsum_nonneg; apply Forall_forall; intros x Hx; apply repeat_spec in Hx; lia). lia. }
    split; [apply Forall_app; auto|]. rewrite ops_text_app, T1, T2, <- app_assoc. reflexivity.
Qed.
Lemma big_low_ok encsep m : zlen encsep = m -> m <= 33 -> forall hs ds fuel, groups_ok hs -> (length hs <= fuel)%nat ->
  zsum hs <= zlen ds -> wrote (big_low fuel encsep m (rpk hs) ds) (chunks_tail encsep hs ds).
Proof.
  intros He Hm. induction hs as [|h hs IH]; intros ds fuel Hok Hf Hd.
  - exists []. split; [destruct fuel; reflexivity|]. split; [constructor|reflexivity].
  - destruct fuel as [|fuel]; [cbn in Hf; lia|]. cbn [big_low chunks_tail]. rewrite empty_rpk, highest_rpk, pop_rpk by assumption.
    cbn [zsum] in Hd. pose proof (Forall_inv Hok) as Hh. pose proof (Forall_inv_tail Hok) as Hh2. cbn beta in Hh.
    assert (0 <= zsum hs) by (apply zsum_nonneg; eapply Forall_impl; [|exact Hh2]; cbn; lia).
    destruct (big_group_ok encsep m h ds He Hh Hm ltac:(lia)) as (o1 & E1 & W1 & T1).
    rewrite E1. cbn [obind fst snd].
    destruct (IH (skipn (Z.to_nat h) ds) fuel Hh2) as (o2 & E2 & W2 & T2); [cbn in Hf; lia|rewrite zlen_skipn; lia|].
    rewrite E2. cbn [obind]. eexists; split; [reflexivity|]. split; [apply Forall_app; auto|].
    rewrite ops_text_app, T1, T2, <- app_assoc. reflexivity.
Qed.
Lemma groups_pos l : groups_ok l -> sizes_pos l.
Proof. intros H; eapply Forall_impl; [|exact H]; cbn; lia. Qed.
Lemma max_digits_ok b v : 0 <= v < 2 ^ 64 -> zlen (digits (bval b) v) <= max_num_digits b S8.
Proof. intros Hv. apply max_num_digits_ok. exact Hv. Qed.

(* the group sizes of a distribution: highest, then the middle ones, then the low ones *)
Lemma dist_sizes_mid d low : dist_middle d <> 0 -> low <> [] ->
  dist_sizes d low = dist_highest d :: repeat (hd 0 low) (Z.to_nat (dist_middle d)) ++ tl low.
Proof. intros H _. unfold dist_sizes. destruct (Z.eqb_spec (dist_middle d) 0); [congruence|reflexivity]. Qed.

Lemma write_big_ok b lower v g gs rep encsep m : b <> B2 -> 0 <= v < 2 ^ 64 -> represents g gs rep ->
  zlen encsep = m -> m <= 33 ->
  wrote (write_big b lower v g encsep m (zlen (digits (bval b) v)))
        (grouped (boundary gs rep) encsep (dtext lower (bval b) v)).
Proof.
  intros Hb Hv Hr He Hm. unfold write_big. rewrite write_back_ok by assumption. cbn [obind].
  rewrite dtext_len. pose proof (max_digits_ok b v Hv). destruct (Z.ltb_spec (max_num_digits b S8) (zlen (digits (bval b) v))); [lia|].
  destruct (digits64_len b v Hv) as [Hlen Hlen2]. specialize (Hlen2 Hb).
  destruct (distribute_ok g gs rep (zlen (digits (bval b) v)) Hr ltac:(lia)) as (d & low & Ed & El & Hlow & Hll & Hmid & Hm0 & Hsum & (_ & Hpos & Hcut)).
  rewrite Ed. cbn [obind]. rewrite Hcut by (rewrite dtext_len; symmetry; exact Hsum).
  set (ds := dtext lower (bval b) v) in *. set (h := dist_highest d) in *.
  assert (Hds : zlen ds = zlen (digits (bval b) v)) by apply dtext_len.
  assert (Hh : 1 <= h) by (apply (Forall_inv Hpos)).
  assert (Hrest : 0 <= zsum (tl (dist_sizes d low))).
  { apply zsum_nonneg. exact (Forall_inv_tail Hpos). }
  assert (Hs2 : h + zsum (tl (dist_sizes d low)) = zlen ds) by (rewrite Hds, <- Hsum; reflexivity).
  destruct (Z.ltb_spec h 0); [lia|]. destruct (Z.ltb_spec (zlen (digits (bval b) v)) h); [lia|]. cbn [orb].
  assert (W0 : op_wf (OReserve (Z.to_nat h) (firstn (Z.to_nat h) ds))).
  { cbn [op_wf]. rewrite firstn_length. unfold zlen in *. lia. }
  destruct (Z.eqb_spec (dist_middle d) 0) as [E0|E0].
  - destruct (big_low_ok encsep m He Hm low (skipn (Z.to_nat h) ds) 8 Hlow ltac:(lia)) as (o2 & E2 & W2 & T2).
    { revert Hs2. unfold dist_sizes. rewrite E0. cbn [Z.eqb tl]. intros; rewrite zlen_skipn; lia. }
    rewrite El, E2. cbn [obind]. eexists; split; [reflexivity|]. split; [constructor; assumption|].
    rewrite ops_text_cons, T2. unfold dist_sizes. rewrite E0. reflexivity.
  - specialize (Hmid E0). rewrite dist_sizes_mid in * by assumption. cbn [tl] in *.
    destruct low as [|l0 low]; [congruence|]. cbn [hd tl] in *.
    pose proof (Forall_inv Hlow) as Hl0. cbn beta in Hl0. pose proof (Forall_inv_tail Hlow) as Hlow'.
    rewrite El, highest_rpk, pop_rpk by assumption.
    rewrite zsum_app in *. set (n := Z.to_nat (dist_middle d)) in *.
    assert (Hz : zsum (repeat l0 n) = Z.of_nat n * l0) by (clear; induction n; cbn [zsum repeat] in *; lia).
    assert (0 <= zsum low) by (apply zsum_nonneg, groups_pos, Hlow').
    destruct (big_middle_ok encsep m l0 He Hl0 Hm n (skipn (Z.to_nat h) ds)) as (o1 & E1 & W1 & T1).
    { rewrite zlen_skipn; lia. }
    rewrite E1. cbn [obind fst snd].
    destruct (big_low_ok encsep m He Hm low (skipn (Z.to_nat (zsum (repeat l0 n))) (skipn (Z.to_nat h) ds)) 8 Hlow') as (o2 & E2 & W2 & T2).
    { cbn in Hll; lia. } { rewrite !zlen_skipn; rewrite ?zlen_skipn; lia. }
    rewrite E2. cbn [obind]. eexists; split; [reflexivity|]. split; [constructor; [assumption|apply Forall_app; auto]|].
    rewrite ops_text_cons, ops_text_app, T1, T2. cbn [op_text chunks]. rewrite chunks_tail_app; [reflexivity|].
    apply Forall_forall. intros x Hx. apply repeat_spec in Hx. lia.
Qed.

(* ---- base 2 ---- *)
Fixpoint bits (m : nat) (v : Z) : list Z :=
  match m with O => [] | S k => (48 + Z.b2z (Z.testbit v (Z.of_nat k))) :: bits k v end.
Lemma bits_snoc m v : 0 <= v -> bits (S m) v = bits m (v / 2) ++ [48 + v mod 2].
Proof.
  intros Hv. induction m as [|m IH].
  - cbn [bits app]. change (Z.of_nat 0) with 0. rewrite Z.bit0_mod. reflexivity.
  - change (bits (S (S m)) v) with ((48 + Z.b2z (Z.testbit v (Z.of_nat (S m)))) :: bits (S m) v). rewrite IH.
    cbn [bits app]. rewrite Nat2Z.inj_succ. rewrite <- (Z.div2_bits v) by lia.
    reflexivity.
Qed.
Lemma bits_dtext lower m : forall v, 0 <= v -> zlen (digits 2 v) = Z.of_nat m -> bits m v = dtext lower 2 v.
Proof.
  induction m as [|m IH]; intros v Hv Hl.
  - pose proof (digits_bound 2 v ltac:(lia) Hv). lia.
  - rewrite bits_snoc by assumption. destruct (Z.lt_ge_cases v 2).
    + rewrite digits_small in Hl by lia. rewrite dtext_small by lia. rewrite dchar10 by lia.
      assert (m = 0%nat) by (cbn in Hl; lia). subst m. cbn [bits app]. rewrite Z.mod_small by lia. reflexivity.
    + rewrite dtext_step by lia. rewrite dchar10 by lia. f_equal. apply IH; [lia|].
      rewrite digits_step in Hl by lia. rewrite zlen_app in Hl. change (zlen [v mod 2]) with 1 in Hl. lia.
Qed.
Definition maskof (m : nat) : Z := match m with O => 0 | S k => 2 ^ Z.of_nat k end.
Lemma mask_shr m : Z.shiftr (maskof (S m)) 1 = maskof m.
Proof.
  rewrite shr_div by lia. cbn [maskof]. destruct m as [|m]; [reflexivity|].
  rewrite Nat2Z.inj_succ, Z.pow_succ_r by lia. change (2 ^ 1) with 2. cbn [maskof]. lia.
Qed.
Lemma mask_zero m : (maskof m =? 0) = match m with O => true | _ => false end.
Proof. destruct m as [|m]; [reflexivity|]. cbn [maskof]. assert (0 < 2 ^ Z.of_nat m) by (apply Z.pow_pos_nonneg; lia). lia. Qed.
Lemma bitchar_ok v m : bitchar v (maskof (S m)) = 48 + Z.b2z (Z.testbit v (Z.of_nat m)).
Proof.
  unfold bitchar. cbn [maskof]. f_equal.
  assert (E : Z.land v (2 ^ Z.of_nat m) = if Z.testbit v (Z.of_nat m) then 2 ^ Z.of_nat m else 0).
  { apply Z.bits_inj'. intros i Hi. rewrite Z.land_spec. destruct (Z.eq_dec i (Z.of_nat m)) as [->|Hn].
    - rewrite Z.pow2_bits_true by lia. rewrite andb_true_r. destruct (Z.testbit v (Z.of_nat m)).
      + rewrite Z.pow2_bits_true by lia. reflexivity.
      + rewrite Z.bits_0. reflexivity.
    - rewrite Z.pow2_bits_false by lia. rewrite andb_false_r. destruct (Z.testbit v (Z.of_nat m)).
      + rewrite Z.pow2_bits_false by lia. reflexivity.
      + rewrite Z.bits_0. reflexivity. }
  rewrite E. assert (0 < 2 ^ Z.of_nat m) by (apply Z.pow_pos_nonneg; lia).
  destruct (Z.testbit v (Z.of_nat m)); cbn [Z.b2z]; [|reflexivity]. destruct (Z.eqb_spec (2 ^ Z.of_nat m) 0); [lia|reflexivity].
Qed.
Lemma puts_text u : ops_text (map OPut u) = u.
Proof. induction u as [|x u IH]; [reflexivity|]. cbn [map]. rewrite ops_text_cons, IH. reflexivity. Qed.
Lemma puts_wf u : Forall op_wf (map OPut u).
Proof. induction u; cbn; constructor; [exact I|assumption]. Qed.

Lemma bin_loop_ok v : forall m fuel, (m < fuel)%nat -> bin_loop fuel v (maskof (S m)) = Some (map OPut (bits (S m) v)).
Proof.
  induction m as [|m IH]; intros fuel Hf; (destruct fuel as [|fuel]; [lia|]);
    cbn [bin_loop]; rewrite bitchar_ok, mask_shr, mask_zero.
  - reflexivity.
  - rewrite IH by lia. reflexivity.
Qed.
Lemma first_mask n : 1 <= n <= 64 -> to_u 64 (Z.shiftl 1 (n - 1)) = maskof (Z.to_nat n).
Proof.
  intros Hn. rewrite Z.shiftl_1_l. replace (Z.to_nat n) with (S (Z.to_nat (n - 1))) by lia. cbn [maskof].
  rewrite Z2Nat.id by lia. apply to_u_id. split; [apply Z.pow_nonneg; lia|apply Z.pow_lt_mono_r; lia].
Qed.
Lemma write_bin_ok lower v : 0 <= v < 2 ^ 64 ->
  wrote (write_bin v (zlen (digits 2 v))) (dtext lower 2 v).
Proof.
  intros Hv. destruct (digits64_len B2 v Hv) as [Hl _]. cbn [bval] in Hl. unfold write_bin.
  destruct (Z.leb_spec v 1).
  - exists [OPut (48 + v)]. split; [reflexivity|]. split; [constructor; [exact I|constructor]|].
    rewrite dtext_small, dchar10 by lia. reflexivity.
  - rewrite first_mask by lia. replace (Z.to_nat (zlen (digits 2 v))) with (S (Z.to_nat (zlen (digits 2 v) - 1))) by lia.
    rewrite bin_loop_ok by lia. eexists; split; [reflexivity|]. split; [apply puts_wf|].
    rewrite puts_text. apply bits_dtext; lia.
Qed.

Lemma bits_run_ok v : forall k m, (k <= m)%nat -> bits_run k v (maskof m) = (firstn k (bits m v), maskof (m - k)).
Proof.
  induction k as [|k IH]; intros m Hk; cbn [bits_run firstn].
  - rewrite Nat.sub_0_r. reflexivity.
  - destruct m as [|m]; [lia|]. rewrite mask_shr, IH by lia. rewrite bitchar_ok. reflexivity.
Qed.
Lemma skipn_bits v : forall k m, (k <= m)%nat -> skipn k (bits m v) = bits (m - k) v.
Proof.
  induction k as [|k IH]; intros m Hk; [rewrite Nat.sub_0_r; reflexivity|].
  destruct m as [|m]; [lia|]. cbn [bits skipn]. rewrite IH by lia. reflexivity.
Qed.
Lemma bits_len v m : length (bits m v) = m.
Proof. induction m; cbn [bits length]; congruence. Qed.

Lemma bin_group_ok e encsep v grp m : zlen encsep <= e <= 64 -> 0 <= grp <= Z.of_nat m ->
  exists os, bin_group e encsep v (maskof m) grp = (os, maskof (m - Z.to_nat grp)) /\ Forall op_wf os /\
    ops_text os = encsep ++ firstn (Z.to_nat grp) (bits m v).
Proof.
  intros He Hg. unfold bin_group. rewrite bits_run_ok by lia. eexists; split; [reflexivity|]. split.
  - constructor; [cbn [op_wf]; unfold zlen in *; lia|apply puts_wf].
  - rewrite ops_text_cons, puts_text. reflexivity.
Qed.
Lemma bin_middle_ok e encsep v grp : zlen encsep <= e <= 64 -> 1 <= grp -> forall n m, Z.of_nat n * grp <= Z.of_nat m ->
  exists os, bin_middle n e encsep v (maskof m) grp = (os, maskof (m - Z.to_nat (zsum (repeat grp n)))) /\ Forall op_wf os /\
    ops_text os = chunks_tail encsep (repeat grp n) (bits m v).
Proof.
  intros He Hg. induction n as [|n IH]; intros m Hm; cbn [bin_middle repeat zsum chunks_tail].
  - exists []. rewrite Nat.sub_0_r. split; [reflexivity|]. split; [constructor|reflexivity].
  - assert (0 <= Z.of_nat n * grp) by lia.
    destruct (bin_group_ok e encsep v grp m He ltac:(lia)) as (o1 & E1 & W1 & T1). rewrite E1.
    destruct (IH (m - Z.to_nat grp)%nat ltac:(lia)) as (o2 & E2 & W2 & T2). rewrite E2.
    eexists. split.
    { assert (0 <= zsum (repeat grp n)) by (apply zsum_nonneg; apply Forall_forall; intros x Hx; apply repeat_spec in Hx; lia).
      replace (m - Z.to_nat grp - Z.to_nat (zsum (repeat grp n)))%nat with (m - Z.to_nat (grp + zsum (repeat grp n)))%nat by lia. reflexivity. }
    split; [apply Forall_app; auto|]. rewrite ops_text_app, T1, T2, <- app_assoc, skipn_bits by lia. reflexivity.
Qed.
Lemma bin_low_ok e encsep v : zlen encsep <= e <= 64 -> forall hs m fuel, groups_ok hs -> (length hs <= fuel)%nat ->
  zsum hs <= Z.of_nat m -> wrote (bin_low fuel e encsep v (maskof m) (rpk hs)) (chunks_tail encsep hs (bits m v)).
Proof.
  intros He. induction hs as [|h hs IH]; intros m fuel Hok Hf Hd.
  - exists []. split; [destruct fuel; reflexivity|]. split; [constructor|reflexivity].
  - destruct fuel as [|fuel]; [cbn in Hf; lia|]. cbn [bin_low chunks_tail]. rewrite empty_rpk, highest_rpk, pop_rpk by assumption.
    cbn [zsum] in Hd. pose proof (Forall_inv Hok) as Hh. pose proof (Forall_inv_tail Hok) as Hh2. cbn beta in Hh.
    assert (0 <= zsum hs) by (apply zsum_nonneg, groups_pos, Hh2).
    destruct (bin_group_ok e encsep v h m He ltac:(lia)) as (o1 & E1 & W1 & T1). rewrite E1.
    destruct (IH (m - Z.to_nat h)%nat fuel Hh2 ltac:(cbn in Hf; lia) ltac:(lia)) as (o2 & E2 & W2 & T2).
    rewrite E2. cbn [obind]. eexists; split; [reflexivity|]. split; [apply Forall_app; auto|].
    rewrite ops_text_app, T1, T2, <- app_assoc, skipn_bits by lia. reflexivity.
Qed.

(* bin_groups, apart from the reservation of the first group *)
Lemma bin_groups_ok lower v g gs rep encsep e : 0 <= v < 2 ^ 64 -> represents g gs rep -> zlen encsep <= e <= 64 ->
  exists d os, distribute g (zlen (digits 2 v)) = Some d /\ 1 <= dist_highest d <= zlen (digits 2 v) /\
    (forall fe, bin_groups fe e d encsep v (zlen (digits 2 v))
       = Some (OReserve (Z.to_nat fe) (firstn (Z.to_nat (dist_highest d)) (dtext lower 2 v)) :: os)) /\
    Forall op_wf os /\
    firstn (Z.to_nat (dist_highest d)) (dtext lower 2 v) ++ ops_text os = grouped (boundary gs rep) encsep (dtext lower 2 v).
Proof.
  intros Hv Hr He. destruct (digits64_len B2 v Hv) as [Hlen _]. cbn [bval] in Hlen.
  set (n := zlen (digits 2 v)) in *.
  destruct (distribute_ok g gs rep n Hr ltac:(lia)) as (d & low & Ed & El & Hlow & Hll & Hmid & Hm0 & Hsum & (_ & Hpos & Hcut)).
  exists d. rewrite Hcut by (rewrite dtext_len; symmetry; exact Hsum).
  set (h := dist_highest d) in *. assert (Hh : 1 <= h) by (apply (Forall_inv Hpos)).
  assert (Hrest : 0 <= zsum (tl (dist_sizes d low))) by (apply zsum_nonneg; exact (Forall_inv_tail Hpos)).
  assert (Hs2 : h + zsum (tl (dist_sizes d low)) = n) by (rewrite <- Hsum; reflexivity).
  assert (EB : dtext lower 2 v = bits (Z.to_nat n) v) by (symmetry; apply bits_dtext; [lia|unfold n; rewrite Z2Nat.id by apply zlen_nonneg; reflexivity]).
  rewrite EB. unfold bin_groups. rewrite first_mask by lia. fold h. rewrite bits_run_ok by lia.
  destruct (Z.eqb_spec (dist_middle d) 0) as [E0|E0].
  - destruct (bin_low_ok e encsep v He low (Z.to_nat n - Z.to_nat h)%nat 8 Hlow ltac:(lia)) as (o2 & E2 & W2 & T2).
    { revert Hs2. unfold dist_sizes. rewrite E0. cbn [Z.eqb tl]. lia. }
    exists o2. split; [assumption|]. split; [lia|]. split.
    { intros fe. rewrite El, E2. reflexivity. }
    split; [assumption|]. rewrite T2. unfold dist_sizes. rewrite E0. cbn [chunks Z.eqb]. fold h. rewrite skipn_bits by lia. reflexivity.
  - specialize (Hmid E0). rewrite dist_sizes_mid in * by assumption. cbn [tl] in *.
    destruct low as [|l0 low]; [congruence|]. cbn [hd tl] in *.
    pose proof (Forall_inv Hlow) as Hl0. cbn beta in Hl0. pose proof (Forall_inv_tail Hlow) as Hlow'.
    rewrite El, highest_rpk, pop_rpk by assumption.
    rewrite zsum_app in *. set (k := Z.to_nat (dist_middle d)) in *.
    assert (Hz : zsum (repeat l0 k) = Z.of_nat k * l0) by (clear; induction k; cbn [zsum repeat] in *; lia).
    assert (0 <= zsum low) by (apply zsum_nonneg, groups_pos, Hlow').
    destruct (bin_middle_ok e encsep v l0 He ltac:(lia) k (Z.to_nat n - Z.to_nat h)%nat) as (o1 & E1 & W1 & T1); [lia|].
    rewrite E1.
    destruct (bin_low_ok e encsep v He low (Z.to_nat n - Z.to_nat h - Z.to_nat (zsum (repeat l0 k)))%nat 8 Hlow') as (o2 & E2 & W2 & T2).
    { cbn in Hll; lia. } { lia. }
    exists (o1 ++ o2). split; [assumption|]. split; [lia|]. split.
    { intros fe. rewrite E2. reflexivity. }
    split; [apply Forall_app; auto|].
    rewrite ops_text_app, T1, T2. cbn [chunks]. rewrite chunks_tail_app.
    + rewrite !skipn_bits by lia. reflexivity.
    + apply Forall_forall. intros x Hx. apply repeat_spec in Hx. lia.
Qed.

Lemma write_big_bin_ok lower v g gs rep encsep m : 2 <= v < 2 ^ 64 -> represents g gs rep -> zlen encsep = m -> m <= 33 ->
  wrote (write_big_bin v g encsep m (zlen (digits 2 v))) (grouped (boundary gs rep) encsep (dtext lower 2 v)).
Proof.
  intros Hv2 Hr He Hm. assert (Hv : 0 <= v < 2 ^ 64) by lia. pose proof (zlen_nonneg encsep).
  destruct (bin_groups_ok lower v g gs rep encsep m Hv Hr ltac:(lia)) as (d & os & Ed & Hh & Eb & W & T).
  destruct (digits64_len B2 v Hv) as [Hlen _]. cbn [bval] in Hlen.
  unfold write_big_bin. replace (v <=? 1) with false by lia. rewrite Ed. cbn [obind]. rewrite Eb. eexists; split; [reflexivity|]. split; [|exact T].
  constructor; [|assumption]. cbn [op_wf]. rewrite firstn_length. lia.
Qed.
(* write_little_sep in base 2 stores the first group without any reservation: the text
   is right but the first operation is not a well-formed use of the destination *)
Lemma write_little_bin_ok lower v g gs rep sep : 2 <= v < 2 ^ 64 -> represents g gs rep ->
  exists u os, write_little_bin v g (zlen (digits 2 v)) sep = Some (OReserve 0 u :: os) /\
    1 <= zlen u <= zlen (digits 2 v) /\ Forall op_wf os /\
    ops_text (OReserve 0 u :: os) = grouped (boundary gs rep) [sep] (dtext lower 2 v).
Proof.
  intros Hv2 Hr. assert (Hv : 0 <= v < 2 ^ 64) by lia.
  destruct (bin_groups_ok lower v g gs rep [sep] 1 Hv Hr ltac:(cbn; lia)) as (d & os & Ed & Hh & Eb & W & T).
  unfold write_little_bin. replace (v <=? 1) with false by lia. rewrite Ed. cbn [obind]. rewrite Eb. do 2 eexists; split; [reflexivity|].
  split; [|split; [assumption|exact T]]. unfold zlen in *. rewrite firstn_length. pose proof (dtext_len lower 2 v) as Hd. unfold zlen in Hd. lia.
Qed.

(* ---- all bases ---- *)
Theorem dig_write_ok b lower v : 0 <= v < 2 ^ 64 ->
  wrote (dig_write b lower v (zlen (digits (bval b) v))) (dtext lower (bval b) v).
Proof.
  intros Hv. destruct b; cbn [dig_write]; [exact (write_bin_ok lower v Hv)|..]; apply write_digits_ok; congruence || assumption.
Qed.
Theorem dig_write_little_ok b lower v g gs rep sep : b <> B2 -> 0 <= v < 2 ^ 64 -> represents g gs rep ->
  0 < boundaries_below (boundary gs rep) (length (digits (bval b) v)) ->
  wrote (dig_write_little b lower v g (zlen (digits (bval b) v)) (boundaries_below (boundary gs rep) (length (digits (bval b) v))) sep)
        (grouped (boundary gs rep) [sep] (dtext lower (bval b) v)).
Proof. intros Hb Hv Hr Hs. destruct b; [congruence|..]; apply write_little_ok; congruence || assumption. Qed.
Theorem dig_write_big_ok b lower v g gs rep encsep m : 0 <= v < 2 ^ 64 -> represents g gs rep -> zlen encsep = m -> m <= 33 ->
  (b = B2 -> 2 <= v) ->
  wrote (dig_write_big b lower v g encsep m (zlen (digits (bval b) v)))
        (grouped (boundary gs rep) encsep (dtext lower (bval b) v)).
Proof.
  intros Hv Hr He Hm Hs.
  destruct b; cbn [dig_write_big]; [apply (write_big_bin_ok lower v g gs rep); [specialize (Hs eq_refl); lia|assumption..]|..];
  apply write_big_ok; congruence || assumption. Qed.
