(* The two formats pass the requirements of DragonNormal; to_decimal32 and to_decimal64. *)
From Verif Require Import Base ShortestSpec DragonModel DragonArith DragonCheckDefs DragonCheck DragonBest DragonNormal DragonShortest.
Local Open Scope Z_scope.

Lemma fmt32 : fmt_ok impl32 64.
Proof.
  constructor; cbn [im_kappa im_p im_bits im_mul im_delta im_parity im_check_div im_div_big im_strip im_inv im_maxq impl32]; try lia.
  - intros u c Hu Hc. apply umul96_upper32_ok; assumption.
  - intros c b Hc Hb. rewrite ushr_ok by lia. cbn [obind]. f_equal. apply to_u_id.
    assert (0 < 2 ^ (64 - 1 - b)) by (apply pow2_pos; lia). split; [apply Z.div_pos; lia|]. apply Z.div_lt_upper_bound; [lia|].
    rewrite <- Z.pow_add_r by lia. assert (2 ^ 64 <= 2 ^ (64 - 1 - b + 32)) by (apply Z.pow_le_mono_r; lia). lia.
  - intros x c b Hx Hc Hb. apply parity32; [assumption|assumption|lia].
  - intros n Hn. apply check_div32_ok. exact Hn.
  - intros n Hn. apply strip32_ok. change (2 ^ (23 + 1)) with 16777216 in Hn. lia.
  - intros j x Hj Hx. change (zlen mod_inv32) with 11 in Hj. apply divisible5_ok; [lia|lia|apply table32_ok; lia|exact Hx].
  - vm_compute. discriminate.
  - vm_compute. repeat split; discriminate.
Qed.
Lemma fmt64 : fmt_ok impl64 128.
Proof.
  constructor; cbn [im_kappa im_p im_bits im_mul im_delta im_parity im_check_div im_div_big im_strip im_inv im_maxq impl64]; try lia.
  - intros u c Hu Hc. apply umul192_upper64_ok; assumption.
  - intros c b Hc Hb. rewrite ushr_ok by lia. cbn [obind]. f_equal. unfold high. rewrite Z.shiftr_div_pow2, div_pow by lia. replace (64 + (64 - 1 - b)) with (128 - 1 - b) by lia. apply to_u_id.
    assert (0 < 2 ^ (128 - 1 - b)) by (apply pow2_pos; lia). split; [apply Z.div_pos; lia|]. apply Z.div_lt_upper_bound; [lia|].
    rewrite <- Z.pow_add_r by lia. assert (2 ^ 128 <= 2 ^ (128 - 1 - b + 32)) by (apply Z.pow_le_mono_r; lia). lia.
  - intros x c b Hx Hc Hb. apply parity64; [assumption|assumption|lia].
  - intros n Hn. apply check_div64_ok. exact Hn.
  - intros n Hn. apply divide_by_1000_ok. exact Hn.
  - intros n Hn. apply strip64_ok. change (2 ^ (52 + 1)) with 9007199254740992 in Hn. lia.
  - intros j x Hj Hx. change (zlen mod_inv64) with 24 in Hj. apply divisible5_ok; [lia|lia|apply table64_ok; lia|exact Hx].
  - vm_compute. discriminate.
  - vm_compute. repeat split; discriminate.
Qed.

(* the smallest exponents: P/D is about 7.006 and 247.03 *)
Lemma smallest32 : let P := pw_num (-150) 46 in let D := pw_den (-150) 46 in 7 * D < P /\ 10 * P < 71 * D /\ 0 < D.
Proof. vm_compute. repeat split. Qed.
Lemma smallest64 : let P := pw_num (-1075) 326 in let D := pw_den (-1075) 326 in 247 * D < P /\ P < 248 * D /\ 0 < D.
Proof. vm_compute. repeat split. Qed.

Lemma smallest32_nearer m : 0 < m -> (2 * m - 1) * pw_num (-150) 46 <= 100 * pw_den (-150) 46 -> 100 * pw_den (-150) 46 <= (2 * m + 1) * pw_num (-150) 46 ->
  19 * 10 * pw_den (-150) 46 < 2 * (2 * m * pw_num (-150) 46).
Proof.
  destruct smallest32 as (A & B & C). generalize dependent (pw_num (-150) 46). generalize dependent (pw_den (-150) 46). intros D C P A B Hm L1 L2.
  assert (7 <= m) by nia. nia.
Qed.
Lemma smallest64_nearer m : 0 < m -> (2 * m - 1) * pw_num (-1075) 326 <= 1000 * pw_den (-1075) 326 -> 1000 * pw_den (-1075) 326 <= (2 * m + 1) * pw_num (-1075) 326 ->
  19 * 100 * pw_den (-1075) 326 < 2 * (2 * m * pw_num (-1075) 326).
Proof.
  destruct smallest64 as (A & B & C). generalize dependent (pw_num (-1075) 326). generalize dependent (pw_den (-1075) 326). intros D C P A B Hm L1 L2.
  assert (2 <= m) by nia. nia.
Qed.
Lemma k32 : im_kappa impl32 - fl10 (im_min_exponent impl32 - im_p impl32) = 46. Proof. vm_compute. reflexivity. Qed.
Lemma k64 : im_kappa impl64 - fl10 (im_min_exponent impl64 - im_p impl64) = 326. Proof. vm_compute. reflexivity. Qed.

Theorem shortest32 be mb : 0 <= be < 255 -> 0 <= mb < 2 ^ 23 -> be <> 0 \/ mb <> 0 ->
  exists s E, to_decimal32 be mb = Some (s, E) /\ shortest_decimal binary32 (be * 2 ^ 23 + mb) s E /\ s < 10 ^ 19 /\ -900 <= E <= 900.
Proof.
  intros H1 H2 H3. apply (to_decimal_shortest impl32 binary32 64 27 cert32 fmt32 eq_refl eq_refl eq_refl); [vm_compute; discriminate|vm_compute; discriminate|lia| | | | | |exact H1|exact H2|exact H3].
  - intros e He. apply normal32_ok. exact He.
  - intros e He. apply shorter32_ok. exact He.
  - intros k c Hk Hc. apply table32; [exact Hk|]. exact Hc.
  - vm_compute. repeat split; discriminate.
  - rewrite k32. cbv zeta. change (im_min_exponent impl32 - im_p impl32 - 1) with (-150). change (im_kappa impl32) with 1. exact smallest32_nearer.
Qed.
Theorem shortest64 be mb : 0 <= be < 2047 -> 0 <= mb < 2 ^ 52 -> be <> 0 \/ mb <> 0 ->
  exists s E, to_decimal64 be mb = Some (s, E) /\ shortest_decimal binary64 (be * 2 ^ 52 + mb) s E /\ s < 10 ^ 19 /\ -900 <= E <= 900.
Proof.
  intros H1 H2 H3. apply (to_decimal_shortest impl64 binary64 128 55 cert64 fmt64 eq_refl eq_refl eq_refl); [vm_compute; discriminate|vm_compute; discriminate|lia| | | | | |exact H1|exact H2|exact H3].
  - intros e He. apply normal64_ok. exact He.
  - intros e He. apply shorter64_ok. exact He.
  - intros k c Hk Hc. apply table64; [exact Hk|]. exact Hc.
  - vm_compute. repeat split; discriminate.
  - rewrite k64. cbv zeta. change (im_min_exponent impl64 - im_p impl64 - 1) with (-1075). change (im_kappa impl64) with 2. exact smallest64_nearer.
Qed.
