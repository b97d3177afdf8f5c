(* compute_nearest_normal returns the best decimal of the interval, for any format whose operations and
   tables have passed the checks of DragonCheck. *)
From Coq Require Import Znumtheory Zpow_facts.
From Verif Require Import Base DragonModel DragonArith DragonCheckDefs DragonCheck DragonBest DragonAlg.

Record fmt_ok (I : impl) (Q : Z) : Prop := {
  f_kappa : 1 <= im_kappa I <= 2;
  f_p : 1 <= im_p I <= 60;
  f_bits : 32 <= im_bits I <= 64;
  f_room : 2 ^ (im_p I + 2) * 10 ^ (im_kappa I + 1) < 2 ^ im_bits I;
  f_Q : 20 <= Q;
  f_mul : forall u c, 0 <= u < 2 ^ im_bits I -> 0 <= c < 2 ^ Q -> im_mul I u c = u * c / 2 ^ Q;
  f_delta : forall c b, 0 <= c < 2 ^ Q -> 1 <= b <= 9 -> im_delta I c b = Some (c / 2 ^ (Q - 1 - b));
  f_parity : forall x c b, 0 <= x < 2 ^ im_bits I -> 0 <= c < 2 ^ Q -> 1 <= b <= 9 ->
    im_parity I x c b = Some (Z.odd (x * c / 2 ^ (Q - b)));
  f_check : forall n, 0 <= n <= 10 ^ (im_kappa I + 1) -> im_check_div I n = Some (n / 10 ^ im_kappa I, n mod 10 ^ im_kappa I =? 0);
  f_big : forall n, 0 <= n < 2 ^ (im_bits I - 1) -> im_div_big I n = n / 10 ^ (im_kappa I + 1);
  f_strip : forall n, 0 < n <= 2 ^ (im_p I + 1) -> exists n0 j, im_strip I n = Some (n0, j) /\ stripped n n0 j;
  f_five : forall j x, 0 <= j < zlen (im_inv I) -> 0 <= x < 2 ^ im_bits I ->
    divisible_by_power_of_5 (im_bits I) (im_inv I) (im_maxq I) x j = Some (x mod 5 ^ j =? 0);
  f_fives : 2 ^ (im_p I + 2) <= 5 ^ zlen (im_inv I);
  f_thr : case_fc_lower_threshold I <= case_fc_pm_half_lower_threshold I <= case_fc_pm_half_upper_threshold I
    /\ case_fc_pm_half_upper_threshold I <= divisibility_check_by_5_threshold I }.

Lemma log10_ok e : -1700 <= e <= 1700 -> floor_log10_pow2 e = Some (fl10 e).
Proof.
  intros H. unfold floor_log10_pow2, fl10, log_compute, log_value. replace ((e <=? 1700) && (- (1700) <=? e)) with true by lia.
  change log10_2 with 1262611. unfold chk_i, in_i. change (2 ^ (32 - 1)) with 2147483648.
  replace ((- (2147483648) <=? e * 1262611) && (e * 1262611 <? 2147483648)) with true by lia. cbn [obind]. rewrite Z.sub_0_r.
  replace ((- (2147483648) <=? e * 1262611) && (e * 1262611 <? 2147483648)) with true by lia. reflexivity.
Qed.
Lemma log2_ok k : -1233 <= k <= 1233 -> floor_log2_pow10 k = Some (fl2 k).
Proof.
  intros H. unfold floor_log2_pow10, fl2, log_compute, log_value. replace ((k <=? 1233) && (- (1233) <=? k)) with true by lia.
  change log2_10 with 1741647. unfold chk_i, in_i. change (2 ^ (32 - 1)) with 2147483648.
  replace ((- (2147483648) <=? k * 1741647) && (k * 1741647 <? 2147483648)) with true by lia. cbn [obind]. rewrite Z.sub_0_r.
  replace ((- (2147483648) <=? k * 1741647) && (k * 1741647 <? 2147483648)) with true by lia. reflexivity.
Qed.

Lemma pow_split a b : 0 <= b <= a -> 2 ^ a = 2 ^ b * 2 ^ (a - b).
Proof. intros H. rewrite <- Z.pow_add_r by lia. f_equal. lia. Qed.
Lemma pow2_pos a : 0 <= a -> 0 < 2 ^ a.
Proof. intros. apply Z.pow_pos_nonneg; lia. Qed.

Lemma odd_half n : n mod 2 = 0 -> Z.lor n 1 = n + 1.
Proof.
  intros H. pose proof (Z.div_mod n 2 ltac:(lia)) as E. rewrite H in E. replace n with (2 * (n / 2)) by lia. set (m := n / 2).
  apply Z.bits_inj'. intros i Hi. rewrite Z.lor_spec. destruct (Z.eq_dec i 0) as [->|N].
  - rewrite Z.testbit_odd_0, Z.testbit_even_0. reflexivity.
  - replace i with (Z.succ (i - 1)) by lia. rewrite Z.testbit_odd_succ, Z.testbit_even_succ by lia.
    change 1 with (2 * 0 + 1) at 2. rewrite Z.testbit_odd_succ, Z.bits_0, orb_false_r by lia. reflexivity.
Qed.
Lemma coprime_powers p q a c : Znumtheory.rel_prime p q -> 0 <= a -> 0 <= c -> Znumtheory.rel_prime (p ^ a) (q ^ c).
Proof. intros H Ha Hc. apply Zpow_facts.rel_prime_Zpower; assumption. Qed.
Lemma rel25 : Znumtheory.rel_prime 2 5. Proof. apply Znumtheory.Zgcd_1_rel_prime. reflexivity. Qed.
(* d divides x * f exactly when it divides x *)
Lemma cancel_coprime d f x : 0 < d -> Znumtheory.rel_prime d f -> (x * f) mod d = 0 <-> x mod d = 0.
Proof.
  intros Hd HR. rewrite !Z.mod_divide by lia. split; intros H.
  - rewrite Z.mul_comm in H. exact (Znumtheory.Gauss d f x H HR).
  - apply Z.divide_mul_l. exact H.
Qed.
Lemma eqb_iff a b : (a = 0 <-> b = 0) -> (a =? 0) = (b =? 0).
Proof. intros H. destruct (Z.eqb_spec a 0), (Z.eqb_spec b 0); try reflexivity; exfalso; tauto. Qed.

Lemma fc_upper I : case_fc_upper_threshold I = case_fc_pm_half_upper_threshold I.
Proof. reflexivity. Qed.
Local Opaque case_fc_upper_threshold case_fc_pm_half_upper_threshold case_fc_pm_half_lower_threshold case_fc_lower_threshold
  divisibility_check_by_5_threshold fl10 fl2.

Section Normal.
Variables (I : impl) (Q ex : Z) (cert : list (Z * Z)).
Hypothesis OK : fmt_ok I Q.
Hypothesis Hex : 0 <= ex.
Variable e : Z.
Hypothesis (He : -1700 <= e <= 1700) (HC : normal_check I Q ex cert e = true).
Let k := im_kappa I - fl10 e.
Let b := e + fl2 k.
Hypothesis Hk : -1233 <= k <= 1233.
Hypothesis HT : forall c, entry (im_cache I) (k - im_min_k I) = Some c -> entry_ok Q ex k c = true.
Let P := pw_num (e - 1) k.
Let D := pw_den (e - 1) k.
Let U := 10 ^ im_kappa I.
Let V := 10 ^ (im_kappa I + 1).

Lemma nc : exists c, entry (im_cache I) (k - im_min_k I) = Some c /\ get_cache I k = Some c /\ 0 <= c < 2 ^ Q /\ 1 <= b <= 9 /\
  (forall m, 0 <= m < 2 ^ (im_p I + 2) -> m * c / 2 ^ (Q - b) = m * P / D) /\
  c / 2 ^ (Q - 1 - b) = 2 * P / D /\ U <= 2 * P / D < V /\ thresholds_ok I e k = true /\ 2 ^ b <= 2 * P / D.
Proof using All.
  pose proof (f_Q _ _ OK) as FQ. pose proof (f_p _ _ OK) as Fp.
  unfold normal_check in HC. fold k in HC. fold b in HC. destruct (entry (im_cache I) (k - im_min_k I)) as [c|] eqn:Ec; [|discriminate].
  destruct (nth_error cert _) as [[q q']|]; [|discriminate]. specialize (HT c eq_refl). exists c. split; [reflexivity|].
  rewrite !andb_true_iff in HC. destruct HC as ((((((K1 & K2) & B1) & B2) & FR) & DL) & TH). clear HC.
  split. { unfold get_cache. rewrite K1, K2. cbn [andb]. exact Ec. }
  destruct (bracket Q ex (e - 1) k c) as (Hc & Br); [lia|assumption|fold k; replace (e - 1 + 1 + fl2 k) with b by (unfold b; ring); lia|exact HT|].
  cbv zeta in Br. replace (e - 1 + 1 + fl2 k) with b in Br by (unfold b; ring). fold P D in Br.
  pose proof (num_pos (e - 1) k) as HP. pose proof (den_pos (e - 1) k) as HD. fold P in HP. fold D in HD.
  assert (Hb : 1 <= b <= 9) by lia. pose proof (pow2_pos (Q - 1) ltac:(lia)).
  assert (F : forall m, 0 <= m < 2 ^ (im_p I + 2) -> m * c / 2 ^ (Q - b) = m * P / D).
  { intros m Hm. assert (EQ : 2 ^ Q = 2 ^ b * 2 ^ (Q - b)) by (apply pow_split; lia). rewrite EQ in Br.
    pose proof (pow2_pos b ltac:(lia)) as Pb. pose proof (pow2_pos (Q - b) ltac:(lia)) as Pq. unfold fraction_ok in FR.
    destruct ((0 <=? k) && (k <=? ex)) eqn:Ek.
    - destruct Br as (_ & Br & _). specialize (Br ltac:(lia)).
      assert (Ex : P * 2 ^ (Q - b) = c * D) by (apply (Z.mul_reg_l _ _ (2 ^ b)); [lia|]; lia).
      rewrite <- (Z.div_mul_cancel_r (m * P) D (2 ^ (Q - b))) by lia. rewrite <- (Z.div_mul_cancel_r (m * c) (2 ^ (Q - b)) D) by lia.
      f_equal; [rewrite <- !Z.mul_assoc; f_equal; lia|ring].
    - cbn [fst snd] in FR. rewrite !Z.shiftr_div_pow2 in FR by lia. rewrite (Z.shiftl_mul_pow2 _ (Q - b)) in FR by lia. rewrite (Z.shiftl_mul_pow2 _ (Q - b)) in FR by lia.
      set (p := q * c / 2 ^ (Q - b)) in *. set (p' := q' * c / 2 ^ (Q - b) + 1) in *. rewrite !andb_true_iff in FR.
      destruct FR as (((((Q1 & Q2) & DT) & SZ) & UP) & LO).
      apply Z.ltb_lt in Q1, Q2, UP. apply Z.eqb_eq in DT. apply Z.leb_le in SZ.
      assert (Fp1 : p * 2 ^ (Q - b) <= q * c < (p + 1) * 2 ^ (Q - b)) by (apply floor_bounds; lia).
      assert (Fp2 : (p' - 1) * 2 ^ (Q - b) <= q' * c < p' * 2 ^ (Q - b)).
      { unfold p'. pose proof (floor_bounds (q' * c) (2 ^ (Q - b)) Pq). lia. }
      clearbody p p'. set (B := 2 ^ (Q - b)) in *. clearbody B.
      rewrite (neighbours p q p' q' c B m) by lia. symmetry. apply (neighbours p q p' q'); try lia.
      + (* p * D <= P * q *)
        destruct ((k <? 0) && (-30 <? k)) eqn:Ek2.
        * apply andb_true_iff in LO as (L1 & L2). apply Z.leb_le in L1. rewrite Z.shiftl_mul_pow2 in L2 by lia. apply Z.leb_le in L2.
          unfold P, D, pw_num, pw_den. replace (Z.max 0 (e - 1 + k)) with (e - 1 + k) by lia. replace (Z.max 0 (- (e - 1 + k))) with 0 by lia.
          replace (Z.max 0 k) with 0 by lia. replace (Z.max 0 (- k)) with (- k) by lia. rewrite !Z.pow_0_r, Z.mul_1_l, Z.mul_1_r. lia.
        * apply Z.leb_le in LO. assert (LL : lo k c * 2 ^ b * D <= P * (2 ^ b * B)).
          { unfold lo. destruct (Z.ltb_spec k 0); [destruct Br as (Br & _); specialize (Br ltac:(lia)); lia|].
            destruct Br as (_ & _ & Br); specialize (Br ltac:(lia)). lia. }
          set (l := lo k c) in *. clearbody l. clear Br UP Fp1 Fp2.
          assert (L2 : l * D <= P * B) by (apply (Z.mul_le_mono_pos_r _ _ (2 ^ b)); [lia|]; lia).
          apply (Z.mul_le_mono_pos_r _ _ B); [lia|].
          transitivity (q * l * D). { replace (p * D * B) with (p * B * D) by ring. apply Z.mul_le_mono_nonneg_r; lia. }
          replace (q * l * D) with (q * (l * D)) by ring. replace (P * q * B) with (q * (P * B)) by ring. apply Z.mul_le_mono_nonneg_l; lia.
      + assert (HH : P * (2 ^ b * B) <= hi ex k c * 2 ^ b * D).
        { unfold hi. destruct (Z.leb_spec k ex); [destruct Br as (Br & _); specialize (Br ltac:(lia)); lia|].
          destruct Br as (_ & _ & Br); specialize (Br ltac:(lia)). lia. }
        set (h := hi ex k c) in *. clearbody h. clear Br LO Fp1 Fp2.
        assert (L2 : P * B <= h * D) by (apply (Z.mul_le_mono_pos_r _ _ (2 ^ b)); [lia|]; lia).
        apply (Z.mul_lt_mono_pos_r B); [lia|].
        apply (Z.le_lt_trans _ (q' * h * D)).
        { replace (q' * h * D) with (q' * (h * D)) by ring. replace (P * q' * B) with (q' * (P * B)) by ring. apply Z.mul_le_mono_nonneg_l; lia. }
        replace (p' * D * B) with (p' * B * D) by ring. apply Z.mul_lt_mono_pos_r; lia. }
  assert (D1 : c / 2 ^ (Q - 1 - b) = 2 * P / D).
  { rewrite <- F. 2:{ assert (2 ^ 3 <= 2 ^ (im_p I + 2)) by (apply Z.pow_le_mono_r; lia). lia. }
    replace (Q - b) with (Z.succ (Q - 1 - b)) by lia. rewrite Z.pow_succ_r, Z.div_mul_cancel_l by (try lia; pose proof (pow2_pos (Q - 1 - b) ltac:(lia)); lia). reflexivity. }
  split; [lia|]. split; [exact Hb|]. split; [exact F|]. split; [exact D1|]. rewrite Z.shiftr_div_pow2, D1 in DL by lia. split; [unfold U, V; lia|]. split; [exact TH|].
  rewrite <- D1. apply Z.div_le_lower_bound; [apply pow2_pos; lia|]. rewrite <- Z.pow_add_r by lia. replace (Q - 1 - b + b) with (Q - 1) by lia. lia.
Qed.


(* which multiples of P/D are integers *)
Lemma thr_cases m : 0 < m < 2 ^ (im_p I + 2) -> thresholds_ok I e k = true ->
  let test := (m * P) mod D =? 0 in
  (e < case_fc_pm_half_lower_threshold I -> test = (m mod 2 ^ (1 - e - k) =? 0) /\ 1 <= 1 - e - k /\ (case_fc_lower_threshold I <= e -> 1 - e - k = 1)) /\
  (case_fc_pm_half_lower_threshold I <= e <= case_fc_pm_half_upper_threshold I -> test = true) /\
  (case_fc_pm_half_lower_threshold I <= e -> case_fc_pm_half_upper_threshold I < e <= divisibility_check_by_5_threshold I ->
     test = (m mod 5 ^ (- k) =? 0) /\ 0 <= - k < zlen (im_inv I)) /\
  (case_fc_pm_half_lower_threshold I <= e -> case_fc_pm_half_upper_threshold I < e -> divisibility_check_by_5_threshold I < e -> test = false).
Proof using All.
  intros Hm TH. cbv zeta. unfold thresholds_ok in TH. unfold P, D, pw_num, pw_den. clear HT HC.
  destruct (Z.ltb_spec e (case_fc_pm_half_lower_threshold I)) as [L1|L1].
  - split; [intros _|repeat split; lia]. rewrite !andb_true_iff in TH. destruct TH as ((K0 & K1) & K2).
    split; [|split; [lia|]].
    + replace (Z.max 0 k) with k by lia. replace (Z.max 0 (- k)) with 0 by lia. replace (Z.max 0 (e - 1 + k)) with 0 by lia.
      replace (Z.max 0 (- (e - 1 + k))) with (1 - e - k) by lia. rewrite !Z.pow_0_r, Z.mul_1_l, Z.mul_1_r. apply eqb_iff.
      apply cancel_coprime; [apply pow2_pos; lia|]. apply coprime_powers; [exact rel25|lia|lia].
    + intros Hf. replace (case_fc_lower_threshold I <=? e) with true in K2 by lia. lia.
  - split; [lia|]. destruct (Z.leb_spec e (case_fc_pm_half_upper_threshold I)) as [L2|L2].
    + split; [intros _|repeat split; lia]. apply andb_true_iff in TH as (K0 & K1).
      replace (Z.max 0 (- k)) with 0 by lia. replace (Z.max 0 (- (e - 1 + k))) with 0 by lia. rewrite !Z.pow_0_r, Z.mul_1_l, Z.mod_1_r. reflexivity.
    + split; [lia|]. destruct (Z.leb_spec e (divisibility_check_by_5_threshold I)) as [L3|L3].
      * split; [intros _ _|lia]. rewrite !andb_true_iff in TH. destruct TH as ((K0 & K1) & K2). split; [|lia].
        replace (Z.max 0 k) with 0 by lia. replace (Z.max 0 (- k)) with (- k) by lia. replace (Z.max 0 (e - 1 + k)) with (e - 1 + k) by lia.
        replace (Z.max 0 (- (e - 1 + k))) with 0 by lia. rewrite !Z.pow_0_r, Z.mul_1_l, Z.mul_1_r. apply eqb_iff.
        apply cancel_coprime; [apply Z.pow_pos_nonneg; lia|]. apply Znumtheory.rel_prime_sym, coprime_powers; [exact rel25|lia|lia].
      * split; [lia|]. intros _ _ _. apply Z.leb_le in TH. pose proof (zlen_nonneg (im_inv I)).
        replace (Z.max 0 k) with 0 by lia. replace (Z.max 0 (- k)) with (- k) by lia. rewrite Z.pow_0_r, Z.mul_1_r.
        apply Z.eqb_neq. intros E. set (g := 2 ^ Z.max 0 (e - 1 + k)) in *. set (h := 2 ^ Z.max 0 (- (e - 1 + k))) in *.
        assert (0 < h) by (apply pow2_pos; lia). assert (F5 : 0 < 5 ^ (- k)) by (apply Z.pow_pos_nonneg; lia).
        assert (E2 : (m * g) mod 5 ^ (- k) = 0).
        { apply Z.mod_divide; [lia|]. apply Z.mod_divide in E; [|nia]. destruct E as (w & E). exists (w * h). rewrite E. ring. }
        apply cancel_coprime in E2; [|lia|apply Znumtheory.rel_prime_sym, coprime_powers; [exact rel25|lia|lia]].
        pose proof (f_fives _ _ OK). assert (5 ^ zlen (im_inv I) <= 5 ^ (- k)) by (apply Z.pow_le_mono_r; lia).
        rewrite Z.mod_small in E2 by lia. lia.
Qed.
Lemma pbits : 2 ^ (im_p I + 2) < 2 ^ im_bits I.
Proof using All. pose proof (f_room _ _ OK). pose proof (f_kappa _ _ OK). pose proof (f_p _ _ OK). pose proof (p10 (im_kappa I + 1) ltac:(lia)). pose proof (pow2_pos (im_p I + 2) ltac:(lia)). nia. Qed.
Lemma pm_half_ok m : m mod 2 = 1 -> 0 < m < 2 ^ (im_p I + 2) -> thresholds_ok I e k = true ->
  is_product_integer_pm_half I m e (- k) = Some ((m * P) mod D =? 0).
Proof using All.
  intros Ho Hm TH. destruct (thr_cases m Hm TH) as (A & B & C & F). unfold is_product_integer_pm_half. pose proof pbits.
  destruct (Z.ltb_spec e (case_fc_pm_half_lower_threshold I)) as [L1|L1].
  - destruct (A L1) as (E & G & _). rewrite E. f_equal. symmetry. apply Z.eqb_neq. intros E2. apply Z.mod_divide in E2; [|pose proof (pow2_pos (1 - e - k) ltac:(lia)); lia].
    destruct E2 as (w & E2). replace (1 - e - k) with (Z.succ (- e - k)) in E2 by lia. rewrite Z.pow_succ_r in E2 by lia.
    replace m with ((w * 2 ^ (- e - k)) * 2) in Ho by (rewrite E2; ring). rewrite Z.mod_mul in Ho by lia. discriminate.
  - destruct (Z.leb_spec e (case_fc_pm_half_upper_threshold I)) as [L2|L2]; [rewrite B by lia; reflexivity|].
    destruct (Z.ltb_spec (divisibility_check_by_5_threshold I) e) as [L3|L3]; [rewrite F by lia; reflexivity|].
    destruct (C L1 ltac:(lia)) as (E & G). clear A B C F. replace (0 <=? - k) with true by (clear - G; lia). rewrite E.
    apply (f_five _ _ OK (- k) m G). clear - Hm H. lia.
Qed.
Lemma fc_ok m : m mod 2 = 0 -> 0 < m < 2 ^ (im_p I + 2) -> thresholds_ok I e k = true ->
  is_product_integer_fc I m e (- k) = Some ((m * P) mod D =? 0).
Proof using All.
  intros Ho Hm TH. destruct (thr_cases m Hm TH) as (A & B & C & F). unfold is_product_integer_fc. pose proof pbits. pose proof (f_thr _ _ OK) as TT. pose proof (f_bits _ _ OK).
  rewrite fc_upper.
  generalize dependent (case_fc_pm_half_upper_threshold I). generalize dependent (case_fc_pm_half_lower_threshold I).
  generalize dependent (divisibility_check_by_5_threshold I). generalize dependent (case_fc_lower_threshold I).
  intros fl d5 pl A pu B C F TT.
  generalize dependent ((m * P) mod D =? 0). intros test A B C F.
  destruct (Z.ltb_spec d5 e) as [L3|L3]; [rewrite F; [reflexivity|clear - TT L3; lia|clear - TT L3; lia|exact L3]|].
  destruct (Z.ltb_spec pu e) as [L2|L2].
  - destruct (C ltac:(clear - TT L2; lia) ltac:(clear - L2 L3; lia)) as (E & G). clear A B C F. replace (0 <=? - k) with true by (clear - G; lia). rewrite E.
    apply (f_five _ _ OK (- k) m G). clear - Hm H. lia.
  - destruct (Z_lt_le_dec e pl) as [L1|L1].
    + destruct (A L1) as (E & G & W). rewrite E. clear A B C F. destruct (Z.leb_spec fl e) as [L4|L4].
      * rewrite (W L4). change (2 ^ 1) with 2. rewrite Ho. reflexivity.
      * replace (- k - e + 1) with (1 - e - k) by ring. apply divisible2_ok; [clear - H0; lia|clear - Hm H; lia|exact G].
    + rewrite B by (clear - L1 L2; lia). replace (fl <=? e) with true by (clear - TT L1; lia). reflexivity.
Qed.

(* the last step *)
Variables (n : Z) (closed : bool).
Hypothesis (Hn : 2 <= n) (Hn2 : n + 1 < 2 ^ (im_p I + 2)) (Hev : n mod 2 = 0).
Let X := (n - 1) * P.
Let Y := n * P.
Let Z := (n + 1) * P.
Let zi := Z / D.
Let delta := 2 * P / D.
Definition best_of (s j : BinInt.Z) : Prop :=
  0 <= j /\ 0 < s /\ s mod 10 <> 0 /\ inI X Z closed (s * 10 ^ j * D) 1 /\ best D X Y Z closed s j.

Lemma zi_bound : U <= delta < V -> 0 <= zi < 2 ^ (im_p I + 1) * V /\ zi < 2 ^ (im_bits I - 1) /\ 0 < zi.
Proof using All.
  intros Hd. clear HT HC. pose proof (num_pos (e - 1) k) as HP. pose proof (den_pos (e - 1) k) as HD. fold P in HP. fold D in HD.
  pose proof (f_room _ _ OK) as R. fold V in R. pose proof (f_p _ _ OK) as Fp. pose proof (f_bits _ _ OK) as Fb. pose proof (f_kappa _ _ OK) as Fk.
  assert (HU0 : 0 < U) by (apply p10; lia). assert (HV0 : 0 < V) by (apply p10; lia).
  pose proof (floor_bounds (2 * P) D HD) as A. fold delta in A. pose proof (floor_bounds Z D HD) as B. fold zi in B.
  assert (EP : 2 ^ (im_p I + 2) = 2 * 2 ^ (im_p I + 1)) by (rewrite <- Z.pow_succ_r by lia; f_equal; lia).
  assert (EB : 2 ^ im_bits I = 2 * 2 ^ (im_bits I - 1)) by (rewrite <- Z.pow_succ_r by lia; f_equal; lia).
  set (g := 2 ^ (im_p I + 1)) in *. set (W := 2 ^ (im_bits I - 1)) in *. clearbody g W V U.
  assert (A1 : 2 * P < V * D) by (assert ((delta + 1) * D <= V * D) by (apply Z.mul_le_mono_nonneg_r; lia); lia).
  assert (A2 : D <= 2 * P) by (assert (1 * D <= delta * D) by (apply Z.mul_le_mono_nonneg_r; lia); lia).
  assert (B1 : 2 * Z <= 2 * g * (V * D)).
  { unfold Z. assert (2 * ((n + 1) * P) = (n + 1) * (2 * P)) as -> by ring. assert ((n + 1) * (2 * P) <= 2 * g * (2 * P)) by (apply Z.mul_le_mono_nonneg_r; lia).
    assert (2 * g * (2 * P) <= 2 * g * (V * D)) by (apply Z.mul_le_mono_nonneg_l; lia). lia. }
  assert (B2 : Z < g * V * D). { unfold Z. assert ((n + 1) * (2 * P) < 2 * g * (V * D)).
    { apply Z.le_lt_trans with ((n + 1) * (V * D)); [apply Z.mul_le_mono_nonneg_l; lia|]. apply Z.mul_lt_mono_pos_r; nia. } lia. }
  assert (B3 : zi < g * V) by (apply (Z.mul_lt_mono_pos_r D); lia).
  assert (B4 : 1 <= zi). { assert (D <= Z) by (unfold Z; nia). assert (1 * D < (zi + 1) * D) by lia. apply Z.mul_lt_mono_pos_r in H0; lia. }
  split; [lia|]. split; [|lia]. lia.
Qed.

Lemma small_divisor_ok c s r : entry (im_cache I) (k - im_min_k I) = Some c -> 0 <= c < 2 ^ Q -> 1 <= b <= 9 ->
  (forall m, 0 <= m < 2 ^ (im_p I + 2) -> m * c / 2 ^ (Q - b) = m * P / D) -> U <= delta < V -> thresholds_ok I e k = true ->
  0 <= s -> between D X Z (im_kappa I) closed s -> zi = s * V + r -> delta <= r <= V ->
  exists m, small_divisor_case I n e (- k) c b delta s r = Some (m, - k + im_kappa I) /\ best_of m (im_kappa I).
Proof using All.
  intros Ec Hc Hb F Hd TH Hs HB Hzi Hr. clear Ec.
  pose proof (num_pos (e - 1) k) as HP. pose proof (den_pos (e - 1) k) as HD. fold P in HP. fold D in HD.
  destruct (zi_bound Hd) as (Z1 & Z2 & Z3). pose proof (f_p _ _ OK) as Fp. pose proof (f_bits _ _ OK) as Fb. pose proof (f_kappa _ _ OK) as Fk.
  destruct (ten_even (im_kappa I) ltac:(lia)) as (h & EU & Hh). fold U in EU.
  assert (EV : V = 20 * h). { pose proof (ten_succ (im_kappa I) ltac:(lia)) as E. fold U V in E. lia. }
  unfold small_divisor_case. fold U. cbv zeta. replace (U / 2) with h by (rewrite EU, Z.mul_comm, Z.div_mul; lia).
  assert (HV32 : V < 2 ^ 32). { unfold V. assert (10 ^ (im_kappa I + 1) <= 10 ^ 3) by (apply Z.pow_le_mono_r; lia). lia. }
  assert (EB : 2 ^ im_bits I = 2 * 2 ^ (im_bits I - 1)) by (rewrite <- Z.pow_succ_r by lia; f_equal; lia).
  assert (Hdist : 0 <= r - delta / 2 + h <= V) by lia.
  assert (Hq : 0 <= (r - delta / 2 + h) / U <= 10) by (split; [apply Z.div_pos; lia|apply Z.div_le_upper_bound; lia]).
  set (dist := r - delta / 2 + h) in *. rewrite (to_u_id 32 dist) by lia.
  assert (Hs10 : 0 <= s * 10 /\ s * 10 + 10 < 2 ^ im_bits I).
  { assert (10 <= U) by (unfold U; assert (10 ^ 1 <= 10 ^ im_kappa I) by (apply Z.pow_le_mono_r; lia); lia).
    assert (s * 10 <= s * V) by (apply Z.mul_le_mono_nonneg_l; lia). clear F HB. lia. }
  rewrite (to_u_id (im_bits I) (s * 10)) by lia. rewrite (f_check _ _ OK) by (fold V; lia). fold U. cbn [obind fst snd].
  rewrite !(to_u_id (im_bits I) (s * 10 + dist / U)) by lia. set (s1 := s * 10 + dist / U).
  assert (Epar : negb (Z.land (Z.lxor dist h) 1 =? 0) = Z.odd (r - delta / 2)).
  { rewrite odd_land, <- !Z.bit0_odd, Z.lxor_spec, !Z.bit0_odd. unfold dist. rewrite Z.odd_add. destruct (Z.odd (r - delta / 2)), (Z.odd h); reflexivity. }
  rewrite Epar, (f_parity _ _ OK) by (try assumption; pose proof pbits; lia). cbn [obind].
  rewrite (F n) by lia. fold Y. rewrite (fc_ok n Hev ltac:(lia) TH). fold Y. cbn [obind].
  assert (Hs1 : (dist mod U =? 0) = true -> 0 <= s1 - 1 < 2 ^ im_bits I).
  { intros T. apply Z.eqb_eq in T. assert (D1 : dist = U * (dist / U) + dist mod U) by (apply Z.div_mod; clear - EU Hh; lia).
    assert (D0 : 0 < dist) by (unfold dist; clear - Hr Hd EU Hh; lia). clear - Hq T D1 D0 Hs10 Hs. unfold s1. rewrite T in D1.
    assert (dist / U <> 0) by (intros E; rewrite E in D1; lia). lia. }
  set (m := if dist mod U =? 0 then
         if negb (Bool.eqb (Z.odd (Y / D)) (Z.odd (r - delta / 2))) then s1 - 1
         else if Y mod D =? 0 then (if s1 mod 2 =? 0 then s1 else s1 - 1) else s1
       else s1).
  exists m. split.
  - clear F HB. unfold break_rounding_tie, m. destruct (dist mod U =? 0); [|reflexivity]. specialize (Hs1 eq_refl).
    destruct (Bool.eqb (Z.odd (Y / D)) (Z.odd (r - delta / 2))); cbn [negb].
    + destruct (Y mod D =? 0); reflexivity.
    + rewrite to_u_id by exact Hs1. reflexivity.
  - unfold best_of. split; [clear - Fk; lia|]. apply (small_ok P D n (im_kappa I) closed HD HP Hn Hev (proj1 Fk) Hd s r m Hs HB Hzi Hr).
    cbv zeta. change (10 ^ im_kappa I) with U. replace (U / 2) with h by (rewrite EU, Z.mul_comm, Z.div_mul; [reflexivity|discriminate]).
    unfold m, s1. rewrite (Z.mul_comm 10 s). reflexivity.
Qed.

Theorem normal_ok : (X <= V * D -> V * D <= Z -> 19 * U * D < 2 * Y) ->
  exists s j, compute_nearest_normal I n e closed = Some (s, j - k) /\ best_of s j.
Proof using All.
  intros HS. destruct nc as (c & Ec & Eg & Hc & Hb & F & Ed & Hd & TH & H2b).
  pose proof (num_pos (e - 1) k) as HP. pose proof (den_pos (e - 1) k) as HD. fold P in HP. fold D in HD. fold delta in Ed, Hd, H2b.
  destruct (zi_bound Hd) as (Z1 & Z2 & Z3). pose proof (f_p _ _ OK) as Fp. pose proof (f_bits _ _ OK) as Fb. pose proof (f_kappa _ _ OK) as Fk. pose proof (f_Q _ _ OK) as FQ.
  pose proof (f_room _ _ OK) as R. fold V in R. assert (HV0 : 0 < V) by (apply p10; clear - Fk; lia).
  assert (HV32 : V < 2 ^ 32). { unfold V. assert (10 ^ (im_kappa I + 1) <= 10 ^ 3) by (apply Z.pow_le_mono_r; clear - Fk; lia). clear - H. lia. }
  assert (Hk1 := proj1 Fk).
  pose proof pbits as PB.
  set (s := zi / V). set (r := zi mod V).
  assert (SR : zi = V * s + r /\ 0 <= r < V) by (split; [apply Z.div_mod; clear - HV0; lia|apply Z.mod_pos_bound; exact HV0]).
  assert (S0 : 0 <= s) by (apply Z.div_pos; [clear - Z1; lia|exact HV0]).
  unfold compute_nearest_normal. rewrite (log10_ok e He). cbn [obind].
  replace (- (fl10 e - im_kappa I)) with k by (unfold k; ring). rewrite Eg. cbn [obind]. rewrite (log2_ok k Hk). cbn [obind]. fold b.
  replace (fl10 e - im_kappa I) with (- k) by (unfold k; ring).
  rewrite (f_delta _ _ OK c b Hc Hb). cbn [obind]. rewrite Ed, (odd_half n Hev).
  assert (Hu : 0 <= (n + 1) * 2 ^ b < 2 ^ im_bits I).
  { pose proof (pow2_pos b ltac:(clear - Hb; lia)) as Pb. split; [apply Z.mul_nonneg_nonneg; [clear - Hn; lia|clear - Pb; lia]|].
    apply Z.le_lt_trans with ((n + 1) * V); [apply Z.mul_le_mono_nonneg_l; [clear - Hn; lia|clear - H2b Hd; lia]|].
    apply Z.lt_trans with (2 ^ (im_p I + 2) * V); [apply Z.mul_lt_mono_pos_r; assumption|exact R]. }
  rewrite ushl_ok; [|clear - Hb Fb; lia|exact Hu]. cbn [obind]. rewrite (f_mul _ _ OK _ _ Hu Hc).
  assert (Ezi : (n + 1) * 2 ^ b * c / 2 ^ Q = zi).
  { rewrite (pow_split Q b) by (clear - Hb FQ; lia). replace ((n + 1) * 2 ^ b * c) with (2 ^ b * ((n + 1) * c)) by ring.
    rewrite Z.div_mul_cancel_l by (try (apply Z.neq_sym, Z.lt_neq, pow2_pos); clear - Hb FQ; lia). apply F. clear - Hn Hn2. lia. }
  rewrite Ezi. clear Ezi Hu. rewrite (f_big _ _ OK) by (clear - Z2 Z3; lia). fold V s.
  assert (Hvs : 0 <= V * s <= zi) by (split; [apply Z.mul_nonneg_nonneg; [clear - HV0; lia|exact S0]|clear - SR; lia]).
  assert (EB : 2 ^ im_bits I = 2 * 2 ^ (im_bits I - 1)) by (rewrite <- Z.pow_succ_r by (clear - Fb; lia); f_equal; clear; lia).
  rewrite (to_u_id (im_bits I) (V * s)) by (clear - Hvs EB Z2 Z3; lia).
  replace (zi - V * s) with r by (clear - SR; lia). rewrite (to_u_id 32 r) by (clear - SR HV32; lia).
  assert (Esr : zi = s * V + r) by (rewrite (Z.mul_comm s); exact (proj1 SR)).
  assert (S1 : s <= 2 ^ (im_p I + 1)). { assert (s < 2 ^ (im_p I + 1)) by (apply Z.div_lt_upper_bound; [exact HV0|]; rewrite Z.mul_comm; clear - Z1; lia). clear - H. lia. }
  (* the two outcomes *)
  assert (LG : inI X Z closed (s * V * D) 1 -> 1 <= s ->
            exists s' j, on_trailing_zeros I s (- k + im_kappa I + 1) = Some (s', j - k) /\ best_of s' j).
  { intros HI Hs1. destruct (f_strip _ _ OK s) as (n0 & i & E1 & Hi & Hn0 & Hm & E2); [clear - Hs1 S1; lia|].
    exists n0, (im_kappa I + 1 + i). unfold on_trailing_zeros. rewrite E1. cbn [obind fst snd]. split; [f_equal; f_equal; ring|].
    destruct (big_ok P D n (im_kappa I) closed HD HP Hn Hev Hk1 Hd n0 i HI E2 Hi Hn0 Hm HS) as (A & B).
    unfold best_of. split; [clear - Hi Fk; lia|]. split; [exact Hn0|]. split; [exact Hm|]. split; [exact A|exact B]. }
  assert (SMx : forall s' r', 0 <= s' -> between D X Z (im_kappa I) closed s' -> zi = s' * V + r' -> delta <= r' <= V ->
            exists s'' j, small_divisor_case I n e (- k) c b delta s' r' = Some (s'', j - k) /\ best_of s'' j).
  { intros s' r' A1 A2 A3 A4. destruct (small_divisor_ok c s' r' Ec Hc Hb F Hd TH A1 A2 A3 A4) as (m & E1 & E2).
    exists m, (im_kappa I). replace (im_kappa I - k) with (- k + im_kappa I) by ring. split; assumption. }
  destruct (Z.ltb_spec delta r) as [L|L].
  - apply SMx; [exact S0| |exact Esr|clear - L SR; lia].
    exact (case_small P D n (im_kappa I) closed HD HP Hn Hev Hk1 Hd L).
  - destruct (Z.ltb_spec r delta) as [L2|L2].
    + destruct (case_big P D n (im_kappa I) closed HD HP Hn Hev Hk1 Hd L2) as (W1 & W2).
      pose proof (case_big_in P D n (im_kappa I) closed HD HP Hn Hev Hk1 Hd L2) as W3.
      pose proof (case_exact P D n (im_kappa I) closed HD HP Hn Hev Hk1 Hd L2) as W4.
      destruct (Z.eqb_spec r 0) as [R0|R0]; cbn [andb].
      2:{ apply LG; [apply W3; intros R1; elim R0; exact R1|exact W2]. }
      destruct closed eqn:Ecl; cbn [negb].
      { apply LG; [apply W3; intros _; left; reflexivity|exact W2]. }
      rewrite (pm_half_ok (n + 1)); [|rewrite Z.add_mod, Hev by discriminate; reflexivity|clear - Hn Hn2; lia|exact TH]. cbn [obind]. fold Z.
      destruct (Z.eqb_spec (Z mod D) 0) as [Z0|Z0].
      * rewrite (to_u_id (im_bits I) (s - 1)).
        2:{ change (1 <= s) in W2. assert (2 ^ (im_p I + 1) < 2 ^ im_bits I) by (apply Z.lt_trans with (2 ^ (im_p I + 2)); [apply Z.pow_lt_mono_r; clear - Fp; lia|exact PB]). clear - W2 S1 H. lia. }
        fold V. apply SMx; [change (1 <= s) in W2; clear - W2; lia|apply W4; [exact R0|reflexivity|exact Z0]|rewrite Esr, R0; ring|clear - Hd; lia].
      * apply LG; [apply W3; intros _; right; exact Z0|exact W2].
    + assert (Er : r = delta) by (clear - L L2; lia).
      destruct (case_equal P D n (im_kappa I) closed HD HP Hn Hev Hk1 Hd Er) as (O1 & O2 & O3). change (Z.odd (X / D) = negb (s * V * D <=? X)) in O1. change (s * V * D < Z) in O2. change (X mod D = 0 -> X <= s * V * D) in O3.
      assert (OX : 0 < n - 1 < 2 ^ (im_p I + 2)) by (clear - Hn Hn2; lia).
      assert (LG' : X <= s * V * D -> s * V * D < Z -> (closed = false -> X < s * V * D) -> exists s' j, on_trailing_zeros I s (- k + im_kappa I + 1) = Some (s', j - k) /\ best_of s' j).
      { intros A1 A2 A3. apply LG.
        - unfold inI. rewrite !Z.mul_1_r. destruct closed; [split; [exact A1|apply Z.lt_le_incl; exact A2]|split; [apply A3; reflexivity|exact A2]].
        - destruct (Z.eq_dec s 0) as [E0|]; [|clear - S0 n0; lia]. exfalso. rewrite E0, !Z.mul_0_l in A1. assert (0 < X) by (apply Z.mul_pos_pos; [exact (proj1 OX)|exact HP]). clear - A1 H. lia. }
      assert (Hod : (n - 1) mod 2 = 1) by (clear - Hev; lia).
      rewrite (pm_half_ok (n - 1) Hod OX TH). fold X.
      rewrite (f_parity _ _ OK (n - 1) c b); [|clear - OX PB; lia|exact Hc|exact Hb]. rewrite (F (n - 1)) by (clear - OX; lia). fold X. rewrite O1.
      assert (HSM : (closed = true -> X mod D <> 0) -> s * V * D <= X -> exists s'' j, small_divisor_case I n e (- k) c b delta s r = Some (s'', j - k) /\ best_of s'' j).
      { intros A1 A2. apply SMx; [exact S0| |exact Esr|clear - Er SR; lia].
        exact (case_equal_small P D n (im_kappa I) closed HD HP Hn Hev Hk1 Hd Er A1 A2). }
      assert (Ecl : closed = true \/ closed = false) by (clear; destruct closed; [left|right]; reflexivity).
      destruct Ecl as [Ecl|Ecl]; rewrite Ecl; cbn [obind].
      * destruct (Z.eqb_spec (X mod D) 0) as [X0|X0]; cbn [negb].
        -- apply LG'; [exact (O3 X0)|exact O2|rewrite Ecl; discriminate].
        -- destruct (Z.leb_spec (s * V * D) X) as [G|G]; cbn [negb].
           ++ apply HSM; [intros _; exact X0|exact G].
           ++ apply LG'; [apply Z.lt_le_incl; exact G|exact O2|rewrite Ecl; discriminate].
      * destruct (Z.leb_spec (s * V * D) X) as [G|G]; cbn [negb].
        -- apply HSM; [rewrite Ecl; discriminate|exact G].
        -- apply LG'; [apply Z.lt_le_incl; exact G|exact O2|intros _; exact G].
Qed.
End Normal.
