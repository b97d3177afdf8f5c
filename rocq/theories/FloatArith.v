(* Arithmetic of decimal digits and of rounding, for the floating-point printers. *)
From Verif Require Import Base GroupSpec DigitsSpec IntSpec DigitsModel DigitsProofs FloatSpec FloatModel.

(* ---- nearest is what its name says ---- *)
Lemma nearest_ok n d : 0 < d ->
  2 * Z.abs (n - d * nearest n d) <= d /\
  (2 * Z.abs (n - d * nearest n d) = d -> Z.even (nearest n d) = true).
Proof.
  intros Hd. unfold nearest. pose proof (Z.div_mod n d ltac:(lia)) as E. pose proof (Z.mod_pos_bound n d Hd) as B.
  set (q := n / d) in *. set (r := n mod d) in *.
  destruct (Z.ltb_spec d (2 * r)); cbn [orb].
  - split; [nia|]. intros; nia.
  - destruct (Z.eqb_spec (2 * r) d); cbn [andb].
    + destruct (Z.odd q) eqn:O; cbn [andb].
      * split; [nia|]. intros _. rewrite Z.add_1_r, Z.even_succ. exact O.
      * split; [nia|]. intros _. rewrite <- Z.negb_odd, O. reflexivity.
    + split; [nia|]. intros; nia.
Qed.
Lemma nearest_unique n d x : 0 < d -> 2 * Z.abs (n - d * x) <= d -> (2 * Z.abs (n - d * x) = d -> Z.even x = true) ->
  x = nearest n d.
Proof.
  intros Hd H1 H2. destruct (nearest_ok n d Hd) as [N1 N2]. set (y := nearest n d) in *.
  destruct (Z.eq_dec x y) as [|Hn]; [assumption|exfalso].
  assert (Z.abs (x - y) = 1) by nia.
  assert (D : 2 * Z.abs (n - d * x) = d /\ 2 * Z.abs (n - d * y) = d) by nia.
  destruct D as [D1 D2]. specialize (H2 D1). specialize (N2 D2).
  assert (Hx : x = y + 1 \/ x = y - 1) by lia. destruct Hx as [-> | ->].
  - rewrite Z.add_1_r, Z.even_succ, <- Z.negb_even, N2 in H2. discriminate.
  - rewrite Z.sub_1_r, Z.even_pred, <- Z.negb_even, N2 in H2. discriminate.
Qed.
Lemma nearest_mul x d : 0 < d -> nearest (x * d) d = x.
Proof. intros Hd. symmetry. apply nearest_unique; [assumption|rewrite (Z.mul_comm d x), Z.sub_diag; cbn; lia|].
  rewrite (Z.mul_comm d x), Z.sub_diag; cbn; lia. Qed.
(* monotone with respect to multiples of d *)
Lemma nearest_ge n d x : 0 < d -> x * d <= n -> x <= nearest n d.
Proof. intros Hd H. destruct (nearest_ok n d Hd) as [N _]. nia. Qed.
Lemma nearest_le n d x : 0 < d -> n <= x * d -> nearest n d <= x.
Proof. intros Hd H. destruct (nearest_ok n d Hd) as [N _]. nia. Qed.
Lemma nearest_small n d : 0 < d -> 0 <= n -> 2 * n <= d -> nearest n d = 0.
Proof.
  intros Hd H0 H. symmetry. apply nearest_unique; [assumption|rewrite Z.mul_0_r, Z.sub_0_r; lia|reflexivity].
Qed.

Lemma pow10_pos k : 0 <= k -> 0 < 10 ^ k.
Proof. intros; apply Z.pow_pos_nonneg; lia. Qed.
Lemma pow10_split a b : 0 <= a -> 0 <= b -> 10 ^ (a + b) = 10 ^ a * 10 ^ b.
Proof. intros; apply Z.pow_add_r; lia. Qed.
Lemma pow10_some n : 0 <= n <= 19 -> pow10 n = Some (10 ^ n).
Proof. intros; unfold pow10. replace ((0 <=? n) && (n <=? 19)) with true by lia. reflexivity. Qed.

Lemma land1_odd q : (Z.land q 1 =? 1) = Z.odd q.
Proof.
  change 1 with (Z.ones 1) at 1. rewrite Z.land_ones by lia. change (2 ^ 1) with 2. rewrite Zmod_odd.
  destruct (Z.odd q); reflexivity.
Qed.
Lemma drop_digits_ok k m : 1 <= k <= 19 -> drop_digits k m = Some (nearest m (10 ^ k)).
Proof.
  intros Hk. unfold drop_digits. rewrite pow10_some by lia. cbn [obind]. f_equal. unfold nearest. cbv zeta.
  rewrite land1_odd, shr_div by lia. change (2 ^ 1) with 2.
  assert (E : 10 ^ k = 2 * (5 * 10 ^ (k - 1))).
  { replace k with (1 + (k - 1)) at 1 by lia. rewrite pow10_split by lia. change (10 ^ 1) with 10. lia. }
  rewrite E. replace (2 * (5 * 10 ^ (k - 1)) / 2) with (5 * 10 ^ (k - 1)) by lia.
  set (h := 5 * 10 ^ (k - 1)). set (r := m mod (2 * h)). set (q := m / (2 * h)).
  replace (h <? r) with (2 * h <? 2 * r) by lia. replace (r =? h) with (2 * r =? 2 * h) by lia. reflexivity.
Qed.

(* ---- digits ---- *)
Lemma last_digits_len base k : forall v, length (last_digits base k v) = k.
Proof. induction k as [|k IH]; intros v; cbn [last_digits]; [reflexivity|]. rewrite app_length, IH. cbn; lia. Qed.
Lemma last_digits_zlen base k v : 0 <= k -> zlen (last_digits base (Z.to_nat k) v) = k.
Proof. intros; unfold zlen; rewrite last_digits_len; lia. Qed.
Lemma last_digits_app base a b : 2 <= base -> forall v, 0 <= v ->
  last_digits base (a + b) v = last_digits base a (v / base ^ Z.of_nat b) ++ last_digits base b v.
Proof.
  intros Hb. induction b as [|b IH]; intros v Hv.
  - rewrite Nat.add_0_r. change (Z.of_nat 0) with 0. rewrite Z.pow_0_r, Z.div_1_r. cbn [last_digits]. rewrite app_nil_r. reflexivity.
  - rewrite Nat.add_succ_r. cbn [last_digits]. rewrite IH by (apply Z.div_pos; lia).
    rewrite Nat2Z.inj_succ, Z.pow_succ_r by lia. rewrite Z.div_div by (try apply Z.pow_nonzero; lia).
    rewrite app_assoc. reflexivity.
Qed.
Lemma digits_split base k : 2 <= base -> forall N, base ^ Z.of_nat k <= N ->
  digits base N = digits base (N / base ^ Z.of_nat k) ++ last_digits base k N.
Proof.
  intros Hb. induction k as [|k IH]; intros N HN.
  - change (Z.of_nat 0) with 0. rewrite Z.pow_0_r, Z.div_1_r. cbn [last_digits]. rewrite app_nil_r. reflexivity.
  - rewrite Nat2Z.inj_succ, Z.pow_succ_r in * by lia.
    assert (0 < base ^ Z.of_nat k) by (apply Z.pow_pos_nonneg; lia).
    rewrite digits_step by nia. cbn [last_digits]. rewrite IH by (apply Z.div_le_lower_bound; lia).
    rewrite Z.div_div by lia. rewrite app_assoc. reflexivity.
Qed.
Lemma digits_splitz base k N : 2 <= base -> 0 <= k -> base ^ k <= N ->
  digits base N = digits base (N / base ^ k) ++ last_digits base (Z.to_nat k) N.
Proof. intros. rewrite <- (Z2Nat.id k) at 1 by lia. apply digits_split; [lia|]. rewrite Z2Nat.id by lia. assumption. Qed.
Lemma last_digits_zero base k : 2 <= base -> last_digits base k 0 = repeat 0 k.
Proof.
  intros Hb. induction k as [|k IH]; [reflexivity|]. cbn [last_digits]. rewrite Z.div_0_l, Z.mod_0_l, IH by lia.
  symmetry. exact (GroupDist.repeat_snoc 0 k).
Qed.
(* a number that ends with k zeros *)
Lemma last_digits_mul base k : 2 <= base -> forall m, 0 <= m -> last_digits base k (m * base ^ Z.of_nat k) = repeat 0 k.
Proof.
  intros Hb. induction k as [|k IH]; intros m Hm; [reflexivity|]. cbn [last_digits].
  rewrite Nat2Z.inj_succ, Z.pow_succ_r by lia.
  replace (m * (base * base ^ Z.of_nat k)) with (m * base ^ Z.of_nat k * base) by lia.
  rewrite Z.div_mul, Z.mod_mul, IH by lia. symmetry. exact (GroupDist.repeat_snoc 0 k).
Qed.
Lemma digits_mul base k m : 2 <= base -> 0 < m -> digits base (m * base ^ Z.of_nat k) = digits base m ++ repeat 0 k.
Proof.
  intros Hb Hm. assert (0 < base ^ Z.of_nat k) by (apply Z.pow_pos_nonneg; lia).
  rewrite (digits_split base k) by (try lia; nia). rewrite Z.div_mul by lia. rewrite last_digits_mul by lia. reflexivity.
Qed.
Lemma last_digits_small base k : 2 <= base -> forall v, 0 <= v < base ^ Z.of_nat k -> (0 < k)%nat ->
  last_digits base k v = repeat 0 (k - length (digits base v)) ++ digits base v /\ (length (digits base v) <= k)%nat.
Proof.
  intros Hb. induction k as [|k IH]; intros v Hv Hk; [lia|]. cbn [last_digits].
  rewrite Nat2Z.inj_succ, Z.pow_succ_r in Hv by lia.
  destruct (Z.lt_ge_cases v base) as [Hs|Hs].
  - rewrite Z.div_small, Z.mod_small, last_digits_zero, digits_small by lia. cbn [length].
    replace (S k - 1)%nat with k by lia. split; [reflexivity|lia].
  - assert (Hq : 0 <= v / base < base ^ Z.of_nat k) by (split; [apply Z.div_pos; lia|apply Z.div_lt_upper_bound; lia]).
    assert (0 < k)%nat. { destruct k; [|lia]. change (base ^ Z.of_nat 0) with 1 in Hv. lia. }
    destruct (IH (v / base) Hq ltac:(lia)) as [E L]. rewrite E, (digits_step base v) by lia.
    rewrite app_length. cbn [length]. split; [|lia].
    replace (S k - (length (digits base (v / base)) + 1))%nat with (k - length (digits base (v / base)))%nat by lia.
    rewrite app_assoc. reflexivity.
Qed.

Lemma decimal_app a b : decimal (a ++ b) = decimal a ++ decimal b.
Proof. apply map_app. Qed.
Lemma decimal_zeros k : decimal (repeat 0 k) = repeat 48 k.
Proof. unfold decimal. induction k; [reflexivity|]. cbn [repeat map]. rewrite IHk. reflexivity. Qed.
Lemma decimal_len ds : zlen (decimal ds) = zlen ds.
Proof. unfold zlen, decimal. rewrite map_length. reflexivity. Qed.
Lemma digit_char_any l1 l2 d : 0 <= d < 10 -> digit_char l1 d = digit_char l2 d.
Proof. intros. unfold digit_char. replace (d <? 10) with true by lia. reflexivity. Qed.
Lemma decimal_dtext lower v : 0 <= v -> dtext lower 10 v = decimal (digits 10 v).
Proof.
  intros Hv. unfold dtext, decimal. destruct (repr_digits 10 v ltac:(lia) Hv) as (HF & _).
  apply map_ext_in. intros d Hd. rewrite Forall_forall in HF. apply digit_char_any, HF, Hd.
Qed.
Lemma digits_nonneg_len v : 0 <= v -> 1 <= zlen (digits 10 v).
Proof. intros; apply digits_bound; lia. Qed.
Lemma zlen_repeat {A} (x : A) n : 0 <= n -> zlen (repeat x (Z.to_nat n)) = n.
Proof. intros; unfold zlen; rewrite repeat_length; lia. Qed.
(* number of digits *)
Lemma dc_range m : 0 <= m < 10 ^ 19 -> 1 <= zlen (digits 10 m) <= 19 /\ m < 10 ^ zlen (digits 10 m) /\
  (0 < m -> 10 ^ (zlen (digits 10 m) - 1) <= m).
Proof.
  intros Hm. destruct (digits_bound 10 m ltac:(lia) ltac:(lia)) as (B1 & B2 & B3). set (n := zlen (digits 10 m)) in *.
  split; [|split; [exact B1|]].
  - split; [lia|]. destruct (Z.le_gt_cases n 19); [assumption|]. specialize (B2 ltac:(lia)).
    assert (10 ^ 19 <= 10 ^ (n - 1)) by (apply Z.pow_le_mono_r; lia). lia.
  - intros Hp. destruct (Z.eq_dec n 1) as [->|]; [cbn; lia|]. apply B2; lia.
Qed.
Lemma dc_of m n : 1 <= n -> 0 < m -> 10 ^ (n - 1) <= m < 10 ^ n -> zlen (digits 10 m) = n.
Proof. intros. apply digits_len; try lia. Qed.
Lemma dc_mul m k : 0 < m -> 0 <= k -> zlen (digits 10 (m * 10 ^ k)) = zlen (digits 10 m) + k.
Proof.
  intros Hm Hk. rewrite <- (Z2Nat.id k) at 1 by lia. rewrite digits_mul by lia. rewrite zlen_app. rewrite zlen_repeat; lia.
Qed.
