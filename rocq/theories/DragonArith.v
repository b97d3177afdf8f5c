(* The machine arithmetic of DragonModel computes what it should. *)
From Verif Require Import Base DragonModel.

Lemma ushr_ok b x n : 0 <= n < b -> ushr b x n = Some (x / 2 ^ n).
Proof. intros H. unfold ushr. replace ((0 <=? n) && (n <? b)) with true by lia. rewrite Z.shiftr_div_pow2 by lia. reflexivity. Qed.
Lemma ushl_ok b x n : 0 <= n < b -> 0 <= x * 2 ^ n < 2 ^ b -> ushl b x n = Some (x * 2 ^ n).
Proof. intros H Hx. unfold ushl. replace ((0 <=? n) && (n <? b)) with true by lia. rewrite Z.shiftl_mul_pow2, to_u_id by lia. reflexivity. Qed.
Lemma div_pow x a b : 0 <= a -> 0 <= b -> x / 2 ^ a / 2 ^ b = x / 2 ^ (a + b).
Proof. intros. rewrite Z.div_div, Z.pow_add_r by lia. reflexivity. Qed.
Lemma odd_land x : negb (Z.land x 1 =? 0) = Z.odd x.
Proof. change 1 with (Z.ones 1). rewrite Z.land_ones by lia. change (2 ^ 1) with 2. rewrite Zmod_odd. destruct (Z.odd x); reflexivity. Qed.
Lemma odd_mod x n : 0 < n -> Z.odd (x mod 2 ^ n) = Z.odd x.
Proof. intros H. rewrite <- !Z.bit0_odd. apply Z.mod_pow2_bits_low. lia. Qed.
Lemma odd_shift x n b : 0 <= b < n -> Z.odd (x mod 2 ^ n / 2 ^ b) = Z.odd (x / 2 ^ b).
Proof.
  intros H. rewrite <- !Z.bit0_odd, <- !Z.shiftr_div_pow2, !Z.shiftr_spec by lia. apply Z.mod_pow2_bits_low. lia.
Qed.

(* ---- wide multiplication ---- *)
Lemma split64 c : 0 <= c -> c = high c * 2 ^ 64 + low c /\ 0 <= low c < 2 ^ 64 /\ 0 <= high c.
Proof.
  intros H. unfold high, low, to_u. rewrite Z.shiftr_div_pow2 by lia. pose proof (Z.div_mod c (2 ^ 64) ltac:(lia)).
  pose proof (Z.mod_pos_bound c (2 ^ 64) ltac:(lia)). pose proof (Z.div_pos c (2 ^ 64) H ltac:(lia)). lia.
Qed.
Lemma two_words x h l : 0 <= l < 2 ^ 64 -> 0 <= x -> (x * (h * 2 ^ 64 + l)) / 2 ^ 64 = x * h + x * l / 2 ^ 64.
Proof. intros Hl Hx. replace (x * (h * 2 ^ 64 + l)) with (x * l + (x * h) * 2 ^ 64) by ring. rewrite Z.div_add by lia. lia. Qed.
Lemma umul192_upper64_ok x c : 0 <= x < 2 ^ 64 -> 0 <= c < 2 ^ 128 -> umul192_upper64 x c = x * c / 2 ^ 128.
Proof.
  intros Hx Hc. destruct (split64 c ltac:(lia)) as (E & Hl & Hh). unfold umul192_upper64, umul128, umul128_upper64.
  rewrite Z.shiftr_div_pow2 by lia.
  assert (HH : high c < 2 ^ 64) by (unfold high; rewrite Z.shiftr_div_pow2 by lia; apply Z.div_lt_upper_bound; lia).
  assert (T : x * c / 2 ^ 64 = x * high c + x * low c / 2 ^ 64) by (rewrite E at 1; apply two_words; lia).
  rewrite <- T. assert (0 <= x * c / 2 ^ 64 < 2 ^ 128).
  { split; [apply Z.div_pos; nia|]. apply Z.div_lt_upper_bound; [lia|]. change (2 ^ 64 * 2 ^ 128) with (2 ^ 64 * 2 ^ 128). nia. }
  rewrite to_u_id by assumption. unfold high. rewrite Z.shiftr_div_pow2 by lia. rewrite div_pow by lia. reflexivity.
Qed.
Lemma umul192_middle64_ok x c : 0 <= x < 2 ^ 64 -> 0 <= c < 2 ^ 128 -> umul192_middle64 x c = (x * c / 2 ^ 64) mod 2 ^ 64.
Proof.
  intros Hx Hc. destruct (split64 c ltac:(lia)) as (E & Hl & Hh). unfold umul192_middle64, umul128_upper64.
  rewrite Z.shiftr_div_pow2 by lia. rewrite E at 3. rewrite two_words by lia. unfold to_u. apply Z.add_mod_idemp_l. lia.
Qed.
Lemma parity64 x c beta : 0 <= x < 2 ^ 64 -> 0 <= c < 2 ^ 128 -> 1 <= beta < 64 ->
  im_parity impl64 x c beta = Some (Z.odd (x * c / 2 ^ (128 - beta))).
Proof.
  intros Hx Hc Hb. cbn [im_parity impl64]. replace ((1 <=? beta) && (beta <? 64)) with true by lia.
  rewrite ushr_ok by lia. cbn [obind]. rewrite odd_land, umul192_middle64_ok, odd_shift, div_pow by lia. do 3 f_equal. f_equal. lia.
Qed.
Lemma parity32 x c beta : 0 <= x < 2 ^ 32 -> 0 <= c < 2 ^ 64 -> 1 <= beta < 64 ->
  im_parity impl32 x c beta = Some (Z.odd (x * c / 2 ^ (64 - beta))).
Proof.
  intros Hx Hc Hb. cbn [im_parity impl32]. replace ((1 <=? beta) && (beta <? 64)) with true by lia.
  rewrite ushr_ok by lia. cbn [obind]. unfold umul96_lower64, to_u. rewrite odd_land, odd_shift by lia. reflexivity.
Qed.
Lemma umul96_upper32_ok x c : 0 <= x < 2 ^ 32 -> 0 <= c < 2 ^ 64 -> umul96_upper32 x c = x * c / 2 ^ 64.
Proof.
  intros Hx Hc. unfold umul96_upper32, umul128_upper64. rewrite Z.shiftr_div_pow2 by lia. apply to_u_id.
  split; [apply Z.div_pos; nia|]. apply Z.div_lt_upper_bound; nia.
Qed.

(* the versions without __int128 agree *)
Lemma quarters x : 0 <= x < 2 ^ 64 -> x = to_u 32 (Z.shiftr x 32) * 2 ^ 32 + to_u 32 x /\
  0 <= to_u 32 (Z.shiftr x 32) < 2 ^ 32 /\ 0 <= to_u 32 x < 2 ^ 32.
Proof.
  intros H. rewrite Z.shiftr_div_pow2 by lia. assert (0 <= x / 2 ^ 32 < 2 ^ 32) by (split; [apply Z.div_pos; lia|apply Z.div_lt_upper_bound; lia]).
  rewrite (to_u_id 32 (x / 2 ^ 32)) by lia. unfold to_u. pose proof (Z.div_mod x (2 ^ 32) ltac:(lia)). pose proof (Z.mod_pos_bound x (2 ^ 32) ltac:(lia)). lia.
Qed.
Lemma mul_quarter a b : 0 <= a < 2 ^ 32 -> 0 <= b < 2 ^ 32 -> 0 <= a * b <= (2 ^ 32 - 1) * (2 ^ 32 - 1).
Proof. intros. nia. Qed.
Lemma umul64_ok a b : 0 <= a < 2 ^ 32 -> 0 <= b < 2 ^ 32 -> umul64 a b = a * b.
Proof. intros Ha Hb. unfold umul64. apply to_u_id. pose proof (mul_quarter a b Ha Hb). lia. Qed.
Lemma split_word x k : 0 <= k -> x = x / 2 ^ k * 2 ^ k + x mod 2 ^ k /\ 0 <= x mod 2 ^ k < 2 ^ k.
Proof. intros H. assert (0 < 2 ^ k) by (apply Z.pow_pos_nonneg; lia). pose proof (Z.div_mod x (2 ^ k) ltac:(lia)). pose proof (Z.mod_pos_bound x (2 ^ k) ltac:(lia)). lia. Qed.
Lemma portable_sum ac ad bc bd :
  0 <= ac <= (2 ^ 32 - 1) * (2 ^ 32 - 1) -> 0 <= ad <= (2 ^ 32 - 1) * (2 ^ 32 - 1) ->
  0 <= bc <= (2 ^ 32 - 1) * (2 ^ 32 - 1) -> 0 <= bd <= (2 ^ 32 - 1) * (2 ^ 32 - 1) ->
  let i := to_u 64 (to_u 64 (Z.shiftr bd 32 + to_u 32 ad) + to_u 32 bc) in
  let t := ac * 2 ^ 64 + (ad + bc) * 2 ^ 32 + bd in
  to_u 64 (to_u 64 (to_u 64 (ac + Z.shiftr i 32) + Z.shiftr ad 32) + Z.shiftr bc 32) = t / 2 ^ 64 /\
  to_u 64 (to_u 64 (Z.shiftl i 32) + to_u 32 bd) = t mod 2 ^ 64.
Proof.
  intros Hac Had Hbc Hbd i t.
  destruct (split_word ad 32 ltac:(lia)) as (Ead & Bad), (split_word bc 32 ltac:(lia)) as (Ebc & Bbc), (split_word bd 32 ltac:(lia)) as (Ebd & Bbd).
  assert (Ei : i = bd / 2 ^ 32 + ad mod 2 ^ 32 + bc mod 2 ^ 32).
  { unfold i. rewrite Z.shiftr_div_pow2 by lia. change (to_u 32 ad) with (ad mod 2 ^ 32). change (to_u 32 bc) with (bc mod 2 ^ 32). rewrite (to_u_id 64 (_ + ad mod _)) by lia. apply to_u_id. lia. }
  destruct (split_word i 32 ltac:(lia)) as (Eii & Bi).
  assert (Et : t = (ac + i / 2 ^ 32 + ad / 2 ^ 32 + bc / 2 ^ 32) * 2 ^ 64 + ((i mod 2 ^ 32) * 2 ^ 32 + bd mod 2 ^ 32)).
  { unfold t. clearbody i. clear t. lia. }
  assert (0 <= (i mod 2 ^ 32) * 2 ^ 32 + bd mod 2 ^ 32 < 2 ^ 64) by lia.
  assert (Hq : t / 2 ^ 64 = ac + i / 2 ^ 32 + ad / 2 ^ 32 + bc / 2 ^ 32) by (symmetry; apply (Z.div_unique _ _ _ ((i mod 2 ^ 32) * 2 ^ 32 + bd mod 2 ^ 32)); lia).
  assert (Hr : t mod 2 ^ 64 = (i mod 2 ^ 32) * 2 ^ 32 + bd mod 2 ^ 32) by (symmetry; apply (Z.mod_unique _ _ (ac + i / 2 ^ 32 + ad / 2 ^ 32 + bc / 2 ^ 32)); lia).
  rewrite Hq, Hr. rewrite !Z.shiftr_div_pow2, Z.shiftl_mul_pow2 by lia. clearbody i. clear Hq Hr Et t.
  split.
  - assert (0 <= i / 2 ^ 32 <= 2) by lia. assert (0 <= ad / 2 ^ 32 <= 2 ^ 32 - 2) by lia. assert (0 <= bc / 2 ^ 32 <= 2 ^ 32 - 2) by lia.
    clear - Hac H0 H1 H2. generalize dependent (i / 2 ^ 32). generalize dependent (ad / 2 ^ 32). generalize dependent (bc / 2 ^ 32). intros.
    rewrite (to_u_id 64 (ac + z1)) by lia. rewrite (to_u_id 64 (ac + z1 + z0)) by lia. apply to_u_id. lia.
  - change (to_u 32 bd) with (bd mod 2 ^ 32). rewrite <- (to_u_id 64 ((i mod 2 ^ 32) * 2 ^ 32 + bd mod 2 ^ 32)) by lia. unfold to_u.
    rewrite Z.add_mod_idemp_l by lia. rewrite Eii at 1.
    replace ((i / 2 ^ 32 * 2 ^ 32 + i mod 2 ^ 32) * 2 ^ 32 + bd mod 2 ^ 32) with ((i mod 2 ^ 32) * 2 ^ 32 + bd mod 2 ^ 32 + (i / 2 ^ 32) * 2 ^ 64) by lia.
    apply Z.mod_add. lia.
Qed.
Lemma quarters_mul x y a b c d : x = a * 2 ^ 32 + b -> y = c * 2 ^ 32 + d ->
  x * y = a * c * 2 ^ 64 + (a * d + b * c) * 2 ^ 32 + b * d.
Proof. intros -> ->. change (2 ^ 64) with (2 ^ 32 * 2 ^ 32). ring. Qed.
Lemma umul128_portable_ok x y : 0 <= x < 2 ^ 64 -> 0 <= y < 2 ^ 64 ->
  umul128_upper64_portable x y = umul128_upper64 x y /\
  (fst (umul128_portable x y)) * 2 ^ 64 + snd (umul128_portable x y) = umul128 x y.
Proof.
  intros Hx Hy. destruct (quarters x Hx) as (Ex & Ha & Hb), (quarters y Hy) as (Ey & Hc & Hd).
  unfold umul128_portable, umul128_upper64_portable, umul128_upper64, umul128. cbn [fst snd].
  set (a := to_u 32 (Z.shiftr x 32)) in *. set (b := to_u 32 x) in *. set (c := to_u 32 (Z.shiftr y 32)) in *. set (d := to_u 32 y) in *.
  rewrite (quarters_mul x y a b c d Ex Ey). rewrite !umul64_ok by assumption. clearbody a b c d.
  destruct (portable_sum (a * c) (a * d) (b * c) (b * d)) as (P1 & P2); try (apply mul_quarter; assumption).
  cbv zeta in P1, P2 |- *. rewrite P1, P2. rewrite Z.shiftr_div_pow2 by lia. split; [reflexivity|].
  rewrite (Z.mul_comm (_ / _)). symmetry. apply Z.div_mod. lia.
Qed.
Lemma umul96_portable_ok x y : 0 <= x < 2 ^ 32 -> 0 <= y < 2 ^ 64 -> umul96_upper32_portable x y = umul96_upper32 x y.
Proof.
  intros Hx Hy. rewrite umul96_upper32_ok by assumption. destruct (quarters y Hy) as (Ey & Hc & Hd). unfold umul96_upper32_portable.
  set (c := to_u 32 (Z.shiftr y 32)) in *. set (d := to_u 32 y) in *. rewrite !umul64_ok by assumption. clearbody c d.
  rewrite !Z.shiftr_div_pow2 by lia. pose proof (mul_quarter x c Hx Hc). pose proof (mul_quarter x d Hx Hd).
  replace (x * y) with (x * c * 2 ^ 32 + x * d) by (rewrite Ey; ring).
  generalize dependent (x * c). generalize dependent (x * d). intros xd Hxd xc Hxc.
  rewrite (to_u_id 64) by lia. replace (xd / 2 ^ 32 + xc) with ((xc * 2 ^ 32 + xd) / 2 ^ 32) by lia. rewrite div_pow by lia. change (32 + 32) with 64. apply to_u_id. lia.
Qed.

(* ---- divisibility by powers of 5 ---- *)
Lemma div5_exact b x i q f : 0 < b -> 0 <= x < 2 ^ b -> 0 < f -> (f * i) mod 2 ^ b = 1 -> q = (2 ^ b - 1) / f ->
  (to_u b (x * i) <=? q) = (x mod f =? 0) /\ (x mod f = 0 -> to_u b (x * i) = x / f).
Proof.
  intros Hb Hx Hf Hi Hq. assert (H2 : 0 < 2 ^ b) by (apply Z.pow_pos_nonneg; lia). unfold to_u.
  assert (HA : x mod f = 0 -> (x * i) mod 2 ^ b = x / f).
  { intros E. assert (Ex : x = f * (x / f)) by (pose proof (Z.div_mod x f ltac:(lia)); lia).
    assert (0 <= x / f) by (apply Z.div_pos; lia).
    rewrite Ex at 1. replace (f * (x / f) * i) with (f * i * (x / f)) by ring. rewrite Z.mul_mod, Hi, Z.mul_1_l, Z.mod_mod by lia.
    apply Z.mod_small. nia. }
  split; [|exact HA]. destruct (Z.eqb_spec (x mod f) 0) as [E|N].
  - apply Z.leb_le. rewrite (HA E). subst q. apply Z.div_le_mono; lia.
  - apply Z.leb_gt. destruct (Z_le_gt_dec ((x * i) mod 2 ^ b) q) as [L|G]; [|lia]. exfalso. apply N.
    set (r := (x * i) mod 2 ^ b) in *. assert (Hr : 0 <= r) by (apply Z.mod_pos_bound; lia).
    assert (f * r <= 2 ^ b - 1). { subst q. pose proof (Z.mul_div_le (2 ^ b - 1) f Hf). nia. }
    assert (E : (f * r) mod 2 ^ b = x).
    { unfold r. rewrite Z.mul_mod_idemp_r by lia. replace (f * (x * i)) with (f * i * x) by ring. rewrite Z.mul_mod, Hi, Z.mul_1_l, Z.mod_mod by lia. apply Z.mod_small. exact Hx. }
    rewrite Z.mod_small in E by nia. rewrite <- E, Z.mul_comm. apply Z.mod_mul. lia.
Qed.
Definition table_ok (b : Z) (inv maxq : list Z) (j : Z) : bool :=
  match entry inv j, entry maxq j with
  | Some i, Some q => ((5 ^ j * i) mod 2 ^ b =? 1) && (q =? (2 ^ b - 1) / 5 ^ j)
  | _, _ => false
  end.
Lemma div5_ok b inv maxq j x : 0 < b -> 0 <= j -> table_ok b inv maxq j = true -> 0 <= x < 2 ^ b ->
  exists i q, entry inv j = Some i /\ entry maxq j = Some q /\
    (to_u b (x * i) <=? q) = (x mod 5 ^ j =? 0) /\ (x mod 5 ^ j = 0 -> to_u b (x * i) = x / 5 ^ j).
Proof.
  intros Hb Hj HT Hx. unfold table_ok in HT. destruct (entry inv j) as [i|]; [|discriminate]. destruct (entry maxq j) as [q|]; [|discriminate].
  apply andb_true_iff in HT as (H1 & H2). exists i, q. split; [reflexivity|]. split; [reflexivity|].
  assert (0 < 5 ^ j) by (apply Z.pow_pos_nonneg; lia). apply div5_exact; lia.
Qed.
Lemma tables32 : forallb (table_ok 32 mod_inv32 max_quotients32) [0; 1; 2; 3; 4; 5; 6; 7; 8; 9; 10] = true.
Proof. vm_compute. reflexivity. Qed.
Lemma tables64 : forallb (table_ok 64 mod_inv64 max_quotients64) [0; 1; 2; 3; 4; 5; 6; 7; 8; 9; 10; 11; 12; 13; 14; 15; 16; 17; 18; 19; 20; 21; 22; 23] = true.
Proof. vm_compute. reflexivity. Qed.
Lemma table32_ok j : 0 <= j <= 10 -> table_ok 32 mod_inv32 max_quotients32 j = true.
Proof. intros H. apply (proj1 (forallb_forall _ _) tables32). cbn [In]. lia. Qed.
Lemma table64_ok j : 0 <= j <= 23 -> table_ok 64 mod_inv64 max_quotients64 j = true.
Proof. intros H. apply (proj1 (forallb_forall _ _) tables64). cbn [In]. lia. Qed.
Lemma divisible5_ok b inv maxq j x : 0 < b -> 0 <= j -> table_ok b inv maxq j = true -> 0 <= x < 2 ^ b ->
  divisible_by_power_of_5 b inv maxq x j = Some (x mod 5 ^ j =? 0).
Proof.
  intros Hb Hj HT Hx. destruct (div5_ok b inv maxq j x Hb Hj HT Hx) as (i & q & E1 & E2 & E3 & _).
  unfold divisible_by_power_of_5. rewrite E1, E2. cbn [obind]. rewrite E3. reflexivity.
Qed.
Lemma divisible2_ok b x n : 0 < b -> 0 < x < 2 ^ b -> 1 <= n -> divisible_by_power_of_2 b x n = Some (x mod 2 ^ n =? 0).
Proof.
  intros Hb Hx Hn. unfold divisible_by_power_of_2. replace ((1 <=? n) && negb (x =? 0)) with true by lia. f_equal.
  destruct (Z.leb_spec b n).
  - symmetry. apply Z.eqb_neq. assert (2 ^ b <= 2 ^ n) by (apply Z.pow_le_mono_r; lia). rewrite Z.mod_small by lia. lia.
  - rewrite Z.shiftl_mul_pow2, Z.mul_1_l by lia. assert (0 < 2 ^ n) by (apply Z.pow_pos_nonneg; lia).
    assert (2 ^ n < 2 ^ b) by (apply Z.pow_lt_mono_r; lia). rewrite to_u_id by lia.
    replace (2 ^ n - 1) with (Z.ones n) by (rewrite Z.ones_equiv; lia). rewrite Z.land_ones by lia. reflexivity.
Qed.
(* countr_zero(x) >= n says the same *)
Lemma divisible2_bits x n : 0 < x -> 0 <= n -> (x mod 2 ^ n =? 0) = true <-> (forall i, 0 <= i < n -> Z.testbit x i = false).
Proof.
  intros Hx Hn. rewrite Z.eqb_eq. split.
  - intros E i Hi. rewrite <- (Z.mod_pow2_bits_low x n i) by lia. rewrite E. apply Z.bits_0.
  - intros H. apply Z.bits_inj'. intros i Hi. rewrite Z.bits_0. destruct (Z_lt_le_dec i n).
    + rewrite Z.mod_pow2_bits_low by lia. apply H. lia.
    + apply Z.mod_pow2_bits_high. lia.
Qed.

(* ---- removing trailing zeros ---- *)
Lemma mod_mul_both x a b : 0 < a -> 0 < b -> x mod (a * b) = 0 <-> x mod a = 0 /\ (x / a) mod b = 0.
Proof.
  intros Ha Hb. rewrite (Z.rem_mul_r x a b) by lia. pose proof (Z.mod_pos_bound x a Ha). pose proof (Z.mod_pos_bound (x / a) b Hb). nia.
Qed.
Lemma try_pow10_ok j n : 1 <= j <= 10 -> 0 <= n < 2 ^ 32 ->
  try_pow10 j n = Some (if n mod 10 ^ j =? 0 then Some (n / 10 ^ j) else None).
Proof.
  intros Hj Hn. assert (P2 : 0 < 2 ^ j) by (apply Z.pow_pos_nonneg; lia). assert (P5 : 0 < 5 ^ j) by (apply Z.pow_pos_nonneg; lia).
  assert (E10 : 10 ^ j = 2 ^ j * 5 ^ j) by (rewrite <- Z.pow_mul_l; reflexivity).
  unfold try_pow10. replace (2 ^ j - 1) with (Z.ones j) by (rewrite Z.ones_equiv; lia). rewrite Z.land_ones by lia.
  pose proof (mod_mul_both n (2 ^ j) (5 ^ j) P2 P5) as HM. rewrite <- E10 in HM.
  rewrite Z.shiftr_div_pow2 by lia. assert (Hq : 0 <= n / 2 ^ j < 2 ^ 32).
  { split; [apply Z.div_pos; lia|]. apply Z.div_lt_upper_bound; nia. }
  destruct (div5_ok 32 mod_inv32 max_quotients32 j (n / 2 ^ j) ltac:(lia) ltac:(lia) (table32_ok j ltac:(lia)) Hq) as (i & q & E1 & E2 & E3 & E4).
  rewrite E1, E2. cbn [obind]. cbv zeta. rewrite E3.
  destruct (Z.eqb_spec (n mod 2 ^ j) 0) as [A|A].
  - destruct (Z.eqb_spec ((n / 2 ^ j) mod 5 ^ j) 0) as [B|B].
    + rewrite (E4 B). rewrite Z.div_div, <- E10 by lia. destruct (Z.eqb_spec (n mod 10 ^ j) 0) as [C|C]; [reflexivity|]. exfalso. tauto.
    + destruct (Z.eqb_spec (n mod 10 ^ j) 0) as [C|C]; [exfalso; tauto|reflexivity].
  - destruct (Z.eqb_spec (n mod 10 ^ j) 0) as [C|C]; [exfalso; tauto|reflexivity].
Qed.
(* n0 is n with its k trailing zeros removed *)
Definition stripped (n n0 k : Z) : Prop := 0 <= k /\ 0 < n0 /\ n0 mod 10 <> 0 /\ n = n0 * 10 ^ k.
Lemma not_div_mul n a b : 0 < a -> 0 < b -> n mod (a * b) = 0 -> n mod a = 0.
Proof. intros Ha Hb E. apply (mod_mul_both n a b Ha Hb) in E. apply E. Qed.

(* the three steps of the binary search *)
Definition p10if (c : bool) (k : Z) : Z := if c then 10 ^ k else 1.
Lemma search n s : 0 < n < 2 ^ 32 -> ~ n mod 10 ^ 8 = 0 -> (s = 0 \/ s = 8) ->
  exists n0 k, (do a <- try_step 4 4 (n, s) ; do b <- try_step 2 2 a ; try_step 1 1 b) = Some (n0, s + k) /\ stripped n n0 k /\ k <= 7.
Proof.
  intros Hn H8 Hs. unfold try_step. cbn [fst snd]. rewrite try_pow10_ok by lia. cbn [obind].
  set (a := if n mod 10 ^ 4 =? 0 then (n / 10 ^ 4, s + 4) else (n, s)).
  replace (match (if n mod 10 ^ 4 =? 0 then Some (n / 10 ^ 4) else None) with Some q => (q, Z.lor s 4) | None => (n, s) end) with a
    by (unfold a; destruct (n mod 10 ^ 4 =? 0); [destruct Hs as [->| ->]; reflexivity|reflexivity]).
  assert (Ha : exists n1 k1, a = (n1, s + k1) /\ (k1 = 0 \/ k1 = 4) /\ n = n1 * 10 ^ k1 /\ 0 < n1 <= n /\ n1 mod 10 ^ 4 <> 0).
  { unfold a. destruct (Z.eqb_spec (n mod 10 ^ 4) 0) as [E|N].
    - exists (n / 10 ^ 4), 4. assert (n = n / 10 ^ 4 * 10 ^ 4) by (pose proof (Z.div_mod n (10 ^ 4)); lia).
      split; [reflexivity|]. split; [lia|]. split; [assumption|]. split; [lia|]. intros C. apply H8. change (10 ^ 8) with (10 ^ 4 * 10 ^ 4). apply mod_mul_both; [lia|lia|tauto].
    - exists n, 0. split; [f_equal; lia|]. split; [lia|]. split; [lia|]. split; [lia|exact N]. }
  clearbody a. destruct Ha as (n1 & k1 & -> & Hk1 & En & Hn1 & H4). cbn [fst snd]. rewrite try_pow10_ok by lia. cbn [obind].
  set (b := if n1 mod 10 ^ 2 =? 0 then (n1 / 10 ^ 2, s + k1 + 2) else (n1, s + k1)).
  replace (match (if n1 mod 10 ^ 2 =? 0 then Some (n1 / 10 ^ 2) else None) with Some q => (q, Z.lor (s + k1) 2) | None => (n1, s + k1) end) with b
    by (unfold b; destruct (n1 mod 10 ^ 2 =? 0); [destruct Hs as [->| ->], Hk1 as [->| ->]; reflexivity|reflexivity]).
  assert (Hb : exists n2 k2, b = (n2, s + k1 + k2) /\ (k2 = 0 \/ k2 = 2) /\ n1 = n2 * 10 ^ k2 /\ 0 < n2 <= n1 /\ n2 mod 10 ^ 2 <> 0).
  { unfold b. destruct (Z.eqb_spec (n1 mod 10 ^ 2) 0) as [E|N].
    - exists (n1 / 10 ^ 2), 2. assert (n1 = n1 / 10 ^ 2 * 10 ^ 2) by (pose proof (Z.div_mod n1 (10 ^ 2)); lia).
      split; [reflexivity|]. split; [lia|]. split; [assumption|]. split; [lia|]. intros C. apply H4. change (10 ^ 4) with (10 ^ 2 * 10 ^ 2). apply mod_mul_both; [lia|lia|tauto].
    - exists n1, 0. split; [f_equal; lia|]. split; [lia|]. split; [lia|]. split; [lia|exact N]. }
  clearbody b. destruct Hb as (n2 & k2 & -> & Hk2 & En1 & Hn2 & H2). cbn [fst snd]. rewrite try_pow10_ok by lia. cbn [obind].
  assert (Epow : forall k3, 0 <= k3 -> n2 = n2 / 10 ^ k3 * 10 ^ k3 -> n = n2 / 10 ^ k3 * 10 ^ (k1 + k2 + k3)).
  { intros k3 Hk3 E. rewrite En, En1, E at 1. rewrite !Z.pow_add_r by lia. ring. }
  destruct (Z.eqb_spec (n2 mod 10 ^ 1) 0) as [E|N].
  - assert (En2 : n2 = n2 / 10 ^ 1 * 10 ^ 1) by (pose proof (Z.div_mod n2 (10 ^ 1)); lia).
    exists (n2 / 10 ^ 1), (k1 + k2 + 1). split; [destruct Hs as [->| ->], Hk1 as [->| ->], Hk2 as [->| ->]; reflexivity|]. split; [|lia].
    split; [lia|]. split; [lia|]. split; [|apply Epow; [lia|exact En2]].
    intros C. apply H2. change (10 ^ 2) with (10 ^ 1 * 10). apply mod_mul_both; [lia|lia|tauto].
  - exists n2, (k1 + k2 + 0). split; [destruct Hs as [->| ->], Hk1 as [->| ->], Hk2 as [->| ->]; reflexivity|]. split; [|lia].
    split; [lia|]. split; [lia|]. split; [change (10 ^ 1) with 10 in N; exact N|].
    rewrite En, En1, !Z.pow_add_r by lia. change (10 ^ 0) with 1. ring.
Qed.
Lemma strip32_ok n : 0 < n < 10 ^ 8 -> exists n0 k, remove_trailing_zeros32 n = Some (n0, k) /\ stripped n n0 k.
Proof.
  intros H. destruct (search n 0) as (n0 & k & E & S & _); [lia| |left; reflexivity|].
  - rewrite Z.mod_small by lia. lia.
  - exists n0, k. split; [exact E|exact S].
Qed.
Lemma strip64_ok n : 0 < n < 10 ^ 17 -> exists n0 k, remove_trailing_zeros64 n = Some (n0, k) /\ stripped n n0 k.
Proof.
  intros H. unfold remove_trailing_zeros64.
  assert (Hq : 0 <= n / 10 ^ 8 < 10 ^ 9) by (split; [apply Z.div_pos; lia|apply Z.div_lt_upper_bound; lia]).
  rewrite (to_u_id 32 (n / 10 ^ 8)) by lia. set (q := n / 10 ^ 8) in *.
  pose proof (Z.div_mod n (10 ^ 8) ltac:(lia)) as En. fold q in En. pose proof (Z.mod_pos_bound n (10 ^ 8) ltac:(lia)) as Br. set (r := n mod 10 ^ 8) in *.
  replace (to_u 32 (n - to_u 32 (100000000 * q))) with r.
  2:{ unfold to_u. rewrite Zminus_mod_idemp_r. replace (n - 100000000 * q) with r by lia. symmetry. apply Z.mod_small. lia. }
  clearbody q r. cbv zeta. destruct (Z.eqb_spec r 0) as [->|Nr].
  - rewrite try_pow10_ok by lia. cbn [obind]. destruct (Z.eqb_spec (q mod 10 ^ 8) 0) as [E|N].
    + assert (q = q / 10 ^ 8 * 10 ^ 8) by (pose proof (Z.div_mod q (10 ^ 8)); lia).
      exists (q / 10 ^ 8), 16. split; [reflexivity|]. split; [lia|]. assert (0 < q / 10 ^ 8 < 10) by lia. split; [lia|]. split; [rewrite Z.mod_small; lia|]. lia.
    + destruct (search q 8) as (n0 & k & E & (S1 & S2 & S3 & S4) & _); [lia|exact N|right; reflexivity|].
      exists n0, (8 + k). split; [exact E|]. split; [lia|]. split; [lia|]. split; [exact S3|]. rewrite Z.pow_add_r by lia. lia.
  - destruct (search r 0) as (n0 & k & E & (S1 & S2 & S3 & S4) & Hk7); [lia|rewrite Z.mod_small; lia|left; reflexivity|].
    exists (n0 + q * 10 ^ (8 - k)), k.
    assert (E8 : 10 ^ 8 = 10 ^ (8 - k) * 10 ^ k) by (rewrite <- Z.pow_add_r by lia; f_equal; lia).
    assert (P8 : 0 < 10 ^ (8 - k)) by (apply Z.pow_pos_nonneg; lia). assert (Pk : 0 < 10 ^ k) by (apply Z.pow_pos_nonneg; lia).
    assert (Hn0 : 0 < n0 <= r) by nia.
    split.
    + revert E. unfold try_step. cbn [fst snd]. rewrite try_pow10_ok by lia. cbn [obind].
      assert (B4 : 0 <= r / 10 ^ 4 < 2 ^ 32) by lia. assert (B42 : 0 <= r / 10 ^ 4 / 10 ^ 2 < 2 ^ 32) by lia. assert (B2 : 0 <= r / 10 ^ 2 < 2 ^ 32) by lia.
      assert (B1 : forall x, 0 <= x < 2 ^ 32 -> try_pow10 1 x = Some (if x mod 10 =? 0 then Some (x / 10) else None)) by (intros x Hx; rewrite try_pow10_ok by lia; reflexivity).
      assert (B0 : forall x, 0 <= x < 2 ^ 32 -> try_pow10 2 x = Some (if x mod 100 =? 0 then Some (x / 100) else None)) by (intros x Hx; rewrite try_pow10_ok by lia; reflexivity).
      change (10 ^ 2) with 100 in *. change (10 ^ 4) with 10000 in *.
      assert (E1 : entry mod_inv32 1 = Some 0xcccccccd) by reflexivity. rewrite E1.
      destruct (r mod 10000 =? 0); cbn [fst snd obind];
        [rewrite (B0 (r / 10000)) by assumption; destruct (r / 10000 mod 100 =? 0)|rewrite (B0 r) by lia; destruct (r mod 100 =? 0)];
        cbn [fst snd obind]; rewrite B1 by lia;
        match goal with |- context [?x mod 10 =? 0] => destruct (x mod 10 =? 0) end; cbn [fst snd obind]; intros E; 
        match type of E with Some (?x, ?y) = Some (n0, 0 + k) => assert (En0 : n0 = x) by congruence; assert (Ek : 0 + k = y) by congruence; rewrite Z.add_0_l in Ek; vm_compute in Ek end; subst n0 k;
        (apply f_equal; apply f_equal2; [|reflexivity]);
        match goal with |- to_u 64 (?a + to_u 64 (q * ?m)) = _ => let v := eval vm_compute in m in change m with v end;
        match goal with |- _ = ?a + q * ?m => let v := eval vm_compute in m in change m with v end;
        rewrite (to_u_id 64 (q * _)) by lia; apply to_u_id; clear - Hn0 Hq Br; lia.
    + split; [lia|]. split; [nia|]. split; [|nia].
      replace (10 ^ (8 - k)) with (10 * 10 ^ (7 - k)) by (rewrite <- Z.pow_succ_r by lia; f_equal; lia).
      replace (n0 + q * (10 * 10 ^ (7 - k))) with (n0 + q * 10 ^ (7 - k) * 10) by ring. rewrite Z.mod_add by lia. exact S3.
Qed.

(* ---- small divisions ---- *)
Fixpoint below (n : nat) : list Z := match n with O => [] | S n' => Z.of_nat n' :: below n' end.
Lemma below_in n x : 0 <= x < Z.of_nat n -> In x (below n).
Proof. induction n as [|n IH]; intros H; [lia|]. cbn [below]. destruct (Z.eq_dec (Z.of_nat n) x) as [E|N]; [left; exact E|right; apply IH; lia]. Qed.
Definition check_div_ok (f : Z -> option (Z * bool)) (m n : Z) : bool :=
  match f n with Some (q, b) => (q =? n / m) && Bool.eqb b (n mod m =? 0) | None => false end.
Lemma check_div32 : forallb (check_div_ok (im_check_div impl32) 10) (below 101) = true.
Proof. vm_compute. reflexivity. Qed.
Lemma check_div64 : forallb (check_div_ok (im_check_div impl64) 100) (below 1001) = true.
Proof. vm_compute. reflexivity. Qed.
Lemma check_div_spec f m n : check_div_ok f m n = true -> f n = Some (n / m, n mod m =? 0).
Proof.
  unfold check_div_ok. destruct (f n) as [[q b]|]; [|discriminate]. intros H. apply andb_true_iff in H as (H1 & H2).
  apply Z.eqb_eq in H1. apply eqb_prop in H2. subst. reflexivity.
Qed.
Lemma check_div32_ok n : 0 <= n <= 100 -> im_check_div impl32 n = Some (n / 10, n mod 10 =? 0).
Proof. intros H. apply check_div_spec. apply (proj1 (forallb_forall _ _) check_div32). apply below_in. lia. Qed.
Lemma check_div64_ok n : 0 <= n <= 1000 -> im_check_div impl64 n = Some (n / 100, n mod 100 =? 0).
Proof. intros H. apply check_div_spec. apply (proj1 (forallb_forall _ _) check_div64). apply below_in. lia. Qed.
Lemma divide_by_1000_ok n : 0 <= n < 2 ^ 63 -> divide_by_1000_64 n = n / 1000.
Proof.
  intros H. unfold divide_by_1000_64, umul128_upper64. rewrite !Z.shiftr_div_pow2, div_pow by lia.
  change (64 + 9) with 73. symmetry. apply (Z.div_unique _ _ _ (n * 0x83126e978d4fdf3c - n / 1000 * 2 ^ 73)); [|ring].
  pose proof (Z.div_mod n 1000 ltac:(lia)). pose proof (Z.mod_pos_bound n 1000 ltac:(lia)). left.
  set (q := n / 1000) in *. set (r := n mod 1000) in *. clearbody q r. lia.
Qed.

(* ---- fractions ---- *)
(* between two neighbouring fractions there is no fraction with a small denominator *)
Lemma neighbours p q p' q' A B n : 0 < q -> 0 < q' -> p' * q - p * q' = 1 -> 0 < B -> p * B <= A * q -> A * q' < p' * B ->
  0 <= n < q + q' -> n * A / B = n * p / q.
Proof.
  intros Hq Hq' Hd HB Hl Hr Hn. symmetry. apply (Z.div_unique _ _ _ (n * A - B * (n * p / q))); [|ring]. left.
  pose proof (Z.div_mod (n * p) q ltac:(lia)) as E. pose proof (Z.mod_pos_bound (n * p) q Hq) as Bd. set (m := n * p / q) in *. set (r := (n * p) mod q) in *.
  clearbody m r. split.
  - assert (q * (n * A - B * m) >= 0) by nia. nia.
  - (* n*A/B < m + 1 *)
    destruct (Z_lt_le_dec (n * A - B * m) B) as [L|G]; [exact L|]. exfalso.
    (* then (m+1)/n <= A/B < p'/q', and p/q < (m+1)/n *)
    assert (H1 : (m + 1) * q - n * p >= 1) by nia.
    assert (H2 : (m + 1) * B <= n * A) by nia.
    assert (H3 : (m + 1) * q' * B < n * p' * B) by (destruct (Z.eq_dec n 0) as [->|]; nia).
    assert (H4 : n * p' - (m + 1) * q' >= 1) by nia.
    (* n = n (p' q - p q') = q (n p' - (m+1) q') + q' ((m+1) q - n p) >= q + q' *)
    assert (n = q * (n * p' - (m + 1) * q') + q' * ((m + 1) * q - n * p)).
    { transitivity (n * (p' * q - p * q')); [rewrite Hd; ring|ring]. }
    nia.
Qed.
