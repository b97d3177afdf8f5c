(* The computed facts about the tables of DragonModel, for every exponent of the two formats. *)
From Verif Require Import Base DragonModel DragonCheckDefs.

Lemma zrange_in n : forall a x, a <= x < a + Z.of_nat n -> In x (zrange a n).
Proof.
  induction n as [|n IH]; intros a x H; [lia|]. cbn [zrange]. destruct (Z.eq_dec a x) as [E|N]; [left; exact E|right; apply IH; lia].
Qed.
Lemma zrange_all (f : Z -> bool) a n : forallb f (zrange a n) = true -> forall x, a <= x < a + Z.of_nat n -> f x = true.
Proof. intros H x Hx. apply (proj1 (forallb_forall _ _) H), zrange_in. exact Hx. Qed.

Lemma normal32_0 : forallb normal32 (zrange (-149) 64) = true.
Proof. vm_compute. reflexivity. Qed.
Lemma normal32_1 : forallb normal32 (zrange (-85) 64) = true.
Proof. vm_compute. reflexivity. Qed.
Lemma normal32_2 : forallb normal32 (zrange (-21) 64) = true.
Proof. vm_compute. reflexivity. Qed.
Lemma normal32_3 : forallb normal32 (zrange (43) 62) = true.
Proof. vm_compute. reflexivity. Qed.
Lemma normal32_ok e : -149 <= e <= 104 -> normal32 e = true.
Proof.
  intros H.
  destruct (Z_lt_le_dec e (-85)); [apply (zrange_all _ _ _ normal32_0); lia|].
  destruct (Z_lt_le_dec e (-21)); [apply (zrange_all _ _ _ normal32_1); lia|].
  destruct (Z_lt_le_dec e (43)); [apply (zrange_all _ _ _ normal32_2); lia|].
  apply (zrange_all _ _ _ normal32_3); lia.
Qed.
Lemma shorter32_0 : forallb shorter32 (zrange (-149) 64) = true.
Proof. vm_compute. reflexivity. Qed.
Lemma shorter32_1 : forallb shorter32 (zrange (-85) 64) = true.
Proof. vm_compute. reflexivity. Qed.
Lemma shorter32_2 : forallb shorter32 (zrange (-21) 64) = true.
Proof. vm_compute. reflexivity. Qed.
Lemma shorter32_3 : forallb shorter32 (zrange (43) 62) = true.
Proof. vm_compute. reflexivity. Qed.
Lemma shorter32_ok e : -149 <= e <= 104 -> shorter32 e = true.
Proof.
  intros H.
  destruct (Z_lt_le_dec e (-85)); [apply (zrange_all _ _ _ shorter32_0); lia|].
  destruct (Z_lt_le_dec e (-21)); [apply (zrange_all _ _ _ shorter32_1); lia|].
  destruct (Z_lt_le_dec e (43)); [apply (zrange_all _ _ _ shorter32_2); lia|].
  apply (zrange_all _ _ _ shorter32_3); lia.
Qed.
Lemma normal64_0 : forallb normal64 (zrange (-1074) 93) = true.
Proof. vm_compute. reflexivity. Qed.
Lemma normal64_1 : forallb normal64 (zrange (-981) 93) = true.
Proof. vm_compute. reflexivity. Qed.
Lemma normal64_2 : forallb normal64 (zrange (-888) 93) = true.
Proof. vm_compute. reflexivity. Qed.
Lemma normal64_3 : forallb normal64 (zrange (-795) 93) = true.
Proof. vm_compute. reflexivity. Qed.
Lemma normal64_4 : forallb normal64 (zrange (-702) 93) = true.
Proof. vm_compute. reflexivity. Qed.
Lemma normal64_5 : forallb normal64 (zrange (-609) 93) = true.
Proof. vm_compute. reflexivity. Qed.
Lemma normal64_6 : forallb normal64 (zrange (-516) 93) = true.
Proof. vm_compute. reflexivity. Qed.
Lemma normal64_7 : forallb normal64 (zrange (-423) 93) = true.
Proof. vm_compute. reflexivity. Qed.
Lemma normal64_8 : forallb normal64 (zrange (-330) 93) = true.
Proof. vm_compute. reflexivity. Qed.
Lemma normal64_9 : forallb normal64 (zrange (-237) 93) = true.
Proof. vm_compute. reflexivity. Qed.
Lemma normal64_10 : forallb normal64 (zrange (-144) 93) = true.
Proof. vm_compute. reflexivity. Qed.
Lemma normal64_11 : forallb normal64 (zrange (-51) 93) = true.
Proof. vm_compute. reflexivity. Qed.
Lemma normal64_12 : forallb normal64 (zrange (42) 93) = true.
Proof. vm_compute. reflexivity. Qed.
Lemma normal64_13 : forallb normal64 (zrange (135) 93) = true.
Proof. vm_compute. reflexivity. Qed.
Lemma normal64_14 : forallb normal64 (zrange (228) 93) = true.
Proof. vm_compute. reflexivity. Qed.
Lemma normal64_15 : forallb normal64 (zrange (321) 93) = true.
Proof. vm_compute. reflexivity. Qed.
Lemma normal64_16 : forallb normal64 (zrange (414) 93) = true.
Proof. vm_compute. reflexivity. Qed.
Lemma normal64_17 : forallb normal64 (zrange (507) 93) = true.
Proof. vm_compute. reflexivity. Qed.
Lemma normal64_18 : forallb normal64 (zrange (600) 93) = true.
Proof. vm_compute. reflexivity. Qed.
Lemma normal64_19 : forallb normal64 (zrange (693) 93) = true.
Proof. vm_compute. reflexivity. Qed.
Lemma normal64_20 : forallb normal64 (zrange (786) 93) = true.
Proof. vm_compute. reflexivity. Qed.
Lemma normal64_21 : forallb normal64 (zrange (879) 93) = true.
Proof. vm_compute. reflexivity. Qed.
Lemma normal64_ok e : -1074 <= e <= 971 -> normal64 e = true.
Proof.
  intros H.
  destruct (Z_lt_le_dec e (-981)); [apply (zrange_all _ _ _ normal64_0); lia|].
  destruct (Z_lt_le_dec e (-888)); [apply (zrange_all _ _ _ normal64_1); lia|].
  destruct (Z_lt_le_dec e (-795)); [apply (zrange_all _ _ _ normal64_2); lia|].
  destruct (Z_lt_le_dec e (-702)); [apply (zrange_all _ _ _ normal64_3); lia|].
  destruct (Z_lt_le_dec e (-609)); [apply (zrange_all _ _ _ normal64_4); lia|].
  destruct (Z_lt_le_dec e (-516)); [apply (zrange_all _ _ _ normal64_5); lia|].
  destruct (Z_lt_le_dec e (-423)); [apply (zrange_all _ _ _ normal64_6); lia|].
  destruct (Z_lt_le_dec e (-330)); [apply (zrange_all _ _ _ normal64_7); lia|].
  destruct (Z_lt_le_dec e (-237)); [apply (zrange_all _ _ _ normal64_8); lia|].
  destruct (Z_lt_le_dec e (-144)); [apply (zrange_all _ _ _ normal64_9); lia|].
  destruct (Z_lt_le_dec e (-51)); [apply (zrange_all _ _ _ normal64_10); lia|].
  destruct (Z_lt_le_dec e (42)); [apply (zrange_all _ _ _ normal64_11); lia|].
  destruct (Z_lt_le_dec e (135)); [apply (zrange_all _ _ _ normal64_12); lia|].
  destruct (Z_lt_le_dec e (228)); [apply (zrange_all _ _ _ normal64_13); lia|].
  destruct (Z_lt_le_dec e (321)); [apply (zrange_all _ _ _ normal64_14); lia|].
  destruct (Z_lt_le_dec e (414)); [apply (zrange_all _ _ _ normal64_15); lia|].
  destruct (Z_lt_le_dec e (507)); [apply (zrange_all _ _ _ normal64_16); lia|].
  destruct (Z_lt_le_dec e (600)); [apply (zrange_all _ _ _ normal64_17); lia|].
  destruct (Z_lt_le_dec e (693)); [apply (zrange_all _ _ _ normal64_18); lia|].
  destruct (Z_lt_le_dec e (786)); [apply (zrange_all _ _ _ normal64_19); lia|].
  destruct (Z_lt_le_dec e (879)); [apply (zrange_all _ _ _ normal64_20); lia|].
  apply (zrange_all _ _ _ normal64_21); lia.
Qed.
Lemma shorter64_0 : forallb shorter64 (zrange (-1074) 93) = true.
Proof. vm_compute. reflexivity. Qed.
Lemma shorter64_1 : forallb shorter64 (zrange (-981) 93) = true.
Proof. vm_compute. reflexivity. Qed.
Lemma shorter64_2 : forallb shorter64 (zrange (-888) 93) = true.
Proof. vm_compute. reflexivity. Qed.
Lemma shorter64_3 : forallb shorter64 (zrange (-795) 93) = true.
Proof. vm_compute. reflexivity. Qed.
Lemma shorter64_4 : forallb shorter64 (zrange (-702) 93) = true.
Proof. vm_compute. reflexivity. Qed.
Lemma shorter64_5 : forallb shorter64 (zrange (-609) 93) = true.
Proof. vm_compute. reflexivity. Qed.
Lemma shorter64_6 : forallb shorter64 (zrange (-516) 93) = true.
Proof. vm_compute. reflexivity. Qed.
Lemma shorter64_7 : forallb shorter64 (zrange (-423) 93) = true.
Proof. vm_compute. reflexivity. Qed.
Lemma shorter64_8 : forallb shorter64 (zrange (-330) 93) = true.
Proof. vm_compute. reflexivity. Qed.
Lemma shorter64_9 : forallb shorter64 (zrange (-237) 93) = true.
Proof. vm_compute. reflexivity. Qed.
Lemma shorter64_10 : forallb shorter64 (zrange (-144) 93) = true.
Proof. vm_compute. reflexivity. Qed.
Lemma shorter64_11 : forallb shorter64 (zrange (-51) 93) = true.
Proof. vm_compute. reflexivity. Qed.
Lemma shorter64_12 : forallb shorter64 (zrange (42) 93) = true.
Proof. vm_compute. reflexivity. Qed.
Lemma shorter64_13 : forallb shorter64 (zrange (135) 93) = true.
Proof. vm_compute. reflexivity. Qed.
Lemma shorter64_14 : forallb shorter64 (zrange (228) 93) = true.
Proof. vm_compute. reflexivity. Qed.
Lemma shorter64_15 : forallb shorter64 (zrange (321) 93) = true.
Proof. vm_compute. reflexivity. Qed.
Lemma shorter64_16 : forallb shorter64 (zrange (414) 93) = true.
Proof. vm_compute. reflexivity. Qed.
Lemma shorter64_17 : forallb shorter64 (zrange (507) 93) = true.
Proof. vm_compute. reflexivity. Qed.
Lemma shorter64_18 : forallb shorter64 (zrange (600) 93) = true.
Proof. vm_compute. reflexivity. Qed.
Lemma shorter64_19 : forallb shorter64 (zrange (693) 93) = true.
Proof. vm_compute. reflexivity. Qed.
Lemma shorter64_20 : forallb shorter64 (zrange (786) 93) = true.
Proof. vm_compute. reflexivity. Qed.
Lemma shorter64_21 : forallb shorter64 (zrange (879) 93) = true.
Proof. vm_compute. reflexivity. Qed.
Lemma shorter64_ok e : -1074 <= e <= 971 -> shorter64 e = true.
Proof.
  intros H.
  destruct (Z_lt_le_dec e (-981)); [apply (zrange_all _ _ _ shorter64_0); lia|].
  destruct (Z_lt_le_dec e (-888)); [apply (zrange_all _ _ _ shorter64_1); lia|].
  destruct (Z_lt_le_dec e (-795)); [apply (zrange_all _ _ _ shorter64_2); lia|].
  destruct (Z_lt_le_dec e (-702)); [apply (zrange_all _ _ _ shorter64_3); lia|].
  destruct (Z_lt_le_dec e (-609)); [apply (zrange_all _ _ _ shorter64_4); lia|].
  destruct (Z_lt_le_dec e (-516)); [apply (zrange_all _ _ _ shorter64_5); lia|].
  destruct (Z_lt_le_dec e (-423)); [apply (zrange_all _ _ _ shorter64_6); lia|].
  destruct (Z_lt_le_dec e (-330)); [apply (zrange_all _ _ _ shorter64_7); lia|].
  destruct (Z_lt_le_dec e (-237)); [apply (zrange_all _ _ _ shorter64_8); lia|].
  destruct (Z_lt_le_dec e (-144)); [apply (zrange_all _ _ _ shorter64_9); lia|].
  destruct (Z_lt_le_dec e (-51)); [apply (zrange_all _ _ _ shorter64_10); lia|].
  destruct (Z_lt_le_dec e (42)); [apply (zrange_all _ _ _ shorter64_11); lia|].
  destruct (Z_lt_le_dec e (135)); [apply (zrange_all _ _ _ shorter64_12); lia|].
  destruct (Z_lt_le_dec e (228)); [apply (zrange_all _ _ _ shorter64_13); lia|].
  destruct (Z_lt_le_dec e (321)); [apply (zrange_all _ _ _ shorter64_14); lia|].
  destruct (Z_lt_le_dec e (414)); [apply (zrange_all _ _ _ shorter64_15); lia|].
  destruct (Z_lt_le_dec e (507)); [apply (zrange_all _ _ _ shorter64_16); lia|].
  destruct (Z_lt_le_dec e (600)); [apply (zrange_all _ _ _ shorter64_17); lia|].
  destruct (Z_lt_le_dec e (693)); [apply (zrange_all _ _ _ shorter64_18); lia|].
  destruct (Z_lt_le_dec e (786)); [apply (zrange_all _ _ _ shorter64_19); lia|].
  destruct (Z_lt_le_dec e (879)); [apply (zrange_all _ _ _ shorter64_20); lia|].
  apply (zrange_all _ _ _ shorter64_21); lia.
Qed.

(* the tables *)
Lemma pos32 : check_pos 64 27 0 1 (skipn 31 cache32) = true. Proof. vm_compute. reflexivity. Qed.
Lemma neg32 : check_neg 64 1 5 (rev (firstn 31 cache32)) = true. Proof. vm_compute. reflexivity. Qed.
Lemma pos64 : check_pos 128 55 0 1 (skipn 292 cache64) = true. Proof. vm_compute. reflexivity. Qed.
Lemma neg64 : check_neg 128 1 5 (rev (firstn 292 cache64)) = true. Proof. vm_compute. reflexivity. Qed.

Lemma check_pos_nth Q ex l : forall k i c, 0 <= k -> check_pos Q ex k (5 ^ k) l = true -> nth_error l i = Some c ->
  entry_pos Q ex (k + Z.of_nat i) (5 ^ (k + Z.of_nat i)) c = true.
Proof.
  induction l as [|a l IH]; intros k i c Hk H Hi; [destruct i; discriminate|]. cbn [check_pos] in H.
  apply andb_true_iff in H as (H1 & H2). destruct i as [|i].
  - cbn [nth_error] in Hi. injection Hi as <-. change (Z.of_nat 0) with 0. rewrite Z.add_0_r. exact H1.
  - cbn [nth_error] in Hi. rewrite Nat2Z.inj_succ. replace (k + Z.succ (Z.of_nat i)) with (k + 1 + Z.of_nat i) by lia.
    apply IH; [lia| |exact Hi]. replace (5 ^ (k + 1)) with (5 * 5 ^ k) by (rewrite <- Z.pow_succ_r by lia; f_equal; lia). exact H2.
Qed.
Lemma check_neg_nth Q l : forall n i c, 0 <= n -> check_neg Q n (5 ^ n) l = true -> nth_error l i = Some c ->
  entry_neg Q (n + Z.of_nat i) (5 ^ (n + Z.of_nat i)) c = true.
Proof.
  induction l as [|a l IH]; intros n i c Hn H Hi; [destruct i; discriminate|]. cbn [check_neg] in H.
  apply andb_true_iff in H as (H1 & H2). destruct i as [|i].
  - cbn [nth_error] in Hi. injection Hi as <-. change (Z.of_nat 0) with 0. rewrite Z.add_0_r. exact H1.
  - cbn [nth_error] in Hi. rewrite Nat2Z.inj_succ. replace (n + Z.succ (Z.of_nat i)) with (n + 1 + Z.of_nat i) by lia.
    apply IH; [lia| |exact Hi]. replace (5 ^ (n + 1)) with (5 * 5 ^ n) by (rewrite <- Z.pow_succ_r by lia; f_equal; lia). exact H2.
Qed.

(* what an entry says *)
Definition entry_ok (Q ex k c : Z) : bool := if 0 <=? k then entry_pos Q ex k (5 ^ k) c else entry_neg Q (- k) (5 ^ (- k)) c.
Lemma nth_skipn {A} (l : list A) n i : nth_error (skipn n l) i = nth_error l (n + i).
Proof. revert l. induction n as [|n IH]; intros l; [reflexivity|]. destruct l; [destruct i; reflexivity|apply IH]. Qed.
Lemma nth_firstn {A} (l : list A) n i : (i < n)%nat -> nth_error (firstn n l) i = nth_error l i.
Proof. revert l i. induction n as [|n IH]; intros l i H; [lia|]. destruct l; [reflexivity|]. destruct i; [reflexivity|]. apply (IH l i). lia. Qed.
Lemma nth_rev {A} (l : list A) i c : nth_error l i = Some c -> nth_error (rev l) (length l - 1 - i) = Some c.
Proof.
  revert i. induction l as [|a l IH]; intros i H; [destruct i; discriminate|]. cbn [rev length]. destruct i as [|i].
  - injection H as <-. rewrite nth_error_app2; rewrite rev_length; [|lia]. replace (S (length l) - 1 - 0 - length l)%nat with 0%nat by lia. reflexivity.
  - cbn [nth_error] in H. assert (i < length l)%nat by (apply nth_error_Some; congruence). rewrite nth_error_app1 by (rewrite rev_length; lia).
    replace (S (length l) - 1 - S i)%nat with (length l - 1 - i)%nat by lia. apply IH. exact H.
Qed.
Lemma table_entry Q ex l m : 0 <= m -> (Z.to_nat m <= length l)%nat ->
  check_pos Q ex 0 1 (skipn (Z.to_nat m) l) = true -> check_neg Q 1 5 (rev (firstn (Z.to_nat m) l)) = true ->
  forall k c, - m <= k -> entry l (k + m) = Some c -> entry_ok Q ex k c = true.
Proof.
  intros Hm Hl HP HN k c Hk He. unfold entry in He. replace (0 <=? k + m) with true in He by lia.
  unfold entry_ok. destruct (Z.leb_spec 0 k) as [H|H].
  - pose proof (check_pos_nth Q ex (skipn (Z.to_nat m) l) 0 (Z.to_nat k) c ltac:(lia) HP) as E. rewrite Z2Nat.id in E by lia. apply E.
    rewrite nth_skipn. replace (Z.to_nat m + Z.to_nat k)%nat with (Z.to_nat (k + m)) by lia. exact He.
  - pose proof (check_neg_nth Q (rev (firstn (Z.to_nat m) l)) 1 (Z.to_nat (- k - 1)) c ltac:(lia) HN) as E.
    rewrite Z2Nat.id in E by lia. replace (1 + (- k - 1)) with (- k) in E by lia. apply E.
    rewrite <- (nth_firstn l (Z.to_nat m)) in He by lia. apply nth_rev in He. rewrite firstn_length_le in He by lia.
    replace (Z.to_nat m - 1 - Z.to_nat (k + m))%nat with (Z.to_nat (- k - 1)) in He by lia. exact He.
Qed.
Lemma table32 k c : -31 <= k -> entry cache32 (k + 31) = Some c -> entry_ok 64 27 k c = true.
Proof. apply (table_entry 64 27 cache32 31); [lia|apply Nat.leb_le; vm_compute; reflexivity|exact pos32|exact neg32]. Qed.
Lemma table64 k c : -292 <= k -> entry cache64 (k + 292) = Some c -> entry_ok 128 55 k c = true.
Proof. apply (table_entry 128 55 cache64 292); [lia|apply Nat.leb_le; vm_compute; reflexivity|exact pos64|exact neg64]. Qed.

(* ---- 2^a * 10^k = num / den ---- *)
Definition pw_num (a k : Z) : Z := 2 ^ Z.max 0 (a + k) * 5 ^ Z.max 0 k.
Definition pw_den (a k : Z) : Z := 2 ^ Z.max 0 (- (a + k)) * 5 ^ Z.max 0 (- k).
Lemma num_pos a k : 0 < pw_num a k.
Proof. unfold pw_num. apply Z.mul_pos_pos; apply Z.pow_pos_nonneg; lia. Qed.
Lemma den_pos a k : 0 < pw_den a k.
Proof. unfold pw_den. apply Z.mul_pos_pos; apply Z.pow_pos_nonneg; lia. Qed.

(* the entry c for k brackets the power *)
Lemma bracket Q ex a k c : 0 <= Q -> 0 <= ex -> 0 <= a + 1 + fl2 k -> entry_ok Q ex k c = true ->
  2 ^ (Q - 1) <= c < 2 ^ Q /\
  let b := a + 1 + fl2 k in let L := c * 2 ^ b * pw_den a k in let M := pw_num a k * 2 ^ Q in let H := 2 ^ b * pw_den a k in
  (k < 0 -> L - H < M <= L) /\ (0 <= k <= ex -> M = L) /\ (ex < k -> L <= M < L + H).
Proof.
  intros HQ Hex Hb HE. unfold entry_ok in HE. destruct (Z.leb_spec 0 k) as [Hk|Hk].
  - unfold entry_pos in HE. set (t := fl2 k - (Q - 1) - k) in HE. rewrite !andb_true_iff in HE. destruct HE as ((HN & HT) & HC).
    unfold normalised in HN. apply eqb_prop in HT. split; [lia|]. cbv zeta. split; [lia|].
    set (b := a + 1 + fl2 k) in *. assert (Et : t = b - Q - (a + k)) by (unfold t, b; ring).
    unfold pw_num, pw_den. replace (Z.max 0 k) with k by lia. replace (Z.max 0 (- k)) with 0 by lia. rewrite Z.pow_0_r, Z.mul_1_r.
    set (f := 5 ^ k) in *. set (h := Z.max 0 (- (a + k))). assert (Eg : Z.max 0 (a + k) = h + (a + k)) by (unfold h; lia). rewrite Eg.
    assert (Hh : 0 <= h /\ 0 <= h + (a + k)) by (unfold h; lia). clearbody t b h.
    assert (EM : 2 ^ (h + (a + k)) * f * 2 ^ Q = f * 2 ^ (h + (a + k) + Q)) by (rewrite (Z.pow_add_r 2 _ Q) by lia; ring).
    rewrite EM. destruct (Z.leb_spec t 0) as [Ht|Ht].
    + rewrite Z.shiftl_mul_pow2 in HC by lia. split; [intros _|lia]. assert (c = f * 2 ^ (- t)) as -> by lia.
      replace (f * 2 ^ (- t) * 2 ^ b * 2 ^ h) with (f * (2 ^ (- t) * 2 ^ b * 2 ^ h)) by ring. rewrite <- !Z.pow_add_r by lia.
      f_equal. f_equal. lia.
    + rewrite !Z.shiftl_mul_pow2 in HC by lia. split; [lia|]. intros _.
      assert (Eb : 2 ^ b * 2 ^ h = 2 ^ t * 2 ^ (h + (a + k) + Q)) by (rewrite <- !Z.pow_add_r by lia; f_equal; lia).
      replace (c * 2 ^ b * 2 ^ h) with (c * (2 ^ b * 2 ^ h)) by ring. rewrite Eb.
      pose proof (Z.pow_pos_nonneg 2 (h + (a + k) + Q) ltac:(lia) ltac:(lia)) as Pg. generalize dependent (2 ^ (h + (a + k) + Q)). intros g _ _ Pg.
      apply andb_true_iff in HC. nia.
  - unfold entry_neg in HE. set (s := Q - 1 - fl2 (- (- k)) - (- k)) in HE. rewrite !andb_true_iff in HE. destruct HE as (((HN & HS) & HC1) & HC2).
    unfold normalised in HN. split; [lia|]. cbv zeta. split; [|lia]. intros _.
    set (b := a + 1 + fl2 k) in *. assert (Et : s = Q + (a + k) - b) by (unfold s, b; rewrite Z.opp_involutive; ring).
    unfold pw_num, pw_den. replace (Z.max 0 k) with 0 by lia. replace (Z.max 0 (- k)) with (- k) by lia. rewrite Z.pow_0_r, Z.mul_1_r.
    set (f := 5 ^ (- k)) in *. set (h := Z.max 0 (- (a + k))). assert (Eg : Z.max 0 (a + k) = h + (a + k)) by (unfold h; lia). rewrite Eg.
    assert (Hh : 0 <= h /\ 0 <= h + (a + k)) by (unfold h; lia). clearbody s b h.
    rewrite !Z.shiftl_mul_pow2 in * by lia. rewrite !Z.mul_1_l in *.
    assert (EM : 2 ^ (h + (a + k)) * 2 ^ Q = 2 ^ s * 2 ^ (b + h)) by (rewrite <- !Z.pow_add_r by lia; f_equal; lia). rewrite EM.
    replace (c * 2 ^ b * (2 ^ h * f)) with (c * f * 2 ^ (b + h)) by (rewrite Z.pow_add_r by lia; ring).
    replace (2 ^ b * (2 ^ h * f)) with (f * 2 ^ (b + h)) by (rewrite Z.pow_add_r by lia; ring).
    pose proof (Z.pow_pos_nonneg 2 (b + h) ltac:(lia) ltac:(lia)) as Pg. generalize dependent (2 ^ (b + h)). intros g _ Pg. nia.
Qed.
