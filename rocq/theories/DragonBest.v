(* Which decimals of an interval are the shortest: the reasoning behind DragonModel, without
   machine integers.  The interval is [X/D, Z/D]; decimals are s * 10^j. *)
From Verif Require Import Base DigitsSpec.

Definition ndigits (s : Z) : Z := zlen (digits 10 s).

Lemma p10 k : 0 <= k -> 0 < 10 ^ k.
Proof. intros; apply Z.pow_pos_nonneg; lia. Qed.
Lemma ndigits_bounds s : 0 < s -> 1 <= ndigits s /\ 10 ^ (ndigits s - 1) <= s < 10 ^ ndigits s.
Proof.
  intros H. destruct (digits_bound 10 s ltac:(lia) ltac:(lia)) as (A & B & C). fold (ndigits s) in *.
  split; [exact C|]. split; [|exact A]. destruct (Z.eq_dec (ndigits s) 1) as [E|]; [rewrite E; cbn; lia|apply B; lia].
Qed.
Lemma ndigits_ge s n : 0 < s -> 10 ^ n <= s -> n < ndigits s.
Proof.
  intros H Hn. destruct (ndigits_bounds s H) as (A & B & C).
  destruct (Z_lt_le_dec n (ndigits s)); [assumption|].
  assert (10 ^ ndigits s <= 10 ^ n) by (apply Z.pow_le_mono_r; lia). lia.
Qed.
Lemma ndigits_le s n : 0 < s -> s < 10 ^ n -> ndigits s <= n.
Proof.
  intros H Hn. destruct (ndigits_bounds s H) as (A & B & C).
  destruct (Z_lt_le_dec n (ndigits s)); [|assumption].
  assert (10 ^ n <= 10 ^ (ndigits s - 1)) by (apply Z.pow_le_mono_r; lia). lia.
Qed.
Lemma ndigits_mono a b : 0 < a -> a <= b -> ndigits a <= ndigits b.
Proof. intros H1 H2. destruct (ndigits_bounds b ltac:(lia)) as (A & B & C). apply ndigits_le; lia. Qed.
Lemma ndigits_mul s i : 0 < s -> 0 <= i -> ndigits (s * 10 ^ i) = ndigits s + i.
Proof.
  intros H Hi. destruct (ndigits_bounds s H) as (A & B & C). pose proof (p10 i Hi).
  assert (10 ^ (ndigits s - 1 + i) = 10 ^ (ndigits s - 1) * 10 ^ i) by (apply Z.pow_add_r; lia).
  assert (10 ^ (ndigits s + i) = 10 ^ ndigits s * 10 ^ i) by (apply Z.pow_add_r; lia).
  assert (ndigits s - 1 + i < ndigits (s * 10 ^ i)) by (apply ndigits_ge; nia).
  assert (ndigits (s * 10 ^ i) <= ndigits s + i) by (apply ndigits_le; nia). lia.
Qed.
Lemma ndigits_ten a r : 0 < a -> 0 <= r < 10 -> ndigits (10 * a + r) = ndigits a + 1.
Proof.
  intros H Hr. destruct (ndigits_bounds a H) as (A & B & C).
  assert (10 ^ (ndigits a) = 10 * 10 ^ (ndigits a - 1)) by (rewrite <- Z.pow_succ_r by lia; f_equal; lia).
  assert (10 ^ (ndigits a + 1) = 10 * 10 ^ (ndigits a)) by (rewrite <- Z.pow_succ_r by lia; f_equal; lia).
  assert (ndigits a < ndigits (10 * a + r)) by (apply ndigits_ge; lia).
  assert (ndigits (10 * a + r) <= ndigits a + 1) by (apply ndigits_le; lia). lia.
Qed.
Lemma ndigits_one s : 0 < s < 10 -> ndigits s = 1.
Proof. intros H. destruct (ndigits_bounds s ltac:(lia)). assert (ndigits s <= 1) by (apply ndigits_le; lia). lia. Qed.
(* s, not a multiple of 10, at most as long as s' when s' * 10^a = s * 10^b *)
Lemma same_number s s' a b : 0 < s -> 0 < s' -> 0 <= a -> 0 <= b -> s mod 10 <> 0 -> s' * 10 ^ a = s * 10 ^ b ->
  exists i, 0 <= i /\ s' = s * 10 ^ i /\ b = a + i.
Proof.
  intros Hs Hs' Ha Hb Hm E. destruct (Z_le_gt_dec a b) as [L|G].
  - exists (b - a). split; [lia|]. split; [|lia]. pose proof (p10 a Ha).
    replace b with (a + (b - a)) in E by lia. rewrite Z.pow_add_r in E by lia.
    apply (Z.mul_reg_r _ _ (10 ^ a)); [lia|]. rewrite E. ring.
  - exfalso. apply Hm. replace a with (b + Z.succ (a - b - 1)) in E by lia. rewrite Z.pow_add_r, Z.pow_succ_r in E by lia. pose proof (p10 b Hb).
    assert (s = s' * 10 ^ (a - b - 1) * 10) as -> by (apply (Z.mul_reg_r _ _ (10 ^ b)); [lia|]; rewrite <- E; ring).
    apply Z.mod_mul. lia.
Qed.

Section Best.
Variables (D X Y Z kappa : Z) (closed : bool).
Hypothesis (HD : 0 < D) (Hk : 0 <= kappa).
Let u := 10 ^ kappa.
Hypothesis Hlen : Z - X < 10 * u * D.

(* W/(M*D) is in the interval *)
Definition inI (W M : BinInt.Z) : Prop :=
  if closed then X * M <= W /\ W <= Z * M else X * M < W /\ W < Z * M.
(* s * 10^j is in the interval; everything is multiplied by D * 10^J *)
Definition comp (s j J : BinInt.Z) : Prop := 0 < s /\ 0 <= J /\ 0 <= j + J /\ inI (s * 10 ^ (j + J) * D) (10 ^ J).

Lemma inI_weak W M : inI W M -> X * M <= W /\ W <= Z * M.
Proof. unfold inI. destruct closed; lia. Qed.
Let Hu : 0 < u. Proof. apply p10; exact Hk. Qed.

Lemma big_other S s' j J : 1 <= S -> inI (S * (10 * u) * D) 1 -> comp s' j J ->
  (kappa + 1 <= j /\ s' * 10 ^ (j - kappa - 1) = S) \/ (j <= kappa /\ 10 * (S - 1) < s').
Proof.
  intros HS HI (Hs & HJ & Hj & HC). apply inI_weak in HI, HC. pose proof (p10 J HJ) as PJ.
  destruct (Z_le_gt_dec (kappa + 1) j) as [L|G].
  - left. split; [exact L|]. set (a := s' * 10 ^ (j - kappa - 1)).
    assert (E : s' * 10 ^ (j + J) * D = (a * (10 * u) * D) * 10 ^ J).
    { replace (j + J) with ((j - kappa - 1) + (Z.succ kappa + J)) by lia. rewrite !Z.pow_add_r, Z.pow_succ_r by lia. unfold a, u. ring. }
    rewrite E in HC. clearbody a. clear E Hs L. set (V := 10 * u * D) in *. assert (0 < V) by (unfold V; nia).
    replace (S * (10 * u) * D) with (S * V) in HI by (unfold V; ring).
    replace (a * (10 * u) * D) with (a * V) in HC by (unfold V; ring). clearbody V.
    assert (X <= a * V <= Z) by nia. nia.
  - right. split; [lia|]. pose proof (p10 (kappa - j) ltac:(lia)) as Pm. pose proof (p10 (j + J) Hj) as Pj.
    assert (EU : u * 10 ^ J = 10 ^ (kappa - j) * 10 ^ (j + J)) by (unfold u; rewrite <- !Z.pow_add_r by lia; f_equal; lia).
    assert (H1 : (S * (10 * u) * D - 10 * u * D) * 10 ^ J < s' * 10 ^ (j + J) * D) by nia.
    assert (H2 : 10 * 10 ^ (kappa - j) * (S - 1) * 10 ^ (j + J) * D < s' * 10 ^ (j + J) * D).
    { replace (10 * 10 ^ (kappa - j) * (S - 1) * 10 ^ (j + J) * D) with ((S - 1) * 10 * D * (10 ^ (kappa - j) * 10 ^ (j + J))) by ring.
      rewrite <- EU. nia. }
    assert (10 * 10 ^ (kappa - j) * (S - 1) < s').
    { apply (Z.mul_lt_mono_pos_r (10 ^ (j + J) * D)); [nia|]. rewrite !Z.mul_assoc. exact H2. }
    nia.
Qed.

(* no multiple of 10^(kappa+1) is in the interval: it lies between two of them *)
Definition between (t : BinInt.Z) : Prop :=
  if closed then t * (10 * u) * D < X /\ Z < (t + 1) * (10 * u) * D else t * (10 * u) * D <= X /\ Z <= (t + 1) * (10 * u) * D.
Lemma between_strict t W M : 0 < M -> between t -> inI W M -> t * (10 * u) * D * M < W < (t + 1) * (10 * u) * D * M.
Proof. unfold between, inI. generalize (t * (10 * u) * D) ((t + 1) * (10 * u) * D). intros a b HM. destruct closed; intros H1 H2; nia. Qed.

Lemma small_other t s' j J : 0 <= t -> between t -> comp s' j J ->
  j <= kappa /\ (j = kappa -> 10 * t < s' < 10 * t + 10) /\ (j < kappa -> 100 * t < s').
Proof.
  intros Ht HB (Hs & HJ & Hj & HC). pose proof (p10 J HJ) as PJ.
  pose proof (between_strict t _ _ PJ HB HC) as (H1 & H2).
  destruct (Z_le_gt_dec (kappa + 1) j) as [L|G].
  - exfalso. set (a := s' * 10 ^ (j - kappa - 1)).
    assert (E : s' * 10 ^ (j + J) * D = (a * (10 * u) * D) * 10 ^ J).
    { replace (j + J) with ((j - kappa - 1) + (Z.succ kappa + J)) by lia. rewrite !Z.pow_add_r, Z.pow_succ_r by lia. unfold a, u. ring. }
    rewrite E in H1, H2. assert (0 < (10 * u) * D) by nia.
    apply Z.mul_lt_mono_pos_r in H1; [|lia]. apply Z.mul_lt_mono_pos_r in H2; [|lia].
    apply Z.mul_lt_mono_pos_r in H1; [|lia]. apply Z.mul_lt_mono_pos_r in H2; [|lia].
    apply Z.mul_lt_mono_pos_r in H1; [|lia]. apply Z.mul_lt_mono_pos_r in H2; [|lia]. lia.
  - split; [lia|]. pose proof (p10 (kappa - j) ltac:(lia)) as Pm. pose proof (p10 (j + J) Hj) as Pj.
    assert (EU : u * 10 ^ J = 10 ^ (kappa - j) * 10 ^ (j + J)) by (unfold u; rewrite <- !Z.pow_add_r by lia; f_equal; lia).
    assert (H3 : 10 * t * 10 ^ (kappa - j) < s').
    { apply (Z.mul_lt_mono_pos_r (10 ^ (j + J) * D)); [nia|].
      replace (10 * t * 10 ^ (kappa - j) * (10 ^ (j + J) * D)) with (t * 10 * D * (10 ^ (kappa - j) * 10 ^ (j + J))) by ring.
      rewrite <- EU. replace (t * 10 * D * (u * 10 ^ J)) with (t * (10 * u) * D * 10 ^ J) by ring. lia. }
    assert (H4 : s' < (10 * t + 10) * 10 ^ (kappa - j)).
    { apply (Z.mul_lt_mono_pos_r (10 ^ (j + J) * D)); [nia|].
      replace ((10 * t + 10) * 10 ^ (kappa - j) * (10 ^ (j + J) * D)) with ((t + 1) * 10 * D * (10 ^ (kappa - j) * 10 ^ (j + J))) by ring.
      rewrite <- EU. replace ((t + 1) * 10 * D * (u * 10 ^ J)) with ((t + 1) * (10 * u) * D * 10 ^ J) by ring. lia. }
    split; intros Hjk.
    + replace (kappa - j) with 0 in * by lia. change (10 ^ 0) with 1 in *. lia.
    + replace (kappa - j) with (Z.succ (kappa - j - 1)) in H3 by lia. rewrite Z.pow_succ_r in H3 by lia.
      pose proof (p10 (kappa - j - 1) ltac:(lia)). nia.
Qed.

(* distances to Y/D, multiplied by D * 10^J *)
Definition dist (s j J : BinInt.Z) : BinInt.Z := Z.abs (s * 10 ^ (j + J) * D - Y * 10 ^ J).
(* s * 10^j is the best of the decimals of the interval: none is shorter; of those as short none is
   nearer, and if one is as near then it is the same number, or s is even *)
Definition best (s j : BinInt.Z) : Prop :=
  forall s' j' J, comp s' j' J -> 0 <= j + J ->
    ndigits s <= ndigits s' /\
    (ndigits s = ndigits s' -> dist s j J <= dist s' j' J /\
      (dist s j J = dist s' j' J -> s * 10 ^ (j + J) = s' * 10 ^ (j' + J) \/ Z.even s = true)).

Lemma big_best S s i : inI (S * (10 * u) * D) 1 -> S = s * 10 ^ i -> 0 <= i -> 0 < s -> s mod 10 <> 0 ->
  (S = 1 -> forall s' j' J, comp s' j' J -> j' <= kappa -> s' < 10 -> dist 1 (kappa + 1) J < dist s' j' J) ->
  best s (kappa + 1 + i).
Proof.
  intros HI ES Hi Hs Hm H1 s' j' J HC HJ. pose proof HC as (Hs' & HJ0 & Hj & _).
  pose proof (p10 i Hi) as Pi. assert (HS : 1 <= S) by nia.
  destruct (big_other S s' j' J HS HI HC) as [(L & E)|(L & G)].
  - rewrite ES in E. destruct (same_number s s' (j' - kappa - 1) i Hs Hs' ltac:(lia) Hi Hm E) as (d & Hd & E1 & E2).
    rewrite E1, ndigits_mul by lia. split; [lia|]. intros E3. assert (d = 0) as -> by lia.
    change (10 ^ 0) with 1 in *. replace j' with (kappa + 1 + i) by lia. rewrite Z.mul_1_r.
    split; [lia|]. intros _. left. reflexivity.
  - destruct (Z.eq_dec S 1) as [E1|N1].
    + assert (s = 1 /\ i = 0) as (-> & ->).
      { assert (10 ^ i = 1) by nia. assert (i = 0). { destruct (Z.eq_dec i 0); [assumption|]. pose proof (Z.pow_gt_1 10 i ltac:(lia)). lia. } nia. }
      rewrite (ndigits_one 1) by lia. destruct (ndigits_bounds s' Hs') as (A & B & C). split; [lia|].
      intros E2. rewrite <- E2 in C. change (10 ^ 1) with 10 in C.
      rewrite Z.add_0_r. pose proof (H1 E1 s' j' J HC L ltac:(lia)). lia.
    + assert (G2 : ndigits (S - 1) + 1 <= ndigits s').
      { rewrite <- (ndigits_ten (S - 1) 1) by lia. apply ndigits_mono; lia. }
      assert (G3 : ndigits s <= ndigits (S - 1)).
      { destruct (Z.eq_dec i 0) as [->|Ni].
        - change (10 ^ 0) with 1 in ES. rewrite Z.mul_1_r in ES. subst s. destruct (ndigits_bounds (S - 1) ltac:(lia)) as (A & B & C).
          apply ndigits_le; [lia|]. destruct (Z.eq_dec S (10 ^ ndigits (S - 1))) as [E|]; [|lia]. exfalso. apply Hm. rewrite E.
          replace (ndigits (S - 1)) with (Z.succ (ndigits (S - 1) - 1)) by lia. rewrite Z.pow_succ_r, Z.mul_comm by lia. apply Z.mod_mul. lia.
        - assert (s <= S - 1). { assert (10 <= 10 ^ i). { replace i with (Z.succ (i - 1)) by lia. rewrite Z.pow_succ_r by lia. pose proof (p10 (i - 1) ltac:(lia)). lia. } nia. }
          apply ndigits_mono; lia. }
      split; lia.
Qed.

Lemma small_best t s : 0 <= t -> between t -> 10 * t < s < 10 * t + 10 -> u * D <= Y <= Z -> X <= Y ->
  (forall s'', inI (s'' * u * D) 1 -> Z.abs (s * u * D - Y) <= Z.abs (s'' * u * D - Y) /\
     (Z.abs (s * u * D - Y) = Z.abs (s'' * u * D - Y) -> s'' = s \/ Z.even s = true)) ->
  Y < Z -> best s kappa.
Proof.
  intros Ht HB Hs HY HXY Hn HYZ s' j' J HC HJ. pose proof HC as (Hs' & HJ0 & Hj & HI).
  destruct (small_other t s' j' J Ht HB HC) as (L & Eq & Lt). pose proof (p10 J HJ0) as PJ.
  assert (ED : forall a, dist a kappa J = Z.abs (a * u * D - Y) * 10 ^ J).
  { intros a. unfold dist. replace (a * 10 ^ (kappa + J) * D - Y * 10 ^ J) with ((a * u * D - Y) * 10 ^ J) by (rewrite Z.pow_add_r by lia; unfold u; ring).
    rewrite Z.abs_mul, (Z.abs_eq (10 ^ J)) by lia. reflexivity. }
  assert (HD' : ndigits s = if t =? 0 then 1 else ndigits t + 1).
  { destruct (Z.eqb_spec t 0); [apply ndigits_one; lia|]. replace s with (10 * t + (s - 10 * t)) by ring. apply ndigits_ten; lia. }
  destruct (Z.eq_dec j' kappa) as [->|Nj].
  - specialize (Eq eq_refl).
    assert (ndigits s' = ndigits s).
    { rewrite HD'. destruct (Z.eqb_spec t 0); [apply ndigits_one; lia|]. replace s' with (10 * t + (s' - 10 * t)) by ring. apply ndigits_ten; lia. }
    split; [lia|]. intros _. rewrite !ED.
    assert (HI' : inI (s' * u * D) 1).
    { unfold inI in HI |- *. rewrite Z.pow_add_r in HI by lia. replace (s' * (10 ^ kappa * 10 ^ J) * D) with (s' * u * D * 10 ^ J) in HI by (unfold u; ring).
      generalize dependent (s' * u * D). intros w HI. destruct closed; nia. }
    destruct (Hn s' HI') as (N1 & N2). split; [nia|]. intros E. destruct N2 as [->|N2]; [nia|left; reflexivity|right; exact N2].
  - specialize (Lt ltac:(lia)). destruct (Z.eqb_spec t 0) as [->|Nt].
    + rewrite HD'. destruct (ndigits_bounds s' Hs') as (A & B & C). split; [lia|]. intros E. rewrite <- E in C. change (10 ^ 1) with 10 in C.
      (* s' * 10^j' < 10^kappa <= Y: 10^kappa is nearer *)
      assert (W1 : s' * 10 ^ (j' + J) < u * 10 ^ J).
      { unfold u. rewrite <- Z.pow_add_r by lia. replace (kappa + J) with (Z.succ (kappa - 1 - j') + (j' + J)) by lia.
        rewrite (Z.pow_add_r 10 (Z.succ _)), Z.pow_succ_r by lia. pose proof (p10 (j' + J) Hj). pose proof (p10 (kappa - 1 - j') ltac:(lia)). nia. }
      assert (HI1 : inI (1 * u * D) 1).
      { apply inI_weak in HI. assert (X * 10 ^ J < u * D * 10 ^ J) by nia. assert (X < u * D) by nia. unfold inI. destruct closed; lia. }
      destruct (Hn 1 HI1) as (N1 & _). assert (dist s kappa J < dist s' j' J).
      { rewrite ED. unfold dist. rewrite (Z.abs_neq (s' * _ * D - _)) by nia. rewrite Z.mul_1_l in N1.
        rewrite (Z.abs_neq (u * D - Y)) in N1 by lia. assert (Z.abs (s * u * D - Y) * 10 ^ J <= (Y - u * D) * 10 ^ J) by nia. nia. }
      split; [lia|]. intros; lia.
    + assert (ndigits t + 2 <= ndigits s').
      { assert (E2 : ndigits (100 * t) = ndigits t + 2) by (replace (100 * t) with (t * 10 ^ 2) by ring; apply ndigits_mul; lia). rewrite <- E2. apply ndigits_mono; lia. }
      split; lia.
Qed.
End Best.
