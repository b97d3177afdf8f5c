(* Rounding to a float is being between the half-way points to its two neighbours. *)
From Coq Require Import Lqa Qpower.
From Verif Require Import Base ShortestSpec DragonBridge.
Local Open Scope Z_scope.

Lemma near_above a b v : (a < b)%Q -> ((Qabs (v - a) <= Qabs (v - b))%Q <-> (v + v <= a + b)%Q) /\ ((Qabs (v - a) == Qabs (v - b))%Q <-> (v + v == a + b)%Q).
Proof. intros H. apply Qabs_case; intros H1; apply Qabs_case; intros H2; split; split; intros; lra. Qed.
Lemma near_below a b v : (a < b)%Q -> ((Qabs (v - b) <= Qabs (v - a))%Q <-> (a + b <= v + v)%Q) /\ ((Qabs (v - b) == Qabs (v - a))%Q <-> (v + v == a + b)%Q).
Proof. intros H. apply Qabs_case; intros H1; apply Qabs_case; intros H2; split; split; intros; lra. Qed.

Lemma pow_quarter e : (Qpower (inject_Z 2) e == (4 # 1) * Qpower (inject_Z 2) (e - 2))%Q.
Proof. replace e with (e - 2 + 2) at 1 by lia. rewrite qpow_add by lia. change (Qpower (inject_Z 2) 2) with (4 # 1)%Q. ring. Qed.
Lemma pow_half e : (Qpower (inject_Z 2) (e - 1) == (2 # 1) * Qpower (inject_Z 2) (e - 2))%Q.
Proof. replace (e - 1) with (e - 2 + 1) by lia. rewrite qpow_add by lia. change (Qpower (inject_Z 2) 1) with (2 # 1)%Q. ring. Qed.

Section Floats.
Variable F : format.
Hypothesis HF : 1 <= prec F /\ 2 <= width F.
Let p := prec F.
Let B := 2 ^ p.
Definition exponent_at (n : Z) : Z := float_exponent F (n / 2 ^ prec F).

Lemma next_float n : 0 <= n -> (float_at F (n + 1) == float_at F n + Qpower (inject_Z 2) (exponent_at n))%Q.
Proof using All.
  intros Hn. assert (HB : 0 < B) by (apply Z.pow_pos_nonneg; unfold p; lia). unfold float_at, binary_value, exponent_at. fold p B.
  pose proof (Z.div_mod n B ltac:(lia)) as E. pose proof (Z.mod_pos_bound n B HB) as M. pose proof (Z.div_pos n B Hn HB) as Q0.
  set (q := n / B) in *. set (r := n mod B) in *. destruct (Z.eq_dec r (B - 1)) as [R|R].
  - assert (E1 : (n + 1) / B = q + 1 /\ (n + 1) mod B = 0).
    { replace (n + 1) with ((q + 1) * B) by lia. rewrite Z.div_mul, Z.mod_mul by lia. split; reflexivity. }
    destruct E1 as (-> & ->). unfold float_significand, float_exponent. fold p B. replace (q + 1 =? 0) with false by lia. rewrite R.
    destruct (Z.eqb_spec q 0) as [Q1|Q1].
    + rewrite Q1. change (Z.max 1 (0 + 1)) with 1. change (Z.max 1 0) with 1. set (x := Qpower _ _).
      rewrite Z.add_0_r, Z.add_0_l. unfold Z.sub. rewrite inject_Z_plus. change (inject_Z (-(1))) with (- (1))%Q. ring.
    + replace (Z.max 1 (q + 1)) with (q + 1) by lia. replace (Z.max 1 q) with q by lia.
      replace (q + 1 - (2 ^ (width F - 1) - 1) - p) with ((q - (2 ^ (width F - 1) - 1) - p) + 1) by lia. rewrite qpow_add by lia. set (x := Qpower _ (_ - _ - _)).
      change (Qpower (inject_Z 2) 1) with 2%Q. rewrite Z.add_0_r. unfold Z.sub. rewrite !inject_Z_plus. change (inject_Z (-(1))) with (- (1))%Q. ring.
  - assert (E1 : (n + 1) / B = q /\ (n + 1) mod B = r + 1).
    { replace (n + 1) with ((r + 1) + q * B) by lia. rewrite Z.div_add, Z.mod_add, Z.div_small, Z.mod_small by lia. split; reflexivity. }
    destruct E1 as (-> & ->). unfold float_significand. fold p B. set (x := Qpower _ _). rewrite !inject_Z_plus. change (inject_Z 1) with 1%Q. ring.
Qed.
Lemma float_lt n d : 0 <= n -> (float_at F n < float_at F (n + 1 + Z.of_nat d))%Q.
Proof using All.
  intros Hn. induction d as [|d IH].
  - rewrite Z.add_0_r, next_float by exact Hn. pose proof (qpow_pos 2 (exponent_at n) ltac:(lia)). lra.
  - replace (n + 1 + Z.of_nat (S d)) with (n + 1 + Z.of_nat d + 1) by lia. rewrite next_float by lia.
    pose proof (qpow_pos 2 (exponent_at (n + 1 + Z.of_nat d)) ltac:(lia)). lra.
Qed.
Lemma float_mono n n' : 0 <= n < n' -> (float_at F n < float_at F n')%Q.
Proof using All. intros H. replace n' with (n + 1 + Z.of_nat (Z.to_nat (n' - n - 1))) by lia. apply float_lt. lia. Qed.
Lemma float_mono_le n n' : 0 <= n <= n' -> (float_at F n <= float_at F n')%Q.
Proof using All. intros H. destruct (Z.eq_dec n n') as [->|N]; [apply Qle_refl|apply Qlt_le_weak, float_mono; lia]. Qed.

Definition half (a b : Q) : Q := ((a + b) * (1 # 2))%Q.
Lemma rounds_within v n : 1 <= n < infinity_bits F ->
  rounds_to F v n <-> within (Z.even n) (half (float_at F (n - 1)) (float_at F n)) v (half (float_at F n) (float_at F (n + 1))).
Proof using All.
  intros Hn. pose proof (float_mono (n - 1) n ltac:(lia)) as L1. pose proof (float_mono n (n + 1) ltac:(lia)) as L2. unfold rounds_to, within, half.
  destruct (near_below _ _ v L1) as (A1 & A2). destruct (near_above _ _ v L2) as (B1 & B2). split.
  - intros (_ & H). destruct (H (n - 1) ltac:(lia)) as (H1 & H2). destruct (H (n + 1) ltac:(lia)) as (H3 & H4).
    apply A1 in H1. apply B1 in H3. destruct (Z.even n).
    + split; lra.
    + assert (N1 : ~ (v + v == float_at F (n - 1) + float_at F n)%Q) by (intros E; apply A2, H2 in E; destruct E as [E|E]; [lia|discriminate]).
      assert (N2 : ~ (v + v == float_at F n + float_at F (n + 1))%Q) by (intros E; apply B2, H4 in E; destruct E as [E|E]; [lia|discriminate]). split; lra.
  - intros W. split; [lia|]. intros n' Hn'. destruct (Z.eq_dec n' n) as [->|NE]; [split; [apply Qle_refl|auto]|].
    destruct (Z_lt_le_dec n' n) as [Lt|Ge].
    + pose proof (float_mono n' n ltac:(lia)) as L3. pose proof (float_mono_le n' (n - 1) ltac:(lia)) as L4. destruct (near_below _ _ v L3) as (C1 & C2).
      rewrite C1, C2. destruct (Z.even n); [split; [lra|auto]|]. split; [lra|]. intros E. exfalso. lra.
    + pose proof (float_mono n n' ltac:(lia)) as L3. pose proof (float_mono_le (n + 1) n' ltac:(lia)) as L4. destruct (near_above _ _ v L3) as (C1 & C2).
      rewrite C1, C2. destruct (Z.even n); [split; [lra|auto]|]. split; [lra|]. intros E. exfalso. lra.
Qed.

(* the two half-way points, in quarters of the last place *)
Variables (be mb : Z).
Hypothesis (Hbe : 0 <= be < 2 ^ width F - 1) (Hmb : 0 <= mb < 2 ^ prec F) (Hnz : be <> 0 \/ mb <> 0).
Let n := be * 2 ^ prec F + mb.
Let m := float_significand F be mb.
Let e := float_exponent F be.
Lemma fields : n / 2 ^ prec F = be /\ n mod 2 ^ prec F = mb /\ 1 <= n < infinity_bits F /\ Z.even n = Z.even mb.
Proof using All.
  assert (HB : 0 < B) by (apply Z.pow_pos_nonneg; unfold p; lia). fold p B in Hmb. unfold n, infinity_bits. fold p B.
  split; [rewrite Z.add_comm, Z.div_add, Z.div_small by lia; reflexivity|].
  split; [rewrite Z.add_comm, Z.mod_add, Z.mod_small by lia; reflexivity|].
  split; [nia|]. replace B with (2 * 2 ^ (p - 1)). 2:{ unfold B. rewrite <- Z.pow_succ_r by (unfold p; lia). f_equal. lia. }
  replace (be * (2 * 2 ^ (p - 1)) + mb) with (mb + 2 * (be * 2 ^ (p - 1))) by ring. apply Z.even_add_mul_2.
Qed.
Lemma value_at : (float_at F n == inject_Z (4 * m) * Qpower (inject_Z 2) (e - 2))%Q.
Proof using All.
  destruct fields as (E1 & E2 & _). unfold float_at. rewrite E1, E2. unfold binary_value. fold m e. replace e with (e - 2 + 2) at 1 by lia.
  rewrite qpow_add, inject_Z_mult by lia. change (Qpower (inject_Z 2) 2) with (4 # 1)%Q. change (inject_Z 4) with (4 # 1)%Q. ring.
Qed.
Lemma upper_half : (half (float_at F n) (float_at F (n + 1)) == inject_Z (4 * m + 2) * Qpower (inject_Z 2) (e - 2))%Q.
Proof using All.
  destruct fields as (E1 & E2 & E3 & _). unfold half. rewrite next_float by lia. unfold exponent_at. rewrite E1. fold e. rewrite value_at.
  rewrite (pow_quarter e). rewrite inject_Z_plus. set (x := Qpower _ _). change (inject_Z 2) with (2 # 1)%Q. field.
Qed.
Lemma lower_half : (half (float_at F (n - 1)) (float_at F n) == inject_Z (4 * m - (if (mb =? 0) && (2 <=? be) then 1 else 2)) * Qpower (inject_Z 2) (e - 2))%Q.
Proof using All.
  destruct fields as (E1 & E2 & E3 & _). assert (HB : 0 < B) by (apply Z.pow_pos_nonneg; unfold p; lia). fold p B in Hmb, E1, E2.
  pose proof (next_float (n - 1) ltac:(lia)) as Q1. replace (n - 1 + 1) with n in Q1 by lia. pose proof value_at as V.
  assert (Ee : exponent_at (n - 1) = if (mb =? 0) && (2 <=? be) then e - 1 else e).
  { unfold exponent_at. fold p B. destruct (Z.eqb_spec mb 0) as [M|M]; cbn [andb].
    - assert ((n - 1) / B = be - 1) as ->.
      { replace (n - 1) with ((B - 1) + (be - 1) * B) by (unfold n; fold p B; lia). rewrite Z.div_add, Z.div_small by lia. lia. }
      unfold e, float_exponent. destruct (Z.leb_spec 2 be); lia.
    - assert ((n - 1) / B = be) as -> by (replace (n - 1) with ((mb - 1) + be * B) by (unfold n; fold p B; lia); rewrite Z.div_add, Z.div_small by lia; lia). reflexivity. }
  rewrite Ee in Q1. unfold half.
  assert (Q2 : (float_at F (n - 1) == float_at F n - Qpower (inject_Z 2) (if (mb =? 0) && (2 <=? be) then e - 1 else e))%Q) by (rewrite Q1; ring).
  rewrite Q2, V. clear Q1 Q2 V Ee. assert (EI : forall a b, (inject_Z (a - b) == inject_Z a - inject_Z b)%Q) by (intros; unfold Z.sub; rewrite inject_Z_plus, inject_Z_opp; reflexivity).
  rewrite EI. destruct ((mb =? 0) && (2 <=? be)).
  - rewrite pow_half. set (x := Qpower _ _). change (inject_Z 1) with 1%Q. field.
  - rewrite (pow_quarter e). set (x := Qpower _ _). change (inject_Z 2) with (2 # 1)%Q. field.
Qed.
End Floats.
