(* compute_nearest_shorter returns the best decimal: from the computed checks of DragonCheck. *)
From Verif Require Import Base DragonModel DragonArith DragonCheckDefs DragonCheck DragonBest DragonNormal.

Definition best_dec (D X Y Z : Z) (closed : bool) (s j : BinInt.Z) : Prop :=
  0 <= j /\ 0 < s /\ s mod 10 <> 0 /\ inI X Z closed (s * 10 ^ j * D) 1 /\ best D X Y Z closed s j.

Section Shorter.
Variables (I : impl) (Q ex e : Z).
Hypothesis (HQ : 0 <= Q) (Hex : 0 <= ex) (Hp : 0 <= im_p I) (HC : shorter_check I Q ex e = true).
Let k := - fl43 e.
Hypothesis HT : forall c, entry (im_cache I) (k - im_min_k I) = Some c -> entry_ok Q ex k c = true.
Let g := if e =? im_min_exponent I - im_p I then 2 else 1.
Let N := 2 ^ (im_p I + 2).
Let P := pw_num (e - 1) k.
Let D := 2 * pw_den (e - 1) k.

Theorem shorter_ok : exists s j, compute_nearest_shorter I e = Some (s, j - k) /\
  best_dec D ((N - g) * P) (N * P) ((N + 2) * P) true s j /\ 3 * P < 10 * D.
Proof using All.
  unfold shorter_check in HC. fold k in HC. set (b := e + fl2 k) in *. cbv zeta in HC.
  destruct (entry (im_cache I) (k - im_min_k I)) as [c|] eqn:Ec; [|discriminate]. specialize (HT c eq_refl).
  destruct (compute_nearest_shorter I e) as [[s E]|]; [|discriminate]. fold N g in HC. rewrite !andb_true_iff in HC.
  destruct HC as ((((((K1 & K2) & B0) & S0) & S10) & LEN) & CASE). clear HC. apply Z.leb_le in B0.
  pose proof (num_pos (e - 1) k) as HP. pose proof (den_pos (e - 1) k) as HD0. fold P in HP.
  set (D0 := pw_den (e - 1) k) in *.
  destruct (bracket Q ex (e - 1) k c HQ Hex) as (_ & Br); [replace (e - 1 + 1 + fl2 k) with b by (unfold b; ring); exact B0|exact HT|].
  cbv zeta in Br. replace (e - 1 + 1 + fl2 k) with b in Br by (unfold b; ring). fold P D0 in Br.
  rewrite !(Z.shiftl_mul_pow2 _ b) in * by exact B0. set (l := lo k c * 2 ^ b) in *. set (h := hi ex k c * 2 ^ b) in *.
  assert (LL : l * D0 <= P * 2 ^ Q).
  { unfold l, lo. destruct (Z.ltb_spec k 0).
    - destruct Br as (Br & _). specialize (Br ltac:(assumption)). clear - Br. lia.
    - destruct (Z_le_gt_dec k ex) as [L|L]; [destruct Br as (_ & Br & _)|destruct Br as (_ & _ & Br)]; specialize (Br ltac:(clear - L H; lia)); clear - Br; lia. }
  assert (HH : P * 2 ^ Q <= h * D0).
  { unfold h, hi. destruct (Z.leb_spec k ex).
    - destruct (Z_lt_le_dec k 0) as [L|L]; [destruct Br as (Br & _)|destruct Br as (_ & Br & _)]; specialize (Br ltac:(clear - L H; lia)); clear - Br; lia.
    - destruct Br as (_ & _ & Br). specialize (Br ltac:(assumption)). clear - Br. lia. }
  assert (TT : forall x, T Q x * D0 = x * D * 2 ^ Q).
  { intros x. unfold T, D. rewrite Z.shiftl_mul_pow2 by (clear - HQ; lia). rewrite Z.pow_add_r by (clear - HQ; lia). change (2 ^ 1) with 2. ring. }
  pose proof (pow2_pos Q HQ) as PQ. assert (HD : 0 < D) by (unfold D; clear - HD0; lia).
  assert (GN : 1 <= g <= 2) by (unfold g; clear; destruct (_ =? _); lia). assert (N4 : 4 <= N). { unfold N. assert (2 ^ 2 <= 2 ^ (im_p I + 2)) by (apply Z.pow_le_mono_r; clear - Hp; lia). clear - H. lia. }
  clearbody l h D0. clear Br HT.
  (* comparisons with multiples of P *)
  assert (up : forall m x, 0 <= m -> m * h <= T Q x -> m * P <= x * D).
  { intros m x Hm H. apply (Z.mul_le_mono_pos_r _ _ (2 ^ Q) PQ). rewrite <- TT, <- Z.mul_assoc.
    apply Z.le_trans with (m * (h * D0)); [apply Z.mul_le_mono_nonneg_l; assumption|]. rewrite Z.mul_assoc. apply Z.mul_le_mono_nonneg_r; [clear - HD0; lia|exact H]. }
  assert (ups : forall m x, 0 <= m -> m * h < T Q x -> m * P < x * D).
  { intros m x Hm H. apply (Z.mul_lt_mono_pos_r (2 ^ Q) _ _ PQ). rewrite <- TT, <- Z.mul_assoc.
    apply Z.le_lt_trans with (m * (h * D0)); [apply Z.mul_le_mono_nonneg_l; assumption|]. rewrite Z.mul_assoc. apply Z.mul_lt_mono_pos_r; assumption. }
  assert (dn : forall m x, 0 <= m -> T Q x <= m * l -> x * D <= m * P).
  { intros m x Hm H. apply (Z.mul_le_mono_pos_r _ _ (2 ^ Q) PQ). rewrite <- TT, <- (Z.mul_assoc m).
    apply Z.le_trans with (m * (l * D0)); [|apply Z.mul_le_mono_nonneg_l; assumption]. rewrite (Z.mul_assoc m). apply Z.mul_le_mono_nonneg_r; [clear - HD0; lia|exact H]. }
  assert (dns : forall m x, 0 <= m -> T Q x < m * l -> x * D < m * P).
  { intros m x Hm H. apply (Z.mul_lt_mono_pos_r (2 ^ Q) _ _ PQ). rewrite <- TT, <- (Z.mul_assoc m).
    apply Z.lt_le_trans with (m * (l * D0)); [|apply Z.mul_le_mono_nonneg_l; assumption]. rewrite (Z.mul_assoc m). apply Z.mul_lt_mono_pos_r; assumption. }
  assert (TD : forall x y, T Q x - T Q y = T Q (x - y)).
  { intros x y. unfold T. rewrite !Z.shiftl_mul_pow2 by (clear - HQ; lia). ring. }
  assert (Hlen : (N + 2) * P - (N - g) * P < 10 * 10 ^ 0 * D).
  { replace ((N + 2) * P - (N - g) * P) with ((g + 2) * P) by ring. change (10 * 10 ^ 0) with 10. apply ups; [clear - GN; lia|]. apply Z.ltb_lt. exact LEN. }
  apply Z.ltb_lt in S0. assert (S10' : s mod 10 <> 0) by (clear - S10; destruct (Z.eqb_spec (s mod 10) 0); [discriminate|assumption]).
  assert (H3P : 3 * P < 10 * D).
  { apply Z.le_lt_trans with ((N + 2) * P - (N - g) * P); [|exact Hlen]. replace ((N + 2) * P - (N - g) * P) with ((g + 2) * P) by ring.
    apply Z.mul_le_mono_nonneg_r; [clear - HP; lia|clear - GN; lia]. }
  exists s, (E + k). split; [f_equal; f_equal; ring|]. split; [|exact H3P]. unfold best_dec.
  destruct (Z.eqb_spec E (- k)) as [EE|EE].
  - replace (E + k) with 0 by (rewrite EE; ring). change (10 ^ 0) with 1. rewrite Z.mul_1_r.
    rewrite !andb_true_iff in CASE. destruct CASE as (((((T0 & C1) & C2) & C3) & C4) & C5).
    apply Z.ltb_lt in T0, C1, C2. apply Z.leb_le in C3, C4. apply dns in C1; [|clear - GN N4; lia]. apply ups in C2; [|clear - N4; lia].
    apply up in C3; [|clear - GN N4; lia]. apply dn in C4; [|clear - N4; lia].
    assert (XY : (N - g) * P <= N * P < (N + 2) * P) by (split; [apply Z.mul_le_mono_nonneg_r; [clear - HP; lia|clear - GN; lia]|apply Z.mul_lt_mono_pos_r; [exact HP|clear; lia]]).
    split; [clear; lia|]. split; [exact S0|]. split; [exact S10'|]. split; [unfold inI; rewrite !Z.mul_1_r; split; assumption|].
    set (t := s / 10) in *. assert (Est : 10 * t < s < 10 * t + 10) by (unfold t; clear - S10'; lia).
    apply (small_best D _ _ _ 0 true HD ltac:(clear; lia) Hlen t s).
    + clear - T0. lia.
    + unfold between. change (10 * 10 ^ 0) with 10. clear - C1 C2. lia.
    + exact Est.
    + change (10 ^ 0) with 1. assert (1 * D <= 10 * t * D) by (apply Z.mul_le_mono_nonneg_r; [clear - HD; lia|clear - T0; lia]). clear - H C1 XY. lia.
    + apply XY.
    + change (10 ^ 0) with 1. intros s''. rewrite !Z.mul_1_r. intros (I1 & I2). rewrite !Z.mul_1_r in *.
      rewrite !orb_true_iff, !andb_true_iff in C5. destruct C5 as [[(A1 & A2)|((A0 & A1) & A2)]|(A1 & A2)].
      * apply Z.ltb_lt in A1, A2.
        assert (K1' : (2 * s - 1) * D < (2 * N) * P) . { apply dns; [clear - N4; lia|]. rewrite <- (TD (2 * s)). replace (T Q (2 * s)) with (2 * T Q s) by (unfold T; rewrite !Z.shiftl_mul_pow2 by (clear - HQ; lia); ring). clear - A1. lia. }
        assert (K2' : (2 * N) * P < (2 * s + 1) * D) . { apply ups; [clear - N4; lia|]. replace (T Q (2 * s + 1)) with (2 * T Q s + T Q 1) by (unfold T; rewrite !Z.shiftl_mul_pow2 by (clear - HQ; lia); ring). clear - A2. lia. }
        destruct (Z.eq_dec s'' s) as [->|NE]; [split; [apply Z.le_refl|intros _; left; reflexivity]|].
        assert (Z.abs (s * D - N * P) < Z.abs (s'' * D - N * P)).
        { assert (s'' <= s - 1 \/ s + 1 <= s'') as [L|L] by (clear - NE; lia).
          - assert (s'' * D <= (s - 1) * D) by (apply Z.mul_le_mono_nonneg_r; [clear - HD; lia|exact L]). clear - H K1' K2' HD. lia.
          - assert ((s + 1) * D <= s'' * D) by (apply Z.mul_le_mono_nonneg_r; [clear - HD; lia|exact L]). clear - H K1' K2' HD. lia. }
        clear - H. split; [lia|]. intros; lia.
      * apply Z.leb_le in A1, A2.
        assert (K1' : (2 * s - 1) * D <= (2 * N) * P) . { apply dn; [clear - N4; lia|]. rewrite <- (TD (2 * s)). replace (T Q (2 * s)) with (2 * T Q s) by (unfold T; rewrite !Z.shiftl_mul_pow2 by (clear - HQ; lia); ring). clear - A1. lia. }
        assert (K2' : (2 * N) * P <= (2 * s + 1) * D) . { apply up; [clear - N4; lia|]. replace (T Q (2 * s + 1)) with (2 * T Q s + T Q 1) by (unfold T; rewrite !Z.shiftl_mul_pow2 by (clear - HQ; lia); ring). clear - A2. lia. }
        split; [|intros _; right; exact A0].
        destruct (Z.eq_dec s'' s) as [->|NE]; [apply Z.le_refl|].
        assert (s'' <= s - 1 \/ s + 1 <= s'') as [L|L] by (clear - NE; lia).
        -- assert (s'' * D <= (s - 1) * D) by (apply Z.mul_le_mono_nonneg_r; [clear - HD; lia|exact L]). clear - H K1' K2' HD. lia.
        -- assert ((s + 1) * D <= s'' * D) by (apply Z.mul_le_mono_nonneg_r; [clear - HD; lia|exact L]). clear - H K1' K2' HD. lia.
      * apply Z.ltb_lt in A1. apply Z.leb_le in A2. apply dns in A1; [|clear - GN N4; lia]. apply up in A2; [|clear - N4; lia].
        assert (s <= s''). { assert ((s - 1) * D < s'' * D) by (clear - A1 I1; lia). apply Z.mul_lt_mono_pos_r in H; [clear - H; lia|exact HD]. }
        assert (s * D <= s'' * D) by (apply Z.mul_le_mono_nonneg_r; [clear - HD; lia|exact H]).
        rewrite !Z.abs_eq by (clear - A2 H0; lia). split; [clear - H0; lia|]. intros E2. left.
        apply (Z.mul_reg_r _ _ D); [clear - HD; lia|]. clear - E2. lia.
    + apply XY.
  - rewrite !andb_true_iff in CASE. destruct CASE as ((J1 & J2) & ((C1 & C2) & C3)).
    apply Z.ltb_lt in J1, J2, C1. apply Z.leb_le in C2, C3. set (j := E + k) in *. set (S := s * 10 ^ (E + k - 1)) in *. fold j in S.
    assert (Hj : 1 <= j) by (unfold j; clear - J1; lia).
    apply up in C2; [|clear - GN N4; lia]. apply dn in C3; [|clear - N4; lia].
    assert (EJ : s * 10 ^ j * D = 10 * S * D). { unfold S. replace j with (Z.succ (j - 1)) at 1 by (clear; lia). rewrite Z.pow_succ_r by (clear - Hj; lia). ring. }
    split; [clear - Hj; lia|]. split; [exact S0|]. split; [exact S10'|]. split; [unfold inI; rewrite EJ, !Z.mul_1_r; split; assumption|].
    replace j with (0 + 1 + (j - 1)) by ring.
    apply (big_best D _ _ _ 0 true HD ltac:(clear; lia) Hlen S s (j - 1)).
    + unfold inI. change (10 * 10 ^ 0) with 10. rewrite !Z.mul_1_r. rewrite (Z.mul_comm S 10). split; assumption.
    + reflexivity.
    + clear - Hj. lia.
    + exact S0.
    + exact S10'.
    + intros E1. clear - E1 C1. lia.
Qed.
End Shorter.
