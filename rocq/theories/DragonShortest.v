(* to_decimal returns the shortest decimal: assembly, for both formats. *)
From Coq Require Import Lqa Qpower.
From Verif Require Import Base ShortestSpec DragonModel DragonArith DragonCheckDefs DragonCheck DragonBest DragonAlg DragonNormal DragonShorter DragonBridge DragonFloats.
Local Open Scope Z_scope.

Lemma inject_mult_pow (a P D e k : Z) : (inject_Z P == Qpower (inject_Z 2) e * Qpower (inject_Z 10) k * inject_Z D)%Q ->
  (inject_Z (a * P) == inject_Z a * Qpower (inject_Z 2) e * Qpower (inject_Z 10) k * inject_Z D)%Q.
Proof. intros E. rewrite inject_Z_mult, E. ring. Qed.

Lemma inj2 a : (inject_Z (a * 2) == inject_Z a * (2 # 1))%Q.
Proof. rewrite inject_Z_mult. reflexivity. Qed.

(* the digits and the exponent are bounded *)
Lemma bounded D s j k M : 0 < D -> 0 < s -> 0 <= j -> s * 10 ^ j * D < M * D -> M <= 10 ^ 19 -> -800 <= k <= 800 -> s < 10 ^ 19 /\ -900 <= j - k <= 900.
Proof.
  intros HD Hs Hj H HM Hk. apply Z.mul_lt_mono_pos_r in H; [|exact HD]. pose proof (p10 j Hj) as P.
  assert (10 ^ j < 10 ^ 19) by (clear - H HM P Hs; nia). assert (s < 10 ^ 19) by (clear - H HM P Hs; nia).
  assert (j < 19) by (apply (Z.pow_lt_mono_r_iff 10); [reflexivity|discriminate|assumption]). split; [assumption|]. clear - Hk Hj H2. lia.
Qed.

Section Assembly.
Variables (I : impl) (F : format) (Q ex : Z) (cert : list (Z * Z)).
Hypothesis OK : fmt_ok I Q.
Hypothesis (Rp : im_p I = prec F) (Rb : im_bias I = - (2 ^ (width F - 1) - 1)) (Rm : im_min_exponent I = 1 + im_bias I).
Hypothesis (Hw : 2 <= width F) (Hp5 : 5 <= prec F) (Hex : 0 <= ex).
Let emin := im_min_exponent I - im_p I.
Let emax := 2 ^ width F - 2 + im_bias I - im_p I.
Hypothesis (NC : forall e, emin <= e <= emax -> normal_check I Q ex cert e = true)
  (SC : forall e, emin <= e <= emax -> shorter_check I Q ex e = true)
  (TB : forall k c, im_min_k I <= k -> entry (im_cache I) (k - im_min_k I) = Some c -> entry_ok Q ex k c = true)
  (HR : -1700 <= emin /\ emax <= 1700 /\ -800 <= im_min_k I /\ im_max_k I <= 800).
(* the smallest exponent: 10^(kappa+1) is nearer than a shorter multiple of a smaller power *)
Hypothesis SP : let k := im_kappa I - fl10 emin in let P := pw_num (emin - 1) k in let D := pw_den (emin - 1) k in
  forall m, 0 < m -> (2 * m - 1) * P <= 10 ^ (im_kappa I + 1) * D -> 10 ^ (im_kappa I + 1) * D <= (2 * m + 1) * P ->
    19 * 10 ^ im_kappa I * D < 2 * (2 * m * P).
Variables (be mb : Z).
Hypothesis (Hbe : 0 <= be < 2 ^ width F - 1) (Hmb : 0 <= mb < 2 ^ prec F) (Hnz : be <> 0 \/ mb <> 0).
Let n := be * 2 ^ prec F + mb.
Let m := float_significand F be mb.
Let e := float_exponent F be.

Lemma e_range : emin <= e <= emax /\ (be <> 0 -> e = be + (im_bias I - im_p I)) /\ (be <= 1 -> e = emin) /\ (2 <= be -> e <> emin).
Proof using Rp Rb Rm Hbe Hw.
  assert (W4 : 2 ^ 2 <= 2 ^ width F) by (apply Z.pow_le_mono_r; clear - Hw; lia).
  unfold e, float_exponent, emin, emax. rewrite Rm, Rb, Rp. clear - Hbe W4. lia.
Qed.

Lemma finish D X Y Z k s j : 0 < D ->
  (inject_Z X == half (float_at F (n - 1)) (float_at F n) * Qpower (inject_Z 10) k * inject_Z D)%Q ->
  (inject_Z Y == float_at F n * Qpower (inject_Z 10) k * inject_Z D)%Q ->
  (inject_Z Z == half (float_at F n) (float_at F (n + 1)) * Qpower (inject_Z 10) k * inject_Z D)%Q ->
  best_dec D X Y Z (Z.even mb) s j -> shortest_decimal F n s (j - k).
Proof using Hw Hp5 Hbe Hmb Hnz.
  intros HD EX EY EZ HB. assert (HF : 1 <= prec F /\ 2 <= width F) by (clear - Hw Hp5; lia).
  destruct (fields F HF be mb Hbe Hmb Hnz) as (_ & _ & Hn & Hev). fold n in Hn, Hev.
  destruct (best_rational k D X Y Z (Z.even mb) _ _ _ HD EX EY EZ s j HB) as (B1 & B2 & B3 & B4).
  unfold shortest_decimal. split; [exact B1|]. split; [exact B2|]. rewrite <- Hev in B3, B4. split; [apply (rounds_within F HF _ n Hn); exact B3|].
  intros s' E' Hs' HR'. apply (B4 s' E' Hs'). apply (rounds_within F HF _ n Hn). exact HR'.
Qed.

Lemma lor_top a q : 0 <= q -> 0 <= a < 2 ^ q -> Z.lor a (2 ^ q) = a + 2 ^ q.
Proof using.
  clear. intros Hq Ha. symmetry. rewrite <- Z.lxor_lor, <- Z.add_nocarry_lxor; [reflexivity| |].
  all: apply Z.bits_inj'; intros i Hi; rewrite Z.land_spec, Z.bits_0, Z.pow2_bits_eqb by lia; destruct (Z.eqb_spec q i) as [->|];
    [rewrite <- (Z.mod_small a (2 ^ i)), Z.mod_pow2_bits_high by lia; reflexivity|apply andb_false_r].
Qed.

Theorem to_decimal_shortest : exists s E, to_decimal I be mb = Some (s, E) /\ shortest_decimal F n s E /\ s < 10 ^ 19 /\ -900 <= E <= 900.
Proof using All.
  destruct e_range as (ER & E1 & E2 & E3). pose proof (pbits I Q ex cert) as PB. clear PB.
  assert (HF : 1 <= prec F /\ 2 <= width F) by (clear - Hw Hp5; lia).
  pose proof (f_bits _ _ OK) as Fb. pose proof (f_room _ _ OK) as FR. pose proof (f_kappa _ _ OK) as Fk. pose proof (f_p _ _ OK) as Fp.
  assert (PB : 2 ^ (im_p I + 2) < 2 ^ im_bits I).
  { pose proof (p10 (im_kappa I + 1) ltac:(clear - Fk; lia)). pose proof (pow2_pos (im_p I + 2) ltac:(clear - Fp; lia)). clear - FR H H0. nia. }
  assert (P2 : 2 ^ (im_p I + 2) = 4 * 2 ^ prec F) by (rewrite Rp, Z.add_comm, Z.pow_add_r by (clear - Hp5; lia); reflexivity).
  assert (P1 : 2 ^ (im_p I + 1) = 2 * 2 ^ prec F) by (rewrite Rp, Z.add_comm, Z.pow_add_r by (clear - Hp5; lia); reflexivity).
  assert (B32 : 32 <= 2 ^ prec F). { assert (2 ^ 5 <= 2 ^ prec F) by (apply Z.pow_le_mono_r; clear - Hp5; lia). clear - H. lia. }
  pose proof (value_at F HF be mb Hbe Hmb Hnz) as VA. pose proof (upper_half F HF be mb Hbe Hmb Hnz) as UH. pose proof (lower_half F HF be mb Hbe Hmb Hnz) as LH.
  fold n m e in VA, UH, LH.
  assert (Ecl : (Z.rem mb 2 =? 0) = Z.even mb).
  { rewrite Z.rem_mod_nonneg by (clear - Hmb; lia). rewrite Zmod_even. destruct (Z.even mb); reflexivity. }
  assert (E2f : to_u (im_bits I) (Z.shiftl (to_u (im_bits I) mb) 1) = 2 * mb).
  { rewrite (to_u_id (im_bits I) mb) by (clear - Hmb PB P2; lia). rewrite Z.shiftl_mul_pow2 by (clear; lia). change (2 ^ 1) with 2.
    rewrite (Z.mul_comm mb). apply to_u_id. clear - Hmb PB P2. lia. }
  unfold to_decimal. rewrite E2f, Ecl. clear E2f Ecl.
  (* regular intervals *)
  assert (REG : (be = 0 \/ mb <> 0) -> exists s E, compute_nearest_normal I (2 * m) e (Z.even mb) = Some (s, E) /\ shortest_decimal F n s E /\ s < 10 ^ 19 /\ -900 <= E <= 900).
  { intros Hreg. set (k := im_kappa I - fl10 e). pose proof (NC e ER) as C. pose proof C as C'. unfold normal_check in C'. fold k in C'. cbv zeta in C'.
    destruct (entry (im_cache I) (k - im_min_k I)) eqn:Ec; [|discriminate C']. destruct (nth_error cert _); [|discriminate C'].
    rewrite !andb_true_iff in C'. destruct C' as ((((((K1 & K2) & _) & _) & _) & _) & _). apply Z.leb_le in K1, K2.
    assert (Hm : 0 < m /\ 2 * m + 1 < 2 ^ (im_p I + 2)).
    { unfold m, float_significand. rewrite P2. clear - Hnz Hmb B32 Hbe. destruct (Z.eqb_spec be 0); lia. }
    set (P := pw_num (e - 1) k). set (D := pw_den (e - 1) k).
    assert (EP : (inject_Z P == Qpower (inject_Z 2) (e - 1) * Qpower (inject_Z 10) k * inject_Z D)%Q) by apply num_den.
    destruct (normal_ok I Q ex cert OK Hex e ltac:(clear - ER HR; lia) C ltac:(fold k; clear - K1 K2 HR; lia) (fun c => TB k c K1) (2 * m) (Z.even mb)
                ltac:(clear - Hm; lia) (proj2 Hm) ltac:(rewrite Z.mul_comm; apply Z.mod_mul; discriminate)) as (s & j & R & B).
    { fold k P D. intros H1 H2. destruct (Z_le_gt_dec be 0) as [L|L].
      - assert (Ee : e = emin) by (apply E2; clear - L; lia). pose proof (SP m (proj1 Hm)) as SP'. cbv zeta in SP'. rewrite <- Ee in SP'. fold k P D in SP'. exact (SP' H1 H2).
      - (* m >= 2^p *) assert (M1 : 32 <= m). { unfold m, float_significand. clear - L B32 Hmb. destruct (Z.eqb_spec be 0); lia. }
        destruct (nc I Q ex cert OK Hex e ltac:(clear - ER HR; lia) C ltac:(fold k; clear - K1 K2 HR; lia) (fun c => TB k c K1)) as (c & _ & _ & _ & _ & _ & _ & Hd & _).
        fold k P D in Hd. pose proof (den_pos (e - 1) k) as HD. fold D in HD. pose proof (num_pos (e - 1) k) as HP. fold P in HP.
        pose proof (floor_bounds (2 * P) D HD) as FB. set (U := 10 ^ im_kappa I) in *.
        assert (U * D <= 2 * P / D * D) by (apply Z.mul_le_mono_nonneg_r; [clear - HD; lia|apply Hd]).
        assert (32 * (2 * P) <= m * (2 * P)) by (apply Z.mul_le_mono_nonneg_r; [clear - HP; lia|exact M1]).
        assert (0 < U * D) by (apply Z.mul_pos_pos; [apply p10; clear - Fk; lia|exact HD]).
        replace (2 * (2 * m * P)) with (2 * (m * (2 * P))) by ring. replace (19 * U * D) with (19 * (U * D)) by ring. clear - H H0 H3 FB. lia. }
    exists s, (j - k). split; [exact R|]. fold k in B. split.
    2:{ destruct (nc I Q ex cert OK Hex e ltac:(clear - ER HR; lia) C ltac:(fold k; clear - K1 K2 HR; lia) (fun c => TB k c K1)) as (c & _ & _ & _ & _ & _ & _ & Hd & _).
      destruct (zi_bound I Q ex cert OK Hex e ltac:(clear - ER HR; lia) C ltac:(fold k; clear - K1 K2 HR; lia) (fun c => TB k c K1) (2 * m) (Z.even mb)
                 ltac:(clear - Hm; lia) (proj2 Hm) ltac:(rewrite Z.mul_comm; apply Z.mod_mul; discriminate) Hd) as (_ & ZB & _).
      fold k P D in ZB. pose proof (den_pos (e - 1) k) as HD. fold D in HD. destruct B as (J0 & S0 & _ & BI & _). assert (BI' : forall (x y w : Z) cl, inI x y cl w 1 -> x <= w /\ w <= y) by (clear; intros x y w cl; unfold inI; destruct cl; lia). apply BI' in BI. clear BI'.
      pose proof (floor_bounds ((2 * m + 1) * P) D HD) as FB.
      apply (bounded D s j k (2 ^ 63 + 1) HD S0 J0); [|clear; lia|clear - K1 K2 HR; lia].
      assert (2 ^ (im_bits I - 1) <= 2 ^ 63) by (apply Z.pow_le_mono_r; clear - Fb; lia).
      assert (((2 * m + 1) * P / D + 1) * D <= (2 ^ 63 + 1) * D) by (apply Z.mul_le_mono_nonneg_r; [clear - HD; lia|clear - ZB H; lia]).
      fold k P D in BI. eapply Z.le_lt_trans; [apply BI|]. eapply Z.lt_le_trans; [apply FB|]. exact H0. }
    apply (finish D ((2 * m - 1) * P) (2 * m * P) ((2 * m + 1) * P)); [apply den_pos| | | |exact B].
    - rewrite (inject_mult_pow _ _ _ _ _ EP), LH. replace ((mb =? 0) && (2 <=? be)) with false by (clear - Hreg Hnz; destruct (Z.eqb_spec mb 0), (Z.leb_spec 2 be); cbn; lia).
      rewrite pow_half. replace (4 * m - 2) with ((2 * m - 1) * 2) by ring. rewrite inj2. ring.
    - rewrite (inject_mult_pow _ _ _ _ _ EP), VA, pow_half. replace (4 * m) with ((2 * m) * 2) by ring. rewrite inj2. ring.
    - rewrite (inject_mult_pow _ _ _ _ _ EP), UH, pow_half. replace (4 * m + 2) with ((2 * m + 1) * 2) by ring. rewrite inj2. ring. }
  destruct (Z.eqb_spec be 0) as [B0|B0]; cbn [negb].
  - replace (2 * mb) with (2 * m) by (unfold m, float_significand; rewrite B0; cbn [Z.eqb]; ring).
    change (im_min_exponent I - im_p I) with emin. rewrite <- (E2 ltac:(clear - B0; lia)). apply REG. left. exact B0.
  - rewrite <- (E1 B0). destruct (Z.eqb_spec (2 * mb) 0) as [M0|M0].
    + assert (M1 : mb = 0) by (clear - M0; lia). pose proof (SC e ER) as C. set (k := - fl43 e).
      pose proof C as C'. unfold shorter_check in C'. fold k in C'. cbv zeta in C'.
      destruct (entry (im_cache I) (k - im_min_k I)) eqn:Ec; [|discriminate C']. destruct (compute_nearest_shorter I e) as [[s0 E0]|] eqn:Es; [|discriminate C'].
      rewrite !andb_true_iff in C'. destruct C' as ((((((K1 & K2) & _) & _) & _) & _) & _). apply Z.leb_le in K1, K2. rewrite <- Es.
      assert (HQ0 : 0 <= Q) by (pose proof (f_Q _ _ OK); clear - H; lia).
      destruct (shorter_ok I Q ex e HQ0 Hex ltac:(clear - Fp; lia) C (fun c => TB k c K1)) as (s & j & R & B & H3P). fold k in R, B, H3P.
      set (P := pw_num (e - 1) k) in *. set (D0 := pw_den (e - 1) k) in *.
      assert (EP : (inject_Z P == Qpower (inject_Z 2) (e - 2) * Qpower (inject_Z 10) k * inject_Z (2 * D0))%Q).
      { unfold P. rewrite (num_den (e - 1) k), pow_half, inject_Z_mult. fold D0. change (inject_Z 2) with (2 # 1)%Q at 3. ring. }
      exists s, (j - k). split; [exact R|]. rewrite P2 in B.
      assert (Em : 4 * 2 ^ prec F = 4 * m) by (unfold m, float_significand; rewrite M1; clear - B0; destruct (Z.eqb_spec be 0); lia). rewrite Em in B.
      assert (Eg : (if e =? im_min_exponent I - im_p I then 2 else 1) = (if (mb =? 0) && (2 <=? be) then 1 else 2)).
      { rewrite M1. cbn [Z.eqb andb]. fold emin. destruct (Z.leb_spec 2 be) as [L|L].
        - destruct (Z.eqb_spec e emin) as [Q1|Q1]; [exfalso; exact (E3 L Q1)|reflexivity].
        - rewrite (E2 ltac:(clear - L; lia)), Z.eqb_refl. reflexivity. }
      split.
      2:{ fold P D0 in H3P. destruct B as (J0 & S0 & _ & BI & _). assert (BI' : forall (x y w : Z) cl, inI x y cl w 1 -> x <= w /\ w <= y) by (clear; intros x y w cl; unfold inI; destruct cl; lia). apply BI' in BI. clear BI'.
        assert (HD : 0 < 2 * D0) by (pose proof (den_pos (e - 1) k) as H; fold D0 in H; clear - H; lia).
        apply (bounded (2 * D0) s j k (4 * (4 * 2 ^ prec F + 2)) HD S0 J0); [| |clear - K1 K2 HR; lia].
        - rewrite <- Em in BI. set (D := 2 * D0) in *. set (q := 4 * 2 ^ prec F + 2) in *. assert (0 < q) by (unfold q; clear - B32; lia). clear - H3P BI H HD. nia.
        - assert (10 ^ 2 <= 10 ^ (im_kappa I + 1)) by (apply Z.pow_le_mono_r; clear - Fk; lia). assert (2 ^ im_bits I <= 2 ^ 64) by (apply Z.pow_le_mono_r; clear - Fb; lia).
          rewrite P2 in FR. clear - FR H H0 B32. nia. }
      rewrite Eg in B. assert (Et : true = Z.even mb) by (rewrite M1; reflexivity). rewrite Et in B. apply (finish (2 * D0) _ _ _ k s j) in B; [exact B| | | |].
      * pose proof (den_pos (e - 1) k). fold D0 in H. clear - H. lia.
      * rewrite (inject_mult_pow _ _ _ _ _ EP), LH. reflexivity.
      * rewrite (inject_mult_pow _ _ _ _ _ EP), VA. reflexivity.
      * rewrite (inject_mult_pow _ _ _ _ _ EP), UH. reflexivity.
    + rewrite Z.shiftl_mul_pow2, Z.mul_1_l by (clear - Fp; lia). rewrite lor_top by (clear - Fp Hmb P1; lia).
      replace (2 * mb + 2 ^ (im_p I + 1)) with (2 * m). 2:{ unfold m, float_significand. rewrite P1. clear - B0. destruct (Z.eqb_spec be 0); lia. }
      apply REG. right. clear - M0. lia.
Qed.
End Assembly.
