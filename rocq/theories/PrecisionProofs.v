(* Rounding the shortest decimal of a float, against rounding the float: they differ only when the decimal is
   half-way, or when more digits are asked for than it has. *)
From Coq Require Import Lqa Qpower.
From Verif Require Import Base DigitsSpec FloatArith FloatRead ShortestSpec PrecisionSpec DragonBridge DragonFloats FloatSpec FloatBits.
Local Open Scope Z_scope.

(* ---- the numbers that round to a float are an interval ---- *)
Lemma rounds_convex F n x y z : 1 <= prec F /\ 2 <= width F -> 1 <= n -> rounds_to F x n -> rounds_to F z n -> (x <= y)%Q -> (y <= z)%Q -> rounds_to F y n.
Proof.
  intros HF Hn Rx Rz L1 L2. assert (B : 1 <= n < infinity_bits F) by (destruct Rx as (B & _); lia).
  apply (rounds_within F HF y n B). apply (rounds_within F HF x n B) in Rx. apply (rounds_within F HF z n B) in Rz.
  unfold within in *. destruct (Z.even n); destruct Rx, Rz; split; lra.
Qed.
Lemma self_rounds F n : 1 <= prec F /\ 2 <= width F -> 1 <= n < infinity_bits F -> rounds_to F (float_at F n) n.
Proof.
  intros HF Hn. apply (rounds_within F HF _ n Hn). pose proof (float_mono F HF (n - 1) n ltac:(lia)). pose proof (float_mono F HF n (n + 1) ltac:(lia)).
  unfold within, half. destruct (Z.even n); split; lra.
Qed.
Lemma dec_len v : 0 < v -> 1 <= decimal_length v /\ v < 10 ^ decimal_length v /\ 10 ^ (decimal_length v - 1) <= v.
Proof.
  intros Hv. unfold decimal_length. destruct (digits_bound 10 v ltac:(lia) ltac:(lia)) as (B2 & B3 & B1). split; [exact B1|]. split; [exact B2|].
  destruct (Z.eq_dec (zlen (digits 10 v)) 1) as [->|N]; [cbn; lia|]. apply B3. lia.
Qed.
Lemma len_lt x y : 0 < x -> 0 < y -> 10 * x <= y -> decimal_length x < decimal_length y.
Proof.
  intros Hx Hy L. destruct (dec_len x Hx) as (A1 & A2 & A3). destruct (dec_len y Hy) as (B1 & B2 & B3).
  destruct (Z_lt_le_dec (decimal_length x) (decimal_length y)) as [|G]; [assumption|exfalso].
  assert (10 ^ (decimal_length y - 1) <= 10 ^ (decimal_length x - 1)) by (apply Z.pow_le_mono_r; lia).
  assert (10 ^ decimal_length y = 10 * 10 ^ (decimal_length y - 1)) by (rewrite <- Z.pow_succ_r by lia; f_equal; lia). lia.
Qed.
Lemma len_le x y : 0 < x -> 0 < y -> 10 * x <= y + 10 -> decimal_length x <= decimal_length y.
Proof.
  intros Hx Hy L. destruct (dec_len x Hx) as (A1 & A2 & A3). destruct (dec_len y Hy) as (B1 & B2 & B3).
  destruct (Z_le_gt_dec (decimal_length x) (decimal_length y)) as [|G]; [assumption|exfalso].
  assert (10 ^ decimal_length y <= 10 ^ (decimal_length x - 1)) by (apply Z.pow_le_mono_r; lia).
  destruct (Z.eq_dec (decimal_length y) 1) as [E|E].
  - rewrite E in *. change (10 ^ 1) with 10 in *. lia.
  - assert (10 ^ decimal_length y = 10 * 10 ^ (decimal_length y - 1)) by (rewrite <- Z.pow_succ_r by lia; f_equal; lia).
    assert (10 ^ 1 <= 10 ^ (decimal_length y - 1)) by (apply Z.pow_le_mono_r; lia). change (10 ^ 1) with 10 in *. lia.
Qed.

Section Shortest.
Variable F : format.
Hypothesis HF : 1 <= prec F /\ 2 <= width F.
Variables n m e : Z.
Hypothesis Hn : 1 <= n < infinity_bits F.
Hypothesis HS : shortest_decimal F n m e.
Let v := float_at F n.
Let u := Qpower (inject_Z 10) e.
Let Hu : (0 < u)%Q.
Proof. apply qpow_pos. lia. Qed.
Lemma dec_at s k : 0 <= k -> (dec_value s (e + k) == inject_Z (s * 10 ^ k) * u)%Q.
Proof using All. intros Hk. unfold dec_value, u. rewrite qpow_add by lia. rewrite inject_Z_mult, qpow_Z by lia. ring. Qed.
Lemma unit_le x y : (inject_Z x * u <= inject_Z y * u)%Q <-> x <= y.
Proof using Hu.
  clear - Hu. split; intros H.
  - rewrite Zle_Qle. apply Qmult_le_r with (z := u); assumption.
  - rewrite Zle_Qle in H. apply Qmult_le_compat_r; [exact H|lra].
Qed.
Lemma unit_lt x y : (inject_Z x * u < inject_Z y * u)%Q <-> x < y.
Proof using Hu.
  clear - Hu. split; intros H.
  - rewrite Zlt_Qlt. apply Qmult_lt_r with (z := u); assumption.
  - rewrite Zlt_Qlt in H. apply Qmult_lt_r; assumption.
Qed.
Lemma v_pos : (0 < v)%Q.
Proof using All.
  pose proof (float_mono F HF 0 n ltac:(lia)) as H. fold v in H. assert (Z0 : (float_at F 0 == 0)%Q); [|lra].
  assert (0 < 2 ^ prec F) by (apply Z.pow_pos_nonneg; lia).
  unfold float_at, binary_value, float_significand. rewrite Z.div_0_l, Z.mod_0_l by lia. cbn [Z.eqb]. change (inject_Z (0 + 0)) with 0%Q. ring.
Qed.
(* no multiple of 10^(e+1) from the decimal to the float *)
Lemma none_above s : (inject_Z m * u < inject_Z (10 * s) * u)%Q -> (inject_Z (10 * s) * u <= v)%Q -> False.
Proof using All.
  intros L1 L2. apply (proj1 (unit_lt _ _)) in L1. destruct HS as (S1 & S2 & S3 & S4). set (q := m / 10 + 1).
  assert (Q1 : 0 < q /\ m < 10 * q /\ 10 * q <= 10 * s /\ 10 * q <= m + 10) by (unfold q; pose proof (Z.div_mod m 10 ltac:(lia)); pose proof (Z.mod_pos_bound m 10 ltac:(lia)); lia).
  pose proof (dec_at q 1 ltac:(lia)) as D1. change (10 ^ 1) with 10 in D1. rewrite Z.mul_comm in D1.
  assert (D0 : (dec_value m e == inject_Z m * u)%Q) by reflexivity.
  assert (A1 : (inject_Z m * u < inject_Z (10 * q) * u)%Q) by (apply (proj2 (unit_lt _ _)); lia).
  assert (A2 : (inject_Z (10 * q) * u <= inject_Z (10 * s) * u)%Q) by (apply (proj2 (unit_le _ _)); lia).
  assert (R : rounds_to F (dec_value q (e + 1)) n).
  { apply (rounds_convex F n (dec_value m e) _ v HF ltac:(lia) S3 (self_rounds F n HF Hn)); fold v; lra. }
  destruct (S4 q (e + 1) ltac:(lia) R) as (K1 & K2). pose proof (len_le q m ltac:(lia) S1 ltac:(lia)).
  destruct (K2 ltac:(lia)) as (K3 & _). fold v in K3. revert K3. apply Qabs_case; intros ?; apply Qabs_case; intros ?; lra.
Qed.
Lemma none_below s : (v <= inject_Z (10 * s) * u)%Q -> (inject_Z (10 * s) * u < inject_Z m * u)%Q -> False.
Proof using All.
  intros L1 L2. pose proof v_pos as V. apply (proj1 (unit_lt _ _)) in L2. destruct HS as (S1 & S2 & S3 & S4). set (q := m / 10).
  assert (P : 0 < 10 * s). { apply (proj1 (unit_lt _ _)). assert (E0 : (inject_Z 0 * u == 0)%Q) by (change (inject_Z 0) with 0%Q; ring). rewrite E0. lra. }
  assert (Q1 : 0 < q /\ 10 * q < m /\ 10 * s <= 10 * q) by (unfold q; pose proof (Z.div_mod m 10 ltac:(lia)); pose proof (Z.mod_pos_bound m 10 ltac:(lia)); lia).
  pose proof (dec_at q 1 ltac:(lia)) as D1. change (10 ^ 1) with 10 in D1. rewrite Z.mul_comm in D1.
  assert (D0 : (dec_value m e == inject_Z m * u)%Q) by reflexivity.
  assert (A1 : (inject_Z (10 * q) * u < inject_Z m * u)%Q) by (apply (proj2 (unit_lt _ _)); lia).
  assert (A2 : (inject_Z (10 * s) * u <= inject_Z (10 * q) * u)%Q) by (apply (proj2 (unit_le _ _)); lia).
  assert (R : rounds_to F (dec_value q (e + 1)) n).
  { apply (rounds_convex F n v _ (dec_value m e) HF ltac:(lia) (self_rounds F n HF Hn) S3); fold v; lra. }
  destruct (S4 q (e + 1) ltac:(lia) R) as (K1 & _). pose proof (len_lt q m ltac:(lia) S1 ltac:(lia)). lia.
Qed.

(* nearest: at most half a unit away *)
Lemma nearest_half N a x : nearest_to N a x <-> ((2 # 1) * Qabs (dec_value N a - x) <= dec_value 1 a)%Q.
Proof.
  clear. assert (P : (0 < Qpower (inject_Z 10) a)%Q) by (apply qpow_pos; lia). unfold nearest_to, dec_value. set (w := Qpower (inject_Z 10) a) in *. split.
  - intros H. pose proof (H (N + 1)) as H1. pose proof (H (N - 1)) as H2. unfold Z.sub in H2. rewrite inject_Z_plus in H1, H2.
    change (inject_Z 1) with 1%Q in *. change (inject_Z (-(1))) with (- (1))%Q in *. set (y := inject_Z N) in *.
    assert (E1 : ((y + 1) * w == y * w + w)%Q) by ring. assert (E2 : ((y + - (1)) * w == y * w - w)%Q) by ring. assert (E3 : (1 * w == w)%Q) by ring.
    rewrite E1 in H1. rewrite E2 in H2. rewrite E3. revert H1 H2. set (z := (y * w)%Q). repeat (apply Qabs_case; intros ?); intros; lra.
  - intros H N'. destruct (Z.eq_dec N' N) as [->|D]; [apply Qle_refl|]. change (inject_Z 1 * w)%Q with (1 * w)%Q in H.
    assert (E3 : (1 * w == w)%Q) by ring. rewrite E3 in H.
    destruct (Z_lt_le_dec N' N) as [L|L].
    + assert (L' : (inject_Z N' + 1 <= inject_Z N)%Q). { change 1%Q with (inject_Z 1). rewrite <- inject_Z_plus, <- Zle_Qle. lia. }
      assert (M : ((inject_Z N' + 1) * w <= inject_Z N * w)%Q) by (apply Qmult_le_compat_r; lra). set (z' := (inject_Z N' * w)%Q). assert (E4 : ((inject_Z N' + 1) * w == z' + w)%Q) by (unfold z'; ring).
      rewrite E4 in M. fold z' in M. revert M H. set (z := (inject_Z N * w)%Q). repeat (apply Qabs_case; intros ?); intros; lra.
    + assert (L' : (inject_Z N + 1 <= inject_Z N')%Q). { change 1%Q with (inject_Z 1). rewrite <- inject_Z_plus, <- Zle_Qle. lia. }
      assert (M : ((inject_Z N + 1) * w <= inject_Z N' * w)%Q) by (apply Qmult_le_compat_r; lra). set (z := (inject_Z N * w)%Q). assert (E4 : ((inject_Z N + 1) * w == z + w)%Q) by (unfold z; ring).
      rewrite E4 in M. fold z in H. revert M H. set (z' := (inject_Z N' * w)%Q). repeat (apply Qabs_case; intros ?); intros; lra.
Qed.

(* the decimal is less than one unit of its last digit away *)
Lemma len_tens x y : 0 < x -> 0 < y -> x / 10 = y / 10 -> decimal_length x <= decimal_length y.
Proof.
  clear. intros Hx Hy E. destruct (dec_len x Hx) as (A1 & A2 & A3). destruct (dec_len y Hy) as (B1 & B2 & B3).
  destruct (Z_le_gt_dec (decimal_length x) (decimal_length y)) as [|G]; [assumption|exfalso].
  assert (10 ^ decimal_length y <= 10 ^ (decimal_length x - 1)) by (apply Z.pow_le_mono_r; lia).
  assert (10 ^ decimal_length y = 10 * 10 ^ (decimal_length y - 1)) by (rewrite <- Z.pow_succ_r by lia; f_equal; lia). lia.
Qed.
Lemma not_above s : m < s -> (v < inject_Z s * u)%Q.
Proof using All.
  intros L. destruct (Qlt_le_dec v (inject_Z s * u)) as [|G]; [assumption|exfalso]. destruct HS as (S1 & S2 & S3 & S4).
  destruct (Z.eq_dec (m / 10) (s / 10)) as [E|E].
  - assert (D0 : (dec_value m e == inject_Z m * u)%Q) by reflexivity. assert (D1 : (dec_value s e == inject_Z s * u)%Q) by reflexivity.
    assert (A1 : (inject_Z m * u < inject_Z s * u)%Q) by (apply (proj2 (unit_lt _ _)); lia).
    assert (R : rounds_to F (dec_value s e) n).
    { apply (rounds_convex F n (dec_value m e) _ v HF ltac:(lia) S3 (self_rounds F n HF Hn)); fold v; lra. }
    destruct (S4 s e ltac:(lia) R) as (K1 & K2). pose proof (len_tens s m ltac:(lia) S1 ltac:(lia)).
    destruct (K2 ltac:(lia)) as (K3 & _). fold v in K3. revert K3. apply Qabs_case; intros ?; apply Qabs_case; intros ?; lra.
  - assert (X : m < 10 * (s / 10) <= s) by lia.
    apply (none_above (s / 10)); [apply (proj2 (unit_lt _ _)); lia|]. assert (inject_Z (10 * (s / 10)) * u <= inject_Z s * u)%Q by (apply (proj2 (unit_le _ _)); lia). lra.
Qed.
Lemma not_below s : s < m -> (inject_Z s * u < v)%Q.
Proof using All.
  intros L. destruct (Qlt_le_dec (inject_Z s * u) v) as [|G]; [assumption|exfalso]. pose proof v_pos as V. destruct HS as (S1 & S2 & S3 & S4).
  assert (P : 0 < s). { apply (proj1 (unit_lt _ _)). assert (E0 : (inject_Z 0 * u == 0)%Q) by (change (inject_Z 0) with 0%Q; ring). rewrite E0. lra. }
  destruct (Z.eq_dec (m / 10) (s / 10)) as [E|E].
  - assert (D0 : (dec_value m e == inject_Z m * u)%Q) by reflexivity. assert (D1 : (dec_value s e == inject_Z s * u)%Q) by reflexivity.
    assert (A1 : (inject_Z s * u < inject_Z m * u)%Q) by (apply (proj2 (unit_lt _ _)); lia).
    assert (R : rounds_to F (dec_value s e) n).
    { apply (rounds_convex F n v _ (dec_value m e) HF ltac:(lia) (self_rounds F n HF Hn) S3); fold v; lra. }
    destruct (S4 s e ltac:(lia) R) as (K1 & K2). pose proof (len_tens s m ltac:(lia) S1 ltac:(lia)).
    destruct (K2 ltac:(lia)) as (K3 & _). fold v in K3. revert K3. apply Qabs_case; intros ?; apply Qabs_case; intros ?; lra.
  - assert (X : s <= 10 * (m / 10) < m) by lia.
    apply (none_below (m / 10)); [|apply (proj2 (unit_lt _ _)); lia]. assert (inject_Z s * u <= inject_Z (10 * (m / 10)) * u)%Q by (apply (proj2 (unit_le _ _)); lia). lra.
Qed.
Lemma within_unit : (Qabs (dec_value m e - float_at F n) < dec_value 1 e)%Q.
Proof using All.
  pose proof (not_above (m + 1) ltac:(lia)) as A. pose proof (not_below (m - 1) ltac:(lia)) as B. unfold dec_value. fold u. fold v.
  unfold Z.sub in B. rewrite inject_Z_plus in A, B. change (inject_Z 1) with 1%Q in *. change (inject_Z (-(1))) with (- (1))%Q in *. set (y := inject_Z m) in *.
  assert (E1 : ((y + 1) * u == y * u + u)%Q) by ring. assert (E2 : ((y + - (1)) * u == y * u - u)%Q) by ring. assert (E3 : (1 * u == u)%Q) by ring.
  rewrite E1 in A. rewrite E2 in B. rewrite E3. revert A B. set (z := (y * u)%Q). apply Qabs_case; intros; lra.
Qed.

Theorem rounded_exact N a : e < a -> nearest_decimal N a m e ->
  (nearest_to N a (float_at F n) <-> (half_way N a (dec_value m e) -> same_side N a (dec_value m e) (float_at F n))).
Proof using All.
  fold v. intros La (H1 & _). replace (Z.min a e) with e in * by lia. rewrite Z.sub_diag in *. change (10 ^ 0) with 1 in *. rewrite Z.mul_1_r in *.
  rewrite nearest_half. unfold half_way, same_side.
  set (k := a - e) in *. assert (Ea : a = e + k) by (unfold k; lia).
  pose proof (dec_at N k ltac:(lia)) as DN. pose proof (dec_at 1 k ltac:(lia)) as D1. rewrite Z.mul_1_l in D1. rewrite <- Ea in DN, D1.
  set (K := 10 ^ k) in *. assert (HK : exists J, K = 10 * J /\ 0 < J).
  { exists (10 ^ (k - 1)). split; [unfold K; rewrite <- Z.pow_succ_r by lia; f_equal; lia|]. apply Z.pow_pos_nonneg; lia. }
  destruct HK as (J & EK & HJ). clearbody K.
  assert (DM : (dec_value m e == inject_Z m * u)%Q) by reflexivity.
  rewrite DN, D1, DM. clear DN D1 DM.
  assert (T1 : (inject_Z (N * K + 5 * J) * u == inject_Z (N * K) * u + (1 # 2) * (inject_Z K * u))%Q).
  { rewrite EK, inject_Z_plus, (inject_Z_mult 5), (inject_Z_mult 10). change (inject_Z 5) with (5 # 1)%Q. change (inject_Z 10) with (10 # 1)%Q. ring. }
  assert (T2 : (inject_Z (N * K - 5 * J) * u == inject_Z (N * K) * u - (1 # 2) * (inject_Z K * u))%Q).
  { unfold Z.sub. rewrite inject_Z_plus, inject_Z_opp, EK, (inject_Z_mult 5), (inject_Z_mult 10). change (inject_Z 5) with (5 # 1)%Q. change (inject_Z 10) with (10 # 1)%Q. ring. }
  split.
  - clear T1 T2. set (x := (inject_Z (N * K) * u)%Q) in *. set (w := (inject_Z K * u)%Q) in *. set (z := (inject_Z m * u)%Q) in *.
    apply Qabs_case; intros ? G; apply Qabs_case; intros ? T; split; intros ?; lra.
  - intros H.
    assert (B1 : (v <= inject_Z (N * K + 5 * J) * u)%Q).
    { destruct (Z_lt_le_dec m (N * K + 5 * J)) as [L|L]; [pose proof (not_above _ L); lra|]. assert (Em : m = N * K + 5 * J) by lia.
      assert (X : (inject_Z (N * K) * u < inject_Z m * u)%Q) by (apply (proj2 (unit_lt _ _)); lia). rewrite <- Em.
      apply H; [|exact X]. rewrite <- Em in T1. revert X. rewrite T1. set (x := (inject_Z (N * K) * u)%Q) in *. set (w := (inject_Z K * u)%Q) in *. apply Qabs_case; intros; lra. }
    assert (B2 : (inject_Z (N * K - 5 * J) * u <= v)%Q).
    { destruct (Z_lt_le_dec (N * K - 5 * J) m) as [L|L]; [pose proof (not_below _ L); lra|]. assert (Em : m = N * K - 5 * J) by lia.
      assert (X : (inject_Z m * u < inject_Z (N * K) * u)%Q) by (apply (proj2 (unit_lt _ _)); lia). rewrite <- Em. 
      apply H; [|exact X]. rewrite <- Em in T2. revert X. rewrite T2. set (x := (inject_Z (N * K) * u)%Q) in *. set (w := (inject_Z K * u)%Q) in *. apply Qabs_case; intros; lra. }
    rewrite T1 in B1. rewrite T2 in B2. set (x := (inject_Z (N * K) * u)%Q) in *. set (w := (inject_Z K * u)%Q) in *. apply Qabs_case; intros; lra.
Qed.
End Shortest.

Lemma rounded_from_ok F n m e N a : 1 <= prec F /\ 2 <= width F -> 1 <= n < infinity_bits F -> shortest_decimal F n m e -> nearest_decimal N a m e ->
  rounded_from F n e (dec_value m e) N a.
Proof.
  intros HF Hn HS H. split.
  - intros L. apply rounded_exact; assumption.
  - intros L. assert (E : (dec_value N a == dec_value m e)%Q).
    { apply same_value_dec. destruct H as (H & _). unfold same_value. cbv zeta. replace (Z.min a e) with a in * by lia. rewrite Z.sub_diag in *.
      change (10 ^ 0) with 1 in *. lia. }
    split; [exact E|]. destruct HS as (_ & _ & R & _). apply (rounds_eq F (dec_value m e)); [symmetry; exact E|exact R].
Qed.
Lemma fixed_from F x n s m e p : 1 <= prec F /\ 2 <= width F -> 1 <= n < infinity_bits F -> shown F x n m e -> plain_style s -> 0 <= p ->
  st_precision s = Some p -> st_notation s = NFixed ->
  exists N, read_float (decimal_body s m e) = Some (N, p, 0) /\ rounded_from F n e (dec_value m e) N (- p).
Proof.
  intros HF Hn (_ & D & _ & _ & S & _) U Hp Ep En. destruct (denotes_fixed s m e p U ltac:(destruct D; lia) Hp Ep En) as (N & R & V).
  exists N. split; [exact R|]. apply rounded_from_ok; auto. apply S. lia.
Qed.
Lemma sci_from F x n s m e p : 1 <= prec F /\ 2 <= width F -> 1 <= n < infinity_bits F -> shown F x n m e -> plain_style s -> 0 <= p ->
  st_precision s = Some p -> st_notation s = NScientific ->
  exists N E, read_float (decimal_body s m e) = Some (N, p, E) /\ 10 ^ p <= N < 10 ^ (p + 1) /\ rounded_from F n e (dec_value m e) N (E - p).
Proof.
  intros HF Hn (_ & D & _ & _ & S & _) U Hp Ep En. destruct (denotes_sci s m e p U ltac:(destruct D; lia) Hp Ep En) as (N & E & R & V & L).
  destruct (S ltac:(lia)) as (S1 & SR). exists N, E. split; [exact R|]. split; [apply L; exact S1|]. apply rounded_from_ok; auto. split; assumption.
Qed.
Lemma general_from F x n s m e P : 1 <= prec F /\ 2 <= width F -> 1 <= n < infinity_bits F -> shown F x n m e -> plain_style s -> 0 <= P ->
  st_precision s = Some P -> st_notation s = NGeneral ->
  exists N p E N0 a, read_float (decimal_body s m e) = Some (N, p, E) /\ (dec_value N (E - p) == dec_value N0 a)%Q /\
    10 ^ (Z.max 1 P - 1) <= N0 < 10 ^ Z.max 1 P /\ rounded_from F n e (dec_value m e) N0 a.
Proof.
  intros HF Hn (_ & D & _ & _ & S & _) U Hp Ep En. destruct (denotes_general s m e P U ltac:(destruct D; lia) Hp Ep En) as (N & p & E & N0 & a & R & Q1 & V & L & _).
  destruct (S ltac:(lia)) as (S1 & SR). exists N, p, E, N0, a. split; [exact R|]. split; [apply same_value_dec; exact Q1|]. split; [apply L; exact S1|].
  apply rounded_from_ok; auto. split; assumption.
Qed.
