(* From integers scaled by a power of ten to rational numbers. *)
From Coq Require Import Lqa Qpower.
From Verif Require Import Base DragonBest DragonCheck DragonShorter ShortestSpec.
Local Open Scope Z_scope.

Lemma qpow_pos a z : 0 < a -> (0 < Qpower (inject_Z a) z)%Q.
Proof.
  intros H. assert (P : (0 < inject_Z a)%Q) by (change 0%Q with (inject_Z 0); rewrite <- Zlt_Qlt; exact H).
  destruct (Qle_lt_or_eq 0 (Qpower (inject_Z a) z)) as [L|E]; [apply Qpower_pos; apply Qlt_le_weak; exact P|exact L|].
  exfalso. apply (Qpower_not_0 (inject_Z a) z); [|symmetry; exact E]. intros E0. rewrite E0 in P. exact (Qlt_irrefl _ P).
Qed.
Lemma qpow_Z a z : 0 <= z -> (inject_Z (a ^ z) == Qpower (inject_Z a) z)%Q.
Proof. intros H. apply Zpower_Qpower. exact H. Qed.
Lemma qpow_add a x y : 0 < a -> (Qpower (inject_Z a) (x + y) == Qpower (inject_Z a) x * Qpower (inject_Z a) y)%Q.
Proof. intros H. apply Qpower_plus. intros E. pose proof (qpow_pos a 1 H) as P. change (Qpower (inject_Z a) 1) with (inject_Z a) in P. rewrite E in P. exact (Qlt_irrefl _ P). Qed.

(* num / den = 2^a * 10^k *)
Lemma num_den a k : (inject_Z (pw_num a k) == Qpower (inject_Z 2) a * Qpower (inject_Z 10) k * inject_Z (pw_den a k))%Q.
Proof.
  assert (T10 : (Qpower (inject_Z 10) k == Qpower (inject_Z 2) k * Qpower (inject_Z 5) k)%Q).
  { rewrite <- Qmult_power. reflexivity. }
  unfold pw_num, pw_den. rewrite !inject_Z_mult, !qpow_Z by lia. rewrite T10.
  assert (E2 : (Qpower (inject_Z 2) (Z.max 0 (a + k)) == Qpower (inject_Z 2) a * Qpower (inject_Z 2) k * Qpower (inject_Z 2) (Z.max 0 (- (a + k))))%Q).
  { rewrite <- !qpow_add by lia. replace (a + k + Z.max 0 (- (a + k))) with (Z.max 0 (a + k)) by lia. reflexivity. }
  assert (E5 : (Qpower (inject_Z 5) (Z.max 0 k) == Qpower (inject_Z 5) k * Qpower (inject_Z 5) (Z.max 0 (- k)))%Q).
  { rewrite <- !qpow_add by lia. replace (k + Z.max 0 (- k)) with (Z.max 0 k) by lia. reflexivity. }
  rewrite E2, E5. ring.
Qed.

(* v is between the two half-way points *)
Definition within (closed : bool) (x v z : Q) : Prop := (if closed then x <= v /\ v <= z else x < v /\ v < z)%Q.

Section Bridge.
Variables (k D X Y Z : Z) (closed : bool) (x y z : Q).
Hypothesis HD : 0 < D.
Let c := Qpower (inject_Z 10) k.
Hypothesis (EX : (inject_Z X == x * c * inject_Z D)%Q) (EY : (inject_Z Y == y * c * inject_Z D)%Q) (EZ : (inject_Z Z == z * c * inject_Z D)%Q).

Let scale (J : BinInt.Z) : Q := (c * inject_Z D * inject_Z (10 ^ J))%Q.
Lemma scale_pos J : 0 <= J -> (0 < scale J)%Q.
Proof using All.
  intros H. unfold scale, c. pose proof (qpow_pos 10 k ltac:(lia)) as P1. pose proof (p10 J H) as P2.
  assert (P3 : (0 < inject_Z D)%Q) by (change 0%Q with (inject_Z 0); rewrite <- Zlt_Qlt; exact HD).
  assert (P4 : (0 < inject_Z (10 ^ J))%Q) by (change 0%Q with (inject_Z 0); rewrite <- Zlt_Qlt; exact P2).
  apply Qmult_lt_0_compat; [apply Qmult_lt_0_compat; assumption|assumption].
Qed.
Lemma scaled_dec s j J : 0 <= j + J -> 0 <= J -> (inject_Z (s * 10 ^ (j + J) * D) == dec_value s (j - k) * scale J)%Q.
Proof using All.
  intros H HJ. unfold dec_value, scale, c. rewrite !inject_Z_mult, !qpow_Z by lia. rewrite !qpow_add by lia.
  replace j with (j - k + k) at 1 by lia. rewrite qpow_add by lia. ring.
Qed.
Lemma scaled_end W w J : (inject_Z W == w * c * inject_Z D)%Q -> (inject_Z (W * 10 ^ J) == w * scale J)%Q.
Proof using All. intros E. rewrite inject_Z_mult, E. unfold scale. ring. Qed.
Lemma inI_within s j J : 0 <= j + J -> 0 <= J -> inI X Z closed (s * 10 ^ (j + J) * D) (10 ^ J) <-> within closed x (dec_value s (j - k)) z.
Proof using All.
  intros H HJ. pose proof (scale_pos J HJ) as SP. pose proof (scaled_dec s j J H HJ) as E1.
  pose proof (scaled_end X x J EX) as E2. pose proof (scaled_end Z z J EZ) as E3. unfold inI, within.
  destruct closed; rewrite ?Zle_Qle, ?Zlt_Qlt, E1, E2, E3.
  - rewrite !Qmult_le_r by exact SP. reflexivity.
  - rewrite !Qmult_lt_r by exact SP. reflexivity.
Qed.
Lemma scaled_dist s j J : 0 <= j + J -> 0 <= J -> (inject_Z (dist D Y s j J) == Qabs (dec_value s (j - k) - y) * scale J)%Q.
Proof using All.
  intros H HJ. unfold dist. pose proof (scale_pos J HJ) as SP.
  assert (EA : forall a, (inject_Z (Z.abs a) == Qabs (inject_Z a))%Q) by (intros a; reflexivity).
  rewrite EA. unfold Z.sub. rewrite inject_Z_plus, inject_Z_opp, (scaled_dec s j J H HJ), (scaled_end Y y J EY).
  setoid_replace (dec_value s (j - k) * scale J + - (y * scale J))%Q with ((dec_value s (j - k) - y) * scale J)%Q by ring.
  rewrite Qabs_Qmult, (Qabs_pos (scale J)) by (apply Qlt_le_weak; exact SP). reflexivity.
Qed.

Theorem best_rational s j : best_dec D X Y Z closed s j ->
  0 < s /\ s mod 10 <> 0 /\ within closed x (dec_value s (j - k)) z /\
  forall s' E', 0 < s' -> within closed x (dec_value s' E') z ->
    ndigits s <= ndigits s' /\
    (ndigits s = ndigits s' ->
      (Qabs (dec_value s (j - k) - y) <= Qabs (dec_value s' E' - y))%Q /\
      (Qabs (dec_value s (j - k) - y) == Qabs (dec_value s' E' - y) -> dec_value s' E' == dec_value s (j - k) \/ Z.even s = true)%Q).
Proof using All.
  intros (Hj & Hs & Hm & HI & HB). split; [exact Hs|]. split; [exact Hm|]. split.
  { apply (inI_within s j 0); [lia|lia|]. rewrite Z.add_0_r. exact HI. }
  intros s' E' Hs' HW. set (j' := E' + k). set (J := Z.max 0 (- j')). assert (HJ : 0 <= J /\ 0 <= j' + J /\ 0 <= j + J) by (unfold J; lia).
  destruct HJ as (J0 & J1 & J2). replace E' with (j' - k) in * by (unfold j'; lia).
  pose proof (scale_pos J J0) as SP.
  assert (HC : comp D X Z closed s' j' J) by (split; [exact Hs'|]; split; [exact J0|]; split; [exact J1|]; apply (inI_within s' j' J J1 J0); exact HW).
  destruct (HB s' j' J HC J2) as (B1 & B2). split; [exact B1|]. intros EN. destruct (B2 EN) as (B3 & B4). clear B1 B2.
  rewrite Zle_Qle, !scaled_dist, Qmult_le_r in B3 by assumption. split; [exact B3|]. intros EQ.
  destruct B4 as [B4|B4].
  - assert (QE : (inject_Z (dist D Y s j J) == inject_Z (dist D Y s' j' J))%Q) by (rewrite !scaled_dist, EQ by assumption; reflexivity).
    apply inject_Z_injective. exact QE.
  - left. assert (QE : (inject_Z (s * 10 ^ (j + J) * D) == inject_Z (s' * 10 ^ (j' + J) * D))%Q) by (rewrite B4; reflexivity).
    rewrite !scaled_dec in QE by assumption. symmetry. apply Qmult_inj_r in QE; [exact QE|]. intros E0. rewrite E0 in SP. exact (Qlt_irrefl _ SP).
  - right. exact B4.
Qed.
End Bridge.
