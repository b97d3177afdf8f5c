(* The decisions of compute_nearest_normal, on exact numbers: the float is n * P/D with n even, and the
   interval reaches P/D on each side. *)
From Verif Require Import Base DragonBest.

Lemma floor_bounds a D : 0 < D -> a / D * D <= a < (a / D + 1) * D.
Proof. intros H. pose proof (Z.div_mod a D ltac:(lia)). pose proof (Z.mod_pos_bound a D H). nia. Qed.

(* the multiple of U = 2h nearest to Y/D *)
Lemma pick D P Y Z delta zi h s r m : 0 < D -> 0 < h -> Y = Z - P -> delta * D <= 2 * P < (delta + 1) * D -> zi * D <= Z < (zi + 1) * D ->
  zi = s * (20 * h) + r ->
  (m = if (r - delta / 2 + h) mod (2 * h) =? 0 then
         if negb (Bool.eqb (Z.odd (Y / D)) (Z.odd (r - delta / 2))) then (10 * s + (r - delta / 2 + h) / (2 * h)) - 1
         else if Y mod D =? 0 then (if (10 * s + (r - delta / 2 + h) / (2 * h)) mod 2 =? 0 then 10 * s + (r - delta / 2 + h) / (2 * h) else (10 * s + (r - delta / 2 + h) / (2 * h)) - 1)
         else 10 * s + (r - delta / 2 + h) / (2 * h)
       else 10 * s + (r - delta / 2 + h) / (2 * h)) ->
  2 * Z.abs (m * (2 * h) * D - Y) <= 2 * h * D /\ (2 * Z.abs (m * (2 * h) * D - Y) = 2 * h * D -> Z.even m = true).
Proof.
  intros HD Hh E A B Hzi Hm.
  set (e := delta / 2) in *. assert (He : 2 * e <= delta <= 2 * e + 1) by (unfold e; lia). clearbody e.
  set (yi := zi - e). assert (Hy : (yi - 1) * D < Y < (yi + 1) * D).
  { unfold yi. clear Hm Hzi. assert (2 * e * D <= delta * D) by nia. assert (delta * D <= (2 * e + 1) * D) by nia. lia. }
  pose proof (floor_bounds Y D HD) as Hf. pose proof (Z.div_mod Y D ltac:(lia)) as Hdm. pose proof (Z.mod_pos_bound Y D HD) as Hmb.
  set (yf := Y / D) in *. clearbody yf. generalize dependent (Y mod D). intros ym Hm Hdm Hmb.
  assert (Hyf : yf = yi - 1 \/ yf = yi).
  { clear Hm Hzi. assert ((yi - 1) * D < (yf + 1) * D) by lia. assert (yf * D < (yi + 1) * D) by lia. assert (yi - 1 < yf + 1) by nia. assert (yf < yi + 1) by nia. lia. }
  set (q := (r - e + h) / (2 * h)) in *. set (t := (r - e + h) mod (2 * h)) in *.
  assert (Hqt : r - e + h = 2 * h * q + t /\ 0 <= t < 2 * h) by (split; [apply Z.div_mod; lia|apply Z.mod_pos_bound; lia]).
  clearbody q t. set (s1 := 10 * s + q) in *. assert (Eyi : yi = 2 * h * s1 + t - h) by (unfold yi, s1; lia).
  assert (Hodd : Z.odd yi = Z.odd (r - e)).
  { unfold yi. rewrite Hzi. replace (s * (20 * h) + r - e) with ((r - e) + 2 * (s * (10 * h))) by ring. rewrite Z.odd_add_mul_2. reflexivity. }
  clearbody s1. rewrite <- Hodd in Hm. assert (Ht := proj2 Hqt). clear Hqt Hodd Hzi A B E He. clearbody yi. destruct (Z.eqb_spec t 0) as [T0|T0].
  - subst t. assert (Es1 : yi = 2 * h * s1 - h) by lia.
    destruct Hyf as [Ef|Ef].
    + replace (Bool.eqb (Z.odd yf) (Z.odd yi)) with false in Hm.
      2:{ rewrite Ef. replace (yi - 1) with (Z.pred yi) by lia. rewrite Z.odd_pred, <- Z.negb_odd. destruct (Z.odd yi); reflexivity. }
      cbn [negb] in Hm. subst m. replace ((s1 - 1) * (2 * h) * D) with ((yi - h) * D) by (rewrite Es1; ring).
      assert (K : 2 * Z.abs ((yi - h) * D - Y) < 2 * h * D).
      { rewrite Z.abs_neq by (clear Es1 Eyi Ef Hf Hdm Hmb; nia). clear Es1 Eyi. rewrite Ef in *. nia. }
      split; [lia|]. intros Eq. lia.
    + replace (Bool.eqb (Z.odd yf) (Z.odd yi)) with true in Hm.
      2:{ rewrite Ef. destruct (Z.odd yi); reflexivity. }
      cbn [negb] in Hm. destruct (Z.eqb_spec ym 0) as [Z0|Z0].
      * assert (EY : Y = (2 * h * s1 - h) * D) by (rewrite Hdm, Z0, Ef, Es1; ring).
        destruct (Z.eqb_spec (s1 mod 2) 0) as [S0|S0]; subst m; rewrite EY.
        -- replace (s1 * (2 * h) * D - (2 * h * s1 - h) * D) with (h * D) by ring. rewrite Z.abs_eq by nia. split; [nia|]. intros _.
           rewrite Zmod_even in S0. destruct (Z.even s1); [reflexivity|discriminate].
        -- replace ((s1 - 1) * (2 * h) * D - (2 * h * s1 - h) * D) with (- (h * D)) by ring. rewrite Z.abs_opp, Z.abs_eq by nia. split; [nia|]. intros _.
           rewrite Zmod_even in S0. replace (s1 - 1) with (Z.pred s1) by lia. rewrite Z.even_pred, <- Z.negb_even. destruct (Z.even s1); [exfalso; apply S0; reflexivity|reflexivity].
      * subst m. replace (s1 * (2 * h) * D) with ((yi + h) * D) by (rewrite Es1; ring).
        assert (K : 2 * Z.abs ((yi + h) * D - Y) < 2 * h * D).
        { rewrite Ef in *. clear Es1 Eyi. assert (1 * D <= h * D) by nia. rewrite Z.abs_eq by lia. lia. }
        split; [lia|]. intros Eq. lia.
  - assert (m = s1) as -> by exact Hm. replace (s1 * (2 * h) * D) with ((yi + h - t) * D) by (rewrite Eyi; ring).
    assert (K : 2 * Z.abs ((yi + h - t) * D - Y) < 2 * h * D).
    { clear Eyi. destruct (Z.le_gt_cases 0 ((yi + h - t) * D - Y)).
      - rewrite Z.abs_eq by lia. assert (1 * D <= t * D) by (apply Z.mul_le_mono_nonneg_r; lia). clear Hm. lia.
      - rewrite Z.abs_neq by lia. assert ((t + 1) * D <= 2 * h * D) by (apply Z.mul_le_mono_nonneg_r; lia). lia. }
    split; [lia|]. intros Eq. lia.
Qed.

Lemma ten_succ kappa : 1 <= kappa -> 10 ^ (kappa + 1) = 10 * 10 ^ kappa.
Proof. intros H. rewrite <- Z.pow_succ_r by lia. reflexivity. Qed.
Lemma ten_even kappa : 1 <= kappa -> exists h, 10 ^ kappa = 2 * h /\ 0 < h.
Proof.
  intros H. exists (5 * 10 ^ (kappa - 1)). replace kappa with (Z.succ (kappa - 1)) at 1 by lia. rewrite Z.pow_succ_r by lia.
  pose proof (p10 (kappa - 1) ltac:(lia)). lia.
Qed.

Section Alg.
Variables (P D n kappa : Z) (closed : bool).
Hypothesis (HD : 0 < D) (HP : 0 < P) (Hn : 2 <= n) (Heven : n mod 2 = 0) (Hk : 1 <= kappa).
Let U := 10 ^ kappa.
Let V := 10 ^ (kappa + 1).
Let X := (n - 1) * P.
Let Y := n * P.
Let Z := (n + 1) * P.
Let delta := 2 * P / D.
Let zi := Z / D.
Hypothesis Hd : U <= delta < V.

Lemma HV : V = 10 * U.
Proof using All. unfold V, U. rewrite <- Z.pow_succ_r by lia. reflexivity. Qed.
Lemma HU : exists h, U = 2 * h /\ 0 < h.
Proof using All.
  exists (5 * 10 ^ (kappa - 1)). unfold U. replace kappa with (Z.succ (kappa - 1)) at 1 by lia. rewrite Z.pow_succ_r by lia.
  pose proof (p10 (kappa - 1) ltac:(lia)). lia.
Qed.
Lemma facts : delta * D <= 2 * P < (delta + 1) * D /\ zi * D <= Z < (zi + 1) * D /\ X = Z - 2 * P /\ Y = Z - P /\ P <= X /\ 0 < U.
Proof using All.
  pose proof (floor_bounds (2 * P) D HD) as A. pose proof (floor_bounds Z D HD) as B. fold delta in A. fold zi in B.
  destruct HU as (h & E & Hh). unfold X, Y, Z. split; [lia|]. split; [assumption|]. split; [ring|]. split; [ring|]. split; [nia|lia].
Qed.
Lemma hlen : Z - X < 10 * U * D.
Proof using All. destruct facts as (A & B & C & E & F & G). rewrite <- HV. nia. Qed.
Lemma y_ge_u : U * D <= Y.
Proof using All. destruct facts as (A & B & C & E & F & G). assert (U * D <= delta * D) by nia. unfold Y. nia. Qed.

(* the choice of the nearest multiple of 10^kappa *)
Lemma nearest_inside m : 2 * Z.abs (m * U * D - Y) <= U * D -> (2 * Z.abs (m * U * D - Y) = U * D -> Z.even m = true) ->
  X < m * U * D < Z.
Proof using All.
  intros H HT. destruct facts as (A & B & C & E & F & G). assert (L1 : U * D <= 2 * P) by nia.
  destruct (Z.eq_dec (U * D) (2 * P)) as [W|W].
  - assert (EY : Y = (n / 2) * (U * D)). { rewrite W. unfold Y. pose proof (Z.div_mod n 2 ltac:(lia)). nia. }
    assert (m = n / 2). { rewrite EY in H. replace (m * U * D - n / 2 * (U * D)) with ((m - n / 2) * (U * D)) in H by ring. assert (0 < U * D) by nia. nia. }
    subst m. replace (n / 2 * U * D) with Y by (rewrite EY; ring). lia.
  - lia.
Qed.
Lemma nearest_only m m' : 2 * Z.abs (m * U * D - Y) <= U * D -> (2 * Z.abs (m * U * D - Y) = U * D -> Z.even m = true) ->
  Z.abs (m * U * D - Y) <= Z.abs (m' * U * D - Y) /\
  (Z.abs (m * U * D - Y) = Z.abs (m' * U * D - Y) -> m' = m \/ Z.even m = true).
Proof using All.
  intros H HT. assert (0 < U * D) by (destruct HU as (h & E & Hh); nia). replace (m * U * D) with (m * (U * D)) in * by ring. replace (m' * U * D) with (m' * (U * D)) in * by ring.
  generalize dependent (U * D). intros w H1 H2 H3. destruct (Z.eq_dec m' m) as [->|N]; [split; [lia|auto]|].
  assert (w <= Z.abs (m' * w - m * w)) by nia.
  split; [lia|]. intros E. right. apply H2. lia.
Qed.

Lemma small_ok s r m : 0 <= s -> between D X Z kappa closed s -> zi = s * V + r -> delta <= r <= V ->
  (let dist := r - delta / 2 + U / 2 in let s1 := 10 * s + dist / U in
   m = if dist mod U =? 0 then
         if negb (Bool.eqb (Z.odd (Y / D)) (Z.odd (r - delta / 2))) then s1 - 1
         else if Y mod D =? 0 then (if s1 mod 2 =? 0 then s1 else s1 - 1) else s1
       else s1) ->
  0 < m /\ m mod 10 <> 0 /\ inI X Z closed (m * U * D) 1 /\ best D X Y Z closed m kappa.
Proof using All.
  cbv zeta. intros Hs HB Hzi Hr Hm. destruct facts as (A & B & C & E & F & G). destruct HU as (h & EU & Hh).
  assert (EV : V = 20 * h) by (rewrite HV; lia).
  assert (HM : 2 * Z.abs (m * U * D - Y) <= U * D /\ (2 * Z.abs (m * U * D - Y) = U * D -> Z.even m = true)).
  { rewrite EU. apply (pick D P Y Z delta zi h s r m HD Hh E A B).
    - rewrite <- EV. exact Hzi.
    - rewrite EU in Hm. replace (2 * h / 2) with h in Hm by (rewrite Z.mul_comm, Z.div_mul; lia). exact Hm. }
  clear Hm.
  destruct HM as (HM1 & HM2). pose proof (nearest_inside m HM1 HM2) as HIn.
  assert (HI : inI X Z closed (m * U * D) 1) by (unfold inI; rewrite !Z.mul_1_r; destruct closed; lia).
  assert (HR : 10 * s < m < 10 * s + 10).
  { pose proof (between_strict D X Z kappa closed ltac:(lia) s _ 1 ltac:(lia) HB HI) as (L1 & L2). fold U in L1, L2. rewrite !Z.mul_1_r in *.
    replace (s * (10 * U) * D) with ((10 * s) * (U * D)) in L1 by ring. replace ((s + 1) * (10 * U) * D) with ((10 * s + 10) * (U * D)) in L2 by ring.
    replace (m * U * D) with (m * (U * D)) in L1, L2 by ring. assert (0 < U * D) by nia.
    apply Z.mul_lt_mono_pos_r in L1; [|assumption]. apply Z.mul_lt_mono_pos_r in L2; [|assumption]. clear - L1 L2. lia. }
  split; [lia|]. split; [lia|]. split; [exact HI|].
  apply (small_best D X Y Z kappa closed HD ltac:(lia) hlen s m Hs HB HR); fold U; try lia.
  - pose proof y_ge_u. lia.
  - intros m' _. apply nearest_only; assumption.
Qed.

(* the tests that lead there *)
Let s := zi / V.
Let r := zi mod V.
Lemma sr : zi = s * V + r /\ 0 <= r < V /\ 0 <= zi /\ 0 <= s.
Proof using All.
  assert (0 < V) by (destruct HU; rewrite HV; lia). destruct facts as (A & B & C & E & F & G).
  assert (0 <= zi) by (apply Z.div_pos; [unfold Z; nia|lia]).
  split; [rewrite (Z.mul_comm s); apply Z.div_mod; lia|]. split; [apply Z.mod_pos_bound; lia|]. split; [assumption|]. apply Z.div_pos; lia.
Qed.
Lemma z_below : Z < (s + 1) * V * D.
Proof using All. destruct sr as (E & R & _). destruct facts as (A & B & _). assert (zi + 1 <= (s + 1) * V) by nia. nia. Qed.
(* delta < r *)
Lemma case_small : delta < r -> between D X Z kappa closed s.
Proof using All.
  intros H. destruct sr as (E & R & _). destruct facts as (A & B & C & F & _). pose proof z_below as Hz. unfold between. fold U. rewrite <- HV.
  assert (s * V * D < X). { assert (s * V + (delta + 1) <= zi) by lia. nia. } destruct closed; lia.
Qed.
(* r < delta *)
Lemma case_big : r < delta -> X < s * V * D <= Z /\ 1 <= s.
Proof using All.
  intros H. destruct sr as (E & R & Z0 & S0). destruct facts as (A & B & C & F & PX & _).
  assert (X < s * V * D). { assert (zi + 1 - delta <= s * V) by lia. nia. }
  assert (s * V * D <= Z). { assert (s * V <= zi) by lia. nia. } split; [lia|].
  destruct (Z.eq_dec s 0) as [S1|]; [|lia]. rewrite S1 in *. lia.
Qed.
Lemma case_big_in : r < delta -> (r = 0 -> closed = true \/ Z mod D <> 0) -> inI X Z closed (s * V * D) 1.
Proof using All.
  intros H Hc. destruct (case_big H) as (L & _). unfold inI. rewrite !Z.mul_1_r. destruct closed; [lia|]. split; [lia|].
  destruct (Z.eq_dec (s * V * D) Z) as [Eq|]; [|lia]. exfalso. destruct sr as (E & R & _).
  assert (Ez : zi = s * V) by (unfold zi; rewrite <- Eq; apply Z.div_mul; lia).
  destruct (Hc ltac:(lia)) as [|Hm]; [discriminate|]. apply Hm. rewrite <- Eq. apply Z.mod_mul. lia.
Qed.
Lemma case_exact : r < delta -> r = 0 -> closed = false -> Z mod D = 0 -> between D X Z kappa closed (s - 1).
Proof using All.
  intros H R0 Hc Hm. destruct (case_big H) as (L & S1). unfold between. fold U. rewrite <- HV, Hc. destruct sr as (E & R & _).
  assert (EZ : Z = s * V * D). { rewrite (Z.div_mod Z D) by lia. fold zi. rewrite Hm, E, R0. ring. }
  destruct facts as (A & B & C & _). split; [|lia]. assert ((delta + 1) * D <= V * D) by nia. nia.
Qed.
(* r = delta *)
Lemma case_equal : r = delta -> Z.odd (X / D) = negb (s * V * D <=? X) /\ s * V * D < Z /\ (X mod D = 0 -> X <= s * V * D).
Proof using All.
  intros H. destruct sr as (E & R & _). destruct facts as (A & B & C & F & PX & UP). pose proof (floor_bounds X D HD) as Hf.
  set (xf := X / D) in *. assert (Hxf : xf = s * V \/ xf = s * V - 1).
  { assert (Q1 : zi = s * V + delta) by lia. rewrite Q1 in B. assert (xf < s * V + 1) by (apply (Z.mul_lt_mono_pos_r D); lia).
    assert (s * V - 1 < xf + 1) by (apply (Z.mul_lt_mono_pos_r D); lia). lia. }
  assert (EO : Z.odd (s * V) = false).
  { rewrite HV. destruct HU as (h & EU & _). rewrite EU. replace (s * (10 * (2 * h))) with (0 + 2 * (s * 10 * h)) by ring. rewrite Z.odd_add_mul_2. reflexivity. }
  split; [|split].
  - destruct Hxf as [Ex|Ex].
    + rewrite Ex, EO. destruct (Z.leb_spec (s * V * D) X); [reflexivity|]. exfalso. rewrite Ex in Hf. lia.
    + replace (Z.odd xf) with true. 2:{ rewrite Ex. replace (s * V - 1) with (Z.pred (s * V)) by lia. rewrite Z.odd_pred, <- Z.negb_odd, EO. reflexivity. }
      destruct (Z.leb_spec (s * V * D) X); [|reflexivity]. exfalso. rewrite Ex in Hf. lia.
  - assert (Q1 : zi = s * V + delta) by lia. rewrite Q1 in B. assert (0 < delta * D) by (apply Z.mul_pos_pos; lia). lia.
  - intros X0. pose proof (Z.div_mod X D ltac:(lia)) as EX. fold xf in EX. rewrite X0 in EX. destruct Hxf as [Ex|Ex]; rewrite Ex in EX; lia.
Qed.
Lemma case_equal_small : r = delta -> (closed = true -> X mod D <> 0) -> s * V * D <= X -> between D X Z kappa closed s.
Proof using All.
  intros H Hc HX. pose proof z_below. unfold between. fold U. rewrite <- HV. destruct closed; [|lia]. split; [|lia].
  destruct (Z.eq_dec (s * V * D) X) as [E|]; [|lia]. exfalso. apply (Hc eq_refl). rewrite <- E. apply Z.mod_mul. lia.
Qed.
Lemma big_ok s0 i : inI X Z closed (s * V * D) 1 -> s = s0 * 10 ^ i -> 0 <= i -> 0 < s0 -> s0 mod 10 <> 0 ->
  (X <= V * D -> V * D <= Z -> 19 * U * D < 2 * Y) ->
  inI X Z closed (s0 * 10 ^ (kappa + 1 + i) * D) 1 /\ best D X Y Z closed s0 (kappa + 1 + i).
Proof using All.
  intros HI ES Hi Hs Hm H1. assert (EI : s0 * 10 ^ (kappa + 1 + i) * D = s * V * D) by (rewrite ES, Z.pow_add_r by lia; unfold V; ring).
  split; [rewrite EI; exact HI|].
  apply (big_best D X Y Z kappa closed HD ltac:(lia) hlen s s0 i); try assumption.
  - fold U. rewrite <- HV. exact HI.
  - intros S1 s' j' J HC Hj Hs'. destruct HC as (P1 & J0 & J1 & HC). apply (inI_weak _ _ kappa) in HI. rewrite S1, Z.mul_1_l, !Z.mul_1_r in HI.
    specialize (H1 ltac:(lia) ltac:(lia)). pose proof (p10 J J0) as PJ.
    assert (W1 : s' * 10 ^ (j' + J) <= 9 * U * 10 ^ J).
    { unfold U. rewrite <- Z.mul_assoc, <- Z.pow_add_r by lia. assert (10 ^ (j' + J) <= 10 ^ (kappa + J)) by (apply Z.pow_le_mono_r; lia). pose proof (p10 (j' + J) J1). nia. }
    unfold dist. rewrite Z.mul_1_l. replace (10 ^ (kappa + 1 + J)) with (V * 10 ^ J) by (unfold V; rewrite <- Z.pow_add_r by lia; f_equal; lia).
    rewrite HV. set (w := s' * 10 ^ (j' + J)) in *. clearbody w. assert (w * D <= 9 * U * 10 ^ J * D) by nia.
    assert (19 * U * D * 10 ^ J < 2 * Y * 10 ^ J) by nia. assert (0 < U * D * 10 ^ J) by (destruct HU; nia).
    replace (10 * U * 10 ^ J * D) with (10 * (U * D * 10 ^ J)) by ring. replace (9 * U * 10 ^ J * D) with (9 * (U * D * 10 ^ J)) in * by ring.
    replace (19 * U * D * 10 ^ J) with (19 * (U * D * 10 ^ J)) in * by ring. lia.
Qed.
End Alg.
