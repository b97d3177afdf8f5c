(* Reading a printed floating-point value back: what the text of FloatSpec denotes. *)
From Verif Require Import Base GroupSpec DigitsSpec IntSpec DigitsProofs FloatSpec FloatModel FloatArith FloatInit.

(* ---- the reader ---- *)
(* digits; '.' starts the decimals (N: all the digits, p: how many are decimals), ',' is skipped *)
Fixpoint read_num (N p : Z) (seen : bool) (u : list Z) : Z * Z * list Z :=
  match u with
  | [] => (N, p, [])
  | c :: u' =>
      if (48 <=? c) && (c <=? 57) then read_num (N * 10 + (c - 48)) (if seen then p + 1 else p) seen u'
      else if c =? 46 then read_num N p true u'
      else if c =? 44 then read_num N p seen u'
      else (N, p, u)
  end.
(* (N, p, E): the number N * 10^(E - p) *)
Definition read_float (u : list Z) : option (Z * Z * Z) :=
  match read_num 0 0 false u with
  | (N, p, []) => Some (N, p, 0)
  | (N, p, c :: s :: ds) =>
      if (c =? 101) || (c =? 69) then
        match read_num 0 0 false ds with
        | (A, _, []) => if s =? 43 then Some (N, p, A) else if s =? 45 then Some (N, p, - A) else None
        | _ => None
        end
      else None
  | _ => None
  end.
(* N * 10^a is m * 10^b; it is the multiple of 10^a nearest to m * 10^b, ties to even *)
Definition same_value (N a m b : Z) : Prop := let k := Z.min a b in N * 10 ^ (a - k) = m * 10 ^ (b - k).
Definition nearest_decimal (N a m b : Z) : Prop :=
  let k := Z.min a b in
  2 * Z.abs (m * 10 ^ (b - k) - N * 10 ^ (a - k)) <= 10 ^ (a - k) /\
  (2 * Z.abs (m * 10 ^ (b - k) - N * 10 ^ (a - k)) = 10 ^ (a - k) -> Z.even N = true).

(* ---- proofs ---- *)
Definition accum (N : Z) (ds : list Z) : Z := fold_left (fun a d => a * 10 + d) ds N.
Definition small (d : Z) : Prop := 0 <= d < 10.
Lemma decimal_char d : small d -> digit_char false d = 48 + d.
Proof. intros H. apply dchar10. exact H. Qed.
Lemma digits_smallf v : 0 <= v -> Forall small (digits 10 v).
Proof. intros H. destruct (repr_digits 10 v ltac:(lia) H) as (F & _). exact F. Qed.
Lemma last_digits_smallf k : forall v, Forall small (last_digits 10 k v).
Proof. induction k as [|k IH]; intros v; cbn [last_digits]; [constructor|]. apply Forall_app. split; [apply IH|]. constructor; [apply Z.mod_pos_bound; lia|constructor]. Qed.
Lemma accum_app N a b : accum N (a ++ b) = accum (accum N a) b.
Proof. apply fold_left_app. Qed.
Lemma accum_digits v : 0 <= v -> accum 0 (digits 10 v) = v.
Proof. intros H. destruct (repr_digits 10 v ltac:(lia) H) as (_ & V & _). exact V. Qed.
Lemma accum_last k : forall N v, 0 <= v -> accum N (last_digits 10 k v) = N * 10 ^ Z.of_nat k + v mod 10 ^ Z.of_nat k.
Proof.
  induction k as [|k IH]; intros N v Hv; cbn [last_digits].
  - cbn [accum fold_left]. change (10 ^ Z.of_nat 0) with 1. rewrite Z.mod_1_r. unfold accum; cbn. lia.
  - rewrite accum_app, IH by (apply Z.div_pos; lia). cbn [accum fold_left]. unfold accum; cbn [fold_left].
    rewrite Nat2Z.inj_succ, Z.pow_succ_r by lia. pose proof (pow10_pos (Z.of_nat k) ltac:(lia)).
    rewrite (Z.rem_mul_r v 10 (10 ^ Z.of_nat k)) by lia. lia.
Qed.
Lemma accum_both N p : 0 <= N -> 0 <= p -> accum 0 (digits 10 (N / 10 ^ p) ++ last_digits 10 (Z.to_nat p) N) = N.
Proof.
  intros HN Hp. pose proof (pow10_pos p Hp). rewrite accum_app, accum_digits by (apply Z.div_pos; lia).
  rewrite accum_last by lia. rewrite Z2Nat.id by lia. pose proof (Z.div_mod N (10 ^ p)). lia.
Qed.

Lemma read_digit N p seen d u : small d ->
  read_num N p seen (digit_char false d :: u) = read_num (N * 10 + d) (if seen then p + 1 else p) seen u.
Proof.
  intros H. rewrite decimal_char by exact H. unfold small in H. cbn [read_num]. replace ((48 <=? 48 + d) && (48 + d <=? 57)) with true by lia.
  replace (48 + d - 48) with d by lia. reflexivity.
Qed.
Lemma read_digits ds : Forall small ds -> forall N p seen u,
  read_num N p seen (decimal ds ++ u) = read_num (accum N ds) (if seen then p + zlen ds else p) seen u.
Proof.
  induction 1 as [|d ds Hd Hds IH]; intros N p seen u.
  - cbn [decimal map app]. change (zlen []) with 0. rewrite Z.add_0_r. destruct seen; reflexivity.
  - cbn [decimal map app]. rewrite read_digit by exact Hd. fold (decimal ds). rewrite IH, zlen_cons. unfold accum. cbn [fold_left].
    destruct seen; [|reflexivity]. f_equal. lia.
Qed.
Lemma read_grouped B ds : Forall small ds -> forall N p u,
  read_num N p false (grouped B [44] (decimal ds) ++ u) = read_num (accum N ds) p false u.
Proof.
  induction 1 as [|d ds Hd Hds IH]; intros N p u; [reflexivity|].
  cbn [decimal map grouped app]. rewrite read_digit by exact Hd. fold (decimal ds). unfold accum. cbn [fold_left]. fold (accum (N * 10 + d) ds).
  destruct ((0 <? zlen (decimal ds)) && B (zlen (decimal ds))); cbn [app]; [|apply IH].
  rewrite <- IH. reflexivity.
Qed.
Lemma read_point N p u : read_num N p false (46 :: u) = read_num N p true u.
Proof. reflexivity. Qed.

Lemma read_fixed_num B sp N p u : 0 <= N -> 0 <= p ->
  exists seen, (0 < p -> seen = true) /\
  read_num 0 0 false (fixed_text B [44] [46] sp N p ++ u) = read_num N p seen u.
Proof.
  intros HN Hp. unfold fixed_text. pose proof (pow10_pos p Hp).
  rewrite <- !app_assoc. rewrite read_grouped by (apply digits_smallf, Z.div_pos; lia).
  destruct (sp || (0 <? p)) eqn:E; cbn [app].
  - exists true. split; [reflexivity|]. rewrite read_point. rewrite read_digits by apply last_digits_smallf.
    rewrite last_digits_zlen by lia. rewrite <- accum_app, accum_both by assumption. reflexivity.
  - exists false. assert (p = 0) as -> by (apply orb_false_iff in E as [_ E]; lia). split; [lia|].
    cbn [Z.to_nat last_digits decimal map app]. rewrite accum_digits by (apply Z.div_pos; lia). change (10 ^ 0) with 1. rewrite Z.div_1_r. reflexivity.
Qed.
Lemma read_fixed B sp N p : 0 <= N -> 0 <= p -> read_float (fixed_text B [44] [46] sp N p) = Some (N, p, 0).
Proof.
  intros HN Hp. unfold read_float. destruct (read_fixed_num B sp N p [] HN Hp) as (seen & _ & E).
  rewrite app_nil_r in E. rewrite E. reflexivity.
Qed.
Lemma exponent_letter lc u N p seen : read_num N p seen (exponent_text lc u) = (N, p, exponent_text lc u).
Proof. unfold exponent_text. destruct (low_prefix lc); reflexivity. Qed.
Lemma read_sci lc sp N p E : 0 <= N -> 0 <= p -> read_float (sci_text lc [46] sp N p E) = Some (N, p, E).
Proof.
  intros HN Hp. unfold read_float.
  assert (HT : sci_text lc [46] sp N p E = fixed_text (fun _ => false) [44] [46] sp N p ++ exponent_text lc E).
  { unfold sci_text, fixed_text. rewrite <- !app_assoc. f_equal.
    generalize (decimal (digits 10 (N / 10 ^ p))). intros l. induction l as [|a l IH]; [reflexivity|]. cbn [grouped]. rewrite andb_false_r. cbn [app]. rewrite <- IH. reflexivity. }
  rewrite HT. destruct (read_fixed_num (fun _ => false) sp N p (exponent_text lc E) HN Hp) as (seen & _ & ER).
  rewrite ER, exponent_letter. unfold exponent_text.
  assert (HD : read_num 0 0 false ((if Z.abs E <? 10 then [48] else []) ++ decimal (digits 10 (Z.abs E))) = (Z.abs E, 0, [])).
  { rewrite <- (app_nil_r (decimal _)).
    assert (HX : forall u, read_num 0 0 false ((if Z.abs E <? 10 then [48] else []) ++ u) = read_num 0 0 false u) by (intros u; destruct (Z.abs E <? 10); reflexivity).
    rewrite HX, read_digits by (apply digits_smallf; lia). rewrite accum_digits by lia. reflexivity. }
  rewrite HD. destruct (low_prefix lc); cbn [Z.eqb Pos.eqb orb]; (destruct (Z.ltb_spec E 0); cbn [Z.eqb Pos.eqb]; do 2 f_equal; lia).
Qed.

(* ---- rounding ---- *)
Lemma rounded_nearest m e p : nearest_decimal (rounded m e p) (- p) m e.
Proof.
  unfold nearest_decimal, rounded. cbv zeta. destruct (Z.leb_spec 0 (e + p)).
  - replace (Z.min (- p) e) with (- p) by lia. replace (- p - - p) with 0 by lia. replace (e - - p) with (e + p) by lia. change (10 ^ 0) with 1. lia.
  - replace (Z.min (- p) e) with e by lia. replace (e - e) with 0 by lia. replace (- p - e) with (- (e + p)) by lia. change (10 ^ 0) with 1. rewrite Z.mul_1_r.
    destruct (nearest_ok m (10 ^ (- (e + p))) ltac:(apply pow10_pos; lia)) as [H1 H2]. rewrite (Z.mul_comm (nearest _ _)). split; assumption.
Qed.
Lemma rounded_nonneg m e p : 0 <= m -> 0 <= rounded m e p.
Proof.
  intros Hm. unfold rounded. destruct (Z.leb_spec 0 (e + p)); [pose proof (pow10_pos (e + p) ltac:(lia)); nia|].
  apply nearest_ge; [apply pow10_pos; lia|lia].
Qed.
Lemma near_shift N a m b s : nearest_decimal N a m b -> nearest_decimal N (a + s) m (b + s).
Proof.
  unfold nearest_decimal. cbv zeta. replace (Z.min (a + s) (b + s)) with (Z.min a b + s) by lia.
  replace (a + s - (Z.min a b + s)) with (a - Z.min a b) by lia. replace (b + s - (Z.min a b + s)) with (b - Z.min a b) by lia. exact (fun h => h).
Qed.
(* the rounding carries into a new digit *)
Lemma near_carry p a m b : 0 <= p -> nearest_decimal (10 ^ (p + 1)) a m b -> m * 10 ^ (b - Z.min a b) < 10 ^ (p + 1) * 10 ^ (a - Z.min a b) \/ a <= b ->
  nearest_decimal (10 ^ p) (a + 1) m b.
Proof.
  intros Hp [H1 H2] Hlt. unfold nearest_decimal. cbv zeta. rewrite (pow10_split p 1) in * by lia. change (10 ^ 1) with 10 in *.
  pose proof (pow10_pos p Hp).
  destruct (Z.le_gt_cases a b).
  - replace (Z.min a b) with a in H1 by lia. replace (a - a) with 0 in H1 by lia. change (10 ^ 0) with 1 in H1.
    assert (E : m * 10 ^ (b - a) = 10 ^ p * 10) by lia. destruct (Z.eq_dec a b) as [<-|].
    + replace (Z.min (a + 1) a) with a by lia. replace (a - a) with 0 in * by lia. replace (a + 1 - a) with 1 by lia. change (10 ^ 0) with 1 in *. change (10 ^ 1) with 10. lia.
    + replace (Z.min (a + 1) b) with (a + 1) by lia. replace (a + 1 - (a + 1)) with 0 by lia. change (10 ^ 0) with 1.
      replace (b - a) with (1 + (b - (a + 1))) in E by lia. rewrite pow10_split in E by lia. change (10 ^ 1) with 10 in E. lia.
  - replace (Z.min (a + 1) b) with b by lia. replace (Z.min a b) with b in * by lia. replace (b - b) with 0 in * by lia. change (10 ^ 0) with 1 in *. rewrite Z.mul_1_r in *.
    replace (a + 1 - b) with (1 + (a - b)) by lia. rewrite (pow10_split 1 (a - b)) by lia. change (10 ^ 1) with 10. pose proof (pow10_pos (a - b) ltac:(lia)).
    replace (10 ^ p * (10 * 10 ^ (a - b))) with (10 ^ p * 10 * 10 ^ (a - b)) by ring. lia.
Qed.
Lemma sci_rounded_ok m e p : 0 <= m -> 0 <= p -> let '(N, E) := sci_rounded m e p in
  nearest_decimal N (E - p) m e /\ 0 <= N /\ (0 < m -> 10 ^ p <= N < 10 ^ (p + 1)) /\ (m = 0 -> N = 0).
Proof.
  intros Hm Hp. unfold sci_rounded. set (dc := zlen (digits 10 m)).
  pose proof (rounded_nearest m (1 - dc) p) as HR. pose proof (rounded_nonneg m (1 - dc) p Hm) as HN.
  assert (Hd : 1 <= dc) by (apply digits_nonneg_len; exact Hm). pose proof (pow10_pos p Hp).
  pose proof (digits_bound 10 m ltac:(lia) Hm) as (Hup & HB & _). fold dc in Hup, HB.
  apply (near_shift _ _ _ _ (e + dc - 1)) in HR. replace (1 - dc + (e + dc - 1)) with e in HR by lia.
  unfold sci_carries, sci_exponent. fold dc. destruct (Z.eqb_spec (rounded m (1 - dc) p) (10 ^ (p + 1))) as [E|E].
  - rewrite E in HR. split; [|split; [lia|split]].
    + replace (e + dc - 1 + 1 - p) with (- p + (e + dc - 1) + 1) by lia. apply near_carry; [exact Hp|exact HR|].
      destruct (Z.le_gt_cases (- p + (e + dc - 1)) e) as [|Hgt]; [right; assumption|]. left.
      replace (Z.min (- p + (e + dc - 1)) e) with e by lia. replace (e - e) with 0 by lia. change (10 ^ 0) with 1. rewrite Z.mul_1_r.
      rewrite <- pow10_split by lia. replace (p + 1 + (- p + (e + dc - 1) - e)) with dc by lia. exact Hup.
    + intros _. rewrite (pow10_split p 1) by lia. change (10 ^ 1) with 10. lia.
    + intros ->. unfold rounded in E. change dc with 1 in E. replace (0 <=? 1 - 1 + p) with true in E by lia. rewrite Z.mul_0_l in E. pose proof (pow10_pos (p + 1) ltac:(lia)). lia.
  - split; [replace (e + dc - 1 - p) with (- p + (e + dc - 1)) by lia; exact HR|]. split; [exact HN|]. split.
    + intros H0. assert (Hlo : 10 ^ (dc - 1) <= m) by (destruct (Z.eq_dec dc 1) as [->|]; [change (10 ^ (1 - 1)) with 1; lia|apply HB; lia]).
      assert (10 ^ p <= rounded m (1 - dc) p <= 10 ^ (p + 1)); [|lia]. unfold rounded. destruct (Z.leb_spec 0 (1 - dc + p)).
      * pose proof (pow10_pos (1 - dc + p) ltac:(lia)). split.
        -- replace p with ((dc - 1) + (1 - dc + p)) at 1 by lia. rewrite pow10_split by lia. nia.
        -- replace (p + 1) with (dc + (1 - dc + p)) by lia. rewrite (pow10_split dc (1 - dc + p)) by lia. apply Z.mul_le_mono_nonneg_r; lia.
      * set (k := - (1 - dc + p)). assert (Hk : 0 < k) by (unfold k; lia). pose proof (pow10_pos k ltac:(lia)). split.
        -- apply nearest_ge; [lia|]. rewrite <- pow10_split by lia. replace (p + k) with (dc - 1) by (unfold k; lia). exact Hlo.
        -- apply nearest_le; [lia|]. rewrite <- pow10_split by lia. replace (p + 1 + k) with dc by (unfold k; lia). lia.
    + intros ->. unfold rounded. change dc with 1. replace (0 <=? 1 - 1 + p) with true by lia. reflexivity.
Qed.
Lemma stripped_ok : forall p N, 0 <= N -> let '(N', p') := stripped p N in
  N = N' * 10 ^ (Z.of_nat p - p') /\ 0 <= p' <= Z.of_nat p /\ 0 <= N' /\ (p' = 0 \/ N' mod 10 <> 0).
Proof.
  induction p as [|p IH]; intros N HN; cbn [stripped].
  - change (Z.of_nat 0 - 0) with 0. change (10 ^ 0) with 1. lia.
  - destruct (Z.eqb_spec (N mod 10) 0) as [E|E].
    + specialize (IH (N / 10) ltac:(apply Z.div_pos; lia)). destruct (stripped p (N / 10)) as [N' p']. destruct IH as (H1 & H2 & H3 & H4).
      split; [|split; [lia|split; assumption]]. replace (Z.of_nat (S p) - p') with (1 + (Z.of_nat p - p')) by lia. rewrite pow10_split by lia. change (10 ^ 1) with 10.
      pose proof (Z.div_mod N 10). lia.
    + rewrite Z.sub_diag. change (10 ^ 0) with 1. lia.
Qed.
Lemma same_value_shift N k a : 0 <= k -> same_value (N * 10 ^ k) a N (a + k).
Proof. intros H. unfold same_value. cbv zeta. replace (Z.min a (a + k)) with a by lia. rewrite Z.sub_diag. replace (a + k - a) with k by lia. change (10 ^ 0) with 1. lia. Qed.

Definition plain_style (s : float_style) : Prop := st_point s = [46] /\ st_sep s = [44].
Lemma same_value_id m e : same_value m e m e.
Proof. unfold same_value. reflexivity. Qed.
Lemma read_exact_fixed s m e : plain_style s -> 0 <= m -> read_float (exact_fixed s m e) = Some (m * 10 ^ (e + Z.max 0 (- e)), Z.max 0 (- e), 0).
Proof.
  intros [Hp Hs] Hm. unfold exact_fixed. rewrite Hp, Hs. pose proof (pow10_pos (e + Z.max 0 (- e)) ltac:(lia)). apply read_fixed; [nia|lia].
Qed.
Lemma read_exact_sci s m e : plain_style s -> 0 <= m -> read_float (exact_sci s m e) = Some (m, zlen (digits 10 m) - 1, sci_exponent m e).
Proof. intros [Hp Hs] Hm. unfold exact_sci. rewrite Hp. apply read_sci; [exact Hm|]. pose proof (digits_nonneg_len m Hm). lia. Qed.
Lemma exact_fixed_value m e : same_value (m * 10 ^ (e + Z.max 0 (- e))) (0 - Z.max 0 (- e)) m e.
Proof.
  unfold same_value. cbv zeta. replace (Z.min (0 - Z.max 0 (- e)) e) with (- Z.max 0 (- e)) by lia. replace (0 - Z.max 0 (- e) - - Z.max 0 (- e)) with 0 by lia.
  replace (e - - Z.max 0 (- e)) with (e + Z.max 0 (- e)) by lia. change (10 ^ 0) with 1. lia.
Qed.
Lemma exact_sci_value m e : same_value m (sci_exponent m e - (zlen (digits 10 m) - 1)) m e.
Proof. unfold sci_exponent. replace (e + zlen (digits 10 m) - 1 - (zlen (digits 10 m) - 1)) with e by lia. apply same_value_id. Qed.
Lemma denotes_exact s m e : plain_style s -> 0 <= m -> st_precision s = None -> st_notation s <> NHex ->
  exists N p E, read_float (decimal_body s m e) = Some (N, p, E) /\ same_value N (E - p) m e.
Proof.
  intros Hs Hm Hp Hn.
  assert (HF : exists N p E, read_float (exact_fixed s m e) = Some (N, p, E) /\ same_value N (E - p) m e).
  { eexists _, _, _. split; [apply read_exact_fixed; assumption|apply exact_fixed_value]. }
  assert (HS : exists N p E, read_float (exact_sci s m e) = Some (N, p, E) /\ same_value N (E - p) m e).
  { eexists _, _, _. split; [apply read_exact_sci; assumption|apply exact_sci_value]. }
  unfold decimal_body. rewrite Hp. destruct (st_notation s); try assumption; [|congruence]. destruct (_ <? _); assumption.
Qed.
Lemma denotes_fixed s m e p : plain_style s -> 0 <= m -> 0 <= p -> st_precision s = Some p -> st_notation s = NFixed ->
  exists N, read_float (decimal_body s m e) = Some (N, p, 0) /\ nearest_decimal N (- p) m e.
Proof.
  intros [Hpt Hse] Hm Hp Ep En. exists (rounded m e p). split; [|apply rounded_nearest]. unfold decimal_body. rewrite En, Ep, Hpt, Hse. apply read_fixed; [apply rounded_nonneg; exact Hm|exact Hp].
Qed.
Lemma denotes_sci s m e p : plain_style s -> 0 <= m -> 0 <= p -> st_precision s = Some p -> st_notation s = NScientific ->
  exists N E, read_float (decimal_body s m e) = Some (N, p, E) /\ nearest_decimal N (E - p) m e /\ (0 < m -> 10 ^ p <= N < 10 ^ (p + 1)).
Proof.
  intros [Hpt Hse] Hm Hp Ep En. pose proof (sci_rounded_ok m e p Hm Hp) as H. unfold decimal_body. rewrite En, Ep, Hpt. destruct (sci_rounded m e p) as [N E].
  destruct H as (H1 & H2 & H3 & _). exists N, E. split; [apply read_sci; assumption|]. split; assumption.
Qed.
Lemma denotes_general s m e prec : plain_style s -> 0 <= m -> 0 <= prec -> st_precision s = Some prec -> st_notation s = NGeneral ->
  exists N p E N0 a, read_float (decimal_body s m e) = Some (N, p, E) /\ same_value N (E - p) N0 a /\ nearest_decimal N0 a m e /\
    (0 < m -> 10 ^ (Z.max 1 prec - 1) <= N0 < 10 ^ Z.max 1 prec) /\ (st_showpoint s = false -> p = 0 \/ N mod 10 <> 0).
Proof.
  intros [Hpt Hse] Hm Hp Ep En. set (P := Z.max 1 prec). pose proof (sci_rounded_ok m e (P - 1) Hm ltac:(lia)) as H.
  unfold decimal_body. rewrite En, Ep. unfold general_text, general_is_fixed, general_digits. fold P. rewrite Hpt, Hse.
  destruct (sci_rounded m e (P - 1)) as [N0 E0]. cbn [snd]. destruct H as (H1 & H2 & H3 & _). replace (P - 1 + 1) with P in H3 by lia.
  set (fixed := (-4 <=? E0) && (E0 <? P)). set (p := if fixed then P - 1 - E0 else P - 1).
  assert (Hp0 : 0 <= p) by (unfold p, fixed; destruct (Z.leb_spec (-4) E0), (Z.ltb_spec E0 P); cbn [andb]; lia).
  assert (HQ : exists N' p', (if st_showpoint s then (N0, p) else stripped (Z.to_nat p) N0) = (N', p') /\ N0 = N' * 10 ^ (p - p') /\ 0 <= p' <= p /\ 0 <= N' /\
     (st_showpoint s = false -> p' = 0 \/ N' mod 10 <> 0)).
  { destruct (st_showpoint s).
    - exists N0, p. split; [reflexivity|]. rewrite Z.sub_diag. change (10 ^ 0) with 1. split; [lia|]. split; [lia|]. split; [exact H2|discriminate].
    - pose proof (stripped_ok (Z.to_nat p) N0 H2) as HS. destruct (stripped (Z.to_nat p) N0) as [N' p']. rewrite Z2Nat.id in HS by lia. destruct HS as (S1 & S2 & S3 & S4).
      exists N', p'. split; [reflexivity|]. split; [exact S1|]. split; [lia|]. split; [exact S3|]. intros _; exact S4. }
  destruct HQ as (N' & p' & -> & Q1 & Q2 & Q3 & Q4).
  exists N', p', (if fixed then 0 else E0), N0, (E0 - (P - 1)).
  split; [destruct fixed; [apply read_fixed|apply read_sci]; lia|]. split; [|split; [exact H1|split; [exact H3|exact Q4]]].
  assert (Ea : (if fixed then 0 else E0) - p' = E0 - (P - 1) + (p - p')) by (unfold p; destruct fixed; lia). rewrite Ea.
  pose proof (same_value_shift N' (p - p') (E0 - (P - 1)) ltac:(lia)) as HV. rewrite <- Q1 in HV.
  unfold same_value in *. cbv zeta in *. rewrite Z.min_comm. symmetry. exact HV.
Qed.
