(* Specification of width arithmetic (as exact arithmetic on numbers of
   1/65536ths, clamped) and proofs about WidthModel. *)
From Verif Require Import Base WidthModel.

(* ------ specification ------ *)
(* the closest representable underlying value *)
Definition clamp (v : Z) : Z := Z.max u_min (Z.min u_max v).
Definition scaled (n : Z) : Z := 65536 * n.   (* integer n as 1/65536ths *)

Ltac unf :=
  cbv [w_of_i16 w_of_signed w_of_unsigned w_sat_cast_unsigned w_sat_cast_signed
       w_sat_add w_sat_add_i16 w_sat_add_i32 w_sat_add_i64 w_sat_sub w_sat_sub_i16
       w_sat_sub_i32 w_sat_sub_i64 w_cmp_i16 w_cmp_u16 w_cmp_i32 w_cmp_u32 w_cmp_i64
       w_cmp_u64 w_lt_i16 w_le_i16 w_gt_i16 w_ge_i16 w_eq_i16
       sat_tail clamp scaled is_width in_i in_u chk_i to_i to_u obind u_max u_min w_add w_sub w_neg] in *;
  repeat match goal with
  | |- context [2 ^ ?n] => let v := eval vm_compute in (2 ^ n) in change (2 ^ n) with v
  | H : context [2 ^ ?n] |- _ => let v := eval vm_compute in (2 ^ n) in change (2 ^ n) with v in H
  end.

Ltac br :=
  repeat match goal with
  | |- context [if ?b then _ else _] => destruct b eqn:?
  end.
Ltac fin := try discriminate; try (f_equal; lia); try lia.

Lemma i16_shift x : -32768 <= x <= 32767 ->
  to_i 32 (to_u 32 (to_u 32 (to_u 16 x) * 65536)) = 65536 * x.
Proof. intros H; unf; lia. Qed.

Lemma of_i16 x : -32768 <= x <= 32767 -> w_of_i16 x = clamp (scaled x).
Proof. intros H; unfold w_of_i16; rewrite i16_shift by lia; unf; lia. Qed.
Lemma of_signed x : w_of_signed x = clamp (scaled x).
Proof.
  unfold w_of_signed. destruct (x <? -32768) eqn:E1; [unf; lia|].
  destruct (32767 <? x) eqn:E2; [unf; lia|].
  rewrite i16_shift by lia; unf; lia.
Qed.
Lemma of_unsigned x : 0 <= x -> w_of_unsigned x = clamp (scaled x).
Proof. intros H; unf; br; lia. Qed.
Lemma sat_cast_unsigned x : 0 <= x -> w_sat_cast_unsigned x = clamp (scaled x).
Proof. intros H; unf; br; lia. Qed.
Lemma sat_cast_signed x : w_sat_cast_signed x = clamp (scaled x).
Proof. unf; br; lia. Qed.

Lemma i64_shift x : -140737488355328 <= x < 140737488355328 ->
  to_i 64 (to_u 64 (to_u 64 x * 65536)) = 65536 * x.
Proof. intros H; unf; lia. Qed.

Lemma sat_tail_clamp r : sat_tail r = clamp r.
Proof. unf; br; lia. Qed.

Lemma chk64 x : -9223372036854775808 <= x < 9223372036854775808 -> chk_i 64 x = Some x.
Proof. intros H; unf; br; fin. Qed.
Lemma chk32 x : is_width x -> chk_i 32 x = Some x.
Proof. intros H; unf; br; fin. Qed.

Lemma sat_add_ok a b : is_width a -> is_width b -> w_sat_add a b = Some (clamp (a + b)).
Proof.
  intros Ha Hb; unfold w_sat_add, is_width, u_min, u_max in *; rewrite chk64 by lia.
  cbn [obind]; rewrite sat_tail_clamp; reflexivity.
Qed.
Lemma sat_sub_ok a b : is_width a -> is_width b -> w_sat_sub a b = Some (clamp (a - b)).
Proof.
  intros Ha Hb; unfold w_sat_sub, is_width, u_min, u_max in *; rewrite chk64 by lia.
  cbn [obind]; rewrite sat_tail_clamp; reflexivity.
Qed.
Lemma sat_add_i32_ok w x : is_width w -> -2147483648 <= x <= 2147483647 ->
  w_sat_add_i32 w x = Some (clamp (w + scaled x)).
Proof.
  intros Hw Hx; unfold w_sat_add_i32; rewrite i64_shift by lia.
  unfold is_width, u_min, u_max in *; rewrite chk64 by lia.
  cbn [obind]; rewrite sat_tail_clamp; reflexivity.
Qed.
Lemma sat_sub_i32_ok w x : is_width w -> -2147483648 <= x <= 2147483647 ->
  w_sat_sub_i32 w x = Some (clamp (w - scaled x)).
Proof.
  intros Hw Hx; unfold w_sat_sub_i32; rewrite i64_shift by lia.
  unfold is_width, u_min, u_max in *; rewrite chk64 by lia.
  cbn [obind]; rewrite sat_tail_clamp; reflexivity.
Qed.
Lemma sat_add_i64_ok w x : is_width w -> w_sat_add_i64 w x = Some (clamp (w + scaled x)).
Proof.
  intros Hw; unfold w_sat_add_i64.
  destruct (65536 <=? x) eqn:E1; [f_equal; unf; lia|].
  destruct (x <=? -65536) eqn:E2; [f_equal; unf; lia|].
  rewrite i64_shift by lia.
  unfold is_width, u_min, u_max in *; rewrite chk64 by lia.
  cbn [obind]; rewrite sat_tail_clamp; reflexivity.
Qed.
(* the i64 subtraction is right outside the two bands where x<<16 wraps *)
Lemma sat_sub_i64_ok w x : is_width w -> -140737488322560 <= x <= 140737488322560 ->
  w_sat_sub_i64 w x = Some (clamp (w - scaled x)).
Proof.
  intros Hw Hx; unfold w_sat_sub_i64.
  change (u_max * 131072) with 281474976579584.
  change (to_i 64 (to_u 64 (to_u 64 u_min * 131072))) with (-281474976710656).
  destruct (281474976579584 <=? x) eqn:E1; [lia|].
  destruct (x <=? -281474976710656) eqn:E2; [lia|].
  rewrite i64_shift by lia.
  unfold is_width, u_min, u_max in *; rewrite chk64 by lia.
  cbn [obind]; rewrite sat_tail_clamp; reflexivity.
Qed.
(* exactly when the 64-bit subtraction is right *)
Definition sub_i64_fine (w x : Z) : Prop :=
  281474976579584 <= x \/ x <= -281474976710656 \/
  (-140737488355328 <= x < 140737488355328 /\
   -9223372036854775808 <= w - 65536 * x < 9223372036854775808).
Lemma chk64_none x : x < -9223372036854775808 \/ 9223372036854775808 <= x -> chk_i 64 x = None.
Proof.
  intros H; unfold chk_i, in_i. change (2 ^ (64 - 1)) with 9223372036854775808.
  destruct ((- (9223372036854775808) <=? x) && (x <? 9223372036854775808)) eqn:E; [lia|reflexivity].
Qed.
Lemma sat_sub_i64_iff w x : is_width w -> -9223372036854775808 <= x < 9223372036854775808 ->
  (w_sat_sub_i64 w x = Some (clamp (w - scaled x)) <-> sub_i64_fine w x).
Proof.
  intros Hw Hx; unfold w_sat_sub_i64, sub_i64_fine, scaled.
  change (u_max * 131072) with 281474976579584.
  change (to_i 64 (to_u 64 (to_u 64 u_min * 131072))) with (-281474976710656).
  assert (Hu : u_min = -2147483648 /\ u_max = 2147483647) by (split; reflexivity).
  unfold is_width in Hw.
  destruct (281474976579584 <=? x) eqn:E1.
  { split; [intros _; left; lia|intros _]. f_equal. unfold clamp. lia. }
  destruct (x <=? -281474976710656) eqn:E2.
  { split; [intros _; right; left; lia|intros _]. f_equal. unfold clamp. lia. }
  destruct (Z_lt_le_dec x 140737488355328) as [L1|L1]; [destruct (Z_lt_le_dec x (-140737488355328)) as [L2|L2]|].
  - (* the shift loses the sign: a small positive number is subtracted *)
    assert (Es : to_i 64 (to_u 64 (to_u 64 x * 65536)) = 65536 * x + 18446744073709551616).
    { clear - L2 E2. unf. lia. }
    rewrite Es. split; [|intros [H|[H|H]]; lia].
    destruct (Z_lt_le_dec (w - (65536 * x + 18446744073709551616)) (-9223372036854775808)) as [L3|L3].
    + rewrite chk64_none by lia. discriminate.
    + rewrite chk64 by lia. cbn [obind]. rewrite sat_tail_clamp. intros H.
      apply (f_equal (fun o => match o with Some z => z | None => 0 end)) in H. cbv beta iota in H.
      unfold clamp, u_min, u_max in *. lia.
  - rewrite i64_shift by lia. split.
    + intros H. right; right. split; [lia|].
      destruct (Z_lt_le_dec (w - 65536 * x) (-9223372036854775808)); [rewrite chk64_none in H by lia; discriminate|].
      destruct (Z_lt_le_dec (w - 65536 * x) 9223372036854775808); [lia|]. rewrite chk64_none in H by lia. discriminate.
    + intros [H|[H|[_ H]]]; [lia|lia|]. rewrite chk64 by exact H. cbn [obind]. rewrite sat_tail_clamp. reflexivity.
  - assert (Es : to_i 64 (to_u 64 (to_u 64 x * 65536)) = 65536 * x - 18446744073709551616).
    { clear - L1 E1. unf. lia. }
    rewrite Es. split; [|intros [H|[H|H]]; lia].
    destruct (Z_lt_le_dec (w - (65536 * x - 18446744073709551616)) 9223372036854775808) as [L3|L3].
    + rewrite chk64 by lia. cbn [obind]. rewrite sat_tail_clamp. intros H.
      apply (f_equal (fun o => match o with Some z => z | None => 0 end)) in H. cbv beta iota in H.
      unfold clamp, u_min, u_max in *. lia.
    + rewrite chk64_none by lia. discriminate.
Qed.
Lemma sat_sub_i64_bad : w_sat_sub_i64 0 140737488355329 = Some u_max
  /\ clamp (0 - scaled 140737488355329) = u_min
  /\ w_sat_sub_i64 0 140737488355328 = None.
Proof. vm_compute; repeat split; reflexivity. Qed.

(* multiplication *)
Lemma mul_bound a b A B : Z.abs a <= A -> Z.abs b <= B -> - (A * B) <= a * b <= A * B.
Proof.
  intros Ha Hb. assert (Z.abs (a * b) <= A * B).
  { rewrite Z.abs_mul. apply Z.mul_le_mono_nonneg; lia. }
  lia.
Qed.
Lemma quot_clamp t : -9223372036854775808 <= t < 9223372036854775808 ->
  (if 140737488355328 <=? t then u_max
        else if t <? to_i 64 (to_u 64 (to_u 64 u_min * 65536)) then u_min
        else to_i 32 (Z.quot t 65536)) = clamp (Z.quot t 65536).
Proof.
  intros H. change (to_i 64 (to_u 64 (to_u 64 u_min * 65536))) with (-140737488355328).
  assert (Hq : t = 65536 * Z.quot t 65536 + Z.rem t 65536) by apply Z.quot_rem'.
  pose proof (Z.rem_bound_abs t 65536 ltac:(lia)) as Hr.
  assert (Hs : 0 <= t -> 0 <= Z.rem t 65536) by (intros; apply Z.rem_nonneg; lia).
  assert (Hn : t <= 0 -> Z.rem t 65536 <= 0) by (intros; apply Z.rem_nonpos; lia).
  set (q := Z.quot t 65536) in *. set (r := Z.rem t 65536) in *. clearbody q r.
  unf. br; lia.
Qed.
Lemma sat_mul_ok a b : is_width a -> is_width b ->
  w_sat_mul a b = Some (clamp (Z.quot (a * b) 65536)).
Proof.
  intros Ha Hb. unfold w_sat_mul.
  assert (Hm : - (2147483648 * 2147483648) <= a * b <= 2147483648 * 2147483648)
    by (apply mul_bound; unfold is_width, u_min, u_max in *; lia).
  rewrite chk64 by lia. cbn [obind]. f_equal. apply quot_clamp; lia.
Qed.
Lemma sat_mul_i16_ok w x : is_width w -> -32768 <= x <= 32767 ->
  w_sat_mul_i16 w x = Some (clamp (w * x)).
Proof.
  intros Hw Hx. unfold w_sat_mul_i16, w_of_i16. rewrite i16_shift by lia.
  rewrite sat_mul_ok; [| assumption | unfold is_width, u_min, u_max; lia].
  do 2 f_equal. replace (w * (65536 * x)) with (w * x * 65536) by lia.
  apply Z.quot_mul; lia.
Qed.
Lemma mulsat_sign w x : w <> 0 -> ~ (u_min <= x * w <= u_max) ->
  (if xorb (w <? 0) (x <? 0) then u_min else u_max) = clamp (w * x).
Proof.
  intros Hw Hr. replace (x * w) with (w * x) in Hr by lia.
  destruct (w <? 0) eqn:E1, (x <? 0) eqn:E2; cbn [xorb]; unfold clamp, u_min, u_max in *; nia.
Qed.
Lemma mulsat_out w x : w <> 0 -> x < u_min \/ u_max < x ->
  (if xorb (w <? 0) (x <? 0) then u_min else u_max) = clamp (w * x).
Proof.
  intros Hw Hr.
  destruct (w <? 0) eqn:E1, (x <? 0) eqn:E2; cbn [xorb]; unfold clamp, u_min, u_max in *; nia.
Qed.
Lemma sat_mul_i64_ok w x : is_width w -> w_sat_mul_i64 w x = Some (clamp (w * x)).
Proof.
  intros Hw. unfold w_sat_mul_i64. destruct (w =? 0) eqn:E0.
  - assert (w = 0) by lia; subst w; reflexivity.
  - cbv zeta. destruct ((u_min <=? x) && (x <=? u_max)) eqn:E1.
    + assert (Hm : - (2147483648 * 2147483648) <= x * w <= 2147483648 * 2147483648)
        by (apply mul_bound; unfold is_width, u_min, u_max in *; lia).
      rewrite chk64 by lia; cbn [obind].
      destruct ((u_min <=? x * w) && (x * w <=? u_max)) eqn:E2; f_equal.
      * rewrite to_i_id; unfold clamp, u_min, u_max in *; lia.
      * apply mulsat_sign; lia.
    + f_equal. apply mulsat_out; lia.
Qed.
Lemma sat_mul_u64_ok w x : is_width w -> 0 <= x -> w_sat_mul_u64 w x = Some (clamp (w * x)).
Proof.
  intros Hw Hx. unfold w_sat_mul_u64. destruct (w =? 0) eqn:E0.
  - assert (w = 0) by lia; subst w; reflexivity.
  - cbv zeta. destruct (x <=? u_max) eqn:E1.
    + rewrite (to_i_id 64) by (unfold u_max in *; lia).
      assert (Hm : - (2147483648 * 2147483648) <= x * w <= 2147483648 * 2147483648)
        by (apply mul_bound; unfold is_width, u_min, u_max in *; lia).
      rewrite chk64 by lia; cbn [obind].
      destruct ((u_min <=? x * w) && (x * w <=? u_max)) eqn:E2; f_equal.
      * rewrite to_i_id; unfold clamp, u_min, u_max in *; lia.
      * unfold clamp, u_min, u_max in *. destruct (0 <=? w) eqn:E3; nia.
    + f_equal. unfold clamp, is_width, u_min, u_max in *. destruct (0 <=? w) eqn:E3; nia.
Qed.
Lemma sat_mul_i32_ok w x : is_width w -> -2147483648 <= x <= 2147483647 ->
  w_sat_mul_i32 w x = Some (clamp (w * x)).
Proof.
  intros Hw Hx. unfold w_sat_mul_i32.
  assert (Hm : - (2147483648 * 2147483648) <= x * w <= 2147483648 * 2147483648)
        by (apply mul_bound; unfold is_width, u_min, u_max in *; lia).
  rewrite chk64 by lia; cbn [obind]. f_equal.
  destruct ((u_min <=? x * w) && (x * w <=? u_max)) eqn:E2.
  - rewrite to_i_id; unfold clamp, u_min, u_max in *; lia.
  - apply mulsat_sign; [|lia]. unfold u_min, u_max in *; lia.
Qed.
Lemma sat_mul_u32_ok w x : is_width w -> 0 <= x < 4294967296 ->
  w_sat_mul_u32 w x = Some (clamp (w * x)).
Proof.
  intros Hw Hx. unfold w_sat_mul_u32.
  rewrite (to_i_id 64 x) by lia.
  assert (Hs : to_i 64 (to_u 64 w) = w).
  { unf; lia. }
  rewrite Hs.
  assert (Hm : - (4294967295 * 2147483648) <= x * w <= 4294967295 * 2147483648)
        by (apply mul_bound; unfold is_width, u_min, u_max in *; lia).
  rewrite chk64 by lia; cbn [obind]. f_equal.
  destruct ((u_min <=? x * w) && (x * w <=? u_max)) eqn:E2.
  - rewrite to_i_id; unfold clamp, u_min, u_max in *; lia.
  - unfold clamp, u_min, u_max in *. destruct (0 <=? w) eqn:E3; nia.
Qed.

(* comparisons *)
Definition cmp_ok (w x : Z) (r : option Z) : Prop :=
  exists c, r = Some c /\ (c < 0 <-> w < scaled x) /\ (c = 0 <-> w = scaled x)
            /\ (c > 0 <-> w > scaled x).
Lemma cmp_i32_ok w x : is_width w -> -2147483648 <= x <= 2147483647 -> cmp_ok w x (w_cmp_i32 w x).
Proof.
  intros Hw Hx. unfold w_cmp_i32. rewrite i64_shift by lia.
  unfold is_width, u_min, u_max in *. rewrite chk64 by lia.
  eexists; split; [reflexivity|]. unfold scaled; lia.
Qed.
Lemma cmp_u32_ok w x : is_width w -> 0 <= x < 4294967296 -> cmp_ok w x (w_cmp_u32 w x).
Proof.
  intros Hw Hx. unfold w_cmp_u32. rewrite i64_shift by lia.
  unfold is_width, u_min, u_max in *. rewrite chk64 by lia.
  eexists; split; [reflexivity|]. unfold scaled; lia.
Qed.
Lemma cmp_i64_ok w x : is_width w -> cmp_ok w x (w_cmp_i64 w x).
Proof.
  intros Hw. unfold w_cmp_i64.
  unfold is_width, u_min, u_max in *.
  destruct (32768 <=? x) eqn:E1; [eexists; split; [reflexivity|]; unfold scaled; lia|].
  destruct (x <? -32768) eqn:E2; [eexists; split; [reflexivity|]; unfold scaled; lia|].
  rewrite i64_shift by lia. rewrite chk64 by lia.
  eexists; split; [reflexivity|]. unfold scaled; lia.
Qed.
Lemma cmp_u64_ok w x : is_width w -> 0 <= x -> cmp_ok w x (w_cmp_u64 w x).
Proof.
  intros Hw Hx. unfold w_cmp_u64.
  unfold is_width, u_min, u_max in *.
  destruct (32768 <=? x) eqn:E1; [eexists; split; [reflexivity|]; unfold scaled; lia|].
  rewrite (to_u_id 64) by lia. rewrite (to_i_id 64) by lia. rewrite chk64 by lia.
  eexists; split; [reflexivity|]. unfold scaled; lia.
Qed.
(* int16 / uint16: right exactly when the difference fits in an int *)
Lemma cmp_i16_ok w x : is_width w -> -32768 <= x <= 32767 -> is_width (w - scaled x) ->
  cmp_ok w x (w_cmp_i16 w x).
Proof.
  intros Hw Hx Hd. unfold w_cmp_i16. rewrite i16_shift by lia.
  rewrite chk32 by exact Hd.
  eexists; split; [reflexivity|]. unfold scaled; lia.
Qed.
Lemma cmp_i16_iff w x : is_width w -> -32768 <= x <= 32767 ->
  (cmp_ok w x (w_cmp_i16 w x) <-> is_width (w - scaled x)).
Proof.
  intros Hw Hx. split; [|apply cmp_i16_ok; assumption]. intros (c & E & _). unfold w_cmp_i16 in E.
  rewrite i16_shift in E by lia. unfold chk_i, in_i in E. change (2 ^ (32 - 1)) with 2147483648 in E.
  destruct ((- (2147483648) <=? w - 65536 * x) && (w - 65536 * x <? 2147483648)) eqn:E1; [|discriminate].
  unfold is_width, scaled, u_min, u_max. lia.
Qed.
Lemma cmp_u16_ok w x : is_width w -> 0 <= x <= 65535 -> is_width (w - scaled (Z.min x 32767)) ->
  cmp_ok w x (w_cmp_u16 w x).
Proof.
  intros Hw Hx Hd. unfold w_cmp_u16.
  destruct (32768 <=? x) eqn:E1.
  - eexists; split; [reflexivity|]. unfold scaled, is_width, u_min, u_max in *; lia.
  - replace (to_i 32 (to_u 32 (to_u 32 x * 65536))) with (65536 * x) by (unf; lia).
    rewrite chk32 by (unfold is_width, scaled in *; lia).
    eexists; split; [reflexivity|]. unfold scaled; lia.
Qed.
Lemma cmp_u16_iff w x : is_width w -> 0 <= x <= 65535 ->
  (cmp_ok w x (w_cmp_u16 w x) <-> 32768 <= x \/ is_width (w - scaled x)).
Proof.
  intros Hw Hx. split.
  - intros (c & E & _). unfold w_cmp_u16 in E. destruct (32768 <=? x) eqn:E1; [left; lia|].
    right. replace (to_i 32 (to_u 32 (to_u 32 x * 65536))) with (65536 * x) in E by (unf; lia).
    unfold chk_i, in_i in E. change (2 ^ (32 - 1)) with 2147483648 in E.
    destruct ((- (2147483648) <=? w - 65536 * x) && (w - 65536 * x <? 2147483648)) eqn:E2; [|discriminate].
    unfold is_width, scaled, u_min, u_max. lia.
  - intros H. unfold w_cmp_u16. destruct (32768 <=? x) eqn:E1.
    + eexists; split; [reflexivity|]. unfold scaled, is_width, u_min, u_max in *; lia.
    + replace (to_i 32 (to_u 32 (to_u 32 x * 65536))) with (65536 * x) by (unf; lia).
      destruct H as [H|H]; [lia|]. rewrite chk32 by exact H. eexists; split; [reflexivity|]. unfold scaled; lia.
Qed.

(* floor/ceil/round *)
Lemma lor_top a : 0 <= a < 65536 -> Z.lor 4294901760 a = 4294901760 + a.
Proof.
  intros Ha.
  change 4294901760 with (Z.shiftl 65535 16).
  assert (Hz : Z.land (Z.shiftl 65535 16) a = 0).
  { apply Z.bits_inj'; intros n Hn. rewrite Z.land_spec, Z.bits_0.
    destruct (n <? 16) eqn:E.
    - rewrite Z.shiftl_spec_low by lia; reflexivity.
    - rewrite (Z.bits_above_log2 a n); [apply andb_false_r | lia |].
      destruct (Z.eq_dec a 0) as [->|]; [cbn; lia|].
      assert (Z.log2 a < 16) by (apply Z.log2_lt_pow2; lia). lia. }
  pose proof (Z.add_nocarry_lxor _ _ Hz) as H1. rewrite <- Z.lxor_lor in * by exact Hz.
  symmetry; exact H1.
Qed.
Lemma floor_div w : is_width w -> w_floor w = w / 65536.
Proof.
  intros Hw. unfold w_floor. rewrite Z.shiftr_div_pow2 by lia.
  destruct (w <? 0) eqn:E.
  - rewrite lor_top; unf; lia.
  - rewrite Z.lor_0_l. unf; lia.
Qed.
Lemma floor_ok w : is_width w -> scaled (w_floor w) <= w < scaled (w_floor w + 1).
Proof. intros Hw; rewrite floor_div by exact Hw; unfold scaled; lia. Qed.
Lemma ceil_ok w : is_width w -> scaled (w_ceil w - 1) < w <= scaled (w_ceil w).
Proof.
  intros Hw; unfold w_ceil. rewrite !Z.shiftr_div_pow2 by lia.
  destruct (0 <=? w) eqn:E; [|destruct (w =? u_min) eqn:E2]; unf; lia.
Qed.
Lemma nn_floor_ok w : is_width w ->
  (0 <= w -> scaled (w_nn_floor w) <= w < scaled (w_nn_floor w + 1)) /\ (w < 0 -> w_nn_floor w = 0).
Proof.
  intros Hw; unfold w_nn_floor. rewrite !Z.shiftr_div_pow2 by lia.
  destruct (0 <=? w) eqn:E; unf; lia.
Qed.
Lemma nn_ceil_ok w : is_width w ->
  (0 <= w -> scaled (w_nn_ceil w - 1) < w <= scaled (w_nn_ceil w)) /\ (w < 0 -> w_nn_ceil w = 0).
Proof.
  intros Hw; unfold w_nn_ceil. cbv zeta. rewrite !Z.shiftr_div_pow2 by lia.
  destruct (0 <=? w) eqn:E; unf; lia.
Qed.
Lemma round_ok w : is_width w ->
  2 * Z.abs (scaled (w_round w) - w) <= 65536 /\
  (2 * Z.abs (scaled (w_round w) - w) = 65536 -> Z.abs (scaled (w_round w)) < Z.abs w).
Proof.
  intros Hw; unfold w_round. rewrite floor_div by exact Hw.
  change 65535 with (Z.ones 16). rewrite Z.land_ones by lia.
  rewrite !Z.shiftr_div_pow2 by lia. change (2 ^ 16) with 65536. cbv zeta.
  destruct (0 <=? w) eqn:E.
  - destruct (w mod 65536 <=? 32768) eqn:E2; unfold scaled, is_width, u_min, u_max in *; lia.
  - destruct (32768 <=? w mod 65536) eqn:E2; unfold scaled, is_width, u_min, u_max in *; lia.
Qed.

(* division *)
Lemma div_ok a b : is_width a -> is_width b -> 0 <= a -> b <> 0 ->
  is_width (Z.quot (a * 65536) b) ->
  w_div a b = Some (Z.quot (a * 65536) b).
Proof.
  intros Ha Hb Hpos Hnz Hq. unfold w_div. cbv zeta.
  assert (E : (b =? 0) = false) by lia. rewrite E. f_equal.
  assert (Hs : to_i 64 (to_u 64 (to_u 32 a * 65536)) = a * 65536) by (unf; lia).
  rewrite Hs. rewrite to_i_id; unfold is_width, u_min, u_max in *; lia.
Qed.
(* for a negative dividend the quotient is right exactly when the divisor divides 1 evenly *)
Lemma quot_pos x b : 0 <= x -> 0 < b -> b * Z.quot x b <= x < b * Z.quot x b + b.
Proof.
  intros Hx Hb. pose proof (Z.quot_rem' x b). pose proof (Z.rem_bound_pos x b Hx Hb). lia.
Qed.
Lemma quot_bounds x b : b <> 0 -> exists r, x = b * Z.quot x b + r /\ Z.abs r < Z.abs b /\ (0 <= x -> 0 <= r) /\ (x <= 0 -> r <= 0).
Proof.
  intros Hb. exists (Z.rem x b). pose proof (Z.quot_rem' x b). split; [lia|].
  pose proof (Z.rem_bound_abs x b Hb). split; [lia|].
  split; intros Hx; [apply Z.rem_nonneg|apply Z.rem_nonpos]; lia.
Qed.
Lemma to_i32_mod x : exists k, x = to_i 32 x + k * 4294967296 /\ -2147483648 <= to_i 32 x < 2147483648.
Proof.
  unfold to_i. change (2 ^ 32) with 4294967296. change (2 ^ (32 - 1)) with 2147483648. cbv zeta.
  destruct (Z.ltb_spec (x mod 4294967296) 2147483648);
    [exists (x / 4294967296)|exists (x / 4294967296 + 1)]; lia.
Qed.
Lemma div_iff a b : is_width a -> is_width b -> b <> 0 -> is_width (Z.quot (a * 65536) b) ->
  (w_div a b = Some (Z.quot (a * 65536) b) <-> 0 <= a \/ 65536 mod b = 0).
Proof.
  intros Ha Hb Hnz Hq. destruct (Z.le_gt_cases 0 a) as [Hp|Hneg].
  { split; [left; exact Hp|]. intros _. apply div_ok; assumption. }
  unfold w_div. cbv zeta. assert (E : (b =? 0) = false) by lia. rewrite E.
  assert (Hs : to_i 64 (to_u 64 (to_u 32 a * 65536)) = (a + 4294967296) * 65536 - 18446744073709551616 \/
     to_i 64 (to_u 64 (to_u 32 a * 65536)) = (a + 4294967296) * 65536) by (unf; lia).
  unfold is_width, u_min, u_max in *.
  assert (Hs' : to_i 64 (to_u 64 (to_u 32 a * 65536)) = (a + 4294967296) * 65536) by (unf; lia).
  clear Hs. rewrite Hs'.
  destruct (quot_bounds ((a + 4294967296) * 65536) b Hnz) as (r1 & E1 & B1 & S1 & _).
  destruct (quot_bounds (a * 65536) b Hnz) as (r2 & E2 & B2 & _ & S2).
  set (q1 := Z.quot ((a + 4294967296) * 65536) b) in *. set (q2 := Z.quot (a * 65536) b) in *. clearbody q1 q2.
  specialize (S1 ltac:(lia)). specialize (S2 ltac:(lia)).
  destruct (to_i32_mod q1) as (k & Ek & Hk).
  split; [intros Hd; assert (some_inj : forall x y : Z, Some x = Some y -> x = y) by (clear; congruence); apply some_inj in Hd|intros [?|Hd]; [lia|f_equal]].
  - right. rewrite Hd in Ek. assert (Hbk : b * k * 4294967296 = 281474976710656 + r2 - r1) by nia.
    assert (b * k = 65536) as Hm by lia. rewrite <- Hm. rewrite Z.mul_comm. apply Z_mod_mult.
  - apply Z.mod_divide in Hd; [|exact Hnz]. destruct Hd as [m Hm].
    assert (Hz : forall u r, r = b * u -> Z.abs r < Z.abs b -> u = 0).
    { clear. intros u r -> H. rewrite Z.abs_mul in H. nia. }
    assert (a * m - q2 = 0) by (apply (Hz _ r2); [nia|exact B2]).
    assert ((a + 4294967296) * m - q1 = 0) by (apply (Hz _ r1); [nia|exact B1]). lia.
Qed.
(* (-1)/2 : the code yields 32767.5 *)
Lemma div_bad : w_div (scaled (-1)) (scaled 2) = Some (2147450880) /\
   is_width (Z.quot (scaled (-1) * 65536) (scaled 2)) /\ Z.quot (scaled (-1) * 65536) (scaled 2) = -32768.
Proof. vm_compute; repeat split; congruence. Qed.

(* ---- literals ---- *)
(* the value denoted by a digit string *)
Fixpoint digits_value (acc : Z) (ds : list Z) : Z :=
  match ds with [] => acc | d :: ds' => digits_value (10 * acc + d) ds' end.
Definition is_digit (d : Z) : Prop := 0 <= d <= 9.

Lemma digits_value_acc ds : forall acc,
  digits_value acc ds = acc * 10 ^ zlen ds + digits_value 0 ds.
Proof.
  induction ds as [|d ds IH]; intros acc; cbn [digits_value].
  - rewrite zlen_nil; cbn; lia.
  - rewrite IH, (IH (10 * 0 + d)). rewrite zlen_cons.
    rewrite Z.pow_add_r by (pose proof (zlen_nonneg ds); lia). nia.
Qed.
Lemma digits_value_cons d ds : digits_value 0 (d :: ds) = d * 10 ^ zlen ds + digits_value 0 ds.
Proof. cbn [digits_value]. rewrite digits_value_acc. replace (10*0+d) with d by lia. reflexivity. Qed.
Lemma digits_value_bound ds : Forall is_digit ds -> 0 <= digits_value 0 ds < 10 ^ zlen ds.
Proof.
  induction 1 as [|d ds Hd Hds IH]; [cbn; lia|].
  rewrite digits_value_cons, zlen_cons, Z.pow_add_r by (pose proof (zlen_nonneg ds); lia).
  unfold is_digit in Hd. nia.
Qed.
Lemma pow10_le a b : 0 <= a <= b -> 10 ^ a <= 10 ^ b.
Proof. intros; apply Z.pow_le_mono_r; lia. Qed.
Lemma pow10_small n : (n <= 19)%nat -> mp_pow10 n = 10 ^ Z.of_nat n.
Proof.
  induction n as [|n IH]; intros H; [reflexivity|].
  cbn [mp_pow10]. rewrite IH by lia. rewrite Nat2Z.inj_succ, Z.pow_succ_r by lia.
  apply to_u_id. pose proof (pow10_le (Z.of_nat n) 18 ltac:(lia)).
  assert (0 < 10 ^ Z.of_nat n) by (apply Z.pow_pos_nonneg; lia).
  change (10 ^ 18) with 1000000000000000000 in *. change (2 ^ 64) with 18446744073709551616. lia.
Qed.

Lemma int_digits_ok ds : Forall is_digit ds -> (length ds <= 19)%nat ->
  mp_int_digits ds = (digits_value 0 ds, length ds).
Proof.
  induction 1 as [|d ds Hd Hds IH]; intros Hl; [reflexivity|].
  cbn [mp_int_digits length] in *. rewrite IH by lia. cbn [fst snd].
  f_equal. rewrite digits_value_cons.
  rewrite Nat.sub_succ, Nat.sub_0_r. rewrite pow10_small by lia.
  apply to_u_id.
  pose proof (digits_value_bound ds Hds) as Hb. unfold zlen in *.
  pose proof (pow10_le (Z.of_nat (length ds)) 18 ltac:(lia)).
  change (10 ^ 18) with 1000000000000000000 in *. change (2 ^ 64) with 18446744073709551616.
  unfold is_digit in Hd. nia.
Qed.

Lemma frac_digits_ok n ds : Forall is_digit ds -> (length ds < n <= 16)%nat ->
  dec_frac_digits n ds = (digits_value 0 ds, length ds).
Proof.
  revert ds; induction n as [|n IH]; intros ds Hds Hl; [lia|].
  destruct ds as [|d ds]; [destruct n; reflexivity|].
  destruct n as [|n]; [cbn [length] in Hl; lia|].
  inversion Hds as [|? ? Hd Hds']; subst.
  cbn [length] in Hl. remember (S n) as m eqn:Hm.
  cbn [dec_frac_digits]. rewrite Hm at 1. cbv zeta.
  rewrite IH by (try assumption; lia). cbn [fst snd length].
  f_equal. rewrite digits_value_cons.
  rewrite Nat.sub_succ, Nat.sub_0_r. rewrite pow10_small by lia.
  apply to_u_id.
  pose proof (digits_value_bound ds Hds') as Hb. unfold zlen in *.
  pose proof (pow10_le (Z.of_nat (length ds)) 18 ltac:(lia)).
  change (10 ^ 18) with 1000000000000000000 in *. change (2 ^ 64) with 18446744073709551616.
  unfold is_digit in Hd. nia.
Qed.

Lemma land1 x : Z.land x 1 = x mod 2.
Proof. change 1 with (Z.ones 1) at 1. rewrite Z.land_ones by lia. reflexivity. Qed.

(* rounding a/d to the nearest integer *)
Lemma round_nearest a d : 0 <= a -> 0 < d -> (d = 1 /\ a = 0 \/ d mod 2 = 0) ->
  let fr := a / d in let re := a mod d in
  let up := (d / 2 <? re) || ((re =? d / 2) && (Z.land fr 1 =? 1)) in
  let v := fr + (if up then 1 else 0) in
  2 * Z.abs (v * d - a) <= d.
Proof.
  intros Ha Hd Hev. cbv zeta. rewrite land1.
  pose proof (Z.div_mod a d ltac:(lia)) as Hdm.
  pose proof (Z.mod_pos_bound a d Hd) as Hb.
  set (q := a / d) in *. set (r := a mod d) in *. clearbody q r.
  destruct ((d / 2 <? r) || ((r =? d / 2) && (q mod 2 =? 1))) eqn:E.
  - replace ((q + 1) * d - a) with (d - r) by (subst a; nia).
    destruct Hev as [[-> ->]|Hev]; [|lia].
    assert (q = 0 /\ r = 0) as [-> ->] by lia. discriminate E.
  - replace ((q + 0) * d - a) with (- r) by (subst a; nia).
    lia.
Qed.

Lemma literal_ok ids fds :
  Forall is_digit ids -> Forall is_digit fds ->
  (length ids <= 19)%nat -> (length fds <= 14)%nat ->
  digits_value 0 ids <= 32766 ->
  exists v, w_literal ids fds = Some v /\ is_width v /\
   2 * Z.abs (v * 10 ^ zlen fds
              - 65536 * (digits_value 0 ids * 10 ^ zlen fds + digits_value 0 fds)) <= 10 ^ zlen fds.
Proof.
  intros Hi Hf Hil Hfl Hmax.
  unfold w_literal, mp_abs_value.
  rewrite (frac_digits_ok 16 fds Hf) by lia. rewrite (int_digits_ok ids Hi Hil).
  cbn [fst snd]. rewrite pow10_small by lia. fold (zlen fds).
  pose proof (digits_value_bound fds Hf) as Hfb.
  pose proof (digits_value_bound ids Hi) as Hib.
  set (I := digits_value 0 ids) in *. set (F := digits_value 0 fds) in *.
  assert (Hd : 0 < 10 ^ zlen fds <= 10 ^ 14).
  { split; [apply Z.pow_pos_nonneg; [lia|apply zlen_nonneg]|].
    apply pow10_le; unfold zlen; lia. }
  assert (Hev : 10 ^ zlen fds = 1 /\ F * 65536 = 0 \/ 10 ^ zlen fds mod 2 = 0).
  { destruct (Z.eq_dec (zlen fds) 0) as [Hz|Hn]; [left|right].
    { rewrite Hz in *; change (10 ^ 0) with 1 in *; lia. }
    replace (zlen fds) with (1 + (zlen fds - 1)) by lia.
    rewrite Z.pow_add_r by (pose proof (zlen_nonneg fds); lia).
    change (10 ^ 1) with 10. set (k := 10 ^ (zlen fds - 1)).
    replace (10 * k) with (5 * k * 2) by lia. apply Z.mod_mul; lia. }
  change (10 ^ 14) with 100000000000000 in Hd.
  set (D := 10 ^ zlen fds) in *. clearbody D I F.
  cbv zeta. rewrite (to_u_id 64 (F * 65536)) by (change (2^64) with 18446744073709551616; lia).
  pose proof (round_nearest (F * 65536) D ltac:(lia) ltac:(lia) Hev) as Hr. cbv zeta in Hr.
  set (v := F * 65536 / D + (if (D / 2 <? F * 65536 mod D)
      || ((F * 65536 mod D =? D / 2) && (Z.land (F * 65536 / D) 1 =? 1)) then 1 else 0)) in *.
  assert (Hv : 0 <= v <= 65536).
  { clearbody v. split; nia. }
  clearbody v. change (2 ^ 64) with 18446744073709551616 in *.
  rewrite (to_u_id 64 v) by (change (2^64) with 18446744073709551616; lia).
  rewrite (to_u_id 64 (I * 65536)) by (change (2^64) with 18446744073709551616; lia).
  rewrite (to_u_id 64) by (change (2^64) with 18446744073709551616; lia).
  assert (E : (I * 65536 + v <? 4294967296) = true) by lia. rewrite E.
  exists (I * 65536 + v). split; [f_equal; apply to_i_id; [lia|]; change (2 ^ (32-1)) with 2147483648; lia|].
  split; [unfold is_width, u_min, u_max; lia|].
  replace ((I * 65536 + v) * D - 65536 * (I * D + F)) with (v * D - F * 65536) by lia.
  exact Hr.
Qed.
(* the integer nearest to num/den, ties to even *)
Definition nearest_even (q num den : Z) : Prop :=
  2 * Z.abs (q * den - num) <= den /\ (2 * Z.abs (q * den - num) = den -> Z.even q = true).

Lemma nearest_even_unique q q' num den : 0 < den -> nearest_even q num den -> nearest_even q' num den -> q = q'.
Proof.
  intros Hd [H1 H2] [H3 H4]. destruct (Z.eq_dec q q') as [|Hn]; [assumption|exfalso].
  assert (q = q' + 1 \/ q' = q + 1) as [->| ->] by nia.
  - assert (2 * Z.abs ((q' + 1) * den - num) = den) as E1 by nia. assert (2 * Z.abs (q' * den - num) = den) as E2 by nia.
    specialize (H2 E1). specialize (H4 E2). rewrite Z.even_add, H4 in H2. discriminate.
  - assert (2 * Z.abs ((q + 1) * den - num) = den) as E1 by nia. assert (2 * Z.abs (q * den - num) = den) as E2 by nia.
    specialize (H4 E1). specialize (H2 E2). rewrite Z.even_add, H2 in H4. discriminate.
Qed.

Lemma nearest_even_exact n : nearest_even n n 1.
Proof. split; [lia|]. intros H. exfalso. lia. Qed.

Lemma even_odd_mod q : Z.even q = (q mod 2 =? 0).
Proof. rewrite Zmod_even. destruct (Z.even q); reflexivity. Qed.

Lemma round_nearest_even a d : 0 <= a -> 0 < d -> (d = 1 \/ d mod 2 = 0) ->
  let fr := a / d in let re := a mod d in
  let up := (d / 2 <? re) || ((re =? d / 2) && (Z.land fr 1 =? 1)) in
  (d = 1 -> a mod 2 = 0) ->
  nearest_even (fr + (if up then 1 else 0)) a d.
Proof.
  intros Ha Hd Hev. cbv zeta. rewrite land1. intros H1.
  pose proof (Z.div_mod a d ltac:(lia)) as Hdm.
  pose proof (Z.mod_pos_bound a d Hd) as Hb.
  assert (H1' : d = 1 -> (a / d) mod 2 = 0) by (intros ->; rewrite Z.div_1_r; auto).
  set (q := a / d) in *. set (r := a mod d) in *. clearbody q r. clear H1.
  destruct ((d / 2 <? r) || ((r =? d / 2) && (q mod 2 =? 1))) eqn:E.
  - unfold nearest_even. replace ((q + 1) * d - a) with (d - r) by (subst a; nia).
    destruct Hev as [->|Hev].
    { specialize (H1' eq_refl). exfalso. assert (r = 0) as -> by lia. rewrite H1' in E. discriminate E. }
    split; [lia|]. intros Ht. rewrite even_odd_mod. lia.
  - unfold nearest_even. replace ((q + 0) * d - a) with (- r) by (subst a; nia).
    split; [lia|]. intros Ht. rewrite even_odd_mod. rewrite Z.add_0_r. lia.
Qed.

Lemma even_pow10 k : 0 < k -> (10 ^ k) mod 2 = 0.
Proof.
  intros H. replace k with (1 + (k - 1)) by lia. rewrite Z.pow_add_r by lia.
  change (10 ^ 1) with 10. replace (10 * 10 ^ (k - 1)) with (5 * 10 ^ (k - 1) * 2) by lia. apply Z.mod_mul; lia.
Qed.

Lemma digits_zero ds : Forall is_digit ds -> existsb (fun d => negb (d =? 0)) ds = negb (digits_value 0 ds =? 0).
Proof.
  induction 1 as [|d ds Hd Hds IH]; [reflexivity|].
  cbn [existsb]. rewrite IH, digits_value_cons. pose proof (digits_value_bound ds Hds) as Hb. unfold is_digit in Hd.
  assert (0 < 10 ^ zlen ds) by (apply Z.pow_pos_nonneg; [lia|apply zlen_nonneg]).
  assert (0 <= d * 10 ^ zlen ds) by nia.
  destruct (Z.eqb_spec d 0) as [->|Hn]; [rewrite Z.mul_0_l, Z.add_0_l; reflexivity|].
  assert (10 ^ zlen ds <= d * 10 ^ zlen ds) by nia. cbn [negb orb].
  symmetry. apply negb_true_iff. lia.
Qed.

Lemma round_up_ok (q : bool) ds : Forall is_digit ds ->
  let v := if mp_round_up q ds then 1 else 0 in let den := 10 ^ zlen ds in let F := digits_value 0 ds in
  2 * Z.abs (v * den - F) <= den /\ (2 * Z.abs (v * den - F) = den -> v = if q then 1 else 0).
Proof.
  intros H. destruct H as [|d ds Hd Hds]; cbv zeta.
  { cbn. split; [lia|]. intros E; exfalso; lia. }
  cbn [mp_round_up]. rewrite (digits_zero ds Hds). rewrite digits_value_cons, zlen_cons, Z.pow_add_r by (pose proof (zlen_nonneg ds); lia).
  change (10 ^ 1) with 10. pose proof (digits_value_bound ds Hds) as Hb. unfold is_digit in Hd.
  set (P := 10 ^ zlen ds) in *. set (F := digits_value 0 ds) in *. clearbody P F.
  destruct (Z.ltb_spec 5 d); cbn [orb]; [split; [nia|]; intros E; exfalso; nia|].
  destruct (Z.eqb_spec d 5) as [->|Hn]; cbn [andb]; [|split; [nia|]; intros E; exfalso; nia].
  destruct q; cbn [orb]; [split; [lia|reflexivity]|].
  destruct (Z.eqb_spec F 0); cbn [negb]; split; try lia.
Qed.

Lemma dec_frac_SS n d ds : dec_frac_digits (S (S n)) (d :: ds) =
  (to_u 64 (d * mp_pow10 (S (snd (dec_frac_digits (S n) ds)) - 1) + fst (dec_frac_digits (S n) ds)), S (snd (dec_frac_digits (S n) ds))).
Proof. reflexivity. Qed.
Lemma frac_digits_long n ds : Forall is_digit ds -> (1 <= n <= 16)%nat -> (n <= length ds)%nat ->
  exists q, dec_frac_digits n ds = (q, n) /\ nearest_even q (digits_value 0 ds) (10 ^ (zlen ds - Z.of_nat n)) /\
    0 <= q <= 10 ^ Z.of_nat n.
Proof.
  revert ds; induction n as [|n IH]; intros ds Hds Hn Hl; [lia|].
  destruct Hds as [|d ds Hd Hds]; [cbn [length] in Hl; lia|].
  destruct n as [|n].
  { cbn [dec_frac_digits]. exists (d + (if mp_round_up (Z.odd d) ds then 1 else 0)). split; [reflexivity|].
    rewrite digits_value_cons, zlen_cons. replace (1 + zlen ds - Z.of_nat 1) with (zlen ds) by lia.
    destruct (round_up_ok (Z.odd d) ds Hds) as [H1 H2]. cbv zeta in H1, H2.
    set (u := if mp_round_up (Z.odd d) ds then 1 else 0) in *.
    assert (Hu : 0 <= u <= 1) by (unfold u; destruct (mp_round_up (Z.odd d) ds); lia). clearbody u.
    unfold is_digit in Hd. change (10 ^ Z.of_nat 1) with 10. split; [|lia]. unfold nearest_even.
    replace ((d + u) * 10 ^ zlen ds - (d * 10 ^ zlen ds + digits_value 0 ds)) with (u * 10 ^ zlen ds - digits_value 0 ds) by lia.
    split; [exact H1|]. intros E. rewrite (H2 E). rewrite Z.even_add, <- Z.negb_odd. destruct (Z.odd d); reflexivity. }
  cbn [length] in Hl. destruct (IH ds Hds ltac:(lia) ltac:(lia)) as (q & E & HN & Hq).
  rewrite dec_frac_SS. remember (S n) as m eqn:Hm. rewrite E. cbn [fst snd].
  rewrite Nat.sub_succ, Nat.sub_0_r. rewrite pow10_small by lia. unfold is_digit in Hd.
  pose proof (pow10_le (Z.of_nat m) 15 ltac:(lia)) as HP. change (10 ^ 15) with 1000000000000000 in HP.
  assert (HP0 : 0 < 10 ^ Z.of_nat m) by (apply Z.pow_pos_nonneg; lia).
  rewrite to_u_id by (change (2 ^ 64) with 18446744073709551616; nia).
  eexists. split; [reflexivity|].
  rewrite digits_value_cons, zlen_cons. replace (1 + zlen ds - Z.of_nat (S m)) with (zlen ds - Z.of_nat m) by lia.
  split; [|rewrite Nat2Z.inj_succ, Z.pow_succ_r by lia; nia].
  assert (E10 : 10 ^ zlen ds = 10 ^ Z.of_nat m * 10 ^ (zlen ds - Z.of_nat m)).
  { rewrite <- Z.pow_add_r by (unfold zlen; lia). f_equal. lia. }
  destruct HN as [H1 H2]. unfold nearest_even. rewrite E10.
  replace ((d * 10 ^ Z.of_nat m + q) * 10 ^ (zlen ds - Z.of_nat m) -
     (d * (10 ^ Z.of_nat m * 10 ^ (zlen ds - Z.of_nat m)) + digits_value 0 ds))
    with (q * 10 ^ (zlen ds - Z.of_nat m) - digits_value 0 ds) by lia.
  split; [exact H1|]. intros Ht. rewrite Z.even_add, (H2 Ht), Z.even_mul.
  assert (Z.even (10 ^ Z.of_nat m) = true) as -> by (rewrite even_odd_mod, even_pow10 by lia; reflexivity).
  rewrite orb_true_r. reflexivity.
Qed.

Lemma literal_long ids fds q :
  Forall is_digit ids -> Forall is_digit fds -> (length ids <= 19)%nat -> digits_value 0 ids <= 32766 ->
  let k := Z.min 16 (zlen fds) in
  nearest_even q (digits_value 0 fds) (10 ^ (zlen fds - k)) -> q < 2 ^ 48 ->
  exists v, w_literal ids fds = Some v /\ is_width v /\
   nearest_even (v - 65536 * digits_value 0 ids) (65536 * q) (10 ^ k).
Proof.
  intros Hi Hf Hil Hmax k HN Hq.
  unfold w_literal, mp_abs_value. rewrite (int_digits_ok ids Hi Hil).
  pose proof (digits_value_bound ids Hi) as Hib. pose proof (digits_value_bound fds Hf) as Hfb.
  assert (HE : exists n, dec_frac_digits 16 fds = (q, n) /\ Z.of_nat n = k /\ 0 <= q <= 10 ^ k).
  { destruct (Nat.le_gt_cases 16 (length fds)) as [H16|H16].
    - destruct (frac_digits_long 16 fds Hf ltac:(lia) H16) as (q' & E & HN' & Hb).
      replace k with 16 in * by (unfold k, zlen; lia).
      assert (q = q') as -> by (eapply nearest_even_unique; [|exact HN|exact HN']; apply Z.pow_pos_nonneg; unfold zlen; lia).
      exists 16%nat. split; [exact E|]. split; [reflexivity|exact Hb].
    - replace k with (zlen fds) in * by (unfold k, zlen; lia). rewrite Z.sub_diag in HN.
      assert (q = digits_value 0 fds) as -> by (eapply nearest_even_unique; [|exact HN|apply nearest_even_exact]; reflexivity).
      exists (length fds). split; [apply frac_digits_ok; [exact Hf|lia]|]. split; [reflexivity|lia]. }
  destruct HE as (n & E & Hn & Hq0). rewrite E. cbn [fst snd]. rewrite pow10_small by lia. rewrite Hn.
  assert (Hd : 0 < 10 ^ k <= 10 ^ 16).
  { split; [apply Z.pow_pos_nonneg; lia|]. apply pow10_le; lia. }
  assert (Hev : 10 ^ k = 1 \/ (10 ^ k) mod 2 = 0).
  { destruct (Z.eq_dec k 0) as [->|Hk]; [left; reflexivity|right; apply even_pow10; lia]. }
  change (10 ^ 16) with 10000000000000000 in Hd. change (2 ^ 48) with 281474976710656 in Hq.
  set (I := digits_value 0 ids) in *. set (D := 10 ^ k) in *. clearbody D I k.
  cbv zeta. rewrite (to_u_id 64 (q * 65536)) by (change (2^64) with 18446744073709551616; lia).
  assert (Hpar : D = 1 -> (q * 65536) mod 2 = 0).
  { intros _. replace (q * 65536) with (q * 32768 * 2) by lia. apply Z.mod_mul; lia. }
  pose proof (round_nearest_even (q * 65536) D ltac:(lia) ltac:(lia) Hev Hpar) as Hr.
  set (v := q * 65536 / D + (if (D / 2 <? q * 65536 mod D)
      || ((q * 65536 mod D =? D / 2) && (Z.land (q * 65536 / D) 1 =? 1)) then 1 else 0)) in *.
  assert (Hv : 0 <= v <= 65536).
  { clearbody v. destruct Hr as [Hr _]. split; nia. }
  clearbody v.
  rewrite (to_u_id 64 v) by (change (2^64) with 18446744073709551616; lia).
  rewrite (to_u_id 64 (I * 65536)) by (change (2^64) with 18446744073709551616; lia).
  rewrite (to_u_id 64) by (change (2^64) with 18446744073709551616; lia).
  assert (Elt : (I * 65536 + v <? 4294967296) = true) by lia. rewrite Elt.
  exists (I * 65536 + v). split; [f_equal; apply to_i_id; [lia|]; change (2 ^ (32-1)) with 2147483648; lia|].
  split; [unfold is_width, u_min, u_max; lia|].
  replace (I * 65536 + v - 65536 * I) with v by lia. replace (65536 * q) with (q * 65536) by lia. exact Hr.
Qed.
(* every literal, whatever the number of digits *)
Lemma pow10_mod n : mp_pow10 n = 10 ^ Z.of_nat n mod 2 ^ 64.
Proof.
  induction n as [|n IH]; [reflexivity|].
  cbn [mp_pow10]. rewrite IH, Nat2Z.inj_succ, Z.pow_succ_r by lia. unfold to_u.
  rewrite Z.mul_mod_idemp_r by lia. reflexivity.
Qed.
Lemma int_digits_mod ds : mp_int_digits ds = (digits_value 0 ds mod 2 ^ 64, length ds).
Proof.
  induction ds as [|d ds IH]; [reflexivity|].
  cbn [mp_int_digits length]. rewrite IH. cbn [fst snd]. f_equal. rewrite digits_value_cons.
  rewrite Nat.sub_succ, Nat.sub_0_r, pow10_mod. unfold to_u. fold (zlen ds).
  rewrite <- Z.add_mod_idemp_l, Z.mul_mod_idemp_r, <- Z.add_mod by lia. reflexivity.
Qed.
Lemma mul_mod_48 q : 0 <= q -> to_u 64 (q * 65536) = 65536 * (q mod 281474976710656).
Proof.
  intros H. unfold to_u. change (2 ^ 64) with (281474976710656 * 65536).
  rewrite Z.mul_mod_distr_r by lia. lia.
Qed.
Lemma literal_formula ids fds q f :
  Forall is_digit ids -> Forall is_digit fds ->
  let k := Z.min 16 (zlen fds) in
  nearest_even q (digits_value 0 fds) (10 ^ (zlen fds - k)) ->
  nearest_even f (65536 * (q mod 2 ^ 48)) (10 ^ k) ->
  (0 <= f <= 65536 /\ 0 <= q <= 10 ^ k) /\
  w_literal ids fds = let a := (65536 * digits_value 0 ids + f) mod 2 ^ 64 in
     if a <? 2 ^ 32 then Some (if a <? 2 ^ 31 then a else a - 2 ^ 32) else None.
Proof.
  intros Hi Hf k HN Hfn.
  unfold w_literal, mp_abs_value. rewrite (int_digits_mod ids).
  pose proof (digits_value_bound ids Hi) as Hib. pose proof (digits_value_bound fds Hf) as Hfb.
  assert (HE : exists n, dec_frac_digits 16 fds = (q, n) /\ Z.of_nat n = k /\ 0 <= q <= 10 ^ k).
  { destruct (Nat.le_gt_cases 16 (length fds)) as [H16|H16].
    - destruct (frac_digits_long 16 fds Hf ltac:(lia) H16) as (q' & E & HN' & Hb).
      replace k with 16 in * by (unfold k, zlen; lia).
      assert (q = q') as -> by (eapply nearest_even_unique; [|exact HN|exact HN']; apply Z.pow_pos_nonneg; unfold zlen; lia).
      exists 16%nat. split; [exact E|]. split; [reflexivity|exact Hb].
    - replace k with (zlen fds) in * by (unfold k, zlen; lia). rewrite Z.sub_diag in HN.
      assert (q = digits_value 0 fds) as -> by (eapply nearest_even_unique; [|exact HN|apply nearest_even_exact]; reflexivity).
      exists (length fds). split; [apply frac_digits_ok; [exact Hf|lia]|]. split; [reflexivity|lia]. }
  destruct HE as (n & E & Hn & Hq0). rewrite E. cbn [fst snd].
  assert (Hk16 : 0 <= k <= 16) by (unfold k, zlen; lia). rewrite pow10_small by lia. rewrite Hn.
  assert (Hd : 0 < 10 ^ k <= 10 ^ 16).
  { split; [apply Z.pow_pos_nonneg; lia|]. apply pow10_le; lia. }
  assert (Hev : 10 ^ k = 1 \/ (10 ^ k) mod 2 = 0).
  { destruct (Z.eq_dec k 0) as [->|Hk]; [left; reflexivity|right; apply even_pow10; lia]. }
  change (10 ^ 16) with 10000000000000000 in Hd. change (2 ^ 48) with 281474976710656 in Hfn.
  set (I := digits_value 0 ids) in *. set (D := 10 ^ k) in *. clearbody D I k.
  cbv zeta. rewrite (mul_mod_48 q) by lia.
  pose proof (Z.mod_pos_bound q 281474976710656 ltac:(lia)) as Hqm.
  assert (Hqle : q mod 281474976710656 <= q) by (apply Z.mod_le; lia).
  set (q' := q mod 281474976710656) in *. clearbody q'.
  assert (Hpar : D = 1 -> (65536 * q') mod 2 = 0).
  { intros _. replace (65536 * q') with (q' * 32768 * 2) by lia. apply Z.mod_mul; lia. }
  pose proof (round_nearest_even (65536 * q') D ltac:(lia) ltac:(lia) Hev Hpar) as Hr.
  set (v := 65536 * q' / D + (if (D / 2 <? 65536 * q' mod D)
      || ((65536 * q' mod D =? D / 2) && (Z.land (65536 * q' / D) 1 =? 1)) then 1 else 0)) in *.
  clearbody v. assert (v = f) as -> by (eapply nearest_even_unique; [|exact Hr|exact Hfn]; lia).
  assert (Hv : 0 <= f <= 65536).
  { destruct Hr as [Hr _]. split; nia. }
  split; [split; [exact Hv|exact Hq0]|].
  rewrite (to_u_id 64 f) by (change (2^64) with 18446744073709551616; lia).
  assert (Ha : to_u 64 (to_u 64 (I mod 2 ^ 64 * 65536) + f) = (65536 * I + f) mod 2 ^ 64).
  { unfold to_u. rewrite Z.mul_mod_idemp_l, Z.add_mod_idemp_l by lia. f_equal. lia. }
  rewrite Ha. pose proof (Z.mod_pos_bound (65536 * I + f) (2 ^ 64) ltac:(lia)) as Hab.
  set (a := (65536 * I + f) mod 2 ^ 64) in *. clearbody a.
  change (2 ^ 32) with 4294967296. change (2 ^ 31) with 2147483648.
  destruct (Z.ltb_spec a 4294967296); [|reflexivity]. f_equal.
  unfold to_i. change (2 ^ 32) with 4294967296. change (2 ^ (32 - 1)) with 2147483648.
  destruct (Z.ltb_spec a 2147483648); clear - Hab H H0; lia.
Qed.
Lemma nearest_exists a d : 0 <= a -> 0 < d -> d = 1 \/ d mod 2 = 0 -> exists f, nearest_even f a d.
Proof.
  intros Ha Hd [->|He]; [exists a; apply nearest_even_exact|].
  eexists. apply (round_nearest_even a d Ha Hd (or_intror He)). intros ->. discriminate He.
Qed.
Lemma pow10_even_or_1 k : 0 <= k -> 10 ^ k = 1 \/ (10 ^ k) mod 2 = 0.
Proof. intros H. destruct (Z.eq_dec k 0) as [->|Hk]; [left; reflexivity|right; apply even_pow10; lia]. Qed.
Lemma literal_iff ids fds q f :
  Forall is_digit ids -> Forall is_digit fds ->
  let k := Z.min 16 (zlen fds) in
  nearest_even q (digits_value 0 fds) (10 ^ (zlen fds - k)) ->
  nearest_even f (65536 * q) (10 ^ k) ->
  (w_literal ids fds = Some (65536 * digits_value 0 ids + f) <->
   q < 2 ^ 48 /\ 65536 * digits_value 0 ids + f < 2 ^ 31).
Proof.
  intros Hi Hf k HN Hfn.
  assert (Hk16 : 0 <= k <= 16) by (unfold k, zlen; lia).
  assert (Hd : 0 < 10 ^ k <= 10 ^ 16).
  { split; [apply Z.pow_pos_nonneg; lia|]. apply pow10_le; lia. }
  pose proof (Z.mod_pos_bound q (2 ^ 48) ltac:(lia)) as Hqm.
  destruct (nearest_exists (65536 * (q mod 2 ^ 48)) (10 ^ k) ltac:(lia) ltac:(lia) (pow10_even_or_1 k ltac:(lia))) as [f' Hf'].
  destruct (literal_formula ids fds q f' Hi Hf HN Hf') as [[Hf'b Hqb] HL]. rewrite HL. cbv zeta.
  pose proof (digits_value_bound ids Hi) as Hib. set (I := digits_value 0 ids) in *.
  change (10 ^ 16) with 10000000000000000 in Hd. fold k in Hqb.
  set (D := 10 ^ k) in *. clearbody D I k. clear HL.
  assert (Hf0 : 0 <= f) by (destruct Hfn as [Hfn _]; nia).
  split.
  - intros HS. destruct (Z.ltb_spec ((65536 * I + f') mod 2 ^ 64) (2 ^ 32)) as [Hlt|]; [|discriminate HS].
    pose proof (Z.mod_pos_bound (65536 * I + f') (2 ^ 64) ltac:(lia)) as Hab.
    assert (some_inj : forall x y : Z, Some x = Some y -> x = y) by (clear; congruence). apply some_inj in HS.
    assert (Hub : 65536 * I + f < 2 ^ 31).
    { destruct (Z.ltb_spec ((65536 * I + f') mod 2 ^ 64) (2 ^ 31)); lia. }
    split; [|exact Hub].
    rewrite (Z.mod_small (65536 * I + f')) in HS by lia.
    assert (f = f') as -> by (destruct (Z.ltb_spec (65536 * I + f') (2 ^ 31)); lia).
    destruct (Z.lt_ge_cases q (2 ^ 48)) as [|Hge]; [assumption|exfalso].
    destruct Hfn as [Hfn _]. destruct Hf' as [Hf' _].
    change (2 ^ 48) with 281474976710656 in *. lia.
  - intros [Hq Hub]. rewrite (Z.mod_small q) in Hf' by lia.
    assert (f = f') as -> by (eapply nearest_even_unique; [|exact Hfn|exact Hf']; lia).
    rewrite Z.mod_small by lia.
    assert ((65536 * I + f' <? 2 ^ 32) = true) as -> by lia. assert ((65536 * I + f' <? 2 ^ 31) = true) as -> by lia. reflexivity.
Qed.
Lemma literal_bad_int : w_literal [4;0;0;0;0] [] = Some (65536 * -25536).
Proof. vm_compute; reflexivity. Qed.
Lemma literal_bad_frac :
  w_literal [0] [9;9;9;9;9;9;9;9;9;9;9;9;9;9;9] <> Some 65536 .
Proof. vm_compute; congruence. Qed.

(* ------ the operators with an int16 on one side; compare(int, width) ------ *)
Lemma chk_iff n v r : chk_i n v = Some r <-> in_i n v = true /\ r = v.
Proof. unfold chk_i. destruct (in_i n v); split; intros H; [injection H as <-; auto|destruct H as [_ ->]; reflexivity|discriminate|destruct H; discriminate]. Qed.
Lemma in32 v : in_i 32 v = true <-> is_width v.
Proof. unfold in_i, is_width, u_min, u_max. change (2 ^ (32 - 1)) with 2147483648. lia. Qed.
Lemma add_iff a b : w_add a b = Some (a + b) <-> is_width (a + b).
Proof. unfold w_add. rewrite chk_iff, in32. tauto. Qed.
Lemma sub_iff a b : w_sub a b = Some (a - b) <-> is_width (a - b).
Proof. unfold w_sub. rewrite chk_iff, in32. tauto. Qed.
Lemma neg_iff a : w_neg a = Some (- a) <-> is_width (- a).
Proof. unfold w_neg. rewrite chk_iff, in32. tauto. Qed.
Lemma add_only a b r : w_add a b = Some r -> r = a + b.
Proof. unfold w_add. rewrite chk_iff. tauto. Qed.
Lemma sub_only a b r : w_sub a b = Some r -> r = a - b.
Proof. unfold w_sub. rewrite chk_iff. tauto. Qed.
Lemma eq_i16_ok w x : -32768 <= x <= 32767 ->
  w_eq_i16 w x = (w =? scaled x) /\ w_ne_i16 w x = negb (w =? scaled x) /\ i16_eq_w x w = (w =? scaled x) /\ i16_ne_w x w = negb (w =? scaled x).
Proof. intros H. unfold w_eq_i16, w_ne_i16, i16_eq_w, i16_ne_w, w_of_i16. rewrite i16_shift by exact H. unfold scaled. rewrite (Z.eqb_sym (65536 * x) w). auto. Qed.
Lemma order_i16_ok w x : is_width w -> -32768 <= x <= 32767 -> is_width (w - scaled x) ->
  w_lt_i16 w x = Some (w <? scaled x) /\ w_le_i16 w x = Some (w <=? scaled x) /\
  w_gt_i16 w x = Some (scaled x <? w) /\ w_ge_i16 w x = Some (scaled x <=? w) /\
  i16_lt_w x w = Some (scaled x <? w) /\ i16_le_w x w = Some (scaled x <=? w) /\
  i16_gt_w x w = Some (w <? scaled x) /\ i16_ge_w x w = Some (w <=? scaled x).
Proof.
  intros Hw Hx Hd. assert (w_cmp_i16 w x = Some (w - scaled x)) as E.
  { unfold w_cmp_i16. rewrite i16_shift by exact Hx. apply chk_iff. split; [apply in32; exact Hd|reflexivity]. }
  unfold w_lt_i16, w_le_i16, w_gt_i16, w_ge_i16, i16_lt_w, i16_le_w, i16_gt_w, i16_ge_w. rewrite E. cbn [obind].
  repeat split; f_equal; lia.
Qed.
Lemma order_i16_bad w x : -32768 <= x <= 32767 -> ~ is_width (w - scaled x) ->
  w_lt_i16 w x = None /\ w_le_i16 w x = None /\ w_gt_i16 w x = None /\ w_ge_i16 w x = None /\
  i16_lt_w x w = None /\ i16_le_w x w = None /\ i16_gt_w x w = None /\ i16_ge_w x w = None.
Proof.
  intros Hx Hd. assert (w_cmp_i16 w x = None) as E.
  { unfold w_cmp_i16. rewrite i16_shift by exact Hx. unfold chk_i. destruct (in_i 32 (w - 65536 * x)) eqn:E; [|reflexivity]. apply in32 in E. contradiction. }
  unfold w_lt_i16, w_le_i16, w_gt_i16, w_ge_i16, i16_lt_w, i16_le_w, i16_gt_w, i16_ge_w. rewrite E. cbn [obind]. repeat split.
Qed.
(* compare(x, w) is about x against w *)
Definition cmp_rev_ok (x w : Z) (r : option Z) : Prop :=
  exists c, r = Some c /\ (c < 0 <-> scaled x < w) /\ (c = 0 <-> scaled x = w) /\ (c > 0 <-> scaled x > w).
Lemma rev_ok n w x r c : r = Some c -> (c < 0 <-> w < scaled x) /\ (c = 0 <-> w = scaled x) /\ (c > 0 <-> w > scaled x) ->
  in_i n (- c) = true -> cmp_rev_ok x w (w_cmp_rev n r).
Proof. intros -> H Hn. unfold w_cmp_rev. cbn [obind]. exists (- c). split; [apply chk_iff; auto|]. lia. Qed.
Lemma rev_i32 w x : is_width w -> -2147483648 <= x <= 2147483647 -> cmp_rev_ok x w (w_cmp_rev 64 (w_cmp_i32 w x)).
Proof.
  intros Hw Hx. destruct (cmp_i32_ok w x Hw Hx) as (c & E & H). eapply rev_ok; [exact E|exact H|].
  unfold w_cmp_i32 in E. rewrite i64_shift in E by lia. apply chk_iff in E as [_ ->]. unfold is_width, u_min, u_max, in_i in *. change (2 ^ (64 - 1)) with 9223372036854775808. lia.
Qed.
Lemma rev_u32 w x : is_width w -> 0 <= x < 4294967296 -> cmp_rev_ok x w (w_cmp_rev 64 (w_cmp_u32 w x)).
Proof.
  intros Hw Hx. destruct (cmp_u32_ok w x Hw Hx) as (c & E & H). eapply rev_ok; [exact E|exact H|].
  unfold w_cmp_u32 in E. rewrite i64_shift in E by lia. apply chk_iff in E as [_ ->]. unfold is_width, u_min, u_max, in_i in *. change (2 ^ (64 - 1)) with 9223372036854775808. lia.
Qed.
Lemma rev_i64 w x : is_width w -> cmp_rev_ok x w (w_cmp_rev 64 (w_cmp_i64 w x)).
Proof.
  intros Hw. destruct (cmp_i64_ok w x Hw) as (c & E & H). eapply rev_ok; [exact E|exact H|].
  unfold is_width, u_min, u_max, in_i in *. change (2 ^ (64 - 1)) with 9223372036854775808. unfold w_cmp_i64 in E.
  destruct (32768 <=? x) eqn:E1; [injection E as <-; reflexivity|]. destruct (x <? -32768) eqn:E2; [injection E as <-; reflexivity|].
  rewrite i64_shift in E by lia. apply chk_iff in E as [_ ->]. lia.
Qed.
Lemma rev_u64 w x : is_width w -> 0 <= x -> cmp_rev_ok x w (w_cmp_rev 64 (w_cmp_u64 w x)).
Proof.
  intros Hw Hx. destruct (cmp_u64_ok w x Hw Hx) as (c & E & H). eapply rev_ok; [exact E|exact H|].
  unfold is_width, u_min, u_max, in_i in *. change (2 ^ (64 - 1)) with 9223372036854775808. unfold w_cmp_u64 in E.
  destruct (32768 <=? x) eqn:E1; [injection E as <-; reflexivity|].
  rewrite (to_u_id 64), (to_i_id 64) in E by lia. apply chk_iff in E as [_ ->]. lia.
Qed.
Lemma rev_i16_iff w x : is_width w -> -32768 <= x <= 32767 ->
  (cmp_rev_ok x w (w_cmp_rev 32 (w_cmp_i16 w x)) <-> is_width (w - scaled x) /\ is_width (scaled x - w)).
Proof.
  intros Hw Hx. unfold w_cmp_rev, w_cmp_i16. rewrite i16_shift by lia. split.
  - intros (c & E & _). unfold scaled. destruct (chk_i 32 (w - 65536 * x)) as [d|] eqn:E1; [|discriminate]. cbn [obind] in E.
    apply chk_iff in E1 as [E1 ->]. apply chk_iff in E as [E ->]. apply in32 in E1. apply in32 in E. split; [exact E1|]. replace (65536 * x - w) with (- (w - 65536 * x)) by lia. exact E.
  - intros [H1 H2]. unfold scaled in *. replace (chk_i 32 (w - 65536 * x)) with (Some (w - 65536 * x)) by (symmetry; apply chk_iff; split; [apply in32; exact H1|reflexivity]).
    cbn [obind]. exists (65536 * x - w). split; [apply chk_iff; split; [|lia]|unfold scaled; lia]. replace (- (w - 65536 * x)) with (65536 * x - w) by lia. apply in32. exact H2.
Qed.
