(* count_digits is the number of digits. *)
From Verif Require Import Base GroupModel DigitsModel DigitsSpec.

Lemma bval_ge b : 2 <= bval b.
Proof. destruct b; cbn; lia. Qed.

(* evaluate the powers of literals *)
Ltac pows :=
  repeat match goal with
  | |- context [?b ^ ?k] => let x := eval vm_compute in (b ^ k) in change (b ^ k) with x
  | H : context [?b ^ ?k] |- _ => let x := eval vm_compute in (b ^ k) in change (b ^ k) with x in H
  end.
Ltac by_len n := symmetry; apply (digits_len _ _ n); [lia|lia|pows; lia|intros; pows; lia].

Lemma count10_ok v : 0 <= v ->
  (v < 2 ^ 8 -> count10_1 v = zlen (digits 10 v)) /\ (v < 2 ^ 16 -> count10_2 v = zlen (digits 10 v)) /\
  (v < 2 ^ 32 -> count10_4 v = zlen (digits 10 v)) /\ (v < 2 ^ 64 -> count10_8 v = zlen (digits 10 v)).
Proof.
  intros Hv. unfold count10_1, count10_2, count10_4, count10_8.
  split; [|split; [|split]]; intros Hm; pows;
  repeat match goal with |- (if ?a <=? ?b then _ else _) = _ => destruct (Z.leb_spec a b) end;
  match goal with |- ?n = _ => by_len n end.
Qed.

Lemma count16_ok v : 0 <= v ->
  (v < 2 ^ 8 -> count16_1 v = zlen (digits 16 v)) /\ (v < 2 ^ 16 -> count16_2 v = zlen (digits 16 v)) /\
  (v < 2 ^ 32 -> count16_4 v = zlen (digits 16 v)) /\ (v < 2 ^ 64 -> count16_8 v = zlen (digits 16 v)).
Proof.
  intros Hv. unfold count16_1, count16_2, count16_4, count16_8.
  split; [|split; [|split]]; intros Hm; pows;
  repeat match goal with |- (if ?a <? ?b then _ else _) = _ => destruct (Z.ltb_spec a b) end;
  match goal with |- ?n = _ => by_len n end.
Qed.

(* one halving step "if (v > base^k - 1) { v >>= ..; n += k; }" *)
Lemma step_ok base k sh v n (f : Z -> Z -> Z) lim : 2 <= base -> 0 <= k -> 0 <= v -> base ^ k = 2 ^ sh -> 0 <= sh ->
  (forall v' n', 0 <= v' < lim -> f v' n' = n' - 1 + zlen (digits base v')) ->
  base ^ k <= lim -> v < lim * 2 ^ sh ->
  (let '(v, n) := if 2 ^ sh - 1 <? v then (Z.shiftr v sh, n + k) else (v, n) in f v n)
  = n - 1 + zlen (digits base v).
Proof.
  intros Hb Hk Hv E Hsh Hf Hl Hv2.
  assert (0 < 2 ^ sh) by (apply Z.pow_pos_nonneg; lia).
  destruct (Z.ltb_spec (2 ^ sh - 1) v) as [Hlt|Hge].
  - rewrite Z.shiftr_div_pow2 by lia. rewrite Hf.
    + rewrite (digits_shift base v k) by lia. rewrite E. lia.
    + split; [apply Z.div_pos; lia|apply Z.div_lt_upper_bound; lia].
  - rewrite Hf by lia. reflexivity.
Qed.

Lemma count2_tail_ok v n : 0 <= v < 2 ^ 8 -> count2_tail v n = n - 1 + zlen (digits 2 v).
Proof.
  intros Hv; unfold count2_tail. change 0xf with (2 ^ 4 - 1).
  refine (step_ok 2 4 4 v n (fun v n => let '(v, n) := if 3 <? v then (Z.shiftr v 2, n + 2) else (v, n) in
    if 1 <? v then n + 1 else n) (2 ^ 4) _ _ _ _ _ _ _ _); try (pows; lia).
  clear v n Hv. intros v n Hv. change 3 with (2 ^ 2 - 1).
  refine (step_ok 2 2 2 v n (fun v n => if 1 <? v then n + 1 else n) (2 ^ 2) _ _ _ _ _ _ _ _); try (pows; lia).
  clear v n Hv. intros v n Hv. change (2 ^ 2) with 4 in Hv.
  destruct (Z.ltb_spec 1 v).
  - rewrite (digits_len 2 v 2) by (pows; lia). lia.
  - rewrite (digits_len 2 v 1) by (pows; lia). lia.
Qed.
Lemma count2_t16_ok v n : 0 <= v < 2 ^ 16 ->
  (let '(v, n) := if 0xff <? v then (Z.shiftr v 8, n + 8) else (v, n) in count2_tail v n) = n - 1 + zlen (digits 2 v).
Proof.
  intros Hv. change 0xff with (2 ^ 8 - 1).
  refine (step_ok 2 8 8 v n count2_tail (2 ^ 8) _ _ _ _ _ _ _ _); try (pows; lia).
  intros; apply count2_tail_ok; assumption.
Qed.
Lemma count2_t32_ok v n : 0 <= v < 2 ^ 32 ->
  (let '(v, n) := if 0xffff <? v then (Z.shiftr v 16, n + 16) else (v, n) in
  let '(v, n) := if 0xff <? v then (Z.shiftr v 8, n + 8) else (v, n) in count2_tail v n) = n - 1 + zlen (digits 2 v).
Proof.
  intros Hv. change 0xffff with (2 ^ 16 - 1).
  refine (step_ok 2 16 16 v n (fun v n => let '(v, n) := if 0xff <? v then (Z.shiftr v 8, n + 8) else (v, n) in count2_tail v n) (2 ^ 16) _ _ _ _ _ _ _ _); try (pows; lia).
  intros; apply count2_t16_ok; assumption.
Qed.
Lemma count2_ok v : 0 <= v ->
  (v < 2 ^ 8 -> count2_1 v = zlen (digits 2 v)) /\ (v < 2 ^ 16 -> count2_2 v = zlen (digits 2 v)) /\
  (v < 2 ^ 32 -> count2_4 v = zlen (digits 2 v)) /\ (v < 2 ^ 64 -> count2_8 v = zlen (digits 2 v)).
Proof.
  intros Hv. split; [|split; [|split]]; intros Hm.
  - unfold count2_1. rewrite count2_tail_ok by lia. lia.
  - unfold count2_2. etransitivity; [apply (count2_t16_ok v 1); lia|lia].
  - unfold count2_4. etransitivity; [apply (count2_t32_ok v 1); lia|lia].
  - unfold count2_8. change 0xffffffff with (2 ^ 32 - 1).
    etransitivity; [refine (step_ok 2 32 32 v 1 (fun v n =>
      let '(v, n) := if 0xffff <? v then (Z.shiftr v 16, n + 16) else (v, n) in
      let '(v, n) := if 0xff <? v then (Z.shiftr v 8, n + 8) else (v, n) in count2_tail v n) (2 ^ 32) _ _ _ _ _ _ _ _); try (pows; lia)|lia].
    intros; apply count2_t32_ok; assumption.
Qed.

Lemma count8_tail_ok v n : 0 <= v < 2 ^ 24 -> count8_tail v n = n - 1 + zlen (digits 8 v).
Proof.
  intros Hv; unfold count8_tail. change 0xfff with (2 ^ 12 - 1).
  refine (step_ok 8 4 12 v n (fun v n => let '(v, n) := if 0x3f <? v then (Z.shiftr v 6, n + 2) else (v, n) in
    if 7 <? v then n + 1 else n) (2 ^ 12) _ _ _ _ _ _ _ _); try (pows; lia).
  clear v n Hv. intros v n Hv. change 0x3f with (2 ^ 6 - 1).
  refine (step_ok 8 2 6 v n (fun v n => if 7 <? v then n + 1 else n) (2 ^ 6) _ _ _ _ _ _ _ _); try (pows; lia).
  clear v n Hv. intros v n Hv. change (2 ^ 6) with 64 in Hv.
  destruct (Z.ltb_spec 7 v).
  - rewrite (digits_len 8 v 2) by (pows; lia). lia.
  - rewrite (digits_len 8 v 1) by (pows; lia). lia.
Qed.
Lemma count8_t_ok v n : 0 <= v < 2 ^ 48 ->
  (let '(v, n) := if 0xffffff <? v then (Z.shiftr v 24, n + 8) else (v, n) in count8_tail v n) = n - 1 + zlen (digits 8 v).
Proof.
  intros Hv. change 0xffffff with (2 ^ 24 - 1).
  refine (step_ok 8 8 24 v n count8_tail (2 ^ 24) _ _ _ _ _ _ _ _); try (pows; lia).
  intros; apply count8_tail_ok; assumption.
Qed.
Lemma count8_ok v : 0 <= v ->
  (v < 2 ^ 8 -> count8_1 v = zlen (digits 8 v)) /\ (v < 2 ^ 16 -> count8_2 v = zlen (digits 8 v)) /\
  (v < 2 ^ 32 -> count8_4 v = zlen (digits 8 v)) /\ (v < 2 ^ 64 -> count8_8 v = zlen (digits 8 v)).
Proof.
  intros Hv. split; [|split; [|split]]; intros Hm.
  - unfold count8_1. pows.
    repeat match goal with |- (if ?a <? ?b then _ else _) = _ => destruct (Z.ltb_spec a b) end;
    match goal with |- ?n = _ => by_len n end.
  - unfold count8_2. rewrite count8_tail_ok by (pows; lia). lia.
  - unfold count8_4. etransitivity; [apply (count8_t_ok v 1); pows; lia|lia].
  - unfold count8_8. change 0xffffffffffff with (2 ^ 48 - 1).
    etransitivity; [refine (step_ok 8 16 48 v 1 (fun v n =>
      let '(v, n) := if 0xffffff <? v then (Z.shiftr v 24, n + 8) else (v, n) in count8_tail v n) (2 ^ 48) _ _ _ _ _ _ _ _); try (pows; lia)|lia].
    intros; apply count8_t_ok; assumption.
Qed.

Lemma lor1_log2 v : 0 <= v -> Z.log2 (Z.lor v 1) = Z.log2 v /\ 0 < Z.lor v 1.
Proof.
  intros Hv. rewrite Z.log2_lor by lia. change (Z.log2 1) with 0. pose proof (Z.log2_nonneg v).
  split; [lia|]. assert (0 <= Z.lor v 1) by (apply Z.lor_nonneg; lia).
  assert (Z.lor v 1 <> 0) by (rewrite Z.lor_eq_0_iff; lia). lia.
Qed.

Lemma clz64_lor1 v : 0 <= v -> clz64 (Z.lor v 1) = 63 - Z.log2 v.
Proof.
  intros Hv. destruct (lor1_log2 v Hv) as [E P]. unfold clz64. rewrite E.
  destruct (Z.eqb_spec (Z.lor v 1) 0); lia.
Qed.

Lemma log2_digits b p v : 2 <= b -> 0 < p -> b = 2 ^ p -> 0 <= v -> zlen (digits b v) = Z.log2 v / p + 1.
Proof.
  intros Hb Hp E Hv. pose proof (Z.log2_nonneg v) as Hl.
  assert (Hq : 0 <= Z.log2 v / p) by (apply Z.div_pos; lia).
  pose proof (Z.div_mod (Z.log2 v) p ltac:(lia)) as Hd. pose proof (Z.mod_pos_bound (Z.log2 v) p Hp) as Hm.
  set (q := Z.log2 v / p) in *.
  assert (Eb : forall n, 0 <= n -> b ^ n = 2 ^ (p * n)) by (intros; rewrite E, Z.pow_mul_r by lia; reflexivity).
  destruct (Z.eq_dec v 0) as [->|Hn].
  { rewrite digits_small by lia. assert (q = 0) as -> by (unfold q; change (Z.log2 0) with 0; apply Z.div_0_l; lia). reflexivity. }
  destruct (Z.log2_spec v ltac:(lia)) as [H1 H2].
  apply digits_len; try lia.
  - split; [lia|]. rewrite Eb by lia. eapply Z.lt_le_trans; [exact H2|]. apply Z.pow_le_mono_r; nia.
  - intros _. rewrite Eb by lia. eapply Z.le_trans; [|exact H1]. apply Z.pow_le_mono_r; nia.
Qed.

Lemma count_digits_ok clz b s v : 0 <= v < 2 ^ sbits s -> count_digits clz b s v = zlen (digits (bval b) v).
Proof.
  intros [Hv Hm].
  assert (Hl : Z.log2 v < 64).
  { destruct (Z.eq_dec v 0) as [->|]; [cbn; lia|]. apply Z.log2_lt_pow2; [lia|].
    eapply Z.lt_le_trans; [exact Hm|]. apply Z.pow_le_mono_r; destruct s; cbn [sbits]; lia. }
  pose proof (Z.log2_nonneg v).
  unfold count_digits. destruct b; cbn [bval].
  - destruct clz.
    + unfold count2_clz. rewrite clz64_lor1 by lia. rewrite (log2_digits 2 1) by (pows; lia). rewrite Z.div_1_r. lia.
    + destruct s; apply count2_ok; assumption.
  - destruct clz.
    + unfold count8_clz. rewrite clz64_lor1 by lia. rewrite (log2_digits 8 3) by (pows; lia). lia.
    + destruct s; apply count8_ok; assumption.
  - destruct s; apply count10_ok; assumption.
  - destruct clz.
    + unfold count16_clz. rewrite clz64_lor1 by lia. rewrite Z.shiftr_div_pow2 by lia.
      rewrite (log2_digits 16 4) by (pows; lia). change (2 ^ 2) with 4. lia.
    + destruct s; apply count16_ok; assumption.
Qed.

(* the buffers of max_num_digits units are large enough *)
Lemma max_num_digits_ok b s v : 0 <= v < 2 ^ sbits s -> zlen (digits (bval b) v) <= max_num_digits b s.
Proof.
  intros [Hv Hm]. destruct (digits_bound (bval b) v (bval_ge b) Hv) as (H1 & H2 & H3).
  set (n := zlen (digits (bval b) v)) in *.
  destruct (Z.le_gt_cases n (max_num_digits b s)) as [|Hgt]; [assumption|exfalso].
  assert (Hp : bval b ^ (max_num_digits b s) <= bval b ^ (n - 1)).
  { apply Z.pow_le_mono_r; [pose proof (bval_ge b); lia|lia]. }
  assert (1 < n) by (assert (1 <= max_num_digits b s) by (destruct b, s; vm_compute; discriminate); lia).
  specialize (H2 ltac:(lia)).
  assert (Hc : 2 ^ sbits s <= bval b ^ max_num_digits b s) by (destruct b, s; vm_compute; discriminate).
  lia.
Qed.
