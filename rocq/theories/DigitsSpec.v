(* Positional notation, independent of the code. *)
From Verif Require Import Base.

(* value of a digit list, most significant first *)
Definition value (base : Z) (ds : list Z) : Z := fold_left (fun a d => a * base + d) ds 0.
(* ds is the canonical representation of v: digits below the base, no leading zero
   (0 is "0") *)
Definition repr (base : Z) (ds : list Z) (v : Z) : Prop :=
  Forall (fun d => 0 <= d < base) ds /\ value base ds = v /\ ds <> [] /\
  ((1 < length ds)%nat -> hd 0 ds <> 0).

(* the character of a digit *)
Definition digit_char (lower : bool) (d : Z) : Z :=
  if d <? 10 then 48 + d else (if lower then 97 else 65) + (d - 10).

(* a computable form of it *)
Fixpoint digs (fuel : nat) (base v : Z) : list Z :=
  match fuel with
  | O => []
  | S f => if v <? base then [v] else digs f base (v / base) ++ [v mod base]
  end.
Definition digits (base v : Z) : list Z := digs (S (Z.to_nat (Z.log2 v))) base v.

Lemma digs_mono base : 2 <= base -> forall f1 f2 v, 0 <= v ->
  v < 2 ^ Z.of_nat f1 -> v < 2 ^ Z.of_nat f2 -> (0 < f1)%nat -> (0 < f2)%nat ->
  digs f1 base v = digs f2 base v.
Proof.
  intros Hb. induction f1 as [|f1 IH]; intros f2 v Hv H1 H2 P1 P2; [lia|].
  destruct f2 as [|f2]; [lia|]. cbn [digs].
  destruct (Z.ltb_spec v base) as [|Hge]; [reflexivity|].
  rewrite !Nat2Z.inj_succ, Z.pow_succ_r in H1, H2 by lia.
  assert (0 <= v / base <= v / 2) by (split; [apply Z.div_pos; lia|apply Z.div_le_compat_l; lia]).
  f_equal. apply IH; try lia.
  - destruct f1; [cbn in H1; lia|lia].
  - destruct f2; [cbn in H2; lia|lia].
Qed.

Lemma log2_fuel v : 0 <= v -> v < 2 ^ Z.of_nat (S (Z.to_nat (Z.log2 v))).
Proof.
  intros H. rewrite Nat2Z.inj_succ, Z2Nat.id by apply Z.log2_nonneg.
  destruct (Z.eq_dec v 0) as [->|]; [cbn; lia|]. apply Z.log2_spec; lia.
Qed.

Lemma digits_small base v : 0 <= v < base -> digits base v = [v].
Proof. intros H; unfold digits; cbn [digs]. destruct (Z.ltb_spec v base); [reflexivity|lia]. Qed.
Lemma digits_step base v : 2 <= base -> base <= v ->
  digits base v = digits base (v / base) ++ [v mod base].
Proof.
  intros Hb Hv; unfold digits at 1; cbn [digs].
  destruct (Z.ltb_spec v base); [lia|]. f_equal.
  assert (1 <= v / base) by (apply Z.div_le_lower_bound; lia).
  assert (0 <= v / base <= v / 2) by (split; [lia|apply Z.div_le_compat_l; lia]).
  pose proof (log2_fuel v ltac:(lia)) as Hf. rewrite Nat2Z.inj_succ, Z.pow_succ_r in Hf by lia.
  unfold digits. apply digs_mono; try lia.
  - apply log2_fuel; lia.
  - assert (0 < Z.log2 v) by (apply Z.log2_pos; lia). lia.
Qed.

Lemma value_app base a d : value base (a ++ [d]) = value base a * base + d.
Proof. unfold value; rewrite fold_left_app; reflexivity. Qed.

Lemma digits_ind_step (base : Z) (P : Z -> Prop) : 2 <= base ->
  (forall v, 0 <= v < base -> P v) -> (forall v, base <= v -> P (v / base) -> P v) ->
  forall v, 0 <= v -> P v.
Proof.
  intros Hb H0 H1 v Hv. pattern v. apply Zlt_0_ind; [|exact Hv].
  clear v Hv. intros v IH Hv.
  destruct (Z.ltb_spec v base); [apply H0; lia|]. apply H1; [assumption|]. apply IH.
  split; [apply Z.div_pos; lia|apply Z.div_lt; lia].
Qed.

Lemma digits_hd base v : 2 <= base -> 0 < v -> hd 0 (digits base v) <> 0 /\ digits base v <> [].
Proof.
  intros Hb Hv. assert (0 <= v) as Hv0 by lia. revert Hv. pattern v.
  apply (digits_ind_step base); [assumption| | |exact Hv0]; clear v Hv0.
  - intros v Hv Hp. rewrite digits_small by lia. cbn; split; [lia|discriminate].
  - intros v Hv IH _. rewrite digits_step by lia.
    assert (1 <= v / base) by (apply Z.div_le_lower_bound; lia).
    destruct (IH ltac:(lia)) as [Hh Hn]. destruct (digits base (v / base)); [congruence|].
    cbn in *; split; [assumption|discriminate].
Qed.
Lemma digits_nonempty base v : 2 <= base -> 0 <= v -> digits base v <> [].
Proof.
  intros Hb Hv. destruct (Z.eq_dec v 0) as [->|]; [rewrite digits_small by lia; discriminate|].
  apply digits_hd; lia.
Qed.

Lemma repr_digits base v : 2 <= base -> 0 <= v -> repr base (digits base v) v.
Proof.
  intros Hb Hv. split; [|split; [|split]].
  - pattern v. apply (digits_ind_step base); [assumption| | |exact Hv]; clear v Hv.
    + intros v Hv. rewrite digits_small by lia. constructor; [lia|constructor].
    + intros v Hv IH. rewrite digits_step by lia. apply Forall_app; split; [assumption|].
      constructor; [apply Z.mod_pos_bound; lia|constructor].
  - pattern v. apply (digits_ind_step base); [assumption| | |exact Hv]; clear v Hv.
    + intros v Hv. rewrite digits_small by lia. unfold value; cbn; lia.
    + intros v Hv IH. rewrite digits_step by lia. rewrite value_app, IH.
      pose proof (Z.div_mod v base); lia.
  - apply digits_nonempty; assumption.
  - intros Hl. destruct (Z.eq_dec v 0) as [->|]; [rewrite digits_small in Hl by lia; cbn in Hl; lia|].
    apply digits_hd; lia.
Qed.

Lemma value_nonneg base ds : 2 <= base -> Forall (fun d => 0 <= d < base) ds -> 0 <= value base ds.
Proof.
  intros Hb. induction ds as [|d ds IH] using rev_ind; intros H; [cbn; lia|].
  rewrite value_app. apply Forall_app in H as [H1 H2]. inversion H2; subst.
  specialize (IH H1). nia.
Qed.

Lemma value_pos base ds : 2 <= base -> Forall (fun d => 0 <= d < base) ds -> hd 0 ds <> 0 -> 1 <= value base ds.
Proof.
  intros Hb. induction ds as [|d ds IH] using rev_ind; intros H Hh; [cbn in Hh; lia|].
  rewrite value_app. apply Forall_app in H as [H1 H2]. inversion H2; subst.
  destruct ds as [|e ds]; [cbn in *; lia|].
  cbn [hd app] in *. specialize (IH H1 Hh). nia.
Qed.

Lemma repr_unique base ds v : 2 <= base -> repr base ds v -> ds = digits base v.
Proof.
  intros Hb. revert v. induction ds as [|d ds IH] using rev_ind; intros v (HF & HV & Hn & Hh); [congruence|].
  rewrite value_app in HV. apply Forall_app in HF as [HF1 HF2]. inversion HF2; subst.
  destruct ds as [|e ds].
  - change (value base []) with 0. rewrite digits_small by lia. cbn [app]. f_equal; lia.
  - assert (He : e <> 0) by (apply Hh; rewrite app_length; cbn; lia).
    assert (Hp : 1 <= value base (e :: ds)) by (apply value_pos; assumption).
    rewrite digits_step by nia.
    replace ((value base (e :: ds) * base + d) / base) with (value base (e :: ds)).
    2: { rewrite Z.div_add_l by lia. rewrite Z.div_small by lia. lia. }
    replace ((value base (e :: ds) * base + d) mod base) with d.
    2: { rewrite Z.add_comm, Z.mod_add by lia. rewrite Z.mod_small; lia. }
    f_equal. apply IH. split; [assumption|]. split; [reflexivity|]. split; [discriminate|]. intros _; exact He.
Qed.

(* number of digits *)
Lemma digits_len base v n : 2 <= base -> 1 <= n -> 0 <= v < base ^ n -> (1 < n -> base ^ (n - 1) <= v) ->
  zlen (digits base v) = n.
Proof.
  intros Hb Hn Hv Hlo. assert (Hn0 : 0 <= n - 1) by lia.
  remember (Z.to_nat (n - 1)) as k eqn:Ek. revert n v Hn Hv Hlo Hn0 Ek.
  induction k as [|k IH]; intros n v Hn Hv Hlo Hn0 Ek.
  - assert (n = 1) by lia; subst n. rewrite Z.pow_1_r in Hv. rewrite digits_small by lia. reflexivity.
  - specialize (Hlo ltac:(lia)).
    assert (E1 : base ^ n = base * base ^ (n - 1)) by (rewrite <- Z.pow_succ_r by lia; f_equal; lia).
    assert (E2 : base ^ (n - 1) = base * base ^ (n - 1 - 1)) by (rewrite <- Z.pow_succ_r by lia; f_equal; lia).
    assert (0 < base ^ (n - 1 - 1)) by (apply Z.pow_pos_nonneg; lia).
    rewrite digits_step by nia. rewrite zlen_app.
    rewrite (IH (n - 1)); try lia.
    + rewrite zlen_cons, zlen_nil; lia.
    + split; [apply Z.div_pos; lia|apply Z.div_lt_upper_bound; lia].
    + intros _. apply Z.div_le_lower_bound; lia.
Qed.

Lemma digits_bound base v : 2 <= base -> 0 <= v ->
  v < base ^ zlen (digits base v) /\ (1 < zlen (digits base v) -> base ^ (zlen (digits base v) - 1) <= v)
  /\ 1 <= zlen (digits base v).
Proof.
  intros Hb Hv. pattern v. apply (digits_ind_step base); [assumption| | |exact Hv]; clear v Hv.
  - intros v Hv. rewrite digits_small by lia. cbn. lia.
  - intros v Hv (H1 & H2 & H3). rewrite digits_step by lia. rewrite zlen_app.
    change (zlen [v mod base]) with 1.
    set (n := zlen (digits base (v / base))) in *.
    assert (E1 : base ^ (n + 1) = base * base ^ n) by (rewrite <- Z.pow_succ_r by lia; f_equal; lia).
    assert (E2 : base ^ n = base * base ^ (n - 1)) by (rewrite <- Z.pow_succ_r by lia; f_equal; lia).
    replace (n + 1 - 1) with n by lia. rewrite E1.
    pose proof (Z.div_mod v base ltac:(lia)). pose proof (Z.mod_pos_bound v base ltac:(lia)).
    assert (0 < base ^ (n - 1)) by (apply Z.pow_pos_nonneg; lia).
    split; [nia|]. split; [|lia]. intros _.
    destruct (Z.eq_dec n 1) as [E|]; [rewrite E in *; cbn in *; lia|]. specialize (H2 ltac:(lia)). nia.
Qed.

Lemma digits_shift base v k : 2 <= base -> 0 <= k -> base ^ k <= v ->
  zlen (digits base v) = k + zlen (digits base (v / base ^ k)).
Proof.
  intros Hb Hk Hv. assert (0 < base ^ k) by (apply Z.pow_pos_nonneg; lia).
  assert (Hq : 1 <= v / base ^ k) by (apply Z.div_le_lower_bound; lia).
  destruct (digits_bound base (v / base ^ k) Hb ltac:(lia)) as (H1 & H2 & H3).
  set (m := zlen (digits base (v / base ^ k))) in *.
  assert (Ep : base ^ (k + m) = base ^ k * base ^ m) by (apply Z.pow_add_r; lia).
  assert (Eq : base ^ (k + m - 1) = base ^ k * base ^ (m - 1)) by (rewrite <- Z.pow_add_r by lia; f_equal; lia).
  pose proof (Z.div_mod v (base ^ k) ltac:(lia)). pose proof (Z.mod_pos_bound v (base ^ k) ltac:(lia)).
  apply digits_len; try lia.
  - split; [lia|]. rewrite Ep. nia.
  - intros _. rewrite Eq. destruct (Z.eq_dec m 1) as [E|]; [rewrite E in *; cbn; nia|].
    specialize (H2 ltac:(lia)). nia.
Qed.
