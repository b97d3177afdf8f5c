(* Bit tricks of the model restated as arithmetic. *)
From Verif Require Import Base UtfSpec UtfModel.

(* Lifting a computed check of all numbers below [n]. *)
Lemma sweep (P : Z -> bool) (n : nat) :
  forallb (fun k => P (Z.of_nat k)) (seq 0 n) = true ->
  forall x, 0 <= x < Z.of_nat n -> P x = true.
Proof.
  intros H x Hx. rewrite forallb_forall in H.
  specialize (H (Z.to_nat x)). rewrite Z2Nat.id in H by lia. apply H.
  apply in_seq. lia.
Qed.

Lemma lor_shift a b n : 0 <= n -> 0 <= b < 2 ^ n -> Z.lor (Z.shiftl a n) b = a * 2 ^ n + b.
Proof.
  intros Hn Hb.
  rewrite <- (Z.shiftl_mul_pow2 a n) by lia.
  assert (Z.land (Z.shiftl a n) b = 0) as HL.
  { apply Z.bits_inj'. intros i Hi. rewrite Z.land_spec, Z.bits_0.
    destruct (Z_lt_le_dec i n).
    - rewrite Z.shiftl_spec_low by lia. reflexivity.
    - destruct (Z.eq_dec b 0) as [->|]; [rewrite Z.bits_0; apply andb_false_r|].
      rewrite (Z.bits_above_log2 b i); [apply andb_false_r | lia |].
      apply Z.log2_lt_pow2; [lia|]. apply Z.lt_le_trans with (2 ^ n); [lia|].
      apply Z.pow_le_mono_r; lia. }
  rewrite Z.add_nocarry_lxor by exact HL. symmetry. apply Z.lxor_lor. exact HL.
Qed.

Lemma lor_mul a b n : 0 <= n -> 0 <= b < 2 ^ n -> Z.lor (a * 2 ^ n) b = a * 2 ^ n + b.
Proof. intros. rewrite <- (lor_shift a b n) by lia. now rewrite Z.shiftl_mul_pow2. Qed.

Lemma land_3F x : Z.land x 0x3F = x mod 64.
Proof. apply (Z.land_ones x 6); lia. Qed.
Lemma land_3FF x : Z.land x 0x3FF = x mod 1024.
Proof. apply (Z.land_ones x 10); lia. Qed.
Lemma land_1F x : Z.land x 0x1F = x mod 32.
Proof. apply (Z.land_ones x 5); lia. Qed.
Lemma land_0F x : Z.land x 0x0F = x mod 16.
Proof. apply (Z.land_ones x 4); lia. Qed.
Lemma land_07 x : Z.land x 0x07 = x mod 8.
Proof. apply (Z.land_ones x 3); lia. Qed.
Lemma shr x n : 0 <= n -> Z.shiftr x n = x / 2 ^ n.
Proof. apply Z.shiftr_div_pow2. Qed.

Lemma lor_80 x : Z.lor 0x80 (Z.land 0xBF x) = 0x80 + x mod 64.
Proof.
  change 0xBF with (Z.lor 0x80 0x3F). rewrite Z.land_lor_distr_l.
  rewrite Z.lor_assoc. rewrite (Z.lor_comm 0x80 (Z.land 0x80 x)).
  replace (Z.lor (Z.land 0x80 x) 0x80) with 0x80.
  - rewrite (Z.land_comm 0x3F x), land_3F.
    change 0x80 with (2 * 2 ^ 6) at 1. rewrite lor_mul by (try lia; apply Z.mod_pos_bound; lia). lia.
  - rewrite Z.lor_comm, Z.land_comm. rewrite Z.lor_comm.
    rewrite (Z.land_comm x 128). symmetry. apply Z.bits_inj'. intros i Hi.
    rewrite Z.lor_spec, Z.land_spec. destruct (Z.testbit 128 i), (Z.testbit x i); reflexivity.
Qed.

Lemma c8_id x : 0 <= x < 256 -> c8 x = x.
Proof. intros; apply to_u_id; lia. Qed.
Lemma c16_id x : 0 <= x < 65536 -> c16 x = x.
Proof. intros; apply to_u_id; lia. Qed.
Lemma c32_id x : 0 <= x < 4294967296 -> c32 x = x.
Proof. intros; apply to_u_id; lia. Qed.

Lemma is_surrogate_spec x : is_surrogate x = is_surr x.
Proof. unfold is_surrogate, is_surr. rewrite shr by lia. change (2 ^ 11) with 2048.
  apply eq_true_iff_eq. rewrite andb_true_iff, Z.eqb_eq, !Z.leb_le. lia. Qed.
Lemma is_high_spec x : is_high_surrogate x = (0xD800 <=? x) && (x <=? 0xDBFF).
Proof. unfold is_high_surrogate. rewrite shr by lia. change (2 ^ 10) with 1024.
  apply eq_true_iff_eq. rewrite andb_true_iff, Z.eqb_eq, !Z.leb_le. lia. Qed.
Lemma is_low_spec x : is_low_surrogate x = (0xDC00 <=? x) && (x <=? 0xDFFF).
Proof. unfold is_low_surrogate. rewrite shr by lia. change (2 ^ 10) with 1024.
  apply eq_true_iff_eq. rewrite andb_true_iff, Z.eqb_eq, !Z.leb_le. lia. Qed.

Definition cont (c : Z) : bool := (0x80 <=? c) && (c <=? 0xBF).

Lemma is_cont_spec x : 0 <= x < 256 -> is_cont x = cont x.
Proof. intros H. apply eqb_prop. revert x H.
  apply (sweep (fun x => eqb (is_cont x) (cont x)) 256). now vm_compute. Qed.
Lemma lead2_spec x : 0 <= x < 256 -> (0xC0 =? Z.land x 0xE0) = (0xC0 <=? x) && (x <=? 0xDF).
Proof. intros H. apply eqb_prop. revert x H.
  apply (sweep (fun x => eqb (0xC0 =? Z.land x 0xE0) ((0xC0 <=? x) && (x <=? 0xDF))) 256). now vm_compute. Qed.
Lemma lead3_spec x : 0 <= x < 256 -> (0xE0 =? Z.land x 0xF0) = (0xE0 <=? x) && (x <=? 0xEF).
Proof. intros H. apply eqb_prop. revert x H.
  apply (sweep (fun x => eqb (0xE0 =? Z.land x 0xF0) ((0xE0 <=? x) && (x <=? 0xEF))) 256). now vm_compute. Qed.
Lemma a0_spec x : 0 <= x < 256 -> (Z.land x 0xE0 =? 0xA0) = (0xA0 <=? x) && (x <=? 0xBF).
Proof. intros H. apply eqb_prop. revert x H.
  apply (sweep (fun x => eqb (Z.land x 0xE0 =? 0xA0) ((0xA0 <=? x) && (x <=? 0xBF))) 256). now vm_compute. Qed.
Lemma a0_spec' x : 0 <= x < 256 -> (0xA0 =? Z.land x 0xE0) = (0xA0 <=? x) && (x <=? 0xBF).
Proof. rewrite Z.eqb_sym. apply a0_spec. Qed.

Lemma xor_F0 x : 0 <= x < 256 ->
  (if 0xF0 <=? x then Z.lxor x 0xF0 =? x - 0xF0 else 0x10 <=? Z.lxor x 0xF0) = true.
Proof. intros H. revert x H.
  apply (sweep (fun x => if 0xF0 <=? x then Z.lxor x 0xF0 =? x - 0xF0 else 0x10 <=? Z.lxor x 0xF0) 256).
  now vm_compute. Qed.

Lemma first_2_of_3_spec b0 b1 : first_2_of_3 b0 b1 = b0 mod 16 * 64 + b1 mod 64.
Proof. unfold first_2_of_3. rewrite land_0F, land_3F. rewrite lor_shift by lia. reflexivity. Qed.
Lemma first_2_of_4_spec b0 b1 : first_2_of_4 b0 b1 = Z.lxor b0 0xF0 * 64 + b1 mod 64.
Proof. unfold first_2_of_4. rewrite land_3F. rewrite lor_shift by lia. reflexivity. Qed.
Lemma utf8_decode2_spec b0 b1 : utf8_decode2 b0 b1 = b0 mod 32 * 64 + b1 mod 64.
Proof. unfold utf8_decode2. rewrite land_1F, land_3F. rewrite lor_shift by lia. reflexivity. Qed.
Lemma lor_6 x b : Z.lor (Z.shiftl x 6) (Z.land b 0x3F) = x * 64 + b mod 64.
Proof. rewrite land_3F. rewrite lor_shift by lia. reflexivity. Qed.
Lemma last_2_of_4_spec x b2 b3 : last_2_of_4 x b2 b3 = x * 4096 + b2 mod 64 * 64 + b3 mod 64.
Proof.
  unfold last_2_of_4. rewrite !land_3F.
  replace (Z.lor (Z.shiftl x 12) (Z.shiftl (b2 mod 64) 6)) with (Z.shiftl (x * 64 + b2 mod 64) 6).
  - rewrite lor_shift by lia. lia.
  - replace (x * 64 + b2 mod 64) with (Z.lor (Z.shiftl x 6) (b2 mod 64))
      by (rewrite lor_shift by lia; reflexivity).
    rewrite Z.shiftl_lor, Z.shiftl_shiftl by lia. reflexivity.
Qed.
Lemma utf8_decode3_spec b0 b1 b2 :
  utf8_decode3 b0 b1 b2 = b0 mod 16 * 4096 + b1 mod 64 * 64 + b2 mod 64.
Proof. unfold utf8_decode3. rewrite land_0F. apply last_2_of_4_spec. Qed.
Lemma utf8_decode4_spec b0 b1 b2 b3 :
  utf8_decode4 b0 b1 b2 b3 = b0 mod 8 * 262144 + b1 mod 64 * 4096 + b2 mod 64 * 64 + b3 mod 64.
Proof.
  unfold utf8_decode4. rewrite land_07, !land_3F.
  replace (Z.lor (Z.shiftl (b0 mod 8) 18) (Z.shiftl (b1 mod 64) 12))
    with (Z.shiftl (b0 mod 8 * 64 + b1 mod 64) 12).
  - pose proof (last_2_of_4_spec (b0 mod 8 * 64 + b1 mod 64) b2 b3) as H.
    unfold last_2_of_4 in H. rewrite !land_3F in H. rewrite H. ring.
  - replace (b0 mod 8 * 64 + b1 mod 64) with (Z.lor (Z.shiftl (b0 mod 8) 6) (b1 mod 64))
      by (rewrite lor_shift by lia; reflexivity).
    rewrite Z.shiftl_lor, Z.shiftl_shiftl by lia. reflexivity.
Qed.
Lemma join_spec c d : join_surrogates c d = 0x10000 + c mod 1024 * 1024 + d mod 1024.
Proof. unfold join_surrogates. rewrite !land_3FF. rewrite lor_shift by lia. lia. Qed.

Lemma bytes2_spec ch : 0 <= ch < 0x800 -> bytes2 ch = [0xC0 + ch / 64; 0x80 + ch mod 64].
Proof.
  intros H. unfold bytes2. rewrite lor_80. rewrite (Z.land_comm 0x1F), land_1F, shr by lia.
  change 0xC0 with (6 * 2 ^ 5) at 1. rewrite lor_mul by (change (2 ^ 5) with 32; change (2 ^ 4) with 16; change (2 ^ 3) with 8; lia).
  change (2 ^ 6) with 64; change (2 ^ 12) with 4096; change (2 ^ 18) with 262144.
  rewrite !c8_id by lia. f_equal; lia.
Qed.
Lemma bytes3_spec ch : 0 <= ch < 0x10000 ->
  bytes3 ch = [0xE0 + ch / 4096; 0x80 + ch / 64 mod 64; 0x80 + ch mod 64].
Proof.
  intros H. unfold bytes3. rewrite !lor_80. rewrite (Z.land_comm 0x0F), land_0F, !shr by lia.
  change 0xE0 with (14 * 2 ^ 4) at 1. rewrite lor_mul by (change (2 ^ 5) with 32; change (2 ^ 4) with 16; change (2 ^ 3) with 8; lia).
  change (2 ^ 6) with 64; change (2 ^ 12) with 4096; change (2 ^ 18) with 262144.
  rewrite !c8_id by lia. f_equal; lia.
Qed.
Lemma bytes4_spec ch : 0 <= ch < 0x110000 ->
  bytes4 ch = [0xF0 + ch / 262144; 0x80 + ch / 4096 mod 64; 0x80 + ch / 64 mod 64; 0x80 + ch mod 64].
Proof.
  intros H. unfold bytes4. rewrite !lor_80. rewrite (Z.land_comm 0x07), land_07, !shr by lia.
  change 0xF0 with (30 * 2 ^ 3) at 1. rewrite lor_mul by (change (2 ^ 5) with 32; change (2 ^ 4) with 16; change (2 ^ 3) with 8; lia).
  change (2 ^ 6) with 64; change (2 ^ 12) with 4096; change (2 ^ 18) with 262144.
  rewrite !c8_id by lia. f_equal; lia.
Qed.
