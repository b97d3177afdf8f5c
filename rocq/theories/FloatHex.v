(* Hexadecimal notation. *)
From Verif Require Import Base GroupSpec DigitsSpec IntSpec DestModel DestProofs GroupModel GroupProofs GroupDist
  DigitsModel DigitsProofs DigitsCount IntModel IntProofs CharsetModel FloatSpec FloatModel FloatArith FloatText FloatNum FloatInit.

Lemma pow16_pos k : 0 <= k -> 0 < 16 ^ k.
Proof. intros; apply Z.pow_pos_nonneg; lia. Qed.
Lemma pow16_split a b : 0 <= a -> 0 <= b -> 16 ^ (a + b) = 16 ^ a * 16 ^ b.
Proof. intros; apply Z.pow_add_r; lia. Qed.
Lemma pow16_2 k : 0 <= k -> 16 ^ k = 2 ^ (4 * k).
Proof. intros. rewrite Z.pow_mul_r by lia. reflexivity. Qed.

(* ---- trailing zeros ---- *)
Fixpoint tz16 (k : nat) (v : Z) : Z :=
  match k with O => 0 | S k' => if v mod 16 =? 0 then 1 + tz16 k' (v / 16) else 0 end.
Lemma hex_places_tz m : hex_places m = 13 - (if m =? 0 then 13 else tz16 13 m).
Proof. reflexivity. Qed.
Lemma div_exact16 v a : 0 <= a -> v mod 16 = 0 -> (v / 16) mod 16 ^ a = 0 <-> v mod 16 ^ (a + 1) = 0.
Proof.
  intros Ha H. pose proof (pow16_pos a Ha). rewrite pow16_split by lia. change (16 ^ 1) with 16.
  rewrite (Z.mul_comm (16 ^ a) 16). rewrite Z.rem_mul_r by lia. lia.
Qed.
Lemma mod16_le v a b : 0 <= a <= b -> v mod 16 ^ b = 0 -> v mod 16 ^ a = 0.
Proof.
  intros Hab H. pose proof (pow16_pos a ltac:(lia)). pose proof (pow16_pos (b - a) ltac:(lia)).
  apply Z.mod_divide in H as [q Hq]; [|pose proof (pow16_pos b); lia]. apply Z.mod_divide; [lia|].
  exists (q * 16 ^ (b - a)). rewrite Hq. replace b with ((b - a) + a) at 1 by lia. rewrite pow16_split by lia. lia.
Qed.
Lemma tz16_ok : forall k v a, 0 <= a < Z.of_nat k -> v mod 16 ^ a = 0 -> v mod 16 ^ (a + 1) <> 0 -> tz16 k v = a.
Proof.
  induction k as [|k IH]; intros v a Ha H1 H2; [lia|]. cbn [tz16].
  destruct (Z.eqb_spec (v mod 16) 0) as [E|E].
  - destruct (Z.eq_dec a 0) as [->|]; [exfalso; apply H2; exact E|].
    rewrite (IH (v / 16) (a - 1)); [lia|lia| |].
    + apply div_exact16; [lia|exact E|]. replace (a - 1 + 1) with a by lia. exact H1.
    + intros C. apply H2. replace (a - 1 + 1) with a in C by lia. apply div_exact16 in C; [exact C|lia|exact E].
  - destruct (Z.eq_dec a 0) as [->|]; [reflexivity|]. exfalso. apply E.
    apply (mod16_le v 1 a) in H1; [exact H1|lia].
Qed.
Lemma places_ok m a : 0 < m -> 0 <= a < 13 -> m mod 16 ^ a = 0 -> m mod 16 ^ (a + 1) <> 0 -> hex_places m = 13 - a.
Proof. intros Hm Ha H1 H2. rewrite hex_places_tz. replace (m =? 0) with false by lia. rewrite (tz16_ok 13 m a); [reflexivity|lia|assumption|assumption]. Qed.
Lemma places_spec m : 0 < m < 2 ^ 52 ->
  exists a, 0 <= a < 13 /\ m mod 16 ^ a = 0 /\ m mod 16 ^ (a + 1) <> 0 /\ hex_places m = 13 - a.
Proof.
  intros Hm.
  assert (H : forall k, (k <= 13)%nat -> (exists a, 0 <= a < Z.of_nat k /\ m mod 16 ^ a = 0 /\ m mod 16 ^ (a + 1) <> 0) \/ m mod 16 ^ Z.of_nat k = 0).
  { induction k as [|k IH]; intros Hk; [right; apply Z.mod_1_r|].
    destruct (IH ltac:(lia)) as [(a & A1 & A2 & A3)|E]; [left; exists a; repeat split; try assumption; lia|].
    destruct (Z.eq_dec (m mod 16 ^ Z.of_nat (S k)) 0) as [|N]; [right; assumption|]. left. exists (Z.of_nat k). split; [lia|]. split; [exact E|].
    replace (Z.of_nat k + 1) with (Z.of_nat (S k)) by lia. exact N. }
  destruct (H 13%nat ltac:(lia)) as [(a & A1 & A2 & A3)|E].
  - exists a. split; [lia|]. split; [exact A2|]. split; [exact A3|]. apply places_ok; try assumption; lia.
  - exfalso. change (16 ^ Z.of_nat 13) with (2 ^ 52) in E. rewrite Z.mod_small in E by lia. lia.
Qed.
Lemma countr_ok : forall k v a, 0 <= a < Z.of_nat k -> v mod 2 ^ a = 0 -> v mod 2 ^ (a + 1) <> 0 -> countr_zero k v = a.
Proof.
  induction k as [|k IH]; intros v a Ha H1 H2; [lia|]. cbn [countr_zero].
  destruct (Z.eq_dec a 0) as [->|].
  - change (2 ^ (0 + 1)) with 2 in H2. rewrite Zmod_odd in H2. destruct (Z.odd v); [reflexivity|lia].
  - assert (P : forall b, 0 <= b -> v mod 2 ^ (b + 1) = v mod 2 + 2 * ((v / 2) mod 2 ^ b)).
    { intros b Hb. rewrite Z.pow_add_r by lia. change (2 ^ 1) with 2. rewrite (Z.mul_comm (2 ^ b) 2). apply Z.rem_mul_r; [lia|].
      apply Z.pow_pos_nonneg; lia. }
    pose proof (P (a - 1) ltac:(lia)) as P1. replace (a - 1 + 1) with a in P1 by lia. rewrite H1 in P1.
    pose proof (Z.mod_pos_bound v 2 ltac:(lia)). pose proof (Z.mod_pos_bound (v / 2) (2 ^ (a - 1)) ltac:(apply Z.pow_pos_nonneg; lia)).
    assert (E2 : v mod 2 = 0) by lia. rewrite Zmod_odd in E2. destruct (Z.odd v) eqn:Eo; [lia|].
    rewrite (IH (v / 2) (a - 1)); [lia|lia|lia|]. replace (a - 1 + 1) with a by lia. specialize (P a ltac:(lia)). rewrite Zmod_odd, Eo in P. lia.
Qed.
Lemma countr_quarter m a c : 0 <= a < 13 -> 4 * a <= c < 4 * (a + 1) -> m mod 2 ^ c = 0 -> m mod 2 ^ (c + 1) <> 0 ->
  13 - Z.shiftr (countr_zero 64 m) 2 = 13 - a.
Proof.
  intros A1 C1 C2 C3. rewrite (countr_ok 64 m c) by (try assumption; lia).
  rewrite shr_div by lia. change (2 ^ 2) with 4. f_equal. symmetry.
  apply Z.div_unique with (c - 4 * a); lia.
Qed.
Lemma digcount_clz m : 0 < m < 2 ^ 52 -> 13 - Z.shiftr (countr_zero 64 m) 2 = hex_places m.
Proof.
  intros Hm. destruct (places_spec m Hm) as (a & A1 & A2 & A3 & ->).
  rewrite pow16_2 in A2, A3 by lia. replace (4 * (a + 1)) with (4 * a + 4) in A3 by lia.
  destruct (Z.eq_dec (m mod 2 ^ (4 * a + 1)) 0) as [E1|E1]; [|apply (countr_quarter m a (4 * a)); lia || assumption].
  destruct (Z.eq_dec (m mod 2 ^ (4 * a + 2)) 0) as [E2|E2].
  2: { apply (countr_quarter m a (4 * a + 1)); [lia|lia|assumption|]. replace (4 * a + 1 + 1) with (4 * a + 2) by lia. exact E2. }
  destruct (Z.eq_dec (m mod 2 ^ (4 * a + 3)) 0) as [E3|E3].
  2: { apply (countr_quarter m a (4 * a + 2)); [lia|lia|assumption|]. replace (4 * a + 2 + 1) with (4 * a + 3) by lia. exact E3. }
  apply (countr_quarter m a (4 * a + 3)); [lia|lia|assumption|]. replace (4 * a + 3 + 1) with (4 * a + 4) by lia. exact A3.
Qed.
Lemma land_16 m k x : 0 <= k -> x = Z.ones (4 * k) -> Z.land m x = m mod 16 ^ k.
Proof. intros Hk ->. rewrite Z.land_ones by lia. rewrite pow16_2 by lia. reflexivity. Qed.
Lemma mantissa_digcount_ok clz m : 0 < m < 2 ^ 52 -> mantissa_digcount clz m = hex_places m.
Proof.
  intros Hm. destruct clz; [exact (digcount_clz m Hm)|]. unfold mantissa_digcount.
  rewrite (land_16 m 8 0xFFFFFFFF), (land_16 m 10 0xFFFFFFFFFF), (land_16 m 12 0xFFFFFFFFFFFF), (land_16 m 11 0xFFFFFFFFFFF),
    (land_16 m 9 0xFFFFFFFFF), (land_16 m 4 0xFFFF), (land_16 m 6 0xFFFFFF), (land_16 m 7 0xFFFFFFF), (land_16 m 5 0xFFFFF),
    (land_16 m 3 0xFFF), (land_16 m 2 0xFF), (land_16 m 1 0xF) by (lia || reflexivity).
  assert (H13 : m mod 16 ^ (12 + 1) <> 0) by (change (16 ^ (12 + 1)) with (2 ^ 52); rewrite Z.mod_small by lia; lia).
  assert (H0 : m mod 16 ^ 0 = 0) by (rewrite Z.pow_0_r; apply Z.mod_1_r).
  assert (P : forall a n, 0 <= a < 13 -> n = 13 - a -> m mod 16 ^ a = 0 -> m mod 16 ^ (a + 1) <> 0 -> n = hex_places m).
  { intros a n Ha -> E1 E2. symmetry. apply places_ok; try assumption. lia. }
  destruct (Z.eqb_spec (m mod 16 ^ 8) 0); [|destruct (Z.eqb_spec (m mod 16 ^ 4) 0)].
  - destruct (Z.eqb_spec (m mod 16 ^ 10) 0).
    + destruct (Z.eqb_spec (m mod 16 ^ 12) 0); [apply (P 12); lia || assumption|].
      destruct (Z.eqb_spec (m mod 16 ^ 11) 0); [apply (P 11)|apply (P 10)]; lia || assumption.
    + destruct (Z.eqb_spec (m mod 16 ^ 9) 0); [apply (P 9)|apply (P 8)]; lia || assumption.
  - destruct (Z.eqb_spec (m mod 16 ^ 6) 0).
    + destruct (Z.eqb_spec (m mod 16 ^ 7) 0); [apply (P 7)|apply (P 6)]; lia || assumption.
    + destruct (Z.eqb_spec (m mod 16 ^ 5) 0); [apply (P 5)|apply (P 4)]; lia || assumption.
  - destruct (Z.eqb_spec (m mod 16 ^ 2) 0).
    + destruct (Z.eqb_spec (m mod 16 ^ 3) 0); [apply (P 3)|apply (P 2)]; lia || assumption.
    + destruct (Z.eqb_spec (m mod 16 ^ 1) 0); [apply (P 1)|apply (P 0)]; lia || assumption.
Qed.

(* ---- the nibbles ---- *)
Lemma nibble_ok m i : (i < 13)%nat -> 0 <= m -> hex_nibble m i = (m / 16 ^ (12 - Z.of_nat i)) mod 16.
Proof.
  intros Hi Hm. unfold hex_nibble. cbv zeta. set (k := 48 - 4 * Z.of_nat i). rewrite Z.shiftr_land.
  rewrite Z.shiftr_shiftl_l, Z.sub_diag, Z.shiftl_0_r by (unfold k; lia). rewrite land15, shr_div by (unfold k; lia).
  rewrite pow16_2 by lia. do 3 f_equal. unfold k. lia.
Qed.
Lemma last_digits_seq : forall k v, 0 <= v ->
  last_digits 16 k v = map (fun i => (v / 16 ^ (Z.of_nat k - 1 - Z.of_nat i)) mod 16) (seq 0 k).
Proof.
  induction k as [|k IH]; intros v Hv; [reflexivity|]. cbn [last_digits]. rewrite IH by (apply Z.div_pos; lia).
  rewrite seq_S, map_app. cbn [map plus]. f_equal.
  - apply map_ext_in. intros i Hi. apply in_seq in Hi. rewrite Z.div_div by (try lia; apply pow16_pos; lia).
    replace (16 * 16 ^ (Z.of_nat k - 1 - Z.of_nat i)) with (16 ^ (Z.of_nat (S k) - 1 - Z.of_nat i)); [reflexivity|].
    replace (Z.of_nat (S k) - 1 - Z.of_nat i) with (1 + (Z.of_nat k - 1 - Z.of_nat i)) by lia. rewrite pow16_split by lia. reflexivity.
  - replace (Z.of_nat (S k) - 1 - Z.of_nat k) with 0 by lia. rewrite Z.div_1_r. reflexivity.
Qed.
Lemma nibbles_ok m k : (k <= 13)%nat -> 0 <= m ->
  map (hex_nibble m) (seq 0 k) = last_digits 16 k (m / 16 ^ (13 - Z.of_nat k)).
Proof.
  intros Hk Hm. pose proof (pow16_pos (13 - Z.of_nat k) ltac:(lia)). rewrite last_digits_seq by (apply Z.div_pos; lia).
  apply map_ext_in. intros i Hi. apply in_seq in Hi. rewrite nibble_ok by lia.
  rewrite Z.div_div by (try lia; apply pow16_pos; lia). rewrite <- pow16_split by lia. do 3 f_equal. lia.
Qed.
Lemma last_digits_bounds base k : 2 <= base -> forall v, Forall (fun d => 0 <= d < base) (last_digits base k v).
Proof.
  intros Hb. induction k as [|k IH]; intros v; cbn [last_digits]; [constructor|].
  apply Forall_app; split; [apply IH|]. constructor; [|constructor]. apply Z.mod_pos_bound; lia.
Qed.
Lemma last_digits_modz base k : 2 <= base -> forall v a, last_digits base k (a * base ^ Z.of_nat k + v) = last_digits base k v.
Proof.
  intros Hb. induction k as [|k IH]; intros v a; [reflexivity|]. cbn [last_digits].
  rewrite Nat2Z.inj_succ, Z.pow_succ_r by lia.
  replace (a * (base * base ^ Z.of_nat k) + v) with (v + (a * base ^ Z.of_nat k) * base) by lia.
  rewrite Z.div_add, Z.mod_add by lia. rewrite (Z.add_comm (v / base)), IH. reflexivity.
Qed.

(* ---- a described number ---- *)
Definition hex_tail (lc : lettercase) (E : Z) : list Z :=
  (if low_prefix lc then 112 else 80) :: (if E <? 0 then 45 else 43) :: decimal (digits 10 (Z.abs E)).
Definition hex_num_text (pt : list Z) (lc : lettercase) (lead : Z) (n : num) : list Z :=
  48 + lead :: (if n_point n then pt else []) ++
  hex_digits lc (last_digits 16 (Z.to_nat (n_digcount n)) (n_m n / 16 ^ (13 - n_digcount n))) ++
  zeros (n_extra n) ++ hex_tail lc (n_e n).
Record hex_wf (n : num) : Prop := mk_hex_wf {
  hw_m : 0 <= n_m n;
  hw_dc : 0 <= n_digcount n <= 13;
  hw_zero : n_m n = 0 -> n_digcount n = 0;
  hw_extra : 0 <= n_extra n;
  hw_e : -10000 < n_e n < 10000;
  hw_seps : n_seps n = zlen (digits 10 (Z.abs (n_e n))) }.
Lemma exponent_digcount_ok e : -10000 < e < 10000 -> exponent_digcount e = zlen (digits 10 (Z.abs e)).
Proof.
  intros He. unfold exponent_digcount. cbv zeta. set (a := Z.abs e). assert (0 <= a < 10000) by lia. clearbody a.
  destruct (Z.leb_spec 1000 a); [symmetry; rewrite (dc_of a 4); [|lia|lia|change (10 ^ (4 - 1)) with 1000; change (10 ^ 4) with 10000; lia]|
  destruct (Z.leb_spec 100 a); [symmetry; rewrite (dc_of a 3); [|lia|lia|change (10 ^ (3 - 1)) with 100; change (10 ^ 3) with 1000; lia]|
  destruct (Z.leb_spec 10 a); [symmetry; rewrite (dc_of a 2); [|lia|lia|change (10 ^ (2 - 1)) with 10; change (10 ^ 2) with 100; lia]|]]].
  - replace (100 <=? a) with true by lia. replace (10 <=? a) with true by lia. reflexivity.
  - replace (10 <=? a) with true by lia. reflexivity.
  - reflexivity.
  - rewrite digits_small by lia. reflexivity.
Qed.

Lemma hex_num_len pt lc lead n : hex_wf n ->
  zlen (hex_num_text pt lc lead n) = 3 + (if n_point n then zlen pt else 0) + n_digcount n + n_extra n + n_seps n.
Proof.
  intros [H1 H2 H3 H4 H5 H6]. unfold hex_num_text, hex_tail. rewrite zlen_cons, !zlen_app, !zlen_cons.
  unfold hex_digits. unfold zlen at 2. rewrite map_length. fold (zlen (last_digits 16 (Z.to_nat (n_digcount n)) (n_m n / 16 ^ (13 - n_digcount n)))).
  rewrite last_digits_zlen by lia. unfold zeros. rewrite zlen_repeat by lia. rewrite decimal_len, H6.
  destruct (n_point n); [|change (zlen []) with 0]; lia.
Qed.

Lemma mantissa_masked m : 0 <= m < 2 ^ 52 -> (m =? Z.land m 0xFFFFFFFFFFFFF) = true.
Proof.
  intros H. change 0xFFFFFFFFFFFFF with (Z.ones 52). rewrite Z.land_ones, Z.mod_small by lia. apply Z.eqb_refl.
Qed.
Lemma print_hex_ok cs lc (subnormal : bool) n fd sign sub point point_size :
  hex_wf n -> charset_ok cs -> 0 <= point < 2 ^ 32 ->
  point_size = (if n_point n then zlen (cs_encode cs point) else 0) ->
  sub = b2z (fd_showsign fd) + 5 + b2z (n_point n) + n_digcount n + n_seps n ->
  wrote (print_hex cs lc subnormal n fd sign sub point point_size)
    ((if fd_showsign fd then [sign] else []) ++ [48; if low_prefix lc then 120 else 88] ++
     zeros (fd_pad0 fd - (sub + n_extra n)) ++ hex_num_text (cs_encode cs point) lc (if subnormal then 0 else 1) n).
Proof.
  intros W K Hpt Eps Esub. destruct W as [H1 H2 H3 H4 H5 H6].
  pose proof (ok_small cs K point Hpt) as Kp. unfold print_hex.
  assert (Hz0 : Bool.eqb (n_point n) (negb (point_size =? 0)) = true).
  { rewrite Eps. destruct (n_point n); [|reflexivity]. destruct (Z.eqb_spec (zlen (cs_encode cs point)) 0); [lia|reflexivity]. }
  rewrite Hz0. cbn [negb]. rewrite point_units_ok by assumption.
  rewrite write_back_ok by (try discriminate; lia). rewrite (decimal_dtext true) by lia. cbn [obind bval].
  rewrite decimal_len, <- H6, Z.eqb_refl. cbn [negb orb]. replace (13 <? n_digcount n) with false by lia. cbn [andb].
  set (digit := fun i => let d := hex_nibble (n_m n) i in if d <? 10 then 48 + d else Z.lor 65 (Z.shiftl (b2i (low_digits lc)) 5) - 10 + d).
  cbv zeta.
  assert (ED : (if n_m n =? 0 then [] else map digit (seq 0 (Z.to_nat (n_digcount n)))) =
     hex_digits lc (last_digits 16 (Z.to_nat (n_digcount n)) (n_m n / 16 ^ (13 - n_digcount n)))).
  { transitivity (map digit (seq 0 (Z.to_nat (n_digcount n)))).
    - destruct (Z.eqb_spec (n_m n) 0) as [E|]; [|reflexivity]. rewrite (H3 E). reflexivity.
    - pose proof (nibbles_ok (n_m n) (Z.to_nat (n_digcount n)) ltac:(lia) H1) as EN. rewrite Z2Nat.id in EN by lia. rewrite <- EN.
      unfold hex_digits. rewrite map_map. apply map_ext_in. intros i Hi. apply in_seq in Hi. unfold digit. cbv zeta.
      rewrite nibble_ok by lia. set (d := _ mod 16). assert (0 <= d < 16) by (apply Z.mod_pos_bound; lia).
      unfold digit_char. destruct (d <? 10); [reflexivity|]. destruct lc; cbn [low_digits b2i];
      [change (Z.lor 65 (Z.shiftl 1 5)) with 97|change (Z.lor 65 (Z.shiftl 0 5)) with 65|change (Z.lor 65 (Z.shiftl 0 5)) with 65]; try lia. }
  rewrite ED. set (D := hex_digits lc _).
  assert (HD : zlen D = n_digcount n). { unfold D, hex_digits. unfold zlen. rewrite map_length. fold (zlen (last_digits 16 (Z.to_nat (n_digcount n)) (n_m n / 16 ^ (13 - n_digcount n)))). apply last_digits_zlen. lia. }
  assert (EL : Z.lor 48 (b2i (negb subnormal)) = 48 + (if subnormal then 0 else 1)) by (destruct subnormal; reflexivity).
  rewrite EL. set (ld := 48 + (if subnormal then 0 else 1)).
  assert (EX : Z.lor 88 (Z.shiftl (b2i (low_prefix lc)) 5) = if low_prefix lc then 120 else 88) by (destruct lc; reflexivity).
  assert (EP : Z.lor 80 (Z.shiftl (b2i (low_prefix lc)) 5) = if low_prefix lc then 112 else 80) by (destruct lc; reflexivity).
  assert (ES : 43 + Z.shiftl (b2i (n_e n <? 0)) 1 = if n_e n <? 0 then 45 else 43) by (destruct (n_e n <? 0); reflexivity).
  rewrite EX, EP, ES.
  change ((if low_prefix lc then 112 else 80) :: (if n_e n <? 0 then 45 else 43) :: decimal (digits 10 (Z.abs (n_e n)))) with (hex_tail lc (n_e n)).
  set (T := hex_tail lc (n_e n)).
  assert (HT : zlen T = 2 + n_seps n) by (unfold T, hex_tail; rewrite !zlen_cons, decimal_len, H6; lia).
  assert (Hs4 : 1 <= n_seps n <= 4).
  { rewrite H6, <- exponent_digcount_ok by exact H5. unfold exponent_digcount. cbv zeta.
    destruct (1000 <=? Z.abs (n_e n)), (100 <=? Z.abs (n_e n)), (10 <=? Z.abs (n_e n)); cbn [b2z]; lia. }
  unfold hex_num_text. fold D T ld. set (pt := if n_point n then cs_encode cs point else []).
  assert (Hpl : zlen pt = point_size) by (unfold pt; rewrite Eps; destruct (n_point n); reflexivity).
  assert (Hp4 : 0 <= point_size <= 4 /\ (n_point n = false -> point_size = 0)) by (rewrite Eps; destruct (n_point n); split; lia || discriminate).
  set (sg := if fd_showsign fd then [sign] else []).
  assert (Hsg : zlen sg = b2z (fd_showsign fd)) by (unfold sg; destruct (fd_showsign fd); reflexivity).
  assert (Hb : 0 <= b2z (fd_showsign fd) <= 1) by (destruct (fd_showsign fd); cbn; lia).
  assert (Hb2 : 0 <= b2z (n_point n) <= 1) by (destruct (n_point n); cbn; lia).
  set (pads := fd_pad0 fd - (sub + n_extra n)). set (xc := if low_prefix lc then 120 else 88).
  assert (Hsz : sub + point_size - b2z (n_point n) = b2z (fd_showsign fd) + 5 + point_size + n_digcount n + n_seps n) by lia.
  rewrite Hsz. set (body := ld :: pt ++ D).
  assert (Hbd : zlen body = 1 + point_size + n_digcount n) by (unfold body; rewrite zlen_cons, zlen_app; lia).
  set (first := if n_extra n =? 0 then body ++ T else body).
  assert (Hfi : zlen first <= 3 + point_size + n_digcount n + n_seps n) by (unfold first; destruct (n_extra n =? 0); rewrite ?zlen_app; lia).
  set (last := if n_extra n =? 0 then [] else [OFill (n_extra n) 48; OReserve (Z.to_nat (2 + n_seps n)) T]).
  assert (HL : Forall op_wf last /\ ops_text last = if n_extra n =? 0 then [] else zeros (n_extra n) ++ T).
  { unfold last. destruct (n_extra n =? 0); [split; [constructor|reflexivity]|]. split.
    - constructor; [exact I|]. constructor; [|constructor]. cbn [op_wf]. unfold zlen in HT. lia.
    - unfold ops_text; cbn. rewrite app_nil_r. reflexivity. }
  destruct HL as [LW LT].
  assert (HB : forall l, (l ++ first) ++ (if n_extra n =? 0 then [] else zeros (n_extra n) ++ T) = l ++ ld :: pt ++ D ++ zeros (n_extra n) ++ T).
  { intros l. unfold first. destruct (Z.eqb_spec (n_extra n) 0) as [E|E].
    - rewrite E. unfold zeros. cbn [Z.to_nat repeat app]. rewrite app_nil_r. unfold body. f_equal. cbn [app]. f_equal. rewrite <- app_assoc. reflexivity.
    - unfold body. rewrite <- app_assoc. f_equal. cbn [app]. f_equal. rewrite <- app_assoc. reflexivity. }
  apply wrote_some.
  - apply Forall_app; split; [|exact LW]. destruct (Z.ltb_spec (sub + n_extra n) (fd_pad0 fd)).
    + constructor; [|constructor; [exact I|constructor; [|constructor]]]; cbn [op_wf].
      * assert (zlen (sg ++ [48; xc]) = b2z (fd_showsign fd) + 2) by (rewrite zlen_app, Hsg; reflexivity). unfold zlen in *. lia.
      * unfold zlen in *. lia.
    + constructor; [|constructor]. cbn [op_wf].
      assert (zlen ((sg ++ [48; xc]) ++ first) <= b2z (fd_showsign fd) + 5 + point_size + n_digcount n + n_seps n).
      { rewrite !zlen_app, Hsg. change (zlen [48; xc]) with 2. lia. }
      unfold zlen in *. lia.
  - rewrite ops_text_app, LT. destruct (Z.ltb_spec (sub + n_extra n) (fd_pad0 fd)).
    + unfold ops_text. cbn [map concat op_text]. rewrite app_nil_r. change (repeat 48 (Z.to_nat (fd_pad0 fd - (sub + n_extra n)))) with (zeros pads).
      rewrite app_assoc. rewrite HB. rewrite <- !app_assoc. reflexivity.
    + unfold ops_text. cbn [map concat op_text]. rewrite app_nil_r.
      replace (zeros pads) with (@nil Z) by (unfold zeros, pads; replace (Z.to_nat (fd_pad0 fd - (sub + n_extra n))) with O by lia; reflexivity).
      rewrite HB. rewrite <- !app_assoc. reflexivity.
Qed.

(* ---- init_hex ---- *)
(* the rounded digits do not carry into the leading one *)
Definition hex_fine (lead mantissa : Z) (prec : option Z) : Prop :=
  match prec with None => True | Some p => fst (hex_rounded lead mantissa (Some p)) / 16 ^ p = lead end.
Definition prec_of (p : Z) : option Z := if 0 <=? p then Some p else None.

Record hex_good (showsign : bool) (n : num) : Prop := mk_hex_good {
  hg_wf : hex_wf n;
  hg_form : n_form n = FormHex;
  hg_sub : n_sub n = b2z showsign + 5 + b2z (n_point n) + n_digcount n + n_seps n }.

Lemma hex_digits_app lc a b : hex_digits lc (a ++ b) = hex_digits lc a ++ hex_digits lc b.
Proof. apply map_app. Qed.
Lemma hex_digits_zeros lc k : hex_digits lc (repeat 0 k) = repeat 48 k.
Proof. unfold hex_digits. induction k as [|k IH]; [reflexivity|]. cbn [repeat map]. rewrite IH. reflexivity. Qed.

(* lead.(q, dc digits)(zeros): what hex_rounded gives *)
Lemma hex_join lc lead q dc p (pt : list Z) (point : bool) E : 0 <= lead <= 1 -> 0 <= q < 16 ^ dc -> 0 <= dc <= p ->
  let N := lead * 16 ^ p + q * 16 ^ (p - dc) in
  hex_digits lc (digits 16 (N / 16 ^ p)) ++ (if point then pt else []) ++ hex_digits lc (last_digits 16 (Z.to_nat p) N) ++ hex_tail lc E =
  48 + lead :: (if point then pt else []) ++ hex_digits lc (last_digits 16 (Z.to_nat dc) q) ++ zeros (p - dc) ++ hex_tail lc E.
Proof.
  intros Hl Hq Hp N. pose proof (pow16_pos p ltac:(lia)). pose proof (pow16_pos (p - dc) ltac:(lia)). pose proof (pow16_pos dc ltac:(lia)).
  assert (E16 : 16 ^ p = 16 ^ dc * 16 ^ (p - dc)) by (rewrite <- pow16_split by lia; f_equal; lia).
  assert (EN : N / 16 ^ p = lead).
  { unfold N. rewrite Z.div_add_l by lia. rewrite Z.div_small; [lia|]. rewrite E16. nia. }
  rewrite EN, digits_small by lia. change (hex_digits lc [lead]) with [digit_char (low_digits lc) lead].
  assert (E1 : digit_char (low_digits lc) lead = 48 + lead) by (apply dchar10; lia). rewrite E1. cbn [app]. f_equal. f_equal.
  change zeros with (fun n => repeat 48 (Z.to_nat n)). cbv beta. rewrite <- (hex_digits_zeros lc). rewrite app_assoc. f_equal. rewrite <- hex_digits_app. f_equal.
  replace (Z.to_nat p) with (Z.to_nat dc + Z.to_nat (p - dc))%nat by lia. rewrite last_digits_app by (try lia; unfold N; nia).
  rewrite Z2Nat.id by lia. unfold N. f_equal.
  - replace (lead * 16 ^ p + q * 16 ^ (p - dc)) with ((lead * 16 ^ dc + q) * 16 ^ (p - dc)).
    2: { rewrite E16. lia. }
    rewrite Z.div_mul by lia. rewrite <- (Z2Nat.id dc) at 2 by lia. apply last_digits_modz. lia.
  - replace (lead * 16 ^ p + q * 16 ^ (p - dc)) with ((lead * 16 ^ dc + q) * 16 ^ Z.of_nat (Z.to_nat (p - dc))).
    2: { rewrite Z2Nat.id by lia. rewrite E16. lia. }
    apply last_digits_mul; nia.
Qed.

Lemma init_hex_ok clz showsign (subnormal : bool) mantissa exponent prec sp :
  0 <= mantissa < 2 ^ 52 -> -10000 < exponent < 10000 ->
  let lead := if subnormal then 0 else 1 in
  let E := if subnormal && (mantissa =? 0) then 0 else exponent in
  hex_fine lead mantissa (prec_of prec) ->
  let n := init_hex clz showsign subnormal mantissa exponent prec sp in
  hex_good showsign n /\
  forall s, st_showpoint s = sp -> st_precision s = prec_of prec ->
    hex_num_text (st_point s) (st_case s) lead n = hex_body s lead mantissa E.
Proof.
  intros Hm He lead E Hfine n.
  assert (HN : n = init_hex clz showsign subnormal mantissa exponent prec sp) by reflexivity. clearbody n.
  assert (Hlead : 0 <= lead <= 1) by (unfold lead; destruct subnormal; lia).
  assert (H2 : 2 ^ 52 = 16 ^ 13) by reflexivity.
  (* the digits q of a number n with dc of them *)
  assert (Hjoin : forall n' q dc extra point ex, n_m n' / 16 ^ (13 - dc) = q -> n_digcount n' = dc -> n_extra n' = extra -> n_point n' = point -> n_e n' = ex ->
     0 <= q < 16 ^ dc -> 0 <= dc -> 0 <= extra -> 
     forall s, hex_rounded lead mantissa (st_precision s) = (lead * 16 ^ (dc + extra) + q * 16 ^ extra, dc + extra) ->
       (st_showpoint s || (0 <? dc + extra)) = point ->
     hex_num_text (st_point s) (st_case s) lead n' = hex_body s lead mantissa ex).
  { intros n' q dc extra point ex E1 E2 E3 E4 E5 Hq Hdc Hx s ER EP. unfold hex_body. rewrite ER, EP.
    pose proof (hex_join (st_case s) lead q dc (dc + extra) (st_point s) point ex Hlead Hq ltac:(lia)) as HJ. cbv zeta in HJ.
    replace (dc + extra - dc) with extra in HJ by lia. unfold hex_tail in HJ. rewrite HJ. unfold hex_num_text, hex_tail. rewrite E2, E3, E4, E5, E1. reflexivity. }
  unfold init_hex in HN. cbv zeta in HN.
  destruct (Z.eqb_spec mantissa 0) as [Em|Em].
  - (* zero mantissa *)
    set (ed := if subnormal then 1 else exponent_digcount exponent).
    set (ex := if subnormal then 0 else exponent). set (extra := if 0 <=? prec then prec else 0). set (point := negb (extra =? 0) || sp).
    assert (Hn : n = mk_num FormHex 0 ex 0 ed extra point (b2z showsign + 5 + ed + b2z point)).
    { rewrite HN, Em. unfold ex, ed, point, extra. destruct subnormal; cbn [andb]; reflexivity. }
    assert (EE : E = ex) by (unfold E, ex; destruct subnormal; reflexivity).
    assert (Hx : 0 <= extra) by (unfold extra; destruct (Z.leb_spec 0 prec); lia).
    assert (HE : -10000 < ex < 10000) by (unfold ex; destruct subnormal; lia).
    assert (Hed : ed = zlen (digits 10 (Z.abs ex))) by (unfold ed, ex; destruct subnormal; [reflexivity|apply exponent_digcount_ok; exact He]).
    rewrite Hn. split.
    + constructor; cbn [n_form n_sub n_point n_digcount n_seps]; try reflexivity; try lia.
      constructor; cbn [n_m n_digcount n_extra n_e n_seps]; auto; lia.
    + intros s Es Ep. rewrite EE. apply (Hjoin _ 0 0 extra point ex); cbn [n_m n_digcount n_extra n_e n_point]; try reflexivity; try lia.
      * rewrite Ep. unfold hex_rounded, prec_of, extra. destruct (Z.leb_spec 0 prec).
        -- rewrite Em. destruct (Z.ltb_spec prec 13); f_equal; try lia.
           ++ rewrite Z.add_0_r, H2. replace 13 with (prec + (13 - prec)) at 1 by lia. rewrite pow16_split by lia.
              replace (lead * (16 ^ prec * 16 ^ (13 - prec))) with (lead * 16 ^ prec * 16 ^ (13 - prec)) by lia.
              rewrite nearest_mul by (apply pow16_pos; lia). replace (0 + prec) with prec by lia. lia.
           ++ rewrite Z.add_0_r, H2. rewrite <- Z.mul_assoc, <- pow16_split by lia. replace (13 + (prec - 13)) with (0 + prec) by lia. lia.
        -- rewrite Em. rewrite hex_places_tz. cbn [Z.eqb]. change (13 - (if true then 13 else tz16 13 0)) with 0. apply f_equal2; [|reflexivity].
           change (13 - 0) with 13. rewrite Z.add_0_r, H2, Z.div_mul by lia. change (16 ^ (0 + 0)) with 1. lia.
      * rewrite Es. unfold point. replace (0 + extra) with extra by lia. destruct sp; [rewrite orb_true_r; reflexivity|]. rewrite orb_false_r. cbn [orb]. lia.
  - (* not zero *)
    rewrite andb_false_r in HN. assert (EE : E = exponent) by (unfold E; rewrite andb_false_r; reflexivity).
    rewrite exponent_digcount_ok in HN by exact He. set (ed := zlen (digits 10 (Z.abs exponent))) in *.
    rewrite mantissa_digcount_ok in HN by lia. destruct (places_spec mantissa ltac:(lia)) as (a & A1 & A2 & A3 & A4). rewrite A4 in HN.
    set (dc := 13 - a) in *. assert (Ea : a = 13 - dc) by lia.
    set (q := mantissa / 16 ^ a). pose proof (pow16_pos a ltac:(lia)) as Pa.
    assert (Eq : mantissa = q * 16 ^ a) by (unfold q; pose proof (Z.div_mod mantissa (16 ^ a)); lia).
    assert (E13 : 16 ^ 13 = 16 ^ dc * 16 ^ a) by (rewrite <- pow16_split by lia; f_equal; lia).
    assert (Hq : 0 <= q < 16 ^ dc) by (split; [apply Z.div_pos; lia|apply Z.div_lt_upper_bound; lia]).
    destruct (Z.leb_spec 0 prec) as [Hp|Hp]; cbn [negb] in HN.
    2: { subst n. split.
      - constructor; cbn [n_form n_sub n_point n_digcount n_seps]; try reflexivity; try (cbn [b2z]; lia).
        constructor; cbn [n_m n_digcount n_extra n_e n_seps]; try reflexivity; lia.
      - intros s Es Ep. rewrite EE. apply (Hjoin _ q dc 0 true exponent); cbn [n_m n_digcount n_extra n_e n_point]; try reflexivity; try lia.
        + unfold q. do 2 f_equal. lia.
        + rewrite Ep. unfold prec_of. replace (0 <=? prec) with false by lia. unfold hex_rounded. rewrite A4. fold dc. f_equal; [|lia].
          replace (13 - dc) with a by lia. replace (dc + 0) with dc by lia. rewrite Z.mul_1_r.
          rewrite H2, E13, Z.mul_assoc, Z.div_add_l by lia. reflexivity. }
    destruct (Z.leb_spec dc prec) as [Hdp|Hdp].
    + subst n. split.
      * constructor; cbn [n_form n_sub n_point n_digcount n_seps]; try reflexivity; try (cbn [b2z]; lia).
        constructor; cbn [n_m n_digcount n_extra n_e n_seps]; try reflexivity; lia.
      * intros s Es Ep. rewrite EE. apply (Hjoin _ q dc (prec - dc) true exponent); cbn [n_m n_digcount n_extra n_e n_point]; try reflexivity; try lia.
        -- unfold q. do 2 f_equal. lia.
        -- rewrite Ep. unfold prec_of. replace (0 <=? prec) with true by lia. unfold hex_rounded. replace (dc + (prec - dc)) with prec by lia.
           rewrite H2. destruct (Z.ltb_spec prec 13); f_equal.
           ++ assert (Ev : lead * 16 ^ 13 + mantissa = (lead * 16 ^ prec + q * 16 ^ (prec - dc)) * 16 ^ (13 - prec)).
              { rewrite Z.mul_add_distr_r, <- !Z.mul_assoc, <- !pow16_split by lia. replace (prec + (13 - prec)) with 13 by lia. replace (prec - dc + (13 - prec)) with a by lia. rewrite <- Eq. reflexivity. }
              rewrite Ev. apply nearest_mul. apply pow16_pos; lia.
           ++ rewrite Z.mul_add_distr_r, <- Z.mul_assoc, <- pow16_split by lia. rewrite Eq, <- Z.mul_assoc, <- pow16_split by lia. replace (13 + (prec - 13)) with prec by lia. replace (a + (prec - 13)) with (prec - dc) by lia. reflexivity.
    + assert (Hp13 : prec < 13) by lia.
      unfold hex_fine, prec_of in Hfine. replace (0 <=? prec) with true in Hfine by lia.
      unfold hex_rounded in Hfine. replace (prec <? 13) with true in Hfine by lia. cbn [fst] in Hfine.
      set (d := 16 ^ (13 - prec)) in *. assert (Hd : 0 < d) by (apply pow16_pos; lia).
      assert (Esd : Z.shiftl 1 (Z.shiftl (13 - prec) 2) = d).
      { rewrite !Z.shiftl_mul_pow2 by (try lia; apply Z.shiftl_nonneg; lia). unfold d. rewrite pow16_2 by lia. rewrite Z.mul_1_l. f_equal.
        change (2 ^ 2) with 4. lia. }
      rewrite Esd in HN. clear Esd.
      assert (Elow : Z.land mantissa (d - 1) = mantissa mod d).
      { unfold d. rewrite pow16_2 by lia. replace (2 ^ (4 * (13 - prec)) - 1) with (Z.ones (4 * (13 - prec))) by (rewrite Z.ones_equiv; lia).
        apply Z.land_ones. lia. }
      rewrite Elow in HN. clear Elow.
      assert (Eh : Z.shiftr d 1 = d / 2) by (rewrite shr_div by lia; reflexivity). rewrite Eh in HN. clear Eh.
      assert (Edh : d = 2 * (d / 2)).
      { unfold d. replace (13 - prec) with (1 + (12 - prec)) by lia. rewrite pow16_split by lia. change (16 ^ 1) with (2 * 8).
        rewrite <- (Z.mul_assoc 2 8), (Z.mul_comm 2 (8 * _)), Z.div_mul by lia. lia. }
      assert (Eodd : negb (Z.land mantissa d =? 0) = Z.odd (mantissa / d)).
      { unfold d. rewrite pow16_2 by lia. set (b := 4 * (13 - prec)). assert (0 <= b) by (unfold b; lia).
        replace (Z.odd (mantissa / 2 ^ b)) with (Z.testbit mantissa b).
        2: { rewrite <- Z.shiftr_div_pow2, <- Z.bit0_odd, Z.shiftr_spec by lia. reflexivity. }
        destruct (Z.testbit mantissa b) eqn:Et.
        - destruct (Z.eqb_spec (Z.land mantissa (2 ^ b)) 0) as [C|]; [|reflexivity]. exfalso.
          assert (C2 : Z.testbit (Z.land mantissa (2 ^ b)) b = false) by (rewrite C; apply Z.bits_0).
          rewrite Z.land_spec, Et, Z.pow2_bits_true in C2 by lia. discriminate.
        - destruct (Z.eqb_spec (Z.land mantissa (2 ^ b)) 0) as [|C]; [reflexivity|]. exfalso. apply C. apply Z.bits_inj'. intros i Hi.
          rewrite Z.land_spec, Z.bits_0, Z.pow2_bits_eqb by lia. destruct (Z.eqb_spec b i) as [<-|]; [rewrite Et; reflexivity|apply andb_false_r]. }
      rewrite Eodd in HN. clear Eodd.
      set (q0 := mantissa / d) in *. set (r := mantissa mod d) in *. assert (Hr : 0 <= r < d) by (apply Z.mod_pos_bound; exact Hd).
      assert (Emd : mantissa = d * q0 + r) by (apply Z.div_mod; lia).
      assert (E13' : 16 ^ 13 = 16 ^ prec * d) by (unfold d; rewrite <- pow16_split by lia; f_equal; lia).
      pose proof (pow16_pos prec Hp) as Pp.
      assert (Hq0 : 0 <= q0 < 16 ^ prec) by (split; [apply Z.div_pos; lia|apply Z.div_lt_upper_bound; lia]).
      assert (Eqv : (lead * 2 ^ 52 + mantissa) / d = lead * 16 ^ prec + q0).
      { rewrite H2, E13'. symmetry. apply Z.div_unique with r; [lia|]. rewrite Emd at 1. lia. }
      assert (Erv : (lead * 2 ^ 52 + mantissa) mod d = r).
      { rewrite H2, E13'. symmetry. apply Z.mod_unique with (lead * 16 ^ prec + q0); [lia|]. rewrite Emd at 1. lia. }
      set (up := (d / 2 <? r) || ((r =? d / 2) && Z.odd q0)) in *.
      assert (Enear : nearest (lead * 2 ^ 52 + mantissa) d = lead * 16 ^ prec + q0 + (if (d / 2 <? r) || ((r =? d / 2) && Z.odd (lead * 16 ^ prec + q0)) then 1 else 0)).
      { unfold nearest. cbv zeta. rewrite Eqv, Erv. replace (d <? 2 * r) with (d / 2 <? r) by lia. replace (2 * r =? d) with (r =? d / 2) by lia.
        destruct ((d / 2 <? r) || ((r =? d / 2) && Z.odd (lead * 16 ^ prec + q0))); lia. }
      rewrite Enear in Hfine.
      assert (Eup : ((d / 2 <? r) || ((r =? d / 2) && Z.odd (lead * 16 ^ prec + q0))) = up).
      { destruct (Z.eq_dec prec 0) as [Ez|].
        - rewrite Ez in *. change (16 ^ 0) with 1 in *. assert (q0 = 0) by lia. unfold up. rewrite H in *. cbn [Z.odd]. rewrite andb_false_r, orb_false_r.
          rewrite Z.div_1_r in Hfine. destruct ((d / 2 <? r) || ((r =? d / 2) && Z.odd (lead * 1 + 0))) eqn:Eu; [exfalso; lia|].
          apply orb_false_elim in Eu as [Eu _]. symmetry; exact Eu.
        - unfold up. f_equal. f_equal. rewrite Z.odd_add. replace (Z.odd (lead * 16 ^ prec)) with false; [apply xorb_false_l|].
          replace prec with (1 + (prec - 1)) by lia. rewrite pow16_split by lia. change (16 ^ 1) with (8 * 2). symmetry.
          replace (lead * (8 * 2 * 16 ^ (prec - 1))) with (2 * (lead * 8 * 16 ^ (prec - 1))) by lia. apply Z.odd_mul. }
      rewrite Eup in Hfine, Enear. clear Eup.
      set (u := if up then 1 else 0) in *.
      assert (Hu : 0 <= q0 + u < 16 ^ prec).
      { assert (0 <= u <= 1) by (unfold u; destruct up; lia). split; [lia|].
        pose proof (Z.div_mod (lead * 16 ^ prec + q0 + u) (16 ^ prec) ltac:(lia)) as DM. rewrite Hfine in DM.
        pose proof (Z.mod_pos_bound (lead * 16 ^ prec + q0 + u) (16 ^ prec) Pp). lia. }
      assert (Hm' : (if up then mantissa + d else mantissa) = mantissa + u * d) by (unfold u; destruct up; lia). rewrite Hm' in HN. clear Hm'.
      assert (0 <= u) by (unfold u; destruct up; lia).
      set (point := negb (prec =? 0) || sp) in *. subst n. split.
      * constructor; cbn [n_form n_sub n_point n_digcount n_seps]; try reflexivity; try lia.
        constructor; cbn [n_m n_digcount n_extra n_e n_seps]; try reflexivity; try lia; nia.
      * intros s Es Ep. rewrite EE. apply (Hjoin _ (q0 + u) prec 0 point exponent); cbn [n_m n_digcount n_extra n_e n_point]; try reflexivity; try lia.
        -- fold d. rewrite Z.div_add by lia. reflexivity.
        -- rewrite Ep. unfold prec_of. replace (0 <=? prec) with true by lia. unfold hex_rounded. replace (prec <? 13) with true by lia.
           fold d. rewrite Enear. replace (prec + 0) with prec by lia. rewrite Z.mul_1_r. f_equal. lia.
        -- rewrite Es. unfold point. replace (prec + 0) with prec by lia. destruct sp; [rewrite orb_true_r; reflexivity|]. rewrite orb_false_r. cbn [orb]. lia.
Qed.
