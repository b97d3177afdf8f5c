(* Reading hexadecimal floating-point text back. *)
From Verif Require Import Base GroupSpec DigitsSpec IntSpec IntModel IntProofs WidthModel WidthProofs DestModel DestProofs UtfForms CharsetModel PrintModel
  DigitsProofs FloatSpec FloatModel FloatArith FloatInit FloatHex FloatProofs FloatHexCarry FloatRead FloatFast FloatArgs FloatAlways HexSpec.
From Verif Require Import ShortestSpec DragonModel DragonArith DragonBest DragonBridge DragonFloats DragonFormats FloatBits.
Local Open Scope Z_scope.

Definition accum16 (N : Z) (ds : list Z) : Z := fold_left (fun a d => a * 16 + d) ds N.
Definition small16 (d : Z) : Prop := 0 <= d < 16.
Lemma digits16_small v : 0 <= v -> Forall small16 (digits 16 v).
Proof. intros H. destruct (repr_digits 16 v ltac:(lia) H) as (F & _). exact F. Qed.
Lemma last16_small k : forall v, Forall small16 (last_digits 16 k v).
Proof. induction k as [|k IH]; intros v; cbn [last_digits]; [constructor|]. apply Forall_app. split; [apply IH|]. constructor; [apply Z.mod_pos_bound; lia|constructor]. Qed.
Lemma accum16_app N a b : accum16 N (a ++ b) = accum16 (accum16 N a) b.
Proof. apply fold_left_app. Qed.
Lemma accum16_digits v : 0 <= v -> accum16 0 (digits 16 v) = v.
Proof. intros H. destruct (repr_digits 16 v ltac:(lia) H) as (_ & V & _). exact V. Qed.
Lemma pow16_pos k : 0 <= k -> 0 < 16 ^ k.
Proof. intros H. apply Z.pow_pos_nonneg; lia. Qed.
Lemma accum16_last k : forall N v, 0 <= v -> accum16 N (last_digits 16 k v) = N * 16 ^ Z.of_nat k + v mod 16 ^ Z.of_nat k.
Proof.
  induction k as [|k IH]; intros N v Hv; cbn [last_digits].
  - change (16 ^ Z.of_nat 0) with 1. rewrite Z.mod_1_r. unfold accum16; cbn. lia.
  - rewrite accum16_app, IH by (apply Z.div_pos; lia). unfold accum16; cbn [fold_left].
    rewrite Nat2Z.inj_succ, Z.pow_succ_r by lia. pose proof (pow16_pos (Z.of_nat k) ltac:(lia)).
    rewrite (Z.rem_mul_r v 16 (16 ^ Z.of_nat k)) by lia. lia.
Qed.
Lemma accum16_both N p : 0 <= N -> 0 <= p -> accum16 0 (digits 16 (N / 16 ^ p) ++ last_digits 16 (Z.to_nat p) N) = N.
Proof.
  intros HN Hp. pose proof (pow16_pos p Hp). rewrite accum16_app, accum16_digits by (apply Z.div_pos; lia).
  rewrite accum16_last by lia. rewrite Z2Nat.id by lia. pose proof (Z.div_mod N (16 ^ p)). lia.
Qed.
Lemma hex_char low d : small16 d -> hex_value_of (digit_char low d) = Some d.
Proof.
  intros H. unfold small16 in H. assert (C : d = 0 \/ d = 1 \/ d = 2 \/ d = 3 \/ d = 4 \/ d = 5 \/ d = 6 \/ d = 7 \/ d = 8 \/ d = 9 \/ d = 10 \/ d = 11 \/ d = 12 \/ d = 13 \/ d = 14 \/ d = 15) by lia.
  destruct low; repeat (destruct C as [->|C]; [reflexivity|]); subst; reflexivity.
Qed.
Lemma read16 low ds : Forall small16 ds -> forall N p seen u,
  read_hex_digits N p seen (map (digit_char low) ds ++ u) = read_hex_digits (accum16 N ds) (if seen then p + zlen ds else p) seen u.
Proof.
  induction 1 as [|d ds Hd Hds IH]; intros N p seen u.
  - cbn [map app]. change (zlen []) with 0. rewrite Z.add_0_r. destruct seen; reflexivity.
  - cbn [map app]. cbn [read_hex_digits]. rewrite hex_char by exact Hd. rewrite IH, zlen_cons. unfold accum16. cbn [fold_left].
    destruct seen; [|reflexivity]. f_equal. lia.
Qed.
Lemma read16_point N p u : read_hex_digits N p false (46 :: u) = read_hex_digits N p true u.
Proof. reflexivity. Qed.
Lemma read16_zeros k u : read_hex_digits 0 0 false (repeat 48 k ++ u) = read_hex_digits 0 0 false u.
Proof. induction k as [|k IH]; [reflexivity|]. cbn [repeat app]. cbn [read_hex_digits]. exact IH. Qed.
Lemma read_dec ds : Forall small ds -> forall A, read_decimal A (decimal ds) = Some (accum A ds).
Proof.
  induction 1 as [|d ds Hd Hds IH]; intros A; [reflexivity|]. unfold decimal in *. cbn [map]. rewrite decimal_char by exact Hd. unfold small in Hd. cbn [read_decimal].
  replace ((48 <=? 48 + d) && (48 + d <=? 57)) with true by lia. rewrite IH. unfold accum. cbn [fold_left]. do 2 f_equal. lia.
Qed.

Lemma last16_zlen p N : 0 <= p -> zlen (last_digits 16 (Z.to_nat p) N) = p.
Proof. intros H. assert (X : forall k v, zlen (last_digits 16 k v) = Z.of_nat k).
  { induction k as [|k IH]; intros v; [reflexivity|]. cbn [last_digits]. rewrite zlen_app, IH. unfold zlen; cbn [length]; lia. }
  rewrite X. lia. Qed.

Lemma letter16 N p seen (low : bool) u : read_hex_digits N p seen ((if low then 112 else 80) :: u) = (N, p, (if low then 112 else 80) :: u).
Proof. destruct low, seen; reflexivity. Qed.

Lemma reads_number (low lowp sp : bool) N p E k : 0 <= N -> 0 <= p ->
  read_hex_number (repeat 48 k ++ map (digit_char low) (digits 16 (N / 16 ^ p)) ++ (if sp || (0 <? p) then [46] else []) ++
    map (digit_char low) (last_digits 16 (Z.to_nat p) N) ++ (if lowp then 112 else 80) :: (if E <? 0 then 45 else 43) :: decimal (digits 10 (Z.abs E))) = Some (N, p, E).
Proof.
  intros HN Hp. pose proof (pow16_pos p Hp). unfold read_hex_number. rewrite read16_zeros, read16 by (apply digits16_small, Z.div_pos; lia).
  assert (T : forall seen, (0 < p -> seen = true) -> (seen = false -> p = 0) ->
    read_hex_digits (accum16 0 (digits 16 (N / 16 ^ p))) 0 seen (map (digit_char low) (last_digits 16 (Z.to_nat p) N) ++ (if lowp then 112 else 80) :: (if E <? 0 then 45 else 43) :: decimal (digits 10 (Z.abs E)))
    = (N, p, (if lowp then 112 else 80) :: (if E <? 0 then 45 else 43) :: decimal (digits 10 (Z.abs E)))).
  { intros seen H1 H2. rewrite read16 by apply last16_small. rewrite last16_zlen by lia. rewrite <- accum16_app, accum16_both by assumption. rewrite letter16.
    destruct seen; [reflexivity|]. rewrite (H2 eq_refl). reflexivity. }
  cbn iota. match goal with |- match ?e with pair _ _ => _ end = _ => assert (HE : e = (N, p, (if lowp then 112 else 80) :: (if E <? 0 then 45 else 43) :: decimal (digits 10 (Z.abs E)))) end.
  { destruct (sp || (0 <? p)) eqn:Es; cbn [app].
    - rewrite read16_point. apply T; [reflexivity|discriminate].
    - apply orb_false_iff in Es as [_ Es]. apply T; lia. }
  rewrite HE. replace (((if lowp then 112 else 80) =? 112) || ((if lowp then 112 else 80) =? 80)) with true by (destruct lowp; reflexivity).
  rewrite read_dec by (apply digits_smallf; lia). rewrite accum_digits by lia.
  destruct (Z.ltb_spec E 0); cbn [Z.eqb Pos.eqb]; do 2 f_equal; lia.
Qed.

(* ---- the whole text ---- *)
Definition signed_by (f : float_fmt) (x : decoded_float) : Prop := fl_negative x = true \/ ff_sign f <> FillInsteadOfPositive.
Lemma reads_content F gs rep f al x lead mantissa E N p : signed_by f x -> cs_encode (fk_charset F) (float_point F f) = [46] ->
  hex_rounded lead mantissa (prec_of (ff_precision f)) = (N, p) -> 0 <= N -> 0 <= p ->
  let r := with_value (frequest_of F gs rep f al x) (FBin lead mantissa E) in
  read_hex (float_content r) = Some (fl_negative x, N, p, E).
Proof.
  intros HS HP HR HN Hp. cbv zeta. unfold float_content. cbn [with_value frequest_of float_prefix float_body fr_value fr_style].
  unfold hex_body. cbn [style_of st_precision st_showpoint st_case st_point]. rewrite HR, HP. cbn iota.
  unfold hex_digits.
  set (k := Z.to_nat _). clearbody k. set (lc := fk_case F).
  pose proof (reads_number (low_digits lc) (low_prefix lc) (ff_showpoint f) N p E k HN Hp) as T.
  set (w := repeat 48 k ++ _) in *. clearbody w.
  unfold float_sign. cbn [with_value frequest_of fr_negative fr_sign fr_fill].
  destruct (fl_negative x) eqn:En; cbn [app].
  - unfold read_hex. try change (st_case _) with lc. destruct (low_prefix lc); cbn [Z.eqb Pos.eqb orb andb]; rewrite T; reflexivity.
  - destruct HS as [HS|HS]; [congruence|]. destruct (ff_sign f); cbn [app].
    + unfold read_hex. try change (st_case _) with lc. destruct (low_prefix lc); cbn [Z.eqb Pos.eqb orb andb]; rewrite T; reflexivity.
    + unfold read_hex. try change (st_case _) with lc. destruct (low_prefix lc); cbn [Z.eqb Pos.eqb orb andb]; rewrite T; reflexivity.
    + congruence.
Qed.

(* ---- what the digits are ---- *)
Tactic Notation "pair_eq" hyp(H) hyp(N) hyp(p) := let a := fresh in let b := fresh in pose proof (f_equal fst H) as a; pose proof (f_equal snd H) as b; cbn [fst snd] in a, b; clear H; subst N p.
Lemma two52 : 2 ^ 52 = 16 ^ 13.
Proof. reflexivity. Qed.
Lemma mod16_lead lead m k : 0 <= k <= 13 -> (lead * 2 ^ 52 + m) mod 16 ^ k = m mod 16 ^ k.
Proof.
  intros Hk. rewrite two52. replace (16 ^ 13) with (16 ^ (13 - k) * 16 ^ k) by (rewrite <- Z.pow_add_r by lia; f_equal; lia).
  rewrite Z.mul_assoc, Z.add_comm. apply Z_mod_plus_full.
Qed.
Lemma lead_div lead m : 0 <= m < 2 ^ 52 -> (lead * 2 ^ 52 + m) / 16 ^ 13 = lead.
Proof. intros H. rewrite <- two52, Z.div_add_l by lia. rewrite Z.div_small by lia. lia. Qed.
Lemma exact_rounded lead m N p : 0 <= lead -> 0 <= m < 2 ^ 52 -> hex_rounded lead m None = (N, p) ->
  0 <= N /\ 0 <= p <= 13 /\ N * 16 ^ (13 - p) = lead * 2 ^ 52 + m /\ (p = 0 \/ N mod 16 <> 0) /\ N / 16 ^ p = lead.
Proof.
  intros Hl Hm H. unfold hex_rounded in H. cbv zeta in H. set (v := lead * 2 ^ 52 + m) in *.
  assert (Hv : 0 <= v) by (unfold v; lia).
  assert (HX : forall a, 0 <= a <= 13 -> v mod 16 ^ a = 0 -> v / 16 ^ a * 16 ^ a = v).
  { intros a Ha E. pose proof (pow16_pos a ltac:(lia)). pose proof (Z.div_mod v (16 ^ a)). lia. }
  assert (HD : forall a, 0 <= a <= 13 -> v / 16 ^ a / 16 ^ (13 - a) = lead).
  { intros a Ha. pose proof (pow16_pos a ltac:(lia)). pose proof (pow16_pos (13 - a) ltac:(lia)). rewrite Z.div_div by lia. rewrite <- Z.pow_add_r by lia.
    replace (a + (13 - a)) with 13 by lia. apply lead_div. exact Hm. }
  destruct (Z.eq_dec m 0) as [M0|M0].
  - assert (E : hex_places m = 0) by (rewrite M0; reflexivity). rewrite E in H. pair_eq H N p.
    split; [apply Z.div_pos; [exact Hv|apply pow16_pos; lia]|]. split; [lia|]. replace (13 - 0) with 13 by lia.
    split; [apply HX; [lia|]; unfold v; rewrite mod16_lead by lia; rewrite M0; apply Z.mod_0_l; discriminate|]. split; [left; reflexivity|].
    apply (HD 13). lia.
  - destruct (places_spec m ltac:(lia)) as (a & A1 & A2 & A3 & A4). rewrite A4 in H. pair_eq H N p.
    replace (13 - (13 - a)) with a by lia. pose proof (pow16_pos a ltac:(lia)).
    split; [apply Z.div_pos; lia|]. split; [lia|]. split; [apply HX; [lia|]; unfold v; rewrite mod16_lead by lia; exact A2|]. split.
    + right. intros E. apply A3. rewrite <- (mod16_lead lead) by lia. fold v. rewrite Z.add_1_r, Z.pow_succ_r by lia. rewrite (Z.mul_comm 16), Z.rem_mul_r by lia.
      rewrite E. unfold v. rewrite mod16_lead by lia. rewrite A2. lia.
    + apply HD. lia.
Qed.
Lemma given_rounded lead m P N p : 0 <= lead -> 0 <= m < 2 ^ 52 -> 0 <= P -> hex_rounded lead m (Some P) = (N, p) ->
  p = P /\ 0 <= N /\ 
  (forall k, 0 <= k -> 13 <= P + k -> let e := P + k - 13 in
    2 * Z.abs ((lead * 2 ^ 52 + m) * 16 ^ e - N * 16 ^ k) <= 16 ^ k /\
    (2 * Z.abs ((lead * 2 ^ 52 + m) * 16 ^ e - N * 16 ^ k) = 16 ^ k -> Z.even N = true)).
Proof.
  intros Hl Hm HP H. unfold hex_rounded in H. cbv zeta in H. set (v := lead * 2 ^ 52 + m) in *.
  assert (Hv : 0 <= v) by (unfold v; lia).
  destruct (Z.ltb_spec P 13); pair_eq H N p; (split; [reflexivity|]).
  - pose proof (pow16_pos (13 - P) ltac:(lia)) as D. split; [apply nearest_ge; lia|].
    intros k Hk Hk2. cbv zeta. destruct (nearest_ok v (16 ^ (13 - P)) D) as [A B]. set (N := nearest v (16 ^ (13 - P))) in *.
    set (e := P + k - 13). assert (He : 0 <= e) by (unfold e; lia). pose proof (pow16_pos e He) as De.
    replace (16 ^ k) with (16 ^ (13 - P) * 16 ^ e) by (rewrite <- Z.pow_add_r by lia; f_equal; unfold e; lia).
    replace (v * 16 ^ e - N * (16 ^ (13 - P) * 16 ^ e)) with ((v - 16 ^ (13 - P) * N) * 16 ^ e) by ring.
    rewrite Z.abs_mul, (Z.abs_eq (16 ^ e)) by lia. split; [nia|]. intros E. apply B. nia.
  - split; [pose proof (pow16_pos (P - 13) ltac:(lia)); nia|]. intros k Hk _. cbv zeta.
    pose proof (pow16_pos k Hk).
    replace (v * 16 ^ (P + k - 13) - v * 16 ^ (P - 13) * 16 ^ k) with 0; [cbn [Z.abs]; split; [lia|]; intros; lia|].
    rewrite <- Z.mul_assoc, <- Z.pow_add_r by lia. replace (P - 13 + k) with (P + k - 13) by lia. lia.
Qed.

(* ---- the values ---- *)
Definition bin_value (v E : Z) : Q := (inject_Z v * Qpower (inject_Z 2) (E - 52))%Q.
Lemma pow16_2 k : 0 <= k -> 16 ^ k = 2 ^ (4 * k).
Proof. intros H. rewrite Z.pow_mul_r by lia. reflexivity. Qed.
(* everything in units of 2^(E - 52 - 4e) *)
Lemma value_unit N p k e E : 0 <= k -> 0 <= e -> e = p + k - 13 ->
  (hex_number N p E == inject_Z (N * 16 ^ k) * Qpower (inject_Z 2) (E - 52 - 4 * e))%Q.
Proof.
  intros Hk He Ee. unfold hex_number. rewrite inject_Z_mult, pow16_2, qpow_Z by lia. rewrite <- Qmult_assoc, <- qpow_add by lia.
  replace (4 * k + (E - 52 - 4 * e)) with (E - 4 * p) by lia. reflexivity.
Qed.
Lemma bin_unit v e E : 0 <= e -> (bin_value v E == inject_Z (v * 16 ^ e) * Qpower (inject_Z 2) (E - 52 - 4 * e))%Q.
Proof.
  intros He. unfold bin_value. rewrite inject_Z_mult, pow16_2, qpow_Z by lia. rewrite <- Qmult_assoc, <- qpow_add by lia.
  replace (4 * e + (E - 52 - 4 * e)) with (E - 52) by lia. reflexivity.
Qed.
Lemma exact_value N p v E : 0 <= p <= 13 -> N * 16 ^ (13 - p) = v -> (hex_number N p E == bin_value v E)%Q.
Proof.
  intros Hp H. rewrite (value_unit N p (13 - p) 0 E) by lia. rewrite (bin_unit v 0 E) by lia. rewrite H. change (16 ^ 0) with 1. rewrite Z.mul_1_r. reflexivity.
Qed.
Lemma Qabs_unit a c : (0 < c)%Q -> (Qabs (inject_Z a * c) == inject_Z (Z.abs a) * c)%Q.
Proof. intros H. rewrite Qabs_Qmult. rewrite (Qabs_pos c) by (apply Qlt_le_weak; exact H). reflexivity. Qed.
Lemma given_value N P v E : 0 <= P -> 0 <= N ->
  (forall k, 0 <= k -> 13 <= P + k -> let e := P + k - 13 in
    2 * Z.abs (v * 16 ^ e - N * 16 ^ k) <= 16 ^ k /\
    (2 * Z.abs (v * 16 ^ e - N * 16 ^ k) = 16 ^ k -> Z.even N = true)) ->
  nearest_hex N P E (bin_value v E).
Proof.
  intros HP HN H. destruct (H 13 ltac:(lia) ltac:(lia)) as [A B]. cbv zeta in A, B. set (e := P + 13 - 13) in *. assert (He : 0 <= e) by (unfold e; lia).
  unfold nearest_hex. rewrite (value_unit N P 13 e E), (value_unit 1 P 13 e E), (bin_unit v e E) by (unfold e; lia).
  set (c := Qpower (inject_Z 2) (E - 52 - 4 * e)) in *. assert (Hc : (0 < c)%Q) by (apply qpow_pos; lia).
  assert (D : (inject_Z (v * 16 ^ e) * c - inject_Z (N * 16 ^ 13) * c == inject_Z (v * 16 ^ e - N * 16 ^ 13) * c)%Q).
  { unfold Z.sub. rewrite inject_Z_plus, inject_Z_opp. ring. }
  rewrite D, Qabs_unit by exact Hc.
  assert (D2 : (inject_Z 2 * (inject_Z (Z.abs (v * 16 ^ e - N * 16 ^ 13)) * c) == inject_Z (2 * Z.abs (v * 16 ^ e - N * 16 ^ 13)) * c)%Q).
  { rewrite inject_Z_mult. ring. }
  rewrite D2. rewrite Z.mul_1_l. split.
  - apply Qmult_le_compat_r; [|apply Qlt_le_weak; exact Hc]. rewrite <- Zle_Qle. exact A.
  - intros Q. apply B. apply Qmult_inj_r in Q; [|intros Z0; rewrite Z0 in Hc; discriminate Hc]. exact (proj1 (inject_Z_injective _ _) Q).
Qed.

(* a finite value *)
Definition hex_shown (x : decoded_float) (value : Q) (sn : bool) (mm ex : Z) : Prop :=
  (exists m e, fl_bits x = BFinite sn mm ex m e) /\ 0 <= mm < 2 ^ 52 /\ -10000 < ex < 10000 /\ (value == bin_value (lead_of sn * 2 ^ 52 + mm) ex)%Q.
Lemma double_hex b : 0 <= b < 2 ^ 64 -> b mod 2 ^ 63 < infinity_bits binary64 ->
  fl_negative (double_of_bits b) = (b / 2 ^ 63 =? 1) /\
  exists ex, hex_shown (double_of_bits b) (float_at binary64 (b mod 2 ^ 63)) ((b / 2 ^ 52) mod 2 ^ 11 =? 0) (b mod 2 ^ 52) ex.
Proof.
  intros Hb Hf. unfold double_of_bits. destruct (decode64_ok (fun e m => defined (to_decimal64 e m)) b Hb) as (S & _ & FI).
  assert (EB : b mod 2 ^ 63 = (b / 2 ^ 52) mod 2 ^ 11 * 2 ^ 52 + b mod 2 ^ 52).
  { change (2 ^ 63) with (2 ^ 52 * 2 ^ 11). rewrite Z.rem_mul_r by lia. ring. }
  change (infinity_bits binary64) with (2047 * 2 ^ 52) in Hf. set (E := (b / 2 ^ 52) mod 2 ^ 11) in *. set (M := b mod 2 ^ 52) in *.
  assert (HM : 0 <= M < 2 ^ 52) by (apply Z.mod_pos_bound; lia). assert (HE : 0 <= E < 2 ^ 11) by (apply Z.mod_pos_bound; lia).
  destruct FI as (m & e & Eb & _); [lia|]. split; [exact S|]. exists (if E =? 0 then -1022 else E - 1023). split; [exists m, e; exact Eb|].
  split; [exact HM|]. split; [destruct (Z.eqb_spec E 0); lia|]. rewrite EB.
  unfold float_at. change (prec binary64) with 52. rewrite Z.div_add_l by lia. rewrite (Z.div_small M) by lia. rewrite Z.add_0_r.
  rewrite Z.add_comm, Z_mod_plus_full, (Z.mod_small M) by lia. unfold binary_value, bin_value, float_significand, float_exponent, lead_of. change (prec binary64) with 52. change (width binary64) with 11.
  change (2 ^ (11 - 1) - 1) with 1023. clear - HE. destruct (Z.eqb_spec E 0) as [->|N].
  - replace (Z.max 1 0 - 1023 - 52) with (-1022 - 52) by lia. reflexivity.
  - replace (Z.max 1 E - 1023 - 52) with (E - 1023 - 52) by lia. rewrite Z.mul_1_l. reflexivity.
Qed.
Lemma float_hex b : 0 <= b < 2 ^ 32 -> b mod 2 ^ 31 < infinity_bits binary32 ->
  fl_negative (float_of_bits b) = (b / 2 ^ 31 =? 1) /\
  exists ex, hex_shown (float_of_bits b) (float_at binary32 (b mod 2 ^ 31)) ((b / 2 ^ 23) mod 2 ^ 8 =? 0) (b mod 2 ^ 23 * 2 ^ 29) ex.
Proof.
  intros Hb Hf. unfold float_of_bits. destruct (decode32_ok (fun e m => defined (to_decimal32 e m)) b Hb) as (S & _ & FI).
  assert (EB : b mod 2 ^ 31 = (b / 2 ^ 23) mod 2 ^ 8 * 2 ^ 23 + b mod 2 ^ 23).
  { change (2 ^ 31) with (2 ^ 23 * 2 ^ 8). rewrite Z.rem_mul_r by lia. ring. }
  change (infinity_bits binary32) with (255 * 2 ^ 23) in Hf. set (E := (b / 2 ^ 23) mod 2 ^ 8) in *. set (M := b mod 2 ^ 23) in *.
  assert (HM : 0 <= M < 2 ^ 23) by (apply Z.mod_pos_bound; lia). assert (HE : 0 <= E < 2 ^ 8) by (apply Z.mod_pos_bound; lia).
  destruct FI as (m & e & Eb & _); [lia|]. split; [exact S|]. exists (if E =? 0 then -126 else E - 127). split; [exists m, e; exact Eb|].
  split; [lia|]. split; [destruct (Z.eqb_spec E 0); lia|]. rewrite EB.
  unfold float_at. change (prec binary32) with 23. rewrite Z.div_add_l by lia. rewrite (Z.div_small M) by lia. rewrite Z.add_0_r.
  rewrite Z.add_comm, Z_mod_plus_full, (Z.mod_small M) by lia. unfold binary_value, bin_value, float_significand, float_exponent, lead_of. change (prec binary32) with 23. change (width binary32) with 8.
  change (2 ^ (8 - 1) - 1) with 127. clear - HE.
  assert (T : forall s z, (inject_Z (s * 2 ^ 29) * Qpower (inject_Z 2) (z - 52) == inject_Z s * Qpower (inject_Z 2) (z - 23))%Q).
  { intros s z. rewrite inject_Z_mult, (qpow_Z 2 29) by lia. rewrite <- Qmult_assoc, <- qpow_add by lia. replace (29 + (z - 52)) with (z - 23) by lia. reflexivity. }
  destruct (Z.eqb_spec E 0) as [->|N].
  - replace (Z.max 1 0 - 127 - 23) with (-126 - 23) by lia. rewrite Z.mul_0_l, !Z.add_0_l. symmetry. apply T.
  - replace (Z.max 1 E - 127 - 23) with (E - 127 - 23) by lia. replace (1 * 2 ^ 52 + M * 2 ^ 29) with ((2 ^ 23 + M) * 2 ^ 29) by ring. symmetry. apply T.
Qed.

(* ---- printing ---- *)
Lemma body_short s lead mantissa E N p : 0 <= lead <= 1 -> -10000 < E < 10000 -> hex_rounded lead mantissa (st_precision s) = (N, p) ->
  N / 16 ^ p = lead -> 0 <= p <= 2 ^ 30 -> zlen (hex_body (one_column s) lead mantissa E) <= 2 ^ 30 + 100.
Proof.
  intros Hl HE HR HD Hp. unfold hex_body. cbn [one_column st_precision st_showpoint st_point st_case]. rewrite HR, HD. unfold hex_digits, decimal.
  assert (ZM : forall (g : Z -> Z) l, zlen (map g l) = zlen l) by (intros; unfold zlen; rewrite map_length; reflexivity). rewrite !zlen_app, !zlen_cons, !ZM, last16_zlen by lia.
  assert (zlen (digits 16 lead) = 1) by (assert (C : lead = 0 \/ lead = 1) by lia; destruct C as [-> | ->]; reflexivity).
  pose proof (digits_short (Z.abs E) ltac:(lia)). destruct (st_showpoint s || (0 <? p)); [change (zlen [46]) with 1|change (zlen (@nil Z)) with 0]; lia.
Qed.

Lemma lead_01 (sn : bool) : 0 <= lead_of sn <= 1.
Proof. destruct sn; cbn; lia. Qed.

Section HEX_PRINT.
Variables (F : float_facets) (gs : list Z) (rep : bool) (f : float_fmt) (al : align_fmt) (x : decoded_float) (value : Q) (sn : bool) (mm ex : Z).
Hypothesis (HF : ffacets_ok F gs rep) (HA : align_ok al) (Hn : ff_notation f = NHex) (HS : signed_by f x).
Hypothesis (HP : cs_encode (fk_charset F) (float_point F f) = [46]) (Hpad : ff_pad0 f <= 2 ^ 30).
Hypothesis HX : hex_shown x value sn mm ex.
(* the text, without fill characters, and what it denotes *)
Definition denoting (Q : bool -> Z -> Z -> Z -> Prop) : Prop :=
  exists p k u negative N places E, punct_double F f al x = Some p /\
    ops_text (pr_ops p) = padded (al_align al) (cs_encode (fk_charset F) (al_fill al)) k u /\ 0 <= k /\ (al_width al = 0 -> k = 0) /\
    read_hex u = Some (negative, N, places, E) /\ Q negative N places E.

Lemma shown_printed lead m E N p : 0 <= lead <= 1 -> 0 <= N -> 0 <= p <= 2 ^ 30 -> -10000 < E < 10000 ->
  hex_rounded lead m (prec_of (ff_precision f)) = (N, p) -> N / 16 ^ p = lead ->
  let r := with_value (frequest_of F gs rep f al x) (FBin lead m E) in
  (float_text_width r < 2 ^ 31 -> exists q, punct_double F f al x = Some q /\ fprints q r) ->
  forall Q : bool -> Z -> Z -> Z -> Prop, Q (fl_negative x) N p E -> denoting Q.
Proof using HF HA HS HP Hpad.
  intros Hl HN Hp HE HR HD r HPr Q HQ. 
  assert (HW : float_text_width r < 2 ^ 31).
  { apply width_bound; [exact (round_small al HA)|exact Hpad|]. exact (body_short (style_of F gs rep f) lead m E N p Hl HE HR HD Hp). }
  destruct (HPr HW) as (q & Eq & T & _). exists q, (float_missing r), (float_content r), (fl_negative x), N, p, E.
  split; [exact Eq|]. split; [exact T|]. split; [unfold float_missing; lia|]. split.
  - intros W0. unfold float_missing, float_width, r. cbn [with_value fr_value finite fr_width frequest_of]. rewrite W0. change (w_round 0) with 0.
    unfold float_content_width. enough (0 <= float_bare_width r /\ 0 <= float_zeros r) by (fold r; lia). unfold float_bare_width, float_zeros.
    assert (0 <= float_sign_width r) by (unfold float_sign_width; destruct (fr_negative r); [lia|destruct (fr_sign r); lia]).
    pose proof (zlen_nonneg (float_prefix r)). pose proof (zlen_nonneg (float_body (one_column (fr_style r)) (fr_value r))).
    split; [lia|]. destruct (finite (fr_value r)); lia.
  - split; [|exact HQ]. exact (reads_content F gs rep f al x lead m E N p HS HP HR HN ltac:(lia)).
Qed.

Let E' := if sn && (mm =? 0) then 0 else ex.
Lemma E'_small : -10000 < E' < 10000.
Proof using HX. destruct HX as (_ & _ & He & _). unfold E'. destruct (sn && (mm =? 0)); lia. Qed.
Lemma value_E' : (value == bin_value (lead_of sn * 2 ^ 52 + mm) E')%Q.
Proof using HX.
  destruct HX as (_ & _ & _ & V). rewrite V. unfold E', lead_of. destruct sn; cbn [andb]; [|reflexivity]. destruct (Z.eqb_spec mm 0) as [->|]; [|reflexivity].
  unfold bin_value. change (inject_Z (0 * 2 ^ 52 + 0)) with 0%Q. ring.
Qed.
Lemma request_is m10 e10 : fl_bits x = BFinite sn mm ex m10 e10 ->
  with_value (frequest_of F gs rep f al x) (FBin (lead_of sn) mm E') = frequest_of F gs rep f al x.
Proof using Hn. intros Eb. unfold with_value, frequest_of. cbn [fr_negative fr_style fr_sign fr_pad0 fr_fill fr_width fr_align]. rewrite Hn, Eb. reflexivity. Qed.

Lemma hex_denotes : ff_precision f < 0 ->
  denoting (fun negative N places E => negative = fl_negative x /\ (hex_number N places E == value)%Q /\ (places = 0 \/ N mod 16 <> 0)).
Proof using HF HA Hn HS HP Hpad HX.
  intros Hp. pose proof HX as ((m10 & e10 & Eb) & Hm & He & V).
  assert (EP : prec_of (ff_precision f) = None) by (unfold prec_of; replace (0 <=? ff_precision f) with false by lia; reflexivity).
  destruct (hex_rounded (lead_of sn) mm (prec_of (ff_precision f))) as [N p] eqn:HR. pose proof HR as HR'. rewrite EP in HR'.
  destruct (exact_rounded _ _ _ _ (proj1 (lead_01 sn)) Hm HR') as (A & B & C & D & G).
  apply (shown_printed (lead_of sn) mm E' N p (lead_01 sn) A ltac:(lia) E'_small HR G).
  - cbv zeta. rewrite (request_is _ _ Eb). intros Hfit. refine (hex_print F gs rep f al x HF HA Hfit sn mm ex m10 e10 _ Eb Hm He _); [rewrite Hn; reflexivity|].
    rewrite EP. exact I.
  - split; [reflexivity|]. split; [|exact D]. rewrite value_E'. apply exact_value; assumption.
Qed.
Lemma hex_denotes_given : 0 <= ff_precision f <= 2 ^ 30 -> fst (hex_rounded (lead_of sn) mm (Some (ff_precision f))) / 16 ^ ff_precision f = lead_of sn ->
  denoting (fun negative N places E => negative = fl_negative x /\ places = ff_precision f /\ nearest_hex N places E value).
Proof using HF HA Hn HS HP Hpad HX.
  intros Hp Hfine. pose proof HX as ((m10 & e10 & Eb) & Hm & He & V).
  assert (EP : prec_of (ff_precision f) = Some (ff_precision f)) by (unfold prec_of; rewrite (proj2 (Z.leb_le _ _)) by lia; reflexivity).
  destruct (hex_rounded (lead_of sn) mm (prec_of (ff_precision f))) as [N p] eqn:HR. pose proof HR as HR'. rewrite EP in HR'.
  destruct (given_rounded _ _ _ _ _ (proj1 (lead_01 sn)) Hm (proj1 Hp) HR') as (A & B & C). rewrite HR' in Hfine. cbn [fst] in Hfine. subst p.
  apply (shown_printed (lead_of sn) mm E' N (ff_precision f) (lead_01 sn) B Hp E'_small HR Hfine).
  - cbv zeta. rewrite (request_is _ _ Eb). intros Hfit. refine (hex_print F gs rep f al x HF HA Hfit sn mm ex m10 e10 _ Eb Hm He _); [rewrite Hn; reflexivity|].
    rewrite EP. cbn [hex_fine]. rewrite HR'. exact Hfine.
  - split; [reflexivity|]. split; [reflexivity|].
    assert (T : nearest_hex N (ff_precision f) E' (bin_value (lead_of sn * 2 ^ 52 + mm) E')) by (apply given_value; [lia|exact B|exact C]).
    unfold nearest_hex in *. rewrite value_E'. exact T.
Qed.
(* rounding reaches the next integer: the digit before the point is not changed *)
Lemma hex_denotes_carry : 0 <= ff_precision f <= 2 ^ 30 -> fst (hex_rounded (lead_of sn) mm (Some (ff_precision f))) / 16 ^ ff_precision f <> lead_of sn ->
  denoting (fun negative N places E => negative = fl_negative x /\ places = ff_precision f /\ N = lead_of sn * 16 ^ places /\ E = ex).
Proof using HF HA Hn HS HP Hpad HX.
  intros Hp Hfine. pose proof HX as ((m10 & e10 & Eb) & Hm & He & V).
  assert (EP : prec_of (ff_precision f) = Some (ff_precision f)) by (unfold prec_of; rewrite (proj2 (Z.leb_le _ _)) by lia; reflexivity).
  pose proof (pow16_pos (ff_precision f) ltac:(lia)) as PP.
  assert (HR : hex_rounded (lead_of sn) 0 (prec_of (ff_precision f)) = (lead_of sn * 16 ^ ff_precision f, ff_precision f)).
  { rewrite EP. unfold hex_rounded. cbv zeta. rewrite Z.add_0_r, two52. destruct (Z.ltb_spec (ff_precision f) 13).
    - f_equal. replace (16 ^ 13) with (16 ^ ff_precision f * 16 ^ (13 - ff_precision f)) by (rewrite <- Z.pow_add_r by lia; f_equal; lia).
      pose proof (pow16_pos (13 - ff_precision f) ltac:(lia)). rewrite Z.mul_assoc. unfold nearest. rewrite Z.div_mul, Z.mod_mul by lia.
      replace (16 ^ (13 - ff_precision f) <? 2 * 0) with false by lia. replace (2 * 0 =? 16 ^ (13 - ff_precision f)) with false by lia. reflexivity.
    - f_equal. rewrite <- Z.mul_assoc, <- Z.pow_add_r by lia. do 2 f_equal. lia. }
  pose proof (lead_01 sn).
  assert (NN : 0 <= lead_of sn * 16 ^ ff_precision f) by nia.
  apply (shown_printed (lead_of sn) 0 ex _ _ (lead_01 sn) NN Hp He HR).
  - rewrite Z.div_mul by lia. reflexivity.
  - cbv zeta. intros Hfit. apply (hex_coded F gs rep f al x sn mm ex m10 e10 HF HA Hn Eb Hm He); [|exact Hfit]. rewrite EP. exact Hfine.
  - repeat split; reflexivity.
Qed.
End HEX_PRINT.

(* ---- for the theorems ---- *)
Lemma sign_bit b k : 0 <= k -> 0 <= b < 2 ^ (k + 1) -> (b / 2 ^ k =? 1) = (2 ^ k <=? b).
Proof.
  intros K H. rewrite Z.pow_add_r in H by lia. change (2 ^ 1) with 2 in H. assert (0 < 2 ^ k) by (apply Z.pow_pos_nonneg; lia).
  destruct (Z.leb_spec (2 ^ k) b) as [L|L].
  - replace b with (1 * 2 ^ k + (b - 2 ^ k)) by lia. rewrite Z.div_add_l by lia. rewrite Z.div_small by lia. reflexivity.
  - rewrite Z.div_small by lia. reflexivity.
Qed.
Lemma no_carry lead m P : 0 <= lead <= 1 -> 0 <= m < 2 ^ 52 -> 0 <= P -> 2 ^ 52 < 2 * (2 ^ 52 - m) * 16 ^ P ->
  fst (hex_rounded lead m (Some P)) / 16 ^ P = lead.
Proof.
  intros Hl Hm HP Hc. unfold hex_rounded. cbv zeta. pose proof (pow16_pos P HP) as PP. destruct (Z.ltb_spec P 13) as [L|L]; cbn [fst].
  - pose proof (pow16_pos (13 - P) ltac:(lia)) as D. assert (EQ : 2 ^ 52 = 16 ^ P * 16 ^ (13 - P)) by (rewrite <- Z.pow_add_r by lia; rewrite two52; f_equal; lia).
    set (v := lead * 2 ^ 52 + m) in *. destruct (nearest_ok v (16 ^ (13 - P)) D) as [A _]. set (N := nearest v (16 ^ (13 - P))) in *. set (d := 16 ^ (13 - P)) in *. set (w := 16 ^ P) in *.
    assert (H1 : lead * w <= N).
    { apply Z.nlt_ge. intros X. assert (d * N <= d * (lead * w - 1)) by nia. assert (v - d * N >= d) by (unfold v; nia). lia. }
    assert (H2 : N < (lead + 1) * w).
    { apply Z.nle_gt. intros X. assert (d * N >= d * ((lead + 1) * w)) by nia. assert (d * N - v >= 2 ^ 52 - m) by (unfold v; nia). assert (2 * (2 ^ 52 - m) <= d) by lia. nia. }
    symmetry. apply (Z.div_unique N w lead (N - w * lead)); [left; lia|lia].
  - replace (16 ^ P) with (16 ^ (P - 13) * 16 ^ 13) by (rewrite <- Z.pow_add_r by lia; f_equal; lia). pose proof (pow16_pos (P - 13) ltac:(lia)).
    rewrite (Z.mul_comm (_ + _)). rewrite Z.div_mul_cancel_l by (try apply Z.neq_sym; lia). apply lead_div. exact Hm.
Qed.
Lemma carries lead m P : 0 <= lead <= 1 -> 0 <= m < 2 ^ 52 -> 0 <= P -> 2 * (2 ^ 52 - m) * 16 ^ P < 2 ^ 52 ->
  fst (hex_rounded lead m (Some P)) / 16 ^ P <> lead.
Proof.
  intros Hl Hm HP Hc. unfold hex_rounded. cbv zeta. pose proof (pow16_pos P HP) as PP. destruct (Z.ltb_spec P 13) as [L|L]; cbn [fst].
  - pose proof (pow16_pos (13 - P) ltac:(lia)) as D. assert (EQ : 2 ^ 52 = 16 ^ P * 16 ^ (13 - P)) by (rewrite <- Z.pow_add_r by lia; rewrite two52; f_equal; lia).
    set (v := lead * 2 ^ 52 + m) in *. destruct (nearest_ok v (16 ^ (13 - P)) D) as [A _]. set (N := nearest v (16 ^ (13 - P))) in *. set (d := 16 ^ (13 - P)) in *. set (w := 16 ^ P) in *.
    intros X. assert (H2 : N < (lead + 1) * w). { pose proof (Z.mod_pos_bound N w PP). pose proof (Z.div_mod N w). nia. }
    assert (2 * (2 ^ 52 - m) < d) by nia. assert (d * N <= d * ((lead + 1) * w - 1)) by nia. assert (v - d * N >= d - (2 ^ 52 - m)) by (unfold v; nia). lia.
  - exfalso. assert (16 ^ 13 <= 16 ^ P) by (apply Z.pow_le_mono_r; lia). rewrite <- two52 in *. nia.
Qed.
Lemma subnormal_bits b : 0 <= b < 2 ^ 64 -> lead_of ((b / 2 ^ 52) mod 2 ^ 11 =? 0) = (if b mod 2 ^ 63 <? 2 ^ 52 then 0 else 1).
Proof.
  intros H. assert (EB : b mod 2 ^ 63 = (b / 2 ^ 52) mod 2 ^ 11 * 2 ^ 52 + b mod 2 ^ 52).
  { change (2 ^ 63) with (2 ^ 52 * 2 ^ 11). rewrite Z.rem_mul_r by lia. ring. }
  rewrite EB. pose proof (Z.mod_pos_bound b (2 ^ 52) ltac:(lia)). pose proof (Z.mod_pos_bound (b / 2 ^ 52) (2 ^ 11) ltac:(lia)).
  set (E := (b / 2 ^ 52) mod 2 ^ 11) in *. set (M := b mod 2 ^ 52) in *. clearbody E M. unfold lead_of. destruct (Z.eqb_spec E 0), (Z.ltb_spec (E * 2 ^ 52 + M) (2 ^ 52)); nia.
Qed.
Lemma padded_none a fill w : padded a fill 0 w = w.
Proof. unfold padded. destruct a; cbn; apply app_nil_r. Qed.
Lemma some_inj {A} (a b : A) : Some a = Some b -> a = b.
Proof. congruence. Qed.
Lemma same_text Fm F f al k b b' x x' : al_width al = 0 -> 1 <= prec Fm /\ 2 <= width Fm -> 0 <= k -> 0 <= b < 2 ^ (k + 1) -> 0 <= b' < 2 ^ (k + 1) ->
  denoting F f al x (fun negative N places E => negative = (2 ^ k <=? b) /\ (hex_number N places E == float_at Fm (b mod 2 ^ k))%Q /\ (places = 0 \/ N mod 16 <> 0)) ->
  denoting F f al x' (fun negative N places E => negative = (2 ^ k <=? b') /\ (hex_number N places E == float_at Fm (b' mod 2 ^ k))%Q /\ (places = 0 \/ N mod 16 <> 0)) ->
  option_map (fun p => ops_text (pr_ops p)) (punct_double F f al x) = option_map (fun p => ops_text (pr_ops p)) (punct_double F f al x') -> b = b'.
Proof.
  intros HW HFm Hk Hb Hb' (p & j & u & neg & N & pl & E & A1 & A2 & A3 & A4 & A5 & A6 & A7 & _) (p' & j' & u' & neg' & N' & pl' & E' & B1 & B2 & B3 & B4 & B5 & B6 & B7 & _) HE.
  rewrite A1, B1 in HE. cbn [option_map] in HE. apply some_inj in HE. rewrite A2, B2, (A4 HW), (B4 HW) in HE.
  rewrite !padded_none in HE. subst u'. rewrite A5 in B5. injection B5 as -> -> -> ->.
  rewrite A7 in B7. assert (0 < 2 ^ k) by (apply Z.pow_pos_nonneg; lia).
  assert (EM : b mod 2 ^ k = b' mod 2 ^ k).
  { pose proof (Z.mod_pos_bound b (2 ^ k) ltac:(lia)). pose proof (Z.mod_pos_bound b' (2 ^ k) ltac:(lia)).
    destruct (Z.lt_total (b mod 2 ^ k) (b' mod 2 ^ k)) as [L|[G|L]]; [|exact G|]; exfalso.
    - pose proof (float_mono Fm HFm _ _ (conj (proj1 H0) L)) as X. rewrite B7 in X. exact (Qlt_irrefl _ X).
    - pose proof (float_mono Fm HFm _ _ (conj (proj1 H1) L)) as X. rewrite B7 in X. exact (Qlt_irrefl _ X). }
  rewrite <- (sign_bit b k), <- (sign_bit b' k) in * by assumption. rewrite A6 in B6.
  assert (D : forall c, 0 <= c < 2 ^ (k + 1) -> c / 2 ^ k = 0 \/ c / 2 ^ k = 1).
  { intros c Hc. rewrite Z.pow_add_r in Hc by lia. change (2 ^ 1) with 2 in Hc. assert (0 <= c / 2 ^ k) by (apply Z.div_pos; lia). assert (c / 2 ^ k < 2) by (apply Z.div_lt_upper_bound; lia). lia. }
  pose proof (Z.div_mod b (2 ^ k) ltac:(lia)). pose proof (Z.div_mod b' (2 ^ k) ltac:(lia)). destruct (D b Hb) as [X|X], (D b' Hb') as [Y|Y]; rewrite X, Y in *; try discriminate; lia.
Qed.
