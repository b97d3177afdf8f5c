(* From the bits of a double or float to the text and back: dragonbox's decimal (DragonModel) is what the
   printers (FloatModel) print; reading the text and rounding gives the same bits. *)
From Verif Require Import Base GroupSpec DigitsSpec IntSpec IntModel WidthModel WidthProofs DestModel DestProofs PrintModel FloatSpec FloatModel FloatInit FloatProofs FloatFast FloatRead FloatArgs.
From Verif Require Import ShortestSpec DragonModel DragonBest DragonBridge DragonFloats DragonFormats.
From Coq Require Import Lqa.
Local Open Scope Z_scope.

(* float.hpp 60, 86, 2090, 2172: the decimal of dragonbox::to_decimal.  [None], undefined behaviour, is
   given as a decimal that [decimal_ok] rejects. *)
Definition defined (r : option (Z * Z)) : Z * Z := match r with Some d => d | None => (-1, 0) end.
(* float.hpp 65-87, 2057-2093 and 36-62, 2139-2175: decode(double) and decode(float), init_punct_double_printer_data *)
Definition double_of_bits (b : Z) : decoded_float := decode64 (fun e m => defined (to_decimal64 e m)) b.
Definition float_of_bits (b : Z) : decoded_float := decode32 (fun e m => defined (to_decimal32 e m)) b.

(* ---- rounding ---- *)
Lemma rounds_eq F v w n : (v == w)%Q -> rounds_to F v n -> rounds_to F w n.
Proof.
  intros E (H1 & H2). split; [exact H1|]. intros n' Hn'. destruct (H2 n' Hn') as (A & B). rewrite E in A, B. split; assumption.
Qed.
Lemma zero_rounds F : 1 <= prec F -> 2 <= width F -> rounds_to F (dec_value 0 0) 0.
Proof.
  intros Hp Hw. assert (0 < 2 ^ prec F) by (apply Z.pow_pos_nonneg; lia). assert (2 ^ 2 <= 2 ^ width F) by (apply Z.pow_le_mono_r; lia).
  assert (Z0 : (float_at F 0 == 0)%Q). { unfold float_at, binary_value, float_significand. rewrite Z.div_0_l, Z.mod_0_l by lia. cbn [Z.eqb]. change (inject_Z (0 + 0)) with 0%Q. ring. }
  assert (V0 : (dec_value 0 0 == 0)%Q) by reflexivity.
  split; [unfold infinity_bits; nia|]. intros n' Hn'. rewrite Z0, V0. split.
  - setoid_replace (0 - 0)%Q with 0%Q by ring. apply Qabs_nonneg.
  - intros _. right. reflexivity.
Qed.
(* a number rounds to one float *)
Lemma rounds_unique_lt F v n n' : 1 <= prec F -> 2 <= width F -> rounds_to F v n -> rounds_to F v n' -> n < n' -> False.
Proof.
  intros Hp Hw (B1 & H1) (B2 & H2) L. assert (HF : 1 <= prec F /\ 2 <= width F) by lia.
  destruct (H1 n' ltac:(lia)) as (A1 & A2). destruct (H2 n ltac:(lia)) as (C1 & C2).
  assert (EQ : (Qabs (v - float_at F n) == Qabs (v - float_at F n'))%Q) by (apply Qle_antisym; assumption).
  destruct (A2 EQ) as [A3|A3]; [lia|]. destruct (C2 (Qeq_sym _ _ EQ)) as [C3|C3]; [lia|].
  assert (L1 : n + 1 < n'). { assert (n' <> n + 1); [|lia]. intros ->. rewrite Z.even_add, A3 in C3. discriminate. }
  destruct (H1 (n + 1) ltac:(lia)) as (D1 & _). pose proof (float_mono F HF n (n + 1) ltac:(lia)) as M1. pose proof (float_mono F HF (n + 1) n' ltac:(lia)) as M2.
  pose proof (float_mono F HF n n' ltac:(lia)) as M3.
  destruct (near_above _ _ v M3) as (_ & (K & _)). specialize (K EQ). destruct (near_above _ _ v M1) as ((K1 & _) & _). specialize (K1 D1). lra.
Qed.
Lemma rounds_unique F v n n' : 1 <= prec F -> 2 <= width F -> rounds_to F v n -> rounds_to F v n' -> n = n'.
Proof.
  intros Hp Hw H1 H2. destruct (Z.lt_total n n') as [L|[E|L]]; [|exact E|].
  - exfalso. exact (rounds_unique_lt F v n n' Hp Hw H1 H2 L).
  - exfalso. exact (rounds_unique_lt F v n' n Hp Hw H2 H1 L).
Qed.

Lemma same_value_dec N a m b : same_value N a m b -> (dec_value N a == dec_value m b)%Q.
Proof.
  unfold same_value, dec_value. set (k := Z.min a b). cbv zeta. intros H.
  assert (T : forall x y, k <= y -> (inject_Z x * Qpower (inject_Z 10) y == inject_Z (x * 10 ^ (y - k)) * Qpower (inject_Z 10) k)%Q).
  { intros x y Hy. rewrite inject_Z_mult, qpow_Z by lia. rewrite <- Qmult_assoc, <- qpow_add by lia. replace (y - k + k) with y by lia. reflexivity. }
  rewrite (T N a) by (unfold k; lia). rewrite (T m b) by (unfold k; lia). rewrite H. reflexivity.
Qed.

(* ---- the bits ---- *)
(* finite_bits: the sign, the magnitude n and the decimal of a finite value *)
Definition shown (F : format) (x : decoded_float) (n m e : Z) : Prop :=
  (exists subnormal mantissa exponent, fl_bits x = BFinite subnormal mantissa exponent m e) /\
  decimal_ok m e /\ canonical m /\ (n = 0 -> m = 0) /\ (0 < n -> shortest_decimal F n m e) /\ rounds_to F (dec_value m e) n.
Lemma double_shown b : 0 <= b < 2 ^ 64 -> b mod 2 ^ 63 < infinity_bits binary64 ->
  exists m e, fl_negative (double_of_bits b) = (b / 2 ^ 63 =? 1) /\ shown binary64 (double_of_bits b) (b mod 2 ^ 63) m e.
Proof.
  intros Hb Hf. unfold double_of_bits. destruct (decode64_ok (fun e m => defined (to_decimal64 e m)) b Hb) as (S & _ & FI).
  assert (EB : b mod 2 ^ 63 = (b / 2 ^ 52) mod 2 ^ 11 * 2 ^ 52 + b mod 2 ^ 52).
  { change (2 ^ 63) with (2 ^ 52 * 2 ^ 11). rewrite Z.rem_mul_r by lia. ring. }
  change (infinity_bits binary64) with (2047 * 2 ^ 52) in Hf. set (E := (b / 2 ^ 52) mod 2 ^ 11) in *. set (M := b mod 2 ^ 52) in *.
  assert (HM : 0 <= M < 2 ^ 52) by (apply Z.mod_pos_bound; lia). assert (HE : 0 <= E < 2 ^ 11) by (apply Z.mod_pos_bound; lia).
  destruct FI as (m & e & Eb & Ed); [lia|]. exists m, e. split; [exact S|]. rewrite EB.
  destruct (Z.eqb_spec E 0) as [E0|E0]; destruct (Z.eqb_spec M 0) as [M0|M0]; cbn [andb] in Ed.
  1: { injection Ed as -> ->. rewrite E0, M0. change (0 * 2 ^ 52 + 0) with 0. split; [eexists _, _, _; exact Eb|]. split; [vm_compute; intuition discriminate|].
       split; [left; reflexivity|]. split; [reflexivity|]. split; [lia|]. apply zero_rounds; cbn; lia. }
  all: destruct (shortest64 E M ltac:(lia) HM ltac:(lia)) as (s & X & R & SD & B1 & B2); rewrite R in Ed; cbn [defined] in Ed; injection Ed as -> ->;
    (split; [eexists _, _, _; exact Eb|]); destruct SD as (S1 & S2 & S3 & S4);
    (split; [split; [lia|split; lia]|]); (split; [right; exact S2|]); (split; [lia|]); (split; [intros _; split; [exact S1|split; [exact S2|split; [exact S3|exact S4]]]|exact S3]).
Qed.
Lemma float_shown b : 0 <= b < 2 ^ 32 -> b mod 2 ^ 31 < infinity_bits binary32 ->
  exists m e, fl_negative (float_of_bits b) = (b / 2 ^ 31 =? 1) /\ shown binary32 (float_of_bits b) (b mod 2 ^ 31) m e.
Proof.
  intros Hb Hf. unfold float_of_bits. destruct (decode32_ok (fun e m => defined (to_decimal32 e m)) b Hb) as (S & _ & FI).
  assert (EB : b mod 2 ^ 31 = (b / 2 ^ 23) mod 2 ^ 8 * 2 ^ 23 + b mod 2 ^ 23).
  { change (2 ^ 31) with (2 ^ 23 * 2 ^ 8). rewrite Z.rem_mul_r by lia. ring. }
  change (infinity_bits binary32) with (255 * 2 ^ 23) in Hf. set (E := (b / 2 ^ 23) mod 2 ^ 8) in *. set (M := b mod 2 ^ 23) in *.
  assert (HM : 0 <= M < 2 ^ 23) by (apply Z.mod_pos_bound; lia). assert (HE : 0 <= E < 2 ^ 8) by (apply Z.mod_pos_bound; lia).
  destruct FI as (m & e & Eb & Ed); [lia|]. exists m, e. split; [exact S|]. rewrite EB.
  destruct (Z.eqb_spec E 0) as [E0|E0]; destruct (Z.eqb_spec M 0) as [M0|M0]; cbn [andb] in Ed.
  1: { injection Ed as -> ->. rewrite E0, M0. change (0 * 2 ^ 23 + 0) with 0. split; [eexists _, _, _; exact Eb|]. split; [vm_compute; intuition discriminate|].
       split; [left; reflexivity|]. split; [reflexivity|]. split; [lia|]. apply zero_rounds; cbn; lia. }
  all: destruct (shortest32 E M ltac:(lia) HM ltac:(lia)) as (s & X & R & SD & B1 & B2); rewrite R in Ed; cbn [defined] in Ed; injection Ed as -> ->;
    (split; [eexists _, _, _; exact Eb|]); destruct SD as (S1 & S2 & S3 & S4);
    (split; [split; [lia|split; lia]|]); (split; [right; exact S2|]); (split; [lia|]); (split; [intros _; split; [exact S1|split; [exact S2|split; [exact S3|exact S4]]]|exact S3]).
Qed.

(* ---- text without format ---- *)
Lemma default_body lc m e : decimal_body (default_style lc) m e = decimal_body (mk_style NGeneral None false lc [46] [44] (fun _ => false)) m e.
Proof.
  assert (G : forall s1 s2 ds, grouped (fun _ => false) s1 ds = grouped (fun _ => false) s2 ds).
  { intros s1 s2 ds. induction ds as [|d ds IH]; [reflexivity|]. cbn [grouped]. rewrite andb_false_r, IH. reflexivity. }
  unfold decimal_body, default_style. cbn [st_notation st_precision one_column st_showpoint st_case st_boundary].
  unfold exact_sci, exact_fixed, fixed_text. cbn [st_case st_point st_showpoint st_boundary st_sep].
  rewrite (G [] [44]). reflexivity.
Qed.
Lemma default_reads F lc x n m e : shown F x n m e ->
  exists p u N q E, fast_print lc x = Some p /\ ops_text (pr_ops p) = (if fl_negative x then [45] else []) ++ u /\
    read_float u = Some (N, q, E) /\ rounds_to F (dec_value N (E - q)) n.
Proof.
  intros ((sn & mm & ex & Eb) & Hd & _ & _ & _ & HR).
  destruct (fast_default_ok lc x ltac:(rewrite Eb; exact Hd)) as (p & Ep & Et & _). rewrite Eb in Et. cbn [value_of float_body] in Et.
  rewrite default_body in Et.
  destruct (denotes_exact (mk_style NGeneral None false lc [46] [44] (fun _ => false)) m e) as (N & q & E & R & V);
    [split; reflexivity|apply Hd|reflexivity|discriminate|].
  exists p, (decimal_body (mk_style NGeneral None false lc [46] [44] (fun _ => false)) m e), N, q, E.
  split; [exact Ep|]. split; [exact Et|]. split; [exact R|]. apply (rounds_eq F (dec_value m e)); [symmetry; apply same_value_dec; exact V|exact HR].
Qed.
(* in any decimal notation without precision *)
Lemma style_reads F s x n m e : shown F x n m e -> plain_style s -> st_precision s = None -> st_notation s <> NHex ->
  exists N q E, read_float (decimal_body s m e) = Some (N, q, E) /\ rounds_to F (dec_value N (E - q)) n.
Proof.
  intros (_ & Hd & _ & _ & _ & HR) H1 H2 H3. destruct (denotes_exact s m e H1 ltac:(apply Hd) H2 H3) as (N & q & E & R & V).
  exists N, q, E. split; [exact R|]. apply (rounds_eq F (dec_value m e)); [symmetry; apply same_value_dec; exact V|exact HR].
Qed.

(* a sign is not read *)
Lemma read_minus u : read_float (45 :: u) = None.
Proof. unfold read_float. cbn [read_num Z.leb Z.compare Z.eqb Pos.eqb Pos.compare Pos.compare_cont andb]. destruct u; reflexivity. Qed.
Lemma default_injective F lc x y n n' m e m' e' : 1 <= prec F -> 2 <= width F -> shown F x n m e -> shown F y n' m' e' ->
  option_map (fun p => ops_text (pr_ops p)) (fast_print lc x) = option_map (fun p => ops_text (pr_ops p)) (fast_print lc y) ->
  fl_negative x = fl_negative y /\ n = n'.
Proof.
  intros Hp Hw HX HY. destruct (default_reads F lc x n m e HX) as (p & u & N & q & E & -> & T & R & V).
  destruct (default_reads F lc y n' m' e' HY) as (p' & u' & N' & q' & E' & -> & T' & R' & V'). cbn [option_map]. intros EQ. injection EQ as EQ. rewrite T, T' in EQ.
  assert (ES : fl_negative x = fl_negative y).
  { destruct (fl_negative x), (fl_negative y); try reflexivity; cbn [app] in EQ.
    - rewrite <- EQ, read_minus in R'. discriminate.
    - rewrite EQ, read_minus in R. discriminate. }
  split; [exact ES|]. rewrite ES in EQ. apply app_inv_head in EQ. rewrite EQ in R. rewrite R' in R. injection R as -> -> ->.
  exact (rounds_unique F _ _ _ Hp Hw V V').
Qed.
