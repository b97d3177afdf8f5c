(* C74: the library's own assertions (STRF_ASSERT).  Elsewhere a failed assertion makes the model's result [None], so
   that each theorem that gives a result also says that none fails; here are those of ensure() and flush(), and those
   kept apart from the functions that make them.
   units, items, encode, valid_text: UtfSpec; full_laws: DestProofs (what C08-C13 show of the library's destinations). *)
From Verif Require Import Base WidthModel WidthProofs UtfSpec UtfModel UtfSizeModel UtfForms UtfDecode UtfLoop UtfTheorems Properties_Utf
  GcbTable GcbSpec WCalcModel WCalcProofs Properties_WCalc DestModel DestProofs.

(* ---- destinations: ensure(n) asserts that n <= 64 and that the room is there afterwards, flush() that there is
   room for 64 units.  On a destination that holds t: *)
Theorem C74_ensure : forall S (ops : dest_ops S) R, full_laws ops R -> forall n st t, R st t ->
  ((n <= 64)%nat -> exists st', ensure ops n st = Some st' /\ R st' t /\ (n <= d_space ops st')%nat) /\
  ((64 < n)%nat -> ensure ops n st = None).
Proof.
  intros S ops R L n st t H. split; intros Hn; [exact (ensure_ok ops R _ L n st t H Hn)|].
  unfold ensure. destruct (Nat.ltb_spec 64 n); [reflexivity|lia].
Qed.
Theorem C74_flush : forall S (ops : dest_ops S) R, full_laws ops R -> forall st t, R st t ->
  exists st', flush ops st = Some st' /\ R st' t.
Proof. intros S ops R L st t H. exact (flush_ok ops R _ L st t H). Qed.

(* ---- width calculators ---- *)
Lemma limit_facts limit : is_width limit -> 0 <= (Z.max 0 limit + 65535) / 65536 <= 32768 /\ 0 <= Z.max 0 limit / 65536 <= 32767.
Proof.
  unfold is_width, u_min, u_max. intros H. repeat split; try (apply Z.div_pos; lia).
  - apply Z.lt_succ_r, (Z.div_lt_upper_bound _ 65536 (Z.succ 32768)); lia.
  - apply Z.lt_succ_r, (Z.div_lt_upper_bound _ 65536 (Z.succ 32767)); lia.
Qed.
(* the source of width_as_u32len is any sequence of units, made of the code points and ill-formed subparts [its].
   str_width's assertion fails exactly when there are more than 32767 of them and the limit is beyond 32767 *)
Theorem C74_u32len_str_width : forall f limit src its, is_width limit -> units (bits_of f) src -> items (enc_of f) false src its ->
  (u32len_str_width_asserts (count_of f) limit src = Some true <-> zlen its <= 32767 \/ limit <= 32767 * 65536) /\
  (u32len_str_width_asserts (count_of f) limit src = Some false <-> 32767 < zlen its /\ 32767 * 65536 < limit).
Proof.
  intros f limit src its HL HU HI. unfold u32len_str_width_asserts. rewrite nn_ceil_ok by assumption. pose proof (limit_facts limit HL) as [HC _].
  rewrite (C29_count_codepoints f src its) by (try assumption; lia). cbn [obind fst]. change (w_nn_floor u_max) with 32767.
  unfold is_width, u_min, u_max in HL. pose proof (Z.div_mod (Z.max 0 limit + 65535) 65536 ltac:(lia)). pose proof (Z.mod_pos_bound (Z.max 0 limit + 65535) 65536 ltac:(lia)).
  set (c := (Z.max 0 limit + 65535) / 65536) in *. pose proof (zlen_nonneg its).
  assert (E : (Z.min (zlen its) c <=? 32767) = true <-> zlen its <= 32767 \/ limit <= 32767 * 65536) by (rewrite Z.leb_le; lia).
  destruct (Z.min (zlen its) c <=? 32767); (split; [rewrite <- E|]; split; intros Q; try congruence; try lia).
Qed.
(* the assertions of str_width_and_pos, and of width_as_fast_u32len with valid text, never fail *)
Theorem C74_u32len_width_and_pos : forall f limit src its, is_width limit -> units (bits_of f) src -> items (enc_of f) false src its ->
  u32len_width_and_pos_asserts (count_of f) limit src = Some true.
Proof.
  intros f limit src its HL HU HI. unfold u32len_width_and_pos_asserts. rewrite nn_floor_ok by assumption. pose proof (limit_facts limit HL) as [_ HC].
  rewrite (C29_count_codepoints f src its) by (try assumption; lia). cbn [obind fst]. f_equal. apply Z.leb_le. lia.
Qed.
Theorem C74_fast_u32len : forall f limit cps, is_width limit -> valid_text false cps ->
  fast_u32len_str_width_asserts (count_fast_of f) limit (encode (enc_of f) cps) = Some true /\
  u32len_width_and_pos_asserts (count_fast_of f) limit (encode (enc_of f) cps) = Some true.
Proof.
  intros f limit cps HL HV. unfold fast_u32len_str_width_asserts, u32len_width_and_pos_asserts. rewrite nn_ceil_ok, nn_floor_ok by assumption. pose proof (limit_facts limit HL) as [HC HF].
  rewrite (proj1 (C29_count_codepoints_fast f cps _ HV (proj1 HC))), (proj1 (C29_count_codepoints_fast f cps _ HV (proj1 HF))). cbn [obind fst].
  change (w_nn_ceil u_max) with 32768. split; f_equal; apply Z.leb_le; lia.
Qed.
(* so a text of 32768 letters, and the widest limit, make the assertion of width_as_u32len_t::str_width fail *)
Theorem C74_u32len_refuted : exists limit cps, is_width limit /\ valid_text false cps /\
  forall f, u32len_str_width_asserts (count_of f) limit (encode (enc_of f) cps) = Some false.
Proof.
  exists u_max, (repeat 97 (Z.to_nat 32768)).
  assert (HV : valid_text false (repeat 97 (Z.to_nat 32768))) by (apply Forall_forall; intros c Hc; apply repeat_spec in Hc; subst c; split; [lia|right; reflexivity]).
  split; [unfold is_width, u_min, u_max; lia|]. split; [exact HV|]. intros f.
  apply (C74_u32len_str_width f u_max _ (map Good (repeat 97 (Z.to_nat 32768)))).
  - unfold is_width, u_min, u_max; lia.
  - apply (encode_units f false _ HV).
  - apply items_encode; auto.
  - unfold zlen. rewrite map_length, repeat_length. unfold u_max. lia.
Qed.

Example C74_ex : u32len_str_width_asserts (count_of U8) u_max [0xC3; 0xA9; 97; 97; 0xFF] = Some true /\ u32len_width_and_pos_asserts (count_of U8) 98304 [0xC3; 0xA9; 97] = Some true /\
  fast_u32len_str_width_asserts (count_fast_of U16) u_max [0xD83D; 0xDE00] = Some true /\
  (exists st, ensure smak_ops 64 smak_init = Some st) /\ ensure smak_ops 65 smak_init = None.
Proof. repeat split; try (eexists; reflexivity); reflexivity. Qed.
Print Assumptions C74_ensure.
Print Assumptions C74_flush.
Print Assumptions C74_u32len_str_width.
Print Assumptions C74_u32len_width_and_pos.
Print Assumptions C74_fast_u32len.
Print Assumptions C74_u32len_refuted.
