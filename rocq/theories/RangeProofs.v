(* Proofs about RangeModel. *)
From Verif Require Import Base WidthModel WidthProofs DestModel DestProofs UtfForms CsetModel CsetProofs Properties_Pivot WCalcModel WCalcProofs
  PrintModel StringModel ToModel RangeModel PrintSpec StringSpec RangeSpec PrintProofs SegProofs ToProofs.

Lemma print_one_ok M a d : arg_ok M a d -> prints_text (print_one a) (d_text d).
Proof.
  intros (_ & _ & HA). destruct (HA no_pre (no_pre_ok M d)) as (p' & pr & E & HT & _).
  apply prints_by. intros S ops R ok L s u H K. unfold print_one. rewrite E. cbn [obind snd]. apply (prints_use _ _ HT S ops R ok L); assumption.
Qed.
Lemma p_range_ok M args ds : Forall2 (arg_ok M) args ds -> prints_text (p_range args) (concat (map d_text ds)).
Proof.
  intros HF0. apply prints_by. induction HF0 as [|a d args ds HA HF IH]; intros S ops R ok L s u H K; cbn [p_range map concat] in *.
  - exists s. rewrite app_nil_r. auto.
  - destruct (d_good ops s) eqn:G; [|exists s; split; [reflexivity|apply (laws_bad ops R ok); assumption]].
    destruct (prints_use _ _ (print_one_ok M a d HA) S ops R ok L s u H (laws_cut _ _ _ _ _ _ _ L H K)) as (s1 & E1 & H1). rewrite E1. cbn [obind]. rewrite app_assoc in K |- *. apply (IH S ops R ok L); assumption.
Qed.
Lemma p_sep_rest_ok M sep args ds : Forall2 (arg_ok M) args ds -> prints_text (p_sep_rest sep args) (concat (map (fun d => sep ++ d_text d) ds)).
Proof.
  intros HF0. apply prints_by. induction HF0 as [|a d args ds HA HF IH]; intros S ops R ok L s u H K; cbn [p_sep_rest map concat] in *.
  - exists s. rewrite app_nil_r. auto.
  - destruct (d_good ops s) eqn:G; [|exists s; split; [reflexivity|apply (laws_bad ops R ok); assumption]].
    rewrite <- app_assoc in K |- *. destruct (laws_write ops R ok s u sep L H (laws_cut _ _ _ _ _ _ _ L H K)) as (s1 & E1 & H1). rewrite E1. cbn [obind]. rewrite app_assoc in K |- *.
    destruct (prints_use _ _ (print_one_ok M a d HA) S ops R ok L s1 _ H1 (laws_cut _ _ _ _ _ _ _ L H1 K)) as (s2 & E2 & H2). rewrite E2. cbn [obind]. rewrite app_assoc in K |- *.
    apply (IH S ops R ok L); assumption.
Qed.
Lemma separated_cons sep t ts : separated sep (t :: ts) = t ++ concat (map (fun t => sep ++ t) ts).
Proof.
  revert t. induction ts as [|t' ts IH]; intros t; [cbn; rewrite app_nil_r; reflexivity|].
  change (separated sep (t :: t' :: ts)) with (t ++ sep ++ separated sep (t' :: ts)). rewrite IH. cbn [map concat]. rewrite !app_assoc. reflexivity.
Qed.
Lemma p_sep_range_ok M sep args ds : Forall2 (arg_ok M) args ds -> prints_text (p_sep_range sep args) (separated sep (map d_text ds)).
Proof.
  intros [|a d args' ds' HA HF]; [apply prints_by; intros S ops R ok L s u H K; cbn; exists s; rewrite app_nil_r; auto|].
  cbn [map]. rewrite separated_cons. apply prints_by. intros S ops R ok L s u H K. cbn [p_sep_range].
  destruct (prints_use _ _ (print_one_ok M a d HA) S ops R ok L s u H (laws_cut _ _ _ _ _ _ _ L H K)) as (s1 & E1 & H1). rewrite E1. cbn [obind]. rewrite app_assoc in K |- *.
  rewrite map_map in K |- *. apply (prints_use _ _ (p_sep_rest_ok M sep args' ds' HF) S ops R ok L); assumption.
Qed.
Lemma zlen_separated sep ts : zlen (separated sep ts) = zlen (concat ts) + zlen sep * Z.max 0 (zlen ts - 1).
Proof.
  destruct ts as [|t ts]; [cbn; lia|]. rewrite separated_cons. cbn [concat]. rewrite !zlen_app, zlen_cons.
  replace (Z.max 0 (1 + zlen ts - 1)) with (zlen ts) by (pose proof (zlen_nonneg ts); lia).
  assert (zlen (concat (map (fun t => sep ++ t) ts)) = zlen (concat ts) + zlen sep * zlen ts) as ->; [|lia].
  induction ts as [|t' ts IH]; [cbn; lia|]. cbn [map concat]. rewrite !zlen_app, zlen_cons, IH. lia.
Qed.

Lemma size_demanded_added p d p' : added p d p' -> size_demanded p' = size_demanded p.
Proof. intros [A _]. unfold size_demanded. rewrite A. destruct (p_size p); reflexivity. Qed.

(* the loop: everything is measured, unless only the width is wanted and it is exhausted *)
Lemma measure_elements_ok M args ds : Forall2 (arg_ok M) args ds -> forall p c, pre_ok M p (join_desc ds) -> 0 <= c -> c + zlen args < 2 ^ 64 ->
  exists p' n, measure_elements args c p = Some (p', c + n) /\ 0 <= n <= zlen args /\ added p (join_desc ds) p' /\
    (n = zlen args \/ size_demanded p = false /\ has_remaining_width p' = false).
Proof.
  induction 1 as [|a d args ds HA HF IH]; intros p c HP Hc HZ.
  - exists p, 0. cbn [measure_elements]. rewrite Z.add_0_r. split; [reflexivity|]. split; [cbn; lia|]. split; [|left; reflexivity]. destruct HP as [HS HW]. split.
    + cbn. destruct (p_size p) as [z|]; [|reflexivity]. cbn. rewrite Z.add_0_r, Z.mod_small by exact HS. reflexivity.
    + destruct (p_width p) as [[l x]|]; [|exact I]. cbn. lia.
  - pose proof (args_nonneg _ _ _ HF) as HN. destruct HA as (H1 & H2 & HA). rewrite zlen_cons in *. pose proof (zlen_nonneg args) as HL.
    cbn [measure_elements]. destruct (has_remaining_width p || size_demanded p) eqn:G.
    2: { apply orb_false_iff in G. destruct G as [G1 G2]. exists p, 0. rewrite Z.add_0_r. split; [reflexivity|]. split; [lia|]. split; [|right; auto].
      unfold size_demanded in G2. destruct (p_size p) eqn:ES; [discriminate|]. split; [rewrite ES; reflexivity|].
      unfold has_remaining_width in G1. destruct (p_width p) as [[l x]|]; [|exact I]. apply Z.ltb_ge in G1.
      pose proof (join_nonneg (d :: ds) (Forall_cons d (conj H1 H2) HN)). lia. }
    assert (pre_ok M p d) as HPd.
    { destruct HP as [HS HW]. split; [exact HS|]. destruct (p_width p) as [[l x]|]; [|exact I]. destruct HW as (L1 & L2 & L3 & L4).
      split; [exact L1|]. split; [exact L2|]. split; [exact L3|]. eapply room_app; eauto. }
    destruct (HA p HPd) as (p1 & pr & E1 & T1 & A). pose proof (size_demanded_added _ _ _ A) as ED. destruct A as [A1 A2].
    assert (pre_ok M p1 (join_desc ds)) as HP1.
    { destruct HP as [HS HW]. split.
      - rewrite A1. destruct (p_size p); [|exact I]. apply Z.mod_pos_bound. lia.
      - destruct (p_width p) as [[l x]|], (p_width p1) as [[l' x']|]; try contradiction; [|exact I].
        destruct A2 as (-> & B1 & B2 & B3). destruct HW as (L1 & L2 & L3 & L4).
        destruct (room_app l x d ds x' H1 H2 L3 L1 L4 HN) as [_ GG]. destruct (GG B1 B3). auto. }
    rewrite E1. cbn [obind fst]. rewrite (to_u_id 64) by lia.
    destruct (IH p1 (c + 1) HP1 ltac:(lia) ltac:(lia)) as (p2 & n & E2 & Hn & A3 & HE). exists p2, (n + 1). rewrite E2.
    split; [f_equal; f_equal; lia|]. split; [lia|]. split.
    + destruct A3 as [A3 A4]. split.
      * rewrite A3, A1. destruct (p_size p) as [z|]; [|reflexivity]. cbn [option_map]. f_equal. cbn [join_desc d_text map concat]. rewrite zlen_app.
        rewrite Zplus_mod_idemp_l. f_equal. lia.
      * destruct (p_width p) as [[l x]|], (p_width p1) as [[l1 x1]|], (p_width p2) as [[l2 x2]|]; try contradiction; try exact I.
        destruct A2 as (-> & B1 & B2 & B3), A4 as (-> & C1 & C2 & C3). cbn [join_desc d_width d_need map] in *.
        change (sumZ (d_width d :: map d_width ds)) with (d_width d + sumZ (map d_width ds)).
        change (sumZ (d_need d :: map d_need ds)) with (d_need d + sumZ (map d_need ds)).
        pose proof (join_nonneg ds HN). cbn [join_desc d_width d_need d_peak] in *. lia.
    + destruct HE as [HE|[HE1 HE2]]; [left; lia|right]. split; [congruence|exact HE2].
Qed.

Lemma range_arg_ok M args ds : Forall2 (arg_ok M) args ds -> zlen args < 2 ^ 64 -> arg_ok M (range_arg args) (join_desc ds).
Proof.
  intros HF HZ. pose proof (args_nonneg _ _ _ HF) as HN. destruct (join_nonneg ds HN) as [N1 N2]. split; [exact N1|]. split; [exact N2|].
  intros p HP. unfold range_arg. destruct (something_demanded p) eqn:G.
  - destruct (measure_elements_ok M args ds HF p 0 HP ltac:(lia) ltac:(lia)) as (p' & n & E & _ & A & _). rewrite E. cbn [obind fst].
    exists p', (p_range args). split; [reflexivity|]. split; [apply (p_range_ok M), HF|exact A].
  - cbn [obind]. exists p, (p_range args). split; [reflexivity|]. split; [apply (p_range_ok M), HF|].
    unfold something_demanded, size_demanded in G. destruct p as [[z|] [w|]]; try discriminate. split; [reflexivity|exact I].
Qed.

Lemma checked_add_width_ok w p : 0 <= w -> match p_width p with None => True | Some (limit, x) => is_width limit /\ 0 <= x <= u_max end ->
  exists p', checked_add_width w p = Some p' /\ p_size p' = p_size p /\
    p_width p' = match p_width p with None => None | Some (limit, x) => Some (limit, if x <? limit then Z.min limit (x + w) else x) end.
Proof.
  intros Hw HP. unfold checked_add_width. destruct p as [z [[l x]|]]; cbn [p_size p_width] in *; [|eexists; split; [reflexivity|]; auto].
  destruct HP as [HL Hx]. unfold is_width in HL. destruct (Z.ltb_spec x l).
  - destruct (Z.ltb_spec 0 w); cbn [andb].
    + rewrite w_sub_ok by (unfold u_min, u_max in *; lia). cbn [obind]. destruct (Z.leb_spec (l - x) w).
      * eexists. split; [reflexivity|]. split; [reflexivity|]. cbn [p_width]. do 2 f_equal. lia.
      * rewrite w_add_ok by (unfold u_min, u_max in *; lia). cbn [obind]. eexists. split; [reflexivity|]. split; [reflexivity|]. cbn [p_width]. do 2 f_equal. lia.
    + eexists. split; [reflexivity|]. split; [reflexivity|]. cbn [p_width]. do 2 f_equal. lia.
  - rewrite andb_false_r. eexists. split; [reflexivity|]. split; reflexivity.
Qed.

(* separators: n >= 2 elements counted *)
Lemma add_separators_width_ok w b sep l n p : is_cset b -> unit_text b sep -> segmented b sep l -> countable w b sep -> 2 <= n < 2 ^ 64 ->
  match p_width p with None => True | Some (limit, x) => is_width limit /\ 0 <= x <= u_max end ->
  let sw := seg_width w l in
  exists p', add_separators_width w b sep n p = Some p' /\ p_size p' = p_size p /\
    match p_width p, p_width p' with
    | None, None => True
    | Some (limit, x), Some (limit', x') => limit' = limit /\ (x' = x \/ x' <= limit) /\ x <= x' <= x + sw * (n - 1) /\ (x' = x + sw * (n - 1) \/ limit <= x')
    | _, _ => False
    end.
Proof.
  intros HB HU HS HC Hn HP sw. unfold add_separators_width. pose proof (seg_width_nonneg w l) as HSW. fold sw in HSW.
  assert (exists rem, remaining_width p = Some rem /\ is_width rem /\ match p_width p with None => True | Some (limit, x) => x < limit -> rem = limit - x end) as (rem & -> & HR & HRx).
  { unfold remaining_width. destruct (p_width p) as [[l0 x]|].
    - destruct HP as [HL Hx]. unfold is_width in *. destruct (Z.leb_spec x l0).
      + rewrite w_sub_ok by (unfold u_min, u_max in *; lia). eexists. split; [reflexivity|]. unfold u_min, u_max in *. lia.
      + eexists. split; [reflexivity|]. unfold u_min, u_max in *. lia.
    - eexists. split; [reflexivity|]. unfold is_width, u_min, u_max. split; [lia|exact I]. }
  cbn [obind]. destruct (wc_str_width_ok w b rem sep l HB HU HS HC HR) as (dw & -> & S1 & S2 & S3 & S4). fold sw in S1, S2. cbn [obind].
  rewrite to_u_id by lia. rewrite sat_mul_u64_ok by (unfold is_width, u_min, u_max in *; lia). cbn [obind]. 
  destruct (checked_add_width_ok (WidthProofs.clamp (dw * (n - 1))) p) as (p' & E & E1 & E2); [unfold WidthProofs.clamp, u_min, u_max; nia|exact HP|].
  rewrite E. exists p'. split; [reflexivity|]. split; [exact E1|]. rewrite E2. destruct (p_width p) as [[l0 x]|]; [|exact I]. destruct HP as [HL Hx]. unfold is_width in HL.
  split; [reflexivity|]. destruct (Z.ltb_spec x l0); [|split; [left; reflexivity|]; nia].
  specialize (HRx ltac:(lia)). subst rem. assert (0 <= dw * (n - 1) <= sw * (n - 1)) by nia. assert (dw <= dw * (n - 1)) by nia.
  unfold WidthProofs.clamp, u_min, u_max in *. destruct S2 as [->|S2]; lia.
Qed.

Lemma add_separators_size_ok sep n p : 1 <= n < 2 ^ 64 -> match p_size p with None => True | Some z => 0 <= z < 2 ^ 64 end ->
  exists p', add_separators_size sep n p = Some p' /\ p_size p' = option_map (fun z => (z + zlen sep * (n - 1)) mod 2 ^ 64) (p_size p) /\ p_width p' = p_width p.
Proof.
  intros Hn HS. unfold add_separators_size, size_demanded. destruct (p_size p) as [z|] eqn:ES.
  - destruct (add_size_ok (to_u 64 (to_u 64 (n - 1) * to_u 64 (zlen sep))) p) as (p' & E & E1 & E2 & _); [apply Z.mod_pos_bound; lia|rewrite ES; exact HS|].
    exists p'. split; [exact E|]. split; [|exact E2]. rewrite E1, ES. cbn [option_map]. f_equal. rewrite (to_u_id 64 (n - 1)) by lia. unfold to_u.
    rewrite Zmult_mod_idemp_r. rewrite Zplus_mod_idemp_r. f_equal. lia.
  - exists p. rewrite ES. auto.
Qed.

Lemma sep_range_arg_ok M fm w b sep l args ds : is_cset b -> unit_text b sep -> segmented b sep l -> countable w b sep ->
  Forall2 (arg_ok M) args ds -> zlen args < 2 ^ 64 ->
  arg_ok M (sep_range_arg fm w b sep args) (sep_desc sep (seg_width w l) ds).
Proof.
  intros HB HU HS HC HF HZ. pose proof (args_nonneg _ _ _ HF) as HN. destruct (join_nonneg ds HN) as [N1 N2]. pose proof (seg_width_nonneg w l) as HSW.
  assert (zlen ds = zlen args) as EL by (clear - HF; induction HF; [reflexivity|rewrite !zlen_cons; lia]).
  set (sw := seg_width w l) in *. set (seps := sw * Z.max 0 (zlen ds - 1)). assert (0 <= seps) by (unfold seps; nia).
  cbn [join_desc d_width d_peak d_need] in N1, N2.
  split; [unfold sep_desc; cbn [d_width d_peak d_need]; fold seps; lia|]. split; [exact N2|].
  intros p HP. unfold sep_range_arg. destruct (something_demanded p) eqn:G.
  2: { cbn [obind]. exists p, (p_sep_range sep args). split; [reflexivity|]. split; [apply (p_sep_range_ok M), HF|].
    unfold something_demanded, size_demanded in G. destruct p as [[z|] [pw|]]; try discriminate. split; [reflexivity|exact I]. }
  assert (pre_ok M p (join_desc ds)) as HJ.
  { destruct HP as [P1 P2]. split; [exact P1|]. destruct (p_width p) as [[lim x]|]; [|exact I]. destruct P2 as (L1 & L2 & L3 & L4). split; [exact L1|]. split; [exact L2|].
    split; [exact L3|]. unfold room, sep_desc, join_desc in *. cbn [d_peak d_need] in *. fold seps in L4. lia. }
  destruct (measure_elements_ok M args ds HF p 0 HJ ltac:(lia) ltac:(lia)) as (p1 & n & E & Hn & A & HE). rewrite Z.add_0_l in E.
  pose proof (size_demanded_added _ _ _ A) as ED.
  assert (match p_width p1 with None => True | Some (limit, x) => is_width limit /\ 0 <= x <= u_max end) as HP1.
  { destruct A as [_ A]. destruct HP as [_ P2]. destruct (p_width p) as [[lim x]|], (p_width p1) as [[lim1 x1]|]; try contradiction; [|exact I].
    destruct A as (-> & A1 & A2 & A3), P2 as (L1 & L2 & L3 & L4). split; [exact L1|]. unfold room, sep_desc in L4. cbn [d_peak d_need] in L4. fold seps in L4.
    cbn [join_desc d_width d_need] in *. lia. }
  assert (match p_size p1 with None => True | Some z => 0 <= z < 2 ^ 64 end) as HZ1.
  { destruct A as [A _]. rewrite A. destruct (p_size p); [|exact I]. apply Z.mod_pos_bound. lia. }
  cut (exists p2, (if fm then fmt_sep_premeasure else sep_premeasure) w b sep args p = Some p2 /\ added p (sep_desc sep sw ds) p2).
  { intros (p2 & E2 & A2). rewrite E2. cbn [obind]. exists p2, (p_sep_range sep args). split; [reflexivity|]. split; [apply (p_sep_range_ok M), HF|exact A2]. }
  (* what has been added if the separators are not measured *)
  assert (n < 2 -> has_remaining_width p1 = true \/ size_demanded p = true -> seps = 0 /\ zlen (separated sep (map d_text ds)) = zlen (concat (map d_text ds))) as HSmall.
  { intros H2 H3. rewrite zlen_separated. unfold seps. replace (zlen (map d_text ds)) with (zlen ds) by (unfold zlen; rewrite map_length; reflexivity).
    assert (n = zlen args) by (destruct HE as [HE|[HE1 HE2]]; [exact HE|]; destruct H3; congruence).
    replace (Z.max 0 (zlen ds - 1)) with 0 by lia. lia. }
  assert (has_remaining_width p1 = false -> size_demanded p = false -> added p (sep_desc sep sw ds) p1) as Hstop.
  { intros H2 H3. destruct A as [A1 A2]. unfold size_demanded in H3. destruct (p_size p) eqn:ES; [discriminate|]. split; [rewrite A1, ES; reflexivity|].
    destruct (p_width p) as [[lim x]|], (p_width p1) as [[lim1 x1]|] eqn:EW; try contradiction; try exact I. destruct A2 as (-> & A3 & A4 & A5).
    unfold has_remaining_width in H2. rewrite EW in H2. apply Z.ltb_ge in H2. cbn [sep_desc join_desc d_width d_need] in *. fold seps. lia. }
  assert (n < 2 -> added p (sep_desc sep sw ds) p1) as Hless.
  { intros H2. destruct (has_remaining_width p1) eqn:HR; [|destruct (size_demanded p) eqn:HD; [|apply Hstop; reflexivity]].
    - destruct (HSmall H2 (or_introl eq_refl)) as [Q1 Q2]. destruct A as [A1 A2]. split; cbn [sep_desc join_desc d_text d_width d_need] in *.
      + rewrite A1, Q2. reflexivity.
      + fold seps. rewrite Q1, Z.add_0_r. exact A2.
    - destruct (HSmall H2 (or_intror eq_refl)) as [Q1 Q2]. destruct A as [A1 A2]. split; cbn [sep_desc join_desc d_text d_width d_need] in *.
      + rewrite A1, Q2. reflexivity.
      + fold seps. rewrite Q1, Z.add_0_r. exact A2. }
  (* with the separators *)
  assert (2 <= n -> has_remaining_width p1 = true \/ size_demanded p = true -> n = zlen ds /\ seps = sw * (n - 1) /\ zlen (separated sep (map d_text ds)) = zlen (concat (map d_text ds)) + zlen sep * (n - 1)) as Hfull.
  { intros H2 H3. rewrite zlen_separated. unfold seps. replace (zlen (map d_text ds)) with (zlen ds) by (unfold zlen; rewrite map_length; reflexivity).
    assert (n = zlen args) by (destruct HE as [HE|[HE1 HE2]]; [exact HE|]; destruct H3; congruence).
    replace (Z.max 0 (zlen ds - 1)) with (n - 1) by lia. split; [lia|]. split; lia. }
  assert (forall p2, 2 <= n -> has_remaining_width p1 = true \/ size_demanded p = true -> p_size p2 = p_size p1 ->
    match p_width p1, p_width p2 with
    | None, None => True
    | Some (limit, x), Some (limit', x') => limit' = limit /\ (x' = x \/ x' <= limit) /\ x <= x' <= x + sw * (n - 1) /\ (x' = x + sw * (n - 1) \/ limit <= x')
    | _, _ => False
    end -> exists p3, add_separators_size sep n p2 = Some p3 /\ added p (sep_desc sep sw ds) p3) as Hsize.
  { intros p2 H2 H3 ES EW. destruct (Hfull H2 H3) as (Q0 & Q1 & Q2). destruct (add_separators_size_ok sep n p2 ltac:(lia)) as (p3 & E3 & S3 & W3); [rewrite ES; exact HZ1|].
    exists p3. split; [exact E3|]. destruct A as [A1 A2]. split.
    - rewrite S3, ES, A1. cbn [sep_desc join_desc d_text]. rewrite Q2. destruct (p_size p) as [z|]; [|reflexivity]. cbn [option_map]. f_equal.
      rewrite Zplus_mod_idemp_l. f_equal. lia.
    - rewrite W3. destruct (p_width p) as [[lim x]|], (p_width p1) as [[lim1 x1]|], (p_width p2) as [[lim2 x2]|]; try contradiction; try exact I.
      destruct A2 as (-> & A3 & A4 & A5), EW as (-> & B1 & B2 & B3). cbn [sep_desc join_desc d_width d_need] in *. fold seps. rewrite Q1. lia. }
  destruct fm.
  - unfold fmt_sep_premeasure. rewrite E. cbn [obind]. destruct (Z.ltb_spec n 2) as [H2|H2]; [exists p1; split; [reflexivity|apply Hless, H2]|].
    destruct (has_remaining_width p1) eqn:HR.
    + destruct (add_separators_width_ok w b sep l n p1 HB HU HS HC ltac:(lia) HP1) as (p2 & E2 & S2 & W2). rewrite E2. cbn [obind].
      apply Hsize; auto.
    + cbn [obind]. destruct (size_demanded p) eqn:HD.
      * apply Hsize; auto. unfold has_remaining_width in HR. destruct (p_width p1) as [[lim x]|]; [|exact I]. apply Z.ltb_ge in HR. split; [reflexivity|]. nia.
      * exists p1. split; [|apply Hstop; reflexivity]. unfold add_separators_size. rewrite ED. reflexivity.
  - unfold sep_premeasure. rewrite E. cbn [obind]. destruct (Z.ltb_spec n 2) as [H2|H2]; [exists p1; split; [reflexivity|apply Hless, H2]|]. cbn [orb].
    rewrite ED. destruct (negb (size_demanded p) && negb (has_remaining_width p1)) eqn:HB2.
    + apply andb_true_iff in HB2. destruct HB2 as [B1 B2]. apply negb_true_iff in B1, B2. exists p1. split; [reflexivity|apply Hstop; assumption].
    + destruct (add_separators_width_ok w b sep l n p1 HB HU HS HC ltac:(lia) HP1) as (p2 & E2 & S2 & W2). rewrite E2. cbn [obind].
      apply Hsize; auto. destruct (size_demanded p), (has_remaining_width p1); auto; discriminate.
Qed.
