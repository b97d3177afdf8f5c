(* Proofs about the width calculators. *)
From Verif Require Import Base WidthModel UtfSpec GcbTable GcbSpec WCalcModel GcbCheck.

(* ---- the automaton implements the boundary rules ---- *)
Definition st_of (before : list gcb) : Z :=
  match before with
  | [] => st_initial
  | b :: r =>
      match b with
      | Control | LF => st_initial
      | CR => after_cr
      | Prepend => after_prepend
      | RI => if Nat.odd (ri_run before) then after_ri else after_core
      | XPic => after_xpic
      | Extend => if xpic_extends r then after_xpic else after_poscore
      | ZWJ => if xpic_extends r then after_xpic_zwj else after_poscore
      | SpacingMark => after_poscore
      | HangulL => after_hangul_l | HangulV => after_hangul_v | HangulT => after_hangul_t
      | HangulLV => after_hangul_lv | HangulLVT => after_hangul_lvt
      | Other => after_core
      end
  end.
Lemma step_ok before ch : std_step (st_of before) (fst (jump_of ch)) ch =
  (st_of (gcb_of ch :: before), boundary before (gcb_of ch)).
Proof.
  unfold gcb_of. destruct (fst (jump_of ch)) as [| |[]]; cbn [std_step]; try destruct (is_lv ch);
    (destruct before as [|b r]; [reflexivity|]; destruct b; cbn [st_of boundary xpic_extends ri_run];
     rewrite ?Nat.odd_succ, <- ?Nat.negb_odd, ?Nat.odd_succ, <- ?Nat.negb_odd;
     try destruct (xpic_extends r); try destruct (Nat.odd (ri_run r)); reflexivity).
Qed.

(* ---- one chunk ---- *)
Definition props (cps : list Z) : list (gcb * Z) := map (fun ch => (gcb_of ch, cp_width ch)) cps.
Definition tw (before : list gcb) (cps : list Z) : Z := 65536 * clusters_width before (props cps).
Definition after (cps : list Z) (before : list gcb) : list gcb := rev (map gcb_of cps) ++ before.
Definition in_code_space (cps : list Z) : Prop := Forall (fun ch => 0 <= ch <= 0x10FFFF) cps.

Lemma cp_width_12 ch : 1 <= cp_width ch <= 2.
Proof. unfold cp_width. destruct in_ranges; lia. Qed.
Lemma tw_cons before ch r : tw before (ch :: r) =
  (if boundary before (gcb_of ch) then cp_width ch * 65536 else 0) + tw (gcb_of ch :: before) r.
Proof. unfold tw, props. cbn [map clusters_width]. destruct boundary; lia. Qed.
Lemma tw_nonneg cps before : 0 <= tw before cps.
Proof.
  revert before. induction cps as [|ch r IH]; intros; [unfold tw; cbn; lia|].
  rewrite tw_cons. specialize (IH (gcb_of ch :: before)). pose proof (cp_width_12 ch). destruct boundary; lia.
Qed.
Lemma after_cons ch r before : after (ch :: r) before = after r (gcb_of ch :: before).
Proof. unfold after. cbn [map rev]. rewrite <- app_assoc. reflexivity. Qed.
Lemma tw_app a b before : tw before (a ++ b) = tw before a + tw (after a before) b.
Proof.
  revert before. induction a as [|ch r IH]; intros; [change (tw before b = 0 + tw before b); lia|].
  cbn [app]. rewrite !tw_cons, IH, after_cons. lia.
Qed.
Lemma after_app a b before : after (a ++ b) before = after b (after a before).
Proof. unfold after. rewrite map_app, rev_app_distr, app_assoc. reflexivity. Qed.

Lemma calc_width cps : in_code_space cps -> forall before pos width, 0 <= width ->
  exists st p, std_width_calc false cps pos width (st_of before) = (Z.max 0 (width - tw before cps), st, p) /\
    (tw before cps < width -> st = st_of (after cps before)).
Proof.
  induction 1 as [|ch r Hch Hr IH]; intros before pos width HW.
  - cbn [std_width_calc]. do 2 eexists. change (tw before []) with 0. rewrite Z.sub_0_r, Z.max_r by lia.
    split; [reflexivity|]. reflexivity.
  - cbn [std_width_calc]. destruct (table_facts ch Hch) as [HT _]. pose proof (step_ok before ch) as HS.
    destruct (jump_of ch) as [j cols]. cbn [fst snd] in *. rewrite HS, HT. rewrite tw_cons, after_cons.
    pose proof (cp_width_12 ch). pose proof (tw_nonneg r (gcb_of ch :: before)).
    destruct (boundary before (gcb_of ch)).
    + destruct (Z.leb_spec width (cp_width ch * 65536)).
      * cbn [negb]. do 2 eexists. rewrite Z.max_l by lia. split; [reflexivity|]. lia.
      * destruct (IH (gcb_of ch :: before) (S pos) (width - cp_width ch * 65536) ltac:(lia)) as (st & p & E & Hst).
        exists st, p. rewrite E. split; [f_equal; f_equal; f_equal; lia|]. intros. apply Hst. lia.
    + destruct (IH (gcb_of ch :: before) (S pos) width HW) as (st & p & E & Hst).
      exists st, p. rewrite E, Z.add_0_l. split; [reflexivity|]. exact Hst.
Qed.

(* the number of code points of the longest prefix within a width *)
Fixpoint fit (before : list gcb) (cps : list Z) (width : Z) : nat :=
  match cps with
  | [] => O
  | ch :: r =>
      let w := if boundary before (gcb_of ch) then cp_width ch * 65536 else 0 in
      if w <=? width then S (fit (gcb_of ch :: before) r (width - w)) else O
  end.
Lemma fit_le cps : forall before width, (fit before cps width <= length cps)%nat.
Proof. induction cps as [|ch r IH]; intros; cbn [fit length]; [lia|]. destruct (_ <=? _); [|lia]. specialize (IH (gcb_of ch :: before) (width - (if boundary before (gcb_of ch) then cp_width ch * 65536 else 0))). lia. Qed.
Lemma fit_ok cps : forall before width, 0 <= width -> tw before (firstn (fit before cps width) cps) <= width.
Proof.
  induction cps as [|ch r IH]; intros before width HW; cbn [fit].
  - cbn. unfold tw. cbn. lia.
  - set (w := if boundary before (gcb_of ch) then _ else _). destruct (Z.leb_spec w width).
    + cbn [firstn]. rewrite tw_cons. fold w. specialize (IH (gcb_of ch :: before) (width - w) ltac:(lia)). lia.
    + cbn. unfold tw. cbn. lia.
Qed.
Lemma fit_longest cps : forall before width m, 0 <= width -> (m <= length cps)%nat ->
  tw before (firstn m cps) <= width -> (m <= fit before cps width)%nat.
Proof.
  induction cps as [|ch r IH]; intros before width m HW Hm HT; cbn [fit length] in *; [lia|].
  destruct m as [|m]; [lia|]. cbn [firstn] in HT. rewrite tw_cons in HT.
  set (w := if boundary before (gcb_of ch) then _ else _) in *.
  pose proof (tw_nonneg (firstn m r) (gcb_of ch :: before)).
  destruct (Z.leb_spec w width); [|lia]. apply le_n_S. apply IH; lia.
Qed.
Lemma fit_all cps before width : 0 <= width -> tw before cps <= width <-> fit before cps width = length cps.
Proof.
  intros HW. split; intros H.
  - pose proof (fit_le cps before width). pose proof (fit_longest cps before width (length cps) HW (le_n _)).
    rewrite firstn_all in *. lia.
  - pose proof (fit_ok cps before width HW) as E. rewrite H, firstn_all in E. exact E.
Qed.
Lemma fit_app a b before width : 0 <= width -> tw before a <= width ->
  fit before (a ++ b) width = (length a + fit (after a before) b (width - tw before a))%nat.
Proof.
  revert before width. induction a as [|ch r IH]; intros before width HW HT.
  - change (tw before []) with 0. rewrite Z.sub_0_r. reflexivity.
  - rewrite tw_cons in HT. cbn [app fit length]. set (w := if boundary before (gcb_of ch) then _ else _) in *.
    assert (0 <= w) by (unfold w; pose proof (cp_width_12 ch); destruct boundary; lia).
    pose proof (tw_nonneg r (gcb_of ch :: before)).
    destruct (Z.leb_spec w width); [|lia]. rewrite IH by lia. cbn [Nat.add]. rewrite after_cons, tw_cons. fold w.
    do 3 f_equal. lia.
Qed.
Lemma fit_prefix a b before width : 0 <= width -> width < tw before a -> fit before (a ++ b) width = fit before a width.
Proof.
  revert before width. induction a as [|ch r IH]; intros before width HW HT.
  - unfold tw in HT. cbn in HT. lia.
  - rewrite tw_cons in HT. cbn [app fit]. set (w := if boundary before (gcb_of ch) then _ else _) in *.
    assert (0 <= w) by (unfold w; pose proof (cp_width_12 ch); destruct boundary; lia).
    destruct (Z.leb_spec w width); [|reflexivity]. f_equal. apply IH; lia.
Qed.

Lemma calc_pos cps : in_code_space cps -> forall before pos width, 0 <= width ->
  exists st, std_width_calc true cps pos width (st_of before) =
      (Z.max 0 (width - tw before cps), st, (pos + fit before cps width)%nat) /\
    (tw before cps <= width -> st = st_of (after cps before)).
Proof.
  induction 1 as [|ch r Hch Hr IH]; intros before pos width HW.
  - cbn [std_width_calc fit]. eexists. change (tw before []) with 0. rewrite Z.sub_0_r, Z.max_r, Nat.add_0_r by lia.
    split; [reflexivity|]. reflexivity.
  - cbn [std_width_calc fit]. destruct (table_facts ch Hch) as [HT _]. pose proof (step_ok before ch) as HS.
    destruct (jump_of ch) as [j cols]. cbn [fst snd] in *. rewrite HS, HT. rewrite tw_cons, after_cons.
    pose proof (cp_width_12 ch). pose proof (tw_nonneg r (gcb_of ch :: before)).
    destruct (boundary before (gcb_of ch)).
    + destruct (Z.leb_spec width (cp_width ch * 65536)).
      * cbn [negb]. destruct (Z.ltb_spec width (cp_width ch * 65536)).
        -- eexists. destruct (Z.leb_spec (cp_width ch * 65536) width); [lia|]. rewrite Z.max_l, Nat.add_0_r by lia. split; [reflexivity|]. lia.
        -- destruct (Z.leb_spec (cp_width ch * 65536) width); [|lia].
           replace (width - cp_width ch * 65536) with 0 by lia.
           destruct (IH (gcb_of ch :: before) (S pos) 0 ltac:(lia)) as (st & E & Hst).
           exists st. rewrite E. split; [f_equal; [f_equal; f_equal; lia|lia]|]. intros. apply Hst. lia.
      * destruct (Z.leb_spec (cp_width ch * 65536) width); [|lia].
        destruct (IH (gcb_of ch :: before) (S pos) (width - cp_width ch * 65536) ltac:(lia)) as (st & E & Hst).
        exists st. rewrite E. split; [f_equal; [f_equal; f_equal; lia|lia]|]. intros. apply Hst. lia.
    + destruct (Z.leb_spec 0 width); [|lia]. rewrite Z.sub_0_r.
      destruct (IH (gcb_of ch :: before) (S pos) width HW) as (st & E & Hst).
      exists st. rewrite E, Z.add_0_l. split; [f_equal; lia|]. exact Hst.
Qed.

(* ---- decoding in chunks ---- *)
(* a source cut in segments, each decoding to one code point *)
Definition seg_src (segs : list (Z * list Z)) : list Z := concat (map snd segs).
Definition seg_cps (segs : list (Z * list Z)) : list Z := map fst segs.
Definition decodes (to_u32 : list Z -> Z -> option tc_result) (to_u32_size : list Z -> Z -> option sz_result)
    (segs : list (Z * list Z)) : Prop :=
  in_code_space (seg_cps segs) /\ Forall (fun s => snd s <> []) segs /\
  forall a b, segs = a ++ b -> forall n : nat,
    (exists r, to_u32 (seg_src b) (Z.of_nat n) = Some r /\ t_out r = seg_cps (firstn n b) /\
       t_rest r = seg_src (skipn n b) /\ insufficient (t_reason r) = (n <? length b)%nat) /\
    (exists r, to_u32_size (seg_src b) (Z.of_nat n) = Some r /\ s_rest r = seg_src (skipn n b)).

Lemma seg_src_len segs : Forall (fun s => snd s <> []) segs -> (length segs <= length (seg_src segs))%nat.
Proof.
  unfold seg_src. induction 1 as [|[c u] r H _ IH]; [cbn; lia|]. cbn [map concat length snd] in *. rewrite app_length.
  destruct u; [congruence|]. cbn [length]. lia.
Qed.

Lemma seg_cps_app a b : seg_cps (a ++ b) = seg_cps a ++ seg_cps b.
Proof. apply map_app. Qed.
Lemma seg_cps_firstn n b : seg_cps (firstn n b) = firstn n (seg_cps b).
Proof. unfold seg_cps. symmetry. apply firstn_map. Qed.
Lemma seg_cps_len b : length (seg_cps b) = length b.
Proof. apply map_length. Qed.
Lemma in_code_space_app a b : in_code_space (a ++ b) <-> in_code_space a /\ in_code_space b.
Proof. apply Forall_app. Qed.

Lemma skipn_add {A} m n (l : list A) : skipn n (skipn m l) = skipn (m + n) l.
Proof. revert l. induction m as [|m IH]; intros [|x l]; cbn [skipn Nat.add]; rewrite ?skipn_nil; auto. Qed.

Section Chunks.
Variable to_u32 : list Z -> Z -> option tc_result.
Variable to_u32_size : list Z -> Z -> option sz_result.
Variable segs : list (Z * list Z).
Hypothesis D : decodes to_u32 to_u32_size segs.

Lemma sub_ok limit x : is_width limit -> 0 <= limit -> 0 <= x <= limit -> w_sub limit x = Some (limit - x).
Proof.
  unfold is_width, u_min, u_max, w_sub, chk_i, in_i. intros. change (2 ^ (32 - 1)) with 2147483648.
  match goal with |- context [?a <=? ?b] => destruct (Z.leb_spec a b) end; match goal with |- context [?a <? ?b] => destruct (Z.ltb_spec a b) end; cbn [andb]; try lia; reflexivity.
Qed.

Lemma width_loop fuel : forall a b before limit rem, segs = a ++ b -> (length b < fuel)%nat ->
  is_width limit -> 0 <= rem <= limit ->
  std_str_width_loop to_u32 fuel (seg_src b) limit rem (st_of before) =
    Some (limit - Z.max 0 (rem - tw before (seg_cps b))).
Proof.
  destruct D as (DC & DN & DD).
  induction fuel as [|fuel IH]; intros a b before limit rem E HF HL HR; [lia|].
  cbn [std_str_width_loop]. destruct (DD a b E 32%nat) as [(r & Hr & Ho & Ht & Hi) _].
  change (Z.of_nat 32) with buff_size in Hr. rewrite Hr. cbn [obind]. rewrite Ho, Hi.
  assert (HC : in_code_space (seg_cps b)). { rewrite E, seg_cps_app in DC. apply in_code_space_app in DC. tauto. }
  assert (HSp : b = firstn 32 b ++ skipn 32 b) by (symmetry; apply firstn_skipn).
  assert (HC2 : in_code_space (seg_cps (firstn 32 b))).
  { rewrite HSp, seg_cps_app in HC. apply in_code_space_app in HC. tauto. }
  destruct (calc_width _ HC2 before 0%nat rem ltac:(lia)) as (st & p & -> & Hst).
  set (t1 := tw before (seg_cps (firstn 32 b))) in *.
  assert (HT : tw before (seg_cps b) = t1 + tw (after (seg_cps (firstn 32 b)) before) (seg_cps (skipn 32 b))).
  { rewrite HSp at 1. rewrite seg_cps_app, tw_app. reflexivity. }
  pose proof (tw_nonneg (seg_cps (skipn 32 b)) (after (seg_cps (firstn 32 b)) before)) as HN.
  pose proof (tw_nonneg (seg_cps (firstn 32 b)) before) as HN1. fold t1 in HN1.
  destruct (Z.leb_spec (Z.max 0 (rem - t1)) 0).
  - cbn [orb]. rewrite sub_ok by (first [assumption|lia]). f_equal. lia.
  - cbn [orb]. destruct (Nat.ltb_spec 32 (length b)); cbn [negb].
    + rewrite Hst by lia. rewrite Ht. rewrite (IH (a ++ firstn 32 b)); try assumption; try lia.
      * f_equal. lia.
      * rewrite <- app_assoc, <- HSp. exact E.
      * rewrite skipn_length. lia.
    + rewrite sub_ok by (first [assumption|lia]). rewrite skipn_all2 in HT by lia. change (tw _ (seg_cps [])) with 0 in HT. f_equal. lia.
Qed.

Theorem std_str_width_ok limit : is_width limit ->
  std_str_width to_u32 limit (seg_src segs) = Some (Z.min (Z.max 0 limit) (tw [] (seg_cps segs))).
Proof.
  intros HL. unfold std_str_width. destruct D as (DC & DN & DD).
  set (l := if limit <=? 0 then 0 else limit). assert (l = Z.max 0 limit) as -> by (unfold l; destruct (Z.leb_spec limit 0); lia).
  change 0 with (st_of []) at 3. rewrite (width_loop _ [] segs []); try reflexivity; try (unfold is_width, u_min, u_max in *; lia).
  - pose proof (tw_nonneg (seg_cps segs) []). f_equal. lia.
  - pose proof (seg_src_len segs DN). lia.
Qed.

(* where str_width_and_pos stops: at the end of the longest prefix that fits, or at the
   end of an internal chunk of 32 code points when exactly the limit is reached there *)
Definition pos_spec (b : list (Z * list Z)) (before : list gcb) (rem : Z) (n : nat) : Prop :=
  (n <= length b)%nat /\
  (n = fit before (seg_cps b) rem \/
   (tw before (seg_cps (firstn n b)) = rem /\ exists k, n = (32 * k)%nat /\ (1 <= k)%nat /\ (n < length b)%nat)).

(* exactly: the first chunk end at which the limit is reached exactly, if there is one with
   text after it; otherwise the end of the longest prefix that fits *)
Definition pos_exact (b : list (Z * list Z)) (before : list gcb) (rem : Z) (n : nat) : Prop :=
  (n <= length b)%nat /\
  (n = fit before (seg_cps b) rem /\
     (forall k, (1 <= k)%nat -> (32 * k < length b)%nat -> tw before (seg_cps (firstn (32 * k) b)) <> rem) \/
   tw before (seg_cps (firstn n b)) = rem /\ exists k, n = (32 * k)%nat /\ (1 <= k)%nat /\ (n < length b)%nat /\
     forall j, (1 <= j < k)%nat -> tw before (seg_cps (firstn (32 * j) b)) <> rem).
Lemma pos_weaken b before rem n : pos_exact b before rem n -> pos_spec b before rem n.
Proof.
  intros (H & [[H1 _]|(H1 & k & H2 & H3 & H4 & _)]); (split; [exact H|]); [left; exact H1|right]. split; [exact H1|]. exists k; auto.
Qed.
Lemma firstn_chunk k (b : list (Z * list Z)) : (32 < length b)%nat -> (1 <= k)%nat ->
  firstn (32 * k) b = firstn 32 b ++ firstn (32 * (k - 1)) (skipn 32 b).
Proof.
  intros HB Hk. rewrite <- (firstn_skipn 32 b) at 1. rewrite firstn_app, firstn_length, Nat.min_l by lia.
  rewrite firstn_all2 by (rewrite firstn_length; lia). f_equal. f_equal. lia.
Qed.

Lemma pos_loop fuel : forall a b before limit rem, segs = a ++ b -> (length b < fuel)%nat ->
  is_width limit -> 0 <= rem <= limit ->
  exists n, std_width_and_pos_loop to_u32 to_u32_size fuel (seg_src b) limit rem (st_of before) =
    Some (limit - Z.max 0 (rem - tw before (seg_cps b)), seg_src (skipn n b)) /\ pos_exact b before rem n.
Proof.
  destruct D as (DC & DN & DD).
  induction fuel as [|fuel IH]; intros a b before limit rem E HF HL HR; [lia|].
  cbn [std_width_and_pos_loop]. destruct (DD a b E 32%nat) as [(r & Hr & Ho & Ht & Hi) _].
  change (Z.of_nat 32) with buff_size in Hr. rewrite Hr. cbn [obind]. rewrite Ho, Hi.
  assert (HC : in_code_space (seg_cps b)). { rewrite E, seg_cps_app in DC. apply in_code_space_app in DC. tauto. }
  assert (HSp : b = firstn 32 b ++ skipn 32 b) by (symmetry; apply firstn_skipn).
  assert (HC2 : in_code_space (seg_cps (firstn 32 b))).
  { rewrite HSp, seg_cps_app in HC. apply in_code_space_app in HC. tauto. }
  destruct (calc_pos _ HC2 before 0%nat rem ltac:(lia)) as (st & -> & Hst). cbn [Nat.add].
  set (t1 := tw before (seg_cps (firstn 32 b))) in *.
  set (F1 := fit before (seg_cps (firstn 32 b)) rem) in *.
  assert (HT : tw before (seg_cps b) = t1 + tw (after (seg_cps (firstn 32 b)) before) (seg_cps (skipn 32 b))).
  { rewrite HSp at 1. rewrite seg_cps_app, tw_app. reflexivity. }
  pose proof (tw_nonneg (seg_cps (skipn 32 b)) (after (seg_cps (firstn 32 b)) before)) as HN.
  pose proof (tw_nonneg (seg_cps (firstn 32 b)) before) as HN1. fold t1 in HN1.
  assert (HF1 : fit before (seg_cps b) rem = if t1 <=? rem then
     (length (firstn 32 b) + fit (after (seg_cps (firstn 32 b)) before) (seg_cps (skipn 32 b)) (rem - t1))%nat else F1).
  { rewrite HSp at 1. rewrite seg_cps_app. destruct (Z.leb_spec t1 rem).
    - rewrite fit_app by (fold t1; lia). rewrite seg_cps_len. reflexivity.
    - apply fit_prefix; fold t1; lia. }
  pose proof (fit_all (seg_cps (firstn 32 b)) before rem ltac:(lia)) as HA. fold t1 F1 in HA. rewrite seg_cps_len in HA.
  pose proof (fit_le (seg_cps b) before rem) as HFL. rewrite seg_cps_len in HFL.
  assert (HFin : forall rm, rm = Z.max 0 (rem - t1) -> (rem <= t1 \/ (length b <= 32)%nat) ->
    exists n, (do width <- w_sub limit rm ;
      (if (F1 =? length (seg_cps (firstn 32 b)))%nat then Some (width, t_rest r)
       else do sz <- to_u32_size (seg_src b) (Z.of_nat F1) ; Some (width, s_rest sz))) =
      Some (limit - Z.max 0 (rem - tw before (seg_cps b)), seg_src (skipn n b)) /\ pos_exact b before rem n).
  { intros rm -> HX. rewrite sub_ok by (first [assumption|lia]). cbn [obind]. rewrite seg_cps_len.
    assert (HW : Z.max 0 (rem - t1) = Z.max 0 (rem - tw before (seg_cps b))).
    { destruct HX as [HX|HX]; [lia|]. rewrite skipn_all2 in HT by lia. change (tw _ (seg_cps [])) with 0 in HT. lia. }
    rewrite HW. destruct (Nat.eqb_spec F1 (length (firstn 32 b))) as [HE|HE].
    - rewrite Ht. destruct (Nat.le_gt_cases (length b) 32) as [HB|HB].
      + exists (length b). rewrite skipn_all2 by lia. rewrite (skipn_all b). split; [reflexivity|]. split; [lia|]. left. split; [|intros k; lia].
        destruct (Z.leb_spec t1 rem); [|apply HA in HE; lia]. rewrite HF1, skipn_all2, firstn_length by lia. cbn [seg_cps map fit]. lia.
      + exists 32%nat. split; [reflexivity|]. split; [lia|]. right. fold t1. apply HA in HE. split; [lia|]. exists 1%nat. repeat (split; [lia|]). intros j; lia.
    - destruct (DD a b E F1) as [_ (sz & Hz & Hs)]. rewrite Hz. cbn [obind]. rewrite Hs. exists F1. split; [reflexivity|].
      destruct (Z.leb_spec t1 rem); [apply HA in H; lia|]. rewrite HF1 in HFL. split; [lia|]. left. split; [symmetry; exact HF1|].
      intros k Hk1 Hk2. rewrite firstn_chunk by lia. rewrite seg_cps_app, tw_app. fold t1.
      pose proof (tw_nonneg (seg_cps (firstn (32 * (k - 1)) (skipn 32 b))) (after (seg_cps (firstn 32 b)) before)). lia. }
  destruct (Z.leb_spec (Z.max 0 (rem - t1)) 0).
  - cbn [orb]. apply HFin; [reflexivity|]. left; lia.
  - cbn [orb]. destruct (Nat.ltb_spec 32 (length b)); cbn [negb].
    + rewrite Hst by lia. rewrite Ht.
      destruct (IH (a ++ firstn 32 b) (skipn 32 b) (after (seg_cps (firstn 32 b)) before) limit (Z.max 0 (rem - t1))) as (n & -> & HP1 & HP2); try assumption; try lia.
      * rewrite <- app_assoc, <- HSp. exact E.
      * rewrite skipn_length. lia.
      * exists (32 + n)%nat. rewrite skipn_add.
        split; [do 2 f_equal; lia|]. rewrite skipn_length in HP1. split; [lia|].
        assert (HK : forall j, (1 <= j)%nat -> (j = 1%nat \/ tw (after (seg_cps (firstn 32 b)) before) (seg_cps (firstn (32 * (j - 1)) (skipn 32 b))) <> Z.max 0 (rem - t1)) ->
            tw before (seg_cps (firstn (32 * j) b)) <> rem).
        { intros j Hj [->|Hn]; [change (32 * 1)%nat with 32%nat; fold t1; lia|]. rewrite firstn_chunk by lia. rewrite seg_cps_app, tw_app. fold t1. lia. }
        destruct HP2 as [[HP2 HX]|(HP2 & k & Hk1 & Hk2 & Hk3 & Hk4)].
        -- left. split; [|intros k Hk1 Hk2; apply HK; [exact Hk1|]; destruct (Nat.eq_dec k 1); [auto|right; apply HX; [lia|rewrite skipn_length; lia]]].
           rewrite HF1. destruct (Z.leb_spec t1 rem); [|lia]. rewrite firstn_length, HP2. rewrite Z.max_r by lia. lia.
        -- right. split.
           ++ replace (firstn (32 + n) b) with (firstn 32 b ++ firstn n (skipn 32 b)).
              ** rewrite seg_cps_app, tw_app. fold t1. lia.
              ** rewrite HSp at 3. rewrite firstn_app. rewrite firstn_length, Nat.min_l by lia.
                 rewrite (firstn_all2 (n := 32 + n)) by (rewrite firstn_length; lia). f_equal. f_equal. lia.
           ++ exists (S k). rewrite skipn_length in Hk3. repeat (split; [lia|]).
              intros j Hj. apply HK; [lia|]. destruct (Nat.eq_dec j 1); [auto|right]. apply Hk4. lia.
    + apply HFin; [reflexivity|]. right. lia.
Qed.

Theorem std_width_and_pos_exact limit : is_width limit -> 0 <= limit ->
  exists n, std_width_and_pos to_u32 to_u32_size limit (seg_src segs) =
      Some (Z.min limit (tw [] (seg_cps segs)), seg_src (skipn n segs)) /\ pos_exact segs [] limit n.
Proof.
  intros HL H0. unfold std_width_and_pos. destruct D as (DC & DN & DD). pose proof (seg_src_len segs DN).
  change 0 with (st_of []). destruct (pos_loop (S (length (seg_src segs))) [] segs [] limit limit) as (n & -> & HP); try reflexivity; try lia; auto.
  exists n. split; [|exact HP]. do 2 f_equal. pose proof (tw_nonneg (seg_cps segs) []). lia.
Qed.
Theorem std_width_and_pos_ok limit : is_width limit -> 0 <= limit ->
  exists n, std_width_and_pos to_u32 to_u32_size limit (seg_src segs) =
      Some (Z.min limit (tw [] (seg_cps segs)), seg_src (skipn n segs)) /\ pos_spec segs [] limit n.
Proof.
  intros HL H0. destruct (std_width_and_pos_exact limit HL H0) as (n & E & HP). exists n. split; [exact E|]. apply pos_weaken. exact HP.
Qed.
End Chunks.
