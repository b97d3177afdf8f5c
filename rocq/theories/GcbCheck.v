(* The classification of code points: facts checked over all code points, interval by
   interval. *)
From Verif Require Import Base WidthModel UtfSpec GcbTable GcbTree GcbSpec WCalcModel.

Definition gcb_of (ch : Z) : gcb :=
  match fst (jump_of ch) with
  | JCr => CR | JLf => LF
  | J GControl => Control | J GExtend => Extend | J GZwj => ZWJ | J GSpacing => SpacingMark
  | J GPrepend => Prepend | J GRI => RI | J GXPic => XPic | J GHangulL => HangulL
  | J GHangulV => HangulV | J GHangulT => HangulT
  | J GHangulLVorLVT => if is_lv ch then HangulLV else HangulLVT
  | J GOther => Other
  end.
Definition is_gcb_eq a b : is_gcb a b = true <-> a = b.
Proof. split; [destruct a, b; cbn; congruence|intros ->; destruct b; reflexivity]. Qed.
Definition standard_only (c : gcb) : bool := one_of [CR; LF; ZWJ; RI; HangulL; HangulV; HangulT; HangulLV; HangulLVT] c.

Fixpoint ranges_const (l : list (Z * Z)) (lo hi : Z) : option bool :=
  match l with
  | [] => Some false
  | (a, b) :: r => if (a <=? lo) && (hi <=? b) then Some true
                   else if (hi <? a) || (b <? lo) then ranges_const r lo hi else None
  end.
Lemma ranges_const_ok l lo hi v : ranges_const l lo hi = Some v -> forall ch, lo <= ch <= hi -> in_ranges l ch = v.
Proof.
  induction l as [|[a b] r IH]; cbn [ranges_const]; intros E ch H.
  - injection E as <-. reflexivity.
  - unfold in_ranges. cbn [existsb fst snd]. destruct ((a <=? lo) && (hi <=? b)) eqn:E1.
    + injection E as <-. replace ((a <=? ch) && (ch <=? b)) with true by lia. reflexivity.
    + destruct ((hi <? a) || (b <? lo)) eqn:E2; [|discriminate].
      replace ((a <=? ch) && (ch <=? b)) with false by lia. apply (IH E ch H).
Qed.

(* fixed_property on an interval; a syllable is LV or LVT *)
Inductive kind := K (c : gcb) | KSyllable | KNone.
Fixpoint first_const (l : list (list (Z * Z) * kind)) (lo hi : Z) : option kind :=
  match l with
  | [] => Some KNone
  | (r, k) :: l' => match ranges_const r lo hi with
                    | Some true => Some k | Some false => first_const l' lo hi | None => None end
  end.
Fixpoint first_match (l : list (list (Z * Z) * kind)) (ch : Z) : kind :=
  match l with [] => KNone | (r, k) :: l' => if in_ranges r ch then k else first_match l' ch end.
Lemma first_const_ok l lo hi k : first_const l lo hi = Some k -> forall ch, lo <= ch <= hi -> first_match l ch = k.
Proof.
  induction l as [|[r k'] l IH]; cbn [first_const first_match]; intros E ch H; [congruence|].
  destruct (ranges_const r lo hi) as [v|] eqn:ER; [|discriminate]. rewrite (ranges_const_ok _ _ _ _ ER ch H).
  destruct v; [congruence|]. apply IH; assumption.
Qed.
Definition fixed_list : list (list (Z * Z) * kind) :=
  [([(0x0D, 0x0D)], K CR); ([(0x0A, 0x0A)], K LF); ([(0x00, 0x1F); (0x7F, 0x9F)], K Control); ([(0x20, 0x7E)], K Other);
   ([(0x200D, 0x200D)], K ZWJ); (regional_indicators, K RI); (hangul_L, K HangulL); (hangul_V, K HangulV);
   (hangul_T, K HangulT); (hangul_syllables, KSyllable)].
Lemma in_point n ch : in_ranges [(n, n)] ch = (ch =? n).
Proof. unfold in_ranges. cbn [existsb fst snd]. lia. Qed.
Lemma fixed_list_ok ch : fixed_property ch =
  match first_match fixed_list ch with
  | K c => Some c | KNone => None
  | KSyllable => Some (if (ch - 0xAC00) mod 28 =? 0 then HangulLV else HangulLVT) end.
Proof.
  unfold fixed_property, fixed_list. cbn [first_match]. rewrite !in_point.
  repeat match goal with |- context [if ?b then K _ else _] => destruct b; [reflexivity|] end.
  destruct (in_ranges hangul_syllables ch); reflexivity.
Qed.

(* what a label must be *)
Definition compat (l : glabel) (k : kind) : bool :=
  match k with
  | KSyllable => match l with GHangulLVorLVT => true | _ => false end
  | KNone => match l with GControl | GExtend | GSpacing | GPrepend | GXPic | GOther => true | _ => false end
  | K c => match l with
           | GControl => is_gcb Control c | GExtend => is_gcb Extend c | GZwj => is_gcb ZWJ c | GSpacing => is_gcb SpacingMark c
           | GPrepend => is_gcb Prepend c | GRI => is_gcb RI c | GXPic => is_gcb XPic c | GHangulL => is_gcb HangulL c
           | GHangulV => is_gcb HangulV c | GHangulT => is_gcb HangulT c | GHangulLVorLVT => false | GOther => is_gcb Other c
           end
  end.
Definition leaf_ok (l : glabel) (w ch : Z) : Prop :=
  w = cp_width ch /\ compat l (first_match fixed_list ch) = true.

Fixpoint check_leaf (fuel : nat) (l : glabel) (w lo hi : Z) : bool :=
  if hi <? lo then true else
  let narrower := match fuel with
                  | O => false
                  | S f => let mid := (lo + hi) / 2 in check_leaf f l w lo mid && check_leaf f l w (mid + 1) hi end in
  match ranges_const wide_ranges lo hi with
  | Some v => match first_const fixed_list lo hi with
              | Some k => (w =? if v then 2 else 1) && compat l k
              | None => narrower
              end
  | None => narrower
  end.
Lemma const_leaf_ok l w lo hi v k ch : ranges_const wide_ranges lo hi = Some v -> first_const fixed_list lo hi = Some k ->
  (w =? if v then 2 else 1) && compat l k = true -> lo <= ch <= hi -> leaf_ok l w ch.
Proof.
  intros E1 E2 E H. apply andb_prop in E as [E3 E4].
  split; [unfold cp_width; rewrite (ranges_const_ok _ _ _ _ E1 ch H); lia|].
  rewrite (first_const_ok _ _ _ _ E2 ch H). exact E4.
Qed.
Lemma check_leaf_ok fuel : forall l w lo hi, check_leaf fuel l w lo hi = true -> forall ch, lo <= ch <= hi -> leaf_ok l w ch.
Proof.
  induction fuel as [|fuel IH]; intros l w lo hi E ch H; cbn [check_leaf] in E;
    (destruct (Z.ltb_spec hi lo); [lia|]).
  - destruct (ranges_const wide_ranges lo hi) as [v|] eqn:E1; [|discriminate].
    destruct (first_const fixed_list lo hi) as [k|] eqn:E2; [|discriminate].
    eapply const_leaf_ok; eassumption.
  - assert (check_leaf fuel l w lo ((lo + hi) / 2) && check_leaf fuel l w ((lo + hi) / 2 + 1) hi = true -> leaf_ok l w ch) as HN.
    { intros E'. apply andb_prop in E' as [E3 E4].
      destruct (Z_le_gt_dec ch ((lo + hi) / 2)); [eapply IH; [exact E3|lia]|eapply IH; [exact E4|lia]]. }
    destruct (ranges_const wide_ranges lo hi) as [v|] eqn:E1; [|exact (HN E)].
    destruct (first_const fixed_list lo hi) as [k|] eqn:E2; [|exact (HN E)].
    eapply const_leaf_ok; eassumption.
Qed.
Fixpoint check_tree (t : dtree) (lo hi : Z) : bool :=
  if hi <? lo then true else
  match t with
  | Leaf l w => check_leaf 25 l w lo hi
  | Le n a b => check_tree a lo (Z.min hi n) && check_tree b (Z.max lo (n + 1)) hi
  | Eq n a b => (if (lo <=? n) && (n <=? hi) then check_tree a n n else true) &&
                check_tree b lo (Z.min hi (n - 1)) && check_tree b (Z.max lo (n + 1)) hi
  end.
Lemma check_tree_ok t : forall lo hi, check_tree t lo hi = true -> forall ch, lo <= ch <= hi ->
  leaf_ok (fst (deval t ch)) (snd (deval t ch)) ch.
Proof.
  induction t as [l w|n a IHa b IHb|n a IHa b IHb]; intros lo hi E ch H; cbn [check_tree deval fst snd] in *;
    (destruct (Z.ltb_spec hi lo); [lia|]).
  - eapply check_leaf_ok; [exact E|exact H].
  - apply andb_prop in E as [E1 E2]. destruct (Z.leb_spec ch n); [eapply IHa; [exact E1|lia]|eapply IHb; [exact E2|lia]].
  - apply andb_prop in E as [E E3]. apply andb_prop in E as [E1 E2]. destruct (Z.eqb_spec ch n) as [->|].
    + replace ((lo <=? n) && (n <=? hi)) with true in E1 by lia. eapply IHa; [exact E1|lia].
    + destruct (Z.lt_trichotomy ch n) as [|[|]]; [eapply IHb; [exact E2|lia]|lia|eapply IHb; [exact E3|lia]].
Qed.
Lemma tree_checked : check_tree gcb_tree 0x7F 0x10FFFF = true.
Proof. vm_compute. reflexivity. Qed.

Lemma is_lv_ok ch : 0xAC00 <= ch <= 0xD7A3 -> is_lv ch = ((ch - 0xAC00) mod 28 =? 0).
Proof.
  intros H. unfold is_lv. rewrite (to_u_id 32) by (change (2 ^ 32) with 4294967296; lia).
  rewrite Z.shiftr_div_pow2 by lia. change (2 ^ 2) with 4. change 3 with (Z.ones 2). rewrite Z.land_ones by lia. change (2 ^ 2) with 4.
  set (x := ch - 0xAC00). replace ch with (x + 0xAC00) by (unfold x; lia).
  replace ((x + 0xAC00) mod 4) with (x mod 4) by (change 0xAC00 with (11008 * 4); rewrite Z.mod_add by lia; reflexivity).
  assert (0 <= x <= 11171) as Hx by (unfold x; lia).
  pose proof (Z.div_mod x 4 ltac:(lia)). pose proof (Z.mod_pos_bound x 4 ltac:(lia)).
  pose proof (Z.div_mod (x / 4) 7 ltac:(lia)). pose proof (Z.mod_pos_bound (x / 4) 7 ltac:(lia)).
  pose proof (Z.div_mod x 28 ltac:(lia)). pose proof (Z.mod_pos_bound x 28 ltac:(lia)).
  destruct (Z.leb_spec (x + 0xAC00) 0xD788); cbn [andb]; [|lia].
  destruct (Z.eqb_spec (x mod 4) 0), (Z.eqb_spec (x / 4 mod 7) 0), (Z.eqb_spec (x mod 28) 0); cbn [andb]; try reflexivity; exfalso; lia.
Qed.

Fixpoint all_from (n : nat) (c : Z) (f : Z -> bool) : bool :=
  match n with O => true | S n => f c && all_from n (c + 1) f end.
Lemma all_from_ok n c f : all_from n c f = true -> forall x, c <= x < c + Z.of_nat n -> f x = true.
Proof.
  revert c. induction n as [|n IH]; intros c H x Hx; [lia|].
  cbn [all_from] in H. apply andb_prop in H as [H1 H2].
  destruct (Z.eq_dec x c) as [->|]; [exact H1|]. apply (IH (c + 1)); [exact H2|lia].
Qed.
Definition ascii_check (ch : Z) : bool :=
  (snd (jump_of ch) =? cp_width ch) &&
  match fixed_property ch with None => false | Some c => is_gcb (gcb_of ch) c end.
Lemma ascii_checked : all_from 127 0 ascii_check = true.
Proof. vm_compute. reflexivity. Qed.

Lemma table_facts ch : 0 <= ch <= 0x10FFFF ->
  snd (jump_of ch) = cp_width ch /\
  match fixed_property ch with None => standard_only (gcb_of ch) = false | Some c => gcb_of ch = c end.
Proof.
  intros H. destruct (Z_le_gt_dec ch 0x7E) as [HA|HA].
  - pose proof (all_from_ok _ _ _ ascii_checked ch ltac:(lia)) as E. unfold ascii_check in E. apply andb_prop in E as [E1 E2].
    split; [lia|]. destruct (fixed_property ch); [|discriminate]. apply is_gcb_eq. exact E2.
  - pose proof (check_tree_ok _ _ _ tree_checked ch ltac:(lia)) as [HW HC]. rewrite <- gcb_tree_ok in HW, HC.
    rewrite fixed_list_ok. unfold gcb_of, jump_of. replace (ch <=? 0x7E) with false by lia.
    assert (HS : first_match fixed_list ch = KSyllable -> 0xAC00 <= ch <= 0xD7A3).
    { unfold fixed_list. cbn [first_match].
      repeat match goal with |- context [if ?b then K _ else _] => destruct b; [discriminate|] end.
      destruct (in_ranges hangul_syllables ch) eqn:ES; [|discriminate]. intros _. unfold in_ranges, hangul_syllables in ES. cbn [existsb fst snd] in ES. lia. }
    destruct (gcb_table ch) as [l w]. cbn [fst snd] in *. split; [exact HW|].
    destruct (first_match fixed_list ch) as [c| |] eqn:EF.
    + destruct l, c; cbn in HC; try discriminate; reflexivity.
    + destruct l; try discriminate. rewrite is_lv_ok by (apply HS; reflexivity). reflexivity.
    + destruct l; try discriminate; reflexivity.
Qed.

Lemma char32_width_ranges ch : 0 <= ch -> char32_width ch = cp_width ch.
Proof.
  intros H0. unfold char32_width. 
  repeat match goal with
  | |- context [if ?a <=? ?b then _ else _] => destruct (Z.leb_spec a b)
  | |- context [if ?a <? ?b then _ else _] => destruct (Z.ltb_spec a b)
  end;
  (unfold cp_width, in_ranges, wide_ranges; cbn [existsb fst snd];
  repeat match goal with |- context [?a <=? ?b] =>
    first [replace (a <=? b) with true by (symmetry; apply Z.leb_le; lia)
          |replace (a <=? b) with false by (symmetry; apply Z.leb_gt; lia)] end; reflexivity).
Qed.
