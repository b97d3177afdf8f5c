(* C64, C43, C57 end to end: printing expressions whose arguments are numbers and strings.
   [shows]: SyntaxSpec.  [rendered], [segmented]: StringSpec.  [rounds_to]: ShortestSpec. *)
From Coq Require Import Permutation.
From Verif Require Import Base GroupSpec DigitsSpec IntSpec IntModel IntProofs WidthModel WidthProofs DestModel DestProofs UtfSpec UtfForms UtfLoop UtfTheorems CharsetModel CsetModel PrintModel PrintSpec PrintProofs
  CharProofs StringSpec StringModel StringProofs JoinProofs ToModel ToProofs PackSpec PackModel PackProofs SyntaxModel SyntaxSpec SyntaxProofs
  FloatSpec FloatModel FloatInit FloatProofs FloatFast FloatRead FloatArgs SegProofs Properties_Print Properties_Float.
From Verif Require Import ShortestSpec DragonModel DragonArith DragonFormats FloatBits.
Local Open Scope Z_scope.

(* a printable of type [tag] whose printer reads facets by category only: A is its printer *)
Definition reading (get_default : Z -> Z) (tag cat : Z) (overridable : bool) (A : (Z -> Z) -> arg) : printable :=
  Plain (mk_plain tag cat overridable (fun pack => A (fun c => get_facet get_default c tag pack)) (fun _ _ _ => None)).
(* A gives the same printer when the facets are the same *)
Definition reads_facets (A : (Z -> Z) -> arg) : Prop := forall look look', (forall c, look c = look' c) -> A look = A look'.
(* it is not overridden *)
Definition own_printer (get_default : Z -> Z) (ls : list leaf) (tag cat : Z) (overridable : bool) : Prop :=
  overridable = false \/ facet_for get_default ls cat tag = dont_override.

Theorem C64_any : forall get_default constrainable M ls tag cat ov A (D : (Z -> Z) -> desc),
  reads_facets A -> (forall look, arg_ok M (A look) (D look)) -> own_printer get_default ls tag cat ov ->
  shows get_default constrainable M ls (reading get_default tag cat ov A) (D (fun c => facet_for get_default ls c tag)).
Proof.
  intros df cn M ls tag cat ov A D HA HD HO.
  apply (shows_own df cn M ls (mk_plain tag cat ov (fun pack => A (fun c => get_facet df c tag pack)) (fun _ _ _ => None)) (fun look2 => D (fun c => look2 c tag))); [|exact HO].
  intros l. cbn [pl_arg]. rewrite (HA _ (fun c => facet_for df (flat_map leaves l) c tag)) by (intros c; apply get_facet_pack). apply HD.
Qed.

(* ---- strings ---- *)
(* without alignment or precision: the text the policy asks for *)
Theorem C43_plain_string : forall w pol a b same src l t, string_pre w a b None src -> segmented a src l ->
  rendered pol a b src t -> zlen t < ssize_max ->
  (exists pr, string_arg w pol a b same None None src no_pre = Some (no_pre, pr) /\ prints_text pr t) /\
  (forall M, arg_ok M (string_arg w pol a b same None None src) (string_desc w None (seg_width w l) t)).
Proof.
  intros w pol a b same src l t HP HS HR HT.
  assert (forall M, arg_ok M (string_arg w pol a b same None None src) (string_desc w None (seg_width w l) t)) as HArg.
  { intros M. apply string_plain_ok with (l := l) (k := src); try assumption; [auto|]. destruct HP as (Ha & Hb & HU & _). apply rendered_middle; assumption. }
  split; [|exact HArg]. destruct (HArg None) as (_ & _ & H). destruct (H no_pre (no_pre_ok _ _)) as (p' & pr & E & HPr & HAdd). apply added_no_pre in HAdd. subst p'. eauto.
Qed.
(* w_of, pol_of and b_of read the width calculator, the policy and the destination's charset *)
Theorem C64_string : forall get_default constrainable M ls tag cat ov w_of pol_of b_of a same src l t_of,
  (forall look look', (forall c, look c = look' c) -> w_of look = w_of look' /\ pol_of look = pol_of look' /\ b_of look = b_of look') ->
  (forall look, string_pre (w_of look) a (b_of look) None src /\ rendered (pol_of look) a (b_of look) src (t_of look) /\ zlen (t_of look) < ssize_max) ->
  segmented a src l -> own_printer get_default ls tag cat ov ->
  let look := fun c => facet_for get_default ls c tag in
  shows get_default constrainable M ls
    (reading get_default tag cat ov (fun look => string_arg (w_of look) (pol_of look) a (b_of look) same None None src))
    (string_desc (w_of look) None (seg_width (w_of look) l) (t_of look)).
Proof.
  intros df cn M ls tag cat ov w_of pol_of b_of a same src l t_of HE HP HS HO look.
  apply (C64_any df cn M ls tag cat ov _ (fun look => string_desc (w_of look) None (seg_width (w_of look) l) (t_of look))); [| |exact HO].
  - intros k k' E. destruct (HE k k' E) as (-> & -> & ->). reflexivity.
  - intros k. destruct (HP k) as (H1 & H2 & H3). exact (proj2 (C43_plain_string _ _ _ _ _ _ _ _ H1 HS H2 H3) M).
Qed.
Theorem C64_aligned_string : forall get_default constrainable M ls tag cat ov w_of pol_of b_of a same al src l t_of,
  (forall look look', (forall c, look c = look' c) -> w_of look = w_of look' /\ pol_of look = pol_of look' /\ b_of look = b_of look') ->
  align_ok al ->
  (forall look, string_pre (w_of look) a (b_of look) None src /\ rendered (pol_of look) a (b_of look) src (t_of look) /\
     zlen (padded (al_align al) (cs_encode (charset_of (b_of look)) (al_fill al)) (missing (al_width al) (seg_width (w_of look) l)) (t_of look)) < ssize_max) ->
  segmented a src l -> own_printer get_default ls tag cat ov ->
  let look := fun c => facet_for get_default ls c tag in
  exists d, shows get_default constrainable M ls
    (reading get_default tag cat ov (fun look => string_arg (w_of look) (pol_of look) a (b_of look) same (Some al) None src)) d /\
    d_text d = padded (al_align al) (cs_encode (charset_of (b_of look)) (al_fill al)) (missing (al_width al) (seg_width (w_of look) l)) (t_of look).
Proof.
  intros df cn M ls tag cat ov w_of pol_of b_of a same al src l t_of HE HA HP HS HO look.
  exists (aligned_desc (w_of look) (b_of look) al None (seg_width (w_of look) l) (t_of look)). split; [|reflexivity].
  apply (C64_any df cn M ls tag cat ov _ (fun look => aligned_desc (w_of look) (b_of look) al None (seg_width (w_of look) l) (t_of look))); [| |exact HO].
  - intros k k' E. destruct (HE k k' E) as (-> & -> & ->). reflexivity.
  - intros k. destruct (HP k) as (H1 & H2 & H3).
    destruct (C43_aligned_string (w_of k) (pol_of k) a (b_of k) same al None src l H1 HA HS) as (k0 & W & HC & _ & H).
    cbn [content] in HC. destruct HC as (E1 & E2). rewrite (segmented_units _ _ _ HS) in E1. subst k0 W. exact (proj2 (H _ H2 H3) M).
Qed.

(* ---- float and double ---- *)
(* [right_text F k lc b t]: t is right for the value of the 2^(k+1) bits b, in format F: the sign, and
   either a number that rounds to the magnitude, or inf or nan in the letter case *)
Definition word (lc : lettercase) (lower mixed upper : list Z) : list Z := match lc with LLower => lower | LMixed => mixed | LUpper => upper end.
Definition right_text (F : format) (k : Z) (lc : lettercase) (b : Z) (t : list Z) : Prop :=
  exists u, t = (if b / 2 ^ k =? 1 then [45] else []) ++ u /\
  let n := b mod 2 ^ k in
  (n < infinity_bits F -> exists N q E, read_float u = Some (N, q, E) /\ rounds_to F (dec_value N (E - q)) n) /\
  (n = infinity_bits F -> u = word lc [105; 110; 102] [73; 110; 102] [73; 78; 70]) /\
  (infinity_bits F < n -> u = word lc [110; 97; 110] [78; 97; 78] [78; 65; 78]).
Lemma default_right F k lc x b n m e : shown F x n m e -> fl_negative x = (b / 2 ^ k =? 1) -> n = b mod 2 ^ k -> n < infinity_bits F ->
  right_text F k lc b ((if fl_negative x then [45] else []) ++ float_body (default_style lc) (value_of false (fl_bits x))).
Proof.
  intros HS HN En Hn. subst n. destruct (default_reads F lc x _ m e HS) as (p & u & N & q & E & Hp & Ht & Hr & Hv).
  destruct HS as ((sn & mm & ex & Eb) & Hd & _). destruct (fast_default_ok lc x ltac:(rewrite Eb; exact Hd)) as (p' & Ep & Et & _).
  assert (p' = p) by congruence. subst p'. rewrite Ht in Et. apply app_inv_head in Et. subst u. eexists. split; [rewrite HN; reflexivity|].
  cbv zeta. split; [intros _; exists N, q, E; split; assumption|]. split; lia.
Qed.
Lemma special_right F k lc x b : fl_negative x = (b / 2 ^ k =? 1) ->
  (b mod 2 ^ k = infinity_bits F /\ fl_bits x = BInf \/ infinity_bits F < b mod 2 ^ k /\ fl_bits x = BNan) ->
  right_text F k lc b ((if fl_negative x then [45] else []) ++ float_body (default_style lc) (value_of false (fl_bits x))).
Proof.
  intros HN [[H E]|[H E]]; rewrite E, HN; eexists; (split; [reflexivity|]); cbv zeta; (split; [lia|]); split; intros ?; first [exfalso; lia|destruct lc; reflexivity].
Qed.
Lemma double_right lc b : 0 <= b < 2 ^ 64 -> exists t, right_text binary64 63 lc b t /\ forall M, arg_ok M (fast_float_arg lc (double_of_bits b)) (whole t (65536 * zlen t)).
Proof.
  intros Hb. eexists. split; [|intros M; apply fast_default_arg_ok].
  - destruct (Z_lt_le_dec (b mod 2 ^ 63) (infinity_bits binary64)) as [Hf|Hf].
    + destruct (double_shown b Hb Hf) as (m & e & HN & HS). eapply default_right; eauto.
    + destruct (decode64_ok (fun e m => defined (to_decimal64 e m)) b Hb) as (S & IN & _). apply special_right; [exact S|].
      assert (EB : b mod 2 ^ 63 = (b / 2 ^ 52) mod 2 ^ 11 * 2 ^ 52 + b mod 2 ^ 52).
      { change (2 ^ 63) with (2 ^ 52 * 2 ^ 11). rewrite Z.rem_mul_r by lia. ring. }
      change (infinity_bits binary64) with (2047 * 2 ^ 52) in *. pose proof (Z.mod_pos_bound b (2 ^ 52) ltac:(lia)). pose proof (Z.mod_pos_bound (b / 2 ^ 52) (2 ^ 11) ltac:(lia)).
      set (E := (b / 2 ^ 52) mod 2 ^ 11) in *. set (m := b mod 2 ^ 52) in *. rewrite EB in *. assert (EE : E = 2047) by (change (2 ^ 11) with 2048 in *; lia).
      specialize (IN EE). unfold double_of_bits. rewrite IN, EE. destruct (Z.eqb_spec m 0); [left|right]; split; (lia || reflexivity).
  - destruct (Z_lt_le_dec (b mod 2 ^ 63) (infinity_bits binary64)) as [Hf|Hf].
    + destruct (double_shown b Hb Hf) as (m & e & HN & (sn & mm & ex & Eb) & Hd & _). rewrite Eb. exact Hd.
    + destruct (decode64_ok (fun e m => defined (to_decimal64 e m)) b Hb) as (S & IN & _).
      assert (EB : b mod 2 ^ 63 = (b / 2 ^ 52) mod 2 ^ 11 * 2 ^ 52 + b mod 2 ^ 52).
      { change (2 ^ 63) with (2 ^ 52 * 2 ^ 11). rewrite Z.rem_mul_r by lia. ring. }
      change (infinity_bits binary64) with (2047 * 2 ^ 52) in *. pose proof (Z.mod_pos_bound b (2 ^ 52) ltac:(lia)). pose proof (Z.mod_pos_bound (b / 2 ^ 52) (2 ^ 11) ltac:(lia)).
      unfold double_of_bits. rewrite IN by (change (2 ^ 11) with 2048 in *; lia). destruct (b mod 2 ^ 52 =? 0); exact I.
Qed.
Lemma float_right lc b : 0 <= b < 2 ^ 32 -> exists t, right_text binary32 31 lc b t /\ forall M, arg_ok M (fast_float_arg lc (float_of_bits b)) (whole t (65536 * zlen t)).
Proof.
  intros Hb. eexists. split; [|intros M; apply fast_default_arg_ok].
  - destruct (Z_lt_le_dec (b mod 2 ^ 31) (infinity_bits binary32)) as [Hf|Hf].
    + destruct (float_shown b Hb Hf) as (m & e & HN & HS). eapply default_right; eauto.
    + destruct (decode32_ok (fun e m => defined (to_decimal32 e m)) b Hb) as (S & IN & _). apply special_right; [exact S|].
      assert (EB : b mod 2 ^ 31 = (b / 2 ^ 23) mod 2 ^ 8 * 2 ^ 23 + b mod 2 ^ 23).
      { change (2 ^ 31) with (2 ^ 23 * 2 ^ 8). rewrite Z.rem_mul_r by lia. ring. }
      change (infinity_bits binary32) with (255 * 2 ^ 23) in *. pose proof (Z.mod_pos_bound b (2 ^ 23) ltac:(lia)). pose proof (Z.mod_pos_bound (b / 2 ^ 23) (2 ^ 8) ltac:(lia)).
      set (E := (b / 2 ^ 23) mod 2 ^ 8) in *. set (m := b mod 2 ^ 23) in *. rewrite EB in *. assert (EE : E = 255) by (change (2 ^ 8) with 256 in *; lia).
      specialize (IN EE). unfold float_of_bits. rewrite IN, EE. destruct (Z.eqb_spec m 0); [left|right]; split; (lia || reflexivity).
  - destruct (Z_lt_le_dec (b mod 2 ^ 31) (infinity_bits binary32)) as [Hf|Hf].
    + destruct (float_shown b Hb Hf) as (m & e & HN & (sn & mm & ex & Eb) & Hd & _). rewrite Eb. exact Hd.
    + destruct (decode32_ok (fun e m => defined (to_decimal32 e m)) b Hb) as (S & IN & _).
      assert (EB : b mod 2 ^ 31 = (b / 2 ^ 23) mod 2 ^ 8 * 2 ^ 23 + b mod 2 ^ 23).
      { change (2 ^ 31) with (2 ^ 23 * 2 ^ 8). rewrite Z.rem_mul_r by lia. ring. }
      change (infinity_bits binary32) with (255 * 2 ^ 23) in *. pose proof (Z.mod_pos_bound b (2 ^ 23) ltac:(lia)). pose proof (Z.mod_pos_bound (b / 2 ^ 23) (2 ^ 8) ltac:(lia)).
      unfold float_of_bits. rewrite IN by (change (2 ^ 8) with 256 in *; lia). destruct (b mod 2 ^ 23 =? 0); exact I.
Qed.
(* every double and every float: lc_of reads the letter case *)
Definition double_printable (get_default : Z -> Z) (lc_of : (Z -> Z) -> lettercase) (tag cat : Z) (ov : bool) (b : Z) : printable :=
  reading get_default tag cat ov (fun look => fast_float_arg (lc_of look) (double_of_bits b)).
Definition float_printable (get_default : Z -> Z) (lc_of : (Z -> Z) -> lettercase) (tag cat : Z) (ov : bool) (b : Z) : printable :=
  reading get_default tag cat ov (fun look => fast_float_arg (lc_of look) (float_of_bits b)).
Definition reads_case (lc_of : (Z -> Z) -> lettercase) : Prop := forall look look', (forall c, look c = look' c) -> lc_of look = lc_of look'.
Lemma float_like_shows df cn M ls tag cat ov lc_of x (D : lettercase -> list Z) : reads_case lc_of ->
  (forall lc, arg_ok M (fast_float_arg lc x) (whole (D lc) (65536 * zlen (D lc)))) -> own_printer df ls tag cat ov ->
  let t := D (lc_of (fun c => facet_for df ls c tag)) in
  shows df cn M ls (reading df tag cat ov (fun look => fast_float_arg (lc_of look) x)) (whole t (65536 * zlen t)).
Proof.
  intros HE HD HO. apply (C64_any df cn M ls tag cat ov _ (fun look => whole (D (lc_of look)) (65536 * zlen (D (lc_of look))))); [|intros k; apply HD|exact HO].
  intros k k' E. rewrite (HE k k' E). reflexivity.
Qed.
Lemma pick_text (Q : lettercase -> list Z -> Prop) : (forall lc, exists t, Q lc t) -> exists D, forall lc, Q lc (D lc).
Proof.
  intros H. destruct (H LLower) as [a Ha], (H LMixed) as [b Hb], (H LUpper) as [c Hc].
  exists (fun lc => match lc with LLower => a | LMixed => b | LUpper => c end). intros []; assumption.
Qed.
Theorem C64_double : forall get_default constrainable M ls tag cat ov lc_of b, reads_case lc_of -> own_printer get_default ls tag cat ov -> 0 <= b < 2 ^ 64 ->
  exists t, right_text binary64 63 (lc_of (fun c => facet_for get_default ls c tag)) b t /\
    shows get_default constrainable M ls (double_printable get_default lc_of tag cat ov b) (whole t (65536 * zlen t)).
Proof.
  intros df cn M ls tag cat ov lc_of b HE HO Hb. destruct (pick_text (fun lc t => right_text binary64 63 lc b t /\ forall M, arg_ok M (fast_float_arg lc (double_of_bits b)) (whole t (65536 * zlen t)))) as (D & HD).
  { intros lc. exact (double_right lc b Hb). }
  exists (D (lc_of (fun c => facet_for df ls c tag))). split; [apply HD|]. apply (float_like_shows df cn M ls tag cat ov lc_of _ D HE); [intros lc; apply HD|exact HO].
Qed.
Theorem C64_float : forall get_default constrainable M ls tag cat ov lc_of b, reads_case lc_of -> own_printer get_default ls tag cat ov -> 0 <= b < 2 ^ 32 ->
  exists t, right_text binary32 31 (lc_of (fun c => facet_for get_default ls c tag)) b t /\
    shows get_default constrainable M ls (float_printable get_default lc_of tag cat ov b) (whole t (65536 * zlen t)).
Proof.
  intros df cn M ls tag cat ov lc_of b HE HO Hb. destruct (pick_text (fun lc t => right_text binary32 31 lc b t /\ forall M, arg_ok M (fast_float_arg lc (float_of_bits b)) (whole t (65536 * zlen t)))) as (D & HD).
  { intros lc. exact (float_right lc b Hb). }
  exists (D (lc_of (fun c => facet_for df ls c tag))). split; [apply HD|]. apply (float_like_shows df cn M ls tag cat ov lc_of _ D HE); [intros lc; apply HD|exact HO].
Qed.
(* to_string(x), with any facets, reservations and order of evaluation: from the string, the value *)
Theorem C57_to_string : forall get_default constrainable qs cat' o order fs ls tag cat ov lc_of b,
  chain Rvalue (to_creator c_to_string) qs = Some (cat', o) -> (forall l, Permutation l (order l)) ->
  ls = flat_map leaves (flat_map with_facets qs ++ fs) ->
  reads_case lc_of -> own_printer get_default ls tag cat ov -> 0 <= b < 2 ^ 64 ->
  exists t, sy_print get_default constrainable o false order (map (AFpe false) fs ++ [APrintable (double_printable get_default lc_of tag cat ov b)]) = Some t /\
    right_text binary64 63 (lc_of (fun c => facet_for get_default ls c tag)) b t.
Proof.
  intros df cn qs cat' o order fs ls tag cat ov lc_of b HC Hord -> HE HO Hb.
  destruct (C64_double df cn None _ tag cat ov lc_of b HE HO Hb) as (t & HR & HS). exists t. split; [|exact HR].
  destruct (sy_print_ok df cn None c_to_string _ Rvalue qs cat' o false order (map (AFpe false) fs ++ map APrintable [double_printable df lc_of tag cat ov b]) fs [double_printable df lc_of tag cat ov b] [whole t (65536 * zlen t)] to_string_keeps HC) as (r & Hr & ->).
  - apply separate_ok. exists (repeat false (length fs)). split; [apply repeat_length|]. f_equal. clear. induction fs as [|f fs IH]; [reflexivity|]. cbn. rewrite <- IH. reflexivity.
  - exact Hord.
  - constructor; [exact HS|constructor].
  - cbn [map] in Hr. rewrite Hr. cbn [map concat d_text whole]. rewrite !app_nil_r. reflexivity.
Qed.
(* hence different finite values give different strings, whatever the options *)
Theorem C57_text_is_value : forall F k lc lc' b b' t, F = binary64 /\ k = 63 \/ F = binary32 /\ k = 31 ->
  0 <= b < 2 ^ (k + 1) -> 0 <= b' < 2 ^ (k + 1) -> b mod 2 ^ k < infinity_bits F -> b' mod 2 ^ k < infinity_bits F ->
  right_text F k lc b t -> right_text F k lc' b' t -> b = b'.
Proof.
  intros F k lc lc' b b' t HF Hb Hb' Hn Hn' (u & -> & H1 & _) (u' & EQ & H2 & _). cbv zeta in H1, H2.
  destruct (H1 Hn) as (N & q & E & R & V). destruct (H2 Hn') as (N' & q' & E' & R' & V').
  assert (Hk : 0 <= k) by lia. rewrite Z.pow_add_r in Hb, Hb' by lia. change (2 ^ 1) with 2 in *. assert (P : 0 < 2 ^ k) by (apply Z.pow_pos_nonneg; lia).
  assert (Q1 : 0 <= b / 2 ^ k < 2) by (split; [apply Z.div_pos; lia|apply Z.div_lt_upper_bound; lia]).
  assert (Q2 : 0 <= b' / 2 ^ k < 2) by (split; [apply Z.div_pos; lia|apply Z.div_lt_upper_bound; lia]).
  assert (ES : (b / 2 ^ k =? 1) = (b' / 2 ^ k =? 1)).
  { destruct (b / 2 ^ k =? 1), (b' / 2 ^ k =? 1); try reflexivity; cbn [app] in EQ.
    - rewrite <- EQ, read_minus in R'. discriminate.
    - rewrite EQ, read_minus in R. discriminate. }
  rewrite ES in EQ. apply app_inv_head in EQ. subst u'. rewrite R' in R. injection R as -> -> ->.
  assert (EN : b mod 2 ^ k = b' mod 2 ^ k). { destruct HF as [[EF _]|[EF _]]; (refine (rounds_unique F _ _ _ _ _ V V'); rewrite EF; cbn; lia). }
  pose proof (Z.div_mod b (2 ^ k) ltac:(lia)) as D1. pose proof (Z.div_mod b' (2 ^ k) ltac:(lia)) as D2.
  assert (EQ2 : b / 2 ^ k = b' / 2 ^ k). { clear - Q1 Q2 ES. revert Q1 Q2 ES. generalize (b / 2 ^ k) (b' / 2 ^ k). intros; lia. }
  rewrite EN, EQ2 in D1. rewrite <- D2 in D1. exact D1.
Qed.

(* ---- cases ---- *)
Definition ex_default (c : Z) : Z := 0.
Definition ex_lc (look : Z -> Z) : lettercase := if look 3 =? 1 then LUpper else LLower.
Example C64_double_ex : (* to_string.with(uppercase)(0.1, -inf) with the doubles' category 9 and tag 7 *)
  reads_case ex_lc /\ own_printer ex_default [mk_leaf [] 3 1] 7 9 false /\
  (exists cat o, chain Rvalue (to_creator c_to_string) [QWith [Facet 3 1]] = Some (cat, o) /\
     sy_print ex_default (fun _ => true) o false (fun l => l)
       [APrintable (double_printable ex_default ex_lc 7 9 false 0x3FB999999999999A); APrintable (double_printable ex_default ex_lc 7 9 false 0xFFF0000000000000)] =
     Some [48; 46; 49; 45; 73; 78; 70]).
Proof.
  split; [intros k k' E; unfold ex_lc; rewrite E; reflexivity|]. split; [left; reflexivity|]. eexists _, _. split; vm_compute; reflexivity.
Qed.
Example C64_string_ex : (* a UTF-8 string to a UTF-16 destination if the charset facet says so *)
  let w_of := fun _ : Z -> Z => StdWidth in let pol_of := fun _ : Z -> Z => SaniIfDifferent in let b_of := fun look : Z -> Z => if look 2 =? 1 then Utf U16 else Utf U8 in
  let t_of := fun look : Z -> Z => if look 2 =? 1 then [0xE9; 97] else [0xC3; 0xA9; 97] in
  segmented (Utf U8) [0xC3; 0xA9; 97] [(0xE9, [0xC3; 0xA9]); (97, [97])] /\
  (forall look, string_pre (w_of look) (Utf U8) (b_of look) None [0xC3; 0xA9; 97] /\ rendered (pol_of look) (Utf U8) (b_of look) [0xC3; 0xA9; 97] (t_of look) /\ zlen (t_of look) < ssize_max).
Proof.
  intros w_of pol_of b_of t_of.
  assert (HI : items (enc_of U8) false [0xC3; 0xA9; 97] [Good 0xE9; Good 97]).
  { apply (items_encode U8 false [0xE9; 97]); [discriminate|]. repeat (constructor; [split; [lia|right; reflexivity]|]). constructor. }
  split; [exists [Good 0xE9; Good 97]; split; [exact HI|reflexivity]|].
  intros look. unfold w_of, pol_of, b_of, t_of. destruct (look 2 =? 1); (split; [|split; [|vm_compute; reflexivity]]).
  1, 3: (split; [exact I|]; split; [exact I|]; split; [repeat constructor; cbn; lia|]; split; exact I).
  - cbn [rendered copied cset_same is_unsafe]. split; [discriminate|]. exists [0xE9; 97], [[0xE9]; [97]].
    split; [exists [Good 0xE9; Good 97]; split; [exact HI|reflexivity]|]. split; [|reflexivity]. repeat constructor.
  - reflexivity.
Qed.
Print Assumptions C64_any.
Print Assumptions C43_plain_string.
Print Assumptions C64_string.
Print Assumptions C64_aligned_string.
Print Assumptions C64_double.
Print Assumptions C64_float.
Print Assumptions C57_to_string.
Print Assumptions C57_text_is_value.
